(** base64Encode and base64Decode (base64.cpp:103-109 and 167-173) on heap Strings. The bytes come from B64Model.v, which is
    given the memory at string.cbegin(): what follows the String in its buffer can be read too, up to the first
    indeterminate byte (reading that one counts as out of bounds). The state is the number of malloc'ed blocks not yet
    freed, and the heap of Strings. [refuses]: malloc gives null; [junk]: what is in the memory it gives. *)
From Verif Require Import RcaSpec RcaModel RcaExec AlgModel StrSpec B64Model.
Open Scope Z_scope.

Section B64h.
Variable d : desc Z.
Variable junk : Z -> Z.
Variable charset : option chars.
Variable refuses : bool.
Notation Mh := (M (Z * state Z)).

Definition on_heap {A} (m : M (state Z) A) : Mh A := fun p =>
  match m (snd p) with
  | Ok v s => Ok v (fst p, s)
  | Exn e s => Exn e (fst p, s)
  | Term => Term | Fuel => Fuel | Undef u => Undef u
  end.
Fixpoint known (l : list (option Z)) : chars := match l with Some c :: l' => c :: known l' | _ => [] end.
(** cbegin(), ReferenceCountedArray.h:718-720 and 301-310, as the memory there. *)
Definition mem_at (x : positive) : M (state Z) chars :=
  let* o := get_obj x in
  match o_ref o with
  | None => ret []
  | Some l => let* c := get_cell l in ret (known (zdrop (o_off o) (c_buf c)))
  end.
Definition malloced : Mh unit := fun p => if refuses then Undef UbNull else Ok tt (fst p + 1, snd p).
Definition freed : Mh unit := fun p => Ok tt (fst p - 1, snd p).
(** Both: the call that gives [p] and its length, then String encoded(p, len); free(p). malloc(0 or more + 1) giving null is
    not noticed, and the NUL at least is written there (base64.cpp:118 and 163). *)
Definition recoded (work : chars -> Z -> M unit (Z * chars)) (r x : positive) : Mh unit :=
  let* len := on_heap (length_of x) in
  let* mem := on_heap (mem_at x) in
  malloced ;;;
  let* p := on_heap (pure (work mem len)) in
  on_heap (call d (CtorCstrLen r (snd p) (fst p))) ;;;
  freed.
Definition hencode : positive -> positive -> Mh unit := recoded (fun mem len => b64enc junk (Z.to_nat len) mem len charset).
Definition hdecode : positive -> positive -> Mh unit := recoded (fun mem len => b64dec junk (Z.to_nat len) mem len charset).
End B64h.
