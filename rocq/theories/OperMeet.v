(** What it means for an operator to do what is expected. *)
From Verif Require Import RcaSpec RcaModel RcaExec RcaRel RcaMeet.
Open Scope Z_scope.

Section Meet.
Context {T : Type} (d : desc T).
(** [m] returns [v] and leaves exactly the values [a']; it never fails. *)
Definition gives {A} (m : M (state T) A) (s : state T) (a' : astate T) (v : A) : Prop :=
  exists s', m s = Ok v s' /\ reached d s' a' /\ shows s' a'.
(** [m] returns [v] and leaves exactly the values [a'], or throws bad_alloc, which it does only if memory
    for [k] elements can be refused, and leaves exactly the values [af], for some [af] with [F]. *)
Definition makes {A} (k : Z) (F : astate T -> Prop) (m : M (state T) A) (s : state T) (a' : astate T) (v : A) : Prop :=
  match m s with
  | Ok v' s' => v' = v /\ reached d s' a' /\ shows s' a'
  | Exn e s' => e = BadAlloc /\ no_memory d k /\ exists af, F af /\ reached d s' af /\ shows s' af
  | Term | Fuel | Undef _ => False
  end.
End Meet.
