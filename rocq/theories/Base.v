(** Machine integers and outcomes of modelled C++ functions. *)
From Verif Require Export ZList.
Open Scope Z_scope.

(** LP64: size_t is 64 bit unsigned, ssize_t 64 bit signed, int 32 bit signed. *)
Definition W64 : Z := 18446744073709551616.
Definition W63 : Z := 9223372036854775808.
Definition W32 : Z := 4294967296.
Definition W31 : Z := 2147483648.
Definition npos : Z := 18446744073709551615. (* ReferenceCountedArray.h:216, size_t(-1) *)

(** Conversion to size_t / unsigned arithmetic result. *)
Definition u64 (z : Z) : Z := z mod W64.
(** Conversion to ssize_t (two's complement). *)
Definition s64 (z : Z) : Z := (z + W63) mod W64 - W63.
(** Conversion to int (two's complement). *)
Definition i32 (z : Z) : Z := (z + W31) mod W32 - W31.
Definition fits_s64 (z : Z) : bool := (- W63 <=? z) && (z <? W63).
Definition fits_i32 (z : Z) : bool := (- W31 <=? z) && (z <? W31).

(** Largest object size: PTRDIFF_MAX. *)
Definition max_alloc : Z := 9223372036854775807.

Inductive exn := OutOfRange | BadAlloc.
Inductive ub :=
| UbDeadVar   (* object used outside its lifetime *)
| UbNull      (* null pointer access *)
| UbFreed     (* access to released memory *)
| UbBounds    (* access outside an allocated buffer *)
| UbIndet     (* use of an indeterminate or moved-from element value *)
| UbOverflow  (* signed overflow *)
| UbRaw       (* assignment to raw, never constructed, class memory *)
| UbOverlap   (* memcpy between overlapping ranges *)
| Asserted.   (* not undefined, but as final: an assertion fails, in a build that checks them *)

(** Outcome of a modelled function started in some state. *)
Inductive res (S A : Type) :=
| Ok (a : A) (s : S)        (* returned normally *)
| Exn (e : exn) (s : S)     (* threw; [s] is the state left behind *)
| Term                      (* std::terminate (exception out of a noexcept function) *)
| Fuel                      (* modelled loop ran out of fuel *)
| Undef (u : ub).           (* undefined behaviour *)
Arguments Ok {S A}. Arguments Exn {S A}. Arguments Term {S A}. Arguments Fuel {S A}. Arguments Undef {S A}.

Definition M (S A : Type) := S -> res S A.
Definition ret {S A} (a : A) : M S A := fun s => Ok a s.
Definition bind {S A B} (m : M S A) (k : A -> M S B) : M S B := fun s =>
  match m s with
  | Ok a s' => k a s'
  | Exn e s' => Exn e s'
  | Term => Term
  | Fuel => Fuel
  | Undef u => Undef u
  end.
Definition throw {S A} (e : exn) : M S A := fun s => Exn e s.
Definition undef {S A} (u : ub) : M S A := fun _ => Undef u.
(** A noexcept function: an escaping exception terminates the program. *)
Definition noexcept {S A} (m : M S A) : M S A := fun s =>
  match m s with Exn _ _ => Term | r => r end.

Notation "'let*' x ':=' m 'in' k" := (bind m (fun x => k))
  (at level 200, x pattern, right associativity).
Notation "m ;;; k" := (bind m (fun _ => k)) (at level 190, right associativity).

Lemma u64_id z : 0 <= z < W64 -> u64 z = z.
Proof. intros; unfold u64; apply Z.mod_small; assumption. Qed.
Lemma u64_range z : 0 <= u64 z < W64.
Proof. unfold u64; apply Z.mod_pos_bound; reflexivity. Qed.
Lemma s64_id z : - W63 <= z < W63 -> s64 z = z.
Proof. intros; unfold s64; rewrite Z.mod_small; unfold W63, W64 in *; lia. Qed.
Lemma i32_id z : - W31 <= z < W31 -> i32 z = z.
Proof. intros; unfold i32; rewrite Z.mod_small; unfold W31, W32 in *; lia. Qed.
