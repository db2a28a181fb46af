(** Vocabulary for C65. *)
From stdpp Require Import gmap.
From Verif Require Import RcaSpec RcaModel RcaMeet.
Open Scope Z_scope.

(** Fewer than 2^31 - 1 objects share any one buffer. *)
Definition few_sharers {T} (s : state T) : Prop := forall x n, rcount x s = Ok n s -> n < 2147483647.
(** [n] copies of variable 1, in [i], [i+1], ... *)
Fixpoint copies {T} (i : positive) (n : nat) : list (op T) :=
  match n with O => [] | S m => CtorCopy i 1 :: copies (Pos.succ i) m end.
