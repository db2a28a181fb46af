(** What comparing arrays means. *)
From Verif Require Import Base.
Open Scope Z_scope.
Section Spec.
Context {T : Type} (eqb : T -> T -> bool).
(** Equal element by element below position [n]. *)
Definition agree_below (n : Z) (v w : list T) : Prop :=
  forall i e f, 0 <= i < n -> znth i v = Some e -> znth i w = Some f -> eqb e f = true.
(** Same length and equal below [n]. *)
Definition equal_upto (n : Z) (v w : list T) : Prop := zlen v = zlen w /\ agree_below n v w.
Definition equal_all (v w : list T) : Prop := zlen v = zlen w /\ forall i e f, znth i v = Some e -> znth i w = Some f -> eqb e f = true.
(** Every element equals itself (not so for the NaN of double). *)
Definition selfeq (v : list T) : Prop := forall i e, znth i v = Some e -> eqb e e = true.
End Spec.
