(** What it means for reading and writing without mmap to do what is expected. *)
From Verif Require Import RcaSpec RcaModel RcaExec RcaRel RcaMeet StreamSpec StreamModel StreamMeet StdioSpec StdioModel.
Open Scope Z_scope.

(** Outcomes of a call that also opens and closes descriptors. *)
Definition kwp {A} (m : MK A) (P : A -> state Z * stream -> Z -> Prop) (Q : exn -> state Z * stream -> Z -> Prop) (st : state Z * stream) (n : Z) : Prop :=
  match m (st, n) with
  | Ok v (st', n') => P v st' n'
  | Exn e (st', n') => Q e st' n'
  | _ => False
  end.
Section Meet.
Variable d : desc Z.
Variables x t : positive.
(** The stream holds [v] with the cursor at [p]; every other String is as in [a]. *)
Definition holds_now (a : astate Z) (v : list Z) (p : Z) (st : state Z * stream) : Prop :=
  exists a', SR d x t (fst st) (snd st) v p a' /\ keeps x a a'.
(** What is left when memory runs out: nothing, or some of the blocks. *)
Definition some_blocks (l v : list Z) : Prop := v = [] \/ exists k, 0 <= k /\ v = ztake (1024 * k) l.
End Meet.
