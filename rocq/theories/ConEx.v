(** Two threads whose objects share a buffer. *)
From Verif Require Import Base ZList ConModel ConSpec ConProof.
From stdpp Require Import gmap.
Open Scope Z_scope.

(** Each has an object 0 on the buffer of [v], with its part of it. *)
Definition parts2 (v : list Z) (n1 n2 : Z * Z) (q1 q2 : list cop) : config :=
  Config (Mem (<[0 := CCell 2 (v ++ [0])]> ∅) 1 []) [Thread (<[0 := Some (0, n1)]> ∅) Idle q1 []; Thread (<[0 := Some (0, n2)]> ∅) Idle q2 []].
Definition shared2 (v : list Z) (q1 q2 : list cop) : config := parts2 v (0, zlen v) (0, zlen v) q1 q2.
Definition part (v : list Z) (n : Z * Z) : private := Private (<[0 := Some (zsub (fst n) (snd n) v, (false, fst n + snd n =? zlen v))]> ∅) [].
Definition own2 (v : list Z) : list private := [part v (0, zlen v); part v (0, zlen v)].
Definition within (n : Z * Z) (v : list Z) : Prop := 0 <= fst n /\ 0 <= snd n /\ fst n + snd n <= zlen v.
Lemma part_shows v n : within n v -> shows (<[0 := CCell 2 (v ++ [0])]> ∅) (<[0 := Some (0, n)]> ∅) (p_vals (part v n)).
Proof.
  intros (A & B & C) x. cbn [part p_vals]. destruct (decide (x = 0)) as [->|N]; [|rewrite !lookup_insert_ne by congruence; exact I].
  rewrite !lookup_insert. exists (CCell 2 (v ++ [0])). split; [reflexivity|]. split; [|split; [|split; [discriminate|]]].
  - unfold inside. cbn [k_elems]. rewrite zlen_app. change (zlen [0]) with 1. lia.
  - unfold text_in. cbn [k_elems]. rewrite zsub_app_l by lia. reflexivity.
  - cbn [snd]. intros E. apply Z.eqb_eq in E. unfold ended. cbn [k_elems]. rewrite E, znth_app, Z.ltb_irrefl, Z.sub_diag. reflexivity.
Qed.
Lemma parts2_rest v n1 n2 q1 q2 : within n1 v -> within n2 v -> at_rest (parts2 v n1 n2 q1 q2) [part v n1; part v n2].
Proof.
  intros W1 W2. split.
  - repeat constructor; cbn; apply part_shows; assumption.
  - cbn [parts2 g_mem m_heap g_threads]. intros l k E. apply lookup_insert_Some in E as [[<- <-]|[_ E]]; [|rewrite lookup_empty in E; discriminate]. cbn [sum_of t_env k_refs].
    assert (forall n, objects 0 (<[0 := Some (0, n)]> ∅) = 1) as O by (intros n; rewrite objects_fresh by apply lookup_empty; rewrite objects_empty; reflexivity). rewrite !O. lia.
  - cbn [parts2 g_mem m_heap m_next]. intros l L. rewrite lookup_insert_ne by lia. apply lookup_empty.
Qed.
Lemma shared2_rest v q1 q2 : at_rest (shared2 v q1 q2) (own2 v).
Proof. pose proof (zlen_nonneg v). apply parts2_rest; unfold within; cbn; lia. Qed.
