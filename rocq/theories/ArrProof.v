(** Proofs about Array comparisons. *)
From Verif Require Import Base RcaSpec RcaModel RcaExec RcaInv RcaOwn RcaRel RcaRel2 RcaMeet RcaMain RcaReach ArrSpec ArrModel.
From Coq Require Import ZifyBool.
Open Scope Z_scope.

Section Proof.
Context {T : Type} (d : desc T).
Notation eqb := (d_eqb d).
Implicit Types (s : state T) (a : astate T).
Variables (s : state T) (a : astate T) (x y : var) (r r' : bool) (es fs : list T).
Hypothesis Hwf : wf_desc d.
Hypothesis Hre : reached d s a.
Hypothesis Hx : a !! x = Some (AVal r (map Some es)).
Hypothesis Hy : a !! y = Some (AVal r' (map Some fs)).

Definition agreeb (k : Z) : Prop := agree_below eqb k es fs.
Lemma read_x i e : znth i es = Some e -> read x i s = Ok e s.
Proof. intros Z. apply (reached_shows d s a Hwf Hre x r _ Hx). rewrite znth_map, Z. reflexivity. Qed.
Lemma read_y i e : znth i fs = Some e -> read y i s = Ok e s.
Proof. intros Z. apply (reached_shows d s a Hwf Hre y r' _ Hy). rewrite znth_map, Z. reflexivity. Qed.
Lemma loop_ok fuel : forall i len, 0 <= i -> len <= zlen es -> len <= zlen fs -> len - i <= Z.of_nat fuel ->
  exists b, eq_loop d fuel x y i len s = Ok b s /\
  (b = true <-> forall j e f, i <= j < len -> znth j es = Some e -> znth j fs = Some f -> eqb e f = true).
Proof.
  induction fuel as [|fuel IH]; intros i len I L1 L2 F; cbn [eq_loop]; destruct (len <=? i) eqn:E; try lia.
  1,2: eexists; (split; [reflexivity|]); split; [intros _ j e f J; lia|reflexivity].
  destruct (znth_some i es) as [e Ze]; [lia|]. destruct (znth_some i fs) as [f Zf]; [lia|].
  unfold bind. rewrite (read_x _ _ Ze), (read_y _ _ Zf). destruct (eqb e f) eqn:Q.
  - destruct (IH (i + 1) len) as (b & Eb & Hb); [lia|lia|lia|lia|]. exists b. split; [exact Eb|]. rewrite Hb. split.
    + intros A j e' f' J Ze' Zf'. destruct (Z.eq_dec j i) as [->|N]; [congruence|]. apply (A j); [lia|assumption..].
    + intros A j e' f' J. apply A. lia.
  - eexists. split; [reflexivity|]. split; [discriminate|]. intros A. rewrite <- Q. apply (A i e f); [lia|assumption..].
Qed.
Lemma held_x : exists o, held d s x o r (map Some es). Proof. apply (R_held d _ a); [apply reached_R; assumption|exact Hx]. Qed.
Lemma held_y : exists o, held d s y o r' (map Some fs). Proof. apply (R_held d _ a); [apply reached_R; assumption|exact Hy]. Qed.
(** Same address and length: same elements. *)
Lemma same_contents coin o1 o2 : held d s x o1 r (map Some es) -> held d s y o2 r' (map Some fs) ->
  same_address coin o1 o2 = true -> zlen es = zlen fs -> es = fs.
Proof.
  intros H1 H2 S L. pose proof (reached_R d s a Hwf Hre) as HR.
  destruct (Z.eq_dec (zlen es) 0) as [Z|NZ].
  { rewrite (zlen_0_nil es Z). symmetry. apply zlen_0_nil. lia. }
  pose proof (hd_len _ _ _ _ _ _ H1) as L1. pose proof (hd_len _ _ _ _ _ _ H2) as L2. rewrite zlen_map in L1, L2.
  apply zlist_ext_opt. intros i.
  destruct (Z.leb 0 i && (i <? zlen es)) eqn:B.
  2: { destruct (Z.lt_ge_cases i 0); [rewrite !znth_neg by lia; reflexivity|rewrite !znth_ge by lia; reflexivity]. }
  destruct (znth_some i es) as [e Ze]; [lia|]. destruct (znth_some i fs) as [f Zf]; [lia|].
  pose proof (read_x _ _ Ze) as Rx. pose proof (read_y _ _ Zf) as Ry.
  assert (read x i s = read y i s) as RR.
  { unfold read, load1, load, bind, get_obj. destruct (1 <=? 0) eqn:X; [lia|].
    rewrite (hd_env _ _ _ _ _ _ H1), (hd_env _ _ _ _ _ _ H2). unfold same_address in S.
    destruct (o_ref o1) as [l1|], (o_ref o2) as [l2|]; try (exfalso; lia); [|reflexivity].
    destruct (Pos.eqb l1 l2) eqn:P; [|exfalso; lia]. apply Pos.eqb_eq in P. subst l2.
    assert (o_off o1 = o_off o2) as -> by lia. reflexivity. }
  rewrite Rx, Ry in RR. injection RR as ->. congruence.
Qed.
Lemma equals_n coin n : 0 <= n -> selfeq eqb es -> exists b, arr_equals_n d coin x y n s = Ok b s /\ (b = true <-> equal_upto eqb n es fs).
Proof.
  intros N Sf. destruct held_x as [o1 H1]. destruct held_y as [o2 H2].
  unfold arr_equals_n, bind, get_obj. rewrite (hd_env _ _ _ _ _ _ H1), (hd_env _ _ _ _ _ _ H2).
  pose proof (hd_len _ _ _ _ _ _ H1) as L1. pose proof (hd_len _ _ _ _ _ _ H2) as L2. rewrite zlen_map in L1, L2.
  rewrite L1, L2. destruct (zlen es =? zlen fs) eqn:L; cbn [negb].
  - assert (zlen es = zlen fs) as L' by lia. rewrite andb_true_r. destruct (same_address coin o1 o2) eqn:S.
    + eexists. split; [reflexivity|]. split; [intros _|reflexivity]. split; [exact L'|].
      rewrite <- (same_contents coin o1 o2 H1 H2 S L'). intros i e f _ Ze Zf. assert (e = f) as <- by congruence. apply (Sf i). exact Ze.
    + destruct (loop_ok (Z.to_nat (Z.min (zlen es) (Z.min (zlen fs) n))) 0 (Z.min (zlen es) (Z.min (zlen fs) n))) as (b & Eb & Hb); [lia..|].
      exists b. split; [exact Eb|]. rewrite Hb. unfold equal_upto, agree_below. split.
      * intros A. split; [exact L'|]. intros i e f I Ze Zf. pose proof (znth_inv _ _ _ Ze). apply (A i e f); [lia|assumption..].
      * intros [_ A] j e f J. apply A. lia.
  - rewrite andb_false_r. eexists. split; [reflexivity|]. split; [discriminate|]. intros [L' _]. lia.
Qed.
Lemma equal_all_upto v w : equal_all eqb v w <-> equal_upto eqb (zlen w) v w.
Proof.
  unfold equal_all, equal_upto, agree_below. split; intros [L A]; (split; [exact L|]).
  - intros i e f _. apply A.
  - intros i e f Ze Zf. apply (A i); [|assumption..]. apply (znth_inv _ _ _ Zf).
Qed.
Lemma len_x : length_of x s = Ok (zlen es) s.
Proof. rewrite <- (zlen_map Some es). apply (reached_shows d s a Hwf Hre x r _ Hx). Qed.
Lemma len_y : length_of y s = Ok (zlen fs) s.
Proof. rewrite <- (zlen_map Some fs). apply (reached_shows d s a Hwf Hre y r' _ Hy). Qed.
Lemma equals_all coin : selfeq eqb es -> exists b, arr_equals d coin x y s = Ok b s /\ (b = true <-> equal_all eqb es fs).
Proof.
  intros Sf. unfold arr_equals, bind. rewrite len_y.
  destruct (equals_n coin (zlen fs) (zlen_nonneg fs) Sf) as (b & E & Hb). exists b. split; [exact E|]. rewrite equal_all_upto. exact Hb.
Qed.
Lemma eq_ok coin : selfeq eqb es -> exists b, arr_eq d coin x y s = Ok b s /\ (b = true <-> equal_all eqb es fs).
Proof.
  intros Sf. unfold arr_eq, bind. rewrite len_x, len_y. destruct (zlen es =? zlen fs) eqn:E; [apply equals_all, Sf|].
  eexists. split; [reflexivity|]. split; [discriminate|]. intros [L _]. lia.
Qed.
Lemma ne_ok coin : selfeq eqb es -> exists b, arr_ne d coin x y s = Ok b s /\ (b = false <-> equal_all eqb es fs).
Proof.
  intros Sf. destruct (eq_ok coin Sf) as (b & E & Hb). exists (negb b). unfold arr_ne, bind. rewrite E. split; [reflexivity|].
  rewrite <- Hb. destruct b; split; auto; discriminate.
Qed.
(** Whatever the elements: the answer is that of the elements, or the arrays are one and the same range. *)
Lemma shortcut coin n : 0 <= n -> exists b, arr_equals_n d coin x y n s = Ok b s /\
  ((b = true <-> equal_upto eqb n es fs) \/ (b = true /\ es = fs)).
Proof.
  intros N. destruct held_x as [o1 H1]. destruct held_y as [o2 H2].
  unfold arr_equals_n, bind, get_obj. rewrite (hd_env _ _ _ _ _ _ H1), (hd_env _ _ _ _ _ _ H2).
  pose proof (hd_len _ _ _ _ _ _ H1) as L1. pose proof (hd_len _ _ _ _ _ _ H2) as L2. rewrite zlen_map in L1, L2.
  rewrite L1, L2. destruct (zlen es =? zlen fs) eqn:L; cbn [negb].
  - assert (zlen es = zlen fs) as L' by lia. rewrite andb_true_r. destruct (same_address coin o1 o2) eqn:S.
    + eexists. split; [reflexivity|]. right. split; [reflexivity|]. exact (same_contents coin o1 o2 H1 H2 S L').
    + destruct (loop_ok (Z.to_nat (Z.min (zlen es) (Z.min (zlen fs) n))) 0 (Z.min (zlen es) (Z.min (zlen fs) n))) as (b & Eb & Hb); [lia..|].
      exists b. split; [exact Eb|]. left. rewrite Hb. unfold equal_upto, agree_below. split.
      * intros A. split; [exact L'|]. intros i e f I Ze Zf. pose proof (znth_inv _ _ _ Ze). apply (A i e f); [lia|assumption..].
      * intros [_ A] j e f J. apply A. lia.
  - rewrite andb_false_r. eexists. split; [reflexivity|]. left. split; [discriminate|]. intros [L' _]. lia.
Qed.
End Proof.
