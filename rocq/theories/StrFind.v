(** Substring search returns the first or last occurrence. *)
From Coq Require Import Lia.
From Verif Require Import Base RcaSpec StrModel StrSpec StrCmp.
Open Scope Z_scope.

Lemma is_prefix_spec p : forall l, is_prefix p l = true <-> prefix_of p l.
Proof.
  induction p as [|x p IH]; intros l.
  - split; [intros _; exists l; reflexivity|reflexivity].
  - destruct l as [|y l]; cbn.
    + split; [discriminate|intros (r & E); discriminate].
    + rewrite andb_true_iff, IH, Z.eqb_eq. split.
      * intros [-> (r & ->)]. exists r. reflexivity.
      * intros (r & E). injection E as -> ->. split; [reflexivity|exists r; reflexivity].
Qed.
Lemma occurs_zdrop w s i : occurs w s i <-> 0 <= i <= zlen s /\ prefix_of w (zdrop i s).
Proof.
  split.
  - intros (pre & post & -> & <-). rewrite zlen_app. zl. split; [lia|]. rewrite zdrop_app_exact. exists post. reflexivity.
  - intros [H (r & E)]. exists (ztake i s), r. rewrite <- E, ztake_zdrop. split; [reflexivity|]. rewrite zlen_ztake. lia.
Qed.
Lemma occurs_range w s i : occurs w s i -> 0 <= i /\ i + zlen w <= zlen s.
Proof. intros (pre & post & -> & <-). rewrite !zlen_app. zl. lia. Qed.
Lemma occurs_0 w s : occurs w s 0 <-> prefix_of w s.
Proof. rewrite occurs_zdrop, zdrop_0 by lia. pose proof (zlen_nonneg s). intuition lia. Qed.
Lemma occurs_cons w x s i : 0 <= i -> occurs w (x :: s) (Z.succ i) <-> occurs w s i.
Proof.
  intros Hi. rewrite !occurs_zdrop. rewrite zlen_cons, zdrop_cons by lia.
  replace (Z.succ i - 1) with i by lia. split; intros [H P]; split; auto; lia.
Qed.
Lemma occurs_drop w s p i : 0 <= p <= zlen s -> occurs w (zdrop p s) i <-> 0 <= i /\ occurs w s (p + i).
Proof.
  intros Hp. rewrite !occurs_zdrop, zlen_zdrop. zl.
  assert (0 <= i -> zdrop i (zdrop p s) = zdrop (p + i) s) as E.
  { intros Hi. unfold zdrop. rewrite drop_drop. f_equal. lia. }
  split.
  - intros [H P]. rewrite E in P by lia. split; [lia|]. split; [lia|exact P].
  - intros [Hi [H P]]. rewrite E by lia. split; [lia|exact P].
Qed.
Lemma first_occ_unique w s i j : first_occ w s i -> first_occ w s j -> i = j.
Proof. intros [A B] [C D]. specialize (B _ C). specialize (D _ A). lia. Qed.

Lemma memmem_spec w : forall s,
  match memmem s w with Some i => first_occ w s i | None => no_occ w s end.
Proof.
  induction s as [|x s IH]; cbn.
  - destruct (is_prefix w []) eqn:P.
    + apply is_prefix_spec in P. split; [apply occurs_0; exact P|]. intros j H. apply occurs_range in H. lia.
    + intros j H. pose proof (occurs_range _ _ _ H) as R. rewrite zlen_nil in R. zl. assert (j = 0) as -> by lia.
      apply occurs_0, is_prefix_spec in H. congruence.
  - destruct (is_prefix w (x :: s)) eqn:P.
    + apply is_prefix_spec in P. split; [apply occurs_0; exact P|]. intros j H. apply occurs_range in H. lia.
    + assert (forall j, occurs w (x :: s) j -> 0 < j) as Pos.
      { intros j H. pose proof (occurs_range _ _ _ H). destruct (Z.eq_dec j 0) as [->|]; [|lia].
        apply occurs_0, is_prefix_spec in H. congruence. }
      destruct (memmem s w) as [i|]; cbn.
      * destruct IH as [O F]. pose proof (occurs_range _ _ _ O). split; [apply occurs_cons; [lia|exact O]|].
        intros j H'. pose proof (Pos _ H'). replace j with (Z.succ (j - 1)) in H' by lia. apply (proj1 (occurs_cons w x s (j - 1) ltac:(lia))) in H'.
        specialize (F _ H'). lia.
      * intros j H. pose proof (Pos _ H). replace j with (Z.succ (j - 1)) in H by lia. apply (proj1 (occurs_cons w x s (j - 1) ltac:(lia))) in H.
        exact (IH _ H).
Qed.

(** What a search result means. *)
Definition found_first (w s : chars) (r : Z) : Prop := (r = npos /\ no_occ w s) \/ (0 <= r <= zlen s /\ first_occ w s r).
Lemma or_npos_found w s : found_first w s (or_npos (memmem s w)).
Proof.
  pose proof (memmem_spec w s) as H. destruct (memmem s w) as [i|]; cbn.
  - right. split; [|exact H]. destruct H as [H _]. apply occurs_range in H. zl. lia.
  - left. auto.
Qed.
Lemma find__spec s w pos : zlen s < W63 -> 0 <= pos <= zlen s -> w <> [] ->
  find_ s w pos tt = Ok (or_npos (memmem (zdrop pos s) w)) tt.
Proof.
  intros L H N. unfold find_. zl. destruct (Z.eqb_spec (zlen w) 0) as [E|E]; [apply zlen_0_nil in E; contradiction|].
  cbv zeta. rewrite u64_id by (unfold W63, W64 in *; lia).
  replace (_ <=? _) with true by lia. reflexivity.
Qed.
Lemma find_spec s w : zlen s < W63 -> w <> [] -> exists r, find s w tt = Ok r tt /\ found_first w s r.
Proof.
  intros L N. eexists; split; [apply find__spec; auto; zl; lia|]. rewrite zdrop_0 by lia. apply or_npos_found.
Qed.
Lemma find_at_spec s w pos : zlen s < W63 -> w <> [] -> 0 <= pos <= zlen s ->
  exists r, find_at s w pos tt = Ok r tt /\ found_first w (zdrop pos s) r.
Proof.
  intros L N H. exists (or_npos (memmem (zdrop pos s) w)). split; [|apply or_npos_found].
  unfold find_at. destruct (Z.eqb_spec pos 0); cbn.
  - unfold bind; cbn. apply find__spec; auto.
  - rewrite u64_id by (unfold W63, W64 in *; lia). replace (zlen s <=? pos - 1) with false by lia.
    unfold bind; cbn. apply find__spec; auto.
Qed.
Lemma find_at_throws s w pos : zlen s < pos < W64 -> find_at s w pos tt = Exn OutOfRange tt.
Proof.
  intros H. zl. unfold find_at. destruct (Z.eqb_spec pos 0); [lia|]. rewrite u64_id by lia.
  replace (zlen s <=? pos - 1) with true by lia. reflexivity.
Qed.
Lemma find_empty s pos : find_ s [] pos tt = Ok 0 tt.
Proof. reflexivity. Qed.

Section Mem.
Variable mdiff : Z -> Z -> Z.
Hypothesis Hm : memcmp_ok mdiff.
Lemma first_diff_zero a : forall b, bytes a -> bytes b -> length a = length b -> (first_diff mdiff a b = 0 <-> a = b).
Proof.
  intros b Ba Bb L. pose proof (first_diff_sign mdiff Hm a b Ba Bb L) as F. unfold has_sign in F. split.
  - intros E. rewrite E in F. apply lexcmp_eq. symmetry. exact F.
  - intros <-. rewrite lexcmp_refl in F. apply Z.compare_eq_iff in F. exact F.
Qed.
Lemma bytes_zdrop n a : bytes a -> bytes (zdrop n a).
Proof.
  unfold bytes, zdrop. intros H. revert a H. induction (Z.to_nat n) as [|m IH]; intros [|x a] H; cbn; auto. inversion H; auto.
Qed.
Lemma memcmp_occurs s w i : bytes s -> bytes w -> 0 <= i -> i + zlen w <= zlen s ->
  exists d, memcmp mdiff (zdrop i s) w (zlen w) tt = Ok d tt /\ (d = 0 <-> occurs w s i).
Proof.
  intros Bs Bw Hi H. zl. unfold memcmp. rewrite zlen_zdrop.
  replace (_ && _) with true by (symmetry; apply andb_true_intro; lia).
  eexists; split; [reflexivity|]. rewrite (ztake_all (zlen w) w) by lia.
  assert (zlen (ztake (zlen w) (zdrop i s)) = zlen w) as Lt by (rewrite zlen_ztake, zlen_zdrop; lia).
  rewrite first_diff_zero; [| |assumption|].
  - rewrite occurs_zdrop. split.
    + intros E. split; [lia|]. exists (zdrop (zlen w) (zdrop i s)). rewrite <- E at 1. rewrite ztake_zdrop. reflexivity.
    + intros [_ (r & E)]. rewrite E. apply ztake_app_exact.
  - apply bytes_ztake, bytes_zdrop; assumption.
  - apply Nat2Z.inj. exact Lt.
Qed.
Lemma occurs_head c w s i : occurs (c :: w) s i -> znth i s = Some c.
Proof. intros (pre & post & -> & <-). rewrite znth_app. replace (_ <? _) with false by lia. rewrite Z.sub_diag. reflexivity. Qed.
(** The test both loops make at one position. *)
Lemma probe s c w' i : let w := c :: w' in
  bytes s -> bytes w -> 0 <= i -> i + zlen w <= zlen s ->
  exists ci d, rd s i tt = Ok ci tt /\ memcmp mdiff (zdrop i s) w (zlen w) tt = Ok d tt /\
    (if c =? ci then d =? 0 else false) = (if is_prefix w (zdrop i s) then true else false) /\
    ((if c =? ci then d =? 0 else false) = true <-> occurs w s i).
Proof.
  intros w Bs Bw Hi H. destruct (memcmp_occurs s w i Bs Bw Hi H) as (d & D1 & D2).
  assert (0 < zlen w) by (subst w; rewrite zlen_cons; zl; lia).
  destruct (znth_some i s) as (ci & Hc); [lia|]. exists ci, d. unfold rd. rewrite Hc.
  split; [reflexivity|]. split; [exact D1|].
  assert ((if c =? ci then d =? 0 else false) = true <-> occurs w s i) as Q.
  { destruct (Z.eqb_spec c ci) as [->|N].
    - rewrite Z.eqb_eq. exact D2.
    - split; [discriminate|]. intros O. apply occurs_head in O. congruence. }
  split; [|exact Q]. destruct (is_prefix w (zdrop i s)) eqn:P.
  - apply Q. apply occurs_zdrop. split; [lia|]. apply is_prefix_spec; exact P.
  - destruct (if c =? ci then d =? 0 else false); [|reflexivity].
    assert (occurs w s i) as O by (apply Q; reflexivity). apply occurs_zdrop in O as [_ O]. apply is_prefix_spec in O. congruence.
Qed.

Definition found_last (w s : chars) (lo r : Z) : Prop :=
  (r = npos /\ forall j, occurs w s j -> j < lo) \/ (0 <= r <= zlen s /\ last_occ w s lo r).
Lemma rfind_loop_spec s c w' lo : let w := c :: w' in bytes s -> bytes w -> 0 <= lo < W64 -> zlen s < W63 ->
  forall fuel pos, -1 <= pos -> pos + zlen w <= zlen s -> (Z.to_nat (pos + 1) < fuel)%nat ->
  (forall j, occurs w s j -> lo <= j -> j <= pos) ->
  exists r, rfind_loop mdiff fuel s w lo (u64 pos) tt = Ok r tt /\ found_last w s lo r.
Proof.
  intros w Bs Bw Hlo L. induction fuel as [|f IH]; intros pos Hp Hq Hf Inv; [lia|]. cbn [rfind_loop].
  assert (u64 (u64 pos + 1) = pos + 1) as E.
  { unfold u64, W63, W64 in *. subst w; rewrite zlen_cons in Hq; zl.
    destruct (Z.eq_dec pos (-1)) as [->|]; [reflexivity|]. rewrite (Z.mod_small pos) by lia. apply Z.mod_small. lia. }
  rewrite E. destruct (Z.ltb_spec lo (pos + 1)) as [C|C]; cbn [negb].
  - rewrite (u64_id pos) by (unfold W63, W64 in *; subst w; rewrite zlen_cons in Hq; zl; lia).
    destruct (probe s c w' pos Bs Bw) as (ci & d & R & D & _ & Q); [lia|exact Hq|]. fold w in D, Q.
    unfold bind at 1. unfold rd at 1. cbn [znth w Z.ltb]. change (znth 0 w) with (Some c). cbn [ret].
    unfold bind at 1. rewrite R.
    replace (Z.min (zlen w) (u64 (zlen s - pos))) with (zlen w)
      by (rewrite u64_id by (unfold W63, W64 in *; zl; lia); lia).
    assert ((if c =? ci then let* d0 := memcmp mdiff (zdrop pos s) w (zlen w) in ret (d0 =? 0) else ret false) tt =
            Ok (if c =? ci then d =? 0 else false) tt) as T.
    { destruct (c =? ci); [|reflexivity]. unfold bind. rewrite D. reflexivity. }
    unfold bind at 1. rewrite T. destruct (if c =? ci then d =? 0 else false) eqn:B.
    + exists pos. split; [reflexivity|]. right. split; [zl; lia|]. split; [apply Q; reflexivity|]. split; [lia|exact Inv].
    + apply IH; try lia. intros j O Hj. specialize (Inv _ O Hj).
      assert (j <> pos) by (intros ->; apply Q in O; congruence). lia.
  - exists npos. split; [reflexivity|]. left. split; [reflexivity|]. intros j O.
    destruct (Z.lt_ge_cases j lo) as [|G]; [lia|]. specialize (Inv _ O G). lia.
Qed.
Lemma rfind_spec s w lo : bytes s -> bytes w -> w <> [] -> 0 <= lo < W64 -> zlen s < W63 ->
  exists r, rfind mdiff s w lo tt = Ok r tt /\ found_last w s lo r.
Proof.
  intros Bs Bw N Hlo L. destruct w as [|c w']; [contradiction|]. unfold rfind.
  assert (0 < zlen (c :: w')) by (rewrite zlen_cons; zl; lia).
  replace (zlen (c :: w') =? 0) with false by lia.
  destruct (Z.leb_spec (zlen (c :: w')) (zlen s)).
  - rewrite <- (u64_id (zlen s - zlen (c :: w'))) by (unfold W63, W64 in *; lia).
    apply (rfind_loop_spec s c w' lo Bs Bw Hlo L); try lia.
    + unfold zlen in *. lia.
    + intros j O _. apply occurs_range in O. lia.
  - exists npos. split; [reflexivity|]. left. split; [reflexivity|]. intros j O. apply occurs_range in O. zl. lia.
Qed.

(** The loop used without memmem: right from position 0. *)
Lemma find_fallback_loop_spec s c w' : let w := c :: w' in bytes s -> bytes w -> zlen s < W63 ->
  forall fuel i, 0 <= i -> zlen w <= zlen s -> (Z.to_nat (zlen s - zlen w - i + 1) < fuel)%nat ->
  (forall j, occurs w s j -> i <= j) ->
  exists r, find_fallback_loop mdiff fuel s w (zlen s) (zlen s - zlen w) i tt = Ok r tt /\ found_first w s r.
Proof.
  intros w Bs Bw L. induction fuel as [|f IH]; intros i Hi Hq Hf Inv; [lia|]. cbn [find_fallback_loop].
  destruct (Z.ltb_spec (zlen s - zlen w) i) as [C|C].
  - exists npos. split; [reflexivity|]. left. split; [reflexivity|]. intros j O. specialize (Inv _ O). apply occurs_range in O. lia.
  - destruct (probe s c w' i Bs Bw) as (ci & d & R & D & _ & Q); [lia|fold w; lia|]. fold w in D, Q.
    unfold bind at 1. unfold rd at 1. change (znth 0 w) with (Some c). cbn [ret].
    unfold bind at 1. rewrite R.
    replace (Z.min (zlen w) (u64 (zlen s - i))) with (zlen w)
      by (rewrite u64_id by (unfold W63, W64 in *; zl; lia); lia).
    assert ((if c =? ci then let* d0 := memcmp mdiff (zdrop i s) w (zlen w) in ret (d0 =? 0) else ret false) tt =
            Ok (if c =? ci then d =? 0 else false) tt) as T.
    { destruct (c =? ci); [|reflexivity]. unfold bind. rewrite D. reflexivity. }
    unfold bind at 1. rewrite T. destruct (if c =? ci then d =? 0 else false) eqn:B.
    + exists i. split; [reflexivity|]. right. split; [zl; lia|]. split; [apply Q; reflexivity|exact Inv].
    + rewrite u64_id by (unfold W63, W64 in *; zl; lia). apply IH; try lia. intros j O. specialize (Inv _ O).
      assert (j <> i) by (intros ->; apply Q in O; congruence). lia.
Qed.
Lemma find_fallback_spec s w : bytes s -> bytes w -> w <> [] -> zlen s < W63 ->
  exists r, find_fallback mdiff s w 0 tt = Ok r tt /\ found_first w s r.
Proof.
  intros Bs Bw N L. destruct w as [|c w']; [contradiction|]. unfold find_fallback.
  assert (0 < zlen (c :: w')) by (rewrite zlen_cons; zl; lia).
  replace (zlen (c :: w') =? 0) with false by lia. rewrite Z.sub_0_r. cbv zeta.
  rewrite u64_id by (unfold W63, W64 in *; zl; lia).
  destruct (Z.leb_spec (zlen (c :: w')) (zlen s)).
  - apply (find_fallback_loop_spec s c w' Bs Bw L); try lia.
    + unfold zlen in *. lia.
    + intros j O. apply occurs_range in O. lia.
  - exists npos. split; [reflexivity|]. left. split; [reflexivity|]. intros j O. apply occurs_range in O. zl. lia.
Qed.
Lemma rfind_empty s lo : rfind mdiff s [] lo tt = Ok (u64 (zlen s - 1)) tt.
Proof. reflexivity. Qed.

(** Case-insensitive searches. *)
Lemma ifind_spec (up : Z -> Z) s w : zlen s < W63 -> w <> [] ->
  exists r, ifind up s w tt = Ok r tt /\ found_first (map up w) (map up s) r.
Proof. intros L N. apply find_spec; [rewrite zlen_map; exact L|]. destruct w; [contradiction|discriminate]. Qed.
Lemma rifind_spec (up : Z -> Z) s w lo : bytes (map up s) -> bytes (map up w) -> zlen s < W63 -> w <> [] ->
  exists r, rifind up mdiff s w lo tt = Ok r tt /\ found_last (map up w) (map up s) 0 r.
Proof.
  intros B1 B2 L N. apply rfind_spec; auto; [destruct w; [contradiction|discriminate]|unfold W64; lia|rewrite zlen_map; exact L].
Qed.
End Mem.
