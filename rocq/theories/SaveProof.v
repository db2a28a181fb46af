(** Proofs about saving a Stream through an AtomicFile. *)
From stdpp Require Import gmap.
From Verif Require StreamModel.
From Verif Require Import Base StrModel SaveSpec AtomicModel SaveModel AtomicProof AtomicMain.
From Coq Require Import Lia.
Open Scope Z_scope.

Lemma ftrunc_len n (l : chars) : 0 <= n -> zlen (StreamModel.ftrunc n l) = n.
Proof. intros H. unfold StreamModel.ftrunc. rewrite zlen_app, zlen_ztake, zlen_zrep. lia. Qed.
Lemma poke_next (p r : chars) (c x : Z) : zupd (zlen p) [c] (p ++ x :: r) = (p ++ [c]) ++ r.
Proof.
  pose proof (zlen_nonneg p). unfold zupd. rewrite <- app_assoc. change (zlen [c]) with 1.
  replace (p ++ x :: r) with ((p ++ [x]) ++ r) by (rewrite <- app_assoc; reflexivity).
  assert (E : zlen (p ++ [x]) = zlen p + 1) by (rewrite zlen_app; reflexivity).
  f_equal.
  - rewrite <- app_assoc. unfold ztake. unfold zlen. rewrite Nat2Z.id, firstn_app, firstn_all, Nat.sub_diag. cbn [firstn]. apply app_nil_r.
  - f_equal. rewrite <- E. unfold zdrop, zlen. rewrite Nat2Z.id, skipn_app, skipn_all, Nat.sub_diag. reflexivity.
Qed.

Section Proof.
Variable y : sys.
Variable mdiff : Z -> Z -> Z.
Variable mm : bool.
Variable q : path.
Variable V : option chars -> Prop.

Lemma wp_and {A} (m : K A) (Q Q' : A -> world -> Prop) T S S' w :
  wp m Q T S w -> wp m Q' (fun _ => True) S' w -> wp m (fun a w' => Q a w' /\ Q' a w') T (fun w' => S w' /\ S' w') w.
Proof. unfold wp. destruct (m w); auto. Qed.
Lemma wp_weak {A} (m : K A) (Q Q' : A -> world -> Prop) (T T' S S' : world -> Prop) w :
  wp m Q T S w -> (forall a w', Q a w' -> Q' a w') -> (forall w', T w' -> T' w') -> (forall w', S w' -> S' w') -> wp m Q' T' S' w.
Proof. unfold wp. destruct (m w); auto. Qed.
Lemma kernel_stop c eff Q T (S S' : world -> Prop) w : wp (kernel y c eff) Q T S w -> S' w -> wp (kernel y c eff) Q T S' w.
Proof. unfold wp, kernel. destruct (y_stop y (w_tick w)); [auto|]. destruct (eff _ _); auto. Qed.

Definition seen (w : world) : option chars := visible (w_now w) q.
(** Wherever the machine stops. *)
Definition G (v : option chars) (w : world) : Prop := safe q V w /\ seen w = v.
(** The temporary file [tmp] is open as [d] with the contents [b]. *)
Definition J (d : Z) (tmp b : chars) (v : option chars) (o : afile) (w : world) : Prop :=
  safe q V w /\ seen w = v /\ has_temp q w d tmp b /\ w_obj w = o.
Lemma J_G d tmp b v o w : J d tmp b v o w -> G v w.
Proof. intros (A & B & _). split; assumption. Qed.

Lemma seen_upd w w' d tmp b i : has_temp q w d tmp b -> f_fds (w_now w) !! d = Some i ->
  f_names (w_now w') = f_names (w_now w) -> (forall j, j <> i -> f_inodes (w_now w') !! j = f_inodes (w_now w) !! j) -> seen w' = seen w.
Proof.
  intros (_ & i' & n & H1 & H2 & H3 & H4 & H5) E N I. rewrite E in H1. injection H1 as <-.
  unfold seen, visible. rewrite N. destruct (f_names (w_now w) !! q) as [j|] eqn:Ej; [|reflexivity].
  rewrite I; [reflexivity|]. intros ->. apply H5. exists (w_now w). split; [left; reflexivity|exact Ej].
Qed.
Lemma J_upd c d tmp b v o g (h : bool -> bool) w : J d tmp b v o w ->
  wp (kernel y c (fun fail => upd_inode d (new_bytes g) (h fail)))
    (fun r w' => J d tmp (if r then g b else b) v o w' /\ r = negb (h (y_fail y (w_tick w))) /\
       f_names (w_now w') = f_names (w_now w) /\ f_fds (w_now w') = f_fds (w_now w)) (fun _ => False) (G v) w.
Proof.
  intros HJ. pose proof HJ as (Hs & Hv & Ht & Ho). eapply kernel_stop; [|exact (J_G _ _ _ _ _ _ HJ)].
  eapply wp_mono; [exact (upd_safe y q V c d tmp b (new_bytes g) h w Hs Ht)|].
  intros r w' (A & B & C & D & E & i & n & F1 & F2 & F3 & F4 & F5 & F6 & F7 & F8).
  split; [|auto]. split; [exact A|]. split; [rewrite <- Hv; exact (seen_upd _ _ _ _ _ _ Ht F1 C F8)|].
  split; [|congruence]. split; [exact (proj1 Ht)|]. exists i, (if r then new_bytes g n else n).
  rewrite D, C. repeat split; auto. destruct r; cbn [new_bytes i_bytes]; congruence.
Qed.
Lemma has_temp_same w w' d tmp b : w_now w' = w_now w -> w_past w' = w_now w :: w_past w -> has_temp q w d tmp b -> has_temp q w' d tmp b.
Proof.
  intros E1 E2 (H0 & i & n & H1 & H2 & H3 & H4 & H5). split; [exact H0|]. exists i, n. rewrite E1. repeat split; auto.
  intros X. destruct (hist_kernel _ _ _ _ E2 X) as [X'|X']; [exact (H5 X')|]. apply H5. exists (w_now w). split; [left; reflexivity|rewrite E1 in X'; exact X'].
Qed.
Lemma has_temp_other w d k tmp b : has_temp q w d tmp b -> 0 <= k -> f_fds (w_now w) !! k = f_fds (w_now w) !! d -> has_temp q w k tmp b.
Proof.
  intros (H0 & i & n & H1 & H2 & H3 & H4 & H5) Hk E. split; [exact Hk|]. exists i, n. rewrite E. auto.
Qed.
Lemma J_plain c d tmp b v o w : J d tmp b v o w ->
  wp (plain y c) (fun r w' => J d tmp b v o w' /\ w_now w' = w_now w) (fun _ => False) (G v) w.
Proof.
  intros HJ. pose proof HJ as (Hs & Hv & Ht & Ho). eapply kernel_stop; [|exact (J_G _ _ _ _ _ _ HJ)].
  eapply wp_mono; [apply safe_kernel; [exact Hs|]|].
  - intros r f E. injection E as _ <-. auto.
  - intros r w' (A & B & C & D). injection C as _ C. split; [|symmetry; exact C]. split; [exact A|].
    split; [unfold seen in *; rewrite <- C; exact Hv|]. split; [|congruence]. apply (has_temp_same w); auto.
Qed.

(** Copying into the mapping. *)
Lemma memcpy_J d tmp v o b : forall p r w, J d tmp (p ++ r) v o w -> zlen r = zlen b ->
  wp (memcpy y d (zlen p) b) (fun _ w' => J d tmp (p ++ b) v o w') (fun _ => False) (G v) w.
Proof.
  induction b as [|c b IH]; intros p r w HJ L; cbn [memcpy].
  - apply wp_ret. destruct r; [exact HJ|]. rewrite zlen_cons in L. pose proof (zlen_nonneg r). change (zlen (@nil Z)) with 0 in L. lia.
  - destruct r as [|x r]; [rewrite zlen_cons in L; pose proof (zlen_nonneg b); change (zlen (@nil Z)) with 0 in L; lia|].
    rewrite !zlen_cons in L. apply wp_bind.
    eapply wp_mono; [exact (J_upd CWrite d tmp _ v o (zupd (zlen p) [c]) (fun _ => false) w HJ)|].
    intros r' w' (A & -> & _). cbn [negb] in A. rewrite poke_next in A.
    replace (zlen p + 1) with (zlen (p ++ [c])) by (rewrite zlen_app; reflexivity).
    replace (p ++ c :: b) with ((p ++ [c]) ++ b) by (rewrite <- app_assoc; reflexivity).
    apply (IH _ r); [exact A|lia].
Qed.
Lemma write_mmap_J d tmp v o b b0 w : J d tmp b0 v o w ->
  wp (write_mmap y d b) (fun r w' => exists b', J d tmp b' v o w' /\ (r = true -> b' = b)) (fun _ => False) (G v) w.
Proof.
  intros HJ. unfold write_mmap. apply wp_bind.
  eapply wp_mono; [exact (J_upd CTruncate d tmp _ v o (StreamModel.ftrunc (zlen b)) (fun f => f) w HJ)|].
  intros r w1 (A & _ & _). destruct r; cbn [negb].
  2: { apply wp_ret. exists b0. split; [exact A|discriminate]. }
  pose proof (ftrunc_len (zlen b) b0 (zlen_nonneg b)) as L.
  destruct (zlen b =? 0) eqn:Z0.
  { apply wp_ret. eexists. split; [exact A|]. intros _. apply Z.eqb_eq in Z0. rewrite Z0 in L |- *. apply zlen_0_nil in Z0, L. congruence. }
  apply wp_bind. eapply wp_mono; [exact (J_plain CMmap _ _ _ _ _ _ A)|]. intros r w2 (A2 & _). destruct r; cbn [negb].
  2: { apply wp_ret. eexists. split; [exact A2|discriminate]. }
  apply wp_bind. eapply wp_mono; [exact (memcpy_J d tmp v o b [] _ w2 A2 L)|]. intros [] w3 A3.
  eapply wp_mono; [exact (J_plain CMunmap _ _ _ _ _ _ A3)|]. intros r w4 (A4 & _). exists b. split; [exact A4|auto].
Qed.

(** The duplicated descriptor. *)
Definition J2 (d k : Z) (tmp b : chars) (v : option chars) (o : afile) (w : world) : Prop :=
  J d tmp b v o w /\ 0 <= k /\ k <> d /\ f_fds (w_now w) !! k = f_fds (w_now w) !! d.
Lemma dup_J d tmp b v o w : J d tmp b v o w ->
  wp (dup y d) (fun k w' => if k =? -1 then J d tmp b v o w' else J2 d k tmp b v o w') (fun _ => False) (G v) w.
Proof.
  intros HJ. pose proof HJ as (Hs & Hv & Ht & Ho). unfold dup, wp. destruct (y_pick y (w_tick w)) as [[suf k] i0].
  match goal with |- match ?X w with _ => _ end => change (wp X
    (fun k w' => if k =? -1 then J d tmp b v o w' else J2 d k tmp b v o w') (fun _ => False) (G v) w) end.
  apply wp_bind. eapply kernel_stop; [|exact (J_G _ _ _ _ _ _ HJ)].
  eapply wp_mono; [apply safe_kernel; [exact Hs|]|].
  - intros r f. destruct (open_fd (w_now w) d), (open_fd (w_now w) k); try (intros E; injection E as _ <-; auto).
    destruct (_ || _); intros E; injection E as _ <-; auto.
  - intros r w' (A & B & C & D). apply wp_ret.
    assert (S : w_now w' = w_now w -> J d tmp b v o w').
    { intros E. split; [exact A|]. split; [unfold seen in *; rewrite E; exact Hv|]. split; [|congruence]. apply (has_temp_same w); auto. }
    destruct (open_fd (w_now w) d) as [i|] eqn:Od; [|injection C as <- C; apply S; symmetry; exact C].
    destruct (open_fd (w_now w) k) eqn:Ok; [injection C as <- C; apply S; symmetry; exact C|].
    destruct (y_fail y (w_tick w) || (k <? 0)) eqn:F; injection C as <- C; [apply S; symmetry; exact C|].
    apply orb_false_elim in F as [_ F]. apply Z.ltb_ge in F.
    replace (k =? -1) with false by (symmetry; apply Z.eqb_neq; lia).
    destruct Ht as (H0 & i' & n & H1 & H2 & H3 & H4 & H5).
    assert (Nk : k <> d) by (intros ->; congruence).
    assert (Ei : i' = i). { unfold open_fd in Od. destruct (d <? 0); [discriminate|]. congruence. }
    subst i'. split; [|split; [exact F|split; [exact Nk|]]].
    2: { rewrite <- C. cbn [f_fds]. rewrite lookup_insert, lookup_insert_ne by exact Nk. symmetry; exact H1. }
    split; [exact A|]. split; [unfold seen, visible in *; rewrite <- C; exact Hv|]. split; [|congruence].
    split; [exact H0|]. exists i, n. rewrite <- C. cbn [f_fds f_names f_inodes]. rewrite lookup_insert_ne by exact Nk.
    repeat split; auto. intros X. destruct (hist_kernel _ _ _ _ D X) as [X'|X']; [exact (H5 X')|].
    apply H5. exists (w_now w). split; [left; reflexivity|]. rewrite <- C in X'. exact X'.
Qed.
Lemma J2_J d k tmp b v o w : J2 d k tmp b v o w -> J k tmp b v o w.
Proof. intros ((A & B & C & D) & E & _ & F). split; [exact A|]. split; [exact B|]. split; [|exact D]. exact (has_temp_other _ _ _ _ _ C E F). Qed.
Lemma J2_back d k tmp b b' v o w w' : J2 d k tmp b v o w -> J k tmp b' v o w' -> f_fds (w_now w') = f_fds (w_now w) -> J2 d k tmp b' v o w'.
Proof.
  intros ((A & B & C & D) & E & Ne & F) (A' & B' & C' & D') G'. split; [|rewrite G'; auto].
  split; [exact A'|]. split; [exact B'|]. split; [|exact D']. apply (has_temp_other _ k); [exact C'|exact (proj1 C)|]. rewrite G'. symmetry; exact F.
Qed.
Lemma fwrite_J d k tmp v o b : forall p w, J2 d k tmp p v o w ->
  wp (fwrite y k b) (fun r w' => exists u, b = u ++ r /\ J2 d k tmp (p ++ u) v o w') (fun _ => False) (G v) w.
Proof.
  induction b as [|c b IH]; intros p w HJ; cbn [fwrite].
  - apply wp_ret. exists []. rewrite (app_nil_r p). split; [reflexivity|exact HJ].
  - apply wp_bind. eapply wp_mono; [exact (J_upd CWrite k tmp _ v o (fun l => l ++ [c]) (fun f => f) w (J2_J _ _ _ _ _ _ _ HJ))|].
    intros r w' (A & _ & _ & F). destruct r; cbn [negb].
    + eapply wp_mono; [apply (IH (p ++ [c])); exact (J2_back _ _ _ _ _ _ _ _ _ HJ A F)|].
      intros r w2 (u & -> & A2). exists (c :: u). split; [reflexivity|]. rewrite <- app_assoc in A2. exact A2.
    + apply wp_ret. exists []. rewrite (app_nil_r p). split; [reflexivity|]. exact (J2_back _ _ _ _ _ _ _ _ _ HJ A F).
Qed.
Lemma close_J d k tmp b v o w : J2 d k tmp b v o w ->
  wp (close y k) (fun _ w' => J d tmp b v o w') (fun _ => False) (G v) w.
Proof.
  intros ((Hs & Hv & Ht & Ho) & Hk & Ne & F).
  pose proof (close_safe y q V k w Hs) as C. unfold wp in *.
  destruct (close y k w) as [r w'|w'|w'|] eqn:E; auto.
  - destruct C as (A & B & N & I & P). destruct (close_quiet y _ _ _ _ E) as (_ & _ & Fd).
    split; [exact A|]. split; [unfold seen, visible in *; rewrite N, I; exact Hv|]. split; [|congruence].
    destruct Ht as (H0 & i & n & H1 & H2 & H3 & H4 & H5). split; [exact H0|]. exists i, n. rewrite N, I.
    assert (X : f_fds (w_now w') !! d = f_fds (w_now w) !! d).
    { destruct Fd as [Fd|[_ Fd]]; rewrite Fd; [|reflexivity]. apply lookup_delete_ne. exact Ne. }
    rewrite X. repeat split; auto. intros Y. destruct (hist_kernel _ _ _ _ P Y) as [Y'|Y']; [exact (H5 Y')|].
    apply H5. exists (w_now w). split; [left; reflexivity|]. rewrite <- N. exact Y'.
  - split; [exact C|]. unfold close, kernel in E. destruct (y_stop y (w_tick w)); [injection E as <-; exact Hv|].
    destruct (close_fd _ _ _ _); discriminate.
Qed.
Lemma write_stdio_J d tmp v o b w : J d tmp [] v o w ->
  wp (write_stdio y d b) (fun r w' => exists b', J d tmp b' v o w' /\ (r = true -> b' = b)) (fun _ => False) (G v) w.
Proof.
  intros HJ. unfold write_stdio. apply wp_bind. eapply wp_mono; [exact (dup_J _ _ _ _ _ _ HJ)|].
  intros k w1 A. cbn beta in A. destruct (k =? -1); [apply wp_ret; exists []; split; [exact A|discriminate]|].
  apply wp_bind. eapply wp_mono; [exact (J_plain CFdopen _ _ _ _ _ _ (J2_J _ _ _ _ _ _ _ A))|].
  intros r w2 (A2 & E2). assert (B2 : J2 d k tmp [] v o w2) by (apply (J2_back _ _ _ _ _ _ _ _ _ A A2); rewrite E2; reflexivity).
  destruct r; cbn [negb].
  2: { apply wp_bind. eapply wp_mono; [exact (close_J _ _ _ _ _ _ _ B2)|]. intros r w3 A3. apply wp_ret. exists []. split; [exact A3|discriminate]. }
  apply wp_bind. eapply wp_mono; [exact (fwrite_J d k tmp v o b [] w2 B2)|]. intros rest w3 (u & E3 & A3). cbn [app] in A3.
  apply wp_bind. unfold fclose. apply wp_bind. eapply wp_mono; [exact (fwrite_J d k tmp v o rest u w3 A3)|].
  intros rest' w4 (u' & E4 & A4). eapply wp_mono; [exact (close_J _ _ _ _ _ _ _ A4)|]. intros r w5 A5.
  apply wp_ret. eexists. split; [exact A5|]. intros Z0. apply Z.eqb_eq, zlen_0_nil in Z0. rewrite Z0 in E3, E4.
  symmetry in E4. apply app_eq_nil in E4 as [-> _]. rewrite app_nil_r in E3 |- *. symmetry; exact E3.
Qed.
Lemma write_file_J d tmp v o b w : J d tmp [] v o w ->
  wp (write_file y mm d b) (fun r w' => exists b', J d tmp b' v o w' /\ (r = true -> b' = b)) (fun _ => False) (G v) w.
Proof. unfold write_file. destruct mm; [apply write_mmap_J|apply write_stdio_J]. Qed.

(** What is seen at [q] through the calls of AtomicFile. *)
Lemma kernel_seen c eff v w (P : bool -> option chars) : seen w = v ->
  (forall r f, eff (y_fail y (w_tick w)) (w_now w) = (r, f) -> visible f q = P r) ->
  wp (kernel y c eff) (fun r w' => seen w' = P r /\ w_obj w' = w_obj w) (fun _ => True) (fun w' => seen w' = v) w.
Proof.
  intros Hv He. unfold wp, kernel. destruct (y_stop y (w_tick w)); [exact Hv|].
  destruct (eff _ _) as [r f] eqn:E. split; [exact (He r f eq_refl)|reflexivity].
Qed.
Lemma same_seen f f' : f_names f' = f_names f -> (forall i, option_map i_bytes (f_inodes f' !! i) = option_map i_bytes (f_inodes f !! i)) ->
  visible f' q = visible f q.
Proof.
  intros N I. unfold visible. rewrite N. destruct (f_names f !! q) as [i|]; [|reflexivity].
  specialize (I i). destruct (f_inodes f' !! i), (f_inodes f !! i); cbn in I; congruence.
Qed.
Lemma upd_seen c d g (h : bool -> bool) v w : seen w = v -> (forall n, i_bytes (g n) = i_bytes n) ->
  wp (kernel y c (fun fail => upd_inode d g (h fail))) (fun r w' => seen w' = v /\ w_obj w' = w_obj w) (fun _ => True) (fun w' => seen w' = v) w.
Proof.
  intros Hv Hg. eapply wp_mono; [apply (kernel_seen _ _ v w (fun _ => v) Hv)|cbn; auto].
  intros r f. rewrite <- Hv. unfold upd_inode. destruct (open_fd (w_now w) d) as [i|]; [|intros E; injection E as _ <-; reflexivity].
  destruct (h _); [intros E; injection E as _ <-; reflexivity|]. destruct (f_inodes (w_now w) !! i) as [n|] eqn:Ei; intros E; injection E as _ <-; [|reflexivity].
  apply same_seen; [reflexivity|]. intros j. cbn [f_inodes]. destruct (decide (i = j)) as [<-|Ne].
  - rewrite lookup_insert, Ei. cbn. rewrite Hg. reflexivity.
  - rewrite lookup_insert_ne by exact Ne. reflexivity.
Qed.
Lemma close_seen d v w : seen w = v ->
  wp (close y d) (fun r w' => seen w' = v /\ w_obj w' = w_obj w) (fun _ => True) (fun w' => seen w' = v) w.
Proof.
  intros Hv. unfold close. eapply wp_mono; [apply (kernel_seen _ _ v w (fun _ => v) Hv)|cbn; auto].
  intros r f. rewrite <- Hv. unfold close_fd. destruct (open_fd (w_now w) d); [|intros E; injection E as _ <-; reflexivity].
  destruct (_ && _); intros E; injection E as _ <-; reflexivity.
Qed.
Definition not_q (p : chars) : Prop := file_path p = true -> resolve p <> q.
Lemma unlink_seen p v w : seen w = v -> not_q p ->
  wp (unlink y p) (fun r w' => seen w' = v /\ w_obj w' = w_obj w) (fun _ => True) (fun w' => seen w' = v) w.
Proof.
  intros Hv Hp. unfold unlink. eapply wp_mono; [apply (kernel_seen _ _ v w (fun _ => v) Hv)|cbn; auto].
  intros r f. rewrite <- Hv. destruct (f_names (w_now w) !! resolve p); [|intros E; injection E as _ <-; reflexivity].
  destruct (_ || _) eqn:F; intros E; injection E as _ <-; [reflexivity|].
  unfold seen, visible. cbn [f_names f_inodes]. rewrite lookup_delete_ne; [reflexivity|]. apply Hp.
  apply orb_false_elim in F as [_ F]. apply negb_false_iff in F. exact F.
Qed.
Lemma rename_seen p t v w : seen w = v -> not_q p ->
  wp (rename y p t) (fun r w' => (r = false \/ resolve t <> q -> seen w' = v) /\ w_obj w' = w_obj w) (fun _ => True) (fun w' => seen w' = v) w.
Proof.
  intros Hv Hp. unfold rename, wp, kernel. destruct (y_stop y (w_tick w)); [exact Hv|].
  destruct (f_names (w_now w) !! resolve p) as [i|]; [|split; [intros _; exact Hv|reflexivity]].
  destruct (_ || _) eqn:F; (split; [|reflexivity]); [intros _; exact Hv|].
  intros [X|X]; [discriminate|]. apply orb_false_elim in F as [F _]. apply orb_false_elim in F as [_ F]. apply negb_false_iff in F.
  rewrite <- Hv. unfold seen, visible. cbn [w_now f_names f_inodes]. rewrite lookup_insert_ne, lookup_delete_ne; [reflexivity|exact (Hp F)|exact X].
Qed.
Lemma cleanup_seen rm r v w : seen w = v -> not_q (cstr (a_tmp (w_obj w))) ->
  wp (cleanup y rm r) (fun r' w' => r' = r /\ seen w' = v) (fun _ => True) (fun w' => seen w' = v) w.
Proof.
  intros Hv Hp. unfold cleanup. apply wp_obj. apply wp_bind. destruct rm.
  - eapply wp_mono; [exact (unlink_seen _ v w Hv Hp)|]. intros r' w' (A & B). apply wp_set. apply wp_ret. split; [reflexivity|exact A].
  - apply wp_ret. apply wp_set. apply wp_ret. split; [reflexivity|exact Hv].
Qed.
Lemma commit_seen v w : seen w = v -> not_q (cstr (a_tmp (w_obj w))) ->
  wp (commit y) (fun r w' => r = false \/ resolve (cstr (a_fname (w_obj w))) <> q -> seen w' = v) (fun _ => True) (fun w' => seen w' = v) w.
Proof.
  intros Hv Hp. match goal with |- wp _ ?X _ _ _ => set (Q := X) end.
  assert (CU : forall w', seen w' = v -> w_obj w' = w_obj w -> wp (cleanup y true false) Q (fun _ => True) (fun w' => seen w' = v) w').
  { intros w' A B. eapply wp_mono; [apply (cleanup_seen _ _ v); [exact A|rewrite B; exact Hp]|]. intros r w2 (-> & X) _. exact X. }
  unfold commit. apply wp_obj. apply wp_bind.
  assert (C1 : wp (if a_mode (w_obj w) =? no_mode then kret true else fchmod y (a_fd (w_obj w)) (a_mode (w_obj w)))
    (fun r w' => seen w' = v /\ w_obj w' = w_obj w) (fun _ => True) (fun w' => seen w' = v) w).
  { destruct (a_mode (w_obj w) =? no_mode); [apply wp_ret; auto|].
    exact (upd_seen CFchmod _ (fun n => Inode (i_bytes n) (a_mode (w_obj w)) (i_synced n)) (fun f => f) v w Hv (fun _ => eq_refl)). }
  eapply wp_mono; [exact C1|]. intros r w1 (A1 & B1). destruct r; cbn [negb]; [|exact (CU w1 A1 B1)].
  apply wp_bind. eapply wp_mono; [exact (upd_seen CFsync _ (fun n => Inode (i_bytes n) (i_mode n) true) (fun f => f) v w1 A1 (fun _ => eq_refl))|].
  intros r w2 (A2 & B2). assert (O2 : w_obj w2 = w_obj w) by congruence. destruct r; cbn [negb]; [|exact (CU w2 A2 O2)].
  apply wp_bind. eapply wp_mono; [exact (close_seen _ v w2 A2)|].
  intros r w3 (A3 & B3). assert (O3 : w_obj w3 = w_obj w) by congruence. destruct r; cbn [negb]; [|exact (CU w3 A3 O3)].
  apply wp_bind. eapply wp_mono; [exact (rename_seen _ _ v w3 A3 Hp)|].
  intros r w4 (A4 & B4). assert (O4 : w_obj w4 = w_obj w) by congruence. destruct r; cbn [negb]; [|exact (CU w4 (A4 (or_introl eq_refl)) O4)].
  unfold cleanup, wp, kbind, obj, set_obj, kret, Q. intros [X|X]; [discriminate|]. exact (A4 (or_intror X)).
Qed.
Lemma abort_seen v w : seen w = v -> not_q (cstr (a_tmp (w_obj w))) ->
  wp (aabort y) (fun _ w' => seen w' = v) (fun _ => True) (fun w' => seen w' = v) w.
Proof.
  intros Hv Hp. unfold aabort. apply wp_obj. destruct (is_open (w_obj w)); cbn [negb]; [|apply wp_ret; exact Hv].
  apply wp_bind. eapply wp_mono; [exact (unlink_seen _ v w Hv Hp)|]. intros r w' (A & B).
  apply wp_bind. eapply wp_mono; [exact (close_seen _ v w' A)|]. intros r' w2 (A' & B'). apply wp_set. apply wp_ret. exact A'.
Qed.
Lemma destroy_seen v w : seen w = v -> not_q (cstr (a_tmp (w_obj w))) ->
  wp (adestroy y) (fun _ w' => seen w' = v) (fun _ => True) (fun w' => seen w' = v) w.
Proof.
  intros Hv Hp. unfold adestroy. apply wp_obj. apply wp_bind.
  assert (X : wp (if is_open (w_obj w) then aabort y else kret true) (fun _ w' => seen w' = v) (fun _ => True) (fun w' => seen w' = v) w).
  { destruct (is_open (w_obj w)); [exact (abort_seen v w Hv Hp)|apply wp_ret; exact Hv]. }
  eapply wp_mono; [exact X|]. intros r w' A. apply wp_set. apply wp_ret. exact A.
Qed.
Lemma mkstemp_seen fn t v w : safe q V w -> not_temp mdiff q fn -> template mdiff fn tt = Ok t tt -> seen w = v ->
  wp (mkstemp y t) (fun _ w' => seen w' = v) (fun _ => True) (fun w' => seen w' = v) w.
Proof.
  intros Hs Hq Et Hv. destruct (mkstemp_cases y t w) as (suf & d & i & [E|(L & N & E)]); unfold wp; rewrite E.
  - match goal with |- match ?X w with _ => _ end => change (wp X (fun _ w' => seen w' = v) (fun _ => True) (fun w' => seen w' = v) w) end.
    apply wp_bind. eapply wp_mono; [apply (kernel_seen _ _ v w (fun _ => v) Hv)|].
    + intros r f X. injection X as _ <-. exact Hv.
    + intros r w' (A & B). apply wp_ret. exact A.
  - match goal with |- match ?X w with _ => _ end => change (wp X (fun _ w' => seen w' = v) (fun _ => True) (fun w' => seen w' = v) w) end.
    set (p := with_suffix (cstr t) suf).
    assert (Hp : not_q p) by (unfold not_q; apply Hq; exists t; split; [exact Et|right; exists suf; auto]).
    apply wp_bind. eapply wp_mono; [apply (kernel_seen _ _ v w (fun _ => v) Hv)|].
    + intros r f. rewrite <- Hv. unfold mk_effect.
      destruct (f_names (w_now w) !! resolve p); [intros X; injection X as _ <-; reflexivity|].
      destruct (f_inodes (w_now w) !! i) eqn:Ei; [intros X; injection X as _ <-; reflexivity|].
      destruct (open_fd (w_now w) d); [intros X; injection X as _ <-; reflexivity|].
      destruct (_ || _) eqn:F; intros X; injection X as _ <-; [reflexivity|].
      apply orb_false_elim in F as [_ F]. apply negb_false_iff in F.
      unfold seen, visible. cbn [f_names f_inodes]. rewrite lookup_insert_ne by exact (Hp F).
      destruct (f_names (w_now w) !! q) as [j|] eqn:Ej; [|reflexivity].
      destruct (proj1 Hs j) as (n & Hn & _); [exists (w_now w); split; [left; reflexivity|exact Ej]|].
      rewrite lookup_insert_ne; [reflexivity|]. intros ->. congruence.
    + intros r w' (A & B). apply wp_ret. exact A.
Qed.
Lemma open_seen fn m v w : safe q V w -> not_temp mdiff q fn -> seen w = v ->
  wp (aopen y mdiff fn m) (fun _ w' => seen w' = v) (fun w' => seen w' = v) (fun w' => seen w' = v) w.
Proof.
  intros Hs Hq Hv. unfold aopen. apply wp_obj. apply wp_set.
  unfold wp, kbind at 1, memory at 1. cbn [w_tick w_now w_past w_log w_obj].
  destruct (y_oom y (w_tick w)); [exact Hv|].
  unfold kbind at 1, pure. destruct (template mdiff fn tt) as [t []|e s'| | |] eqn:Et; try exact I; [|exact Hv].
  unfold kbind at 1, set_obj at 1. cbn [w_tick w_now w_past w_log w_obj].
  unfold kbind at 1, memory at 1. cbn [w_tick w_now w_past w_log w_obj].
  destruct (y_oom y (S (w_tick w))); [exact Hv|].
  set (w1 := World _ _ _ _ _).
  pose proof (mkstemp_seen fn t v w1 Hs Hq Et Hv) as M. unfold wp in M. unfold kbind at 1.
  destruct (mkstemp y t w1) as [r w'|w'|w'|] eqn:Em; auto. exfalso. unfold mkstemp in Em.
  destruct (y_pick y (w_tick w1)) as [[suf d] i]. destruct (_ || _).
  - unfold kbind, kernel in Em. destruct (y_stop y (w_tick w1)); discriminate.
  - unfold kbind, kernel in Em. destruct (y_stop y (w_tick w1)); [discriminate|].
    match type of Em with context [let '(_, _) := ?X in _] => destruct X end. discriminate.
Qed.

(** One call. *)
Definition made (w' : world) (fn : chars) (m : Z) (b : chars) : Prop :=
  visible (w_now w') (resolve (cstr fn)) = Some b /\ (m <> no_mode -> mode_at (w_now w') (resolve (cstr fn)) = Some m).
Lemma placed_made w w' b m : placed w w' b m -> made w' (a_fname (w_obj w)) m b.
Proof.
  intros (i & n & A & B & C & D & E). unfold made, visible, mode_at. rewrite A, B. cbn. split; [congruence|]. intros H. rewrite (E H). reflexivity.
Qed.
Lemma body_ok fn m b w : inv q V None w -> not_temp mdiff q fn -> (resolve (cstr fn) = q -> V (Some b)) ->
  wp (save_body y mdiff mm fn m b)
    (fun r w' => (exists cur, inv q V cur w') /\ (r = true -> a_fd (w_obj w') = -1 /\ made w' fn m b) /\
       (r = false \/ resolve (cstr fn) <> q -> seen w' = seen w))
    (fun w' => (exists cur, inv q V cur w') /\ seen w' = seen w) (G (seen w)) w.
Proof.
  intros Hi Hq HV. unfold save_body. apply wp_bind.
  pose proof (open_inv y mdiff q V None fn m w Hi (or_introl eq_refl) Hq) as O1.
  pose proof (open_seen fn m _ w (proj1 Hi) Hq eq_refl) as O2.
  assert (O3 : wp (aopen y mdiff fn m) (fun r w' => r = is_open (w_obj w') /\ a_fname (w_obj w') = fn /\ a_mode (w_obj w') = m) (fun _ => True) (fun _ => True) w).
  { unfold wp. destruct (aopen y mdiff fn m w) as [r w'|w'|w'|] eqn:E; auto.
    unfold aopen, kbind, obj, set_obj, memory, pure, kret in E. cbn [w_tick w_now w_past w_log w_obj] in E.
    destruct (y_oom y (w_tick w)); [discriminate|]. destruct (template mdiff fn tt); try discriminate. cbn [w_tick w_now w_past w_log w_obj] in E.
    destruct (y_oom y (S (w_tick w))); [discriminate|]. destruct (mkstemp _ _ _) as [x wx|wx|wx|]; try discriminate.
    injection E as <- <-. cbn. auto. }
  unfold wp in O1, O2, O3 |- *. destruct (aopen y mdiff fn m w) as [r w1|w1|w1|]; [|split; [eauto|exact O2]|split; assumption|exact I].
  destruct O3 as (E1 & E2 & E3).
  match goal with |- match ?X w1 with Done a u1 => @?Q a u1 | Threw u2 => @?T u2 | Stop u3 => @?S u3 | Bad _ => True end => change (wp X Q T S w1) end.
  destruct r; cbn [negb].
  2: { apply wp_ret. split; [eauto|]. split; [discriminate|]. intros _. exact O2. }
  apply wp_obj. destruct O1 as (Hs & Ht & Hf). 
  assert (Ho : fd (w_obj w1) = a_fd (w_obj w1)) by (unfold fd; rewrite <- E1; reflexivity).
  rewrite Ho. destruct Hf as [Hf|(b0 & Eb & Hh)]; [unfold is_open in E1; rewrite Hf in E1; discriminate|].
  injection Eb as Eb1 Eb2. subst b0.
  assert (HJ : J (a_fd (w_obj w1)) (a_tmp (w_obj w1)) [] (seen w) (w_obj w1) w1) by (split; [exact Hs|]; split; [exact O2|]; split; [exact Hh|reflexivity]).
  apply wp_bind. eapply wp_weak; [exact (write_file_J _ _ _ _ b _ HJ)| |contradiction|auto].
  intros r w2 (b' & (A1 & A2 & A3 & A4) & A5).
  assert (I2 : inv q V (Some (fn, b')) w2).
  { split; [exact A1|]. split; [unfold temp_ok in *; rewrite A4; exact Ht|]. right. exists b'. rewrite A4, E2. split; [reflexivity|exact A3]. }
  destruct r; cbn [negb].
  2: { apply wp_ret. split; [eauto|]. split; [discriminate|]. intros _. exact A2. }
  rewrite (A5 eq_refl) in I2.
  assert (HV' : forall fn0 b0, Some (fn, b) = Some (fn0, b0) -> resolve (cstr fn0) = q -> V (Some b0)) by (intros fn0 b0 X; injection X as <- <-; exact HV).
  pose proof (wp_and _ _ _ _ _ _ _ (commit_inv y q V _ w2 I2 HV') (commit_seen _ w2 A2 (proj1 (proj2 I2)))) as C.
  eapply wp_weak; [exact C| |contradiction|intros w' (X1 & X2); split; assumption].
  intros r w3 ((B1 & B2 & B3) & B4). split; [eauto|]. split.
  - intros ->. split; [exact B2|]. destruct (B3 eq_refl) as (b1 & X & P). injection X as _ <-. rewrite A4, E3 in P.
    pose proof (placed_made _ _ _ _ P) as M. rewrite A4, E2 in M. exact M.
  - intros X. apply B4. rewrite A4, E2. exact X.
Qed.
Lemma destroy_now w : a_fd (w_obj w) = -1 -> adestroy y w = Done true (World (w_now w) (w_past w) (w_tick w) (w_log w) new_afile).
Proof. intros H. unfold adestroy, kbind, obj, is_open. rewrite H. reflexivity. Qed.
Definition entry (s : saving) (r : option bool) (v : option chars) : option chars := last_saved q [(s, r)] v.
Lemma save_ok fn m b w : inv q V None w -> not_temp mdiff q (fn) -> cstr fn = fn -> (resolve fn = q -> V (Some b)) ->
  wp (save_one y mdiff mm (fn, m, b))
    (fun r w' => inv q V None w' /\ seen w' = entry (fn, m, b) r (seen w) /\ (r = Some true -> made w' fn m b))
    (fun _ => False) (G (seen w)) w.
Proof.
  intros Hi Hq Ec HV. rewrite <- Ec in HV. pose proof (body_ok fn m b w Hi Hq HV) as Bd. rewrite Ec in Bd.
  assert (D : forall cur w1 (x : option bool), inv q V cur w1 -> seen w1 = seen w ->
    wp (let! _ := adestroy y in kret x) (fun r w' => r = x /\ inv q V None w' /\ seen w' = seen w) (fun _ => False) (G (seen w)) w1).
  { intros cur w1 x I1 S1. apply wp_bind.
    pose proof (wp_and _ _ _ _ _ _ _ (destroy_inv y q V cur w1 I1) (destroy_seen _ w1 S1 (proj1 (proj2 I1)))) as C.
    eapply wp_weak; [exact C| |contradiction|intros w' (X1 & X2); split; assumption].
    intros r w2 ((A & _) & B). apply wp_ret. auto. }
  assert (N : forall r, (r = Some true -> resolve fn <> q) -> entry (fn, m, b) r (seen w) = seen w).
  { intros r X. unfold entry. cbn [last_saved]. case_bool_decide as Y; [|reflexivity]. exfalso. exact (X (proj1 Y) (proj2 Y)). }
  unfold wp, save_one in *. destruct (save_body y mdiff mm fn m b w) as [r w1|w1|w1|]; [| |exact Bd|exact I].
  - destruct Bd as ((cur & I1) & T1 & F1).
    destruct r.
    + destruct (T1 eq_refl) as (Fd & M). unfold kbind, kret. rewrite (destroy_now w1 Fd).
      split; [|split].
      * destruct I1 as (X1 & X2 & X3). split; [exact X1|]. split; [intros H; discriminate|left; reflexivity].
      * unfold entry. cbn [last_saved]. case_bool_decide as Y.
        -- destruct Y as [_ Y]. destruct M as [M _]. unfold seen. cbn [w_now]. rewrite <- Y. rewrite Ec in M. exact M.
        -- apply F1. right. intros X. apply Y. auto.
      * intros _. exact M.
    + specialize (D cur w1 (Some false) I1 (F1 (or_introl eq_refl))). unfold wp in D.
      destruct ((let! _ := adestroy y in kret (Some false)) w1) as [r w2|w2|w2|]; auto. destruct D as (-> & D1 & D2).
      split; [exact D1|]. split; [rewrite N by discriminate; exact D2|discriminate].
  - destruct Bd as ((cur & I1) & S1). specialize (D cur w1 None I1 S1). unfold wp in D.
    destruct ((let! _ := adestroy y in kret None) w1) as [r w2|w2|w2|]; auto. destruct D as (-> & D1 & D2).
    split; [exact D1|]. split; [rewrite N by discriminate; exact D2|discriminate].
Qed.
End Proof.
