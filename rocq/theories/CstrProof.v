(** The C string helpers meet their contracts. *)
From stdpp Require Import gmap.
From Coq Require Import Lia.
From Verif Require Import Base StrSpec StrCmp CstrModel CstrSpec.
Open Scope Z_scope.

Lemma znth_cons0 {A} (c : A) l : znth 0 (c :: l) = Some c. Proof. reflexivity. Qed.
Lemma stands_cons m p c l : stands m p (c :: l) <-> m !! p = Some c /\ stands m (p + 1) l.
Proof.
  split.
  - intros H. split.
    + rewrite <- (H 0 c (znth_cons0 c l)). f_equal. lia.
    + intros i c' N. pose proof (znth_inv _ _ _ N) as R. rewrite <- (H (i + 1) c').
      * f_equal. lia.
      * rewrite znth_cons. destruct (Z.eqb_spec (i + 1) 0); [lia|]. rewrite <- N. f_equal. lia.
  - intros [H1 H2] i c' N. rewrite znth_cons in N. destruct (Z.eqb_spec i 0) as [->|].
    + injection N as <-. rewrite <- H1. f_equal. lia.
    + rewrite <- (H2 _ _ N). f_equal. lia.
Qed.
Lemma cstr_nil m p : cstr m p [] -> m !! p = Some 0.
Proof. intros [H _]. apply stands_cons in H. tauto. Qed.
Lemma cstr_cons m p c s : cstr m p (c :: s) -> m !! p = Some c /\ c <> 0 /\ cstr m (p + 1) s.
Proof.
  intros [H N]. cbn [app] in H. apply stands_cons in H as [H1 H2]. split; [exact H1|]. split.
  - intros ->. apply N. left. reflexivity.
  - split; [exact H2|]. intros I. apply N. right. exact I.
Qed.
Lemma ld_ok a c h : mem h !! a = Some c -> ld a h = Ok c h.
Proof. intros E. unfold ld. rewrite E. reflexivity. Qed.
Lemma st_ok a c h : is_Some (mem h !! a) -> st a c h = Ok tt (Heap (<[a := c]> (mem h)) (live h)).
Proof. intros [x E]. unfold st. rewrite E. reflexivity. Qed.
Lemma skip_loop_spec s : forall fuel p h, cstr (mem h) p s -> (length s < fuel)%nat -> skip_loop fuel p h = Ok (p + zlen s + 1) h.
Proof.
  induction s as [|c s IH]; intros [|f] p h H Hf; try (cbn in Hf; lia); cbn [skip_loop]; unfold bind.
  - rewrite (ld_ok _ _ _ (cstr_nil _ _ H)). cbn. unfold ret. rewrite zlen_nil. f_equal. lia.
  - apply cstr_cons in H as (H1 & H2 & H3). rewrite (ld_ok _ _ _ H1). replace (c =? 0) with false by lia.
    rewrite (IH f (p + 1) h H3) by (cbn in Hf; lia). rewrite zlen_cons. f_equal. lia.
Qed.
Lemma strlen_spec s fuel p h : cstr (mem h) p s -> (length s < fuel)%nat -> strlen fuel p h = Ok (zlen s) h.
Proof. intros H Hf. unfold strlen, bind. rewrite (skip_loop_spec s) by assumption. unfold ret. f_equal. lia. Qed.

(** Stores. *)
Lemma stored_nil m p : stored m p [] m.
Proof. intros a. rewrite zlen_nil. destruct (_ && _) eqn:E; [lia|reflexivity]. Qed.
Lemma stored_one m p c : stored m p [c] (<[p := c]> m).
Proof.
  intros a. assert (zlen [c] = 1) as L by reflexivity. rewrite L. destruct (_ && _) eqn:E.
  - assert (a = p) as -> by lia. rewrite lookup_insert, Z.sub_diag. reflexivity.
  - rewrite lookup_insert_ne by lia. reflexivity.
Qed.
Lemma stored_app m p l k m1 m2 : stored m p l m1 -> stored m1 (p + zlen l) k m2 -> stored m p (l ++ k) m2.
Proof.
  intros H1 H2 a. rewrite H2, H1, zlen_app, znth_app. zl. pose proof (zlen_nonneg k) as Zk. pose proof (zlen_nonneg l) as Zl.
  destruct (_ && _) eqn:E1.
  - destruct ((p <=? a) && (a <? p + (zlen l + zlen k))) eqn:E2; [|lia]. destruct (Z.ltb_spec (a - p) (zlen l)); [lia|]. f_equal. lia.
  - destruct ((p <=? a) && (a <? p + zlen l)) eqn:E3.
    + destruct ((p <=? a) && (a <? p + (zlen l + zlen k))) eqn:E2; [|lia]. destruct (Z.ltb_spec (a - p) (zlen l)); [reflexivity|lia].
    + destruct ((p <=? a) && (a <? p + (zlen l + zlen k))) eqn:E2; [lia|reflexivity].
Qed.
Lemma stored_stands m d k m' p l : stored m d k m' -> stands m p l -> apart d (zlen k) p (zlen l) -> stands m' p l.
Proof.
  intros S H A i c N. pose proof (znth_inv _ _ _ N) as R. rewrite S. unfold apart in A. destruct (_ && _) eqn:E; [lia|]. apply H, N.
Qed.
Lemma stored_cstr m d k m' p s : stored m d k m' -> cstr m p s -> apart d (zlen k) p (zlen s + 1) -> cstr m' p s.
Proof.
  intros S [H N] A. split; [|exact N]. apply (stored_stands m d k m'); auto. rewrite zlen_app. assert (zlen [0] = 1) as -> by reflexivity. exact A.
Qed.
Lemma stored_mapped m d k m' p n : stored m d k m' -> mapped m p n -> mapped m' p n.
Proof.
  intros S H a Ha. rewrite S. destruct (_ && _) eqn:E; [|apply H, Ha]. destruct (znth_some (a - d) k) as (c & ->); [lia|]. eauto.
Qed.
Lemma ztake_snoc0 {A} n (x : A) l : n <= zlen l -> ztake n (l ++ [x]) = ztake n l.
Proof. intros H. rewrite ztake_app. rewrite (ztake_0 (n - zlen l)) by lia. apply app_nil_r. Qed.

(** strlcpy *)
Lemma cpy_loop_spec s : forall fuel d p n h, cstr (mem h) p s -> 0 < n < W64 -> (length s < fuel)%nat ->
  mapped (mem h) d (Z.min (zlen s + 1) n) -> apart d (Z.min (zlen s + 1) n) p (zlen s + 1) ->
  exists m', cpy_loop fuel d p n h =
    Ok (if zlen s <? n then (d + zlen s + 1, p + zlen s + 1, n - zlen s) else (d + n, p + n, 0)) (Heap m' (live h)) /\
    stored (mem h) d (ztake n (s ++ [0])) m'.
Proof.
  induction s as [|c s IH]; intros [|f] d p n h H Hn Hf Hm Ha; try (cbn in Hf; lia); cbn [cpy_loop]; unfold bind.
  - rewrite zlen_nil in *. rewrite (ld_ok _ _ _ (cstr_nil _ _ H)). rewrite st_ok by (apply Hm; lia).
    cbn [app]. replace (0 <? n) with true by lia. change (0 =? 0) with true. cbv iota. eexists. split.
    + unfold ret. f_equal. f_equal; [f_equal|]; lia.
    + rewrite ztake_all by (assert (zlen [0] = 1) as -> by reflexivity; lia). apply stored_one.
  - apply cstr_cons in H as (H1 & H2 & H3). rewrite (ld_ok _ _ _ H1). rewrite zlen_cons in *. zl.
    rewrite st_ok by (apply Hm; lia). replace (c =? 0) with false by lia. rewrite u64_id by lia. cbv zeta.
    pose proof (stored_one (mem h) d c) as S1. assert (zlen [c] = 1) as L1 by reflexivity.
    destruct (Z.eqb_spec (n - 1) 0).
    + assert (n = 1) as -> by lia. replace (1 + zlen s <? 1) with false by lia. eexists. split; [reflexivity|].
      cbn [app]. exact S1.
    + destruct (IH f (d + 1) (p + 1) (n - 1) (Heap (<[d := c]> (mem h)) (live h))) as (m' & E & S2).
      * cbn [mem]. apply (stored_cstr _ _ _ _ _ _ S1 H3). rewrite L1. unfold apart in *. lia.
      * lia.
      * cbn in Hf. lia.
      * cbn [mem]. apply (stored_mapped _ _ _ _ _ _ S1). intros a Ia. apply Hm. lia.
      * unfold apart in *. lia.
      * exists m'. rewrite E. cbn [live mem] in *. split.
        -- replace (1 + zlen s <? n) with (zlen s <? n - 1) by (destruct (Z.ltb_spec (zlen s) (n - 1)), (Z.ltb_spec (1 + zlen s) n); lia).
           destruct (Z.ltb_spec (zlen s) (n - 1)); repeat first [lia | f_equal].
        -- cbn [app]. rewrite ztake_cons by lia. change (c :: ztake (n - 1) (s ++ [0])) with ([c] ++ ztake (n - 1) (s ++ [0])).
           apply (stored_app _ _ _ _ _ _ S1). rewrite L1. exact S2.
Qed.
Lemma cstr_drop m p s k : cstr m p s -> 0 <= k <= zlen s -> cstr m (p + k) (zdrop k s).
Proof.
  intros [H N] Hk. split.
  - intros i c E. rewrite <- (H (k + i) c); [f_equal; lia|]. pose proof (znth_inv _ _ _ E) as R. rewrite zlen_app, zlen_zdrop in R.
    assert (zlen [0] = 1) as L1 by reflexivity.
    rewrite znth_app in *. rewrite zlen_zdrop in E. destruct (Z.ltb_spec i (Z.max 0 (zlen s - Z.max 0 k))).
    + destruct (Z.ltb_spec (k + i) (zlen s)); [|lia]. rewrite znth_zdrop in E. destruct (Z.ltb_spec i 0); [lia|]. rewrite <- E. f_equal. lia.
    + destruct (Z.ltb_spec (k + i) (zlen s)); [lia|]. rewrite <- E. f_equal. lia.
  - intros I. apply N. unfold zdrop in I. rewrite <- (firstn_skipn (Z.to_nat k) s). apply in_or_app. right. exact I.
Qed.
Lemma strlcpy_spec s fuel dst src siz h :
  cstr (mem h) src s -> 0 <= siz < W64 -> (length s < fuel)%nat ->
  mapped (mem h) dst (Z.min (zlen s + 1) siz) -> apart dst (Z.min (zlen s + 1) siz) src (zlen s + 1) ->
  exists m', strlcpy fuel dst src siz h = Ok (zlen s) (Heap m' (live h)) /\
    stored (mem h) dst (if siz =? 0 then [] else ztake (siz - 1) s ++ [0]) m'.
Proof.
  intros H Hs Hf Hm Ha. unfold strlcpy. destruct (Z.eqb_spec siz 0) as [->|N0].
  - unfold bind, ret. cbn. rewrite (skip_loop_spec s) by assumption. exists (mem h). split; [destruct h as [hm hl]; cbn [mem live]; f_equal; lia|apply stored_nil].
  - rewrite u64_id by lia. cbv zeta. zl. destruct (Z.eqb_spec (siz - 1) 0) as [E1|N1].
    + unfold bind, ret. rewrite E1. cbn [Z.eqb].
      assert (is_Some (mem h !! dst)) as Hd by (apply Hm; lia). rewrite (st_ok _ _ _ Hd).
      pose proof (stored_one (mem h) dst 0) as S1. assert (zlen [0] = 1) as L1 by reflexivity.
      rewrite (skip_loop_spec s); [|apply (stored_cstr _ _ _ _ _ _ S1 H); rewrite L1; unfold apart in *; lia|exact Hf].
      eexists. split; [f_equal; lia|]. rewrite ztake_0 by lia. exact S1.
    + destruct (cpy_loop_spec s fuel dst src (siz - 1) h H) as (m' & E & S1); [lia|exact Hf| | |].
      * intros a Ia. apply Hm. lia.
      * unfold apart in *. lia.
      * unfold bind at 1. rewrite E. destruct (Z.ltb_spec (zlen s) (siz - 1)).
        -- replace (siz - 1 - zlen s =? 0) with false by lia. unfold bind, ret. exists m'. split; [f_equal; lia|].
           rewrite ztake_all in S1 by (rewrite zlen_app; assert (zlen [0] = 1) as -> by reflexivity; lia).
           rewrite ztake_all by lia. exact S1.
        -- change (0 =? 0) with true. cbv iota. rewrite ztake_snoc0 in S1 by lia. unfold bind, ret.
           assert (zlen (ztake (siz - 1) s) = siz - 1) as Lt by (rewrite zlen_ztake; lia).
           rewrite st_ok by (cbn [mem]; apply (stored_mapped _ _ _ _ _ _ S1 Hm); lia). cbn [mem live].
           pose proof (stored_one m' (dst + (siz - 1)) 0) as S2. assert (zlen [0] = 1) as L1 by reflexivity.
           assert (cstr (<[dst + (siz - 1) := 0]> m') src s) as C.
           { apply (stored_cstr _ _ _ _ _ _ S2); [|rewrite L1; unfold apart in *; lia].
             apply (stored_cstr _ _ _ _ _ _ S1 H). rewrite Lt. unfold apart in *. lia. }
           rewrite (skip_loop_spec (zdrop (siz - 1) s)).
           ++ eexists. split; [rewrite zlen_zdrop; f_equal; lia|]. rewrite <- Lt in S2 at 1. exact (stored_app _ _ _ _ _ _ S1 S2).
           ++ cbn [mem]. apply cstr_drop; [exact C|lia].
           ++ unfold zdrop. rewrite skipn_length. lia.
Qed.

(** strlcat *)
Lemma end_loop_nul l : forall fuel d n h, cstr (mem h) d l -> zlen l <= n < W64 -> (length l < fuel)%nat -> end_loop fuel d n h = Ok (d + zlen l) h.
Proof.
  induction l as [|c l IH]; intros [|f] d n h H Hn Hf; try (cbn in Hf; lia); cbn [end_loop]; unfold bind.
  - rewrite (ld_ok _ _ _ (cstr_nil _ _ H)). rewrite zlen_nil, Z.add_0_r. reflexivity.
  - apply cstr_cons in H as (H1 & H2 & H3). rewrite (ld_ok _ _ _ H1). replace (c =? 0) with false by lia. rewrite zlen_cons in *. zl.
    replace (n =? 0) with false by lia. rewrite u64_id by lia. rewrite (IH f (d + 1) (n - 1) h H3); [f_equal; lia|lia|cbn in Hf; lia].
Qed.
Lemma end_loop_full l : forall fuel d h c, stands (mem h) d (l ++ [c]) -> ~ In 0 l -> zlen l < W64 -> (length l < fuel)%nat ->
  end_loop fuel d (zlen l) h = Ok (d + zlen l) h.
Proof.
  induction l as [|x l IH]; intros [|f] d h c H N Hn Hf; try (cbn in Hf; lia); cbn [end_loop]; unfold bind.
  - cbn [app] in H. apply stands_cons in H as [H _]. rewrite (ld_ok _ _ _ H). rewrite zlen_nil, Z.add_0_r. destruct (c =? 0); reflexivity.
  - cbn [app] in H. apply stands_cons in H as [H1 H2]. rewrite (ld_ok _ _ _ H1).
    assert (x <> 0) by (intros ->; apply N; left; reflexivity). replace (x =? 0) with false by lia. rewrite zlen_cons in *. zl.
    replace (1 + zlen l =? 0) with false by lia. rewrite u64_id by lia. replace (1 + zlen l - 1) with (zlen l) by lia.
    rewrite (IH f (d + 1) h c H2); [f_equal; lia|intros I; apply N; right; exact I|lia|cbn in Hf; lia].
Qed.
Lemma cat_loop_spec s : forall fuel d p n h, cstr (mem h) p s -> 0 < n < W64 -> (length s < fuel)%nat ->
  mapped (mem h) d (Z.min (zlen s) (n - 1)) -> apart d (Z.min (zlen s) (n - 1)) p (zlen s + 1) ->
  exists m', cat_loop fuel d p n h = Ok (d + Z.min (zlen s) (n - 1), p + zlen s) (Heap m' (live h)) /\
    stored (mem h) d (ztake (n - 1) s) m'.
Proof.
  induction s as [|c s IH]; intros [|f] d p n h H Hn Hf Hm Ha; try (cbn in Hf; lia); cbn [cat_loop]; unfold bind.
  - rewrite (ld_ok _ _ _ (cstr_nil _ _ H)). rewrite zlen_nil in *. exists (mem h). split.
    + destruct h as [hm hl]. cbn [mem live]. unfold ret. cbn [Z.eqb]. f_equal. f_equal; lia.
    + replace (ztake (n - 1) []) with (@nil Z) by (unfold ztake; rewrite firstn_nil; reflexivity). apply stored_nil.
  - apply cstr_cons in H as (H1 & H2 & H3). rewrite (ld_ok _ _ _ H1). replace (c =? 0) with false by lia. rewrite zlen_cons in *. zl.
    destruct (Z.eqb_spec n 1) as [->|N1].
    + destruct (IH f d (p + 1) 1 h H3) as (m' & E & S1); [lia|cbn in Hf; lia|intros a Ia; lia|unfold apart in *; lia|].
      exists m'. rewrite E. split; [f_equal; f_equal; lia|]. rewrite ztake_0 in * by lia. exact S1.
    + rewrite st_ok by (apply Hm; lia). rewrite u64_id by lia. pose proof (stored_one (mem h) d c) as S1. assert (zlen [c] = 1) as L1 by reflexivity.
      destruct (IH f (d + 1) (p + 1) (n - 1) (Heap (<[d := c]> (mem h)) (live h))) as (m' & E & S2).
      * cbn [mem]. apply (stored_cstr _ _ _ _ _ _ S1 H3). rewrite L1. unfold apart in *. lia.
      * lia.
      * cbn in Hf. lia.
      * cbn [mem]. apply (stored_mapped _ _ _ _ _ _ S1). intros a Ia. apply Hm. lia.
      * unfold apart in *. lia.
      * exists m'. rewrite E. cbn [live mem] in *. split; [f_equal; f_equal; lia|].
        rewrite ztake_cons by lia. change (c :: ztake (n - 1 - 1) s) with ([c] ++ ztake (n - 1 - 1) s).
        apply (stored_app _ _ _ _ _ _ S1). rewrite L1. exact S2.
Qed.
Lemma strlcat_spec t s fuel dst src siz h :
  cstr (mem h) dst t -> cstr (mem h) src s -> zlen t < siz < W64 -> (length t < fuel)%nat -> (length s < fuel)%nat ->
  mapped (mem h) (dst + zlen t) (Z.min (zlen s) (siz - zlen t - 1) + 1) ->
  apart (dst + zlen t) (Z.min (zlen s) (siz - zlen t - 1) + 1) src (zlen s + 1) ->
  exists m', strlcat fuel dst src siz h = Ok (zlen t + zlen s) (Heap m' (live h)) /\
    stored (mem h) (dst + zlen t) (ztake (siz - zlen t - 1) s ++ [0]) m'.
Proof.
  intros Ht Hs Hn Ft Fs Hm Ha. zl. unfold strlcat. unfold bind at 1. rewrite (end_loop_nul t) by (auto; lia). cbv zeta.
  replace (dst + zlen t - dst) with (zlen t) by lia. rewrite u64_id by lia. replace (siz - zlen t =? 0) with false by lia.
  destruct (cat_loop_spec s fuel (dst + zlen t) src (siz - zlen t) h Hs) as (m' & E & S1); [lia|exact Fs|intros a Ia; apply Hm; lia|unfold apart in *; lia|].
  unfold bind at 1. rewrite E. cbn [fst snd]. unfold bind, ret.
  rewrite st_ok by (cbn [mem]; apply (stored_mapped _ _ _ _ _ _ S1 Hm); lia). cbn [mem live]. eexists. split; [f_equal; lia|].
  pose proof (stored_one m' (dst + zlen t + Z.min (zlen s) (siz - zlen t - 1)) 0) as S2.
  replace (Z.min (zlen s) (siz - zlen t - 1)) with (zlen (ztake (siz - zlen t - 1) s)) in S2 at 1 by (rewrite zlen_ztake; lia).
  exact (stored_app _ _ _ _ _ _ S1 S2).
Qed.
Lemma strlcat_full l c s fuel dst src h :
  stands (mem h) dst (l ++ [c]) -> ~ In 0 l -> cstr (mem h) src s -> zlen l < W64 -> (length l < fuel)%nat -> (length s < fuel)%nat ->
  strlcat fuel dst src (zlen l) h = Ok (zlen l + zlen s) h.
Proof.
  intros Hl N Hs Hn Fl Fs. unfold strlcat, bind. rewrite (end_loop_full l fuel dst h c) by assumption. cbv zeta.
  replace (dst + zlen l - dst) with (zlen l) by lia. rewrite Z.sub_diag. change (u64 0 =? 0) with true. cbv iota beta.
  rewrite (strlen_spec s) by assumption. reflexivity.
Qed.
(** Without a readable byte after an unterminated destination of exactly [siz] bytes. *)
Lemma end_loop_over l : forall fuel d h, stands (mem h) d l -> ~ In 0 l -> mem h !! (d + zlen l) = None -> zlen l < W64 -> (length l < fuel)%nat ->
  end_loop fuel d (zlen l) h = Undef UbBounds.
Proof.
  induction l as [|x l IH]; intros [|f] d h H N Hm Hn Hf; try (cbn in Hf; lia); cbn [end_loop]; unfold bind.
  - rewrite zlen_nil, Z.add_0_r in Hm. unfold ld. rewrite Hm. reflexivity.
  - apply stands_cons in H as [H1 H2]. rewrite (ld_ok _ _ _ H1).
    assert (x <> 0) by (intros ->; apply N; left; reflexivity). replace (x =? 0) with false by lia. rewrite zlen_cons in *. zl.
    replace (1 + zlen l =? 0) with false by lia. rewrite u64_id by lia. replace (1 + zlen l - 1) with (zlen l) by lia.
    apply IH; [exact H2|intros I; apply N; right; exact I|rewrite <- Hm; f_equal; lia|lia|cbn in Hf; lia].
Qed.
Lemma strlcat_over l fuel dst src h :
  stands (mem h) dst l -> ~ In 0 l -> mem h !! (dst + zlen l) = None -> zlen l < W64 -> (length l < fuel)%nat ->
  strlcat fuel dst src (zlen l) h = Undef UbBounds.
Proof. intros. unfold strlcat, bind. rewrite end_loop_over; auto. Qed.

(** Allocation. *)
Lemma fill_lookup f n : forall a m b, fill n a f m !! b = if (a <=? b) && (b <? a + Z.of_nat n) then Some (f b) else m !! b.
Proof.
  induction n as [|n IH]; intros a m b; cbn [fill].
  - destruct (_ && _) eqn:E; [lia|reflexivity].
  - destruct (Z.eq_dec a b) as [->|Ne].
    + rewrite lookup_insert. destruct (_ && _) eqn:E; [reflexivity|lia].
    + rewrite lookup_insert_ne, IH by assumption.
      replace ((a <=? b) && (b <? a + Z.of_nat (S n))) with ((a + 1 <=? b) && (b <? a + 1 + Z.of_nat n)); [reflexivity|].
      apply Bool.eq_true_iff_eq. lia.
Qed.
Lemma unmap_lookup n : forall a m b, unmap n a m !! b = if (a <=? b) && (b <? a + Z.of_nat n) then None else m !! b.
Proof.
  induction n as [|n IH]; intros a m b; cbn [unmap].
  - destruct (_ && _) eqn:E; [lia|reflexivity].
  - destruct (Z.eq_dec a b) as [->|Ne].
    + rewrite lookup_delete. destruct (_ && _) eqn:E; [reflexivity|lia].
    + rewrite lookup_delete_ne, IH by assumption.
      replace ((a <=? b) && (b <? a + Z.of_nat (S n))) with ((a + 1 <=? b) && (b <? a + 1 + Z.of_nat n)); [reflexivity|].
      apply Bool.eq_true_iff_eq. lia.
Qed.
Lemma copy_loop_spec l : forall d s h, stands (mem h) s l -> mapped (mem h) d (zlen l) -> apart d (zlen l) s (zlen l) ->
  exists m', copy_loop (length l) d s h = Ok tt (Heap m' (live h)) /\ stored (mem h) d l m'.
Proof.
  induction l as [|c l IH]; intros d s h H Hm Ha; cbn [copy_loop length].
  - exists (mem h). split; [destruct h; reflexivity|apply stored_nil].
  - apply stands_cons in H as [H1 H2]. rewrite zlen_cons in *. zl. unfold bind. rewrite (ld_ok _ _ _ H1). rewrite st_ok by (apply Hm; lia).
    pose proof (stored_one (mem h) d c) as S1. assert (zlen [c] = 1) as L1 by reflexivity.
    destruct (IH (d + 1) (s + 1) (Heap (<[d := c]> (mem h)) (live h))) as (m' & E & S2).
    + cbn [mem]. apply (stored_stands _ _ _ _ _ _ S1 H2). rewrite L1. unfold apart in *. lia.
    + cbn [mem]. apply (stored_mapped _ _ _ _ _ _ S1). intros a Ia. apply Hm. lia.
    + unfold apart in *. lia.
    + exists m'. rewrite E. split; [reflexivity|]. cbn [mem] in S2. change (c :: l) with ([c] ++ l).
      apply (stored_app _ _ _ _ _ _ S1). rewrite L1. exact S2.
Qed.
Lemma memcpy_spec l d s h : stands (mem h) s l -> mapped (mem h) d (zlen l) -> apart d (zlen l) s (zlen l) ->
  exists m', memcpy d s (zlen l) h = Ok tt (Heap m' (live h)) /\ stored (mem h) d l m'.
Proof.
  intros H Hm Ha. unfold memcpy. destruct (_ && _) eqn:E. { unfold apart in Ha. zl. lia. }
  replace (Z.to_nat (zlen l)) with (length l) by (unfold zlen; lia). apply copy_loop_spec; assumption.
Qed.
Lemma stands_mapped m p l i : stands m p l -> 0 <= i < zlen l -> exists c, znth i l = Some c /\ m !! (p + i) = Some c.
Proof. intros H Hi. destruct (znth_some i l Hi) as (c & E). exists c. split; [exact E|apply H, E]. Qed.
(** Memory just allocated is apart from anything readable before. *)
Lemma fresh_apart m a n p l : (forall b, a <= b < a + n -> m !! b = None) -> stands m p l -> 0 < n -> 0 < zlen l -> apart a n p (zlen l).
Proof.
  intros F H Hn Hl. unfold apart. destruct (Z.le_gt_cases (a + n) p); [auto|]. destruct (Z.le_gt_cases (p + zlen l) a); [auto|]. exfalso. zl.
  destruct (stands_mapped m p l (Z.max a p - p) H) as (c & _ & E); [lia|]. rewrite F in E by lia. discriminate.
Qed.
Section Dup.
Variables (alloc : gmap Z Z -> Z -> option Z) (junk : Z -> Z).
Hypothesis Hal : allocator alloc.
Lemma ztake_stands m p s n : stands m p s -> stands m p (ztake n s).
Proof. intros H i c E. rewrite znth_ztake in E. destruct (i <? n); [|discriminate]. apply H, E. Qed.
Lemma stands_app_l m p s k : stands m p (s ++ k) -> stands m p s.
Proof. intros H i c E. apply H. pose proof (znth_inv _ _ _ E). rewrite znth_app. replace (i <? zlen s) with true by lia. exact E. Qed.
(** Allocate, terminate and copy: the common part of strdup and strldup. *)
Definition dup_body (entry len : Z) : Mh Z :=
  let* target := bd_calloc alloc (u64 (len + 1)) in
  st (target + len) 0 ;;;
  memcpy target entry len ;;;
  ret target.
Lemma dup_body_spec s p h : stands (mem h) p s -> zlen s < W63 ->
  match alloc (mem h) (zlen s + 1) with
  | None => dup_body p (zlen s) h = Term
  | Some t => exists m', dup_body p (zlen s) h = Ok t (Heap m' (<[t := zlen s + 1]> (live h))) /\
      stored (mem h) t (s ++ [0]) m' /\ forall b, t <= b < t + zlen s + 1 -> mem h !! b = None
  end.
Proof.
  intros H L. zl. destruct (alloc (mem h) (zlen s + 1)) as [t|] eqn:Ea; unfold dup_body, bind at 1, bd_calloc;
    rewrite u64_id by (unfold W63, W64 in *; lia); rewrite Ea; [|reflexivity].
  pose proof (Hal _ _ _ Ea) as F. set (m1 := fill (Z.to_nat (zlen s + 1)) t (fun _ => 0) (mem h)).
  assert (forall b, m1 !! b = if (t <=? b) && (b <? t + (zlen s + 1)) then Some 0 else mem h !! b) as M1.
  { intros b. unfold m1. rewrite fill_lookup. rewrite Z2Nat.id by lia. reflexivity. }
  unfold bind. rewrite st_ok. 2:{ cbn [mem]. rewrite M1. destruct (_ && _) eqn:X; [eauto|lia]. } cbn [mem live].
  assert (zlen s = 0 \/ apart t (zlen s + 1) p (zlen s)) as A.
  { destruct (Z.eq_dec (zlen s) 0); [auto|]. right. apply (fresh_apart (mem h)); auto; lia. }
  assert (forall b, <[t + zlen s := 0]> m1 !! b = m1 !! b) as M2.
  { intros b. destruct (Z.eq_dec b (t + zlen s)) as [->|Ne]; [|apply lookup_insert_ne; lia]. rewrite lookup_insert, M1. destruct (_ && _) eqn:X; [reflexivity|lia]. }
  destruct (memcpy_spec s t p (Heap (<[t + zlen s := 0]> m1) (<[t := zlen s + 1]> (live h)))) as (m' & E & S1).
  - intros i c Ei. cbn [mem]. rewrite M2, M1. pose proof (znth_inv _ _ _ Ei). unfold apart in A. destruct (_ && _) eqn:X; [lia|]. apply H, Ei.
  - intros a Ia. cbn [mem]. rewrite M2, M1. destruct (_ && _) eqn:X; [eauto|lia].
  - unfold apart in *. lia.
  - rewrite E. cbn [live mem] in *. unfold ret. exists m'. split; [reflexivity|]. split; [|intros b Hb; apply F; lia].
    intros a. rewrite S1, M2, M1, zlen_app. assert (zlen [0] = 1) as -> by reflexivity. rewrite znth_app.
    destruct ((t <=? a) && (a <? t + zlen s)) eqn:X1.
    + destruct ((t <=? a) && (a <? t + (zlen s + 1))) eqn:X2; [|lia]. destruct (Z.ltb_spec (a - t) (zlen s)); [reflexivity|lia].
    + destruct ((t <=? a) && (a <? t + (zlen s + 1))) eqn:X2; [|reflexivity]. destruct (Z.ltb_spec (a - t) (zlen s)); [lia|].
      replace (a - t - zlen s) with 0 by lia. reflexivity.
Qed.
Lemma strdup_spec s fuel p h : cstr (mem h) p s -> zlen s < W63 -> (length s < fuel)%nat ->
  match alloc (mem h) (zlen s + 1) with
  | None => strdup alloc fuel p h = Term
  | Some t => exists m', strdup alloc fuel p h = Ok t (Heap m' (<[t := zlen s + 1]> (live h))) /\
      stored (mem h) t (s ++ [0]) m' /\ forall b, t <= b < t + zlen s + 1 -> mem h !! b = None
  end.
Proof.
  intros H L Hf. assert (strdup alloc fuel p h = dup_body p (zlen s) h) as ->.
  { unfold strdup. unfold bind at 1. rewrite (strlen_spec s) by assumption. reflexivity. }
  apply dup_body_spec; [|exact L]. destruct H as [H _]. exact (stands_app_l _ _ _ _ H).
Qed.
Lemma strldup_spec s fuel p n h : cstr (mem h) p s -> zlen s < W63 -> 0 <= n < W64 -> (length s < fuel)%nat ->
  match alloc (mem h) (zlen (ztake n s) + 1) with
  | None => strldup alloc fuel p n h = Term
  | Some t => exists m', strldup alloc fuel p n h = Ok t (Heap m' (<[t := zlen (ztake n s) + 1]> (live h))) /\
      stored (mem h) t (ztake n s ++ [0]) m' /\ forall b, t <= b < t + zlen (ztake n s) + 1 -> mem h !! b = None
  end.
Proof.
  intros H L Hn Hf. zl. assert (strldup alloc fuel p n h = dup_body p (zlen (ztake n s)) h) as ->.
  { unfold strldup. unfold bind at 1. rewrite (strlen_spec s) by assumption. cbv zeta.
    replace (if zlen s <? n then zlen s else n) with (zlen (ztake n s)); [reflexivity|]. rewrite zlen_ztake. destruct (Z.ltb_spec (zlen s) n); lia. }
  apply dup_body_spec; [|rewrite zlen_ztake; lia]. destruct H as [H _]. apply ztake_stands. exact (stands_app_l _ _ _ _ H).
Qed.

(** str_redup. The memory without the old block. *)
Definition old_block (str : option Z) (h : heap) : option (Z * Z) :=
  match str with None => None | Some p => match live h !! p with Some k => Some (p, k) | None => None end end.
Definition without (blk : option (Z * Z)) (m : gmap Z Z) : gmap Z Z :=
  match blk with None => m | Some (p, k) => unmap (Z.to_nat k) p m end.
Lemma redup_spec s fuel str q h :
  (forall p, str = Some p -> is_Some (live h !! p)) ->
  cstr (mem h) q s -> zlen s < W63 -> (length s < fuel)%nat ->
  (forall p k, old_block str h = Some (p, k) -> 0 <= k /\ apart p k q (zlen s + 1)) ->
  match alloc (without (old_block str h) (mem h)) (zlen s + 1) with
  | None => str_redup alloc junk fuel str (Some q) h = Term
  | Some a => exists m', str_redup alloc junk fuel str (Some q) h =
        Ok (Some a) (Heap m' (<[a := zlen s + 1]> (match str with Some p => delete p (live h) | None => live h end))) /\
      stored (without (old_block str h) (mem h)) a (s ++ [0]) m'
  end.
Proof.
  intros Hl H L Hf Hb. zl. set (m0 := without (old_block str h) (mem h)).
  set (lv := match str with Some p => delete p (live h) | None => live h end).
  assert (zlen (s ++ [0]) = zlen s + 1) as La by (rewrite zlen_app; reflexivity).
  assert (stands m0 q (s ++ [0])) as H0.
  { destruct H as [H _]. unfold m0. destruct (old_block str h) as [[p k]|] eqn:Eo; [|exact H]. cbn [without].
    destruct (Hb p k eq_refl) as [Hk A]. intros i c E. pose proof (znth_inv _ _ _ E) as R. rewrite La in R. rewrite unmap_lookup.
    rewrite Z2Nat.id by lia. unfold apart in A. destruct (_ && _) eqn:X; [lia|]. apply H, E. }
  assert (exists f, bd_realloc alloc junk str (zlen s + 1) h =
    match alloc m0 (zlen s + 1) with None => Term | Some a => Ok a (Heap (fill (Z.to_nat (zlen s + 1)) a (f a) m0) (<[a := zlen s + 1]> lv)) end) as (f & Er).
  { unfold m0, lv, bd_realloc. destruct str as [p|]; cbn [old_block].
    - destruct (Hl p eq_refl) as [k Ek]. rewrite Ek. cbn [without].
      eexists (fun a i => _). cbv zeta. destruct (alloc _ _) as [a|]; [|reflexivity]. reflexivity.
    - exists (fun _ => junk). cbn [without]. destruct (alloc _ _) as [a|]; reflexivity. }
  assert (forall r, str_redup alloc junk fuel str (Some q) h = r <->
    bind (bd_realloc alloc junk str (zlen s + 1)) (fun a => bind (memcpy a q (zlen s + 1)) (fun _ => ret (Some a))) h = r) as Eq.
  { intros r. unfold str_redup. unfold bind at 1. rewrite (strlen_spec s) by assumption. cbv zeta.
    rewrite u64_id by (unfold W63, W64 in *; lia). reflexivity. }
  destruct (alloc m0 (zlen s + 1)) as [a|] eqn:Ea; [|apply Eq; unfold bind; rewrite Er; reflexivity].
  pose proof (Hal _ _ _ Ea) as F. pose proof (fresh_apart m0 a (zlen s + 1) q (s ++ [0]) F H0 ltac:(lia) ltac:(lia)) as A. rewrite La in A.
  set (m1 := fill (Z.to_nat (zlen s + 1)) a (f a) m0).
  assert (forall b, m1 !! b = if (a <=? b) && (b <? a + (zlen s + 1)) then Some (f a b) else m0 !! b) as M1.
  { intros b. unfold m1. rewrite fill_lookup. rewrite Z2Nat.id by lia. reflexivity. }
  destruct (memcpy_spec (s ++ [0]) a q (Heap m1 (<[a := zlen s + 1]> lv))) as (m' & E & S1).
  - intros i c Ei. cbn [mem]. rewrite M1. pose proof (znth_inv _ _ _ Ei) as R. rewrite La in R. unfold apart in A. destruct (_ && _) eqn:X; [lia|]. apply H0, Ei.
  - intros b Ib. rewrite La in Ib. cbn [mem]. rewrite M1. destruct (_ && _) eqn:X; [eauto|lia].
  - rewrite La. exact A.
  - rewrite La in E. exists m'. split; [apply Eq; unfold bind; rewrite Er; fold m1; rewrite E; reflexivity|]. cbn [live mem] in *.
    intros b. rewrite S1, La, M1. destruct (_ && _) eqn:X; reflexivity.
Qed.
Lemma redup_null fuel str h : (forall p, str = Some p -> is_Some (live h !! p)) ->
  exists m', str_redup alloc junk fuel str None h = Ok None (Heap m' (match str with Some p => delete p (live h) | None => live h end)) /\
    m' = without (old_block str h) (mem h).
Proof.
  intros Hl. destruct str as [p|]; cbn [str_redup old_block].
  - destruct (Hl p eq_refl) as [k Ek]. unfold bind, release. rewrite Ek. cbn [without]. eexists. split; reflexivity.
  - exists (mem h). split; [destruct h; reflexivity|reflexivity].
Qed.
(** A new string inside the old block is always read after its release, or copied onto itself. *)
Lemma redup_alias s fuel p k q h :
  live h !! p = Some k -> p <= q < p + k -> cstr (mem h) q s -> zlen s < W63 -> (length s < fuel)%nat ->
  str_redup alloc junk fuel (Some p) (Some q) h = Term \/ exists u, str_redup alloc junk fuel (Some p) (Some q) h = Undef u.
Proof.
  intros Hl Hq H L Hf. zl.
  assert (exists r, str_redup alloc junk fuel (Some p) (Some q) h = r /\ (r = Term \/ exists u, r = Undef u)) as (r & -> & Q); [|exact Q].
  eexists. split; [reflexivity|]. unfold str_redup, bind. rewrite (strlen_spec s) by assumption. cbv zeta. rewrite u64_id by (unfold W63, W64 in *; lia).
  unfold bd_realloc. rewrite Hl. cbv zeta. destruct (alloc _ _) as [a|] eqn:Ea; [|left; reflexivity]. right.
  unfold memcpy. destruct (_ && _) eqn:X; [eexists; reflexivity|].
  replace (Z.to_nat (zlen s + 1)) with (S (Z.to_nat (zlen s))) by lia. cbn [copy_loop]. unfold bind, ld. cbn [mem].
  replace (S (Z.to_nat (zlen s))) with (Z.to_nat (zlen s + 1)) by lia.
  rewrite fill_lookup, unmap_lookup, !Z2Nat.id by lia. destruct ((a <=? q) && (q <? a + (zlen s + 1))) eqn:X1; [lia|].
  destruct ((p <=? q) && (q <? p + k)) eqn:X2; [|lia]. eexists. reflexivity.
Qed.
End Dup.
Lemma redup_first alloc junk s fuel q h : allocator alloc -> cstr (mem h) q s -> zlen s < W63 -> (length s < fuel)%nat ->
  match alloc (mem h) (zlen s + 1) with
  | None => str_redup alloc junk fuel None (Some q) h = Term
  | Some a => exists m', str_redup alloc junk fuel None (Some q) h = Ok (Some a) (Heap m' (<[a := zlen s + 1]> (live h))) /\
      stored (mem h) a (s ++ [0]) m' /\ forall b, a <= b < a + zlen s + 1 -> mem h !! b = None
  end.
Proof.
  intros Hal H L Hf. pose proof (redup_spec alloc junk Hal s fuel None q h ltac:(discriminate) H L Hf ltac:(discriminate)) as R. cbn in R.
  destruct (alloc (mem h) (zlen s + 1)) as [a|] eqn:Ea; [|exact R]. destruct R as (m' & E & S1). exists m'. split; [exact E|]. split; [exact S1|].
  intros b Hb. apply (Hal _ _ _ Ea). lia.
Qed.
Lemma redup_again alloc junk s fuel p k q h : allocator alloc -> live h !! p = Some k -> 0 <= k -> apart p k q (zlen s + 1) ->
  cstr (mem h) q s -> zlen s < W63 -> (length s < fuel)%nat ->
  exists m0, unmapped (mem h) p k m0 /\
  match alloc m0 (zlen s + 1) with
  | None => str_redup alloc junk fuel (Some p) (Some q) h = Term
  | Some a => exists m', str_redup alloc junk fuel (Some p) (Some q) h = Ok (Some a) (Heap m' (<[a := zlen s + 1]> (delete p (live h)))) /\
      stored m0 a (s ++ [0]) m' /\ forall b, a <= b < a + zlen s + 1 -> m0 !! b = None
  end.
Proof.
  intros Hal Hl Hk A H L Hf. exists (unmap (Z.to_nat k) p (mem h)). split.
  { intros a. rewrite unmap_lookup, Z2Nat.id by lia. reflexivity. }
  assert (old_block (Some p) h = Some (p, k)) as Eo by (cbn; rewrite Hl; reflexivity).
  pose proof (redup_spec alloc junk Hal s fuel (Some p) q h) as R. rewrite Eo in R. cbn [without] in R.
  specialize (R ltac:(intros ? [= <-]; eauto) H L Hf ltac:(intros ? ? [= <- <-]; auto)).
  destruct (alloc _ (zlen s + 1)) as [a|] eqn:Ea; [|exact R]. destruct R as (m' & E & S1). exists m'. split; [exact E|]. split; [exact S1|].
  intros b Hb. apply (Hal _ _ _ Ea). lia.
Qed.
Lemma redup_clear alloc junk fuel p k h : live h !! p = Some k -> 0 <= k ->
  exists m0, unmapped (mem h) p k m0 /\ str_redup alloc junk fuel (Some p) None h = Ok None (Heap m0 (delete p (live h))).
Proof.
  intros Hl Hk. exists (unmap (Z.to_nat k) p (mem h)). split.
  { intros a. rewrite unmap_lookup, Z2Nat.id by lia. reflexivity. }
  unfold str_redup, bind, release. rewrite Hl. reflexivity.
Qed.
(** Example memory: a heap with strings at given places, an allocator that takes the first address above all others. *)
Fixpoint put (p : Z) (l : chars) (m : gmap Z Z) : gmap Z Z := match l with [] => m | c :: r => <[p := c]> (put (p + 1) r m) end.
Definition top (m : gmap Z Z) : Z := map_fold (fun a _ r => Z.max (a + 1) r) 1000 m.
Definition above (m : gmap Z Z) (n : Z) : option Z := Some (top m).
Lemma top_above m a : is_Some (m !! a) -> a < top m.
Proof.
  unfold top. revert a. apply (map_fold_ind (fun r m => forall a, is_Some (m !! a) -> a < r)).
  - intros a [x E]. rewrite lookup_empty in E. discriminate.
  - intros i x m' r N IH a [y E]. destruct (Z.eq_dec i a) as [->|Ne]; [lia|]. rewrite lookup_insert_ne in E by assumption.
    assert (a < r) by (apply IH; eauto). lia.
Qed.
Lemma above_allocator : allocator above.
Proof.
  intros m n a [= <-] b Hb. destruct (m !! b) as [x|] eqn:E; [|reflexivity]. pose proof (top_above m b ltac:(eauto)). lia.
Qed.
Lemma calloc_spec alloc n h : 0 <= n ->
  match alloc (mem h) n with
  | None => bd_calloc alloc n h = Term
  | Some a => exists m', bd_calloc alloc n h = Ok a (Heap m' (<[a := n]> (live h))) /\ stored (mem h) a (zrep n 0) m'
  end.
Proof.
  intros Hn. unfold bd_calloc. destruct (alloc (mem h) n) as [a|]; [|reflexivity]. eexists. split; [reflexivity|].
  intros b. rewrite fill_lookup, Z2Nat.id, zlen_zrep, Z.max_r by lia. destruct (_ && _) eqn:X; [|reflexivity]. rewrite znth_zrep. destruct ((0 <=? b - a) && _) eqn:Y; [reflexivity|lia].
Qed.
Lemma realloc_spec alloc junk p k n l h : live h !! p = Some k -> stands (mem h) p l -> zlen l = k -> 0 <= n ->
  exists m0, unmapped (mem h) p k m0 /\
  match alloc m0 n with
  | None => bd_realloc alloc junk (Some p) n h = Term
  | Some a => exists m', bd_realloc alloc junk (Some p) n h = Ok a (Heap m' (<[a := n]> (delete p (live h)))) /\
      stands m' a (ztake n l) /\ mapped m' a n /\ forall b, ~ a <= b < a + n -> m' !! b = m0 !! b
  end.
Proof.
  intros Hl H Hk Hn. zl. exists (unmap (Z.to_nat k) p (mem h)). split.
  { intros b. rewrite unmap_lookup, Z2Nat.id by lia. reflexivity. }
  unfold bd_realloc. rewrite Hl. cbv zeta. destruct (alloc _ _) as [a|]; [|reflexivity]. eexists. split; [reflexivity|]. split; [|split].
  - intros i c E. rewrite znth_ztake in E. destruct (Z.ltb_spec i n); [|discriminate]. pose proof (znth_inv _ _ _ E). rewrite fill_lookup, Z2Nat.id by lia.
    destruct (_ && _) eqn:X; [|lia]. replace (a + i - a) with i by lia. destruct (Z.ltb_spec i k); [|lia]. rewrite (H i c E). reflexivity.
  - intros b Hb. rewrite fill_lookup, Z2Nat.id by lia. destruct (_ && _) eqn:X; [eauto|lia].
  - intros b Hb. rewrite fill_lookup, Z2Nat.id by lia. destruct (_ && _) eqn:X; [lia|reflexivity].
Qed.
