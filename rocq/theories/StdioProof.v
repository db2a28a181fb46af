From Verif Require Import RcaSpec RcaModel RcaExec RcaInv RcaOwn RcaRel RcaMeet RcaReach RcaFacts RcaFacts2 StreamSpec StreamModel StreamMeet StreamProof StdioSpec StdioModel StdioMeet.
Open Scope Z_scope.

(** Reading in blocks and writing at once does what is expected. *)

Lemma kwp_bind {A B} (m : MK A) (k : A -> MK B) P Q st n :
  kwp m (fun v st' n' => kwp (k v) P Q st' n') Q st n -> kwp (bind m k) P Q st n.
Proof. unfold kwp, bind. destruct (m (st, n)) as [v [st' n']|e [st' n']| | |u]; auto. Qed.
Lemma kwp_ret {A} (v : A) (P : A -> _ -> _ -> Prop) Q st n : P v st n -> kwp (ret v) P Q st n.
Proof. exact (fun H => H). Qed.
Lemma kwp_on {A} (m : MS A) (P : A -> _ -> _ -> Prop) Q st n :
  wp m (fun v st' => P v st' n) (fun e st' => Q e st' n) st -> kwp (on m) P Q st n.
Proof. unfold wp, kwp, on. destruct (m st); auto. Qed.
Lemma kwp_opened (P : unit -> _ -> _ -> Prop) Q st n : P tt st (n + 1) -> kwp opened P Q st n.
Proof. exact (fun H => H). Qed.
Lemma kwp_closed (P : unit -> _ -> _ -> Prop) Q st n : P tt st (n - 1) -> kwp closed P Q st n.
Proof. exact (fun H => H). Qed.
Lemma kwp_conseq {A} (m : MK A) (P P' : A -> _ -> _ -> Prop) (Q Q' : exn -> _ -> _ -> Prop) st n :
  kwp m P Q st n -> (forall v st' n', P v st' n' -> P' v st' n') -> (forall e st' n', Q e st' n' -> Q' e st' n') -> kwp m P' Q' st n.
Proof. unfold kwp. destruct (m (st, n)) as [v [st' n']|e [st' n']| | |u]; auto. Qed.

Lemma taken_len f w : 0 <= match snk_room f with Some k => k | None => 0 end ->
  zlen (taken f w) = match snk_room f with None => zlen w | Some k => Z.min k (zlen w) end.
Proof. unfold taken. destruct (snk_room f); intros; [zls; lia|reflexivity]. Qed.
Lemma written_ok f w : 0 <= snk_pos f -> patched (snk_data f) (snk_pos f) w (written f w).
Proof.
  intros Hp. unfold patched, written. pose proof (zlen_nonneg w). pose proof (zlen_nonneg (snk_data f)). set (D := snk_data f) in *. set (p := snk_pos f) in *.
  destruct (Z.eqb_spec (zlen w) 0) as [E|E].
  - split; [lia|]. intros i Hi. assert ((p <=? i) && (i <? p + zlen w) = false) as -> by lia. destruct (Z.ltb_spec i (zlen D)); [reflexivity|lia].
  - assert (Hzr : zlen (zrep (p - zlen D) 0) = Z.max 0 (p - zlen D)) by (zls; lia).
    split.
    { rewrite !zlen_app, Hzr. zls; lia. }
    intros i Hi. assert (Hzw : zlen (ztake p D ++ zrep (p - zlen D) 0 ++ w ++ zdrop (p + zlen w) D) = Z.max (zlen D) (p + zlen w)) by (rewrite !zlen_app, Hzr; zls; lia). rewrite Hzw in Hi. clear Hzw.
    rewrite !znth_app, Hzr, znth_ztake, znth_zrep, znth_zdrop.
    assert (zlen (ztake p D) = Z.min p (zlen D)) as -> by (zls; lia).
    repeat match goal with |- context [?a <? ?b] => destruct (Z.ltb_spec a b) | |- context [?a <=? ?b] => destruct (Z.leb_spec a b) end; cbn [andb]; try lia; try reflexivity; f_equal; try lia.
    all: rewrite znth_ge by lia; reflexivity.
Qed.

Section Stdio.
Variable d : desc Z.
Hypothesis Hwf : wf_desc d.
Hypothesis Hnul : d_nul d = Some 0.
Variables x t : positive.
Hypothesis Htx : t <> x.
Notation reached := (RcaMeet.reached d).
Notation step := (RcaMeet.step d).
Notation SR := (SR d x t).
Notation keeps := (keeps x).
Notation memlow := (memlow d).
Notation holds_now := (holds_now d x t).

Lemma over_end v w : over v (zlen v) w = v ++ w.
Proof. pose proof (zlen_nonneg w). unfold over. rewrite ztake_all, zdrop_all, app_nil_r by lia. reflexivity. Qed.
Lemma keeps_trans a b c : keeps a b -> keeps b c -> keeps a c.
Proof. intros H1 H2 y Hy. rewrite H2, H1 by exact Hy. reflexivity. Qed.

Lemma take_add {A} i j (l : list A) : 0 <= i -> 0 <= j -> ztake i l ++ ztake j (zdrop i l) = ztake (i + j) l.
Proof.
  intros Hi Hj. rewrite <- (ztake_zdrop i l) at 3. rewrite ztake_app. destruct (Z.le_gt_cases i (zlen l)).
  - f_equal; [symmetry; apply ztake_all; zls; lia|]. f_equal. zls; lia.
  - rewrite (zdrop_all i l) by lia. f_equal; [symmetry; apply ztake_all; zls; lia|]. unfold ztake. rewrite !firstn_nil. reflexivity.
Qed.
Lemma fread_ok l fuel : forall rest s z a k,
  SR s z (ztake (1024 * k) l) (zlen (ztake (1024 * k) l)) a -> 0 <= k -> rest = zdrop (1024 * k) l -> (length rest < fuel)%nat -> zlen l < W63 ->
  wp (fread_loop d fuel t rest)
    (fun _ '(s', z') => s_load z' = s_load z /\ exists a', SR s' z' l (zlen l) a' /\ keeps a a')
    (fun e '(s', z') => e = BadAlloc /\ memlow (zlen l + 3) /\ exists v' p' a', some_blocks l v' /\ SR s' z' v' p' a' /\ keeps a a') (s, z).
Proof.
  induction fuel as [|fuel IH]; intros rest s z a k H Hk -> Hfuel Hl; [lia|].
  pose proof H as [Hz Hpos Hpr Hr [rx Hv] Ht]. pose proof (zlen_nonneg l).
  cbn [fread_loop]. set (v := ztake (1024 * k) l) in *. set (b := ztake 1024 (zdrop (1024 * k) l)).
  assert (Hvb : v ++ b = ztake (1024 * (k + 1)) l).
  { unfold v, b. rewrite take_add by lia. f_equal. lia. }
  assert (Hzb : zlen v + zlen b <= zlen l).
  { rewrite <- zlen_app, Hvb. zls; lia. }
  pose proof (zlen_nonneg b). pose proof (zlen_nonneg v).
  destruct (Z.eqb_spec (zlen b) 0) as [E|E].
  - (* nothing is left *)
    assert (Hvl : v = l).
    { unfold v. apply ztake_all. unfold b in E. revert E. zls; lia. }
    rewrite Hvl in H. apply wp_ret. split; [reflexivity|]. exists a. split; [exact H|]. intros y _. reflexivity.
  - assert (Hsame : forall a', keeps a a' -> forall r s' z', s_str z' = x -> s_pos z' = zlen v -> reached s' a' -> a' !! t = None ->
      forall v', a' !! x = Some (AVal r (map Some v')) -> SR s' z' v' (zlen v) a').
    { intros a' _ r s' z' G1 G2 G3 G4 v' G5. split; try assumption. exists r. exact G5. }
    assert (Hk0 : some_blocks l v) by (right; exists k; split; [lia|reflexivity]).
    apply wp_bind. eapply wp_call; [exact Hwf|exact Hr| |discriminate| |].
    + unfold RcaMeet.step. cbn [spec_step]. rewrite (fresh_val _ _ Ht), Hnul. unfold is_string.
      assert (true && true && (0 <=? zlen b) && (zlen b <? npos) && (zlen b <=? zlen b) = true) as -> by (unfold npos, W63 in *; lia). cbn [need]. rewrite ztake_all by lia. reflexivity.
    + intros s3 H3. apply wp_bind, wp_local.
      eapply (puts_ok d Hwf Hnul x t Htx true s3 z _ rx true v b (zlen v)); [exact Hz|exact Hpos|exact H3|rewrite lookup_insert_ne by congruence; exact Hv|apply lookup_insert|lia| |].
      * intros s4 a4 H4 (r4 & Hx4) (av & Ht4) Hk4. apply wp_bind. eapply (wp_destroy d Hwf t); [exact H4|exact Ht4|]. intros s5 H5.
        rewrite over_end, Hvb in Hx4.
        assert (Hks : keeps a (delete t a4)).
        { intros y Hy. destruct (Pos.eq_dec y t) as [->|Hyt]; [rewrite lookup_delete; congruence|].
          rewrite lookup_delete_ne, Hk4, lookup_insert_ne by congruence. reflexivity. }
        eapply wp_conseq; [apply (IH (zdrop 1024 (zdrop (1024 * k) l)) s5 _ (delete t a4) (k + 1))| |].
        -- rewrite <- Hvb, zlen_app. split; try reflexivity; [unfold W64, W63 in *; lia|exact H5|exists r4; rewrite lookup_delete_ne, Hvb by congruence; exact Hx4|apply lookup_delete].
        -- lia.
        -- rewrite zdrop_zdrop by lia. f_equal. lia.
        -- assert (zlen (zdrop 1024 (zdrop (1024 * k) l)) < zlen (zdrop (1024 * k) l)); [|unfold zlen in *; lia].
           unfold b in E. revert E. zls; lia.
        -- exact Hl.
        -- intros u [s' z'] (Hld & a' & Hsr & Hka). split; [exact Hld|]. exists a'. split; [exact Hsr|]. eapply keeps_trans; eassumption.
        -- intros e [s' z'] (-> & Hm & v' & p' & a' & Hb & Hsr & Hka). split; [reflexivity|]. split; [exact Hm|]. exists v', p', a'. split; [exact Hb|]. split; [exact Hsr|]. eapply keeps_trans; eassumption.
      * intros s4 a4 Hm H4 Ha4. assert (Hlt : exists av, a4 !! t = Some av).
        { destruct Ha4 as [->| ->]; [|rewrite lookup_insert_ne by congruence]; rewrite lookup_insert; eauto. }
        destruct Hlt as (av & Ht4). eapply (wp_destroy d Hwf t); [exact H4|exact Ht4|]. intros s5 H5.
        split; [reflexivity|]. split; [destruct Hm as (n & Hn & Hm); exists n; split; [lia|exact Hm]|].
        assert (Hks : keeps a (delete t a4)).
        { intros y Hy. destruct (Pos.eq_dec y t) as [->|Hyt]; [rewrite lookup_delete; congruence|].
          rewrite lookup_delete_ne by congruence. destruct Ha4 as [->| ->]; [|rewrite lookup_insert_ne by congruence]; rewrite lookup_insert_ne by congruence; reflexivity. }
        destruct Ha4 as [->| ->].
        -- exists v, (zlen v), (delete t (<[t:=AVal true (map Some b)]> a)). split; [exact Hk0|]. split; [|exact Hks].
           eapply Hsame; [exact Hks|exact Hz|exact Hpos|exact H5|apply lookup_delete|].
           rewrite lookup_delete_ne, lookup_insert_ne by congruence. exact Hv.
        -- exists [], (zlen v), (delete t (<[x:=AVal true []]> (<[t:=AVal true (map Some b)]> a))). split; [left; reflexivity|]. split; [|exact Hks].
           eapply Hsame; [exact Hks|exact Hz|exact Hpos|exact H5|apply lookup_delete|].
           rewrite lookup_delete_ne, lookup_insert by congruence. reflexivity.
    + intros s3 y a3 [= <-] Hm H3 Ha3. destruct Ha3 as [->|[[=] _]]. split; [reflexivity|]. split.
      * eapply memlow_le; [|exact Hm]. cbn [asks]. unfold vlen. rewrite lookup_insert, zlen_map. lia.
      * exists v, (zlen v), a. split; [exact Hk0|]. split; [|intros y _; reflexivity]. split; try assumption. eauto.
Qed.

Variable fails : kcall -> bool.
Lemma load_ok s z a v p f n : SR s z v p a -> zlen (src_data f) < W63 ->
  kwp (load_stdio d fails t f)
    (fun r st' n' => n' = n /\
       if fails Dup || fails Fdopen then r = 1 /\ s_load (snd st') = s_load z /\ holds_now a [] 0 st'
       else r = 0 /\ s_load (snd st') = false /\ holds_now a (arrive (src_data f) (src_error f)) 0 st')
    (fun e st' n' => e = BadAlloc /\ memlow (2 * zlen (src_data f) + 2048) /\ n' = n + 1 /\
       exists v' p', some_blocks (arrive (src_data f) (src_error f)) v' /\ holds_now a v' p' st') (s, z) n.
Proof.
  intros HSR Hf. pose proof HSR as [Hz Hpos Hpr Hr [rx Hv] Ht]. pose proof (zlen_nonneg (src_data f)). unfold load_stdio.
  assert (Hs : step (Clear x) a = Some (SRet (<[x := AVal true (map Some [])]> a) ONone)).
  { unfold RcaMeet.step. cbn [spec_step]. rewrite (live_val _ _ _ Hv). reflexivity. }
  destruct (step_returns d (Clear x) s a _ ONone Hwf Hr Hs eq_refl) as (s1 & E1 & H1 & _); [discriminate|].
  pose proof (cleared_unshared d x _ _ _ E1) as Hsh.
  apply kwp_bind, kwp_on. unfold sclear. apply wp_bind, wp_str. rewrite Hz. apply wp_bind. unfold wp at 1, call, bind, str_call. rewrite E1. unfold ret at 1. apply wp_set_pos.
  rewrite Hz. set (z1 := Stream x 0 (s_load z)). set (a1 := <[x := AVal true (map Some [])]> a) in *.
  assert (Hx1 : a1 !! x = Some (AVal true (map Some []))) by apply lookup_insert.
  assert (Ht1 : a1 !! t = None) by (unfold a1; rewrite lookup_insert_ne by congruence; exact Ht).
  assert (Hk1 : keeps a a1) by (intros y Hy; apply lookup_insert_ne; congruence).
  assert (Hsr : forall s' b, reached s' a1 -> SR s' (Stream x 0 b) [] 0 a1).
  { intros s' b H'. split; try reflexivity; [unfold W64; lia|exact H'|eauto|exact Ht1]. }
  assert (Hemp : forall s' b, reached s' a1 -> holds_now a [] 0 (s', Stream x 0 b)).
  { intros s' b H'. exists a1. split; [apply Hsr, H'|exact Hk1]. }
  destruct (fails Dup); cbn [orb].
  { apply kwp_ret. split; [reflexivity|]. split; [reflexivity|]. split; [reflexivity|]. apply Hemp, H1. }
  apply kwp_bind, kwp_opened. destruct (fails Fdopen).
  { apply kwp_bind, kwp_closed, kwp_ret. split; [lia|]. split; [reflexivity|]. split; [reflexivity|]. apply Hemp, H1. }
  apply kwp_bind, kwp_on, wp_set_loading. change (s_str z1) with x. change (s_pos z1) with 0.
  set (l := arrive (src_data f) (src_error f)). assert (Hl : zlen l <= zlen (src_data f)).
  { unfold l, arrive. destruct (src_error f); [zls; lia|lia]. }
  assert (El : readable f = l) by reflexivity. rewrite El. clear El.
  set (Q := fun (e : exn) (st' : state Z * stream) (n' : Z) => e = BadAlloc /\ memlow (2 * zlen (src_data f) + 2048) /\ n' = n + 1 /\ exists v' p', some_blocks l v' /\ holds_now a v' p' st').
  set (P := fun (r : Z) (st' : state Z * stream) (n' : Z) => n' = n /\ r = 0 /\ s_load (snd st') = false /\ holds_now a l 0 st').
  assert (K : forall s2, reached s2 a1 ->
    kwp (on (fread_loop d (S (length l)) t l) ;;; closed ;;; (let* _ := on (seek 0 0) in on (set_loading false) ;;; ret 0)) P Q (s2, Stream x 0 true) (n + 1)).
  { intros s2 H2. apply kwp_bind, kwp_on. eapply wp_conseq; [apply (fread_ok l (S (length l)) l s2 _ a1 0)| |].
    - change (1024 * 0) with 0. rewrite (ztake_0 0) by lia. apply Hsr, H2.
    - lia.
    - symmetry. apply zdrop_0. lia.
    - lia.
    - lia.
    - intros _ [s' z'] (Hld & a' & Hs' & Hka). apply kwp_bind, kwp_closed, kwp_bind, kwp_on.
      eapply (seek0 d Hwf x t Htx); [exact Hs'|]. apply kwp_bind, kwp_on, wp_set_loading, kwp_ret. unfold P. split; [lia|]. split; [reflexivity|]. split; [reflexivity|].
      exists a'. split; [|eapply keeps_trans; eassumption]. destruct Hs' as [_ _ _ Q4 Q5 Q6]. split; try reflexivity; try assumption. unfold W64; lia.
    - intros e [s' z'] (-> & (m & Hm & Hno) & v' & p' & a' & Hb & Hs' & Hka). split; [reflexivity|]. split; [exists m; split; [lia|exact Hno]|]. split; [reflexivity|].
      exists v', p'. split; [exact Hb|]. exists a'. split; [exact Hs'|]. eapply keeps_trans; eassumption. }
  apply kwp_bind, kwp_on. unfold sreserve. apply wp_bind. unfold scapacity. apply wp_bind, wp_str. cbn [s_str].
  destruct (capacity_ge d Hwf s1 a1 x _ _ H1 Hx1) as (c & Hc & Hge & Hcm). unfold wp at 1, str_call. rewrite Hc.
  destruct (Z.ltb_spec (ftell_end f) c).
  { apply wp_ret. apply K, H1. }
  apply wp_bind, wp_str. cbn [s_str].
  assert (Hu : exists m, u64 (1024 * (u64 (ftell_end f + 1024 - 1) / 1024)) = m /\ 0 <= m <= zlen (src_data f) + 1023).
  { eexists. split; [reflexivity|]. unfold ftell_end. destruct (src_seekable f).
    - rewrite (u64_id (zlen (src_data f))) by (unfold W64, W63 in *; lia).
      rewrite (u64_id (zlen (src_data f) + 1024 - 1)) by (unfold W64, W63 in *; lia).
      pose proof (Z.div_mod (zlen (src_data f) + 1024 - 1) 1024 ltac:(lia)). pose proof (Z.mod_pos_bound (zlen (src_data f) + 1024 - 1) 1024 ltac:(lia)).
      rewrite u64_id by (unfold W64, W63 in *; lia). lia.
    - change (u64 (1024 * (u64 (u64 (-1) + 1024 - 1) / 1024))) with 0. lia. }
  destruct Hu as (m & -> & Hm).
  eapply (wp_reserve d Hwf x t Htx); [exact H1|exact Hx1|exact Hsh|change (zlen (map (@Some Z) [])) with 0; unfold npos, W63 in *; lia|intros s2 H2; apply K, H2|].
  intros s2 Hno H2. split; [reflexivity|]. split; [exists (m + 1); split; [lia|exact Hno]|]. split; [reflexivity|].
  exists [], 0. split; [left; reflexivity|]. apply Hemp, H2.
Qed.

Lemma write_ok s z a v p f n : SR s z v p a -> 0 <= snk_pos f -> 0 <= match snk_room f with Some k => k | None => 0 end ->
  exists r data, write_stdio fails f (s, z, n) = Ok (r, data) (s, z, n) /\
    if fails Dup || fails Fdopen then r = 1 /\ data = snk_data f
    else exists w, patched (snk_data f) (snk_pos f) w data /\
         match snk_room f with
         | Some k => if k <? zlen v then r = 1 /\ w = ztake k v else r = 0 /\ w = v
         | None => r = 0 /\ w = v
         end.
Proof.
  clear Htx Hnul. intros [Hz Hpos Hpr Hr [rx Hv] Ht] Hp Hroom. destruct (reached_shows d s a Hwf Hr x rx _ Hv) as [Hl _]. rewrite zlen_map in Hl.
  unfold write_stdio. destruct (fails Dup); cbn [orb].
  { exists 1, (snk_data f). split; [reflexivity|]. auto. }
  unfold bind at 1. cbn [opened]. destruct (fails Fdopen).
  { exists 1, (snk_data f). split; [|auto]. unfold bind, closed, ret. do 2 f_equal. lia. }
  unfold bind at 1. unfold on at 1. unfold slength, bind at 1, str at 1. rewrite Hz. unfold str_call at 1. rewrite Hl.
  unfold bind at 1. unfold on at 1, str at 1. rewrite Hz. unfold bind at 1. unfold on at 1, str_call at 1. rewrite (load_bytes d Hwf s a x rx v Hr Hv), bytes_some.
  eexists _, _. split; [unfold bind, closed, ret; do 2 f_equal; lia|].
  exists (taken f v). split; [apply written_ok, Hp|]. rewrite taken_len by exact Hroom. unfold taken. destruct (snk_room f) as [k|].
  - destruct (Z.ltb_spec k (zlen v)).
    + destruct (Z.eqb_spec (Z.min k (zlen v)) (zlen v)); [lia|auto].
    + destruct (Z.eqb_spec (Z.min k (zlen v)) (zlen v)); [|lia]. split; [reflexivity|]. apply ztake_all. lia.
  - rewrite Z.eqb_refl. auto.
Qed.
End Stdio.

(** A file written from the beginning over nothing longer is the data. *)
Lemma patched_all old w new : patched old 0 w new -> zlen old <= zlen w -> new = w.
Proof.
  intros [Hl Hn] Ho. pose proof (zlen_nonneg old). pose proof (zlen_nonneg w).
  assert (Hlw : zlen new = zlen w) by (destruct (Z.eqb_spec (zlen w) 0); lia).
  apply zlist_ext; [exact Hlw|]. intros i Hi. rewrite Hn by lia.
  assert ((0 <=? i) && (i <? 0 + zlen w) = true) as -> by lia. f_equal. lia.
Qed.
Lemma write_name_ok d : wf_desc d -> forall x t s z v p a n old, SR d x t s z v p a ->
  write_stdio_name (fun _ => false) old None (s, z, n) = Ok (0, Some v) (s, z, n).
Proof.
  intros Hwf x t s z v p a n old H. unfold write_stdio_name. unfold bind at 1. cbn [opened].
  destruct (write_ok d Hwf x t (fun _ => false) s z a v p (Sink [] 0 None) (n + 1) H ltac:(cbn; lia) ltac:(cbn; lia)) as (r & data & E & w & Hp & -> & ->).
  unfold bind at 1. rewrite E. cbn [snk_data snk_pos] in Hp. apply patched_all in Hp; [|apply zlen_nonneg]. subst data.
  unfold bind, closed, ret. cbn [fst snd]. do 2 f_equal. lia.
Qed.
Lemma roundtrip d : wf_desc d -> d_nul d = Some 0 -> forall x t x' t', t' <> x' ->
  forall s z a v p old n s2 z2 a2 v2 p2 m, SR d x t s z v p a -> SR d x' t' s2 z2 v2 p2 a2 ->
  exists f, write_stdio_name (fun _ => false) old None (s, z, n) = Ok (0, Some f) (s, z, n) /\
  kwp (load_stdio_name d (fun _ => false) t' (Some (Source f true None)))
    (fun r st' m' => r = 0 /\ m' = m /\ holds_now d x' t' a2 v 0 st')
    (fun e st' m' => e = BadAlloc /\ memlow d (2 * zlen v + 2048)) (s2, z2) m.
Proof.
  intros Hwf Hnul x t x' t' Htx s z a v p old n s2 z2 a2 v2 p2 m H H2. exists v. split; [eapply write_name_ok; eassumption|].
  assert (zlen v < W63).
  { destruct (sr_val _ _ _ _ _ _ _ _ H) as (r & Hx). pose proof (reached_len d s a x r _ Hwf (sr_reached _ _ _ _ _ _ _ _ H) Hx) as K. rewrite zlen_map in K. unfold W63, max_alloc in *. lia. }
  cbn [load_stdio_name]. apply kwp_bind, kwp_opened, kwp_bind.
  eapply kwp_conseq; [apply (load_ok d Hwf Hnul x' t' Htx (fun _ => false) s2 z2 a2 v2 p2 (Source v true None) (m + 1) H2); assumption| |].
  - intros r st' n' (-> & -> & _ & Hh). apply kwp_bind, kwp_closed, kwp_ret. split; [reflexivity|]. split; [lia|exact Hh].
  - intros e st' n' (-> & Hm & _). auto.
Qed.
(** The two ways of loading give the same. *)
Lemma same_load d : wf_desc d -> d_nul d = Some 0 -> forall x t, t <> x ->
  forall s z a v p f n r1 st1 r2 st2 n2, SR d x t s z v p a -> f <> [] -> zlen f < W63 ->
  load_fd d (fun _ => false) t f (s, z) = Ok r1 st1 ->
  load_stdio d (fun _ => false) t (Source f true None) (s, z, n) = Ok r2 (st2, n2) ->
  r1 = 0 /\ r2 = 0 /\ holds_now d x t a f 0 st1 /\ holds_now d x t a f 0 st2 /\ s_load (snd st1) = s_load (snd st2).
Proof.
  intros Hwf Hnul x t Htx s z a v p f n r1 st1 r2 st2 n2 H Hf Hl E1 E2.
  pose proof (StreamProof.load_ok d Hwf Hnul x t Htx (fun _ => false) s z a v p f H Hl) as K1. unfold wp in K1. rewrite E1 in K1. destruct st1 as [s1 z1].
  assert (Hlf : load_fails (fun _ => false) f = false).
  { unfold load_fails. cbn [orb]. destruct (Z.eqb_spec (zlen f) 0) as [E0|_]; [apply zlen_0_nil in E0; contradiction|reflexivity]. }
  rewrite Hlf in K1. destruct K1 as (-> & L1 & Ha1).
  pose proof (load_ok d Hwf Hnul x t Htx (fun _ => false) s z a v p (Source f true None) n H Hl) as K2. unfold kwp in K2. rewrite E2 in K2. destruct K2 as (_ & -> & L2 & Ha2).
  cbn [snd] in *. split; [reflexivity|]. split; [reflexivity|]. split; [exact Ha1|]. split; [exact Ha2|]. rewrite L1, L2. reflexivity.
Qed.
(** By name. *)
Lemma load_name_ok d : wf_desc d -> d_nul d = Some 0 -> forall x t, t <> x ->
  forall fails s z a v p file n, SR d x t s z v p a -> match file with Some f => zlen (src_data f) < W63 | None => True end ->
  kwp (load_stdio_name d fails t file)
    (fun r st' n' => n' = n /\
       match file with
       | Some f =>
         if fails KOpenRead then r = 1 /\ st' = (s, z)
         else if fails Dup || fails Fdopen then r = 1 /\ s_load (snd st') = s_load z /\ holds_now d x t a [] 0 st'
         else r = 0 /\ s_load (snd st') = false /\ holds_now d x t a (arrive (src_data f) (src_error f)) 0 st'
       | None => r = 1 /\ st' = (s, z)
       end)
    (fun e st' n' => e = BadAlloc /\ n' = n + 2 /\ exists f v' p', file = Some f /\ memlow d (2 * zlen (src_data f) + 2048) /\
       some_blocks (arrive (src_data f) (src_error f)) v' /\ holds_now d x t a v' p' st') (s, z) n.
Proof.
  intros Hwf Hnul x t Htx fails s z a v p [f|] n H Hf; cbn [load_stdio_name]; [|repeat split]. destruct (fails KOpenRead); [repeat split|].
  apply kwp_bind, kwp_opened, kwp_bind. eapply kwp_conseq; [apply (load_ok d Hwf Hnul x t Htx fails s z a v p f (n + 1) H Hf)| |].
  - intros r st' n' (-> & K). apply kwp_bind, kwp_closed, kwp_ret. split; [lia|exact K].
  - intros e st' n' (-> & M & -> & v' & p' & B & K). split; [reflexivity|]. split; [lia|]. exists f, v', p'. auto.
Qed.
Lemma write_name_ok' d : wf_desc d -> forall x t fails s z a v p file room n, SR d x t s z v p a -> 0 <= match room with Some k => k | None => 0 end ->
  exists r file', write_stdio_name fails file room (s, z, n) = Ok (r, file') (s, z, n) /\
    if fails KOpenWrite then r = 1 /\ file' = file
    else if fails Dup || fails Fdopen then r = 1 /\ file' = Some []
    else match room with
         | Some k => if k <? zlen v then r = 1 /\ file' = Some (ztake k v) else r = 0 /\ file' = Some v
         | None => r = 0 /\ file' = Some v
         end.
Proof.
  intros Hwf x t fails s z a v p file room n H Hr. unfold write_stdio_name. destruct (fails KOpenWrite); [eexists _, _; split; [reflexivity|auto]|].
  unfold bind at 1. cbn [opened]. destruct (write_ok d Hwf x t fails s z a v p (Sink [] 0 room) (n + 1) H ltac:(cbn; lia) Hr) as (r & data & E & K).
  unfold bind at 1. rewrite E. cbn [snk_data snk_pos snk_room fst snd] in K |- *. unfold bind, closed, ret. exists r, (Some data). split; [do 2 f_equal; lia|].
  destruct (fails Dup || fails Fdopen); [destruct K as [-> ->]; auto|]. destruct K as (w & Hp & K). apply patched_all in Hp; [|apply zlen_nonneg]. subst data.
  destruct room as [k|]; [destruct (k <? zlen v)|]; destruct K as [-> ->]; auto.
Qed.
