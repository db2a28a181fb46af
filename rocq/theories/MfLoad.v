(** Loading and writing, with what is left in the Stream exactly. *)
From stdpp Require Import gmap.
From Verif Require Import RcaSpec RcaModel RcaExec RcaInv RcaOwn RcaRel RcaMeet RcaReach RcaFacts StreamSpec StreamModel StreamMeet StreamProof StdioSpec StdioModel StdioMeet StdioProof.
Open Scope Z_scope.

Section Load.
Variable d : desc Z.
Hypothesis Hwf : wf_desc d.
Hypothesis Hnul : d_nul d = Some 0.
Variables x t : positive.
Hypothesis Htx : t <> x.
Notation reached := (RcaMeet.reached d).
Notation step := (RcaMeet.step d).
Notation memlow := (memlow d).

(** Stream [x] holds [v] with the cursor at [p]; all else is as in [a]. *)
Definition here (a : astate Z) (v : list Z) (p : Z) (st : state Z * stream) : Prop :=
  s_str (snd st) = x /\ s_pos (snd st) = p /\ reached (fst st) (<[x := AVal true (map Some v)]> a).

Variable a : astate Z.
Hypothesis Hta : a !! t = None.

Lemma here_t v : (<[x := AVal true (map Some v)]> a : astate Z) !! t = None.
Proof. rewrite lookup_insert_ne by congruence. exact Hta. Qed.
Lemma here_SR v p s z : here a v p (s, z) -> 0 <= p < W64 -> SR d x t s z v p (<[x := AVal true (map Some v)]> a).
Proof. intros (H1 & H2 & H3) Hp. split; try assumption; [exists true; apply lookup_insert|apply here_t]. Qed.
(** puts(String(b, len)) at the end. *)
Lemma puts_block v b s z (P : unit -> _ -> Prop) (Q : exn -> _ -> Prop) : here a v (zlen v) (s, z) -> zlen v + zlen b < W63 ->
  (forall s', here a (v ++ b) (zlen v + zlen b) (s', Stream x (zlen v + zlen b) (s_load z)) -> P tt (s', Stream x (zlen v + zlen b) (s_load z))) ->
  (forall s' v', memlow (zlen v + zlen b + 3) -> v' = v \/ v' = [] -> here a v' (zlen v) (s', z) -> Q BadAlloc (s', z)) ->
  wp (call d (CtorCstrLen t b (zlen b)) ;;; with_local d t (puts d true t) ;;; call d (Destroy t)) P Q (s, z).
Proof.
  intros (Hz & Hpos & Hr) Hb HP HQ. cbn [fst snd] in *. pose proof (zlen_nonneg v). pose proof (zlen_nonneg b).
  set (a1 := <[x := AVal true (map Some v)]> a) in *. assert (Ht1 : a1 !! t = None) by apply here_t.
  assert (Hx1 : a1 !! x = Some (AVal true (map Some v))) by apply lookup_insert.
  apply wp_bind. eapply wp_call; [exact Hwf|exact Hr| |discriminate| |].
  - unfold RcaMeet.step. cbn [spec_step]. rewrite (fresh_val _ _ Ht1), Hnul. unfold is_string.
    assert (true && true && (0 <=? zlen b) && (zlen b <? npos) && (zlen b <=? zlen b) = true) as -> by (unfold npos, W63 in *; lia). cbn [need]. rewrite ztake_all by lia. reflexivity.
  - intros s3 H3. apply wp_bind, wp_local.
    eapply (puts_exact d Hwf Hnul x t Htx true s3 z _ true true v b (zlen v)); [exact Hz|exact Hpos|exact H3|rewrite lookup_insert_ne by congruence; exact Hx1|apply lookup_insert|lia| |].
    + intros s4 H4. assert (Hlt : exists av, put_state x t true true (<[t := AVal true (map Some b)]> a1) v b (zlen v) !! t = Some av).
      { unfold put_state. destruct ((zlen v =? 0) && (zlen v <? zlen b)); rewrite lookup_insert_ne by congruence; rewrite lookup_insert; eauto. }
      destruct Hlt as (av & Ht4). eapply (wp_destroy d Hwf t); [exact H4|exact Ht4|]. intros s5 H5. apply HP. split; [reflexivity|]. split; [reflexivity|]. cbn [fst snd].
      revert H5. unfold put_state. rewrite (over_end x t Htx).
      destruct ((zlen v =? 0) && (zlen v <? zlen b)); [rewrite insert_insert|]; rewrite delete_insert_ne, delete_insert by (first [exact Ht1|congruence]); unfold a1; rewrite insert_insert; auto.
    + intros s4 a4 Hm H4 Ha4. assert (Hlt : exists av, a4 !! t = Some av).
      { destruct Ha4 as [->| ->]; [|rewrite lookup_insert_ne by congruence]; rewrite lookup_insert; eauto. }
      destruct Hlt as (av & Ht4). eapply (wp_destroy d Hwf t); [exact H4|exact Ht4|]. intros s5 H5. destruct Ha4 as [->| ->].
      * rewrite delete_insert in H5 by exact Ht1. apply (HQ s5 v Hm); [auto|]. split; [exact Hz|]. split; [exact Hpos|exact H5].
      * rewrite delete_insert_ne, delete_insert in H5 by (try congruence; exact Ht1). unfold a1 in H5. rewrite insert_insert in H5.
        apply (HQ s5 [] Hm); [auto|]. split; [exact Hz|]. split; [exact Hpos|exact H5].
  - intros s3 y a3 [= <-] Hm H3 Ha3. destruct Ha3 as [->|[[=] _]]. apply (HQ s3 v); [|auto|split; [exact Hz|split; [exact Hpos|exact H3]]].
    eapply memlow_le; [|exact Hm]. cbn [asks]. unfold vlen. rewrite lookup_insert, zlen_map. lia.
Qed.
Lemma seek_start s z v p (P : Z -> _ -> Prop) Q : here a v p (s, z) -> 0 <= p < W64 ->
  (here a v 0 (s, Stream x 0 (s_load z)) -> P 0 (s, Stream x 0 (s_load z))) -> wp (seek 0 0) P Q (s, z).
Proof.
  intros H Hp HP. eapply (seek0 d Hwf x t Htx); [eapply here_SR; eassumption|]. apply HP. destruct H as (_ & _ & H3). split; [reflexivity|]. split; [reflexivity|exact H3].
Qed.

(** What is left when memory runs out. *)
Definition lost (l : list Z) (j : Z) (st : state Z * stream) : Prop :=
  0 <= j /\ exists v', (v' = ztake (1024 * j) l \/ v' = []) /\ here a v' (zlen (ztake (1024 * j) l)) st.
Lemma fread_exact l fuel : forall rest s z k,
  here a (ztake (1024 * k) l) (zlen (ztake (1024 * k) l)) (s, z) -> 0 <= k -> rest = zdrop (1024 * k) l -> (length rest < fuel)%nat -> zlen l < W63 ->
  wp (fread_loop d fuel t rest)
    (fun _ st' => s_load (snd st') = s_load z /\ here a l (zlen l) st')
    (fun e st' => e = BadAlloc /\ memlow (zlen l + 3) /\ exists j, lost l j st') (s, z).
Proof.
  induction fuel as [|fuel IH]; intros rest s z k H Hk -> Hfuel Hl; [lia|]. pose proof (zlen_nonneg l).
  cbn [fread_loop]. set (v := ztake (1024 * k) l) in *. set (b := ztake 1024 (zdrop (1024 * k) l)).
  assert (Hvb : v ++ b = ztake (1024 * (k + 1)) l) by (unfold v, b; rewrite (take_add x t Htx) by lia; f_equal; lia).
  assert (Hzb : zlen v + zlen b <= zlen l) by (rewrite <- zlen_app, Hvb; zls; lia).
  pose proof (zlen_nonneg b). pose proof (zlen_nonneg v).
  destruct (Z.eqb_spec (zlen b) 0) as [E|E].
  - assert (Hvl : v = l) by (unfold v; apply ztake_all; unfold b in E; revert E; zls; lia).
    rewrite Hvl in H. apply wp_ret. split; [reflexivity|]. exact H.
  - assert (Hassoc : forall st P Q, wp ((call d (CtorCstrLen t b (zlen b)) ;;; with_local d t (puts d true t) ;;; call d (Destroy t)) ;;; fread_loop d fuel t (zdrop 1024 (zdrop (1024 * k) l))) P Q st ->
      wp (call d (CtorCstrLen t b (zlen b)) ;;; with_local d t (puts d true t) ;;; call d (Destroy t) ;;; fread_loop d fuel t (zdrop 1024 (zdrop (1024 * k) l))) P Q st).
    { intros st0 P Q. unfold wp, bind. destruct (call d (CtorCstrLen t b (zlen b)) st0) as [? st1|? ?| | |?]; auto. destruct (with_local d t (puts d true t) st1); auto. }
    apply Hassoc, wp_bind. eapply puts_block; [exact H|lia| |].
    + intros s' H'. eapply wp_conseq; [apply (IH (zdrop 1024 (zdrop (1024 * k) l)) s' _ (k + 1))| |].
      * rewrite <- Hvb, zlen_app. exact H'.
      * lia.
      * rewrite zdrop_zdrop by lia. f_equal. lia.
      * assert (zlen (zdrop 1024 (zdrop (1024 * k) l)) < zlen (zdrop (1024 * k) l)); [|unfold zlen in *; lia].
        unfold b in E. revert E. zls; lia.
      * exact Hl.
      * auto.
      * auto.
    + intros s' v' (n & Hn & Hm) Hv' H'. split; [reflexivity|]. split; [exists n; split; [lia|exact Hm]|]. exists k. split; [lia|]. exists v'. split; [exact Hv'|exact H'].
Qed.

(** clear() *)
Lemma clear_here s z v p : SR d x t s z v p a ->
  exists s', sclear d (s, z) = Ok tt (s', Stream x 0 (s_load z)) /\ here a [] 0 (s', Stream x 0 (s_load z)) /\ is_shared x s' = Ok false s'.
Proof.
  intros [Hz Hpos Hpr Hr [rx Hv] Ht].
  assert (Hs : step (Clear x) a = Some (SRet (<[x := AVal true (map Some [])]> a) ONone)).
  { unfold RcaMeet.step. cbn [spec_step]. rewrite (live_val _ _ _ Hv). reflexivity. }
  destruct (step_returns d (Clear x) s a _ ONone Hwf Hr Hs eq_refl) as (s1 & E1 & H1 & _); [discriminate|].
  exists s1. split; [|split; [split; [reflexivity|]; split; [reflexivity|exact H1]|exact (cleared_unshared d x _ _ _ E1)]].
  unfold sclear, bind, str, call, bind, str_call. rewrite Hz, E1. unfold set_pos, ret. rewrite Hz. reflexivity.
Qed.
(** reserve() of an empty Stream. *)
Lemma reserve_here s b n (P : unit -> _ -> Prop) (Q : exn -> _ -> Prop) : here a [] 0 (s, Stream x 0 b) -> is_shared x s = Ok false s -> 0 <= n < W63 ->
  (forall s', here a [] 0 (s', Stream x 0 b) -> P tt (s', Stream x 0 b)) ->
  (forall s', memlow (n + 1024) -> here a [] 0 (s', Stream x 0 b) -> Q BadAlloc (s', Stream x 0 b)) ->
  wp (sreserve d n) P Q (s, Stream x 0 b).
Proof.
  intros (_ & _ & H1) Hsh Hn HP HQ. cbn [fst] in H1. set (a1 := <[x := AVal true (map Some [])]> a) in *.
  assert (Hx1 : a1 !! x = Some (AVal true (map Some []))) by apply lookup_insert.
  unfold sreserve. apply wp_bind. unfold scapacity. apply wp_bind, wp_str. cbn [s_str].
  destruct (capacity_ge d Hwf s a1 x _ _ H1 Hx1) as (c & Hc & Hge & Hcm). unfold wp at 1, str_call. rewrite Hc.
  destruct (Z.ltb_spec n c).
  { apply wp_ret. apply HP. split; [reflexivity|]. split; [reflexivity|exact H1]. }
  apply wp_bind, wp_str. cbn [s_str].
  assert (Hu : exists m, u64 (1024 * (u64 (n + 1024 - 1) / 1024)) = m /\ 0 <= m <= n + 1023 /\ m < npos).
  { eexists. split; [reflexivity|]. rewrite (u64_id (n + 1024 - 1)) by (unfold W64, W63 in *; lia).
    pose proof (Z.div_mod (n + 1024 - 1) 1024 ltac:(lia)). pose proof (Z.mod_pos_bound (n + 1024 - 1) 1024 ltac:(lia)).
    rewrite u64_id by (unfold W64, W63 in *; lia). unfold npos, W63 in *. lia. }
  destruct Hu as (m & -> & Hm & Hmn).
  eapply (wp_reserve d Hwf x t Htx); [exact H1|exact Hx1|exact Hsh|change (zlen (map (@Some Z) [])) with 0; lia| |].
  - intros s2 H2. apply HP. split; [reflexivity|]. split; [reflexivity|exact H2].
  - intros s2 Hno H2. apply HQ; [exists (m + 1); split; [lia|exact Hno]|]. split; [reflexivity|]. split; [reflexivity|exact H2].
Qed.

(** With mmap. *)
Lemma load_fd_exact fails s z v p f : SR d x t s z v p a -> zlen f < W63 ->
  wp (load_fd d fails t f)
    (fun r st' => if fails Lseek || fails MmapRead || (zlen f =? 0) then r = 1 /\ here a [] 0 st' else r = 0 /\ here a f 0 st')
    (fun e st' => e = BadAlloc /\ memlow (2 * zlen f + 2048) /\ here a [] 0 st') (s, z).
Proof.
  intros HSR Hf. pose proof (zlen_nonneg f). unfold load_fd. destruct (clear_here s z v p HSR) as (s1 & E1 & H1 & Hsh).
  apply wp_bind. unfold wp at 1. rewrite E1. destruct (fails Lseek); cbn [orb].
  { apply wp_ret. auto. }
  apply wp_bind. eapply reserve_here; [exact H1|exact Hsh|lia| |].
  2:{ intros s' (n & Hn & Hm) H'. split; [reflexivity|]. split; [exists n; split; [lia|exact Hm]|exact H']. }
  intros s2 H2. destruct (fails MmapRead || (zlen f =? 0)).
  { apply wp_ret. auto. }
  apply wp_bind, wp_set_loading. cbn [s_str s_pos].
  assert (Hassoc : forall (k : MS Z) st P Q, wp ((call d (CtorCstrLen t f (zlen f)) ;;; with_local d t (puts d true t) ;;; call d (Destroy t)) ;;; k) P Q st ->
      wp (call d (CtorCstrLen t f (zlen f)) ;;; with_local d t (puts d true t) ;;; call d (Destroy t) ;;; k) P Q st).
  { intros k st0 P Q. unfold wp, bind. destruct (call d (CtorCstrLen t f (zlen f)) st0) as [? st1|? ?| | |?]; auto. destruct (with_local d t (puts d true t) st1); auto. }
  apply Hassoc, wp_bind. eapply (puts_block []); [exact H2|change (zlen (@nil Z)) with 0; lia| |].
  - change (zlen (@nil Z)) with 0. cbn [app Z.add s_load]. intros s3 H3. apply wp_bind. eapply seek_start; [exact H3|unfold W64, W63 in *; lia|]. intros H4. apply wp_bind, wp_set_loading, wp_ret.
    split; [reflexivity|exact H4].
  - change (zlen (@nil Z)) with 0. intros s3 v' (n & Hn & Hm) Hv H3. split; [reflexivity|]. split; [exists n; split; [lia|exact Hm]|]. destruct Hv as [->| ->]; exact H3.
Qed.
(** Without mmap. *)
Lemma load_stdio_exact fails s z v p f n : SR d x t s z v p a -> zlen (src_data f) < W63 -> src_seekable f = true ->
  kwp (load_stdio d fails t f)
    (fun r st' n' => n' = n /\ if fails Dup || fails Fdopen then r = 1 /\ here a [] 0 st' else r = 0 /\ here a (arrive (src_data f) (src_error f)) 0 st')
    (fun e st' n' => e = BadAlloc /\ fails Dup || fails Fdopen = false /\ memlow (2 * zlen (src_data f) + 2048) /\ n' = n + 1 /\ (exists j, lost (arrive (src_data f) (src_error f)) j st')) (s, z) n.
Proof.
  intros HSR Hf Hseek. pose proof (zlen_nonneg (src_data f)).
  assert (Hend : ftell_end f = zlen (src_data f)) by (unfold ftell_end; rewrite Hseek; apply u64_id; unfold W64, W63 in *; lia).
  unfold load_stdio. destruct (clear_here s z v p HSR) as (s1 & E1 & H1 & Hsh).
  apply kwp_bind, kwp_on. unfold wp. rewrite E1.
  destruct (fails Dup); cbn [orb].
  { apply kwp_ret. auto. }
  apply kwp_bind, kwp_opened. destruct (fails Fdopen).
  { apply kwp_bind, kwp_closed, kwp_ret. split; [lia|]. auto. }
  apply kwp_bind, kwp_on, wp_set_loading. cbn [s_str s_pos].
  set (l := arrive (src_data f) (src_error f)). assert (Hl : zlen l <= zlen (src_data f)).
  { unfold l, arrive. destruct (src_error f); [zls; lia|lia]. }
  assert (El : readable f = l) by reflexivity. rewrite El. clear El.
  apply kwp_bind, kwp_on. eapply reserve_here; [exact H1|exact Hsh| | |].
  - lia.
  - intros s2 H2. apply kwp_bind, kwp_on. eapply wp_conseq; [apply (fread_exact l (S (length l)) l s2 _ 0)| |].
    + change (1024 * 0) with 0. rewrite (ztake_0 0) by lia. exact H2.
    + lia.
    + symmetry. apply zdrop_0. lia.
    + lia.
    + lia.
    + intros _ [s' z'] (_ & H3). apply kwp_bind, kwp_closed, kwp_bind, kwp_on. pose proof (zlen_nonneg l).
      eapply seek_start; [exact H3|unfold W64, W63 in *; lia|]. intros H4. apply kwp_bind, kwp_on, wp_set_loading, kwp_ret. split; [lia|]. split; [reflexivity|exact H4].
    + intros e st' (-> & (m & Hm & Hno) & Hj). split; [reflexivity|]. split; [reflexivity|]. split; [exists m; split; [lia|exact Hno]|]. split; [reflexivity|exact Hj].
  - intros s2 (m & Hm & Hno) H2. split; [reflexivity|]. split; [reflexivity|]. split; [|split; [reflexivity|]].
    + exists m. split; [lia|exact Hno].
    + exists 0. split; [lia|]. change (1024 * 0) with 0. rewrite (ztake_0 0) by lia. exists []. auto.
Qed.
End Load.
