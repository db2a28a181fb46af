(** Algorithms over iterators act as on lists. *)
From stdpp Require Import gmap.
From Verif Require Import ZList RcaSpec RcaModel RcaExec RcaInv RcaOwn RcaRel RcaRel2 RcaMod RcaMeet RcaMain RcaReach RcaFacts RcaFacts2 ZListMod PtrSpec PtrProof IterSpec IterModel IterMeet.
From Coq Require Import ZifyBool.
Open Scope Z_scope.

Section Iter.
Context {T A : Type} (d : desc T).
Implicit Types (s : state T) (x y : positive) (a : astate T) (v w : list (option T)).
Notation reached := (reached d).

(** [x] has a buffer of its own with the room begin() asks for; [nul]: its last byte is set. *)
Definition own (nul : bool) x (l : positive) (g : nat) (off len : Z) s : Prop := exists b, st_env s !! x = Some (Obj (Some l) off len 0) /\ st_heap s !! l = Some (Cell b g 1) /\
  0 <= off /\ 0 <= len /\ off + room d len <= zlen b /\ zlen b < W63 /\ (nul = true -> forall z, d_nul d = Some z -> b <> [] -> znth (zlen b - 1) b = Some (Some z)).

Lemma first_own s a x r v s1 : wf_desc d -> reached s a -> a !! x = Some (AVal r v) -> get_own_copy d x s = Ok tt s1 -> exists l g off, own false x l g off (zlen v) s1.
Proof.
  intros Hwf H Ha E. pose proof (reached_R d s a Hwf H) as HR. pose proof (own_copy_R d s a x r v HR Ha) as Hr. unfold runs in Hr. rewrite E in Hr.
  destruct Hr as (off & b & HO & Hroom & _). pose proof (owns_facts d _ _ _ _ _ _ HO) as (Q1 & Q2 & Q3 & Q4). destruct HO as (I & F & l & g & Hx & Hl).
  exists l, g, off, b. repeat split; auto; try lia; try discriminate. all: unfold max_alloc, W63 in *; lia.
Qed.

Lemma again_own nul x l g off len s : own nul x l g off len s -> exists s', get_own_copy d x s = Ok tt s' /\ own true x l g off len s' /\ (nul = true -> s' = s).
Proof.
  intros (b & Hx & Hl & Ho & Hn & Hroom & Hmax & Hnul). pose proof (room_ge d len) as Hge.
  unfold get_own_copy, length_of. unfold bind at 1. unfold bind at 1, get_obj at 1. rewrite Hx. cbn [ret o_len]. unfold about_to_modify. unfold bind at 1. unfold bind at 1, get_obj at 1, set_obj. rewrite Hx. cbn [o_ref o_off o_len].
  assert (with_env s (<[x := Obj (Some l) off len 0]> (st_env s)) = s) as ->. { unfold with_env. rewrite (insert_id _ _ _ Hx). destruct s; reflexivity. }
  assert (is_shared x s = Ok false s) as Esh. { unfold is_shared, bind, get_obj, get_cell, ret. rewrite Hx. cbn [o_ref]. rewrite Hl. reflexivity. }
  unfold bind at 1. rewrite Esh. cbv iota.
  assert (forall k sc, 0 <= k -> off + k <= zlen b -> base_reserve d x k sc s = Ok tt s) as Hbase.
  { intros k sc Hk0 Hk. unfold base_reserve, bind, get_obj, ret. rewrite Hx. cbn [o_ref o_off o_len]. unfold aref_reserve, bind, get_cell. rewrite Hl. cbn [c_buf c_gen c_refs]. cbv zeta.
    assert ((zlen b <? k) = false) as -> by lia. rewrite u64_id by (unfold W63, W64 in *; lia). assert ((zlen b - off <? k) = false) as -> by lia.
    unfold ret, set_obj. cbn. f_equal. unfold with_env. rewrite (insert_id _ _ _ Hx). destruct s; reflexivity. }
  unfold v_reserve. unfold room in *. destruct (d_nul d) as [z|] eqn:En.
  - cbv zeta. set (k := if 0 <? len then u64 (len + 1) else len).
    assert (base_reserve d x k (d_grow d) s = Ok tt s) as Eb.
    { apply Hbase; unfold k; destruct (Z.ltb_spec 0 len); try lia; rewrite u64_id; unfold W63, W64 in *; lia. }
    unfold bind. rewrite Eb. unfold get_obj. rewrite Hx. cbn [o_ref o_off]. unfold get_cell. rewrite Hl. cbn [c_buf c_gen c_refs].
    destruct b as [|b0 b'].
    + change (zlen (@nil (option T))) with 0 in *. assert (off = 0) as -> by lia. cbn. exists s. split; [reflexivity|]. split; [|auto]. exists []. unfold room. rewrite En. repeat split; auto; cbn; try lia.
    + set (b := b0 :: b') in *. assert (1 <= zlen b) as Hb by (unfold b; rewrite zlen_cons; pose proof (zlen_nonneg b'); lia).
      unfold set_cell. eexists. split; [reflexivity|]. split.
      * exists (zupd (zlen b - 1) [Some z] b). cbn [with_heap st_env st_heap]. rewrite lookup_insert. rewrite zlen_zupd by (change (zlen [Some z]) with 1; lia). unfold room; rewrite En. repeat split; auto.
        intros _ z' [= <-] _. rewrite znth_zupd by lia. change (zlen [Some z]) with 1. assert ((zlen b - 1 <=? zlen b - 1) && (zlen b - 1 <? zlen b - 1 + 1) = true) as E by lia.
        destruct (Z.leb_spec (zlen b - 1) (zlen b - 1)); [|lia]. cbn. destruct (Z.ltb_spec (zlen b - 1) (zlen b - 1 + 1)); [|lia]. rewrite Z.sub_diag. reflexivity.
      * intros Hq. specialize (Hnul Hq z eq_refl ltac:(discriminate)). assert (zupd (zlen b - 1) [Some z] b = b) as ->.
        { apply zlist_ext_opt. intros i. rewrite znth_zupd by lia. change (zlen [Some z]) with 1. destruct ((zlen b - 1 <=? i) && (i <? zlen b - 1 + 1)) eqn:Ei; [|reflexivity].
          replace i with (zlen b - 1) by lia. rewrite Z.sub_diag, Hnul. reflexivity. }
        unfold with_heap. rewrite (insert_id _ _ _ Hl). destruct s; reflexivity.
  - rewrite Hbase by lia. exists s. split; [reflexivity|]. split; [|auto]. exists b. unfold room. rewrite En. repeat split; auto; discriminate.
Qed.

(** Writing through a pointer into it. *)
Lemma own_put x l g off len s i e : own true x l g off len s -> 0 <= i < len -> exists s', ptr_write (Ptr l g (off + i)) e s = Ok tt s' /\ own true x l g off len s'.
Proof.
  intros (b & Hx & Hl & Ho & Hn & Hroom & Hmax & Hnul) Hi. pose proof (room_ge d len) as Hge.
  unfold ptr_write, bind, get_cell, set_cell. cbn [p_loc p_gen p_idx]. rewrite Hl. cbn [c_gen c_buf c_refs]. rewrite Nat.eqb_refl. cbn [negb].
  assert ((0 <=? off + i) && (off + i <? zlen b) = true) as -> by lia. eexists. split; [reflexivity|].
  exists (zupd (off + i) [Some e] b). cbn [with_heap st_env st_heap]. rewrite lookup_insert. rewrite zlen_zupd by (change (zlen [Some e]) with 1; lia). repeat split; auto.
  intros _ z Hz _. rewrite znth_zupd by lia. change (zlen [Some e]) with 1. unfold room in Hroom. rewrite Hz in Hroom. assert ((0 <? len) = true) as E by lia. rewrite E in Hroom.
  assert ((off + i <=? zlen b - 1) && (zlen b - 1 <? off + i + 1) = false) as -> by lia. apply Hnul; auto. intros ->. change (zlen (@nil (option T))) with 0 in *. lia.
Qed.
Lemma own_begin x l g off len s : own true x l g off len s -> begin_ptr d x s = Ok (Ptr l g off) s.
Proof.
  intros H. destruct (again_own _ _ _ _ _ _ _ H) as (s' & E & _ & Hs). rewrite (Hs eq_refl) in E. unfold begin_ptr, bind. rewrite E. destruct H as (b & Hx & Hl & Ho & Hn & Hroom & Hmax & _).
  pose proof (room_ge d len). unfold ptr_to, bind, get_obj, get_cell. rewrite Hx. cbn [o_ref o_off]. rewrite Hl. cbn [c_gen]. rewrite Z.add_0_r, u64_id by (unfold W63, W64 in *; lia). reflexivity.
Qed.

(** Ranges and lists. *)
Lemma turn_turn {B} b (v : list B) : turn b (turn b v) = v.
Proof. destruct b; [apply rev_involutive|reflexivity]. Qed.
Lemma zlen_turn {B} b (v : list B) : zlen (turn b v) = zlen v.
Proof. destruct b; [apply zlen_rev|reflexivity]. Qed.
Definition pos_of (b : bool) (n i : Z) : Z := if b then n - i - 1 else i.
Lemma znth_turn {B} b (v : list B) i : 0 <= i < zlen v -> znth i (turn b v) = znth (pos_of b (zlen v) i) v.
Proof. intros H. destruct b; [|reflexivity]. cbn. rewrite znth_rev by exact H. f_equal. lia. Qed.
Lemma turn_over b v i e : 0 <= i < zlen v -> sp_over (turn b v) i [Some e] = turn b (sp_over v (pos_of b (zlen v) i) [Some e]).
Proof.
  intros H. destruct b; [|reflexivity]. cbn. change (zupd i [Some e] (rev v) = rev (zupd (zlen v - i - 1) [Some e] v)).
  assert (zlen (zupd (zlen v - i - 1) [Some e] v) = zlen v) as Hl by (apply zlen_zupd; change (zlen [Some e]) with 1; lia).
  apply zlist_ext_opt. intros j. rewrite znth_zupd by (rewrite zlen_rev; lia). change (zlen [Some e]) with 1.
  destruct (Z.ltb_spec j 0) as [Hj|Hj].
  { assert ((i <=? j) && (j <? i + 1) = false) as -> by lia. unfold znth. assert ((j <? 0) = true) as -> by lia. reflexivity. }
  destruct (Z.ltb_spec j (zlen v)) as [Hj2|Hj2].
  - rewrite (znth_rev j (zupd _ _ _)) by lia. rewrite Hl, (znth_rev j v) by lia. rewrite znth_zupd by lia. change (zlen [Some e]) with 1.
    assert ((zlen v - i - 1 <=? zlen v - 1 - j) && (zlen v - 1 - j <? zlen v - i - 1 + 1) = (i <=? j) && (j <? i + 1)) as -> by lia.
    destruct ((i <=? j) && (j <? i + 1)) eqn:E; [|reflexivity]. f_equal. lia.
  - assert ((i <=? j) && (j <? i + 1) = false) as -> by lia. rewrite !znth_ge by (rewrite zlen_rev; lia). reflexivity.
Qed.
Lemma zlen_over v i e : 0 <= i < zlen v -> zlen (sp_over v i [Some e]) = zlen v.
Proof. intros H. change (zlen (zupd i [Some e] v) = zlen v). apply zlen_zupd; change (zlen [Some e]) with 1; lia. Qed.

(** A range that is read shows the list. *)
Definition reads (r : range) w s : Prop := forall i e, znth i w = Some (Some e) -> exists q, (forall s', at_ r i s' = Ok q s') /\ ptr_read q s = Ok e s.
Lemma crange_ok s a y r v back : wf_desc d -> reached s a -> a !! y = Some (AVal r v) ->
  exists rg, crange_of y back s = Ok rg s /\ size_of rg s = Ok (zlen v) s /\
    forall i e, znth i (turn back v) = Some (Some e) -> exists q j, (forall s', at_ rg i s' = Ok q s') /\ ptr_to y j s = Ok q s /\ ptr_read q s = Ok e s.
Proof.
  intros Hwf H Ha. pose proof (reached_R d s a Hwf H) as HR. destruct (R_held d _ _ _ _ _ HR Ha) as (o & Hh). pose proof Hh as [Hx Hg Hv Hrm Hlen Hoff Hfit Hcap].
  pose proof (zlen_nonneg v) as Hn. assert (length_of y s = Ok (zlen v) s) as El by (unfold length_of, bind, get_obj, ret; rewrite Hx; congruence). destruct (o_ref o) as [l|] eqn:Er.
  - destruct (inv_ref_live d s y o l (proj1 HR) Hx Er) as (c & Hc).
    assert (cbegin_ptr y s = Ok (Some (Ptr l (c_gen c) (u64 (o_off o + 0)))) s) as Eb. { unfold cbegin_ptr, ptr_to, bind, get_obj, get_cell, ret. rewrite Hx, Er, Hx, Er, Hc. reflexivity. }
    unfold crange_of, cend_ptr. rewrite (bind_ok _ _ _ _ _ Eb). unfold bind. rewrite Eb, El. unfold ret. cbn [p_loc p_gen p_idx].
    eexists. split; [reflexivity|]. unfold size_of. cbn [it_lo it_hi p_loc p_gen p_idx]. rewrite Pos.eqb_refl, Nat.eqb_refl. cbn [andb]. unfold ret. split; [f_equal; lia|].
    intros i e Hi. pose proof (znth_inv _ _ _ Hi) as Hb. rewrite zlen_turn in Hb. rewrite znth_turn in Hi by exact Hb.
    destruct (points d s a y r v _ e Hwf H Ha Hi) as (p & Hp & Hr). exists p, (pos_of back (zlen v) i). revert Hp. unfold ptr_to, bind, get_obj, get_cell, ret. rewrite Hx, Er, Hc. intros Hp. split; [|auto].
    injection Hp as <-. intros s'. unfold at_, ret, pos_of. cbn [it_back it_lo it_hi]. pose proof max_alloc_lt. destruct back; cbn [p_loc p_gen p_idx]; rewrite !u64_id by (unfold W63, W64 in *; lia); f_equal; f_equal; lia.
  - destruct (Hg Er) as (_ & Hl & _). assert (cbegin_ptr y s = Ok None s) as Eb by (unfold cbegin_ptr, bind, get_obj, ret; rewrite Hx, Er; reflexivity).
    unfold crange_of, cend_ptr. rewrite (bind_ok _ _ _ _ _ Eb). unfold bind. rewrite Eb, El. unfold ret. assert (zlen v = 0) as E0 by lia. rewrite E0. cbn [Z.eqb]. eexists. split; [reflexivity|]. split; [unfold size_of; cbn; unfold ret; f_equal; lia|].
    intros i e Hi. pose proof (znth_inv _ _ _ Hi) as Hb. rewrite zlen_turn in Hb. lia.
Qed.

Lemma cranges_ok s a : wf_desc d -> reached s a -> forall ys ws, shown a ys ws ->
  exists rs, cranges ys s = Ok (rs, map zlen ws) s /\ length rs = length ys /\
    forall k rg w, nth_error rs k = Some rg -> nth_error ws k = Some w -> exists y : positive * bool, nth_error ys k = Some y /\
      forall i e, znth i w = Some (Some e) -> exists q j, (forall s', at_ rg i s' = Ok q s') /\ ptr_to (fst y) j s = Ok q s /\ ptr_read q s = Ok e s.
Proof.
  intros Hwf H ys ws Hs. induction Hs as [|[y back] w ys ws (r & v & Ha & ->) Hs IH].
  - exists []. split; [reflexivity|]. split; [reflexivity|]. intros [|k] rg w; discriminate.
  - destruct IH as (rs & E & Hl & Hk). destruct (crange_ok s a y r v back Hwf H Ha) as (rg & Er & En & Hr). exists (rg :: rs). split.
    { cbn [cranges]. rewrite (bind_ok _ _ _ _ _ Er), (bind_ok _ _ _ _ _ En), (bind_ok _ _ _ _ _ E). unfold ret. cbn. rewrite zlen_turn. reflexivity. }
    split; [cbn; lia|]. intros [|k] rg' w; cbn.
    + intros [= <-] [= <-]. exists (y, back). split; [reflexivity|]. exact Hr.
    + apply Hk.
Qed.

(** Programs that only read. *)
Lemma run_const s rs ws own_ v res v' : length rs = length ws -> (forall k rg w, nth_error rs k = Some rg -> nth_error ws k = Some w -> reads rg w s) ->
  forall p, own_ = None -> v = [] -> on_lists ws v p = Some (res, v') -> run (A := A) rs own_ p s = Ok res s.
Proof.
  intros Hl Hk p -> ->. induction p as [u|k i f IH|i f IH|i e q IH]; cbn.
  - intros [= <- <-]. reflexivity.
  - destruct (nth_error ws k) as [w|] eqn:Ew; [|discriminate]. destruct (znth i w) as [[e|]|] eqn:Ei; try discriminate. intros H.
    destruct (nth_error rs k) as [rg|] eqn:Er; [|apply nth_error_None in Er; pose proof (proj1 (nth_error_Some ws k)); rewrite Ew in *; rewrite Hl in Er; assert (k < length ws)%nat by (apply nth_error_Some; congruence); lia].
    destruct (Hk k rg w Er Ew i e Ei) as (q & Ha & Hr). rewrite (bind_ok _ _ _ _ _ (Ha s)), (bind_ok _ _ _ _ _ Hr). apply IH, H.
  - unfold znth. destruct (i <? 0); [discriminate|]. destruct (Z.to_nat i); discriminate.
  - change (zlen (@nil (option T))) with 0. destruct ((0 <=? i) && (i <? 0)) eqn:E; [lia|discriminate].
Qed.
Lemma call_const_ok s a ys ws p res v' : wf_desc d -> reached s a -> shown a ys ws -> on_lists ws [] (p (map zlen ws)) = Some (res, v') ->
  call_const (A := A) ys p s = Ok res s.
Proof.
  intros Hwf H Hs Hp. destruct (cranges_ok s a Hwf H ys ws Hs) as (rs & E & Hl & Hk). unfold call_const. rewrite (bind_ok _ _ _ _ _ E). cbn [fst snd].
  eapply run_const; [|intros k rg w Hr Hw i e Hi|reflexivity|reflexivity|exact Hp].
  - apply Forall2_length in Hs. lia.
  - destruct (Hk k rg w Hr Hw) as (y & _ & Hy). destruct (Hy i e Hi) as (q & j & H1 & H2 & H3). eauto.
Qed.

(** Programs that write one range. *)
Lemma goes_app ops ops' s s' : goes d ops s = Some s' -> goes d (ops ++ ops') s = goes d ops' s'.
Proof.
  revert s. induction ops as [|o ops IH]; intros s; cbn; [intros [= ->]; reflexivity|]. destruct (exec d o s); try discriminate; apply IH.
Qed.
Section Run.
Variables (s0 : state T) (a : astate T) (x : positive) (l : positive) (g : nat) (off n : Z) (back : bool).
Hypothesis Hwf : wf_desc d.
Definition J v s : Prop := reached s (<[x := AVal true v]> a) /\ own true x l g off n s /\ zlen v = n /\
  exists ops, Forall (fun o => o = BeginMut x \/ exists i e, o = Write x i e) ops /\ goes d ops s0 = Some s.
Definition rg := Range (Some (Ptr l g off)) (Some (Ptr l g (off + n))) back.
Lemma at_rg i s : at_ rg i s = Ok (Ptr l g (off + pos_of back n i)) s.
Proof. unfold at_, rg, pos_of, ret. cbn. destruct back; cbn; f_equal; f_equal; lia. Qed.
Lemma J_read v s i e : J v s -> znth i (turn back v) = Some (Some e) -> ptr_read (Ptr l g (off + pos_of back n i)) s = Ok e s.
Proof.
  intros (H & (b & Hx & Hl & Ho & Hn & Hroom & Hmax & _) & <- & _) Hi. pose proof (znth_inv _ _ _ Hi) as Hb. rewrite zlen_turn in Hb. rewrite znth_turn in Hi by exact Hb.
  destruct (points d s _ x true v _ e Hwf H (lookup_insert _ _ _) Hi) as (p & Hp & Hr). revert Hp. unfold ptr_to, bind, get_obj, get_cell, ret. rewrite Hx. cbn [o_ref o_off]. rewrite Hl. cbn [c_gen].
  pose proof (room_ge d (zlen v)). rewrite u64_id by (unfold pos_of, W63, W64 in *; destruct back; lia). intros [= <-]. exact Hr.
Qed.
Lemma J_put v s i e : J v s -> 0 <= i < zlen v -> exists s', ptr_write (Ptr l g (off + pos_of back n i)) e s = Ok tt s' /\ J (turn back (sp_over (turn back v) i [Some e])) s'.
Proof.
  intros (H & Ho & Hz & ops & Hf & Hg) Hi. rewrite <- Hz in Ho. rewrite <- Hz. assert (0 <= pos_of back (zlen v) i < zlen v) as Hp by (unfold pos_of; destruct back; lia).
  destruct (own_put _ _ _ _ _ _ (pos_of back (zlen v) i) e Ho Hp) as (s' & E & Ho'). exists s'. split; [exact E|].
  rewrite turn_over, turn_turn by exact Hi.
  assert (exec d (Write x (pos_of back (zlen v) i) e) s = Ok ONone s') as Ew.
  { rewrite (begin_write_is_write d s _ x true v _ e s (Ptr l g off) Hwf H (lookup_insert _ _ _) Hp (own_begin _ _ _ _ _ _ Ho)). cbn [p_loc p_gen p_idx].
    destruct Ho as (b & _ & _ & Ho & Hn & Hroom & Hmax & _). pose proof (room_ge d (zlen v)). rewrite u64_id by (unfold W63, W64 in *; lia). unfold bind. rewrite E. reflexivity. }
  split; [|split; [rewrite <- Hz; exact Ho'|split; [rewrite <- Hz; apply zlen_over, Hp|]]].
  - eapply re_ret; [exact H| |exact Ew]. unfold RcaMeet.step. cbn [spec_step]. rewrite (holds_val _ _ _ _ (lookup_insert _ _ _)).
    assert ((0 <=? pos_of back (zlen v) i) && (pos_of back (zlen v) i <? zlen v) = true) as -> by lia. cbn [need]. unfold put. rewrite insert_insert. reflexivity.
  - exists (ops ++ [Write x (pos_of back (zlen v) i) e]). split; [apply Forall_app; split; [exact Hf|constructor; [right; eauto|constructor]]|]. rewrite (goes_app _ _ _ _ Hg). cbn [goes]. rewrite Ew. reflexivity.
Qed.
Section Tree.
Variables (rs : list range) (ws : list (list (option T))).
Hypothesis Hlen : length rs = length ws.
Hypothesis Hread : forall ops s, Forall (fun o => o = BeginMut x \/ exists i e, o = Write x i e) ops -> goes d ops s0 = Some s ->
  forall k rg w, nth_error rs k = Some rg -> nth_error ws k = Some w -> reads rg w s.
Lemma run_ok : forall (p : alg T A) v s res v', J v s -> on_lists ws (turn back v) p = Some (res, v') -> exists s', run rs (Some rg) p s = Ok res s' /\ J (turn back v') s'.
Proof.
  induction p as [u|k i f IH|i f IH|i e q IH]; intros v s res v' HJ; cbn.
  - intros [= <- <-]. exists s. rewrite turn_turn. auto.
  - destruct (nth_error ws k) as [w|] eqn:Ew; [|discriminate]. destruct (znth i w) as [[e|]|] eqn:Ei; try discriminate. intros H.
    destruct (nth_error rs k) as [r|] eqn:Er; [|apply nth_error_None in Er; assert (k < length ws)%nat by (apply nth_error_Some; congruence); lia].
    pose proof HJ as (_ & _ & _ & ops & Hf & Hg). destruct (Hread ops s Hf Hg k r w Er Ew i e Ei) as (q & Ha & Hr). rewrite (bind_ok _ _ _ _ _ (Ha s)), (bind_ok _ _ _ _ _ Hr). eapply IH; eassumption.
  - destruct (znth i (turn back v)) as [[e|]|] eqn:Ei; try discriminate. intros H. rewrite (bind_ok _ _ _ _ _ (at_rg i s)), (bind_ok _ _ _ _ _ (J_read _ _ _ _ HJ Ei)). eapply IH; eassumption.
  - destruct ((0 <=? i) && (i <? zlen (turn back v))) eqn:Ei; [|discriminate]. intros H. rewrite zlen_turn in Ei. destruct (J_put v s i e HJ ltac:(lia)) as (s' & Ep & HJ').
    rewrite (bind_ok _ _ _ _ _ (at_rg i s)), (bind_ok _ _ _ _ _ Ep). eapply IH; [exact HJ'|]. rewrite turn_turn. exact H.
Qed.
End Tree.
End Run.

Lemma not_disturbs x y ops : x <> y -> Forall (fun o => o = BeginMut x \/ exists i e, o = Write x i e) ops -> Forall (fun o : op T => ~ disturbs o y) ops.
Proof. intros Hxy. apply Forall_impl. intros o [->|(i & e & ->)]; cbn; congruence. Qed.
(** begin() and end(), in either order. *)
Lemma range_ok s a x r v back s1 : wf_desc d -> reached s a -> a !! x = Some (AVal r v) -> get_own_copy d x s = Ok tt s1 ->
  exists l g off s2, range_of d x back s = Ok (rg l g off (zlen v) back) s2 /\ own true x l g off (zlen v) s2 /\ reached s2 (<[x := AVal true v]> a) /\ goes d [BeginMut x; BeginMut x] s = Some s2.
Proof.
  intros Hwf H Ha E. destruct (first_own s a x r v s1 Hwf H Ha E) as (l & g & off & Ho1).
  destruct (again_own _ _ _ _ _ _ _ Ho1) as (s2 & E2 & Ho2 & _). exists l, g, off, s2.
  assert (exec d (BeginMut x) s = Ok ONone s1) as X1 by (cbn [exec]; unfold unit_, bind; rewrite E; reflexivity).
  assert (exec d (BeginMut x) s1 = Ok ONone s2) as X2 by (cbn [exec]; unfold unit_, bind; rewrite E2; reflexivity).
  assert (reached s1 (<[x := AVal true v]> a)) as H1.
  { eapply re_ret; [exact H| |exact X1]. unfold RcaMeet.step. cbn [spec_step]. rewrite (holds_val _ _ _ _ Ha). reflexivity. }
  assert (reached s2 (<[x := AVal true v]> a)) as H2.
  { eapply re_ret; [exact H1| |exact X2]. unfold RcaMeet.step. cbn [spec_step]. rewrite (holds_val _ _ _ _ (lookup_insert _ _ _)). unfold put. rewrite insert_insert. reflexivity. }
  split; [|split; [exact Ho2|split; [exact H2|cbn [goes]; rewrite X1, X2; reflexivity]]].
  assert (forall s', own false x l g off (zlen v) s' -> ptr_to x 0 s' = Ok (Ptr l g off) s') as Hp.
  { intros s' (b & Hx & Hl & Hf & Hn & Hroom & Hmax & _). pose proof (room_ge d (zlen v)). unfold ptr_to, bind, get_obj, get_cell. rewrite Hx. cbn [o_ref o_off]. rewrite Hl. cbn [c_gen]. rewrite Z.add_0_r, u64_id by (unfold W63, W64 in *; lia). reflexivity. }
  assert (forall nul s', own nul x l g off (zlen v) s' -> own false x l g off (zlen v) s') as Hw.
  { intros nul s' (b & Hx & Hl & Hf & Hn & Hroom & Hmax & _). exists b. repeat split; auto; discriminate. }
  assert (forall nul s', own nul x l g off (zlen v) s' -> length_of x s' = Ok (zlen v) s') as Hl.
  { intros nul s' (b & Hx & _). unfold length_of, bind, get_obj. rewrite Hx. reflexivity. }
  assert (begin_ptr d x s = Ok (Ptr l g off) s1) as B1 by (unfold begin_ptr; rewrite (bind_ok _ _ _ _ _ E); apply Hp, Ho1).
  assert (begin_ptr d x s1 = Ok (Ptr l g off) s2) as B2 by (unfold begin_ptr; rewrite (bind_ok _ _ _ _ _ E2); apply Hp, (Hw _ _ Ho2)).
  unfold range_of, end_ptr. destruct back.
  - unfold bind at 1. rewrite (bind_ok _ _ _ _ _ B1), (bind_ok _ _ _ _ _ (Hl _ _ Ho1)). unfold ret at 1. rewrite (bind_ok _ _ _ _ _ B2). reflexivity.
  - rewrite (bind_ok _ _ _ _ _ B1). unfold bind at 1. rewrite (bind_ok _ _ _ _ _ B2), (bind_ok _ _ _ _ _ (Hl _ _ Ho2)). reflexivity.
Qed.
Lemma range_exn s x back e s1 : get_own_copy d x s = Exn e s1 -> range_of d x back s = Exn e s1.
Proof. intros E. unfold range_of, end_ptr, begin_ptr. destruct back; unfold bind; rewrite E; reflexivity. Qed.

Lemma call_own_ok s a ys ws x r v back (p : list Z -> Z -> alg T A) res v' : wf_desc d -> reached s a -> shown a ys ws -> a !! x = Some (AVal r v) -> (forall y b, In (y, b) ys -> y <> x) ->
  on_lists ws (turn back v) (p (map zlen ws) (zlen v)) = Some (res, v') ->
  ends d s a x v (call_own d ys x back p) res (turn back v').
Proof.
  unfold ends. intros Hwf H Hs Ha Hne Hp. destruct (cranges_ok s a Hwf H ys ws Hs) as (rs & Er & Hl & Hk). unfold call_own. rewrite (bind_ok _ _ _ _ _ Er). cbn [fst snd].
  assert (RcaMeet.step d (BeginMut x) a = Some (SRet (<[x := AVal true v]> a) ONone)) as Hst by (unfold RcaMeet.step; cbn [spec_step]; rewrite (holds_val _ _ _ _ Ha); reflexivity).
  destruct (step_yields d (BeginMut x) s a _ _ Hwf H Hst ltac:(discriminate)) as [(s1 & o1 & X1 & _)|Hm].
  - left. assert (get_own_copy d x s = Ok tt s1) as E1. { revert X1. cbn [exec]. unfold unit_, bind. destruct (get_own_copy d x s) as [[] ?| | | |]; try discriminate. unfold ret. congruence. }
    destruct (range_ok s a x r v back s1 Hwf H Ha E1) as (l & g & off & s2 & Eg & Ho & H2 & Hg). rewrite (bind_ok _ _ _ _ _ Eg).
    assert (size_of (rg l g off (zlen v) back) s2 = Ok (zlen v) s2) as En. { unfold size_of, rg. cbn. rewrite Pos.eqb_refl, Nat.eqb_refl. cbn. unfold ret. f_equal. lia. }
    rewrite (bind_ok _ _ _ _ _ En).
    destruct (run_ok s a x l g off (zlen v) back Hwf rs ws) with (p := p (map zlen ws) (zlen v)) (v := v) (s := s2) (res := res) (v' := v') as (s' & E' & HJ & _); auto.
    + apply Forall2_length in Hs. lia.
    + intros ops s' Hf Hgo k r' w Hr Hw i e Hi. destruct (Hk k r' w Hr Hw) as (y & Hy & Hq). destruct (Hq i e Hi) as (q & j & Q1 & Q2 & Q3). exists q. split; [exact Q1|].
      eapply pointers_stay; [exact Hwf|exact H|exact Q2|exact Q3| |exact Hgo]. eapply not_disturbs; [|exact Hf]. destruct y as [y b]. apply nth_error_In, Hne in Hy. cbn. congruence.
    + split; [exact H2|]. split; [exact Ho|]. split; [reflexivity|]. exists [BeginMut x; BeginMut x]. split; [repeat constructor; auto|exact Hg].
    + exists s'. split; [exact E'|]. split; [exact HJ|]. apply (reached_shows d); assumption.
  - right. pose proof Hm as (s' & x' & X1 & _). exists s'. split; [|auto].
    assert (get_own_copy d x s = Exn BadAlloc s') as E1. { revert X1. cbn [exec]. unfold unit_, bind. destruct (get_own_copy d x s) as [[] ?| | | |]; try discriminate. congruence. }
    unfold bind. rewrite (range_exn _ _ _ _ _ E1). reflexivity.
Qed.
End Iter.

(** The algorithms of IterSpec. *)
Section Algs.
Context {T : Type} (d : desc T).
Lemma znth_mid {B} (l k : list B) e : znth (zlen l) (l ++ e :: k) = Some e.
Proof. rewrite znth_app. destruct (Z.ltb_spec (zlen l) (zlen l)); [lia|]. rewrite Z.sub_diag. reflexivity. Qed.
Lemma over_mid (l k : list (option T)) e e' : sp_over (l ++ e :: k) (zlen l) [e'] = l ++ e' :: k.
Proof.
  unfold sp_over. change (zlen [e']) with 1. rewrite ztake_app_exact. f_equal. cbn. f_equal.
  replace (l ++ e :: k) with ((l ++ [e]) ++ k) by (rewrite <- app_assoc; reflexivity). replace (zlen l + 1) with (zlen (l ++ [e])) by (rewrite zlen_app; reflexivity). apply zdrop_app_exact.
Qed.
Lemma collect_ok (es : list T) : forall pre acc v, on_lists [map Some (pre ++ es)] v (collect (length es) (zlen pre) acc) = Some (rev acc ++ es, v).
Proof.
  induction es as [|e es IH]; intros pre acc v; cbn [length collect on_lists nth_error]; [rewrite app_nil_r; reflexivity|].
  rewrite map_app. cbn [map]. rewrite <- (zlen_map Some pre). rewrite znth_mid.
  specialize (IH (pre ++ [e]) (e :: acc) v). rewrite <- app_assoc, zlen_app in IH. cbn [app] in IH. change (zlen [e]) with 1 in IH. rewrite map_app in IH. cbn [map] in IH. rewrite zlen_map, IH. cbn [rev]. rewrite <- app_assoc. reflexivity.
Qed.
Lemma transform_ok f (es : list T) : forall ws pre, on_lists ws (map Some (pre ++ es)) (transform f (length es) (zlen pre)) = Some (tt, map Some (pre ++ map f es)).
Proof.
  induction es as [|e es IH]; intros ws pre; cbn [length transform on_lists map]; [reflexivity|].
  rewrite map_app. cbn [map]. rewrite <- (zlen_map Some pre). rewrite znth_mid.
  pose proof (zlen_nonneg (map Some pre)). assert ((0 <=? zlen (map Some pre)) && (zlen (map Some pre) <? zlen (map Some pre ++ Some e :: map Some es)) = true) as -> by (rewrite zlen_app, zlen_cons; pose proof (zlen_nonneg (map Some es)); lia).
  rewrite over_mid. specialize (IH ws (pre ++ [f e])). rewrite <- app_assoc, zlen_app in IH. cbn [app] in IH. change (zlen [f e]) with 1 in IH. rewrite map_app in IH. cbn [map] in IH. rewrite zlen_map. rewrite IH, <- app_assoc. reflexivity.
Qed.
Lemma copy_ok (es : list T) : forall pre vs, length vs = length es -> on_lists [map Some (pre ++ es)] (map Some (pre ++ vs)) (copy (length es) (zlen pre)) = Some (tt, map Some (pre ++ es)).
Proof.
  induction es as [|e es IH]; intros pre [|v vs] Hl; try discriminate; cbn [length copy on_lists nth_error]; [reflexivity|].
  rewrite !map_app. cbn [map]. rewrite <- (zlen_map Some pre). rewrite znth_mid.
  pose proof (zlen_nonneg (map Some pre)). assert ((0 <=? zlen (map Some pre)) && (zlen (map Some pre) <? zlen (map Some pre ++ Some v :: map Some vs)) = true) as -> by (rewrite zlen_app, zlen_cons; pose proof (zlen_nonneg (map Some vs)); lia).
  rewrite over_mid. specialize (IH (pre ++ [e]) vs ltac:(cbn in Hl; lia)). rewrite <- !app_assoc, zlen_app in IH. cbn [app] in IH. change (zlen [e]) with 1 in IH. rewrite !map_app in IH. cbn [map] in IH. rewrite zlen_map. exact IH.
Qed.

Lemma turn_map {B C} (f : B -> C) b l : turn b (map f l) = map f (turn b l).
Proof. destruct b; [symmetry; apply map_rev|reflexivity]. Qed.
Lemma traverse_ok (s : state T) a y r es back : wf_desc d -> reached d s a -> a !! y = Some (AVal r (map Some es)) ->
  call_const [(y, back)] (fun ns => collect (Z.to_nat (hd 0 ns)) 0 []) s = Ok (turn back es) s.
Proof.
  intros Hwf H Ha. eapply (call_const_ok d s a _ [turn back (map Some es)]); [exact Hwf|exact H| |].
  - constructor; [|constructor]. exists r, (map Some es). auto.
  - cbn [map hd]. rewrite turn_map, zlen_map. unfold zlen at 1. rewrite Nat2Z.id. apply (collect_ok (turn back es) [] [] []).
Qed.
Lemma transform_call (s : state T) a x r es f back : wf_desc d -> reached d s a -> a !! x = Some (AVal r (map Some es)) ->
  ends d s a x (map Some es) (call_own d [] x back (fun _ n => transform f (Z.to_nat n) 0)) tt (map Some (map f es)).
Proof.
  intros Hwf H Ha. replace (map Some (map f es)) with (turn back (map Some (map f (turn back es)))) by (rewrite !turn_map, turn_turn; reflexivity).
  eapply (call_own_ok d s a [] []); [exact Hwf|exact H|constructor|exact Ha|intros ? ? []|]. rewrite turn_map, zlen_map. unfold zlen at 1. rewrite Nat2Z.id.
  replace (length es) with (length (turn back es)) by (destruct back; [apply rev_length|reflexivity]). apply (transform_ok f (turn back es) [] []).
Qed.
Lemma copy_call (s : state T) a x y r es r' vs back back' : wf_desc d -> reached d s a -> a !! x = Some (AVal r (map Some vs)) -> a !! y = Some (AVal r' (map Some es)) -> x <> y -> length vs = length es ->
  ends d s a x (map Some vs) (call_own d [(y, back')] x back (fun _ n => copy (Z.to_nat n) 0)) tt (map Some (turn back (turn back' es))).
Proof.
  intros Hwf H Ha Hy Hxy Hl. rewrite <- turn_map.
  eapply (call_own_ok d s a _ [turn back' (map Some es)]); [exact Hwf|exact H| |exact Ha| |].
  - constructor; [|constructor]. exists r', (map Some es). auto.
  - intros z b [[= <- <-]|[]]. congruence.
  - rewrite !turn_map, zlen_map. unfold zlen at 1. rewrite Nat2Z.id. assert (forall b (l : list T), length (turn b l) = length l) as Ht by (intros []; intros l; [apply rev_length|reflexivity]).
    rewrite Hl, <- (Ht back' es). apply (copy_ok (turn back' es) [] (turn back vs)). rewrite !Ht. exact Hl.
Qed.
End Algs.
Lemma copy_xor {T} (d : desc T) s a x y r es r' vs back back' : wf_desc d -> reached d s a -> a !! x = Some (AVal r (map Some vs)) -> a !! y = Some (AVal r' (map Some es)) -> x <> y -> length vs = length es ->
  ends d s a x (map Some vs) (call_own d [(y, back')] x back (fun _ n => copy (Z.to_nat n) 0)) tt (map Some (if xorb back back' then rev es else es)).
Proof.
  intros. replace (if xorb back back' then rev es else es) with (turn back (turn back' es)) by (destruct back, back'; cbn; rewrite ?rev_involutive; reflexivity). eapply copy_call; eassumption.
Qed.
