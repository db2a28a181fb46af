(** Algorithms over iterators that move elements. *)
From stdpp Require Import gmap.
From Verif Require Import ZList RcaSpec RcaModel RcaExec RcaInv RcaOwn RcaRel RcaRel2 RcaMod RcaMeet RcaMain RcaReach RcaFacts RcaFacts2 ZListMod PtrSpec PtrProof IterSpec IterModel IterMeet IterProof.
From Coq Require Import ZifyBool.
Open Scope Z_scope.

Section Move.
Context {T A : Type} (d : desc T).
Implicit Types (s : state T) (x y : positive) (a : astate T) (v w : list (option T)).
Notation reached := (reached d).

(** A pointer into another array does not point into an array's own buffer. *)
Lemma apart ops s a y i p e s' x l g off n : wf_desc d -> reached s a -> ptr_to y i s = Ok p s -> ptr_read p s = Ok e s ->
  Forall (fun o => ~ disturbs o y) ops -> goes d ops s = Some s' -> own d true x l g off n s' -> x <> y -> p_loc p <> l.
Proof.
  intros Hwf H Hp Hr Hf Hg (b & Ex & El & _) Hxy. pose proof (reached_R d s a Hwf H) as [HI _].
  revert Hp. unfold ptr_to, bind, get_obj. destruct (st_env s !! y) as [o|] eqn:Ho; [|discriminate]. destruct (o_ref o) as [l1|] eqn:Er; [|discriminate].
  unfold get_cell. destruct (st_heap s !! l1) as [c|] eqn:Ec; [|discriminate]. unfold ret. intros Hp. injection Hp as <-. cbn [p_loc]. intros ->.
  assert (K y l (c_gen c) (u64 (o_off o + i)) e s) as HK.
  { revert Hr. unfold ptr_read, bind, get_cell. cbn. rewrite Ec, Nat.eqb_refl. cbn.
    destruct (znth _ (c_buf c)) as [[w|]|] eqn:Ez; try discriminate. intros Hr. injection Hr as ->.
    destruct HI as [Hck Hob]. pose proof (Hck l c Ec) as K1. exists o, c. repeat split; auto.
    - rewrite (ck_refs _ _ _ _ K1). lia.
    - apply (ck_next _ _ _ _ K1). }
  pose proof (goes_K _ _ _ _ _ _ _ _ _ Hf HK Hg) as (oy & cy & Hy & Hry & Hly & _ & _ & Hc & _). rewrite El in Hly. injection Hly as <-. cbn in Hc.
  pose proof (count_ge2 l (st_env s') x _ y oy Hxy Ex eq_refl Hy Hry). lia.
Qed.

Section Run.
Variables (s0 : state T) (a : astate T) (x : positive) (l : positive) (g : nat) (off n : Z) (back : bool).
Hypothesis Hwf : wf_desc d.
Notation J := (J d s0 a x l g off n).
Notation rg := (rg l g off n back).
(** [sm] is [sg], in which nothing was moved out, but for the holes of [w]. *)
Definition sim v w sg sm : Prop := exists bg bm, st_heap sg !! l = Some (Cell bg g 1) /\ sm = with_heap sg (<[l := Cell bm g 1]> (st_heap sg)) /\ zlen bm = zlen bg /\
  zlen w = n /\ 0 <= off /\ off + n <= zlen bg /\ vle w (turn back v) /\
  (forall i e, znth i w = Some (Some e) -> znth (off + pos_of back n i) bm = Some (Some e)) /\
  (forall j, znth j bm = znth j bg \/ exists i, 0 <= i < n /\ j = off + pos_of back n i /\ znth i w = Some None).
Lemma sim_init v sg : J v sg -> sim v (turn back v) sg sg.
Proof.
  intros HJ. pose proof HJ as (H & (b & Hx & Hl & Ho & Hn & Hroom & Hmax & _) & Hz & _). pose proof (room_ge d n) as Hge. exists b, b. split; [exact Hl|]. split; [unfold with_heap; rewrite (insert_id _ _ _ Hl); destruct sg; reflexivity|].
  split; [reflexivity|]. split; [rewrite zlen_turn; exact Hz|]. split; [exact Ho|]. split; [lia|]. split; [apply vle_refl|]. split; [|auto].
  intros i e Hi. pose proof (J_read d s0 a x l g off n back Hwf v sg i e HJ Hi) as Hr. revert Hr. unfold ptr_read, bind, get_cell. cbn. rewrite Hl. cbn. rewrite Nat.eqb_refl. cbn.
  destruct (znth (off + pos_of back n i) b) as [[e'|]|]; try discriminate. unfold ret. congruence.
Qed.
Lemma sim_end v w sg sm : J v sg -> sim v w sg sm -> ~ In None w -> sm = sg /\ w = turn back v.
Proof.
  intros HJ (bg & bm & Hl & -> & Hb & Hw & Ho & Hfit & Hv & Hi & Hj) Hf. split.
  - assert (bm = bg) as ->. { apply zlist_ext_opt. intros j. destruct (Hj j) as [|(i & _ & _ & E)]; [assumption|]. exfalso. apply Hf. unfold znth in E. destruct (i <? 0); [discriminate|]. eapply nth_error_In, E. }
    unfold with_heap. rewrite (insert_id _ _ _ Hl). destruct sg; reflexivity.
  - clear - Hv Hf. induction Hv as [|u u' w w' Hu Hv IH]; [reflexivity|]. f_equal; [|apply IH; intros H; apply Hf; right; exact H]. destruct Hu as [Hu|Hu]; [exfalso; apply Hf; left; exact Hu|exact Hu].
Qed.
Lemma pos_inj i j : 0 <= i < n -> 0 <= j < n -> pos_of back n i = pos_of back n j -> i = j.
Proof. unfold pos_of. destruct back; lia. Qed.
Lemma pos_in i : 0 <= i < n -> 0 <= pos_of back n i < n.
Proof. unfold pos_of. destruct back; lia. Qed.
Lemma znth_over w i (u : option T) j : 0 <= i < zlen w -> znth j (sp_over w i [u]) = if j =? i then Some u else znth j w.
Proof.
  intros Hi. change (znth j (zupd i [u] w) = if j =? i then Some u else znth j w). rewrite znth_zupd by lia. change (zlen [u]) with 1.
  destruct (Z.eqb_spec j i) as [->|Hne]. { assert ((i <=? i) && (i <? i + 1) = true) as -> by lia. rewrite Z.sub_diag. reflexivity. }
  assert ((i <=? j) && (j <? i + 1) = false) as -> by lia. reflexivity.
Qed.
Lemma znth_upd1 (b : list (option T)) k u j : 0 <= k < zlen b -> znth j (zupd k [u] b) = if j =? k then Some u else znth j b.
Proof. intros H. exact (znth_over b k u j H). Qed.
Lemma sim_read v w sg sm i e : sim v w sg sm -> znth i w = Some (Some e) -> ptr_read (Ptr l g (off + pos_of back n i)) sm = Ok e sm.
Proof.
  intros (bg & bm & Hl & -> & Hb & Hw & Ho & Hfit & Hv & Hi & Hj) E. unfold ptr_read, bind, get_cell. cbn [p_loc p_gen p_idx with_heap st_heap]. rewrite lookup_insert. cbn [c_gen c_buf]. rewrite Nat.eqb_refl. cbn [negb]. rewrite (Hi i e E). reflexivity.
Qed.
Lemma sim_take v w sg sm i e : sim v w sg sm -> znth i w = Some (Some e) -> exists sm', ptr_take d (Ptr l g (off + pos_of back n i)) sm = Ok e sm' /\ sim v (sp_over w i [None]) sg sm'.
Proof.
  intros Hs E. pose proof (sim_read _ _ _ _ _ _ Hs E) as Hr. destruct Hs as (bg & bm & Hl & -> & Hb & Hw & Ho & Hfit & Hv & Hi & Hj).
  pose proof (znth_inv _ _ _ E) as Hin. rewrite Hw in Hin. pose proof (pos_in i Hin) as Hp.
  assert (vle (sp_over w i [None]) (turn back v)) as Hv'.
  { apply (vle_trans _ w); [|exact Hv]. change (vle (zupd i [None] w) w). replace w with (zupd i [Some e] w) at 2.
    - apply vle_zupd; [constructor; [left; reflexivity|constructor]|apply vle_refl].
    - apply zlist_ext_opt. intros j. rewrite (znth_upd1 w i (Some e) j) by lia. destruct (Z.eqb_spec j i) as [->|]; congruence. }
  assert (zlen (sp_over w i [None]) = n) as Hw'. { change (zlen (zupd i [None] w) = n). rewrite zlen_zupd; [exact Hw|lia|change (zlen [@None T]) with 1; lia]. }
  assert (forall bm', zlen bm' = zlen bm -> (forall j, j <> off + pos_of back n i -> znth j bm' = znth j bm) -> sim v (sp_over w i [None]) sg (with_heap sg (<[l := Cell bm' g 1]> (st_heap sg)))) as Hgo.
  { intros bm' Hbm Hsame. exists bg, bm'. split; [exact Hl|]. split; [reflexivity|]. split; [lia|]. split; [exact Hw'|]. split; [exact Ho|]. split; [exact Hfit|]. split; [exact Hv'|]. split.
    - intros k u Hk. rewrite znth_over in Hk by lia. destruct (Z.eqb_spec k i) as [->|Hne]; [discriminate|]. rewrite Hsame; [apply Hi, Hk|].
      intros Heq. apply Hne. pose proof (znth_inv _ _ _ Hk). apply pos_inj; lia.
    - intros j. destruct (Z.eq_dec j (off + pos_of back n i)) as [->|Hne].
      + right. exists i. rewrite znth_over by lia. rewrite Z.eqb_refl. auto.
      + rewrite Hsame by exact Hne. destruct (Hj j) as [|(k & Hk & Ek & Nk)]; [auto|]. right. exists k. rewrite znth_over by lia. destruct (k =? i); auto. }
  unfold ptr_take. rewrite (bind_ok _ _ _ _ _ Hr). destruct (d_class d).
  - unfold bind, get_cell, set_cell. cbn [p_loc p_gen p_idx with_heap st_heap]. rewrite lookup_insert. cbn [c_gen c_buf c_refs]. eexists. split; [reflexivity|].
    unfold with_heap. cbn [st_heap st_env st_next st_tick st_freed]. rewrite insert_insert. apply Hgo; [apply zlen_zupd; change (zlen [@None T]) with 1; lia|]. intros j Hne. rewrite znth_upd1 by lia. destruct (Z.eqb_spec j (off + pos_of back n i)); [contradiction|reflexivity].
  - eexists. split; [reflexivity|]. apply Hgo; auto.
Qed.
Lemma sim_put v w sg sm i e : J v sg -> sim v w sg sm -> 0 <= i < n -> exists v' sg' sm', ptr_write (Ptr l g (off + pos_of back n i)) e sm = Ok tt sm' /\ J v' sg' /\ sim v' (sp_over w i [Some e]) sg' sm'.
Proof.
  intros HJ (bg & bm & Hl & -> & Hb & Hw & Ho & Hfit & Hv & Hi & Hj) Hin. pose proof (pos_in i Hin) as Hp. pose proof HJ as (_ & _ & Hz & _).
  destruct (J_put d s0 a x l g off n back Hwf v sg i e HJ ltac:(lia)) as (sg' & E & HJ'). exists (turn back (sp_over (turn back v) i [Some e])), sg'.
  assert (sg' = with_heap sg (<[l := Cell (zupd (off + pos_of back n i) [Some e] bg) g 1]> (st_heap sg))) as ->.
  { revert E. unfold ptr_write, bind, get_cell, set_cell. cbn [p_loc p_gen p_idx]. rewrite Hl. cbn [c_gen c_buf c_refs]. rewrite Nat.eqb_refl. cbn [negb]. destruct (_ && _); [|discriminate]. intros [= <-]. reflexivity. }
  eexists. split.
  { unfold ptr_write, bind, get_cell, set_cell. cbn [p_loc p_gen p_idx with_heap st_heap]. rewrite lookup_insert. cbn [c_gen c_buf c_refs]. rewrite Nat.eqb_refl. cbn [negb].
    assert ((0 <=? off + pos_of back n i) && (off + pos_of back n i <? zlen bm) = true) as -> by lia. reflexivity. }
  split; [exact HJ'|]. exists (zupd (off + pos_of back n i) [Some e] bg), (zupd (off + pos_of back n i) [Some e] bm).
  unfold with_heap. cbn [st_heap st_env st_next st_tick st_freed]. rewrite lookup_insert, !insert_insert. split; [reflexivity|]. split; [reflexivity|].
  rewrite !zlen_zupd by (change (zlen [Some e]) with 1; lia). split; [exact Hb|]. split; [rewrite zlen_over; lia|]. split; [exact Ho|]. split; [exact Hfit|]. split.
  { rewrite turn_turn. apply (vle_zupd i [Some e] [Some e]); [apply vle_refl|exact Hv]. }
  split.
  - intros k u Hk. rewrite znth_over in Hk by lia. rewrite znth_upd1 by lia. destruct (Z.eqb_spec k i) as [->|Hne]; [rewrite Z.eqb_refl; congruence|].
    pose proof (znth_inv _ _ _ Hk) as Hkn. destruct (Z.eqb_spec (off + pos_of back n k) (off + pos_of back n i)) as [Heq|_]; [|apply Hi, Hk].
    exfalso. apply Hne, pos_inj; lia.
  - intros j. rewrite !znth_upd1 by lia. destruct (Z.eqb_spec j (off + pos_of back n i)) as [->|Hne]; [auto|]. destruct (Hj j) as [|(k & Hk & Ek & Nk)]; [auto|].
    right. exists k. rewrite znth_over by lia. destruct (Z.eqb_spec k i) as [Eki|]; [exfalso; apply Hne; rewrite Ek, Eki; reflexivity|auto].
Qed.
Section Tree.
Variables (rs : list range) (ws : list (list (option T))).
Hypothesis Hlen : length rs = length ws.
Hypothesis Hread : forall ops s, Forall (fun o => o = BeginMut x \/ exists i e, o = Write x i e) ops -> goes d ops s0 = Some s -> own d true x l g off n s ->
  forall k rg w, nth_error rs k = Some rg -> nth_error ws k = Some w ->
  forall i e, znth i w = Some (Some e) -> exists q, (forall s', at_ rg i s' = Ok q s') /\ ptr_read q s = Ok e s /\ p_loc q <> l.
Lemma mrun_ok : forall (p : malg T A) v w sg sm res w', J v sg -> sim v w sg sm -> on_mlists ws w p = Some (res, w') ->
  exists v' sg' sm', mrun d rs rg p sm = Ok res sm' /\ J v' sg' /\ sim v' w' sg' sm'.
Proof.
  induction p as [u|k i f IH|i f IH|i f IH|i e q IH]; intros v w sg sm res w' HJ Hs; cbn.
  - intros [= <- <-]. exists v, sg, sm. auto.
  - destruct (nth_error ws k) as [w1|] eqn:Ew; [|discriminate]. destruct (znth i w1) as [[e|]|] eqn:Ei; try discriminate. intros H.
    destruct (nth_error rs k) as [r|] eqn:Er; [|apply nth_error_None in Er; assert (k < length ws)%nat by (apply nth_error_Some; congruence); lia].
    pose proof HJ as (_ & Hown & _ & ops & Hf & Hg). destruct (Hread ops sg Hf Hg Hown k r w1 Er Ew i e Ei) as (q & Ha & Hr & Hq).
    assert (ptr_read q sm = Ok e sm) as Hr'.
    { destruct Hs as (bg & bm & Hl & -> & _). revert Hr. unfold ptr_read, bind, get_cell. cbn [with_heap st_heap]. rewrite lookup_insert_ne by congruence. destruct (st_heap sg !! p_loc q) as [c|]; [|discriminate].
      destruct (negb _); [discriminate|]. destruct (znth (p_idx q) (c_buf c)) as [[?|]|]; try discriminate. unfold ret. intros Hr.
      injection Hr as ->. reflexivity. }
    rewrite (bind_ok _ _ _ _ _ (Ha sm)), (bind_ok _ _ _ _ _ Hr'). eapply IH; eassumption.
  - destruct (znth i w) as [[e|]|] eqn:Ei; try discriminate. intros H. rewrite (bind_ok _ _ _ _ _ (at_rg l g off n back i sm)), (bind_ok _ _ _ _ _ (sim_read _ _ _ _ _ _ Hs Ei)). eapply IH; eassumption.
  - destruct (znth i w) as [[e|]|] eqn:Ei; try discriminate. intros H. destruct (sim_take _ _ _ _ _ _ Hs Ei) as (sm' & Et & Hs'). rewrite (bind_ok _ _ _ _ _ (at_rg l g off n back i sm)), (bind_ok _ _ _ _ _ Et). eapply IH; eassumption.
  - destruct ((0 <=? i) && (i <? zlen w)) eqn:Ei; [|discriminate]. intros H. assert (zlen w = n) as Hw by (destruct Hs as (bg & bm & _ & _ & _ & Hw & _); exact Hw).
    destruct (sim_put v w sg sm i e HJ Hs ltac:(lia)) as (v' & sg' & sm' & Ep & HJ' & Hs'). rewrite (bind_ok _ _ _ _ _ (at_rg l g off n back i sm)), (bind_ok _ _ _ _ _ Ep). eapply IH; eassumption.
Qed.
End Tree.
End Run.

Lemma call_move_ok s a ys ws x r v back (p : list Z -> Z -> malg T A) res w' : wf_desc d -> reached s a -> shown a ys ws -> a !! x = Some (AVal r v) -> (forall y b, In (y, b) ys -> y <> x) ->
  on_mlists ws (turn back v) (p (map zlen ws) (zlen v)) = Some (res, w') -> ~ In None w' -> ends d s a x v (call_move d ys x back p) res (turn back w').
Proof.
  unfold ends. intros Hwf H Hs Ha Hne Hp Hfull. destruct (cranges_ok d s a Hwf H ys ws Hs) as (rs & Er & Hl & Hk). unfold call_move. rewrite (bind_ok _ _ _ _ _ Er). cbn [fst snd].
  assert (RcaMeet.step d (BeginMut x) a = Some (SRet (<[x := AVal true v]> a) ONone)) as Hst by (unfold RcaMeet.step; cbn [spec_step]; rewrite (holds_val _ _ _ _ Ha); reflexivity).
  destruct (step_yields d (BeginMut x) s a _ _ Hwf H Hst ltac:(discriminate)) as [(s1 & o1 & X1 & _)|Hm].
  - left. assert (get_own_copy d x s = Ok tt s1) as E1. { revert X1. cbn [exec]. unfold unit_, bind. destruct (get_own_copy d x s) as [[] ?| | | |]; try discriminate. unfold ret. congruence. }
    destruct (range_ok d s a x r v back s1 Hwf H Ha E1) as (l & g & off & s2 & Eg & Ho & H2 & Hg). rewrite (bind_ok _ _ _ _ _ Eg).
    assert (size_of (rg l g off (zlen v) back) s2 = Ok (zlen v) s2) as En. { unfold size_of, rg. cbn. rewrite Pos.eqb_refl, Nat.eqb_refl. cbn. unfold ret. f_equal. lia. }
    rewrite (bind_ok _ _ _ _ _ En).
    assert (J d s a x l g off (zlen v) v s2) as HJ. { split; [exact H2|]. split; [exact Ho|]. split; [reflexivity|]. exists [BeginMut x; BeginMut x]. split; [repeat constructor; auto|exact Hg]. }
    destruct (mrun_ok s a x l g off (zlen v) back Hwf rs ws) with (p := p (map zlen ws) (zlen v)) (v := v) (w := turn back v) (sg := s2) (sm := s2) (res := res) (w' := w') as (v' & sg' & sm' & E' & HJ' & Hs'); auto.
    + apply Forall2_length in Hs. lia.
    + intros ops s' Hf Hgo Hown k r' w Hr Hw i e Hi. destruct (Hk k r' w Hr Hw) as (y & Hy & Hq). destruct (Hq i e Hi) as (q & j & Q1 & Q2 & Q3). exists q. split; [exact Q1|].
      assert (fst y <> x) as Hyx by (destruct y as [y b]; apply nth_error_In, Hne in Hy; exact Hy). assert (Forall (fun o : op T => ~ disturbs o (fst y)) ops) as Hd by (eapply not_disturbs; [|exact Hf]; congruence).
      split; [eapply pointers_stay; [exact Hwf|exact H|exact Q2|exact Q3|exact Hd|exact Hgo]|]. eapply (apart ops s a (fst y)); [exact Hwf|exact H|exact Q2|exact Q3|exact Hd|exact Hgo|exact Hown|congruence].
    + apply (sim_init s a x l g off (zlen v) back Hwf v s2 HJ).
    + destruct (sim_end _ _ _ _ _ _ _ _ _ _ _ _ HJ' Hs' Hfull) as [-> ->]. rewrite turn_turn. destruct HJ' as [HR' _]. exists sg'. split; [exact E'|]. split; [exact HR'|]. apply (reached_shows d); assumption.
  - right. pose proof Hm as (s' & x' & X1 & _). exists s'. split; [|auto].
    assert (get_own_copy d x s = Exn BadAlloc s') as E1. { revert X1. cbn [exec]. unfold unit_, bind. destruct (get_own_copy d x s) as [[] ?| | | |]; try discriminate. congruence. }
    unfold bind. rewrite (range_exn _ _ _ _ _ _ E1). reflexivity.
Qed.
End Move.
