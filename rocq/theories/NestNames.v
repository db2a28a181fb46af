(** Calls whose item is an element of an array: the slot it is in stays where it is. *)
From stdpp Require Import gmap.
From Verif Require Import RcaSpec RcaModel RcaExec RcaInv RcaOwn RcaRel RcaMeet RcaMain NestModel NestMeet NestSim NestAbs NestBuf NestOps NestCalls.
From Coq Require Import ZifyBool.
Open Scope Z_scope.

Section Names.
Variable d : desc Z.
Variable od : desc positive.
Hypothesis Hwf : wf_desc d.
Notation vd := (vd od).
Notation rel := (rel d).
Notation sim := (sim d).
Notation arr := (arr od).
Notation St := (state sval).

(** Calls that leave the slots of the buffer [l] alone. *)
Definition kp {A} (l : loc) (m : M nstate A) : Prop := forall s v s', m s = Ok v s' -> bufs (n_out s') !! l = bufs (n_out s) !! l.
(** Calls that leave all of the arrays alone. *)
Definition same {A} (m : M nstate A) : Prop := forall s v s', m s = Ok v s' -> n_out s' = n_out s.
Lemma bind_inv {S A B} (m : M S A) (k : A -> M S B) s v s' : bind m k s = Ok v s' -> exists w s1, m s = Ok w s1 /\ k w s1 = Ok v s'.
Proof. unfold bind. destruct (m s) as [w s1|e s1| | |u]; try discriminate. eauto. Qed.
Lemma same_bind {A B} (m : M nstate A) (k : A -> M nstate B) : same m -> (forall v, same (k v)) -> same (bind m k).
Proof. intros Hm Hk s v s' E. apply bind_inv in E as (w & s1 & E1 & E2). rewrite (Hk _ _ _ _ E2). eapply Hm, E1. Qed.
Lemma same_ret {A} (v : A) : same (ret v). Proof. intros s w s' [= _ <-]. reflexivity. Qed.
Lemma same_undef {A} u : same (@undef nstate A u). Proof. intros s w s' E. discriminate. Qed.
Lemma same_inner {A} (m : M (state Z) A) : same (inner m).
Proof. intros s v s' E. unfold inner in E. destruct (m (n_in s)); try discriminate. injection E as _ <-. reflexivity. Qed.
Lemma same_new : same new_slot. Proof. intros s v s' [= _ <-]. reflexivity. Qed.
Lemma same_get l : same (outer (get_cell l)).
Proof. intros s v s' E. unfold outer, get_cell in E. destruct (st_heap (n_out s) !! l); [|discriminate]. injection E as _ <-. reflexivity. Qed.
Lemma same_getobj x : same (outer (get_obj x)).
Proof. intros s v s' E. unfold outer, get_obj in E. destruct (st_env (n_out s) !! x); [|discriminate]. injection E as _ <-. reflexivity. Qed.
Lemma same_slots l i n : same (slots l i n).
Proof. apply same_bind; [apply same_get|]. intros c. destruct (_ || _); [apply same_undef|]. destruct (names _); [apply same_ret|apply same_undef]. Qed.
Lemma same_nslots x p n : same (nslots x p n).
Proof. unfold nslots. destruct (n <=? 0); [apply same_ret|]. apply same_bind; [apply same_getobj|]. intros o. destruct (o_ref o); [apply same_slots|apply same_undef]. Qed.
Lemma same_fill n t : same (nfill d n t).
Proof.
  induction n as [|n IH]; [apply same_ret|]. cbn [nfill]. apply same_bind; [apply same_new|]. intros z. apply same_bind; [apply same_inner|]. intros _.
  apply same_bind; [exact IH|]. intros zs. apply same_ret.
Qed.
Lemma same_moves src : same (nmoves d src).
Proof.
  induction src as [|z src IH]; [apply same_ret|]. cbn [nmoves]. apply same_bind; [apply same_new|]. intros q. apply same_bind; [apply same_inner|]. intros _.
  apply same_bind; [exact IH|]. intros zs. apply same_ret.
Qed.
Lemma same_each mk ps : same (neach d mk ps).
Proof. induction ps as [|[z t] ps IH]; [apply same_ret|]. cbn [neach]. apply same_bind; [apply same_inner|]. intros _. exact IH. Qed.
Lemma same_free bf : same (nfree d bf).
Proof. induction bf as [|[z|] bf IH]; [apply same_ret| |apply same_undef]. cbn [nfree]. apply same_bind; [apply same_inner|]. intros _. exact IH. Qed.
Lemma kp_same {A} l (m : M nstate A) : same m -> kp l m.
Proof. intros H s v s' E. rewrite (H _ _ _ E). reflexivity. Qed.
Lemma kp_bind {A B} l (m : M nstate A) (k : A -> M nstate B) : kp l m -> (forall v, kp l (k v)) -> kp l (bind m k).
Proof. intros Hm Hk s v s' E. apply bind_inv in E as (w & s1 & E1 & E2). rewrite (Hk _ _ _ _ E2). eapply Hm, E1. Qed.
(** [same_bufs] of [NestAbs.handles]. *)
Lemma kp_handles {A} l (m : M (state positive) A) (m1 : M St A) : handles m m1 -> kp l (outer m).
Proof.
  intros H s v s' E. destruct (H [] ∅ (n_out s)) as [_ K]. unfold outer in E. destruct (m (n_out s)); try discriminate. injection E as _ <-. cbn in *. rewrite K. reflexivity.
Qed.
Lemma kp_set l l' c : l' <> l -> kp l (outer (set_cell l' c)).
Proof. intros N s v s' E. injection E as _ <-. cbn. unfold bufs. cbn. rewrite !lookup_fmap, lookup_insert_ne by exact N. reflexivity. Qed.
Ltac kps := repeat first [apply kp_same; first [apply same_get|apply same_ret|apply same_undef|apply same_new|apply same_inner|apply same_slots|apply same_fill|apply same_moves|apply same_nslots|apply same_each|apply same_free]|apply kp_bind; [|intros ?]].
Lemma kp_ref_reserve l l' n sc off len : l' <> l -> kp l (nref_reserve d od l' n sc off len).
Proof.
  intros N. unfold nref_reserve. apply kp_bind; [apply kp_same, same_get|]. intros c. cbv zeta. destruct (_ <? n).
  - apply kp_bind; [eapply kp_handles, (h_try od)|]. intros _. destruct (_ <? len); [kps|]. kps. destruct (c_buf c).
    + destruct (0 <? len); kps. apply kp_set, N.
    + kps. apply kp_set, N.
  - destruct (_ <? n); kps.
Qed.
Lemma keep_reserve l x n sc s v s' o : st_env (n_out s) !! x = Some o -> o_ref o <> Some l -> st_next (n_out s) <> l ->
  nreserve d od x n sc s = Ok v s' -> bufs (n_out s') !! l = bufs (n_out s) !! l.
Proof.
  intros Ex Hn Hx E. unfold nreserve in E. rewrite (bind_ok _ _ _ _ _ (outer_get_obj _ _ _ Ex)) in E.
  apply bind_inv in E as (l' & s1 & E1 & E2).
  assert (l' <> l /\ bufs (n_out s1) !! l = bufs (n_out s) !! l) as [N1 <-].
  { destruct (o_ref o) as [l0|]; [injection E1 as <- <-; split; [congruence|reflexivity]|].
    apply bind_inv in E1 as (l1 & s2 & E3 & E4). injection E4 as <- <-.
    unfold outer, new_cell, bind, try_alloc in E3. destruct (_ || _); [discriminate|]. injection E3 as <- <-. split; [exact Hx|]. cbn. unfold bufs. cbn. rewrite !lookup_fmap, lookup_insert_ne by exact Hx. reflexivity. }
  assert (K : kp l (let* off := nref_reserve d od l' n sc (o_off o) (o_len o) in outer (set_obj x (Obj (Some l') off (o_len o) (o_hash o))))).
  { apply kp_bind; [apply kp_ref_reserve, N1|]. intros off. eapply kp_handles, h_set. }
  eapply K, E2.
Qed.
(** AboutToModify(n), while another object uses the buffer [l]. *)
Lemma keep_modify b s t x o n l y oy s' : rel b s t -> Inv vd t -> st_env t !! x = Some o -> st_env t !! y = Some oy -> o_ref oy = Some l -> x <> y ->
  nmodify d od x n s = Ok tt s' -> bufs (n_out s') !! l = bufs (n_out s) !! l.
Proof.
  intros Hr HI Hx Hy Ey Hne E. pose proof HI as [Hc Ho]. destruct (Ho y oy Hy l Ey) as (c & El & _).
  pose proof (rel_env _ _ _ _ Hr) as Henv. rewrite Henv in Hx, Hy.
  assert (Hnext : st_next (n_out s) <> l).
  { pose proof (inv_fresh_loc _ _ _ _ HI) as Hf. destruct Hr as (f & a & _ & ->). intros X. rewrite <- X in El. cbn in Hf, El. congruence. }
  unfold nmodify in E. apply bind_inv in E as ([] & s1 & E1 & E2). unfold outer, bind in E1. rewrite (get_obj_ok _ _ _ Hx) in E1. injection E1 as <-.
  set (o1 := Obj (o_ref o) (o_off o) (o_len o) 0) in *. set (s1 := NState _ _) in E2.
  assert (Ex1 : st_env (n_out s1) !! x = Some o1) by apply lookup_insert.
  change (bufs (n_out s)) with (bufs (n_out s1)). change (st_next (n_out s)) with (st_next (n_out s1)) in Hnext.
  apply bind_inv in E2 as (sh & s2 & E3 & E4).
  assert (s2 = s1 /\ (sh = false -> o_ref o <> Some l)) as [-> Hsh].
  { unfold outer, is_shared, bind in E3. rewrite (get_obj_ok _ _ _ Ex1) in E3. cbn [o_ref o1] in E3. destruct (o_ref o) as [l0|] eqn:El0; [|injection E3 as <- <-; split; [reflexivity|congruence]].
    unfold get_cell in E3. destruct (st_heap (n_out s1) !! l0) as [c0|] eqn:Ec0; [|discriminate]. injection E3 as <- <-. split; [reflexivity|]. intros Hf [= ->].
    destruct Hr as (f & a & _ & ->). cbn in El, Ec0, Hc. rewrite lookup_fmap, Ec0 in El. injection El as <-.
    assert (Hl : st_heap (abs f a (n_out s)) !! l = Some (absc a c0)) by (cbn; rewrite lookup_fmap, Ec0; reflexivity).
    refine (inv_unique vd _ _ _ x o l _ y oy HI _ El0 Hl _ Hne _ Ey); [exact Hx| |exact Hy].
    pose proof (ck_pos _ _ _ _ (Hc l _ Hl)) as Hr1. cbn in *. lia. }
  destruct sh.
  - unfold ncow in E4. rewrite (bind_ok _ _ _ _ _ (outer_get_obj _ _ _ Ex1)) in E4. apply bind_inv in E4 as ([] & s1k & Ek & E4).
    assert (s1k = s1) as ->.
    { clear - E3 Ek. clearbody s1. unfold outer, check, bind in *. destruct (d_debug od); [|injection Ek as <-; destruct s1; reflexivity].
      destruct (is_shared x (n_out s1)) as [b0 o0| | | |]; try discriminate. injection E3 as -> E3. injection Ek as <-. exact E3. }
    apply bind_inv in E4 as ([] & s2 & E5 & E6).
    rewrite <- (kp_handles l _ _ (h_detach x) _ _ _ E5).
    assert (st_env (n_out s2) !! x = Some obj_empty /\ st_next (n_out s2) = st_next (n_out s1)) as [Ex2 En2].
    { unfold outer, do_detach, bind in E5. rewrite (get_obj_ok _ _ _ Ex1) in E5. unfold dec_ref, bind, get_cell in E5. cbn [o_ref o1] in E5.
      destruct (o_ref o) as [l0|]; [destruct (st_heap (n_out s1) !! l0); [|discriminate]|]; injection E5 as <-; (split; [apply lookup_insert|reflexivity]). }
    apply bind_inv in E6 as ([] & s3 & E7 & E8). rewrite <- (keep_reserve l x n _ s2 _ s3 _ Ex2 ltac:(discriminate) ltac:(congruence) E7).
    cbv zeta in E8. apply bind_inv in E8 as ([] & s4 & E9 & E10). rewrite <- (kp_handles l _ _ (h_set_len x _) _ _ _ E9).
    destruct (_ <=? 0); [injection E10 as <-; reflexivity|]. destruct (o_ref o1) as [ls|]; [|discriminate].
    assert (K : kp l (let* src := slots ls (o_off o1) (Z.min (o_len o1) n) in let* dst := nslots x 0 (Z.min (o_len o1) n) in neach d AssignCopy (combine src dst))).
    { kps. }
    exact (K _ _ _ E10).
  - eapply keep_reserve; try eassumption. apply Hsh. reflexivity.
Qed.

(** The String [z] is an element with the value [w]. *)
Definition slot_is (s : nstate) (t : St) (z : positive) (w : sval) : Prop :=
  exists l j c, slots l j 1 s = Ok [z] s /\ st_heap t !! l = Some c /\ znth j (c_buf c) = Some (Some w).
Lemma slots_bufs l j n s s' zs : bufs (n_out s') !! l = bufs (n_out s) !! l -> slots l j n s = Ok zs s -> slots l j n s' = Ok zs s'.
Proof.
  unfold bufs. rewrite !lookup_fmap. intros B E. unfold slots, bind, outer, get_cell in *.
  destruct (st_heap (n_out s) !! l) as [c|]; [|discriminate]. destruct (st_heap (n_out s') !! l) as [c'|]; [|discriminate]. cbn in B. injection B as B. rewrite B.
  destruct s, s'. cbn in *. destruct (_ || _); [discriminate|]. destruct (names _); [|discriminate]. injection E as <-. reflexivity.
Qed.
Lemma znth_vle (u v : list (option sval)) j w : vle u v -> znth j u = Some (Some w) -> znth j v = Some (Some w).
Proof.
  intros H E. unfold znth in *. destruct (j <? 0); [discriminate|]. revert E. generalize (Z.to_nat j) as n. 
  induction H as [|e e' u v He H IH]; intros [|n] E; cbn in *; try discriminate; [|apply IH, E]. injection E as ->. destruct He as [He|He]; [discriminate|congruence].
Qed.
Lemma arr_slot b s t y oy ws i w z : rel b s t -> arr t y oy ws -> znth i ws = Some w -> nslot y i s = Ok z s ->
  exists l c, o_ref oy = Some l /\ slots l (o_off oy + i) 1 s = Ok [z] s /\ st_heap t !! l = Some c /\ znth (o_off oy + i) (c_buf c) = Some (Some w) /\
    o_off oy + zlen ws <= zlen (c_buf c) /\ zlen (c_buf c) <= max_alloc.
Proof.
  intros Hr Hy Hw Hz. pose proof (znth_inv _ _ _ Hw) as Hp. destruct (arr_cell _ _ _ _ _ Hy ltac:(lia)) as (l & c & Er & El & H1 & H2 & H3).
  pose proof (ar_off _ _ _ _ _ Hy) as Hoff.
  assert (Hj : znth (o_off oy + i) (c_buf c) = Some (Some w)).
  { assert (X : znth i (zsub (o_off oy) (zlen ws) (c_buf c)) = Some (Some w)) by (rewrite H3, znth_map, Hw; reflexivity).
    rewrite znth_zsub in X. destruct ((0 <=? i) && (i <? zlen ws)); [|discriminate]. replace (i + Z.max 0 (o_off oy)) with (o_off oy + i) in X by lia. exact X. }
  exists l, c. split; [exact Er|]. split; [|auto].
  destruct (elem_sim d b s t l c (o_off oy + i) Hr El ltac:(lia)) as (f & a & z' & _ & _ & Hs & _). rewrite Hs.
  rewrite (nslot_eq s y oy l i z') in Hz; [congruence|rewrite <- (rel_env _ _ _ _ Hr); apply Hy|exact Er|exact Hs].
Qed.
(** AboutToModify(n) leaves an element of another array where it is and what it is; one of the same array, too, if [n] is its length. *)
Lemma modify_slot b s t x o vs n y oy ws i w z s' t' : rel b s t -> arr t x o vs -> arr t y oy ws -> znth i ws = Some w -> nslot y i s = Ok z s ->
  zlen vs <= n -> n < W64 -> x <> y \/ n = zlen vs -> nmodify d od x n s = Ok tt s' -> about_to_modify vd x n t = Ok tt t' -> slot_is s' t' z w.
Proof.
  intros Hr Ha Hy Hw Hz Hn HW Hor Es Et. pose proof (znth_inv _ _ _ Hw) as Hp.
  destruct (arr_slot b s t y oy ws i w z Hr Hy Hw Hz) as (l & c & Er & Hs & El & Hj & H1 & H2). pose proof (ar_off _ _ _ _ _ Hy) as Hoff. pose proof (ar_inv _ _ _ _ _ Ha) as HI.
  assert (Main : forall y' oy', x <> y' -> st_env t !! y' = Some oy' -> o_ref oy' = Some l -> slot_is s' t' z w).
  { intros y' oy' N Ey' Er'. destruct (modify_owns od t x n o vs t' Ha Hn HW Et) as (off & bf & (_ & F & _) & _).
    destruct (F y') as [_ B]; [congruence|]. specialize (B oy' Ey'). unfold buf_of in B. rewrite Er', El in B. cbn in B.
    destruct (st_heap t' !! l) as [c'|] eqn:El'; [|contradiction]. exists l, (o_off oy + i), c'. split; [|split; [exact El'|exact (znth_vle _ _ _ _ B Hj)]].
    eapply slots_bufs; [|exact Hs]. exact (keep_modify b s t x o n l y' oy' s' Hr HI (ar_env _ _ _ _ _ Ha) Ey' Er' N Es). }
  destruct (decide (x = y)) as [->|N]; [|exact (Main y oy N (ar_env _ _ _ _ _ Hy) Er)].
  destruct Hor as [|Hor]; [contradiction|]. assert (oy = o) as -> by (pose proof (ar_env _ _ _ _ _ Hy); pose proof (ar_env _ _ _ _ _ Ha); congruence).
  assert (zlen ws = zlen vs) as Hvw by (rewrite <- (ar_len _ _ _ _ _ Ha); symmetry; apply Hy).
  destruct (is_shared_eq vd t y o HI (ar_env _ _ _ _ _ Ha)) as (sh & Hsh & Hshp). destruct sh.
  - destruct Hshp as (l' & c' & Er' & El' & H1c). assert (l' = l) as -> by congruence.
    destruct (shared_other vd t y o l c' HI (ar_env _ _ _ _ _ Ha) Er El' H1c) as (y' & oy' & N & Ey' & Ery'). exact (Main y' oy' (not_eq_sym N) Ey' Ery').
  - pose proof (Hshp l c Er El) as H1c. pose proof (ar_env _ _ _ _ _ Ha) as Ex. pose proof Ex as Exs. rewrite (rel_env _ _ _ _ Hr) in Exs.
    destruct (rel_cell d b s t l c Hr El) as (c0 & ps & El0 & Eb0 & _ & Er0 & Ez0 & _). pose proof (ar_len _ _ _ _ _ Ha) as Hlen.
    assert (Hz0 : zlen (c_buf c0) = zlen (c_buf c)) by (rewrite Eb0, zlen_map; assumption).
    pose proof (max_small _ H2). subst n. set (o1 := Obj (o_ref o) (o_off o) (o_len o) 0).
    assert (Et' : st_heap t' = st_heap t).
    { unfold about_to_modify in Et. apply bind_inv in Et as ([] & t1 & E1 & Et). unfold bind in E1. rewrite (get_obj_ok _ _ _ Ex) in E1. injection E1 as <-. fold o1 in Et.
      set (t1 := with_env _ _) in Et. assert (Ex1 : st_env t1 !! y = Some o1) by apply lookup_insert. assert (El1 : st_heap t1 !! l = Some c) by exact El.
      change (st_heap t) with (st_heap t1). clearbody t1. apply bind_inv in Et as (sh & t2 & E2 & Et). unfold is_shared, bind in E2. rewrite (get_obj_ok _ _ _ Ex1) in E2. cbn [o_ref o1] in E2. rewrite Er in E2.
      rewrite (get_cell_ok _ _ _ El1), H1c in E2. injection E2 as <- <-. change (1 <? 1) with false in *. cbv iota in *. unfold v_reserve in Et. cbn [d_nul NestAbs.vd] in Et. unfold base_reserve, bind in Et. rewrite (get_obj_ok _ _ _ Ex1) in Et. cbn [o_ref o1 o_off o_len] in Et.
      rewrite Er in Et. cbn [ret] in Et. unfold aref_reserve, bind in Et. rewrite (get_cell_ok _ _ _ El1) in Et.
      destruct (Z.ltb_spec (zlen (c_buf c)) (zlen vs)); [lia|]. rewrite u64_id in Et by lia. destruct (Z.ltb_spec (zlen (c_buf c) - o_off o) (zlen vs)); [lia|].
      injection Et as <-. reflexivity. }
    exists l, (o_off o + i), c. rewrite Et'. split; [|auto]. eapply slots_bufs; [|exact Hs]. f_equal.
    unfold nmodify in Es. apply bind_inv in Es as ([] & s1 & E1 & Es). unfold outer, bind in E1. rewrite (get_obj_ok _ _ _ Exs) in E1. injection E1 as <-. fold o1 in Es.
    set (s1 := NState _ _) in Es. assert (Ex1 : st_env (n_out s1) !! y = Some o1) by apply lookup_insert. assert (El1 : st_heap (n_out s1) !! l = Some c0) by exact El0.
    change (bufs (n_out s)) with (bufs (n_out s1)). clearbody s1. destruct s1 as [q1 q2]. cbn [n_out n_in] in Ex1, El1, Es |- *. apply bind_inv in Es as (sh & s2 & E2 & Es). unfold outer, is_shared, bind in E2. cbn [n_out n_in] in E2. rewrite (get_obj_ok _ _ _ Ex1) in E2. cbn [o_ref o1] in E2. rewrite Er in E2.
    rewrite (get_cell_ok _ _ _ El1), Er0, H1c in E2. injection E2 as <- <-. change (1 <? 1) with false in *. cbv iota in *. unfold nreserve in Es.
    rewrite (bind_ok _ _ _ _ _ (outer_get_obj (NState q1 q2) _ _ Ex1)) in Es. cbn [o_ref o1 o_off o_len] in Es. rewrite Er in Es. unfold bind at 1 in Es. cbn [ret] in Es.
    unfold nref_reserve, bind in Es. unfold outer at 1 in Es. cbn [n_out] in Es. rewrite (get_cell_ok _ _ _ El1) in Es. cbv zeta in Es. rewrite Hz0 in Es.
    destruct (Z.ltb_spec (zlen (c_buf c)) (zlen vs)); [lia|]. rewrite u64_id in Es by lia. destruct (Z.ltb_spec (zlen (c_buf c) - o_off o) (zlen vs)); [lia|].
    injection Es as <-. reflexivity.
Qed.
Lemma give_el_sim b s t x o l c1 pos v w :
  rel b s t -> st_env t !! x = Some o -> o_ref o = Some l -> st_heap t !! l = Some c1 -> 0 <= o_off o + pos < zlen (c_buf c1) ->
  zlen (c_buf c1) <= max_alloc -> slot_is s t v w ->
  exists z s' t', nslot x pos s = Ok z s /\ give d false z v s = Ok tt s' /\ store x pos [Some w] t = Ok tt t' /\ rel b s' t'.
Proof.
  intros Hr Ex Er El Hj Hm (lv & j & cv & Hsv & Elv & Hvv). destruct (elem_sim d b s t l c1 _ Hr El Hj) as (f & a & z & W & Et & Hs & Oz & Sz & _ & Hput).
  assert (Hva : a !! v = Some (AVal (fst w) (snd w))).
  { subst t. cbn in Elv. rewrite lookup_fmap in Elv. unfold slots, bind, outer, get_cell in Hsv. destruct (st_heap (n_out s) !! lv) as [c|] eqn:Ec; [|discriminate].
    injection Elv as <-. cbn [c_buf absc] in Hvv. destruct (_ || _); [discriminate|]. destruct (names (zsub j 1 (c_buf c))) as [zs|] eqn:En; [|discriminate]. injection Hsv as ->.
    rewrite znth_map in Hvv. destruct (znth j (c_buf c)) as [e|] eqn:Ej; [|discriminate]. injection Hvv as Hvv.
    assert (e = Some v) as ->.
    { pose proof (znth_inv _ _ _ Ej) as Hj'. assert (X : znth 0 (zsub j 1 (c_buf c)) = Some e) by (rewrite znth_zsub; cbn; replace (Z.max 0 j) with j by lia; exact Ej).
      destruct (zsub j 1 (c_buf c)) as [|[p|] bf]; cbn in En; try discriminate. destruct (names bf) as [[|]|]; try discriminate. injection En as ->. change (Some (Some v) = Some e) in X. congruence. }
    cbn in Hvv. unfold val in Hvv. destruct (a !! v) as [[r u|]|]; try discriminate. injection Hvv as <-. reflexivity. }
  destruct (i_assign d Hwf a z v _ _ s (wf_R _ _ _ _ _ W) Sz Hva) as (i' & E & R').
  exists z, (NState (n_out s) i'), (with_heap t (<[l := Cell (zupd (o_off o + pos) [Some w] (c_buf c1)) (c_gen c1) (c_refs c1)]> (st_heap t))).
  split; [eapply nslot_eq; [rewrite <- (rel_env _ _ _ _ Hr); exact Ex|exact Er|exact Hs]|]. split; [exact E|]. split; [eapply store_eq; try eassumption; try (cbn; lia); unfold zlen at 1; cbn; lia|].
  replace (Some w) with (val (<[z := AVal (fst w) (snd w)]> a) z) by (unfold val; rewrite lookup_insert; destruct w; reflexivity).
  apply Hput; [exact R'| | |rewrite lookup_insert; eauto|].
  - intros y. rewrite lookup_insert_ne by (destruct Oz as [q ->]; discriminate). apply W.
  - rewrite lookup_insert_ne by (destruct Oz as [q ->]; discriminate). apply W.
  - intros q Hq. rewrite lookup_insert_ne by congruence. reflexivity.
Qed.
Lemma own_slot b s t x o vs y oy ws i w z s' t' : rel b s t -> arr t x o vs -> arr t y oy ws -> znth i ws = Some w -> nslot y i s = Ok z s ->
  nown d od x s = Ok tt s' -> get_own_copy vd x t = Ok tt t' -> slot_is s' t' z w.
Proof.
  intros Hr Ha Hy Hw Hz Es Et. unfold nown in Es. unfold get_own_copy in Et. apply bind_inv in Et as (n & t1 & E1 & Et). rewrite (arr_length _ _ _ _ _ Ha) in E1. injection E1 as <- <-.
  apply bind_inv in Es as (n & s1 & E1 & Es). 
  assert (n = zlen vs /\ s1 = s) as [-> ->].
  { unfold outer, length_of, bind in E1. pose proof (ar_env _ _ _ _ _ Ha) as Ex. rewrite (rel_env _ _ _ _ Hr) in Ex. rewrite (get_obj_ok _ _ _ Ex) in E1. injection E1 as <- <-.
    split; [apply Ha|destruct s; reflexivity]. }
  pose proof (max_small _ (ar_max _ _ _ _ _ Ha)). eapply (modify_slot b s t x o vs (zlen vs)); try eassumption; auto; lia.
Qed.
Lemma write_el_sim b s t x o vs y oy ws pos i w : rel b s t -> arr t x o vs -> arr t y oy ws -> znth i ws = Some w -> 0 <= pos < zlen vs ->
  sim b b ((let* z := nslot y i in nwrite d od false x pos z) s) (write vd x pos w t).
Proof.
  intros Hr Ha Hy Hw Hp. destruct (arr_elem d od b s t y oy ws i w Hr Hy Hw) as (f & a & z & _ & _ & _ & _ & _ & _ & _ & _ & _ & Hz & _).
  rewrite (bind_ok _ _ _ _ _ Hz). unfold nwrite, write. apply (sim_bind d b b b); [eapply own_sim; eassumption|]. intros [] s1 t1 Es E1 Hr1.
  pose proof (own_slot b s t x o vs y oy ws i w z s1 t1 Hr Ha Hy Hw Hz Es E1) as Hsl.
  destruct (own_owns _ _ _ _ _ _ Ha E1) as (off & bf & HO & _). pose proof (owns_facts _ _ _ _ _ _ _ HO) as Hf. destruct (owns_slot _ _ _ _ _ _ _ HO) as (l & g & Ex & El & H1 & H2 & H3 & H4).
  destruct (give_el_sim b s1 t1 x _ l _ pos z w Hr1 Ex eq_refl El) as (z' & s' & t' & X1 & X2 & X3 & Hr'); [cbn; lia|exact H4|exact Hsl|].
  rewrite (bind_ok _ _ _ _ _ X1), X2, X3. exists s'. auto.
Qed.
Lemma look_length x s n s' : outer (length_of x) s = Ok n s' -> s' = s.
Proof. unfold outer, length_of, bind, get_obj. destruct s as [q1 q2]. cbn. destruct (st_env q1 !! x); [|discriminate]. intros [= _ <-]. reflexivity. Qed.
Lemma look_check x pos s v s' : outer (check_pos x pos) s = Ok v s' -> s' = s.
Proof.
  unfold outer, check_pos, validate_index, length_of, bind, get_obj. destruct s as [q1 q2]. cbn. destruct (pos =? 0); [intros [= _ <-]; reflexivity|].
  destruct (st_env q1 !! x); [|discriminate]. cbn. destruct (_ <=? _); [discriminate|]. intros [= _ <-]. reflexivity.
Qed.
Lemma replace_el_sim b s t x o vs y oy ws pos i w : rel b s t -> arr t x o vs -> arr t y oy ws -> znth i ws = Some w -> 0 <= pos -> in_u64 pos = true -> pos <> zlen vs ->
  sim b b ((let* z := nslot y i in nreplace d od false x pos z) s) (replace_item vd x pos w t).
Proof.
  intros Hr Ha Hy Hw Hp Hu Hne. destruct (arr_elem d od b s t y oy ws i w Hr Hy Hw) as (f & a & z & _ & _ & _ & _ & _ & _ & _ & _ & _ & Hz & _).
  rewrite (bind_ok _ _ _ _ _ Hz). unfold nreplace, replace_item. apply (sim_bind d b b b); [apply (sim_handles d); [apply h_check|exact Hr]|]. intros [] s1 t1 Es1 E1 Hr1.
  destruct (check_ok _ _ _ _ _ _ _ Ha Hu E1) as [-> Hp']. apply look_check in Es1 as ->.
  pose proof (write_el_sim b s t x o vs y oy ws pos i w Hr Ha Hy Hw ltac:(lia)) as W. rewrite (bind_ok _ _ _ _ _ Hz) in W. exact W.
Qed.
Lemma insert_el_sim b s t x o vs y oy ws pos i w : rel b s t -> arr t x o vs -> arr t y oy ws -> x <> y -> znth i ws = Some w -> in_u64 pos = true ->
  sim b b ((let* z := nslot y i in ninsert d od false x pos z) s) (insert_item vd x pos w t).
Proof.
  intros Hr Ha Hy Hne Hw Hu. destruct (arr_elem d od b s t y oy ws i w Hr Hy Hw) as (f & a & z & _ & _ & _ & _ & _ & _ & _ & _ & _ & Hz & _).
  rewrite (bind_ok _ _ _ _ _ Hz). clear f a. pose proof (zlen_nonneg vs). pose proof (ar_max _ _ _ _ _ Ha) as Hmax. unfold ninsert, insert_item.
  apply (sim_bind d b b b); [apply (sim_handles d); [apply h_check|exact Hr]|]. intros [] s1 t1 Es1 E1 Hr1.
  destruct (check_ok _ _ _ _ _ _ _ Ha Hu E1) as [-> Hp].
  apply (sim_bind d b b b); [apply (sim_handles d); [apply h_length|exact Hr1]|]. intros n s2 t2 Es2 E2 Hr2.
  rewrite (arr_length _ _ _ _ _ Ha) in E2. injection E2 as <- <-. rewrite u64_id by (unfold max_alloc, W64 in *; lia).
  apply look_length in Es2 as ->. apply look_check in Es1 as ->.
  apply (sim_bind d b b b); [apply (modify_sim d od Hwf b s t x _ o vs Hr2 Ha); lia|]. intros [] s3 t3 Es3 E3 Hr3.
  destruct (modify_owns od t x (zlen vs + 1) o vs t3 Ha ltac:(lia) ltac:(unfold max_alloc, W64 in *; lia) E3) as (off & bf & HO & Hroom & Hwv).
  pose proof (owns_facts _ _ _ _ _ _ _ HO) as Hf.
  destruct (shift_sim d od Hwf b s3 t3 t x off (zlen vs) bf pos 1 Hr3 HO Hp ltac:(lia) ltac:(lia)) as (s4 & t4 & src & dst & X1 & X2 & X3 & X4 & Hr4 & HO4).
  { rewrite Hwv. apply full_map. }
  rewrite (bind_ok _ _ _ _ _ X1), (bind_ok _ _ _ _ _ X2), (bind_ok _ _ _ _ _ X3), (bind_ok _ _ _ _ _ X4).
  assert (Hsl4 : slot_is s4 t4 z w).
  { destruct HO4 as (I4 & F4 & _). pose proof (arr_frame _ _ _ _ _ _ _ Hy F4 I4 Hne) as Hy4.
    destruct (arr_slot b s t y oy ws i w z Hr Hy Hw Hz) as (l & c & Er & Hs & _).
    assert (Hs4 : slots l (o_off oy + i) 1 s4 = Ok [z] s4).
    { eapply slots_bufs; [|exact Hs]. rewrite (same_each _ _ _ _ _ X3). exact (keep_modify b s t x o _ l y oy s3 Hr (ar_inv _ _ _ _ _ Ha) (ar_env _ _ _ _ _ Ha) (ar_env _ _ _ _ _ Hy) Er Hne Es3). }
    assert (Hz4 : nslot y i s4 = Ok z s4) by (eapply nslot_eq; [rewrite <- (rel_env _ _ _ _ Hr4); apply Hy4|exact Er|exact Hs4]).
    destruct (arr_slot b s4 t4 y oy ws i w z Hr4 Hy4 Hw Hz4) as (l' & c' & _ & Hs' & El' & Hj' & _). exists l', (o_off oy + i), c'. auto. }
  destruct (owns_slot _ _ _ _ _ _ _ HO4) as (l & g & Ex & El & H1 & H2 & H3 & H4).
  assert (Hz4 : zlen (zupd (off + (pos + 1)) (zsub (off + pos) (zlen vs - pos) bf) bf) = zlen bf) by (rewrite zlen_zupd; zlen_simpl; lia).
  destruct (give_el_sim b s4 t4 x _ l _ pos z w Hr4 Ex eq_refl El) as (z' & s5 & t5 & Y1 & Y2 & Y3 & Hr5); [cbn; lia|exact H4|exact Hsl4|].
  rewrite (bind_ok _ _ _ _ _ Y1), (bind_ok _ _ _ _ _ Y2), (bind_ok _ _ _ _ _ Y3).
  destruct (owns_store vd t t4 x off (zlen vs) _ pos [Some w] HO4 ltac:(lia)) as (t6 & E6 & HO6); [unfold zlen at 1; cbn [length]; lia|]. assert (t6 = t5) as -> by congruence.
  eapply add_len_sim; eassumption.
Qed.
Lemma append_el_sim b s t x o vs y oy ws i w : rel b s t -> arr t x o vs -> arr t y oy ws -> x <> y -> znth i ws = Some w ->
  sim b b ((let* z := nslot y i in nappend d od false x z) s) (append_item vd x w t).
Proof.
  intros Hr Ha Hy Hne Hw. pose proof (insert_el_sim b s t x o vs y oy ws (zlen vs) i w Hr Ha Hy Hne Hw) as S.
  destruct (arr_elem d od b s t y oy ws i w Hr Hy Hw) as (f & a & z & _ & _ & _ & _ & _ & _ & _ & _ & _ & Hz & _). rewrite (bind_ok _ _ _ _ _ Hz). rewrite (bind_ok _ _ _ _ _ Hz) in S.
  unfold nappend, append_item. apply (sim_bind d b b b); [apply (sim_handles d); [apply h_length|exact Hr]|]. intros n s2 t2 Es2 E2 Hr2.
  rewrite (arr_length _ _ _ _ _ Ha) in E2. injection E2 as <- <-. apply look_length in Es2 as ->. apply S.
  unfold in_u64. pose proof (ar_max _ _ _ _ _ Ha). pose proof (zlen_nonneg vs). unfold max_alloc, W64 in *; lia.
Qed.
End Names.
