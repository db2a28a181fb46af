(** Cost of putting a text together from pieces. *)
From Coq Require Import ZifyBool.
From Verif Require Import Base RcaSpec RcaModel RcaExec RcaInv RcaOwn RcaRel RcaMeet RcaMain RcaReach RcaMod GrowModel GrowProof BuildModel BuildSpec.
Open Scope Z_scope.

Section Build.
Context {T : Type} (d : desc T).
Notation St := (state T).
Notation own := (own (T := T)).
Ltac bi H a s1 E := apply bind_inv in H as (a & s1 & E & H).
Definition want1 (want : Z) : Z := match d_nul d with None => want | Some _ => if 0 <? want then want + 1 else want end.
Lemma want1_ge w : w <= want1 w <= w + 1.
Proof. unfold want1. destruct (d_nul d); [destruct (0 <? w)|]; lia. Qed.
Lemma bounds x (s : St) cap off len : own x s cap off len -> 0 <= off /\ 0 <= len /\ off + len <= cap /\ cap <= max_alloc.
Proof. intros (? & ? & ? & ? & ? & ? & ? & ? & ? & ? & ?). auto. Qed.

Lemma vreserve_own x want len (s s' : St) cap off : own x s cap off len -> 0 <= want -> len <= want -> want + 1 <= max_alloc ->
  v_reserve d x want (d_grow d) s = Ok tt s' ->
  exists cap' off', own x s' cap' off' len /\
  (if cap <? want1 want
   then cap' = Z.max (d_grow d cap) (want1 want) /\ off' = 0 /\ st_tick s' = S (st_tick s) /\ exists b, st_freed s' = b ++ st_freed s /\ total b = cap /\ (cap = 0 -> b = [])
   else cap' = cap /\ off' = (if cap - off <? want1 want then 0 else off) /\ st_tick s' = st_tick s /\ st_freed s' = st_freed s).
Proof.
  intros Hw W L Hb H. unfold v_reserve in H. unfold want1. destruct (d_nul d) as [z|].
  - rewrite u64_id in H by (unfold max_alloc, W64, W63 in *; lia). set (real := if 0 <? want then want + 1 else want) in *.
    assert (len <= real /\ 0 <= real) as [R1 R2] by (unfold real; destruct (0 <? want); lia).
    bi H u s1 E1. destruct u. apply (reserve_meter d x real (d_grow d) s s1 cap off len Hw) in E1 as (cap' & off' & Hw' & E1); [|lia|lia].
    bi H o s2 E2. destruct Hw' as (l & h & c & Hx & Hl & Hr & Hc & Ho & Hlen & Hfit & Hm). unfold get_obj in E2. rewrite Hx in E2. injection E2 as <- <-.
    cbn [o_ref o_off] in H. bi H c0 s2 E2. unfold get_cell in E2. rewrite Hl in E2. injection E2 as <- <-.
    assert (cap' = zlen (c_buf c)) as Q by auto. clear Hc.
    destruct (c_buf c) as [|b0 b] eqn:Eb.
    + change (zlen []) with 0 in Q. subst cap'. destruct (off' =? 0) eqn:Eo; [|discriminate]. injection H as <-. exists 0, off'. split; [|exact E1].
      exists l, h, c. rewrite Eb. repeat match goal with |- _ /\ _ => split end; auto.
    + rewrite <- Eb in *. unfold set_cell in H. injection H as <-. cbn [st_tick st_freed with_heap]. exists cap', off'. split; [|exact E1].
      assert (0 < zlen (c_buf c)) as Pb by (rewrite Eb, zlen_cons; pose proof (zlen_nonneg b); lia).
      eexists l, h, _. cbn [st_env st_heap with_heap]. rewrite lookup_insert. split; [exact Hx|]. split; [reflexivity|]. cbn [c_refs c_buf].
      rewrite zlen_zupd by (change (zlen [Some z]) with 1; lia). repeat match goal with |- _ /\ _ => split end; auto; lia.
  - apply (reserve_meter d x want (d_grow d) s s' cap off len Hw) in H; [exact H|lia|lia].
Qed.
Lemma vreserve_fresh x want (s s' : St) h : st_env s !! x = Some (Obj None 0 0 h) -> 0 <= want -> want + 1 <= max_alloc ->
  v_reserve d x want (d_grow d) s = Ok tt s' ->
  exists cap, own x s' cap 0 0 /\ want <= cap /\ (st_tick s' <= st_tick s + 2)%nat /\ st_freed s' = st_freed s.
Proof.
  intros Hx W Hb H. destruct (decide (want = 0)) as [->|N].
  - unfold v_reserve in H. assert (exists s1, base_reserve d x 0 (d_grow d) s = Ok tt s1 /\ (own x s1 0 0 0 -> s' = s1)) as (s1 & E & Hs).
    { destruct (d_nul d) as [z|]; [|exists s'; auto]. bi H u s1 E. destruct u. exists s1. split; [exact E|]. intros (l & h1 & c & Hx1 & Hl & _ & Hc & _).
      bi H o s2 E2. unfold get_obj in E2. rewrite Hx1 in E2. injection E2 as <- <-. cbn [o_ref o_off] in H. bi H c0 s2 E2. unfold get_cell in E2. rewrite Hl in E2. injection E2 as <- <-.
      destruct (c_buf c) as [|b0 b]; [injection H as <-; reflexivity|]. rewrite zlen_cons in Hc. pose proof (zlen_nonneg b). lia. }
    apply (none_split d _ _ _ _ _ _ Hx) in E as (s2 & Hw & Et & Ef & E). apply (reserve_meter d x 0 (d_grow d) s2 s1 0 0 0 Hw) in E as (cap & off & Hw' & E); [|lia|lia].
    cbn in E. destruct E as (-> & -> & Et2 & Ef2). rewrite (Hs Hw'). exists 0. split; [exact Hw'|]. split; [lia|]. split; [lia|congruence].
  - replace want with (want - 1 + 1) in H by lia. apply (vreserve_none d x (want - 1) s s' h Hx) in H as (cap & Hw & Hn & Ht & Hf); [|lia|lia].
    pose proof (need_ge d (want - 1)). exists cap. split; [exact Hw|]. split; [lia|]. split; [lia|exact Hf].
Qed.
(** AboutToModify on an only owner. *)
Lemma modify_own x want len (s s' : St) cap off : own x s cap off len -> 0 <= want -> len <= want -> want + 1 <= max_alloc ->
  about_to_modify d x want s = Ok tt s' ->
  exists cap' off', own x s' cap' off' len /\ off' + want <= cap' /\
  (if cap <? want1 want
   then cap' = Z.max (d_grow d cap) (want1 want) /\ off' = 0 /\ st_tick s' = S (st_tick s) /\ (exists b, st_freed s' = b ++ st_freed s /\ total b = cap) /\
        grow_moves d x want s <= len
   else cap' = cap /\ off' = (if cap - off <? want1 want then 0 else off) /\ st_tick s' = st_tick s /\ st_freed s' = st_freed s /\
        grow_moves d x want s = (if cap - off <? want1 want then len else 0)).
Proof.
  intros Hw W L Hb E. pose proof (bounds _ _ _ _ _ Hw) as B. unfold about_to_modify in E. bi E u2 s3 E'.
  assert (grow_moves d x want s = (if cap <? want1 want then (if cap =? 0 then 0 else len) else if cap - off <? want1 want then len else 0)) as Hmv.
  { destruct Hw as (l & h & c & Hx & Hl & Hr & Hc & _). unfold grow_moves. rewrite Hx. cbn [o_ref o_len o_off]. rewrite Hl, Hr, Hc. reflexivity. }
  assert (own x s3 cap off len /\ st_tick s3 = st_tick s /\ st_freed s3 = st_freed s) as (Hw3 & Et3 & Ef3).
  { destruct Hw as (l & h & c & Hx & Hl & Hr & Hc & R). bi E' o s4 E4. unfold get_obj in E4. rewrite Hx in E4. injection E4 as <- <-.
    unfold set_obj in E'. injection E' as _ <-. split; [|auto]. exists l, 0, c. cbn [st_env st_heap with_env o_ref o_off o_len]. rewrite lookup_insert. auto. }
  bi E sh s4 E4. assert (sh = false /\ s4 = s3) as [-> ->].
  { destruct Hw3 as (l & h & c & Hx & Hl & Hr & _). unfold is_shared, bind, get_obj in E4. rewrite Hx in E4. cbn [o_ref] in E4. unfold get_cell in E4.
    rewrite Hl in E4. injection E4 as <- <-. rewrite Hr. auto. }
  apply (vreserve_own x want len s3 s' cap off Hw3) in E as (cap' & off' & Hw' & E); [|lia|lia|lia].
  pose proof (want1_ge want) as Hng. exists cap', off'. split; [exact Hw'|]. rewrite Hmv. destruct (cap <? want1 want) eqn:E5.
  - destruct E as (-> & -> & Et2 & b & Ef2 & Hb2 & _). rewrite Et2, Et3, Ef2, Ef3. split; [lia|]. repeat match goal with |- _ /\ _ => split end; eauto.
    destruct (cap =? 0); lia.
  - destruct E as (-> & -> & Et2 & Ef2). rewrite Et2, Et3, Ef2, Ef3. split; [destruct (cap - off <? want1 want) eqn:E6; lia|].
    repeat match goal with |- _ /\ _ => split end; auto.
Qed.
(** AboutToModify on one of several owners. *)
Lemma modify_shared x want (s s' : St) o l c : st_env s !! x = Some o -> o_ref o = Some l -> st_heap s !! l = Some c -> 1 < c_refs c ->
  0 <= o_len o <= want -> want + 1 <= max_alloc -> about_to_modify d x want s = Ok tt s' ->
  exists cap, own x s' cap 0 (o_len o) /\ want <= cap /\ (st_tick s' <= st_tick s + 2)%nat /\ st_freed s' = st_freed s /\ grow_moves d x want s = o_len o.
Proof.
  intros Hx Hr Hl R L Hb E. set (len := o_len o) in *. unfold about_to_modify in E. bi E u2 s3 E'.
  assert (grow_moves d x want s = len) as Hmv.
  { unfold grow_moves. rewrite Hx, Hr, Hl. destruct (1 <? c_refs c) eqn:E1; [reflexivity|lia]. }
  bi E' o1 s4 E4. unfold get_obj in E4. rewrite Hx in E4. injection E4 as <- <-. unfold set_obj in E'. injection E' as _ <-.
  bi E sh s4 E4. unfold is_shared, bind, get_obj in E4. cbn [st_env with_env] in E4. rewrite lookup_insert in E4. cbn [o_ref] in E4. rewrite Hr in E4.
  unfold get_cell in E4. cbn [st_heap with_env] in E4. rewrite Hl in E4. destruct (1 <? c_refs c) eqn:E5; [|lia]. injection E4 as <- <-.
  unfold cow in E. bi E o1 s4 E4. unfold get_obj in E4. cbn [st_env with_env] in E4. rewrite lookup_insert in E4. injection E4 as <- <-.
  cbn [o_ref o_off o_len] in E. bi E uk s4 E4. rewrite (check_ok d) in E4 by (eapply shared_ok; [apply lookup_insert|reflexivity|exact Hl|lia]). injection E4 as _ <-.
  bi E u3 s4 E4. unfold do_detach in E4. bi E4 o1 s5 E6. unfold get_obj in E6. cbn [st_env with_env] in E6. rewrite lookup_insert in E6. injection E6 as <- <-.
  cbn [o_ref] in E4. rewrite ?Hr in E4. bi E4 r s5 E6. unfold dec_ref in E6. bi E6 c0 s6 E7. unfold get_cell in E7. cbn [st_heap with_env] in E7. rewrite Hl in E7. injection E7 as <- <-.
  bi E6 u4 s6 E7. unfold set_cell in E7. injection E7 as _ <-. injection E6 as <- <-. unfold set_obj in E4. injection E4 as _ <-.
  bi E u5 s5 E4. destruct u5. apply (vreserve_fresh x want _ s5 0) in E4 as (cap & Hw & Hc & Et & Ef); [|cbn [st_env with_env with_heap]; rewrite lookup_insert; reflexivity|lia|lia].
  cbn [st_tick st_freed with_env with_heap] in Et, Ef. fold len in E. replace (Z.min len want) with len in E by lia.
  bi E u6 s6 E4. destruct u6. apply (set_len_meter _ _ _ _ _ _ _ Hw) in E4 as (Hw6 & Et6 & Ef6); [|lia|lia].
  exists cap. destruct (len <=? 0) eqn:E7.
  - injection E as <-. split; [exact Hw6|]. split; [lia|]. split; [lia|]. split; [congruence|exact Hmv].
  - rewrite ?Hr in E. bi E c1 s7 E8. unfold get_cell in E8. destruct (st_heap s6 !! l) as [c2|]; [|discriminate]. injection E8 as <- <-.
    destruct (_ <=? zlen (c_buf c2)) in E; [|discriminate]. apply (store_meter _ _ _ _ _ _ _ _ Hw6) in E as (Hw7 & Et7 & Ef7).
    split; [exact Hw7|]. split; [lia|]. split; [lia|]. split; [congruence|exact Hmv].
Qed.
(** AboutToModify on an object without a buffer. *)
Lemma modify_none x want (s s' : St) h : st_env s !! x = Some (Obj None 0 0 h) -> 0 <= want -> want + 1 <= max_alloc -> about_to_modify d x want s = Ok tt s' ->
  exists cap, own x s' cap 0 0 /\ want <= cap /\ (st_tick s' <= st_tick s + 2)%nat /\ st_freed s' = st_freed s /\ grow_moves d x want s = 0.
Proof.
  intros Hx W Hb E. unfold about_to_modify in E. bi E u2 s3 E'. bi E' o1 s4 E4. unfold get_obj in E4. rewrite Hx in E4. injection E4 as <- <-. unfold set_obj in E'. injection E' as _ <-.
  bi E sh s4 E4. unfold is_shared, bind, get_obj in E4. cbn [st_env with_env] in E4. rewrite lookup_insert in E4. cbn [o_ref] in E4. injection E4 as <- <-.
  apply (vreserve_fresh x want _ s' 0) in E as (cap & Hw & Hc & Et & Ef); [|cbn [st_env with_env]; rewrite lookup_insert; reflexivity|lia|lia].
  exists cap. split; [exact Hw|]. split; [exact Hc|]. split; [exact Et|]. split; [exact Ef|]. unfold grow_moves. rewrite Hx. reflexivity.
Qed.

(** What follows AboutToModify. *)
Lemma shift_tail x k (s s' : St) cap off len : own x s cap off len -> shift_right x len k s = Ok tt s' -> s' = s.
Proof.
  intros Hw E. unfold shift_right in E. bi E n s0 E'. rewrite (length_meter _ _ _ _ _ Hw) in E'. injection E' as <- <-.
  bi E es s0 E'. unfold load in E'. destruct (len - len <=? 0) eqn:E0; [|lia]. injection E' as <- <-.
  unfold store in E. change (zlen [] <=? 0) with true in E. injection E as <-. reflexivity.
Qed.
Lemma add_tail x k (s s' : St) cap off len : own x s cap off len -> 0 <= k -> off + len + k <= cap -> add_len x k s = Ok tt s' ->
  own x s' cap off (len + k) /\ st_tick s' = st_tick s /\ st_freed s' = st_freed s.
Proof.
  intros Hw K F H. pose proof (bounds _ _ _ _ _ Hw) as B. unfold add_len in H. bi H n s2 E. rewrite (length_meter _ _ _ _ _ Hw) in E. injection E as <- <-.
  rewrite u64_id in H by (unfold max_alloc, W64, W63 in *; lia). apply (set_len_meter x (len + k) _ _ _ _ _ Hw) in H; [exact H|lia|lia].
Qed.
Lemma load_same x p n (s s' : St) es : load x p n s = Ok es s' -> s' = s.
Proof.
  unfold load. destruct (n <=? 0); [intros [= _ <-]; reflexivity|]. intros H. bi H o s1 E. unfold get_obj in E. destruct (st_env s !! x); [|discriminate]. injection E as <- <-.
  destruct (o_ref _); [|discriminate]. bi H c s1 E. unfold get_cell in E. destruct (st_heap s !! _); [|discriminate]. injection E as <- <-.
  destruct (_ <=? _); [|discriminate]. injection H as _ <-. reflexivity.
Qed.
Lemma fwd_tail x y n : forall src pos (s s' : St) cap off len, own x s cap off len -> copy_fwd n x y src pos s = Ok tt s' ->
  own x s' cap off len /\ st_tick s' = st_tick s /\ st_freed s' = st_freed s.
Proof.
  induction n as [|n IH]; intros src pos s s' cap off len Hw H; cbn [copy_fwd] in H; [injection H as <-; auto|].
  bi H e s1 E. apply load_same in E as ->. bi H u s1 E. destruct u. apply (store_meter _ _ _ _ _ _ _ _ Hw) in E as (Hw1 & Et & Ef).
  apply (IH _ _ _ _ _ _ _ Hw1) in H as (Hw2 & Et2 & Ef2). split; [exact Hw2|]. split; congruence.
Qed.
Lemma copy_tail x y k pos (s s' : St) cap off len : own x s cap off len -> copy_elems d x y k pos s = Ok tt s' ->
  own x s' cap off len /\ st_tick s' = st_tick s /\ st_freed s' = st_freed s.
Proof.
  intros Hw H. unfold copy_elems in H. bi H ox s1 E. unfold get_obj in E. destruct (st_env s !! x); [|discriminate]. injection E as _ <-.
  bi H oy s1 E. unfold get_obj in E. destruct (st_env s !! y); [|discriminate]. injection E as _ <-.
  destruct (_ && _); [exact (fwd_tail _ _ _ _ _ _ _ _ _ _ Hw H)|]. bi H es s1 E. apply load_same in E as ->. exact (store_meter _ _ _ _ _ _ _ _ Hw H).
Qed.
Lemma check_same x pos (s s' : St) : check_pos x pos s = Ok tt s' -> s' = s.
Proof.
  unfold check_pos, validate_index. destruct (pos =? 0); [intros [= <-]; reflexivity|]. intros E. bi E n s2 E'. unfold length_of in E'. bi E' o s3 E3. unfold get_obj in E3.
  destruct (st_env s !! x); [|discriminate]. injection E3 as _ <-. injection E' as _ <-. destruct (_ <=? _); [discriminate|]. injection E as <-. reflexivity.
Qed.

Hypothesis Hwf : wf_desc d.
Lemma full_no (a : astate T) v y n r u : joins a v (Copied y n) -> a !! y = Some (AVal r u) -> 0 < n -> (zlen v =? 0) && (zlen v <? zlen u) && (n =? zlen u) = false.
Proof.
  intros J Hy Hn. destruct (n =? zlen u) eqn:E; [|apply andb_false_r]. destruct J as [J|J]; [destruct (zlen v =? 0) eqn:?; [lia|reflexivity]|].
  exfalso. apply J. cbn. split; [exact Hn|]. exists r, u. split; [exact Hy|lia].
Qed.
Lemma piece_parts x p t (s s1 : St) a r v w : reached d s a -> a !! x = Some (AVal r v) -> joins a v p -> piece_text d a x p t ->
  zlen v + zlen t + 1 <= max_alloc -> exec d (add_op x p s) s = Ok w s1 ->
  if piece_n p =? 0 then t = [] /\ s1 = s
  else exists s2, about_to_modify d x (zlen v + zlen t) s = Ok tt s2 /\
    forall cap off, own x s2 cap off (zlen v) -> off + zlen v + zlen t <= cap ->
      own x s1 cap off (zlen v + zlen t) /\ st_tick s1 = st_tick s2 /\ st_freed s1 = st_freed s2.
Proof.
  intros Hre Ha Hv Ht Hb H. pose proof (reached_R d s a Hwf Hre) as HR. destruct (R_held d _ _ _ _ _ HR Ha) as (o & Hh).
  pose proof (held_len d _ _ _ _ _ Hh) as Hlen. pose proof (hd_env _ _ _ _ _ _ Hh) as Hx.
  assert (len_of x s = zlen v) as Ho by (unfold len_of; rewrite Hx; unfold length_of, bind, get_obj in Hlen; rewrite Hx in Hlen; injection Hlen as ->; reflexivity).
  pose proof (zlen_nonneg t) as Hz. pose proof (zlen_nonneg v) as Hzv. destruct p as [y n|mem n]; cbn [add_op piece_n piece_text] in *.
  - destruct Ht as (Hne & Hn & ry & u & Hy & ->). cbn [exec] in H. unfold unit_ in H. bi H u0 s3 E. injection H as _ <-. destruct u0.
    unfold append_n in E. bi E n0 s0 E0. rewrite Hlen in E0. injection E0 as <- <-. unfold insert_n in E.
    destruct (n =? 0) eqn:En. { injection E as <-. assert (n = 0) as -> by lia. auto. }
    destruct (R_held d _ _ _ _ _ HR Hy) as (oy & Hhy). pose proof (held_len d _ _ _ _ _ Hhy) as Hly.
    bi E u0 s0 E0. destruct u0. apply check_same in E0 as ->. bi E n1 s0 E0. rewrite Hly in E0. injection E0 as <- <-.
    bi E n1 s0 E0. rewrite Hlen in E0. injection E0 as <- <-. rewrite (full_no a v y n ry u Hv Hy) in E by lia.
    assert ((if zlen u <? n then zlen u else n) = zlen (ztake n u)) as Ek by (rewrite zlen_ztake; destruct (zlen u <? n) eqn:?; pose proof (zlen_nonneg u); lia).
    rewrite Ek in E. unfold splice in E. bi E n1 s0 E0. rewrite Hlen in E0. injection E0 as <- <-.
    rewrite u64_id in E by (unfold max_alloc, W64, W63 in *; lia). bi E u0 s2 E0. destruct u0. exists s2. split; [exact E0|].
    intros cap off Hw Hf. bi E u0 s4 E1. destruct u0. apply (shift_tail _ _ _ _ _ _ _ Hw) in E1 as ->. bi E u0 s4 E1. destruct u0.
    apply (copy_tail _ _ _ _ _ _ _ _ _ Hw) in E1 as (Hw4 & Et4 & Ef4). apply (add_tail _ _ _ _ _ _ _ Hw4) in E as (Hw5 & Et5 & Ef5); [|lia|lia].
    split; [exact Hw5|]. split; congruence.
  - destruct Ht as (z & Hnul & Ht). rewrite Ho in H. cbn [exec] in H. unfold unit_, with_nul in H. rewrite Hnul in H. bi H u0 s3 E. injection H as _ <-. destruct u0.
    unfold insert_cstr in E. destruct (n =? 0) eqn:En.
    { injection E as <-. assert (n = 0) as -> by lia. destruct Ht as [(_ & _ & ->)|(Q & _)]; [auto|]. unfold npos, W64 in Q. lia. }
    bi E u0 s0 E0. destruct u0. apply check_same in E0 as ->. bi E k s0 E0.
    assert (k = zlen t /\ s0 = s /\ (forall q, mem_read mem k s = Ok q s -> True)) as (-> & -> & _).
    { destruct Ht as [(Hn & Hm & ->)|(-> & t' & Hc & ->)].
      - destruct (n =? npos) eqn:E1; [lia|]. injection E0 as <- <-. split; [|auto]. unfold zlen. rewrite map_length. fold (zlen (ztake n mem)). rewrite zlen_ztake. lia.
      - rewrite Z.eqb_refl in E0. unfold cstrlen in E0. split; [|split; [|auto]].
        + destruct (strlen_cstr d z mem t' 0 Hc) as (Q & _). rewrite Q in E0. injection E0 as <- _. unfold zlen. rewrite map_length. reflexivity.
        + destruct (strlen_from _ _ _ _); [|discriminate]. injection E0 as _ <-. reflexivity. }
    bi E n1 s0 E1. rewrite Hlen in E1. injection E1 as <- <-. rewrite u64_id in E by (unfold max_alloc, W64, W63 in *; lia).
    bi E u0 s2 E1. destruct u0. exists s2. split; [exact E1|].
    intros cap off Hw Hf. bi E u0 s4 E2. destruct u0. apply (shift_tail _ _ _ _ _ _ _ Hw) in E2 as ->. bi E u0 s4 E2. destruct u0.
    apply (add_tail _ _ _ _ _ _ _ Hw) in E2 as (Hw5 & Et5 & Ef5); [|lia|lia]. bi E es s5 E2. unfold mem_read in E2. destruct (_ <=? _); [|discriminate]. injection E2 as _ <-.
    apply (store_meter _ _ _ _ _ _ _ _ Hw5) in E as (Hw6 & Et6 & Ef6). split; [exact Hw6|]. split; congruence.
Qed.
Lemma piece_spec x p t (s : St) a r v : a !! x = Some (AVal r v) -> len_of x s = zlen v -> joins a v p -> piece_text d a x p t -> zlen v + zlen t + 1 <= max_alloc ->
  exists a' r', RcaMeet.step d (add_op x p s) a = Some (SRet a' ONone) /\ a' !! x = Some (AVal r' (v ++ t)) /\ forall y, y <> x -> a' !! y = a !! y.
Proof.
  intros Ha Ho Hv Ht Hb. pose proof (zlen_nonneg t) as Hz. pose proof (zlen_nonneg v) as Hzv. assert (sp_splice v (zlen v) t = v ++ t) as Es.
  { unfold sp_splice. rewrite ztake_all, zdrop_all, app_nil_r by lia. reflexivity. }
  assert (in_u64 (zlen v) = true) as Hi by (unfold in_u64, max_alloc, W64, W63 in *; lia).
  destruct p as [y n|mem n]; cbn [add_op piece_text] in *; unfold RcaMeet.step; cbn [spec_step]; unfold holds; rewrite Ha.
  - destruct Ht as (Hne & Hn & ry & u & Hy & ->). unfold sp_insert_n, live, fresh_var. rewrite Ha, Hy.
    assert (in_u64 n = true) as -> by (unfold in_u64, npos, W64 in *; lia). cbn [negb andb need]. destruct (n =? 0) eqn:En.
    { assert (n = 0) as -> by lia. exists a, r. rewrite app_nil_r. auto. }
    unfold sp_insert, holds. rewrite Ha, Hy, Hi. cbn [need]. rewrite Z.ltb_irrefl. rewrite (full_no a v y n ry u Hv Hy) by lia.
    assert (alias_ok (d_class d) x y (zlen v) (Z.min n (zlen u)) = true) as ->.
    { unfold alias_ok. destruct (Pos.eqb x y) eqn:E; [apply Pos.eqb_eq in E; congruence|]. rewrite andb_false_r. reflexivity. }
    cbn [need]. unfold put. assert (ztake (Z.min n (zlen u)) u = ztake n u) as ->.
    { destruct (Z.le_ge_cases n (zlen u)); [rewrite Z.min_l by lia; reflexivity|]. rewrite Z.min_r by lia. rewrite !ztake_all by lia. reflexivity. }
    rewrite Es. eexists _, true. split; [reflexivity|]. split; [apply lookup_insert|]. intros y' N. apply lookup_insert_ne. congruence.
  - destruct Ht as (z & Hnul & Ht). rewrite Hnul, Ho, Hi. cbn [is_string andb].
    assert (in_u64 n = true) as -> by (unfold in_u64, npos, W64 in *; destruct Ht as [(? & ? & _)|(-> & _)]; lia). cbn [need]. destruct (n =? 0) eqn:En.
    { assert (n = 0) as -> by lia. destruct Ht as [(_ & _ & ->)|(Q & _)]; [|unfold npos, W64 in Q; lia]. exists a, r. cbn. rewrite app_nil_r. auto. }
    rewrite Z.ltb_irrefl. assert (exists w, sp_carg (d_eqb d) (Some z) mem n = Some w /\ t = map Some w) as (w & -> & ->).
    { unfold sp_carg. destruct Ht as [(Hn & Hm & ->)|(-> & t' & Hc & ->)].
      - destruct (n =? npos) eqn:E1; [lia|]. destruct (n <=? zlen mem) eqn:E2; [|lia]. eauto.
      - rewrite Z.eqb_refl, Hc. eauto. }
    assert (zlen (map Some w) = zlen w) as Hm by (unfold zlen; rewrite map_length; reflexivity). rewrite Hm in *.
    destruct (zlen v + zlen w <? npos) eqn:E1; [|unfold npos, max_alloc, W64, W63 in *; lia]. cbn [need]. unfold put. rewrite Es. eexists _, true.
    split; [reflexivity|]. split; [apply lookup_insert|]. intros y' N. apply lookup_insert_ne. congruence.
Qed.

Lemma text_other a a' x p t : (forall y, y <> x -> a' !! y = a !! y) -> piece_text d a x p t -> piece_text d a' x p t.
Proof. intros H. destruct p as [y n|mem n]; cbn; [|auto]. intros (N & Hn & r & u & Hy & E). split; [exact N|]. split; [exact Hn|]. exists r, u. rewrite H by exact N. auto. Qed.
Lemma joins_next (a a' : astate T) x v t ps ts : (forall y, y <> x -> a' !! y = a !! y) -> Forall2 (piece_text d a x) ps ts -> Forall (joins a v) ps -> Forall (joins a' (v ++ t)) ps.
Proof.
  intros H F. induction F as [|p w ps ts Hp F IH]; intros J; [constructor|]. inversion J as [|? ? J1 J2]; subst. constructor; [|exact (IH J2)].
  destruct J1 as [J1|J1]; [left; rewrite zlen_app; pose proof (zlen_nonneg t); lia|right]. destruct p as [y n|mem n]; cbn in *; [|auto].
  destruct Hp as (N & _). rewrite H by exact N. exact J1.
Qed.
Variable lim : Z.
Hypothesis Hgrow : forall z, 0 <= z <= lim -> z + z / 2 <= d_grow d z.
Hypothesis Hlim : lim <= max_alloc.
Lemma grow_pieces x ps : forall ts (s s' : St) a r v m cap off (K : nat) Sm M, reached d s a -> a !! x = Some (AVal r v) -> Forall (joins a v) ps ->
  Forall2 (piece_text d a x) ps ts -> own x s cap off (zlen v) -> zlen v + zlen (concat ts) + 2 <= lim ->
  Sm <= 3 * cap -> Sm <= 4 * zlen v -> 4 * 3 ^ Z.of_nat K <= 2 ^ Z.of_nat K * gauge cap -> 3 ^ Z.of_nat K <= 2 ^ Z.of_nat K * (4 * (zlen v + 1)) ->
  (if off =? 0 then M <= Sm + zlen v else M = 0) -> 0 <= Sm ->
  build d x ps s = Some (s', m) ->
  exists (k : nat) R a' r', reached d s' a' /\ a' !! x = Some (AVal r' (v ++ concat ts)) /\ (forall y, y <> x -> a' !! y = a !! y) /\
    st_tick s' = (st_tick s + k)%nat /\ st_freed s' = R ++ st_freed s /\ Sm + total R <= 4 * (zlen v + zlen (concat ts)) /\
    M + m <= 5 * (zlen v + zlen (concat ts)) /\ 3 ^ Z.of_nat (K + k) <= 2 ^ Z.of_nat (K + k) * (4 * (zlen v + zlen (concat ts) + 1)).
Proof.
  induction ps as [|p ps IH]; intros ts s s' a r v m cap off K Sm M Hre Ha Hv Hts Hw Hl I1 I2 I3 I4 I5 I6 H; cbn [build] in H.
  - injection H as <- <-. inversion Hts; subst. cbn [concat]. change (zlen []) with 0 in *. exists O, [], a, r. rewrite !Nat.add_0_r, !Z.add_0_r, app_nil_r. unfold total; cbn.
    repeat match goal with |- _ /\ _ => split end; auto; try lia. destruct (off =? 0); lia.
  - inversion Hts as [|? t ? ts' Ht Hts']; subst. inversion Hv as [|? ? Hv1 Hv2]; subst. cbn [concat] in *. rewrite zlen_app in *. pose proof (zlen_nonneg t) as Hz. pose proof (zlen_nonneg (concat ts')) as Hz'. pose proof (zlen_nonneg v) as Hzv.
    destruct (exec d (add_op x p s) s) as [w s1| | | |] eqn:E; try discriminate.
    destruct (build d x ps s1) as [[s2 m']|] eqn:E2; [|discriminate]. injection H as <- <-.
    assert (len_of x s = zlen v) as Ho by (destruct Hw as (l & h & c & Hx & _); unfold len_of; rewrite Hx; reflexivity).
    destruct (piece_spec x p t s a r v Ha Ho Hv1 Ht ltac:(lia)) as (a1 & r1 & Hs & Ha1 & Hoth).
    assert (reached d s1 a1) as Hre1 by (eapply re_ret; eassumption).
    assert (Forall2 (piece_text d a1 x) ps ts') as Hts1 by (eapply Forall2_impl; [exact Hts'|]; intros ? ? Q; exact (text_other _ _ _ _ _ Hoth Q)).
    pose proof (joins_next a a1 x v t ps ts' Hoth Hts' Hv2) as Hv3.
    pose proof (piece_parts x p t s s1 a r v w Hre Ha Hv1 Ht ltac:(lia) E) as P. destruct (piece_n p =? 0) eqn:En.
    { destruct P as [-> ->]. rewrite app_nil_r in Ha1, Hv3. change (zlen []) with 0 in *.
      destruct (IH ts' s s2 a1 r1 v m' cap off K Sm M Hre1 Ha1 Hv3 Hts1 Hw ltac:(lia) I1 I2 I3 I4 I5 I6 E2) as (k & R & a' & r' & Q1 & Q2 & Q3 & Q4 & Q5 & Q6 & Q7 & Q8).
      exists k, R, a', r'. cbn [app]. rewrite !Z.add_0_l. split; [exact Q1|]. split; [exact Q2|]. split; [intros y N; rewrite Q3, Hoth by exact N; reflexivity|]. auto. }
    destruct P as (sm & Ea & P). apply (modify_own x (zlen v + zlen t) (zlen v) s sm cap off Hw) in Ea as (cap' & off' & Hw' & Hroom & Ea); [|lia|lia|lia].
    destruct (P cap' off' Hw' ltac:(lia)) as (Hw1 & Et1 & Ef1). pose proof (want1_ge (zlen v + zlen t)) as Hng. pose proof (bounds _ _ _ _ _ Hw) as (O1 & O2 & O3 & O4).
    assert (len_of x s1 = zlen v + zlen t) as Ho1 by (destruct Hw1 as (l & h & c & Hx & _); unfold len_of; rewrite Hx; reflexivity). rewrite Ho1.
    rewrite <- zlen_app in Hw1. assert (zlen (v ++ t) = zlen v + zlen t) as Hva by apply zlen_app.
    destruct (cap <? want1 (zlen v + zlen t)) eqn:E1.
    + destruct Ea as (Ec & -> & Et & (b & Ef & Hb) & Hm). pose proof (Hgrow cap ltac:(lia)) as Hg.
      assert (cap + 1 <= cap' /\ cap + cap / 2 <= cap') as [G1 G2] by lia. pose proof (gauge_grow cap cap' ltac:(lia) G1 G2) as G3.
      destruct (IH ts' s1 s2 a1 r1 (v ++ t) m' cap' 0 (S K) (Sm + cap) (M + grow_moves d x (zlen v + zlen t) s) Hre1 Ha1) as (k & R & a' & r' & Q1 & Q2 & Q3 & Q4 & Q5 & Q6 & Q7 & Q8);
        try exact E2; try exact Hv3; try exact Hts1; try exact Hw1; rewrite ?Hva; try lia.
      * rewrite Nat2Z.inj_succ, !Z.pow_succ_r by lia. nia.
      * rewrite Nat2Z.inj_succ, !Z.pow_succ_r by lia.
        assert (gauge cap <= 9 * (zlen v + zlen t + 1)) as G4 by (unfold gauge; destruct (cap =? 0) eqn:?, (cap =? 1) eqn:?; lia).
        assert (0 < 2 ^ Z.of_nat K) by lia. nia.
      * cbn. destruct (off =? 0) eqn:Eo; lia.
      * rewrite Hva in *. exists (S k), (R ++ b), a', r'. rewrite total_app. replace (K + S k)%nat with (S K + k)%nat by lia. rewrite app_assoc.
        split; [exact Q1|]. split; [exact Q2|]. split; [intros y N; rewrite Q3, Hoth by exact N; reflexivity|].
        split; [rewrite Q4, Et1, Et; lia|]. split; [rewrite Q5, Ef1, Ef, app_assoc; reflexivity|]. split; [lia|]. split; [lia|].
        replace (zlen v + (zlen t + zlen (concat ts')) + 1) with (zlen v + zlen t + zlen (concat ts') + 1) by lia. exact Q8.
    + destruct Ea as (-> & -> & Et & Ef & Hm).
      destruct (IH ts' s1 s2 a1 r1 (v ++ t) m' cap (if cap - off <? want1 (zlen v + zlen t) then 0 else off) K Sm (M + grow_moves d x (zlen v + zlen t) s) Hre1 Ha1)
        as (k & R & a' & r' & Q1 & Q2 & Q3 & Q4 & Q5 & Q6 & Q7 & Q8); try exact E2; try exact Hv3; try exact Hts1; try exact Hw1; rewrite ?Hva; try lia.
      * rewrite Hm. destruct (cap - off <? want1 (zlen v + zlen t)) eqn:E3; cbn; [|destruct (off =? 0); lia]. destruct (off =? 0) eqn:Eo; lia.
      * rewrite Hva in *. exists k, R, a', r'. rewrite app_assoc.
        split; [exact Q1|]. split; [exact Q2|]. split; [intros y N; rewrite Q3, Hoth by exact N; reflexivity|].
        split; [rewrite Q4, Et1, Et; lia|]. split; [rewrite Q5, Ef1, Ef; reflexivity|]. split; [lia|]. split; [lia|].
        replace (zlen v + (zlen t + zlen (concat ts')) + 1) with (zlen v + zlen t + zlen (concat ts') + 1) by lia. exact Q8.
Qed.
Definition cost (e : nat) (x : var) (s s' : St) (a : astate T) (w : list (option T)) (m : Z) : Prop :=
  exists (k : nat) R a' r', reached d s' a' /\ a' !! x = Some (AVal r' w) /\ (forall y, y <> x -> a' !! y = a !! y) /\
    (st_tick s' <= st_tick s + k + e)%nat /\ st_freed s' = R ++ st_freed s /\ total R <= 4 * zlen w /\
    m <= 5 * zlen w /\ 3 ^ Z.of_nat k <= 2 ^ Z.of_nat k * (4 * (zlen w + 1)).
Lemma own_cost x ps ts (s s' : St) a r v m cap off M : reached d s a -> a !! x = Some (AVal r v) -> Forall (joins a v) ps ->
  Forall2 (piece_text d a x) ps ts -> own x s cap off (zlen v) -> zlen v + zlen (concat ts) + 2 <= lim ->
  (if off =? 0 then M <= zlen v else M = 0) -> build d x ps s = Some (s', m) -> cost 0 x s s' a (v ++ concat ts) (M + m).
Proof.
  intros Hre Ha Hv Hts Hw Hl HM H. pose proof (bounds _ _ _ _ _ Hw) as B.
  destruct (grow_pieces x ps ts s s' a r v m cap off 0 0 M Hre Ha Hv Hts Hw Hl) as (k & R & a' & r' & Q1 & Q2 & Q3 & Q4 & Q5 & Q6 & Q7 & Q8); try lia; try exact H.
  - cbn. unfold gauge. destruct (cap =? 0) eqn:?, (cap =? 1) eqn:?; lia.
  - destruct (off =? 0); lia.
  - exists k, R, a', r'. rewrite zlen_app. repeat match goal with |- _ /\ _ => split end; auto; lia.
Qed.
(** The first AboutToModify gives [x] a buffer of its own. *)
Definition fresh (x : var) (s : St) (n : Z) : Prop := forall want sm, n <= want -> want + 1 <= max_alloc -> about_to_modify d x want s = Ok tt sm ->
  exists cap, own x sm cap 0 n /\ want <= cap /\ (st_tick sm <= st_tick s + 2)%nat /\ st_freed sm = st_freed s /\ grow_moves d x want s = n.
Lemma fresh_cost x (s s' : St) ps : forall ts a r v m, reached d s a -> a !! x = Some (AVal r v) -> Forall (joins a v) ps ->
  Forall2 (piece_text d a x) ps ts -> zlen v + zlen (concat ts) + 2 <= lim ->
  build d x ps s = Some (s', m) -> len_of x s = zlen v -> fresh x s (zlen v) -> cost 2 x s s' a (v ++ concat ts) m.
Proof.
  induction ps as [|p ps IH]; intros ts a r v m Hre Ha Hv Hts Hl H Hlo Hf; cbn [build] in H.
  - injection H as <- <-. inversion Hts; subst. cbn [concat]. rewrite app_nil_r. pose proof (zlen_nonneg v). exists O, [], a, r. cbn. unfold total; cbn.
      repeat match goal with |- _ /\ _ => split end; auto; lia.
  - inversion Hts as [|? t ? ts' Ht Hts']; subst. inversion Hv as [|? ? Hv1 Hv2]; subst. cbn [concat] in *. rewrite zlen_app in *. pose proof (zlen_nonneg t) as Hz. pose proof (zlen_nonneg (concat ts')) as Hz'. pose proof (zlen_nonneg v) as Hzv.
      destruct (exec d (add_op x p s) s) as [w s1| | | |] eqn:E; try discriminate.
      destruct (build d x ps s1) as [[s2 m']|] eqn:E2; [|discriminate]. injection H as <- <-.
            destruct (piece_spec x p t s a r v Ha Hlo Hv1 Ht ltac:(lia)) as (a1 & r1 & Hs & Ha1 & Hoth).
      assert (reached d s1 a1) as Hre1 by (eapply re_ret; eassumption).
      assert (Forall2 (piece_text d a1 x) ps ts') as Hts1 by (eapply Forall2_impl; [exact Hts'|]; intros ? ? Q; exact (text_other _ _ _ _ _ Hoth Q)).
      pose proof (joins_next a a1 x v t ps ts' Hoth Hts' Hv2) as Hv3.
      pose proof (piece_parts x p t s s1 a r v w Hre Ha Hv1 Ht ltac:(lia) E) as P. destruct (piece_n p =? 0) eqn:En.
    + destruct P as [-> ->]. rewrite app_nil_r in Ha1, Hv3. change (zlen []) with 0 in *. cbn [app]. rewrite Z.add_0_l.
        destruct (IH ts' a1 r1 v m' Hre1 Ha1 Hv3 Hts1 ltac:(lia) E2 Hlo Hf) as (k & R & a' & r' & Q1 & Q2 & Q3 & Q).
        exists k, R, a', r'. split; [exact Q1|]. split; [exact Q2|]. split; [intros y N; rewrite Q3, Hoth by exact N; reflexivity|exact Q].
    + destruct P as (sm & Ea & P). apply Hf in Ea as (cap & Hw & Hroom & Et & Ef & Hm); [|lia|lia].
        destruct (P cap 0 Hw ltac:(lia)) as (Hw1 & Et1 & Ef1).
        assert (len_of x s1 = zlen v + zlen t) as Ho1 by (destruct Hw1 as (l1 & h & c1 & Hx1 & _); unfold len_of; rewrite Hx1; reflexivity). rewrite Ho1, Hm.
        rewrite <- zlen_app in Hw1.
        destruct (own_cost x ps ts' s1 s2 a1 r1 (v ++ t) m' cap 0 (zlen v) Hre1 Ha1) as (k & R & a' & r' & Q1 & Q2 & Q3 & Q4 & Q5 & Q6 & Q7 & Q8);
          rewrite ?zlen_app; try assumption; try lia; [rewrite <- zlen_app; exact Hw1|cbn; lia|]. rewrite app_assoc.
        exists k, R, a', r'. split; [exact Q1|]. split; [exact Q2|]. split; [intros y N; rewrite Q3, Hoth by exact N; reflexivity|].
        split; [lia|]. split; [congruence|auto].
Qed.
Theorem build_cost x ps : forall ts (s s' : St) a r v m, reached d s a -> a !! x = Some (AVal r v) -> Forall (joins a v) ps ->
  Forall2 (piece_text d a x) ps ts -> zlen v + zlen (concat ts) + 2 <= lim ->
  build d x ps s = Some (s', m) -> cost 2 x s s' a (v ++ concat ts) m.
Proof.
  intros ts s s' a r v m Hre Ha Hv Hts Hl H. pose proof (reached_R d s a Hwf Hre) as HR. destruct (R_held d _ _ _ _ _ HR Ha) as (o & Hh).
  pose proof (held_len d _ _ _ _ _ Hh) as Hlen. pose proof (hd_env _ _ _ _ _ _ Hh) as Hx.
  assert (o_len o = zlen v) as Ho by (unfold length_of, bind, get_obj in Hlen; rewrite Hx in Hlen; injection Hlen as ->; reflexivity).
  destruct HR as [[Hc Hob] _]. pose proof (zlen_nonneg v) as Hzv. assert (len_of x s = zlen v) as Hlo by (unfold len_of; rewrite Hx; exact Ho).
  destruct (o_ref o) as [l|] eqn:Er.
  2:{ destruct (hd_good _ _ _ _ _ _ Hh Er) as (Q1 & Q2 & _). eapply fresh_cost; try eassumption. intros want sm W Hb E.
      assert (zlen v = 0) as Hv0 by lia. rewrite Hv0. apply (modify_none x want s sm (o_hash o)); [|lia|lia|exact E]. rewrite Hx. destruct o; cbn in *. congruence. }
  destruct (Hob x o Hx l Er) as (c & Hcl & P1 & P2 & P3 & _). destruct (Hc l c Hcl) as [_ Hp Hsz _].
  destruct (decide (1 < c_refs c)) as [G|G].
  - eapply fresh_cost; try eassumption. intros want sm W Hb E. rewrite <- Ho. apply (modify_shared x want s sm o l c Hx Er Hcl G); [lia|lia|exact E].
  - assert (cost 0 x s s' a (v ++ concat ts) (0 + m)) as (k & R & a' & r' & Q); [|exists k, R, a', r'; rewrite Z.add_0_l in Q; intuition lia].
    eapply (own_cost x ps ts s s' a r v m (zlen (c_buf c)) (o_off o) 0); try eassumption.
    + exists l, (o_hash o), c. rewrite <- Ho, <- Er. destruct o; cbn in *. repeat match goal with |- _ /\ _ => split end; auto; lia.
    + destruct (o_off o =? 0); lia.
Qed.
End Build.
