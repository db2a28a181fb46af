(** Element lifetimes: what an array shows after it was given the elements of another array or of a list. *)
From Verif Require Import RcaInv LifeModel LifeSpec LifeLeaves LifeInv LifeStep LifeOps LifeCalls LifeMain LifeThm LifeKeep.
From Coq Require Import ZifyBool.
Open Scope Z_scope.

Section Show.
Context {V : Type}.
Implicit Types (s : estate V) (x y : var) (l : loc) (c : ecell V) (b w : list (slot V)).
Notation St := (estate V).
Variable t : ety V.
Ltac ifs := repeat match goal with |- context [if ?b then _ else _] => destruct b eqn:? end; try lia.
Notation alive_all vs := (map (fun v => Live (Some v)) vs).

Lemma copy_in_view vs : forall l j s c, winv s -> e_heap s !! l = Some c -> 0 <= j -> j + zlen vs <= zlen (e_buf c) ->
  runs (copy_in t vs l j) s
    (fun _ s' => e_env s' = e_env s /\ exists c', e_heap s' !! l = Some c' /\ zlen (e_buf c') = zlen (e_buf c) /\
       forall p, znth p (e_buf c') = if (j <=? p) && (p <? j + zlen vs) then znth (p - j) (alive_all vs) else znth p (e_buf c)) (fun _ _ => True).
Proof.
  induction vs as [|v vs IH]; intros l j s c Hw Hc Hj Hj'; cbn [copy_in].
  - apply runs_ret. split; [reflexivity|]. exists c. split; [exact Hc|]. split; [reflexivity|]. intros p. rewrite zlen_nil. ifs. reflexivity.
  - rewrite zlen_cons in *. pose proof (zlen_nonneg vs). eapply runs_bind with (P' := fun _ s' => nop s s'); [apply attempt_runs; auto|].
    intros _ s1 Hn. pose proof (only_winv _ _ _ (nop_only l _ _ Hn) Hw) as Hw1. destruct Hn as [(A & B & _) _].
    destruct (set_slot_ok s1 l c j (Some v) Hw1) as (s2 & E2 & T2 & G2 & Hc2); [congruence|lia|].
    eapply runs_step; [exact E2|]. pose proof (touch_winv _ _ _ T2 Hw1) as Hw2. destruct T2 as (B2 & _).
    assert (zlen (zupd j [Live (Some v)] (e_buf c)) = zlen (e_buf c)) as Lz by (apply zlen_zupd; [lia|rewrite zlen_cons, zlen_nil; lia]).
    eapply runs_conseq; [apply (IH l (j + 1) s2 _ Hw2 Hc2); cbn [e_buf]; lia| |]; cbn beta; [|auto].
    intros _ s3 (B3 & c' & Hc' & Hz & Hp). cbn [e_buf] in *. split; [congruence|]. exists c'. split; [exact Hc'|]. split; [lia|].
    intros p. rewrite Hp, znth_one by lia. cbn [map]. ifs; try reflexivity.
    + change (Live (Some v) :: alive_all vs) with ([Live (Some v)] ++ alive_all vs). rewrite znth_app, zlen_cons, zlen_nil. ifs. f_equal. lia.
    + replace (p - j) with 0 by lia. reflexivity.
Qed.
Lemma fill_list_view x vs s : winv s -> roomy s x 0 (zlen vs) -> runs (fill_list t x vs) s (fun _ s' => view s' x = Some (alive_all vs)) (fun _ _ => True).
Proof.
  intros Hw R. pose proof (zlen_nonneg vs). destruct (view_roomy _ _ _ _ Hw R) as (o & l & c & Hx & Hr & Hl & Hc & P1 & _ & P3 & _). unfold fill_list.
  eapply runs_bind with (P' := fun _ s' => e_env s' = e_env s /\ exists c', e_heap s' !! l = Some c' /\ zlen (e_buf c') = zlen (e_buf c) /\
    forall p, znth p (e_buf c') = if (o_off o <=? p) && (p <? o_off o + zlen vs) then znth (p - o_off o) (alive_all vs) else znth p (e_buf c)).
  { eapply at_place_runs; [exact Hx|exact Hr| |].
    - intros _. rewrite Z.add_0_r. apply (copy_in_view vs l (o_off o) s c Hw Hc); lia.
    - intros H0. split; [reflexivity|]. exists c. split; [exact Hc|]. split; [reflexivity|]. intros p. ifs. reflexivity. }
  cbn beta. intros _ s1 (A & c' & Hc' & Hz & Hp). unfold put_len. eapply runs_step; [apply obj_of_ok; rewrite A; exact Hx|].
  unfold runs, put_obj, upd. rewrite view_put. cbn [o_ref o_off o_len]. rewrite Hr, Hc'. f_equal. apply zlist_ext_opt. intros p. rewrite znth_zsub, Hp.
  assert (zlen (alive_all vs) = zlen vs) as Lm by (unfold zlen; rewrite map_length; reflexivity).
  ifs; try (f_equal; lia). symmetry. destruct (znth p (alive_all vs)) eqn:Ez; [|reflexivity]. apply znth_inv in Ez. lia.
Qed.
Lemma eassign_list_view d x vs s : winv s -> bal d s -> alive s x -> runs (eassign_list t x vs) s (fun _ s' => view s' x = Some (alive_all vs)) (fun _ _ => True).
Proof.
  intros Hw Hb Hx. unfold eassign_list. destruct (eclear_ok t d x s Hw Hb Hx) as (s1 & o & E1 & (Hw1 & Hb1 & _) & Hx1 & Ho & Hl & Hu).
  eapply runs_step; [exact E1|]. eapply runs_bind; [eapply runs_conseq; [apply (reserve_runs t x (zlen vs) (fun z => z) s1 d o Hw1 Hb1 Hx1 Ho Hu (zlen_nonneg vs))| |]|].
  - intros u s2 Q. exact Q.
  - auto.
  - cbn beta. rewrite Hl. intros _ s2 ((Hw2 & _) & R2 & _). apply fill_list_view; assumption.
Qed.
Lemma ctor_list_view d x vs s : winv s -> bal d s -> unborn s x -> runs (eexec t (ECtorList x vs)) s (fun _ s' => view s' x = Some (alive_all vs)) (fun _ _ => True).
Proof.
  intros Hw Hb Hx. destruct (start_good t d x s Hw Hb Hx) as (s1 & E1 & (Hw1 & Hb1 & _) & Hx1). cbn [eexec]. eapply runs_step; [exact E1|].
  assert (runs ((if zlen vs =? 0 then ret tt else reserve t x (zlen vs) (fun z => z)) ;;; fill_list t x vs) s1 (fun _ s' => view s' x = Some (alive_all vs)) (fun _ _ => True)) as Q.
  { destruct (zlen vs =? 0) eqn:E.
    - eapply runs_step; [reflexivity|]. unfold fill_list, at_place. assert ((zlen vs <=? 0) = true) as -> by lia. eapply runs_step; [reflexivity|]. unfold put_len.
      eapply runs_step; [apply obj_of_ok, Hx1|]. unfold runs, put_obj, upd. rewrite view_put. cbn. destruct vs as [|v vs]; [reflexivity|]. rewrite zlen_cons in E. pose proof (zlen_nonneg vs). lia.
    - eapply runs_bind; [eapply runs_conseq; [apply (reserve_runs t x (zlen vs) (fun z => z) s1 d obj_empty Hw1 Hb1 Hx1); [intros _; auto|intros ? ? ?; discriminate|apply zlen_nonneg]| |]|].
      + intros u s2 Z. exact Z.
      + auto.
      + cbn beta. intros _ s2 ((Hw2 & _) & R2 & _). apply fill_list_view; assumption. }
  assert (exists len, calls t d x len ((if zlen vs =? 0 then ret tt else reserve t x (zlen vs) (fun z => z)) ;;; fill_list t x vs) s1) as (len & Hcalls).
  { exists (zlen vs). destruct (zlen vs =? 0) eqn:E.
    - unfold calls. eapply runs_step; [reflexivity|]. unfold fill_list, at_place. assert ((zlen vs <=? 0) = true) as -> by lia.
      eapply runs_step; [reflexivity|]. unfold put_len. eapply runs_step; [apply obj_of_ok, Hx1|]. unfold put_obj. apply runs_upd.
      replace (zlen vs) with 0 by lia. split.
      + apply (put_good t) with obj_empty; auto. intros l Hr; discriminate.
      + eexists. cbn. rewrite lookup_insert. split; [reflexivity|]. split; [intros _; auto|reflexivity].
    - apply (calls_reserve t d x _ _ obj_empty); auto; [intros _; auto|intros ? ? ?; discriminate|apply zlen_nonneg|].
      intros s2 Hw2 Hb2 R2. apply fill_list_calls; assumption. }
  pose proof (body_runs t d x _ s1 _ Hcalls) as B. unfold runs, body in *.
  destruct (((if zlen vs =? 0 then ret tt else reserve t x (zlen vs) (fun z => z)) ;;; fill_list t x vs) s1) as [[] s2|e s2| | |]; try contradiction; [exact Q|].
  unfold bind in *. destruct (end_obj x s2) as [[] s3| | | |]; cbn in *; auto.
Qed.

Lemma eassign_view d x y s : winv s -> bal d s -> alive s x -> usable s y -> runs (eassign x y) s (fun _ s' => view s' x = view s y) (fun _ _ => True).
Proof.
  intros Hw Hb [ox Hx] (oy & Hy & Hoy). unfold eassign. eapply runs_step; [apply obj_of_ok, Hy|].
  set (g := fresh (dom (<[x := ox]> (e_env s)))).
  assert (g ∉ dom (<[x := ox]> (e_env s))) as Hg by apply is_fresh.
  apply not_elem_of_dom in Hg. apply lookup_insert_None in Hg as [Hg Hgx].
  assert (exists s1 n, add_ref (o_ref oy) 1 s = Ok n s1 /\ fine (e_heap s1) (<[g := oy]> (e_env s)) (e_next s1) /\ bal d s1 /\ e_env s1 = e_env s /\
    forall l c, e_heap s !! l = Some c -> exists c', e_heap s1 !! l = Some c' /\ e_buf c' = e_buf c)
    as (s1 & n & E1 & F1 & B1 & V1 & H1).
  { unfold add_ref. destruct (o_ref oy) as [l|] eqn:Er.
    - destruct (proj2 Hw y oy Hy l Er) as (c & Hc & _). unfold bind. rewrite (cell_of_ok _ _ _ Hc). eexists; eexists. split; [reflexivity|].
      split; [exact (fine_add _ _ _ g oy l c Hw Hg (proj2 Hw y oy Hy) Er Hc)|]. split; [|split; [reflexivity|]].
      + unfold bal, net in *; cbn. rewrite (objects_update _ _ _ _ Hc). cbn. lia.
      + intros l' c' Hc'. cbn. destruct (decide (l' = l)) as [->|Hn].
        * eexists; rewrite lookup_insert. split; [reflexivity|]. cbn; congruence.
        * exists c'. rewrite lookup_insert_ne by congruence. auto.
    - exists s, 0. split; [reflexivity|]. split; [exact (fine_add_none _ _ _ _ _ Hw Hg Er)|]. repeat split; auto. eauto. }
  eapply runs_step; [exact E1|]. eapply runs_step; [apply obj_of_ok; rewrite V1; exact Hx|]. eapply runs_step; [reflexivity|].
  set (s2 := up_env _ s1). set (o2 := Obj (o_ref ox) (o_off oy) (o_len oy) 0) in *.
  assert (e_env s2 = <[x := o2]> (e_env s)) as V2 by (cbn; rewrite V1; reflexivity).
  assert (e_env s2 !! x = Some o2) as Hx2 by (rewrite V2; apply lookup_insert).
  assert ((<[g := oy]> (e_env s)) !! x = Some ox) as HEx by (rewrite lookup_insert_ne by exact (not_eq_sym Hgx); exact Hx).
  destruct (drop_ok s2 x o2 (<[g := oy]> (e_env s)) ox d F1 B1 Hx2 HEx eq_refl) as (s3 & E3 & F3 & B3 & L3 & M3 & (o3 & V3 & Q1 & Q2 & Q3) & H3).
  eapply runs_step; [exact E3|]. eapply runs_step; [apply obj_of_ok; rewrite V3; apply lookup_insert|].
  assert (exists oy', e_env s3 !! y = Some oy' /\ o_ref oy' = o_ref oy) as (oy' & Hy' & Hry').
  { rewrite V3. destruct (decide (x = y)) as [<-|Hn].
    - exists o3. rewrite lookup_insert. split; [reflexivity|]. assert (ox = oy) as -> by congruence.
      rewrite (Q3 g oy (not_eq_sym Hgx) (lookup_insert _ _ _) eq_refl). reflexivity.
    - exists oy. rewrite lookup_insert_ne by exact Hn. rewrite V2, lookup_insert_ne by exact Hn. auto. }
  eapply runs_step; [apply obj_of_ok, Hy'|]. unfold put_obj. apply runs_upd. rewrite Hry', Q1, Q2. cbn [o2 o_off o_len].
  rewrite view_put. unfold view. rewrite Hy. cbn [o_ref o_off o_len]. destruct (o_ref oy) as [l|] eqn:Er; [|reflexivity].
  destruct (proj2 Hw y oy Hy l Er) as (c & Hc & _). rewrite Hc. destruct (H1 l c Hc) as (c1 & Hc1 & Eb1).
  destruct (H3 g oy l c1 (not_eq_sym Hgx) (lookup_insert _ _ _) Er Hc1) as (c3 & Hc3 & Eb3). rewrite Hc3. congruence.
Qed.
Lemma eassign_move_view d x y s : winv s -> bal d s -> alive s x -> usable s y -> runs (eassign_move x y) s (fun _ s' => view s' x = view s y) (fun _ _ => True).
Proof.
  intros Hw Hb [ox Hx] (oy & Hy & Hoy). unfold eassign_move. destruct (Pos.eqb_spec x y) as [<-|Hn]; [apply runs_ret; reflexivity|].
  destruct (drop_ok s x ox (e_env s) ox d Hw Hb Hx Hx eq_refl) as (s1 & E1 & F1 & B1 & L1 & M1 & (o2 & V1 & _) & H1).
  assert (e_env s1 !! y = Some oy) as Hy1 by (rewrite V1, lookup_insert_ne by exact Hn; exact Hy).
  eapply runs_step; [exact E1|]. eapply runs_step; [apply obj_of_ok, Hy1|]. eapply runs_step; [reflexivity|]. unfold put_obj. apply runs_upd.
  unfold view. cbn. rewrite lookup_insert_ne by congruence. rewrite lookup_insert, Hy. destruct (o_ref oy) as [l|] eqn:Er; [|reflexivity].
  destruct (proj2 Hw y oy Hy l Er) as (c & Hc & _). rewrite Hc. destruct (H1 y oy l c (not_eq_sym Hn) Hy Er Hc) as (c3 & Hc3 & Eb3). rewrite Hc3. congruence.
Qed.
Lemma ctor_copy_view x y s : winv s -> unborn s x -> usable s y -> runs (eexec t (ECtorCopy x y)) s (fun _ s' => view s' x = view s y) (fun _ _ => True).
Proof.
  intros Hw Hx (oy & Hy & Hoy). cbn [eexec]. eapply runs_step; [apply obj_of_ok, Hy|]. eapply runs_step; [unfold start_obj; unfold unborn in Hx; rewrite Hx; reflexivity|].
  unfold add_ref, view. rewrite Hy. destruct (o_ref oy) as [l|] eqn:Er.
  - destruct (proj2 Hw y oy Hy l Er) as (c & Hc & _).
    eapply runs_step; [unfold bind; rewrite (cell_of_ok _ _ _ (Hc : e_heap (up_env <[x := oy]> s) !! l = Some c)); reflexivity|]. apply runs_ret.
    cbn. rewrite !lookup_insert, Er, Hc, lookup_insert. reflexivity.
  - eapply runs_step; [reflexivity|]. apply runs_ret. cbn. rewrite lookup_insert, Er. reflexivity.
Qed.
Lemma ctor_move_view x y s : winv s -> unborn s x -> usable s y -> runs (eexec t (ECtorMove x y)) s (fun _ s' => view s' x = view s y) (fun _ _ => True).
Proof.
  intros Hw Hx (oy & Hy & Hoy). cbn [eexec]. eapply runs_step; [apply obj_of_ok, Hy|]. eapply runs_step; [unfold start_obj; unfold unborn in Hx; rewrite Hx; reflexivity|].
  unfold put_obj. apply runs_upd. assert (x <> y) as Hxy by (unfold unborn in Hx; congruence). unfold view. cbn. rewrite lookup_insert_ne by congruence. rewrite lookup_insert, Hy. reflexivity.
Qed.

(** Inserting or copying in the elements of another array. *)
Lemma copy_other x y pos k s o l c oy w : winv s -> x <> y -> e_env s !! x = Some o -> o_ref o = Some l -> e_heap s !! l = Some c -> e_refs c = 1 ->
  e_env s !! y = Some oy -> okobj oy -> o_len oy = k -> 0 <= k -> view s y = Some w -> 0 <= o_off o -> 0 <= pos -> o_off o + pos + k <= zlen (e_buf c) ->
  runs (at_place x pos k (fun ld j => at_place y 0 k (fun ls i => copy_up t (Z.to_nat k) ls i ld j))) s
    (fun _ s' => e_env s' = e_env s /\ exists c', e_heap s' !! l = Some c' /\
       forall p, znth p (e_buf c') = if (o_off o + pos <=? p) && (p <? o_off o + pos + k) then znth (p - o_off o - pos) w else znth p (e_buf c)) (fun _ _ => True).
Proof.
  intros Hw Hxy Hx Hr Hc H1 Hy Hoy Hk H0 Hv P1 Hp P3. eapply at_place_runs; [exact Hx|exact Hr| |].
  - intros Hkp. destruct (o_ref oy) as [ly|] eqn:Ery; [|destruct (Hoy Ery); lia]. destruct (proj2 Hw y oy Hy ly Ery) as (cy & Hcy & W1 & W2 & W3).
    unfold view in Hv. rewrite Hy, Ery, Hcy in Hv. injection Hv as <-.
    assert (ly <> l) as Hne.
    { intros ->. assert (cy = c) as -> by congruence. assert (roomy s x (o_len o) 0) as R.
      { exists o, l, c. repeat split; auto. destruct (proj2 Hw x o Hx l Hr) as (c' & Hc' & ? & ? & ?). assert (c' = c) as -> by congruence. lia. }
      destruct (roomy_ok _ _ _ _ Hw R) as (o1 & l1 & c1 & Hx1 & Hr1 & _ & _ & _ & _ & _ & Hm). assert (l1 = l) as -> by congruence. apply Hxy. exact (Hm y oy Hy Ery). }
    eapply at_place_runs; [exact Hy|exact Ery| |lia]. intros _.
    eapply runs_conseq; [apply (copy_up_view t (Z.to_nat k) ly (o_off oy + 0) l (o_off o + pos) s cy c Hw Hne Hcy Hc); lia| |]; cbn beta; [|auto].
    intros _ s' ((T & _) & c' & Hc' & _ & Hn). destruct T as (A & _). split; [exact A|]. exists c'. split; [exact Hc'|]. intros p. rewrite Hn, Z2Nat.id by lia.
    ifs; try reflexivity. rewrite znth_zsub. ifs. f_equal. lia.
  - intros Hk0. split; [reflexivity|]. exists c. split; [exact Hc|]. intros p. ifs. reflexivity.
Qed.
Lemma einsert_array_view d x y len pos s w wy : winv s -> bal d s -> x <> y -> stays s x len -> usable s y -> 0 <= pos -> view s x = Some w -> view s y = Some wy ->
  runs (einsert_array t x pos y) s (fun _ s' => view s' x = Some (if (pos =? 0) && (zlen w <? zlen wy) then wy else ztake pos w ++ wy ++ zdrop pos w)) (fun _ _ => True).
Proof.
  intros Hw Hb Hxy Hs (oy & Hy & Hoy) Hp Hv Hvy. pose proof (stays_nonneg _ _ _ Hw Hs) as H0. pose proof (view_len _ _ _ _ Hw Hs Hv) as Lw.
  assert (stays s y (o_len oy)) as Hsy by (exists oy; auto). pose proof (stays_nonneg _ _ _ Hw Hsy) as H1. pose proof (view_len _ _ _ _ Hw Hsy Hvy) as Ly.
  pose proof Hs as (o & Hx & Hok & Hl). unfold einsert_array, check. rewrite Lw, Ly. set (k := o_len oy) in *. destruct (len <? pos) eqn:E.
  { eapply runs_bind with (P' := fun _ _ => False); [|intros _ ? []]. eapply runs_step; [apply obj_of_ok, Hx|]. rewrite Hl, E. apply runs_throw. exact I. }
  eapply runs_step; [unfold bind; rewrite (obj_of_ok _ _ _ Hx), Hl, E; reflexivity|]. eapply runs_step; [apply obj_of_ok, Hy|]. eapply runs_step; [apply obj_of_ok, Hx|]. cbv beta zeta. rewrite Hl. fold k.
  destruct ((pos =? 0) && (len <? k)) eqn:E0.
  { eapply runs_conseq; [apply (eassign_view d x y s Hw Hb); [exists o; exact Hx|exists oy; auto]| |]; cbn beta; [|auto]. intros _ s' ->. exact Hvy. }
  eapply runs_bind; [apply (modify_view t x (len + k) s d o Hw Hb Hx Hok); lia|]. cbn beta. rewrite Hl. intros _ s1 ((Hw1 & Hb1 & F1 & _) & R1 & V1).
  destruct (view_roomy _ _ _ _ Hw1 R1) as (o1 & l & c1 & Hx1 & Hr1 & Hl1 & Hc1 & P1 & _ & P3 & V1').
  assert (w = zsub (o_off o1) len (e_buf c1)) as Ew by congruence.
  assert (e_refs c1 = 1) as Href by (destruct R1 as (o' & l' & c' & ? & ? & ? & ? & ? & ?); assert (o' = o1) as -> by congruence; assert (l' = l) as -> by congruence; congruence).
  destruct (F1 y Hxy) as [Fy Fb].
  eapply runs_bind with (P' := fun _ s2 => winv s2 /\ e_env s2 = e_env s1 /\ view s2 y = Some wy /\ exists c2, e_heap s2 !! l = Some c2 /\ e_refs c2 = 1 /\ zlen (e_buf c2) = zlen (e_buf c1) /\
    forall p, znth p (e_buf c2) = if (o_off o1 + pos + k <=? p) && (p <? o_off o1 + len + k) then znth (p - k) (e_buf c1) else znth p (e_buf c1)).
  { assert (view s1 y = Some wy) as Vy1.
    { unfold view in Hvy |- *. rewrite Hy in Hvy. rewrite Fy, Hy. destruct (o_ref oy) as [ly|] eqn:Ery; [|exact Hvy]. destruct (e_heap s !! ly) as [cy|] eqn:Ecy; [|discriminate].
      destruct (Fb oy ly cy Hy Ery Ecy) as (cy' & Hcy' & Eby). rewrite Hcy', Eby. exact Hvy. }
    destruct (decide (k = 0)) as [Hk0|Hk0].
    { (* nothing to insert: the elements are copied onto themselves *)
      assert (forall n s, winv s -> forall c, e_heap s !! l = Some c -> o_off o1 + pos + Z.of_nat n <= zlen (e_buf c) -> 
        runs (shift_up t n l (o_off o1 + pos) 0) s (fun _ s' => only l s s' /\ exists c', e_heap s' !! l = Some c' /\ e_buf c' = e_buf c) (fun _ _ => True)) as Z0.
      { clear - P1 Hp. induction n as [|n IH]; intros s Hw c Hc Hi; cbn [shift_up].
        - apply runs_ret. split; [apply only_refl|]. eauto.
        - destruct (get_slot_ok s l c (o_off o1 + pos + Z.of_nat n) Hw Hc) as (v & Hv & Hg); [lia|]. eapply runs_step; [exact Hg|].
          eapply runs_bind with (P' := fun _ s' => nop s s'); [apply attempt_runs; auto|].
          intros _ s1 Hn. pose proof (nop_only l _ _ Hn) as H1. pose proof (only_winv _ _ _ H1 Hw) as Hw1. destruct Hn as [(A & _) _].
          destruct (set_slot_ok s1 l c (o_off o1 + pos + Z.of_nat n + 0) v Hw1) as (s2 & E2 & T2 & G2 & Hc2); [congruence|lia|].
          eapply runs_step; [exact E2|]. assert (only l s1 s2) as H2 by (split; assumption).
          assert (zupd (o_off o1 + pos + Z.of_nat n + 0) [Live v] (e_buf c) = e_buf c) as Eu.
          { apply zlist_ext_opt. intros p. rewrite znth_one by lia. ifs; try reflexivity. rewrite <- Hv. f_equal. lia. }
          eapply runs_conseq; [apply (IH s2 (only_winv _ _ _ H2 Hw1) _ Hc2); cbn [e_buf]; rewrite Eu; lia| |]; cbn beta; [|auto].
          intros _ s3 (H3 & c' & Hc' & Eb). split; [exact (only_trans _ _ _ _ (only_trans _ _ _ _ H1 H2) H3)|]. exists c'. split; [exact Hc'|]. rewrite Eb. exact Eu. }
      rewrite Hk0. eapply at_place_runs; [exact Hx1|exact Hr1| |].
      - intros Hpos. eapply runs_conseq; [apply (Z0 (Z.to_nat (len - pos)) s1 Hw1 c1 Hc1); lia| |]; cbn beta; [|auto].
        intros _ s2 ((T2 & G2) & c2 & Hc2 & Eb). split; [exact (touch_winv _ _ _ T2 Hw1)|]. pose proof T2 as (A & _ & B & D). split; [exact A|]. split.
        + rewrite <- Vy1. unfold view. rewrite A, Fy, Hy. destruct (o_ref oy) as [ly|] eqn:Ery; [|reflexivity]. destruct (decide (ly = l)) as [->|Hne]; [rewrite Hc2, Hc1, Eb; reflexivity|rewrite B by exact Hne; reflexivity].
        + rewrite Hc1 in D. destruct D as (b' & D & _). exists c2. split; [exact Hc2|]. split; [assert (c2 = ECell b' (e_refs c1)) as -> by congruence; exact Href|]. split; [congruence|].
          intros p. rewrite Eb. ifs; try reflexivity. f_equal. lia.
      - intros Hpos. split; [exact Hw1|]. split; [reflexivity|]. split; [exact Vy1|]. exists c1. repeat split; auto. intros p. ifs. reflexivity. }
    eapply at_place_runs; [exact Hx1|exact Hr1| |].
    - intros Hpos. eapply runs_conseq; [apply (shift_up_view t (Z.to_nat (len - pos)) l (o_off o1 + pos) k s1 c1 Hw1 Hc1); lia| |]; cbn beta; [|auto].
      intros _ s2 ((T2 & G2) & c2 & Hc2 & Hz & Hn). split; [exact (touch_winv _ _ _ T2 Hw1)|]. pose proof T2 as (A & _ & B & D). split; [exact A|]. split.
      + rewrite <- Vy1. destruct (roomy_ok _ _ _ _ Hw1 R1) as (o' & l' & c' & Hx' & Hr' & _ & _ & _ & _ & _ & Hm). assert (o' = o1) as -> by congruence. assert (l' = l) as -> by congruence.
        unfold view. rewrite A, Fy, Hy. destruct (o_ref oy) as [ly|] eqn:Ery; [|reflexivity]. rewrite B; [reflexivity|]. intros ->. apply Hxy. apply (Hm y oy); [rewrite Fy; exact Hy|exact Ery].
      + rewrite Hc1 in D. destruct D as (b' & D & _). exists c2. split; [exact Hc2|]. split; [assert (c2 = ECell b' (e_refs c1)) as -> by congruence; exact Href|]. split; [exact Hz|].
        intros p. rewrite Hn, Z2Nat.id by lia. replace (o_off o1 + pos + k + (len - pos)) with (o_off o1 + len + k) by lia. reflexivity.
    - intros Hpos. split; [exact Hw1|]. split; [reflexivity|]. split; [exact Vy1|]. exists c1. repeat split; auto. intros p. ifs. reflexivity. }
  cbn beta. intros _ s2 (Hw2 & A2 & Vy2 & c2 & Hc2 & Hf2 & Hz2 & Hn2). assert (e_env s2 !! x = Some o1) as Hx2 by congruence. assert (e_env s2 !! y = Some oy) as Hy2 by congruence.
  eapply runs_bind; [apply (copy_other x y pos k s2 o1 l c2 oy wy Hw2 Hxy Hx2 Hr1 Hc2 Hf2 Hy2 Hoy eq_refl H1 Vy2 P1 Hp); lia|]. cbn beta. intros _ s3 (A3 & c3 & Hc3 & Hn3).
  unfold put_len. eapply runs_step; [apply obj_of_ok; rewrite A3; exact Hx2|]. unfold runs, put_obj, upd. rewrite view_put. cbn [o_ref o_off o_len]. rewrite Hr1, Hc3. f_equal.
  apply zlist_ext_opt. intros p. rewrite znth_zsub, znth_app, zlen_ztake, Lw. rewrite Z.min_l by lia. rewrite !Z.max_r by lia.
  destruct ((0 <=? p) && (p <? len + k)) eqn:Ep.
  - rewrite Hn3, Hn2. destruct (p <? pos) eqn:E1.
    + rewrite znth_ztake, Ew, znth_zsub. ifs. f_equal. lia.
    + rewrite znth_app, Ly. destruct (p - pos <? k) eqn:E2; ifs; try (f_equal; lia).
      rewrite znth_zdrop, Ew, znth_zsub. ifs. f_equal. lia.
  - symmetry. destruct (p <? pos) eqn:E1.
    + rewrite znth_ztake, E1. apply znth_neg. lia.
    + rewrite znth_app, Ly. ifs. rewrite znth_zdrop, Ew, znth_zsub. ifs. reflexivity.
Qed.
Lemma ereplace_array_view d x y len pos s w wy : winv s -> bal d s -> x <> y -> stays s x len -> usable s y -> 0 <= pos -> view s x = Some w -> view s y = Some wy ->
  runs (ereplace_array t x pos y) s (fun _ s' => view s' x = Some (if (pos =? 0) && (zlen w <? zlen wy) then wy else ztake pos w ++ wy ++ zdrop (pos + zlen wy) w)) (fun _ _ => True).
Proof.
  intros Hw Hb Hxy Hs (oy & Hy & Hoy) Hp Hv Hvy. pose proof (stays_nonneg _ _ _ Hw Hs) as H0. pose proof (view_len _ _ _ _ Hw Hs Hv) as Lw.
  assert (stays s y (o_len oy)) as Hsy by (exists oy; auto). pose proof (stays_nonneg _ _ _ Hw Hsy) as H1. pose proof (view_len _ _ _ _ Hw Hsy Hvy) as Ly.
  pose proof Hs as (o & Hx & Hok & Hl). unfold ereplace_array, check. rewrite Lw, Ly. set (k := o_len oy) in *. destruct (len <? pos) eqn:E.
  { eapply runs_bind with (P' := fun _ _ => False); [|intros _ ? []]. eapply runs_step; [apply obj_of_ok, Hx|]. rewrite Hl, E. apply runs_throw. exact I. }
  eapply runs_step; [unfold bind; rewrite (obj_of_ok _ _ _ Hx), Hl, E; reflexivity|]. eapply runs_step; [apply obj_of_ok, Hy|]. eapply runs_step; [apply obj_of_ok, Hx|]. cbv beta zeta. rewrite Hl. fold k.
  destruct ((pos =? 0) && (len <? k)) eqn:E0.
  { eapply runs_conseq; [apply (eassign_view d x y s Hw Hb); [exists o; exact Hx|exists oy; auto]| |]; cbn beta; [|auto]. intros _ s' ->. exact Hvy. }
  eapply runs_bind; [apply (modify_view t x (Z.max (pos + k) len) s d o Hw Hb Hx Hok); lia|]. cbn beta. rewrite Hl. intros _ s1 ((Hw1 & Hb1 & F1 & _) & R1 & V1).
  destruct (view_roomy _ _ _ _ Hw1 R1) as (o1 & l & c1 & Hx1 & Hr1 & Hl1 & Hc1 & P1 & _ & P3 & V1').
  assert (w = zsub (o_off o1) len (e_buf c1)) as Ew by congruence.
  assert (e_refs c1 = 1) as Href by (destruct R1 as (o' & l' & c' & ? & ? & ? & ? & ? & ?); assert (o' = o1) as -> by congruence; assert (l' = l) as -> by congruence; congruence).
  destruct (F1 y Hxy) as [Fy Fb].
  assert (view s1 y = Some wy) as Vy1.
  { unfold view in Hvy |- *. rewrite Hy in Hvy. rewrite Fy, Hy. destruct (o_ref oy) as [ly|] eqn:Ery; [|exact Hvy]. destruct (e_heap s !! ly) as [cy|] eqn:Ecy; [|discriminate].
    destruct (Fb oy ly cy Hy Ery Ecy) as (cy' & Hcy' & Eby). rewrite Hcy', Eby. exact Hvy. }
  assert (e_env s1 !! y = Some oy) as Hy1 by congruence.
  eapply runs_bind; [apply (copy_other x y pos k s1 o1 l c1 oy wy Hw1 Hxy Hx1 Hr1 Hc1 Href Hy1 Hoy eq_refl H1 Vy1 P1 Hp); lia|]. cbn beta. intros _ s3 (A3 & c3 & Hc3 & Hn3).
  unfold put_len. eapply runs_step; [apply obj_of_ok; rewrite A3; exact Hx1|]. unfold runs, put_obj, upd. rewrite view_put. cbn [o_ref o_off o_len]. rewrite Hr1, Hc3. f_equal.
  apply zlist_ext_opt. intros p. rewrite znth_zsub, znth_app, zlen_ztake, Lw. rewrite Z.min_l by lia. rewrite (Z.max_r 0 (o_off o1)), (Z.max_r 0 pos) by lia.
  destruct ((0 <=? p) && (p <? Z.max (pos + k) len)) eqn:Ep.
  - rewrite Hn3. destruct (p <? pos) eqn:E1.
    + rewrite znth_ztake, Ew, znth_zsub. ifs. f_equal. lia.
    + rewrite znth_app, Ly. destruct (p - pos <? k) eqn:E2; ifs; try (f_equal; lia).
      rewrite znth_zdrop, Ew, znth_zsub. ifs. f_equal. lia.
  - symmetry. destruct (p <? pos) eqn:E1.
    + rewrite znth_ztake, E1. apply znth_neg. lia.
    + rewrite znth_app, Ly. ifs. rewrite znth_zdrop, Ew, znth_zsub. ifs. reflexivity.
Qed.

Lemma given (o : eop) x s s' w' : reached t s -> proper t o s -> gives (view s) o = Some (x, w') -> eexec t o s = Ok tt s' -> view s' x = Some w'.
Proof.
  intros Hr Hp Hg E. destruct (reached_ok t s Hr) as [Hw Hb].
  destruct o as [z|z n|z n v|z vs|z y|z y|z|z y|z y|z y|z vs|z|z n|z n|z n v|z a n|z pos v|z pos y|z pos vs|z pos v|z pos v|z pos y|z|z]; cbn [gives] in Hg; try discriminate; cbn [proper] in Hp.
  - injection Hg as <- <-. pose proof (ctor_list_view 0 z vs s Hw Hb Hp) as Q. unfold runs in Q. rewrite E in Q. exact Q.
  - destruct (view s y) as [wy|] eqn:Vy; [|discriminate]. injection Hg as <- <-. pose proof (ctor_copy_view z y s Hw (proj1 Hp) (proj2 Hp)) as Q. unfold runs in Q. rewrite E in Q. congruence.
  - destruct (view s y) as [wy|] eqn:Vy; [|discriminate]. injection Hg as <- <-. pose proof (ctor_move_view z y s Hw (proj1 Hp) (proj2 Hp)) as Q. unfold runs in Q. rewrite E in Q. congruence.
  - destruct (view s y) as [wy|] eqn:Vy; [|discriminate]. injection Hg as <- <-. pose proof (eassign_view 0 z y s Hw Hb (proj1 Hp) (proj2 Hp)) as Q. unfold runs in Q. cbn [eexec] in E. rewrite E in Q. congruence.
  - destruct (view s y) as [wy|] eqn:Vy; [|discriminate]. injection Hg as <- <-. pose proof (eassign_move_view 0 z y s Hw Hb (proj1 Hp) (proj2 Hp)) as Q. unfold runs in Q. cbn [eexec] in E. rewrite E in Q. congruence.
  - injection Hg as <- <-. pose proof (eassign_list_view 0 z vs s Hw Hb Hp) as Q. unfold runs in Q. cbn [eexec] in E. rewrite E in Q. exact Q.
  - destruct (Pos.eqb_spec z y) as [|Hzy]; [discriminate|]. destruct (view s z) as [w|] eqn:Vz; [|discriminate]. destruct (view s y) as [wy|] eqn:Vy; [|discriminate]. injection Hg as <- <-.
    destruct Hp as (Hz & Hy & Hp). destruct (usable_stays s z Hz) as (len & Hs).
    pose proof (einsert_array_view 0 z y len pos s w wy Hw Hb Hzy Hs Hy Hp Vz Vy) as Q. unfold runs in Q. cbn [eexec] in E. rewrite E in Q. exact Q.
  - destruct (Pos.eqb_spec z y) as [|Hzy]; [discriminate|]. destruct (view s z) as [w|] eqn:Vz; [|discriminate]. destruct (view s y) as [wy|] eqn:Vy; [|discriminate]. injection Hg as <- <-.
    destruct Hp as (Hz & Hy & Hp). destruct (usable_stays s z Hz) as (len & Hs).
    pose proof (ereplace_array_view 0 z y len pos s w wy Hw Hb Hzy Hs Hy Hp Vz Vy) as Q. unfold runs in Q. cbn [eexec] in E. rewrite E in Q. rewrite Q. f_equal.
    destruct ((pos =? 0) && (zlen w <? zlen wy)) eqn:E0; [|reflexivity]. rewrite ztake_0, zdrop_all, app_nil_r by lia. reflexivity.
Qed.
End Show.
