(** The member functions of arrays of Strings do to the values what RcaModel.v says. *)
From stdpp Require Import gmap.
From Verif Require Import RcaSpec RcaModel RcaExec RcaInv RcaOwn RcaRel RcaMeet RcaMain NestModel NestMeet NestSim NestAbs NestBuf.
From Coq Require Import ZifyBool.
Open Scope Z_scope.

Section Ops.
Variable d : desc Z.
Variable od : desc positive.
Hypothesis Hwf : wf_desc d.
Notation vd := (vd od).
Notation rel := (rel d).
Notation sim := (sim d).
Notation St := (state sval).

Lemma runs_ok {S A} (m : M S A) s (P : A -> S -> Prop) E v s' : runs m s P E -> m s = Ok v s' -> P v s'.
Proof. unfold runs. intros H E1. rewrite E1 in H. exact H. Qed.
Lemma runs_exn {S A} (m : M S A) s (P : A -> S -> Prop) E v s' : runs m s P E -> m s = Exn v s' -> E v s'.
Proof. unfold runs. intros H E1. rewrite E1 in H. exact H. Qed.
Lemma get_obj_inv {T} x s (o : obj) s' : @get_obj T x s = Ok o s' -> st_env s !! x = Some o /\ s' = s.
Proof. unfold get_obj. destruct (st_env s !! x); [|discriminate]. intros [= -> ->]. auto. Qed.
Lemma sim_get {B} b b' be x (k : obj -> M nstate B) (k1 : obj -> M St B) s t o :
  rel b s t -> st_env t !! x = Some o -> sim b' be (k o s) (k1 o t) -> sim b' be (bind (outer (get_obj x)) k s) (bind (get_obj x) k1 t).
Proof.
  intros Hr Hx H. rewrite (bind_ok _ _ _ _ _ (get_obj_ok _ _ _ Hx)). rewrite (rel_env _ _ _ _ Hr) in Hx.
  rewrite (bind_ok _ _ _ _ _ (outer_get_obj _ _ _ Hx)). exact H.
Qed.
Lemma sim_then {A B} b b' (m : M (state positive) A) (m1 : M St A) (k : A -> M nstate B) (k1 : A -> M St B) s t be :
  handles m m1 -> rel b s t -> (forall e t', m1 t <> Exn e t') ->
  (forall v s' t', m1 t = Ok v t' -> rel b s' t' -> sim b' be (k v s') (k1 v t')) -> sim b' be (bind (outer m) k s) (bind m1 k1 t).
Proof.
  intros Hh Hr Hn Hk. pose proof (sim_handles d b m m1 s t Hh Hr) as S. unfold NestAbs.sim in S. unfold bind.
  destruct (m1 t) as [v t'|e t'| | |u] eqn:E; try exact I.
  - destruct S as (s' & -> & Hr'). apply (Hk v s' t' eq_refl Hr').
  - destruct (Hn e t' eq_refl).
Qed.

Lemma new_cell_sim b s t : rel b s t -> Inv vd t -> sim b b (outer (new_cell od) s) (new_cell vd t).
Proof.
  intros (f & a & W & ->) HI. pose proof (inv_fresh_loc _ _ _ _ HI) as Hn. cbn in Hn. rewrite lookup_fmap in Hn.
  destruct (st_heap (n_out s) !! st_next (n_out s)) eqn:En; [discriminate|]. clear Hn.
  unfold new_cell, outer, bind, try_alloc. cbn [d_oom NestAbs.vd abs st_tick st_heap st_env st_next st_freed].
  destruct (d_oom od (st_tick (n_out s)) || (max_alloc <? 0)).
  - eexists; split; [reflexivity|]. exists f, a. split; [exact W|reflexivity].
  - eexists; split; [reflexivity|]. exists f, a. cbn.
    destruct (Wf_set d b b (bufs (n_out s)) (n_in s) (n_in s) a a (st_next (n_out s)) [] []) as [W' K']; try apply W; auto; try (intros q []).
    + right. split; [|reflexivity]. unfold bufs. rewrite lookup_fmap, En. reflexivity.
    + constructor.
    + split.
      * unfold bufs in *; cbn in *. rewrite fmap_insert. exact W'.
      * unfold abs; cbn. f_equal. rewrite fmap_insert. reflexivity.
Qed.

(** Whose elements can all be read. *)
Definition full (h : gmap loc (cell sval)) (o : obj) : Prop := Forall is_Some (view h o).
Lemma reserve_sim b s t x n sc o :
  rel b s t -> Inv vd t -> st_env t !! x = Some o -> good vd o -> full (st_heap t) o ->
  sim b b (nreserve d od x n sc s) (base_reserve vd x n sc t).
Proof.
  intros Hr HI Hx Hg Hf. unfold nreserve, base_reserve. apply (sim_get b b b x _ _ s t o Hr Hx).
  destruct (o_ref o) as [l|] eqn:Eref.
  - destruct HI as [Hc Ho]. destruct (Ho x o Hx l Eref) as (c & El & H1 & H2 & H3 & _).
    apply (sim_bind d b b b); [apply sim_ret, Hr|]. intros l' s1 t1 E1 E2 Hr1. injection E2 as <- <-. injection E1 as <-.
    apply (sim_bind d b b b).
    + apply (ref_reserve_sim d od Hwf b s t l n sc _ _ c Hr El H1 H2).
      * apply (Hc l c El).
      * unfold full, view in Hf. rewrite Eref, El in Hf. exact Hf.
    + intros off s2 t2 _ _ Hr2. apply (sim_handles d); [apply h_set|exact Hr2].
  - destruct (Hg Eref) as (H1 & H2 & _). apply (sim_bind d b b b).
    + apply (sim_bind d b b b); [apply new_cell_sim; assumption|]. intros l s1 t1 _ E1 Hr1.
      apply (sim_bind d b b b); [apply (sim_handles d); [apply h_set|exact Hr1]|]. intros [] s2 t2 _ E2 Hr2. apply sim_ret, Hr2.
    + intros l s1 t1 _ E1 Hr1. assert (El : st_heap t1 !! l = Some (Cell [] 0 1)).
      { unfold bind, new_cell, try_alloc, bind in E1. destruct (_ || _); [discriminate|]. injection E1 as <- <-. cbn. apply lookup_insert. }
      apply (sim_bind d b b b).
      * apply (ref_reserve_sim d od Hwf b s1 t1 l n sc _ _ _ Hr1 El); [lia|lia|cbn; unfold zlen, max_alloc; cbn; lia|].
        cbn. unfold zsub, zdrop, ztake. rewrite skipn_nil, firstn_nil. constructor.
      * intros off s2 t2 _ _ Hr2. apply (sim_handles d); [apply h_set|exact Hr2].
Qed.

(** Copying elements. *)
Lemma copy_sim b s t l c1 j k ls c2 i (back : bool) :
  rel b s t -> st_heap t !! l = Some c1 -> st_heap t !! ls = Some c2 -> 0 <= k -> 0 <= i -> i + k <= zlen (c_buf c2) ->
  0 <= j -> j + k <= zlen (c_buf c1) -> Forall is_Some (zsub i k (c_buf c2)) -> (ls <> l \/ back = true /\ i <= j) ->
  exists s' src dst, slots ls i k s = Ok src s /\ slots l j k s = Ok dst s /\
    neach d AssignCopy (if back then rev (combine src dst) else combine src dst) s = Ok tt s' /\ n_out s' = n_out s /\
    rel b s' (with_heap t (<[l := Cell (zupd j (zsub i k (c_buf c2)) (c_buf c1)) (c_gen c1) (c_refs c1)]> (st_heap t))).
Proof.
  intros Hrel El1 Els1 Hk Hi Hik Hj Hjk Hsp Hord.
  destruct (rel_cell d b s t l c1 Hrel El1) as (c & ps & El & Eb & Eg & Er & Ez & ND).
  destruct (rel_cell d b s t ls c2 Hrel Els1) as (cs & qs & Els & Ebs & _ & _ & Ezs & NDs).
  destruct Hrel as (f & a & W & ->). cbn in El1, Els1. rewrite lookup_fmap, El in El1. injection El1 as <-.
  rewrite lookup_fmap, Els in Els1. injection Els1 as <-. cbn [c_buf absc c_gen c_refs] in *. rewrite Eb, Ebs, !eval_map, !zlen_map in *.
  pose proof (bufs_lookup _ _ _ El) as EB. rewrite Eb in EB. pose proof (bufs_lookup _ _ _ Els) as EBs. rewrite Ebs in EBs.
  assert (Hlive : forall l ps, bufs (n_out s) !! l = Some (map Some ps) -> Forall (fun p => odd p /\ is_Some (a !! p)) ps).
  { clear -W. intros l ps E. destruct (wf_slots _ _ _ _ _ W l _ E) as (ps0 & Eps & _ & F0). rewrite List.Forall_forall in *. intros p Hp.
    assert (In (Some p) (map Some ps0)) by (rewrite <- Eps; apply in_map, Hp). apply in_map_iff in H as (? & [= ->] & ?). auto. }
  pose proof (Hlive _ _ EB) as Hps. pose proof (Hlive _ _ EBs) as Hqs. clear Hlive.
  set (P := combine (zsub i k qs) (zsub j k ps)).
  assert (HP : forall m z q, znth m P = Some (z, q) -> 0 <= m < k /\ znth (i + m) qs = Some z /\ znth (j + m) ps = Some q).
  { intros m z q Hm. unfold P in Hm. rewrite znth_combine, !znth_zsub in Hm. destruct (Z.leb_spec 0 m), (Z.ltb_spec m k); cbn in Hm; try discriminate.
    replace (m + Z.max 0 i) with (i + m) in Hm by lia. replace (m + Z.max 0 j) with (j + m) in Hm by lia.
    destruct (znth (i + m) qs), (znth (j + m) ps); try discriminate. injection Hm as -> ->. auto. }
  assert (HP' : forall m, 0 <= m < k -> exists z q, znth m P = Some (z, q) /\ znth (i + m) qs = Some z /\ znth (j + m) ps = Some q).
  { intros m Hm. destruct (znth_some (i + m) qs ltac:(lia)) as (z & Ez'). destruct (znth_some (j + m) ps ltac:(lia)) as (q & Eq'). exists z, q.
    split; [|auto]. unfold P. rewrite znth_combine, !znth_zsub. destruct (Z.leb_spec 0 m), (Z.ltb_spec m k); cbn; try lia.
    replace (m + Z.max 0 i) with (i + m) by lia. replace (m + Z.max 0 j) with (j + m) by lia. rewrite Ez', Eq'. reflexivity. }
  assert (HlP : zlen P <= k).
  { unfold P, zlen. rewrite combine_length. pose proof (zlen_zsub i k qs) as X. unfold zlen in *. lia. }
  set (P2 := if back then rev P else P).
  assert (Hin2 : forall p, In p P2 <-> In p P) by (intros p; unfold P2; destruct back; [symmetry; apply in_rev|reflexivity]).
  destruct (copies_ok d Hwf P2 a s (wf_R _ _ _ _ _ W)) as (i' & a' & E' & R' & V' & K').
  { apply List.Forall_forall. intros [z q] Hin. apply Hin2, in_znth in Hin as (m & Hm). destruct (HP m z q Hm) as (Hm1 & Hz & Hq). cbn [fst snd]. split.
    - apply val_some. rewrite zsub_map in Hsp. rewrite List.Forall_forall in Hsp. apply Hsp, in_map, in_znth. exists m. rewrite znth_zsub.
      destruct (Z.leb_spec 0 m), (Z.ltb_spec m k); cbn; try lia. replace (m + Z.max 0 i) with (i + m) by lia. exact Hz.
    - rewrite List.Forall_forall in Hps. apply Hps, in_znth. eauto. }
  { assert (Hd : forall m m' z q z' q', znth m P = Some (z, q) -> znth m' P = Some (z', q') -> m <> m' -> (back = true -> m' < m) -> q <> z' /\ q <> q').
    { intros m m' z q z' q' Hm Hm' Hne Hb. destruct (HP m z q Hm) as (Hm1 & Hz & Hq), (HP m' z' q' Hm') as (Hm1' & Hz' & Hq'). split; intros <-.
      - destruct Hord as [Hne'|[Hb' Hij]].
        + apply Hne'. apply (wf_disj _ _ _ _ _ W ls l _ _ q EBs EB); apply in_map, in_znth; eauto.
        + specialize (Hb Hb'). destruct (decide (ls = l)) as [->|Hne']; [|apply Hne', (wf_disj _ _ _ _ _ W ls l _ _ q EBs EB); apply in_map, in_znth; eauto].
          assert (qs = ps) as -> by (rewrite EB in EBs; injection EBs as X; clear -X; revert qs X; induction ps as [|p ps IH]; intros [|q qs] X; try discriminate; [reflexivity|]; injection X as -> X; f_equal; apply IH, X).
          assert (j + m = i + m') by (eapply (nodup_znth ps); eassumption). lia.
      - assert (j + m = j + m') by (eapply (nodup_znth ps); eassumption). lia. }
    apply ahead_idx. intros m m' [z q] [z' q'] Hlt Hm Hm'. cbn [fst snd]. unfold P2 in Hm, Hm'. destruct back.
    - pose proof (znth_inv _ _ _ Hm) as X. pose proof (znth_inv _ _ _ Hm') as X'. rewrite zlen_rev in X, X'. rewrite znth_rev in Hm, Hm' by lia. apply (Hd _ _ _ _ _ _ Hm Hm'); lia.
    - apply (Hd _ _ _ _ _ _ Hm Hm'); [lia|discriminate]. }
  exists (NState (n_out s) i'), (zsub i k qs), (zsub j k ps).
  split; [eapply slots_ok; eassumption|]. split; [eapply slots_ok; eassumption|]. split; [exact E'|]. split; [reflexivity|].
  exists f, a'. cbn [n_out n_in].
  assert (Hdst : forall z, In z (map snd P2) <-> exists m, 0 <= m < k /\ znth (j + m) ps = Some z).
  { intros z. rewrite in_map_iff. split.
    - intros ([z' q] & <- & Hin). apply Hin2, in_znth in Hin as (m & Hm). destruct (HP m z' q Hm) as (? & _ & ?). cbn. eauto.
    - intros (m & Hm & Hz). destruct (HP' m Hm) as (z' & q & HPm & Hz' & Hq). exists (z', q). cbn. split; [congruence|]. apply Hin2, in_znth. eauto. }
  assert (Hsub : forall z, ~ In z ps -> a' !! z = a !! z).
  { intros z Hz. apply K'. intros Hin. apply Hdst in Hin as (m & _ & Hm). apply Hz, in_znth. eauto. }
  assert (Hpt : forall m p, znth m ps = Some p ->
    (j <= m < j + k -> exists z, znth (i + (m - j)) qs = Some z /\ a' !! p = a !! z) /\ (m < j \/ j + k <= m -> a' !! p = a !! p)).
  { intros m p Hp. split.
    - intros Hm. destruct (HP' (m - j) ltac:(lia)) as (z & q & HPm & Hz & Hq). replace (j + (m - j)) with m in Hq by lia. assert (q = p) as -> by congruence.
      exists z. split; [exact Hz|]. rewrite List.Forall_forall in V'. apply (V' (z, p)). apply Hin2, in_znth. eauto.
    - intros Hm. apply K'. intros Hin. apply Hdst in Hin as (m' & Hm' & Hp'). assert (m = j + m') by (eapply (nodup_znth ps); eassumption). lia. }
  destruct (Wf_vals d b b (bufs (n_out s)) (n_in s) i' a a' l ps W EB R') as [W' K2].
  { intros y. rewrite Hsub; [apply (wf_b _ _ _ _ _ W)|]. intros Hp. rewrite List.Forall_forall in Hps. destruct (Hps _ Hp) as [[q Hq] _]. discriminate. }
  { rewrite Hsub; [apply (wf_1 _ _ _ _ _ W)|]. intros Hp. rewrite List.Forall_forall in Hps. destruct (Hps _ Hp) as [[q Hq] _]. discriminate. }
  { apply List.Forall_forall. intros p Hp. apply in_znth in Hp as (m & Hm). destruct (Hpt m p Hm) as [H1 H2].
    rewrite List.Forall_forall in Hps, Hqs. destruct (Z_lt_le_dec m j) as [Hl|Hl]; [rewrite H2 by lia; apply Hps, in_znth; eauto|].
    destruct (Z_lt_le_dec m (j + k)) as [Hl'|Hl']; [|rewrite H2 by lia; apply Hps, in_znth; eauto].
    destruct (H1 ltac:(lia)) as (z & Hz & ->). apply Hqs, in_znth. eauto. }
  { intros q Hq. apply Hsub, Hq. }
  split; [exact W'|]. rewrite (abs_vals f a a' (n_out s) l c El K2). f_equal. f_equal. rewrite Eb, eval_map. f_equal.
  symmetry. apply (vals_upd (val a') (val a) ps j k); try lia.
  - rewrite zlen_zsub, zlen_map. lia.
  - intros m p Hp. destruct (Hpt m p Hp) as [H1 H2]. split.
    + intros Hm. destruct (H1 Hm) as (z & Hz & Ea). rewrite zsub_map, znth_map, znth_zsub. destruct (Z.leb_spec 0 (m - j)), (Z.ltb_spec (m - j) k); cbn; try lia.
      replace (m - j + Z.max 0 i) with (i + (m - j)) by lia. rewrite Hz. cbn. f_equal. apply val_eq, Ea.
    + intros Hm. apply val_eq, H2, Hm.
Qed.

(** One element. *)
Lemma elem_sim b s t l c1 j : rel b s t -> st_heap t !! l = Some c1 -> 0 <= j < zlen (c_buf c1) ->
  exists f a z, Wf d b (bufs (n_out s)) (n_in s) a /\ t = abs f a (n_out s) /\ slots l j 1 s = Ok [z] s /\ odd z /\ is_Some (a !! z) /\
    znth j (c_buf c1) = Some (val a z) /\
    forall i' a' b', RcaRel.R d i' a' -> (forall y, a' !! xO y = b' !! y) -> a' !! 1%positive = None -> is_Some (a' !! z) ->
      (forall q, xI q <> z -> a' !! xI q = a !! xI q) ->
      rel b' (NState (n_out s) i') (with_heap t (<[l := Cell (zupd j [val a' z] (c_buf c1)) (c_gen c1) (c_refs c1)]> (st_heap t))).
Proof.
  intros Hrel El1 Hj. destruct (rel_cell d b s t l c1 Hrel El1) as (c & ps & El & Eb & Eg & Er & Ez & ND).
  destruct Hrel as (f & a & W & ->). cbn in El1. rewrite lookup_fmap, El in El1. injection El1 as <-.
  cbn [c_buf absc c_gen c_refs] in *. rewrite Eb, !eval_map, !zlen_map in *.
  pose proof (bufs_lookup _ _ _ El) as EB. rewrite Eb in EB. destruct (znth_some j ps Hj) as (z & Hz).
  destruct (wf_slots _ _ _ _ _ W l _ EB) as (ps0 & Eps & _ & F0).
  assert (Hps : Forall (fun p => odd p /\ is_Some (a !! p)) ps).
  { rewrite List.Forall_forall in *. intros p Hp. assert (In (Some p) (map Some ps0)) by (rewrite <- Eps; apply in_map, Hp).
    apply in_map_iff in H as (? & [= ->] & ?). auto. }
  clear ps0 Eps F0. rewrite List.Forall_forall in Hps. assert (Hin : In z ps) by (apply in_znth; eauto). destruct (Hps z Hin) as [Oz Sz].
  exists f, a, z. split; [exact W|]. split; [reflexivity|]. split; [|split; [exact Oz|split; [exact Sz|split]]].
  - rewrite (slots_ok s l c ps j 1 El Eb) by lia. f_equal. apply zlist_ext; [rewrite zlen_zsub; unfold zlen at 2; cbn; lia|].
    rewrite zlen_zsub. intros m Hm. assert (m = 0) as -> by lia. rewrite znth_zsub. cbn. replace (Z.max 0 j) with j by lia. exact Hz.
  - rewrite znth_map, Hz. reflexivity.
  - intros i' a' b' R' Hb H1 Hz' K.
    destruct (Wf_vals d b b' (bufs (n_out s)) (n_in s) i' a a' l ps W EB R' Hb H1) as [W' K2].
    { apply List.Forall_forall. intros p Hp. destruct (decide (p = z)) as [->|Hne]; [exact Hz'|]. destruct (Hps p Hp) as [[q ->] S]. rewrite K by exact Hne. exact S. }
    { intros q Hq. apply K. intros <-. contradiction. }
    exists f, a'. cbn [n_out n_in]. split; [exact W'|]. rewrite (abs_vals f a a' (n_out s) l c El K2). f_equal. f_equal. rewrite Eb, eval_map. f_equal.
    symmetry. apply (vals_upd (val a') (val a) ps j 1); [reflexivity|lia|lia|]. intros m p Hp. split.
    + intros Hm. assert (m = j) as -> by lia. assert (p = z) as -> by congruence. replace (j - j) with 0 by lia. reflexivity.
    + intros Hm. destruct (Hps p ltac:(apply in_znth; eauto)) as [[q ->] _]. apply val_eq, K. intros <-.
      assert (m = j) by (eapply (nodup_znth ps); eassumption). lia.
Qed.
(** What the handle of an object with a buffer of its own gives access to. *)
Lemma owns_slot {T} (dd : desc T) s0 t x off len (bf : list (option T)) : owns dd s0 t x off len bf -> 
  exists l g, st_env t !! x = Some (Obj (Some l) off len 0) /\ st_heap t !! l = Some (Cell bf g 1) /\ 0 <= off /\ 0 <= len /\ off + len <= zlen bf /\ zlen bf <= max_alloc.
Proof. intros H. pose proof (owns_facts _ _ _ _ _ _ _ H). destruct H as (_ & _ & l & g & E1 & E2). exists l, g. tauto. Qed.
Lemma nslots_eq s x o l pos n : st_env (n_out s) !! x = Some o -> o_ref o = Some l -> 0 < n -> nslots x pos n s = slots l (o_off o + pos) n s.
Proof.
  intros E Er Hn. unfold nslots. destruct (Z.leb_spec n 0); [lia|]. rewrite (bind_ok _ _ _ _ _ (outer_get_obj _ _ _ E)), Er. reflexivity.
Qed.
Lemma max_small n : n <= max_alloc -> n < W64.
Proof. unfold max_alloc, W64. lia. Qed.
Lemma store_eq {T} t x o l (c : cell T) pos es : st_env t !! x = Some o -> o_ref o = Some l -> st_heap t !! l = Some c -> 0 <= o_off o + pos ->
  o_off o + pos + zlen es <= zlen (c_buf c) -> zlen (c_buf c) <= max_alloc -> 0 < zlen es ->
  store x pos es t = Ok tt (with_heap t (<[l := Cell (zupd (o_off o + pos) es (c_buf c)) (c_gen c) (c_refs c)]> (st_heap t))).
Proof.
  intros Ex Er El H1 H2 H3 H4. pose proof (max_small _ H3). unfold store. destruct (Z.leb_spec (zlen es) 0); [lia|]. unfold bind.
  rewrite (get_obj_ok _ _ _ Ex), Er, (get_cell_ok _ _ _ El). cbv zeta. rewrite u64_id by lia. destruct (Z.leb_spec (o_off o + pos + zlen es) (zlen (c_buf c))); [reflexivity|lia].
Qed.
Lemma nslot_eq s x o l pos z : st_env (n_out s) !! x = Some o -> o_ref o = Some l -> slots l (o_off o + pos) 1 s = Ok [z] s -> nslot x pos s = Ok z s.
Proof. intros E Er H. unfold nslot. rewrite (bind_ok _ _ _ _ _ (eq_trans (nslots_eq s x o l pos 1 E Er ltac:(lia)) H)). reflexivity. Qed.

Lemma given_xO mv v b a : (forall y, a !! xO y = b !! y) -> forall y, given mv (xO v) a !! xO y = given mv v b !! y.
Proof.
  intros H y. unfold given. destruct mv; [|apply H]. destruct (decide (v = y)) as [->|N]; [rewrite !lookup_insert; reflexivity|].
  rewrite !lookup_insert_ne by congruence. apply H.
Qed.
Lemma give_sim b s t x o l c1 pos v w mv :
  rel b s t -> st_env t !! x = Some o -> o_ref o = Some l -> st_heap t !! l = Some c1 -> 0 <= o_off o + pos < zlen (c_buf c1) ->
  zlen (c_buf c1) <= max_alloc -> b !! v = Some (sv w) ->
  exists z s' t', nslot x pos s = Ok z s /\ give d mv z (str v) s = Ok tt s' /\ store x pos [Some w] t = Ok tt t' /\ rel (given mv v b) s' t'.
Proof.
  intros Hr Ex Er El Hj Hm Hv. destruct (elem_sim b s t l c1 _ Hr El Hj) as (f & a & z & W & Et & Hs & Oz & Sz & _ & Hput).
  assert (Hva : a !! xO v = Some (AVal (fst w) (snd w))) by (rewrite (wf_b _ _ _ _ _ W); exact Hv).
  assert (Hzv : z <> xO v) by (destruct Oz as [q ->]; discriminate).
  assert (H : exists i' a', give d mv z (str v) s = Ok tt (NState (n_out s) i') /\ RcaRel.R d i' a' /\ a' = <[z := AVal (fst w) (snd w)]> (given mv (xO v) a)).
  { unfold give. destruct mv.
    - destruct (i_assign_move d Hwf a z (xO v) _ _ s (wf_R _ _ _ _ _ W) Sz Hva Hzv) as (i' & E & R'). eauto 6.
    - destruct (i_assign d Hwf a z (xO v) _ _ s (wf_R _ _ _ _ _ W) Sz Hva) as (i' & E & R'). eauto 6. }
  destruct H as (i' & a' & E & R' & ->). exists z, (NState (n_out s) i'), (with_heap t (<[l := Cell (zupd (o_off o + pos) [Some w] (c_buf c1)) (c_gen c1) (c_refs c1)]> (st_heap t))).
  split; [eapply nslot_eq; [rewrite <- (rel_env _ _ _ _ Hr); exact Ex|exact Er|exact Hs]|]. split; [exact E|]. split; [eapply store_eq; try eassumption; try (cbn; lia); unfold zlen at 1; cbn; lia|].
  replace (Some w) with (val (<[z := AVal (fst w) (snd w)]> (given mv (xO v) a)) z) by (unfold val; rewrite lookup_insert; destruct w; reflexivity).
  apply Hput; [exact R'| | |rewrite lookup_insert; eauto|].
  - intros y. rewrite lookup_insert_ne by (destruct Oz as [q ->]; discriminate). apply given_xO, W.
  - rewrite lookup_insert_ne by (destruct Oz as [q ->]; discriminate). unfold given. destruct mv; [rewrite lookup_insert_ne by discriminate|]; apply W.
  - intros q Hq. rewrite lookup_insert_ne by congruence. unfold given. destruct mv; [rewrite lookup_insert_ne by discriminate|]; reflexivity.
Qed.

(** Dropping a reference. *)
Lemma drop_sim b s t x : rel b s t -> sim b b (ndrop d x s) (check_dealloc x t).
Proof.
  intros Hr. unfold ndrop, check_dealloc. apply (sim_bind d b b b); [apply (sim_handles d); [apply h_get|exact Hr]|]. intros o s1 t1 _ _ Hr1.
  destruct (o_ref o) as [l|]; [|apply sim_ret, Hr1].
  apply (sim_bind d b b b); [apply (sim_handles d); [apply h_dec|exact Hr1]|]. intros n s2 t2 _ _ Hr2.
  destruct (n <? 1); [|apply sim_ret, Hr2]. unfold bind at 4, delete_cell. destruct (st_heap t2 !! l) as [c1|] eqn:El1; [|exact I].
  destruct (rel_cell d b s2 t2 l c1 Hr2 El1) as (c & ps & El & Eb & _ & _ & _ & ND). destruct Hr2 as (f & a & W & ->).
  cbn in El1. rewrite lookup_fmap, El in El1. injection El1 as <-.
  pose proof (bufs_lookup _ _ _ El) as EB. rewrite Eb in EB.
  destruct (wf_slots _ _ _ _ _ W l _ EB) as (ps0 & Eps & _ & F0).
  assert (Hps : Forall (fun p => odd p /\ is_Some (a !! p)) ps).
  { rewrite List.Forall_forall in *. intros p Hp. assert (In (Some p) (map Some ps0)) by (rewrite <- Eps; apply in_map, Hp).
    apply in_map_iff in H as (? & [= ->] & ?). auto. }
  clear ps0 Eps F0. rewrite (bind_ok _ _ _ _ _ (outer_get_cell _ _ _ El)), Eb.
  destruct (nfree_ok d Hwf ps a s2 (wf_R _ _ _ _ _ W) ND) as (i' & a' & E' & R' & D' & K').
  { rewrite List.Forall_forall in *. intros p Hp. apply Hps, Hp. }
  rewrite (bind_ok _ _ _ _ _ E').
  assert (Ed : outer (delete_cell l) (NState (n_out s2) i') = Ok tt (NState (State (delete l (st_heap (n_out s2))) (st_env (n_out s2)) (st_next (n_out s2)) (st_tick (n_out s2)) (c_buf c :: st_freed (n_out s2))) i')).
  { unfold outer, delete_cell. cbn. rewrite El. reflexivity. }
  rewrite (bind_ok _ _ _ _ _ Ed). apply (sim_handles d); [apply h_set|]. eexists _, a'. cbn [n_out n_in].
  destruct (Wf_set d b b (bufs (n_out s2)) (n_in s2) i' a a' l ps []) as [W' K2].
  - exact W.
  - left. exact EB.
  - exact R'.
  - intros y. rewrite K'; [apply W|]. intros Hp. rewrite List.Forall_forall in Hps. destruct (Hps _ Hp) as [[q Hq] _]. discriminate.
  - rewrite K'; [apply W|]. intros Hp. rewrite List.Forall_forall in Hps. destruct (Hps _ Hp) as [[q Hq] _]. discriminate.
  - constructor.
  - constructor.
  - intros q Hq _. apply K', Hq.
  - intros q [].
  - intros q Hq _. rewrite List.Forall_forall in D'. apply D', Hq.
  - cbn in W'. split.
    + unfold bufs in *. cbn. rewrite fmap_delete. apply Wf_drop. exact W'.
    + unfold abs; cbn. f_equal. rewrite fmap_delete. apply map_eq. intros l2. destruct (decide (l = l2)) as [<-|N]; [rewrite !lookup_delete; reflexivity|].
      rewrite !lookup_delete_ne, !lookup_fmap by exact N. destruct (st_heap (n_out s2) !! l2) as [c2|] eqn:E2; [|reflexivity]. cbn. unfold absc.
      f_equal. f_equal. symmetry. apply (K2 l2); [congruence|]. apply bufs_lookup, E2.
Qed.
End Ops.
