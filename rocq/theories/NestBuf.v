(** Buffer management of arrays of Strings does to the values what RcaModel.v says. *)
From stdpp Require Import gmap.
From Verif Require Import RcaSpec RcaModel RcaExec RcaInv RcaOwn RcaRel RcaMeet RcaMain NestModel NestMeet NestSim NestAbs.
From Coq Require Import ZifyBool.
Open Scope Z_scope.

Section Buf.
Variable d : desc Z.
Variable od : desc positive.
Hypothesis Hwf : wf_desc d.
Notation vd := (vd od).
Notation rel := (rel d).
Notation sim := (sim d).

Lemma bind_ok {S A B} (m : M S A) (k : A -> M S B) s v s' : m s = Ok v s' -> bind m k s = k v s'.
Proof. unfold bind. intros ->. reflexivity. Qed.
Lemma bind_exn {S A B} (m : M S A) (k : A -> M S B) s e s' : m s = Exn e s' -> bind m k s = Exn e s'.
Proof. unfold bind. intros ->. reflexivity. Qed.
Lemma outer_get_cell s l c : st_heap (n_out s) !! l = Some c -> outer (get_cell l) s = Ok c s.
Proof. intros E. unfold outer. rewrite (get_cell_ok _ _ _ E). destruct s; reflexivity. Qed.
Lemma outer_get_obj s x o : st_env (n_out s) !! x = Some o -> outer (get_obj x) s = Ok o s.
Proof. intros E. unfold outer. rewrite (get_obj_ok _ _ _ E). destruct s; reflexivity. Qed.
Lemma rel_env b s t : rel b s t -> st_env t = st_env (n_out s).
Proof. intros (f & a & _ & ->). reflexivity. Qed.
Lemma rel_cell b s t l c1 : rel b s t -> st_heap t !! l = Some c1 ->
  exists c ps, st_heap (n_out s) !! l = Some c /\ c_buf c = map Some ps /\ c_gen c = c_gen c1 /\ c_refs c = c_refs c1 /\ zlen ps = zlen (c_buf c1) /\
    List.NoDup ps.
Proof.
  intros (f & a & W & ->) E. cbn in E. rewrite lookup_fmap in E. destruct (st_heap (n_out s) !! l) as [c|] eqn:El; [|discriminate].
  injection E as <-. destruct (wf_slots _ _ _ _ _ W l (c_buf c) (bufs_lookup _ _ _ El)) as (ps & Eb & ND & _). exists c, ps.
  cbn. rewrite Eb, !zlen_map. split_and!; auto.
Qed.

Lemma map_repeat {A B} (f : A -> B) (v : B) l : List.Forall (fun x => f x = v) l -> map f l = repeat v (length l).
Proof. induction 1 as [|x l E _ IH]; [reflexivity|]. cbn. rewrite E, IH. reflexivity. Qed.
Lemma forall2_map {A B C} (f : A -> C) (g : B -> C) l k : Forall2 (fun x y => g y = f x) l k -> map g k = map f l.
Proof. induction 1 as [|x y l k E _ IH]; [reflexivity|]. cbn. rewrite E, IH. reflexivity. Qed.

(** ArrayRef::reserve. *)
Lemma ref_reserve_sim b s t l n sc off len c1 :
  rel b s t -> st_heap t !! l = Some c1 -> 0 <= off -> 0 <= len -> zlen (c_buf c1) <= max_alloc ->
  Forall is_Some (zsub off len (c_buf c1)) ->
  sim b b (nref_reserve d od l n sc off len s) (aref_reserve vd l n sc off len t).
Proof.
  intros Hrel El1 Hoff Hlen Hmax Hsp. destruct (rel_cell b s t l c1 Hrel El1) as (c & ps & El & Eb & Eg & Er & Ez & ND).
  destruct Hrel as (f & a & W & ->). assert (Hc1 : c1 = absc a c) by (cbn in El1; rewrite lookup_fmap, El in El1; injection El1 as <-; reflexivity).
  assert (Hb1 : c_buf c1 = map (val a) ps) by (subst c1; cbn; rewrite Eb; apply eval_map).
  pose proof (bufs_lookup _ _ _ El) as EB. rewrite Eb in EB.
  destruct (wf_slots _ _ _ _ _ W l _ EB) as (ps0 & Eps & _ & F0).
  assert (Hps : Forall (fun p => odd p /\ is_Some (a !! p)) ps).
  { rewrite List.Forall_forall in *. intros p Hp. assert (In (Some p) (map Some ps0)) by (rewrite <- Eps; apply in_map, Hp).
    apply in_map_iff in H as (? & [= ->] & ?). auto. }
  clear ps0 Eps F0.
  unfold nref_reserve, aref_reserve. rewrite (bind_ok _ _ _ _ _ (outer_get_cell _ _ _ El)), (bind_ok _ _ _ _ _ (get_cell_ok _ _ _ El1)).
  cbv zeta. assert (Hsz : zlen (c_buf c) = zlen (c_buf c1)) by (rewrite Eb, Hb1, !zlen_map; reflexivity). rewrite Hsz.
  destruct (Z.ltb_spec (zlen (c_buf c1)) n) as [Hgrow|Hfit].
  - set (N := Z.max (sc (zlen (c_buf c1))) n).
    set (o' := State (st_heap (n_out s)) (st_env (n_out s)) (st_next (n_out s)) (S (st_tick (n_out s))) (st_freed (n_out s))).
    destruct (d_oom od (st_tick (n_out s)) || (max_alloc <? N)) eqn:Eo.
    { assert (Ea : outer (try_alloc od N) s = Exn BadAlloc (NState o' (n_in s))) by (unfold outer, try_alloc; rewrite Eo; reflexivity).
      assert (Ea1 : try_alloc vd N (abs f a (n_out s)) = Exn BadAlloc (abs f a o')) by (unfold try_alloc; cbn; rewrite Eo; reflexivity).
      rewrite (bind_exn _ _ _ _ _ Ea), (bind_exn _ _ _ _ _ Ea1). eexists; split; [reflexivity|]. exists f, a. split; [exact W|reflexivity]. }
    assert (Ea : outer (try_alloc od N) s = Ok tt (NState o' (n_in s))) by (unfold outer, try_alloc; rewrite Eo; reflexivity).
    assert (Ea1 : try_alloc vd N (abs f a (n_out s)) = Ok tt (abs f a o')) by (unfold try_alloc; cbn; rewrite Eo; reflexivity).
    rewrite (bind_ok _ _ _ _ _ Ea), (bind_ok _ _ _ _ _ Ea1). clear Eo Ea Ea1.
    destruct (Z.ltb_spec N len) as [|Hn]; [exact I|].
    set (s0 := NState o' (n_in s)).
    destruct (new_slot_ok d a s0 (wf_R _ _ _ _ _ W)) as (tmp & Et & Nt & Ot & _). rewrite (bind_ok _ _ _ _ _ Et).
    destruct (i_default d Hwf a tmp s0 (wf_R _ _ _ _ _ W) Nt) as (i1 & E1 & R1). rewrite (bind_ok _ _ _ _ _ E1).
    set (a1 := <[tmp := AVal true []]> a) in *.
    destruct (nfill_ok d Hwf (Z.to_nat (N - len)) tmp a1 (NState (n_out s0) i1) R1 (lookup_insert _ _ _)) as (fill & i2 & a2 & E2 & R2 & L2 & ND2 & F2 & K2).
    rewrite (bind_ok _ _ _ _ _ E2).
    assert (Hft : forall z, In z fill -> z <> tmp /\ a !! z = None /\ odd z /\ a2 !! z = Some (AVal true [])).
    { intros z Hz. rewrite List.Forall_forall in F2. destruct (F2 z Hz) as (O & N1 & V). unfold a1 in N1.
      destruct (decide (tmp = z)) as [<-|Ne]; [rewrite lookup_insert in N1; discriminate|]. rewrite lookup_insert_ne in N1 by exact Ne. auto. }
    assert (Ht2 : a2 !! tmp = Some (AVal true [])).
    { rewrite K2; [apply lookup_insert|]. intros Hin. destruct (Hft _ Hin) as [X _]; congruence. }
    destruct (i_destroy d Hwf a2 tmp (NState (n_out s0) i2) R2) as (i3 & E3 & R3); [rewrite Ht2; eauto|]. cbn [n_out] in *. rewrite (bind_ok _ _ _ _ _ E3).
    set (a3 := delete tmp a2) in *.
    assert (K3 : forall z, ~ In z fill -> a3 !! z = a !! z).
    { intros z Hz. unfold a3. destruct (decide (tmp = z)) as [<-|Ne]; [rewrite lookup_delete, Nt; reflexivity|].
      rewrite lookup_delete_ne, K2 by assumption. apply lookup_insert_ne, Ne. }
    assert (V3 : forall z, In z fill -> a3 !! z = Some (AVal true [])).
    { intros z Hz. destruct (Hft z Hz) as (Ne & _ & _ & V). unfold a3. rewrite lookup_delete_ne by congruence. exact V. }
    assert (Hpf : forall p, In p ps -> ~ In p fill /\ odd p /\ is_Some (a !! p)).
    { intros p Hp. rewrite List.Forall_forall in Hps. destruct (Hps p Hp) as [O S]. split; [|auto]. intros Hf. destruct (Hft p Hf) as (_ & X & _).
      rewrite X in S. destruct S; discriminate. }
    rewrite Eb, Hb1. destruct ps as [|p0 ps'] eqn:Eps; cbn [map].
    + cbn [d_class NestAbs.vd]. destruct (Z.ltb_spec 0 len) as [|Hl0]; [exact I|]. assert (len = 0) as -> by lia. cbn [andb].
      unfold bind. cbn. eexists; split; [reflexivity|]. exists f, a3.
      destruct (Wf_set d b b (bufs o') (n_in s) i3 a a3 l [] fill) as [W' K'].
      * exact W.
      * left. exact EB.
      * exact R3.
      * intros y. rewrite K3; [apply (wf_b _ _ _ _ _ W)|]. intros Hf. destruct (Hft _ Hf) as (_ & _ & [q Hq] & _). discriminate.
      * rewrite K3; [apply (wf_1 _ _ _ _ _ W)|]. intros Hf. destruct (Hft _ Hf) as (_ & _ & [q Hq] & _). discriminate.
      * exact ND2.
      * apply List.Forall_forall. intros z Hz. split; [apply (Hft z Hz)|rewrite (V3 z Hz); eauto].
      * intros q _ Hq. apply K3, Hq.
      * intros q Hq. right. apply (Hft _ Hq).
      * intros q [].
      * split.
        { unfold bufs in *; cbn in *. rewrite fmap_insert. exact W'. }
        unfold abs, with_heap; cbn. f_equal. rewrite (abs_set a a3 o' l _ K'). cbn. unfold absc; cbn.
        rewrite eval_map, (map_repeat _ (Some (true, []) : option sval)).
        -- f_equal. f_equal; [|congruence|congruence]. cbn. unfold zrep. rewrite L2. reflexivity.
        -- apply List.Forall_forall. intros z Hz. unfold val. rewrite (V3 z Hz). reflexivity.
    + change (Some p0 :: map Some ps') with (map Some (p0 :: ps')). change (val a p0 :: map (val a) ps') with (map (val a) (p0 :: ps')).
      rewrite <- Eps in *. clear Eps p0 ps'. rewrite zlen_map.
      destruct ((off <? 0) || (zlen ps <? off + len)) eqn:Ebad; [exact I|].
      assert (El3 : st_heap (n_out (NState (n_out s0) i3)) !! l = Some c) by exact El.
      rewrite (bind_ok _ _ _ _ _ (slots_ok (NState (n_out s0) i3) l c ps off len El3 Eb ltac:(lia) ltac:(lia))).
      set (src := zsub off len ps).
      assert (Hsrc : forall z, In z src -> In z ps) by (intros z; apply in_zsub).
      assert (Hsv : Forall (fun z => exists v, a3 !! z = Some (sv v)) src).
      { apply List.Forall_forall. intros z Hz. rewrite K3 by (apply Hpf, Hsrc, Hz). apply val_some.
        rewrite Hb1, zsub_map in Hsp. fold src in Hsp. rewrite List.Forall_forall in Hsp. apply Hsp, in_map, Hz. }
      destruct (nmoves_ok d Hwf src a3 (NState (n_out s0) i3) R3 (nodup_zsub _ _ _ ND) Hsv) as (front & i4 & a4 & E4 & R4 & L4 & ND4 & F4 & V4 & M4 & K4).
      rewrite (bind_ok _ _ _ _ _ E4).
      assert (Hfr : forall z, In z front -> odd z /\ ~ In z fill /\ ~ In z ps).
      { intros z Hz. rewrite List.Forall_forall in F4. destruct (F4 z Hz) as [O N4]. split; [exact O|]. split.
        - intros Hf. rewrite (V3 z Hf) in N4. discriminate.
        - intros Hp. destruct (Hpf z Hp) as (Hnf & _ & S). rewrite (K3 z Hnf) in N4. rewrite N4 in S. destruct S; discriminate. }
      assert (L4ive : Forall (fun z => is_Some (a4 !! z)) ps).
      { apply List.Forall_forall. intros z Hz. destruct (in_dec Pos.eq_dec z src) as [Hs|Hs].
        - rewrite List.Forall_forall in M4. rewrite (M4 z Hs). eauto.
        - rewrite K4 by (try exact Hs; intros Hf; destruct (Hfr z Hf) as (_ & _ & X); contradiction).
          rewrite K3 by (apply Hpf, Hz). apply Hpf, Hz. }
      destruct (nfree_ok d Hwf ps a4 (NState (n_out s0) i4) R4 ND L4ive) as (i5 & a5 & E5 & R5 & D5 & K5).
      cbn [n_out] in E5. rewrite (bind_ok _ _ _ _ _ E5).
      unfold bind. cbn. eexists; split; [reflexivity|]. exists ((map (val a) ps) :: f), a5.
      assert (Vfill : forall z, In z fill -> a5 !! z = Some (AVal true [])).
      { intros z Hz. assert (~ In z ps) by (intros Hp; apply Hpf in Hp as [X _]; contradiction).
        assert (~ In z front) by (intros Hf; apply Hfr in Hf as (_ & X & _); contradiction).
        rewrite K5, K4 by auto. apply V3, Hz. }
      assert (Vfront : Forall2 (fun z q => a5 !! q = a !! z) src front).
      { clear -V4 K5 K3 Hfr Hsrc Hpf. assert (G : forall z, In z front -> ~ In z ps) by (intros; apply Hfr; assumption). clear Hfr.
        induction V4 as [|z q src' front' E V4 IH]; constructor.
        - rewrite K5 by (apply G; left; reflexivity). rewrite E. apply K3, Hpf, Hsrc; left; reflexivity.
        - apply IH; [intros z' Hz'; apply Hsrc; right; exact Hz'|intros z' Hz'; apply G; right; exact Hz']. }
      assert (Kall : forall z, ~ In z ps -> ~ In z (front ++ fill) -> a5 !! z = a !! z).
      { intros z Hp Hq. rewrite in_app_iff in Hq. rewrite K5, K4 by (auto; tauto). apply K3. tauto. }
      destruct (Wf_set d b b (bufs o') (n_in s) i5 a a5 l ps (front ++ fill)) as [W' K'].
      * exact W.
      * left. exact EB.
      * exact R5.
      * intros y. rewrite Kall; [apply (wf_b _ _ _ _ _ W)| |].
        -- intros Hp. apply Hpf in Hp as (_ & [q Hq] & _). discriminate.
        -- rewrite in_app_iff. intros [Hf|Hf]; [apply Hfr in Hf as ([q Hq] & _)|apply Hft in Hf as (_ & _ & [q Hq] & _)]; discriminate.
      * rewrite Kall; [apply (wf_1 _ _ _ _ _ W)| |].
        -- intros Hp. apply Hpf in Hp as (_ & [q Hq] & _). discriminate.
        -- rewrite in_app_iff. intros [Hf|Hf]; [apply Hfr in Hf as ([q Hq] & _)|apply Hft in Hf as (_ & _ & [q Hq] & _)]; discriminate.
      * apply NoDup_ListNoDup, list.NoDup_app. rewrite !NoDup_ListNoDup. split; [exact ND4|]. split; [|exact ND2].
        intros z Hz. rewrite elem_of_list_In in *. apply Hfr, Hz.
      * apply List.Forall_app. split; apply List.Forall_forall; intros z Hz.
        -- split; [apply Hfr, Hz|]. assert (Hin : In (val a5 z) (map (val a5) front)) by (apply in_map, Hz).
           rewrite (forall2_map (val a) (val a5) src front) in Hin.
           2:{ clear -Vfront. induction Vfront; constructor; auto. apply val_eq. assumption. }
           unfold src in Hin. rewrite <- zsub_map, <- Hb1 in Hin. rewrite List.Forall_forall in Hsp. apply Hsp in Hin. apply val_some in Hin as [v Hv]. eauto.
        -- split; [apply (Hft z Hz)|rewrite (Vfill z Hz); eauto].
      * intros q Hq Hq'. apply Kall; assumption.
      * intros q Hq. right. apply in_app_iff in Hq as [Hf|Hf]; [|apply (Hft _ Hf)].
        destruct (a !! xI q) as [v|] eqn:Ev; [|reflexivity]. exfalso.
        destruct (Hfr _ Hf) as (_ & X & _). rewrite List.Forall_forall in F4. destruct (F4 _ Hf) as [_ N4]. rewrite K3 in N4 by exact X. congruence.
      * intros q Hq _. rewrite List.Forall_forall in D5. apply D5, Hq.
      * split.
        { unfold bufs in *; cbn in *. rewrite fmap_insert. exact W'. }
        unfold abs, with_heap; cbn. f_equal. rewrite (abs_set a a5 o' l _ K'). cbn. unfold absc; cbn.
        rewrite eval_map, map_app. f_equal. f_equal; [|congruence|congruence]. f_equal.
        -- unfold src in Vfront. rewrite zsub_map. symmetry. apply forall2_map. clear -Vfront. induction Vfront; constructor; auto. apply val_eq. assumption.
        -- rewrite (map_repeat _ (Some (true, []) : option sval)); [unfold zrep; rewrite L2; reflexivity|].
           apply List.Forall_forall. intros z Hz. unfold val. rewrite (Vfill z Hz). reflexivity.
  - destruct (u64 (zlen (c_buf c1) - off) <? n) eqn:Eu.
    2:{ eexists; split; [reflexivity|]. exists f, a. auto. }
    destruct ((off <? 0) || (zlen (c_buf c1) <? off + len)) eqn:Ebad; [exact I|].
    assert (Hoff0 : 0 < off).
    { destruct (Z.eq_dec off 0) as [->|]; [|lia]. rewrite Z.sub_0_r, u64_id in Eu by (unfold W64, max_alloc in *; pose proof (zlen_nonneg (c_buf c1)); lia). lia. }
    rewrite (bind_ok _ _ _ _ _ (slots_ok s l c ps off len El Eb ltac:(lia) ltac:(lia))).
    rewrite (bind_ok _ _ _ _ _ (slots_ok s l c ps 0 len El Eb ltac:(lia) ltac:(lia))).
    set (P := combine (zsub off len ps) (zsub 0 len ps)).
    assert (HP : forall m z q, znth m P = Some (z, q) -> 0 <= m < len /\ znth (off + m) ps = Some z /\ znth m ps = Some q).
    { intros m z q Hm. unfold P in Hm. rewrite znth_combine, !znth_zsub in Hm. destruct (Z.leb_spec 0 m), (Z.ltb_spec m len); cbn in Hm; try discriminate.
      replace (m + Z.max 0 off) with (off + m) in Hm by lia. replace (m + Z.max 0 0) with m in Hm by lia.
      destruct (znth (off + m) ps), (znth m ps); try discriminate. injection Hm as -> ->. auto. }
    assert (HP' : forall m, 0 <= m < len -> exists z q, znth m P = Some (z, q) /\ znth (off + m) ps = Some z /\ znth m ps = Some q).
    { intros m Hm. destruct (znth_some (off + m) ps ltac:(lia)) as (z & Ez'). destruct (znth_some m ps ltac:(lia)) as (q & Eq'). exists z, q.
      split; [|auto]. unfold P. rewrite znth_combine, !znth_zsub. destruct (Z.leb_spec 0 m), (Z.ltb_spec m len); cbn; try lia.
      replace (m + Z.max 0 off) with (off + m) by lia. replace (m + Z.max 0 0) with m by lia. rewrite Ez', Eq'. reflexivity. }
    destruct (moves_ok d Hwf P a s (wf_R _ _ _ _ _ W)) as (i' & a' & E' & R' & V' & M' & K').
    { apply List.Forall_forall. intros [z q] Hin. apply in_znth in Hin as (m & Hm). destruct (HP m z q Hm) as (Hm1 & Hz & Hq). cbn [fst snd]. split; [|split].
      - apply val_some. rewrite Hb1, zsub_map in Hsp. rewrite List.Forall_forall in Hsp. apply Hsp, in_map, in_znth. exists m. rewrite znth_zsub.
        destruct (Z.leb_spec 0 m), (Z.ltb_spec m len); cbn; try lia. replace (m + Z.max 0 off) with (off + m) by lia. exact Hz.
      - rewrite List.Forall_forall in Hps. apply Hps, in_znth. eauto.
      - intros ->. assert (off + m = m) by (eapply nodup_znth; eassumption). lia. }
    { apply ahead_idx. intros m m' [z q] [z' q'] Hlt Hm Hm'. destruct (HP m z q Hm) as (Hm1 & Hz & Hq), (HP m' z' q' Hm') as (Hm1' & Hz' & Hq'). cbn [fst snd].
      split; [|split]; intros <-.
      - assert (m = off + m') by (eapply nodup_znth; eassumption). lia.
      - assert (m = m') by (eapply nodup_znth; eassumption). lia.
      - assert (off + m = off + m') by (eapply nodup_znth; eassumption). lia. }
    rewrite (bind_ok _ _ _ _ _ E'). unfold bind. cbn [set_cell ret]. eexists; split; [reflexivity|]. exists f, a'.
    assert (Hdst : forall z, In z (map snd P) -> exists m, 0 <= m < len /\ znth m ps = Some z).
    { intros z Hz. apply in_map_iff in Hz as ([z' q] & <- & Hin). apply in_znth in Hin as (m & Hm). destruct (HP m z' q Hm) as (? & _ & ?). cbn. eauto. }
    assert (Hsrc : forall z, In z (map fst P) <-> exists m, 0 <= m < len /\ znth (off + m) ps = Some z).
    { intros z. split.
      - intros Hz. apply in_map_iff in Hz as ([z' q] & <- & Hin). apply in_znth in Hin as (m & Hm). destruct (HP m z' q Hm) as (? & ? & ?). cbn. eauto.
      - intros (m & Hm & Hz). destruct (HP' m Hm) as (z' & q & HPm & Hz' & Hq). apply in_map_iff. exists (z', q). cbn. split; [congruence|]. apply in_znth. eauto. }
    assert (Hsub : forall z, ~ In z ps -> a' !! z = a !! z).
    { intros z Hz. apply K'.
      - intros Hin. apply Hdst in Hin as (m & _ & Hm). apply Hz, in_znth. eauto.
      - intros Hin. apply Hsrc in Hin as (m & _ & Hm). apply Hz, in_znth. eauto. }
    assert (Hpt : forall m p, znth m ps = Some p ->
      (0 <= m < len -> exists z, znth (off + m) ps = Some z /\ a' !! p = a !! z) /\
      (len <= m -> (off <= m < off + len -> a' !! p = Some AMoved) /\ (m < off \/ off + len <= m -> a' !! p = a !! p))).
    { intros m p Hp. split.
      - intros Hm. destruct (HP' m Hm) as (z & q & HPm & Hz & Hq). assert (q = p) as -> by congruence. exists z. split; [exact Hz|].
        rewrite List.Forall_forall in V'. apply (V' (z, p)). apply in_znth. eauto.
      - intros Hm. assert (Nd : ~ In p (map snd P)).
        { intros Hin. apply Hdst in Hin as (m' & Hm' & Hp'). assert (m = m') by (eapply nodup_znth; eassumption). lia. }
        split.
        + intros Hin. apply M'; [exact Nd|]. apply Hsrc. exists (m - off). split; [lia|]. replace (off + (m - off)) with m by lia. exact Hp.
        + intros Hout. apply K'; [exact Nd|]. intros Hin. apply Hsrc in Hin as (m' & Hm' & Hp'). assert (m = off + m') by (eapply nodup_znth; eassumption). lia. }
    destruct (Wf_vals d b b (bufs (n_out s)) (n_in s) i' a a' l ps W EB R') as [W' K2].
    { intros y. rewrite Hsub; [apply (wf_b _ _ _ _ _ W)|]. intros Hp. rewrite List.Forall_forall in Hps. destruct (Hps _ Hp) as [[q Hq] _]. discriminate. }
    { rewrite Hsub; [apply (wf_1 _ _ _ _ _ W)|]. intros Hp. rewrite List.Forall_forall in Hps. destruct (Hps _ Hp) as [[q Hq] _]. discriminate. }
    { apply List.Forall_forall. intros p Hp. apply in_znth in Hp as (m & Hm). destruct (Hpt m p Hm) as [H1 H2]. pose proof (znth_inv _ _ _ Hm).
      rewrite List.Forall_forall in Hps. destruct (Z_lt_le_dec m len) as [Hl|Hl].
      - destruct (H1 ltac:(lia)) as (z & Hz & ->). apply Hps, in_znth. eauto.
      - destruct (H2 Hl) as [H3 H4]. destruct (Z_lt_le_dec m off) as [Ho|Ho].
        + rewrite H4 by lia. apply Hps, in_znth. eauto.
        + destruct (Z_lt_le_dec m (off + len)); [rewrite H3 by lia; eauto|rewrite H4 by lia; apply Hps, in_znth; eauto]. }
    { intros q Hq. apply Hsub, Hq. }
    split; [exact W'|]. cbn [n_out]. rewrite (abs_vals f a a' (n_out s) l c El K2). f_equal. f_equal. cbn [d_class NestAbs.vd].
    rewrite Eb, eval_map. f_equal; [|congruence|congruence]. rewrite Hb1.
    pose (g := fun p => if in_dec Pos.eq_dec p (zsub off len ps) then None else val a p).
    assert (Hgs : forall m p, znth m ps = Some p -> In p (zsub off len ps) <-> off <= m < off + len).
    { intros m p Hp. rewrite in_znth. split.
      - intros (k & Hk). rewrite znth_zsub in Hk. destruct (Z.leb_spec 0 k), (Z.ltb_spec k len); cbn in Hk; try discriminate.
        assert (k + Z.max 0 off = m) by (eapply nodup_znth; eassumption). lia.
      - intros Hm. exists (m - off). rewrite znth_zsub. destruct (Z.leb_spec 0 (m - off)), (Z.ltb_spec (m - off) len); cbn; try lia.
        replace (m - off + Z.max 0 off) with m by lia. exact Hp. }
    rewrite <- (vals_upd g (val a) ps off len (zrep len None)).
    + symmetry. apply (vals_upd (val a') g ps 0 len); try (zlen_simpl; rewrite ?zlen_map; lia).
      intros m p Hp. destruct (Hpt m p Hp) as [H1 H2]. pose proof (znth_inv _ _ _ Hp). split.
      * intros Hm. destruct (H1 ltac:(lia)) as (z & Hz & Ea). rewrite znth_zsub. destruct (Z.leb_spec 0 (m - 0)), (Z.ltb_spec (m - 0) len); cbn; try lia.
        replace (m - 0 + Z.max 0 off) with (off + m) by lia. rewrite znth_map, Hz. cbn. f_equal. apply val_eq, Ea.
      * intros Hm. assert (Hl : len <= m) by lia. destruct (H2 Hl) as [H3 H4]. unfold g. destruct (in_dec _ _ _) as [Hin|Hin].
        -- apply (Hgs m p Hp) in Hin. unfold val. rewrite H3 by lia. reflexivity.
        -- apply val_eq, H4. rewrite (Hgs m p Hp) in Hin. lia.
    + zlen_simpl. lia.
    + lia.
    + lia.
    + intros m p Hp. pose proof (znth_inv _ _ _ Hp). split; intros Hm; unfold g; destruct (in_dec _ _ _) as [Hin|Hin]; rewrite (Hgs m p Hp) in Hin; try lia; [|reflexivity].
      rewrite znth_zrep. destruct (Z.leb_spec 0 (m - off)), (Z.ltb_spec (m - off) len); cbn; try lia. reflexivity.
Qed.
End Buf.
