(** Seen as values, the arrays of Strings of NestModel.v are the arrays of RcaModel.v with texts for elements. *)
From stdpp Require Import gmap.
From Verif Require Import RcaSpec RcaModel RcaExec RcaInv RcaOwn RcaRel RcaMeet RcaMain NestModel NestMeet.
From Coq Require Import ZifyBool.
Open Scope Z_scope.

(** Calls under other names. *)
Section Ren.
Variable d : desc Z.
Variable f : positive -> positive.
Hypothesis f_inj : forall x y, f x = f y -> x = y.
Definition pulls (a b : astate Z) : Prop := forall y, a !! f y = b !! y.
Definition keeps (a a' : astate Z) : Prop := forall z, (forall y, z <> f y) -> a' !! z = a !! z.
Definition follows (a : astate Z) (r r' : option (sres Z)) : Prop :=
  match r with
  | Some (SRet b' v) => exists a', r' = Some (SRet a' v) /\ pulls a' b' /\ keeps a a'
  | Some SRange => r' = Some SRange
  | None => True
  end.
Lemma keeps_refl a : keeps a a. Proof. intros z _; reflexivity. Qed.
Lemma keeps_insert a a' x v : keeps a a' -> keeps a (<[f x := v]> a').
Proof. intros H z Hz. rewrite lookup_insert_ne by (intros E; apply (Hz x); congruence). apply H, Hz. Qed.
Lemma keeps_delete a a' x : keeps a a' -> keeps a (delete (f x) a').
Proof. intros H z Hz. rewrite lookup_delete_ne by (intros E; apply (Hz x); congruence). apply H, Hz. Qed.
Lemma pulls_insert a b x v : pulls a b -> pulls (<[f x := v]> a) (<[x := v]> b).
Proof.
  intros H y. destruct (decide (x = y)) as [<-|N]; [rewrite !lookup_insert; reflexivity|].
  rewrite !lookup_insert_ne by (try exact N; intros E; apply N, f_inj, E). apply H.
Qed.
Lemma pulls_delete a b x : pulls a b -> pulls (delete (f x) a) (delete x b).
Proof.
  intros H y. destruct (decide (x = y)) as [<-|N]; [rewrite !lookup_delete; reflexivity|].
  rewrite !lookup_delete_ne by (try exact N; intros E; apply N, f_inj, E). apply H.
Qed.
Lemma follows_need a (c : bool) r r' : follows a r r' -> follows a (need c r) (need c r').
Proof. destruct c; [trivial|intros _; exact I]. Qed.
Lemma follows_ret a a' b' v : pulls a' b' -> keeps a a' -> follows a (Some (SRet b' v)) (Some (SRet a' v)).
Proof. intros P K. exists a'. auto. Qed.
Lemma eqb_f x y : Pos.eqb (f x) (f y) = Pos.eqb x y.
Proof.
  destruct (Pos.eqb_spec x y) as [->|N]; [apply Pos.eqb_refl|]. apply Pos.eqb_neq. intros E; apply N, f_inj, E.
Qed.
Lemma ren_step o a b : pulls a b -> follows a (step d o b) (step d (ren f o) a).
Proof.
  intros P.
  assert (Hh : forall x, holds a (f x) = holds b x) by (intros x; unfold holds; rewrite P; reflexivity).
  assert (Hf : forall x, fresh_var a (f x) = fresh_var b x) by (intros x; unfold fresh_var; rewrite P; reflexivity).
  assert (Hl : forall x, live a (f x) = live b x) by (intros x; unfold live; rewrite Hf; reflexivity).
  assert (Ha : forall x y p k, alias_ok (d_class d) (f x) (f y) p k = alias_ok (d_class d) x y p k).
  { intros. unfold alias_ok. rewrite eqb_f. reflexivity. }
  assert (Ht : forall mv x y r w, follows a (sp_take b mv x y r w) (sp_take a mv (f x) (f y) r w)).
  { intros mv x y r w. apply follows_ret.
    - apply pulls_insert. destruct mv; [apply pulls_insert|]; exact P.
    - apply keeps_insert. destruct mv; [apply keeps_insert|]; apply keeps_refl. }
  assert (Hp : forall x r v, follows a (put b x r v) (put a (f x) r v)).
  { intros. apply follows_ret; [apply pulls_insert, P|apply keeps_insert, keeps_refl]. }
  assert (Hs : forall v, follows a (same b v) (same a v)) by (intros; apply follows_ret; [exact P|apply keeps_refl]).
  assert (Hi : forall mv x pos y k full, follows a (sp_insert (d_class d) b mv x pos y k full) (sp_insert (d_class d) a mv (f x) pos (f y) k full)).
  { intros. unfold sp_insert. rewrite !Hh. destruct (holds b x) as [[rx v]|]; [|exact I]. destruct (holds b y) as [[ry w]|]; [|exact I].
    apply follows_need. destruct (zlen v <? pos); [reflexivity|]. destruct ((pos =? 0) && (zlen v <? zlen w) && full (zlen w)); [apply Ht|].
    rewrite Ha. apply follows_need, Hp. }
  assert (Hin : forall mv x pos y n, follows a (sp_insert_n (d_class d) b mv x pos y n) (sp_insert_n (d_class d) a mv (f x) pos (f y) n)).
  { intros. unfold sp_insert_n. rewrite !Hl. apply follows_need. destruct (n =? 0); [apply Hs|apply Hi]. }
  unfold step. destruct o; cbn [ren spec_step]; rewrite ?Hh, ?Hf, ?Hl, ?Ha, ?eqb_f;
    repeat first
      [ exact I | reflexivity | rewrite Ha | apply follows_need | apply Hp | apply Hs | apply Ht | apply Hi | apply Hin
      | match goal with |- follows _ (match ?e with _ => _ end) _ => lazymatch e with context [lookup] => fail | _ => destruct e end end
      | progress cbv zeta ].
  - apply follows_ret; [apply pulls_insert, pulls_insert, P|apply keeps_insert, keeps_insert, keeps_refl].
  - apply follows_ret; [apply pulls_delete, P|apply keeps_delete, keeps_refl].
  - rewrite !P. destruct (b !! x); [|exact I]. destruct (b !! y); [|exact I].
    apply follows_ret; [apply pulls_insert, pulls_insert, P|apply keeps_insert, keeps_insert, keeps_refl].
  - apply follows_ret; [apply pulls_insert, P|apply keeps_insert, keeps_refl].
  - apply follows_ret; [apply pulls_insert, P|apply keeps_insert, keeps_refl].
Qed.
Lemma ren_subject {T} (o : op T) : subject (ren f o) = option_map f (subject o).
Proof. destruct o; reflexivity. Qed.
Lemma ren_target {T} (o : op T) : target (ren f o) = option_map f (target o).
Proof. destruct o; reflexivity. Qed.
Lemma ren_asks (o : op Z) a b t : pulls a b -> asks (ren f o) a (f t) = asks o b t.
Proof. intros P. destruct o; cbn; unfold vlen; rewrite ?P; reflexivity. Qed.
Lemma ren_cstr (o : op Z) : is_cstr (ren f o) = is_cstr o.
Proof. destruct o; reflexivity. Qed.
End Ren.

Section Inner.
Variable d : desc Z.
Hypothesis Hwf : wf_desc d.
(** Calls that cannot fail. *)
Lemma icall o a a' v s : RcaRel.R d (n_in s) a -> subject o = None -> step d o a = Some (SRet a' v) ->
  exists i', ecall d o s = Ok tt (NState (n_out s) i') /\ RcaRel.R d i' a'.
Proof.
  intros HR Hs Hst. pose proof (exec_meets d o (n_in s) a Hwf HR) as Hm. unfold meets in Hm. rewrite Hst in Hm.
  unfold ecall, inner, bind. destruct (exec d o (n_in s)) as [v' i'|e i'| | |u].
  - exists i'. split; [reflexivity|apply Hm].
  - destruct Hm as (_ & x & Hx & _). congruence.
  - destruct Hm as (g & x & -> & _). discriminate.
  - contradiction.
  - contradiction.
Qed.
Lemma holds_sv (a : astate Z) y r v : a !! y = Some (AVal r v) -> holds a y = Some (r, v).
Proof. unfold holds. intros ->. reflexivity. Qed.
Lemma live_some (a : astate Z) y : is_Some (a !! y) -> live a y = true.
Proof. intros [v E]. unfold live, fresh_var. rewrite E. reflexivity. Qed.
Lemma fresh_none (a : astate Z) y : a !! y = None -> fresh_var a y = true.
Proof. intros E. unfold fresh_var. rewrite E. reflexivity. Qed.
Lemma i_default a x s : RcaRel.R d (n_in s) a -> a !! x = None ->
  exists i', ecall d (CtorDefault x) s = Ok tt (NState (n_out s) i') /\ RcaRel.R d i' (<[x := AVal true []]> a).
Proof. intros HR Hx. eapply icall; [exact HR|reflexivity|]. unfold step. cbn. rewrite (fresh_none _ _ Hx). reflexivity. Qed.
Lemma i_copy a x y r v s : RcaRel.R d (n_in s) a -> a !! x = None -> a !! y = Some (AVal r v) ->
  exists i', ecall d (CtorCopy x y) s = Ok tt (NState (n_out s) i') /\ RcaRel.R d i' (<[x := AVal r v]> a).
Proof. intros HR Hx Hy. eapply icall; [exact HR|reflexivity|]. unfold step. cbn. rewrite (fresh_none _ _ Hx), (holds_sv _ _ _ _ Hy). reflexivity. Qed.
Lemma i_move a x y r v s : RcaRel.R d (n_in s) a -> a !! x = None -> a !! y = Some (AVal r v) ->
  exists i', ecall d (CtorMove x y) s = Ok tt (NState (n_out s) i') /\ RcaRel.R d i' (<[x := AVal r v]> (<[y := AMoved]> a)).
Proof. intros HR Hx Hy. eapply icall; [exact HR|reflexivity|]. unfold step. cbn. rewrite (fresh_none _ _ Hx), (holds_sv _ _ _ _ Hy). reflexivity. Qed.
Lemma i_destroy a x s : RcaRel.R d (n_in s) a -> is_Some (a !! x) ->
  exists i', ecall d (Destroy x) s = Ok tt (NState (n_out s) i') /\ RcaRel.R d i' (delete x a).
Proof. intros HR Hx. eapply icall; [exact HR|reflexivity|]. unfold step. cbn. rewrite (live_some _ _ Hx). reflexivity. Qed.
Lemma i_assign a x y r v s : RcaRel.R d (n_in s) a -> is_Some (a !! x) -> a !! y = Some (AVal r v) ->
  exists i', ecall d (AssignCopy x y) s = Ok tt (NState (n_out s) i') /\ RcaRel.R d i' (<[x := AVal r v]> a).
Proof. intros HR Hx Hy. eapply icall; [exact HR|reflexivity|]. unfold step. cbn. rewrite (live_some _ _ Hx), (holds_sv _ _ _ _ Hy). reflexivity. Qed.
Lemma i_assign_move a x y r v s : RcaRel.R d (n_in s) a -> is_Some (a !! x) -> a !! y = Some (AVal r v) -> x <> y ->
  exists i', ecall d (AssignMove x y) s = Ok tt (NState (n_out s) i') /\ RcaRel.R d i' (<[x := AVal r v]> (<[y := AMoved]> a)).
Proof.
  intros HR Hx Hy N. eapply icall; [exact HR|reflexivity|]. unfold step. cbn.
  destruct (Pos.eqb_spec x y); [contradiction|]. rewrite (live_some _ _ Hx), (holds_sv _ _ _ _ Hy). reflexivity.
Qed.

(** Fresh slots. *)
Lemma half_xI z q : half z = Some q -> z = xI q.
Proof. destruct z; cbn; congruence. Qed.
Lemma free_slot_new (e : gmap positive obj) : e !! free_slot e = None /\ exists q, free_slot e = xI q.
Proof.
  split; [|eexists; reflexivity]. unfold free_slot.
  set (S := list_to_set (omap half (elements (dom e : gset positive))) : gset positive).
  destruct (e !! xI (fresh S)) as [o|] eqn:E; [|reflexivity]. exfalso. apply (is_fresh S). unfold S at 2.
  rewrite elem_of_list_to_set, elem_of_list_omap. exists (xI (fresh S)). split; [|reflexivity].
  apply elem_of_elements, elem_of_dom. eauto.
Qed.
Lemma R_env_none i a z : RcaRel.R d i a -> (st_env i !! z = None <-> a !! z = None).
Proof.
  intros [_ H]. specialize (H z). unfold var_rel in H. destruct (a !! z), (st_env i !! z); split; intros E; try congruence; contradiction.
Qed.
Lemma new_slot_ok a s : RcaRel.R d (n_in s) a ->
  exists z, new_slot s = Ok z s /\ a !! z = None /\ (exists q, z = xI q) /\ z = free_slot (st_env (n_in s)).
Proof.
  intros HR. destruct (free_slot_new (st_env (n_in s))) as [E O]. eexists. split; [reflexivity|]. split; [|split; [exact O|reflexivity]].
  apply (R_env_none _ _ _ HR), E.
Qed.

(** Loops over elements, as changes of the values [a]. *)
Definition odd (z : positive) : Prop := exists q, z = xI q.
Lemma nfill_ok n : forall t a s, RcaRel.R d (n_in s) a -> a !! t = Some (AVal true []) ->
  exists zs i' a', nfill d n t s = Ok zs (NState (n_out s) i') /\ RcaRel.R d i' a' /\ length zs = n /\ List.NoDup zs /\
    Forall (fun z => odd z /\ a !! z = None /\ a' !! z = Some (AVal true [])) zs /\ (forall z, ~ In z zs -> a' !! z = a !! z).
Proof.
  induction n as [|n IH]; intros t a s HR Ht.
  - exists [], (n_in s), a. cbn. destruct s; cbn. split_and!; auto; constructor.
  - cbn [nfill]. destruct (new_slot_ok a s HR) as (z & Hz & Nz & Oz & _). unfold bind at 1. rewrite Hz.
    destruct (i_copy a z t _ _ s HR Nz Ht) as (i1 & E1 & R1). unfold bind at 1. rewrite E1.
    assert (z <> t) by congruence.
    destruct (IH t (<[z := AVal true []]> a) (NState (n_out s) i1) R1) as (zs & i' & a' & E & R' & L & ND & F & K).
    { rewrite lookup_insert_ne by congruence. exact Ht. }
    unfold bind. rewrite E. cbn. exists (z :: zs), i', a'.
    assert (Hnz : ~ In z zs).
    { intros Hin. rewrite List.Forall_forall in F. destruct (F z Hin) as (_ & N & _). rewrite lookup_insert in N. discriminate. }
    split_and!; auto.
    + cbn; congruence.
    + constructor; assumption.
    + constructor.
      * split; [exact Oz|]. split; [exact Nz|]. rewrite K by exact Hnz. apply lookup_insert.
      * rewrite List.Forall_forall in *. intros q Hq. destruct (F q Hq) as (O & N & V). split; [exact O|]. split; [|exact V].
        rewrite lookup_insert_ne in N by congruence. exact N.
    + intros q Hq. rewrite K by (intros ?; apply Hq; right; assumption). apply lookup_insert_ne. intros ->; apply Hq; left; reflexivity.
Qed.
Lemma nmoves_ok src : forall a s, RcaRel.R d (n_in s) a -> List.NoDup src -> Forall (fun z => exists v, a !! z = Some (sv v)) src ->
  exists qs i' a', nmoves d src s = Ok qs (NState (n_out s) i') /\ RcaRel.R d i' a' /\ length qs = length src /\ List.NoDup qs /\
    Forall (fun q => odd q /\ a !! q = None) qs /\
    Forall2 (fun z q => a' !! q = a !! z) src qs /\ Forall (fun z => a' !! z = Some AMoved) src /\
    (forall z, ~ In z src -> ~ In z qs -> a' !! z = a !! z).
Proof.
  induction src as [|z src IH]; intros a s HR ND F.
  - exists [], (n_in s), a. cbn. destruct s; cbn. split_and!; auto; constructor.
  - inversion ND as [|? ? Nin ND']; subst. inversion F as [|? ? [[r v] Hv] F']; subst. cbn [nmoves].
    destruct (new_slot_ok a s HR) as (q & Hq & Nq & Oq & _). unfold bind at 1. rewrite Hq.
    destruct (i_move a q z r v s HR Nq Hv) as (i1 & E1 & R1). unfold bind at 1. rewrite E1. unfold sv in Hv; cbn [fst snd] in Hv.
    assert (Hqz : q <> z) by congruence.
    assert (Hsrc : forall y, In y src -> y <> q /\ y <> z).
    { intros y Hy. split; [|congruence]. rewrite List.Forall_forall in F'. destruct (F' y Hy) as [w Hw]. congruence. }
    destruct (IH (<[q := AVal r v]> (<[z := AMoved]> a)) (NState (n_out s) i1) R1 ND') as (qs & i' & a' & E & R' & L & NDq & Fq & F2 & Fm & K).
    { rewrite List.Forall_forall in *. intros y Hy. destruct (Hsrc y Hy). rewrite !lookup_insert_ne by congruence. auto. }
    unfold bind. rewrite E. cbn. exists (q :: qs), i', a'.
    assert (Hnq : ~ In q qs).
    { intros Hin. rewrite List.Forall_forall in Fq. destruct (Fq q Hin) as (_ & N). rewrite lookup_insert in N. discriminate. }
    assert (Hnz : ~ In z qs).
    { intros Hin. rewrite List.Forall_forall in Fq. destruct (Fq z Hin) as (_ & N). rewrite lookup_insert_ne, lookup_insert in N by congruence. discriminate. }
    assert (Hqs : ~ In q src) by (intros Hin; destruct (Hsrc q Hin); congruence).
    split_and!; auto.
    + cbn; congruence.
    + constructor; assumption.
    + constructor; [auto|]. rewrite List.Forall_forall in *. intros y Hy. destruct (Fq y Hy) as (O & N). split; [exact O|].
      assert (y <> q) by (intros ->; contradiction). assert (y <> z) by (intros ->; contradiction).
      rewrite !lookup_insert_ne in N by congruence. exact N.
    + constructor.
      * rewrite K by assumption. rewrite lookup_insert. congruence.
      * clear -F2 Hsrc. assert (G : forall y, In y src -> y <> q /\ y <> z) by exact Hsrc. clear Hsrc.
        induction F2 as [|y p src qs Hyp F2 IH]; constructor.
        -- rewrite Hyp. destruct (G y (or_introl eq_refl)). rewrite !lookup_insert_ne by congruence. reflexivity.
        -- apply IH. intros ? ?; apply G; right; assumption.
    + constructor; [|exact Fm]. rewrite K by assumption. rewrite lookup_insert_ne, lookup_insert by congruence. reflexivity.
    + intros y Hy Hy'. cbn in Hy, Hy'. rewrite K by tauto. rewrite !lookup_insert_ne by (intros ->; tauto). reflexivity.
Qed.
(** [ahead P ps]: earlier pairs stand in relation P to later ones. *)
Fixpoint ahead (P : positive * positive -> positive * positive -> Prop) (ps : list (positive * positive)) : Prop :=
  match ps with [] => True | p :: ps' => Forall (P p) ps' /\ ahead P ps' end.
Lemma copies_ok ps : forall a s, RcaRel.R d (n_in s) a ->
  Forall (fun p => (exists v, a !! fst p = Some (sv v)) /\ is_Some (a !! snd p)) ps ->
  ahead (fun p q => snd p <> fst q /\ snd p <> snd q) ps ->
  exists i' a', neach d AssignCopy ps s = Ok tt (NState (n_out s) i') /\ RcaRel.R d i' a' /\
    Forall (fun p => a' !! snd p = a !! fst p) ps /\ (forall z, ~ In z (map snd ps) -> a' !! z = a !! z).
Proof.
  induction ps as [|[z t] ps IH]; intros a s HR F H.
  - exists (n_in s), a. cbn. destruct s; cbn. split_and!; auto.
  - inversion F as [|? ? [[[r v] Hv] Ht] F']; subst. cbn [fst snd] in *. destruct H as [H1 H2]. cbn [neach].
    destruct (i_assign a t z r v s HR Ht Hv) as (i1 & E1 & R1). unfold bind at 1. rewrite E1. unfold sv in Hv; cbn [fst snd] in Hv.
    destruct (IH (<[t := AVal r v]> a) (NState (n_out s) i1) R1) as (i' & a' & E & R' & Fa & K).
    { rewrite List.Forall_forall in *. intros p Hp. destruct (H1 p Hp) as [A1 A2]. cbn in A1, A2. rewrite !lookup_insert_ne by assumption. auto. }
    { exact H2. }
    cbn [n_out] in E. exists i', a'. split_and!; auto.
    + constructor.
      * cbn. rewrite K; [rewrite lookup_insert; congruence|]. intros Hin. apply in_map_iff in Hin as (p & Ep & Hp).
        rewrite List.Forall_forall in H1. destruct (H1 p Hp) as [X1 X2]. cbn in X1, X2. congruence.
      * rewrite List.Forall_forall in *. intros p Hp. rewrite (Fa p Hp). destruct (H1 p Hp) as [X1 X2]. cbn in X1, X2. apply lookup_insert_ne. assumption.
    + intros y Hy. cbn in Hy. rewrite K by tauto. apply lookup_insert_ne. intros ->; tauto.
Qed.
Lemma moves_ok ps : forall a s, RcaRel.R d (n_in s) a ->
  Forall (fun p => (exists v, a !! fst p = Some (sv v)) /\ is_Some (a !! snd p) /\ snd p <> fst p) ps ->
  ahead (fun p q => snd p <> fst q /\ snd p <> snd q /\ fst p <> fst q) ps ->
  exists i' a', neach d AssignMove ps s = Ok tt (NState (n_out s) i') /\ RcaRel.R d i' a' /\
    Forall (fun p => a' !! snd p = a !! fst p) ps /\
    (forall z, ~ In z (map snd ps) -> In z (map fst ps) -> a' !! z = Some AMoved) /\
    (forall z, ~ In z (map snd ps) -> ~ In z (map fst ps) -> a' !! z = a !! z).
Proof.
  induction ps as [|[z t] ps IH]; intros a s HR F H.
  - exists (n_in s), a. cbn. destruct s; cbn. split_and!; auto. intros ? _ [].
  - inversion F as [|? ? [[[r v] Hv] [Ht N]] F']; subst. cbn [fst snd] in *. destruct H as [H1 H2]. cbn [neach].
    destruct (i_assign_move a t z r v s HR Ht Hv N) as (i1 & E1 & R1). unfold bind at 1. rewrite E1. unfold sv in Hv; cbn [fst snd] in Hv.
    destruct (IH (<[t := AVal r v]> (<[z := AMoved]> a)) (NState (n_out s) i1) R1) as (i' & a' & E & R' & Fa & Km & K).
    { rewrite List.Forall_forall in *. intros p Hp. destruct (H1 p Hp) as (A1 & A2 & A3). cbn in A1, A2, A3. destruct (F' p Hp) as (B1 & B2 & B3).
      split; [rewrite !lookup_insert_ne by assumption; exact B1|]. split; [|exact B3]. rewrite lookup_insert_ne by assumption.
      destruct (decide (z = snd p)) as [->|]; [rewrite lookup_insert; eauto|rewrite lookup_insert_ne by assumption; exact B2]. }
    { exact H2. }
    cbn [n_out] in E. exists i', a'.
    assert (Nt : ~ In t (map snd ps)).
    { intros Hin. apply in_map_iff in Hin as (p & Ep & Hp). rewrite List.Forall_forall in H1. destruct (H1 p Hp) as (_ & X & _). cbn in X. congruence. }
    assert (Nt' : ~ In t (map fst ps)).
    { intros Hin. apply in_map_iff in Hin as (p & Ep & Hp). rewrite List.Forall_forall in H1. destruct (H1 p Hp) as (X & _ & _). cbn in X. congruence. }
    assert (Nz' : ~ In z (map fst ps)).
    { intros Hin. apply in_map_iff in Hin as (p & Ep & Hp). rewrite List.Forall_forall in H1. destruct (H1 p Hp) as (_ & _ & X). cbn in X. congruence. }
    split_and!; auto.
    + constructor.
      * cbn. rewrite K by assumption. rewrite lookup_insert. congruence.
      * rewrite List.Forall_forall in *. intros p Hp. rewrite (Fa p Hp). destruct (H1 p Hp) as (A1 & A2 & A3). cbn in A1, A2, A3.
        rewrite !lookup_insert_ne by assumption. reflexivity.
    + intros y Hy Hy'. cbn in Hy, Hy'. destruct Hy' as [<-|Hy'].
      * rewrite K by tauto. rewrite lookup_insert_ne, lookup_insert by (intros ->; tauto). reflexivity.
      * apply Km; tauto.
    + intros y Hy Hy'. cbn in Hy, Hy'. rewrite K by tauto. rewrite !lookup_insert_ne by (intros ->; tauto). reflexivity.
Qed.
Lemma nfree_ok ps : forall a s, RcaRel.R d (n_in s) a -> List.NoDup ps -> Forall (fun z => is_Some (a !! z)) ps ->
  exists i' a', nfree d (map Some ps) s = Ok tt (NState (n_out s) i') /\ RcaRel.R d i' a' /\
    Forall (fun z => a' !! z = None) ps /\ (forall z, ~ In z ps -> a' !! z = a !! z).
Proof.
  induction ps as [|z ps IH]; intros a s HR ND F.
  - exists (n_in s), a. cbn. destruct s; cbn. split_and!; auto.
  - inversion ND as [|? ? Nin ND']; subst. inversion F as [|? ? Hz F']; subst. cbn [map nfree].
    destruct (i_destroy a z s HR Hz) as (i1 & E1 & R1). unfold bind at 1. rewrite E1.
    destruct (IH (delete z a) (NState (n_out s) i1) R1 ND') as (i' & a' & E & R' & Fa & K).
    { rewrite List.Forall_forall in *. intros y Hy. rewrite lookup_delete_ne by (intros ->; contradiction). auto. }
    exists i', a'. split_and!; auto.
    + constructor; [|exact Fa]. rewrite K by exact Nin. apply lookup_delete.
    + intros y Hy. cbn in Hy. rewrite K by tauto. apply lookup_delete_ne. intros ->; tauto.
Qed.
End Inner.
