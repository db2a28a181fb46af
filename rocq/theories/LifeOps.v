(** Every call on an array keeps the invariant of LifeModel, whether it returns or throws. *)
From Verif Require Import RcaInv LifeModel LifeSpec LifeInv LifeStep.
From Coq Require Import ZifyBool.
Open Scope Z_scope.

Section LO.
Context {V : Type}.
Implicit Types (s : estate V) (x y : var) (l : loc) (c : ecell V) (h : gmap loc (ecell V)) (e : gmap var obj) (nx : loc).
Notation St := (estate V).

(** Changes of the structural invariant. *)
Lemma fine_env h e e' nx : fine h e nx -> (forall l, count l e' = count l e) ->
  (forall x o, e' !! x = Some o -> obj_fine h o) -> fine h e' nx.
Proof.
  intros [Hc Ho] Hn Ho'; split; [|exact Ho']. intros l c Hl. destruct (Hc l c Hl) as [H1 H2 H3 H4 H5].
  constructor; auto. rewrite Hn; exact H1.
Qed.
Lemma fine_put h e nx x o o' : fine h e nx -> e !! x = Some o -> o_ref o' = o_ref o -> obj_fine h o' -> fine h (<[x := o']> e) nx.
Proof.
  intros Hf Hx Hr Ho. apply (fine_env h e); [exact Hf| |].
  - intros l. rewrite (count_update l e x o o' Hx). unfold ind; rewrite Hr; lia.
  - intros y oy Hy. destruct (decide (x = y)) as [<-|Hn].
    + rewrite lookup_insert in Hy; injection Hy as <-; exact Ho.
    + rewrite lookup_insert_ne in Hy by exact Hn. exact (proj2 Hf y oy Hy).
Qed.
Lemma fine_count0 h e nx l : fine h e nx -> h !! l = None -> count l e = 0.
Proof.
  intros [_ Ho] Hl. pose proof (count_nonneg l e). destruct (decide (count l e = 0)) as [|Hn]; [assumption|].
  destruct (count_witness l e) as (x & o & Hx & Hr); [lia|]. destruct (Ho x o Hx l Hr) as (c & Hc & _); congruence.
Qed.
Lemma fine_new h e nx x o : fine h e nx -> e !! x = Some o -> o_ref o = None ->
  fine (<[nx := ECell [] 1]> h) (<[x := Obj (Some nx) 0 0 0]> e) (Pos.succ nx).
Proof.
  intros Hf Hx Hr. pose proof Hf as [Hc Ho].
  assert (h !! nx = None) as Hnx.
  { destruct (h !! nx) as [c|] eqn:E; [|reflexivity]. pose proof (cf_next _ _ _ _ (Hc nx c E)). lia. }
  split.
  - intros l c Hl. pose proof (count_update l e x o (Obj (Some nx) 0 0 0) Hx) as Hq. destruct (decide (l = nx)) as [->|Hn].
    + rewrite lookup_insert in Hl; injection Hl as <-. rewrite (fine_count0 h e nx nx Hf Hnx) in Hq.
      rewrite (ind_other nx o) in Hq by congruence. rewrite ind_some in Hq by reflexivity. constructor; cbn; try lia; [constructor|].
      rewrite zlen_nil; unfold max_alloc; lia.
    + rewrite lookup_insert_ne in Hl by congruence. destruct (Hc l c Hl) as [H1 H2 H3 H4 H5].
      rewrite (ind_other l o) in Hq by congruence. rewrite (ind_other l) in Hq by (cbn; congruence).
      constructor; auto; lia.
  - intros y oy Hy l Hl. destruct (decide (x = y)) as [<-|Hn].
    + rewrite lookup_insert in Hy; injection Hy as <-. cbn in Hl; injection Hl as <-. eexists; rewrite lookup_insert.
      split; [reflexivity|]. cbn. rewrite zlen_nil. lia.
    + rewrite lookup_insert_ne in Hy by exact Hn. destruct (Ho y oy Hy l Hl) as (c & Hcl & H1). exists c.
      rewrite lookup_insert_ne by congruence. auto.
Qed.
Lemma fine_drop h e nx x o l c : fine h e nx -> e !! x = Some o -> o_ref o = Some l -> h !! l = Some c -> 1 < e_refs c ->
  fine (<[l := ECell (e_buf c) (e_refs c - 1)]> h) (delete x e) nx.
Proof.
  intros [Hc Ho] Hx Hr Hl H1. split.
  - intros l' c' Hl'. pose proof (count_delete l' e x o Hx) as Hq. destruct (decide (l' = l)) as [->|Hn].
    + rewrite lookup_insert in Hl'; injection Hl' as <-. destruct (Hc l c Hl) as [A1 A2 A3 A4 A5].
      rewrite ind_some in Hq by exact Hr. constructor; cbn; auto; lia.
    + rewrite lookup_insert_ne in Hl' by congruence. destruct (Hc l' c' Hl') as [A1 A2 A3 A4 A5].
      rewrite ind_other in Hq by congruence. constructor; auto; lia.
  - intros y oy Hy l' Hl'. apply lookup_delete_Some in Hy as [_ Hy]. destruct (Ho y oy Hy l' Hl') as (c' & Hc' & H2).
    destruct (decide (l' = l)) as [->|Hn].
    + eexists; rewrite lookup_insert. split; [reflexivity|]. cbn. assert (c' = c) as -> by congruence. exact H2.
    + exists c'. rewrite lookup_insert_ne by congruence. auto.
Qed.
Lemma fine_last h e nx x o l c : fine h e nx -> e !! x = Some o -> o_ref o = Some l -> h !! l = Some c -> e_refs c <= 1 ->
  fine (delete l h) (delete x e) nx.
Proof.
  intros [Hc Ho] Hx Hr Hl H1. split.
  - intros l' c' Hl'. apply lookup_delete_Some in Hl' as [Hn Hl']. pose proof (count_delete l' e x o Hx) as Hq.
    destruct (Hc l' c' Hl') as [A1 A2 A3 A4 A5]. rewrite ind_other in Hq by congruence. constructor; auto; lia.
  - intros y oy Hy l' Hl'. apply lookup_delete_Some in Hy as [Hxy Hy]. destruct (Ho y oy Hy l' Hl') as (c' & Hc' & H2).
    exists c'. split; [|exact H2]. rewrite lookup_delete_ne; [exact Hc'|]. intros ->.
    pose proof (count_ge2 l' e x o y oy Hxy Hx Hr Hy Hl'). pose proof (cf_refs _ _ _ _ (Hc l' c Hl)). lia.
Qed.
Lemma fine_less h e nx x o : fine h e nx -> e !! x = Some o -> o_ref o = None -> fine h (delete x e) nx.
Proof.
  intros Hf Hx Hr. apply (fine_env h e); [exact Hf| |].
  - intros l. rewrite (count_delete l e x o Hx), ind_other by congruence. lia.
  - intros y oy Hy. apply lookup_delete_Some in Hy as [_ Hy]. exact (proj2 Hf y oy Hy).
Qed.
Lemma fine_add h e nx g o l c : fine h e nx -> e !! g = None -> obj_fine h o -> o_ref o = Some l -> h !! l = Some c ->
  fine (<[l := ECell (e_buf c) (e_refs c + 1)]> h) (<[g := o]> e) nx.
Proof.
  intros [Hc Ho] Hg Hf Hr Hl.
  assert (forall o', obj_fine h o' -> obj_fine (<[l := ECell (e_buf c) (e_refs c + 1)]> h) o') as Hmono.
  { intros o' H l' Hr'. destruct (H l' Hr') as (c' & Hc' & H2). destruct (decide (l' = l)) as [->|Hn].
    - eexists; rewrite lookup_insert. split; [reflexivity|]. cbn. assert (c' = c) as -> by congruence. exact H2.
    - exists c'. rewrite lookup_insert_ne by congruence. auto. }
  split.
  - intros l' c' Hl'. pose proof (count_insert l' e g o Hg) as Hq. destruct (decide (l' = l)) as [->|Hn].
    + rewrite lookup_insert in Hl'; injection Hl' as <-. destruct (Hc l c Hl) as [A1 A2 A3 A4 A5].
      rewrite ind_some in Hq by exact Hr. constructor; cbn; auto; lia.
    + rewrite lookup_insert_ne in Hl' by congruence. destruct (Hc l' c' Hl') as [A1 A2 A3 A4 A5].
      rewrite ind_other in Hq by congruence. constructor; auto; lia.
  - intros y oy Hy. destruct (decide (g = y)) as [<-|Hn].
    + rewrite lookup_insert in Hy; injection Hy as <-. apply Hmono, Hf.
    + rewrite lookup_insert_ne in Hy by exact Hn. apply Hmono, (Ho y oy Hy).
Qed.
Lemma fine_add_none h e nx g o : fine h e nx -> e !! g = None -> o_ref o = None -> fine h (<[g := o]> e) nx.
Proof.
  intros Hf Hg Hr. apply (fine_env h e); [exact Hf| |].
  - intros l. rewrite count_insert, ind_other by congruence. lia.
  - intros y oy Hy. destruct (decide (g = y)) as [<-|Hn].
    + rewrite lookup_insert in Hy; injection Hy as <-. intros l Hl; congruence.
    + rewrite lookup_insert_ne in Hy by exact Hn. exact (proj2 Hf y oy Hy).
Qed.
Lemma fine_rename h e nx g x o o' : fine h (<[g := o]> e) nx -> e !! g = None -> e !! x = None ->
  o_ref o' = o_ref o -> o_off o' = o_off o -> o_len o' = o_len o -> fine h (<[x := o']> e) nx.
Proof.
  intros Hf Hg Hx Hr Hof Hle. apply (fine_env h (<[g := o]> e)); [exact Hf| |].
  - intros l. rewrite !count_insert by assumption. unfold ind; rewrite Hr; reflexivity.
  - intros y oy Hy. destruct (decide (x = y)) as [<-|Hn].
    + rewrite lookup_insert in Hy; injection Hy as <-. pose proof (proj2 Hf g o (lookup_insert _ _ _)) as H.
      unfold obj_fine in *. rewrite Hr, Hof, Hle. exact H.
    + rewrite lookup_insert_ne in Hy by exact Hn. apply (proj2 Hf y oy). rewrite lookup_insert_ne by congruence. exact Hy.
Qed.

Section WithType.
Variable t : ety V.

(** The outcome of a call: [b] tells whether it returned. *)
Definition good (b : bool) (d : Z) (X : var -> Prop) s s' : Prop :=
  winv s' /\ bal d s' /\ fr X s s' /\ (b = true \/ e_moves t = true -> e_lost s' = e_lost s) /\ (b = true -> e_mem s' = e_mem s).
Lemma good_refl b d X s : winv s -> bal d s -> good b d X s s.
Proof. intros Hw Hb. split; [exact Hw|]. split; [exact Hb|]. split; [apply fr_refl|auto]. Qed.
Lemma good_trans b d X s1 s2 s3 : good true d X s1 s2 -> good b d X s2 s3 -> good b d X s1 s3.
Proof.
  intros (A & B & C & D & E) (A' & B' & C' & D' & E'). split; [exact A'|]. split; [exact B'|]. split; [eapply fr_trans; eauto|]. split.
  - intros H. rewrite D', D by auto. reflexivity.
  - intros H. rewrite E', E by auto. reflexivity.
Qed.
Lemma good_weak d X s s' : good true d X s s' -> good false d X s s'.
Proof. intros (A & B & C & D & E). split; [exact A|]. split; [exact B|]. split; [exact C|]. split; [auto|discriminate]. Qed.
Lemma good_mono b d (X Y : var -> Prop) s s' : (forall y, X y -> Y y) -> good b d X s s' -> good b d Y s s'.
Proof. intros HXY (A & B & C & D & E); split; [exact A|split; [exact B|split; [eapply fr_mono; eauto|auto]]]. Qed.
Lemma same_good b d X s s' k : winv s -> bal d s -> same s s' -> ghost s s' k [] 0 -> good b (d + k) X s s'.
Proof.
  intros Hw Hb Hs (G1 & G2 & G3). split; [exact (same_winv _ _ Hs Hw)|]. split.
  - destruct Hs as (A & _). unfold bal in *. rewrite A, G2, app_nil_r. lia.
  - split; [apply same_fr, Hs|]. split; [intros _; rewrite G2, app_nil_r; reflexivity|]. intros _; lia.
Qed.
Lemma nop_good b d X s s' : winv s -> bal d s -> nop s s' -> good b d X s s'.
Proof. intros Hw Hb [Hs Hg]. rewrite <- (Z.add_0_r d). apply same_good; assumption. Qed.
Lemma only_good b d X l s s' : winv s -> bal d s -> mine X s l -> only l s s' -> good b d X s s'.
Proof.
  intros Hw Hb Hm [T G]. split; [exact (touch_winv _ _ _ T Hw)|]. split.
  - pose proof (touch_bal _ _ _ _ _ _ _ T Hw Hb G) as H. rewrite zlen_nil in H. replace d with (d + 0 - 0) by lia. exact H.
  - split; [exact (touch_fr _ _ _ _ Hm T)|]. destruct G as (_ & G2 & G3). split; [intros _; rewrite G2, app_nil_r; reflexivity|]. intros _; lia.
Qed.
Lemma env_good b d (X : var -> Prop) s e' : bal d s -> fine (e_heap s) e' (e_next s) ->
  (forall y, ~ X y -> e' !! y = e_env s !! y) -> good b d X s (up_env (fun _ => e') s).
Proof.
  intros Hb Hf He. split; [exact Hf|]. split; [exact Hb|]. split; [|auto].
  intros y Hy. cbn. rewrite He by exact Hy. split; [reflexivity|eauto].
Qed.
Lemma up_env_eq (f : gmap var obj -> gmap var obj) s : up_env f s = up_env (fun _ => f (e_env s)) s.
Proof. reflexivity. Qed.

Definition okobj (o : obj) : Prop := o_ref o = None -> o_off o = 0 /\ o_len o = 0.
Definition unshared s (o : obj) : Prop := forall l c, o_ref o = Some l -> e_heap s !! l = Some c -> e_refs c = 1.
Definition roomy s x (len n : Z) : Prop := exists o l c, e_env s !! x = Some o /\ o_ref o = Some l /\ o_len o = len /\
  e_heap s !! l = Some c /\ e_refs c = 1 /\ o_off o + Z.max n len <= zlen (e_buf c).
Definition stays s x (len : Z) : Prop := exists o, e_env s !! x = Some o /\ okobj o /\ o_len o = len.

Lemma put_good b d s x o o' : winv s -> bal d s -> e_env s !! x = Some o -> o_ref o' = o_ref o -> obj_fine (e_heap s) o' ->
  good b d (eq x) s (up_env <[x := o']> s).
Proof.
  intros Hw Hb Hx Hr Ho. rewrite up_env_eq. apply env_good; [exact Hb|exact (fine_put _ _ _ _ _ _ Hw Hx Hr Ho)|].
  intros y Hy. rewrite lookup_insert_ne by exact Hy. reflexivity.
Qed.
Lemma view_put s x o' : view (up_env <[x := o']> s) x = match o_ref o' with None => Some [] | Some l =>
  match e_heap s !! l with None => None | Some c => Some (zsub (o_off o') (o_len o') (e_buf c)) end end.
Proof. unfold view; cbn. rewrite lookup_insert. reflexivity. Qed.

(** reserve on an unshared array. *)
Lemma reserve_runs x n sc s d o : winv s -> bal d s -> e_env s !! x = Some o -> okobj o -> unshared s o -> 0 <= n ->
  runs (reserve t x n sc) s
    (fun _ s' => good true d (eq x) s s' /\ roomy s' x (o_len o) n /\ view s' x = view s x)
    (fun _ s' => good false d (eq x) s s' /\ stays s' x (o_len o) /\ (e_moves t = true -> view s' x = view s x)).
Proof.
  intros Hw Hb Hx Hok Hu Hn. unfold reserve. eapply runs_step; [apply obj_of_ok, Hx|].
  eapply runs_bind with (P' := fun l s1 => good true d (eq x) s s1 /\ view s1 x = view s x /\ exists o1 c, e_env s1 !! x = Some o1 /\
    o_ref o1 = Some l /\ o_off o1 = o_off o /\ o_len o1 = o_len o /\ e_heap s1 !! l = Some c /\ e_refs c = 1).
  { destruct (o_ref o) as [l|] eqn:Er.
    - apply runs_ret. destruct (proj2 Hw x o Hx l Er) as (c & Hc & _). split; [apply good_refl; assumption|]. split; [reflexivity|].
      exists o, c. rewrite (Hu l c Er Hc). auto 10.
    - destruct (Hok Er) as [Eo El]. eapply runs_bind with (P' := fun _ s' => nop s s').
      { apply attempt_runs; [auto|]. intros _ s' Hs. split; [apply nop_good; assumption|]. destruct Hs as [(A & B & C) _].
        split; [exists o; rewrite B; auto|]. intros _; unfold view; rewrite A, B; reflexivity. }
      cbn beta. intros _ s1 Hs. pose proof (nop_good true d (eq x) s s1 Hw Hb Hs) as G1. destruct G1 as (Hw1 & Hb1 & F1 & L1 & M1).
      destruct Hs as [(A & B & C) _].
      eapply runs_step; [reflexivity|]. eapply runs_step; [reflexivity|]. apply runs_ret.
      assert (e_env s1 !! x = Some o) as Hx1 by (rewrite B; exact Hx).
      assert (e_heap s1 !! e_next s1 = None) as Hnx.
      { destruct (e_heap s1 !! e_next s1) as [c|] eqn:E; [|reflexivity]. pose proof (cf_next _ _ _ _ (proj1 Hw1 _ c E)). lia. }
      rewrite Eo, El. split; [|split].
      + split; [|split; [|split; [|auto]]].
        * apply (fine_new _ _ _ x o Hw1 Hx1 Er).
        * unfold bal, net in *. cbn. rewrite objects_new by exact Hnx. cbn. unfold live_slots. cbn. exact Hb1.
        * intros y Hy. cbn. rewrite lookup_insert_ne by exact Hy. rewrite B. split; [reflexivity|].
          intros oy l c Hoy Hr Hc. exists c. rewrite lookup_insert_ne; [rewrite A; auto|]. intros <-. congruence.
      + unfold view; cbn. rewrite lookup_insert; cbn. rewrite lookup_insert; cbn. rewrite Hx, Er. reflexivity.
      + eexists; exists (ECell [] 1). cbn. rewrite !lookup_insert. cbn. repeat split; try reflexivity; lia. }
  cbn beta. intros l s1 (G1 & V1 & o1 & c & Hx1 & Hr1 & Ho1 & Hl1 & Hc & H1).
  pose proof G1 as (Hw1 & Hb1 & _). destruct (proj2 Hw1 x o1 Hx1 l Hr1) as (c' & Hc' & P1 & P2 & P3).
  assert (c' = c) as -> by congruence. clear Hc'. pose proof (sole_mine s1 x o1 l c Hw1 Hx1 Hr1 Hc H1) as Hm.
  eapply runs_bind; [eapply runs_conseq; [apply (ref_reserve_runs t l n sc (o_off o) (o_len o) s1 c Hw1 Hc Hn); lia| |]|].
  - intros off s2 H; exact H.
  - cbn beta. intros _ s2 (L & m & T & G & Hmv).
    pose proof (touch_winv _ _ _ T Hw1) as Hw2. destruct G as (G2 & G3 & G4).
    split; [|split].
    + eapply good_trans; [exact G1|]. split; [exact Hw2|]. split; [|split].
      * pose proof (touch_bal l s1 s2 d (zlen L) L m T Hw1 Hb1) as H. replace d with (d + zlen L - zlen L) by lia. apply H.
        repeat split; assumption.
      * exact (touch_fr _ _ _ _ Hm T).
      * split; [intros [H|H]; [discriminate|]|discriminate]. destruct (Hmv H) as [_ ->]. rewrite G3, app_nil_r. reflexivity.
    + destruct T as (A & _). exists o1. rewrite A. split; [exact Hx1|]. split; [intros; congruence|exact Hl1].
    + intros H. destruct (Hmv H) as [(A & B & C) _]. rewrite <- V1. unfold view. rewrite A, B. reflexivity.
  - cbn beta. intros off s2 (Sw & Hoff & c2 & Hc2 & Hfit & Hsub).
    pose proof (swell_winv _ _ _ Sw Hw1) as Hw2. pose proof (swell_bal _ _ _ d Sw Hw1 Hb1) as Hb2.
    pose proof (swell_fr _ _ _ _ Hm Sw) as F2. destruct Sw as (A & B & C & cc & bb & Hcc & Hbb & Hle & Hlv & _ & GL & GM).
    assert (e_env s2 !! x = Some o1) as Hx2 by (rewrite A; exact Hx1).
    assert (obj_fine (e_heap s2) (Obj (Some l) off (o_len o) 0)) as Hfine.
    { intros l' Hl'. cbn in Hl'. injection Hl' as <-. exists c2. cbn. split; [exact Hc2|]. lia. }
    pose proof (put_good true d s2 x o1 (Obj (Some l) off (o_len o) 0) Hw2 Hb2 Hx2 (eq_sym Hr1) Hfine) as G3.
    unfold runs, put_obj, upd. split; [|split].
    + eapply good_trans; [exact G1|]. eapply good_trans; [|exact G3]. split; [exact Hw2|]. split; [exact Hb2|]. split; [exact F2|].
      split; [intros _; rewrite GL, app_nil_r; reflexivity|]. intros _; lia.
    + exists (Obj (Some l) off (o_len o) 0), l, c2. cbn. rewrite lookup_insert. repeat split; try reflexivity; [exact Hc2| |exact Hfit].
      assert (cc = c) as -> by congruence. assert (c2 = ECell bb (e_refs c)) as -> by congruence. exact H1.
    + rewrite view_put; cbn. rewrite Hc2, Hsub. rewrite <- V1. unfold view. rewrite Hx1, Hr1, Hc, Ho1, Hl1. reflexivity.
Qed.

Lemma detach_step s x o l c d : winv s -> bal d s -> e_env s !! x = Some o -> o_ref o = Some l -> e_heap s !! l = Some c ->
  1 < e_refs c -> exists s1, detach x s = Ok tt s1 /\ good true d (eq x) s s1 /\ e_env s1 !! x = Some obj_empty /\
    exists c1 y oy, e_heap s1 !! l = Some c1 /\ e_buf c1 = e_buf c /\ x <> y /\ e_env s1 !! y = Some oy /\ o_ref oy = Some l.
Proof.
  intros Hw Hb Hx Hr Hc H1.
  eexists. split; [|split; [|split]].
  - unfold detach, bind. rewrite (obj_of_ok _ _ _ Hx). unfold add_ref, bind. rewrite Hr, (cell_of_ok _ _ _ Hc). reflexivity.
  - split; [|split; [|split; [|auto]]].
    + unfold winv; cbn. rewrite <- (insert_delete_insert (e_env s)). apply fine_add_none; [|apply lookup_delete|reflexivity].
      exact (fine_drop _ _ _ _ _ _ _ Hw Hx Hr Hc H1).
    + unfold bal, net in *; cbn. rewrite (objects_update _ _ _ _ Hc). cbn. lia.
    + intros y Hy; cbn. rewrite lookup_insert_ne by exact Hy. split; [reflexivity|]. intros oy l' c' Hoy Hry Hc'.
      destruct (decide (l' = l)) as [->|Hn].
      * eexists; rewrite lookup_insert. split; [reflexivity|]. cbn. congruence.
      * exists c'. rewrite lookup_insert_ne by congruence. auto.
  - cbn. apply lookup_insert.
  - pose proof (cf_refs _ _ _ _ (proj1 Hw l c Hc)) as Hcount.
    pose proof (count_delete l (e_env s) x o Hx) as Hd. rewrite ind_some in Hd by exact Hr.
    destruct (count_witness l (delete x (e_env s))) as (y & oy & Hy & Hry); [lia|]. apply lookup_delete_Some in Hy as [Hn Hy].
    eexists; exists y, oy. cbn. rewrite lookup_insert. split; [reflexivity|]. split; [reflexivity|]. split; [exact Hn|].
    rewrite lookup_insert_ne by exact Hn. auto.
Qed.

Lemma at_place_runs x pos n k s o l (P : unit -> St -> Prop) (E : exn -> St -> Prop) : e_env s !! x = Some o -> o_ref o = Some l ->
  (0 < n -> runs (k l (o_off o + pos)) s P E) -> (n <= 0 -> P tt s) -> runs (at_place x pos n k) s P E.
Proof.
  intros Hx Hr Hk H0. unfold at_place. destruct (n <=? 0) eqn:En; [apply runs_ret, H0; lia|].
  eapply runs_step; [unfold place, bind; rewrite (obj_of_ok _ _ _ Hx), Hr; reflexivity|]. cbn [fst snd]. apply Hk; lia.
Qed.
Lemma roomy_touch l s s' x len n : touch l s s' -> roomy s x len n -> roomy s' x len n.
Proof.
  intros T (o & l0 & c & Hx & Hr & Hl & Hc & H1 & Hf). destruct (touch_any _ _ _ _ _ T Hc) as (c' & Hc' & Hz & He).
  exists o, l0, c'. destruct T as (A & _). rewrite A, Hz, He. auto 10.
Qed.
Lemma roomy_ok s x len n : winv s -> roomy s x len n -> exists o l c, e_env s !! x = Some o /\ o_ref o = Some l /\ o_len o = len /\
  e_heap s !! l = Some c /\ 0 <= o_off o /\ 0 <= len /\ o_off o + Z.max n len <= zlen (e_buf c) /\ mine (eq x) s l.
Proof.
  intros Hw (o & l & c & Hx & Hr & Hl & Hc & H1 & Hf). destruct (proj2 Hw x o Hx l Hr) as (c' & Hc' & P1 & P2 & P3).
  assert (c' = c) as -> by congruence. exists o, l, c. repeat split; auto; [lia|]. exact (sole_mine s x o l c Hw Hx Hr Hc H1).
Qed.
Lemma roomy_usable s x len n : roomy s x len n -> usable s x.
Proof. intros (o & l & c & Hx & Hr & _). exists o. split; [exact Hx|]. congruence. Qed.
Lemma stays_usable s x len : stays s x len -> usable s x.
Proof. intros (o & Hx & Ho & _). exists o. auto. Qed.
Lemma put_len_runs s x len n m d : winv s -> bal d s -> roomy s x len n -> 0 <= m <= Z.max n len ->
  exists s', put_len x m s = Ok tt s' /\ good true d (eq x) s s' /\ roomy s' x m n.
Proof.
  intros Hw Hb Hr Hm. destruct (roomy_ok s x len n Hw Hr) as (o & l & c & Hx & Hrf & Hl & Hc & H0 & H0' & Hf & Hmine).
  eexists. split; [unfold put_len, bind; rewrite (obj_of_ok _ _ _ Hx); reflexivity|].
  split.
  - apply put_good with o; auto. intros l' Hl'. cbn in Hl'. exists c. cbn. split; [congruence|]. lia.
  - destruct Hr as (o' & l' & c' & Hx' & Hr' & _ & Hc' & H1 & _). assert (o' = o) as -> by congruence. assert (l' = l) as -> by congruence.
    assert (c' = c) as -> by congruence.
    exists (Obj (o_ref o) (o_off o) m 0), l, c. cbn. rewrite lookup_insert. repeat split; auto; lia.
Qed.

(** Copy on write. *)
Lemma ecow_runs x n s d o : winv s -> bal d s -> e_env s !! x = Some o -> ~ unshared s o -> o_len o <= n ->
  runs (ecow t x n) s
    (fun _ s' => good true d (eq x) s s' /\ roomy s' x (o_len o) n)
    (fun _ s' => good false d (eq x) s s' /\ usable s' x).
Proof.
  intros Hw Hb Hx Hsh Hn.
  assert (exists l c, o_ref o = Some l /\ e_heap s !! l = Some c /\ 1 < e_refs c) as (l & c & Hr & Hc & H1).
  { destruct (o_ref o) as [l|] eqn:Er; [|contradiction Hsh; intros ? ? ?; congruence].
    destruct (proj2 Hw x o Hx l Er) as (c & Hc & _). exists l, c. repeat split; auto.
    pose proof (cf_pos _ _ _ _ (proj1 Hw l c Hc)). destruct (decide (e_refs c = 1)); [|lia].
    contradiction Hsh. intros l' c' ? ?. assert (l' = l) as -> by congruence. assert (c' = c) as -> by congruence. assumption. }
  destruct (proj2 Hw x o Hx l Hr) as (c' & Hc' & P1 & P2 & P3). assert (c' = c) as -> by congruence. clear Hc'.
  unfold ecow. eapply runs_step; [apply obj_of_ok, Hx|].
  destruct (detach_step s x o l c d Hw Hb Hx Hr Hc H1) as (s1 & E1 & G1 & Hx1 & c1 & y & oy & Hc1 & Eb & Hxy & Hy & Hry).
  eapply runs_step; [exact E1|]. pose proof G1 as (Hw1 & Hb1 & F1 & _).
  eapply runs_bind with (P' := fun _ s2 => good true d (eq x) s s2 /\ roomy s2 x 0 n /\ exists c2, e_heap s2 !! l = Some c2 /\ e_buf c2 = e_buf c).
  { eapply runs_conseq; [apply (reserve_runs x n (e_grow t) s1 d obj_empty Hw1 Hb1 Hx1); [intros _; auto|intros ? ? ?; discriminate|lia]| |]; cbn beta.
    - intros _ s2 (G2 & R2 & _). split; [eapply good_trans; eassumption|]. split; [exact R2|].
      destruct G2 as (_ & _ & F2 & _). destruct (F2 y Hxy) as [_ F]. destruct (F oy l c1 Hy Hry Hc1) as (c2 & Hc2 & E2).
      exists c2. split; congruence.
    - intros _ s2 (G2 & R2 & _). split; [eapply good_trans; eassumption|]. exact (stays_usable _ _ _ R2). }
  cbn beta. intros _ s2 (G2 & R2 & c2 & Hc2 & Eb2). pose proof G2 as (Hw2 & Hb2 & _).
  rewrite Z.min_l by exact Hn.
  destruct (put_len_runs s2 x 0 n (o_len o) d Hw2 Hb2 R2) as (s3 & E3 & G3 & R3); [lia|].
  eapply runs_step; [exact E3|]. pose proof G3 as (Hw3 & Hb3 & _). pose proof (good_trans _ _ _ _ _ _ G2 G3) as G23.
  assert (exists c3, e_heap s3 !! l = Some c3 /\ e_buf c3 = e_buf c) as (c3 & Hc3 & Eb3).
  { exists c2. unfold put_len, bind in E3. destruct (obj_of x s2) as [a s2'| | | |] eqn:Eo; try discriminate.
    unfold obj_of in Eo. destruct (e_env s2 !! x); [|discriminate]. injection Eo as <- <-. cbn in E3. injection E3 as <-. cbn. auto. }
  destruct (roomy_ok _ _ _ _ Hw3 R3) as (o3 & l3 & cc & Hx3 & Hr3 & Hl3 & Hcc & Q1 & Q2 & Q3 & Hm3).
  eapply at_place_runs; [exact Hx3|exact Hr3| |].
  - intros Hpos. rewrite Hr. eapply runs_conseq.
    + apply (copy_up_runs t (Z.to_nat (o_len o)) l (o_off o) l3 (o_off o3 + 0) s3 c3 cc Hw3 Hc3 Hcc); try lia. rewrite Eb3; lia.
    + cbn beta. intros _ s4 O4. split; [eapply good_trans; [exact G23|exact (only_good _ _ _ _ _ _ Hw3 Hb3 Hm3 O4)]|].
      exact (roomy_touch _ _ _ _ _ _ (proj1 O4) R3).
    + cbn beta. intros _ s4 O4. split; [eapply good_trans; [exact G23|exact (only_good _ _ _ _ _ _ Hw3 Hb3 Hm3 O4)]|].
      exact (roomy_usable _ _ _ _ (roomy_touch _ _ _ _ _ _ (proj1 O4) R3)).
  - intros _. split; [exact G23|exact R3].
Qed.

Lemma shared_eq s x o : winv s -> e_env s !! x = Some o -> exists b, shared x s = Ok b s /\ (b = false -> unshared s o) /\ (b = true -> ~ unshared s o).
Proof.
  intros Hw Hx. unfold shared, bind. rewrite (obj_of_ok _ _ _ Hx). destruct (o_ref o) as [l|] eqn:Er.
  - destruct (proj2 Hw x o Hx l Er) as (c & Hc & _). rewrite (cell_of_ok _ _ _ Hc). eexists; split; [reflexivity|].
    pose proof (cf_pos _ _ _ _ (proj1 Hw l c Hc)). split.
    + intros Hb l' c' Hl Hc'. assert (l' = l) as -> by congruence. assert (c' = c) as -> by congruence. lia.
    + intros Hb Hu. specialize (Hu l c Er Hc). lia.
  - exists false. split; [reflexivity|]. split; [intros _ l c H; congruence|discriminate].
Qed.
Lemma modify_runs x n s d o : winv s -> bal d s -> e_env s !! x = Some o -> okobj o -> 0 <= n -> o_len o <= n ->
  runs (modify t x n) s
    (fun _ s' => good true d (eq x) s s' /\ roomy s' x (o_len o) n /\ (unshared s o -> view s' x = view s x))
    (fun _ s' => good false d (eq x) s s' /\ usable s' x /\ (unshared s o -> e_moves t = true -> view s' x = view s x)).
Proof.
  intros Hw Hb Hx Hok H0 Hn. unfold modify. destruct (shared_eq s x o Hw Hx) as (b & Es & Hf & Ht). eapply runs_step; [exact Es|].
  destruct b.
  - eapply runs_conseq; [apply (ecow_runs x n s d o Hw Hb Hx (Ht eq_refl) Hn)| |]; cbn beta.
    + intros _ s' (G & R). split; [exact G|]. split; [exact R|]. intros Hu; contradiction (Ht eq_refl Hu).
    + intros _ s' (G & R). split; [exact G|]. split; [exact R|]. intros Hu; contradiction (Ht eq_refl Hu).
  - eapply runs_conseq; [apply (reserve_runs x n (e_grow t) s d o Hw Hb Hx Hok (Hf eq_refl) H0)| |]; cbn beta.
    + intros _ s' (G & R & Hv). auto.
    + intros _ s' (G & R & Hv). split; [exact G|]. split; [exact (stays_usable _ _ _ R)|auto].
Qed.
End WithType.
End LO.
