(** Element lifetimes: whole programs. *)
From Verif Require Import RcaInv LifeModel LifeSpec LifeInv LifeStep LifeOps LifeCalls.
From Coq Require Import ZifyBool.
Open Scope Z_scope.

Section LM.
Context {V : Type}.
Implicit Types (s : estate V) (x y : var) (l : loc) (c : ecell V) (o : eop (V := V)).
Notation St := (estate V).

(** Filling, when nothing throws. *)
Section Filling.
Variable t : ety V.
Hypothesis quiet : forall k, e_fails t k = false.
Notation good := (good t).

Lemma quiet_attempt s : exists s', attempt t s = Ok tt s' /\ nop s s'.
Proof.
  unfold attempt. rewrite quiet. eexists. split; [reflexivity|]. split; [repeat split|]. unfold ghost, net; cbn. rewrite app_nil_r. repeat split; lia.
Qed.
Lemma fill_over_ok n v : forall l i done s c, winv s -> e_heap s !! l = Some c -> 0 <= i -> i + Z.of_nat n <= zlen (e_buf c) ->
  exists s' L, fill_over t n l i v done s = Ok tt s' /\ zlen L = Z.of_nat n /\ touch l s s' /\ ghost s s' (Z.of_nat n) L 0.
Proof.
  induction n as [|n IH]; intros l i done s c Hw Hc Hi Hn; cbn [fill_over].
  - exists s, []. split; [reflexivity|]. split; [reflexivity|]. split; [apply touch_refl|apply ghost_refl].
  - destruct (quiet_attempt s) as (s1 & E1 & N1). rewrite E1. destruct N1 as [S1 G1].
    pose proof (same_winv _ _ S1 Hw) as Hw1. assert (e_heap s1 !! l = Some c) as Hc1 by (destruct S1 as (-> & _); exact Hc).
    destruct (construct_ok s1 l c i v Hw1 Hc1) as (s2 & w & Hv & E2 & T2 & G2 & Hc2); [lia|].
    unfold bind. rewrite E2. pose proof (touch_winv _ _ _ T2 Hw1) as Hw2.
    destruct (IH l (i + 1) (S done) s2 _ Hw2 Hc2) as (s3 & L & E3 & HL & T3 & G3); [lia| |].
    { cbn. rewrite zlen_zupd; [lia|lia|]. rewrite zlen_cons, zlen_nil; lia. }
    exists s3, (w :: L). split; [exact E3|]. split; [rewrite zlen_cons; lia|]. split.
    + eapply touch_trans; [apply same_touch, S1|]. eapply touch_trans; eassumption.
    + pose proof (ghost_trans _ _ _ _ _ _ _ _ _ G1 (ghost_trans _ _ _ _ _ _ _ _ _ G2 G3)) as G.
      eapply ghost_eq; [exact G| | |]; try reflexivity; lia.
Qed.

(** The outcome of filling: [k] elements are overwritten without being destroyed. *)
Definition filled (d k : Z) x (len : Z) s s' : Prop :=
  winv s' /\ bal d s' /\ fr (eq x) s s' /\ e_mem s' = e_mem s /\ stays s' x len /\ exists L, e_lost s' = e_lost s ++ L /\ zlen L = k.
Lemma filled_good d k x len s s1 s2 : good true d (eq x) s s1 -> filled d k x len s1 s2 -> filled d k x len s s2.
Proof.
  intros (_ & _ & F & L & M) (W & B & F' & M' & S & LL & HL & Hk). split; [exact W|]. split; [exact B|]. split; [eapply fr_trans; eauto|].
  split; [rewrite M'; auto|]. split; [exact S|]. exists LL. rewrite HL, L by auto. auto.
Qed.
Lemma resize_body_runs d x len n v s : winv s -> bal d s -> stays s x len -> 0 <= n ->
  runs (let* a := obj_of x in
        if n <? o_len a then put_len x n
        else modify t x n ;;;
          (let* a := obj_of x in
           at_place x (o_len a) (n - o_len a) (fun l i => fill_over t (Z.to_nat (n - o_len a)) l i (Some v) 0) ;;;
           put_len x n)) s
    (fun _ s' => filled d (Z.max 0 (n - len)) x n s s') (fun _ s' => good false d (eq x) s s' /\ usable s' x).
Proof.
  intros Hw Hb Hs Hn. pose proof Hs as (a & Hx & Ha & Hl). pose proof (stays_nonneg _ _ _ Hw Hs) as H0.
  eapply runs_step; [apply obj_of_ok, Hx|]. rewrite Hl. destruct (n <? len) eqn:E.
  - rewrite Z.max_l by lia. pose proof (eresize_calls t d x len n s Hw Hb Hs Hn) as H. unfold eresize, calls in H.
    assert (runs (put_len x n) s (fun _ s' => good true d (eq x) s s' /\ stays s' x n) (fun _ s' => good false d (eq x) s s' /\ usable s' x)) as H'.
    { unfold runs, bind at 1 in H. rewrite (obj_of_ok _ _ _ Hx), Hl, E in H. exact H. }
    eapply runs_conseq; [exact H'| |]; cbn beta; [|auto]. intros _ s' ((W & B & F & L & M) & S).
    split; [exact W|]. split; [exact B|]. split; [exact F|]. split; [auto|]. split; [exact S|]. exists []. rewrite app_nil_r. split; [auto|reflexivity].
  - rewrite Z.max_r by lia. eapply runs_bind with (P' := fun _ s' => good true d (eq x) s s' /\ roomy s' x len n).
    { eapply runs_conseq; [apply (modify_runs t x n s d a Hw Hb Hx Ha); lia| |]; cbn beta.
      - intros _ s' (G & R & _). rewrite Hl in R. auto.
      - intros _ s' (G & R & _). auto. }
    cbn beta. intros _ s1 (G1 & R1). pose proof G1 as (Hw1 & Hb1 & _).
    destruct (roomy_ok _ _ _ _ Hw1 R1) as (a1 & l & c & Hx1 & Hr1 & Hl1 & Hc1 & P1 & P2 & P3 & Hm).
    eapply runs_step; [apply obj_of_ok, Hx1|]. rewrite Hl1.
    assert (exists s2 L, at_place x len (n - len) (fun l0 i => fill_over t (Z.to_nat (n - len)) l0 i (Some v) 0) s1 = Ok tt s2 /\
      zlen L = n - len /\ touch l s1 s2 /\ ghost s1 s2 (n - len) L 0) as (s2 & L & E2 & HL & T2 & G2).
    { unfold at_place. destruct (n - len <=? 0) eqn:E0.
      - exists s1, []. split; [reflexivity|]. split; [rewrite zlen_nil; lia|]. split; [apply touch_refl|]. replace (n - len) with 0 by lia. apply ghost_refl.
      - unfold place, bind. rewrite (obj_of_ok _ _ _ Hx1), Hr1. cbn [ret fst snd].
        destruct (fill_over_ok (Z.to_nat (n - len)) (Some v) l (o_off a1 + len) 0 s1 c Hw1 Hc1) as (s2 & L & E2 & HL & T2 & G2); [lia|lia|].
        rewrite Z2Nat.id in * by lia. exists s2, L. auto. }
    eapply runs_step; [exact E2|]. pose proof (touch_winv _ _ _ T2 Hw1) as Hw2.
    pose proof (touch_bal l s1 s2 d (n - len) L 0 T2 Hw1 Hb1 G2) as Hb2. replace (d + (n - len) - zlen L) with d in Hb2 by lia.
    pose proof (roomy_touch _ _ _ _ _ _ T2 R1) as R2.
    destruct (put_len_runs t s2 x len n n d Hw2 Hb2 R2) as (s3 & E3 & G3 & R3); [lia|]. unfold runs. rewrite E3.
    apply (filled_good _ _ _ _ s s1 s3 G1). destruct G2 as (_ & GL & GM). destruct G3 as (W3 & B3 & F3 & L3 & M3).
    split; [exact W3|]. split; [exact B3|]. split; [eapply fr_trans; [exact (touch_fr _ _ _ _ Hm T2)|exact F3]|].
    split; [rewrite M3 by reflexivity; lia|]. split; [exact (roomy_stays _ _ _ _ R3)|]. exists L. rewrite L3 by auto. auto.
Qed.
Lemma temp_in d s s' : winv s -> bal d s -> same s s' -> ghost s s' 1 [] 0 -> good true (d + 1) (fun _ => False) s s' /\ winv s' /\ bal (d + 1) s'.
Proof. intros Hw Hb S G. pose proof (same_good t true d (fun _ => False) s s' 1 Hw Hb S G) as H. split; [exact H|]. split; apply H. Qed.
Lemma temp_filled d k x len s s' s2 : same s s' -> ghost s s' 1 [] 0 -> filled (d + 1) k x len s' s2 -> filled d k x len s (count_up 0 1 [] 0 s2).
Proof.
  intros S (G1 & G2 & G3) (W & B & F & M & St' & L & HL & Hk). split; [exact W|]. split; [|split; [|split; [|split]]].
  - unfold bal, net in *; cbn. rewrite app_nil_r. lia.
  - eapply fr_trans; [apply same_fr, S|exact F].
  - cbn. lia.
  - exact St'.
  - exists L. cbn. rewrite app_nil_r, HL, G2, app_nil_r. auto.
Qed.
Lemma temp_good b d X s s' s2 : same s s' -> ghost s s' 1 [] 0 -> good b (d + 1) X s' s2 -> good b d X s (count_up 0 1 [] 0 s2).
Proof.
  intros S (G1 & G2 & G3) (W & B & F & L & M). split; [exact W|]. split; [|split; [|split]].
  - unfold bal, net in *; cbn. rewrite app_nil_r. lia.
  - eapply fr_trans; [apply same_fr, S|exact F].
  - cbn. intros H. rewrite app_nil_r, L, G2, app_nil_r by exact H. reflexivity.
  - cbn. intros H. rewrite M by exact H. lia.
Qed.
Lemma eresize_fill_runs d x len n v s : winv s -> bal d s -> stays s x len -> 0 <= n ->
  runs (eresize_fill t x n v) s (fun _ s' => filled d (Z.max 0 (n - len)) x n s s') (fun _ s' => good false d (eq x) s s' /\ usable s' x).
Proof.
  intros Hw Hb Hs Hn. unfold eresize_fill. apply with_temp_runs.
  - intros s' N e. split; [apply nop_good; assumption|]. destruct Hs as (a & Hx & Ha & _). exists a. destruct N as [(_ & -> & _) _]. auto.
  - intros s' S G. destruct (temp_in d s s' Hw Hb S G) as (_ & Hw' & Hb').
    assert (stays s' x len) as Hs' by (destruct Hs as (a & Ha); exists a; destruct S as (_ & -> & _); exact Ha).
    eapply runs_conseq; [apply (resize_body_runs (d + 1) x len n v s' Hw' Hb' Hs' Hn)| |]; cbn beta.
    + intros _ s2 H. exact (temp_filled _ _ _ _ _ _ _ S G H).
    + intros _ s2 (H & U). split; [exact (temp_good _ _ _ _ _ _ S G H)|exact U].
Qed.
Lemma ctor_fill_runs x n v s : winv s -> bal 0 s -> unborn s x -> 0 <= n ->
  runs (eexec t (ECtorFill x n v)) s (fun _ s' => filled 0 n x n s s') (fun _ s' => good false 0 (eq x) s s' /\ gone s' x).
Proof.
  intros Hw Hb Hx Hn. cbn [eexec]. apply with_temp_runs.
  - intros s' N e. split; [apply nop_good; assumption|]. unfold gone. destruct N as [(_ & -> & _) _]. exact Hx.
  - intros s' S G. destruct (temp_in 0 s s' Hw Hb S G) as (_ & Hw' & Hb').
    assert (unborn s' x) as Hx' by (unfold unborn; destruct S as (_ & -> & _); exact Hx).
    destruct (start_good t (0 + 1) x s' Hw' Hb' Hx') as (s1 & E1 & G1 & Hx1). eapply runs_step; [exact E1|].
    pose proof G1 as (Hw1 & Hb1 & _).
    assert (stays s1 x 0) as Hs1 by (exists obj_empty; repeat split; auto).
    pose proof (eresize_fill_runs (0 + 1) x 0 n v s1 Hw1 Hb1 Hs1 Hn) as H. unfold runs, body in *.
    destruct (eresize_fill t x n v s1) as [[] s2|e2 s2| | |]; try contradiction.
    + apply (temp_filled _ _ _ _ _ _ _ S G). replace n with (Z.max 0 (n - 0)) at 1 by lia. exact (filled_good _ _ _ _ _ _ _ G1 H).
    + destruct H as (H & a & Ha & _). destruct (end_obj_ok t s2 x (0 + 1)) as (s3 & E3 & G3 & U3); [apply H|apply H|exists a; exact Ha|].
      unfold bind. rewrite E3. cbn. split; [|exact U3]. apply (temp_good _ _ _ _ _ _ S G).
      eapply good_trans; [exact G1|]. exact (good_after t _ _ _ _ _ H G3).
Qed.
End Filling.

Section Main.
Variable t : ety V.
Notation good := (good t).

Definition kept (b : bool) o s s' : Prop :=
  winv s' /\ bal 0 s' /\ fr (fun y => In y (touches o)) s s' /\
  ((b = true /\ fills o = false) \/ (b = false /\ e_moves t = true) -> e_lost s' = e_lost s) /\
  (b = true -> e_mem s' = e_mem s) /\ settles b o s'.
Lemma good_kept b o (X : var -> Prop) s s' : (forall y, X y -> In y (touches o)) -> good b 0 X s s' -> settles b o s' -> kept b o s s'.
Proof.
  intros HX (W & B & F & L & M) S. split; [exact W|]. split; [exact B|]. split; [eapply fr_mono; eauto|]. split; [|auto].
  intros [[-> _]|[-> H]]; auto.
Qed.
Lemma calls_kept o x len s : In x (touches o) -> (forall b s', usable s' x -> settles b o s') ->
  calls t 0 x len (eexec t o) s -> runs (eexec t o) s (fun _ s' => kept true o s s') (fun _ s' => kept false o s s').
Proof.
  intros Hin Hset H. eapply runs_conseq; [exact H| |]; cbn beta.
  - intros _ s' (G & S). eapply good_kept; [|exact G|apply Hset; exact (stays_usable _ _ _ S)]. intros y <-; exact Hin.
  - intros _ s' (G & S). eapply good_kept; [|exact G|apply Hset; exact S]. intros y <-; exact Hin.
Qed.
Lemma usable_stays s x : usable s x -> exists len, stays s x len.
Proof. intros (a & Hx & Ha). exists (o_len a), a. auto. Qed.
Lemma usable_stays_len s x P : usable s x -> len_is s x P -> exists len, stays s x len /\ P len.
Proof. intros (a & Hx & Ha) H. exists (o_len a). split; [exists a; auto|exact (H a Hx)]. Qed.
Lemma usable_alive s x : usable s x -> alive s x.
Proof. intros (a & Hx & _). exists a; exact Hx. Qed.
Lemma ok_kept o s s' : eexec t o s = Ok tt s' -> kept true o s s' ->
  runs (eexec t o) s (fun _ s' => kept true o s s') (fun _ s' => kept false o s s').
Proof. intros E H. unfold runs. rewrite E. exact H. Qed.

Lemma step_kept o s : winv s -> bal 0 s -> proper t o s ->
  runs (eexec t o) s (fun _ s' => kept true o s s') (fun _ s' => kept false o s s').
Proof.
  intros Hw Hb Hp. destruct o as [x|x n|x n v|x vs|x y|x y|x|x y|x y|x y|x vs|x|x n|x n|x n v|x a n|x pos v|x pos y|x pos vs|x pos v|x pos v|x pos y|x|x]; cbn [proper] in Hp.
  - destruct (start_good t 0 x s Hw Hb Hp) as (s1 & E1 & G1 & Hx1). cbn [eexec]. unfold runs. rewrite E1.
    apply (good_kept _ _ (eq x)); [intros y <-; left; reflexivity|exact G1|]. exists obj_empty; auto.
  - destruct Hp as [Hx Hn]. destruct (start_good t 0 x s Hw Hb Hx) as (s1 & E1 & G1 & Hx1). cbn [eexec]. eapply runs_step; [exact E1|].
    assert (calls t 0 x 0 (if n =? 0 then ret tt else reserve t x n (fun z => z)) s1) as H.
    { destruct (n =? 0).
      - apply runs_ret. split; [apply good_refl; apply G1|]. exists obj_empty; repeat split; auto.
      - apply (reserve_calls t 0 x n _ obj_empty); auto; try apply G1; [intros _; auto|intros ? ? ?; discriminate]. }
    eapply runs_conseq; [exact (body_runs t 0 x _ s1 0 H)| |]; cbn beta.
    + intros _ s' (G & U). apply (good_kept _ _ (eq x)); [intros y <-; left; reflexivity|eapply good_trans; eassumption|exact U].
    + intros _ s' (G & U). apply (good_kept _ _ (eq x)); [intros y <-; left; reflexivity|eapply good_trans; eassumption|exact U].
  - destruct Hp as (Hx & Hn & Hu). unfold runs. rewrite Hu.
    pose proof (ctor_fill_runs (never t) (fun _ => eq_refl) x n v s Hw Hb Hx Hn) as H. unfold runs in H.
    destruct (eexec (never t) (ECtorFill x n v) s) as [[] s'|e s'| | |]; try contradiction.
    + destruct H as (W & B & F & M & S & L & HL & Hk). split; [exact W|]. split; [exact B|]. split; [eapply fr_mono; [|exact F]; intros y <-; left; reflexivity|].
      split; [intros [[_ H]|[H _]]; discriminate|]. split; [auto|exact (stays_usable _ _ _ S)].
    + destruct H as ((W & B & F & L & M) & U). split; [exact W|]. split; [exact B|]. split; [eapply fr_mono; [|exact F]; intros y <-; left; reflexivity|].
      split; [intros [[H _]|[_ H]]; [discriminate|auto]|]. split; [discriminate|exact U].
  - destruct (start_good t 0 x s Hw Hb Hp) as (s1 & E1 & G1 & Hx1). cbn [eexec]. eapply runs_step; [exact E1|]. pose proof G1 as (Hw1 & Hb1 & _).
    assert (calls t 0 x (zlen vs) ((if zlen vs =? 0 then ret tt else reserve t x (zlen vs) (fun z => z)) ;;; fill_list t x vs) s1) as H.
    { destruct (zlen vs =? 0) eqn:E.
      - unfold calls. eapply runs_step; [reflexivity|]. unfold fill_list, at_place. assert ((zlen vs <=? 0) = true) as -> by lia.
        eapply runs_step; [reflexivity|]. unfold put_len. eapply runs_step; [apply obj_of_ok, Hx1|]. unfold put_obj. apply runs_upd.
        replace (zlen vs) with 0 by lia. split.
        + apply (put_good t) with obj_empty; auto. intros l Hr; discriminate.
        + eexists. cbn. rewrite lookup_insert. split; [reflexivity|]. split; [intros _; auto|reflexivity].
      - apply (calls_reserve t 0 x _ _ obj_empty); auto; [intros _; auto|intros ? ? ?; discriminate|apply zlen_nonneg|].
        intros s2 Hw2 Hb2 R2. apply fill_list_calls; assumption. }
    eapply runs_conseq; [exact (body_runs t 0 x _ s1 _ H)| |]; cbn beta.
    + intros _ s' (G & U). apply (good_kept _ _ (eq x)); [intros y <-; left; reflexivity|eapply good_trans; eassumption|exact U].
    + intros _ s' (G & U). apply (good_kept _ _ (eq x)); [intros y <-; left; reflexivity|eapply good_trans; eassumption|exact U].
  - destruct Hp as (Hx & a & Hy & Ha). cbn [eexec]. eapply runs_step; [apply obj_of_ok, Hy|].
    eapply runs_step; [unfold start_obj; unfold unborn in Hx; rewrite Hx; reflexivity|]. unfold add_ref. destruct (o_ref a) as [l|] eqn:Er.
    + destruct (proj2 Hw y a Hy l Er) as (c & Hc & _).
      eapply runs_step; [unfold bind; rewrite (cell_of_ok _ _ _ (Hc : e_heap (up_env <[x := a]> s) !! l = Some c)); reflexivity|]. apply runs_ret.
      split; [exact (fine_add _ _ _ x a l c Hw Hx (proj2 Hw y a Hy) Er Hc)|]. split; [|split; [|split; [|split]]]; cbn; auto.
      * unfold bal, net in *; cbn. rewrite (objects_update _ _ _ _ Hc). cbn. lia.
      * intros z Hz. assert (z <> x) as Hzx by (intros ->; apply Hz; left; reflexivity). cbn. rewrite lookup_insert_ne by congruence.
        split; [reflexivity|]. intros oz l' c' Hoz Hr Hc'. destruct (decide (l' = l)) as [->|Hn].
        -- eexists; rewrite lookup_insert. split; [reflexivity|]. cbn; congruence.
        -- exists c'. rewrite lookup_insert_ne by congruence. auto.
      * exists a. cbn. rewrite lookup_insert. split; [reflexivity|congruence].
    + eapply runs_step; [reflexivity|]. apply runs_ret. apply (good_kept _ _ (eq x)); [intros z <-; left; reflexivity| |].
      * unfold put_obj. rewrite up_env_eq. apply env_good; [exact Hb|exact (fine_add_none _ _ _ _ _ Hw Hx Er)|].
        intros z Hz. rewrite lookup_insert_ne by exact Hz. reflexivity.
      * exists a. cbn. rewrite lookup_insert, Er. auto.
  - destruct Hp as (Hx & a & Hy & Ha). cbn [eexec]. eapply runs_step; [apply obj_of_ok, Hy|].
    eapply runs_step; [unfold start_obj; unfold unborn in Hx; rewrite Hx; reflexivity|]. unfold put_obj. apply runs_upd.
    assert (x <> y) as Hxy by (unfold unborn in Hx; congruence).
    apply (good_kept _ _ (fun z => z = x \/ z = y)); [intros z [-> | ->]; cbn; auto| |].
    + match goal with |- LifeOps.good _ _ _ _ _ ?s' => change s' with (up_env (fun _ => <[y := Obj None (o_off a) (o_len a) 0]> (<[x := a]> (e_env s))) s) end.
      apply env_good; [exact Hb|exact (fine_transfer _ _ _ _ _ _ _ _ _ Hw Hx Hy)|].
      intros z Hz. rewrite !lookup_insert_ne by (intros ->; tauto). reflexivity.
    + exists a. cbn. rewrite lookup_insert_ne by congruence. rewrite lookup_insert. auto.
  - destruct (end_obj_ok t s x 0 Hw Hb Hp) as (s' & E & G & U). cbn [eexec]. unfold runs. rewrite E.
    apply (good_kept _ _ (eq x)); [intros z <-; left; reflexivity|exact G|exact U].
  - destruct Hp as [Hx Hy]. destruct (usable_stays s y Hy) as (len & Hy'). apply (calls_kept _ x len); [left; reflexivity|auto|].
    apply eassign_calls; assumption.
  - destruct Hp as [Hx Hy]. destruct (eassign_move_good t 0 x y s Hw Hb Hx Hy) as (s' & E & G & U). cbn [eexec]. unfold runs. rewrite E.
    apply (good_kept _ _ (fun z => z = x \/ z = y)); [intros z [-> | ->]; cbn; auto|exact G|exact U].
  - destruct Hp as [[ox Hx] [oy Hy]]. cbn [eexec]. eapply runs_step; [apply obj_of_ok, Hx|]. eapply runs_step; [apply obj_of_ok, Hy|].
    eapply runs_step; [reflexivity|]. unfold put_obj. apply runs_upd. apply (good_kept _ _ (fun z => z = x \/ z = y)); [intros z [-> | ->]; cbn; auto| |].
    + match goal with |- LifeOps.good _ _ _ _ _ ?s' => change s' with (up_env (fun _ => <[y := ox]> (<[x := oy]> (e_env s))) s) end.
      apply env_good; [exact Hb|exact (fine_swap _ _ _ _ _ _ _ Hw Hx Hy)|].
      intros z Hz. rewrite !lookup_insert_ne by (intros ->; tauto). reflexivity.
    + split.
      * unfold alive; cbn. destruct (decide (y = x)) as [->|Hn]; [rewrite lookup_insert; eauto|rewrite lookup_insert_ne, lookup_insert by exact Hn; eauto].
      * unfold alive; cbn. rewrite lookup_insert. eauto.
  - apply (calls_kept _ x (zlen vs)); [left; reflexivity|auto|]. apply eassign_list_calls; assumption.
  - destruct (eclear_ok t 0 x s Hw Hb Hp) as (s' & a & E & G & Hx & Ha & _). cbn [eexec]. unfold runs. rewrite E.
    apply (good_kept _ _ (eq x)); [intros z <-; left; reflexivity|exact G|]. exists a; auto.
  - destruct Hp as [(a & Hx & Ha) Hn]. apply (calls_kept _ x (o_len a)); [left; reflexivity|auto|]. cbn [eexec].
    destruct (shared_eq s x a Hw Hx) as (b & Es & Hf & Ht). unfold calls. eapply runs_step; [exact Es|]. destruct b.
    + apply runs_ret. split; [apply good_refl; assumption|]. exists a; auto.
    + apply (reserve_calls t 0 x n _ a); auto.
  - destruct Hp as [Hx Hn]. destruct (usable_stays s x Hx) as (len & Hs). apply (calls_kept _ x n); [left; reflexivity|auto|].
    apply (eresize_calls t 0 x len); assumption.
  - destruct Hp as (Hx & Hn & Hu). destruct (usable_stays s x Hx) as (len & Hs). unfold runs. rewrite Hu.
    pose proof (eresize_fill_runs (never t) (fun _ => eq_refl) 0 x len n v s Hw Hb Hs Hn) as H. unfold runs in H. cbn [eexec].
    destruct (eresize_fill (never t) x n v s) as [[] s'|e s'| | |]; try contradiction.
    + destruct H as (W & B & F & M & S & L & HL & Hk). split; [exact W|]. split; [exact B|]. split; [eapply fr_mono; [|exact F]; intros y <-; left; reflexivity|].
      split; [intros [[_ H]|[H _]]; discriminate|]. split; [auto|exact (stays_usable _ _ _ S)].
    + destruct H as ((W & B & F & L & M) & U). split; [exact W|]. split; [exact B|]. split; [eapply fr_mono; [|exact F]; intros y <-; left; reflexivity|].
      split; [intros [[H _]|[_ H]]; [discriminate|auto]|]. split; [discriminate|exact U].
  - destruct Hp as (Hx & Ha & Hn). destruct (usable_stays s x Hx) as (len & Hs). destruct (eslice_calls t 0 x len a n s Hw Hb Hs Ha Hn) as (res & H).
    apply (calls_kept _ x res); [left; reflexivity|auto|exact H].
  - destruct Hp as (Hx & Hpos). destruct (usable_stays s x Hx) as (len & Hs). apply (calls_kept _ x (len + 1)); [left; reflexivity|auto|].
    apply einsert_calls; assumption.
  - destruct Hp as (Hx & Hy & Hpos). destruct (usable_stays s x Hx) as (len & Hs). destruct (usable_stays s y Hy) as (k & Hk).
    destruct (einsert_array_calls t 0 x y len k pos s Hw Hb Hs Hk Hpos) as (res & H).
    apply (calls_kept _ x res); [left; reflexivity|auto|exact H].
  - destruct Hp as (Hx & Hpos & Hlen). destruct (usable_stays_len s x _ Hx Hlen) as (len & Hs & Hle).
    apply (calls_kept _ x (len + zlen vs)); [left; reflexivity|auto|]. apply einsert_range_calls; auto.
  - destruct Hp as (Hx & Hpos & Hlen). destruct (usable_stays_len s x _ Hx Hlen) as (len & Hs & Hle).
    apply (calls_kept _ x len); [left; reflexivity|auto|]. apply ewrite_calls; auto.
  - destruct Hp as (Hx & Hpos & Hlen). destruct (usable_stays_len s x _ Hx Hlen) as (len & Hs & Hle).
    apply (calls_kept _ x len); [left; reflexivity|auto|]. cbn [eexec]. unfold ereplace. apply (calls_check t 0 x len); auto.
    intros _. apply ewrite_calls; auto.
  - destruct Hp as (Hx & Hy & Hpos). destruct (usable_stays s x Hx) as (len & Hs). destruct (usable_stays s y Hy) as (k & Hk).
    destruct (ereplace_array_calls t 0 x y len k pos s Hw Hb Hs Hk Hpos) as (res & H).
    apply (calls_kept _ x res); [left; reflexivity|auto|exact H].
  - destruct Hp as (Hx & Hlen). destruct (usable_stays_len s x _ Hx Hlen) as (len & Hs & Hle).
    apply (calls_kept _ x (len - 1)); [left; reflexivity|auto|]. apply eshift_calls; auto.
  - destruct Hp as (Hx & Hlen). destruct (usable_stays_len s x _ Hx Hlen) as (len & Hs & Hle).
    apply (calls_kept _ x (len - 1)); [left; reflexivity|auto|]. apply epop_calls; auto.
Qed.
End Main.
End LM.
