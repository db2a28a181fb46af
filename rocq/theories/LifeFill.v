(** Element lifetimes: filling interrupted by an exception. *)
From Verif Require Import RcaInv LifeModel LifeSpec LifeInv LifeStep LifeOps LifeCalls LifeMain LifeThm.
From Coq Require Import ZifyBool.
Open Scope Z_scope.

Section Fill.
Context {V : Type}.
Implicit Types (s : estate V) (x y : var) (l : loc) (c : ecell V) (b : list (slot V)).
Notation St := (estate V).

Lemma live_app b b' : live_slots (b ++ b') = live_slots b + live_slots b'.
Proof. unfold live_slots. rewrite map_app, concat_app, zlen_app. reflexivity. Qed.
Lemma znth_parts i b a : znth i b = Some a -> b = ztake i b ++ [a] ++ zdrop (i + 1) b.
Proof.
  unfold znth, ztake, zdrop. destruct (i <? 0) eqn:E; [discriminate|]. intros H.
  replace (Z.to_nat (i + 1)) with (S (Z.to_nat i)) by lia. revert b H. generalize (Z.to_nat i) as n.
  induction n as [|n IH]; intros [|a' b] H; cbn in *; try discriminate; [rewrite drop_0; congruence|]. f_equal. exact (IH b H).
Qed.
Lemma live_kill i b w : znth i b = Some (Live w) -> live_slots (zupd i [Raw] b) = live_slots b - 1.
Proof.
  intros H. rewrite (znth_parts i b _ H) at 2. unfold zupd. rewrite zlen_cons, zlen_nil. replace (i + (1 + 0)) with (i + 1) by lia.
  rewrite !live_app. change (live_slots [Raw]) with 0. change (live_slots [Live w]) with 1. lia.
Qed.

(** Slots [i], ..., [i + n - 1] of cell [l] become raw. *)
Definition spoil l i n s s' : Prop :=
  e_env s' = e_env s /\ (forall l', l' <> l -> e_heap s' !! l' = e_heap s !! l') /\
  forall c, e_heap s !! l = Some c -> exists b, e_heap s' !! l = Some (ECell b (e_refs c)) /\ zlen b = zlen (e_buf c) /\
    (forall p, p < i \/ i + n <= p -> znth p b = znth p (e_buf c)) /\ live_slots b = live_slots (e_buf c) - n.
Lemma unbuild_ok n : forall l i s c, e_heap s !! l = Some c -> 0 <= i -> i + Z.of_nat n <= zlen (e_buf c) ->
  (forall p, i <= p < i + Z.of_nat n -> exists w, znth p (e_buf c) = Some (Live w)) ->
  exists s', unbuild n l i s = Ok tt s' /\ spoil l i (Z.of_nat n) s s' /\ ghost s s' (- Z.of_nat n) [] 0.
Proof.
  induction n as [|n IH]; intros l i s c Hc Hi Hn Hl; cbn [unbuild].
  - exists s. split; [reflexivity|]. split; [|apply ghost_refl]. split; [reflexivity|]. split; [reflexivity|].
    intros c' Hc'. exists (e_buf c'). destruct c'. cbn. repeat split; auto; lia.
  - destruct (Hl i) as (w & Hw); [lia|]. unfold bind, destruct_slot at 1. unfold bind at 1. rewrite (cell_of_ok _ _ _ Hc), Hw.
    unfold put_cell, bind, upd. cbn beta iota.
    match goal with |- context [unbuild n l (i + 1) ?st] => set (s1 := st) end.
    assert (e_heap s1 !! l = Some (ECell (zupd i [Raw] (e_buf c)) (e_refs c))) as Hc1 by (cbn; apply lookup_insert).
    assert (zlen (zupd i [Raw] (e_buf c)) = zlen (e_buf c)) as Hz.
    { apply zlen_zupd; [lia|]. rewrite zlen_cons, zlen_nil. lia. }
    assert (forall p, p <> i -> znth p (zupd i [Raw] (e_buf c)) = znth p (e_buf c)) as Hne.
    { intros p Hp. rewrite znth_zupd by (rewrite ?zlen_cons, ?zlen_nil; lia). rewrite zlen_cons, zlen_nil.
      destruct ((i <=? p) && (p <? i + (1 + 0))) eqn:E; [lia|reflexivity]. }
    destruct (IH l (i + 1) s1 _ Hc1) as (s2 & E2 & (A & B & C) & G); cbn [e_buf]; [lia|lia| |].
    { intros p Hp. rewrite Hne by lia. apply Hl. lia. }
    exists s2. split; [exact E2|]. split.
    + split; [rewrite A; reflexivity|]. split.
      * intros l' Hl'. rewrite B by exact Hl'. cbn. apply lookup_insert_ne. congruence.
      * intros c' Hc'. assert (c' = c) as -> by congruence. destruct (C _ Hc1) as (b & Hb & Hzb & Hsame & Hlive). cbn [e_buf e_refs] in *.
        exists b. split; [exact Hb|]. split; [lia|]. split.
        -- intros p Hp. rewrite Hsame by lia. apply Hne. lia.
        -- rewrite Hlive, (live_kill _ _ _ Hw). lia.
    + destruct G as (G1 & G2 & G3). unfold ghost, net in *. cbn in *. rewrite G2, !app_nil_r. repeat split; lia.
Qed.

Variable t : ety V.
(** The slots overwritten so far, [done] many before [i], hold new elements; the old ones are lost. *)
Lemma fill_over_runs n v : forall l i done s c, winv s -> e_heap s !! l = Some c -> 0 <= i - Z.of_nat done -> i + Z.of_nat n <= zlen (e_buf c) ->
  runs (fill_over t n l i v done) s
    (fun _ s' => exists L, touch l s s' /\ ghost s s' (Z.of_nat n) L 0 /\ zlen L = Z.of_nat n)
    (fun _ s' => exists j L s1, 0 <= j < Z.of_nat n /\ touch l s s1 /\ spoil l (i - Z.of_nat done) (Z.of_nat done + j) s1 s' /\
       ghost s s' (- Z.of_nat done) L 0 /\ zlen L = j).
Proof.
  induction n as [|n IH]; intros l i done s c Hw Hc Hi Hn; cbn [fill_over].
  - unfold runs; cbn. exists []. split; [apply touch_refl|]. split; [apply ghost_refl|reflexivity].
  - assert (runs (attempt t) s (fun _ s' => nop s s') (fun _ s' => nop s s')) as Ha by (apply attempt_runs; auto).
    unfold runs in Ha |- *. destruct (attempt t s) as [[] s1|e s1| | |]; try contradiction; destruct Ha as [S1 G1];
      pose proof (same_winv _ _ S1 Hw) as Hw1; assert (e_heap s1 !! l = Some c) as Hc1 by (destruct S1 as (-> & _); exact Hc).
    + destruct (construct_ok s1 l c i v Hw1 Hc1) as (s2 & w & Hv & E2 & T2 & G2 & Hc2); [lia|].
      unfold bind. rewrite E2. pose proof (touch_winv _ _ _ T2 Hw1) as Hw2.
      specialize (IH l (i + 1) (S done) s2 _ Hw2 Hc2). cbn [e_buf] in IH. rewrite zlen_zupd in IH by (rewrite ?zlen_cons, ?zlen_nil; lia).
      assert (touch l s s2) as T by (eapply touch_trans; [apply same_touch, S1|exact T2]).
      pose proof (ghost_trans _ _ _ _ _ _ _ _ _ G1 G2) as G. specialize (IH ltac:(lia) ltac:(lia)). unfold runs in IH.
      destruct (fill_over t n l (i + 1) v (S done) s2) as [[] s3|e s3| | |]; try contradiction.
      * destruct IH as (L & T3 & G3 & HL). exists (w :: L). split; [eapply touch_trans; eassumption|]. split; [|rewrite zlen_cons; lia].
        eapply ghost_eq; [exact (ghost_trans _ _ _ _ _ _ _ _ _ G G3)| | |]; try reflexivity; lia.
      * destruct IH as (j & L & s4 & Hj & T3 & Sp & G3 & HL). exists (j + 1), (w :: L), s4. split; [lia|].
        split; [eapply touch_trans; eassumption|]. split.
        -- replace (i - Z.of_nat done) with (i + 1 - Z.of_nat (S done)) by lia. replace (Z.of_nat done + (j + 1)) with (Z.of_nat (S done) + j) by lia. exact Sp.
        -- split; [|rewrite zlen_cons; lia]. eapply ghost_eq; [exact (ghost_trans _ _ _ _ _ _ _ _ _ G G3)| | |]; try reflexivity; lia.
    + destruct (unbuild_ok done l (i - Z.of_nat done) s1 c Hc1) as (s2 & E2 & Sp & G2); [lia|lia| |].
      { intros p Hp. apply live_nth; [eapply cf_live, (proj1 Hw1); exact Hc1|lia]. }
      unfold bind. rewrite E2. cbn. exists 0, [], s1. split; [lia|]. split; [apply same_touch, S1|].
      rewrite Z.add_0_r. split; [exact Sp|]. split; [|reflexivity].
      eapply ghost_eq; [exact (ghost_trans _ _ _ _ _ _ _ _ _ G1 G2)| | |]; try reflexivity; lia.
Qed.

(** What is left: the elements are accounted for, other arrays are as they were and the array itself can be read. *)
Definition readable s x : Prop :=
  exists a w, e_env s !! x = Some a /\ view s x = Some w /\ zlen w = o_len a /\ forall p, In p w -> p <> Raw.
Definition left_over d x s s' : Prop := bal d s' /\ fr (eq x) s s' /\ readable s' x.
Lemma winv_readable s x : winv s -> usable s x -> readable s x.
Proof.
  intros [Hc Ho] (a & Hy & Ha). unfold readable. exists a. unfold view. rewrite Hy. destruct (o_ref a) as [l|] eqn:Er.
  - destruct (Ho x a Hy l Er) as (c & Hl & P1 & P2 & P3). rewrite Hl. eexists. split; [reflexivity|]. split; [reflexivity|]. split.
    + rewrite zlen_zsub. lia.
    + intros p Hin. pose proof (Forall_zsub islive (o_off a) (o_len a) (e_buf c) (cf_live _ _ _ _ (Hc l c Hl))) as H.
      rewrite List.Forall_forall in H. exact (H p Hin).
  - exists []. destruct (Ha eq_refl) as [_ H]. split; [reflexivity|]. split; [reflexivity|]. split; [rewrite H; reflexivity|intros p []].
Qed.
Lemma spoil_left d x s s1 s' l i n j k L a : winv s -> bal d s -> touch l s s1 -> spoil l (o_off a + i) j s1 s' -> ghost s s' k L 0 -> k + j = zlen L ->
  e_env s !! x = Some a -> o_ref a = Some l -> o_len a <= i -> mine (eq x) s l -> roomy s x (o_len a) n -> left_over d x s s'.
Proof.
  intros Hw Hb T (A & B & C) (G1 & G2 & G3) Hk Hx Hr Hi Hm Rm. pose proof (touch_winv _ _ _ T Hw) as Hw1.
  destruct (proj2 Hw x a Hx l Hr) as (c & Hc & P1 & P2 & P3).
  destruct (touch_cell _ _ _ _ T Hc) as (b1 & Hc1 & Hz1 & Hl1). destruct (C _ Hc1) as (b & Hb' & Hz & Hsame & Hlive). cbn [e_buf e_refs] in *.
  pose proof T as (T1 & T2 & T3 & _). split; [|split].
  - pose proof (touch_objects l s s1 T Hw) as HO. pose proof (objects_same_other _ _ l B) as E.
    pose proof (objects_delete _ _ _ Hc1) as D1. pose proof (objects_delete _ _ _ Hb') as D2. rewrite E, D1 in D2. cbn [e_buf] in D2.
    unfold bal in *. rewrite G1, G2, zlen_app. lia.
  - intros y Hy. split; [rewrite A, T1; reflexivity|]. intros o l' c' Ho Hrl Hcl. exists c'. split; [|reflexivity].
    assert (l' <> l) as Hne by (intros ->; exact (Hy (Hm y o Ho Hrl))). rewrite B, T3 by exact Hne. exact Hcl.
  - exists a, (zsub (o_off a) (o_len a) b). split; [rewrite A, T1; exact Hx|]. split; [unfold view; rewrite A, T1, Hx, Hr, Hb'; reflexivity|].
    split; [rewrite zlen_zsub; lia|]. intros p Hin.
    assert (zsub (o_off a) (o_len a) b = zsub (o_off a) (o_len a) b1) as Ez.
    { apply zlist_ext_opt. intros q. rewrite !znth_zsub. destruct ((0 <=? q) && (q <? o_len a)) eqn:E; [|reflexivity]. apply Hsame. lia. }
    rewrite Ez in Hin. pose proof (Forall_zsub islive (o_off a) (o_len a) b1 (cf_live _ _ _ _ (proj1 Hw1 l _ Hc1))) as H.
    rewrite List.Forall_forall in H. exact (H p Hin).
Qed.

Lemma good_left d x s s1 s' : good t true d (eq x) s s1 -> left_over d x s1 s' -> left_over d x s s'.
Proof. intros (_ & _ & F & _) (B & F' & R). split; [exact B|]. split; [eapply fr_trans; eassumption|exact R]. Qed.
Lemma body_left d x len n v s : winv s -> bal d s -> stays s x len -> 0 <= n ->
  runs (let* a := obj_of x in
        if n <? o_len a then put_len x n
        else modify t x n ;;;
          (let* a := obj_of x in
           at_place x (o_len a) (n - o_len a) (fun l i => fill_over t (Z.to_nat (n - o_len a)) l i (Some v) 0) ;;;
           put_len x n)) s
    (fun _ s' => filled d (Z.max 0 (n - len)) x n s s') (fun _ s' => left_over d x s s').
Proof.
  intros Hw Hb Hs Hn. pose proof Hs as (a & Hx & Ha & Hl). pose proof (stays_nonneg _ _ _ Hw Hs) as H0.
  eapply runs_step; [apply obj_of_ok, Hx|]. rewrite Hl. destruct (n <? len) eqn:E.
  - rewrite Z.max_l by lia. pose proof (eresize_calls t d x len n s Hw Hb Hs Hn) as H. unfold eresize, calls in H.
    assert (runs (put_len x n) s (fun _ s' => good t true d (eq x) s s' /\ stays s' x n) (fun _ s' => good t false d (eq x) s s' /\ usable s' x)) as H'.
    { unfold runs, bind at 1 in H. rewrite (obj_of_ok _ _ _ Hx), Hl, E in H. exact H. }
    eapply runs_conseq; [exact H'| |]; cbn beta.
    + intros _ s' ((W & B & F & L & M) & S).
      split; [exact W|]. split; [exact B|]. split; [exact F|]. split; [auto|]. split; [exact S|]. exists []. rewrite app_nil_r. split; [auto|reflexivity].
    + intros _ s' ((W & B & F & _) & U). split; [exact B|]. split; [exact F|]. apply winv_readable; assumption.
  - rewrite Z.max_r by lia. eapply runs_bind with (P' := fun _ s' => good t true d (eq x) s s' /\ roomy s' x len n).
    { eapply runs_conseq; [apply (modify_runs t x n s d a Hw Hb Hx Ha); lia| |]; cbn beta.
      - intros _ s' (G & R & _). rewrite Hl in R. auto.
      - intros _ s' ((W & B & F & _) & U & _). split; [exact B|]. split; [exact F|]. apply winv_readable; assumption. }
    cbn beta. intros _ s1 (G1 & R1). pose proof G1 as (Hw1 & Hb1 & _).
    destruct (roomy_ok _ _ _ _ Hw1 R1) as (a1 & l & c & Hx1 & Hr1 & Hl1 & Hc1 & P1 & P2 & P3 & Hm).
    eapply runs_step; [apply obj_of_ok, Hx1|]. rewrite Hl1.
    assert (runs (at_place x len (n - len) (fun l0 i => fill_over t (Z.to_nat (n - len)) l0 i (Some v) 0)) s1
      (fun _ s2 => exists L, touch l s1 s2 /\ ghost s1 s2 (n - len) L 0 /\ zlen L = n - len) (fun _ s2 => left_over d x s1 s2)) as Hf.
    { unfold at_place. destruct (n - len <=? 0) eqn:E0.
      - unfold runs; cbn. exists []. split; [apply touch_refl|]. replace (n - len) with 0 by lia. split; [apply ghost_refl|reflexivity].
      - unfold place. eapply runs_step; [unfold bind; rewrite (obj_of_ok _ _ _ Hx1), Hr1; reflexivity|]. cbn [fst snd].
        eapply runs_conseq; [apply (fill_over_runs (Z.to_nat (n - len)) (Some v) l (o_off a1 + len) 0 s1 c Hw1 Hc1); lia| |]; cbn beta.
        + intros _ s2 (L & T & G & HL). rewrite Z2Nat.id in * by lia. eauto.
        + intros _ s2 (j & L & s3 & Hj & T & Sp & G & HL). change (Z.of_nat 0) with 0 in *. rewrite Z.add_0_l, Z.sub_0_r in Sp.
          apply (spoil_left d x s1 s3 s2 l len n j (-0) L a1 Hw1 Hb1 T Sp G); auto; try lia. rewrite Hl1. exact R1. }
    eapply runs_bind; [eapply runs_conseq; [exact Hf|intros ? ? H; exact H|intros e2 s2 H; exact (good_left _ _ _ _ _ G1 H)]|].
    cbn beta. intros _ s2 (L & T2 & G2 & HL). pose proof (touch_winv _ _ _ T2 Hw1) as Hw2.
    pose proof (touch_bal l s1 s2 d (n - len) L 0 T2 Hw1 Hb1 G2) as Hb2. replace (d + (n - len) - zlen L) with d in Hb2 by lia.
    pose proof (roomy_touch _ _ _ _ _ _ T2 R1) as R2.
    destruct (put_len_runs t s2 x len n n d Hw2 Hb2 R2) as (s3 & E3 & G3 & R3); [lia|]. unfold runs. rewrite E3.
    apply (filled_good t _ _ _ _ s s1 s3 G1). destruct G2 as (_ & GL & GM). destruct G3 as (W3 & B3 & F3 & L3 & M3).
    split; [exact W3|]. split; [exact B3|]. split; [eapply fr_trans; [exact (touch_fr _ _ _ _ Hm T2)|exact F3]|].
    split; [rewrite M3 by reflexivity; lia|]. split; [exact (roomy_stays _ _ _ _ R3)|]. exists L. rewrite L3 by auto. auto.
Qed.
Lemma resize_left d x len n v s : winv s -> bal d s -> stays s x len -> 0 <= n ->
  runs (eresize_fill t x n v) s (fun _ s' => filled d (Z.max 0 (n - len)) x n s s') (fun _ s' => left_over d x s s').
Proof.
  intros Hw Hb Hs Hn. unfold eresize_fill. apply with_temp_runs.
  - intros s' N e. pose proof (nop_good t false d (eq x) s s' Hw Hb N) as (W & B & F & _). split; [exact B|]. split; [exact F|].
    apply winv_readable; [exact W|]. destruct Hs as (a & Hx & Ha & _). exists a. destruct N as [(_ & -> & _) _]. auto.
  - intros s' S G. destruct (temp_in t d s s' Hw Hb S G) as (_ & Hw' & Hb').
    assert (stays s' x len) as Hs' by (destruct Hs as (a & Ha); exists a; destruct S as (_ & -> & _); exact Ha).
    eapply runs_conseq; [apply (body_left (d + 1) x len n v s' Hw' Hb' Hs' Hn)| |]; cbn beta.
    + intros _ s2 H. exact (temp_filled _ _ _ _ _ _ _ S G H).
    + intros _ s2 (B & F & R). destruct G as (G1 & G2 & G3). split; [|split].
      * unfold bal, net in *; cbn. rewrite app_nil_r. lia.
      * eapply fr_trans; [apply same_fr, S|exact F].
      * exact R.
Qed.
Lemma fill_interrupted s x n v : reached t s -> usable s x -> 0 <= n ->
  match eexec t (EResizeFill x n v) s with
  | Ok _ s' => balanced s' /\ usable s' x /\ len_is s' x (eq n)
  | Exn _ s' => balanced s' /\ readable s' x /\ forall y, y <> x -> e_env s' !! y = e_env s !! y /\ view s' y = view s y
  | _ => False
  end.
Proof.
  intros R Hx Hn. destruct (reached_ok t s R) as [Hw Hb]. destruct (usable_stays s x Hx) as (len & Hs).
  pose proof (resize_left 0 x len n v s Hw Hb Hs Hn) as H. cbn [eexec]. unfold runs in H.
  destruct (eresize_fill t x n v s) as [[] s'|e s'| | |]; try contradiction.
  - destruct H as (W & B & _ & _ & S & _). rewrite <- bal_balanced. split; [exact B|]. split; [exact (stays_usable _ _ _ S)|].
    destruct S as (a & Ha & _ & Hl). intros a' Ha'. congruence.
  - destruct H as (B & F & Rd). rewrite <- bal_balanced. split; [exact B|]. split; [exact Rd|]. intros y Hy.
    split; [apply F; congruence|]. apply (fr_view (eq x)); [exact Hw|exact F|congruence].
Qed.
End Fill.
