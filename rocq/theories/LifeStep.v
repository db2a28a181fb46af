(** Growth, copy on write and the elementary changes of arrays in LifeModel. *)
From Verif Require Import RcaInv LifeModel LifeSpec LifeInv.
From Coq Require Import ZifyBool.
Open Scope Z_scope.

Section LS.
Context {V : Type}.
Implicit Types (s : estate V) (x y : var) (l : loc) (c : ecell V) (h : gmap loc (ecell V)).
Notation St := (estate V).
Variable t : ety V.

Lemma runs_on_throw {A} (m : M St A) k s (P : A -> St -> Prop) (E : exn -> St -> Prop) :
  runs m s P (fun e s' => E e (k s')) -> runs (on_throw m k) s P E.
Proof. unfold runs, on_throw; destruct (m s); auto. Qed.
Lemma count_up_same b k L m s : same s (count_up b k L m s). Proof. repeat split. Qed.
Lemma count_up_ghost b k L m s : ghost s (count_up b k L m s) (b - k) L m.
Proof. unfold ghost, net; cbn; repeat split; lia. Qed.
Lemma runs_upd (f : St -> St) s (P : unit -> St -> Prop) E : P tt (f s) -> runs (upd f) s P E.
Proof. intros H; exact H. Qed.

Lemma build_runs n v : forall acc s,
  runs (build t n v acc) s
    (fun r s' => same s s' /\ ghost s s' (Z.of_nat n) [] 0 /\ r = acc ++ repeat (Live v) n)
    (fun _ s' => same s s' /\ ghost s s' (- zlen acc) [] 0).
Proof.
  induction n as [|n IH]; intros acc s; cbn [build].
  - apply runs_ret. rewrite app_nil_r. split; [apply same_refl|]. split; [apply ghost_refl|reflexivity].
  - eapply runs_bind with (P' := fun _ s' => nop s s').
    { apply runs_on_throw, attempt_runs; [auto|]. intros _ s' (Hs & Hg). split.
      - eapply same_trans; [exact Hs|apply count_up_same].
      - eapply ghost_eq; [exact (ghost_trans _ _ _ _ _ _ _ _ _ Hg (count_up_ghost _ _ _ _ _))| | |]; try reflexivity; lia. }
    cbn beta. intros _ s1 (Hs & Hg). eapply runs_step; [reflexivity|].
    eapply runs_conseq; [apply IH| |]; cbn beta.
    + intros r s2 (Hs2 & Hg2 & ->). split; [|split].
      * eapply same_trans; [exact Hs|]. eapply same_trans; [apply count_up_same|exact Hs2].
      * eapply ghost_eq; [exact (ghost_trans _ _ _ _ _ _ _ _ _ Hg (ghost_trans _ _ _ _ _ _ _ _ _ (count_up_ghost _ _ _ _ _) Hg2))| | |];
          try reflexivity; lia.
      * rewrite <- app_assoc. reflexivity.
    + intros _ s2 (Hs2 & Hg2). split.
      * eapply same_trans; [exact Hs|]. eapply same_trans; [apply count_up_same|exact Hs2].
      * eapply ghost_eq; [exact (ghost_trans _ _ _ _ _ _ _ _ _ Hg (ghost_trans _ _ _ _ _ _ _ _ _ (count_up_ghost _ _ _ _ _) Hg2))| | |];
          try reflexivity. rewrite zlen_app, zlen_cons, zlen_nil. lia.
Qed.

Lemma with_temp_runs {A} (m : M St A) s (P : A -> St -> Prop) (E : exn -> St -> Prop) :
  (forall s', nop s s' -> forall e, E e s') ->
  (forall s', same s s' -> ghost s s' 1 [] 0 ->
     runs m s' (fun a s2 => P a (count_up 0 1 [] 0 s2)) (fun e s2 => E e (count_up 0 1 [] 0 s2))) ->
  runs (with_temp t m) s P E.
Proof.
  intros HE Hm. unfold with_temp. eapply runs_bind with (P' := fun _ s' => nop s s'); [apply attempt_runs; auto|].
  intros _ s1 (Hs & Hg). eapply runs_step; [reflexivity|].
  eapply runs_bind with (P' := fun a s2 => P a (count_up 0 1 [] 0 s2)).
  - apply runs_on_throw. apply Hm; [eapply same_trans; [exact Hs|apply count_up_same]|].
    eapply ghost_eq; [exact (ghost_trans _ _ _ _ _ _ _ _ _ Hg (count_up_ghost _ _ _ _ _))| | |]; try reflexivity; lia.
  - intros a s2 H. eapply runs_step; [reflexivity|]. apply runs_ret, H.
Qed.

Lemma relocate_runs n : forall l i acc s c, winv s -> e_heap s !! l = Some c -> 0 <= i -> i + Z.of_nat n <= zlen (e_buf c) ->
  runs (relocate t n l i acc) s
    (fun r s' => touch l s s' /\ ghost s s' (Z.of_nat n) [] 0 /\ r = acc ++ zsub i (Z.of_nat n) (e_buf c))
    (fun _ s' => same s s' /\ ghost s s' (- zlen acc) [] 0 /\ e_moves t = false).
Proof.
  induction n as [|n IH]; intros l i acc s c Hw Hc Hi Hn; cbn [relocate].
  - apply runs_ret. split; [apply touch_refl|]. split; [apply ghost_refl|]. rewrite zsub_0, app_nil_r by lia. reflexivity.
  - destruct (get_slot_ok s l c i Hw Hc) as (v & Hv & Hg); [lia|]. eapply runs_step; [exact Hg|].
    assert (zsub i (Z.of_nat (S n)) (e_buf c) = Live v :: zsub (i + 1) (Z.of_nat n) (e_buf c)) as Ez.
    { rewrite Nat2Z.inj_succ, <- Z.add_1_l, zsub_split by lia.
      change (Live v :: zsub (i + 1) (Z.of_nat n) (e_buf c)) with ([Live v] ++ zsub (i + 1) (Z.of_nat n) (e_buf c)). f_equal.
      apply zlist_ext_opt; intros p. rewrite znth_zsub, znth_cons, znth_nil.
      repeat match goal with |- context [if ?b then _ else _] => destruct b eqn:? end; try lia; try reflexivity.
      all: replace (p + Z.max 0 i) with i by lia; exact Hv. }
    eapply runs_bind with (P' := fun _ s' => touch l s s' /\ ghost s s' 0 [] 0 /\ (e_moves t = false -> same s s') /\
      exists c', e_heap s' !! l = Some c' /\ zlen (e_buf c') = zlen (e_buf c) /\
        forall p, i < p -> znth p (e_buf c') = znth p (e_buf c)).
    + destruct (e_moves t) eqn:Em.
      * destruct (set_slot_ok s l c i None Hw Hc) as (s1 & E1 & T1 & G1 & H1); [lia|]. unfold runs; rewrite E1.
        repeat split; try exact T1; try exact G1; try apply G1; try discriminate; try apply T1.
        eexists; split; [exact H1|]. cbn. split; [apply zlen_zupd; [lia|rewrite zlen_cons, zlen_nil; lia]|].
        intros p Hp. rewrite znth_zupd by lia. rewrite ?zlen_cons, ?zlen_nil.
        repeat match goal with |- context [if ?b then _ else _] => destruct b eqn:? end; try lia; reflexivity.
      * apply runs_on_throw, attempt_runs.
        -- intros s1 (Hs & Hg1). split; [apply same_touch, Hs|]. split; [exact Hg1|]. split; [auto|].
           exists c. destruct Hs as (A & _). rewrite A. auto.
        -- intros _ s1 (Hs & Hg1). split; [eapply same_trans; [exact Hs|apply count_up_same]|]. split; [|reflexivity].
           eapply ghost_eq; [exact (ghost_trans _ _ _ _ _ _ _ _ _ Hg1 (count_up_ghost _ _ _ _ _))| | |]; try reflexivity; lia.
    + cbn beta. intros _ s1 (T1 & G1 & S1 & c1 & Hc1 & L1 & N1). eapply runs_step; [reflexivity|].
      pose proof (touch_winv _ _ _ T1 Hw) as Hw1.
      set (s1' := count_up 1 0 [] 0 s1).
      assert (same s1 s1') as S1' by apply count_up_same.
      assert (e_heap s1' !! l = Some c1) as Hc1' by exact Hc1.
      eapply runs_conseq; [apply (IH l (i + 1) (acc ++ [Live v]) s1' c1 (same_winv _ _ S1' Hw1) Hc1'); lia| |]; cbn beta.
      * intros r s2 (T2 & G2 & ->). split; [|split].
        -- eapply touch_trans; [exact T1|]. eapply touch_trans; [apply same_touch, S1'|exact T2].
        -- eapply ghost_eq; [exact (ghost_trans _ _ _ _ _ _ _ _ _ G1 (ghost_trans _ _ _ _ _ _ _ _ _ (count_up_ghost 1 0 [] 0 s1) G2))| | |];
             try reflexivity; lia.
        -- rewrite Ez, <- app_assoc. f_equal. cbn [app]. f_equal. apply zlist_ext_opt; intros p. rewrite !znth_zsub.
           repeat match goal with |- context [if ?b then _ else _] => destruct b eqn:? end; try lia; try reflexivity.
           replace (p + Z.max 0 (i + 1)) with (i + 1 + p) by lia. apply N1; lia.
      * intros _ s2 (T2 & G2 & Em). split; [|split; [|exact Em]].
        -- eapply same_trans; [exact (S1 Em)|]. eapply same_trans; [exact S1'|exact T2].
        -- eapply ghost_eq; [exact (ghost_trans _ _ _ _ _ _ _ _ _ G1 (ghost_trans _ _ _ _ _ _ _ _ _ (count_up_ghost 1 0 [] 0 s1) G2))| | |];
             try reflexivity. rewrite zlen_app, zlen_cons, zlen_nil. lia.
Qed.

(** The buffer of cell [l] is replaced by one at least as long, full of objects. *)
Definition swell l s s' : Prop :=
  e_env s' = e_env s /\ e_next s' = e_next s /\ (forall l', l' <> l -> e_heap s' !! l' = e_heap s !! l') /\
  exists c b, e_heap s !! l = Some c /\ e_heap s' !! l = Some (ECell b (e_refs c)) /\
    zlen (e_buf c) <= zlen b <= max_alloc /\ Forall islive b /\ ghost s s' (zlen b - zlen (e_buf c)) [] 0.
Lemma swell_winv l s s' : swell l s s' -> winv s -> winv s'.
Proof.
  intros (A & B & C & c & b & Hc & Hb & Hl & Hv & _) [Hcc Ho]; unfold winv; rewrite A, B; split.
  - intros l' c' H. destruct (decide (l' = l)) as [->|Hn].
    + rewrite Hb in H; injection H as <-. destruct (Hcc l c Hc) as [H1 H2 H3 H4 H5]. constructor; cbn; auto; lia.
    + rewrite C in H by exact Hn. exact (Hcc l' c' H).
  - intros x o Hx l' Hr. destruct (Ho x o Hx l' Hr) as (c0 & Hl0 & H1 & H2 & H3).
    destruct (decide (l' = l)) as [->|Hn]; [|rewrite C by exact Hn; eauto].
    exists (ECell b (e_refs c)); cbn. assert (c0 = c) as -> by congruence. repeat split; auto; lia.
Qed.
Lemma swell_bal l s s' d : swell l s s' -> winv s -> bal d s -> bal d s'.
Proof.
  intros H Hw Hd. destruct H as (A & B & C & c & b & Hc & Hb & Hl & Hv & Hn & HL & _).
  pose proof (objects_same_other _ _ _ C) as E.
  pose proof (objects_delete _ _ _ Hc) as E1. pose proof (objects_delete _ _ _ Hb) as E2. rewrite E in E2.
  rewrite live_slots_all in E1 by (eapply cf_live, (proj1 Hw); exact Hc).
  rewrite live_slots_all in E2 by exact Hv. cbn in E2. unfold bal in *. rewrite HL, app_nil_r. lia.
Qed.
Lemma swell_fr X l s s' : mine X s l -> swell l s s' -> fr X s s'.
Proof.
  intros Hm (A & B & C & D) y Hy; rewrite A; split; [reflexivity|]. intros o l' c Ho Hr Hc.
  exists c; rewrite C; [auto|]. intros ->. exact (Hy (Hm y o Ho Hr)).
Qed.
Lemma only_swell l s s' c : winv s -> e_heap s !! l = Some c -> only l s s' -> swell l s s'.
Proof.
  intros [Hcc _] Hc [T G]. destruct (touch_cell _ _ _ _ T Hc) as (b & Hb & Hl & Hv). destruct T as (A & B & C & _).
  split; [exact A|split; [exact B|split; [exact C|]]]. exists c, b. split; [exact Hc|]. split; [exact Hb|].
  destruct (Hcc l c Hc) as [_ _ Hlive Hsz _]. split; [lia|]. split; [auto|].
  eapply ghost_eq; [exact G| | |]; try reflexivity; lia.
Qed.

Lemma repeat_live n (v : option V) : Forall islive (repeat (Live v) n).
Proof. induction n; constructor; [discriminate|assumption]. Qed.
Lemma zlen_repeat {A} n (a : A) : zlen (repeat a n) = Z.of_nat n.
Proof. unfold zlen; rewrite repeat_length; reflexivity. Qed.
Lemma lost_repeat n (v : option V) : zlen (List.concat (map lost_of (repeat (Live v) n))) = Z.of_nat n.
Proof. fold (live_slots (repeat (Live v) n)). rewrite live_slots_all by apply repeat_live. apply zlen_repeat. Qed.
Lemma Forall_zsub (P : slot V -> Prop) i n b : Forall P b -> Forall P (zsub i n b).
Proof. intros; unfold zsub, ztake, zdrop; apply Forall_take, Forall_drop; assumption. Qed.

(** ArrayRef::reserve. *)
Lemma ref_reserve_runs l newSize sc off len s c : winv s -> e_heap s !! l = Some c -> 0 <= newSize ->
  0 <= off -> 0 <= len -> off + len <= zlen (e_buf c) ->
  runs (ref_reserve t l newSize sc off len) s
    (fun off' s' => swell l s s' /\ 0 <= off' /\ exists c', e_heap s' !! l = Some c' /\
       off' + Z.max newSize len <= zlen (e_buf c') /\ zsub off' len (e_buf c') = zsub off len (e_buf c))
    (fun _ s' => exists L m, touch l s s' /\ ghost s s' (zlen L) L m /\ (e_moves t = true -> same s s' /\ L = [])).
Proof.
  intros Hw Hc Hns Ho Hlen Hfit. unfold ref_reserve. eapply runs_step; [apply cell_of_ok, Hc|].
  pose proof (zlen_nonneg (e_buf c)) as Hz.
  pose proof (cf_size _ _ _ _ (proj1 Hw l c Hc)) as Hsz.
  destruct (zlen (e_buf c) <? newSize) eqn:Eg.
  - set (n := Z.max (sc (zlen (e_buf c))) newSize).
    eapply runs_bind with (P' := fun _ s' => nop s s' /\ n <= max_alloc).
    { unfold allocate. destruct (max_alloc <? n) eqn:Em.
      - apply runs_throw. exists [], 0. split; [apply touch_refl|]. split; [apply ghost_refl|]. intros _; split; [apply same_refl|reflexivity].
      - apply attempt_runs; [intros; split; [assumption|lia]|]. intros _ s' [Hs Hg]. exists [], 0.
        split; [apply same_touch, Hs|]. split; [exact Hg|]. intros _; split; [exact Hs|reflexivity]. }
    cbn beta. intros _ s1 ((S1 & G1) & Hmax). assert ((n <? len) = false) as -> by lia.
    eapply runs_bind with (P' := fun r s' => same s s' /\ ghost s s' (n - len) [] 0 /\ r = repeat (Live (Some (e_def t))) (Z.to_nat (n - len))).
    { apply runs_on_throw, with_temp_runs.
      - intros s2 [S2 G2] _. exists [], 1. split; [|split].
        + apply same_touch. eapply same_trans; [exact S1|]. eapply same_trans; [exact S2|apply count_up_same].
        + eapply ghost_eq; [exact (ghost_trans _ _ _ _ _ _ _ _ _ G1 (ghost_trans _ _ _ _ _ _ _ _ _ G2 (count_up_ghost 0 0 [] 1 s2)))| | |]; reflexivity.
        + intros _; split; [|reflexivity]. eapply same_trans; [exact S1|]. eapply same_trans; [exact S2|apply count_up_same].
      - intros s2 S2 G2. eapply runs_conseq; [apply build_runs| |]; cbn beta.
        + intros r s3 (S3 & G3 & ->). cbn [app]. split; [|split; [|reflexivity]].
          * eapply same_trans; [exact S1|]. eapply same_trans; [exact S2|]. eapply same_trans; [exact S3|apply count_up_same].
          * eapply ghost_eq; [exact (ghost_trans _ _ _ _ _ _ _ _ _ G1 (ghost_trans _ _ _ _ _ _ _ _ _ G2
              (ghost_trans _ _ _ _ _ _ _ _ _ G3 (count_up_ghost 0 1 [] 0 s3))))| | |]; try reflexivity; lia.
        + intros _ s3 (S3 & G3).
          assert (same s (count_up 0 0 [] 1 (count_up 0 1 [] 0 s3))) as SS.
          { eapply same_trans; [exact S1|]. eapply same_trans; [exact S2|]. eapply same_trans; [exact S3|].
            eapply same_trans; apply count_up_same. }
          exists [], 1. split; [apply same_touch, SS|]. split; [|auto].
          eapply ghost_eq; [exact (ghost_trans _ _ _ _ _ _ _ _ _ G1 (ghost_trans _ _ _ _ _ _ _ _ _ G2
            (ghost_trans _ _ _ _ _ _ _ _ _ G3 (ghost_trans _ _ _ _ _ _ _ _ _ (count_up_ghost 0 1 [] 0 s3) (count_up_ghost 0 0 [] 1 _)))))| | |];
            try reflexivity. }
    cbn beta. intros fill s2 (S2 & G2 & ->). pose proof (same_winv _ _ S2 Hw) as Hw2.
    assert (e_heap s2 !! l = Some c) as Hc2 by (destruct S2 as (A & _); rewrite A; exact Hc).
    set (fill := repeat (Live (Some (e_def t))) (Z.to_nat (n - len))).
    assert (zlen fill = n - len) as Lf by (unfold fill; rewrite zlen_repeat; lia).
    eapply runs_bind with (P' := fun r s' => touch l s s' /\ ghost s s' n [] 0 /\ r = zsub off len (e_buf c)).
    { destruct (e_buf c) as [|a b] eqn:Eb.
      - assert (len = 0) as -> by (rewrite zlen_nil in Hfit; lia). apply runs_ret. split; [apply same_touch, S2|]. split.
        + eapply ghost_eq; [exact G2| | |]; try reflexivity; lia.
        + rewrite zsub_0 by lia. reflexivity.
      - rewrite <- Eb in *. apply runs_on_throw.
        eapply runs_conseq; [apply (relocate_runs (Z.to_nat len) l off [] s2 c Hw2 Hc2); lia| |]; cbn beta.
        + intros r s3 (T3 & G3 & ->). rewrite Z2Nat.id by lia. split; [|split; [|reflexivity]].
          * eapply touch_trans; [apply same_touch, S2|exact T3].
          * eapply ghost_eq; [exact (ghost_trans _ _ _ _ _ _ _ _ _ G2 G3)| | |]; try reflexivity; lia.
        + intros _ s3 (S3 & G3 & Em). exists (List.concat (map lost_of fill)), 1. split; [|split].
          * apply same_touch. eapply same_trans; [exact S2|]. eapply same_trans; [exact S3|apply count_up_same].
          * eapply ghost_eq; [exact (ghost_trans _ _ _ _ _ _ _ _ _ G2 (ghost_trans _ _ _ _ _ _ _ _ _ G3
              (count_up_ghost 0 0 (List.concat (map lost_of fill)) 1 s3)))| | |]; try reflexivity.
            rewrite zlen_nil. unfold fill. rewrite lost_repeat. lia.
          * rewrite Em; discriminate. }
    cbn beta. intros front s3 (T3 & G3 & ->). destruct (touch_cell _ _ _ _ T3 Hc) as (b3 & Hb3 & L3 & V3).
    eapply runs_step; [apply cell_of_ok, Hb3|]. cbn [e_buf].
    pose proof (cf_live _ _ _ _ (proj1 Hw l c Hc)) as Hlive.
    destruct (destroy_all_ok b3 s3 (V3 Hlive)) as (s4 & E4 & S4 & G4). eapply runs_step; [exact E4|].
    eapply runs_step; [reflexivity|]. apply runs_ret.
    assert (zlen (zsub off len (e_buf c)) = len) as Lsub by (rewrite zlen_zsub; lia).
    split; [|split; [lia|]].
    + destruct T3 as (A3 & B3 & C3 & _). destruct S4 as (A4 & B4 & C4). split; [cbn; congruence|split; [cbn; congruence|split]].
      * intros l' Hn. cbn. rewrite lookup_insert_ne by congruence. rewrite A4. apply C3, Hn.
      * exists c. eexists. split; [exact Hc|]. cbn. rewrite lookup_insert. split; [reflexivity|].
        rewrite zlen_app, Lsub, Lf. split; [lia|]. split.
        -- apply Forall_app; split; [apply Forall_zsub, Hlive|apply repeat_live].
        -- eapply ghost_eq; [exact (ghost_trans _ _ _ _ _ _ _ _ _ G3 G4)| | |]; try reflexivity; lia.
    + eexists. cbn. rewrite lookup_insert. split; [reflexivity|]. cbn. rewrite zlen_app, Lsub, Lf. split; [lia|].
      rewrite zsub_app_l by lia. rewrite <- Lsub at 1. apply zsub_all.
  - rewrite u64_id by (unfold max_alloc, W64 in *; lia).
    destruct (zlen (e_buf c) - off <? newSize) eqn:Ec.
    + eapply runs_bind with (P' := fun _ s' => only l s s' /\ exists c', e_heap s' !! l = Some c' /\ zlen (e_buf c') = zlen (e_buf c) /\
        zsub 0 len (e_buf c') = zsub off len (e_buf c)).
      * eapply runs_conseq; [apply (move_down_runs t (Z.to_nat len) l off 0 s c Hw Hc); lia| |]; cbn beta.
        -- intros _ s' (H1 & c' & Hc' & L' & _ & N'). split; [exact H1|]. exists c'. split; [exact Hc'|]. split; [exact L'|].
           apply zlist_ext_opt; intros p. rewrite !znth_zsub.
           repeat match goal with |- context [if ?b then _ else _] => destruct b eqn:? end; try lia; try reflexivity.
           replace (p + Z.max 0 0) with (0 + p) by lia. replace (p + Z.max 0 off) with (off + p) by lia. apply N'; lia.
        -- intros _ s' ([T G] & Em). exists [], 0. split; [exact T|]. split; [exact G|]. rewrite Em; discriminate.
      * cbn beta. intros _ s' (H1 & c' & Hc' & L' & N'). apply runs_ret. split; [exact (only_swell l s s' c Hw Hc H1)|]. split; [lia|].
        exists c'. split; [exact Hc'|]. split; [lia|exact N'].
    + apply runs_ret. split; [exact (only_swell l s s c Hw Hc (only_refl l s))|]. split; [exact Ho|]. exists c. split; [exact Hc|]. split; [lia|reflexivity].
Qed.
End LS.
