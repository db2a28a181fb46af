(** Element lifetimes: what an array shows after calls that return. *)
From Verif Require Import RcaInv LifeModel LifeSpec LifeLeaves LifeInv LifeStep LifeOps LifeCalls LifeMain LifeThm.
From Coq Require Import ZifyBool.
Open Scope Z_scope.

Section Keep.
Context {V : Type}.
Implicit Types (s : estate V) (x y : var) (l : loc) (c : ecell V) (b w : list (slot V)).
Notation St := (estate V).
Variable t : ety V.
Ltac ifs := repeat match goal with |- context [if ?b then _ else _] => destruct b eqn:? end; try lia.

Lemma znth_one p i v b : 0 <= i < zlen b -> znth p (zupd i [Live v] b) = if p =? i then Some (Live v) else znth p b.
Proof.
  intros Hi. rewrite znth_zupd by (rewrite ?zlen_cons, ?zlen_nil; lia). rewrite zlen_cons, zlen_nil. ifs; try reflexivity.
  replace (p - i) with 0 by lia. reflexivity.
Qed.
Lemma copy_up_view n : forall ls i ld j s cs cd, winv s -> ls <> ld -> e_heap s !! ls = Some cs -> e_heap s !! ld = Some cd ->
  0 <= i -> i + Z.of_nat n <= zlen (e_buf cs) -> 0 <= j -> j + Z.of_nat n <= zlen (e_buf cd) ->
  runs (copy_up t n ls i ld j) s
    (fun _ s' => only ld s s' /\ exists c', e_heap s' !! ld = Some c' /\ zlen (e_buf c') = zlen (e_buf cd) /\
       forall p, znth p (e_buf c') = if (j <=? p) && (p <? j + Z.of_nat n) then znth (i + (p - j)) (e_buf cs) else znth p (e_buf cd)) (fun _ _ => True).
Proof.
  induction n as [|n IH]; intros ls i ld j s cs cd Hw Hne Hs Hd Hi Hi' Hj Hj'; cbn [copy_up].
  - apply runs_ret. split; [apply only_refl|]. exists cd. split; [exact Hd|]. split; [reflexivity|]. intros p. ifs. reflexivity.
  - destruct (get_slot_ok s ls cs i Hw Hs) as (v & Hv & Hg); [lia|]. eapply runs_step; [exact Hg|].
    eapply runs_bind with (P' := fun _ s' => nop s s'); [apply attempt_runs; auto|].
    intros _ s1 Hn. pose proof (nop_only ld _ _ Hn) as H1. pose proof (only_winv _ _ _ H1 Hw) as Hw1. destruct Hn as [(A & _) _].
    destruct (set_slot_ok s1 ld cd j v Hw1) as (s2 & E2 & T2 & G2 & Hc2); [congruence|lia|].
    eapply runs_step; [exact E2|]. assert (only ld s1 s2) as H2 by (split; assumption).
    pose proof (only_winv _ _ _ H2 Hw1) as Hw2. pose proof (only_trans _ _ _ _ H1 H2) as H12.
    assert (e_heap s2 !! ls = Some cs) as Hs2 by (destruct T2 as (_ & _ & B & _); rewrite B by exact Hne; congruence).
    assert (zlen (zupd j [Live v] (e_buf cd)) = zlen (e_buf cd)) as Lz by (apply zlen_zupd; [lia|rewrite zlen_cons, zlen_nil; lia]).
    eapply runs_conseq; [apply (IH ls (i + 1) ld (j + 1) s2 cs _ Hw2 Hne Hs2 Hc2); cbn [e_buf]; lia| |]; cbn beta; [|auto].
    intros _ s3 (H3 & c' & Hc' & Hz & Hp). split; [exact (only_trans _ _ _ _ H12 H3)|]. exists c'. split; [exact Hc'|]. cbn [e_buf] in *. split; [lia|].
    intros p. rewrite Hp, znth_one by lia. ifs; try reflexivity.
    + f_equal. lia.
    + replace (i + (p - j)) with i by lia. congruence.
Qed.
Lemma shift_up_view n : forall l i k s c, winv s -> e_heap s !! l = Some c -> 0 <= i -> 0 < k -> i + Z.of_nat n + k <= zlen (e_buf c) ->
  runs (shift_up t n l i k) s
    (fun _ s' => only l s s' /\ exists c', e_heap s' !! l = Some c' /\ zlen (e_buf c') = zlen (e_buf c) /\
       forall p, znth p (e_buf c') = if (i + k <=? p) && (p <? i + k + Z.of_nat n) then znth (p - k) (e_buf c) else znth p (e_buf c)) (fun _ _ => True).
Proof.
  induction n as [|n IH]; intros l i k s c Hw Hc Hi Hk Hi'; cbn [shift_up].
  - apply runs_ret. split; [apply only_refl|]. exists c. split; [exact Hc|]. split; [reflexivity|]. intros p. ifs. reflexivity.
  - destruct (get_slot_ok s l c (i + Z.of_nat n) Hw Hc) as (v & Hv & Hg); [lia|]. eapply runs_step; [exact Hg|].
    eapply runs_bind with (P' := fun _ s' => nop s s'); [apply attempt_runs; auto|].
    intros _ s1 Hn. pose proof (nop_only l _ _ Hn) as H1. pose proof (only_winv _ _ _ H1 Hw) as Hw1. destruct Hn as [(A & _) _].
    destruct (set_slot_ok s1 l c (i + Z.of_nat n + k) v Hw1) as (s2 & E2 & T2 & G2 & Hc2); [congruence|lia|].
    eapply runs_step; [exact E2|]. assert (only l s1 s2) as H2 by (split; assumption).
    pose proof (only_winv _ _ _ H2 Hw1) as Hw2. pose proof (only_trans _ _ _ _ H1 H2) as H12.
    assert (zlen (zupd (i + Z.of_nat n + k) [Live v] (e_buf c)) = zlen (e_buf c)) as Lz by (apply zlen_zupd; [lia|rewrite zlen_cons, zlen_nil; lia]).
    eapply runs_conseq; [apply (IH l i k s2 _ Hw2 Hc2); cbn [e_buf]; lia| |]; cbn beta; [|auto].
    intros _ s3 (H3 & c' & Hc' & Hz & Hp). split; [exact (only_trans _ _ _ _ H12 H3)|]. exists c'. split; [exact Hc'|]. cbn [e_buf] in *. split; [lia|].
    intros p. rewrite Hp, !znth_one by lia. ifs; try reflexivity. replace (p - k) with (i + Z.of_nat n) by lia. congruence.
Qed.

(** Copy on write keeps the elements. *)
Lemma ecow_view x n s d o : winv s -> bal d s -> e_env s !! x = Some o -> ~ unshared s o -> o_len o <= n ->
  runs (ecow t x n) s (fun _ s' => view s' x = view s x) (fun _ _ => True).
Proof.
  intros Hw Hb Hx Hsh Hn.
  assert (exists l c, o_ref o = Some l /\ e_heap s !! l = Some c /\ 1 < e_refs c) as (l & c & Hr & Hc & H1).
  { destruct (o_ref o) as [l|] eqn:Er; [|contradiction Hsh; intros ? ? ?; congruence].
    destruct (proj2 Hw x o Hx l Er) as (c & Hc & _). exists l, c. repeat split; auto.
    pose proof (cf_pos _ _ _ _ (proj1 Hw l c Hc)). destruct (decide (e_refs c = 1)); [|lia].
    contradiction Hsh. intros l' c' ? ?. assert (l' = l) as -> by congruence. assert (c' = c) as -> by congruence. assumption. }
  destruct (proj2 Hw x o Hx l Hr) as (c' & Hc' & P1 & P2 & P3). assert (c' = c) as -> by congruence. clear Hc'.
  unfold ecow. eapply runs_step; [apply obj_of_ok, Hx|].
  destruct (detach_step t s x o l c d Hw Hb Hx Hr Hc H1) as (s1 & E1 & G1 & Hx1 & c1 & y & oy & Hc1 & Eb & Hxy & Hy & Hry).
  eapply runs_step; [exact E1|]. pose proof G1 as (Hw1 & Hb1 & F1 & _).
  eapply runs_bind with (P' := fun _ s2 => good t true d (eq x) s s2 /\ roomy s2 x 0 n /\ e_env s2 !! y = Some oy /\ exists c2, e_heap s2 !! l = Some c2 /\ e_buf c2 = e_buf c).
  { eapply runs_conseq; [apply (reserve_runs t x n (e_grow t) s1 d obj_empty Hw1 Hb1 Hx1); [intros _; auto|intros ? ? ?; discriminate|lia]| |]; cbn beta; [|auto].
    intros _ s2 (G2 & R2 & _). split; [eapply good_trans; eassumption|]. split; [exact R2|].
    destruct G2 as (_ & _ & F2 & _). destruct (F2 y Hxy) as [Fy F]. split; [congruence|]. destruct (F oy l c1 Hy Hry Hc1) as (c2 & Hc2 & E2).
    exists c2. split; congruence. }
  cbn beta. intros _ s2 (G2 & R2 & Hy2 & c2 & Hc2 & Eb2). pose proof G2 as (Hw2 & Hb2 & _).
  rewrite Z.min_l by exact Hn.
  destruct (put_len_runs t s2 x 0 n (o_len o) d Hw2 Hb2 R2) as (s3 & E3 & G3 & R3); [lia|].
  eapply runs_step; [exact E3|]. pose proof G3 as (Hw3 & Hb3 & F3 & _).
  assert (exists c3, e_heap s3 !! l = Some c3 /\ e_buf c3 = e_buf c) as (c3 & Hc3 & Eb3).
  { exists c2. unfold put_len, bind in E3. destruct (obj_of x s2) as [a s2'| | | |] eqn:Eo; try discriminate.
    unfold obj_of in Eo. destruct (e_env s2 !! x); [|discriminate]. injection Eo as <- <-. cbn in E3. injection E3 as <-. cbn. auto. }
  destruct (roomy_ok _ _ _ _ Hw3 R3) as (o3 & l3 & cc & Hx3 & Hr3 & Hl3 & Hcc & Q1 & Q2 & Q3 & Hm3).
  assert (l <> l3) as Hne. { intros <-. apply Hxy. apply (Hm3 y oy); [|exact Hry]. destruct (F3 y Hxy) as [-> _]. exact Hy2. }
  assert (view s x = Some (zsub (o_off o) (o_len o) (e_buf c))) as -> by (unfold view; rewrite Hx, Hr, Hc; reflexivity).
  eapply at_place_runs; [exact Hx3|exact Hr3| |].
  - intros Hpos. rewrite Hr. eapply runs_conseq.
    + apply (copy_up_view (Z.to_nat (o_len o)) l (o_off o) l3 (o_off o3 + 0) s3 c3 cc Hw3 Hne Hc3 Hcc); try lia. rewrite Eb3; lia.
    + cbn beta. intros _ s4 ((T4 & _) & c4 & Hc4 & _ & Hp). unfold view. destruct T4 as (-> & _). rewrite Hx3, Hr3, Hc4, Hl3. f_equal.
      apply zlist_ext_opt. intros p. rewrite !znth_zsub. destruct ((0 <=? p) && (p <? o_len o)) eqn:Ep; [|reflexivity].
      rewrite Hp, Eb3. rewrite !Z.max_r by lia. ifs. f_equal. lia.
    + auto.
  - intros H0. unfold view. rewrite Hx3, Hr3, Hcc, Hl3. rewrite !zsub_0 by lia. reflexivity.
Qed.
Lemma modify_view x n s d o : winv s -> bal d s -> e_env s !! x = Some o -> okobj o -> 0 <= n -> o_len o <= n ->
  runs (modify t x n) s (fun _ s' => good t true d (eq x) s s' /\ roomy s' x (o_len o) n /\ view s' x = view s x) (fun _ _ => True).
Proof.
  intros Hw Hb Hx Hok H0 Hn. pose proof (modify_runs t x n s d o Hw Hb Hx Hok H0 Hn) as M.
  assert (runs (modify t x n) s (fun _ s' => view s' x = view s x) (fun _ _ => True)) as W.
  { unfold modify. destruct (shared_eq s x o Hw Hx) as (b & Es & Hf & Ht). eapply runs_step; [exact Es|]. destruct b.
    - apply (ecow_view x n s d o Hw Hb Hx (Ht eq_refl) Hn).
    - eapply runs_conseq; [apply (reserve_runs t x n (e_grow t) s d o Hw Hb Hx Hok (Hf eq_refl) H0)| |]; cbn beta; [tauto|auto]. }
  unfold runs in *. destruct (modify t x n s) as [[] s'|e s'| | |]; try contradiction; [|auto]. destruct M as (G & R & _). auto.
Qed.

(** What an array shows, when it has room of its own. *)
Lemma view_roomy s x len n : winv s -> roomy s x len n -> exists o l c, e_env s !! x = Some o /\ o_ref o = Some l /\ o_len o = len /\
  e_heap s !! l = Some c /\ 0 <= o_off o /\ 0 <= len /\ o_off o + Z.max n len <= zlen (e_buf c) /\ view s x = Some (zsub (o_off o) len (e_buf c)).
Proof.
  intros Hw R. destruct (roomy_ok _ _ _ _ Hw R) as (o & l & c & Hx & Hr & Hl & Hc & P1 & P2 & P3 & _). exists o, l, c.
  repeat split; auto. unfold view. rewrite Hx, Hr, Hc, Hl. reflexivity.
Qed.
Lemma write_view x pos v s o l c : winv s -> e_env s !! x = Some o -> o_ref o = Some l -> e_heap s !! l = Some c ->
  0 <= o_off o -> 0 <= o_off o + pos < zlen (e_buf c) ->
  runs (let* p := place x pos in attempt t ;;; set_slot (fst p) (snd p) (Some v)) s
    (fun _ s' => winv s' /\ e_env s' = e_env s /\ e_heap s' !! l = Some (ECell (zupd (o_off o + pos) [Live (Some v)] (e_buf c)) (e_refs c))) (fun _ _ => True).
Proof.
  intros Hw Hx Hr Hc H0 Hp. eapply runs_step; [unfold place, bind; rewrite (obj_of_ok _ _ _ Hx), Hr; reflexivity|]. cbn [fst snd].
  eapply runs_bind with (P' := fun _ s' => nop s s'); [apply attempt_runs; auto|].
  intros _ s1 Hn. pose proof (only_winv _ _ _ (nop_only l _ _ Hn) Hw) as Hw1. destruct Hn as [(A & B & _) _].
  destruct (set_slot_ok s1 l c (o_off o + pos) (Some v) Hw1) as (s2 & E2 & T2 & G2 & Hc2); [congruence|lia|].
  unfold runs. rewrite E2. split; [exact (touch_winv _ _ _ T2 Hw1)|]. split; [|exact Hc2]. destruct T2 as (C & _). congruence.
Qed.
Lemma einsert_view d x len pos v s w : winv s -> bal d s -> stays s x len -> 0 <= pos -> view s x = Some w ->
  runs (einsert t x pos v) s (fun _ s' => view s' x = Some (ztake pos w ++ [Live (Some v)] ++ zdrop pos w)) (fun _ _ => True).
Proof.
  intros Hw Hb Hs Hp Hv. pose proof (stays_nonneg _ _ _ Hw Hs) as H0. pose proof Hs as (o & Hx & Hok & Hl). unfold einsert, check.
  destruct (len <? pos) eqn:E.
  { eapply runs_bind with (P' := fun _ _ => False); [|intros _ ? []]. eapply runs_step; [apply obj_of_ok, Hx|]. rewrite Hl, E. apply runs_throw. exact I. }
  eapply runs_step; [unfold bind; rewrite (obj_of_ok _ _ _ Hx), Hl, E; reflexivity|]. eapply runs_step; [apply obj_of_ok, Hx|]. rewrite Hl.
  eapply runs_bind; [apply (modify_view x (len + 1) s d o Hw Hb Hx Hok); lia|]. cbn beta. rewrite Hl. intros _ s1 ((Hw1 & Hb1 & _) & R1 & V1).
  destruct (view_roomy _ _ _ _ Hw1 R1) as (o1 & l & c1 & Hx1 & Hr1 & Hl1 & Hc1 & P1 & _ & P3 & V1').
  assert (w = zsub (o_off o1) len (e_buf c1)) as -> by congruence.
  eapply runs_bind with (P' := fun _ s2 => winv s2 /\ e_env s2 = e_env s1 /\ exists c2, e_heap s2 !! l = Some c2 /\ zlen (e_buf c2) = zlen (e_buf c1) /\
    forall p, znth p (e_buf c2) = if (o_off o1 + pos + 1 <=? p) && (p <? o_off o1 + len + 1) then znth (p - 1) (e_buf c1) else znth p (e_buf c1)).
  { eapply at_place_runs; [exact Hx1|exact Hr1| |].
    - intros Hpos. eapply runs_conseq; [apply (shift_up_view (Z.to_nat (len - pos)) l (o_off o1 + pos) 1 s1 c1 Hw1 Hc1); lia| |]; cbn beta; [|auto].
      intros _ s2 ((T2 & G2) & c2 & Hc2 & Hz & Hn). split; [exact (touch_winv _ _ _ T2 Hw1)|]. destruct T2 as (A & _). split; [exact A|]. exists c2. split; [exact Hc2|]. split; [exact Hz|].
      intros p. rewrite Hn, Z2Nat.id by lia. replace (o_off o1 + pos + 1 + (len - pos)) with (o_off o1 + len + 1) by lia. reflexivity.
    - intros Hpos. split; [exact Hw1|]. split; [reflexivity|]. exists c1. split; [exact Hc1|]. split; [reflexivity|]. intros p. ifs. reflexivity. }
  cbn beta. intros _ s2 (Hw2 & A2 & c2 & Hc2 & Hz2 & Hn2). assert (e_env s2 !! x = Some o1) as Hx2 by congruence.
  pose proof (write_view x pos v s2 o1 l c2 Hw2 Hx2 Hr1 Hc2 P1 ltac:(lia)) as W.
  assert (runs ((let* p := place x pos in attempt t ;;; set_slot (fst p) (snd p) (Some v)) ;;; put_len x (len + 1)) s2
    (fun _ s' => view s' x = Some (ztake pos (zsub (o_off o1) len (e_buf c1)) ++ [Live (Some v)] ++ zdrop pos (zsub (o_off o1) len (e_buf c1)))) (fun _ _ => True)) as Q.
  { eapply runs_bind; [exact W|]. cbn beta. intros _ s3 (Hw3 & A3 & Hc3). assert (e_env s3 !! x = Some o1) as Hx3 by congruence.
    unfold put_len. eapply runs_step; [apply obj_of_ok, Hx3|]. unfold runs, put_obj, upd. rewrite view_put. cbn [o_ref o_off o_len]. rewrite Hr1, Hc3. cbn [e_buf]. f_equal.
    assert (zlen (zsub (o_off o1) len (e_buf c1)) = len) as Lz by (rewrite zlen_zsub; lia).
    apply zlist_ext_opt. intros p. rewrite znth_zsub, znth_app, zlen_ztake, Lz. rewrite Z.min_l by lia. rewrite Z.max_r by lia.
    destruct ((0 <=? p) && (p <? len + 1)) eqn:Ep.
    - rewrite znth_one by lia. rewrite Hn2. destruct (p <? pos) eqn:E1.
      + rewrite znth_ztake, znth_zsub by lia. ifs. f_equal. lia.
      + rewrite znth_app, zlen_cons, zlen_nil. destruct (p - Z.max 0 pos <? 1 + 0) eqn:E2; ifs; try reflexivity.
        * replace (p - Z.max 0 pos) with 0 by lia. reflexivity.
        * rewrite znth_zdrop, znth_zsub by lia. ifs. f_equal. lia.
    - symmetry. ifs.
      + rewrite znth_ztake by lia. ifs. rewrite znth_zsub. ifs. reflexivity.
      + rewrite znth_app, zlen_cons, zlen_nil. ifs. rewrite znth_zdrop, znth_zsub by lia. ifs. reflexivity. }
  unfold runs, bind in Q |- *. destruct (place x pos s2) as [p s3| | | |]; auto. destruct (attempt t s3) as [[] s4| | | |]; auto.
Qed.

Lemma runs_and {A} (m : M St A) s (P Q : A -> St -> Prop) (E F : exn -> St -> Prop) : runs m s P E -> runs m s Q F -> runs m s (fun a s' => P a s' /\ Q a s') (fun _ _ => True).
Proof. unfold runs. destruct (m s); tauto. Qed.
Lemma own_copy_view d x len s w : winv s -> bal d s -> stays s x len -> view s x = Some w ->
  runs (own_copy t x) s (fun _ s' => winv s' /\ bal d s' /\ stays s' x len /\ view s' x = Some w /\ roomy s' x len len) (fun _ _ => True).
Proof.
  intros Hw Hb Hs Hv. pose proof (stays_nonneg _ _ _ Hw Hs) as H0. destruct Hs as (o & Hx & Hok & Hl). unfold own_copy. eapply runs_step; [apply obj_of_ok, Hx|]. rewrite Hl.
  eapply runs_conseq; [apply (modify_view x len s d o Hw Hb Hx Hok); lia| |]; cbn beta; [|auto]. rewrite Hl. intros _ s' ((W & B & _) & R & V').
  split; [exact W|]. split; [exact B|]. split; [|split; [congruence|exact R]]. destruct R as (o' & l & c & Hx' & Hr & Hl' & _). exists o'. repeat split; auto; congruence.
Qed.
Lemma ewrite_view d x len pos v s w : winv s -> bal d s -> stays s x len -> 0 <= pos < len -> view s x = Some w ->
  runs (ewrite t x pos v) s (fun _ s' => view s' x = Some (ztake pos w ++ [Live (Some v)] ++ zdrop (pos + 1) w)) (fun _ _ => True).
Proof.
  intros Hw Hb Hs Hp Hv. unfold ewrite. eapply runs_bind; [apply (own_copy_view d x len s w Hw Hb Hs Hv)|]. cbn beta. intros _ s1 (Hw1 & _ & _ & V1 & R1).
  destruct (view_roomy _ _ _ _ Hw1 R1) as (o1 & l & c1 & Hx1 & Hr1 & Hl1 & Hc1 & P1 & _ & P3 & V1').
  assert (w = zsub (o_off o1) len (e_buf c1)) as -> by congruence.
  eapply runs_conseq; [apply (write_view x pos v s1 o1 l c1 Hw1 Hx1 Hr1 Hc1 P1 ltac:(lia))| |]; cbn beta; [|auto].
  intros _ s2 (_ & A & Hc2). unfold view. rewrite A, Hx1, Hr1, Hc2, Hl1. cbn [e_buf]. f_equal.
  assert (zlen (zsub (o_off o1) len (e_buf c1)) = len) as Lz by (rewrite zlen_zsub; lia).
  apply zlist_ext_opt. intros p. rewrite znth_zsub, znth_app, zlen_ztake, Lz. rewrite Z.min_l by lia. rewrite (Z.max_r 0 (o_off o1)) by lia.
  destruct ((0 <=? p) && (p <? len)) eqn:Ep.
  - rewrite znth_one by lia. destruct (p <? pos) eqn:E1.
    + rewrite znth_ztake, znth_zsub. ifs. f_equal. lia.
    + rewrite znth_app, zlen_cons, zlen_nil. ifs; try reflexivity.
      * replace (p - Z.max 0 pos) with 0 by lia. reflexivity.
      * rewrite znth_zdrop, znth_zsub. ifs. f_equal. lia.
  - symmetry. ifs.
    + rewrite znth_ztake. ifs. rewrite znth_zsub. ifs. reflexivity.
    + rewrite znth_app, zlen_cons, zlen_nil. ifs. rewrite znth_zdrop, znth_zsub. ifs. reflexivity.
Qed.
Lemma view_len s x len w : winv s -> stays s x len -> view s x = Some w -> zlen w = len.
Proof.
  intros Hw (o & Hx & Hok & Hl) Hv. unfold view in Hv. rewrite Hx in Hv. destruct (o_ref o) as [l|] eqn:Er.
  - destruct (proj2 Hw x o Hx l Er) as (c & Hc & P1 & P2 & P3). rewrite Hc in Hv. injection Hv as <-. rewrite zlen_zsub. lia.
  - injection Hv as <-. destruct (Hok Er) as [_ Q]. rewrite zlen_nil. lia.
Qed.
Lemma insert_each_view d x vs : forall len pos s w, winv s -> bal d s -> stays s x len -> 0 <= pos <= len -> view s x = Some w ->
  runs (insert_each t x pos vs) s (fun _ s' => winv s' /\ bal d s' /\ stays s' x (len + zlen vs) /\ view s' x = Some (ztake pos w ++ map (fun v => Live (Some v)) vs ++ zdrop pos w)) (fun _ _ => True).
Proof.
  induction vs as [|v vs IH]; intros len pos s w Hw Hb Hs Hp Hv; cbn [insert_each].
  - apply runs_ret. rewrite zlen_nil, Z.add_0_r. split; [exact Hw|]. split; [exact Hb|]. split; [exact Hs|]. cbn [map app]. unfold ztake, zdrop. rewrite firstn_skipn. exact Hv.
  - pose proof (view_len _ _ _ _ Hw Hs Hv) as Lw. eapply runs_bind; [apply (own_copy_view d x len s w Hw Hb Hs Hv)|]. cbn beta. intros _ s1 (Hw1 & Hb1 & Hs1 & Hv1 & _).
    eapply runs_bind; [apply (runs_and _ _ _ _ _ _ (einsert_calls t d x len pos v s1 Hw1 Hb1 Hs1 ltac:(lia)) (einsert_view d x len pos v s1 w Hw1 Hb1 Hs1 ltac:(lia) Hv1))|].
    cbn beta. intros _ s2 (((Hw2 & Hb2 & _) & Hs2) & Hv2).
    eapply runs_bind; [apply (own_copy_view d x (len + 1) s2 _ Hw2 Hb2 Hs2 Hv2)|]. cbn beta. intros _ s3 (Hw3 & Hb3 & Hs3 & Hv3 & _).
    eapply runs_conseq; [apply (IH (len + 1) (pos + 1) s3 _ Hw3 Hb3 Hs3 ltac:(lia) Hv3)| |]; cbn beta; [|auto].
    intros _ s4 (Hw4 & Hb4 & Hs4 & Hv4). split; [exact Hw4|]. split; [exact Hb4|]. rewrite zlen_cons. replace (len + (1 + zlen vs)) with (len + 1 + zlen vs) by lia. split; [exact Hs4|].
    rewrite Hv4. f_equal. cbn [map].
    assert (zlen (ztake pos w ++ [Live (Some v)]) = pos + 1) as L1 by (rewrite zlen_app, zlen_ztake, zlen_cons, zlen_nil; lia).
    rewrite (app_assoc (ztake pos w) [Live (Some v)] (zdrop pos w)).
    assert (ztake (pos + 1) ((ztake pos w ++ [Live (Some v)]) ++ zdrop pos w) = ztake pos w ++ [Live (Some v)]) as -> by (rewrite <- L1; apply ztake_app_exact).
    assert (zdrop (pos + 1) ((ztake pos w ++ [Live (Some v)]) ++ zdrop pos w) = zdrop pos w) as -> by (rewrite <- L1; apply zdrop_app_exact).
    rewrite <- app_assoc. reflexivity.
Qed.
Lemma einsert_range_view d x len pos vs s w : winv s -> bal d s -> stays s x len -> 0 <= pos <= len -> view s x = Some w ->
  runs (einsert_range t x pos vs) s (fun _ s' => view s' x = Some (ztake pos w ++ map (fun v => Live (Some v)) vs ++ zdrop pos w)) (fun _ _ => True).
Proof.
  intros Hw Hb Hs Hp Hv. pose proof (zlen_nonneg vs). pose proof Hs as (o & Hx & Hok & Hl). unfold einsert_range. eapply runs_step; [apply obj_of_ok, Hx|]. rewrite Hl.
  eapply runs_bind; [apply (modify_view x (len + zlen vs) s d o Hw Hb Hx Hok); lia|]. cbn beta. rewrite Hl. intros _ s1 ((Hw1 & Hb1 & _) & R1 & V1).
  assert (stays s1 x len) as Hs1 by (destruct R1 as (o' & l & c & Hx' & Hr & Hl' & _); exists o'; repeat split; auto; congruence).
  eapply runs_bind; [apply (insert_each_view d x vs len pos s1 w Hw1 Hb1 Hs1 Hp); congruence|]. cbn beta. intros _ s2 (Hw2 & Hb2 & Hs2 & Hv2).
  eapply runs_conseq; [apply (own_copy_view d x _ s2 _ Hw2 Hb2 Hs2 Hv2)| |]; cbn beta; tauto.
Qed.
Lemma take_view x pos s o len : winv s -> e_env s !! x = Some o -> okobj o -> o_len o = len -> 0 <= pos < len ->
  runs (take t x pos) s (fun _ s' => e_env s' = e_env s /\ exists l c c', o_ref o = Some l /\ e_heap s !! l = Some c /\ e_heap s' !! l = Some c' /\
    0 <= o_off o /\ o_off o + len <= zlen (e_buf c) /\ forall p, p <> o_off o + pos -> znth p (e_buf c') = znth p (e_buf c)) (fun _ _ => True).
Proof.
  intros Hw Hx Hok Hl Hp. destruct (o_ref o) as [l|] eqn:Er; [|destruct (Hok Er); lia]. destruct (proj2 Hw x o Hx l Er) as (c & Hc & P1 & P2 & P3).
  unfold take. destruct (shared_eq s x o Hw Hx) as (b & Es & _). eapply runs_step; [exact Es|].
  eapply runs_step; [unfold place, bind; rewrite (obj_of_ok _ _ _ Hx), Er; reflexivity|]. cbn [fst snd].
  destruct (get_slot_ok s l c (o_off o + pos) Hw Hc) as (v & _ & Hg); [lia|]. eapply runs_step; [exact Hg|].
  eapply runs_bind with (P' := fun _ s' => e_env s' = e_env s /\ exists c', e_heap s' !! l = Some c' /\ forall p, p <> o_off o + pos -> znth p (e_buf c') = znth p (e_buf c)).
  { destruct (b || negb (e_moves t)).
    - apply attempt_runs; [|auto]. intros s' ((A & B & _) & _). split; [exact B|]. exists c. rewrite A. auto.
    - destruct (set_slot_ok s l c (o_off o + pos) None Hw Hc) as (s2 & E2 & (T2 & _) & _ & Hc2); [lia|]. unfold runs. rewrite E2. split; [exact T2|]. eexists. split; [exact Hc2|].
      intros p Hne. cbn [e_buf]. rewrite znth_one by lia. ifs. reflexivity. }
  cbn beta. intros _ s1 (A & c' & Hc' & Hn). unfold runs; cbn. split; [exact A|]. exists l, c, c'. repeat split; auto; lia.
Qed.
Lemma eshift_view x len s w : winv s -> stays s x len -> 0 < len -> view s x = Some w -> runs (eshift t x) s (fun _ s' => view s' x = Some (zdrop 1 w)) (fun _ _ => True).
Proof.
  intros Hw (o & Hx & Hok & Hl) H0 Hv. unfold eshift. eapply runs_bind; [apply (take_view x 0 s o len Hw Hx Hok Hl); lia|]. cbn beta.
  intros _ s1 (A & l & c & c' & Hr & Hc & Hc' & P1 & P2 & Hn). eapply runs_step; [apply obj_of_ok; rewrite A; exact Hx|]. unfold runs, put_obj, upd. rewrite view_put. cbn [o_ref o_off o_len].
  rewrite Hr, Hc'. unfold view in Hv. rewrite Hx, Hr, Hc in Hv. injection Hv as <-. f_equal. apply zlist_ext_opt. intros p. rewrite znth_zsub, znth_zdrop, znth_zsub, Hl.
  ifs; try reflexivity. rewrite Hn by lia. f_equal. lia.
Qed.
Lemma epop_view x len s w : winv s -> stays s x len -> 0 < len -> view s x = Some w -> runs (epop t x) s (fun _ s' => view s' x = Some (ztake (len - 1) w)) (fun _ _ => True).
Proof.
  intros Hw (o & Hx & Hok & Hl) H0 Hv. unfold epop. eapply runs_step; [apply obj_of_ok, Hx|]. rewrite Hl. eapply runs_bind; [apply (take_view x (len - 1) s o len Hw Hx Hok Hl); lia|]. cbn beta.
  intros _ s1 (A & l & c & c' & Hr & Hc & Hc' & P1 & P2 & Hn). unfold put_len. eapply runs_step; [apply obj_of_ok; rewrite A; exact Hx|]. unfold runs, put_obj, upd. rewrite view_put. cbn [o_ref o_off o_len].
  rewrite Hr, Hc'. unfold view in Hv. rewrite Hx, Hr, Hc in Hv. injection Hv as <-. f_equal. apply zlist_ext_opt. intros p. rewrite znth_zsub, znth_ztake, znth_zsub, Hl.
  ifs; try reflexivity. rewrite Hn by lia. f_equal.
Qed.
Lemma eslice_view x len s w a n : winv s -> stays s x len -> 0 <= a -> 0 <= n -> view s x = Some w -> runs (eslice x a n) s (fun _ s' => view s' x = Some (zsub a n w)) (fun _ _ => True).
Proof.
  intros Hw Hs Ha Hn Hv. pose proof (view_len _ _ _ _ Hw Hs Hv) as Lw. destruct Hs as (o & Hx & Hok & Hl). unfold eslice. eapply runs_step; [apply obj_of_ok, Hx|]. rewrite Hl.
  unfold view in Hv. rewrite Hx in Hv. destruct (o_ref o) as [l|] eqn:Er.
  - destruct (proj2 Hw x o Hx l Er) as (c & Hc & P1 & P2 & P3). rewrite Hc in Hv. injection Hv as <-.
    destruct (len <=? a) eqn:E; unfold runs, put_obj, upd; rewrite view_put; cbn [o_ref o_off o_len]; rewrite Hc; f_equal; apply zlist_ext_opt; intros p; rewrite !znth_zsub, ?Hl; ifs; try reflexivity.
    f_equal. lia.
  - injection Hv as <-. destruct (Hok Er) as [_ Q]. assert (zsub a n (@nil (slot V)) = []) as -> by (unfold zsub, ztake, zdrop; rewrite skipn_nil, firstn_nil; reflexivity).
    destruct (len <=? a); unfold runs, put_obj, upd; rewrite view_put; reflexivity.
Qed.
Lemma eresize_view d x len n s w : winv s -> bal d s -> stays s x len -> 0 <= n -> view s x = Some w ->
  runs (eresize t x n) s (fun _ s' => exists w', view s' x = Some w' /\ zlen w' = n /\ ztake (Z.min n len) w' = ztake n w) (fun _ _ => True).
Proof.
  intros Hw Hb Hs Hn Hv. pose proof (view_len _ _ _ _ Hw Hs Hv) as Lw. pose proof (stays_nonneg _ _ _ Hw Hs) as H0. pose proof Hs as (o & Hx & Hok & Hl).
  unfold eresize. eapply runs_step; [apply obj_of_ok, Hx|]. rewrite Hl. destruct (n <? len) eqn:E.
  - unfold put_len. eapply runs_step; [apply obj_of_ok, Hx|]. unfold runs, put_obj, upd. rewrite view_put. cbn [o_ref o_off o_len]. unfold view in Hv. rewrite Hx in Hv.
    destruct (o_ref o) as [l|] eqn:Er; [|destruct (Hok Er); lia]. destruct (proj2 Hw x o Hx l Er) as (c & Hc & P1 & P2 & P3). rewrite Hc in *. injection Hv as <-.
    eexists. split; [reflexivity|]. split; [rewrite zlen_zsub; lia|]. apply zlist_ext_opt. intros p. rewrite !znth_ztake, !znth_zsub. ifs; reflexivity.
  - eapply runs_bind; [apply (modify_view x n s d o Hw Hb Hx Hok); lia|]. cbn beta. rewrite Hl. intros _ s1 ((Hw1 & Hb1 & _) & R1 & V1).
    destruct (view_roomy _ _ _ _ Hw1 R1) as (o1 & l & c1 & Hx1 & Hr1 & Hl1 & Hc1 & P1 & _ & P3 & V1').
    assert (w = zsub (o_off o1) len (e_buf c1)) as -> by congruence. unfold put_len. eapply runs_step; [apply obj_of_ok, Hx1|]. unfold runs, put_obj, upd. rewrite view_put. cbn [o_ref o_off o_len].
    rewrite Hr1, Hc1. eexists. split; [reflexivity|]. split; [rewrite zlen_zsub; lia|]. apply zlist_ext_opt. intros p. rewrite !znth_ztake, !znth_zsub. ifs; reflexivity.
Qed.
Lemma ereplace_view d x len pos v s w : winv s -> bal d s -> stays s x len -> 0 <= pos < len -> view s x = Some w ->
  runs (ereplace t x pos v) s (fun _ s' => view s' x = Some (ztake pos w ++ [Live (Some v)] ++ zdrop (pos + 1) w)) (fun _ _ => True).
Proof.
  intros Hw Hb Hs Hp Hv. pose proof Hs as (o & Hx & Hok & Hl). unfold ereplace. eapply runs_step; [|apply (ewrite_view d x len pos v s w Hw Hb Hs Hp Hv)].
  unfold check, bind. rewrite (obj_of_ok _ _ _ Hx), Hl. ifs. reflexivity.
Qed.
Lemma returned (o : eop) x s s' w : reached t s -> proper t o s -> edits o = Some x -> view s x = Some w -> eexec t o s = Ok tt s' ->
  exists w', view s' x = Some w' /\ leaves o x w w'.
Proof.
  intros Hr Hp He Hv E. destruct (reached_ok t s Hr) as [Hw Hb].
  assert (forall y, usable s y -> exists len, stays s y len /\ (forall P, len_is s y P -> P len)) as Hu.
  { intros y (a & Hy & Ha). exists (o_len a). split; [exists a; auto|]. intros P HP. exact (HP a Hy). }
  destruct o; cbn [edits] in He; try discriminate; injection He as ->; cbn [proper] in Hp; destruct Hp as [Hp0 Hp]; destruct (Hu x Hp0) as (ln & Hs & HP);
    pose proof (view_len _ _ _ _ Hw Hs Hv) as Lw; pose proof (zlen_nonneg w) as H0; cbn [eexec] in E; cbn [leaves].
  - pose proof (eresize_view 0 x ln n s w Hw Hb Hs Hp Hv) as Q. unfold runs in Q. rewrite E in Q. destruct Q as (w' & A & B & C). exists w'. rewrite Lw. auto.
  - destruct Hp as [P1 P2]. pose proof (eslice_view x ln s w _ _ Hw Hs P1 P2 Hv) as Q. unfold runs in Q. rewrite E in Q. eauto.
  - pose proof (einsert_view 0 x ln pos v s w Hw Hb Hs Hp Hv) as Q. unfold runs in Q. rewrite E in Q. eauto.
  - destruct Hp as [P1 P2]. apply HP in P2. pose proof (einsert_range_view 0 x ln pos vs s w Hw Hb Hs (conj P1 P2) Hv) as Q. unfold runs in Q. rewrite E in Q. eauto.
  - destruct Hp as [P1 P2]. apply HP in P2. pose proof (ewrite_view 0 x ln pos v s w Hw Hb Hs (conj P1 P2) Hv) as Q. unfold runs in Q. rewrite E in Q. eauto.
  - destruct Hp as [P1 P2]. apply HP in P2. pose proof (ereplace_view 0 x ln pos v s w Hw Hb Hs (conj P1 P2) Hv) as Q. unfold runs in Q. rewrite E in Q. eauto.
  - apply HP in Hp. pose proof (eshift_view x ln s w Hw Hs Hp Hv) as Q. unfold runs in Q. rewrite E in Q. eauto.
  - apply HP in Hp. pose proof (epop_view x ln s w Hw Hs Hp Hv) as Q. unfold runs in Q. rewrite E in Q. rewrite Lw. eauto.
Qed.
End Keep.
