(** An array used as a stack or as a queue is never refused memory. *)
From Coq Require Import ZifyBool.
From Verif Require Import Base RcaSpec RcaModel RcaExec RcaInv RcaOwn RcaRel RcaMeet RcaMain RcaReach GrowModel GrowProof QueueModel QueueProof.
Open Scope Z_scope.

Section Run.
Context {T : Type} (d : desc T).
Notation St := (state T).
Hypothesis Hwf : wf_desc d.
Hypothesis Hnul : d_nul d = None.
Ltac bi H a s1 E := apply bind_inv in H as (a & s1 & E & H).

Lemma bind_exn {A B} (m : M St A) (k : A -> M St B) s e s' : bind m k s = Exn e s' -> m s = Exn e s' \/ exists a s1, m s = Ok a s1 /\ k a s1 = Exn e s'.
Proof. unfold bind. destruct (m s) as [a s1|e0 s0| | |]; try discriminate; [eauto|intros [= <- <-]; auto]. Qed.
Definition calm {A} (m : M St A) : Prop := forall s e s', m s <> Exn e s'.
Lemma calm_bind {A B} (m : M St A) (k : A -> M St B) : calm m -> (forall a, calm (k a)) -> calm (bind m k).
Proof. intros H K s e s' E. apply bind_exn in E as [E|(a & s1 & _ & E)]; [exact (H _ _ _ E)|exact (K _ _ _ _ E)]. Qed.
Lemma calm_ret {A} (a : A) : calm (ret a). Proof. intros s e s' E. discriminate. Qed.
Lemma calm_undef {A} u : calm (@undef St A u). Proof. intros s e s' E. discriminate. Qed.
Lemma calm_get_obj x : calm (get_obj x). Proof. intros s e s' E. unfold get_obj in E. destruct (st_env s !! x); discriminate. Qed.
Lemma calm_set_obj x o : calm (set_obj x o). Proof. intros s e s' E. discriminate. Qed.
Lemma calm_get_cell l : calm (get_cell l). Proof. intros s e s' E. unfold get_cell in E. destruct (st_heap s !! l); discriminate. Qed.
Lemma calm_set_cell l c : calm (set_cell l c). Proof. intros s e s' E. discriminate. Qed.
Ltac calm := repeat first [apply calm_ret|apply calm_undef|apply calm_get_obj|apply calm_set_obj|apply calm_get_cell|apply calm_set_cell|apply calm_bind; [|intros ?]
  |match goal with |- calm (if ?b then _ else _) => destruct b | |- calm (match ?b with _ => _ end) => destruct b end].
Lemma calm_length x : calm (length_of x). Proof. unfold length_of. calm. Qed.
Lemma calm_load x p n : calm (load x p n). Proof. unfold load. calm. Qed.
Lemma calm_store x p es : calm (store x p es). Proof. unfold store. calm. Qed.
Lemma calm_tail x v len : calm (shift_right x len 1 ;;; store x len [Some v] ;;; add_len x 1).
Proof.
  apply calm_bind; [|intros _; apply calm_bind; [apply calm_store|intros _]].
  - unfold shift_right. apply calm_bind; [apply calm_length|intros n]. apply calm_bind; [apply calm_load|intros es]. apply calm_store.
  - unfold add_len, set_len. apply calm_bind; [apply calm_length|intros n]. calm.
Qed.
Lemma append_calm x v (s : St) e s' cap off len : own x s cap off len -> len + 1 <= cap -> exec d (AppendItem x v) s <> Exn e s'.
Proof.
  intros Hw Hc H. pose proof (own_bounds _ _ _ _ _ Hw) as B. pose proof (length_meter _ _ _ _ _ Hw) as Hlen. cbn [exec] in H. unfold unit_ in H.
  apply bind_exn in H as [H|(u & s1 & _ & H)]; [|discriminate]. unfold append_item in H.
  apply bind_exn in H as [H|(n & s1 & E & H)]; [rewrite Hlen in H; discriminate|]. rewrite Hlen in E. injection E as <- <-. unfold insert_item in H.
  apply bind_exn in H as [H|(u & s1 & E & H)].
  { unfold check_pos, validate_index in H. destruct (len =? 0) eqn:E0; [discriminate|]. apply bind_exn in H as [H|(n & s1 & E & H)]; [rewrite Hlen in H; discriminate|].
    rewrite Hlen in E. injection E as <- <-. rewrite u64_id in H by (unfold max_alloc, W64, W63 in *; lia). destruct (len <=? len - 1) eqn:E1; [lia|discriminate]. }
  assert (s1 = s) as ->.
  { unfold check_pos, validate_index in E. destruct (len =? 0); [injection E as _ <-; reflexivity|]. bi E n s2 E'. rewrite Hlen in E'. injection E' as <- <-.
    destruct (_ <=? _); [discriminate|]. injection E as _ <-. reflexivity. }
  clear E. apply bind_exn in H as [H|(n & s1 & E & H)]; [rewrite Hlen in H; discriminate|]. rewrite Hlen in E. injection E as <- <-.
  apply bind_exn in H as [H|(u2 & s1 & _ & H)]; [|exact (calm_tail _ _ _ _ _ _ H)]. unfold about_to_modify in H.
  destruct Hw as (l & h & c & Hx & Hl & Hr & Hz & _). rewrite u64_id in H by (unfold max_alloc, W64, W63 in *; lia).
  apply bind_exn in H as [H|(u3 & s1 & E & H)]. { revert H. assert (calm (let* o := get_obj (T := T) x in set_obj x (Obj (o_ref o) (o_off o) (o_len o) 0))) as K by calm. apply K. }
  bi E o s2 E2. unfold get_obj in E2. rewrite Hx in E2. injection E2 as <- <-. unfold set_obj in E. injection E as _ <-. cbn [o_ref o_off o_len] in H.
  apply bind_exn in H as [H|(sh & s1 & E & H)]. { revert H. assert (calm (is_shared (T := T) x)) as K by (unfold is_shared; calm). apply K. }
  unfold is_shared, bind, get_obj, get_cell in E. cbn [st_env st_heap with_env] in E. rewrite lookup_insert in E. cbn [o_ref st_heap with_env] in E. rewrite Hl, Hr in E. injection E as <- <-.
  unfold v_reserve in H. rewrite Hnul in H. unfold base_reserve in H.
  apply bind_exn in H as [H|(o & s1 & E & H)]; [exact (calm_get_obj _ _ _ _ H)|]. unfold get_obj in E. cbn [st_env with_env] in E. rewrite lookup_insert in E. injection E as <- <-. cbn [o_ref o_off o_len o_hash] in H.
  apply bind_exn in H as [H|(l' & s1 & E & H)]; [discriminate|]. injection E as <- <-.
  apply bind_exn in H as [H|(off' & s1 & _ & H)]; [|exact (calm_set_obj _ _ _ _ _ H)]. unfold aref_reserve in H.
  apply bind_exn in H as [H|(c' & s1 & E & H)]; [exact (calm_get_cell _ _ _ _ H)|]. unfold get_cell in E. cbn [st_heap with_env] in E. rewrite Hl in E. injection E as <- <-. rewrite Hz in H.
  destruct (cap <? len + 1) eqn:E1; [lia|]. revert H. match goal with |- ?m _ = _ -> _ => assert (calm m) as K by calm; apply K end.
Qed.
Lemma returns o (s : St) a a' v : reached d s a -> RcaMeet.step d o a = Some (SRet a' v) -> (forall e s', exec d o s <> Exn e s') -> (forall g x, o <> CStr g x) ->
  exists w s', exec d o s = Ok w s' /\ reached d s' a'.
Proof.
  intros Hre Hs He Hn. pose proof (exec_meets d o s a Hwf (reached_R d s a Hwf Hre)) as K. unfold meets in K. rewrite Hs in K.
  destruct (exec d o s) as [w s'|e s'| | |u] eqn:E; try contradiction; [|exfalso; exact (He e s' eq_refl)|destruct K as (g & x & -> & _); exfalso; exact (Hn g x eq_refl)].
  exists w, s'. split; [reflexivity|]. eapply re_ret; eassumption.
Qed.
Lemma no_subject o (s : St) a a' v : reached d s a -> RcaMeet.step d o a = Some (SRet a' v) -> subject o = None -> forall e s', exec d o s <> Exn e s'.
Proof.
  intros Hre Hs Hj e s' E. pose proof (exec_meets d o s a Hwf (reached_R d s a Hwf Hre)) as K. unfold meets in K. rewrite Hs, E, Hj in K. destruct K as (_ & x & K & _). discriminate.
Qed.
Lemma zdrop_step {A} n (e : A) l : 0 <= n -> zdrop (1 + n) (e :: l) = zdrop n l.
Proof. intros H. unfold zdrop. replace (Z.to_nat (1 + n)) with (S (Z.to_nat n)) by lia. reflexivity. Qed.
(** First in, first out. *)
Theorem queue_runs x vs : forall (s : St) a r l cap off, reached d s a -> a !! x = Some (AVal r (map Some l)) -> l <> [] -> own x s cap off (zlen l) -> cap < max_alloc ->
  exists s' m a' r', rounds d Shift x vs s = Some (s', m) /\ reached d s' a' /\ a' !! x = Some (AVal r' (map Some (zdrop (zlen vs) (l ++ vs)))) /\ forall y, y <> x -> a' !! y = a !! y.
Proof.
  induction vs as [|v vs IH]; intros s a r l cap off Hre Ha Hl Hw Hm; cbn [rounds].
  - exists s, 0, a, r. split; [reflexivity|]. split; [exact Hre|]. rewrite app_nil_r. split; [exact Ha|auto].
  - destruct l as [|e l]; [contradiction|]. pose proof (own_bounds _ _ _ _ _ Hw) as B. rewrite zlen_cons in *. pose proof (zlen_nonneg l) as Hz.
    assert (S1 : RcaMeet.step d (Shift x) a = Some (SRet (<[x := AVal r (map Some l)]> a) (OVal e))) by (unfold RcaMeet.step, spec_step, holds; rewrite Ha; reflexivity).
    destruct (returns _ _ _ _ _ Hre S1) as (w1 & s1 & E1 & R1); [apply (no_subject _ _ _ _ _ Hre S1); reflexivity|discriminate|]. rewrite E1.
    destruct (shift_meter d x s w1 s1 cap off (1 + zlen l) Hw ltac:(lia) E1) as (Hw1 & _). replace (1 + zlen l - 1) with (zlen l) in Hw1 by lia.
    assert (S2 : RcaMeet.step d (AppendItem x v) (<[x := AVal r (map Some l)]> a) = Some (SRet (<[x := AVal true (map Some (l ++ [v]))]> (<[x := AVal r (map Some l)]> a)) ONone)).
    { unfold RcaMeet.step, spec_step, holds, put. rewrite lookup_insert, map_app. reflexivity. }
    destruct (returns _ _ _ _ _ R1 S2) as (w2 & s2 & E2 & R2); [intros e' s'; apply (append_calm _ _ _ _ _ _ _ _ Hw1); lia|discriminate|]. rewrite E2.
    destruct (put_meter d Hnul x v s1 w2 s2 cap (off + 1) (zlen l) Hw1 ltac:(lia) Hm E2) as (Hw2 & _).
    destruct (IH s2 _ true (l ++ [v]) cap (if cap - (off + 1) <? zlen l + 1 then 0 else off + 1) R2 (lookup_insert _ _ _)) as (s' & m & a' & r' & E3 & R3 & A3 & O3).
    { destruct l; discriminate. }
    { rewrite zlen_app. change (zlen [v]) with 1. exact Hw2. }
    { exact Hm. }
    rewrite E3. eexists s', _, a', r'. split; [reflexivity|]. split; [exact R3|]. split.
    + rewrite A3, <- app_assoc. cbn [app]. pose proof (zlen_nonneg vs). rewrite zdrop_step by lia. reflexivity.
    + intros y N. rewrite O3 by exact N. rewrite !lookup_insert_ne by congruence. reflexivity.
Qed.
Lemma last_step {A} (v : A) vs e : List.last (v :: vs) e = List.last vs v.
Proof. revert v e. induction vs as [|w vs IH]; intros v e; [reflexivity|]. change (List.last (w :: vs) e = List.last (w :: vs) v). rewrite !IH. reflexivity. Qed.
(** Last in, first out. *)
Theorem stack_runs x vs : forall (s : St) a r l e cap off, reached d s a -> a !! x = Some (AVal r (map Some (l ++ [e]))) -> own x s cap off (zlen l + 1) -> cap < max_alloc ->
  exists s' m a' r', rounds d Pop x vs s = Some (s', m) /\ reached d s' a' /\ a' !! x = Some (AVal r' (map Some (l ++ [List.last vs e]))) /\ forall y, y <> x -> a' !! y = a !! y.
Proof.
  induction vs as [|v vs IH]; intros s a r l e cap off Hre Ha Hw Hm; cbn [rounds].
  - exists s, 0, a, r. split; [reflexivity|]. split; [exact Hre|]. split; [exact Ha|auto].
  - pose proof (own_bounds _ _ _ _ _ Hw) as B. pose proof (zlen_nonneg l) as Hz.
    assert (S1 : RcaMeet.step d (Pop x) a = Some (SRet (<[x := AVal r (map Some l)]> a) (OVal e))).
    { unfold RcaMeet.step, spec_step, holds. rewrite Ha, map_app, zlen_app. cbn [map]. change (zlen [Some e]) with 1. replace (zlen (map Some l) + 1 - 1) with (zlen (map Some l)) by lia.
      rewrite znth_app, ztake_app_exact, Z.ltb_irrefl, Z.sub_diag. reflexivity. }
    destruct (returns _ _ _ _ _ Hre S1) as (w1 & s1 & E1 & R1); [apply (no_subject _ _ _ _ _ Hre S1); reflexivity|discriminate|]. rewrite E1.
    destruct (pop_meter d x s w1 s1 cap off (zlen l + 1) Hw ltac:(lia) E1) as (Hw1 & _). replace (zlen l + 1 - 1) with (zlen l) in Hw1 by lia.
    assert (S2 : RcaMeet.step d (AppendItem x v) (<[x := AVal r (map Some l)]> a) = Some (SRet (<[x := AVal true (map Some (l ++ [v]))]> (<[x := AVal r (map Some l)]> a)) ONone)).
    { unfold RcaMeet.step, spec_step, holds, put. rewrite lookup_insert, map_app. reflexivity. }
    destruct (returns _ _ _ _ _ R1 S2) as (w2 & s2 & E2 & R2); [intros e' s'; apply (append_calm _ _ _ _ _ _ _ _ Hw1); lia|discriminate|]. rewrite E2.
    destruct (put_meter d Hnul x v s1 w2 s2 cap off (zlen l) Hw1 ltac:(lia) Hm E2) as (Hw2 & _).
    destruct (IH s2 _ true l v cap _ R2 (lookup_insert _ _ _) Hw2 Hm) as (s' & m & a' & r' & E3 & R3 & A3 & O3).
    rewrite E3. eexists s', _, a', r'. split; [reflexivity|]. split; [exact R3|]. split.
    + rewrite A3, last_step. reflexivity.
    + intros y N. rewrite O3 by exact N. rewrite !lookup_insert_ne by congruence. reflexivity.
Qed.
(** In terms of what can be asked of the array. *)
Theorem queue_all x l (s : St) a r cap vs : reached d s a -> a !! x = Some (AVal r (map Some l)) -> l <> [] -> rcount x s = Ok 1 s -> capacity x s = Ok cap s -> cap < max_alloc ->
  exists s' m a' r' off, rounds d Shift x vs s = Some (s', m) /\ reached d s' a' /\ a' !! x = Some (AVal r' (map Some (zdrop (zlen vs) (l ++ vs)))) /\ (forall y, y <> x -> a' !! y = a !! y) /\
    0 <= off <= cap - zlen l /\ m = (zlen l - 1) * ((off + zlen vs) / (cap - zlen l + 1)) /\ st_tick s' = st_tick s /\ st_freed s' = st_freed s /\ capacity x s' = Ok cap s'.
Proof.
  intros Hre Ha Hl Hc Hk Hm. assert (Hl' : map Some l <> []) by (destruct l; [contradiction|discriminate]). destruct (alone d x _ s a r cap Hwf Hre Ha Hl' Hc Hk) as (off & Hw & Hn).
  rewrite zlen_map in *. destruct (queue_runs x vs s a r l cap off Hre Ha Hl Hw Hm) as (s' & m & a' & r' & E & R' & A' & O').
  destruct (queue_cost d Hnul x _ s a r cap vs s' m Hwf Hre Ha Hl' Hc Hk Hm E) as (off' & K). rewrite zlen_map in K. exists s', m, a', r', off'. auto.
Qed.
Theorem queue_full_all x l (s : St) a r vs : reached d s a -> a !! x = Some (AVal r (map Some l)) -> l <> [] -> rcount x s = Ok 1 s -> capacity x s = Ok (zlen l) s -> zlen l < max_alloc ->
  exists s', rounds d Shift x vs s = Some (s', zlen vs * (zlen l - 1)).
Proof.
  intros Hre Ha Hl Hc Hk Hm. destruct (queue_all x l s a r _ vs Hre Ha Hl Hc Hk Hm) as (s' & m & a' & r' & off & E & _ & _ & _ & B & -> & _). exists s'. rewrite E. do 2 f_equal.
  assert (off = 0) as -> by lia. replace (zlen l - zlen l + 1) with 1 by lia. rewrite Z.div_1_r. lia.
Qed.
Theorem queue_roomy_all x l (s : St) a r cap vs : reached d s a -> a !! x = Some (AVal r (map Some l)) -> l <> [] -> rcount x s = Ok 1 s -> capacity x s = Ok cap s -> cap < max_alloc -> 2 * zlen l <= cap ->
  exists s' m, rounds d Shift x vs s = Some (s', m) /\ m <= zlen l + zlen vs.
Proof.
  intros Hre Ha Hl Hc Hk Hm H2. destruct (queue_all x l s a r _ vs Hre Ha Hl Hc Hk Hm) as (s' & m & a' & r' & off & E & _). exists s', m. split; [exact E|].
  assert (Hl' : map Some l <> []) by (destruct l; [contradiction|discriminate]). pose proof (queue_roomy d Hnul x _ s a r cap vs s' m Hwf Hre Ha Hl' Hc Hk Hm) as K. rewrite zlen_map in K. exact (K H2 E).
Qed.
Theorem stack_all x l e (s : St) a r cap vs : reached d s a -> a !! x = Some (AVal r (map Some (l ++ [e]))) -> rcount x s = Ok 1 s -> capacity x s = Ok cap s -> cap < max_alloc ->
  exists s' a' r', rounds d Pop x vs s = Some (s', 0) /\ reached d s' a' /\ a' !! x = Some (AVal r' (map Some (l ++ [List.last vs e]))) /\ (forall y, y <> x -> a' !! y = a !! y) /\
    st_tick s' = st_tick s /\ st_freed s' = st_freed s.
Proof.
  intros Hre Ha Hc Hk Hm. assert (Hl' : map Some (l ++ [e]) <> []) by (destruct l; discriminate). destruct (alone d x _ s a r cap Hwf Hre Ha Hl' Hc Hk) as (off & Hw & Hn).
  rewrite zlen_map, zlen_app in Hw. change (zlen [e]) with 1 in Hw. destruct (stack_runs x vs s a r l e cap off Hre Ha Hw Hm) as (s' & m & a' & r' & E & R' & A' & O').
  destruct (stack_cost d Hnul x _ s a r cap vs s' m Hwf Hre Ha Hl' Hc Hk Hm E) as (-> & K). exists s', a', r'. auto.
Qed.
End Run.
