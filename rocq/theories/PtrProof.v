(** A buffer stays where it is as long as an object that is not disturbed holds it. *)
From Coq Require Import Lia ZifyBool.
From Verif Require Import RcaSpec RcaModel RcaExec RcaInv RcaOwn RcaRel RcaMeet RcaReach PtrSpec.
Open Scope Z_scope.

Section Keep.
Context {T : Type}.
Implicit Types (s : state T) (x y z : positive).
Notation Mm := (M (state T)).
Variables (x l : positive) (g : nat) (j : Z) (e : T).

(** [x] holds the buffer [l], its [j]-th element is [e], and its counter covers all who hold it. *)
Definition K s : Prop := exists o c, st_env s !! x = Some o /\ o_ref o = Some l /\ st_heap s !! l = Some c /\ c_gen c = g /\
  znth j (c_buf c) = Some (Some e) /\ count l (st_env s) <= c_refs c /\ (l < st_next s)%positive.
(** [y] has no part in it. *)
Definition N y s : Prop := K s /\ exists o, st_env s !! y = Some o /\ o_ref o <> Some l.
Definition tri {A} (P : state T -> Prop) (m : Mm A) (Q : state T -> Prop) : Prop :=
  forall s, P s -> match m s with Ok _ s' => Q s' | Exn _ s' => K s' | _ => True end.

Lemma N_K y s : N y s -> K s. Proof. intros [H _]. exact H. Qed.
Lemma tri_pre {A} (P P' Q : state T -> Prop) (m : Mm A) : (forall s, P' s -> P s) -> tri P m Q -> tri P' m Q.
Proof. intros H Hm s Hs. apply Hm, H, Hs. Qed.
Lemma tri_post {A} (P Q Q' : state T -> Prop) (m : Mm A) : (forall s, Q s -> Q' s) -> tri P m Q -> tri P m Q'.
Proof. intros H Hm s Hs. specialize (Hm s Hs). destruct (m s); auto. Qed.
Lemma tri_bind {A B} (P Q U : state T -> Prop) (m : Mm A) (k : A -> Mm B) : tri P m Q -> (forall v, tri Q (k v) U) -> tri P (bind m k) U.
Proof. intros Hm Hk s Hs. specialize (Hm s Hs). unfold bind. destruct (m s); auto. apply Hk, Hm. Qed.
Lemma tri_ret {A} (P : state T -> Prop) (v : A) : tri P (ret v) P.
Proof. intros s H. exact H. Qed.
Lemma tri_undef {A} (P Q : state T -> Prop) u : tri P (undef (A := A) u) Q.
Proof. intros s H. exact I. Qed.
Lemma tri_fuel {A} (P Q : state T -> Prop) : tri P (fun _ => Fuel (A := A)) Q.
Proof. intros s H. exact I. Qed.
Lemma tri_throw {A} (P Q : state T -> Prop) ex : (forall s, P s -> K s) -> tri P (throw (A := A) ex) Q.
Proof. intros H s Hs. apply H, Hs. Qed.
Lemma tri_get_obj (P : state T -> Prop) y : tri P (get_obj y) P.
Proof. intros s H. unfold get_obj. destruct (st_env s !! y); [exact H|exact I]. Qed.
Lemma tri_get_cell (P : state T -> Prop) l' : tri P (get_cell l') P.
Proof. intros s H. unfold get_cell. destruct (st_heap s !! l'); [exact H|exact I]. Qed.

(** The shape of small state changes. *)
Lemma K_env s y o o' : K s -> st_env s !! y = Some o -> o_ref o' = o_ref o -> K (with_env s (<[y := o']> (st_env s))).
Proof.
  intros (ox & c & Hx & Hr & Hl & Hg & Hj & Hc & Hn) Hy Hr'.
  assert (count l (<[y := o']> (st_env s)) = count l (st_env s)) as Ec.
  { rewrite (count_update _ _ _ _ _ Hy). unfold ind. rewrite Hr'. lia. }
  destruct (decide (x = y)) as [<-|Hxy].
  - rewrite Hy in Hx. injection Hx as ->. exists o', c. cbn. rewrite lookup_insert, Ec. repeat split; auto. congruence.
  - exists ox, c. cbn. rewrite lookup_insert_ne by congruence. rewrite Ec. repeat split; auto.
Qed.
Lemma N_env s y z o o' : N y s -> st_env s !! z = Some o -> o_ref o' = o_ref o -> N y (with_env s (<[z := o']> (st_env s))).
Proof.
  intros [HK (oy & Hy & Hr)] Hz Hr'. split; [eapply K_env; eassumption|]. cbn. destruct (decide (z = y)) as [<-|Hzy].
  - exists o'. rewrite lookup_insert. split; [reflexivity|]. rewrite Hr'. congruence.
  - exists oy. rewrite lookup_insert_ne by congruence. auto.
Qed.
Lemma K_cell s l' c c' : K s -> st_heap s !! l' = Some c -> c_gen c' = c_gen c -> c_refs c' = c_refs c ->
  (l' = l -> znth j (c_buf c) = Some (Some e) -> znth j (c_buf c') = Some (Some e)) -> K (with_heap s (<[l' := c']> (st_heap s))).
Proof.
  intros (ox & cx & Hx & Hr & Hl & Hg & Hj & Hc & Hn) Hl' H1 H2 H3. destruct (decide (l' = l)) as [->|Hne].
  - rewrite Hl in Hl'. injection Hl' as ->. exists ox, c'. cbn. rewrite lookup_insert. rewrite H1, H2. repeat split; auto.
  - exists ox, cx. cbn. rewrite lookup_insert_ne by congruence. repeat split; auto.
Qed.
Lemma K_other s l' c' : K s -> l' <> l -> K (with_heap s (<[l' := c']> (st_heap s))).
Proof.
  intros (ox & cx & Hx & Hr & Hl & Hg & Hj & Hc & Hn) Hne. exists ox, cx. cbn. rewrite lookup_insert_ne by congruence. repeat split; auto.
Qed.
Lemma N_heap s y h : N y s -> K (with_heap s h) -> N y (with_heap s h).
Proof. intros [_ H] HK. split; [exact HK|exact H]. Qed.
(** Two holders make a shared buffer. *)
Lemma K_shared s y o c : K s -> y <> x -> st_env s !! y = Some o -> o_ref o = Some l -> st_heap s !! l = Some c -> 2 <= c_refs c.
Proof.
  intros (ox & cx & Hx & Hr & Hl & Hg & Hj & Hc & Hn) Hxy Hy Hry Hl'. rewrite Hl in Hl'. injection Hl' as ->.
  pose proof (count_ge2 l (st_env s) y o x ox Hxy Hy Hry Hx Hr). lia.
Qed.

(** Field updates. *)
Lemma tri_upd (P : state T -> Prop) y (f : obj -> obj) : (forall s o, P s -> st_env s !! y = Some o -> P (with_env s (<[y := f o]> (st_env s)))) ->
  tri P (let* o := get_obj y in set_obj y (f o)) P.
Proof. intros H s Hs. unfold bind, get_obj, set_obj. destruct (st_env s !! y) eqn:E; [|exact I]. apply H; assumption. Qed.
Definition upd_ok (P : state T -> Prop) : Prop := forall s y o o', P s -> st_env s !! y = Some o -> o_ref o' = o_ref o -> P (with_env s (<[y := o']> (st_env s))).
Lemma K_upd : upd_ok K. Proof. intros s y o o'. apply K_env. Qed.
Lemma N_upd y : upd_ok (N y). Proof. intros s z o o'. apply N_env. Qed.

Section Fields.
Variable P : state T -> Prop.
Hypothesis HP : upd_ok P.
Hypothesis HPK : forall s, P s -> K s.
Lemma tri_set_len y n : tri P (set_len y n) P.
Proof. apply (tri_upd P y (fun o => Obj (o_ref o) (o_off o) n (o_hash o))). intros s o H E. eapply HP; [exact H|exact E|reflexivity]. Qed.
Lemma tri_set_length y n : tri P (set_length y n) P.
Proof. apply (tri_upd P y (fun o => Obj (o_ref o) (o_off o) n 0)). intros s o H E. eapply HP; [exact H|exact E|reflexivity]. Qed.
Lemma tri_sub_length y n : tri P (sub_length y n) P.
Proof. apply (tri_upd P y (fun o => Obj (o_ref o) (o_off o) (u64 (o_len o - n)) 0)). intros s o H E. eapply HP; [exact H|exact E|reflexivity]. Qed.
Lemma tri_length y : tri P (length_of y) P.
Proof. unfold length_of. eapply tri_bind; [apply tri_get_obj|]. intros; apply tri_ret. Qed.
Lemma tri_add_len y n : tri P (add_len y n) P.
Proof. unfold add_len. eapply tri_bind; [apply tri_length|]. intros; apply tri_set_len. Qed.
Lemma tri_load y p n : tri P (load y p n) P.
Proof.
  unfold load. destruct (n <=? 0); [apply tri_ret|]. eapply tri_bind; [apply tri_get_obj|]. intros o. destruct (o_ref o); [|apply tri_undef].
  eapply tri_bind; [apply tri_get_cell|]. intros c. cbv zeta. destruct (_ <=? _); [apply tri_ret|apply tri_undef].
Qed.
Lemma tri_load1 y p : tri P (load1 y p) P.
Proof. unfold load1. eapply tri_bind; [apply tri_load|]. intros [|[v|] [|? ?]]; try apply tri_undef. apply tri_ret. Qed.
Lemma tri_validate y p : tri P (validate_index y p) P.
Proof. unfold validate_index. eapply tri_bind; [apply tri_length|]. intros n. destruct (n <=? p); [apply tri_throw, HPK|apply tri_ret]. Qed.
Lemma tri_check y p : tri P (check_pos y p) P.
Proof. unfold check_pos. destruct (p =? 0); [apply tri_ret|apply tri_validate]. Qed.
Lemma tri_is_shared y : tri P (is_shared y) P.
Proof. unfold is_shared. eapply tri_bind; [apply tri_get_obj|]. intros o. destruct (o_ref o); [|apply tri_ret]. eapply tri_bind; [apply tri_get_cell|]. intros; apply tri_ret. Qed.
(** A getter followed by updates of the object. *)
Lemma tri_upd_if y (m : obj -> Mm unit) : (forall s o, P s -> st_env s !! y = Some o ->
    match m o s with Ok _ s' => s' = s \/ exists o', o_ref o' = o_ref o /\ s' = with_env s (<[y := o']> (st_env s)) | Exn _ s' => s' = s | _ => True end) ->
  tri P (bind (get_obj y) m) P.
Proof.
  intros H s Hs. unfold bind, get_obj. destruct (st_env s !! y) as [o|] eqn:E; [|exact I]. specialize (H s o Hs E). destruct (m o s) as [? s'|? s'| | |?]; auto.
  - destruct H as [->|(o' & Hr & ->)]; [exact Hs|]. eapply HP; eassumption.
  - subst. apply HPK, Hs.
Qed.
Ltac upd := intros s o Hs E; cbv zeta; unfold sub_length, undef, throw, ret, set_obj, bind, get_obj;
  repeat match goal with |- context [if ?b then _ else _] => destruct b end; try exact I; try (left; reflexivity); try reflexivity;
  rewrite ?E; try (right; eexists; split; [|reflexivity]; reflexivity).
Lemma tri_slice y a b : tri P (slice y a b) P.
Proof. unfold slice. apply tri_upd_if. upd. Qed.
Lemma tri_arr_front y n : tri P (arr_drop_front y n) P.
Proof. unfold arr_drop_front. apply tri_upd_if. upd. Qed.
Lemma tri_arr_back y n : tri P (arr_drop_back y n) P.
Proof. unfold arr_drop_back. apply tri_upd_if. upd. Qed.
Lemma tri_str_front y n : tri P (str_drop_front y n) P.
Proof. unfold str_drop_front. apply tri_upd_if. upd. Qed.
Lemma tri_str_back y n : tri P (str_drop_back y n) P.
Proof. unfold str_drop_back. apply tri_upd_if. upd. Qed.
Lemma tri_advance y : tri P (let* o := get_obj y in set_obj y (Obj (o_ref o) (u64 (o_off o + 1)) (u64 (o_len o - 1)) 0)) P.
Proof. apply tri_upd_if. upd. Qed.
Lemma tri_ltrim sp y : forall f, tri P (ltrim_loop sp f y) P.
Proof.
  induction f as [|f IH]; cbn; (eapply tri_bind; [apply tri_length|]); intros n; (destruct (n =? 0); [apply tri_ret|]);
    (eapply tri_bind; [apply tri_load1|]); intros v; (destruct (negb (sp v)); [apply tri_ret|]); [apply tri_fuel|].
  eapply tri_bind; [apply tri_advance|]. intros _. exact IH.
Qed.
Lemma tri_rtrim sp y : forall f, tri P (rtrim_loop sp f y) P.
Proof.
  induction f as [|f IH]; cbn; (eapply tri_bind; [apply tri_length|]); intros n; (destruct (n =? 0); [apply tri_ret|]);
    (eapply tri_bind; [apply tri_load1|]); intros v; (destruct (negb (sp v)); [apply tri_ret|]); [apply tri_fuel|].
  eapply tri_bind; [apply tri_sub_length|]. intros _. exact IH.
Qed.
Lemma tri_trim sp y : tri P (trim sp y) P.
Proof. unfold trim. eapply tri_bind; [apply tri_length|]. intros n. eapply tri_bind; [apply tri_ltrim|]. intros _. apply tri_rtrim. Qed.
Lemma tri_assert (d : desc T) (m : Mm bool) : tri P m P -> tri P (check d m) P.
Proof. intros H. unfold check. destruct (d_debug d); [|apply tri_ret]. eapply tri_bind; [exact H|]. intros []; [apply tri_ret|intros s _; exact I]. Qed.
Lemma tri_not_empty y : tri P (not_empty y) P.
Proof. unfold not_empty. eapply tri_bind; [apply tri_length|]. intros n. apply tri_ret. Qed.
Lemma tri_ends d (z : T) y n : tri P (ends_nul d z y n) P.
Proof. unfold ends_nul. eapply tri_bind; [apply tri_load1|]. intros v. apply tri_ret. Qed.
Lemma tri_pop_back d y : tri P (pop_back d y) P.
Proof. unfold pop_back. eapply tri_bind; [apply tri_assert, tri_not_empty|]. intros _. apply tri_sub_length. Qed.
Lemma tri_chomp d y a b : tri P (chomp d y a b) P.
Proof.
  assert (forall c, tri P (chomp1 d y c) P) as H.
  { intros c. unfold chomp1. eapply tri_bind; [apply tri_length|]. intros n. destruct (n =? 0); [apply tri_ret|].
    eapply tri_bind; [apply tri_load1|]. intros v. destruct (d_eqb d v c); [apply tri_pop_back|apply tri_ret]. }
  unfold chomp. eapply tri_bind; [apply H|]. intros _. apply H.
Qed.
Lemma tri_hash d y : tri P (hash d y) P.
Proof.
  intros s Hs. unfold hash, bind at 1, get_obj. destruct (st_env s !! y) as [o|] eqn:E; [|exact I]. destruct (negb _); [exact Hs|].
  pose proof (tri_load y 0 (o_len o) s Hs) as Hl. unfold bind. destruct (load y 0 (o_len o) s) as [es s1| | | |] eqn:El; auto.
  destruct (djb d 5381 es); [|exact I]. cbv zeta. cbn. assert (s1 = s) as ->.
  { revert El. unfold load, bind, get_obj, get_cell, ret. destruct (_ <=? 0); [congruence|]. rewrite E. destruct (o_ref o) as [l0|]; [|discriminate].
    destruct (st_heap s !! l0); [|discriminate]. cbv zeta. destruct (_ <=? _); [congruence|discriminate]. }
  eapply HP; [exact Hs|exact E|reflexivity].
Qed.
Lemma tri_find d y v p : tri P (find_item d y v p) P.
Proof.
  unfold find_item. eapply tri_bind; [apply tri_check|]. intros _. eapply tri_bind; [apply tri_length|]. intros n.
  eapply tri_bind; [apply tri_load|]. intros es. destruct (find_from d es v 0); [apply tri_ret|apply tri_undef].
Qed.
Lemma tri_rfind d y v : tri P (rfind_item d y v) P.
Proof.
  unfold rfind_item. eapply tri_bind; [apply tri_length|]. intros n. generalize (u64 (n - 1)). generalize (S (Z.to_nat n)). intros f.
  induction f as [|f IH]; intros i; cbn; (destruct (u64 (i + 1) <=? 0); [apply tri_ret|]); [apply tri_fuel|].
  eapply tri_bind; [apply tri_load1|]. intros w. destruct (d_eqb d w v); [apply tri_ret|apply IH].
Qed.
End Fields.

(** Storing into another buffer. *)
Lemma tri_store y p es : tri (N y) (store y p es) (N y).
Proof.
  intros s HN. unfold store. destruct (zlen es <=? 0); [exact HN|]. unfold bind, get_obj. destruct (st_env s !! y) as [o|] eqn:E; [|exact I].
  destruct (o_ref o) as [l'|] eqn:Er; [|exact I]. unfold get_cell. destruct (st_heap s !! l') as [c|] eqn:El; [|exact I]. cbv zeta.
  destruct (_ <=? _); [|exact I]. apply N_heap; [exact HN|]. apply K_other; [apply HN|]. destruct HN as [_ (o' & Ho' & Hr')]. congruence.
Qed.
Lemma K_tick s h t fr : K s -> (forall c, st_heap s !! l = Some c -> h !! l = Some c) -> K (State h (st_env s) (st_next s) t fr).
Proof. intros (ox & cx & Hx & Hr & Hl & Hg & Hj & Hc & Hn) Hh. exists ox, cx. cbn. repeat split; auto. Qed.
Lemma tri_reserve_at d y l' n sc off sub : y <> x -> l' <> l ->
  forall (P : state T -> Prop), (forall s, P s -> K s) ->
  (forall s h t fr, P s -> (forall c, st_heap s !! l = Some c -> h !! l = Some c) -> P (State h (st_env s) (st_next s) t fr)) ->
  tri P (aref_reserve d l' n sc off sub) P.
Proof.
  intros Hy Hl' P HPK HPh s HP. unfold aref_reserve, bind, get_cell. destruct (st_heap s !! l') as [c|] eqn:El; [|exact I]. cbv zeta.
  destruct (zlen (c_buf c) <? n).
  - unfold try_alloc. destruct (_ || _); [apply HPK, HPh; [exact HP|auto]|]. destruct (_ <? sub); [exact I|].
    assert (forall c', P (State (<[l' := c']> (st_heap s)) (st_env s) (st_next s) (S (st_tick s)) (st_freed s))) as H1.
    { intros c'. apply HPh; [exact HP|]. intros c0 H0. rewrite lookup_insert_ne by congruence. exact H0. }
    assert (forall c' fr, P (State (<[l' := c']> (st_heap s)) (st_env s) (st_next s) (S (st_tick s)) fr)) as H2.
    { intros c' fr. apply HPh; [exact HP|]. intros c0 H0. rewrite lookup_insert_ne by congruence. exact H0. }
    destruct (c_buf c) as [|e0 b].
    + destruct (d_class d && _); [exact I|]. cbn. apply H1.
    + destruct (_ || _); [exact I|]. cbn. apply H2.
  - destruct (_ <? n); [|exact HP]. destruct (_ || _); [exact I|]. cbn. apply (HPh s (<[l' := _]> (st_heap s)) (st_tick s) (st_freed s)); [exact HP|].
    intros c0 H0. rewrite lookup_insert_ne by congruence. exact H0.
Qed.
Lemma N_tick y s h t fr : N y s -> (forall c, st_heap s !! l = Some c -> h !! l = Some c) -> N y (State h (st_env s) (st_next s) t fr).
Proof. intros [HK Ho] Hh. split; [apply K_tick; assumption|exact Ho]. Qed.
Lemma new_cell_eq (d : desc T) s : new_cell d s = if d_oom d (st_tick s) || (max_alloc <? 0)
  then Exn BadAlloc (State (st_heap s) (st_env s) (st_next s) (S (st_tick s)) (st_freed s))
  else Ok (st_next s) (State (<[st_next s := Cell [] 0 1]> (st_heap s)) (st_env s) (Pos.succ (st_next s)) (S (st_tick s)) (st_freed s)).
Proof. unfold new_cell, bind, try_alloc. destruct (_ || _); reflexivity. Qed.
Lemma tri_base_reserve d y n sc : y <> x -> tri (N y) (base_reserve d y n sc) (N y).
Proof.
  intros Hy s HN. destruct HN as [HK (o & Ho & Hr)]. unfold base_reserve, bind at 1, get_obj. rewrite Ho.
  destruct (o_ref o) as [l'|] eqn:Er.
  - assert (l' <> l) as Hne by congruence.
    pose proof (tri_reserve_at d y l' n sc (o_off o) (o_len o) Hy Hne (fun s => N y s /\ st_env s !! y = Some o)) as H.
    unfold bind, ret. assert (N y s /\ st_env s !! y = Some o) as H0. { split; [|exact Ho]. split; [exact HK|]. exists o. split; [exact Ho|congruence]. }
    specialize (H (fun s H => N_K _ _ (proj1 H))). specialize (H (fun s h t fr H1 H2 => conj (N_tick y s h t fr (proj1 H1) H2) (proj2 H1)) s H0).
    destruct (aref_reserve d l' n sc (o_off o) (o_len o) s) as [off s1|? s1| | |?]; auto.
    + cbn. destruct H as [H1 H2]. eapply N_env; [exact H1|exact H2|]. cbn. congruence.
  - unfold bind at 1. unfold bind at 1. rewrite new_cell_eq. destruct (_ || _).
    { apply K_tick; [exact HK|auto]. }
    unfold bind at 1, set_obj at 1, ret. cbv beta iota. unfold with_env at 1. cbn [st_next st_heap st_env st_tick st_freed].
    set (l' := st_next s). assert (l' <> l) as Hne. { destruct HK as (? & ? & _ & _ & _ & _ & _ & _ & Hn). unfold l'. lia. }
    set (o' := Obj (Some l') (o_off o) (o_len o) (o_hash o)).
    set (s1 := State _ _ _ _ _). assert (N y s1 /\ st_env s1 !! y = Some o') as H1.
    { assert (st_env s1 !! y = Some o') as Hy1 by (unfold s1; cbn; apply lookup_insert). split; [|exact Hy1]. split; [|exists o'; split; [exact Hy1|cbn; congruence]].
      destruct HK as (ox & c & Hx & Hrx & Hl & Hg & Hj & Hc & Hn). exists ox, c. unfold s1; cbn.
      rewrite lookup_insert_ne by congruence. rewrite lookup_insert_ne by congruence. rewrite (count_update _ _ _ _ _ Ho). rewrite (ind_other l o) by congruence.
      rewrite (ind_other l o') by (cbn; congruence). repeat split; auto; lia. }
    pose proof (tri_reserve_at d y l' n sc (o_off o) (o_len o) Hy Hne (fun s => N y s /\ st_env s !! y = Some o')) as H.
    specialize (H (fun s H => N_K _ _ (proj1 H))). specialize (H (fun s h t fr H1 H2 => conj (N_tick y s h t fr (proj1 H1) H2) (proj2 H1)) s1 H1).
    unfold bind. destruct (aref_reserve d l' n sc (o_off o) (o_len o) s1) as [off s2|? s2| | |?]; auto.
    destruct H as [H2 H3]. cbn. eapply N_env; [exact H2|exact H3|reflexivity].
Qed.
Lemma tri_v_reserve d y n sc : y <> x -> tri (N y) (v_reserve d y n sc) (N y).
Proof.
  intros Hy. unfold v_reserve. destruct (d_nul d) as [z|]; [|apply tri_base_reserve, Hy]. cbv zeta.
  eapply tri_bind; [apply tri_base_reserve, Hy|]. intros _ s HN. unfold bind, get_obj. destruct HN as [HK (o & Ho & Hr)]. rewrite Ho.
  assert (N y s) as HN by (split; [exact HK|exists o; auto]). destruct (o_ref o) as [l'|] eqn:Er; [|exact HN]. unfold get_cell. destruct (st_heap s !! l') as [c|] eqn:El; [|exact I].
  destruct (c_buf c); [destruct (_ =? 0); [exact HN|exact I]|]. apply N_heap; [exact HN|]. apply K_other; [exact HK|congruence].
Qed.

(** Giving up a reference. *)
Lemma tri_detach y : y <> x -> tri K (do_detach y) (N y).
Proof.
  intros Hy s HK. unfold do_detach, bind at 1, get_obj. destruct (st_env s !! y) as [o|] eqn:Ho; [|exact I].
  destruct HK as (ox & cx & Hx & Hr & Hl & Hg & Hj & Hc & Hn).
  unfold dec_ref. destruct (o_ref o) as [l'|] eqn:Er.
  - unfold bind, get_cell, set_cell, ret, set_obj. destruct (st_heap s !! l') as [c|] eqn:El; [|exact I]. cbn.
    split; [|exists obj_empty; cbn; rewrite lookup_insert; split; [reflexivity|discriminate]].
    destruct (decide (l' = l)) as [->|Hne].
    + rewrite Hl in El. injection El as ->. exists ox, (Cell (c_buf c) (c_gen c) (c_refs c - 1)). cbn.
      rewrite lookup_insert_ne by congruence. rewrite lookup_insert, (count_update _ _ _ _ _ Ho). rewrite (ind_some l o Er). rewrite (ind_other l obj_empty) by (cbn; discriminate).
      repeat split; auto; lia.
    + exists ox, cx. cbn. rewrite lookup_insert_ne by congruence. rewrite lookup_insert_ne by congruence. rewrite (count_update _ _ _ _ _ Ho).
      rewrite (ind_other l o) by congruence. rewrite (ind_other l obj_empty) by (cbn; discriminate). repeat split; auto; lia.
  - cbn. split; [|exists obj_empty; cbn; rewrite lookup_insert; split; [reflexivity|discriminate]].
    exists ox, cx. cbn. rewrite lookup_insert_ne by congruence. rewrite (count_update _ _ _ _ _ Ho).
    rewrite (ind_other l o) by congruence. rewrite (ind_other l obj_empty) by (cbn; discriminate). repeat split; auto; lia.
Qed.
Lemma tri_shared {A} y (k : bool -> Mm A) (Q : state T -> Prop) : y <> x -> tri K (k true) Q -> tri (N y) (k false) Q -> tri K (let* sh := is_shared y in k sh) Q.
Proof.
  intros Hy Ht Hf s HK. unfold is_shared, bind, get_obj. destruct (st_env s !! y) as [o|] eqn:Ho; [|exact I].
  destruct (o_ref o) as [l'|] eqn:Er.
  - unfold get_cell. destruct (st_heap s !! l') as [c|] eqn:El; [|exact I]. unfold ret. destruct (1 <? c_refs c) eqn:Es; [apply Ht, HK|].
    apply Hf. split; [exact HK|]. exists o. split; [exact Ho|]. rewrite Er. intros E. injection E as ->. pose proof (K_shared s y o c HK Hy Ho Er El). lia.
  - apply Hf. split; [exact HK|]. exists o. split; [exact Ho|]. congruence.
Qed.
Lemma tri_clear y : y <> x -> tri K (clear y) (N y).
Proof.
  intros Hy. unfold clear. apply tri_shared; [exact Hy|apply tri_detach, Hy|].
  apply (tri_upd_if (N y) (N_upd y) (N_K y)). intros s o _ _. right. eexists. split; [|reflexivity]. reflexivity.
Qed.
Lemma tri_cow d y n : y <> x -> tri K (cow d y n) (N y).
Proof.
  intros Hy. unfold cow. eapply tri_bind; [apply tri_get_obj|]. intros o. eapply tri_bind; [apply tri_assert, tri_is_shared|]. intros _. eapply tri_bind; [apply tri_detach, Hy|]. intros _.
  eapply tri_bind; [apply tri_v_reserve, Hy|]. intros _. cbv zeta. eapply tri_bind; [apply (tri_set_len (N y) (N_upd y))|]. intros _.
  destruct (_ <=? 0); [apply tri_ret|]. destruct (o_ref o); [|apply tri_undef]. eapply tri_bind; [apply tri_get_cell|]. intros c.
  destruct (_ <=? _); [apply tri_store|apply tri_undef].
Qed.
Lemma tri_atm d y n : y <> x -> tri K (about_to_modify d y n) (N y).
Proof.
  intros Hy. unfold about_to_modify. eapply tri_bind.
  { apply (tri_upd_if K K_upd (fun s H => H) y). intros s o _ _. right. eexists. split; [|reflexivity]. reflexivity. }
  intros _. apply tri_shared; [exact Hy|apply tri_cow, Hy|apply tri_v_reserve, Hy].
Qed.
Lemma tri_own d y : y <> x -> tri K (get_own_copy d y) (N y).
Proof. intros Hy. unfold get_own_copy. eapply tri_bind; [apply (tri_length K)|]. intros n. apply tri_atm, Hy. Qed.

(** References in flight. *)
Definition Kn (t : option positive) (k : Z) s : Prop := exists o c, st_env s !! x = Some o /\ o_ref o = Some l /\ st_heap s !! l = Some c /\ c_gen c = g /\
  znth j (c_buf c) = Some (Some e) /\ count l (match t with Some t => delete t (st_env s) | None => st_env s end) + k <= c_refs c /\ (l < st_next s)%positive.
Lemma K_Kn s : K s -> Kn None 0 s.
Proof. intros (ox & cx & Hx & Hr & Hl & Hg & Hj & Hc & Hn). exists ox, cx. repeat split; auto; lia. Qed.
Lemma Kn_K s : Kn None 0 s -> K s.
Proof. intros (ox & cx & Hx & Hr & Hl & Hg & Hj & Hc & Hn). exists ox, cx. repeat split; auto; lia. Qed.
Lemma ind_range (o : obj) : 0 <= ind l o <= 1.
Proof. unfold ind. repeat case_match; lia. Qed.
Lemma count_split t (o : obj) (en : gmap positive obj) : en !! t = Some o -> count l en = count l (delete t en) + ind l o.
Proof. intros H. rewrite (count_delete _ _ _ _ H). lia. Qed.
Lemma count_put t (o : obj) (en : gmap positive obj) : count l (<[t := o]> en) = count l (delete t en) + ind l o.
Proof. rewrite <- insert_delete_insert. rewrite count_insert by apply lookup_delete. lia. Qed.
Lemma check_dealloc_Kn k t s : t <> x -> 0 <= k -> Kn None k s ->
  match check_dealloc t s with
  | Ok _ s' => Kn (Some t) k s' /\ (forall v, v <> t -> st_env s' !! v = st_env s !! v) /\
      (exists o o', st_env s !! t = Some o /\ st_env s' !! t = Some o' /\ (o_ref o' = o_ref o \/ (o_ref o' = None /\ o_ref o <> Some l)))
  | Exn _ _ => False | _ => True end.
Proof.
  intros Ht Hk (ox & cx & Hx & Hr & Hl & Hg & Hj & Hc & Hn). unfold check_dealloc, bind, get_obj. destruct (st_env s !! t) as [o|] eqn:Ho; [|exact I].
  rewrite (count_split t o _ Ho) in Hc.
  destruct (o_ref o) as [l'|] eqn:Er.
  2: { unfold ret. split; [|split; [auto|exists o, o; auto]]. exists ox, cx. rewrite (ind_other l o) in Hc by congruence. repeat split; auto; lia. }
  unfold dec_ref, bind, get_cell, set_cell, ret. destruct (st_heap s !! l') as [c|] eqn:El; [|exact I]. cbn [c_refs].
  destruct (decide (l' = l)) as [->|Hne].
  - rewrite Hl in El. injection El as ->. rewrite (ind_some l o Er) in Hc.
    assert (1 <= count l (delete t (st_env s))) as H1. { apply (count_ge1 l _ x ox); [rewrite lookup_delete_ne; auto|exact Hr]. }
    assert ((c_refs c - 1 <? 1) = false) as -> by lia. split; [|split; [auto|exists o, o; cbn; auto]].
    exists ox, (Cell (c_buf c) (c_gen c) (c_refs c - 1)). cbn. rewrite lookup_insert. repeat split; auto; lia.
  - rewrite (ind_other l o) in Hc by congruence. destruct (_ <? 1).
    + unfold delete_cell, with_heap. cbn. rewrite lookup_insert. unfold set_obj, with_env. cbn.
      split; [|split].
      * exists ox, cx. cbn. rewrite lookup_insert_ne by congruence. rewrite !delete_insert_delete. rewrite lookup_delete_ne by congruence.
        repeat split; auto; lia.
      * intros v Hv. rewrite lookup_insert_ne by congruence. reflexivity.
      * eexists o, _. rewrite lookup_insert. split; [reflexivity|]. split; [reflexivity|]. right. cbn. split; congruence.
    + unfold with_heap. cbn. split; [|split; [auto|exists o, o; auto]].
      exists ox, cx. cbn. rewrite lookup_insert_ne by congruence. repeat split; auto; lia.
Qed.
Lemma set_Kn t o k s : t <> x -> Kn (Some t) k s -> ind l o <= k -> Kn None (k - ind l o) (with_env s (<[t := o]> (st_env s))).
Proof.
  intros Ht (ox & cx & Hx & Hr & Hl & Hg & Hj & Hc & Hn) Hi. exists ox, cx. cbn. rewrite lookup_insert_ne by congruence. rewrite count_put. repeat split; auto; lia.
Qed.
Lemma Kn_le t k k' s : k' <= k -> Kn t k s -> Kn t k' s.
Proof. intros Hk (ox & cx & Hx & Hr & Hl & Hg & Hj & Hc & Hn). exists ox, cx. repeat split; auto; lia. Qed.
Lemma inc_Kn (o : obj) s : Kn None 0 s -> match inc_ref (o_ref o) s with Ok _ s' => Kn None (ind l o) s' /\ st_env s' = st_env s | Exn _ _ => False | _ => True end.
Proof.
  intros (ox & cx & Hx & Hr & Hl & Hg & Hj & Hc & Hn). unfold inc_ref. destruct (o_ref o) as [l'|] eqn:Er.
  2: { split; [|reflexivity]. exists ox, cx. rewrite (ind_other l o) by congruence. repeat split; auto. }
  unfold bind, get_cell, set_cell. destruct (st_heap s !! l') as [c|] eqn:El; [|exact I]. split; [|reflexivity]. destruct (decide (l' = l)) as [->|Hne].
  - rewrite Hl in El. injection El as ->. exists ox, (Cell (c_buf c) (c_gen c) (c_refs c + 1)). cbn. rewrite lookup_insert. rewrite (ind_some l o Er). repeat split; auto; lia.
  - exists ox, cx. cbn. rewrite lookup_insert_ne by congruence. rewrite (ind_other l o) by congruence. repeat split; auto.
Qed.
Lemma Kn_env s k y o o' : Kn None k s -> st_env s !! y = Some o -> o_ref o' = o_ref o -> Kn None k (with_env s (<[y := o']> (st_env s))).
Proof.
  intros (ox & c & Hx & Hr & Hl & Hg & Hj & Hc & Hn) Hy Hr'.
  assert (count l (<[y := o']> (st_env s)) = count l (st_env s)) as Ec.
  { rewrite (count_update _ _ _ _ _ Hy). unfold ind. rewrite Hr'. lia. }
  destruct (decide (x = y)) as [<-|Hxy].
  - rewrite Hy in Hx. injection Hx as ->. exists o', c. cbn. rewrite lookup_insert, Ec. repeat split; auto. congruence.
  - exists ox, c. cbn. rewrite lookup_insert_ne by congruence. rewrite Ec. repeat split; auto.
Qed.
Lemma tri_assign_copy t y : t <> x -> tri K (assign_copy t y) K.
Proof.
  intros Ht s HK. unfold assign_copy, bind at 1, get_obj at 1. destruct (st_env s !! y) as [oy|] eqn:Hoy; [|exact I].
  unfold bind at 1. pose proof (inc_Kn oy s (K_Kn s HK)) as Hi. destruct (inc_ref (o_ref oy) s) as [u s1|? s1| | |?]; try exact I; [|contradiction].
  destruct Hi as [Hi He]. unfold bind at 1, get_obj at 1. destruct (st_env s1 !! t) as [ot|] eqn:Hot; [|exact I].
  unfold bind at 1, set_obj at 1. set (o1 := Obj (o_ref ot) _ _ _). pose proof (Kn_env s1 (ind l oy) t ot o1 Hi Hot eq_refl) as H2. set (s2 := with_env s1 _) in *.
  unfold bind at 1. pose proof (check_dealloc_Kn (ind l oy) t s2 Ht (proj1 (ind_range oy)) H2) as H3. destruct (check_dealloc t s2) as [? s3|? s3| | |?]; try exact I; [|contradiction].
  destruct H3 as (H3 & Hsame & o2 & o3 & Ho2 & Ho3 & Hr3). unfold bind, get_obj, set_obj. rewrite Ho3. destruct (st_env s3 !! y) as [oy'|] eqn:Hoy'; [|exact I].
  set (o' := Obj (o_ref oy') _ _ _).
  assert (ind l o' <= ind l oy) as Hle.
  { destruct (decide (o_ref oy' = Some l)) as [E|E]; [|rewrite (ind_other l o') by (unfold o'; cbn; exact E); apply ind_range].
    enough (o_ref oy = Some l) as E2 by (rewrite (ind_some l oy E2); apply ind_range).
    destruct (decide (y = t)) as [->|Hyt].
    - rewrite Ho3 in Hoy'. injection Hoy' as <-. rewrite He in Hot. rewrite Hoy in Hot. injection Hot as <-.
      unfold s2 in Ho2; cbn in Ho2. rewrite lookup_insert in Ho2. injection Ho2 as <-. unfold o1 in Hr3; cbn in Hr3. destruct Hr3 as [H|[H _]]; congruence.
    - rewrite (Hsame y Hyt) in Hoy'. unfold s2 in Hoy'; cbn in Hoy'. rewrite lookup_insert_ne in Hoy' by congruence. rewrite He in Hoy'. congruence. }
  apply Kn_K. eapply Kn_le; [|apply (set_Kn t o' (ind l oy) s3 Ht H3 Hle)]. lia.
Qed.
Lemma tri_assign_move t y : t <> x -> y <> x -> tri K (assign_move t y) K.
Proof.
  intros Ht Hy s HK. unfold assign_move. destruct (Pos.eqb_spec t y) as [->|Hty]; [exact HK|].
  unfold bind at 1. pose proof (check_dealloc_Kn 0 t s Ht (Z.le_refl 0) (K_Kn s HK)) as H3. destruct (check_dealloc t s) as [? s3|? s3| | |?]; try exact I; [|contradiction].
  destruct H3 as (H3 & Hsame & o2 & o3 & Ho2 & Ho3 & Hr3). unfold bind, get_obj, set_obj. destruct (st_env s3 !! y) as [oy|] eqn:Hoy; [|exact I].
  cbn. destruct H3 as (ox & cx & Hx & Hr & Hl & Hg & Hj & Hc & Hn). exists ox, cx. cbn. rewrite lookup_insert_ne by congruence. rewrite lookup_insert_ne by congruence.
  rewrite count_put. rewrite delete_insert_ne by congruence. rewrite count_put. rewrite delete_commute.
  assert (delete t (st_env s3) !! y = Some oy) as Hd by (rewrite lookup_delete_ne by congruence; exact Hoy). rewrite (count_split y oy _ Hd) in Hc.
  rewrite delete_commute in Hc. rewrite delete_commute. rewrite (ind_other l (Obj None _ _ _)) by (cbn; discriminate). repeat split; auto; lia.
Qed.
Lemma tri_swap t y : t <> x -> y <> x -> tri K (swap t y) K.
Proof.
  intros Ht Hy s HK. unfold swap, bind, get_obj, set_obj. destruct (st_env s !! t) as [ot|] eqn:Hot; [|exact I]. destruct (st_env s !! y) as [oy|] eqn:Hoy; [|exact I].
  cbn. destruct HK as (ox & cx & Hx & Hr & Hl & Hg & Hj & Hc & Hn). exists ox, cx. cbn. rewrite lookup_insert_ne by congruence. rewrite lookup_insert_ne by congruence.
  destruct (decide (t = y)) as [->|Hty].
  - rewrite insert_insert. rewrite (count_update _ _ _ _ _ Hoy). assert (ot = oy) as -> by congruence. repeat split; auto; lia.
  - assert (<[t := oy]> (st_env s) !! y = Some oy) as H1 by (rewrite lookup_insert_ne by congruence; exact Hoy).
    rewrite (count_update _ _ _ _ _ H1), (count_update _ _ _ _ _ Hot). repeat split; auto; lia.
Qed.
Lemma tri_ctor_copy t y : tri K (ctor_copy t y) K.
Proof.
  intros s HK. unfold ctor_copy, bind at 1, get_obj at 1. destruct (st_env s !! y) as [oy|] eqn:Hoy; [|exact I]. unfold bind, new_obj.
  destruct (st_env s !! t) as [ot|] eqn:Hot; [exact I|]. set (s1 := with_env s _).
  assert (Kn None (- ind l oy) s1) as H1.
  { destruct HK as (ox & cx & Hx & Hr & Hl & Hg & Hj & Hc & Hn). exists ox, cx. unfold s1; cbn. rewrite lookup_insert_ne by congruence. rewrite count_insert by exact Hot. repeat split; auto; lia. }
  clearbody s1. unfold inc_ref. destruct (o_ref oy) as [l'|] eqn:Er.
  - unfold bind, get_cell, set_cell. destruct (st_heap s1 !! l') as [c|] eqn:El; [|exact I]. destruct H1 as (ox & cx & Hx & Hr & Hl & Hg & Hj & Hc & Hn). destruct (decide (l' = l)) as [->|Hne].
    + rewrite Hl in El. injection El as ->. exists ox, (Cell (c_buf c) (c_gen c) (c_refs c + 1)). cbn. rewrite lookup_insert. rewrite (ind_some l oy Er) in Hc. repeat split; auto; cbn in Hc; lia.
    + exists ox, cx. cbn. rewrite lookup_insert_ne by congruence. rewrite (ind_other l oy) in Hc by congruence. repeat split; auto; cbn in Hc; lia.
  - apply Kn_K. rewrite (ind_other l oy) in H1 by congruence. exact H1.
Qed.
Lemma tri_ctor_move t y : y <> x -> tri K (ctor_move t y) K.
Proof.
  intros Hy s HK. unfold ctor_move, bind, get_obj. destruct (st_env s !! y) as [oy|] eqn:Hoy; [|exact I]. unfold new_obj.
  destruct (st_env s !! t) as [ot|] eqn:Hot; [exact I|]. unfold set_obj. cbn. assert (t <> y) as Hty by congruence.
  destruct HK as (ox & cx & Hx & Hr & Hl & Hg & Hj & Hc & Hn). exists ox, cx. cbn. rewrite lookup_insert_ne by congruence. rewrite lookup_insert_ne by congruence.
  assert (<[t := oy]> (st_env s) !! y = Some oy) as H1 by (rewrite lookup_insert_ne by congruence; exact Hoy).
  rewrite (count_update _ _ _ _ _ H1). rewrite count_insert by exact Hot. rewrite (ind_other l (Obj None _ _ _)) by (cbn; discriminate). repeat split; auto; lia.
Qed.
Lemma tri_destroy d y : y <> x -> tri K (destroy d y) K.
Proof.
  intros Hy. unfold destroy. eapply tri_bind with (Q := K).
  - intros s HK. unfold cleanse_if_last. destruct (d_nul d); [|exact HK]. unfold bind, get_obj. destruct (st_env s !! y) as [o|] eqn:Ho; [|exact I].
    destruct (o_ref o) as [l'|] eqn:Er; [|exact HK]. unfold get_cell. destruct (st_heap s !! l') as [c|] eqn:El; [|exact I]. destruct (c_refs c =? 1) eqn:E1; [|exact HK].
    apply K_other; [exact HK|]. intros ->. pose proof (K_shared s y o c HK Hy Ho Er El). lia.
  - intros _ s HK. unfold bind, del_obj. pose proof (check_dealloc_Kn 0 y s Hy (Z.le_refl 0) (K_Kn s HK)) as H3. destruct (check_dealloc y s) as [? s3|? s3| | |?]; try exact I; [|contradiction].
    destruct H3 as (H3 & _). destruct H3 as (ox & cx & Hx & Hr & Hl & Hg & Hj & Hc & Hn). exists ox, cx. cbn. rewrite lookup_delete_ne by congruence. repeat split; auto; lia.
Qed.
Lemma tri_guard (P Q : state T -> Prop) y (dt m : Mm unit) : tri P m Q -> tri K dt K -> tri P (ctor_guard y dt m) Q.
Proof.
  intros Hm Hd s Hs. specialize (Hm s Hs). unfold ctor_guard. destruct (m s) as [? s1|? s1| | |?]; auto. specialize (Hd s1 Hm). destruct (dt s1); auto.
Qed.

(** The operations. *)
Lemma tri_pure {A} (F : Prop) (P Q : state T -> Prop) (m : Mm A) : (F -> tri P m Q) -> tri (fun s => P s /\ F) m Q.
Proof. intros H s [Hs HF]. exact (H HF s Hs). Qed.
Lemma tri_new t : tri K (ctor_default t) (fun s => N t s /\ t <> x).
Proof.
  intros s HK. unfold ctor_default, new_obj. destruct (st_env s !! t) as [ot|] eqn:Hot; [exact I|].
  destruct HK as (ox & cx & Hx & Hr & Hl & Hg & Hj & Hc & Hn). assert (t <> x) as Ht by congruence. split; [|exact Ht]. split.
  - exists ox, cx. cbn. rewrite lookup_insert_ne by congruence. rewrite count_insert by exact Hot. rewrite (ind_other l obj_empty) by (cbn; discriminate). repeat split; auto; lia.
  - exists obj_empty. cbn. rewrite lookup_insert. split; [reflexivity|discriminate].
Qed.
Lemma tri_done {A} y (P : state T -> Prop) (m : Mm A) : tri P m (N y) -> tri P m K.
Proof. apply tri_post, N_K. Qed.
Notation NU y := (N_upd y). Notation NK y := (N_K y).
Lemma tri_ctor_sized d t n : tri K (ctor_sized d t n) (fun s => N t s /\ t <> x).
Proof.
  unfold ctor_sized. eapply tri_bind; [apply tri_new|]. intros _. apply tri_pure. intros Ht. eapply tri_post with (Q := N t); [auto|].
  apply tri_guard; [|apply tri_destroy, Ht]. destruct (n =? 0); [apply tri_ret|apply tri_base_reserve, Ht].
Qed.
Lemma tri_resize_fill d y n v : y <> x -> tri K (resize_fill d y n v) K.
Proof.
  intros Hy. unfold resize_fill. eapply tri_bind; [apply (tri_length K)|]. intros len. destruct (n <? len); [apply (tri_set_length K K_upd)|].
  eapply tri_bind; [apply tri_atm, Hy|]. intros _. apply (tri_done y). eapply tri_bind; [apply tri_get_obj|]. intros o. destruct (o_ref o); [|apply tri_undef].
  eapply tri_bind; [apply tri_get_cell|]. intros c. eapply tri_bind with (Q := N y); [|intros _; apply (tri_set_len (N y) (NU y))].
  destruct (_ <? _); [apply tri_undef|apply tri_store].
Qed.
Lemma tri_resize d y n : y <> x -> tri K (resize d y n) K.
Proof.
  intros Hy. unfold resize. eapply tri_bind; [apply (tri_length K)|]. intros len. destruct (n <? len); [apply (tri_set_length K K_upd)|].
  apply (tri_done y). eapply tri_bind; [apply tri_atm, Hy|]. intros _. apply (tri_set_len (N y) (NU y)).
Qed.
Lemma tri_shift_right y pos k : tri (N y) (shift_right y pos k) (N y).
Proof. unfold shift_right. eapply tri_bind; [apply (tri_length (N y))|]. intros n. eapply tri_bind; [apply (tri_load (N y))|]. intros es. apply tri_store. Qed.
Lemma tri_insert_item d y pos v : y <> x -> tri K (insert_item d y pos v) (N y).
Proof.
  intros Hy. unfold insert_item. eapply tri_bind; [apply (tri_check K (fun s H => H))|]. intros _. eapply tri_bind; [apply (tri_length K)|]. intros n.
  eapply tri_bind; [apply tri_atm, Hy|]. intros _. eapply tri_bind; [apply tri_shift_right|]. intros _. eapply tri_bind; [apply tri_store|]. intros _. apply (tri_add_len (N y) (NU y)).
Qed.
Lemma tri_insert_loop d y : y <> x -> forall vs pos, tri K (insert_loop d y pos vs) K.
Proof.
  intros Hy vs. induction vs as [|v vs IH]; intros pos; cbn; [apply tri_ret|].
  eapply tri_bind; [apply (tri_done y), tri_own, Hy|]. intros _. eapply tri_bind; [apply (tri_done y), tri_insert_item, Hy|]. intros _.
  eapply tri_bind; [apply (tri_done y), tri_own, Hy|]. intros _. apply IH.
Qed.
Lemma tri_insert_range d y pos vs : y <> x -> tri K (insert_range d y pos vs) K.
Proof.
  intros Hy. unfold insert_range. eapply tri_bind; [apply (tri_length K)|]. intros n. eapply tri_bind; [apply (tri_done y), tri_atm, Hy|]. intros _.
  eapply tri_bind; [apply tri_insert_loop, Hy|]. intros _. apply (tri_done y), tri_own, Hy.
Qed.
Lemma tri_copy_fwd t y : forall n src pos, tri (N t) (copy_fwd n t y src pos) (N t).
Proof. induction n as [|n IH]; intros src pos; cbn [copy_fwd]; [apply tri_ret|]. eapply tri_bind; [apply (tri_load (N t))|]. intros es. eapply tri_bind; [apply tri_store|]. intros _. apply IH. Qed.
Lemma tri_copy_elems d t y k pos : tri (N t) (copy_elems d t y k pos) (N t).
Proof.
  unfold copy_elems. eapply tri_bind; [apply tri_get_obj|]. intros ox. eapply tri_bind; [apply tri_get_obj|]. intros oy. destruct (_ && _); [apply tri_copy_fwd|].
  eapply tri_bind; [apply (tri_load (N t))|]. intros es. apply tri_store.
Qed.
Lemma tri_splice d t pos y k : t <> x -> tri K (splice d t pos y k) K.
Proof.
  intros Ht. unfold splice. apply (tri_done t). eapply tri_bind; [apply (tri_length K)|]. intros n. eapply tri_bind; [apply tri_atm, Ht|]. intros _.
  eapply tri_bind; [apply tri_shift_right|]. intros _. eapply tri_bind; [apply tri_copy_elems|]. intros _. apply (tri_add_len (N t) (NU t)).
Qed.
Lemma tri_assign (mv : bool) t y : t <> x -> ~ (mv = true /\ x = y) -> tri K (if mv then assign_move t y else assign_copy t y) K.
Proof. intros Ht Hy. destruct mv; [apply tri_assign_move; [exact Ht|intros ->; auto]|apply tri_assign_copy, Ht]. Qed.
Lemma tri_insert_n d mv t pos y n : t <> x -> ~ (mv = true /\ x = y) -> tri K (insert_n d mv t pos y n) K.
Proof.
  intros Ht Hy. unfold insert_n. destruct (n =? 0); [apply tri_ret|]. eapply tri_bind; [apply (tri_check K (fun s H => H))|]. intros _.
  eapply tri_bind; [apply (tri_length K)|]. intros sl. eapply tri_bind; [apply (tri_length K)|]. intros len. destruct (_ && _); [apply tri_assign; assumption|apply tri_splice, Ht].
Qed.
Lemma tri_insert_all d mv t pos y : t <> x -> ~ (mv = true /\ x = y) -> tri K (insert_all d mv t pos y) K.
Proof.
  intros Ht Hy. unfold insert_all. eapply tri_bind; [apply (tri_check K (fun s H => H))|]. intros _.
  eapply tri_bind; [apply (tri_length K)|]. intros sl. eapply tri_bind; [apply (tri_length K)|]. intros len. destruct (_ && _); [apply tri_assign; assumption|apply tri_splice, Ht].
Qed.
Lemma tri_replace_n d mv t pos y n : t <> x -> ~ (mv = true /\ x = y) -> tri K (replace_n d mv t pos y n) K.
Proof.
  intros Ht Hy. unfold replace_n. destruct (n =? 0); [apply tri_ret|]. eapply tri_bind; [apply (tri_check K (fun s H => H))|]. intros _.
  eapply tri_bind; [apply (tri_length K)|]. intros sl. eapply tri_bind; [apply (tri_length K)|]. intros len. destruct (_ && _); [apply tri_assign; assumption|]. cbv zeta.
  apply (tri_done t). eapply tri_bind; [apply tri_atm, Ht|]. intros _. eapply tri_bind; [apply tri_copy_elems|]. intros _. apply (tri_set_len (N t) (NU t)).
Qed.
Lemma tri_replace_item d y pos v : y <> x -> tri K (replace_item d y pos v) K.
Proof.
  intros Hy. unfold replace_item. apply (tri_done y). eapply tri_bind; [apply (tri_check K (fun s H => H))|]. intros _. eapply tri_bind; [apply tri_own, Hy|]. intros _. apply tri_store.
Qed.
Lemma tri_write d y pos v : y <> x -> tri K (write d y pos v) K.
Proof. intros Hy. unfold write. apply (tri_done y). eapply tri_bind; [apply tri_own, Hy|]. intros _. apply tri_store. Qed.
Lemma tri_assign_list d y vs : y <> x -> tri K (assign_list d y vs) K.
Proof.
  intros Hy. unfold assign_list. apply (tri_done y). eapply tri_bind; [apply tri_clear, Hy|]. intros _. eapply tri_bind; [apply tri_v_reserve, Hy|]. intros _.
  eapply tri_bind; [apply tri_store|]. intros _. apply (tri_set_len (N y) (NU y)).
Qed.
Lemma tri_assign_std d (z : T) y vs : y <> x -> tri K (assign_std d z y vs) K.
Proof.
  intros Hy. unfold assign_std. apply (tri_done y). eapply tri_bind; [apply tri_clear, Hy|]. intros _. eapply tri_bind; [apply tri_base_reserve, Hy|]. intros _.
  eapply tri_bind; [apply (tri_set_len (N y) (NU y))|]. intros _. eapply tri_bind; [apply tri_store|]. intros _. apply (tri_assert (N y)), (tri_ends (N y)).
Qed.
Lemma tri_mem_read (P : state T -> Prop) mem n : tri P (mem_read (T := T) mem n) P.
Proof. unfold mem_read. destruct (_ <=? _); [apply tri_ret|apply tri_undef]. Qed.
Lemma tri_cstrlen (P : state T -> Prop) d (z : T) mem : tri P (cstrlen d z mem) P.
Proof. unfold cstrlen. destruct (strlen_from _ _ _ _); [apply tri_ret|apply tri_undef]. Qed.
Lemma tri_cslen (P : state T -> Prop) d (z : T) mem n : tri P (if n =? npos then cstrlen d z mem else ret n) P.
Proof. destruct (n =? npos); [apply tri_cstrlen|apply tri_ret]. Qed.
Lemma tri_insert_cstr d (z : T) y pos mem n : y <> x -> tri K (insert_cstr d z y pos mem n) K.
Proof.
  intros Hy. unfold insert_cstr. destruct (n =? 0); [apply tri_ret|]. apply (tri_done y). eapply tri_bind; [apply (tri_check K (fun s H => H))|]. intros _.
  eapply tri_bind; [apply tri_cslen|]. intros sl. eapply tri_bind; [apply (tri_length K)|]. intros len. eapply tri_bind; [apply tri_atm, Hy|]. intros _.
  eapply tri_bind; [apply tri_shift_right|]. intros _. eapply tri_bind; [apply (tri_add_len (N y) (NU y))|]. intros _. eapply tri_bind; [apply tri_mem_read|]. intros es. apply tri_store.
Qed.
Lemma tri_replace_cstr d (z : T) y pos mem n : y <> x -> tri K (replace_cstr d z y pos mem n) K.
Proof.
  intros Hy. unfold replace_cstr. destruct (n =? 0); [apply tri_ret|]. apply (tri_done y). eapply tri_bind; [apply (tri_check K (fun s H => H))|]. intros _.
  eapply tri_bind; [apply tri_cslen|]. intros sl. eapply tri_bind; [apply (tri_length K)|]. intros len. cbv zeta. eapply tri_bind; [apply tri_atm, Hy|]. intros _.
  eapply tri_bind; [apply (tri_set_len (N y) (NU y))|]. intros _. eapply tri_bind; [apply tri_mem_read|]. intros es. apply tri_store.
Qed.
Lemma tri_move_out d y pos : y <> x -> tri K (move_out d y pos) K.
Proof.
  intros Hy. unfold move_out. eapply tri_bind; [apply (tri_load1 K)|]. intros v.
  apply (tri_shared y (fun sh => (if d_class d && negb sh then store y pos [None] else ret tt) ;;; ret v)); [exact Hy| |].
  - rewrite andb_false_r. eapply tri_bind; [apply tri_ret|]. intros _. apply tri_ret.
  - apply (tri_done y). eapply tri_bind with (Q := N y); [|intros _; apply tri_ret]. destruct (_ && _); [apply tri_store|apply tri_ret].
Qed.
Lemma tri_shift d y : y <> x -> tri K (shift d y) K.
Proof.
  intros Hy. unfold shift. eapply tri_bind; [apply (tri_assert K), (tri_not_empty K)|]. intros _. eapply tri_bind; [apply tri_move_out, Hy|]. intros v s HK. unfold bind, get_obj, set_obj. destruct (st_env s !! y) as [o|] eqn:Ho; [|exact I].
  cbn. eapply K_env; [exact HK|exact Ho|reflexivity].
Qed.
Lemma tri_pop d y : y <> x -> tri K (pop d y) K.
Proof.
  intros Hy. unfold pop. eapply tri_bind; [apply (tri_assert K), (tri_not_empty K)|]. intros _. eapply tri_bind; [apply (tri_length K)|]. intros n. eapply tri_bind; [apply tri_move_out, Hy|]. intros v.
  eapply tri_bind; [apply (tri_pop_back K K_upd)|]. intros _. apply tri_ret.
Qed.
Lemma tri_c_str d (z : T) gu y : y <> x -> tri K (c_str d z gu y) K.
Proof.
  intros Hy s HK. unfold c_str, noexcept. match goal with |- context [?m s] => enough (tri K m K) as H end.
  { specialize (H s HK). match type of H with match ?r with _ => _ end => destruct r; auto end. }
  clear s HK. eapply tri_bind; [apply (tri_length K)|]. intros len. destruct (len =? 0); [apply tri_ret|].
  assert (tri K (about_to_modify d y (u64 (len + 1)) ;;; store y len [Some z]) K) as Hm.
  { apply (tri_done y). eapply tri_bind; [apply tri_atm, Hy|]. intros _. apply tri_store. }
  eapply tri_bind; [apply (tri_assert K); eapply tri_bind; [apply tri_get_obj|intros; apply tri_ret]|]. intros _.
  eapply tri_bind; [apply (tri_assert K), tri_ret|]. intros _.
  intros s HK. unfold bind at 1. pose proof (tri_load K y len 1 s HK) as Hk. destruct (load y len 1 s) as [es s1| | | |] eqn:El; auto.
  assert (s1 = s) as ->.
  { revert El. unfold load, bind, get_obj, get_cell, ret. destruct (1 <=? 0); [congruence|]. destruct (st_env s !! y) as [o|]; [|discriminate]. destruct (o_ref o) as [l0|]; [|discriminate].
    destruct (st_heap s !! l0); [|discriminate]. cbv zeta. destruct (_ <=? _); [congruence|discriminate]. }
  match goal with |- match ((?m ;;; _) s) with _ => _ end => assert (match m s with Ok _ s' | Exn _ s' => K s' | _ => True end) as H1 end.
  { assert ((forall v, es <> [Some v]) -> match store y len [Some z] s with Ok _ s' | Exn _ s' => K s' | _ => True end) as Hs.
    { intros Hes. revert El. unfold store, load, bind, get_obj, get_cell, set_cell, ret. change (1 <=? 0) with false. change (zlen [Some z] <=? 0) with false. cbv iota. intros El. cbv beta in *.
      destruct (st_env s !! y) as [o|]; [|exact I]. destruct (o_ref o) as [l0|]; [|exact I]. destruct (st_heap s !! l0) as [c0|] eqn:E0; [|exact I]. cbv zeta in *.
      change (zlen [Some z]) with 1. destruct (_ <=? _) eqn:Eb; [|exact I]. injection El as El.
      eapply K_cell; [exact HK|exact E0|reflexivity|reflexivity|]. cbn [c_buf]. intros -> Hj. set (i := u64 (o_off o + len)) in *.
      assert (0 <= i) as Hi by apply u64_range. rewrite znth_zupd by (pose proof (zlen_nonneg (c_buf c0)); lia). change (zlen [Some z]) with 1.
      destruct (decide (j = i)) as [->|Hne]; [|assert ((i <=? j) && (j <? i + 1) = false) as -> by lia; exact Hj].
      exfalso. pose proof (znth_zsub 0 i 1 (c_buf c0)) as Hz. rewrite El in Hz.
      assert (zlen es = 1) as Hl. { rewrite <- El, zlen_zsub. lia. }
      destruct es as [|a [|b es']]; [discriminate Hl| |rewrite !zlen_cons in Hl; pose proof (zlen_nonneg es'); lia].
      change ((0 <=? 0) && (0 <? 1)) with true in Hz. cbv iota in Hz. rewrite Z.max_r, Z.add_0_l in Hz by lia. rewrite Hj in Hz. injection Hz as ->. exact (Hes e eq_refl). }
    destruct es as [|[v|] [|? ?]]; try (destruct gu; [apply Hs; congruence|apply Hm, HK]). destruct (d_eqb d v z); [apply (tri_assert K d _ (tri_ends K d z y len)), HK|apply Hm, HK]. }
  unfold bind at 1. match type of H1 with match ?r with _ => _ end => destruct r as [? s2|? s2| | |?]; auto end. apply (tri_load K), H1.
Qed.

Lemma tri_lift {A B} (P Q : state T -> Prop) (m : Mm A) (f : A -> B) : tri P m Q -> tri P (let* v := m in ret (f v)) Q.
Proof. intros H. eapply tri_bind; [exact H|]. intros v. apply tri_ret. Qed.
Lemma tri_with_nul {A} d (k : T -> Mm A) (P Q : state T -> Prop) : (forall z : T, tri P (k z) Q) -> tri P (with_nul d k) Q.
Proof. intros H. unfold with_nul. destruct (d_nul d); [apply H|apply tri_undef]. Qed.
Lemma tri_exec d o : ~ disturbs o x -> tri K (exec d o) K.
Proof.
  intros Hd. destruct o; cbn [exec disturbs] in *; unfold unit_, val_, int_, mem_; apply tri_lift;
    try match goal with |- tri _ (with_nul _ _) _ => apply tri_with_nul; intros z end.
  - eapply tri_post; [|apply tri_new]. intros s [H _]. apply H.
  - apply tri_ctor_copy.
  - apply tri_ctor_move. congruence.
  - eapply tri_post; [|apply tri_ctor_sized]. intros s [H _]. apply H.
  - unfold ctor_fill. eapply tri_bind; [apply tri_new|]. intros _. apply tri_pure. intros Ht. eapply tri_pre; [apply N_K|].
    apply tri_guard; [apply tri_resize_fill, Ht|apply tri_destroy, Ht].
  - unfold ctor_list. eapply tri_bind; [apply tri_ctor_sized|]. intros _. apply tri_pure. intros Ht. eapply tri_done, tri_bind; [apply tri_store|]. intros _. apply tri_set_len, N_upd.
  - unfold ctor_range. eapply tri_bind; [apply tri_ctor_sized|]. intros _. apply tri_pure. intros Ht. eapply tri_pre; [apply N_K|].
    apply tri_guard; [apply tri_insert_range, Ht|apply tri_destroy, Ht].
  - unfold ctor_cstr. eapply tri_bind; [apply tri_new|]. intros _. apply tri_pure. intros Ht. eapply tri_done, tri_bind; [apply tri_cstrlen|]. intros n. destruct (n =? 0); [apply tri_ret|].
    eapply tri_bind; [apply tri_set_len, N_upd|]. intros _. eapply tri_bind; [apply tri_guard; [apply tri_base_reserve, Ht|apply tri_destroy, Ht]|]. intros _.
    eapply tri_bind; [apply tri_mem_read|]. intros es. eapply tri_bind; [apply tri_store|]. intros _. apply (tri_assert (N x0)), (tri_ends (N x0)).
  - unfold ctor_cstrlen. eapply tri_bind; [apply tri_ctor_sized|]. intros _. apply tri_pure. intros Ht. eapply tri_done, tri_bind; [apply tri_mem_read|]. intros es.
    eapply tri_bind; [apply tri_store|]. intros _. eapply tri_bind; [apply tri_store|]. intros _. apply tri_set_len, N_upd.
  - unfold ctor_char. eapply tri_bind; [apply tri_new|]. intros _. apply tri_pure. intros Ht. eapply tri_done.
    eapply tri_bind; [apply tri_guard; [apply tri_base_reserve, Ht|apply tri_destroy, Ht]|]. intros _. eapply tri_bind; [apply tri_store|]. intros _.
    eapply tri_bind; [apply tri_store|]. intros _. apply tri_set_len, N_upd.
  - apply tri_destroy. congruence.
  - apply tri_assign_copy. congruence.
  - apply tri_assign_move; intros E; apply Hd; auto.
  - apply tri_swap; intros E; apply Hd; auto.
  - apply tri_assign_list. congruence.
  - apply tri_assign_std. congruence.
  - eapply tri_done, tri_clear. congruence.
  - apply tri_resize. congruence.
  - apply tri_resize_fill. congruence.
  - unfold reserve_if_own. apply tri_shared; [congruence|apply tri_ret|]. eapply tri_done, tri_v_reserve. congruence.
  - apply tri_slice; first [apply K_upd|auto].
  - unfold append_item. eapply tri_bind; [apply (tri_length K)|]. intros n. eapply tri_done, tri_insert_item. congruence.
  - eapply tri_done, tri_insert_item. congruence.
  - apply tri_insert_n; [intros E; apply Hd; auto|tauto].
  - apply tri_insert_all; [intros E; apply Hd; auto|tauto].
  - unfold append_n. eapply tri_bind; [apply (tri_length K)|]. intros n'. apply tri_insert_n; [intros E; apply Hd; auto|tauto].
  - apply tri_insert_range. congruence.
  - apply tri_insert_cstr. congruence.
  - apply tri_replace_item. congruence.
  - apply tri_replace_n; [intros E; apply Hd; auto|tauto].
  - apply tri_replace_cstr. congruence.
  - apply tri_write. congruence.
  - apply tri_load1.
  - unfold at_. eapply tri_bind; [apply (tri_validate K (fun s H => H))|]. intros _. apply tri_load1.
  - apply tri_length.
  - apply tri_hash; first [apply K_upd|auto].
  - apply tri_find. auto.
  - apply tri_rfind.
  - eapply tri_done, tri_own. congruence.
  - apply tri_pop_back, K_upd.
  - apply tri_shift. congruence.
  - apply tri_pop. congruence.
  - apply tri_arr_front; first [apply K_upd|auto].
  - apply tri_arr_back; first [apply K_upd|auto].
  - apply tri_str_front; first [apply K_upd|auto].
  - apply tri_str_back; first [apply K_upd|auto].
  - apply tri_c_str. congruence.
  - apply tri_trim; first [apply K_upd|auto].
  - apply tri_chomp; first [apply K_upd|auto].
Qed.
Lemma goes_K d : forall ops s s', Forall (fun o => ~ disturbs o x) ops -> K s -> goes d ops s = Some s' -> K s'.
Proof.
  intros ops. induction ops as [|o ops IH]; intros s s' Hf HK H; cbn in H; [congruence|]. inversion Hf as [|? ? Ho Hf']; subst.
  pose proof (tri_exec d o Ho s HK) as H1. destruct (exec d o s) as [? s1|? s1| | |?]; try discriminate; exact (IH s1 s' Hf' H1 H).
Qed.
Lemma K_reads s : K s -> ptr_read (Ptr l g j) s = Ok e s.
Proof.
  intros (ox & cx & Hx & Hr & Hl & Hg & Hj & Hc & Hn). unfold ptr_read, bind, get_cell. cbn. rewrite Hl, Hg, Nat.eqb_refl. cbn. rewrite Hj. reflexivity.
Qed.
End Keep.

Section Stay.
Context {T : Type} (d : desc T).
Implicit Types (s : state T) (a : astate T).
Lemma pointers_stay ops s a x i p e s' : wf_desc d -> reached d s a -> ptr_to x i s = Ok p s -> ptr_read p s = Ok e s ->
  Forall (fun o => ~ disturbs o x) ops -> goes d ops s = Some s' -> ptr_read p s' = Ok e s'.
Proof.
  intros Hwf H Hp Hr Hf Hg. pose proof (reached_R d s a Hwf H) as [HI _].
  revert Hp. unfold ptr_to, bind, get_obj. destruct (st_env s !! x) as [o|] eqn:Ho; [|discriminate]. destruct (o_ref o) as [l|] eqn:Er; [|discriminate].
  unfold get_cell. destruct (st_heap s !! l) as [c|] eqn:El; [|discriminate]. unfold ret. intros Hp. injection Hp as <-.
  apply (K_reads x). eapply goes_K; [exact Hf| |exact Hg]. revert Hr. unfold ptr_read, bind, get_cell. cbn. rewrite El, Nat.eqb_refl. cbn.
  destruct (znth _ (c_buf c)) as [[w|]|] eqn:Ez; try discriminate. intros Hr. injection Hr as ->.
  destruct HI as [Hck Hob]. pose proof (Hck l c El) as K1. exists o, c. repeat split; auto.
  - rewrite (ck_refs _ _ _ _ K1). lia.
  - apply (ck_next _ _ _ _ K1).
Qed.

(** Room behind the elements. *)
Definition mine x l g b off len s : Prop := exists h, st_env s !! x = Some (Obj (Some l) off len h) /\ st_heap s !! l = Some (Cell b g 1).
Lemma bind_ok {A B} (m : M (state T) A) (k : A -> M (state T) B) s v s' : m s = Ok v s' -> bind m k s = k v s'.
Proof. unfold bind. intros ->. reflexivity. Qed.
Lemma append_mine x l g b off len s v : mine x l g b off len s -> 0 <= off -> 0 <= len -> off + room d (len + 1) <= zlen b -> zlen b < W63 ->
  exists b' s', append_item d x v s = Ok tt s' /\ mine x l g b' off (len + 1) s' /\ zlen b' = zlen b /\ st_tick s' = st_tick s /\
    forall i, i < off + len -> znth i b' = znth i b.
Proof.
  intros (h & Hx & Hl) Ho Hn Hroom Hmax. pose proof (room_ge d (len + 1)) as Hge.
  assert (exists b1 s1, about_to_modify d x (len + 1) s = Ok tt s1 /\ st_env s1 !! x = Some (Obj (Some l) off len 0) /\ st_heap s1 !! l = Some (Cell b1 g 1) /\
    zlen b1 = zlen b /\ st_tick s1 = st_tick s /\ forall i, i < off + len -> znth i b1 = znth i b) as (b1 & s1 & E1 & Hx1 & Hl1 & Hb1 & Ht1 & Hi1).
  { unfold about_to_modify. unfold bind at 1. unfold bind at 1, get_obj at 1, set_obj. rewrite Hx. cbn [o_ref o_off o_len].
    set (s0 := with_env s _). assert (st_env s0 !! x = Some (Obj (Some l) off len 0)) as Hx0 by (unfold s0; cbn; apply lookup_insert).
    assert (st_heap s0 !! l = Some (Cell b g 1)) as Hl0 by exact Hl. assert (st_tick s0 = st_tick s) as Ht0 by reflexivity. clearbody s0.
    assert (is_shared x s0 = Ok false s0) as Esh. { unfold is_shared, bind, get_obj, get_cell, ret. rewrite Hx0. cbn [o_ref]. rewrite Hl0. reflexivity. }
    unfold bind at 1. rewrite Esh. cbv iota.
    assert (forall k sc, 0 <= k -> off + k <= zlen b -> exists s1, base_reserve d x k sc s0 = Ok tt s1 /\ st_env s1 !! x = Some (Obj (Some l) off len 0) /\
      st_heap s1 = st_heap s0 /\ st_tick s1 = st_tick s0) as Hbase.
    { intros k sc Hk0 Hk. unfold base_reserve, bind, get_obj, ret. rewrite Hx0. cbn [o_ref o_off o_len]. unfold aref_reserve, bind, get_cell. rewrite Hl0. cbn [c_buf c_gen c_refs]. cbv zeta.
      assert ((zlen b <? k) = false) as -> by lia. rewrite u64_id by (unfold W63, W64 in *; lia). assert ((zlen b - off <? k) = false) as -> by lia.
      unfold ret, set_obj. eexists. split; [reflexivity|]. cbn. rewrite lookup_insert. auto. }
    unfold v_reserve. unfold room in Hroom. destruct (d_nul d) as [z|].
    - cbv zeta. assert ((0 <? len + 1) = true) as E0 by lia. rewrite E0 in *. rewrite u64_id by (unfold W63, W64 in *; lia).
      destruct (Hbase (len + 1 + 1) (d_grow d) ltac:(lia) Hroom) as (s1 & Eb & Hx1 & Hh1 & Ht1). unfold bind. rewrite Eb. unfold get_obj. rewrite Hx1. cbn [o_ref o_off].
      unfold get_cell. rewrite Hh1, Hl0. cbn [c_buf c_gen c_refs]. destruct b as [|b0 b']; [change (zlen (@nil (option T))) with 0 in Hroom; lia|]. set (b := b0 :: b') in *.
      unfold set_cell. eexists _, _. split; [reflexivity|]. cbn. rewrite Hx1, lookup_insert. split; [reflexivity|]. split; [reflexivity|]. rewrite zlen_zupd by (change (zlen [Some z]) with 1; lia).
      split; [reflexivity|]. split; [congruence|]. intros i Hi. rewrite znth_zupd by lia. change (zlen [Some z]) with 1.
      assert ((zlen b - 1 <=? i) = false) as -> by lia. reflexivity.
    - destruct (Hbase (len + 1) (d_grow d) ltac:(lia) Hroom) as (s1 & Eb & Hx1 & Hh1 & Ht1). exists b, s1. rewrite Eb, Hh1. repeat split; auto. congruence. }
  assert (u64 (off + len) = off + len) as Eu by (apply u64_id; unfold W63, W64 in *; lia).
  assert (check_pos x len s = Ok tt s) as Ec.
  { unfold check_pos. destruct (Z.eqb_spec len 0) as [|Hne]; [reflexivity|]. unfold validate_index, length_of, bind, get_obj, ret. rewrite Hx. cbn [o_len].
    rewrite u64_id by (unfold W63, W64 in *; lia). assert ((len <=? len - 1) = false) as -> by lia. reflexivity. }
  assert (forall s, st_env s !! x = Some (Obj (Some l) off len 0) -> length_of x s = Ok len s) as El1.
  { intros s' Hs'. unfold length_of, bind, get_obj. rewrite Hs'. reflexivity. }
  assert (length_of x s = Ok len s) as El. { unfold length_of, bind, get_obj. rewrite Hx. reflexivity. }
  assert (shift_right x len 1 s1 = Ok tt s1) as Es. { unfold shift_right. rewrite (bind_ok (length_of x) _ s1 len s1 (El1 _ Hx1)). rewrite Z.sub_diag. reflexivity. }
  set (s2 := with_heap s1 (<[l := Cell (zupd (off + len) [Some v] b1) g 1]> (st_heap s1))).
  assert (store x len [Some v] s1 = Ok tt s2) as Est.
  { unfold store. change (zlen [Some v] <=? 0) with false. cbv iota. unfold bind, get_obj, get_cell, set_cell. rewrite Hx1. cbn [o_ref o_off]. rewrite Hl1. cbn [c_buf c_gen c_refs]. cbv zeta. rewrite Eu.
    change (zlen [Some v]) with 1. assert ((off + len + 1 <=? zlen b1) = true) as -> by lia. reflexivity. }
  assert (append_item d x v s = add_len x 1 s2) as ->.
  { unfold append_item. rewrite (bind_ok _ _ _ _ _ El). unfold insert_item. rewrite (bind_ok _ _ _ _ _ Ec), (bind_ok _ _ _ _ _ El). rewrite u64_id by (unfold W63, W64 in *; lia).
    rewrite (bind_ok _ _ _ _ _ E1), (bind_ok _ _ _ _ _ Es), (bind_ok _ _ _ _ _ Est). reflexivity. }
  unfold add_len. rewrite (bind_ok _ _ _ _ _ (El1 s2 Hx1)). unfold set_len, bind, get_obj, set_obj. unfold s2. cbn [st_env with_heap]. rewrite Hx1. cbn [o_ref o_off o_hash]. rewrite u64_id by (unfold W63, W64 in *; lia).
  eexists _, _. split; [reflexivity|]. split; [eexists; cbn; rewrite !lookup_insert; split; reflexivity|]. rewrite zlen_zupd by (change (zlen [Some v]) with 1; lia). split; [exact Hb1|]. split; [exact Ht1|].
  intros i Hi. rewrite znth_zupd by lia. assert ((off + len <=? i) = false) as -> by lia. apply Hi1, Hi.
Qed.
Lemma appends_mine x l g n vs : forall b off len s, mine x l g b off len s -> 0 <= off -> 0 <= len -> off + room d n <= zlen b -> zlen b < W63 -> len + zlen vs <= n ->
  exists b' s', goes d (map (AppendItem x) vs) s = Some s' /\ mine x l g b' off (len + zlen vs) s' /\ zlen b' = zlen b /\ st_tick s' = st_tick s /\
    forall i, i < off + len -> znth i b' = znth i b.
Proof.
  induction vs as [|v vs IH]; intros b off len s Hm Ho Hl Hr Hmax Hn.
  - exists b, s. cbn. change (zlen (@nil T)) with 0. rewrite Z.add_0_r. auto.
  - rewrite zlen_cons in *. pose proof (zlen_nonneg vs). pose proof (room_mono d (len + 1) n ltac:(lia)).
    destruct (append_mine x l g b off len s v Hm Ho Hl ltac:(lia) Hmax) as (b1 & s1 & E1 & Hm1 & Hb1 & Ht1 & Hi1).
    destruct (IH b1 off (len + 1) s1 Hm1 Ho ltac:(lia) ltac:(lia) ltac:(lia) ltac:(lia)) as (b2 & s2 & E2 & Hm2 & Hb2 & Ht2 & Hi2).
    exists b2, s2. cbn. unfold unit_, bind at 1. rewrite E1. unfold ret. split; [exact E2|]. replace (len + (1 + zlen vs)) with (len + 1 + zlen vs) by lia.
    split; [exact Hm2|]. split; [lia|]. split; [congruence|]. intros i Hi. rewrite Hi2 by lia. apply Hi1, Hi.
Qed.
Lemma reserved_room s a x r v n out s1 i p e vs : wf_desc d -> reached d s a -> a !! x = Some (AVal r v) -> zlen v + zlen vs <= n < npos -> is_shared x s = Ok false s ->
  exec d (ReserveIfOwn x n) s = Ok out s1 -> 0 <= i < zlen v -> ptr_to x i s1 = Ok p s1 -> ptr_read p s1 = Ok e s1 ->
  exists s2, goes d (map (AppendItem x) vs) s1 = Some s2 /\ ptr_read p s2 = Ok e s2 /\ st_tick s2 = st_tick s1.
Proof.
  intros Hwf H Ha Hn Hsh E Hi Hp Hr. pose proof (reached_R d s a Hwf H) as HR. destruct (R_held d _ _ _ _ _ HR Ha) as (o & Hh).
  pose proof Hh as [Hx Hg Hv Hrm Hlen Hoff Hfit Hcap]. pose proof (zlen_nonneg v). pose proof (zlen_nonneg vs).
  destruct (is_shared_eq d s x o (proj1 HR) Hx) as (sh & E1 & Hsh'). rewrite Hsh in E1. injection E1 as <-.
  cbn [exec] in E. unfold unit_, reserve_if_own in E. unfold bind in E at 1 2. rewrite Hsh in E.
  assert (Kr : runs (v_reserve d x n (fun z => z)) s (fun _ s' => reserved d s x o s' (room d n)) (fun _ _ => True)).
  { eapply runs_conseq; [apply (v_reserve_spec d s x n (fun z => z) o (proj1 HR) Hx Hg Hsh'); try lia|trivial|trivial]. unfold npos, W64 in *. lia. }
  unfold runs in Kr. destruct (v_reserve d x n (fun z => z) s) as [[] s1'| | | |]; try discriminate. injection E as <- <-.
  destruct Kr as (HI & HF & l & off & b & g & Hx' & Hl & Ho & Hf & Hvw & _).
  assert (zlen b < W63) as Hmax. { destruct HI as [Hck _]. pose proof (ck_size _ _ _ _ (Hck l _ Hl)). cbn in *. pose proof max_alloc_lt. lia. }
  assert (mine x l g b off (o_len o) s1') as Hm by (eexists; split; [exact Hx'|exact Hl]).
  pose proof (room_ge d n).
  destruct (appends_mine x l g n vs b off (o_len o) s1' Hm Ho ltac:(lia) Hf Hmax ltac:(lia)) as (b' & s2 & E2 & (h2 & Hx2 & Hl2) & Hb2 & Ht2 & Hi2).
  exists s2. split; [exact E2|]. split; [|exact Ht2]. revert Hp Hr. unfold ptr_to, bind, get_obj. rewrite Hx'. cbn. unfold get_cell. rewrite Hl. unfold ret. intros Hp. injection Hp as <-.
  unfold ptr_read, bind, get_cell. cbn. rewrite Hl, Hl2. cbn. rewrite Nat.eqb_refl. cbn. rewrite u64_id by (unfold W63, W64 in *; lia). rewrite Hi2 by lia.
  destruct (znth (off + i) b) as [[w|]|]; try discriminate. unfold ret. intros Hr. injection Hr as ->. reflexivity.
Qed.
End Stay.
Section Points.
Context {T : Type} (d : desc T).
Lemma points (s : state T) a x r v i e : wf_desc d -> reached d s a -> a !! x = Some (AVal r v) -> znth i v = Some (Some e) ->
  exists p, ptr_to x i s = Ok p s /\ ptr_read p s = Ok e s.
Proof.
  intros Hwf H Ha Hi. pose proof (reached_R d s a Hwf H) as HR. destruct (R_held d _ _ _ _ _ HR Ha) as (o & Hh).
  pose proof Hh as [Hx Hg Hv Hrm Hlen Hoff Hfit Hcap]. pose proof (znth_inv _ _ _ Hi) as Hb.
  destruct (o_ref o) as [l|] eqn:Er; [|destruct (Hg Er) as (_ & Hl & _); lia].
  destruct (inv_ref_live d s x o l (proj1 HR) Hx Er) as (c & Hc).
  assert (zlen (c_buf c) <= max_alloc) as Hm. { destruct HR as [[Hck _] _]. exact (ck_size _ _ _ _ (Hck l c Hc)). }
  exists (Ptr l (c_gen c) (u64 (o_off o + i))). unfold ptr_to, ptr_read, bind, get_obj, get_cell. rewrite Hx, Er, Hc. split; [reflexivity|]. cbn [p_loc p_gen p_idx]. rewrite Hc, Nat.eqb_refl. cbn [negb].
  apply (vle_nth _ _ _ Hv) in Hi. revert Hi. unfold view, buf_of. rewrite Er. cbn. rewrite Hc. cbn. rewrite znth_zsub.
  assert (cap (st_heap s) o = zlen (c_buf c)) as Ecap. { unfold cap, buf_of. rewrite Er. cbn. rewrite Hc. reflexivity. }
  pose proof max_alloc_lt. rewrite u64_id by (unfold W63, W64 in *; lia). destruct (_ && _); [|discriminate]. rewrite Z.max_r by lia. rewrite Z.add_comm. intros ->. reflexivity.
Qed.
End Points.
