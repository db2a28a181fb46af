(** Table operations make no Strings but nodes, whose names end in a one. *)
From stdpp Require Import gmap.
From Verif Require Import RcaSpec RcaModel RcaExec StrModel AlgModel HashModel HsModel HtModel NestModel.
From Verif Require NestSim.
Open Scope Z_scope.

Section Quiet.
Variable d : desc Z.
Variable mdiff : Z -> Z -> Z.
Variable grow : Z -> Z -> option Z.
Notation Mm := (M (state Z)).
Definition odd (x : positive) : Prop := exists q, x = xI q.
Definition sub (s s' : state Z) : Prop := forall x, ~ odd x -> is_Some (st_env s' !! x) -> is_Some (st_env s !! x).
Definition quiet {A} (m : Mm A) : Prop := forall s, match m s with Ok _ s' | Exn _ s' => sub s s' | _ => True end.
(** Moreover the result is a new name. *)
Definition names {A} (P : A -> Prop) (m : Mm A) : Prop := forall s, match m s with Ok v s' => P v /\ sub s s' | Exn _ s' => sub s s' | _ => True end.

Lemma sub_refl s : sub s s. Proof. intros x _ H; exact H. Qed.
Lemma sub_trans s s' s'' : sub s s' -> sub s' s'' -> sub s s''. Proof. intros A B x N H. apply A, B; assumption. Qed.
Lemma q_ret {A} (v : A) : quiet (ret v). Proof. intros s. apply sub_refl. Qed.
Lemma q_throw {A} e : quiet (throw e : Mm A). Proof. intros s. apply sub_refl. Qed.
Lemma q_undef {A} u : quiet (undef u : Mm A). Proof. intros s. exact I. Qed.
Lemma q_bind {A B} (m : Mm A) (k : A -> Mm B) : quiet m -> (forall v, quiet (k v)) -> quiet (bind m k).
Proof.
  intros Hm Hk s. unfold bind. specialize (Hm s). destruct (m s) as [v s'|e s'| | |]; [|exact Hm|exact I..].
  specialize (Hk v s'). destruct (k v s'); try exact I; eapply sub_trans; eassumption.
Qed.
Lemma q_names {A B} (P : A -> Prop) (m : Mm A) (k : A -> Mm B) : names P m -> (forall v, P v -> quiet (k v)) -> quiet (bind m k).
Proof.
  intros Hm Hk s. unfold bind. specialize (Hm s). destruct (m s) as [v s'|e s'| | |]; [|exact Hm|exact I..]. destruct Hm as [Pv Hm].
  specialize (Hk v Pv s'). destruct (k v s'); try exact I; eapply sub_trans; eassumption.
Qed.
Lemma q_new : names odd HsModel.new_var.
Proof. intros s. cbn. split; [apply NestSim.free_slot_new|apply sub_refl]. Qed.
Lemma q_pure {A} (m : M unit A) : quiet (pure m).
Proof. intros s. unfold pure. destruct (m tt); first [exact I|apply sub_refl]. Qed.
Lemma sub_set s e : (forall x, ~ odd x -> is_Some (e !! x) -> is_Some (st_env s !! x)) -> sub s (with_env s e).
Proof. intros H. exact H. Qed.

Ltac ins := match goal with
  | |- context [<[?y := _]> _ !! ?x] =>
    let E := fresh in destruct (decide (y = x)) as [E|E]; [rewrite E in *; try rewrite !lookup_insert|rewrite !(lookup_insert_ne _ y x) by exact E] end.
Ltac look := repeat match goal with
  | H : is_Some (<[?y := _]> _ !! ?x) |- _ =>
    let E := fresh in destruct (decide (y = x)) as [E|E]; [subst y; clear H|rewrite lookup_insert_ne in H by exact E]
  | H : is_Some (delete ?y _ !! ?x) |- _ => apply lookup_delete_is_Some in H as [_ H]
  end; eauto; try contradiction.
Ltac steps := cbn; repeat (match goal with
  | |- context [match ?e with _ => _ end] => lazymatch e with context [match _ with _ => _ end] => fail | _ => let E := fresh "E" in destruct e eqn:E end
  end; cbn); try exact I; try apply sub_refl.
Lemma q_copy x y : odd x -> quiet (call d (CtorCopy x y)).
Proof.
  intros O s. unfold call, exec, RcaExec.unit_, ctor_copy, new_obj, get_obj, inc_ref, get_cell, set_cell, bind, ret.
  steps; intros x0 N H; cbn in H; look.
Qed.
Lemma q_default x : odd x -> quiet (call d (CtorDefault x)).
Proof. intros O s. unfold call, exec, RcaExec.unit_, ctor_default, new_obj, bind, ret. steps; intros x0 N H; cbn in H; look. Qed.
Lemma q_move x y : odd x -> quiet (call d (CtorMove x y)).
Proof.
  intros O s. unfold call, exec, RcaExec.unit_, ctor_move, new_obj, set_obj, get_obj, bind, ret.
  steps; intros x0 N H; cbn in H; look.
Qed.
Lemma q_hash x : quiet (key_hash d x).
Proof.
  intros s. unfold key_hash, ask, exec, int_, hash, load, get_obj, get_cell, set_obj, bind, ret, undef, negb.
  steps; intros x0 N H; cbn in H; look.
Qed.
Lemma q_destroy x : quiet (call d (Destroy x)).
Proof.
  intros s. unfold call, exec, RcaExec.unit_, destroy, cleanse_if_last, check_dealloc, dec_ref, delete_cell, del_obj, get_obj, get_cell, set_cell, set_obj, bind, ret, undef.
  cbn. steps; intros x0 N H; cbn in H; look.
Qed.
Lemma q_assign x y : quiet (call d (AssignCopy x y)).
Proof.
  intros s. unfold call, exec, RcaExec.unit_, assign_copy, inc_ref, check_dealloc, dec_ref, delete_cell, get_obj, get_cell, set_cell, set_obj, bind, ret, undef.
  cbn. steps; intros x0 N H; cbn in H; look.
Qed.
Lemma q_assign_move x y : quiet (call d (AssignMove x y)).
Proof.
  intros s. unfold call, exec, RcaExec.unit_, assign_move, check_dealloc, dec_ref, delete_cell, get_obj, get_cell, set_cell, set_obj, bind, ret, undef.
  cbn. steps; intros x0 N H; cbn in H; look;
  match goal with E : (_ =? _)%positive = false, F : <[_ := _]> (st_env _) !! _ = Some _ |- _ => apply Pos.eqb_neq in E; rewrite lookup_insert_ne in F by exact E; eauto end.
Qed.
Lemma q_call_move (b : bool) x y : odd x -> quiet (call d (if b then CtorMove x y else CtorCopy x y)).
Proof. destruct b; [apply q_move|apply q_copy]. Qed.
Lemma q_call_assign (b : bool) x y : quiet (call d (if b then AssignMove x y else AssignCopy x y)).
Proof. destruct b; [apply q_assign_move|apply q_assign]. Qed.
Lemma q_destroys xs : quiet (destroy_all d xs).
Proof. induction xs as [|x xs IH]; [apply q_ret|]. cbn. apply q_bind; [apply q_destroy|intros _; exact IH]. Qed.
Lemma q_unwind {A} xs (m : Mm A) : quiet m -> quiet (unwind d xs m).
Proof.
  intros Hm s. unfold unwind. specialize (Hm s). destruct (m s) as [v s'|e s'| | |]; try exact I; try exact Hm.
  pose proof (q_destroys xs s') as H. destruct (destroy_all d xs s'); try exact I. eapply sub_trans; eassumption.
Qed.
Lemma q_contents x : quiet (contents x).
Proof.
  intros s. unfold contents, length_of, load, get_obj, get_cell, bind, ret, undef. cbn [o_len].
  repeat (match goal with |- context [match ?e with _ => _ end] => lazymatch e with context [match _ with _ => _ end] => fail | _ => destruct e end end); try exact I; apply sub_refl.
Qed.
Lemma q_get x : quiet (RcaModel.get_obj x : Mm obj).
Proof. intros s. unfold get_obj. destruct (st_env s !! x); [apply sub_refl|exact I]. Qed.
Lemma q_eq x y : quiet (key_eq mdiff x y).
Proof. unfold key_eq. do 2 (apply q_bind; [apply q_get|intros ?]). do 2 (apply q_bind; [apply q_contents|intros ?]). apply q_pure. Qed.
Lemma q_bucket u h : quiet (hbucket u h).
Proof. unfold hbucket. destruct (znth _ _); [apply q_ret|apply q_undef]. Qed.
Lemma q_scan b k : quiet (hscan mdiff b k).
Proof. induction b as [|n b IH]; cbn; [apply q_ret|]. apply q_bind; [apply q_eq|intros [|]]; [apply q_ret|exact IH]. Qed.
Lemma q_find u k : quiet (hfind d mdiff u k).
Proof. unfold hfind. apply q_bind; [apply q_hash|intros h]. apply q_bind; [apply q_bucket|intros b]. apply q_scan. Qed.
Lemma q_push u n : quiet (hpush d u n).
Proof. unfold hpush. apply q_bind; [apply q_hash|intros h]. apply q_bind; [apply q_bucket|intros b]. apply q_ret. Qed.
Lemma q_push_all l : forall u, quiet (hpush_all d u l).
Proof. induction l as [|n l IH]; intros u; cbn; [apply q_ret|]. apply q_bind; [apply q_push|intros u'; apply IH]. Qed.
Lemma q_link e u n : quiet (hlink d grow e u n).
Proof.
  unfold hlink. apply q_bind; [|intros u'; apply q_push].
  destruct (grow _ _) as [m|]; [|apply q_ret]. destruct (0 <? m); [|apply q_ret]. destruct e; first [apply q_push_all|apply q_throw].
Qed.
Lemma q_node e mv k : quiet (hnode d e mv k).
Proof.
  unfold hnode. destruct e; try apply q_throw;
    (eapply q_names; [apply q_new|intros kn O]; apply q_bind; [apply q_call_move, O|intros _];
     eapply q_names; [apply q_new|intros vn O2]; apply q_bind; [apply q_default, O2|intros _; apply q_ret]).
Qed.
Lemma q_index e mv u k : quiet (hindex d mdiff grow e mv u k).
Proof.
  unfold hindex. apply q_bind; [apply q_find|intros [n|]; [apply q_ret|]]. apply q_bind; [apply q_node|intros n].
  apply q_bind; [apply q_unwind, q_link|intros u'; apply q_ret].
Qed.
Lemma q_contains u k : quiet (hcontains d mdiff u k).
Proof. unfold hcontains. destruct (isEmpty u); [apply q_ret|]. apply q_bind; [apply q_find|intros r; apply q_ret]. Qed.
Lemma q_hassign e mk mv u k v : quiet (hassign d mdiff grow e mk mv u k v).
Proof. unfold hassign. apply q_bind; [apply q_index|intros r]. apply q_bind; [apply q_call_assign|intros _; apply q_ret]. Qed.
Lemma q_insert e mk mv u k v : quiet (hinsert d mdiff grow e mk mv u k v).
Proof. unfold hinsert. apply q_bind; [apply q_contains|intros [|]; [apply q_ret|]]. apply q_bind; [apply q_hassign|intros ?; apply q_ret]. Qed.
Lemma q_remove u k : quiet (hremove d mdiff u k).
Proof.
  unfold hremove. destruct (isEmpty u); [apply q_ret|]. apply q_bind; [apply q_hash|intros h]. apply q_bind; [apply q_bucket|intros b].
  apply q_bind; [apply q_scan|intros [n|]]; [|apply q_ret]. apply q_bind; [apply q_destroys|intros _; apply q_ret].
Qed.
Lemma q_free l : quiet (hfree d l).
Proof. induction l as [|n l IH]; cbn [hfree]; [apply q_ret|]. apply q_bind; [apply q_destroys|intros _; exact IH]. Qed.
Lemma q_hdestroy u : quiet (hdestroy d u). Proof. apply q_free. Qed.
Lemma q_clear u : quiet (hclear d u). Proof. apply q_bind; [apply q_free|intros _; apply q_ret]. Qed.
Lemma q_copy_nodes fails l : forall k, quiet (hcopy_nodes d fails k l).
Proof.
  induction l as [|n l IH]; intros k; cbn [hcopy_nodes]; [apply q_ret|]. destruct (fails k); [apply q_throw|].
  eapply q_names; [apply q_new|intros kn O]. apply q_bind; [apply q_copy, O|intros _]. eapply q_names; [apply q_new|intros vn O2]. apply q_bind; [apply q_copy, O2|intros _].
  apply q_bind; [apply q_unwind, IH|intros ?; apply q_ret].
Qed.
Lemma q_hcopy fails u : quiet (hcopy d fails u).
Proof. unfold hcopy. destruct (fails O); [apply q_throw|]. apply q_bind; [apply q_copy_nodes|intros l; apply q_push_all]. Qed.
Lemma q_caught {A} (m : Mm A) : quiet m -> quiet (caught m).
Proof. intros H s. unfold caught. specialize (H s). destruct (m s) as [| [|] | | |]; exact H || exact I. Qed.
Lemma q_reuse fails src : forall k old, Forall (fun n => odd (fst n) /\ odd (snd n)) old -> quiet (hreuse d fails k old src).
Proof.
  induction src as [|n src IH]; intros k [|o old] O; cbn [hreuse]; try (apply q_bind; [apply q_free|intros _; apply q_ret]).
  - apply q_copy_nodes.
  - apply Forall_cons_1 in O as [[O1 O2] O]. apply q_bind; [apply q_destroys|intros _]. apply q_bind; [apply q_copy, O1|intros _]. apply q_bind; [apply q_copy, O2|intros _].
    apply q_bind; [apply q_unwind, IH, O|intros l; apply q_ret].
Qed.
Lemma q_copy_assign same fails u v : Forall (fun n => odd (fst n) /\ odd (snd n)) (List.concat (u_buckets u)) -> quiet (hcopy_assign d same fails u v).
Proof.
  intros O. unfold hcopy_assign. destruct same; [apply q_ret|]. destruct (negb _ && _); [apply q_ret|].
  apply q_bind; [apply q_caught, q_reuse, O|intros [l|]; [|apply q_ret]]. apply q_bind; [apply q_push_all|intros ?; apply q_ret].
Qed.
Lemma q_put e u k v : quiet (hput d mdiff grow e u k v).
Proof.
  unfold hput. apply q_bind; [apply q_find|intros [n|]; [apply q_ret|]].
  destruct e; try apply q_throw;
    (eapply q_names; [apply q_new|intros kn O]; apply q_bind; [apply q_copy, O|intros _];
     eapply q_names; [apply q_new|intros vn O2]; apply q_bind; [apply q_copy, O2|intros _]; apply q_unwind, q_link).
Qed.
Lemma q_guard {A} u (m : Mm A) : quiet m -> quiet (hguard d u m).
Proof.
  intros Hm s. unfold hguard. specialize (Hm s). destruct (m s) as [v s'|e s'| | |]; try exact I; try exact Hm.
  pose proof (q_hdestroy u s') as H. destruct (hdestroy d u s'); try exact I. eapply sub_trans; eassumption.
Qed.
Lemma q_puts kvs : forall es u, quiet (hputs d mdiff grow es u kvs).
Proof. induction kvs as [|kv kvs IH]; intros es u; cbn [hputs]; [apply q_ret|]. apply q_bind; [apply q_guard, q_put|intros u'; apply IH]. Qed.
Lemma q_list e es n kvs : quiet (hlist d mdiff grow e es n kvs).
Proof. unfold hlist. destruct e; first [apply q_puts|apply q_throw]. Qed.
End Quiet.
