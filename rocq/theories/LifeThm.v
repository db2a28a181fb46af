(** Element lifetimes: the statements about programs. *)
From Verif Require Import RcaInv LifeModel LifeSpec LifeInv LifeStep LifeOps LifeCalls LifeMain.
From Coq Require Import ZifyBool.
Open Scope Z_scope.

Section LT.
Context {V : Type}.
Implicit Types (s : estate V) (x y : var) (l : loc) (c : ecell V) (o : eop (V := V)) (t : ety V).
Notation St := (estate V).

Lemma init_winv : winv (e_init (V := V)).
Proof. split; cbn; intros ? ? H; rewrite lookup_empty in H; discriminate. Qed.
Lemma init_bal : bal 0 (e_init (V := V)).
Proof. reflexivity. Qed.

Lemma run_ok t ops : forall s, winv s -> bal 0 s -> proper_all t ops s -> exists s', erun t ops s = Ok tt s' /\ winv s' /\ bal 0 s'.
Proof.
  induction ops as [|o ops IH]; intros s Hw Hb Hp; cbn [erun proper_all] in *; [eauto|]. destruct Hp as [Hp Hn].
  pose proof (step_kept t o s Hw Hb Hp) as H. unfold runs in H. destruct (eexec t o s) as [[] s1|e s1| | |]; try contradiction.
  - destruct H as (W & B & _). exact (IH s1 W B Hn).
  - destruct H as (W & B & _). exact (IH s1 W B Hn).
Qed.
Lemma reached_ok t s : reached t s -> winv s /\ bal 0 s.
Proof.
  intros (ops & Hp & E). destruct (run_ok t ops e_init init_winv init_bal Hp) as (s' & E' & H). assert (s' = s) as <- by congruence. exact H.
Qed.

Lemma program_safe t ops : proper_all t ops e_init -> exists s, erun t ops e_init = Ok tt s /\ balanced s.
Proof.
  intros Hp. destruct (run_ok t ops e_init init_winv init_bal Hp) as (s' & E' & _ & B). exists s'. rewrite <- bal_balanced. auto.
Qed.
Lemma window_live t s y : reached t s -> usable s y -> exists a w, e_env s !! y = Some a /\ view s y = Some w /\ zlen w = o_len a /\
  forall p, In p w -> p <> Raw.
Proof.
  intros R (a & Hy & Ha). destruct (reached_ok t s R) as [[Hc Ho] _]. exists a. unfold view. rewrite Hy. destruct (o_ref a) as [l|] eqn:Er.
  - destruct (Ho y a Hy l Er) as (c & Hl & P1 & P2 & P3). rewrite Hl. eexists. split; [reflexivity|]. split; [reflexivity|]. split.
    + rewrite zlen_zsub. lia.
    + intros p Hin. pose proof (Forall_zsub islive (o_off a) (o_len a) (e_buf c) (cf_live _ _ _ _ (Hc l c Hl))) as H.
      rewrite List.Forall_forall in H. exact (H p Hin).
  - exists []. destruct (Ha eq_refl) as [_ H]. split; [reflexivity|]. split; [reflexivity|]. split; [rewrite H; reflexivity|intros p []].
Qed.
Lemma all_destroyed t s : reached t s -> e_env s = ∅ -> e_heap s = ∅ /\ e_built s = e_killed s + zlen (e_lost s).
Proof.
  intros R He. destruct (reached_ok t s R) as [[Hc _] B].
  assert (e_heap s = ∅) as Hh.
  { apply map_empty. intros l. destruct (e_heap s !! l) as [c|] eqn:E; [|reflexivity]. destruct (Hc l c E) as [H1 H2 _ _ _].
    rewrite He, count_empty in H1. lia. }
  split; [exact Hh|]. unfold bal, net in B. rewrite Hh, objects_empty in B. lia.
Qed.
Lemma moves_lost t ops : e_moves t = true -> forallb (fun o => negb (fills o)) ops = true -> forall s s', winv s -> bal 0 s -> proper_all t ops s ->
  erun t ops s = Ok tt s' -> e_lost s' = e_lost s.
Proof.
  intros Hm. induction ops as [|o ops IH]; intros Hf s s' Hw Hb Hp E; cbn [erun proper_all forallb] in *; [congruence|].
  destruct Hp as [Hp Hn]. apply andb_prop in Hf as [Hf1 Hf2]. assert (fills o = false) as Hf0 by (destruct (fills o); [discriminate|reflexivity]).
  pose proof (step_kept t o s Hw Hb Hp) as H. unfold runs in H. destruct (eexec t o s) as [[] s1|e s1| | |]; try discriminate.
  - destruct H as (W & B & _ & L & _). rewrite (IH Hf2 s1 s' W B Hn E). auto.
  - destruct H as (W & B & _ & L & _). rewrite (IH Hf2 s1 s' W B Hn E). auto.
Qed.
Lemma nothing_lost t ops s : e_moves t = true -> forallb (fun o => negb (fills o)) ops = true -> proper_all t ops e_init ->
  erun t ops e_init = Ok tt s -> e_lost s = [].
Proof. intros Hm Hf Hp E. rewrite (moves_lost t ops Hm Hf e_init s init_winv init_bal Hp E). reflexivity. Qed.
Lemma calm_lost t ops : forallb (fun o => negb (fills o)) ops = true -> forall s s', winv s -> bal 0 s -> proper_all t ops s ->
  eruns t ops s = Ok tt s' -> e_lost s' = e_lost s /\ e_mem s' = e_mem s.
Proof.
  induction ops as [|o ops IH]; intros Hf s s' Hw Hb Hp E; cbn [eruns proper_all forallb] in *; [split; congruence|].
  destruct Hp as [Hp Hn]. apply andb_prop in Hf as [Hf1 Hf2]. assert (fills o = false) as Hf0 by (destruct (fills o); [discriminate|reflexivity]).
  pose proof (step_kept t o s Hw Hb Hp) as H. unfold runs in H. destruct (eexec t o s) as [[] s1|e s1| | |]; try discriminate.
  destruct H as (W & B & _ & L & M & _). destruct (IH Hf2 s1 s' W B Hn E) as [-> ->]. auto.
Qed.
Lemma calm_nothing_lost t ops s : forallb (fun o => negb (fills o)) ops = true -> proper_all t ops e_init ->
  eruns t ops e_init = Ok tt s -> e_lost s = [] /\ e_mem s = 0.
Proof. intros Hf Hp E. destruct (calm_lost t ops Hf e_init s init_winv init_bal Hp E) as [-> ->]. auto. Qed.

(** Filling loses exactly the elements it writes over. *)
Lemma resize_loses t s s' x n v len : reached t s -> proper t (EResizeFill x n v) s -> len_is s x (eq len) ->
  eexec t (EResizeFill x n v) s = Ok tt s' -> exists L, e_lost s' = e_lost s ++ L /\ zlen L = Z.max 0 (n - len).
Proof.
  intros R (Hx & Hn & Hu) Hl E. destruct (reached_ok t s R) as [Hw Hb]. destruct (usable_stays_len s x _ Hx Hl) as (k & Hs & <-).
  rewrite Hu in E. pose proof (eresize_fill_runs (never t) (fun _ => eq_refl) 0 x len n v s Hw Hb Hs Hn) as H. unfold runs in H.
  cbn [eexec] in E. rewrite E in H. destruct H as (_ & _ & _ & _ & _ & H). exact H.
Qed.
Lemma ctor_loses t s s' x n v : reached t s -> proper t (ECtorFill x n v) s ->
  eexec t (ECtorFill x n v) s = Ok tt s' -> exists L, e_lost s' = e_lost s ++ L /\ zlen L = n.
Proof.
  intros R (Hx & Hn & Hu) E. destruct (reached_ok t s R) as [Hw Hb].
  rewrite Hu in E. pose proof (ctor_fill_runs (never t) (fun _ => eq_refl) x n v s Hw Hb Hx Hn) as H. unfold runs in H.
  rewrite E in H. destruct H as (_ & _ & _ & _ & _ & H). exact H.
Qed.

(** What a throwing call leaves behind. *)
Lemma call_safe t s o : reached t s -> proper t o s ->
  match eexec t o s with
  | Ok _ s' => reached t s' /\ settles true o s' /\ forall y, ~ In y (touches o) -> e_env s' !! y = e_env s !! y /\ view s' y = view s y
  | Exn _ s' => reached t s' /\ settles false o s' /\ forall y, ~ In y (touches o) -> e_env s' !! y = e_env s !! y /\ view s' y = view s y
  | _ => False
  end.
Proof.
  intros R Hp. destruct (reached_ok t s R) as [Hw Hb]. pose proof (step_kept t o s Hw Hb Hp) as H. unfold runs in H.
  assert (forall s', (eexec t o s = Ok tt s' \/ exists e, eexec t o s = Exn e s') -> reached t s') as Hr.
  { intros s' E. destruct R as (ops & Hps & Er). exists (ops ++ [o]). revert Hps Er. generalize (e_init (V := V)).
    induction ops as [|o1 ops IH]; intros s0 Hps Er; cbn [app proper_all erun] in *.
    - injection Er as ->. destruct E as [E|[e E]]; rewrite E; auto.
    - destruct Hps as [Hp1 Hps]. split; [split; [exact Hp1|]|]; destruct (eexec t o1 s0) as [[] s1|e1 s1| | |]; try discriminate; try exact I; now apply IH. }
  destruct (eexec t o s) as [[] s'|e s'| | |]; try contradiction.
  - destruct H as (W & B & F & _ & _ & S). split; [apply Hr; auto|]. split; [exact S|]. intros y Hy.
    split; [apply (F y Hy)|]. exact (fr_view _ _ _ _ Hw F Hy).
  - destruct H as (W & B & F & _ & _ & S). split; [apply Hr; eauto|]. split; [exact S|]. intros y Hy.
    split; [apply (F y Hy)|]. exact (fr_view _ _ _ _ Hw F Hy).
Qed.

(** Functions that do not throw. *)
Definition nothrow {A} (m : M St A) : Prop := forall s e s', m s <> Exn e s'.
Lemma nt_ret {A} (a : A) : nothrow (ret a). Proof. intros s e s'; discriminate. Qed.
Lemma nt_undef {A} u : nothrow (undef u : M St A). Proof. intros s e s'; discriminate. Qed.
Lemma nt_upd f : nothrow (upd f : M St unit). Proof. intros s e s'; discriminate. Qed.
Lemma nt_bind {A B} (m : M St A) (k : A -> M St B) : nothrow m -> (forall a, nothrow (k a)) -> nothrow (bind m k).
Proof. intros Hm Hk s e s'. unfold bind. destruct (m s) eqn:E; try discriminate; [apply Hk|]. exfalso. exact (Hm _ _ _ E). Qed.
Lemma nt_obj_of x : nothrow (obj_of x : M St obj). Proof. intros s e s'; unfold obj_of; destruct (e_env s !! x); discriminate. Qed.
Lemma nt_cell_of l : nothrow (cell_of l : M St (ecell V)). Proof. intros s e s'; unfold cell_of; destruct (e_heap s !! l); discriminate. Qed.
Lemma nt_start x a : nothrow (start_obj x a : M St unit). Proof. intros s e s'; unfold start_obj; destruct (e_env s !! x); discriminate. Qed.
Lemma nt_destroy b : nothrow (destroy_all b : M St unit).
Proof. induction b as [|[|v] b IH]; cbn; [apply nt_ret|apply nt_undef|apply nt_bind; [apply nt_upd|auto]]. Qed.
Ltac nt := repeat (first [apply nt_ret|apply nt_undef|apply nt_upd|apply nt_obj_of|apply nt_cell_of|apply nt_start|apply nt_destroy
  |apply nt_bind; [|intros ?]|match goal with |- nothrow (match ?a with _ => _ end) => destruct a end]).
Lemma nt_add_ref r k : nothrow (add_ref r k : M St Z). Proof. unfold add_ref, put_cell; nt. Qed.
Lemma nt_drop_ref x : nothrow (drop_ref x : M St unit).
Proof. unfold drop_ref, put_obj, delete_ref. apply nt_bind; [nt|]. intros a. destruct (o_ref a); [|nt]. apply nt_bind; [apply nt_add_ref|]. intros n; nt. Qed.
Lemma nt_eassign x y : nothrow (eassign x y : M St unit).
Proof.
  unfold eassign, put_obj. apply nt_bind; [nt|]. intros a. apply nt_bind; [apply nt_add_ref|]. intros _. apply nt_bind; [nt|]. intros b.
  apply nt_bind; [nt|]. intros _. apply nt_bind; [apply nt_drop_ref|]. intros _. nt.
Qed.
Lemma nt_eclear x : nothrow (eclear x : M St unit).
Proof.
  unfold eclear, shared, detach, put_obj. apply nt_bind; [nt|]. intros b. destruct b; [|nt]. apply nt_bind; [nt|]. intros a.
  apply nt_bind; [apply nt_add_ref|]. intros _; nt.
Qed.
Lemma nt_move x y : nothrow (eassign_move x y : M St unit).
Proof. unfold eassign_move, put_obj. destruct (Pos.eqb x y); [nt|]. apply nt_bind; [apply nt_drop_ref|]. intros _; nt. Qed.

Lemma alone_unshared s x a : winv s -> alone s x -> e_env s !! x = Some a -> unshared s a.
Proof.
  intros Hw Ha Hx l c Hr Hc. pose proof (cf_pos _ _ _ _ (proj1 Hw l c Hc)) as H1. pose proof (cf_refs _ _ _ _ (proj1 Hw l c Hc)) as H2.
  pose proof (count_delete l (e_env s) x a Hx) as Hd. rewrite ind_some in Hd by exact Hr.
  destruct (decide (e_refs c = 1)) as [|Hn]; [assumption|]. destruct (count_witness l (delete x (e_env s))) as (y & b & Hy & Hry); [lia|].
  apply lookup_delete_Some in Hy as [Hxy Hy]. contradiction Hxy. symmetry. apply (Ha y a b Hx Hy); congruence.
Qed.
Lemma runs_exn (m : M St unit) s P (E : exn -> St -> Prop) e s' : runs m s P E -> m s = Exn e s' -> E e s'.
Proof. unfold runs. intros H E1. rewrite E1 in H. exact H. Qed.

Lemma nop_view s s' y : same s s' -> view s' y = view s y.
Proof. intros (A & B & _). unfold view. rewrite A, B. reflexivity. Qed.
Lemma take_exn t x pos s s' e : take t x pos s = Exn e s' -> same s s'.
Proof.
  unfold take, bind. destruct (shared x s) as [b s1|e1 s1| | |] eqn:E1; try discriminate.
  2:{ exfalso. revert E1. apply nt_bind; [nt|]. intros a. nt. }
  assert (s1 = s) as ->.
  { revert E1. unfold shared, bind, obj_of, cell_of. destruct (e_env s !! x) as [a|]; [|discriminate]. destruct (o_ref a) as [l|]; [|intros [= _ <-]; reflexivity].
    destruct (e_heap s !! l); [intros [= _ <-]; reflexivity|discriminate]. }
  destruct (place x pos s) as [p s2|e2 s2| | |] eqn:E2; try discriminate.
  2:{ exfalso. revert E2. unfold place. apply nt_bind; [nt|]. intros a. nt. }
  assert (s2 = s) as ->.
  { revert E2. unfold place, bind, obj_of. destruct (e_env s !! x) as [a|]; [|discriminate]. destruct (o_ref a) as [l|]; [intros [= _ <-]; reflexivity|discriminate]. }
  destruct (get_slot p.1 p.2 s) as [v s3|e3 s3| | |] eqn:E3; try discriminate.
  2:{ exfalso. revert E3. unfold get_slot. apply nt_bind; [nt|]. intros a. destruct (p.2 <? 0); nt. }
  assert (s3 = s) as ->.
  { revert E3. unfold get_slot, bind, cell_of. destruct (e_heap s !! p.1); [|discriminate]. destruct (p.2 <? 0); [discriminate|].
    destruct (znth p.2 (e_buf e0)) as [[|w]|]; try discriminate. intros [= _ <-]; reflexivity. }
  destruct (b || negb (e_moves t)).
  - unfold attempt. destruct (e_fails t (e_tick s)); [|discriminate]. intros [= _ <-]. repeat split.
  - destruct (set_slot p.1 p.2 None s) as [u s4|e4 s4| | |] eqn:E4; try discriminate. exfalso. revert E4. unfold set_slot, put_cell.
    apply nt_bind; [nt|]. intros a. destruct (p.2 <? 0); nt.
Qed.
Lemma modify_exn_view t x n s a e s' : winv s -> bal 0 s -> e_env s !! x = Some a -> okobj a -> unshared s a -> 0 <= n -> o_len a <= n ->
  e_moves t = true -> modify t x n s = Exn e s' -> view s' x = view s x.
Proof.
  intros Hw Hb Hx Ha Hu H0 Hn Hm E. pose proof (runs_exn _ _ _ _ _ _ (modify_runs t x n s 0 a Hw Hb Hx Ha H0 Hn) E) as (_ & _ & H). auto.
Qed.
Lemma put_len_nt x n : nothrow (put_len x n : M St unit). Proof. unfold put_len, put_obj. nt. Qed.
Lemma place_nt x p : nothrow (place x p : M St _). Proof. unfold place. nt. Qed.
Lemma set_slot_nt l i v : nothrow (set_slot l i v : M St unit).
Proof. unfold set_slot, put_cell. apply nt_bind; [nt|]. intros a. destruct (i <? 0); nt. Qed.

Lemma atomic_view t s o e s' : reached t s -> proper t o s -> atomic o s -> e_moves t = true -> eexec t o s = Exn e s' ->
  forall y, view s' y = view s y.
Proof.
  intros R Hp Hat Hm E y. destruct (reached_ok t s R) as [Hw Hb]. pose proof (runs_exn _ _ _ _ _ _ (step_kept t o s Hw Hb Hp) E) as (_ & _ & F & _ & _ & S).
  destruct (in_dec Pos.eq_dec y (touches o)) as [Hin|Hout]; [|exact (fr_view _ _ _ _ Hw F Hout)].
  assert (forall x, unborn s x -> unborn s' x -> view s' x = view s x) as Hub by (intros x H1 H2; unfold view; rewrite H1, H2; reflexivity).
  destruct o as [x|x n|x n v|x vs|x z|x z|x|x z|x z|x z|x vs|x|x n|x n|x n v|x a n|x pos v|x pos z|x pos vs|x pos v|x pos v|x pos z|x|x];
    cbn [touches atomic proper settles eexec] in *; try contradiction.
  - destruct Hin as [<-|[]]. auto.
  - destruct Hin as [<-|[]]. destruct Hp; auto.
  - destruct Hin as [<-|[]]. destruct Hp; auto.
  - destruct Hin as [<-|[]]. auto.
  - destruct Hin as [<-|[]]. destruct Hp; auto.
  - exfalso. revert E. unfold put_obj. nt.
  - exfalso. revert E. unfold end_obj. apply nt_bind; [apply nt_drop_ref|]. intros _; nt.
  - exfalso. revert E. apply nt_eassign.
  - exfalso. revert E. apply nt_move.
  - exfalso. revert E. unfold put_obj. nt.
  - exfalso. revert E. apply nt_eclear.
  - destruct Hin as [<-|[]]. destruct Hp as [(a & Hx & Ha) Hn]. destruct (shared_eq s x a Hw Hx) as (b & Es & Hf & Ht).
    unfold bind in E. rewrite Es in E. destruct b; [discriminate|].
    pose proof (runs_exn _ _ _ _ _ _ (reserve_runs t x n _ s 0 a Hw Hb Hx Ha (Hf eq_refl) Hn) E) as (_ & _ & H). auto.
  - destruct Hin as [<-|[]]. destruct Hp as [(a & Hx & Ha) Hn]. unfold eresize, bind in E. rewrite (obj_of_ok _ _ _ Hx) in E.
    destruct (n <? o_len a) eqn:En; [exfalso; revert E; apply put_len_nt|]. destruct (modify t x n s) as [u s1|e1 s1| | |] eqn:E1; try discriminate.
    + exfalso; revert E; apply put_len_nt.
    + injection E as <- <-. apply (modify_exn_view t x n s a e1); auto; [exact (alone_unshared s x a Hw Hat Hx)|lia].
  - exfalso. revert E. unfold eslice, put_obj. nt.
  - destruct Hin as [<-|[]]. destruct Hp as [(a & Hx & Ha) Hpos]. destruct Hat as [Hal Hlen]. pose proof (Hlen a Hx) as El.
    pose proof (alone_unshared s x a Hw Hal Hx) as Hu.
    unfold einsert, bind at 1, check, bind at 1 in E. rewrite (obj_of_ok _ _ _ Hx) in E. assert ((o_len a <? pos) = false) as Elt by lia. rewrite Elt in E. cbn [ret] in E.
    unfold bind at 1 in E. rewrite (obj_of_ok _ _ _ Hx) in E. unfold bind at 1 in E.
    destruct (modify t x (o_len a + 1) s) as [u s1|e1 s1| | |] eqn:E1; try discriminate.
    + assert (view s1 x = view s x) as V1.
      { pose proof (modify_runs t x (o_len a + 1) s 0 a Hw Hb Hx Ha) as H. unfold runs in H. rewrite E1 in H.
        destruct H as (_ & _ & H); [lia|lia|auto]. }
      rewrite <- V1. unfold at_place, bind at 1 in E. assert ((o_len a - pos <=? 0) = true) as E0 by lia. rewrite E0 in E. cbn [ret] in E.
      unfold bind at 1 in E. destruct (place x pos s1) as [p s2|e2 s2| | |] eqn:E2; try discriminate; [|exfalso; revert E2; apply place_nt].
      assert (s2 = s1) as ->.
      { revert E2. unfold place, bind, obj_of. destruct (e_env s1 !! x) as [b|]; [|discriminate]. destruct (o_ref b); [intros [= _ <-]; reflexivity|discriminate]. }
      unfold bind at 1 in E. destruct (attempt t s1) as [u3 s3|e3 s3| | |] eqn:E3; try discriminate.
      * exfalso. revert E. apply nt_bind; [apply set_slot_nt|]. intros _. apply put_len_nt.
      * injection E as <- <-. apply nop_view. revert E3. unfold attempt. destruct (e_fails t (e_tick s1)); [|discriminate]. intros [= _ <-]. repeat split.
    + injection E as <- <-. apply (modify_exn_view t x (o_len a + 1) s a e1); auto; lia.
  - apply nop_view. revert E. unfold eshift, put_obj, bind at 1. destruct (take t x 0 s) as [u s1|e1 s1| | |] eqn:E1; try discriminate.
    + intros E. exfalso. revert E. nt.
    + intros [= <- <-]. exact (take_exn _ _ _ _ _ _ E1).
  - apply nop_view. revert E. unfold epop, bind at 1. destruct (obj_of x s) as [a s0|e0 s0| | |] eqn:E0; try discriminate; [|exfalso; revert E0; apply nt_obj_of].
    assert (s0 = s) as -> by (revert E0; unfold obj_of; destruct (e_env s !! x); [intros [= _ <-]; reflexivity|discriminate]).
    unfold bind. destruct (take t x (o_len a - 1) s) as [u s1|e1 s1| | |] eqn:E1; try discriminate.
    + intros E. exfalso. revert E. apply put_len_nt.
    + intros [= <- <-]. exact (take_exn _ _ _ _ _ _ E1).
Qed.
End LT.
