(** Assertions change nothing but when the program ends, and never end one that keeps to the contract. *)
From stdpp Require Import gmap.
From Verif Require Import RcaSpec RcaModel RcaExec RcaInv RcaOwn RcaRel RcaRel2 RcaMeet RcaMain RcaReach RcaFacts DbgMeet.
Open Scope Z_scope.

Section Dbg.
Context {T : Type}.
Variable d : desc T.
Notation St := (state T).
Notation Mm := (M (state T)).
Notation on := (build true d).
Notation off := (build false d).

(** [m] is [n], or stops. *)
Definition sim {A} (m n : Mm A) : Prop := forall s, m s = n s \/ exists u, m s = Undef u.
Lemma sim_refl {A} (m : Mm A) : sim m m. Proof. intros s. left. reflexivity. Qed.
Lemma sim_bind {A B} (m n : Mm A) (k l : A -> Mm B) : sim m n -> (forall v, sim (k v) (l v)) -> sim (bind m k) (bind n l).
Proof. intros H Hk s. unfold bind. destruct (H s) as [->|(u & ->)]; [|eauto]. destruct (n s) as [v s'|e s'| | |u]; auto. apply Hk. Qed.
Lemma sim_noexcept {A} (m n : Mm A) : sim m n -> sim (noexcept m) (noexcept n).
Proof. intros H s. unfold noexcept. destruct (H s) as [->|(u & ->)]; eauto. Qed.
Lemma sim_guard x (p q m n : Mm unit) : sim p q -> sim m n -> sim (ctor_guard x p m) (ctor_guard x q n).
Proof.
  intros Hp H s. unfold ctor_guard. destruct (H s) as [->|(u & ->)]; [|eauto]. destruct (n s) as [v s'|e s'| | |u]; auto. destruct (Hp s') as [->|(u & ->)]; eauto.
Qed.
Definition looks {A} (m : Mm A) : Prop := forall s, match m s with Ok _ s' => s' = s | Undef _ => True | _ => False end.
Lemma looks_bind {A B} (m : Mm A) (k : A -> Mm B) : looks m -> (forall v, looks (k v)) -> looks (bind m k).
Proof. intros H Hk s. unfold bind. specialize (H s). destruct (m s) as [v s'|e s'| | |u]; auto. subst. apply Hk. Qed.
Lemma looks_ret {A} (v : A) : looks (ret v). Proof. intros s. reflexivity. Qed.
Lemma looks_undef {A} u : looks (undef u : Mm A). Proof. intros s. exact I. Qed.
Lemma looks_obj x : looks (get_obj (T:=T) x). Proof. intros s. unfold get_obj. destruct (_ !! _); [reflexivity|exact I]. Qed.
Lemma looks_cell l : looks (get_cell (T:=T) l). Proof. intros s. unfold get_cell. destruct (_ !! _); [reflexivity|exact I]. Qed.
Ltac looks := repeat first [apply looks_ret | apply looks_undef | apply looks_obj | apply looks_cell
  | match goal with
    | |- looks (bind _ _) => apply looks_bind; [|intros ?]
    | |- looks (if ?b then _ else _) => destruct b
    | |- looks (match ?e with _ => _ end) => destruct e
    end | progress cbv zeta].
Lemma looks_shared x : looks (is_shared (T:=T) x). Proof. unfold is_shared. looks. Qed.
Lemma looks_not_empty x : looks (not_empty (T:=T) x). Proof. unfold not_empty, length_of. looks. Qed.
Lemma looks_ends d' z x n : looks (ends_nul (T:=T) d' z x n). Proof. unfold ends_nul, load1, load. looks. Qed.
Lemma sim_check {B} (m : Mm bool) (k l : Mm B) : looks m -> sim k l -> sim (check on m ;;; k) (check off m ;;; l).
Proof.
  intros Hm Hk s. unfold check, bind. cbn. specialize (Hm s). destruct (m s) as [b s'|e s'| | |u]; try contradiction; [subst s'|eauto].
  destruct b; cbn; [apply Hk|eauto].
Qed.
Lemma sim_check1 (m : Mm bool) : looks m -> sim (check on m) (check off m).
Proof.
  intros Hm s. unfold check, bind. cbn. specialize (Hm s). destruct (m s) as [b s'|e s'| | |u]; try contradiction; [subst s'|eauto].
  destruct b; cbn; eauto.
Qed.
Hint Resolve looks_shared looks_not_empty looks_ends : dbg.
Ltac step := first [ apply sim_refl | solve [auto with dbg]
  | match goal with
    | |- sim (check _ _ ;;; _) _ => apply sim_check; [solve [auto with dbg|looks]|]
    | |- sim (check _ _) _ => apply sim_check1; [solve [auto with dbg|looks]]
    | |- sim (bind _ _) _ => apply sim_bind; [|intros ?]
    | |- sim (noexcept _) _ => apply sim_noexcept
    | |- sim (ctor_guard _ _ _) _ => apply sim_guard
    | |- sim (if ?b then _ else _) _ => destruct b
    | |- sim (match ?e with _ => _ end) _ => destruct e
    end | progress cbv zeta ].
Ltac go := repeat step.

Lemma s_cow x n : sim (cow on x n) (cow off x n). Proof. unfold cow. go. Qed.
Hint Resolve s_cow : dbg.
Lemma s_modify x n : sim (about_to_modify on x n) (about_to_modify off x n). Proof. unfold about_to_modify. go. Qed.
Hint Resolve s_modify : dbg.
Lemma s_own x : sim (get_own_copy on x) (get_own_copy off x). Proof. unfold get_own_copy. go. Qed.
Hint Resolve s_own : dbg.
Lemma s_rfill x n v : sim (resize_fill on x n v) (resize_fill off x n v). Proof. unfold resize_fill. go. Qed.
Lemma s_item x p v : sim (insert_item on x p v) (insert_item off x p v). Proof. unfold insert_item. go. Qed.
Hint Resolve s_rfill s_item : dbg.
Lemma s_loop vs : forall x p, sim (insert_loop on x p vs) (insert_loop off x p vs). Proof. induction vs as [|v vs IH]; intros x p; cbn [insert_loop]; go. Qed.
Hint Resolve s_loop : dbg.
Lemma s_range x p vs : sim (insert_range on x p vs) (insert_range off x p vs). Proof. unfold insert_range. go. Qed.
Hint Resolve s_range : dbg.
Lemma s_splice x p y k : sim (splice on x p y k) (splice off x p y k). Proof. unfold splice. go. Qed.
Hint Resolve s_splice : dbg.
Lemma s_insert_n mv x p y n : sim (insert_n on mv x p y n) (insert_n off mv x p y n). Proof. unfold insert_n. go. Qed.
Lemma s_popb x : sim (pop_back on x) (pop_back off x). Proof. unfold pop_back. go. Qed.
Hint Resolve s_insert_n s_popb : dbg.
Lemma s_chomp1 x c : sim (chomp1 on x c) (chomp1 off x c). Proof. unfold chomp1. cbn [build d_eqb]. go. Qed.
Hint Resolve s_chomp1 : dbg.
End Dbg.

Section Base.
Context {T : Type}.
Variable d : desc T.
Lemma base_build b : base_desc (build b d) = build b (base_desc d). Proof. reflexivity. Qed.
End Base.

Section Exec.
Context {T : Type}.
Variable d : desc T.
Notation on := (build true d).
Notation off := (build false d).
Notation Mm := (M (state T)).
Local Hint Resolve looks_shared looks_not_empty looks_ends s_cow s_modify s_own s_rfill s_item s_loop s_range s_splice s_insert_n s_popb s_chomp1 : dbg.
Ltac looks := repeat first [apply looks_ret | apply looks_undef | apply looks_obj | apply looks_cell
  | match goal with |- looks (bind _ _) => apply looks_bind; [|intros ?] end ].
Ltac step := first [ apply sim_refl | solve [auto with dbg]
  | match goal with
    | |- sim (check _ _ ;;; _) _ => apply sim_check; [solve [auto with dbg|looks]|]
    | |- sim (check _ _) _ => apply sim_check1; [solve [auto with dbg|looks]]
    | |- sim (bind _ _) _ => apply sim_bind; [|intros ?]
    | |- sim (noexcept _) _ => apply sim_noexcept
    | |- sim (ctor_guard _ _ _) _ => apply sim_guard
    | |- sim (if ?b then _ else _) _ => destruct b
    | |- sim (match ?e with _ => _ end) _ => destruct e
    end | progress cbv zeta ].
Ltac go := repeat step.
Lemma s_fill x n v : sim (ctor_fill on x n v) (ctor_fill off x n v).
Proof. unfold ctor_fill. rewrite !base_build. apply sim_bind; [apply sim_refl|]. intros _. apply sim_guard; [apply sim_refl|apply s_rfill]. Qed.
Lemma s_crange x vs : sim (ctor_range on x vs) (ctor_range off x vs).
Proof. unfold ctor_range. rewrite !base_build. apply sim_bind; [apply sim_refl|]. intros _. apply sim_guard; [apply sim_refl|apply s_range]. Qed.
Lemma exec_sim o : sim (exec on o) (exec off o).
Proof.
  destruct o; cbn [exec]; unfold unit_, val_, int_, mem_, with_nul; try apply sim_refl;
    try (apply sim_bind; [|intros ?; apply sim_refl]); try (change (d_nul on) with (d_nul d); change (d_nul off) with (d_nul d); destruct (d_nul d) as [z|]; [|apply sim_refl]);
    try apply s_fill; try apply s_crange;
    unfold ctor_cstr, assign_std, resize, append_item, insert_all, append_n, insert_cstr, replace_item, replace_n, replace_cstr, write, shift, pop, c_str, chomp; cbn [build d_eqb]; go.
Qed.
End Exec.

Section Same.
Context {T : Type}.
Variable d : desc T.
Hypothesis Hwf : wf_desc d.
Notation on := (build true d).
Notation off := (build false d).
Lemma wf_build b : wf_desc (build b d). Proof. exact Hwf. Qed.
Lemma same_R o s a : R on s a -> RcaMeet.step d o a <> None -> exec on o s = exec off o s.
Proof.
  intros H Hs. destruct (exec_sim d o s) as [E|(u & E)]; [exact E|]. pose proof (exec_meets on o s a (wf_build true) H) as K.
  rewrite E in K. unfold meets in K. change (RcaMeet.step on o a) with (RcaMeet.step d o a) in K. destruct (RcaMeet.step d o a) as [[a' v|]|]; [contradiction|discriminate|congruence].
Qed.
Lemma exec_same o s a : reached on s a -> RcaMeet.step d o a <> None -> exec on o s = exec off o s.
Proof. intros H. apply same_R. apply reached_R; [apply wf_build|exact H]. Qed.
Lemma reached_off s a : reached on s a -> reached off s a.
Proof.
  intros H. induction H as [|s a o a' v v' s' H IH E1 E2|s a o s' H IH E1 E2|s a o a' v x s' H IH E1 E2 E3 E4|s a o a' v x s' H IH E1 E2 E3 E4]; [apply re_init| | | |];
    rewrite (exec_same o s a H) in E2 by (change (RcaMeet.step d o a) with (RcaMeet.step on o a); congruence).
  - eapply re_ret; eassumption.
  - eapply re_range; eassumption.
  - eapply re_oom_kept; eassumption.
  - eapply re_oom_emptied; eassumption.
Qed.
Lemma reached_on s a : reached off s a -> reached on s a.
Proof.
  intros H. induction H as [|s a o a' v v' s' H IH E1 E2|s a o s' H IH E1 E2|s a o a' v x s' H IH E1 E2 E3 E4|s a o a' v x s' H IH E1 E2 E3 E4]; [apply re_init| | | |];
    rewrite <- (exec_same o s a IH) in E2 by (change (RcaMeet.step d o a) with (RcaMeet.step off o a); congruence).
  - eapply re_ret; eassumption.
  - eapply re_range; eassumption.
  - eapply re_oom_kept; eassumption.
  - eapply re_oom_emptied; eassumption.
Qed.
Lemma observe_prefix ops : forall s, observe on ops s = observe off ops s \/
  exists pre post u, observe off ops s = pre ++ post /\ observe on ops s = pre ++ [OUndef u].
Proof.
  induction ops as [|o ops IH]; intros s; [left; reflexivity|]. cbn [observe]. destruct (exec_sim d o s) as [->|(u & ->)].
  - destruct (exec off o s) as [v s'|e s'| | |u]; try (left; reflexivity).
    + destruct (IH s') as [->|(pre & post & u & -> & ->)]; [left; reflexivity|]. right. exists (ORet v :: pre), post, u. split; reflexivity.
    + destruct (IH s') as [->|(pre & post & u & -> & ->)]; [left; reflexivity|]. right. exists (OThrow e :: pre), post, u. split; reflexivity.
  - right. eexists [], _, u. split; reflexivity.
Qed.
Lemma target_subject (o : op T) x : target o = Some x -> subject o = Some x. Proof. destruct o; cbn; congruence. Qed.
Lemma keeps_never ops : forall a tr, allows on a ops tr -> keeps d ops a -> forall u, ~ In (OUndef u) tr.
Proof.
  intros a tr H. induction H as [a|a o ops tr Hs|a o ops a' v v' tr Hs Hv H IH|a o ops tr Hs H IH|a o ops a' v x tr Hs Hx Hn H IH|a o ops a' v x tr Hs Hx Hn H IH|a g x ops a' v Hs Hn];
    cbn [keeps]; change (RcaMeet.step on) with (RcaMeet.step d) in *; try rewrite Hs; intros K u J.
  - exact J.
  - exact K.
  - destruct J as [J|J]; [discriminate|]. exact (IH (proj1 K) u J).
  - destruct J as [J|J]; [discriminate|]. exact (IH K u J).
  - destruct J as [J|J]; [discriminate|]. exact (IH (proj1 (proj2 K x Hx Hn)) u J).
  - destruct J as [J|J]; [discriminate|]. exact (IH (proj2 (proj2 K x (target_subject o x Hx) Hn) Hx) u J).
  - destruct J as [J|J]; [discriminate|exact J].
Qed.
Lemma observe_same ops : keeps d ops ∅ -> observe on ops st_init = observe off ops st_init /\ forall u, ~ In (OUndef u) (observe off ops st_init).
Proof.
  intros K. pose proof (keeps_never ops ∅ _ (programs_refine on ops (wf_build true)) K) as N.
  destruct (observe_prefix ops st_init) as [E|(pre & post & u & _ & E)]; [rewrite <- E; auto|]. exfalso. apply (N u). rewrite E. apply in_or_app. right. left. reflexivity.
Qed.
Lemma empty_fires s a x r : reached on s a -> a !! x = Some (AVal r []) ->
  exec on (PopBack x) s = Undef Asserted /\ exec on (Shift x) s = Undef Asserted /\ exec on (Pop x) s = Undef Asserted /\
  exists s', exec off (PopBack x) s = Ok ONone s' /\ length_of x s' = Ok (W64 - 1) s'.
Proof.
  intros H Hx. destruct (R_held on s a x r [] (reached_R on s a (wf_build true) H) Hx) as (o & Hh).
  pose proof (held_len _ _ _ _ _ _ Hh) as El. pose proof (hd_env _ _ _ _ _ _ Hh) as Ho. pose proof (hd_len _ _ _ _ _ _ Hh) as Hl. change (zlen []) with 0 in *.
  assert (check on (not_empty x) s = Undef Asserted) as E by (unfold check, not_empty, bind; cbn; rewrite El; reflexivity).
  cbn [exec]. unfold unit_, val_, pop_back, shift, pop, bind. rewrite E. repeat (split; [reflexivity|]).
  unfold check, sub_length, bind, get_obj. cbn [d_debug build ret]. rewrite Ho. eexists. split; [reflexivity|]. unfold length_of, get_obj, bind. cbn. rewrite lookup_insert. cbn. unfold ret. rewrite Hl. reflexivity.
Qed.
End Same.
