(** Rules for running heap algorithms. *)
From Verif Require Import RcaSpec RcaModel RcaExec RcaInv RcaOwn RcaRel RcaMeet RcaReach RcaFacts RcaFacts2 StrModel StreamProof AlgModel AlgMeet.
Open Scope Z_scope.

Section Rules.
Variable d : desc Z.
Hypothesis Hwf : wf_desc d.
Hypothesis Hnul : d_nul d = Some 0.
Notation reached := (reached d).
Notation step := (step d).

(** [a] with the variables [X] in scope, whatever their values. *)
Definition around (X : list positive) (a a1 : astate Z) : Prop :=
  (forall x, x ∉ X -> a1 !! x = a !! x) /\ forall x, x ∈ X -> is_Some (a1 !! x).
(** bad_alloc for the reason [C], with [X] in scope. *)
Definition thrown (C : Prop) (X : list positive) (a : astate Z) (e : exn) (s : state Z) : Prop :=
  e = BadAlloc /\ C /\ exists a1, reached s a1 /\ around X a a1.
Notation oom K := (thrown (no_memory d K)).

Lemma no_memory_mono n m : no_memory d n -> n <= m -> no_memory d m.
Proof.
  unfold no_memory, starves. intros [H|[H|(z & Hz & H)]] L; [left; exact H|right; left; lia|right; right].
  exists z. split; [lia|exact H].
Qed.
Lemma around_nil a a1 : around [] a a1 -> a1 = a.
Proof. intros [H _]. apply map_eq. intros i. apply H. apply not_elem_of_nil. Qed.
Lemma around_set X a a1 x v : around X a a1 -> x ∈ X -> around X a (<[x := v]> a1).
Proof.
  intros [H1 H2] Hx. split; intros y Hy.
  - rewrite lookup_insert_ne; [apply H1, Hy|congruence].
  - destruct (decide (x = y)) as [->|]; [rewrite lookup_insert; eauto|]. rewrite lookup_insert_ne by assumption. apply H2, Hy.
Qed.
Lemma around_del x X a a1 : around (x :: X) a a1 -> x ∉ X -> a !! x = None -> around X a (delete x a1).
Proof.
  intros [H1 H2] Hx Ha. split; intros y Hy; (destruct (decide (x = y)) as [->|Hn]; [|rewrite lookup_delete_ne by assumption]).
  - rewrite lookup_delete. auto.
  - apply H1. apply not_elem_of_cons. auto.
  - contradiction.
  - apply H2. apply elem_of_cons. auto.
Qed.
Lemma oom_mono K K' X a e s : oom K X a e s -> K <= K' -> oom K' X a e s.
Proof. intros (H1 & H2 & H3) L. split; [exact H1|]. split; [eapply no_memory_mono; eassumption|exact H3]. Qed.

Lemma runs_call o s a a' v (P : unit -> state Z -> Prop) (Q : exn -> state Z -> Prop) :
  reached s a -> step o a = Some (SRet a' v) -> (forall g x, o <> CStr g x) ->
  (forall s' v', exec d o s = Ok v' s' -> reached s' a' -> P tt s') ->
  (forall s' x a'', subject o = Some x -> no_memory d (asks o a' x) -> reached s' a'' ->
     a'' = a \/ (target o = Some x /\ a'' = <[x := AVal true []]> a) -> Q BadAlloc s') ->
  runs (call d o) s P Q.
Proof.
  intros H Hs Hn HP HQ. unfold call, runs, bind.
  destruct (step_yields d o s a a' v Hwf H Hs Hn) as [(s' & v' & E & _ & Hr & _)|(s' & x & E & Hsub & Hm & a'' & Hr & _ & Ha)]; rewrite E.
  - eapply HP; eassumption.
  - apply (HQ s' x a'' Hsub Hm Hr). destruct Ha as [->|(Ht & _ & ->)]; auto.
Qed.
(** A call in the scope of [X], of which it may touch only members. *)
Lemma runs_call_in o s a0 X K a a' v (P : unit -> state Z -> Prop) :
  reached s a -> around X a0 a -> step o a = Some (SRet a' v) -> (forall g x, o <> CStr g x) ->
  (forall x, target o = Some x -> x ∈ X) -> (forall x, subject o = Some x -> asks o a' x <= K) ->
  (forall s' v', exec d o s = Ok v' s' -> reached s' a' -> P tt s') ->
  runs (call d o) s P (oom K X a0).
Proof.
  intros H Ha Hs Hn HX HK HP. eapply runs_call; [exact H|exact Hs|exact Hn|exact HP|].
  intros s' x a'' Hsub Hm Hr Hc. split; [reflexivity|]. split; [eapply no_memory_mono; [exact Hm|]; apply HK, Hsub|].
  exists a''. split; [exact Hr|]. destruct Hc as [->|(Ht & ->)]; [exact Ha|]. apply around_set; [exact Ha|apply HX, Ht].
Qed.
(** Calls that cannot allocate. *)
Lemma runs_call_safe o s a a' v (P : unit -> state Z -> Prop) (Q : exn -> state Z -> Prop) :
  reached s a -> step o a = Some (SRet a' v) -> subject o = None ->
  (forall s' v', exec d o s = Ok v' s' -> reached s' a' -> P tt s') -> runs (call d o) s P Q.
Proof.
  intros H Hs Hn HP. eapply runs_call; [exact H|exact Hs| |exact HP|].
  - intros g x ->. discriminate.
  - intros s' x a'' Hx. congruence.
Qed.
Lemma runs_ask o s a z (P : Z -> state Z -> Prop) (Q : exn -> state Z -> Prop) :
  reached s a -> step o a = Some (SRet a (OInt z)) -> subject o = None ->
  (forall s', exec d o s = Ok (OInt z) s' -> reached s' a -> P z s') -> runs (ask d o) s P Q.
Proof.
  intros H Hs Hn HP. destruct (step_returns d o s a a (OInt z) Hwf H Hs Hn) as (s' & E & Hr & _); [discriminate|].
  unfold ask, runs, bind. rewrite E. apply HP; assumption.
Qed.

Lemma destroy_step a x : is_Some (a !! x) -> step (Destroy x) a = Some (SRet (delete x a) ONone).
Proof. intros (v & Hv). unfold RcaMeet.step. cbn [spec_step]. rewrite (live_val _ _ _ Hv). reflexivity. Qed.
Lemma runs_destroy s a x (P : unit -> state Z -> Prop) (Q : exn -> state Z -> Prop) :
  reached s a -> is_Some (a !! x) -> (forall s' v', exec d (Destroy x) s = Ok v' s' -> reached s' (delete x a) -> P tt s') -> runs (call d (Destroy x)) s P Q.
Proof. intros H Hx HP. eapply runs_call_safe; [exact H|apply destroy_step, Hx|reflexivity|exact HP]. Qed.
Lemma runs_destroy_all xs : forall s a a0 X (P : unit -> state Z -> Prop) (Q : exn -> state Z -> Prop),
  reached s a -> around (xs ++ X) a0 a -> NoDup xs -> Forall (fun x => x ∉ X /\ a0 !! x = None) xs ->
  (forall s' a', reached s' a' -> around X a0 a' -> P tt s') -> runs (destroy_all d xs) s P Q.
Proof.
  induction xs as [|x xs IH]; intros s a a0 X P Q H Ha Hnd Hf HP; cbn [destroy_all].
  - apply runs_ret. eapply HP; [exact H|exact Ha].
  - apply NoDup_cons_iff in Hnd as [Hx Hnd]. rewrite <- elem_of_list_In in Hx. inversion_clear Hf as [|? ? [HxX Hx0] Hf0]; rename Hf0 into Hf.
    eapply runs_bind with (P' := fun _ s' => reached s' (delete x a)).
    + eapply runs_destroy; [exact H| |intros; assumption]. apply (proj2 Ha). left.
    + intros [] s' Hr. eapply IH; [exact Hr| |exact Hnd|exact Hf|exact HP].
      apply around_del; [exact Ha|rewrite elem_of_app; intros [?|?]; contradiction|exact Hx0].
Qed.
Lemma runs_unwind {A} xs (m : M (state Z) A) s (K : Prop) X a (P : A -> state Z -> Prop) :
  runs m s P (thrown K (xs ++ X) a) -> NoDup xs -> Forall (fun x => x ∉ X /\ a !! x = None) xs -> runs (unwind d xs m) s P (thrown K X a).
Proof.
  intros Hm Hnd Hf. unfold runs, unwind in *. destruct (m s) as [v s'|e s'| | |u]; try exact Hm.
  destruct Hm as (He & Hk & a1 & Hr & Ha).
  pose proof (runs_destroy_all xs s' a1 a X (fun _ s'' => thrown K X a e s'') (fun _ _ => False) Hr Ha Hnd Hf) as Hd. unfold runs in Hd.
  destruct (destroy_all d xs s') as [? s''|? ?| | |?]; try (apply Hd; intros; (split; [exact He|split; [exact Hk|eauto]])).
Qed.
Lemma runs_unwind1 {A} x (m : M (state Z) A) s (K : Prop) X a (P : A -> state Z -> Prop) :
  runs m s P (thrown K (x :: X) a) -> x ∉ X -> a !! x = None -> runs (unwind d [x] m) s P (thrown K X a).
Proof.
  intros Hm Hx Ha. apply runs_unwind; [exact Hm|repeat constructor; intros []|]. constructor; [auto|constructor].
Qed.
Lemma runs_unwind_safe {A} xs (m : M (state Z) A) s (P : A -> state Z -> Prop) E : runs m s P (fun _ _ => False) -> runs (unwind d xs m) s P E.
Proof. unfold runs, unwind. destruct (m s); tauto. Qed.
(** The scope of a local: [m] ends with values [a']. *)
Lemma runs_scope {A} x (m : M (state Z) A) s (K : Prop) X a (P : A -> state Z -> Prop) (Q : A -> state Z -> Prop) :
  runs m s Q (thrown K (x :: X) a) -> x ∉ X -> a !! x = None ->
  (forall v s', Q v s' -> exists a', reached s' a' /\ is_Some (a' !! x) /\
     forall s'', reached s'' (delete x a') -> P v s'') ->
  runs (scope d x m) s P (thrown K X a).
Proof.
  intros Hm Hx Ha HQ. unfold scope. eapply runs_bind with (P' := Q).
  - apply runs_unwind1; assumption.
  - intros v s' H. destruct (HQ v s' H) as (a' & Hr & Hl & HP).
    eapply runs_bind with (P' := fun _ s'' => P v s'').
    + eapply runs_destroy; [exact Hr|exact Hl|]. intros s'' _ _ Hr''. apply HP, Hr''.
    + intros [] s'' H''. exact H''.
Qed.

(** Reading. *)
Lemma length_str s a x r (v : list (option Z)) : reached s a -> a !! x = Some (AVal r v) -> length_of x s = Ok (zlen v) s.
Proof. intros H Hx. apply (reached_shows d s a Hwf H x r v Hx). Qed.
Lemma valued_some l : valued (map Some l) = Some l.
Proof. induction l as [|c l IH]; [reflexivity|]. cbn. rewrite IH. reflexivity. Qed.
Lemma contents_str s a x l : reached s a -> is_str a x l -> contents x s = Ok l s.
Proof.
  intros H (r & Hx). unfold contents, bind. rewrite (length_str s a x r _ H Hx), zlen_map, (load_bytes d Hwf s a x r l H Hx), valued_some. reflexivity.
Qed.
Lemma str_len s a x l : reached s a -> is_str a x l -> 0 <= zlen l <= max_alloc.
Proof. intros H (r & Hx). pose proof (reached_len d s a x r _ Hwf H Hx) as L. rewrite zlen_map in L. exact L. Qed.
Lemma length_is s a x l : reached s a -> is_str a x l -> length_of x s = Ok (zlen l) s.
Proof. intros H (r & Hx). rewrite (length_str s a x r _ H Hx), zlen_map. reflexivity. Qed.
Lemma pure_ok {A} (m : M unit A) v (s : state Z) : m tt = Ok v tt -> pure m s = Ok v s.
Proof. intros E. unfold pure. rewrite E. reflexivity. Qed.

(** The calls used. *)
Lemma copy_step a x y r v : a !! y = Some (AVal r v) -> a !! x = None -> step (CtorCopy x y) a = Some (SRet (<[x := AVal r v]> a) ONone).
Proof. intros Hy Hx. unfold RcaMeet.step. cbn [spec_step]. rewrite (holds_val _ _ _ _ Hy), (fresh_val _ _ Hx). reflexivity. Qed.
Lemma slice_step a x r l start len : a !! x = Some (AVal r (map Some l)) -> sp_slice_ok (zlen l) start len = true ->
  step (SliceTo x start len) a = Some (SRet (<[x := AVal r (map Some (sp_slice l start len))]> a) ONone).
Proof.
  intros Hx Hok. unfold RcaMeet.step. cbn [spec_step]. rewrite (holds_val _ _ _ _ Hx), zlen_map, Hok. cbn [need]. unfold put.
  f_equal. f_equal. f_equal. f_equal. unfold sp_slice. rewrite zlen_map.
  destruct (zlen l <=? sp_slice_start (zlen l) start); [reflexivity|]. rewrite zdrop_map, ztake_map. reflexivity.
Qed.
Lemma append_step mv a x y rx ry (v w : list Z) : a !! x = Some (AVal rx (map Some v)) -> a !! y = Some (AVal ry (map Some w)) ->
  zlen v <= max_alloc -> zlen w <= max_alloc ->
  step (AppendN mv x y npos) a = Some (SRet (<[x := AVal true (map Some (v ++ w))]> a) ONone).
Proof.
  intros Hx Hy Hv Hw. unfold RcaMeet.step. cbn [spec_step]. rewrite (holds_val _ _ _ _ Hx). unfold sp_insert_n.
  rewrite (live_val _ _ _ Hx), (live_val _ _ _ Hy). change (need _ _) with (sp_insert (d_class d) a mv x (zlen (map Some v)) y (Z.min npos) (Z.eqb npos)).
  unfold sp_insert. rewrite (holds_val _ _ _ _ Hx), (holds_val _ _ _ _ Hy), !zlen_map.
  pose proof (zlen_nonneg v). pose proof (zlen_nonneg w).
  assert (in_u64 (zlen v) = true) as -> by (unfold in_u64, max_alloc, W64, W63 in *; lia). cbn [need].
  rewrite Z.ltb_irrefl. assert (npos =? zlen w = false) as -> by (unfold npos, max_alloc, W64, W63 in *; lia). rewrite andb_false_r.
  assert (Z.min npos (zlen w) = zlen w) as -> by (unfold npos, max_alloc, W64, W63 in *; lia).
  unfold alias_ok. rewrite (cls d Hwf Hnul). cbn [negb andb orb need]. unfold put, sp_splice. f_equal. f_equal. f_equal. f_equal.
  rewrite ztake_all by (rewrite zlen_map; lia). rewrite ztake_all by (rewrite zlen_map; lia). rewrite zdrop_all by (rewrite zlen_map; lia).
  rewrite app_nil_r, map_app. reflexivity.
Qed.
Lemma drop_step a x r (l : list Z) n : a !! x = Some (AVal r (map Some l)) -> 0 <= n < W64 ->
  step (StrDropFront x n) a = Some (SRet (<[x := AVal r (map Some (zdrop n l))]> a) ONone).
Proof.
  intros Hx Hn. unfold RcaMeet.step. cbn [spec_step]. rewrite (holds_val _ _ _ _ Hx).
  assert (in_u64 n = true) as -> by (unfold in_u64; lia). cbn [need]. rewrite zdrop_map. reflexivity.
Qed.
Lemma sized_step a x n : a !! x = None -> 0 <= n < W64 -> step (CtorSized x n) a = Some (SRet (<[x := AVal true []]> a) ONone).
Proof.
  intros Hx Hn. unfold RcaMeet.step. cbn [spec_step]. rewrite (fresh_val _ _ Hx).
  assert (in_u64 n = true) as -> by (unfold in_u64; lia). reflexivity.
Qed.
Lemma default_step a x : a !! x = None -> step (CtorDefault x) a = Some (SRet (<[x := AVal true []]> a) ONone).
Proof. intros Hx. unfold RcaMeet.step. cbn [spec_step]. rewrite (fresh_val _ _ Hx). reflexivity. Qed.
Lemma char_step a x c : a !! x = None -> step (CtorChar x c) a = Some (SRet (<[x := AVal true [Some c]]> a) ONone).
Proof. intros Hx. unfold RcaMeet.step. cbn [spec_step]. unfold is_string. rewrite (fresh_val _ _ Hx), Hnul. reflexivity. Qed.
Lemma move_step a x y r v : a !! y = Some (AVal r v) -> a !! x = None -> step (CtorMove x y) a = Some (SRet (<[x := AVal r v]> (<[y := AMoved]> a)) ONone).
Proof. intros Hy Hx. unfold RcaMeet.step. cbn [spec_step]. rewrite (holds_val _ _ _ _ Hy), (fresh_val _ _ Hx). reflexivity. Qed.
Lemma assign_move_step a x y r v vx : a !! y = Some (AVal r v) -> a !! x = Some vx -> x <> y ->
  step (AssignMove x y) a = Some (SRet (<[x := AVal r v]> (<[y := AMoved]> a)) ONone).
Proof.
  intros Hy Hx Hn. unfold RcaMeet.step. cbn [spec_step]. destruct (Pos.eqb_spec x y); [contradiction|].
  rewrite (holds_val _ _ _ _ Hy), (live_val _ _ _ Hx). reflexivity.
Qed.
Lemma push_step a x r (l : list Z) c : a !! x = Some (AVal r (map Some l)) ->
  step (AppendItem x c) a = Some (SRet (<[x := AVal true (map Some (l ++ [c]))]> a) ONone).
Proof. intros Hx. unfold RcaMeet.step. cbn [spec_step]. rewrite (holds_val _ _ _ _ Hx), map_app. reflexivity. Qed.

(** slice of a copy *)
Lemma runs_hslice t x start len s a r l (P : unit -> state Z -> Prop) (Q : exn -> state Z -> Prop) :
  reached s a -> a !! x = Some (AVal r (map Some l)) -> a !! t = None -> sp_slice_ok (zlen l) start len = true ->
  (forall s', reached s' (<[t := AVal r (map Some (sp_slice l start len))]> a) -> P tt s') ->
  runs (hslice d t x start len) s P Q.
Proof.
  intros H Hx Ht Hok HP. unfold hslice. eapply runs_bind with (P' := fun _ s' => reached s' (<[t := AVal r (map Some l)]> a)).
  - eapply runs_call_safe; [exact H|apply (copy_step a t x _ _ Hx Ht)|reflexivity|]. intros s' _ _ Hr. exact Hr.
  - intros [] s' Hr. eapply runs_call_safe; [exact Hr|apply slice_step; [apply lookup_insert|exact Hok]|reflexivity|].
    intros s'' _ _ Hr'. rewrite insert_insert in Hr'. apply HP, Hr'.
Qed.
(** append *)
Lemma runs_plus mv x y s a a0 X K rx ry (v w : list Z) (P : unit -> state Z -> Prop) :
  reached s a -> around X a0 a -> x ∈ X -> a !! x = Some (AVal rx (map Some v)) -> a !! y = Some (AVal ry (map Some w)) ->
  zlen v + zlen w + 2 <= K -> (forall s', reached s' (<[x := AVal true (map Some (v ++ w))]> a) -> P tt s') ->
  runs (plus_eq d mv x y) s P (oom K X a0).
Proof.
  intros H Ha HX Hx Hy HK HP. pose proof (str_len s a x v H (ex_intro _ _ Hx)). pose proof (str_len s a y w H (ex_intro _ _ Hy)).
  unfold plus_eq. eapply runs_call_in; [exact H|exact Ha|apply (append_step mv a x y rx ry v w Hx Hy); lia| | | |].
  - discriminate.
  - cbn. intros z [= <-]. exact HX.
  - cbn [subject target asks]. intros z [= <-]. rewrite (vlen_val _ _ _ _ (lookup_insert _ _ _)), zlen_map, zlen_app. lia.
  - intros s' _ _ Hr. apply HP, Hr.
Qed.

(** The same, naming the values afterwards. *)
Definition at_ (a : astate Z) : unit -> state Z -> Prop := fun _ s => reached s a.
Definition with_ {A} (v : A) (a : astate Z) : A -> state Z -> Prop := fun v' s => v' = v /\ reached s a.
Lemma then_ {B} a1 (m : M (state Z) unit) (k : unit -> M (state Z) B) s (P : B -> state Z -> Prop) E :
  runs m s (at_ a1) E -> (forall s', reached s' a1 -> runs (k tt) s' P E) -> runs (bind m k) s P E.
Proof. intros Hm Hk. eapply runs_bind; [exact Hm|]. intros [] s' H. apply Hk, H. Qed.
Lemma then_with {A B} (v : A) a1 (m : M (state Z) A) (k : A -> M (state Z) B) s (P : B -> state Z -> Prop) E :
  runs m s (with_ v a1) E -> (forall s', reached s' a1 -> runs (k v) s' P E) -> runs (bind m k) s P E.
Proof. intros Hm Hk. eapply runs_bind; [exact Hm|]. intros ? s' [-> H]. apply Hk, H. Qed.
Lemma safe_to o s a a1 v a' E : reached s a -> step o a = Some (SRet a1 v) -> subject o = None -> a1 = a' -> runs (call d o) s (at_ a') E.
Proof. intros H Hs Hn <-. eapply runs_call_safe; [exact H|exact Hs|exact Hn|]. intros s' _ _ H'. exact H'. Qed.
Lemma call_to o s a0 X K a a1 v a' :
  reached s a -> step o a = Some (SRet a1 v) -> around X a0 a -> (forall g x, o <> CStr g x) ->
  (forall x, target o = Some x -> x ∈ X) -> (forall x, subject o = Some x -> asks o a1 x <= K) -> a1 = a' ->
  runs (call d o) s (at_ a') (oom K X a0).
Proof. intros H Hs Ha Hn HX HK <-. eapply runs_call_in; [exact H|exact Ha|exact Hs|exact Hn|exact HX|exact HK|]. intros s' _ _ H'. exact H'. Qed.
Lemma hslice_to t x start len s a r l a' E :
  reached s a -> a !! x = Some (AVal r (map Some l)) -> a !! t = None -> sp_slice_ok (zlen l) start len = true ->
  <[t := AVal r (map Some (sp_slice l start len))]> a = a' -> runs (hslice d t x start len) s (at_ a') E.
Proof. intros H Hx Ht Hok <-. eapply runs_hslice; [exact H|exact Hx|exact Ht|exact Hok|]. intros s' H'. exact H'. Qed.
Lemma plus_to mv x y s a a0 X K rx ry (v w : list Z) a' :
  reached s a -> a !! x = Some (AVal rx (map Some v)) -> a !! y = Some (AVal ry (map Some w)) -> around X a0 a -> x ∈ X ->
  zlen v + zlen w + 2 <= K -> <[x := AVal true (map Some (v ++ w))]> a = a' -> runs (plus_eq d mv x y) s (at_ a') (oom K X a0).
Proof. intros H Hx Hy Ha HX HK <-. eapply runs_plus; [exact H|exact Ha|exact HX|exact Hx|exact Hy|exact HK|]. intros s' H'. exact H'. Qed.
Lemma scope_to x (m : M (state Z) unit) s (K : Prop) X a a1 a' :
  runs m s (at_ a1) (thrown K (x :: X) a) -> x ∉ X -> a !! x = None -> is_Some (a1 !! x) -> delete x a1 = a' ->
  runs (scope d x m) s (at_ a') (thrown K X a).
Proof.
  intros Hm Hx Ha Hl <-. eapply runs_scope; [exact Hm|exact Hx|exact Ha|]. intros [] s' H'. exists a1. split; [exact H'|]. split; [exact Hl|].
  intros s'' H''. exact H''.
Qed.
Lemma scope_with {A} (v : A) x (m : M (state Z) A) s (K : Prop) X a a1 a' :
  runs m s (with_ v a1) (thrown K (x :: X) a) -> x ∉ X -> a !! x = None -> is_Some (a1 !! x) -> delete x a1 = a' ->
  runs (scope d x m) s (with_ v a') (thrown K X a).
Proof.
  intros Hm Hx Ha Hl <-. eapply runs_scope; [exact Hm|exact Hx|exact Ha|]. intros ? s' [-> H']. exists a1. split; [exact H'|]. split; [exact Hl|].
  intros s'' H''. split; [reflexivity|exact H''].
Qed.
Lemma makes_str (m : M (state Z) unit) (K : Prop) s a a' : runs m s (at_ a') (thrown K [] a) -> makes d K m s a a' tt.
Proof.
  unfold runs, makes. destruct (m s) as [[] s'|e s'| | |u]; try (intros []; fail).
  - intros H. split; [reflexivity|]. split; [exact H|]. apply (reached_shows d _ _ Hwf H).
  - intros (He & Hk & a1 & H & Ha). apply around_nil in Ha as ->. split; [exact He|]. split; [exact Hk|]. split; [exact H|]. apply (reached_shows d _ _ Hwf H).
Qed.
Lemma makes_with {A} (v : A) (m : M (state Z) A) (K : Prop) s a a' : runs m s (with_ v a') (thrown K [] a) -> makes d K m s a a' v.
Proof.
  unfold runs, makes. destruct (m s) as [v' s'|e s'| | |u]; try (intros []; fail).
  - intros [-> H]. split; [reflexivity|]. split; [exact H|]. apply (reached_shows d _ _ Hwf H).
  - intros (He & Hk & a1 & H & Ha). apply around_nil in Ha as ->. split; [exact He|]. split; [exact Hk|]. split; [exact H|]. apply (reached_shows d _ _ Hwf H).
Qed.
Lemma gives_with {A} (v : A) (m : M (state Z) A) s a' : runs m s (with_ v a') (fun _ _ => False) -> gives d m s a' v.
Proof.
  unfold runs, gives. destruct (m s) as [v' s'|e s'| | |u]; try (intros []; fail). intros [-> H]. exists s'. split; [reflexivity|]. split; [exact H|].
  apply (reached_shows d _ _ Hwf H).
Qed.
Lemma gives_str (m : M (state Z) unit) s a' : runs m s (at_ a') (fun _ _ => False) -> gives d m s a' tt.
Proof. intros H. apply gives_with. eapply runs_conseq; [exact H| |auto]. intros [] s' H'. split; [reflexivity|exact H']. Qed.
End Rules.

(** Lookups in updated maps, and equality of maps. *)
Notation oom d K := (thrown d (no_memory d K)).
Ltac key1 :=
  match goal with
  | |- context [<[?x := ?v]> ?m !! ?x] => rewrite (lookup_insert m x v)
  | |- context [delete ?x ?m !! ?x] => rewrite (lookup_delete m x)
  | |- context [<[?x := ?v]> ?m !! ?k] => rewrite (lookup_insert_ne m x k v) by congruence
  | |- context [delete ?x ?m !! ?k] => rewrite (lookup_delete_ne m x k) by congruence
  | |- context [<[?x := ?v]> ?m !! ?k] => let E := fresh "Ek" in destruct (decide (x = k)) as [E|?]; [first [subst k|subst x]|]
  | |- context [delete ?x ?m !! ?k] => let E := fresh "Ek" in destruct (decide (x = k)) as [E|?]; [first [subst k|subst x]|]
  end.
Ltac keys := repeat key1.
Ltac meq := apply map_eq; let i := fresh "i" in intros i; keys; try congruence; reflexivity.
Ltac member := rewrite ?elem_of_cons, ?elem_of_nil; intuition congruence.
(** [around] of explicit scopes and maps *)
Ltac scoped := split;
  [let x := fresh "x" in let H := fresh in intros x H; rewrite ?not_elem_of_cons in H; destruct_and? H; keys; reflexivity
  |let x := fresh "x" in let H := fresh in intros x H; rewrite ?elem_of_cons, ?elem_of_nil in H; destruct_or? H; try contradiction; subst; keys; eauto].
Ltac found := keys; eassumption || reflexivity.
(** Splitting [unused]. *)
Ltac nodup Hnd Hf :=
  rewrite !NoDup_cons_iff in Hnd; cbn [In] in Hnd;
  repeat match type of Hf with Forall _ (_ :: _) => let H1 := fresh "Hn" in let H2 := fresh "Hf" in inversion_clear Hf as [|? ? H1 H2]; rename H2 into Hf | _ => clear Hf end;
  repeat match type of Hnd with _ /\ _ => let A := fresh "Nd" in destruct Hnd as [A Hnd] end;
  repeat match goal with H : ~ (_ \/ _) |- _ => apply Decidable.not_or in H; let A := fresh "Nd" in let B := fresh "Nd" in destruct H as [A B] end; clear Hnd.
