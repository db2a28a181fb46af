(** The properties of the container, continued. *)
From Verif Require Import RcaSpec RcaModel RcaExec RcaInv RcaOwn RcaRel RcaRel2 RcaMod RcaMeet RcaMain RcaReach RcaFacts ZListMod.
From Coq Require Import ZifyBool.
Open Scope Z_scope.

Section Facts2.
Context {T : Type} (d : desc T).
Implicit Types (s : state T) (x y : var) (a : astate T) (v w : list (option T)) (o : op T) (mv : bool).
Notation R := (R d).
Notation step := (step d).
Notation reached := (reached d).
Notation yields := (yields d).
Notation returns := (returns d).
Ltac sstep := unfold RcaMeet.step; cbn [spec_step].
Ltac yield := eapply step_yields; [assumption|assumption| |intros; discriminate]; sstep.
Ltac return_ := match goal with |- RcaMeet.returns _ ?o ?s ?a2 ?v => match goal with H : RcaMeet.reached _ s ?a |- _ => apply (step_returns d o s a a2 v); [assumption|assumption|sstep|reflexivity|intros; discriminate] end end.
Ltac if_t b := let E := fresh in assert (b = true) as E by (unfold is_string, in_u64, W64, npos, max_alloc, W31 in *; lia); rewrite E; clear E; cbn [need].
Ltac if_f b := let E := fresh in assert (b = false) as E by (unfold is_string, in_u64, W64, npos, max_alloc, W31 in *; lia); rewrite E; clear E; cbn [need].

(** C05 *)
Lemma alloc_failure o s a a' (v : out T) e s' :
  wf_desc d -> reached s a -> step o a = Some (SRet a' v) -> exec d o s = Exn e s' ->
  e = BadAlloc /\ exists x a'', subject o = Some x /\ no_memory d (asks o a' x) /\ reached s' a'' /\ shows s' a'' /\
    (forall z, z <> x -> a'' !! z = a !! z) /\
    (a'' !! x = a !! x \/ (a'' !! x = Some (AVal true []) /\ (discards o = true \/ is_shared x s = Ok true s))).
Proof.
  intros Hwf H Hs E. destruct (fail_out d o s a a' v s' e Hwf H Hs E) as (s1 & x & E1 & Hsub & Hnm & a2 & Hr & Hsh & Hor).
  rewrite E in E1. injection E1 as -> ->. split; [reflexivity|]. exists x, a2. repeat (split; [eassumption|]). destruct Hor as [->|(Ht & Hd & ->)].
  - split; [reflexivity|left; reflexivity].
  - split; [intros z Hz; apply lookup_insert_ne; congruence|]. right. split; [apply lookup_insert|exact Hd].
Qed.
Lemma no_failure o s a a' (v : out T) :
  wf_desc d -> reached s a -> step o a = Some (SRet a' v) ->
  (forall k, d_oom d k = false) ->
  (forall x, subject o = Some x -> asks o a' x <= max_alloc /\ forall z, 0 <= z < asks o a' x -> d_grow d z <= max_alloc) ->
  exists s' (v' : out T), exec d o s = Ok v' s' /\ out_le v v' /\ reached s' a' /\ shows s' a'.
Proof.
  intros Hwf H Hs Hm Hg. pose proof (exec_meets d o s a Hwf (reached_R d s a Hwf H)) as Hme. unfold meets in Hme. rewrite Hs in Hme.
  assert (Hno : forall x, subject o = Some x -> ~ no_memory d (asks o a' x)).
  { intros x Hx. destruct (Hg x Hx). apply no_memory_absurd; assumption. }
  destruct (exec d o s) as [v' s'|e s'| | |u] eqn:E.
  - exists s', v'. split; [reflexivity|]. destruct Hme as [HR Ho]. split; [exact Ho|].
    assert (reached s' a') by (eapply re_ret; eassumption). split; [assumption|]. apply R_shows with d. exact HR.
  - destruct Hme as (_ & x & Hx & Hn & _). destruct (Hno x Hx Hn).
  - destruct Hme as (g & x & -> & Hn). destruct (Hno x eq_refl Hn).
  - destruct Hme.
  - destruct Hme.
Qed.

(** Calls that leave every buffer alone. *)
Definition kh {A} (m : M (state T) A) : Prop := forall s (v : A) s', m s = Ok v s' -> st_heap s' = st_heap s.
Lemma kh_bind {A B} (m : M (state T) A) (k : A -> M (state T) B) : kh m -> (forall v : A, kh (k v)) -> kh (bind m k).
Proof. intros Hm Hk s v s'. unfold bind. destruct (m s) as [v1 s1| | | |] eqn:E; try discriminate. intros E'. rewrite (Hk _ _ _ _ E'). eapply Hm, E. Qed.
Lemma kh_ret {A} (v : A) : kh (ret v).
Proof. intros s v' s' [= <- <-]. reflexivity. Qed.
Lemma kh_undef {A} u : kh (undef (A := A) u).
Proof. intros s v' s'. discriminate. Qed.
Lemma kh_throw {A} e : kh (throw (A := A) e).
Proof. intros s v' s'. discriminate. Qed.
Lemma kh_set_obj x (o : obj) : kh (set_obj x o).
Proof. intros s v' s' [= <- <-]. reflexivity. Qed.
Lemma kh_new_obj x (o : obj) : kh (new_obj x o).
Proof. intros s v' s'. unfold new_obj. destruct (st_env s !! x); [discriminate|]. intros [= <- <-]. reflexivity. Qed.
Lemma kh_get_obj x : kh (get_obj (T := T) x).
Proof. intros s v' s'. unfold get_obj. destruct (st_env s !! x); [|discriminate]. intros [= <- <-]. reflexivity. Qed.
Lemma kh_get_cell l : kh (get_cell (T := T) l).
Proof. intros s v' s'. unfold get_cell. destruct (st_heap s !! l); [|discriminate]. intros [= <- <-]. reflexivity. Qed.
Ltac kh1 := cbv zeta; first [ apply kh_bind; intros | apply kh_ret | apply kh_undef | apply kh_throw | apply kh_set_obj | apply kh_new_obj | apply kh_get_obj | apply kh_get_cell
  | match goal with |- kh (if ?b then _ else _) => destruct b end | match goal with |- kh (match ?b with _ => _ end) => destruct b end ].
Lemma kh_fuel {A} : kh (fun _ => Fuel (A := A)).
Proof. intros s v' s'. discriminate. Qed.
Lemma kh_load x pos n : kh (load (T := T) x pos n).
Proof. unfold load. repeat kh1. Qed.
Lemma kh_load1 x pos : kh (load1 (T := T) x pos).
Proof. unfold load1. repeat (kh1 || apply kh_load). Qed.
Lemma kh_not_empty x : kh (check d (not_empty (T := T) x)).
Proof. unfold check, not_empty, length_of. repeat kh1. Qed.
Definition slicing (o : op T) : Prop :=
  match o with
  | CtorDefault _ | CtorMove _ _ | Swap _ _ | SliceTo _ _ _ | Read _ _ | At _ _ | Length _ | HashOf _ | FindItem _ _ _ | RFindItem _ _
  | PopBack _ | ArrDropFront _ _ | ArrDropBack _ _ | StrDropFront _ _ | StrDropBack _ _ | Trim _ _ | Chomp _ _ _ => True
  | _ => False
  end.
Lemma slicing_keeps_buffers o s (v : out T) s' : slicing o -> exec d o s = Ok v s' -> st_heap s' = st_heap s.
Proof.
  intros Ho. cut (kh (exec d o)); [intros K; apply K|].
  assert (Hr : forall e f x i, kh (rfind_loop d f x e i)).
  { intros e f x. induction f as [|f IH]; intros i; cbn [rfind_loop]; repeat (kh1 || apply kh_load1 || apply kh_fuel || apply IH). }
  assert (Hl : forall p f x, kh (ltrim_loop (T := T) p f x)).
  { intros p f x. induction f as [|f IH]; cbn [ltrim_loop]; unfold length_of; repeat (kh1 || apply kh_load1 || apply kh_fuel || apply IH). }
  assert (Hrt : forall p f x, kh (rtrim_loop (T := T) p f x)).
  { intros p f x. induction f as [|f IH]; cbn [rtrim_loop]; unfold length_of, sub_length; repeat (kh1 || apply kh_load1 || apply kh_fuel || apply IH). }
  destruct o; cbn [slicing] in Ho; try destruct Ho; cbn [exec];
    unfold unit_, val_, int_, ctor_default, ctor_move, swap, slice, read, at_, validate_index, hash, find_item, check_pos, rfind_item, pop_back,
      arr_drop_front, arr_drop_back, str_drop_front, str_drop_back, trim, chomp, chomp1, pop_back, sub_length, validate_index, length_of;
    repeat (kh1 || apply kh_load1 || apply kh_load || apply kh_not_empty || apply Hr || apply Hl || apply Hrt).
Qed.

(** C12 *)
Lemma reserve_yields s a x r v n :
  wf_desc d -> reached s a -> a !! x = Some (AVal r v) -> zlen v <= n < npos -> yields (ReserveIfOwn x n) s a a ONone.
Proof.
  intros Hwf H Hx Hn. pose proof (zlen_nonneg v). yield. rewrite (holds_val _ _ _ _ Hx). 
  assert (size_ok (d_nul d) n && (zlen v <=? n) = true) as -> by (unfold size_ok, in_u64, npos, W64 in *; lia). reflexivity.
Qed.
Lemma reserve_gives_room s a x r v n (v' : out T) s' :
  wf_desc d -> reached s a -> a !! x = Some (AVal r v) -> zlen v <= n < npos -> is_shared x s = Ok false s ->
  exec d (ReserveIfOwn x n) s = Ok v' s' ->
  exists (o : obj) l c, st_env s' !! x = Some o /\ o_ref o = Some l /\ st_heap s' !! l = Some c /\ o_off o + n <= zlen (c_buf c).
Proof.
  intros Hwf H Ha Hn Hsh E. pose proof (reached_R d s a Hwf H) as HR. destruct (R_held d _ _ _ _ _ HR Ha) as (o & Hh).
  pose proof Hh as [Hx Hg Hv Hrm Hlen Hoff Hfit Hcap]. pose proof (zlen_nonneg v).
  destruct (is_shared_eq d s x o (proj1 HR) Hx) as (sh & E1 & Hsh'). rewrite Hsh in E1. injection E1 as <-.
  cbn [exec] in E. unfold unit_, reserve_if_own in E. unfold bind in E at 1 2. rewrite Hsh in E.
  assert (K : runs (v_reserve d x n (fun z => z)) s
    (fun _ s' => exists (o : obj) l c, st_env s' !! x = Some o /\ o_ref o = Some l /\ st_heap s' !! l = Some c /\ o_off o + n <= zlen (c_buf c)) (fun _ _ => True)).
  { eapply runs_conseq; [apply (v_reserve_spec d s x n (fun z => z) o (proj1 HR) Hx Hg Hsh'); try lia| |intros; exact I].
    - unfold npos, W64 in *. lia.
    - intros ? s1 (HI & HF & l & off & b & g & Hx' & Hl & Ho & Hf & Hvw & _). eexists _, l, _. split; [exact Hx'|]. split; [reflexivity|]. split; [exact Hl|].
      cbn. unfold room in Hf. destruct (d_nul d); [|exact Hf]. destruct (Z.ltb_spec 0 n); lia. }
  unfold runs in K. destruct (v_reserve d x n (fun z => z) s) as [[] s1| | | |]; try discriminate. injection E as <- <-. exact K.
Qed.

(** C13 *)
Lemma ctor_move_returns s a x y r v :
  wf_desc d -> reached s a -> a !! y = Some (AVal r v) -> a !! x = None ->
  returns (CtorMove x y) s (<[x := AVal r v]> (<[y := AMoved]> a)) ONone.
Proof. intros Hwf H Hy Hx. return_. rewrite (holds_val _ _ _ _ Hy), (fresh_val _ _ Hx). reflexivity. Qed.
Lemma assign_move_returns s a x y r v :
  wf_desc d -> reached s a -> a !! y = Some (AVal r v) -> live a x = true -> x <> y ->
  returns (AssignMove x y) s (<[x := AVal r v]> (<[y := AMoved]> a)) ONone.
Proof.
  intros Hwf H Hy Hx Hne. return_. destruct (Pos.eqb_spec x y); [contradiction|]. rewrite (holds_val _ _ _ _ Hy), Hx. reflexivity.
Qed.
Lemma self_move_returns s a x : wf_desc d -> reached s a -> live a x = true -> exec d (AssignMove x x) s = Ok ONone s.
Proof. intros Hwf H Hx. cbn [exec]. unfold unit_, assign_move, bind. rewrite Pos.eqb_refl. reflexivity. Qed.
Lemma swap_returns s a x y vx vy :
  wf_desc d -> reached s a -> a !! x = Some vx -> a !! y = Some vy -> returns (Swap x y) s (<[y := vx]> (<[x := vy]> a)) ONone.
Proof. intros Hwf H Hx Hy. return_. rewrite Hx, Hy. reflexivity. Qed.
(** The buffer itself changes hands: the new owner has the old one's buffer, offset and length. *)
Lemma move_takes_buffer s a x y r v o s' : o = CtorMove x y \/ (o = AssignMove x y /\ x <> y) ->
  wf_desc d -> reached s a -> a !! y = Some (AVal r v) -> exec d o s = Ok ONone s' -> st_env s' !! x = st_env s !! y.
Proof.
  intros Ho Hwf H Hy. destruct Ho as [->|[-> Hne]]; cbn [exec]; unfold unit_, ctor_move, assign_move, bind.
  - unfold get_obj. destruct (st_env s !! y) as [oy|] eqn:Ey; [|discriminate]. unfold new_obj. destruct (st_env s !! x) as [ox|] eqn:Ex; [discriminate|].
    intros [= <-]. cbn. destruct (Pos.eq_dec x y) as [->|Hxy]; [congruence|]. rewrite lookup_insert_ne by congruence. apply lookup_insert.
  - destruct (Pos.eqb_spec x y); [contradiction|]. destruct (check_dealloc x s) as [[] s1| | | |] eqn:Ed; try discriminate.
    assert (He : st_env s1 !! y = st_env s !! y).
    { revert Ed. unfold check_dealloc, bind, get_obj. destruct (st_env s !! x) as [ox|]; [|discriminate]. destruct (o_ref ox) as [l|]; [|intros [= <-]; reflexivity].
      unfold dec_ref, get_cell, bind. destruct (st_heap s !! l) as [c|]; [|discriminate]. unfold set_cell, ret.
      match goal with |- context [if ?b then _ else _] => destruct b end; [|intros [= <-]; reflexivity].
      unfold delete_cell. cbn [with_heap st_heap st_env]. rewrite lookup_insert. unfold set_obj. intros [= <-]. cbn. apply lookup_insert_ne. exact Hne. }
    unfold get_obj. destruct (st_env s1 !! y) as [oy|]; [|discriminate]. intros [= <-]. cbn. rewrite lookup_insert_ne by congruence. rewrite lookup_insert. exact He.
Qed.

(** C15 *)
Lemma shift_returns s a x r v e :
  wf_desc d -> reached s a -> a !! x = Some (AVal r (Some e :: v)) -> returns (Shift x) s (<[x := AVal r v]> a) (OVal e).
Proof. intros Hwf H Hx. return_. rewrite (holds_val _ _ _ _ Hx). reflexivity. Qed.
Lemma znth_last v (e : option T) : znth (zlen v) (v ++ [e]) = Some e.
Proof. rewrite znth_app. destruct (Z.ltb_spec (zlen v) (zlen v)); [lia|]. rewrite Z.sub_diag. reflexivity. Qed.
Lemma pop_returns s a x r v e :
  wf_desc d -> reached s a -> a !! x = Some (AVal r (v ++ [Some e])) -> returns (Pop x) s (<[x := AVal r v]> a) (OVal e).
Proof.
  intros Hwf H Hx. pose proof (zlen_nonneg v). return_. rewrite (holds_val _ _ _ _ Hx), zlen_app. change (zlen [Some e]) with 1. rewrite Z.add_simpl_r, znth_last.
  rewrite ztake_app_exact. reflexivity.
Qed.
Lemma pop_back_returns s a x r v e :
  wf_desc d -> reached s a -> a !! x = Some (AVal r (v ++ [e])) -> returns (PopBack x) s (<[x := AVal r v]> a) ONone.
Proof.
  intros Hwf H Hx. pose proof (zlen_nonneg v). return_. rewrite (holds_val _ _ _ _ Hx), zlen_app. change (zlen [e]) with 1. if_t (0 <? zlen v + 1).
  rewrite Z.add_simpl_r, ztake_app_exact. reflexivity.
Qed.
Lemma push_front_yields s a x r v e :
  wf_desc d -> reached s a -> a !! x = Some (AVal r v) -> yields (InsertItem x 0 e) s a (<[x := AVal true (Some e :: v)]> a) ONone.
Proof.
  intros Hwf H Hx. pose proof (zlen_nonneg v). yield. rewrite (holds_val _ _ _ _ Hx). if_t (in_u64 0). if_f (zlen v <? 0). unfold sp_splice.
  rewrite ztake_0, zdrop_0 by lia. reflexivity.
Qed.
Lemma str_drop_returns s a x r v n :
  wf_desc d -> reached s a -> a !! x = Some (AVal r v) -> 0 <= n < W64 ->
  returns (StrDropFront x n) s (<[x := AVal r (zdrop n v)]> a) ONone /\
  returns (StrDropBack x n) s (<[x := AVal r (ztake (zlen v - n) v)]> a) ONone.
Proof. intros Hwf H Hx Hn. split; return_; rewrite (holds_val _ _ _ _ Hx); if_t (in_u64 n); reflexivity. Qed.
Lemma arr_drop_returns s a x r v n :
  wf_desc d -> reached s a -> a !! x = Some (AVal r v) -> 0 <= n < W31 -> zlen v < W31 ->
  returns (ArrDropFront x n) s (<[x := AVal r (zdrop n v)]> a) ONone /\
  returns (ArrDropBack x n) s (<[x := AVal r (ztake (zlen v - n) v)]> a) ONone.
Proof.
  intros Hwf H Hx Hn Hl. split; return_; rewrite (holds_val _ _ _ _ Hx); if_t ((0 <=? n) && (n <? W31) && (zlen v <? W31)); reflexivity.
Qed.

(** C16 *)
Lemma write_yields s a x r v i e :
  wf_desc d -> reached s a -> a !! x = Some (AVal r v) -> 0 <= i < zlen v ->
  yields (Write x i e) s a (<[x := AVal true (ztake i v ++ [Some e] ++ zdrop (i + 1) v)]> a) ONone.
Proof. intros Hwf H Hx Hi. yield. rewrite (holds_val _ _ _ _ Hx). if_t ((0 <=? i) && (i <? zlen v)). reflexivity. Qed.

(** A write through a pointer obtained by begin()/mdata(), used at once, is a write to that object only. *)
Lemma begin_write_is_write s a x r v i e s1 p :
  wf_desc d -> reached s a -> a !! x = Some (AVal r v) -> 0 <= i < zlen v -> begin_ptr d x s = Ok p s1 ->
  exec d (Write x i e) s = (let* _ := ptr_write (Ptr (p_loc p) (p_gen p) (u64 (p_idx p + i))) e in ret ONone) s1.
Proof.
  intros Hwf H Ha Hi. pose proof (reached_R d s a Hwf H) as HR. unfold begin_ptr. cbn [exec]. unfold unit_, write.
  pose proof (exec_meets d (BeginMut x) s a Hwf HR) as Hm. unfold meets, RcaMeet.step in Hm. cbn [spec_step exec] in Hm. rewrite (holds_val _ _ _ _ Ha) in Hm. unfold put, unit_ in Hm.
  unfold bind in *. destruct (get_own_copy d x s) as [[] s2| | | |]; try discriminate. destruct Hm as [HR2 _].
  destruct (R_held d _ _ _ _ _ HR2 (lookup_insert _ _ _)) as (o & [Hx Hg Hv Hrm Hlen Hoff Hfit Hcap]).
  unfold ptr_to, bind. rewrite (get_obj_ok _ _ _ Hx). destruct (o_ref o) as [l|] eqn:Hr; [|discriminate]. unfold get_cell at 1. destruct (st_heap s2 !! l) as [c|] eqn:Hc; [|discriminate].
  unfold cap, buf_of in Hfit, Hcap. rewrite Hr in Hfit, Hcap. cbn in Hfit, Hcap. rewrite Hc in Hfit, Hcap. cbn in Hfit, Hcap.
  intros [= <- <-]. unfold store, ptr_write, bind, ret. cbn [p_loc p_gen p_idx]. change (zlen [Some e]) with 1. cbn [Z.leb Z.compare].
  rewrite (get_obj_ok _ _ _ Hx), Hr. unfold get_cell. rewrite Hc. cbn [p_loc p_gen p_idx]. rewrite Nat.eqb_refl. cbn [negb].
  rewrite (u64_id (o_off o + 0)), Z.add_0_r by (unfold max_alloc, W64 in *; lia). rewrite (u64_id (o_off o + i)) by (unfold max_alloc, W64 in *; lia).
  destruct (Z.leb_spec (o_off o + i + 1) (zlen (c_buf c))); [|lia].
  destruct (Z.leb_spec 0 (o_off o + i)); [|lia]. destruct (Z.ltb_spec (o_off o + i) (zlen (c_buf c))); [|lia]. reflexivity.
Qed.

(** C17 *)
Lemma vle_some (es : list T) (m : list (option T)) : vle (map Some es) m -> m = map Some es.
Proof.
  revert m; induction es as [|e es IH]; intros m Hm; inversion Hm as [|? ? ? ? H1 H2]; subst; [reflexivity|].
  cbn. f_equal; [|apply IH; assumption]. destruct H1; congruence.
Qed.
Lemma c_str_spec s a g x es z :
  wf_desc d -> reached s a -> a !! x = Some (AVal true (map Some es)) -> d_nul d = Some z ->
  (exists s', exec d (CStr g x) s = Ok (OMem (map Some (es ++ [z]))) s' /\ reached s' a /\ shows s' a) \/
  (exec d (CStr g x) s = Term /\ no_memory d (zlen es + 2)).
Proof.
  intros Hwf H Hx Hz. pose proof (exec_meets d (CStr g x) s a Hwf (reached_R d s a Hwf H)) as Hm.
  assert (Hs : step (CStr g x) a = Some (SRet a (OMem (map Some es ++ [Some z])))).
  { sstep. rewrite Hz, (holds_val _ _ _ _ Hx). reflexivity. }
  unfold meets in Hm. rewrite Hs in Hm. destruct (exec d (CStr g x) s) as [v' s'|e s'| | |u] eqn:E.
  - left. destruct Hm as [HR Ho]. exists s'. split; [|split; [eapply re_ret; eassumption|apply R_shows with d; exact HR]].
    destruct v' as [|?|?|m]; try discriminate. f_equal. f_equal. unfold out_le in Ho. change [Some z] with (map Some [z]) in Ho. rewrite <- map_app in Ho. apply vle_some. exact Ho.
  - exfalso. revert E. cbn [exec]. unfold with_nul. rewrite Hz. unfold mem_, bind at 1.
    assert (Hne : forall e s', c_str d z g x s <> Exn e s') by (intros e1 s1; unfold c_str, noexcept; match goal with |- context [match ?m s with _ => _ end] => destruct (m s) end; discriminate).
    destruct (c_str d z g x s) as [|e1 s1| | |] eqn:E; try discriminate. destruct (Hne _ _ eq_refl).
  - right. split; [reflexivity|]. destruct Hm as (g' & x' & [= <- <-] & Hn). unfold asks, vlen in Hn. rewrite Hx, zlen_map in Hn. exact Hn.
  - destruct Hm.
  - destruct Hm.
Qed.

(** C24 *)
Definition ends_free (p : T -> bool) (m : list T) : Prop := (forall c m', m = c :: m' -> p c = false) /\ (forall c m', m = m' ++ [c] -> p c = false).
Lemma drop_while_split p (es : list T) : exists l, es = l ++ sp_drop_while p es /\ forallb p l = true /\ forall c m, sp_drop_while p es = c :: m -> p c = false.
Proof.
  induction es as [|e es (l & E & Hl & Hm)]; [exists []; repeat split; intros; discriminate|].
  cbn. destruct (p e) eqn:Hp.
  - exists (e :: l). cbn. rewrite Hp, <- E. auto.
  - exists []. repeat split. intros c m [= <- <-]. exact Hp.
Qed.
Lemma trim_split p (es : list T) : exists l r, es = l ++ sp_trim p es ++ r /\ forallb p l = true /\ forallb p r = true /\ ends_free p (sp_trim p es).
Proof.
  unfold sp_trim. destruct (drop_while_split p es) as (l & E & Hl & Hm). set (m1 := sp_drop_while p es) in *.
  destruct (drop_while_split p (rev m1)) as (r & E2 & Hr & Hm2). set (m2 := sp_drop_while p (rev m1)) in *.
  assert (E3 : m1 = rev m2 ++ rev r) by (rewrite <- rev_app_distr, <- E2, rev_involutive; reflexivity).
  exists l, (rev r). split; [rewrite <- E3; exact E|]. split; [exact Hl|]. split.
  { rewrite forallb_forall in *. intros c Hc. apply Hr. apply in_rev. exact Hc. }
  split.
  - intros c m' Em. apply (Hm c (m' ++ rev r)). rewrite E3, Em. reflexivity.
  - intros c m' Em. apply (Hm2 c (rev m')). rewrite <- (rev_involutive m2), Em, rev_app_distr. reflexivity.
Qed.
Lemma drop_while_id p (es : list T) : (forall c m, es = c :: m -> p c = false) -> sp_drop_while p es = es.
Proof. destruct es as [|c m]; [reflexivity|]. intros H. cbn. rewrite (H c m eq_refl). reflexivity. Qed.
Lemma trim_id p (es : list T) : ends_free p es -> sp_trim p es = es.
Proof.
  intros [H1 H2]. unfold sp_trim. rewrite (drop_while_id p es H1), (drop_while_id p (rev es)), rev_involutive; [reflexivity|].
  intros c m E. apply (H2 c (rev m)). rewrite <- (rev_involutive es), E. reflexivity.
Qed.
Lemma trim_returns s a x r es p :
  wf_desc d -> reached s a -> a !! x = Some (AVal r (map Some es)) ->
  exists l m r', es = l ++ m ++ r' /\ forallb p l = true /\ forallb p r' = true /\ ends_free p m /\
    returns (Trim p x) s (<[x := AVal r (map Some m)]> a) ONone.
Proof.
  intros Hwf H Hx. destruct (trim_split p es) as (l & r' & E & Hl & Hr & Hm). exists l, (sp_trim p es), r'. repeat (split; [assumption|]).
  return_. rewrite (holds_val _ _ _ _ Hx), vals_map. reflexivity.
Qed.
Lemma trim_idle s a x r es p :
  wf_desc d -> reached s a -> a !! x = Some (AVal r (map Some es)) -> ends_free p es -> returns (Trim p x) s a ONone.
Proof.
  intros Hwf H Hx He. return_. rewrite (holds_val _ _ _ _ Hx), vals_map, (trim_id p es He). unfold put. rewrite insert_id by exact Hx. reflexivity.
Qed.
Lemma chomp1_app p (es : list T) c : sp_chomp1 p (es ++ [c]) = if p c then es else es ++ [c].
Proof. unfold sp_chomp1. rewrite rev_app_distr. cbn. destruct (p c); [|reflexivity]. apply rev_involutive. Qed.
Definition chomped (eqb : T -> T -> bool) (c : T) (es es' : list T) : Prop :=
  (exists c', eqb c' c = true /\ es = es' ++ [c']) \/ (es' = es /\ forall m c', es = m ++ [c'] -> eqb c' c = false).
Lemma chomp1_chomped eqb c (es : list T) : chomped eqb c es (sp_chomp1 (fun c' => eqb c' c) es).
Proof.
  destruct es as [|? ?] using rev_ind; [right; split; [reflexivity|]; intros [|] ? ?; discriminate|].
  rewrite chomp1_app. destruct (eqb x c) eqn:E; [left; exists x; auto|right; split; [reflexivity|]]. intros m c' Em.
  apply app_inj_tail in Em as [_ <-]. exact E.
Qed.
Lemma chomp_returns s a x r es nl cr :
  wf_desc d -> reached s a -> a !! x = Some (AVal r (map Some es)) ->
  exists es1 es2, chomped (d_eqb d) nl es es1 /\ chomped (d_eqb d) cr es1 es2 /\
    returns (Chomp x nl cr) s (<[x := AVal r (map Some es2)]> a) ONone.
Proof.
  intros Hwf H Hx. eexists _, _. split; [apply chomp1_chomped|]. split; [apply chomp1_chomped|].
  return_. rewrite (holds_val _ _ _ _ Hx), vals_map. reflexivity.
Qed.
End Facts2.
