(** The operators do what is expected. *)
From Verif Require Import RcaSpec RcaModel RcaExec RcaInv RcaOwn RcaRel RcaRel2 RcaMod RcaMeet RcaMain RcaReach RcaFacts RcaFacts2 OperModel OperMeet.
From Coq Require Import ZifyBool.
Open Scope Z_scope.

Section Oper.
Context {T : Type} (d : desc T).
Hypothesis Hwf : wf_desc d.
Implicit Types (s : state T) (x y r p : positive) (a : astate T) (v w : list (option T)).
Notation reached := (reached d).
Notation step := (step d).

Ltac zls := repeat zlen_simpl.
Lemma call_ok o s a a' u : reached s a -> step o a = Some (SRet a' u) -> subject o = None -> (forall m, u <> OMem m) ->
  exists s', call d o s = Ok tt s' /\ reached s' a' /\ shows s' a'.
Proof.
  intros H Hs Hsub Hu. destruct (step_returns d o s a a' u Hwf H Hs Hsub Hu) as (s' & E & H1 & H2).
  exists s'. unfold call, bind. rewrite E. auto.
Qed.
Lemma bind_ok {A B} (m : M (state T) A) (k : A -> M (state T) B) s u s' : m s = Ok u s' -> bind m k s = k u s'.
Proof. unfold bind. intros ->. reflexivity. Qed.
Lemma bump_drop x s a rx v : reached s a -> a !! x = Some (AVal rx v) -> 0 < zlen v ->
  (bump x ;;; sub_length x 1) s = call d (StrDropFront x 1) s.
Proof.
  intros H Hx Hv. destruct (R_held d s a x rx v (reached_R d s a Hwf H) Hx) as (o & Hh).
  pose proof (hd_env _ _ _ _ _ _ Hh) as Ho. pose proof (hd_len _ _ _ _ _ _ Hh) as Hl.
  unfold call, bump. cbn [exec]. unfold unit_, str_drop_front. unfold bind, get_obj. rewrite Ho.
  destruct (Z.eqb_spec (o_len o) 0); [lia|]. destruct (Z.ltb_spec (o_len o) 1); [lia|].
  unfold set_obj, sub_length, bind, get_obj. cbn [st_env with_env]. rewrite lookup_insert. cbn [o_ref o_off o_len].
  unfold set_obj, ret, with_env. cbn [st_env st_heap]. rewrite insert_insert. reflexivity.
Qed.
Lemma not_empty_at x s a rx v : reached s a -> a !! x = Some (AVal rx v) -> 0 < zlen v -> check d (not_empty x) s = Ok tt s.
Proof. intros H Hx Hl. destruct (R_held d s a x rx v (reached_R d s a Hwf H) Hx) as (o & Hh). exact (not_empty_ok d _ _ _ _ _ Hh Hl). Qed.
Lemma sub_back x s a rx v : reached s a -> a !! x = Some (AVal rx v) -> 0 < zlen v -> sub_length x 1 s = call d (PopBack x) s.
Proof.
  intros H Hx Hl. destruct (R_held d s a x rx v (reached_R d s a Hwf H) Hx) as (o & Hh). pose proof (hd_env _ _ _ _ _ _ Hh) as Ho.
  unfold call. cbn [exec]. unfold unit_, pop_back. unfold bind. rewrite (not_empty_at x s a rx v H Hx Hl). unfold sub_length. unfold bind, get_obj. rewrite Ho. reflexivity.
Qed.
Lemma len_ok x s a rx v : reached s a -> a !! x = Some (AVal rx v) -> length_of x s = Ok (zlen v) s /\ 0 <= zlen v <= max_alloc.
Proof.
  intros H Hx. split; [eapply reached_shows; [exact Hwf|exact H|exact Hx]|]. pose proof (zlen_nonneg v).
  pose proof (reached_len d s a x _ _ Hwf H Hx). lia.
Qed.
Lemma sliced_ok r x s a rx v i k : reached s a -> a !! x = Some (AVal rx v) -> a !! r = None -> sp_slice_ok (zlen v) i k = true ->
  exists s', sliced d r x i k s = Ok tt s' /\ reached s' (<[r := AVal rx (sp_slice v i k)]> a).
Proof.
  intros H Hx Hr Hok.
  destruct (call_ok (CtorCopy r x) s a (<[r := AVal rx v]> a) ONone H) as (s1 & E1 & H1 & _); [|reflexivity|discriminate|].
  { unfold RcaMeet.step. cbn [spec_step]. rewrite (holds_val _ _ _ _ Hx), (fresh_val _ _ Hr). reflexivity. }
  destruct (call_ok (SliceTo r i k) s1 _ (<[r := AVal rx (sp_slice v i k)]> a) ONone H1) as (s2 & E2 & H2 & _); [|reflexivity|discriminate|].
  { unfold RcaMeet.step. cbn [spec_step]. rewrite (holds_val _ _ _ _ (lookup_insert _ _ _)), Hok. cbn [need]. unfold put. rewrite insert_insert. reflexivity. }
  exists s2. unfold sliced. rewrite (bind_ok _ _ _ _ _ E1). auto.
Qed.
Lemma gives_call o s a a' u : reached s a -> step o a = Some (SRet a' u) -> subject o = None -> (forall m, u <> OMem m) -> gives d (call d o) s a' tt.
Proof. exact (call_ok o s a a' u). Qed.
Lemma gives_then {A} (m : M (state T) unit) (k : unit -> M (state T) A) s s1 a' (u : A) : m s = Ok tt s1 -> gives d (k tt) s1 a' u -> gives d (bind m k) s a' u.
Proof. intros E (s' & E' & H). exists s'. rewrite (bind_ok _ _ _ _ _ E). auto. Qed.

Lemma drop_step a x rx v n : a !! x = Some (AVal rx v) -> 0 <= n < W64 -> step (StrDropFront x n) a = Some (SRet (<[x := AVal rx (zdrop n v)]> a) ONone).
Proof.
  intros Hx Hn. unfold RcaMeet.step. cbn [spec_step]. rewrite (holds_val _ _ _ _ Hx).
  assert (in_u64 n = true) as -> by (unfold in_u64; lia). reflexivity.
Qed.
Lemma pop_step a x rx v : a !! x = Some (AVal rx v) -> 0 < zlen v -> step (PopBack x) a = Some (SRet (<[x := AVal rx (ztake (zlen v - 1) v)]> a) ONone).
Proof.
  intros Hx Hn. unfold RcaMeet.step. cbn [spec_step]. rewrite (holds_val _ _ _ _ Hx).
  assert (0 <? zlen v = true) as -> by lia. reflexivity.
Qed.

(** Postfix, Array. *)
Lemma array_postfix s a x r rx v : reached s a -> a !! x = Some (AVal rx v) -> a !! r = None -> 0 < zlen v < W31 ->
  gives d (arr_post_inc d r x) s (<[x := AVal rx (zdrop 1 v)]> (<[r := AVal rx (ztake 1 v)]> a)) tt /\
  gives d (arr_post_dec d r x) s (<[x := AVal rx (ztake (zlen v - 1) v)]> (<[r := AVal rx (zdrop (zlen v - 1) v)]> a)) tt.
Proof.
  intros H Hx Hr Hl. assert (Hrx : r <> x) by congruence. split.
  - destruct (sliced_ok r x s a rx v 0 1 H Hx Hr) as (s1 & E1 & H1).
    { unfold sp_slice_ok, in_s64, W63, W31 in *. lia. }
    assert (sp_slice v 0 1 = ztake 1 v) as Es.
    { unfold sp_slice, sp_slice_start. assert (0 <? 0 = false) as -> by reflexivity. destruct (Z.leb_spec (zlen v) 0); [lia|].
      rewrite zdrop_0 by lia. change (1 =? -1) with false. change (1 <? 0) with false. cbv iota. f_equal. lia. }
    rewrite Es in H1. eapply gives_then; [exact E1|].
    assert (Hx1 : <[r := AVal rx (ztake 1 v)]> a !! x = Some (AVal rx v)) by (rewrite lookup_insert_ne by congruence; exact Hx).
    unfold gives. rewrite (bump_drop x s1 _ rx v H1 Hx1) by lia.
    eapply call_ok; [exact H1|apply drop_step; [exact Hx1|unfold W64; lia]|reflexivity|discriminate].
  - destruct (len_ok x s a rx v H Hx) as [El Hlen]. unfold arr_post_dec. unfold gives. rewrite (bind_ok _ _ _ _ _ El).
    assert (s64 (u64 (zlen v - 1)) = zlen v - 1) as ->.
    { rewrite u64_id by (unfold W64, W31 in *; lia). apply s64_id. unfold W63, W31 in *. lia. }
    destruct (sliced_ok r x s a rx v (zlen v - 1) 1 H Hx Hr) as (s1 & E1 & H1).
    { unfold sp_slice_ok, in_s64, W63, W31 in *. lia. }
    assert (sp_slice v (zlen v - 1) 1 = zdrop (zlen v - 1) v) as Es.
    { unfold sp_slice, sp_slice_start. destruct (Z.ltb_spec (zlen v - 1) 0); [lia|]. destruct (Z.leb_spec (zlen v) (zlen v - 1)); [lia|].
      change (1 =? -1) with false. change (1 <? 0) with false. cbv iota. apply ztake_all. zls; lia. }
    rewrite Es in H1. rewrite (bind_ok _ _ _ _ _ E1).
    assert (Hx1 : <[r := AVal rx (zdrop (zlen v - 1) v)]> a !! x = Some (AVal rx v)) by (rewrite lookup_insert_ne by congruence; exact Hx).
    rewrite (sub_back x s1 _ rx v H1 Hx1) by lia.
    eapply call_ok; [exact H1|apply pop_step; [exact Hx1|lia]|reflexivity|discriminate].
Qed.
(** Prefix. *)
Lemma prefix_ops s a x rx v : reached s a -> a !! x = Some (AVal rx v) ->
  (zlen v < W31 -> gives d (arr_pre_inc d x) s (<[x := AVal rx (zdrop 1 v)]> a) tt) /\
  gives d (str_pre_inc d x) s (<[x := AVal rx (zdrop 1 v)]> a) tt /\
  (0 < zlen v -> gives d (arr_pre_dec d x) s (<[x := AVal rx (ztake (zlen v - 1) v)]> a) tt /\
                 gives d (str_pre_dec d x) s (<[x := AVal rx (ztake (zlen v - 1) v)]> a) tt).
Proof.
  intros H Hx. split; [|split].
  - intros Hl. eapply gives_call; [exact H| |reflexivity|].
    + unfold RcaMeet.step. cbn [spec_step]. rewrite (holds_val _ _ _ _ Hx). assert ((0 <=? 1) && (1 <? W31) && (zlen v <? W31) = true) as -> by (unfold W31 in *; lia). reflexivity.
    + discriminate.
  - eapply gives_call; [exact H|apply drop_step; [exact Hx|unfold W64; lia]|reflexivity|discriminate].
  - intros Hl. split; (eapply gives_call; [exact H|apply pop_step; [exact Hx|lia]|reflexivity|discriminate]).
Qed.
(** Postfix, String. *)
Lemma string_postfix s a x r rx v : reached s a -> a !! x = Some (AVal rx v) -> a !! r = None ->
  gives d (str_post_inc d r x) s (<[x := AVal rx (zdrop 1 v)]> (<[r := AVal rx v]> a)) tt /\
  (0 < zlen v -> gives d (str_post_dec d r x) s (<[x := AVal rx (ztake (zlen v - 1) v)]> (<[r := AVal rx v]> a)) tt).
Proof.
  intros H Hx Hr. assert (Hrx : r <> x) by congruence.
  destruct (call_ok (CtorCopy r x) s a (<[r := AVal rx v]> a) ONone H) as (s1 & E1 & H1 & _); [|reflexivity|discriminate|].
  { unfold RcaMeet.step. cbn [spec_step]. rewrite (holds_val _ _ _ _ Hx), (fresh_val _ _ Hr). reflexivity. }
  assert (Hx1 : <[r := AVal rx v]> a !! x = Some (AVal rx v)) by (rewrite lookup_insert_ne by congruence; exact Hx).
  destruct (prefix_ops s1 _ x rx v H1 Hx1) as (_ & K1 & K2). split.
  - eapply gives_then; [exact E1|exact K1].
  - intros Hl. eapply gives_then; [exact E1|apply K2, Hl].
Qed.

(** A call that may run out of memory. *)
Lemma makes_call o s a a' u x k (F : astate T -> Prop) : reached s a -> step o a = Some (SRet a' u) -> (forall g z, o <> CStr g z) ->
  subject o = Some x -> asks o a' x <= k -> F a -> (target o = Some x -> F (<[x := AVal true []]> a)) -> makes d k F (call d o) s a' tt.
Proof.
  intros H Hs Hn Hsub Hk HF HF'. unfold makes, call, bind.
  destruct (step_yields d o s a a' u Hwf H Hs Hn) as [(s' & v' & E & _ & Hr & Hsh)|(s' & x' & E & Hsub' & Hm & a'' & Hr & Hsh & Ha)]; rewrite E.
  - cbn. auto.
  - split; [reflexivity|]. assert (x' = x) as -> by congruence. split.
    + revert Hm. unfold no_memory, starves. intros [G|[G|(z & Hz & G)]]; [left; exact G|right; left; lia|right; right]. exists z. split; [lia|exact G].
    + exists a''. split; [|auto]. destruct Ha as [->|(Ht & _ & ->)]; auto.
Qed.
Lemma pop_ok x s a rx v e : reached s a -> a !! x = Some (AVal rx (v ++ [Some e])) -> gives d (pop d x) s (<[x := AVal rx v]> a) e.
Proof.
  intros H Hx. assert (Hl : zlen (v ++ [Some e]) - 1 = zlen v) by (rewrite zlen_app; change (zlen [Some e]) with 1; lia).
  assert (Hs : step (Pop x) a = Some (SRet (<[x := AVal rx v]> a) (OVal e))).
  { unfold RcaMeet.step. cbn [spec_step]. rewrite (holds_val _ _ _ _ Hx), Hl, znth_app, Z.ltb_irrefl, Z.sub_diag. cbn [znth Z.ltb Z.compare Z.to_nat nth_error].
    rewrite ztake_app_exact. reflexivity. }
  destruct (step_returns d (Pop x) s a _ _ Hwf H Hs eq_refl) as (s' & E & H1 & H2); [discriminate|].
  exists s'. split; [|auto]. revert E. cbn [exec]. unfold val_, bind. destruct (pop d x s); try discriminate. unfold ret. intros [= -> ->]. reflexivity.
Qed.
Lemma shift_ok x s a rx v e : reached s a -> a !! x = Some (AVal rx (Some e :: v)) -> gives d (shift d x) s (<[x := AVal rx v]> a) e.
Proof.
  intros H Hx. assert (Hs : step (Shift x) a = Some (SRet (<[x := AVal rx v]> a) (OVal e))).
  { unfold RcaMeet.step. cbn [spec_step]. rewrite (holds_val _ _ _ _ Hx). reflexivity. }
  destruct (step_returns d (Shift x) s a _ _ Hwf H Hs eq_refl) as (s' & E & H1 & H2); [discriminate|].
  exists s'. split; [|auto]. revert E. cbn [exec]. unfold val_, bind. destruct (shift d x s); try discriminate. unfold ret. intros [= -> ->]. reflexivity.
Qed.
(** << and >>. *)
Lemma shl_ok s a x rx v e : reached s a -> a !! x = Some (AVal rx v) ->
  makes d (zlen v + 3) (fun af => af = a \/ af = <[x := AVal true []]> a) (shl d x e) s (<[x := AVal true (v ++ [Some e])]> a) tt.
Proof.
  intros H Hx. eapply makes_call; [exact H| |discriminate|reflexivity| | |].
  - unfold RcaMeet.step. cbn [spec_step]. rewrite (holds_val _ _ _ _ Hx). reflexivity.
  - cbn [asks]. unfold vlen. rewrite lookup_insert, zlen_app. change (zlen [Some e]) with 1. lia.
  - auto.
  - auto.
Qed.
Lemma shl_shr s a x rx v e : reached s a -> a !! x = Some (AVal rx v) ->
  makes d (zlen v + 3) (fun af => af = a \/ af = <[x := AVal true []]> a) (shl d x e ;;; shr d x) s (<[x := AVal true v]> a) e.
Proof.
  intros H Hx. pose proof (shl_ok s a x rx v e H Hx) as K. unfold makes in *. unfold bind.
  destruct (shl d x e s) as [[] s'|ex s'| | |u]; try contradiction; [|exact K].
  destruct K as (_ & H1 & _). destruct (pop_ok x s' _ true v e H1 (lookup_insert _ _ _)) as (s2 & E & H2 & H3). unfold shr. rewrite E.
  rewrite insert_insert in *. auto.
Qed.

(** + *)
Lemma plus_ok s a x y r p rx ry v w : reached s a -> a !! x = Some (AVal rx v) -> a !! y = Some (AVal ry w) -> a !! r = None -> a !! p = None -> r <> p ->
  makes d (zlen v + zlen w + 2) (fun af => af = a) (plus d r p x y) s (<[r := AVal true (v ++ w)]> a) tt.
Proof.
  intros H Hx Hy Hr Hp Hrp.
  assert (Hpx : p <> x) by congruence. assert (Hpy : p <> y) by congruence. destruct (len_ok y s a ry w H Hy) as [_ Hw]. destruct (len_ok x s a rx v H Hx) as [_ Hv].
  destruct (call_ok (CtorCopy p x) s a (<[p := AVal rx v]> a) ONone H) as (s1 & E1 & H1 & _); [|reflexivity|discriminate|].
  { unfold RcaMeet.step. cbn [spec_step]. rewrite (holds_val _ _ _ _ Hx), (fresh_val _ _ Hp). reflexivity. }
  assert (Hy1 : <[p := AVal rx v]> a !! y = Some (AVal ry w)) by (rewrite lookup_insert_ne by congruence; exact Hy).
  assert (Hs2 : step (AppendN false p y npos) (<[p := AVal rx v]> a) = Some (SRet (<[p := AVal true (v ++ w)]> (<[p := AVal rx v]> a)) ONone)).
  { unfold RcaMeet.step. cbn [spec_step]. rewrite (holds_val _ _ _ _ (lookup_insert _ _ _)). unfold sp_insert_n.
    rewrite (live_val _ _ _ (lookup_insert _ _ _)), (live_val _ _ _ Hy1). change (need _ _) with (sp_insert (d_class d) (<[p := AVal rx v]> a) false p (zlen v) y (Z.min npos) (Z.eqb npos)).
    unfold sp_insert. rewrite (holds_val _ _ _ _ (lookup_insert _ _ _)), (holds_val _ _ _ _ Hy1).
    assert (in_u64 (zlen v) = true) as -> by (unfold in_u64, max_alloc, W64, W63 in *; lia). cbn [need].
    rewrite Z.ltb_irrefl. assert (npos =? zlen w = false) as -> by (unfold npos, max_alloc, W64, W63 in *; lia). rewrite andb_false_r.
    assert (Z.min npos (zlen w) = zlen w) as -> by (unfold npos, max_alloc, W64, W63 in *; lia).
    unfold alias_ok. destruct (Pos.eqb_spec p y); [congruence|]. rewrite andb_false_r. cbn [negb orb need]. unfold put, sp_splice.
    rewrite ztake_all by lia. rewrite ztake_all by lia. rewrite zdrop_all by lia. rewrite app_nil_r. reflexivity. }
  pose proof (makes_call (AppendN false p y npos) s1 _ _ _ p (zlen v + zlen w + 2) (fun af => delete p af = a /\ is_Some (af !! p)) H1 Hs2) as K2.
  assert (Hdel : forall u, delete p (<[p := u]> a) = a) by (intros u; apply delete_insert; exact Hp).
  specialize (K2 ltac:(discriminate) eq_refl).
  unfold makes, plus. rewrite (bind_ok _ _ _ _ _ E1). unfold scope.
  assert (K : makes d (zlen v + zlen w + 2) (fun af => delete p af = a /\ is_Some (af !! p)) (call d (AppendN false p y npos)) s1 (<[p := AVal true (v ++ w)]> (<[p := AVal rx v]> a)) tt).
  { apply K2.
    - cbn [asks]. unfold vlen. rewrite lookup_insert, zlen_app. lia.
    - split; [apply Hdel|rewrite lookup_insert; eauto].
    - intros _. split; [rewrite insert_insert; apply Hdel|rewrite lookup_insert; eauto]. }
  clear K2. unfold makes in K.
  assert (Dst : forall s' af, reached s' af -> is_Some (af !! p) -> exists s'', call d (Destroy p) s' = Ok tt s'' /\ reached s'' (delete p af) /\ shows s'' (delete p af)).
  { intros s' af Ha (u & Hu). apply (call_ok (Destroy p) s' af (delete p af) ONone Ha); [|reflexivity|discriminate].
    unfold RcaMeet.step. cbn [spec_step]. rewrite (live_val _ _ _ Hu). reflexivity. }
  destruct (call d (AppendN false p y npos) s1) as [[] s2|e s2| | |u] eqn:E2; try contradiction.
  - destruct K as (_ & H2 & _). rewrite insert_insert in H2. rewrite (bind_ok _ _ _ _ _ E2).
    destruct (call_ok (CtorMove r p) s2 _ (<[r := AVal true (v ++ w)]> (<[p := AMoved]> (<[p := AVal true (v ++ w)]> a))) ONone H2) as (s3 & E3 & H3 & _); [|reflexivity|discriminate|].
    { unfold RcaMeet.step. cbn [spec_step]. rewrite (holds_val _ _ _ _ (lookup_insert _ _ _)). rewrite fresh_val; [reflexivity|]. rewrite lookup_insert_ne by congruence. exact Hr. }
    rewrite E3. destruct (Dst s3 _ H3) as (s4 & E4 & H4 & H4s).
    { rewrite lookup_insert_ne, lookup_insert by congruence. eauto. }
    rewrite (bind_ok _ _ _ _ _ E4). unfold ret. rewrite delete_insert_ne, insert_insert, Hdel in H4, H4s by congruence. auto.
  - destruct K as (-> & Hm & af & (Hd & Hi) & H2 & _).
    assert (Eb : (call d (AppendN false p y npos);;; call d (CtorMove r p)) s1 = Exn BadAlloc s2) by (unfold bind; rewrite E2; reflexivity).
    rewrite Eb. destruct (Dst s2 af H2 Hi) as (s3 & E3 & H3 & H3s). rewrite E3. split; [reflexivity|]. split; [exact Hm|]. exists a. rewrite Hd in *. auto.
Qed.

(** Postfix on temporaries. *)
Lemma rvalue_postfix s a x r rx v e : d_nul d = None -> reached s a -> a !! r = None ->
  (a !! x = Some (AVal rx (Some e :: v)) ->
   makes d 3 (fun af => af = <[x := AVal rx v]> a) (arr_post_inc_rv d r x) s (<[r := AVal true [Some e]]> (<[x := AVal rx v]> a)) tt) /\
  (a !! x = Some (AVal rx (v ++ [Some e])) ->
   makes d 3 (fun af => af = <[x := AVal rx v]> a) (arr_post_dec_rv d r x) s (<[r := AVal true [Some e]]> (<[x := AVal rx v]> a)) tt).
Proof.
  intros Hn H Hr.
  assert (K : forall s', a !! x <> None -> reached s' (<[x := AVal rx v]> a) -> makes d 3 (fun af => af = <[x := AVal rx v]> a) (call d (CtorList r [e])) s' (<[r := AVal true [Some e]]> (<[x := AVal rx v]> a)) tt).
  { intros s' Hx H'. assert (r <> x) by congruence. eapply makes_call; [exact H'| |discriminate|reflexivity| |reflexivity|discriminate].
    - unfold RcaMeet.step. cbn [spec_step]. rewrite Hn, fresh_val; [reflexivity|]. rewrite lookup_insert_ne by congruence. exact Hr.
    - cbn [asks]. unfold vlen. rewrite lookup_insert. change (zlen [Some e]) with 1. lia. }
  split; intros Hx.
  - destruct (shift_ok x s a rx v e H Hx) as (s1 & E1 & H1 & _). unfold makes, arr_post_inc_rv. rewrite (bind_ok _ _ _ _ _ E1). apply K; [congruence|exact H1].
  - destruct (pop_ok x s a rx v e H Hx) as (s1 & E1 & H1 & _). unfold makes, arr_post_dec_rv. rewrite (bind_ok _ _ _ _ _ E1). apply K; [congruence|exact H1].
Qed.

(** Members of temporaries: with the destruction of the temporary that follows. *)
Lemma destroy_env x s (o o2 : obj) : st_env s !! x = Some o -> o_ref o2 = o_ref o ->
  call d (Destroy x) (with_env s (<[x := o2]> (st_env s))) = call d (Destroy x) s.
Proof.
  intros Ho Hr. unfold call. cbn [exec]. unfold unit_, destroy, cleanse_if_last, check_dealloc, del_obj, dec_ref, delete_cell, set_obj, get_obj, get_cell, set_cell, with_env, with_heap, ret, bind.
  destruct s as [h env nx tk fr]. cbn [st_env st_heap st_next st_tick st_freed] in *.
  assert (Hl : <[x := o2]> env !! x = Some o2) by apply lookup_insert.
  destruct (o_ref o) as [l|] eqn:Er; [destruct (h !! l) as [c|] eqn:Hc|]; destruct (d_nul d).
  all: repeat (cbn [st_env st_heap st_next st_tick st_freed c_refs o_ref]; rewrite ?Hl, ?Ho, ?Hr, ?Er, ?Hc, ?lookup_insert, ?insert_insert, ?delete_insert_delete; try reflexivity;
    try match goal with |- context [?q =? 1] => destruct (q =? 1) | |- context [?q <? 1] => destruct (q <? 1) end).
Qed.
Lemma move_steal x pos s : is_shared x s = Ok false s -> (forall (w : T) s', load1 x pos s = Ok w s' -> s' = s) -> move_out d x pos s = steal d x pos s.
Proof.
  intros Hsh Hl. unfold move_out, steal, bind. destruct (load1 x pos s) as [v s'|? ?| | |?] eqn:E; try reflexivity.
  rewrite (Hl v s' eq_refl), Hsh. cbn [negb]. rewrite andb_true_r. reflexivity.
Qed.
Lemma load1_same x pos s (w : T) s' : load1 x pos s = Ok w s' -> s' = s.
Proof.
  unfold load1, load, bind, get_obj, get_cell, ret. destruct (1 <=? 0); [discriminate|].
  destruct (st_env s !! x) as [o|]; [|discriminate]. destruct (o_ref o) as [l|]; [|discriminate]. destruct (st_heap s !! l) as [c|]; [|discriminate].
  destruct (_ <=? _); [|discriminate]. destruct (zsub _ _ _) as [|[?|] [|? ?]]; try discriminate. intros [= <- <-]. reflexivity.
Qed.
Lemma steal_env x pos s (e : T) s' (o : obj) : steal d x pos s = Ok e s' -> st_env s !! x = Some o -> st_env s' = st_env s.
Proof.
  unfold steal, bind. destruct (load1 x pos s) as [w s1|? ?| | |?] eqn:E; try discriminate. apply load1_same in E as ->.
  destruct (d_class d); [|intros [= <- <-]; reflexivity].
  unfold store. destruct (zlen [None] <=? 0); [intros [= <- <-]; reflexivity|]. unfold bind, get_obj. destruct (st_env s !! x) as [o'|]; [|discriminate].
  destruct (o_ref o') as [l|]; [|discriminate]. unfold get_cell. destruct (st_heap s !! l) as [c|]; [|discriminate]. destruct (_ <=? _); [|discriminate].
  unfold set_cell, ret. intros [= <- <-]. reflexivity.
Qed.
Lemma scope_ok {A} x (m : M (state T) A) s u s1 s2 : m s = Ok u s1 -> call d (Destroy x) s1 = Ok tt s2 -> scope d x m s = Ok u s2.
Proof. unfold scope. intros -> E. unfold bind. rewrite E. reflexivity. Qed.
Lemma destroy_gone x s a u : reached s a -> a !! x = Some u -> exists s', call d (Destroy x) s = Ok tt s' /\ reached s' (delete x a) /\ shows s' (delete x a).
Proof.
  intros H Hx. apply (call_ok (Destroy x) s a (delete x a) ONone H); [|reflexivity|discriminate].
  unfold RcaMeet.step. cbn [spec_step]. rewrite (live_val _ _ _ Hx). reflexivity.
Qed.
Lemma temporaries s a x rx v e : reached s a -> is_shared x s = Ok false s ->
  (a !! x = Some (AVal rx (Some e :: v)) -> gives d (scope d x (shift_rv d x)) s (delete x a) e) /\
  (a !! x = Some (AVal rx (v ++ [Some e])) -> gives d (scope d x (pop_rv d x)) s (delete x a) e).
Proof.
  intros H Hsh. split; intros Hx.
  - destruct (shift_ok x s a rx v e H Hx) as (s1 & E1 & H1 & _). destruct (R_held d s a x rx _ (reached_R d s a Hwf H) Hx) as (o & Hh). pose proof (hd_env _ _ _ _ _ _ Hh) as Ho.
    revert E1. unfold shift. rewrite (bind_ok _ _ _ _ _ (not_empty_at x s a rx _ H Hx ltac:(rewrite zlen_cons; pose proof (zlen_nonneg v); lia))). unfold bind at 1. rewrite (move_steal x 0 s Hsh) by (intros w s'; apply load1_same).
    destruct (steal d x 0 s) as [w s2|? ?| | |?] eqn:Es; try discriminate. pose proof (steal_env _ _ _ _ _ _ Es Ho) as Ee.
    unfold bind, get_obj. rewrite Ee, Ho. unfold set_obj, ret. intros [= -> <-].
    destruct (destroy_gone x _ _ _ H1 (lookup_insert _ _ _)) as (s3 & E3 & H3 & H3s). rewrite <- Ee in Ho. rewrite (destroy_env x s2 o _ Ho) in E3 by reflexivity.
    rewrite delete_insert_delete in *. exists s3. split; [|auto]. eapply scope_ok; [exact Es|exact E3].
  - destruct (pop_ok x s a rx v e H Hx) as (s1 & E1 & H1 & _). destruct (R_held d s a x rx _ (reached_R d s a Hwf H) Hx) as (o & Hh). pose proof (hd_env _ _ _ _ _ _ Hh) as Ho.
    destruct (len_ok x s a rx _ H Hx) as [El _].
    assert (0 < zlen (v ++ [Some e])) as Hpos by (rewrite zlen_app; change (zlen [Some e]) with 1; pose proof (zlen_nonneg v); lia).
    revert E1. unfold pop. rewrite (bind_ok _ _ _ _ _ (not_empty_at x s a rx _ H Hx Hpos)), (bind_ok _ _ _ _ _ El). unfold bind at 1. rewrite (move_steal x _ s Hsh) by (intros w s'; apply load1_same).
    destruct (steal d x (u64 (zlen (v ++ [Some e]) - 1)) s) as [w s2|? ?| | |?] eqn:Es; try discriminate. pose proof (steal_env _ _ _ _ _ _ Es Ho) as Ee.
    assert (check d (not_empty x) s2 = Ok tt s2) as Eck.
    { apply check_ok. unfold not_empty, length_of, bind, get_obj. rewrite Ee, Ho. unfold ret. pose proof (hd_len _ _ _ _ _ _ Hh). destruct (Z.eqb_spec (o_len o) 0); [lia|reflexivity]. }
    unfold pop_back, bind. rewrite Eck. unfold sub_length, bind, get_obj. rewrite Ee, Ho. unfold set_obj, ret. intros [= -> <-].
    destruct (destroy_gone x _ _ _ H1 (lookup_insert _ _ _)) as (s3 & E3 & H3 & H3s). rewrite <- Ee in Ho. rewrite (destroy_env x s2 o _ Ho) in E3 by reflexivity.
    rewrite delete_insert_delete in *. exists s3. split; [|auto]. eapply scope_ok; [|exact E3]. unfold pop_rv. rewrite (bind_ok _ _ _ _ _ El). exact Es.
Qed.
End Oper.
