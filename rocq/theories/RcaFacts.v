(** The properties of the container, derived from the refinement theorem. *)
From Verif Require Import RcaSpec RcaModel RcaExec RcaInv RcaOwn RcaRel RcaRel2 RcaMod RcaMeet RcaMain RcaReach ZListMod.
From Coq Require Import ZifyBool.
Open Scope Z_scope.

(** Variables an operation may change. *)
Definition changes {T} (o : op T) : list var :=
  match o with
  | CtorMove x y | AssignMove x y | Swap x y => [x; y]
  | InsertN true x _ y _ | InsertAll true x _ y | AppendN true x y _ | ReplaceN true x _ y _ => [x; y]
  | CtorDefault x | CtorCopy x _ | CtorSized x _ | CtorFill x _ _ | CtorList x _ | CtorRange x _ | CtorCstr x _
  | CtorCstrLen x _ _ | CtorChar x _ | Destroy x | AssignCopy x _ | AssignList x _ | AssignStd x _ | Clear x
  | Resize x _ | ResizeFill x _ _ | SliceTo x _ _ | AppendItem x _ | InsertItem x _ _ | InsertN false x _ _ _
  | InsertAll false x _ _ | AppendN false x _ _ | InsertRange x _ _ | InsertCstr x _ _ _ | ReplaceItem x _ _
  | ReplaceN false x _ _ _ | ReplaceCstr x _ _ _ | Write x _ _ | PopBack x | Shift x | Pop x
  | ArrDropFront x _ | ArrDropBack x _ | StrDropFront x _ | StrDropBack x _ | Trim _ x | Chomp x _ _ => [x]
  | ReserveIfOwn _ _ | Read _ _ | At _ _ | Length _ | HashOf _ | FindItem _ _ _ | RFindItem _ _ | BeginMut _
  | CStr _ _ => []
  end.
(** Values, leaving aside the c_str() room flag. *)
Definition val_at {T} (a : astate T) (x : var) : option (option (list (option T))) :=
  match a !! x with Some (AVal _ v) => Some (Some v) | Some AMoved => Some None | None => None end.

(** Is the position argument outside the container? *)
Definition bad_index {T} (o : op T) (a : astate T) : bool :=
  match o with
  | InsertItem x pos _ | InsertAll _ x pos _ | ReplaceItem x pos _ | FindItem x _ pos => vlen a x <? pos
  | InsertN _ x pos _ n | InsertCstr x pos _ n | ReplaceN _ x pos _ n | ReplaceCstr x pos _ n =>
    (vlen a x <? pos) && negb (n =? 0)
  | At x pos => vlen a x <=? pos
  | _ => false
  end.

Section Facts.
Context {T : Type} (d : desc T).
Implicit Types (s : state T) (x y : var) (a : astate T) (v w : list (option T)) (o : op T) (mv : bool).
Notation R := (R d).
Notation step := (step d).
Notation reached := (reached d).
Notation yields := (yields d).
Notation returns := (returns d).

Ltac sstep := unfold RcaMeet.step; cbn [spec_step].
Lemma holds_val a x r v : a !! x = Some (AVal r v) -> holds a x = Some (r, v).
Proof. unfold holds. intros ->. reflexivity. Qed.
Lemma live_val a x av : a !! x = Some av -> live a x = true.
Proof. unfold live, fresh_var. intros ->. reflexivity. Qed.
Lemma fresh_val a x : a !! x = None -> fresh_var a x = true.
Proof. unfold fresh_var. intros ->. reflexivity. Qed.

(** C01 *)
Lemma frame_step o a a' (v : out T) y : step o a = Some (SRet a' v) -> y ∉ changes o -> val_at a' y = val_at a y.
Proof.
  intros Hs Hy.
  assert (Hput : forall x r w, y <> x -> val_at (<[x:=AVal r w]> a) y = val_at a y).
  { intros x r w Hn. unfold val_at. rewrite lookup_insert_ne by congruence. reflexivity. }
  revert Hs. unfold RcaMeet.step. destruct o; cbn [spec_step changes] in *.
  all: unfold put, same, sp_insert_n, sp_insert, sp_take, need.
  all: repeat match goal with
    | H : _ ∉ _ :: _ |- _ => apply not_elem_of_cons in H; destruct H
    | b : bool |- _ => destruct b
    end.
  all: repeat match goal with |- context [match ?c with _ => _ end] => destruct c eqn:? end; try discriminate.
  all: intros [= <- <-]; try reflexivity; try (apply Hput; assumption).
  all: try (unfold val_at; repeat rewrite lookup_insert_ne by congruence; try rewrite lookup_delete_ne by congruence; reflexivity).
  all: idtac.
  match goal with H : holds a ?x = Some (?r, ?l) |- _ => apply holds_eq in H end.
  unfold val_at. destruct (decide (x = y)) as [->|Hn]; [rewrite lookup_insert|rewrite lookup_insert_ne by exact Hn; reflexivity].
  match goal with H : a !! _ = Some _ |- _ => rewrite H end. reflexivity.
Qed.
Lemma isolation s a o a' (v : out T) s' y w :
  wf_desc d -> reached s a -> step o a = Some (SRet a' v) -> (exists r, exec d o s = Ok r s') \/ (exists e, exec d o s = Exn e s') ->
  y ∉ changes o -> target o <> Some y -> val_at a y = Some (Some w) ->
  length_of y s' = Ok (zlen w) s' /\ forall i e, znth i w = Some (Some e) -> read y i s' = Ok e s'.
Proof.
  intros Hwf H Hs HE Hy Ht Hv.
  assert (Hgo : forall a2, shows s' a2 -> val_at a2 y = Some (Some w) ->
     length_of y s' = Ok (zlen w) s' /\ forall i e, znth i w = Some (Some e) -> read y i s' = Ok e s').
  { intros a2 Hsh Hv2. unfold val_at in Hv2. destruct (a2 !! y) as [[r w'|]|] eqn:E; try discriminate. injection Hv2 as ->.
    exact (Hsh y r w E). }
  destruct HE as [(v' & HE)|(e & HE)].
  - assert (H' : reached s' a') by (eapply re_ret; eassumption). apply (Hgo a'); [eapply reached_shows; eassumption|].
    rewrite (frame_step o a a' v y Hs Hy). exact Hv.
  - destruct (fail_out d o s a a' v s' e Hwf H Hs HE) as (s1 & x & E & Hsub & _ & a2 & _ & Hsh & Ha2).
    rewrite HE in E. injection E as -> ->. apply (Hgo a2 Hsh). destruct Ha2 as [->|(Ht' & _ & ->)]; [exact Hv|].
    unfold val_at. rewrite lookup_insert_ne by congruence. exact Hv.
Qed.

(** C04 *)
Lemma vlen_val a x r v : a !! x = Some (AVal r v) -> vlen a x = zlen v.
Proof. unfold vlen. intros ->. reflexivity. Qed.
Lemma range_iff_bad o a : step o a <> None -> step o a = Some SRange <-> bad_index o a = true.
Proof.
  unfold RcaMeet.step. intros Hn.
  assert (Hv : forall x r v, holds a x = Some (r, v) -> vlen a x = zlen v) by (intros x r v E; eapply vlen_val, holds_eq, E).
  destruct o; cbn [spec_step bad_index] in *.
  all: unfold put, same, sp_insert_n, sp_insert, sp_take, need in *.
  all: repeat match goal with
    | H : holds _ _ = Some _ |- _ => progress (rewrite (Hv _ _ _ H) in * )
    | |- context [match ?c with _ => _ end] => destruct c eqn:?
    end; try congruence; try (split; intros; (congruence || lia)).
  all: unfold same, put; cbn [negb]; rewrite ?andb_false_r; split; discriminate.
Qed.
Lemma index_errors o s a s' :
  wf_desc d -> reached s a -> step o a <> None ->
  exec d o s = Exn OutOfRange s' <-> bad_index o a = true /\ s' = s.
Proof.
  intros Hwf H Hn. rewrite <- (range_iff_bad o a Hn). split.
  - intros E. pose proof (exec_meets d o s a Hwf (reached_R d s a Hwf H)) as Hm. unfold meets in Hm. rewrite E in Hm.
    destruct (step o a) as [[a' v|]|]; [destruct Hm as [Hm _]; discriminate|split; [reflexivity|congruence]|congruence].
  - intros [Hs ->]. eapply step_range; eassumption.
Qed.

(** C06 *)
Definition self_ok x y (pos k : Z) : Prop := d_class d = true -> x = y -> pos = 0 \/ k <= pos.
Lemma self_alias x y pos k : self_ok x y pos k -> alias_ok (d_class d) x y pos k = true.
Proof.
  unfold self_ok, alias_ok. intros H. destruct (d_class d); [|reflexivity]. destruct (Pos.eqb_spec x y) as [->|]; [|reflexivity].
  destruct (H eq_refl eq_refl); cbn [andb negb orb]; lia.
Qed.
Lemma reached_len s a x r v : wf_desc d -> reached s a -> a !! x = Some (AVal r v) -> 0 <= zlen v <= max_alloc.
Proof. intros Hwf H Ha. eapply (val_len d); [eapply reached_R; eassumption|exact Ha]. Qed.
Ltac yield := eapply step_yields; [assumption|assumption| |intros; discriminate]; sstep.
Ltac return_ := match goal with |- RcaMeet.returns _ ?o ?s ?a2 ?v => match goal with H : RcaMeet.reached _ s ?a |- _ => apply (step_returns d o s a a2 v); [assumption|assumption|sstep|reflexivity|intros; discriminate] end end.
Ltac if_t b := let E := fresh in assert (b = true) as E by (unfold is_string, in_u64, W64, npos, max_alloc in *; lia); rewrite E; clear E; cbn [need].
Ltac if_f b := let E := fresh in assert (b = false) as E by (unfold is_string, in_u64, W64, npos, max_alloc in *; lia); rewrite E; clear E; cbn [need].

Lemma insert_n_yields s a mv x pos y n rx v ry w :
  wf_desc d -> reached s a -> a !! x = Some (AVal rx v) -> a !! y = Some (AVal ry w) ->
  0 <= pos <= zlen v -> 0 < n < W64 -> self_ok x y pos (Z.min n (zlen w)) ->
  ~ (pos = 0 /\ zlen v < zlen w /\ n = zlen w) ->
  yields (InsertN mv x pos y n) s a
    (<[x := AVal true (ztake pos v ++ ztake (Z.min n (zlen w)) w ++ zdrop pos v)]> a) ONone.
Proof.
  intros Hwf H Hx Hy Hp Hn Hal Hns. pose proof (reached_len s a x rx v Hwf H Hx).
  yield. unfold sp_insert_n, sp_insert. rewrite (live_val _ _ _ Hx), (live_val _ _ _ Hy), !andb_true_r.
  if_t (in_u64 n). if_f (n =? 0). rewrite (holds_val _ _ _ _ Hx), (holds_val _ _ _ _ Hy).
  if_t (in_u64 pos). if_f (zlen v <? pos). if_f ((pos =? 0) && (zlen v <? zlen w) && (n =? zlen w)).
  rewrite (self_alias _ _ _ _ Hal). reflexivity.
Qed.
Lemma insert_all_yields s a mv x pos y rx v ry w :
  wf_desc d -> reached s a -> a !! x = Some (AVal rx v) -> a !! y = Some (AVal ry w) ->
  0 <= pos <= zlen v -> self_ok x y pos (zlen w) -> ~ (pos = 0 /\ zlen v < zlen w) ->
  yields (InsertAll mv x pos y) s a (<[x := AVal true (ztake pos v ++ w ++ zdrop pos v)]> a) ONone.
Proof.
  intros Hwf H Hx Hy Hp Hal Hns. pose proof (reached_len s a x rx v Hwf H Hx).
  yield. unfold sp_insert. rewrite (holds_val _ _ _ _ Hx), (holds_val _ _ _ _ Hy).
  if_t (in_u64 pos). if_f (zlen v <? pos). if_f ((pos =? 0) && (zlen v <? zlen w) && true).
  rewrite (self_alias _ _ _ _ Hal). cbn [need]. unfold sp_splice. rewrite (ztake_all (zlen w) w) by lia. reflexivity.
Qed.
(** The excluded case: a longer array inserted in full at the front replaces the value. *)
Lemma insert_front_replaces s a mv x y n rx v ry w :
  wf_desc d -> reached s a -> a !! x = Some (AVal rx v) -> a !! y = Some (AVal ry w) ->
  zlen v < zlen w -> n = zlen w ->
  yields (InsertN mv x 0 y n) s a (<[x := AVal ry w]> (if mv then <[y := AMoved]> a else a)) ONone.
Proof.
  intros Hwf H Hx Hy Hl ->. pose proof (reached_len s a x rx v Hwf H Hx). pose proof (reached_len s a y ry w Hwf H Hy).
  yield. unfold sp_insert_n, sp_insert. rewrite (live_val _ _ _ Hx), (live_val _ _ _ Hy), !andb_true_r.
  if_t (in_u64 (zlen w)). if_f (zlen w =? 0). rewrite (holds_val _ _ _ _ Hx), (holds_val _ _ _ _ Hy).
  if_t (in_u64 0). if_f (zlen v <? 0). if_t ((0 =? 0) && (zlen v <? zlen w) && (zlen w =? zlen w)). reflexivity.
Qed.
Lemma append_n_yields s a mv x y n rx v ry w :
  wf_desc d -> reached s a -> a !! x = Some (AVal rx v) -> a !! y = Some (AVal ry w) -> 0 <= n < W64 ->
  exists a', yields (AppendN mv x y n) s a a' ONone /\
    val_at a' x = Some (Some (v ++ ztake n w)) /\ forall z, z <> x -> (mv = true -> z <> y) -> a' !! z = a !! z.
Proof.
  intros Hwf H Hx Hy Hn. pose proof (reached_len s a x rx v Hwf H Hx). pose proof (reached_len s a y ry w Hwf H Hy).
  destruct (Z.eq_dec n 0) as [->|Hn0].
  { exists a. split; [|split; [|reflexivity]].
    - yield. rewrite (holds_val _ _ _ _ Hx). unfold sp_insert_n. rewrite (live_val _ _ _ Hx), (live_val _ _ _ Hy). reflexivity.
    - unfold val_at. rewrite Hx. rewrite ztake_0, app_nil_r by lia. reflexivity. }
  assert (Hmin : ztake (Z.min n (zlen w)) w = ztake n w).
  { destruct (Z.min_spec n (zlen w)) as [[? ->]|[? ->]]; [reflexivity|]. rewrite !ztake_all by lia. reflexivity. }
  destruct ((zlen v =? 0) && (0 <? zlen w) && (n =? zlen w)) eqn:Hst.
  - exists (<[x := AVal ry w]> (if mv then <[y := AMoved]> a else a)). assert (v = []) as -> by (apply zlen_0_nil; lia). split; [|split].
    + yield. rewrite (holds_val _ _ _ _ Hx). unfold sp_insert_n, sp_insert. rewrite (live_val _ _ _ Hx), (live_val _ _ _ Hy), !andb_true_r.
      if_t (in_u64 n). if_f (n =? 0). rewrite (holds_val _ _ _ _ Hx), (holds_val _ _ _ _ Hy). rewrite zlen_nil.
      if_t (in_u64 0). if_f (0 <? 0). if_t ((0 =? 0) && (0 <? zlen w) && (n =? zlen w)). reflexivity.
    + unfold val_at. rewrite lookup_insert. rewrite ztake_all by lia. reflexivity.
    + intros z Hz Hzy. rewrite lookup_insert_ne by congruence. destruct mv; [|reflexivity]. rewrite lookup_insert_ne by (intros ->; apply Hzy; reflexivity). reflexivity.
  - exists (<[x := AVal true (v ++ ztake n w)]> a). split; [|split].
    + yield. rewrite (holds_val _ _ _ _ Hx). unfold sp_insert_n, sp_insert. rewrite (live_val _ _ _ Hx), (live_val _ _ _ Hy), !andb_true_r.
      if_t (in_u64 n). if_f (n =? 0). rewrite (holds_val _ _ _ _ Hx), (holds_val _ _ _ _ Hy).
      if_t (in_u64 (zlen v)). if_f (zlen v <? zlen v). if_f ((zlen v =? 0) && (zlen v <? zlen w) && (n =? zlen w)).
      rewrite self_alias.
      * cbn [need]. unfold sp_splice, put. rewrite Hmin, (ztake_all (zlen v) v), (zdrop_all (zlen v) v), app_nil_r by lia. reflexivity.
      * intros _ ->. rewrite Hx in Hy. injection Hy as -> ->. right. lia.
    + unfold val_at. rewrite lookup_insert. reflexivity.
    + intros z Hz _. rewrite lookup_insert_ne by congruence. reflexivity.
Qed.
Lemma append_item_yields s a x r v e :
  wf_desc d -> reached s a -> a !! x = Some (AVal r v) ->
  yields (AppendItem x e) s a (<[x := AVal true (v ++ [Some e])]> a) ONone.
Proof. intros Hwf H Hx. yield. rewrite (holds_val _ _ _ _ Hx). reflexivity. Qed.
Lemma insert_item_yields s a x pos r v e :
  wf_desc d -> reached s a -> a !! x = Some (AVal r v) -> 0 <= pos <= zlen v ->
  yields (InsertItem x pos e) s a (<[x := AVal true (ztake pos v ++ [Some e] ++ zdrop pos v)]> a) ONone.
Proof.
  intros Hwf H Hx Hp. pose proof (reached_len s a x r v Hwf H Hx). yield. rewrite (holds_val _ _ _ _ Hx).
  if_t (in_u64 pos). if_f (zlen v <? pos). reflexivity.
Qed.
Lemma insert_range_yields s a x pos r v es :
  wf_desc d -> reached s a -> a !! x = Some (AVal r v) -> 0 <= pos <= zlen v -> zlen v + zlen es < npos ->
  yields (InsertRange x pos es) s a (<[x := AVal true (ztake pos v ++ map Some es ++ zdrop pos v)]> a) ONone.
Proof.
  intros Hwf H Hx Hp Hl. pose proof (reached_len s a x r v Hwf H Hx). yield. rewrite (holds_val _ _ _ _ Hx).
  if_t (in_u64 pos && (pos <=? zlen v) && (zlen v + zlen es <? W64 - 1)). reflexivity.
Qed.
Lemma insert_cstr_yields s a x pos r v mem n z :
  wf_desc d -> reached s a -> a !! x = Some (AVal r v) -> d_nul d = Some z ->
  0 <= pos <= zlen v -> 0 < n -> n < npos -> n <= zlen mem -> zlen v + n < npos ->
  yields (InsertCstr x pos mem n) s a (<[x := AVal true (ztake pos v ++ map Some (ztake n mem) ++ zdrop pos v)]> a) ONone.
Proof.
  intros Hwf H Hx Hz Hp Hn Hn' Hm Hl. pose proof (reached_len s a x r v Hwf H Hx). yield. rewrite (holds_val _ _ _ _ Hx), Hz.
  if_t (is_string (Some z) && in_u64 pos && in_u64 n). if_f (n =? 0). if_f (zlen v <? pos). unfold sp_carg.
  if_f (n =? npos). if_t (n <=? zlen mem). assert (zlen (ztake n mem) = n) as -> by (zlen_simpl; lia).
  if_t (zlen v + n <? npos). reflexivity.
Qed.

(** C07 *)
Lemma replace_n_yields s a mv x pos y n rx v ry w :
  wf_desc d -> reached s a -> a !! x = Some (AVal rx v) -> a !! y = Some (AVal ry w) ->
  0 <= pos <= zlen v -> 0 < n < W64 -> self_ok x y pos (Z.min n (zlen w)) ->
  exists a', yields (ReplaceN mv x pos y n) s a a' ONone /\
    val_at a' x = Some (Some (ztake pos v ++ ztake (Z.min n (zlen w)) w ++ zdrop (pos + Z.min n (zlen w)) v)) /\
    forall z, z <> x -> (mv = true -> z <> y) -> a' !! z = a !! z.
Proof.
  intros Hwf H Hx Hy Hp Hn Hal. pose proof (reached_len s a x rx v Hwf H Hx). pose proof (reached_len s a y ry w Hwf H Hy).
  set (k := Z.min n (zlen w)) in *. assert (Hk : zlen (ztake k w) = k) by (zlen_simpl; lia).
  destruct ((pos =? 0) && (zlen v <? zlen w) && (zlen w <=? n) && ((n =? npos) || (n =? zlen w))) eqn:Hst.
  - exists (<[x := AVal ry w]> (if mv then <[y := AMoved]> a else a)). split; [|split].
    + yield. rewrite (holds_val _ _ _ _ Hx), (holds_val _ _ _ _ Hy). if_t (in_u64 pos && in_u64 n). if_f (n =? 0). if_f (zlen v <? pos).
      rewrite Hst. reflexivity.
    + unfold val_at. rewrite lookup_insert. do 2 f_equal. assert (k = zlen w) as -> by lia. assert (pos = 0) as -> by lia.
      rewrite ztake_0, (ztake_all (zlen w) w), zdrop_all, app_nil_r by lia. reflexivity.
    + intros z Hz Hzy. rewrite lookup_insert_ne by congruence. destruct mv; [|reflexivity]. rewrite lookup_insert_ne by (intros ->; apply Hzy; reflexivity). reflexivity.
  - exists (<[x := AVal true (ztake pos v ++ ztake k w ++ zdrop (pos + k) v)]> a). split; [|split].
    + yield. rewrite (holds_val _ _ _ _ Hx), (holds_val _ _ _ _ Hy). if_t (in_u64 pos && in_u64 n). if_f (n =? 0). if_f (zlen v <? pos).
      rewrite Hst. fold k. rewrite (self_alias _ _ _ _ Hal). cbn [need]. unfold put, sp_over. rewrite Hk. reflexivity.
    + unfold val_at. rewrite lookup_insert. reflexivity.
    + intros z Hz _. rewrite lookup_insert_ne by congruence. reflexivity.
Qed.
Lemma replace_item_yields s a x pos r v e :
  wf_desc d -> reached s a -> a !! x = Some (AVal r v) -> 0 <= pos < zlen v ->
  yields (ReplaceItem x pos e) s a (<[x := AVal true (ztake pos v ++ [Some e] ++ zdrop (pos + 1) v)]> a) ONone.
Proof.
  intros Hwf H Hx Hp. pose proof (reached_len s a x r v Hwf H Hx). yield. rewrite (holds_val _ _ _ _ Hx).
  if_t (in_u64 pos && negb (pos =? zlen v)). if_f (zlen v <? pos). reflexivity.
Qed.
Lemma replace_cstr_yields s a x pos r v mem n z :
  wf_desc d -> reached s a -> a !! x = Some (AVal r v) -> d_nul d = Some z ->
  0 <= pos <= zlen v -> 0 < n -> n <= zlen mem -> pos + n < npos ->
  yields (ReplaceCstr x pos mem n) s a (<[x := AVal true (ztake pos v ++ map Some (ztake n mem) ++ zdrop (pos + n) v)]> a) ONone.
Proof.
  intros Hwf H Hx Hz Hp Hn Hm Hl. pose proof (reached_len s a x r v Hwf H Hx). yield. rewrite (holds_val _ _ _ _ Hx), Hz.
  if_t (is_string (Some z) && in_u64 pos && in_u64 n). if_f (n =? 0). if_f (zlen v <? pos). unfold sp_carg.
  if_f (n =? npos). if_t (n <=? zlen mem). assert (Hk : zlen (ztake n mem) = n) by (zlen_simpl; lia). rewrite Hk.
  if_t (pos + n <? npos). unfold put, sp_over. rewrite zlen_map, Hk. reflexivity.
Qed.

(** C08 *)
Lemma slice_returns s a x r v start len :
  wf_desc d -> reached s a -> a !! x = Some (AVal r v) -> zlen v < W31 ->
  - W63 + W31 <= start < W63 -> - W63 <= len -> len + zlen v < W63 ->
  let st := if start <? 0 then Z.max 0 (zlen v + start) else start in
  let en := if len =? -1 then zlen v else if len <? 0 then zlen v + len else Z.min (zlen v) (st + len) in
  (len < -1 -> start < zlen v -> st <= en) ->
  returns (SliceTo x start len) s (<[x := AVal r (ztake (en - st) (zdrop st v))]> a) ONone.
Proof.
  intros Hwf H Hx Hl Hs Hlen1 Hlen2 st en Hok. return_. rewrite (holds_val _ _ _ _ Hx).
  pose proof (zlen_nonneg v).
  assert (Hst : st = sp_slice_start (zlen v) start) by reflexivity.
  assert (Hok' : sp_slice_ok (zlen v) start len = true).
  { unfold sp_slice_ok, in_s64. rewrite <- Hst. fold st. revert Hok. unfold st, en in *. unfold W63, W31 in *.
    destruct (start <? 0) eqn:E1; destruct (len =? -1) eqn:E2; destruct (len <? 0) eqn:E3; lia. }
  rewrite Hok'. cbn [need]. unfold sp_slice. rewrite <- Hst. fold en. unfold put.
  destruct (Z.leb_spec (zlen v) st); [|reflexivity].
  rewrite zdrop_all by lia. unfold ztake. rewrite firstn_nil. reflexivity.
Qed.
Lemma substring_returns s a t x r v start len :
  wf_desc d -> reached s a -> a !! x = Some (AVal r v) -> a !! t = None -> zlen v < W31 ->
  - W63 + W31 <= start < W63 -> - W63 <= len -> len + zlen v < W63 ->
  let st := if start <? 0 then Z.max 0 (zlen v + start) else start in
  let en := if len =? -1 then zlen v else if len <? 0 then zlen v + len else Z.min (zlen v) (st + len) in
  (len < -1 -> start < zlen v -> st <= en) ->
  exists s1 s2, exec d (CtorCopy t x) s = Ok ONone s1 /\ exec d (SliceTo t start len) s1 = Ok ONone s2 /\
    st_heap s2 = st_heap s1 /\
    reached s2 (<[t := AVal r (ztake (en - st) (zdrop st v))]> a) /\ shows s2 (<[t := AVal r (ztake (en - st) (zdrop st v))]> a).
Proof.
  intros Hwf H Hx Ht Hl Hs Hlen1 Hlen2 st en Hok.
  assert (H1 : returns (CtorCopy t x) s (<[t := AVal r v]> a) ONone).
  { return_. rewrite (holds_val _ _ _ _ Hx), (fresh_val _ _ Ht). reflexivity. }
  destruct H1 as (s1 & E1 & Hr1 & _).
  assert (H2 : returns (SliceTo t start len) s1 (<[t := AVal r (ztake (en - st) (zdrop st v))]> (<[t := AVal r v]> a)) ONone).
  { apply slice_returns; try assumption. apply lookup_insert. }
  destruct H2 as (s2 & E2 & Hr2 & Hs2). rewrite insert_insert in Hr2, Hs2. exists s1, s2. split; [exact E1|]. split; [exact E2|]. split; [|split; assumption].
  cbn [exec] in E2. unfold unit_, slice, bind, get_obj in E2. destruct (st_env s1 !! t) as [o|]; [|discriminate].
  destruct ((len =? -1) && negb (fits_s64 (i32 (o_len o) - start))); [discriminate|]. cbn -[u64 s64 i32 fits_s64] in E2.
  destruct (i32 (o_len o) <=? start); [injection E2 as <-; reflexivity|].
  match type of E2 with context [if ?c then _ else _] => destruct c end; [discriminate|]. injection E2 as <-. reflexivity.
Qed.

(** C09 *)
Lemma resize_shrinks s a x r v n :
  wf_desc d -> reached s a -> a !! x = Some (AVal r v) -> 0 <= n < zlen v ->
  yields (Resize x n) s a (<[x := AVal r (ztake n v)]> a) ONone /\
  forall e, yields (ResizeFill x n e) s a (<[x := AVal r (ztake n v)]> a) ONone.
Proof.
  intros Hwf H Hx Hn. pose proof (reached_len s a x r v Hwf H Hx).
  assert (Hok : size_ok (d_nul d) n = true) by (unfold size_ok, in_u64, max_alloc, W64, npos in *; lia).
  split; [|intros e]; yield; rewrite (holds_val _ _ _ _ Hx), Hok; cbn [need]; if_t (n <? zlen v); reflexivity.
Qed.
Lemma resize_grows s a x r v n :
  wf_desc d -> reached s a -> a !! x = Some (AVal r v) -> zlen v <= n < npos ->
  yields (Resize x n) s a (<[x := AVal true (v ++ zrep (n - zlen v) None)]> a) ONone /\
  forall e, yields (ResizeFill x n e) s a (<[x := AVal true (v ++ zrep (n - zlen v) (Some e))]> a) ONone.
Proof.
  intros Hwf H Hx Hn. pose proof (reached_len s a x r v Hwf H Hx).
  assert (Hok : size_ok (d_nul d) n = true) by (unfold size_ok, in_u64, max_alloc, W64, npos in *; lia).
  split; [|intros e]; yield; rewrite (holds_val _ _ _ _ Hx), Hok; cbn [need]; if_f (n <? zlen v); reflexivity.
Qed.

(** C10 *)
Lemma vals_map (es : list T) : vals (map Some es) = Some es.
Proof. induction es as [|e es IH]; [reflexivity|]. cbn. rewrite IH. reflexivity. Qed.
Lemma hash_returns s a x r es :
  wf_desc d -> reached s a -> a !! x = Some (AVal r (map Some es)) ->
  returns (HashOf x) s a (OInt (fold_left (fun h c => (33 * h + d_hash d c) mod W64) es 5381 mod W31)).
Proof. intros Hwf H Hx. return_. rewrite (holds_val _ _ _ _ Hx), vals_map. reflexivity. Qed.
Lemma equal_contents_equal_hash s1 a1 x1 r1 s2 a2 x2 r2 es :
  wf_desc d -> reached s1 a1 -> reached s2 a2 -> a1 !! x1 = Some (AVal r1 (map Some es)) -> a2 !! x2 = Some (AVal r2 (map Some es)) ->
  exists h s1' s2', 0 <= h < W31 /\ exec d (HashOf x1) s1 = Ok (OInt h) s1' /\ exec d (HashOf x2) s2 = Ok (OInt h) s2'.
Proof.
  intros Hwf H1 H2 Hx1 Hx2. destruct (hash_returns s1 a1 x1 r1 es Hwf H1 Hx1) as (s1' & E1 & _).
  destruct (hash_returns s2 a2 x2 r2 es Hwf H2 Hx2) as (s2' & E2 & _).
  eexists _, s1', s2'. split; [|split; [exact E1|exact E2]]. apply Z.mod_pos_bound. reflexivity.
Qed.

(** C11 *)
Lemma index_none (p : T -> bool) es : sp_index p es = None <-> forall i c, znth i es = Some c -> p c = false.
Proof.
  induction es as [|c es IH]; cbn.
  - split; [|reflexivity]. intros _ i c. rewrite znth_nil. discriminate.
  - destruct (p c) eqn:E.
    + split; [discriminate|]. intros H. specialize (H 0 c). rewrite znth_cons in H. specialize (H eq_refl). congruence.
    + destruct (sp_index p es) as [j|]; cbn.
      * split; [discriminate|]. intros H. destruct IH as [_ IH]. discriminate IH. intros i b Hi. apply (H (i + 1)).
        pose proof (znth_inv _ _ _ Hi). rewrite znth_cons. destruct (Z.eqb_spec (i + 1) 0); [lia|]. replace (i + 1 - 1) with i by lia. exact Hi.
      * split; [|reflexivity]. intros _ i b Hi. rewrite znth_cons in Hi. destruct (i =? 0); [congruence|]. eapply IH; [reflexivity|exact Hi].
Qed.
Lemma index_some (p : T -> bool) es : forall i, sp_index p es = Some i ->
  0 <= i /\ (exists c, znth i es = Some c /\ p c = true) /\ forall j c, 0 <= j < i -> znth j es = Some c -> p c = false.
Proof.
  induction es as [|c es IH]; cbn; intros i Hi; [discriminate|]. destruct (p c) eqn:E.
  - injection Hi as <-. split; [lia|]. split; [exists c; split; [reflexivity|exact E]|intros j b Hj; lia].
  - destruct (sp_index p es) as [k|]; [|discriminate]. cbn in Hi. injection Hi as <-.
    destruct (IH k eq_refl) as (H0 & (b & Hb & Hpb) & Hmin). split; [lia|]. split.
    + exists b. rewrite znth_cons. destruct (Z.eqb_spec (Z.succ k) 0); [lia|]. replace (Z.succ k - 1) with k by lia. auto.
    + intros j b' Hj Hb'. rewrite znth_cons in Hb'. destruct (Z.eqb_spec j 0); [congruence|]. eapply Hmin; [|exact Hb']. lia.
Qed.
Lemma find_returns s a x r es e pos :
  wf_desc d -> reached s a -> a !! x = Some (AVal r (map Some es)) -> 0 <= pos <= zlen es ->
  exists i, returns (FindItem x e pos) s a (OInt i) /\
  ((i = npos /\ forall j c, pos <= j -> znth j es = Some c -> d_eqb d c e = false) \/
   (0 <= i /\ (exists c, znth (pos + i) es = Some c /\ d_eqb d c e = true) /\
    forall j c, pos <= j < pos + i -> znth j es = Some c -> d_eqb d c e = false)).
Proof.
  intros Hwf H Hx Hp. pose proof (reached_len s a x r _ Hwf H Hx) as Hl. rewrite zlen_map in Hl.
  exists (or_npos (sp_index (fun c => d_eqb d c e) (zdrop pos es))). split.
  - return_. rewrite (holds_val _ _ _ _ Hx), vals_map, zlen_map. if_t (in_u64 pos). if_f (zlen es <? pos). reflexivity.
  - assert (Hd : forall j, 0 <= j -> znth j (zdrop pos es) = znth (pos + j) es).
    { intros j Hj. rewrite znth_zdrop. destruct (Z.ltb_spec j 0); [lia|]. f_equal; lia. }
    destruct (sp_index _ (zdrop pos es)) as [i|] eqn:Ei; cbn [or_npos].
    + right. destruct (index_some _ _ _ Ei) as (H0 & (c & Hc & Hpc) & Hmin). split; [exact H0|]. split.
      * exists c. rewrite <- Hd by lia. auto.
      * intros j c' Hj Hc'. apply (Hmin (j - pos) c'); [lia|]. rewrite Hd by lia. rewrite <- Hc'. f_equal; lia.
    + left. split; [reflexivity|]. intros j c Hj Hc. apply (proj1 (index_none _ _) Ei (j - pos) c). rewrite Hd by lia. rewrite <- Hc. f_equal; lia.
Qed.
Lemma rfind_returns s a x r es e :
  wf_desc d -> reached s a -> a !! x = Some (AVal r (map Some es)) ->
  exists i, returns (RFindItem x e) s a (OInt i) /\
  ((i = npos /\ forall j c, znth j es = Some c -> d_eqb d c e = false) \/
   (0 <= i /\ (exists c, znth i es = Some c /\ d_eqb d c e = true) /\
    forall j c, i < j -> znth j es = Some c -> d_eqb d c e = false)).
Proof.
  intros Hwf H Hx. exists (or_npos (sp_last_index (fun c => d_eqb d c e) es)). split.
  - return_. rewrite (holds_val _ _ _ _ Hx), vals_map. reflexivity.
  - unfold sp_last_index. destruct (sp_index _ (rev es)) as [i|] eqn:Ei; cbn [or_npos option_map].
    + right. destruct (index_some _ _ _ Ei) as (H0 & (c & Hc & Hpc) & Hmin). pose proof (znth_inv _ _ _ Hc) as Hi. rewrite zlen_rev in Hi.
      split; [lia|]. split.
      * exists c. rewrite <- znth_rev by lia. auto.
      * intros j c' Hj Hc'. pose proof (znth_inv _ _ _ Hc') as Hj'. apply (Hmin (zlen es - 1 - j) c'); [lia|]. rewrite znth_rev by lia. rewrite <- Hc'. f_equal; lia.
    + left. split; [reflexivity|]. intros j c Hc. pose proof (znth_inv _ _ _ Hc). apply (proj1 (index_none _ _) Ei (zlen es - 1 - j) c).
      rewrite znth_rev by lia. rewrite <- Hc. f_equal; lia.
Qed.
End Facts.
