(** The operations that modify an object's buffer. *)
From Verif Require Import RcaSpec RcaModel RcaInv RcaOwn RcaRel RcaRel2 ZListMod.
From Coq Require Import ZifyBool.
Open Scope Z_scope.

Lemma zsub_one {A} i (q : list A) f : znth i q = Some f -> zsub i 1 q = [f].
Proof.
  intros Hq. pose proof (znth_inv _ _ _ Hq). apply zlist_ext_opt; intros j. znth_simpl. zprune; try reflexivity; try (exfalso; lia).
  replace j with 0 by lia. exact Hq.
Qed.
Section Mod.
Context {T : Type} (d : desc T).
Notation St := (state T).
Implicit Types (s : St) (x y : var) (o : obj) (a : astate T) (v w b : list (option T)).
Notation R := (R d).
Notation held := (held d).
Notation owns := (owns d).

Definition shared_var s x : Prop := exists o, st_env s !! x = Some o /\ sharedp (st_heap s) o.
(** State after a failed allocation: nothing happened, or the target lost its (shared) value. *)
Definition failed s a x s' : Prop := R s' a \/ (shared_var s x /\ R s' (<[x:=AVal true []]> a)).
Definition fails s a x (n : Z) (e : exn) s' : Prop :=
  e = BadAlloc /\ failed s a x s' /\ Frame (eq x) s s' /\ starves d (d_grow d) (room d n).

Lemma held_frame X s s' y o r w :
  Inv d s' -> Frame X s s' -> ~ X y -> held s y o r w -> held s' y o r w.
Proof.
  intros HI HF Hy [Hx Hg Hv Hrm Hlen Hoff Hfit Hcap].
  assert (Hx' : st_env s' !! y = Some o) by (rewrite (frame_lookup _ _ _ _ _ y HF Hy); exact Hx).
  assert (Hb : cap (st_heap s') o = cap (st_heap s) o).
  { destruct (HF y Hy) as [_ Hb]. specialize (Hb o Hx). unfold cap.
    destruct (buf_of (st_heap s) o) as [b|], (buf_of (st_heap s') o) as [b'|]; cbn in Hb; try contradiction; [|reflexivity].
    rewrite (vle_len _ _ Hb); reflexivity. }
  constructor; rewrite ?Hb; try assumption.
  - eapply vle_trans; [exact Hv|]. eapply frame_view; eassumption.
  - unfold room_ok in *. rewrite Hb. exact Hrm.
Qed.

Lemma owns_R s a s' x off len b v' r :
  R s a -> owns s s' x off len b -> vle v' (zsub off len b) ->
  (d_nul d <> None -> r = true -> len = 0 \/ off + len < zlen b) -> R s' (<[x:=AVal r v']> a).
Proof.
  intros HR HO Hv Hrm. pose proof HO as (HI & HF & _).
  destruct (owns_view d _ _ _ _ _ _ HO) as (o & Hx & Hg & Hlen & Hoff & Hcap & Hview & _).
  eapply R_put; try eassumption. split; [exact Hg|]. rewrite Hview. split; [exact Hv|].
  unfold room_ok. rewrite Hlen, Hoff, Hcap. exact Hrm.
Qed.
Lemma room_room off n b : 0 <= n -> off + room d n <= zlen b -> d_nul d <> None -> n = 0 \/ off + n < zlen b.
Proof. unfold room. destruct (d_nul d); [|congruence]. destruct (Z.ltb_spec 0 n); lia. Qed.

Lemma alloc_failed_R s a x o r v s' :
  R s a -> a !! x = Some (AVal r v) -> held s x o r v -> alloc_failed d s x o s' -> failed s a x s'.
Proof.
  intros HR Ha Hh (HI & HF & o' & Hx & Hg & H). pose proof Hh as [Hxs _ Hv Hrm Hlen Hoff Hfit Hcap].
  destruct H as [(H1 & H2 & H3 & H4)|(H1 & H2 & H3)].
  - left. eapply R_same; try eassumption. split; [exact Hg|]. rewrite H1. split; [exact Hv|].
    intros E1 E2. destruct (Hrm E1 E2); [left; lia|right; lia].
  - right. split; [exists o; auto|]. eapply R_put; try eassumption. split; [exact Hg|]. rewrite H3.
    split; [constructor|]. intros _ _; left; exact H2.
Qed.

(** AboutToModify seen through the relation. *)
Lemma atm_R s a x r v n :
  R s a -> a !! x = Some (AVal r v) -> zlen v <= n -> n < W64 -> (d_nul d <> None -> n < npos) ->
  runs (about_to_modify d x n) s
    (fun _ s' => exists off b, owns s s' x off (zlen v) b /\ off + room d n <= zlen b /\
                  vle v (zsub off (zlen v) b))
    (fails s a x n).
Proof.
  intros HR Ha Hn HnW Hnp. destruct (R_held d _ _ _ _ _ HR Ha) as (o & Hh).
  pose proof Hh as [Hx Hg Hv Hrm Hlen Hoff Hfit Hcap]. pose proof (zlen_nonneg v).
  eapply runs_conseq; [apply (about_to_modify_spec d s x n o); try assumption; try apply HR; lia| |].
  - intros ? s' (off & b & HO & Hr & Hvw). exists off, b. rewrite <- Hlen. splits; try assumption.
    eapply vle_trans; eassumption.
  - intros e s' (-> & HA & _ & Hst). split; [reflexivity|]. split; [eapply alloc_failed_R; eassumption|]. split; [apply HA|exact Hst].
Qed.
Lemma own_copy_R s a x r v :
  R s a -> a !! x = Some (AVal r v) ->
  runs (get_own_copy d x) s
    (fun _ s' => exists off b, owns s s' x off (zlen v) b /\ off + room d (zlen v) <= zlen b /\
                  vle v (zsub off (zlen v) b))
    (fails s a x (zlen v)).
Proof.
  intros HR Ha. destruct (R_held d _ _ _ _ _ HR Ha) as (o & Hh).
  unfold get_own_copy. eapply runs_step; [eapply held_len; exact Hh|].
  pose proof (held_bounds d _ _ _ _ _ Hh).
  eapply atm_R; try eassumption; try lia; unfold max_alloc, W64, npos in *; intros; lia.
Qed.

(** Stores into an own buffer. *)
Lemma step_store {B} s0 s x off len b pos es (k : M St B) (P : B -> St -> Prop) E :
  owns s0 s x off len b -> 0 <= pos -> off + pos + zlen es <= zlen b ->
  (forall s', owns s0 s' x off len (zupd (off + pos) es b) -> runs (k) s' P E) ->
  runs (store x pos es ;;; k) s P E.
Proof.
  intros HO Hp Hfit Hk. destruct (owns_store d _ _ _ _ _ _ pos es HO Hp Hfit) as (s' & Hs & HO').
  eapply runs_step; [exact Hs|]. apply Hk, HO'.
Qed.
Lemma step_set_len {B} s0 s x off len b n (k : M St B) (P : B -> St -> Prop) E :
  owns s0 s x off len b -> 0 <= n -> off + n <= zlen b ->
  (forall s', owns s0 s' x off n b -> runs k s' P E) -> runs (set_len x n ;;; k) s P E.
Proof.
  intros HO Hn Hfit Hk. destruct (owns_set_len d _ _ _ _ _ _ n HO Hn Hfit) as (s' & Hs & HO').
  eapply runs_step; [exact Hs|]. apply Hk, HO'.
Qed.
Lemma ends_ok z s0 s x off len b n c :
  owns s0 s x off len b -> 0 <= n -> off + n + 1 <= zlen b -> znth (off + n) b = Some (Some c) -> d_eqb d c z = true ->
  check d (ends_nul d z x n) s = Ok tt s.
Proof.
  intros HO Hn Hfit Hc Hz. apply check_ok. unfold ends_nul, load1, bind. rewrite (owns_load d _ _ _ _ _ _ n 1 HO) by lia.
  rewrite (zsub_one _ _ _ Hc). unfold ret. rewrite Hz. reflexivity.
Qed.
Lemma end_store s0 s x off len b pos es (P : unit -> St -> Prop) E :
  owns s0 s x off len b -> 0 <= pos -> off + pos + zlen es <= zlen b ->
  (forall s', owns s0 s' x off len (zupd (off + pos) es b) -> P tt s') -> runs (store x pos es) s P E.
Proof.
  intros HO Hp Hfit Hk. destruct (owns_store d _ _ _ _ _ _ pos es HO Hp Hfit) as (s' & Hs & HO').
  unfold runs. rewrite Hs. apply Hk, HO'.
Qed.
Lemma end_set_len s0 s x off len b n (P : unit -> St -> Prop) E :
  owns s0 s x off len b -> 0 <= n -> off + n <= zlen b ->
  (forall s', owns s0 s' x off n b -> P tt s') -> runs (set_len x n) s P E.
Proof.
  intros HO Hn Hfit Hk. destruct (owns_set_len d _ _ _ _ _ _ n HO Hn Hfit) as (s' & Hs & HO').
  unfold runs. rewrite Hs. apply Hk, HO'.
Qed.
Lemma shift_right_owns s0 s x off len b pos k :
  owns s0 s x off len b -> 0 <= pos <= len -> 0 <= k -> off + len + k <= zlen b ->
  exists s', shift_right x pos k s = Ok tt s' /\
    owns s0 s' x off len (zupd (off + (pos + k)) (zsub (off + pos) (len - pos) b) b).
Proof.
  intros HO Hp Hk Hfit. pose proof (owns_facts d _ _ _ _ _ _ HO) as (Q1 & Q2 & Q3 & Q4).
  unfold shift_right, bind. rewrite (owns_length d _ _ _ _ _ _ HO).
  rewrite (owns_load d _ _ _ _ _ _ pos (len - pos) HO) by lia.
  destruct (owns_store d _ _ _ _ _ _ (pos + k) (zsub (off + pos) (len - pos) b) HO) as (s' & Hs & HO').
  { lia. } { zlen_simpl. lia. }
  exists s'. split; [exact Hs|exact HO'].
Qed.
Lemma add_len_owns s0 s x off len b k :
  owns s0 s x off len b -> 0 <= k -> off + len + k <= zlen b ->
  exists s', add_len x k s = Ok tt s' /\ owns s0 s' x off (len + k) b.
Proof.
  intros HO Hk Hfit. pose proof (owns_facts d _ _ _ _ _ _ HO) as (Q1 & Q2 & Q3 & Q4).
  unfold add_len, bind. rewrite (owns_length d _ _ _ _ _ _ HO). rewrite u64_lt by lia.
  apply (owns_set_len d _ _ _ _ _ _ (len + k) HO); lia.
Qed.

Lemma vle_splice v v' pos w w' : vle v v' -> vle w w' -> vle (sp_splice v pos w) (ztake pos v' ++ w' ++ zdrop pos v').
Proof. intros; unfold sp_splice. apply vle_app; [apply vle_ztake; assumption|]. apply vle_app; [assumption|apply vle_zdrop; assumption]. Qed.
Lemma vle_over v v' pos w w' :
  vle v v' -> vle w w' -> vle (sp_over v pos w) (ztake pos v' ++ w' ++ zdrop (pos + zlen w') v').
Proof.
  intros H1 H2; unfold sp_over. rewrite (vle_len _ _ H2). apply vle_app; [apply vle_ztake; assumption|].
  apply vle_app; [assumption|apply vle_zdrop; assumption].
Qed.

(** resize *)
Lemma resize_R s a x r v n :
  R s a -> a !! x = Some (AVal r v) -> zlen v <= n -> size_ok (d_nul d) n = true ->
  runs (about_to_modify d x n ;;; set_len x n) s
    (fun _ s' => R s' (<[x:=AVal true (v ++ zrep (n - zlen v) None)]> a)) (fails s a x n).
Proof.
  intros HR Ha Hn Hok. unfold size_ok, in_u64, is_string in Hok. pose proof (zlen_nonneg v).
  eapply runs_bind; [eapply atm_R; try eassumption; [lia|]|].
  { destruct (d_nul d); [|congruence]. intros _. unfold npos, W64 in *. lia. }
  cbn beta. intros _ s1 (off & b & HO & Hroom & Hv). pose proof (room_ge d n).
  pose proof (owns_facts d _ _ _ _ _ _ HO) as (Q1 & Q2 & Q3 & Q4).
  eapply end_set_len; [exact HO|lia|lia|]. intros s' HO'. eapply owns_R; [exact HR|exact HO'| |].
  - rewrite (zsub_split off (zlen v) (n - zlen v)) with (l := b) || replace (zsub off n b) with (zsub off (zlen v) b ++ zsub (off + zlen v) (n - zlen v) b).
    + apply vle_app; [exact Hv|]. apply vle_nones. zlen_simpl. lia.
    + rewrite <- zsub_split by lia. f_equal; lia.
  - intros. eapply room_room; [lia|eassumption|assumption].
Qed.
Lemma resize_fill_owned s0 s x off len b n (e : T) (P : unit -> St -> Prop) E :
  owns s0 s x off len b -> len <= n -> off + n <= zlen b ->
  (forall s', owns s0 s' x off n (zupd (off + len) (zrep (n - len) (Some e)) b) -> P tt s') ->
  runs (let* o := get_obj x in
    match o_ref o with
    | None => undef UbNull
    | Some l =>
      let* c := get_cell l in
      (if zlen (c_buf c) <? o_off o + n then undef UbBounds
       else store x (o_len o) (zrep (n - o_len o) (Some e))) ;;;
      set_len x n
    end) s P E.
Proof.
  intros HO Hn Hfit HP. pose proof (owns_facts d _ _ _ _ _ _ HO) as (Q1 & Q2 & Q3 & Q4).
  pose proof HO as (_ & _ & l & g & Hx & Hl).
  eapply runs_step; [apply get_obj_ok, Hx|]. cbn [o_ref o_off o_len].
  eapply runs_step; [apply get_cell_ok, Hl|]. cbn [c_buf].
  destruct (Z.ltb_spec (zlen b) (off + n)); [lia|].
  eapply step_store; [exact HO|lia|zlen_simpl; lia|]. intros s2 HO2.
  eapply end_set_len; [exact HO2|lia| |exact HP].
  rewrite zlen_zupd; zlen_simpl; lia.
Qed.
Lemma fill_sub b off len n (e : option T) :
  0 <= off -> 0 <= len <= n -> off + n <= zlen b ->
  zsub off n (zupd (off + len) (zrep (n - len) e) b) = zsub off len b ++ zrep (n - len) e.
Proof. intros. apply zlist_ext_opt; intros i. rewrite znth_zsub, znth_zupd by lia. znth_simpl. zprune; zfin. Qed.
Lemma resize_fill_R s a x r v n e :
  R s a -> a !! x = Some (AVal r v) -> zlen v <= n -> size_ok (d_nul d) n = true ->
  runs (resize_fill d x n e) s
    (fun _ s' => R s' (<[x:=AVal true (v ++ zrep (n - zlen v) (Some e))]> a)) (fails s a x n).
Proof.
  intros HR Ha Hn Hok. unfold size_ok, in_u64, is_string in Hok. pose proof (zlen_nonneg v).
  destruct (R_held d _ _ _ _ _ HR Ha) as (o & Hh).
  unfold resize_fill. eapply runs_step; [eapply held_len; exact Hh|].
  destruct (Z.ltb_spec n (zlen v)); [lia|].
  eapply runs_bind; [eapply atm_R; try eassumption; [lia|]|].
  { destruct (d_nul d); [|congruence]. intros _. unfold npos, W64 in *. lia. }
  cbn beta. intros _ s1 (off & b & HO & Hroom & Hv). pose proof (room_ge d n).
  pose proof (owns_facts d _ _ _ _ _ _ HO) as (Q1 & Q2 & Q3 & Q4).
  eapply resize_fill_owned; [exact HO|lia|lia|]. intros s' HO'. eapply owns_R; [exact HR|exact HO'| |].
  - rewrite fill_sub by lia. apply vle_app; [exact Hv|apply vle_refl].
  - rewrite zlen_zupd by (zlen_simpl; lia). intros. eapply room_room; [lia|eassumption|assumption].
Qed.

(** insert(pos, item) *)
Lemma vle_item (e : T) : vle [Some e] [Some e].
Proof. apply vle_refl. Qed.
Lemma insert_item_R s a x r v pos e :
  R s a -> a !! x = Some (AVal r v) -> 0 <= pos <= zlen v ->
  runs (insert_item d x pos e) s
    (fun _ s' => R s' (<[x:=AVal true (sp_splice v pos [Some e])]> a)) (fails s a x (zlen v + 1)).
Proof.
  intros HR Ha Hpos. destruct (R_held d _ _ _ _ _ HR Ha) as (o & Hh).
  pose proof (held_bounds d _ _ _ _ _ Hh) as Hb.
  assert (Hma : max_alloc + 1 < npos /\ npos < W64) by (unfold max_alloc, npos, W64; lia).
  unfold insert_item. eapply runs_step.
  { rewrite (check_pos_eq d _ _ _ _ _ _ HR Ha) by lia. destruct (Z.ltb_spec (zlen v) pos); [lia|reflexivity]. }
  eapply runs_step; [eapply held_len; exact Hh|]. rewrite u64_id by lia.
  eapply runs_bind; [eapply atm_R; try eassumption; lia|]. cbn beta.
  intros _ s1 (off & b & HO & Hroom & Hv). pose proof (room_ge d (zlen v + 1)).
  pose proof (owns_facts d _ _ _ _ _ _ HO) as (Q1 & Q2 & Q3 & Q4).
  destruct (shift_right_owns _ _ _ _ _ _ pos 1 HO) as (s2 & E2 & HO2); [lia|lia|lia|].
  eapply runs_step; [exact E2|].
  assert (Hz : zlen (zupd (off + (pos + 1)) (zsub (off + pos) (zlen v - pos) b) b) = zlen b).
  { apply zlen_zupd; [lia|zlen_simpl; lia]. }
  eapply step_store; [exact HO2|lia|rewrite Hz; zlen_simpl; lia|]. intros s3 HO3.
  assert (Hz3 : forall q, zlen q = zlen b -> zlen (zupd (off + pos) [Some e] q) = zlen b).
  { intros q Hq. rewrite zlen_zupd; [exact Hq|lia|rewrite Hq; zlen_simpl; lia]. }
  destruct (add_len_owns _ _ _ _ _ _ 1 HO3) as (s4 & E4 & HO4); [lia|rewrite Hz3 by exact Hz; lia|].
  unfold runs. rewrite E4. eapply owns_R; [exact HR|exact HO4| |].
  - rewrite splice_eq by (rewrite ?zlen_cons, ?zlen_nil; lia). apply vle_splice; [exact Hv|apply vle_refl].
  - rewrite Hz3 by exact Hz. intros. eapply room_room; [lia|eassumption|assumption].
Qed.

(** Inserting a range item by item, into an own buffer with enough room. *)
Lemma insert_item_owned s0 s x off len b v pos e :
  owns s0 s x off len b -> vle v (zsub off len b) -> zlen v = len -> 0 <= pos <= len ->
  room d (len + 1) <= zlen b -> len + 1 < npos ->
  runs (insert_item d x pos e) s
    (fun _ s' => exists off' b', owns s0 s' x off' (len + 1) b' /\ zlen b <= zlen b' /\
       vle (sp_splice v pos [Some e]) (zsub off' (len + 1) b')) (fun _ _ => False).
Proof.
  intros HO Hv Hlv Hpos Hroom Hnp. pose proof (owns_facts d _ _ _ _ _ _ HO) as (Q1 & Q2 & Q3 & Q4).
  assert (Hma : max_alloc + 1 < npos /\ npos < W64) by (unfold max_alloc, npos, W64; lia).
  unfold insert_item. eapply runs_step.
  { unfold check_pos. destruct (Z.eqb_spec pos 0); [reflexivity|]. unfold validate_index, bind.
    rewrite (owns_length d _ _ _ _ _ _ HO). rewrite u64_id by lia.
    destruct (Z.leb_spec len (pos - 1)); [lia|reflexivity]. }
  eapply runs_step; [eapply owns_length; exact HO|]. rewrite u64_id by lia.
  eapply runs_bind; [eapply (about_to_modify_owned d); try eassumption; lia|]. cbn beta.
  intros _ s1 (off' & b' & HO' & Hr' & Hz' & Hv'). pose proof (room_ge d (len + 1)).
  pose proof (owns_facts d _ _ _ _ _ _ HO') as (Q1' & Q2' & Q3' & Q4').
  destruct (shift_right_owns _ _ _ _ _ _ pos 1 HO') as (s2 & E2 & HO2); [lia|lia|lia|].
  eapply runs_step; [exact E2|].
  assert (Hz : zlen (zupd (off' + (pos + 1)) (zsub (off' + pos) (len - pos) b') b') = zlen b').
  { apply zlen_zupd; [lia|zlen_simpl; lia]. }
  eapply step_store; [exact HO2|lia|rewrite Hz; zlen_simpl; lia|]. intros s3 HO3.
  assert (Hz3 : forall q, zlen q = zlen b' -> zlen (zupd (off' + pos) [Some e] q) = zlen b').
  { intros q Hq. rewrite zlen_zupd; [exact Hq|lia|rewrite Hq; zlen_simpl; lia]. }
  destruct (add_len_owns _ _ _ _ _ _ 1 HO3) as (s4 & E4 & HO4); [lia|rewrite Hz3 by exact Hz; lia|].
  unfold runs. rewrite E4. eexists _, _. split; [exact HO4|]. rewrite Hz3 by exact Hz. split; [exact Hz'|].
  rewrite splice_eq by (rewrite ?zlen_cons, ?zlen_nil; lia). apply vle_splice; [|apply vle_refl].
  eapply vle_trans; [exact Hv|exact Hv'].
Qed.
Lemma own_copy_owned s0 s x off len b v :
  owns s0 s x off len b -> vle v (zsub off len b) -> room d len <= zlen b ->
  runs (get_own_copy d x) s
    (fun _ s' => exists off' b', owns s0 s' x off' len b' /\ off' + room d len <= zlen b' /\ zlen b <= zlen b' /\
       vle v (zsub off' len b')) (fun _ _ => False).
Proof.
  intros HO Hv Hroom. pose proof (owns_facts d _ _ _ _ _ _ HO) as (Q1 & Q2 & Q3 & Q4).
  unfold get_own_copy. eapply runs_step; [eapply owns_length; exact HO|].
  assert (Hma : max_alloc + 1 < npos /\ npos < W64) by (unfold max_alloc, npos, W64; lia).
  eapply runs_conseq; [eapply (about_to_modify_owned d); try eassumption; lia| |intros ? ? []].
  intros ? s' (off' & b' & H1 & H2 & H3 & H4). exists off', b'. splits; try assumption.
  eapply vle_trans; eassumption.
Qed.
Lemma splice_len v pos w : 0 <= pos <= zlen v -> zlen (sp_splice v pos w) = zlen v + zlen w.
Proof. intros. unfold sp_splice. zlen_simpl. lia. Qed.
Lemma splice_cons v pos (e : T) vs :
  0 <= pos <= zlen v ->
  sp_splice (sp_splice v pos [Some e]) (pos + 1) (map Some vs) = sp_splice v pos (map Some (e :: vs)).
Proof.
  intros. unfold sp_splice. assert (H1 : zlen (ztake pos v) = pos) by (zlen_simpl; lia).
  assert (ztake (pos + 1) (ztake pos v ++ [Some e] ++ zdrop pos v) = ztake pos v ++ [Some e]) as ->.
  { apply zlist_ext_opt; intros i. zlen_facts. znth_simpl. zprune; zfin. }
  assert (zdrop (pos + 1) (ztake pos v ++ [Some e] ++ zdrop pos v) = zdrop pos v) as ->.
  { apply zlist_ext_opt; intros i. zlen_facts. znth_simpl. zprune; zfin. }
  rewrite <- app_assoc. reflexivity.
Qed.
Lemma insert_loop_owned vs : forall s0 s x off len b v pos,
  owns s0 s x off len b -> vle v (zsub off len b) -> zlen v = len -> 0 <= pos <= len ->
  room d (len + zlen vs) <= zlen b -> len + zlen vs < npos ->
  runs (insert_loop d x pos vs) s
    (fun _ s' => exists off' b', owns s0 s' x off' (len + zlen vs) b' /\ zlen b <= zlen b' /\
       vle (sp_splice v pos (map Some vs)) (zsub off' (len + zlen vs) b')) (fun _ _ => False).
Proof.
  induction vs as [|e vs IH]; intros s0 s x off len b v pos HO Hv Hlv Hpos Hroom Hnp.
  - cbn [insert_loop]. apply runs_ret. exists off, b. rewrite zlen_nil, Z.add_0_r. split; [exact HO|]; split; [apply Z.le_refl|].
    unfold sp_splice; cbn [map app]. rewrite ztake_zdrop. exact Hv.
  - cbn [insert_loop]. rewrite zlen_cons in Hroom, Hnp |- *. pose proof (zlen_nonneg vs).
    pose proof (owns_facts d _ _ _ _ _ _ HO) as (Q1 & Q2 & Q3 & Q4).
    pose proof (room_mono d len (len + (1 + zlen vs)) ltac:(lia)).
    pose proof (room_mono d (len + 1) (len + (1 + zlen vs)) ltac:(lia)).
    eapply runs_bind; [eapply own_copy_owned; try eassumption; lia|]. cbn beta.
    intros _ s1 (off1 & b1 & HO1 & Hr1 & Hz1 & Hv1).
    eapply runs_bind; [eapply insert_item_owned; try eassumption; lia|]. cbn beta.
    intros _ s2 (off2 & b2 & HO2 & Hz2 & Hv2).
    eapply runs_bind; [eapply own_copy_owned; try eassumption; lia|]. cbn beta.
    intros _ s3 (off3 & b3 & HO3 & Hr3 & Hz3 & Hv3).
    eapply runs_conseq; [eapply (IH s0 s3 x off3 (len + 1) b3 (sp_splice v pos [Some e]) (pos + 1)); try eassumption|
      |intros ? ? []].
    + rewrite splice_len by lia. rewrite zlen_cons, zlen_nil. lia.
    + lia.
    + replace (len + 1 + zlen vs) with (len + (1 + zlen vs)) by lia. lia.
    + lia.
    + cbn beta. intros _ s4 (off4 & b4 & HO4 & Hz4 & Hv4). exists off4, b4.
      replace (len + (1 + zlen vs)) with (len + 1 + zlen vs) by lia. splits; [exact HO4|lia|].
      rewrite splice_cons in Hv4 by lia. exact Hv4.
Qed.
Lemma insert_range_R s a x r v pos vs :
  R s a -> a !! x = Some (AVal r v) -> 0 <= pos <= zlen v -> zlen v + zlen vs < npos ->
  runs (insert_range d x pos vs) s
    (fun _ s' => exists off b, owns s s' x off (zlen v + zlen vs) b /\
       off + room d (zlen v + zlen vs) <= zlen b /\ vle (sp_splice v pos (map Some vs)) (zsub off (zlen v + zlen vs) b))
    (fails s a x (zlen v + zlen vs)).
Proof.
  intros HR Ha Hpos Hnp. destruct (R_held d _ _ _ _ _ HR Ha) as (o & Hh).
  pose proof (held_bounds d _ _ _ _ _ Hh) as Hb. pose proof (zlen_nonneg vs).
  assert (Hma : npos < W64) by (unfold npos, W64; lia).
  unfold insert_range. eapply runs_step; [eapply held_len; exact Hh|]. rewrite u64_id by lia.
  eapply runs_bind; [eapply atm_R; try eassumption; lia|]. cbn beta.
  intros _ s1 (off & b & HO & Hroom & Hv).
  pose proof (owns_facts d _ _ _ _ _ _ HO) as (Q1 & Q2 & Q3 & Q4).
  eapply runs_bind.
  { eapply runs_conseq; [eapply (insert_loop_owned vs s s1 x off (zlen v) b v pos); try eassumption; lia| |intros ? ? []].
    intros ? ? H'; exact H'. }
  cbn beta. intros _ s2 (off2 & b2 & HO2 & Hz2 & Hv2).
  eapply runs_conseq; [eapply own_copy_owned; try eassumption; lia| |intros ? ? []].
  intros ? s3 (off3 & b3 & HO3 & Hr3 & Hz3 & Hv3). exists off3, b3. auto.
Qed.

(** Element copies from another (or the same) object. *)
Lemma copy_fwd_owned n : forall s0 s x off len b j p,
  owns s0 s x off len b -> 0 <= j -> 0 <= p -> off + p + j + Z.of_nat n <= zlen b ->
  (p = 0 \/ Z.of_nat n <= p) ->
  exists s', copy_fwd n x x j (p + j) s = Ok tt s' /\
    owns s0 s' x off len (zupd (off + (p + j)) (zsub (off + j) (Z.of_nat n) b) b).
Proof.
  induction n as [|n IH]; intros s0 s x off len b j p HO Hj Hp Hfit Hal;
    pose proof (owns_facts d _ _ _ _ _ _ HO) as (Q1 & Q2 & Q3 & Q4).
  - exists s. split; [reflexivity|]. rewrite zsub_0 by lia. rewrite zupd_nil by lia. exact HO.
  - cbn [copy_fwd]. unfold bind. rewrite (owns_load d _ _ _ _ _ _ j 1 HO) by lia.
    destruct (owns_store d _ _ _ _ _ _ (p + j) (zsub (off + j) 1 b) HO) as (s1 & E1 & HO1).
    { lia. } { zlen_simpl. lia. }
    rewrite E1. replace (p + j + 1) with (p + (j + 1)) by lia.
    destruct (IH _ _ _ _ _ _ (j + 1) p HO1) as (s2 & E2 & HO2); [lia|lia| |lia|].
    { rewrite zlen_zupd; [lia|lia|zlen_simpl; lia]. }
    exists s2. split; [exact E2|]. rewrite copy_step in HO2 by lia.
    replace (Z.of_nat (S n)) with (Z.of_nat n + 1) by lia. exact HO2.
Qed.
Definition no_overlap x y (pos k : Z) : Prop := d_class d = true -> x = y -> pos = 0 \/ k <= pos.
Lemma alias_ok_prop x y pos k : alias_ok (d_class d) x y pos k = true -> no_overlap x y pos k.
Proof. unfold alias_ok, no_overlap. intros H Hc ->. rewrite Hc, Pos.eqb_refl in H. cbn in H. lia. Qed.

(** [w]: the source elements as they are in the current state. *)
Lemma copy_elems_owned s0 s x y off len b oy ry wy k pos :
  owns s0 s x off len b -> held s y oy ry wy -> 0 <= k <= zlen wy -> 0 <= pos -> off + pos + k <= zlen b ->
  x <> y ->
  exists s' w, copy_elems d x y k pos s = Ok tt s' /\ vle (ztake k wy) w /\
    owns s0 s' x off len (zupd (off + pos) w b).
Proof.
  intros HO Hh Hk Hp Hfit Hxy. pose proof (owns_facts d _ _ _ _ _ _ HO) as (Q1 & Q2 & Q3 & Q4).
  pose proof HO as (HI & _ & l & g & Hx & Hl).
  unfold copy_elems, bind. rewrite (get_obj_ok _ _ _ Hx), (get_obj_ok _ _ _ (hd_env _ _ _ _ _ _ Hh)).
  assert (Hne : bool_decide (o_ref (Obj (Some l) off len 0) = o_ref oy) = false).
  { apply bool_decide_eq_false. cbn. intros He.
    eapply (inv_unique d _ _ _ x _ l _ y oy HI Hx eq_refl Hl); [reflexivity|exact Hxy|apply Hh|congruence]. }
  rewrite Hne, andb_false_r.
  destruct (held_load d s y oy ry wy 0 k HI Hh) as (es & He & Hv); [lia|lia|]. rewrite He.
  rewrite <- ztake_zsub in Hv. assert (Hze : zlen es = k) by (rewrite <- (vle_len _ _ Hv); zlen_simpl; lia).
  destruct (owns_store d _ _ _ _ _ _ pos es HO) as (s' & Hs & HO'); [lia|lia|].
  exists s', es. auto.
Qed.
Lemma copy_elems_self s0 s x off len b k pos :
  owns s0 s x off len b -> 0 <= k -> 0 <= pos -> off + pos + k <= zlen b ->
  no_overlap x x pos k ->
  exists s', copy_elems d x x k pos s = Ok tt s' /\ owns s0 s' x off len (zupd (off + pos) (zsub off k b) b).
Proof.
  intros HO Hk Hp Hfit Hal. pose proof (owns_facts d _ _ _ _ _ _ HO) as (Q1 & Q2 & Q3 & Q4).
  pose proof HO as (HI & _ & l & g & Hx & Hl).
  unfold copy_elems, bind. rewrite (get_obj_ok _ _ _ Hx), (get_obj_ok _ _ _ Hx). rewrite bool_decide_eq_true_2 by reflexivity.
  rewrite andb_true_r. destruct (d_class d) eqn:Hc.
  - destruct (copy_fwd_owned (Z.to_nat k) _ _ _ _ _ _ 0 pos HO) as (s' & E & HO').
    { lia. } { lia. } { lia. } { destruct (Hal Hc eq_refl); lia. }
    rewrite !Z.add_0_r, Z2Nat.id in * by lia. exists s'; auto.
  - rewrite (owns_load d _ _ _ _ _ _ 0 k HO) by lia. rewrite Z.add_0_r.
    destruct (owns_store d _ _ _ _ _ _ pos (zsub off k b) HO) as (s' & Hs & HO'); [lia|zlen_simpl; lia|].
    exists s'; auto.
Qed.

Lemma splice_R s a x y rx vx ry wy pos k :
  R s a -> a !! x = Some (AVal rx vx) -> a !! y = Some (AVal ry wy) -> 0 <= pos <= zlen vx ->
  0 <= k <= zlen wy -> no_overlap x y pos k ->
  runs (splice d x pos y k) s
    (fun _ s' => R s' (<[x:=AVal true (sp_splice vx pos (ztake k wy))]> a)) (fails s a x (zlen vx + k)).
Proof.
  intros HR Hax Hay Hpos Hk Hal. destruct (R_held d _ _ _ _ _ HR Hax) as (o & Hh).
  destruct (R_held d _ _ _ _ _ HR Hay) as (oy & Hhy).
  pose proof (held_bounds d _ _ _ _ _ Hh) as Hb. pose proof (held_bounds d _ _ _ _ _ Hhy) as Hby.
  assert (Hma : max_alloc + max_alloc < npos /\ npos < W64) by (unfold max_alloc, npos, W64; lia).
  unfold splice. eapply runs_step; [eapply held_len; exact Hh|]. rewrite u64_id by lia.
  eapply runs_bind; [eapply atm_R; try eassumption; lia|]. cbn beta.
  intros _ s1 (off & b & HO & Hroom & Hv). pose proof (room_ge d (zlen vx + k)).
  pose proof (owns_facts d _ _ _ _ _ _ HO) as (Q1 & Q2 & Q3 & Q4).
  destruct (shift_right_owns _ _ _ _ _ _ pos k HO) as (s2 & E2 & HO2); [lia|lia|lia|].
  eapply runs_step; [exact E2|].
  set (b1 := zupd (off + (pos + k)) (zsub (off + pos) (zlen vx - pos) b) b) in *.
  assert (Hz : zlen b1 = zlen b) by (apply zlen_zupd; [lia|zlen_simpl; lia]).
  assert (exists s3 w, copy_elems d x y k pos s2 = Ok tt s3 /\ vle (ztake k wy) w /\
            owns s s3 x off (zlen vx) (zupd (off + pos) w b1)) as (s3 & w & E3 & Hw & HO3).
  { destruct (decide (x = y)) as [<-|Hxy].
    - assert (wy = vx) as -> by congruence.
      destruct (copy_elems_self _ _ _ _ _ _ k pos HO2) as (s3 & E3 & HO3); [lia|lia|lia|exact Hal|].
      exists s3, (zsub off k b1). splits; try assumption.
      assert (zsub off k b1 = ztake k (zsub off (zlen vx) b)) as ->; [|apply vle_ztake, Hv].
      unfold b1. rewrite zsub_zupd_out by (zlen_simpl; lia). rewrite ztake_zsub.
      rewrite zsub_zsub by lia. f_equal; lia.
    - assert (Hh2 : held s2 y oy ry wy).
      { destruct HO2 as (HI2 & HF2 & _). eapply held_frame; [exact HI2|exact HF2|congruence|exact Hhy]. }
      apply (copy_elems_owned s s2 x y off (zlen vx) b1 oy ry wy k pos HO2 Hh2); [lia|lia|lia|exact Hxy]. }
  assert (Hzw : zlen w = k) by (rewrite <- (vle_len _ _ Hw); zlen_simpl; lia).
  eapply runs_step; [exact E3|].
  assert (Hz3 : zlen (zupd (off + pos) w b1) = zlen b) by (rewrite zlen_zupd; lia).
  destruct (add_len_owns _ _ _ _ _ _ k HO3) as (s4 & E4 & HO4); [lia|lia|].
  unfold runs. rewrite E4. eapply owns_R; [exact HR|exact HO4| |].
  - unfold b1. rewrite splice_eq by lia. apply vle_splice; assumption.
  - rewrite Hz3. intros. eapply room_room; [lia|eassumption|assumption].
Qed.

(** replace *)
Lemma own_store_R s a x r v pos e :
  R s a -> a !! x = Some (AVal r v) -> 0 <= pos < zlen v ->
  runs (get_own_copy d x ;;; store x pos [Some e]) s
    (fun _ s' => R s' (<[x:=AVal true (sp_over v pos [Some e])]> a)) (fails s a x (zlen v)).
Proof.
  intros HR Ha Hpos. eapply runs_bind; [eapply own_copy_R; eassumption|]. cbn beta.
  intros _ s1 (off & b & HO & Hroom & Hv). pose proof (room_ge d (zlen v)).
  pose proof (owns_facts d _ _ _ _ _ _ HO) as (Q1 & Q2 & Q3 & Q4).
  eapply end_store; [exact HO|lia|zlen_simpl; lia|]. intros s' HO'. eapply owns_R; [exact HR|exact HO'| |].
  - rewrite (over_eq b [Some e] off (zlen v)) by (rewrite ?zlen_cons, ?zlen_nil; lia). apply vle_over; [exact Hv|apply vle_refl].
  - rewrite zlen_zupd by (rewrite ?zlen_cons, ?zlen_nil; lia). intros. eapply room_room; [lia|eassumption|assumption].
Qed.
Lemma over_all_R s a x y rx vx ry wy pos k :
  R s a -> a !! x = Some (AVal rx vx) -> a !! y = Some (AVal ry wy) -> 0 <= pos <= zlen vx ->
  0 <= k <= zlen wy -> no_overlap x y pos k ->
  runs (about_to_modify d x (Z.max (zlen vx) (pos + k)) ;;; copy_elems d x y k pos ;;;
        set_len x (Z.max (zlen vx) (pos + k))) s
    (fun _ s' => R s' (<[x:=AVal true (sp_over vx pos (ztake k wy))]> a)) (fails s a x (Z.max (zlen vx) (pos + k))).
Proof.
  intros HR Hax Hay Hpos Hk Hal. destruct (R_held d _ _ _ _ _ HR Hax) as (o & Hh).
  destruct (R_held d _ _ _ _ _ HR Hay) as (oy & Hhy).
  pose proof (held_bounds d _ _ _ _ _ Hh) as Hb. pose proof (held_bounds d _ _ _ _ _ Hhy) as Hby.
  assert (Hma : max_alloc + max_alloc < npos /\ npos < W64) by (unfold max_alloc, npos, W64; lia).
  eapply runs_bind; [eapply atm_R; try eassumption; lia|]. cbn beta.
  intros _ s1 (off & b & HO & Hroom & Hv). pose proof (room_ge d (Z.max (zlen vx) (pos + k))).
  pose proof (owns_facts d _ _ _ _ _ _ HO) as (Q1 & Q2 & Q3 & Q4).
  assert (exists s3 w, copy_elems d x y k pos s1 = Ok tt s3 /\ vle (ztake k wy) w /\
            owns s s3 x off (zlen vx) (zupd (off + pos) w b)) as (s3 & w & E3 & Hw & HO3).
  { destruct (decide (x = y)) as [<-|Hxy].
    - assert (wy = vx) as -> by congruence.
      destruct (copy_elems_self _ _ _ _ _ _ k pos HO) as (s3 & E3 & HO3); [lia|lia|lia|exact Hal|].
      exists s3, (zsub off k b). splits; try assumption.
      assert (zsub off k b = ztake k (zsub off (zlen vx) b)) as ->; [|apply vle_ztake, Hv].
      rewrite ztake_zsub. rewrite zsub_zsub by lia. f_equal; lia.
    - assert (Hh2 : held s1 y oy ry wy).
      { destruct HO as (HI2 & HF2 & _). eapply held_frame; [exact HI2|exact HF2|congruence|exact Hhy]. }
      apply (copy_elems_owned s s1 x y off (zlen vx) b oy ry wy k pos HO Hh2); [lia|lia|lia|exact Hxy]. }
  assert (Hzw : zlen w = k) by (rewrite <- (vle_len _ _ Hw); zlen_simpl; lia).
  eapply runs_step; [exact E3|].
  assert (Hz3 : zlen (zupd (off + pos) w b) = zlen b) by (apply zlen_zupd; lia).
  eapply end_set_len; [exact HO3|lia|lia|]. intros s4 HO4.
  eapply owns_R; [exact HR|exact HO4| |].
  - rewrite (over_eq b w off (zlen vx)) by lia. apply vle_over; assumption.
  - rewrite Hz3. intros. eapply room_room; [lia|eassumption|assumption].
Qed.

(** C string arguments. *)
Lemma strlen_cstr z mem (w : list T) : forall i,
  cstr_of (fun c => d_eqb d c z) mem = Some w ->
  strlen_from d z mem i = Some (i + zlen w) /\ ztake (zlen w) mem = w /\ zlen w < zlen mem.
Proof.
  revert w; induction mem as [|c mem IH]; intros w i; cbn [cstr_of strlen_from]; [discriminate|].
  destruct (d_eqb d c z).
  - intros H; injection H as <-. rewrite zlen_nil, Z.add_0_r, zlen_cons. pose proof (zlen_nonneg mem).
    splits; lia.
  - destruct (cstr_of _ mem) as [w'|]; [|discriminate]. cbn. intros H; injection H as <-.
    destruct (IH w' (i + 1) eq_refl) as (H1 & H2 & H3). rewrite H1, !zlen_cons. pose proof (zlen_nonneg w').
    splits; [f_equal; lia| |lia]. unfold ztake in *. replace (Z.to_nat (1 + zlen w')) with (S (Z.to_nat (zlen w'))) by lia.
    cbn. rewrite H2. reflexivity.
Qed.
Lemma strlen_end z mem (w : list T) : cstr_of (fun c => d_eqb d c z) mem = Some w -> exists c, znth (zlen w) mem = Some c /\ d_eqb d c z = true.
Proof.
  revert w; induction mem as [|c mem IH]; intros w; cbn [cstr_of]; [discriminate|]. destruct (d_eqb d c z) eqn:Ec.
  - intros H; injection H as <-. exists c. split; [reflexivity|exact Ec].
  - destruct (cstr_of _ mem) as [w'|]; [|discriminate]. cbn. intros H; injection H as <-. destruct (IH w' eq_refl) as (c' & H1 & H2).
    exists c'. split; [|exact H2]. rewrite zlen_cons. pose proof (zlen_nonneg w'). change (c :: mem) with ([c] ++ mem). rewrite znth_app. change (zlen [c]) with 1.
    destruct (Z.ltb_spec (1 + zlen w') 1); [lia|]. replace (1 + zlen w' - 1) with (zlen w') by lia. exact H1.
Qed.
Lemma carg_eq z mem n (w : list T) s :
  d_nul d = Some z -> 0 <= n < W64 -> sp_carg (d_eqb d) (d_nul d) mem n = Some w ->
  (if n =? npos then cstrlen d z mem else ret n) s = Ok (zlen w) s /\
  forall s', mem_read mem (zlen w) s' = Ok w s'.
Proof.
  intros Hz Hn Hw. unfold sp_carg in Hw. rewrite Hz in Hw. destruct (n =? npos).
  - destruct (strlen_cstr z mem w 0 Hw) as (H1 & H2 & H3). unfold cstrlen. rewrite H1. split; [reflexivity|].
    intros s'. unfold mem_read. destruct (Z.leb_spec (zlen w) (zlen mem)); [|lia]. rewrite H2; reflexivity.
  - destruct (Z.leb_spec n (zlen mem)); [|discriminate]. injection Hw as <-.
    assert (Hl : zlen (ztake n mem) = n) by (zlen_simpl; lia). rewrite Hl. split; [reflexivity|].
    intros s'. unfold mem_read. destruct (Z.leb_spec n (zlen mem)); [|lia]. reflexivity.
Qed.
Lemma insert_cstr_R z s a x r v pos mem n (w : list T) :
  R s a -> a !! x = Some (AVal r v) -> d_nul d = Some z -> 0 <= n < W64 -> n <> 0 -> 0 <= pos <= zlen v ->
  sp_carg (d_eqb d) (d_nul d) mem n = Some w -> zlen v + zlen w < npos ->
  runs (insert_cstr d z x pos mem n) s
    (fun _ s' => R s' (<[x:=AVal true (sp_splice v pos (map Some w))]> a)) (fails s a x (zlen v + zlen w)).
Proof.
  intros HR Ha Hz Hn Hn0 Hpos Hw Hnp. destruct (R_held d _ _ _ _ _ HR Ha) as (o & Hh).
  pose proof (held_bounds d _ _ _ _ _ Hh) as Hb. pose proof (zlen_nonneg w).
  assert (Hma : max_alloc < npos /\ npos < W64) by (unfold max_alloc, npos, W64; lia).
  destruct (carg_eq z mem n w s Hz Hn Hw) as [Hlen Hread].
  unfold insert_cstr. destruct (Z.eqb_spec n 0); [contradiction|].
  eapply runs_step.
  { rewrite (check_pos_eq d _ _ _ _ _ _ HR Ha) by lia. destruct (Z.ltb_spec (zlen v) pos); [lia|reflexivity]. }
  eapply runs_step; [exact Hlen|].
  eapply runs_step; [eapply held_len; exact Hh|]. rewrite u64_id by lia.
  eapply runs_bind; [eapply atm_R; try eassumption; lia|]. cbn beta.
  intros _ s1 (off & b & HO & Hroom & Hv). pose proof (room_ge d (zlen v + zlen w)).
  pose proof (owns_facts d _ _ _ _ _ _ HO) as (Q1 & Q2 & Q3 & Q4).
  destruct (shift_right_owns _ _ _ _ _ _ pos (zlen w) HO) as (s2 & E2 & HO2); [lia|lia|lia|].
  eapply runs_step; [exact E2|].
  set (b1 := zupd (off + (pos + zlen w)) (zsub (off + pos) (zlen v - pos) b) b) in *.
  assert (Hz1 : zlen b1 = zlen b) by (apply zlen_zupd; [lia|zlen_simpl; lia]).
  destruct (add_len_owns _ _ _ _ _ _ (zlen w) HO2) as (s3 & E3 & HO3); [lia|lia|].
  eapply runs_step; [exact E3|]. eapply runs_step; [apply Hread|].
  eapply end_store; [exact HO3|lia|rewrite zlen_map; lia|]. intros s4 HO4.
  eapply owns_R; [exact HR|exact HO4| |].
  - unfold b1. rewrite splice_eq by (rewrite ?zlen_map; lia). apply vle_splice; [exact Hv|apply vle_refl].
  - rewrite zlen_zupd by (rewrite ?zlen_map; lia). rewrite Hz1. intros. eapply room_room; [lia|eassumption|assumption].
Qed.
Lemma replace_cstr_R z s a x r v pos mem n (w : list T) :
  R s a -> a !! x = Some (AVal r v) -> d_nul d = Some z -> 0 <= n < W64 -> n <> 0 -> 0 <= pos <= zlen v ->
  sp_carg (d_eqb d) (d_nul d) mem n = Some w -> pos + zlen w < npos ->
  runs (replace_cstr d z x pos mem n) s
    (fun _ s' => R s' (<[x:=AVal true (sp_over v pos (map Some w))]> a)) (fails s a x (Z.max (zlen v) (pos + zlen w))).
Proof.
  intros HR Ha Hz Hn Hn0 Hpos Hw Hnp. destruct (R_held d _ _ _ _ _ HR Ha) as (o & Hh).
  pose proof (held_bounds d _ _ _ _ _ Hh) as Hb. pose proof (zlen_nonneg w).
  assert (Hma : max_alloc < npos /\ npos < W64) by (unfold max_alloc, npos, W64; lia).
  destruct (carg_eq z mem n w s Hz Hn Hw) as [Hlen Hread].
  unfold replace_cstr. destruct (Z.eqb_spec n 0); [contradiction|].
  eapply runs_step.
  { rewrite (check_pos_eq d _ _ _ _ _ _ HR Ha) by lia. destruct (Z.ltb_spec (zlen v) pos); [lia|reflexivity]. }
  eapply runs_step; [exact Hlen|].
  eapply runs_step; [eapply held_len; exact Hh|]. rewrite u64_id by lia.
  assert ((if pos + zlen w <? zlen v then zlen v else pos + zlen w) = Z.max (zlen v) (pos + zlen w)) as -> by (destruct (Z.ltb_spec (pos + zlen w) (zlen v)); lia).
  eapply runs_bind; [eapply atm_R; try eassumption; lia|]. cbn beta.
  intros _ s1 (off & b & HO & Hroom & Hv). pose proof (room_ge d (Z.max (zlen v) (pos + zlen w))).
  pose proof (owns_facts d _ _ _ _ _ _ HO) as (Q1 & Q2 & Q3 & Q4).
  eapply step_set_len; [exact HO|lia|lia|]. intros s2 HO2. eapply runs_step; [apply Hread|].
  eapply end_store; [exact HO2|lia|rewrite zlen_map; lia|]. intros s4 HO4.
  eapply owns_R; [exact HR|exact HO4| |].
  - rewrite (over_eq b (map Some w) off (zlen v)) by (rewrite ?zlen_map; lia). apply vle_over; [exact Hv|apply vle_refl].
  - rewrite zlen_zupd by (rewrite ?zlen_map; lia). intros. eapply room_room; [lia|eassumption|assumption].
Qed.
End Mod.
