(** Assignment from values, reserve, shift/pop and c_str. *)
From Verif Require Import RcaSpec RcaModel RcaExec RcaInv RcaOwn RcaRel RcaRel2 RcaMod RcaCtor ZListMod.
From Coq Require Import ZifyBool.
Open Scope Z_scope.


Section Misc.
Context {T : Type} (d : desc T).
Notation St := (state T).
Implicit Types (s : St) (x y : var) (o : obj) (a : astate T) (v w b : list (option T)).
Notation R := (R d).
Notation held := (held d).
Notation owns := (owns d).

Definition emptied s a x (n : Z) (e : exn) s' : Prop :=
  e = BadAlloc /\ R s' (<[x:=AVal true []]> a) /\ starves d (fun z => z) n.
Lemma same_value_empty s a s1 x o s' :
  R s a -> Frame (eq x) s s1 -> o_len o = 0 -> same_value d s1 x o s' -> R s' (<[x:=AVal true []]> a).
Proof.
  intros HR HF Hl (HI & HF' & o' & Hx & Hg & Hu & Hlen & _ & Hvw & _).
  eapply R_put; [exact HR|exact HI|eapply frame_trans; [exact HF|exact HF']|exact Hx|].
  split; [exact Hg|]. split.
  - rewrite Hvw, view_zero by exact Hl. constructor.
  - intros _ _; left; lia.
Qed.
Lemma clear_then s a x :
  R s a -> live a x = true -> exists s1 o, clear x s = Ok tt s1 /\ Inv d s1 /\ Frame (eq x) s s1 /\
    st_env s1 !! x = Some o /\ good d o /\ o_len o = 0 /\ o_hash o = 0 /\ unshared (st_heap s1) o.
Proof.
  intros HR Hl. destruct (live_some _ _ Hl) as (av & Ha). destruct (R_lookup _ _ _ _ _ HR Ha) as (o & Hx & _).
  destruct (clear_inv d s x o (proj1 HR) Hx) as (s1 & o1 & E & HI & HF & Hx1 & H1 & H2 & H3 & H4).
  exists s1, o1. splits; try assumption. intros _. splits; try assumption. left; exact H3.
Qed.
Lemma assign_list_R s a x vs :
  R s a -> live a x = true -> size_ok (d_nul d) (zlen vs) = true ->
  runs (assign_list d x vs) s (fun _ s' => R s' (<[x:=AVal true (map Some vs)]> a)) (emptied s a x (room d (zlen vs))).
Proof.
  intros HR Hl Hok. pose proof (zlen_nonneg vs). unfold size_ok, in_u64, is_string in Hok.
  destruct (clear_then s a x HR Hl) as (s1 & o & E & HI & HF & Hx & Hg & Hlen & Hh & Hu).
  unfold assign_list. eapply runs_step; [exact E|].
  eapply runs_bind.
  { eapply runs_conseq; [apply (v_reserve_spec d s1 x (zlen vs) (fun z => z) o HI Hx Hg Hu); try lia| |].
    - destruct (d_nul d); [|congruence]. intros _. unfold npos, W64 in *. lia.
    - intros ? s' H'; exact H'.
    - intros e s' (-> & Hsv & _ & Hst). split; [reflexivity|]. split; [|exact Hst].
      eapply same_value_empty; eassumption. }
  cbn beta. intros _ s2 Hres.
  destruct (reserved_owns d s s1 x o s2 _ HF Hh Hres) as (off & b & HO & Hfit & _ & _). rewrite Hlen in HO.
  pose proof (owns_facts d _ _ _ _ _ _ HO) as (Q1 & Q2 & Q3 & Q4). pose proof (room_ge d (zlen vs)).
  replace (set_len (T:=T) x (zlen vs)) with (set_len (T:=T) x (zlen (map (@Some T) vs))) by (rewrite zlen_map; reflexivity).
  eapply (fill_from d s a s2 x off b (map Some vs) true); [exact HR|exact HO|rewrite zlen_map; lia| |].
  - rewrite zlen_map. intros Hn _. eapply room_room; [lia|exact Hfit|exact Hn].
  - intros s' HR' _. exact HR'.
Qed.
Lemma assign_std_R z s a x vs :
  wf_desc d -> R s a -> live a x = true -> d_nul d = Some z -> zlen vs < npos ->
  runs (assign_std d z x vs) s (fun _ s' => R s' (<[x:=AVal true (map Some vs)]> a)) (emptied s a x (zlen vs + 1)).
Proof.
  intros Hwf HR Hl Hz Hnp. pose proof (zlen_nonneg vs). destruct (Hwf z Hz) as [_ Hzeq].
  destruct (clear_then s a x HR Hl) as (s1 & o & E & HI & HF & Hx & Hg & Hlen & Hh & Hu).
  unfold assign_std. eapply runs_step; [exact E|]. rewrite u64_id by (unfold npos, W64 in *; lia).
  eapply runs_bind.
  { eapply runs_conseq; [apply (base_reserve_spec d s1 x (zlen vs + 1) (fun z => z) o HI Hx Hg Hu); lia| |].
    - intros ? s' H'; exact H'.
    - intros e s' (-> & Hsv & _ & Hst). split; [reflexivity|]. split; [|exact Hst].
      eapply same_value_empty; eassumption. }
  cbn beta. intros _ s2 Hres.
  destruct (reserved_owns d s s1 x o s2 _ HF Hh Hres) as (off & b & HO & Hfit & _ & _). rewrite Hlen in HO.
  pose proof (owns_facts d _ _ _ _ _ _ HO) as (Q1 & Q2 & Q3 & Q4).
  eapply (step_set_len d); [exact HO|lia|lia|]. intros s3 HO3.
  assert (Hw : zlen (map Some (vs ++ [z])) = zlen vs + 1) by (rewrite zlen_map, zlen_app; reflexivity).
  eapply (step_store d); [exact HO3|lia|lia|]. rewrite Z.add_0_r. intros s4 HO4.
  unfold runs. erewrite (ends_ok d z _ _ _ _ _ _ _ z HO4); [|lia|rewrite zlen_zupd; lia| |apply Hzeq; reflexivity].
  2:{ rewrite znth_zupd by lia. rewrite Hw. destruct (Z.leb_spec off (off + zlen vs)); [|lia]. destruct (Z.ltb_spec (off + zlen vs) (off + (zlen vs + 1))); [|lia].
      cbn [andb]. replace (off + zlen vs - off) with (zlen vs) by lia. rewrite znth_map, znth_app. destruct (Z.ltb_spec (zlen vs) (zlen vs)); [lia|].
      rewrite Z.sub_diag. reflexivity. }
  eapply owns_R; [exact HR|exact HO4| |intros; right; rewrite zlen_zupd; lia].
  replace (zsub off (zlen vs) (zupd off (map Some (vs ++ [z])) b))
    with (zsub 0 (zlen vs) (zsub off (zlen vs + 1) (zupd off (map Some (vs ++ [z])) b))) by (rewrite zsub_zsub by lia; f_equal; lia).
  rewrite zsub_zupd_same by lia. rewrite map_app, zsub_app_l by (rewrite ?zlen_map; lia).
  rewrite <- (zlen_map (@Some T) vs), zsub_all. apply vle_refl.
Qed.

Lemma reserve_R s a x r v n :
  R s a -> a !! x = Some (AVal r v) -> size_ok (d_nul d) n = true -> zlen v <= n ->
  runs (reserve_if_own d x n) s (fun _ s' => R s' a)
    (fun e s' => e = BadAlloc /\ R s' a /\ starves d (fun z => z) (room d n)).
Proof.
  intros HR Ha Hok Hn. destruct (R_held d _ _ _ _ _ HR Ha) as (o & Hh).
  pose proof Hh as [Hx Hg Hv Hrm Hlen Hoff Hfit Hcap]. pose proof (zlen_nonneg v).
  unfold size_ok, in_u64, is_string in Hok.
  destruct (is_shared_eq d s x o (proj1 HR) Hx) as (sh & E & Hsh). unfold reserve_if_own.
  eapply runs_step; [exact E|]. destruct sh; [apply runs_ret; exact HR|].
  eapply runs_conseq; [apply (v_reserve_spec d s x n (fun z => z) o (proj1 HR) Hx Hg Hsh); try lia| |].
  - destruct (d_nul d); [|congruence]. intros _. unfold npos, W64 in *. lia.
  - intros ? s' (HI & HF & l & off & b & g & Hx' & Hl & Ho & Hf & Hvw & _).
    eapply R_same; [exact HR|exact Ha|exact HI|exact HF|exact Hx'|]. split; [intros Hn'; discriminate|].
    unfold view, room_ok, cap, buf_of; cbn [o_ref o_off o_len]. rewrite Hl. cbn. rewrite Hvw. split; [exact Hv|].
    intros Hnul _. unfold room in Hf. destruct (d_nul d); [|congruence]. destruct (Z.ltb_spec 0 n); lia.
  - intros e s' (-> & (HI & HF & o' & Hx' & Hg' & Hu & Hl' & _ & Hvw & Ho' & Hc') & _ & Hst).
    split; [reflexivity|]. split; [|exact Hst].
    eapply R_same; [exact HR|exact Ha|exact HI|exact HF|exact Hx'|]. split; [exact Hg'|]. rewrite Hvw. split; [exact Hv|].
    intros Hnul Hr. destruct (Hrm Hnul Hr); [left; lia|right; lia].
Qed.

(** Taking an element out at [pos] and shrinking the view to exclude it. *)
Lemma move_out_R s a x r v pos e off' len' :
  R s a -> a !! x = Some (AVal r v) -> znth pos v = Some (Some e) ->
  0 <= off' -> 0 <= len' -> off' + len' <= zlen v -> off' + len' <= pos \/ pos < off' ->
  exists o s1, st_env s !! x = Some o /\ o_len o = zlen v /\ 0 <= o_off o /\ o_off o + zlen v <= max_alloc /\
    move_out d x pos s = Ok e s1 /\ st_env s1 !! x = Some o /\
    R (with_env s1 (<[x:=Obj (o_ref o) (o_off o + off') len' 0]> (st_env s1))) (<[x:=AVal r (zsub off' len' v)]> a).
Proof.
  intros HR Ha Hnth Ho1 Hl1 Hfit1 Hout. destruct (R_held d _ _ _ _ _ HR Ha) as (o & Hh).
  pose proof Hh as [Hx Hg Hv Hrm Hlen Hoff Hfit Hcap]. pose proof (znth_inv _ _ _ Hnth) as Hpos.
  pose proof (held_load1 d s x o r v pos e (proj1 HR) Hh Hnth) as Hld.
  destruct (is_shared_eq d s x o (proj1 HR) Hx) as (sh & E & Hsh).
  pose proof (held_bounds d _ _ _ _ _ Hh) as Hb.
  exists o. unfold move_out, bind. rewrite Hld, E.
  destruct (d_class d && negb sh) eqn:Hc.
  2:{ exists s. splits; try assumption; try lia. eapply R_sub; eassumption. }
  apply andb_true_iff in Hc as [_ Hns]. destruct sh; [discriminate|].
  destruct (o_ref o) as [l|] eqn:Hr.
  2:{ destruct (Hg Hr) as (_ & H0 & _). lia. }
  destruct (inv_ref_live d s x o l (proj1 HR) Hx Hr) as (c & Hl).
  assert (Hc1 : c_refs c = 1) by (eapply Hsh; eassumption).
  assert (Hcapc : cap (st_heap s) o = zlen (c_buf c)) by (unfold cap, buf_of; rewrite Hr, Hl; reflexivity).
  unfold store. change (zlen [@None T] <=? 0) with false. cbv iota. unfold bind. rewrite (get_obj_ok _ _ _ Hx), Hr.
  rewrite (get_cell_ok _ _ _ Hl). change (zlen [@None T]) with 1. rewrite u64_id by (unfold max_alloc, W64 in *; lia).
  destruct (Z.leb_spec (o_off o + pos + 1) (zlen (c_buf c))); [|lia]. unfold set_cell, ret.
  eexists. splits; try assumption; try lia. unfold with_env, with_heap; cbn [st_heap st_env st_next st_tick st_freed].
  set (b' := zupd (o_off o + pos) [None] (c_buf c)).
  assert (Hb' : zlen b' = zlen (c_buf c)) by (apply zlen_zupd; [lia|rewrite zlen_cons, zlen_nil; lia]).
  set (o' := Obj (Some l) (o_off o + off') len' 0).
  assert (Hvw : zsub (o_off o + off') len' b' = zsub (o_off o + off') len' (c_buf c)).
  { unfold b'. apply zsub_zupd_out; rewrite ?zlen_cons, ?zlen_nil; lia. }
  eapply (R_put d s a _ x o'); [exact HR| | | |].
  - unfold Inv; cbn. eapply inv_own_cell; [apply HR|exact Hx|exact Hr|exact Hl|exact Hc1|reflexivity|exact Hc1|cbn; lia|].
    intros l2 Hl2; cbn in Hl2; injection Hl2 as <-. rewrite lookup_insert. eexists; split; [reflexivity|]. cbn [o_off o_len o_hash o' c_buf].
    splits; try lia. left; reflexivity.
  - unfold Frame; cbn. eapply frame_trans; [|apply frame_env; reflexivity].
    eapply frame_own; [reflexivity|apply HR|exact Hx|exact Hr|exact Hl|exact Hc1].
  - cbn. apply lookup_insert.
  - split; [intros Hn; discriminate|]. split.
    + unfold view; cbn [o_ref o_off o_len o' st_heap]. rewrite lookup_insert. cbn [c_buf]. rewrite Hvw.
      replace (zsub (o_off o + off') len' (c_buf c)) with (view (st_heap s) (Obj (o_ref o) (o_off o + off') len' 0)).
      2:{ unfold view; cbn [o_ref o_off o_len]. rewrite Hr, Hl. reflexivity. }
      eapply view_sub; [apply HR|exact Hh|reflexivity|reflexivity|reflexivity|lia|lia].
    + unfold room_ok, cap, buf_of; cbn [o_ref o_off o_len o' st_heap]. rewrite lookup_insert. cbn.
      intros Hn' Hr'. destruct (Hrm Hn' Hr'); [left; lia|right; lia].
Qed.
Lemma shift_R s a x r e v :
  R s a -> a !! x = Some (AVal r (Some e :: v)) ->
  exists s', shift d x s = Ok e s' /\ R s' (<[x:=AVal r v]> a).
Proof.
  intros HR Ha. pose proof (zlen_nonneg v). assert (Hl : zlen (Some e :: v) = 1 + zlen v) by apply zlen_cons.
  destruct (move_out_R s a x r _ 0 e 1 (zlen v) HR Ha) as (o & s1 & Hx & H1 & H2 & H3 & E & Hx1 & HR'); try lia; [reflexivity|].
  destruct (R_held d _ _ _ _ _ HR Ha) as (o0 & Hh0).
  unfold shift, bind. rewrite (not_empty_ok d _ _ _ _ _ Hh0) by lia. rewrite E, (get_obj_ok _ _ _ Hx1). unfold set_obj, ret. eexists; split; [reflexivity|].
  rewrite !u64_id by (unfold max_alloc, W64 in *; lia). replace (o_len o - 1) with (zlen v) by lia.
  replace (zsub 1 (zlen v) (Some e :: v)) with v in HR'; [exact HR'|].
  symmetry. unfold zsub, zdrop. cbn. apply ztake_all. lia.
Qed.
Lemma pop_R s a x r v e :
  R s a -> a !! x = Some (AVal r v) -> znth (zlen v - 1) v = Some (Some e) ->
  exists s', pop d x s = Ok e s' /\ R s' (<[x:=AVal r (ztake (zlen v - 1) v)]> a).
Proof.
  intros HR Ha Hn. pose proof (znth_inv _ _ _ Hn) as Hb.
  destruct (R_held d _ _ _ _ _ HR Ha) as (o0 & Hh).
  destruct (move_out_R s a x r v (zlen v - 1) e 0 (zlen v - 1) HR Ha Hn) as (o & s1 & Hx & H1 & H2 & H3 & E & Hx1 & HR'); try lia.
  unfold pop, bind. rewrite (not_empty_ok d _ _ _ _ _ Hh) by lia. rewrite (held_len d _ _ _ _ _ Hh). rewrite (u64_id (zlen v - 1)) by (unfold max_alloc, W64 in *; lia).
  rewrite E. unfold pop_back, sub_length, bind.
  rewrite (check_ok d (not_empty x) s1)
    by (unfold not_empty, length_of, bind; rewrite (get_obj_ok _ _ _ Hx1); unfold ret; destruct (Z.eqb_spec (o_len o) 0); [lia|reflexivity]).
  rewrite (get_obj_ok _ _ _ Hx1). unfold set_obj, ret. eexists; split; [reflexivity|].
  rewrite H1, u64_id by (unfold max_alloc, W64 in *; lia). rewrite Z.add_0_r in HR'. rewrite <- ztake_zsub in HR'. exact HR'.
Qed.

(** Writing a determinate value over an indeterminate slot of any buffer is invisible. *)
Lemma djb_vle h v v' k : vle v v' -> djb d h v = Some k -> djb d h v' = Some k.
Proof.
  intros H. revert h; induction H as [|a1 a2 v v' Ha H IH]; intros h; [trivial|].
  destruct a1 as [c|]; cbn; [|discriminate]. destruct Ha as [Ha|<-]; [discriminate|]. apply IH.
Qed.
Lemma hash_ok_vle v v' k : vle v v' -> hash_ok d v k -> hash_ok d v' k.
Proof. intros H [->|(r & H1 & H2)]; [left; reflexivity|right]. exists r. split; [eapply djb_vle; eassumption|exact H2]. Qed.
Lemma fill_hole_R s a l c b' :
  R s a -> st_heap s !! l = Some c -> vle (c_buf c) b' ->
  R (with_heap s (<[l:=Cell b' (c_gen c) (c_refs c)]> (st_heap s))) a.
Proof.
  intros HR Hl Hv. pose proof (vle_len _ _ Hv) as Hlen.
  assert (HI : Inv d (with_heap s (<[l:=Cell b' (c_gen c) (c_refs c)]> (st_heap s)))).
  { destruct HR as [[Hc Ho] _]. split; cbn.
    - intros l2 c2 Hl2. destruct (decide (l = l2)) as [<-|Hn].
      + rewrite lookup_insert in Hl2; injection Hl2 as <-. destruct (Hc l c Hl) as [E1 E2 E3 E4].
        constructor; cbn; try assumption. lia.
      + rewrite lookup_insert_ne in Hl2 by exact Hn. apply Hc, Hl2.
    - intros x o Hx l2 Hr. destruct (Ho x o Hx l2 Hr) as (c2 & Hc2 & E1 & E2 & E3 & E4).
      destruct (decide (l = l2)) as [<-|Hn].
      + assert (c2 = c) as -> by congruence. rewrite lookup_insert. eexists; split; [reflexivity|]; cbn.
        splits; try lia. eapply hash_ok_vle; [|exact E4]. apply vle_zsub, Hv.
      + rewrite lookup_insert_ne by exact Hn. eauto 10. }
  eapply (R_transfer d (fun _ => False)); [exact HR|exact HI| | | |].
  - intros y _. cbn. split; [reflexivity|]. intros o Ho. unfold buf_of.
    destruct (o_ref o) as [l2|]; [|exact I]. destruct (decide (l = l2)) as [<-|Hn].
    + rewrite lookup_insert, Hl. cbn. exact Hv.
    + rewrite lookup_insert_ne by exact Hn. apply ble_refl.
  - reflexivity.
  - auto.
  - intros x [].
Qed.
Lemma vle_zupd_hole b i (e : option T) : znth i b = Some None -> vle b (zupd i [e] b).
Proof.
  intros Hi. pose proof (znth_inv _ _ _ Hi) as Hb. rewrite <- (ztake_zdrop i b) at 1. unfold zupd. apply vle_app; [apply vle_refl|].
  assert (zdrop i b = [None] ++ zdrop (i + zlen [e]) b) as ->.
  { change (zlen [e]) with 1. apply zlist_ext_opt; intros j. znth_simpl. zprune; try reflexivity.
    - subst j. rewrite Z.add_0_l. exact Hi.
    - f_equal; lia. }
  apply vle_app; [|apply vle_refl]. constructor; [left; reflexivity|constructor].
Qed.

(** c_str: the value followed by NUL, or std::terminate when there is no memory for the terminator. *)
Lemma c_str_R z guess s a x v :
  wf_desc d -> R s a -> a !! x = Some (AVal true v) -> d_nul d = Some z ->
  match c_str d z guess x s with
  | Ok m s' => R s' a /\ vle (v ++ [Some z]) m
  | Term => starves d (d_grow d) (zlen v + 2)
  | _ => False
  end.
Proof.
  intros Hwf HR Ha Hz. destruct (Hwf z Hz) as [_ Hzeq].
  destruct (R_held d _ _ _ _ _ HR Ha) as (o & Hh). pose proof Hh as [Hx Hg Hv Hrm Hlen Hoff Hfit Hcap].
  pose proof (held_bounds d _ _ _ _ _ Hh) as Hb. pose proof (zlen_nonneg v).
  unfold c_str, noexcept, bind at 1. rewrite (held_len d _ _ _ _ _ Hh).
  destruct (Z.eqb_spec (zlen v) 0) as [E0|E0].
  { apply zlen_0_nil in E0 as ->. cbn. split; [exact HR|apply vle_refl]. }
  destruct (o_ref o) as [l|] eqn:Hr. 2:{ destruct (Hg Hr) as (_ & H0 & _). lia. }
  destruct (inv_ref_live d s x o l (proj1 HR) Hx Hr) as (c & Hl).
  assert (Hcapc : cap (st_heap s) o = zlen (c_buf c)) by (unfold cap, buf_of; rewrite Hr, Hl; reflexivity).
  assert (Hroom : o_off o + zlen v < zlen (c_buf c)) by (destruct (Hrm ltac:(congruence) eq_refl); lia).
  set (i := o_off o + zlen v) in *.
  assert (Hi : u64 i = i) by (apply u64_id; unfold max_alloc, W64 in *; lia).
  assert (Hload : forall (s1 : St) c1 k, st_env s1 !! x = Some o -> st_heap s1 !! l = Some c1 -> 0 <= k -> o_off o + k + 1 <= zlen (c_buf c1) ->
            zlen (c_buf c1) <= max_alloc -> load x 0 (k + 1) s1 = Ok (zsub (o_off o) (k + 1) (c_buf c1)) s1).
  { intros s1 c1 k Hx1 Hl1 Hk Hf1 Hm1. unfold load. destruct (Z.leb_spec (k + 1) 0); [lia|]. unfold bind.
    rewrite (get_obj_ok _ _ _ Hx1), Hr, (get_cell_ok _ _ _ Hl1). rewrite Z.add_0_r, u64_id by (unfold max_alloc, W64 in *; lia).
    destruct (Z.leb_spec (o_off o + (k + 1)) (zlen (c_buf c1))); [reflexivity|lia]. }
  assert (Hview : vle v (zsub (o_off o) (zlen v) (c_buf c))).
  { unfold view in Hv. rewrite Hr, Hl, Hlen in Hv. exact Hv. }
  assert (Hsplit : forall q : list (option T), zlen q = zlen (c_buf c) -> zsub (o_off o) (zlen v + 1) q = zsub (o_off o) (zlen v) q ++ zsub i 1 q).
  { intros q Hq. apply zsub_split; lia. }
  destruct (znth_some i (c_buf c)) as (e & He); [lia|].
  assert (Hsub1 : forall (q : list (option T)) f, znth i q = Some f -> zsub i 1 q = [f]).
  { intros q f. apply zsub_one. }
  assert (Hcm : zlen (c_buf c) <= max_alloc) by (destruct HR as [[Hc _] _]; destruct (Hc l c Hl); assumption).
  assert (Hl1 : load x (zlen v) 1 s = Ok [e] s).
  { unfold load. cbn [Z.leb]. change (1 <=? 0) with false. cbv iota. unfold bind.
    rewrite (get_obj_ok _ _ _ Hx), Hr, (get_cell_ok _ _ _ Hl). fold i. rewrite Hi.
    destruct (Z.leb_spec (i + 1) (zlen (c_buf c))); [|lia]. rewrite (Hsub1 _ _ He). reflexivity. }
  unfold bind at 1. rewrite (check_ok d _ s) by (unfold bind; rewrite (get_obj_ok _ _ _ Hx), Hr; reflexivity).
  unfold bind at 1. rewrite (check_ok d _ s) by (unfold ret; destruct (Z.ltb_spec 0 (zlen v)); [reflexivity|lia]).
  unfold bind at 1. rewrite Hl1.
  (* the branch that makes an own copy *)
  assert (Hown : match ((about_to_modify d x (u64 (zlen v + 1)) ;;; store x (zlen v) [Some z]) ;;; load x 0 (zlen v + 1)) s with
                 | Ok m s' => R s' a /\ vle (v ++ [Some z]) m
                 | Exn e s' => starves d (d_grow d) (zlen v + 2)
                 | _ => False end).
  { assert (Hrun : runs ((about_to_modify d x (u64 (zlen v + 1)) ;;; store x (zlen v) [Some z]) ;;; load x 0 (zlen v + 1)) s
              (fun m s' => R s' a /\ vle (v ++ [Some z]) m) (fun _ _ => starves d (d_grow d) (zlen v + 2))).
    2:{ unfold runs in Hrun. destruct (((about_to_modify d x (u64 (zlen v + 1)) ;;; store x (zlen v) [Some z]) ;;; load x 0 (zlen v + 1)) s); assumption. }
    rewrite u64_id by (unfold max_alloc, W64 in *; lia).
    eapply runs_bind with (P' := fun _ s' => exists off b, owns s s' x off (zlen v) b /\ off + zlen v + 1 <= zlen b /\
         vle v (zsub off (zlen v) b) /\ znth (off + zlen v) b = Some (Some z)).
    - eapply runs_bind.
      { eapply runs_conseq; [eapply (atm_R d s a x true v (zlen v + 1) HR Ha); unfold max_alloc, W64, npos in *; lia|intros ? ? H'; exact H'|].
        intros e' s' (_ & _ & _ & Hst). unfold room in Hst. rewrite Hz in Hst. destruct (Z.ltb_spec 0 (zlen v + 1)); [|lia].
        replace (zlen v + 2) with (zlen v + 1 + 1) by lia. exact Hst. }
      cbn beta. intros _ s1 (off & b & HO & Hrb & Hvb). unfold room in Hrb. rewrite Hz in Hrb. destruct (Z.ltb_spec 0 (zlen v + 1)); [|lia].
      pose proof (owns_facts d _ _ _ _ _ _ HO) as (Q1 & Q2 & Q3 & Q4).
      assert (Hz1 : zlen [Some z] = 1) by reflexivity.
      eapply (end_store d); [exact HO|lia|lia|]. intros s2 HO2. exists off, (zupd (off + zlen v) [Some z] b).
      rewrite zlen_zupd by lia. splits; [exact HO2|lia| |].
      + rewrite zsub_zupd_out by lia. exact Hvb.
      + rewrite znth_zupd by lia. rewrite Hz1. destruct (Z.leb_spec (off + zlen v) (off + zlen v)); [|lia].
        destruct (Z.ltb_spec (off + zlen v) (off + zlen v + 1)); [|lia]. cbn [andb]. rewrite Z.sub_diag. reflexivity.
    - cbn beta. intros _ s2 (off & b & HO & Hf & Hvb & Hnz). pose proof (owns_facts d _ _ _ _ _ _ HO) as (Q1 & Q2 & Q3 & Q4).
      unfold runs. rewrite (owns_load d _ _ _ _ _ _ 0 (zlen v + 1) HO) by lia. rewrite Z.add_0_r. split.
      + rewrite <- (insert_id a x _ Ha). eapply owns_R; [exact HR|exact HO|exact Hvb|intros; right; lia].
      + rewrite zsub_split by lia. apply vle_app; [exact Hvb|].
        rewrite (zsub_one _ _ _ Hnz). apply vle_refl. }
  assert (Hdone : forall s1 c1, R s1 a -> st_env s1 !! x = Some o -> st_heap s1 !! l = Some c1 -> zlen (c_buf c1) = zlen (c_buf c) ->
            vle v (zsub (o_off o) (zlen v) (c_buf c1)) -> znth i (c_buf c1) = Some (Some z) ->
            match load x 0 (zlen v + 1) s1 with Ok m s' => R s' a /\ vle (v ++ [Some z]) m | _ => False end).
  { intros s1 c1 HR1 Hx1 Hlc1 Hlen1 Hv1 Hi1. rewrite (Hload s1 c1 (zlen v) Hx1 Hlc1) by lia. split; [exact HR1|].
    rewrite Hsplit by exact Hlen1. apply vle_app; [exact Hv1|]. rewrite (Hsub1 _ _ Hi1). apply vle_refl. }
  destruct e as [e|].
  - destruct (d_eqb d e z) eqn:Hez.
    + assert (check d (ends_nul d z x (zlen v)) s = Ok tt s) as Hck by (apply check_ok; unfold ends_nul, load1, bind; rewrite Hl1; unfold ret; rewrite Hez; reflexivity).
      unfold bind at 1. rewrite Hck. clear Hck.
      apply Hzeq in Hez as ->. unfold bind, ret. specialize (Hdone s c HR Hx Hl eq_refl Hview He).
      destruct (load x 0 (zlen v + 1) s); try contradiction; exact Hdone.
    + destruct (bind _ _ s); try contradiction; exact Hown.
  - destruct guess.
    2:{ destruct (bind _ _ s); try contradiction; exact Hown. }
    unfold bind at 1. unfold store. change (zlen [Some z] <=? 0) with false. cbv iota. unfold bind.
    rewrite (get_obj_ok _ _ _ Hx), Hr, (get_cell_ok _ _ _ Hl). fold i. rewrite Hi. change (zlen [Some z]) with 1.
    destruct (Z.leb_spec (i + 1) (zlen (c_buf c))); [|lia]. unfold set_cell.
    pose proof (vle_zupd_hole (c_buf c) i (Some z) He) as Hhole.
    pose proof (fill_hole_R s a l c _ HR Hl Hhole) as HR'.
    assert (Hz1 : zlen [Some z] = 1) by reflexivity.
    specialize (Hdone _ (Cell (zupd i [Some z] (c_buf c)) (c_gen c) (c_refs c)) HR').
    cbn [c_buf st_env st_heap with_heap] in Hdone.
    assert (Hfin : match load x 0 (zlen v + 1) (with_heap s (<[l:=Cell (zupd i [Some z] (c_buf c)) (c_gen c) (c_refs c)]> (st_heap s))) with
             Ok m s' => R s' a /\ vle (v ++ [Some z]) m | _ => False end).
    { apply Hdone; [exact Hx|apply lookup_insert|apply zlen_zupd; lia| |].
      - rewrite zsub_zupd_out by lia. exact Hview.
      - rewrite znth_zupd by lia. rewrite Hz1. destruct (Z.leb_spec i i); [|lia].
        destruct (Z.ltb_spec i (i + 1)); [|lia]. cbn [andb]. rewrite Z.sub_diag. reflexivity. }
    destruct (load x 0 (zlen v + 1) _); try contradiction; exact Hfin.
Qed.
End Misc.
