(** The relation between model states and abstract states, and the operations that do not allocate. *)
From Verif Require Import RcaSpec RcaModel RcaInv RcaOwn.
From Coq Require Import ZifyBool.
Open Scope Z_scope.

Section Rel.
Context {T : Type} (d : desc T).
Notation St := (state T).
Notation heap := (gmap loc (cell T)).
Implicit Types (s : St) (x y : var) (l : loc) (o : obj) (a : astate T) (h : heap).

(** A String whose value may be followed by a NUL has one element to spare. *)
Definition room_ok h o (r : bool) : Prop :=
  d_nul d <> None -> r = true -> o_len o = 0 \/ o_off o + o_len o < cap h o.
Definition rep h o (av : aval T) : Prop :=
  match av with
  | AVal r v => good d o /\ vle v (view h o) /\ room_ok h o r
  | AMoved => o_ref o = None
  end.
Definition var_rel h (av : option (aval T)) (ob : option obj) : Prop :=
  match av, ob with
  | Some av, Some o => rep h o av
  | None, None => True
  | _, _ => False
  end.
Definition R s a : Prop := Inv d s /\ forall x, var_rel (st_heap s) (a !! x) (st_env s !! x).

Lemma R_init : R st_init ∅.
Proof. split; [apply Inv_init|]. intros x; cbn. rewrite !lookup_empty; exact I. Qed.

Lemma R_lookup s a x av : R s a -> a !! x = Some av -> exists o, st_env s !! x = Some o /\ rep (st_heap s) o av.
Proof.
  intros [_ H] Ha. specialize (H x). rewrite Ha in H. destruct (st_env s !! x) as [o|]; [|contradiction].
  exists o; auto.
Qed.
Lemma R_fresh s a x : R s a -> a !! x = None -> st_env s !! x = None.
Proof. intros [_ H] Ha. specialize (H x). rewrite Ha in H. destruct (st_env s !! x); [contradiction|reflexivity]. Qed.

Lemma view_len s x o : Inv d s -> st_env s !! x = Some o -> good d o -> zlen (view (st_heap s) o) = o_len o.
Proof.
  intros [_ Ho] Hx Hg. unfold view. destruct (o_ref o) as [l|] eqn:Hr.
  - destruct (Ho x o Hx l Hr) as (c & Hc & H1 & H2 & H3 & _). rewrite Hc. zlen_simpl. lia.
  - destruct (Hg Hr) as (_ & H & _). rewrite H; reflexivity.
Qed.

(** Everything known about a variable holding a value. *)
Record held s x o (r : bool) (v : list (option T)) : Prop := Held {
  hd_env : st_env s !! x = Some o;
  hd_good : good d o;
  hd_vle : vle v (view (st_heap s) o);
  hd_room : room_ok (st_heap s) o r;
  hd_len : o_len o = zlen v;
  hd_off : 0 <= o_off o;
  hd_fit : o_off o + o_len o <= cap (st_heap s) o;
  hd_cap : cap (st_heap s) o <= max_alloc
}.
Lemma R_held s a x r v : R s a -> a !! x = Some (AVal r v) -> exists o, held s x o r v.
Proof.
  intros HR Ha. destruct (R_lookup s a x _ HR Ha) as (o & Hx & Hg & Hv & Hrm). exists o.
  destruct HR as [HI _]. pose proof (view_len s x o HI Hx Hg) as Hl.
  assert (0 <= o_off o /\ o_off o + o_len o <= cap (st_heap s) o /\ cap (st_heap s) o <= max_alloc) as (H1 & H2 & H3).
  { destruct HI as [Hc Ho]. unfold cap, buf_of. destruct (o_ref o) as [l|] eqn:Hr.
    - destruct (Ho x o Hx l Hr) as (c & Hcl & ? & ? & ? & _). rewrite Hcl. cbn.
      destruct (Hc l c Hcl) as [_ _ ? _]. auto.
    - destruct (Hg Hr) as (-> & -> & _). unfold max_alloc; lia. }
  constructor; try assumption. rewrite <- Hl; symmetry; apply vle_len, Hv.
Qed.
Lemma holds_eq a x r v : holds a x = Some (r, v) -> a !! x = Some (AVal r v).
Proof. unfold holds. destruct (a !! x) as [[r' v'|]|]; congruence. Qed.

Lemma held_len s x o r v : held s x o r v -> length_of x s = Ok (zlen v) s.
Proof. intros H. unfold length_of, bind. rewrite (get_obj_ok _ _ _ (hd_env _ _ _ _ _ H)). cbn. rewrite (hd_len _ _ _ _ _ H); reflexivity. Qed.

(** Reads see the value. *)
Lemma held_load s x o r v pos n :
  Inv d s -> held s x o r v -> 0 <= pos -> pos + n <= zlen v ->
  exists es, load x pos n s = Ok es s /\ vle (zsub pos n v) es.
Proof.
  intros [Hc Ho] [Hx Hg Hv Hrm Hlen Hoff Hfit Hcap] Hp Hn. unfold load.
  destruct (Z.leb_spec n 0). { eexists; split; [reflexivity|]. rewrite zsub_0 by lia; constructor. }
  unfold bind. rewrite (get_obj_ok _ _ _ Hx). destruct (o_ref o) as [l|] eqn:Hr.
  2:{ destruct (Hg Hr) as (_ & H0 & _). lia. }
  destruct (Ho x o Hx l Hr) as (c & Hcl & H1 & H2 & H3 & _). rewrite (get_cell_ok _ _ _ Hcl).
  unfold cap, buf_of in *. rewrite Hr, Hcl in *; cbn in *.
  rewrite u64_id by (unfold W64, max_alloc in *; lia).
  destruct (Z.leb_spec (o_off o + pos + n) (zlen (c_buf c))); [|lia].
  eexists; split; [reflexivity|]. unfold view in Hv; rewrite Hr, Hcl in Hv.
  rewrite <- zsub_zsub with (n := o_len o) by lia. apply vle_zsub, Hv.
Qed.
Lemma held_load1 s x o r v pos e :
  Inv d s -> held s x o r v -> znth pos v = Some (Some e) -> load1 x pos s = Ok e s.
Proof.
  intros HI Hh Hn. pose proof (znth_inv _ _ _ Hn) as Hb.
  destruct (held_load s x o r v pos 1 HI Hh) as (es & He & Hv); [lia|lia|].
  unfold load1, bind. rewrite He.
  assert (zsub pos 1 v = [Some e]) as E.
  { apply zlist_ext.
    - zlen_simpl. lia.
    - zlen_simpl. intros i Hi. assert (i = 0) as -> by lia. rewrite znth_zsub.
      replace (0 + Z.max 0 pos) with pos by lia. exact Hn. }
  rewrite E in Hv. apply (vle_somes [e]) in Hv. subst; reflexivity.
Qed.

(** Transfer of the relation across a framed step. *)
Lemma R_transfer X s a s' a' :
  R s a -> Inv d s' -> Frame X s s' -> (forall y, ~ X y -> a' !! y = a !! y) ->
  (forall y, X y \/ ~ X y) ->
  (forall x, X x -> var_rel (st_heap s') (a' !! x) (st_env s' !! x)) -> R s' a'.
Proof.
  intros [HI HR] HI' HF Ha Hdec HX. split; [exact HI'|]. intros x.
  destruct (Hdec x) as [Hx|Hx]; [apply HX, Hx|].
  rewrite (Ha x Hx), (frame_lookup _ _ _ _ _ x HF Hx). specialize (HR x).
  destruct (a !! x) as [av|], (st_env s !! x) as [o|] eqn:Eo; try exact HR.
  destruct av as [r v|]; [|exact HR]. destruct HR as (Hg & Hv & Hrm). split; [exact Hg|].
  split; [eapply vle_trans; [exact Hv|]; eapply frame_view; eassumption|].
  intros Hs Hr. destruct (Hrm Hs Hr) as [H|H]; [left; exact H|right].
  destruct (HF x Hx) as [_ Hb]. specialize (Hb o Eo). unfold cap in *.
  destruct (buf_of (st_heap s) o) as [b|], (buf_of (st_heap s') o) as [b'|]; cbn in Hb; try contradiction.
  - rewrite <- (vle_len _ _ Hb); exact H.
  - exact H.
Qed.
Lemma eq_dec_prop x : forall y, x = y \/ x <> y.
Proof. intros y; destruct (decide (x = y)); auto. Qed.
Lemma R_put s a s' x o av :
  R s a -> Inv d s' -> Frame (eq x) s s' -> st_env s' !! x = Some o -> rep (st_heap s') o av ->
  R s' (<[x:=av]> a).
Proof.
  intros HR HI HF Hx Hrep. eapply (R_transfer (eq x)); try eassumption.
  - intros y Hy. apply lookup_insert_ne, Hy.
  - apply eq_dec_prop.
  - intros ? <-. rewrite lookup_insert, Hx. exact Hrep.
Qed.
Lemma R_same s a s' x o av :
  R s a -> a !! x = Some av -> Inv d s' -> Frame (eq x) s s' -> st_env s' !! x = Some o ->
  rep (st_heap s') o av -> R s' a.
Proof. intros HR Ha HI HF Hx Hrep. rewrite <- (insert_id a x av Ha). eapply R_put; eassumption. Qed.

(** Changing only the handle: the new value is a part of the old one. *)
Lemma R_handle s a x o o' r r' v v' :
  R s a -> held s x o r v -> o_ref o' = o_ref o ->
  0 <= o_off o' -> 0 <= o_len o' -> o_off o' + o_len o' <= cap (st_heap s) o ->
  (o_ref o = None -> o_off o' = 0) ->
  vle v' (view (st_heap s) o') -> hash_ok d (view (st_heap s) o') (o_hash o') ->
  room_ok (st_heap s) o' r' ->
  R (with_env s (<[x:=o']> (st_env s))) (<[x:=AVal r' v']> a).
Proof.
  intros HR Hh Hr H1 H2 H3 H4 Hv Hhash Hrm. pose proof Hh as [Hx Hg Hvo _ Hlen Hoff Hfit Hcap].
  pose proof HR as [HI _].
  assert (Hg' : good d o').
  { intros Hn. rewrite Hr in Hn. specialize (H4 Hn). unfold cap, buf_of in H3; rewrite Hn in H3.
    unfold view in Hhash; rewrite Hr, Hn in Hhash. splits; try assumption; lia. }
  eapply R_put; try eassumption.
  - unfold Inv; cbn. eapply inv_same_ref; [exact HI|exact Hx|exact Hr|].
    intros l Hl. destruct HI as [_ Ho]. rewrite Hr in Hl. destruct (Ho x o Hx l Hl) as (c & Hcl & _).
    exists c. unfold cap, buf_of in H3. rewrite Hl, Hcl in H3. cbn in H3.
    unfold view in Hhash; rewrite Hr, Hl, Hcl in Hhash. splits; assumption.
  - unfold Frame; cbn. apply frame_env; reflexivity.
  - cbn; apply lookup_insert.
  - cbn. splits; assumption.
Qed.

Lemma view_sub s x o o' r v k m :
  Inv d s -> held s x o r v -> o_ref o' = o_ref o -> o_off o' = o_off o + k -> o_len o' = m ->
  0 <= k -> k + m <= zlen v -> vle (zsub k m v) (view (st_heap s) o').
Proof.
  intros HI [Hx Hg Hv _ Hlen Hoff Hfit _] Hr Ho Hl Hk Hm. unfold view in *. rewrite Hr, Ho, Hl.
  destruct (o_ref o) as [l|] eqn:E.
  - destruct (st_heap s !! l) as [c|] eqn:El.
    + rewrite <- zsub_zsub with (n := o_len o) by lia. apply vle_zsub, Hv.
    + apply vle_len in Hv. rewrite zlen_nil in Hv. rewrite zsub_0 by lia; constructor.
  - apply vle_len in Hv. rewrite zlen_nil in Hv. rewrite zsub_0 by lia; constructor.
Qed.

Lemma R_sub s a x o r v k m :
  R s a -> held s x o r v -> 0 <= k -> 0 <= m -> k + m <= zlen v ->
  R (with_env s (<[x:=Obj (o_ref o) (o_off o + k) m 0]> (st_env s))) (<[x:=AVal r (zsub k m v)]> a).
Proof.
  intros HR Hh Hk Hm Hkm. pose proof Hh as [Hx Hg Hv Hrm Hlen Hoff Hfit Hcap].
  eapply R_handle; try eassumption; cbn; try lia; try reflexivity.
  - intros Hn. destruct (Hg Hn) as (? & ? & _). lia.
  - eapply view_sub; try eassumption; try reflexivity. apply HR.
  - left; reflexivity.
  - intros Hs Hr. destruct (Hrm Hs Hr) as [H|H]; cbn in *; [left; lia|].
    right. unfold cap, buf_of in *; cbn. lia.
Qed.
(** Emptied handles as left by slice and the drop operators. *)
Lemma R_empty s a x o r v off :
  R s a -> held s x o r v -> 0 <= off <= zlen v ->
  R (with_env s (<[x:=Obj (o_ref o) off 0 0]> (st_env s))) (<[x:=AVal r []]> a).
Proof.
  intros HR Hh Hoff'. pose proof Hh as [Hx Hg Hv Hrm Hlen Hoff Hfit Hcap].
  assert (Hvw : view (st_heap s) (Obj (o_ref o) off 0 0) = []).
  { unfold view; cbn. destruct (o_ref o) as [l|]; [|reflexivity]. destruct (st_heap s !! l); reflexivity. }
  eapply R_handle; try eassumption; cbn [o_ref o_off o_len o_hash]; try lia; try reflexivity.
  - intros Hn. destruct (Hg Hn) as (? & ? & _). lia.
  - rewrite Hvw; constructor.
  - left; reflexivity.
  - intros _ _; left; reflexivity.
Qed.

(** Releasing a reference. *)
Lemma check_dealloc_eq s x o :
  st_env s !! x = Some o -> (forall l, o_ref o = Some l -> exists c, st_heap s !! l = Some c) ->
  exists r f, check_dealloc x s =
    Ok tt (State (drop (o_ref o) (st_heap s)) (<[x:=Obj r (o_off o) (o_len o) (o_hash o)]> (st_env s))
             (st_next s) (st_tick s) f).
Proof.
  intros Hx Hh. unfold check_dealloc, bind. rewrite (get_obj_ok _ _ _ Hx).
  assert (Hid : <[x:=Obj (o_ref o) (o_off o) (o_len o) (o_hash o)]> (st_env s) = st_env s).
  { apply insert_id. rewrite Hx; destruct o; reflexivity. }
  destruct (o_ref o) as [l|] eqn:Hr.
  - destruct (Hh l eq_refl) as (c & Hl). unfold dec_ref, bind. rewrite (get_cell_ok _ _ _ Hl). cbn.
    unfold drop. rewrite Hl. destruct (Z.ltb_spec (c_refs c - 1) 1).
    + unfold delete_cell; cbn. rewrite lookup_insert. cbn. unfold with_env; cbn.
      eexists None, _. rewrite delete_insert_delete. reflexivity.
    + eexists (Some l), _. rewrite Hid. reflexivity.
  - exists None, (st_freed s). rewrite Hid. cbn. destruct s; reflexivity.
Qed.

Lemma inv_ref_live s x o l : Inv d s -> st_env s !! x = Some o -> o_ref o = Some l -> exists c, st_heap s !! l = Some c.
Proof. intros [_ Ho] Hx Hr. destruct (Ho x o Hx l Hr) as (c & Hc & _). eauto. Qed.

Lemma cleanse_eq s x o :
  Inv d s -> st_env s !! x = Some o ->
  exists h', cleanse_if_last d x s = Ok tt (with_heap s h') /\ drop (o_ref o) h' = drop (o_ref o) (st_heap s) /\
    (forall l, o_ref o = Some l -> exists c, h' !! l = Some c).
Proof.
  intros HI Hx. assert (Hs : s = with_heap s (st_heap s)) by (destruct s; reflexivity).
  assert (Hret : forall l, o_ref o = Some l -> exists c, st_heap s !! l = Some c).
  { intros; eapply inv_ref_live; eassumption. }
  unfold cleanse_if_last. destruct (d_nul d).
  2:{ exists (st_heap s). rewrite <- Hs. splits; assumption. }
  unfold bind. rewrite (get_obj_ok _ _ _ Hx). destruct (o_ref o) as [l|] eqn:Hr.
  2:{ exists (st_heap s). rewrite <- Hs. splits; assumption. }
  destruct (Hret l eq_refl) as (c & Hl). rewrite (get_cell_ok _ _ _ Hl).
  destruct (Z.eqb_spec (c_refs c) 1).
  - exists (<[l:=Cell (zrep (zlen (c_buf c)) None) (c_gen c) (c_refs c)]> (st_heap s)).
    split; [reflexivity|]. split.
    + unfold drop. rewrite lookup_insert, Hl. cbn. destruct (Z.ltb_spec (c_refs c - 1) 1); [|lia].
      apply delete_insert_delete.
    + intros l2 Hl2; injection Hl2 as <-. rewrite lookup_insert. eauto.
  - exists (st_heap s). rewrite <- Hs. splits; assumption.
Qed.

Lemma destroy_eq s x o :
  Inv d s -> st_env s !! x = Some o ->
  exists f, destroy d x s = Ok tt (State (drop (o_ref o) (st_heap s)) (delete x (st_env s)) (st_next s) (st_tick s) f).
Proof.
  intros HI Hx. destruct (cleanse_eq s x o HI Hx) as (h' & Hc & Hd & Hl).
  destruct (check_dealloc_eq (with_heap s h') x o Hx Hl) as (r & f & Hk).
  exists f. unfold destroy, bind. rewrite Hc, Hk. cbn. unfold del_obj, with_env; cbn.
  rewrite delete_insert_delete, Hd. reflexivity.
Qed.

Lemma destroy_inv s x o :
  Inv d s -> st_env s !! x = Some o ->
  exists s', destroy d x s = Ok tt s' /\ Inv d s' /\ Frame (eq x) s s' /\ st_env s' = delete x (st_env s).
Proof.
  intros HI Hx. destruct (destroy_eq s x o HI Hx) as (f & Hd). eexists; split; [exact Hd|].
  split; [unfold Inv; cbn; eapply inv_release; eassumption|]. split; [|reflexivity].
  unfold Frame; cbn. eapply frame_trans; [eapply (frame_drop d (eq x)); try eassumption; reflexivity|].
  apply frame_env_delete; reflexivity.
Qed.

Lemma R_delete s a s' x :
  R s a -> Inv d s' -> Frame (eq x) s s' -> st_env s' !! x = None -> R s' (delete x a).
Proof.
  intros HR HI HF He. eapply (R_transfer (eq x)); try eassumption.
  - intros y Hy. apply lookup_delete_ne, Hy.
  - apply eq_dec_prop.
  - intros ? <-. rewrite lookup_delete, He. exact I.
Qed.

Lemma destroy_R s a x :
  R s a -> live a x = true -> exists s', destroy d x s = Ok tt s' /\ R s' (delete x a).
Proof.
  intros HR Hl. assert (exists av, a !! x = Some av) as (av & Ha).
  { unfold live, fresh_var in Hl. destruct (a !! x); [eauto|discriminate]. }
  destruct (R_lookup _ _ _ _ HR Ha) as (o & Hx & _).
  destruct (destroy_inv s x o (proj1 HR) Hx) as (s' & Hd & HI & HF & He).
  exists s'; split; [exact Hd|]. eapply R_delete; try eassumption. rewrite He; apply lookup_delete.
Qed.

(** Constructors. *)
Lemma ctor_default_R s a x :
  R s a -> a !! x = None ->
  exists s', ctor_default x s = Ok tt s' /\ R s' (<[x:=AVal true []]> a) /\
    Inv d s' /\ Frame (eq x) s s' /\ st_env s' !! x = Some obj_empty.
Proof.
  intros HR Ha. pose proof (R_fresh _ _ _ HR Ha) as Hx. unfold ctor_default, new_obj. rewrite Hx.
  assert (HI : Inv d (with_env s (<[x:=obj_empty]> (st_env s)))).
  { unfold Inv; cbn. apply inv_null; [apply HR| |reflexivity]. intros o Ho; congruence. }
  assert (HF : Frame (eq x) s (with_env s (<[x:=obj_empty]> (st_env s)))).
  { unfold Frame; cbn. apply frame_env; reflexivity. }
  eexists; split; [reflexivity|]. splits; try assumption; [|apply lookup_insert].
  eapply R_put; try eassumption; [apply lookup_insert|]. split; [apply good_empty|].
  split; [constructor|]. intros _ _; left; reflexivity.
Qed.

Lemma bump_rep h (y : obj) o av :
  rep h o av -> rep (bump (o_ref y) h) o av.
Proof.
  destruct av as [r v|]; [|trivial]. intros (Hg & Hv & Hrm).
  assert (Hb : buf_of (bump (o_ref y) h) o = buf_of h o).
  { unfold buf_of, bump. destruct (o_ref o) as [l|]; [|reflexivity].
    destruct (o_ref y) as [l2|]; [|reflexivity]. destruct (h !! l2) as [c|] eqn:E; [|reflexivity].
    destruct (decide (l2 = l)) as [<-|Hn].
    - rewrite lookup_insert, E. reflexivity.
    - rewrite lookup_insert_ne by exact Hn. reflexivity. }
  assert (Hvw : view (bump (o_ref y) h) o = view h o).
  { unfold view, buf_of in *. destruct (o_ref o) as [l|]; [|reflexivity].
    destruct (bump (o_ref y) h !! l), (h !! l); cbn in Hb; congruence. }
  split; [exact Hg|]. rewrite Hvw. split; [exact Hv|]. unfold room_ok, cap in *. rewrite Hb. exact Hrm.
Qed.

Lemma inc_ref_eq s r :
  (forall l, r = Some l -> exists c, st_heap s !! l = Some c) -> inc_ref r s = Ok tt (with_heap s (bump r (st_heap s))).
Proof.
  intros H. unfold inc_ref, bump. destruct r as [l|].
  - destruct (H l eq_refl) as (c & Hl). unfold bind. rewrite (get_cell_ok _ _ _ Hl), Hl. reflexivity.
  - destruct s; reflexivity.
Qed.

Lemma ctor_copy_R s a x y av :
  R s a -> a !! y = Some av -> a !! x = None ->
  exists s', ctor_copy x y s = Ok tt s' /\ R s' (<[x:=av]> a).
Proof.
  intros HR Hy Hx. destruct (R_lookup _ _ _ _ HR Hy) as (o & Ho & Hrep).
  pose proof (R_fresh _ _ _ HR Hx) as Hxe. unfold ctor_copy, bind. rewrite (get_obj_ok _ _ _ Ho).
  unfold new_obj. rewrite Hxe. rewrite inc_ref_eq.
  2:{ cbn. intros l Hl. eapply inv_ref_live; [apply HR|exact Ho|exact Hl]. }
  eexists; split; [reflexivity|]. cbn. eapply R_put; [exact HR| | | |].
  - unfold Inv; cbn. eapply inv_copy; [apply HR|exact Ho|exact Hxe].
  - unfold Frame; cbn. eapply frame_trans; [apply frame_bump|]. apply frame_env; reflexivity.
  - cbn; apply lookup_insert.
  - cbn. apply bump_rep, Hrep.
Qed.

Lemma R_two s a s' x y av ay :
  R s a -> Inv d s' -> Frame (fun z => x = z \/ y = z) s s' ->
  x <> y -> var_rel (st_heap s') (Some av) (st_env s' !! x) -> var_rel (st_heap s') (Some ay) (st_env s' !! y) ->
  R s' (<[x:=av]> (<[y:=ay]> a)).
Proof.
  intros HR HI HF Hn H1 H2. eapply (R_transfer (fun z => x = z \/ y = z)); try eassumption.
  - intros z Hz. rewrite !lookup_insert_ne by tauto. reflexivity.
  - intros z. destruct (decide (x = z)), (decide (y = z)); tauto.
  - intros z [<-|<-].
    + rewrite lookup_insert. exact H1.
    + rewrite lookup_insert_ne, lookup_insert by exact Hn. exact H2.
Qed.

Lemma ctor_move_R s a x y av :
  R s a -> a !! y = Some av -> a !! x = None ->
  exists s', ctor_move x y s = Ok tt s' /\ R s' (<[x:=av]> (<[y:=AMoved]> a)).
Proof.
  intros HR Hy Hx. destruct (R_lookup _ _ _ _ HR Hy) as (o & Ho & Hrep).
  pose proof (R_fresh _ _ _ HR Hx) as Hxe. assert (Hxy : x <> y) by congruence.
  unfold ctor_move, bind. rewrite (get_obj_ok _ _ _ Ho). unfold new_obj. rewrite Hxe.
  unfold set_obj, with_env; cbn.
  set (o0 := Obj None (o_off o) (o_len o) (o_hash o)).
  eexists; split; [reflexivity|]. eapply R_two; [exact HR| | |exact Hxy| |].
  - unfold Inv; cbn.
    assert (<[y:=o0]> (<[x:=o]> (st_env s)) = <[y:=o0]> (<[x:=o]> (delete y (st_env s)))) as ->.
    { rewrite !(insert_commute _ y x) by congruence.
      rewrite insert_delete_insert. reflexivity. }
    apply inv_null; [|intros o2 H2; rewrite lookup_insert_ne, lookup_delete in H2 by exact Hxy; discriminate|reflexivity].
    eapply inv_rename; [apply HR|exact Ho|exact Hxe].
  - unfold Frame; cbn. eapply frame_trans; [apply frame_env; left; reflexivity|apply frame_env; right; reflexivity].
  - cbn. rewrite lookup_insert_ne, lookup_insert by congruence. exact Hrep.
  - cbn. rewrite lookup_insert. reflexivity.
Qed.

(** Assignments. *)
Lemma fresh_ghost (m : gmap var obj) (L : list var) : exists t, m !! t = None /\ t ∉ L.
Proof.
  exists (fresh (elements (dom m) ++ L)).
  pose proof (infinite_is_fresh (elements (dom m) ++ L)) as Hf.
  split.
  - apply not_elem_of_dom. intros H. apply Hf, elem_of_app; left. apply elem_of_elements, H.
  - intros H. apply Hf, elem_of_app; right; exact H.
Qed.

Lemma assign_copy_R s a x y av :
  R s a -> a !! y = Some av -> live a x = true ->
  exists s', assign_copy x y s = Ok tt s' /\ R s' (<[x:=av]> a).
Proof.
  intros HR Hy Hl. assert (exists ax, a !! x = Some ax) as (ax & Hxa).
  { unfold live, fresh_var in Hl. destruct (a !! x); [eauto|discriminate]. }
  destruct (R_lookup _ _ _ _ HR Hxa) as (ox & Hx & _).
  destruct (R_lookup _ _ _ _ HR Hy) as (oy & Hoy & Hrep).
  pose proof HR as [HI _].
  unfold assign_copy, bind. rewrite (get_obj_ok _ _ _ Hoy). rewrite inc_ref_eq.
  2:{ intros l Hr. eapply inv_ref_live; [exact HI|exact Hoy|exact Hr]. }
  assert (Hx1 : get_obj x (with_heap s (bump (o_ref oy) (st_heap s))) = Ok ox (with_heap s (bump (o_ref oy) (st_heap s)))).
  { apply get_obj_ok; exact Hx. }
  rewrite Hx1; clear Hx1. unfold set_obj at 1, with_env, with_heap; cbn.
  set (h1 := bump (o_ref oy) (st_heap s)).
  set (o1 := Obj (o_ref ox) (o_off oy) (o_len oy) (o_hash oy)).
  match goal with |- context [check_dealloc x ?st] => set (s1 := st) end.
  destruct (check_dealloc_eq s1 x o1) as (r & f & Hk).
  { unfold s1; cbn; apply lookup_insert. }
  { intros l Hr; cbn in Hr. destruct (inv_ref_live s x ox l HI Hx Hr) as (c & Hc). unfold s1; cbn.
    unfold h1, bump. destruct (o_ref oy) as [l2|]; [|eauto]. destruct (st_heap s !! l2) as [c2|] eqn:E; [|eauto].
    destruct (decide (l2 = l)) as [<-|Hn]; [rewrite lookup_insert; eauto|rewrite lookup_insert_ne by exact Hn; eauto]. }
  rewrite Hk. cbn [o_ref o1 o_off o_len o_hash st_env st_heap st_next st_tick s1].
  match goal with |- context [get_obj x ?st] => set (s2 := st) end.
  assert (Hx2 : st_env s2 !! x = Some (Obj r (o_off oy) (o_len oy) (o_hash oy))) by (unfold s2; cbn; apply lookup_insert).
  rewrite (get_obj_ok _ _ _ Hx2). cbn [o_off o_len o_hash].
  destruct (decide (x = y)) as [<-|Hxy].
  - (* self assignment: the reference is dropped again *)
    assert (oy = ox) as -> by congruence. rewrite (get_obj_ok _ _ _ Hx2). cbn [o_ref].
    eexists; split; [reflexivity|].
    assert (Hh : drop (o_ref ox) h1 = st_heap s /\ (r = o_ref ox)).
    { unfold h1, bump, drop. revert Hk. unfold check_dealloc, bind.
      assert (Hg1 : get_obj x s1 = Ok o1 s1) by (apply get_obj_ok; unfold s1; cbn; apply lookup_insert).
      rewrite Hg1. cbn [o1 o_ref]. destruct (o_ref ox) as [l|] eqn:Hr.
      - destruct (inv_ref_live s x ox l HI Hx Hr) as (c & Hc). unfold dec_ref, bind.
        assert (Hc1 : st_heap s1 !! l = Some (Cell (c_buf c) (c_gen c) (c_refs c + 1))).
        { unfold s1, h1; cbn. rewrite Hc. apply lookup_insert. }
        rewrite (get_cell_ok _ _ _ Hc1). cbn. rewrite Hc, lookup_insert; cbn.
        destruct HI as [HIc _]. destruct (HIc l c Hc) as [_ Hp _ _].
        destruct (Z.ltb_spec (c_refs c + 1 - 1) 1); [lia|]. intros Hk.
        split.
        + rewrite insert_insert. replace (c_refs c + 1 - 1) with (c_refs c) by lia.
          apply insert_id. rewrite Hc; destruct c; reflexivity.
        + assert (Hee := f_equal (fun r => match r with Ok _ st => st_env st !! x | _ => None end) Hk).
          unfold s1 in Hee; cbn in Hee. rewrite !lookup_insert in Hee. unfold o1 in Hee; congruence.
      - intros Hk. split; [reflexivity|]. 
        assert (Hee := f_equal (fun r => match r with Ok _ st => st_env st !! x | _ => None end) Hk).
        unfold s1 in Hee; cbn in Hee.
        rewrite !lookup_insert in Hee. unfold o1 in Hee; congruence. }
    destruct Hh as [Hh ->].
    assert (<[x:=Obj (o_ref ox) (o_off ox) (o_len ox) (o_hash ox)]> (st_env s2) = st_env s) as He.
    { unfold s2; cbn. rewrite !insert_insert. apply insert_id. rewrite Hx; destruct ox; reflexivity. }
    assert (av = ax) as -> by congruence.
    match goal with |- R ?st _ => assert (Hst : exists t' f', st = State (st_heap s) (st_env s) (st_next s) t' f') end.
    { eexists _, _. unfold with_env. rewrite He.
      change (st_heap s2) with (drop (o_ref ox) h1). rewrite Hh. reflexivity. }
    destruct Hst as (t' & f' & ->).
    eapply R_put; [exact HR|exact HI|apply frame_refl|exact Hx|exact Hrep].
  - assert (Hy2 : st_env s2 !! y = Some oy).
    { unfold s2; cbn. rewrite !lookup_insert_ne by exact Hxy. exact Hoy. }
    rewrite (get_obj_ok _ _ _ Hy2). eexists; split; [reflexivity|].
    assert (He : <[x:=Obj (o_ref oy) (o_off oy) (o_len oy) (o_hash oy)]> (st_env s2) = <[x:=oy]> (st_env s)).
    { unfold s2; cbn. rewrite !insert_insert. f_equal. destruct oy; reflexivity. }
    destruct (fresh_ghost (st_env s) [x; y]) as (t & Ht & Htl).
    assert (Htx : t <> x) by (intros ->; apply Htl; left).
    assert (HI1 : InvH d h1 (<[t:=oy]> (st_env s)) (st_next s)).
    { eapply inv_copy; [exact HI|exact Hoy|exact Ht]. }
    assert (HxT : <[t:=oy]> (st_env s) !! x = Some ox) by (rewrite lookup_insert_ne by exact Htx; exact Hx).
    pose proof (inv_release d _ _ _ x ox HI1 HxT) as HI2.
    assert (HF2 : FrameH (eq x) h1 (st_env s) (drop (o_ref ox) h1) (st_env s)).
    { pose proof (frame_drop d (eq x) _ _ _ x ox eq_refl HI1 HxT) as HF.
      intros z Hz. split; [reflexivity|]. intros oz Hoz. destruct (HF z Hz) as [_ Hb]. apply Hb.
      rewrite lookup_insert_ne; [exact Hoz|]. intros ->; congruence. }
    assert (HF : Frame (eq x) s (with_env s2 (<[x:=oy]> (st_env s)))).
    { unfold Frame; cbn. eapply frame_trans; [apply (frame_bump (eq x) _ _ (o_ref oy))|].
      eapply frame_trans; [exact HF2|]. apply frame_env; reflexivity. }
    match goal with |- R ?st _ => assert (Hst : st = with_env s2 (<[x:=oy]> (st_env s))) end.
    { unfold with_env. rewrite He. reflexivity. }
    rewrite Hst; clear Hst.
    eapply R_put; [exact HR| | | |].
    + unfold Inv; cbn.
      assert (<[x:=oy]> (st_env s) = <[x:=oy]> (delete t (delete x (<[t:=oy]> (st_env s))))) as ->.
      { rewrite delete_insert_ne by (intros E; apply Htx; symmetry; exact E).
        rewrite delete_insert_delete, (delete_notin (delete x (st_env s)) t).
        - rewrite insert_delete_insert; reflexivity.
        - rewrite lookup_delete_ne by (intros E; apply Htx; symmetry; exact E). exact Ht. }
      eapply inv_rename; [exact HI2| |].
      * rewrite lookup_delete_ne by (intros E; apply Htx; symmetry; exact E). apply lookup_insert.
      * apply lookup_delete.
    + exact HF.
    + cbn. apply lookup_insert.
    + cbn. (* y is untouched by the release of x *)
      assert (Hyrep : rep (drop (o_ref ox) h1) oy av).
      { pose proof (R_transfer (eq x) s a (with_env s2 (<[x:=oy]> (st_env s))) (<[x:=av]> a)) as HT.
        destruct av as [r2 v2|]; [|exact Hrep].
        destruct Hrep as (Hg & Hv & Hrm). split; [exact Hg|].
        assert (Hyx : x <> y) by exact Hxy.
        split.
        - eapply vle_trans; [exact Hv|]. apply (frame_view _ _ _ _ _ y oy HF Hyx Hoy).
        - intros Hs1 Hs2. destruct (Hrm Hs1 Hs2) as [H|H]; [left; exact H|right].
          destruct (HF y Hyx) as [_ Hb]. specialize (Hb oy Hoy). cbn in Hb. unfold cap in *.
          destruct (buf_of (st_heap s) oy) as [b|], (buf_of (drop (o_ref ox) h1) oy) as [b'|]; cbn in Hb; try contradiction.
          + rewrite <- (vle_len _ _ Hb); exact H.
          + exact H. }
      exact Hyrep.
Qed.
End Rel.
