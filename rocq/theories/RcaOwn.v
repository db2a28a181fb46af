(** Behaviour of the buffer-management functions: reserve, copy-on-write, loads and stores. *)
From Verif Require Import RcaModel RcaInv.
From Coq Require Import ZifyBool.
Open Scope Z_scope.

(** Requirements on the element type: a NUL-terminated container (String) has plain elements. *)
Definition wf_desc {T} (d : desc T) : Prop :=
  forall z, d_nul d = Some z -> d_class d = false /\ forall v, d_eqb d v z = true <-> v = z.

Lemma wf_base {T} (d : desc T) : wf_desc (base_desc d).
Proof. intros z; discriminate. Qed.

Ltac splits := repeat match goal with |- _ /\ _ => split end; try reflexivity.

Section Own.
Context {T : Type} (d : desc T).
Notation St := (state T).
Implicit Types (s : St) (x y : var) (l : loc) (o : obj).

(** Elements reserved for a requested length. *)
Definition room (n : Z) : Z := match d_nul d with None => n | Some _ => if 0 <? n then n + 1 else n end.
Definition cap (h : gmap loc (cell T)) o : Z :=
  match buf_of h o with Some b => zlen b | None => 0 end.
Definition unshared (h : gmap loc (cell T)) o : Prop :=
  forall l c, o_ref o = Some l -> h !! l = Some c -> c_refs c = 1.

Lemma room_ge n : n <= room n.
Proof. unfold room; destruct (d_nul d); destruct (Z.ltb_spec 0 n); lia. Qed.
Lemma room_mono n m : n <= m -> room n <= room m.
Proof. unfold room; destruct (d_nul d); destruct (Z.ltb_spec 0 n), (Z.ltb_spec 0 m); lia. Qed.

Lemma get_obj_ok s x o : st_env s !! x = Some o -> get_obj x s = Ok o s.
Proof. unfold get_obj; intros ->; reflexivity. Qed.
Lemma get_cell_ok s l c : st_heap s !! l = Some c -> get_cell l s = Ok c s.
Proof. unfold get_cell; intros ->; reflexivity. Qed.

(** Assertions that hold. *)
Lemma check_ok (m : M (state T) bool) s : m s = Ok true s -> check d m s = Ok tt s.
Proof. intros E. unfold check. destruct (d_debug d); [|reflexivity]. unfold bind. rewrite E. reflexivity. Qed.
Lemma shared_ok s x o l c : st_env s !! x = Some o -> o_ref o = Some l -> st_heap s !! l = Some c -> 1 < c_refs c -> is_shared x s = Ok true s.
Proof.
  intros Hx Hr Hl H1. unfold is_shared, bind. rewrite (get_obj_ok _ _ _ Hx), Hr, (get_cell_ok _ _ _ Hl). unfold ret. f_equal. apply Z.ltb_lt, H1.
Qed.

(** [x] has a buffer [b] of its own; its hash cache is empty; everything else is as in [s0]. *)
Definition owns s0 s x (off len : Z) (b : list (option T)) : Prop :=
  Inv d s /\ Frame (eq x) s0 s /\
  exists l g, st_env s !! x = Some (Obj (Some l) off len 0) /\ st_heap s !! l = Some (Cell b g 1).

Definition same_value s x o s' : Prop :=
  Inv d s' /\ Frame (eq x) s s' /\
  exists o', st_env s' !! x = Some o' /\ good d o' /\ unshared (st_heap s') o' /\
    o_len o' = o_len o /\ o_hash o' = o_hash o /\ view (st_heap s') o' = view (st_heap s) o /\
    o_off o' = o_off o /\ cap (st_heap s) o <= cap (st_heap s') o'.

Definition reserved s x o s' (n : Z) : Prop :=
  Inv d s' /\ Frame (eq x) s s' /\
  exists l off b g, st_env s' !! x = Some (Obj (Some l) off (o_len o) (o_hash o)) /\
    st_heap s' !! l = Some (Cell b g 1) /\ 0 <= off /\ off + n <= zlen b /\
    zsub off (o_len o) b = view (st_heap s) o /\ cap (st_heap s) o <= zlen b.

(** Why an allocation for [n] elements may fail: the oracle says so, or the size is beyond PTRDIFF_MAX. *)
Definition starves (sc : Z -> Z) (n : Z) : Prop :=
  (exists k, d_oom d k = true) \/ max_alloc < n \/ exists z, 0 <= z < n /\ max_alloc < sc z.
Lemma starves_id n : starves (fun z => z) n -> starves (d_grow d) n.
Proof. intros [H|[H|(z & H1 & H2)]]; [left; exact H|right; left; exact H|right; left; lia]. Qed.
Lemma starves_mono sc n m : n <= m -> starves sc n -> starves sc m.
Proof.
  intros Hm [H|[H|(z & H1 & H2)]]; [left; exact H|right; left; lia|right; right; exists z; split; [lia|exact H2]].
Qed.

Lemma aref_spec s x n sc o l c :
  Inv d s -> st_env s !! x = Some o -> o_ref o = Some l -> st_heap s !! l = Some c ->
  c_refs c = 1 -> o_len o <= n ->
  runs (let* off := aref_reserve d l n sc (o_off o) (o_len o) in
        set_obj x (Obj (Some l) off (o_len o) (o_hash o))) s
    (fun _ s' => reserved s x o s' n)
    (fun e s' => e = BadAlloc /\ same_value s x o s' /\ zlen (c_buf c) < n /\ starves sc n).
Proof.
  intros HI Hx Hr Hl H1 Hn. pose proof HI as [Hc Ho].
  destruct (Ho x o Hx l Hr) as (c0 & Hc0 & Hoff & Hlen & Hfit & Hhash).
  assert (c0 = c) as -> by congruence. clear Hc0.
  destruct (Hc l c Hl) as [_ _ Hmax _].
  assert (Hview : view (st_heap s) o = zsub (o_off o) (o_len o) (c_buf c)).
  { unfold view; rewrite Hr, Hl; reflexivity. }
  unfold aref_reserve. unfold runs at 1, bind at 1 2. rewrite (get_cell_ok _ _ _ Hl).
  set (buf := c_buf c) in *. set (off := o_off o) in *. set (len := o_len o) in *.
  assert (Hset : forall b g off',
     zlen b <= max_alloc -> 0 <= off' -> off' + n <= zlen b ->
     zsub off' len b = zsub off len buf -> zlen buf <= zlen b ->
     forall t f, reserved s x o (State (<[l:=Cell b g 1]> (st_heap s))
                            (<[x:=Obj (Some l) off' len (o_hash o)]> (st_env s)) (st_next s) t f) n).
  { intros b g off' Hb Hoff' Hfit' Hsub Hcap t f. split; [|split].
    - unfold Inv; cbn. eapply inv_own_cell; try eassumption; try reflexivity.
      intros l2 Hl2; cbn in Hl2; injection Hl2 as <-. rewrite lookup_insert.
      eexists; split; [reflexivity|]. cbn. split; [lia|]. split; [exact Hlen|]. split; [lia|].
      rewrite Hsub; exact Hhash.
    - unfold Frame; cbn. eapply frame_trans.
      + eapply (frame_own d (eq x)); try eassumption; reflexivity.
      + apply frame_env; reflexivity.
    - exists l, off', b, g. cbn. rewrite !lookup_insert, Hview. splits; try assumption; try reflexivity.
      unfold cap, buf_of; rewrite Hr, Hl; exact Hcap. }
  destruct (Z.ltb_spec (zlen buf) n) as [Hgrow|Hsmall].
  - unfold bind at 1, try_alloc.
    remember (Z.max (sc (zlen buf)) n) as m eqn:Hmdef.
    destruct (d_oom d (st_tick s) || (max_alloc <? m)) eqn:Hoom.
    + split; [reflexivity|]. split; [|split; [exact Hgrow|]].
      2:{ apply orb_true_iff in Hoom as [Hoom|Hoom]; [left; eauto|].
          destruct (Z_lt_dec max_alloc n); [right; left; assumption|].
          right; right. exists (zlen buf). pose proof (zlen_nonneg buf). split; [lia|]. lia. }
      split; [exact HI|]. split; [apply frame_refl|].
      exists o; cbn. splits; try assumption.
      * intros Hr'; congruence.
      * intros l2 c2 Hl2 Hc2; congruence.
    + apply orb_false_iff in Hoom as [_ Hm].
      destruct (Z.ltb_spec m len) as [Hbad|Hmlen]; [lia|].
      destruct buf as [|b0 buf'] eqn:Hbuf.
      * (* nothing allocated yet, so the object is empty *)
        rewrite zlen_nil in Hfit. assert (len = 0) as Hl0 by lia.
        destruct (d_class d && (0 <? len)) eqn:Hraw; [lia|].
        assert (zrep len (@None T) = []) as -> by (rewrite Hl0; reflexivity).
        cbn. rewrite H1. apply Hset; zlen_simpl; try lia.
        rewrite !zsub_0 by lia; reflexivity.
      * rewrite <- Hbuf in *. clear Hbuf b0 buf'.
        destruct ((off <? 0) || (zlen buf <? off + len)) eqn:Hb; [lia|].
        unfold log_freed, set_cell, set_obj, ret, bind, with_env, with_heap; cbn.
        rewrite H1. apply Hset; zlen_simpl; try lia.
        zlist.
  - unfold u64; rewrite Z.mod_small by (unfold max_alloc, W64 in *; lia).
    destruct (Z.ltb_spec (zlen buf - off) n) as [Hsh|Hroom].
    + destruct ((off <? 0) || (zlen buf <? off + len)) eqn:Hb; [lia|].
      unfold set_cell, set_obj, ret, bind, with_env, with_heap; cbn.
      rewrite H1.
      set (src := if d_class d then zupd off (zrep len None) buf else buf).
      assert (Hsrc : zlen src = zlen buf).
      { unfold src; destruct (d_class d); [|reflexivity]. apply zlen_zupd; zlen_simpl; lia. }
      assert (Hzl : zlen (zsub off len buf) = len) by (zlen_simpl; lia).
      apply Hset; rewrite ?zlen_zupd; zlen_simpl; try lia.
      apply zsub_zupd_same; lia.
    + cbn. unfold set_obj, with_env.
      assert (Hid : st_heap s = <[l:=Cell buf (c_gen c) 1]> (st_heap s)).
      { symmetry; apply insert_id. rewrite Hl. f_equal. unfold buf; destruct c; cbn in *; congruence. }
      rewrite Hid. apply Hset; try lia; reflexivity.
Qed.

Lemma base_reserve_spec s x n sc o :
  Inv d s -> st_env s !! x = Some o -> good d o -> unshared (st_heap s) o -> 0 <= n -> o_len o <= n ->
  runs (base_reserve d x n sc) s
    (fun _ s' => reserved s x o s' n)
    (fun e s' => e = BadAlloc /\ same_value s x o s' /\ (o_ref o = None \/ cap (st_heap s) o < n) /\ starves sc n).
Proof.
  intros HI Hx Hg Hu Hn0 Hn. unfold base_reserve.
  eapply runs_step; [apply get_obj_ok, Hx|].
  destruct (o_ref o) as [l|] eqn:Hr.
  - eapply runs_step; [reflexivity|].
    destruct HI as [Hc Ho]; destruct (Ho x o Hx l Hr) as (c & Hl & _).
    eapply runs_conseq; [apply (aref_spec s x n sc o l c); auto; [split; assumption|eauto]| |].
    + intros ? s' H; exact H.
    + intros e s' (-> & Hs & Hcap & Hst). split; [reflexivity|]. split; [exact Hs|].
      split; [right|exact Hst]. unfold cap, buf_of; rewrite Hr, Hl; exact Hcap.
  - destruct (Hg Hr) as (Hoff & Hlen & Hh).
    assert (Hview : view (st_heap s) o = []) by (unfold view; rewrite Hr; reflexivity).
    unfold runs, bind at 1 2, new_cell, try_alloc, bind at 1.
    destruct (d_oom d (st_tick s) || (max_alloc <? 0)) eqn:Hoom.
    + split; [reflexivity|]. split; [|split; [left; (reflexivity || exact Hr)|]].
      2:{ apply orb_true_iff in Hoom as [Hoom|Hoom]; [left; eauto|discriminate]. }
      split; [exact HI|]. split; [apply frame_refl|].
      exists o; cbn; splits; assumption.
    + set (o1 := Obj (Some (st_next s)) (o_off o) (o_len o) (o_hash o)) in *.
      set (s1 := State (<[st_next s := Cell [] 0 1]> (st_heap s)) (<[x:=o1]> (st_env s))
                   (Pos.succ (st_next s)) (S (st_tick s)) (st_freed s)).
      change (runs (let* off := aref_reserve d (st_next s) n sc (o_off o1) (o_len o1) in
                    set_obj x (Obj (Some (st_next s)) off (o_len o1) (o_hash o1))) s1
                (fun _ s' => reserved s x o s' n)
                (fun e s' => e = BadAlloc /\ same_value s x o s' /\
                   (@None loc = None \/ cap (st_heap s) o < n) /\ starves sc n)).
      assert (HF1 : Frame (eq x) s s1).
      { unfold Frame, s1; cbn. eapply frame_trans; [apply (frame_new d), HI|]. apply frame_env; reflexivity. }
      assert (HI1 : Inv d s1).
      { unfold Inv, s1; cbn. apply inv_new_cell; [exact HI| |reflexivity|reflexivity| |].
        - intros o2 H2; congruence.
        - unfold max_alloc, zlen; cbn; lia.
        - intros l Hl; cbn in Hl; injection Hl as <-. rewrite lookup_insert.
          eexists; split; [reflexivity|]. unfold o1; cbn [o_off o_len o_hash c_buf].
          rewrite Hoff, Hlen. change (zlen (@nil (option T))) with 0. splits; try lia. exact Hh. }
      pose proof (aref_spec s1 x n sc o1 (st_next s) (Cell [] 0 1) HI1) as HA.
      assert (Hv1 : view (st_heap s1) o1 = []).
      { unfold view, o1, s1; cbn. rewrite lookup_insert; cbn. rewrite Hlen. reflexivity. }
      eapply runs_conseq; [apply HA| |].
      * unfold s1; cbn; apply lookup_insert.
      * reflexivity.
      * unfold s1; cbn; apply lookup_insert.
      * reflexivity.
      * exact Hn.
      * intros ? s' (I' & F' & l & off & b & g & E1 & E2 & E3 & E4 & E5 & E6).
        split; [exact I'|]. split; [eapply frame_trans; [exact HF1|exact F']|].
        exists l, off, b, g. rewrite Hview, <- Hv1. splits; try assumption.
        unfold cap, buf_of; rewrite Hr; apply zlen_nonneg.
      * intros e s' (-> & (I' & F' & o' & E1 & E2 & E3 & E4 & E5 & E6 & E7 & E8) & _ & Hst).
        split; [reflexivity|]. split; [|split; [left; (reflexivity || exact Hr)|exact Hst]].
        split; [exact I'|]. split; [eapply frame_trans; [exact HF1|exact F']|].
        exists o'. rewrite Hview, <- Hv1. splits; try assumption.
        unfold cap at 1, buf_of; rewrite Hr; unfold cap; destruct (buf_of _ o'); [apply zlen_nonneg|lia].
Qed.

Lemma v_reserve_spec s x n sc o :
  Inv d s -> st_env s !! x = Some o -> good d o -> unshared (st_heap s) o ->
  o_len o <= n -> 0 <= n -> n < W64 -> (d_nul d <> None -> n < npos) ->
  runs (v_reserve d x n sc) s
    (fun _ s' => reserved s x o s' (room n))
    (fun e s' => e = BadAlloc /\ same_value s x o s' /\ (o_ref o = None \/ cap (st_heap s) o < room n) /\
       starves sc (room n)).
Proof.
  intros HI Hx Hg Hu Hn Hn0 HnW Hnp. unfold v_reserve, room.
  destruct (d_nul d) as [z|] eqn:Hz.
  2:{ apply base_reserve_spec; assumption. }
  assert (Hreal : (if 0 <? n then u64 (n + 1) else n) = if 0 <? n then n + 1 else n).
  { destruct (0 <? n); [|reflexivity]. apply u64_id.
    assert (n < npos) by (apply Hnp; discriminate). unfold npos, W64 in *; lia. }
  rewrite Hreal. set (rs := if 0 <? n then n + 1 else n).
  assert (Hrs : n <= rs) by (unfold rs; destruct (0 <? n); lia).
  eapply runs_bind; [eapply base_reserve_spec; try eassumption; lia|]. cbn beta.
  intros _ s1 (I1 & F1 & l & off & b & g & E1 & E2 & E3 & E4 & E5 & E6).
  eapply runs_step; [apply get_obj_ok, E1|]. cbn [o_ref].
  eapply runs_step; [apply get_cell_ok, E2|]. cbn [c_buf o_off].
  assert (Hlen : 0 <= o_len o).
  { destruct I1 as [_ Ho]. destruct (Ho _ _ E1 l eq_refl) as (? & _ & _ & ? & _); assumption. }
  destruct b as [|b0 b'] eqn:Hb.
  - rewrite zlen_nil in E4. destruct (Z.eqb_spec off 0) as [->|]; [|lia].
    apply runs_ret. split; [exact I1|]. split; [exact F1|]. exists l, 0, [], g.
    splits; try assumption; rewrite ?zlen_nil; lia.
  - rewrite <- Hb in *. assert (Hbl : 0 < zlen b) by (subst b; rewrite zlen_cons; pose proof (zlen_nonneg b'); lia).
    clear Hb b0 b'. unfold runs, set_cell, with_heap; cbn.
    assert (Hzl : zlen (zupd (zlen b - 1) [Some z] b) = zlen b).
    { apply zlen_zupd; rewrite ?zlen_cons, ?zlen_nil; lia. }
    assert (Hsub : zsub off (o_len o) (zupd (zlen b - 1) [Some z] b) = zsub off (o_len o) b).
    { unfold rs in *. destruct (Z.ltb_spec 0 n).
      - apply zsub_zupd_out; rewrite ?zlen_cons, ?zlen_nil; lia.
      - rewrite !zsub_0 by lia; reflexivity. }
    pose proof I1 as [Hc Ho]. destruct (Ho _ _ E1 l eq_refl) as (c2 & Hc2 & H2).
    rewrite E2 in Hc2; injection Hc2 as <-. cbn in H2.
    destruct (Hc l _ E2) as [_ _ Hmax _]; cbn in Hmax.
    split; [|split].
    + unfold Inv; cbn.
      rewrite <- (insert_id (st_env s1) x _ E1).
      eapply inv_own_cell; try eassumption; try reflexivity; cbn; try lia.
      intros l2 Hl2; injection Hl2 as <-. rewrite lookup_insert. eexists; split; [reflexivity|]. cbn.
      rewrite Hsub. splits; try tauto; lia.
    + unfold Frame; cbn. eapply frame_trans; [exact F1|].
      eapply (frame_own d (eq x)); try eassumption; reflexivity.
    + exists l, off, (zupd (zlen b - 1) [Some z] b), g; cbn. rewrite lookup_insert, Hsub, Hzl.
      splits; assumption.
Qed.

(** Copy-on-write. *)
Definition sharedp (h : gmap loc (cell T)) o : Prop :=
  exists l c, o_ref o = Some l /\ h !! l = Some c /\ 1 < c_refs c.

Lemma is_shared_eq s x o :
  Inv d s -> st_env s !! x = Some o ->
  exists b, is_shared x s = Ok b s /\
    (if b then sharedp (st_heap s) o else unshared (st_heap s) o).
Proof.
  intros [Hc Ho] Hx. unfold is_shared, bind. rewrite (get_obj_ok _ _ _ Hx).
  destruct (o_ref o) as [l|] eqn:Hr.
  - destruct (Ho x o Hx l Hr) as (c & Hl & _). rewrite (get_cell_ok _ _ _ Hl).
    exists (1 <? c_refs c). split; [reflexivity|]. destruct (Hc l c Hl) as [_ Hp _ _].
    destruct (Z.ltb_spec 1 (c_refs c)).
    + exists l, c; auto.
    + intros l2 c2 H1 H2. assert (c2 = c) as -> by congruence. lia.
  - exists false. split; [reflexivity|]. intros l c Hl; congruence.
Qed.

Lemma shared_other s x o l c :
  Inv d s -> st_env s !! x = Some o -> o_ref o = Some l -> st_heap s !! l = Some c -> 1 < c_refs c ->
  exists y oy, y <> x /\ st_env s !! y = Some oy /\ o_ref oy = Some l.
Proof.
  intros [Hc _] Hx Hr Hl H1. destruct (Hc l c Hl) as [H2 _ _ _].
  pose proof (count_delete l (st_env s) x o Hx) as Hd. rewrite (ind_some l o Hr) in Hd.
  destruct (count_witness l (delete x (st_env s))) as (y & oy & Hy & Hry); [lia|].
  apply lookup_delete_Some in Hy as [Hn Hy]. exists y, oy; auto.
Qed.

(** What is left of [x] when making room fails: its value, or nothing if the buffer was shared. *)
Definition alloc_failed s x o s' : Prop :=
  Inv d s' /\ Frame (eq x) s s' /\
  exists o', st_env s' !! x = Some o' /\ good d o' /\
    ((view (st_heap s') o' = view (st_heap s) o /\ o_len o' = o_len o /\ o_off o' = o_off o /\
      cap (st_heap s) o <= cap (st_heap s') o') \/
     (sharedp (st_heap s) o /\ o_len o' = 0 /\ view (st_heap s') o' = [])).

Lemma detach_shared s x o l c :
  Inv d s -> st_env s !! x = Some o -> o_ref o = Some l -> st_heap s !! l = Some c -> 1 < c_refs c ->
  exists s', do_detach x s = Ok tt s' /\ Inv d s' /\ Frame (eq x) s s' /\
    st_env s' !! x = Some obj_empty /\ c_buf <$> st_heap s' !! l = Some (c_buf c).
Proof.
  intros HI Hx Hr Hl H1. unfold do_detach, dec_ref, bind. rewrite (get_obj_ok _ _ _ Hx), Hr.
  rewrite (get_cell_ok _ _ _ Hl). cbn. eexists; split; [reflexivity|].
  pose proof (inv_release d _ _ _ x o HI Hx) as HR. pose proof (frame_drop d (eq x) _ _ _ x o eq_refl HI Hx) as HF.
  unfold drop in HR, HF; rewrite Hr, Hl in HR, HF.
  destruct (Z.ltb_spec (c_refs c - 1) 1); [lia|].
  split; [|split; [|split]].
  - unfold Inv; cbn. rewrite <- (insert_delete_insert (st_env s)). apply inv_null; [exact HR| |reflexivity].
    intros o2 H2; rewrite lookup_delete in H2; discriminate.
  - unfold Frame; cbn. eapply frame_trans; [exact HF|]. apply frame_env; reflexivity.
  - apply lookup_insert.
  - cbn. rewrite lookup_insert; reflexivity.
Qed.

Lemma good_empty : good d obj_empty.
Proof. intros _; cbn; splits; left; reflexivity. Qed.

Lemma owns_trans s0 s1 s2 x off len b : Frame (eq x) s0 s1 -> owns s1 s2 x off len b -> owns s0 s2 x off len b.
Proof. intros HF (I & F & H). split; [exact I|]. split; [eapply frame_trans; eassumption|exact H]. Qed.

Lemma owns_load s0 s x off len b pos n :
  owns s0 s x off len b -> 0 <= pos -> off + pos + n <= zlen b ->
  load x pos n s = Ok (zsub (off + pos) n b) s.
Proof.
  intros (I & _ & l & g & Hx & Hl) Hp Hfit. unfold load.
  destruct (Z.leb_spec n 0); [rewrite zsub_0 by lia; reflexivity|].
  unfold bind. rewrite (get_obj_ok _ _ _ Hx); cbn. rewrite (get_cell_ok _ _ _ Hl); cbn.
  destruct I as [Hc Ho]. destruct (Hc l _ Hl) as [_ _ Hm _]; cbn in Hm.
  destruct (Ho x _ Hx l eq_refl) as (? & _ & Hoff & _); cbn in Hoff.
  rewrite u64_id by (unfold W64, max_alloc in *; lia).
  destruct (Z.leb_spec (off + pos + n) (zlen b)); [reflexivity|lia].
Qed.

Lemma owns_facts s0 s x off len b : owns s0 s x off len b ->
  0 <= off /\ 0 <= len /\ off + len <= zlen b /\ zlen b <= max_alloc.
Proof.
  intros (I & _ & l & g & Hx & Hl). destruct I as [Hc Ho]. destruct (Hc l _ Hl) as [_ _ Hm _]; cbn in Hm.
  destruct (Ho x _ Hx l eq_refl) as (c & Hc2 & H1 & H2 & H3 & _). assert (c = Cell b g 1) as -> by congruence.
  cbn in *; auto.
Qed.

Lemma owns_set s0 s x off len b off' len' b' l g :
  Inv d s -> Frame (eq x) s0 s ->
  st_env s !! x = Some (Obj (Some l) off len 0) -> st_heap s !! l = Some (Cell b g 1) ->
  0 <= off' -> 0 <= len' -> off' + len' <= zlen b' -> zlen b' <= max_alloc ->
  owns s0 (State (<[l:=Cell b' g 1]> (st_heap s)) (<[x:=Obj (Some l) off' len' 0]> (st_env s))
             (st_next s) (st_tick s) (st_freed s)) x off' len' b'.
Proof.
  intros I F Hx Hl H1 H2 H3 H4. split; [|split].
  - unfold Inv; cbn. eapply inv_own_cell; try eassumption; try reflexivity.
    intros l2 Hl2; injection Hl2 as <-. rewrite lookup_insert; eexists; split; [reflexivity|]; cbn.
    splits; try lia. left; reflexivity.
  - unfold Frame; cbn. eapply frame_trans; [exact F|]. eapply frame_trans.
    + eapply (frame_own d (eq x)); try eassumption; reflexivity.
    + apply frame_env; reflexivity.
  - exists l, g; cbn. rewrite !lookup_insert; auto.
Qed.

Lemma owns_store s0 s x off len b pos es :
  owns s0 s x off len b -> 0 <= pos -> off + pos + zlen es <= zlen b ->
  exists s', store x pos es s = Ok tt s' /\ owns s0 s' x off len (zupd (off + pos) es b).
Proof.
  intros HO Hp Hfit. pose proof (owns_facts _ _ _ _ _ _ HO) as (Ho1 & Ho2 & Ho3 & Ho4).
  pose proof (zlen_nonneg es) as Hes. unfold store.
  destruct (Z.leb_spec (zlen es) 0).
  { eexists; split; [reflexivity|]. assert (zlen es = 0) as H0 by lia.
    apply zlen_0_nil in H0 as ->. rewrite zupd_nil by (rewrite zlen_nil in *; lia); exact HO. }
  destruct HO as (I & F & l & g & Hx & Hl).
  unfold bind. rewrite (get_obj_ok _ _ _ Hx); cbn. rewrite (get_cell_ok _ _ _ Hl); cbn.
  rewrite u64_id by (unfold W64, max_alloc in *; lia).
  destruct (Z.leb_spec (off + pos + zlen es) (zlen b)); [|lia].
  eexists; split; [reflexivity|]. unfold with_heap; cbn.
  rewrite <- (insert_id (st_env s) x _ Hx).
  assert (zlen (zupd (off + pos) es b) = zlen b) as Hz by (apply zlen_zupd; lia).
  eapply owns_set; try eassumption; try lia.
Qed.

Lemma owns_set_len s0 s x off len b n :
  owns s0 s x off len b -> 0 <= n -> off + n <= zlen b ->
  exists s', set_len x n s = Ok tt s' /\ owns s0 s' x off n b.
Proof.
  intros HO Hn Hfit. pose proof (owns_facts _ _ _ _ _ _ HO) as (Ho1 & Ho2 & Ho3 & Ho4).
  destruct HO as (I & F & l & g & Hx & Hl).
  unfold set_len, bind. rewrite (get_obj_ok _ _ _ Hx); cbn. eexists; split; [reflexivity|].
  unfold with_env; cbn. rewrite <- (insert_id (st_heap s) l _ Hl).
  eapply owns_set; try eassumption; try lia.
Qed.

Lemma owns_length s0 s x off len b : owns s0 s x off len b -> length_of x s = Ok len s.
Proof.
  intros (_ & _ & l & g & Hx & _). unfold length_of, bind. rewrite (get_obj_ok _ _ _ Hx); reflexivity.
Qed.

Lemma owns_view s0 s x off len b : owns s0 s x off len b ->
  exists o, st_env s !! x = Some o /\ good d o /\ o_len o = len /\ o_off o = off /\
    cap (st_heap s) o = zlen b /\ view (st_heap s) o = zsub off len b /\ o_ref o <> None /\
    unshared (st_heap s) o.
Proof.
  intros (_ & _ & l & g & Hx & Hl). eexists; split; [exact Hx|]. cbn.
  unfold view, cap, buf_of; cbn; rewrite Hl; cbn.
  splits; try discriminate. intros l2 c2 H1 H2; cbn in H1. injection H1 as <-.
  rewrite Hl in H2; injection H2 as <-; reflexivity.
Qed.

Lemma reserved_owns s0 s x o s' n :
  Frame (eq x) s0 s -> o_hash o = 0 -> reserved s x o s' n ->
  exists off b, owns s0 s' x off (o_len o) b /\ off + n <= zlen b /\
    zsub off (o_len o) b = view (st_heap s) o /\ cap (st_heap s) o <= zlen b.
Proof.
  intros HF Hh (I & F & l & off & b & g & E1 & E2 & E3 & E4 & E5 & E6).
  exists off, b. split; [|split; [|split]; assumption]. split; [exact I|].
  split; [eapply frame_trans; eassumption|]. exists l, g. rewrite Hh in E1; auto.
Qed.

Lemma cow_spec s x n o :
  Inv d s -> st_env s !! x = Some o -> sharedp (st_heap s) o -> o_hash o = 0 ->
  o_len o <= n -> 0 <= n -> n < W64 -> (d_nul d <> None -> n < npos) ->
  runs (cow d x n) s
    (fun _ s' => exists off b, owns s s' x off (o_len o) b /\ off + room n <= zlen b /\
       vle (view (st_heap s) o) (zsub off (o_len o) b))
    (fun e s' => e = BadAlloc /\ alloc_failed s x o s' /\ starves (d_grow d) (room n)).
Proof.
  intros HI Hx (l & c & Hr & Hl & H1) Hh Hn Hn0 HnW Hnp. unfold cow.
  eapply runs_step; [apply get_obj_ok, Hx|].
  eapply runs_step; [eapply check_ok, shared_ok; eassumption|].
  pose proof HI as [_ Ho]. destruct (Ho x o Hx l Hr) as (c0 & Hc0 & Hoff & Hlen & Hfit & _).
  assert (c0 = c) as -> by congruence; clear Hc0 Ho.
  destruct (shared_other s x o l c HI Hx Hr Hl H1) as (y & oy & Hyx & Hy & Hry).
  destruct (detach_shared s x o l c HI Hx Hr Hl H1) as (s1 & Hd & I1 & F1 & Ex1 & Hb1).
  eapply runs_step; [exact Hd|].
  assert (Hu1 : unshared (st_heap s1) obj_empty) by (intros ? ? Hno; discriminate).
  eapply runs_bind.
  { eapply runs_conseq; [eapply (v_reserve_spec s1 x n (d_grow d) obj_empty); try eassumption|
      intros a s' H; exact H|].
    - apply good_empty.
    - cbn. intros e s' (-> & (I' & F' & o' & G1 & G2 & G3 & G4 & G5 & G6 & G7 & G8) & _ & Hst).
      split; [reflexivity|]. split; [|exact Hst]. split; [exact I'|]. split; [eapply frame_trans; eassumption|].
      exists o'. split; [exact G1|]. split; [exact G2|]. right. split; [exists l, c; auto|].
      split; [exact G4|]. rewrite G6; reflexivity. }
  cbn beta. intros _ s2 Hres.
  assert (Hm : c_buf <$> st_heap s2 !! l = Some (c_buf c) \/
               exists b, c_buf <$> st_heap s2 !! l = Some b /\ vle (c_buf c) b).
  { right. destruct Hres as (I2 & F2 & _). destruct (F2 y) as [_ Hb2]; [congruence|].
    assert (Hy1 : st_env s1 !! y = Some oy) by (destruct (F1 y) as [-> _]; [congruence|exact Hy]).
    specialize (Hb2 oy Hy1). unfold buf_of in Hb2; rewrite Hry in Hb2. rewrite Hb1 in Hb2.
    destruct (c_buf <$> st_heap s2 !! l) as [b|]; [|contradiction]. exists b; auto. }
  destruct (reserved_owns s s1 x obj_empty s2 _ F1 eq_refl Hres) as (off & b & HO & Hroom & _ & _).
  cbn [o_len obj_empty] in HO. pose proof (room_ge n) as Hrg.
  pose proof (owns_facts _ _ _ _ _ _ HO) as (Q1 & Q2 & Q3 & Q4).
  destruct (owns_set_len _ _ _ _ _ _ (Z.min (o_len o) n) HO) as (s3 & E3 & HO3); [lia|lia|].
  eapply runs_step; [exact E3|]. replace (Z.min (o_len o) n) with (o_len o) in * by lia.
  destruct (Z.leb_spec (o_len o) 0) as [Hz|Hz].
  - apply runs_ret. exists off, b. split; [exact HO3|]. split; [exact Hroom|].
    unfold view; rewrite Hr, Hl. rewrite !zsub_0 by lia. constructor.
  - rewrite Hr.
    assert (Hm3 : exists b', st_heap s3 !! l = Some b' /\ vle (c_buf c) (c_buf b')).
    { assert (st_heap s3 = st_heap s2) as ->.
      { unfold set_len, bind in E3. destruct HO as (_ & _ & l2 & g2 & Hx2 & _).
        rewrite (get_obj_ok _ _ _ Hx2) in E3. injection E3 as <-. reflexivity. }
      destruct (st_heap s2 !! l) as [c2|]; cbn in Hm.
      - exists c2; split; [reflexivity|]. destruct Hm as [Hm|(b2 & Hm & Hv)]; injection Hm as ->; [apply vle_refl|exact Hv].
      - destruct Hm as [Hm|(? & Hm & _)]; discriminate. }
    destruct Hm3 as (c3 & Hc3 & Hv3). eapply runs_step; [apply get_cell_ok, Hc3|].
    rewrite <- (vle_len _ _ Hv3).
    destruct (Z.leb_spec (o_off o + o_len o) (zlen (c_buf c))); [|lia].
    assert (Hsl : zlen (zsub (o_off o) (o_len o) (c_buf c3)) = o_len o).
    { zlen_simpl. pose proof (vle_len _ _ Hv3). lia. }
    destruct (owns_store _ _ _ _ _ _ 0 (zsub (o_off o) (o_len o) (c_buf c3)) HO3) as (s4 & E4 & HO4); [lia|lia|].
    unfold runs. rewrite E4. rewrite Z.add_0_r in HO4.
    exists off, (zupd off (zsub (o_off o) (o_len o) (c_buf c3)) b).
    split; [exact HO4|]. rewrite zlen_zupd by lia. split; [exact Hroom|].
    rewrite zsub_zupd_same by lia. unfold view; rewrite Hr, Hl. apply vle_zsub, Hv3.
Qed.

(** AboutToModify: afterwards the object has its own buffer, its old value, and the room asked for. *)
Definition modifiable s x o s' (n : Z) : Prop :=
  exists off b, owns s s' x off (o_len o) b /\ off + room n <= zlen b /\
    vle (view (st_heap s) o) (zsub off (o_len o) b).

Lemma about_to_modify_spec s x n o :
  Inv d s -> st_env s !! x = Some o -> good d o -> o_len o <= n -> 0 <= n -> n < W64 ->
  (d_nul d <> None -> n < npos) ->
  runs (about_to_modify d x n) s
    (fun _ s' => modifiable s x o s' n)
    (fun e s' => e = BadAlloc /\ alloc_failed s x o s' /\
       (sharedp (st_heap s) o \/ o_ref o = None \/ cap (st_heap s) o < room n) /\
       starves (d_grow d) (room n)).
Proof.
  intros HI Hx Hg Hn Hn0 HnW Hnp. unfold about_to_modify.
  set (o1 := Obj (o_ref o) (o_off o) (o_len o) 0).
  set (s1 := with_env s (<[x:=o1]> (st_env s))).
  eapply runs_step.
  { unfold bind; rewrite (get_obj_ok _ _ _ Hx). reflexivity. }
  fold o1 s1.
  assert (Hok : obj_ok d (st_heap s) o1).
  { intros l Hl; cbn in Hl. destruct HI as [_ Ho]. destruct (Ho x o Hx l Hl) as (c & Hc & ? & ? & ? & _).
    exists c. cbn. splits; try assumption. left; reflexivity. }
  assert (HI1 : Inv d s1).
  { unfold Inv, s1; cbn. eapply inv_same_ref; [exact HI|exact Hx|reflexivity|exact Hok]. }
  assert (HF1 : Frame (eq x) s s1) by (unfold Frame, s1; cbn; apply frame_env; reflexivity).
  assert (Hx1 : st_env s1 !! x = Some o1) by (unfold s1; cbn; apply lookup_insert).
  assert (Hg1 : good d o1).
  { intros Hr; cbn in *. destruct (Hg Hr) as (? & ? & _). splits; try assumption. left; reflexivity. }
  assert (Hv1 : view (st_heap s1) o1 = view (st_heap s) o) by reflexivity.
  destruct (is_shared_eq s1 x o1 HI1 Hx1) as (sh & Hsh & Hshp).
  eapply runs_step; [exact Hsh|]. destruct sh.
  - eapply runs_conseq; [apply (cow_spec s1 x n o1); try assumption; reflexivity| |].
    + intros ? s' (off & b & HO & Hroom & Hv). exists off, b.
      split; [eapply owns_trans; [exact HF1|exact HO]|]. split; [exact Hroom|exact Hv].
    + intros e s' (-> & (I' & F' & o' & G1 & G2 & G3) & Hst). split; [reflexivity|].
      split; [|split; [left; exact Hshp|exact Hst]]. split; [exact I'|]. split; [eapply frame_trans; eassumption|].
      exists o'. auto.
  - eapply runs_conseq; [apply (v_reserve_spec s1 x n (d_grow d) o1); assumption| |].
    + intros ? s' Hres. destruct (reserved_owns s s1 x o1 s' _ HF1 eq_refl Hres) as (off & b & HO & Hroom & Hv & _).
      exists off, b. cbn in *. split; [exact HO|]. split; [exact Hroom|]. rewrite Hv, Hv1. apply vle_refl.
    + intros e s' (-> & (I' & F' & o' & G1 & G2 & G3 & G4 & G5 & G6 & G7 & G8) & Hcap & Hst).
      split; [reflexivity|]. split; [|split; [right; exact Hcap|exact Hst]].
      split; [exact I'|]. split; [eapply frame_trans; eassumption|].
      exists o'. split; [exact G1|]. split; [exact G2|]. left. auto.
Qed.

(** With an own buffer that is large enough nothing is allocated and nothing fails. *)
Lemma about_to_modify_owned s0 s x n off len b :
  owns s0 s x off len b -> len <= n -> n < W64 -> (d_nul d <> None -> n < npos) -> room n <= zlen b ->
  runs (about_to_modify d x n) s
    (fun _ s' => exists off' b', owns s0 s' x off' len b' /\ off' + room n <= zlen b' /\
                  zlen b <= zlen b' /\ vle (zsub off len b) (zsub off' len b'))
    (fun _ _ => False).
Proof.
  intros HO Hn HnW Hnp Hroom. pose proof (owns_facts _ _ _ _ _ _ HO) as (Q1 & Q2 & Q3 & Q4).
  destruct (owns_view _ _ _ _ _ _ HO) as (o & Hx & Hg & Hlen & Hoff & Hcap & Hview & Href & Hu).
  destruct HO as (I & F & l & g & Hx2 & Hl). unfold about_to_modify.
  eapply runs_step.
  { unfold bind; rewrite (get_obj_ok _ _ _ Hx2). unfold set_obj, with_env; cbn [o_ref o_off o_len]. rewrite (insert_id _ _ _ Hx2).
    reflexivity. }
  replace (State (st_heap s) (st_env s) (st_next s) (st_tick s) (st_freed s)) with s by (destruct s; reflexivity).
  destruct (is_shared_eq s x o I Hx) as (sh & Hsh & Hshp).
  eapply runs_step; [exact Hsh|]. destruct sh.
  { destruct Hshp as (l2 & c2 & H1 & H2 & H3). specialize (Hu l2 c2 H1 H2); lia. }
  eapply runs_conseq; [apply (v_reserve_spec s x n (d_grow d) o); try assumption; lia| |].
  - intros ? s' Hres. assert (o_hash o = 0) as Hh by (rewrite Hx in Hx2; injection Hx2 as ->; reflexivity).
    destruct (reserved_owns s0 s x o s' _ F Hh Hres) as (off' & b' & HO' & Hr' & Hv' & Hc').
    exists off', b'. rewrite <- Hlen. split; [exact HO'|]. split; [exact Hr'|]. split; [lia|].
    rewrite Hv', Hview, Hlen. apply vle_refl.
  - intros e s' (_ & _ & [H|H] & _); [contradiction|lia].
Qed.
End Own.
