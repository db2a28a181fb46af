(** Moves, swaps, slices and read-only operations. *)
From Verif Require Import RcaSpec RcaModel RcaInv RcaOwn RcaRel.
From Coq Require Import ZifyBool.
Open Scope Z_scope.

Section Rel2.
Context {T : Type} (d : desc T).
Notation St := (state T).
Implicit Types (s : St) (x y : var) (l : loc) (o : obj) (a : astate T).
Notation R := (R d).
Notation held := (held d).

Lemma live_some a x : live a x = true -> exists av, a !! x = Some av.
Proof. unfold live, fresh_var. destruct (a !! x); [eauto|discriminate]. Qed.
Lemma fresh_none a x : fresh_var a x = true -> a !! x = None.
Proof. unfold fresh_var. destruct (a !! x); [discriminate|reflexivity]. Qed.

Lemma frame_rep X s s' y o av :
  Frame X s s' -> ~ X y -> st_env s !! y = Some o -> rep d (st_heap s) o av -> rep d (st_heap s') o av.
Proof.
  intros HF Hy Ho Hrep. destruct av as [r v|]; [|exact Hrep]. destruct Hrep as (Hg & Hv & Hrm).
  split; [exact Hg|]. split; [eapply vle_trans; [exact Hv|]; eapply frame_view; eassumption|].
  intros H1 H2. destruct (Hrm H1 H2) as [H|H]; [left; exact H|right].
  destruct (HF y Hy) as [_ Hb]. specialize (Hb o Ho). unfold cap in *.
  destruct (buf_of (st_heap s) o) as [b|], (buf_of (st_heap s') o) as [b'|]; cbn in Hb; try contradiction.
  - rewrite <- (vle_len _ _ Hb); exact H.
  - exact H.
Qed.

Lemma assign_move_R s a x y av :
  R s a -> x <> y -> a !! y = Some av -> live a x = true ->
  exists s', assign_move x y s = Ok tt s' /\ R s' (<[x:=av]> (<[y:=AMoved]> a)).
Proof.
  intros HR Hxy Hy Hl. destruct (live_some _ _ Hl) as (ax & Hxa).
  destruct (R_lookup _ _ _ _ _ HR Hxa) as (ox & Hx & _).
  destruct (R_lookup _ _ _ _ _ HR Hy) as (oy & Hoy & Hrep).
  pose proof HR as [HI _]. unfold assign_move, bind. destruct (Pos.eqb_spec x y); [contradiction|].
  destruct (check_dealloc_eq s x ox Hx) as (r & f & Hk).
  { intros l Hr. exact (inv_ref_live d s x ox l HI Hx Hr). }
  rewrite Hk. set (s1 := State _ _ _ _ _).
  assert (Hy1 : st_env s1 !! y = Some oy) by (unfold s1; cbn; rewrite lookup_insert_ne by exact Hxy; exact Hoy).
  rewrite (get_obj_ok _ _ _ Hy1). unfold set_obj, with_env; cbn.
  set (o0 := Obj None (o_off oy) (o_len oy) (o_hash oy)).
  eexists; split; [reflexivity|].
  pose proof (frame_drop d (eq x) _ _ _ x ox eq_refl HI Hx) as HFd.
  eapply (R_two d); [exact HR| | |exact Hxy| |].
  - unfold Inv; cbn.
    assert (<[y:=o0]> (<[x:=oy]> (<[x:=Obj r (o_off ox) (o_len ox) (o_hash ox)]> (st_env s)))
            = <[y:=o0]> (<[x:=oy]> (delete y (delete x (st_env s))))) as ->.
    { rewrite insert_insert. rewrite !(insert_commute _ y x) by congruence.
      rewrite insert_delete_insert. rewrite !(insert_commute _ x y) by congruence.
      rewrite insert_delete_insert. reflexivity. }
    apply inv_null; [|intros o2 H2; rewrite lookup_insert_ne, lookup_delete in H2 by exact Hxy; discriminate|reflexivity].
    eapply inv_rename; [eapply inv_release; eassumption| |apply lookup_delete].
    rewrite lookup_delete_ne by exact Hxy. exact Hoy.
  - unfold Frame; cbn. eapply frame_trans; [eapply frame_mono; [|exact HFd]; tauto|].
    eapply frame_trans; [apply frame_env; left; reflexivity|].
    eapply frame_trans; [apply frame_env; left; reflexivity|apply frame_env; right; reflexivity].
  - cbn. rewrite lookup_insert_ne, lookup_insert by congruence.
    eapply (frame_rep (eq x) s (with_heap s (drop (o_ref ox) (st_heap s)))); [exact HFd|exact Hxy|exact Hoy|exact Hrep].
  - cbn. rewrite lookup_insert. reflexivity.
Qed.

Lemma inv_swap h e n x y ox oy :
  InvH d h e n -> x <> y -> e !! x = Some ox -> e !! y = Some oy ->
  InvH d h (<[y:=ox]> (<[x:=oy]> e)) n.
Proof.
  intros [Hc Ho] Hxy Hx Hy. split.
  - intros l c Hl. destruct (Hc l c Hl) as [E1 E2 E3 E4]; constructor; try assumption.
    assert (Hy' : <[x:=oy]> e !! y = Some oy) by (rewrite lookup_insert_ne by exact Hxy; exact Hy).
    rewrite (count_update l _ y oy ox Hy'), (count_update l e x ox oy Hx). lia.
  - intros z oz Hz. destruct (decide (y = z)) as [<-|Hn].
    + rewrite lookup_insert in Hz; injection Hz as <-; eauto.
    + rewrite lookup_insert_ne in Hz by exact Hn. destruct (decide (x = z)) as [<-|Hn'].
      * rewrite lookup_insert in Hz; injection Hz as <-; eauto.
      * rewrite lookup_insert_ne in Hz by exact Hn'; eauto.
Qed.

Lemma swap_R s a x y ax ay :
  R s a -> a !! x = Some ax -> a !! y = Some ay ->
  exists s', swap x y s = Ok tt s' /\ R s' (<[y:=ax]> (<[x:=ay]> a)).
Proof.
  intros HR Hx Hy. destruct (R_lookup _ _ _ _ _ HR Hx) as (ox & Hox & Hrx).
  destruct (R_lookup _ _ _ _ _ HR Hy) as (oy & Hoy & Hry).
  unfold swap, bind. rewrite (get_obj_ok _ _ _ Hox), (get_obj_ok _ _ _ Hoy).
  unfold set_obj, with_env; cbn. eexists; split; [reflexivity|].
  destruct (decide (x = y)) as [<-|Hxy].
  - assert (oy = ox) as -> by congruence. assert (ay = ax) as -> by congruence.
    rewrite !insert_insert, (insert_id a x ax Hx).
    assert (<[x:=ox]> (st_env s) = st_env s) as -> by (apply insert_id, Hox). exact HR.
  - rewrite (insert_commute a) by congruence. rewrite (insert_commute (st_env s)) by congruence.
    eapply (R_two d); [exact HR| | |exact Hxy| |].
    + unfold Inv; cbn. rewrite insert_commute by congruence. apply inv_swap; try assumption. apply HR.
    + unfold Frame; cbn. eapply frame_trans; [apply frame_env; right; reflexivity|apply frame_env; left; reflexivity].
    + cbn. rewrite lookup_insert. exact Hry.
    + cbn. rewrite lookup_insert_ne, lookup_insert by exact Hxy. exact Hrx.
Qed.

(** clear(): works on any live object. *)
Lemma clear_inv s x o :
  Inv d s -> st_env s !! x = Some o ->
  exists s' o', clear x s = Ok tt s' /\ Inv d s' /\ Frame (eq x) s s' /\ st_env s' !! x = Some o' /\
    o_off o' = 0 /\ o_len o' = 0 /\ o_hash o' = 0 /\ unshared (st_heap s') o'.
Proof.
  intros HI Hx. unfold clear.
  destruct (is_shared_eq d s x o HI Hx) as (sh & Hsh & Hshp). unfold bind at 1. rewrite Hsh. destruct sh.
  - destruct Hshp as (l & c & Hr & Hl & H1).
    destruct (detach_shared d s x o l c HI Hx Hr Hl H1) as (s' & Hd & I' & F' & E' & _).
    exists s', obj_empty. splits; try assumption. intros l2 c2 H2; discriminate.
  - unfold bind. rewrite (get_obj_ok _ _ _ Hx). unfold set_obj, with_env; cbn.
    eexists _, (Obj (o_ref o) 0 0 0). split; [reflexivity|]. splits; try reflexivity.
    + unfold Inv; cbn. eapply inv_same_ref; [exact HI|exact Hx|reflexivity|].
      intros l Hl; cbn in Hl. destruct HI as [_ Ho]. destruct (Ho x o Hx l Hl) as (c & Hc & _).
      exists c; cbn. pose proof (zlen_nonneg (c_buf c)). splits; try assumption; try lia. left; reflexivity.
    + unfold Frame; cbn. apply frame_env; reflexivity.
    + cbn; apply lookup_insert.
    + exact Hshp.
Qed.
Lemma view_zero h o : o_len o = 0 -> view (T:=T) h o = [].
Proof.
  intros H; unfold view; rewrite H. destruct (o_ref o) as [l|]; [|reflexivity].
  destruct (h !! l); reflexivity.
Qed.
Lemma zero_rep h o : o_off o = 0 -> o_len o = 0 -> o_hash o = 0 -> rep d h o (AVal true []).
Proof.
  intros H1 H2 H3. split; [intros _; splits; try assumption; left; exact H3|].
  split; [rewrite view_zero by exact H2; constructor|]. intros _ _; left; exact H2.
Qed.
Lemma clear_R s a x :
  R s a -> live a x = true -> exists s', clear x s = Ok tt s' /\ R s' (<[x:=AVal true []]> a).
Proof.
  intros HR Hl. destruct (live_some _ _ Hl) as (ax & Hxa).
  destruct (R_lookup _ _ _ _ _ HR Hxa) as (o & Hx & _).
  destruct (clear_inv s x o (proj1 HR) Hx) as (s' & o' & Hc & I' & F' & E' & H1 & H2 & H3 & _).
  exists s'; split; [exact Hc|]. eapply R_put; try eassumption. apply zero_rep; assumption.
Qed.

(** Shrinking operations. *)
Lemma u64_lt n : 0 <= n <= max_alloc -> u64 n = n.
Proof. intros; apply u64_id; unfold max_alloc, W64 in *; lia. Qed.

Lemma held_bounds s x o r v : held s x o r v -> 0 <= zlen v <= max_alloc /\ 0 <= o_off o /\ o_off o + zlen v <= max_alloc.
Proof. intros [Hx Hg Hv Hrm Hlen Hoff Hfit Hcap]. pose proof (zlen_nonneg v). lia. Qed.


Lemma truncate_R s a x r v n :
  R s a -> a !! x = Some (AVal r v) -> 0 <= n <= zlen v ->
  exists s', set_length x n s = Ok tt s' /\ R s' (<[x:=AVal r (ztake n v)]> a).
Proof.
  intros HR Ha Hn. destruct (R_held d _ _ _ _ _ HR Ha) as (o & Hh).
  unfold set_length, bind. rewrite (get_obj_ok _ _ _ (hd_env _ _ _ _ _ _ Hh)).
  eexists; split; [reflexivity|]. rewrite ztake_zsub.
  pose proof (R_sub d s a x o r v 0 n HR Hh ltac:(lia) ltac:(lia) ltac:(lia)) as H.
  rewrite Z.add_0_r in H. exact H.
Qed.
Lemma sub_length_R s a x r v k :
  R s a -> a !! x = Some (AVal r v) -> 0 <= k <= zlen v ->
  exists s', sub_length x k s = Ok tt s' /\ R s' (<[x:=AVal r (ztake (zlen v - k) v)]> a).
Proof.
  intros HR Ha Hn. destruct (R_held d _ _ _ _ _ HR Ha) as (o & Hh).
  pose proof (held_bounds _ _ _ _ _ Hh).
  unfold sub_length, bind. rewrite (get_obj_ok _ _ _ (hd_env _ _ _ _ _ _ Hh)).
  rewrite (hd_len _ _ _ _ _ _ Hh), u64_lt by lia.
  eexists; split; [reflexivity|]. rewrite ztake_zsub.
  pose proof (R_sub d s a x o r v 0 (zlen v - k) HR Hh ltac:(lia) ltac:(lia) ltac:(lia)) as HH.
  rewrite Z.add_0_r in HH. exact HH.
Qed.
Lemma not_empty_ok s x o r v : held s x o r v -> 0 < zlen v -> check d (not_empty x) s = Ok tt s.
Proof.
  intros Hh Hl. apply check_ok. unfold not_empty, bind. rewrite (held_len _ _ _ _ _ _ Hh). unfold ret. destruct (Z.eqb_spec (zlen v) 0); [lia|reflexivity].
Qed.
Lemma pop_back_R s a x r v :
  R s a -> a !! x = Some (AVal r v) -> 0 < zlen v ->
  exists s', pop_back d x s = Ok tt s' /\ R s' (<[x:=AVal r (ztake (zlen v - 1) v)]> a).
Proof.
  intros HR Ha Hl. destruct (R_held d _ _ _ _ _ HR Ha) as (o & Hh). unfold pop_back, bind. rewrite (not_empty_ok _ _ _ _ _ Hh Hl).
  apply sub_length_R; try assumption. lia.
Qed.
Lemma advance_R s a x o r v k :
  R s a -> held s x o r v -> 0 <= k <= zlen v ->
  R (with_env s (<[x:=Obj (o_ref o) (u64 (o_off o + k)) (u64 (o_len o - k)) 0]> (st_env s)))
    (<[x:=AVal r (zdrop k v)]> a).
Proof.
  intros HR Hh Hk. pose proof (held_bounds _ _ _ _ _ Hh).
  rewrite (hd_len _ _ _ _ _ _ Hh), !u64_lt by lia. rewrite zdrop_zsub by exact Hk.
  apply R_sub; try assumption; lia.
Qed.

Lemma drop_front_R s a x r v n :
  R s a -> a !! x = Some (AVal r v) -> 0 <= n ->
  exists s', str_drop_front x n s = Ok tt s' /\ R s' (<[x:=AVal r (zdrop n v)]> a).
Proof.
  intros HR Ha Hn. destruct (R_held d _ _ _ _ _ HR Ha) as (o & Hh).
  unfold str_drop_front, bind. rewrite (get_obj_ok _ _ _ (hd_env _ _ _ _ _ _ Hh)).
  rewrite (hd_len _ _ _ _ _ _ Hh). pose proof (zlen_nonneg v).
  destruct (Z.eqb_spec (zlen v) 0).
  { eexists; split; [reflexivity|]. rewrite zdrop_all by lia.
    assert (v = []) as -> by (apply zlen_0_nil; assumption). rewrite insert_id by exact Ha. exact HR. }
  destruct (Z.ltb_spec (zlen v) n).
  - eexists; split; [reflexivity|]. rewrite zdrop_all by lia. eapply R_empty; [exact HR|exact Hh|lia].
  - eexists; split; [reflexivity|]. rewrite <- (hd_len _ _ _ _ _ _ Hh).
    eapply advance_R; [exact HR|exact Hh|lia].
Qed.
Lemma drop_back_R s a x r v n :
  R s a -> a !! x = Some (AVal r v) -> 0 <= n ->
  exists s', str_drop_back x n s = Ok tt s' /\ R s' (<[x:=AVal r (ztake (zlen v - n) v)]> a).
Proof.
  intros HR Ha Hn. destruct (R_held d _ _ _ _ _ HR Ha) as (o & Hh).
  unfold str_drop_back, bind at 1. rewrite (get_obj_ok _ _ _ (hd_env _ _ _ _ _ _ Hh)).
  rewrite (hd_len _ _ _ _ _ _ Hh). pose proof (zlen_nonneg v).
  destruct (Z.eqb_spec (zlen v) 0).
  { eexists; split; [reflexivity|]. rewrite ztake_0 by lia.
    assert (v = []) as -> by (apply zlen_0_nil; assumption). rewrite insert_id by exact Ha. exact HR. }
  destruct (Z.ltb_spec (zlen v) n).
  - eexists; split; [reflexivity|]. rewrite ztake_0 by lia. eapply R_empty; [exact HR|exact Hh|lia].
  - eapply sub_length_R; [exact HR|exact Ha|lia].
Qed.
Lemma i32_small n : 0 <= n < W31 -> i32 n = n.
Proof. intros; apply i32_id; unfold W31 in *; lia. Qed.
Lemma arr_drop_front_R s a x r v n :
  R s a -> a !! x = Some (AVal r v) -> 0 <= n < W31 -> zlen v < W31 ->
  exists s', arr_drop_front x n s = Ok tt s' /\ R s' (<[x:=AVal r (zdrop n v)]> a).
Proof.
  intros HR Ha Hn Hv. destruct (R_held d _ _ _ _ _ HR Ha) as (o & Hh).
  unfold arr_drop_front, bind. rewrite (get_obj_ok _ _ _ (hd_env _ _ _ _ _ _ Hh)).
  rewrite (hd_len _ _ _ _ _ _ Hh). pose proof (zlen_nonneg v).
  destruct (Z.eqb_spec (zlen v) 0).
  { eexists; split; [reflexivity|]. rewrite zdrop_all by lia.
    assert (v = []) as -> by (apply zlen_0_nil; assumption). rewrite insert_id by exact Ha. exact HR. }
  rewrite i32_small by lia.
  assert (fits_i32 (zlen v - n) = true) as -> by (unfold fits_i32, W31 in *; lia). cbn [negb].
  destruct (Z.ltb_spec (zlen v - n) 0).
  - eexists; split; [reflexivity|]. rewrite zdrop_all by lia. eapply R_empty; [exact HR|exact Hh|lia].
  - eexists; split; [reflexivity|]. rewrite <- (hd_len _ _ _ _ _ _ Hh).
    eapply advance_R; [exact HR|exact Hh|lia].
Qed.
Lemma arr_drop_back_R s a x r v n :
  R s a -> a !! x = Some (AVal r v) -> 0 <= n < W31 -> zlen v < W31 ->
  exists s', arr_drop_back x n s = Ok tt s' /\ R s' (<[x:=AVal r (ztake (zlen v - n) v)]> a).
Proof.
  intros HR Ha Hn Hv. destruct (R_held d _ _ _ _ _ HR Ha) as (o & Hh).
  unfold arr_drop_back, bind at 1. rewrite (get_obj_ok _ _ _ (hd_env _ _ _ _ _ _ Hh)).
  rewrite (hd_len _ _ _ _ _ _ Hh). pose proof (zlen_nonneg v).
  destruct (Z.eqb_spec (zlen v) 0).
  { eexists; split; [reflexivity|]. rewrite ztake_0 by lia.
    assert (v = []) as -> by (apply zlen_0_nil; assumption). rewrite insert_id by exact Ha. exact HR. }
  rewrite i32_small by lia.
  assert (fits_i32 (zlen v - n) = true) as -> by (unfold fits_i32, W31 in *; lia). cbn [negb].
  destruct (Z.ltb_spec (zlen v - n) 0).
  - eexists; split; [reflexivity|]. rewrite ztake_0 by lia. eapply R_empty; [exact HR|exact Hh|lia].
  - eapply sub_length_R; [exact HR|exact Ha|lia].
Qed.

(** slice() *)
Lemma s64_u64 z : - W63 <= z < W63 -> s64 (u64 z) = z.
Proof.
  intros H. unfold s64, u64. rewrite Zplus_mod_idemp_l, Z.mod_small by (unfold W63, W64 in *; lia). lia.
Qed.
Lemma u64_s64 z : 0 <= z < W63 -> u64 (s64 (u64 z)) = z.
Proof. intros H. rewrite s64_u64 by lia. apply u64_id. unfold W63, W64 in *; lia. Qed.
Definition slice_en (n st len : Z) : Z :=
  if len =? -1 then n else if len <? 0 then n + len else Z.min n (st + len).
Lemma slice_len n start len st len1 :
  0 <= n < W31 -> st = sp_slice_start n start -> st < n -> start < n ->
  (-1 <= len \/ n <= start \/ st <= n + len) -> - W63 <= len + n < W63 -> - W63 + W31 <= start ->
  - W63 <= len < W63 ->
  len1 = (if len =? -1 then n - start else len) ->
  fits_s64 (st + len1) = true /\
  u64 (if n <=? st + len1 then s64 (u64 (n - st))
       else if len1 <? 0 then s64 (u64 (n - st + len1)) else len1) = slice_en n st len - st /\
  st <= slice_en n st len <= n.
Proof.
  intros Hn Hst Hlt Hs Hok Ho1 Ho2 Ho3 H1. unfold sp_slice_start in Hst.
  assert (Hst0 : 0 <= st) by (destruct (Z.ltb_spec start 0); lia).
  assert (Hw : W31 = 2147483648) by reflexivity.
  assert (Hw2 : W63 = 9223372036854775808) by reflexivity.
  assert (Hw3 : W64 = 18446744073709551616) by reflexivity.
  unfold slice_en, fits_s64.
  destruct (Z.eqb_spec len (-1)) as [He|He].
  - assert (n <= st + len1) by (destruct (Z.ltb_spec start 0); lia).
    assert (st + len1 < W63) by (destruct (Z.ltb_spec start 0); lia).
    destruct (Z.leb_spec n (st + len1)); [|lia].
    rewrite u64_s64 by lia. split; [lia|]. split; lia.
  - subst len1. assert (- W63 <= st + len < W63) by lia. split; [lia|].
    destruct (Z.leb_spec n (st + len)).
    + rewrite u64_s64 by lia. destruct (Z.ltb_spec len 0); lia.
    + destruct (Z.ltb_spec len 0).
      * rewrite u64_s64 by lia. lia.
      * rewrite u64_id by lia. lia.
Qed.
Lemma sp_slice_sub (v : list (option T)) start len :
  sp_slice_start (zlen v) start < zlen v ->
  sp_slice v start len = zsub (sp_slice_start (zlen v) start)
    (slice_en (zlen v) (sp_slice_start (zlen v) start) len - sp_slice_start (zlen v) start) v.
Proof.
  intros H. unfold sp_slice, slice_en, zsub.
  destruct (Z.leb_spec (zlen v) (sp_slice_start (zlen v) start)); [lia|]. reflexivity.
Qed.
Lemma sp_slice_nil (v : list (option T)) start len :
  zlen v <= sp_slice_start (zlen v) start -> sp_slice v start len = [].
Proof.
  intros H. unfold sp_slice. destruct (Z.leb_spec (zlen v) (sp_slice_start (zlen v) start)); [reflexivity|lia].
Qed.
Lemma slice_R s a x r v start len :
  R s a -> a !! x = Some (AVal r v) -> sp_slice_ok (zlen v) start len = true ->
  exists s', slice x start len s = Ok tt s' /\ R s' (<[x:=AVal r (sp_slice v start len)]> a).
Proof.
  intros HR Ha Hok. destruct (R_held d _ _ _ _ _ HR Ha) as (o & Hh).
  pose proof (held_bounds _ _ _ _ _ Hh) as Hb. pose proof (zlen_nonneg v) as Hv0.
  unfold sp_slice_ok, in_s64 in Hok.
  assert (Hw : W31 = 2147483648) by reflexivity.
  assert (Hw2 : W63 = 9223372036854775808) by reflexivity.
  unfold slice, bind at 1. rewrite (get_obj_ok _ _ _ (hd_env _ _ _ _ _ _ Hh)).
  rewrite (hd_len _ _ _ _ _ _ Hh). rewrite i32_small by lia.
  assert (((len =? -1) && negb (fits_s64 (zlen v - start))) = false) as ->.
  { unfold fits_s64. lia. }
  unfold bind. cbn [ret].
  remember (sp_slice_start (zlen v) start) as st eqn:Est.
  assert (Hst : start < zlen v -> (if (if start <? 0 then s64 (u64 (zlen v + start)) else start) <? 0 then 0
                 else if start <? 0 then s64 (u64 (zlen v + start)) else start) = st).
  { intros _. subst st; unfold sp_slice_start. destruct (Z.ltb_spec start 0).
    - rewrite s64_u64 by lia. destruct (Z.ltb_spec (zlen v + start) 0); lia.
    - destruct (Z.ltb_spec start 0); lia. }
  destruct (Z.leb_spec (zlen v) start) as [Hge|Hlt].
  { eexists; split; [reflexivity|]. rewrite sp_slice_nil.
    - eapply R_empty; [exact HR|exact Hh|lia].
    - unfold sp_slice_start; destruct (Z.ltb_spec start 0); lia. }
  rewrite (Hst Hlt). clear Hst.
  destruct (Z.leb_spec (zlen v) st) as [Hnst|Hnst].
  - (* only for the empty value *)
    assert (zlen v = 0 /\ st = 0) as [Hv Hst0] by (subst st; unfold sp_slice_start in *; destruct (Z.ltb_spec start 0); lia).
    rewrite sp_slice_nil by (rewrite <- Est; exact Hnst).
    assert (0 <= st + (if len =? -1 then zlen v - start else len) < W63) as Hf.
    { destruct (Z.eqb_spec len (-1)); lia. }
    assert (fits_s64 (st + (if len =? -1 then zlen v - start else len)) = true) as -> by (unfold fits_s64; lia). cbn [negb].
    destruct (Z.leb_spec (zlen v) (st + (if len =? -1 then zlen v - start else len))); [|lia].
    eexists; split; [reflexivity|]. rewrite Hst0, Hv, Z.add_0_r. rewrite u64_lt by lia.
    rewrite u64_s64 by lia. pose proof (R_sub d s a x o r v 0 0 HR Hh ltac:(lia) ltac:(lia) ltac:(lia)) as H'.
    rewrite Z.add_0_r, zsub_0 in H' by lia. exact H'.
  - destruct (slice_len (zlen v) start len st (if len =? -1 then zlen v - start else len)) as (Hf & Hl & He); try lia.
    rewrite Hf. cbn [negb]. rewrite Hl. eexists; split; [reflexivity|].
    assert (0 <= st) by (subst st; unfold sp_slice_start; destruct (Z.ltb_spec start 0); lia).
    rewrite (u64_lt (o_off o + st)) by lia.
    rewrite sp_slice_sub by (rewrite <- Est; exact Hnst). rewrite <- Est.
    apply R_sub; try assumption; lia.
Qed.

(** Hash. *)
Lemma djb_somes h es : djb d h (map Some es) =
  Some (fold_left (fun acc c => (33 * acc + d_hash d c) mod W64) es h) .
Proof.
  revert h; induction es as [|c es IH]; intros h; [reflexivity|]. cbn [map djb fold_left].
  rewrite IH. do 2 f_equal. unfold u64.
  rewrite Zplus_mod_idemp_l, <- Z.add_assoc, Zplus_mod_idemp_l. f_equal. lia.
Qed.
Lemma land31 z : Z.land z 2147483647 = z mod W31.
Proof. change 2147483647 with (Z.ones 31). rewrite Z.land_ones by lia. reflexivity. Qed.
Lemma hash_ok_eq es k : hash_ok d (map Some es) k -> k = 0 \/ k = sp_hash (d_hash d) es.
Proof.
  intros [->|(r & Hr & ->)]; [left; reflexivity|right].
  rewrite djb_somes in Hr; injection Hr as <-. rewrite land31. reflexivity.
Qed.

Lemma vals_some v es : vals v = Some es -> v = map (@Some T) es.
Proof.
  revert es; induction v as [|[e|] v IH]; cbn; intros es H; [injection H as <-; reflexivity| |discriminate].
  destruct (vals v) as [es'|]; [|discriminate]. injection H as <-. cbn. f_equal. apply IH; reflexivity.
Qed.

Lemma hash_R s a x r v es :
  R s a -> a !! x = Some (AVal r v) -> vals v = Some es ->
  exists s', hash d x s = Ok (sp_hash (d_hash d) es) s' /\ R s' a.
Proof.
  intros HR Ha Hes. pose proof (vals_some _ _ Hes) as ->. destruct (R_held d _ _ _ _ _ HR Ha) as (o & Hh).
  pose proof Hh as [Hx Hg Hv Hrm Hlen Hoff Hfit Hcap]. pose proof HR as [HI _].
  pose proof (vle_somes _ _ Hv) as Hview.
  unfold hash, bind at 1. rewrite (get_obj_ok _ _ _ Hx).
  assert (Hok : hash_ok d (view (st_heap s) o) (o_hash o)).
  { unfold view. destruct (o_ref o) as [l|] eqn:Hr.
    - destruct HI as [_ Ho]. destruct (Ho x o Hx l Hr) as (c & Hc & _ & _ & _ & H). rewrite Hc; exact H.
    - destruct (Hg Hr) as (_ & _ & H); exact H. }
  destruct (Z.eqb_spec (o_hash o) 0) as [Hz|Hnz]; cbn [negb].
  2:{ exists s; split; [|exact HR]. unfold ret. f_equal. rewrite Hview in Hok.
      destruct (hash_ok_eq _ _ Hok); [contradiction|assumption]. }
  destruct (held_load d s x o r _ 0 (o_len o) HI Hh) as (l & Hl & Hvl); [lia|lia|].
  unfold bind. rewrite Hl. rewrite Hlen, zsub_all in Hvl. apply vle_somes in Hvl as ->.
  rewrite djb_somes. unfold set_obj, ret; cbn. rewrite land31. fold (sp_hash (d_hash d) es).
  eexists; split; [reflexivity|].
  rewrite <- (insert_id a x _ Ha). pose proof (zlen_nonneg (map Some es)).
  eapply R_handle; try eassumption; cbn [o_ref o_off o_len o_hash]; try lia; try reflexivity.
  - intros Hn; apply Hg, Hn.
  - right. unfold view in *; cbn. rewrite Hview, djb_somes. eexists; split; [reflexivity|].
    rewrite land31; reflexivity.
Qed.

(** Searching. *)
Lemma find_from_spec es v i :
  find_from d (map Some es) v i =
  Some (match sp_index (fun c => d_eqb d c v) es with Some j => i + j | None => npos end).
Proof.
  revert i; induction es as [|c es IH]; intros i; [reflexivity|]. cbn.
  destruct (d_eqb d c v); [f_equal; lia|]. rewrite IH.
  destruct (sp_index _ es); cbn; f_equal; lia.
Qed.
Lemma check_pos_eq s a x r v pos :
  R s a -> a !! x = Some (AVal r v) -> 0 <= pos < W64 ->
  check_pos x pos s = if zlen v <? pos then Exn OutOfRange s else Ok tt s.
Proof.
  intros HR Ha Hp. destruct (R_held d _ _ _ _ _ HR Ha) as (o & Hh). pose proof (zlen_nonneg v).
  unfold check_pos. destruct (Z.eqb_spec pos 0) as [->|Hn].
  - destruct (Z.ltb_spec (zlen v) 0); [lia|reflexivity].
  - rewrite u64_id by lia. unfold validate_index, bind. rewrite (held_len _ _ _ _ _ _ Hh).
    destruct (Z.leb_spec (zlen v) (pos - 1)), (Z.ltb_spec (zlen v) pos); try lia; reflexivity.
Qed.

Lemma find_R s a x r v es e pos :
  R s a -> a !! x = Some (AVal r v) -> vals v = Some es -> 0 <= pos < W64 -> pos <= zlen v ->
  find_item d x e pos s = Ok (or_npos (sp_index (fun c => d_eqb d c e) (zdrop pos es))) s.
Proof.
  intros HR Ha Hes Hp Hle. pose proof (vals_some _ _ Hes) as ->. destruct (R_held d _ _ _ _ _ HR Ha) as (o & Hh).
  unfold find_item, bind at 1. rewrite (check_pos_eq _ _ _ _ _ _ HR Ha Hp).
  destruct (Z.ltb_spec (zlen (map Some es)) pos); [lia|].
  unfold bind. rewrite (held_len _ _ _ _ _ _ Hh).
  destruct (held_load d s x o r _ pos (zlen (map Some es) - pos) (proj1 HR) Hh) as (l & Hl & Hvl); [lia|lia|].
  rewrite Hl. rewrite <- zdrop_zsub in Hvl by lia. rewrite zdrop_map in Hvl. apply vle_somes in Hvl as ->.
  rewrite find_from_spec. destruct (sp_index _ _); reflexivity.
Qed.


Lemma rfind_loop_spec s x o r es e k fuel :
  Inv d s -> held s x o r (map Some es) -> 0 <= k <= zlen es -> (Z.to_nat k < fuel)%nat ->
  rfind_loop d fuel x e (u64 (k - 1)) s =
  Ok (or_npos (sp_last_index (fun c => d_eqb d c e) (ztake k es))) s.
Proof.
  intros HI Hh. pose proof (held_bounds _ _ _ _ _ Hh) as Hb. rewrite zlen_map in Hb. revert k.
  induction fuel as [|f IH]; intros k Hk Hf; [lia|]. cbn [rfind_loop].
  destruct (Z.eq_dec k 0) as [->|Hnz].
  - change (u64 (u64 (0 - 1) + 1) <=? 0) with true. cbv iota.
    rewrite ztake_0 by lia. reflexivity.
  - rewrite (u64_lt (k - 1)) by lia. replace (k - 1 + 1) with k by lia. rewrite (u64_lt k) by lia.
    destruct (Z.leb_spec k 0); [lia|].
    destruct (zlist_snoc es k) as (c & Hc & Ht); [lia|].
    unfold bind. rewrite (held_load1 d s x o r _ (k - 1) c HI Hh).
    2:{ unfold znth in *. destruct (k - 1 <? 0); [discriminate|]. rewrite nth_error_map, Hc; reflexivity. }
    rewrite Ht. unfold sp_last_index. rewrite rev_app_distr. cbn [rev app sp_index].
    destruct (d_eqb d c e) eqn:Ec.
    + cbn. unfold ret. f_equal. zlen_simpl. lia.
    + replace (k - 1 - 1) with ((k - 1) - 1) by lia. rewrite IH by lia. f_equal. unfold sp_last_index.
      destruct (sp_index _ (rev (ztake (k - 1) es))); cbn; [|reflexivity]. zlen_simpl. lia.
Qed.
Lemma rfind_R s a x r v es e :
  R s a -> a !! x = Some (AVal r v) -> vals v = Some es ->
  rfind_item d x e s = Ok (or_npos (sp_last_index (fun c => d_eqb d c e) es)) s.
Proof.
  intros HR Ha Hes. pose proof (vals_some _ _ Hes) as ->. destruct (R_held d _ _ _ _ _ HR Ha) as (o & Hh).
  unfold rfind_item, bind. rewrite (held_len _ _ _ _ _ _ Hh), zlen_map.
  pose proof (zlen_nonneg es).
  rewrite (rfind_loop_spec s x o r es e (zlen es) _ (proj1 HR) Hh) by lia. rewrite ztake_all by lia. reflexivity.
Qed.

(** trim and chomp. *)

Lemma ltrim_R sp x r fuel : forall s a es,
  R s a -> a !! x = Some (AVal r (map Some es)) -> (Z.to_nat (zlen es) <= fuel)%nat ->
  exists s', ltrim_loop sp fuel x s = Ok tt s' /\ R s' (<[x:=AVal r (map Some (sp_drop_while sp es))]> a).
Proof.
  induction fuel as [|f IH]; intros s a es HR Ha Hf; destruct (R_held d _ _ _ _ _ HR Ha) as (o & Hh);
    cbn [ltrim_loop]; unfold bind at 1; rewrite (held_len _ _ _ _ _ _ Hh), zlen_map.
  - destruct es as [|c es]; [|rewrite zlen_cons in Hf; pose proof (zlen_nonneg es); lia].
    cbn. eexists; split; [reflexivity|]. rewrite insert_id by exact Ha. exact HR.
  - destruct es as [|c es].
    { cbn. eexists; split; [reflexivity|]. rewrite insert_id by exact Ha. exact HR. }
    rewrite zlen_cons in Hf |- *. pose proof (zlen_nonneg es). destruct (Z.eqb_spec (1 + zlen es) 0); [lia|].
    unfold bind at 1. rewrite (held_load1 d s x o r _ 0 c (proj1 HR) Hh) by reflexivity.
    cbn [sp_drop_while]. destruct (sp c); cbn [negb].
    + unfold bind at 1 2. rewrite (get_obj_ok _ _ _ (hd_env _ _ _ _ _ _ Hh)).
      assert (HR1 := advance_R s a x o r _ 1 HR Hh). rewrite zlen_map, zlen_cons in HR1.
      specialize (HR1 ltac:(lia)). change (zdrop 1 (map Some (c :: es))) with (map Some es) in HR1.
      destruct (IH _ _ es HR1) as (s' & Hs' & HR'); [apply lookup_insert|lia|].
      exists s'. split; [exact Hs'|]. rewrite insert_insert in HR'. exact HR'.
    + eexists; split; [reflexivity|]. rewrite insert_id by exact Ha. exact HR.
Qed.
Lemma rtrim_R sp x r fuel : forall s a es,
  R s a -> a !! x = Some (AVal r (map Some (rev es))) -> (Z.to_nat (zlen es) <= fuel)%nat ->
  exists s', rtrim_loop sp fuel x s = Ok tt s' /\ R s' (<[x:=AVal r (map Some (rev (sp_drop_while sp es)))]> a).
Proof.
  induction fuel as [|f IH]; intros s a es HR Ha Hf; destruct (R_held d _ _ _ _ _ HR Ha) as (o & Hh);
    cbn [rtrim_loop]; unfold bind at 1; rewrite (held_len _ _ _ _ _ _ Hh), zlen_map, zlen_rev.
  - destruct es as [|c es]; [|rewrite zlen_cons in Hf; pose proof (zlen_nonneg es); lia].
    cbn. eexists; split; [reflexivity|]. rewrite insert_id by exact Ha. exact HR.
  - destruct es as [|c es].
    { cbn. eexists; split; [reflexivity|]. rewrite insert_id by exact Ha. exact HR. }
    pose proof (held_bounds _ _ _ _ _ Hh) as Hb. rewrite zlen_map, zlen_rev, zlen_cons in Hb.
    rewrite zlen_cons in Hf |- *. pose proof (zlen_nonneg es). destruct (Z.eqb_spec (1 + zlen es) 0); [lia|].
    rewrite u64_lt by lia. replace (1 + zlen es - 1) with (zlen es) by lia.
    unfold bind at 1. rewrite (held_load1 d s x o r _ (zlen es) c (proj1 HR) Hh).
    2:{ rewrite znth_map. cbn [rev]. rewrite znth_app, zlen_rev.
        destruct (Z.ltb_spec (zlen es) (zlen es)); [lia|]. rewrite Z.sub_diag. reflexivity. }
    cbn [sp_drop_while]. destruct (sp c); cbn [negb].
    + unfold bind at 1. destruct (sub_length_R s a x r _ 1 HR Ha) as (s1 & Hs1 & HR1).
      { rewrite zlen_map, zlen_rev, zlen_cons. lia. }
      rewrite Hs1. rewrite zlen_map, zlen_rev, zlen_cons, ztake_map in HR1.
      replace (1 + zlen es - 1) with (zlen (rev es)) in HR1 by (rewrite zlen_rev; lia).
      assert (ztake (zlen (rev es)) (rev (c :: es)) = rev es) as Ht.
      { cbn [rev]. unfold ztake. replace (Z.to_nat (zlen (rev es))) with (length (rev es)) by (unfold zlen; lia).
        rewrite firstn_app, Nat.sub_diag, firstn_all, app_nil_r. reflexivity. }
      rewrite Ht in HR1.
      destruct (IH _ _ es HR1) as (s' & Hs' & HR'); [apply lookup_insert|lia|].
      exists s'. split; [exact Hs'|]. rewrite insert_insert in HR'. exact HR'.
    + eexists; split; [reflexivity|]. rewrite insert_id by exact Ha. exact HR.
Qed.
Lemma drop_while_len (sp : T -> bool) es : zlen (sp_drop_while sp es) <= zlen es.
Proof.
  induction es as [|c es IH]; cbn [sp_drop_while]; [lia|]. destruct (sp c); rewrite ?zlen_cons; lia.
Qed.
Lemma trim_R sp s a x r v es :
  R s a -> a !! x = Some (AVal r v) -> vals v = Some es ->
  exists s', trim sp x s = Ok tt s' /\ R s' (<[x:=AVal r (map Some (sp_trim sp es))]> a).
Proof.
  intros HR Ha Hes. pose proof (vals_some _ _ Hes) as ->. destruct (R_held d _ _ _ _ _ HR Ha) as (o & Hh).
  unfold trim, bind at 1. rewrite (held_len _ _ _ _ _ _ Hh), zlen_map.
  destruct (ltrim_R sp x r (Z.to_nat (zlen es)) s a es HR Ha) as (s1 & H1 & HR1); [lia|].
  unfold bind. rewrite H1.
  pose proof (drop_while_len sp es).
  destruct (rtrim_R sp x r (Z.to_nat (zlen es)) s1 _ (rev (sp_drop_while sp es)) HR1) as (s2 & H2 & HR2).
  - rewrite rev_involutive. apply lookup_insert.
  - rewrite zlen_rev. lia.
  - exists s2; split; [exact H2|]. rewrite insert_insert in HR2. exact HR2.
Qed.
Lemma chomp1_R s a x r es c :
  R s a -> a !! x = Some (AVal r (map Some es)) ->
  exists s', chomp1 d x c s = Ok tt s' /\
    R s' (<[x:=AVal r (map Some (sp_chomp1 (fun b => d_eqb d b c) es))]> a).
Proof.
  intros HR Ha. destruct (R_held d _ _ _ _ _ HR Ha) as (o & Hh).
  unfold chomp1, bind at 1. rewrite (held_len _ _ _ _ _ _ Hh), zlen_map.
  pose proof (held_bounds _ _ _ _ _ Hh) as Hb. rewrite zlen_map in Hb.
  unfold sp_chomp1. destruct (rev es) as [|b es'] eqn:Er.
  { assert (es = []) as -> by (rewrite <- (rev_involutive es), Er; reflexivity).
    cbn. eexists; split; [reflexivity|]. rewrite insert_id by exact Ha. exact HR. }
  assert (es = rev es' ++ [b]) as He by (rewrite <- (rev_involutive es), Er; reflexivity).
  assert (Hl : zlen es = zlen (rev es') + 1) by (rewrite He; zlen_simpl; lia).
  pose proof (zlen_nonneg (rev es')).
  destruct (Z.eqb_spec (zlen es) 0); [lia|]. rewrite u64_lt by lia.
  unfold bind. rewrite (held_load1 d s x o r _ (zlen es - 1) b (proj1 HR) Hh).
  2:{ rewrite znth_map, Hl. rewrite He at 1. rewrite znth_app. destruct (Z.ltb_spec (zlen (rev es') + 1 - 1) (zlen (rev es'))); [lia|].
      replace (zlen (rev es') + 1 - 1 - zlen (rev es')) with 0 by lia. reflexivity. }
  destruct (d_eqb d b c).
  - destruct (pop_back_R s a x r _ HR Ha) as (s1 & Hs1 & HR1); [rewrite zlen_map; lia|].
    exists s1; split; [exact Hs1|]. rewrite zlen_map, ztake_map in HR1.
    assert (ztake (zlen es - 1) es = rev es') as Ht.
    { rewrite Hl. replace (zlen (rev es') + 1 - 1) with (zlen (rev es')) by lia. rewrite He. unfold ztake.
      replace (Z.to_nat (zlen (rev es'))) with (length (rev es')) by (unfold zlen; lia).
      rewrite firstn_app, Nat.sub_diag, firstn_all, app_nil_r. reflexivity. }
    rewrite Ht in HR1. exact HR1.
  - eexists; split; [reflexivity|]. rewrite insert_id by exact Ha. exact HR.
Qed.
Lemma chomp_R s a x r v es nl cr :
  R s a -> a !! x = Some (AVal r v) -> vals v = Some es ->
  exists s', chomp d x nl cr s = Ok tt s' /\
    R s' (<[x:=AVal r (map Some (sp_chomp1 (fun c => d_eqb d c cr) (sp_chomp1 (fun c => d_eqb d c nl) es)))]> a).
Proof.
  intros HR Ha Hes. pose proof (vals_some _ _ Hes) as ->.
  destruct (chomp1_R s a x r es nl HR Ha) as (s1 & H1 & HR1). unfold chomp, bind. rewrite H1.
  destruct (chomp1_R s1 _ x r _ cr HR1 (lookup_insert _ _ _)) as (s2 & H2 & HR2).
  exists s2; split; [exact H2|]. rewrite insert_insert in HR2. exact HR2.
Qed.
End Rel2.
