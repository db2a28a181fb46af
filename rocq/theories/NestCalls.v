(** Whole member functions of arrays of Strings. *)
From stdpp Require Import gmap.
From Verif Require Import RcaSpec RcaModel RcaExec RcaInv RcaOwn RcaRel RcaMeet RcaMain NestModel NestMeet NestSim NestAbs NestBuf NestOps.
From Coq Require Import ZifyBool.
Open Scope Z_scope.

Section Calls.
Variable d : desc Z.
Variable od : desc positive.
Hypothesis Hwf : wf_desc d.
Notation vd := (vd od).
Notation rel := (rel d).
Notation sim := (sim d).
Notation St := (state sval).

Lemma vle_full (u v : list (option sval)) : Forall is_Some u -> vle u v -> v = u.
Proof.
  intros F H. induction H as [|e e' u v He H IH]; [reflexivity|]. inversion F as [|? ? [w ->] F']; subst. destruct He as [He|He]; [discriminate|].
  rewrite IH by exact F'. congruence.
Qed.
Lemma full_map (vs : list sval) : Forall is_Some (map Some vs).
Proof. apply List.Forall_forall. intros e He. apply in_map_iff in He as (v & <- & _). eauto. Qed.

(** COW. *)
Lemma cow_sim b s t x n o :
  rel b s t -> Inv vd t -> st_env t !! x = Some o -> sharedp (st_heap t) o -> full (st_heap t) o -> o_len o <= n -> 0 <= n ->
  sim b b (ncow d od x n s) (cow vd x n t).
Proof.
  intros Hr HI Hx (l & c & Href & El & Hsh) Hfull Hn Hn0. unfold ncow, cow. apply (sim_get d b b b x _ _ s t o Hr Hx).
  pose proof HI as [_ Ho]. destruct (Ho x o Hx l Href) as (c0 & Hc0 & Hoff & Hlen & Hfit & _). assert (c0 = c) as -> by congruence; clear Hc0 Ho.
  destruct (shared_other vd t x o l c HI Hx Href El Hsh) as (y & oy & Hyx & Hy & Hry).
  destruct (detach_shared vd t x o l c HI Hx Href El Hsh) as (t1 & Hd & I1 & F1 & Ex1 & Hb1).
  assert (Eck : check vd (is_shared x) t = Ok tt t) by (eapply check_ok, shared_ok; eassumption).
  apply (sim_bind d b b b); [apply (sim_handles d); [apply h_assert, h_shared|exact Hr]|]. intros [] s0 t0 _ E0 Hr0.
  assert (t0 = t) as -> by congruence. clear Eck E0.
  apply (sim_bind d b b b); [apply (sim_handles d); [apply h_detach|exact Hr0]|]. intros [] s1 t1' _ E1 Hr1.
  assert (t1' = t1) as -> by congruence. clear E1.
  apply (sim_bind d b b b).
  { apply (reserve_sim d od Hwf b s1 t1 x n _ obj_empty Hr1 I1 Ex1); [apply good_empty|constructor]. }
  intros [] s2 t2 _ E2 Hr2.
  assert (Hres : reserved vd t1 x obj_empty t2 n).
  { refine (runs_ok _ _ _ _ _ _ (base_reserve_spec vd t1 x n (d_grow vd) obj_empty I1 Ex1 (good_empty vd) _ Hn0 _) E2); [intros ? ? X; discriminate|cbn; lia]. }
  destruct Hres as (I2 & F2 & lx & off & bx & g & Ex2 & Elx & Hoff2 & Hroom & _). cbn [o_len o_hash obj_empty] in Ex2.
  assert (Hy1 : st_env t1 !! y = Some oy) by (destruct (F1 y) as [-> _]; [congruence|exact Hy]).
  assert (Hy2 : st_env t2 !! y = Some oy) by (destruct (F2 y) as [-> _]; [congruence|exact Hy1]).
  assert (Hl2 : exists c2, st_heap t2 !! l = Some c2 /\ vle (c_buf c) (c_buf c2)).
  { destruct (F2 y) as [_ Hb2]; [congruence|]. specialize (Hb2 oy Hy1). unfold buf_of in Hb2; rewrite Hry in Hb2. rewrite Hb1 in Hb2.
    destruct (st_heap t2 !! l) as [c2|]; [|contradiction]. exists c2; auto. }
  destruct Hl2 as (c2 & El2 & Hv2).
  assert (Hne : l <> lx). { intros ->. exact (inv_unique vd _ _ _ x _ lx _ y oy I2 Ex2 eq_refl Elx eq_refl (not_eq_sym Hyx) Hy2 Hry). }
  cbv zeta. replace (Z.min (o_len o) n) with (o_len o) by lia.
  apply (sim_bind d b b b); [apply (sim_handles d); [apply h_set_len|exact Hr2]|]. intros [] s3 t3 _ E3 Hr3.
  unfold set_len, bind in E3. rewrite (get_obj_ok _ _ _ Ex2) in E3. injection E3 as <-.
  destruct (Z.leb_spec (o_len o) 0) as [Hz|Hz]; [apply sim_ret, Hr3|]. rewrite Href.
  set (t3 := with_env t2 _) in *. assert (El3 : st_heap t3 !! l = Some c2) by exact El2. assert (Elx3 : st_heap t3 !! lx = Some (Cell bx g 1)) by exact Elx.
  assert (Ex3 : st_env t3 !! x = Some (Obj (Some lx) off (o_len o) 0)) by apply lookup_insert.
  assert (Hsz : zlen bx <= max_alloc) by (destruct I2 as [Hc _]; apply (ck_size _ _ _ _ (Hc lx _ Elx))).
  assert (Hw : zsub (o_off o) (o_len o) (c_buf c2) = zsub (o_off o) (o_len o) (c_buf c)).
  { apply vle_full; [|apply vle_zsub, Hv2]. unfold full, view in Hfull. rewrite Href, El in Hfull. exact Hfull. }
  pose proof (vle_len _ _ Hv2) as Hl2.
  destruct (copy_sim d Hwf b s3 t3 lx (Cell bx g 1) (off + 0) (o_len o) l c2 (o_off o) false Hr3 Elx3 El3) as (s4 & src & dst & Hsrc & Hdst & Hcp & _ & Hr4); cbn [c_buf]; try lia.
  { rewrite Hw. unfold full, view in Hfull. rewrite Href, El in Hfull. exact Hfull. }
  rewrite (bind_ok _ _ _ _ _ Hsrc). rewrite (bind_ok _ _ _ _ _ (get_cell_ok _ _ _ El3)). destruct (Z.leb_spec (o_off o + o_len o) (zlen (c_buf c2))); [|lia].
  assert (Ens : nslots x 0 (o_len o) s3 = Ok dst s3).
  { rewrite (nslots_eq s3 x (Obj (Some lx) off (o_len o) 0) lx 0 (o_len o)); [exact Hdst| |reflexivity|exact Hz]. rewrite <- (rel_env _ _ _ _ Hr3). exact Ex3. }
  rewrite (bind_ok _ _ _ _ _ Ens), Hcp.
  assert (Hzs : zlen (zsub (o_off o) (o_len o) (c_buf c2)) = o_len o) by (zlen_simpl; lia).
  rewrite (store_eq t3 x _ lx _ 0 (zsub (o_off o) (o_len o) (c_buf c2)) Ex3 eq_refl Elx3); cbn [o_off c_buf]; try lia.
  exists s4. split; [reflexivity|exact Hr4].
Qed.

(** Everything known about an array with the elements [vs]. *)
Record arr (t : St) (x : var) (o : obj) (vs : list sval) : Prop := {
  ar_inv : Inv vd t;
  ar_env : st_env t !! x = Some o;
  ar_good : good vd o;
  ar_view : view (st_heap t) o = map Some vs;
  ar_len : o_len o = zlen vs;
  ar_off : 0 <= o_off o;
  ar_max : zlen vs <= max_alloc
}.
Lemma arr_R t a x r vs : R vd t a -> a !! x = Some (AVal r (map Some vs)) -> exists o, arr t x o vs.
Proof.
  intros HR Ha. destruct (R_held vd t a x r _ HR Ha) as (o & [H1 H2 H3 H4 H5 H6 H7 H8]). exists o. rewrite zlen_map in H5.
  constructor; try assumption; [apply HR|apply vle_somes, H3|]. lia.
Qed.
Lemma arr_length t x o vs : arr t x o vs -> length_of x t = Ok (zlen vs) t.
Proof. intros H. unfold length_of, bind. rewrite (get_obj_ok _ _ _ (ar_env _ _ _ _ H)). cbn. rewrite (ar_len _ _ _ _ H). reflexivity. Qed.

Lemma modify_sim b s t x n o vs : rel b s t -> arr t x o vs -> zlen vs <= n ->
  sim b b (nmodify d od x n s) (about_to_modify vd x n t).
Proof.
  intros Hr [HI Hx Hg Hv Hlen Hoff Hmax] Hn. pose proof (zlen_nonneg vs) as Hnn. unfold nmodify, about_to_modify.
  set (o1 := Obj (o_ref o) (o_off o) (o_len o) 0).
  apply (sim_bind d b b b); [apply (sim_handles d); [apply h_bind; [apply h_get|intros; apply h_set]|exact Hr]|]. intros [] s1 t1 _ E1 Hr1.
  unfold bind in E1. rewrite (get_obj_ok _ _ _ Hx) in E1. injection E1 as <-. fold o1 in Hr1 |- *. set (t1 := with_env t (<[x:=o1]> (st_env t))) in *.
  assert (Hok : obj_ok vd (st_heap t) o1).
  { intros l Hl; cbn in Hl. destruct HI as [_ Ho]. destruct (Ho x o Hx l Hl) as (c & Hc & ? & ? & ? & _). exists c. cbn. split_and!; try assumption. left; reflexivity. }
  assert (HI1 : Inv vd t1) by (unfold Inv, t1; cbn; eapply inv_same_ref; [exact HI|exact Hx|reflexivity|exact Hok]).
  assert (Hx1 : st_env t1 !! x = Some o1) by apply lookup_insert.
  assert (Hg1 : good vd o1). { intros Hn1; cbn in *. destruct (Hg Hn1) as (? & ? & _). split_and!; try assumption. left; reflexivity. }
  assert (Hf1 : full (st_heap t1) o1). { unfold full. change (view (st_heap t1) o1) with (view (st_heap t) o). rewrite Hv. apply full_map. }
  apply (sim_bind d b b b); [apply (sim_handles d); [apply h_shared|exact Hr1]|]. intros sh s2 t2 _ E2 Hr2.
  destruct (is_shared_eq vd t1 x o1 HI1 Hx1) as (sh' & Hsh & Hshp). rewrite Hsh in E2. injection E2 as -> <-. destruct sh.
  - apply (cow_sim b s2 t1 x n o1 Hr2 HI1 Hx1 Hshp Hf1); cbn; lia.
  - apply (reserve_sim d od Hwf b s2 t1 x n _ o1 Hr2 HI1 Hx1 Hg1 Hf1).
Qed.
(** Afterwards the array has a buffer of its own. *)
Lemma modify_owns t x n o vs t' : arr t x o vs -> zlen vs <= n -> n < W64 -> about_to_modify vd x n t = Ok tt t' ->
  exists off bf, owns vd t t' x off (zlen vs) bf /\ off + n <= zlen bf /\ zsub off (zlen vs) bf = map Some vs.
Proof.
  intros [HI Hx Hg Hv Hlen Hoff Hmax] Hn HnW E. pose proof (zlen_nonneg vs).
  destruct (runs_ok _ _ _ _ _ _ (about_to_modify_spec vd t x n o HI Hx Hg ltac:(lia) ltac:(lia) HnW ltac:(intros X; destruct (X eq_refl))) E) as (off & bf & HO & Hroom & Hvle).
  exists off, bf. rewrite Hlen in *. split; [exact HO|]. split; [exact Hroom|]. rewrite Hv in Hvle. apply vle_somes, Hvle.
Qed.
Lemma own_sim b s t x o vs : rel b s t -> arr t x o vs -> sim b b (nown d od x s) (get_own_copy vd x t).
Proof.
  intros Hr Ha. unfold nown, get_own_copy. apply (sim_bind d b b b); [apply (sim_handles d); [apply h_length|exact Hr]|]. intros n s1 t1 _ E1 Hr1.
  rewrite (arr_length _ _ _ _ Ha) in E1. injection E1 as <- <-. apply (modify_sim b s1 t x _ o vs Hr1 Ha). lia.
Qed.
Lemma own_owns t x o vs t' : arr t x o vs -> get_own_copy vd x t = Ok tt t' ->
  exists off bf, owns vd t t' x off (zlen vs) bf /\ zsub off (zlen vs) bf = map Some vs.
Proof.
  intros Ha E. unfold get_own_copy, bind in E. rewrite (arr_length _ _ _ _ Ha) in E.
  destruct (modify_owns t x (zlen vs) o vs t' Ha ltac:(lia) (max_small _ (ar_max _ _ _ _ Ha)) E) as (off & bf & H1 & _ & H2). eauto.
Qed.

(** write *)
Lemma store_sim {B} b s t t0 x off len bf pos v w mv (k : M nstate B) (k1 : M St B) be b' :
  rel b s t -> owns vd t0 t x off len bf -> 0 <= pos -> off + pos < zlen bf -> b !! v = Some (sv w) ->
  (forall s' t', rel (given mv v b) s' t' -> owns vd t0 t' x off len (zupd (off + pos) [Some w] bf) -> sim b' be (k s') (k1 t')) ->
  sim b' be (bind (nslot x pos) (fun z => give d mv z (str v) ;;; k) s) (bind (store x pos [Some w]) (fun _ => k1) t).
Proof.
  intros Hr HO Hp Hfit Hv Hk. destruct (owns_slot _ _ _ _ _ _ _ HO) as (l & g & Ex & El & H1 & H2 & H3 & H4).
  destruct (give_sim d Hwf b s t x _ l _ pos v w mv Hr Ex eq_refl El) as (z & s' & t' & E1 & E2 & E3 & Hr'); [cbn; lia|exact H4|exact Hv|].
  rewrite (bind_ok _ _ _ _ _ E1), (bind_ok _ _ _ _ _ E2), (bind_ok _ _ _ _ _ E3). apply Hk; [exact Hr'|].
  destruct (owns_store vd t0 t x off len bf pos [Some w] HO Hp) as (t2 & E4 & HO4); [unfold zlen at 1; cbn; lia|]. assert (t2 = t') as -> by congruence. exact HO4.
Qed.
Lemma store_sim_last b s t t0 x off len bf pos v w mv be :
  rel b s t -> owns vd t0 t x off len bf -> 0 <= pos -> off + pos < zlen bf -> b !! v = Some (sv w) ->
  sim (given mv v b) be (bind (nslot x pos) (fun z => give d mv z (str v)) s) (store x pos [Some w] t).
Proof.
  intros Hr HO Hp Hfit Hv. destruct (owns_slot _ _ _ _ _ _ _ HO) as (l & g & Ex & El & H1 & H2 & H3 & H4).
  destruct (give_sim d Hwf b s t x _ l _ pos v w mv Hr Ex eq_refl El) as (z & s' & t' & E1 & E2 & E3 & Hr'); [cbn; lia|exact H4|exact Hv|].
  rewrite (bind_ok _ _ _ _ _ E1), E2, E3. exists s'. auto.
Qed.
Lemma write_sim b s t x o vs pos v w mv : rel b s t -> arr t x o vs -> 0 <= pos < zlen vs -> b !! v = Some (sv w) ->
  sim (given mv v b) b (nwrite d od mv x pos (str v) s) (write vd x pos w t).
Proof.
  intros Hr Ha Hp Hv. unfold nwrite, write. apply (sim_bind d b (given mv v b) b); [eapply own_sim; eassumption|]. intros [] s1 t1 _ E1 Hr1.
  destruct (own_owns _ _ _ _ _ Ha E1) as (off & bf & HO & _). pose proof (owns_facts _ _ _ _ _ _ _ HO). eapply store_sim_last; try eassumption; lia.
Qed.
Lemma replace_sim b s t x o vs pos v w mv : rel b s t -> arr t x o vs -> 0 <= pos -> in_u64 pos = true -> pos <> zlen vs -> b !! v = Some (sv w) ->
  sim (given mv v b) b (nreplace d od mv x pos (str v) s) (replace_item vd x pos w t).
Proof.
  intros Hr Ha Hp Hu Hne Hv. unfold nreplace, replace_item. apply (sim_bind d b (given mv v b) b); [apply (sim_handles d); [apply h_check|exact Hr]|]. intros [] s1 t1 _ E1 Hr1.
  assert (t1 = t /\ pos < zlen vs) as [-> Hlt].
  { unfold check_pos in E1. destruct (Z.eqb_spec pos 0) as [->|H0].
    - injection E1 as <-. split; [reflexivity|]. pose proof (zlen_nonneg vs). lia.
    - unfold validate_index, bind in E1. rewrite (arr_length _ _ _ _ Ha) in E1. unfold in_u64 in Hu. rewrite u64_id in E1 by lia.
      destruct (Z.leb_spec (zlen vs) (pos - 1)); [discriminate|]. injection E1 as <-. split; [reflexivity|lia]. }
  apply (write_sim b s1 t x o vs pos v w mv Hr1 Ha); [lia|exact Hv].
Qed.

(** Making room. *)
Lemma shift_sim b s t t0 x off len bf pos k : rel b s t -> owns vd t0 t x off len bf -> 0 <= pos <= len -> 0 <= k -> off + len + k <= zlen bf ->
  Forall is_Some (zsub off len bf) ->
  exists s' t' src dst, nslots x pos (len - pos) s = Ok src s /\ nslots x (pos + k) (len - pos) s = Ok dst s /\
    neach d AssignCopy (rev (combine src dst)) s = Ok tt s' /\ shift_right x pos k t = Ok tt t' /\ rel b s' t' /\
    owns vd t0 t' x off len (zupd (off + (pos + k)) (zsub (off + pos) (len - pos) bf) bf).
Proof.
  intros Hr HO Hp Hk Hfit Hfull. destruct (owns_slot _ _ _ _ _ _ _ HO) as (l & g & Ex & El & H1 & H2 & H3 & H4).
  assert (Hzl : zlen (zsub (off + pos) (len - pos) bf) = len - pos) by (zlen_simpl; lia).
  destruct (owns_store vd t0 t x off len bf (pos + k) (zsub (off + pos) (len - pos) bf) HO) as (t' & E1 & HO'); [lia|lia|].
  assert (Es : shift_right x pos k t = Ok tt t').
  { unfold shift_right. rewrite (bind_ok _ _ _ _ _ (owns_length _ _ _ _ _ _ _ HO)), (bind_ok _ _ _ _ _ (owns_load _ _ _ _ _ _ _ pos (len - pos) HO ltac:(lia) ltac:(lia))). exact E1. }
  destruct (Z.eq_dec (len - pos) 0) as [Hz|Hz].
  { exists s, t', [], []. unfold nslots. rewrite Hz. cbn [Z.leb Z.compare ret rev combine neach]. split_and!; try reflexivity.
    - exact Es.
    - rewrite Hz, zsub_0 in E1 by lia. injection E1 as <-. exact Hr.
    - rewrite Hz in HO'. exact HO'. }
  pose proof (rel_env _ _ _ _ Hr) as Henv. pose proof Ex as Ex'. rewrite Henv in Ex'.
  destruct (copy_sim d Hwf b s t l (Cell bf g 1) (off + (pos + k)) (len - pos) l (Cell bf g 1) (off + pos) true Hr El El) as (s' & src & dst & Hsrc & Hdst & Hcp & _ & Hr'); cbn [c_buf]; try lia.
  { rewrite <- (zsub_zsub off len pos (len - pos) bf) by lia. apply List.Forall_forall. intros e He. rewrite List.Forall_forall in Hfull. apply Hfull. eapply in_zsub, He. }
  exists s', t', src, dst. rewrite !(nslots_eq s x _ l _ _ Ex' eq_refl) by lia. cbn [o_off]. split_and!; try assumption.
  rewrite (store_eq t x _ l _ (pos + k) _ Ex eq_refl El) in E1; cbn [o_off c_buf] in *; try lia. injection E1 as <-. exact Hr'.
Qed.
Lemma check_ok t x o vs pos t' : arr t x o vs -> in_u64 pos = true -> check_pos x pos t = Ok tt t' -> t' = t /\ 0 <= pos <= zlen vs.
Proof.
  intros Ha Hu E1. unfold in_u64 in Hu. pose proof (zlen_nonneg vs). unfold check_pos in E1. destruct (Z.eqb_spec pos 0) as [->|H0].
  - injection E1 as <-. split; [reflexivity|lia].
  - unfold validate_index, bind in E1. rewrite (arr_length _ _ _ _ Ha) in E1. rewrite u64_id in E1 by lia.
    destruct (Z.leb_spec (zlen vs) (pos - 1)); [discriminate|]. injection E1 as <-. split; [reflexivity|lia].
Qed.
Lemma insert_sim b s t x o vs pos v w mv : rel b s t -> arr t x o vs -> in_u64 pos = true -> b !! v = Some (sv w) ->
  sim (given mv v b) b (ninsert d od mv x pos (str v) s) (insert_item vd x pos w t).
Proof.
  intros Hr Ha Hu Hv. pose proof (zlen_nonneg vs). pose proof (ar_max _ _ _ _ Ha) as Hmax. unfold ninsert, insert_item.
  apply (sim_bind d b (given mv v b) b); [apply (sim_handles d); [apply h_check|exact Hr]|]. intros [] s1 t1 _ E1 Hr1.
  destruct (check_ok _ _ _ _ _ _ Ha Hu E1) as [-> Hp].
  apply (sim_bind d b (given mv v b) b); [apply (sim_handles d); [apply h_length|exact Hr1]|]. intros n s2 t2 _ E2 Hr2.
  rewrite (arr_length _ _ _ _ Ha) in E2. injection E2 as <- <-. rewrite u64_id by (unfold max_alloc, W64 in *; lia).
  apply (sim_bind d b (given mv v b) b); [apply (modify_sim b s2 t x _ o vs Hr2 Ha); lia|]. intros [] s3 t3 _ E3 Hr3.
  destruct (modify_owns t x (zlen vs + 1) o vs t3 Ha ltac:(lia) ltac:(unfold max_alloc, W64 in *; lia) E3) as (off & bf & HO & Hroom & Hw).
  pose proof (owns_facts _ _ _ _ _ _ _ HO) as Hf.
  destruct (shift_sim b s3 t3 t x off (zlen vs) bf pos 1 Hr3 HO Hp ltac:(lia) ltac:(lia)) as (s4 & t4 & src & dst & X1 & X2 & X3 & X4 & Hr4 & HO4).
  { rewrite Hw. apply full_map. }
  rewrite (bind_ok _ _ _ _ _ X1), (bind_ok _ _ _ _ _ X2), (bind_ok _ _ _ _ _ X3), (bind_ok _ _ _ _ _ X4).
  eapply store_sim; [exact Hr4|exact HO4|lia| |exact Hv|].
  { rewrite zlen_zupd; zlen_simpl; lia. }
  intros s5 t5 Hr5 HO5. pose proof (sim_handles d (given mv v b) _ _ s5 t5 (h_add_len x 1) Hr5) as S.
  unfold NestAbs.sim in *. destruct (add_len x 1 t5) eqn:Ea; try exact S.
  unfold add_len, bind in Ea. rewrite (owns_length _ _ _ _ _ _ _ HO5) in Ea. unfold set_len, bind in Ea.
  destruct (owns_slot _ _ _ _ _ _ _ HO5) as (l & g & Ex & _). rewrite (get_obj_ok _ _ _ Ex) in Ea. discriminate.
Qed.
Lemma append_sim b s t x o vs v w mv : rel b s t -> arr t x o vs -> b !! v = Some (sv w) ->
  sim (given mv v b) b (nappend d od mv x (str v) s) (append_item vd x w t).
Proof.
  intros Hr Ha Hv. unfold nappend, append_item. apply (sim_bind d b (given mv v b) b); [apply (sim_handles d); [apply h_length|exact Hr]|]. intros n s2 t2 _ E2 Hr2.
  rewrite (arr_length _ _ _ _ Ha) in E2. injection E2 as <- <-. apply (insert_sim b s2 t x o vs _ v w mv Hr2 Ha); [|exact Hv].
  unfold in_u64. pose proof (ar_max _ _ _ _ Ha). pose proof (zlen_nonneg vs). unfold max_alloc, W64 in *; lia.
Qed.

(** Assignment. *)
Lemma assign_sim b s t x y : rel b s t -> sim b b (nassign d x y s) (assign_copy x y t).
Proof.
  intros Hr. unfold nassign, assign_copy.
  apply (sim_bind d b b b); [apply (sim_handles d); [apply h_get|exact Hr]|]. intros oy s1 t1 _ _ Hr1.
  apply (sim_bind d b b b); [apply (sim_handles d); [apply h_inc|exact Hr1]|]. intros [] s2 t2 _ _ Hr2.
  apply (sim_bind d b b b); [apply (sim_handles d); [apply h_get|exact Hr2]|]. intros ox s3 t3 _ _ Hr3.
  apply (sim_bind d b b b); [apply (sim_handles d); [apply h_set|exact Hr3]|]. intros [] s4 t4 _ _ Hr4.
  apply (sim_bind d b b b); [apply (drop_sim d Hwf), Hr4|]. intros [] s5 t5 _ _ Hr5.
  apply (sim_bind d b b b); [apply (sim_handles d); [apply h_get|exact Hr5]|]. intros ox' s6 t6 _ _ Hr6.
  apply (sim_bind d b b b); [apply (sim_handles d); [apply h_get|exact Hr6]|]. intros oy' s7 t7 _ _ Hr7.
  apply (sim_handles d); [apply h_set|exact Hr7].
Qed.
Lemma assign_move_sim b s t x y : rel b s t -> sim b b (nassign_move d x y s) (assign_move x y t).
Proof.
  intros Hr. unfold nassign_move, assign_move. destruct (Pos.eqb x y); [apply sim_ret, Hr|].
  apply (sim_bind d b b b); [apply (drop_sim d Hwf), Hr|]. intros [] s5 t5 _ _ Hr5.
  apply (sim_bind d b b b); [apply (sim_handles d); [apply h_get|exact Hr5]|]. intros ox' s6 t6 _ _ Hr6.
  apply (sim_bind d b b b); [apply (sim_handles d); [apply h_set|exact Hr6]|]. intros [] s7 t7 _ _ Hr7.
  apply (sim_handles d); [apply h_set|exact Hr7].
Qed.
Lemma kill_sim b s t x : rel b s t -> sim b b (bind (ndrop d x) (fun _ => outer (del_obj x)) s) (destroy vd x t).
Proof.
  intros Hr. unfold destroy, cleanse_if_last. cbn [d_nul NestAbs.vd]. unfold bind at 2. cbn [ret].
  apply (sim_bind d b b b); [apply (drop_sim d Hwf), Hr|]. intros [] s5 t5 _ _ Hr5. apply (sim_handles d); [apply h_del|exact Hr5].
Qed.

(** What another array looks like after a change of [x]. *)
Lemma arr_frame t t' x y oy ws : arr t y oy ws -> Frame (eq x) t t' -> Inv vd t' -> x <> y -> arr t' y oy ws.
Proof.
  intros [HI Hy Hg Hv Hlen Hoff Hmax] F HI' Hne. destruct (F y) as [E1 E2]; [congruence|]. constructor; try assumption; [congruence|].
  specialize (E2 oy Hy). unfold view in *. unfold buf_of in E2. destruct (o_ref oy) as [l|] eqn:Er; [|exact Hv].
  destruct (st_heap t !! l) as [c|] eqn:El.
  - cbn in E2. destruct (st_heap t' !! l) as [c'|]; cbn in E2; [|contradiction]. rewrite <- Hv. apply vle_full; [rewrite Hv; apply full_map|]. apply vle_zsub, E2.
  - destruct HI as [_ Ho]. destruct (Ho y oy Hy l Er) as (c & X & _). congruence.
Qed.
Lemma arr_cell t y oy ws : arr t y oy ws -> 0 < zlen ws ->
  exists l c, o_ref oy = Some l /\ st_heap t !! l = Some c /\ o_off oy + zlen ws <= zlen (c_buf c) /\ zlen (c_buf c) <= max_alloc /\
    zsub (o_off oy) (zlen ws) (c_buf c) = map Some ws.
Proof.
  intros [HI Hy Hg Hv Hlen Hoff Hmax] Hpos. destruct (o_ref oy) as [l|] eqn:Er.
  - destruct HI as [Hc Ho]. destruct (Ho y oy Hy l Er) as (c & El & H1 & H2 & H3 & _). exists l, c. unfold view in Hv. rewrite Er, El, Hlen in Hv.
    rewrite Hlen in H3. split_and!; auto. apply (Hc l c El).
  - destruct (Hg Er) as (_ & H0 & _). lia.
Qed.
Lemma arr_load t y oy ws : arr t y oy ws -> load y 0 (zlen ws) t = Ok (map Some ws) t.
Proof.
  intros Ha. unfold load. destruct (Z.leb_spec (zlen ws) 0) as [Hz|Hz].
  - assert (ws = []) as -> by (apply zlen_0_nil; pose proof (zlen_nonneg ws); lia). reflexivity.
  - destruct (arr_cell _ _ _ _ Ha Hz) as (l & c & Er & El & H1 & H2 & H3). pose proof (ar_off _ _ _ _ Ha). pose proof (max_small _ H2).
    rewrite (bind_ok _ _ _ _ _ (get_obj_ok _ _ _ (ar_env _ _ _ _ Ha))), Er, (bind_ok _ _ _ _ _ (get_cell_ok _ _ _ El)). cbv zeta.
    rewrite Z.add_0_r, u64_id by lia. destruct (Z.leb_spec (o_off oy + zlen ws) (zlen (c_buf c))); [|lia]. rewrite H3. reflexivity.
Qed.
Lemma add_len_sim b be s t t0 x off len bf k : rel b s t -> owns vd t0 t x off len bf -> sim b be (outer (add_len x k) s) (add_len x k t).
Proof.
  intros Hr HO. pose proof (sim_handles d b _ _ s t (h_add_len x k) Hr) as S.
  unfold NestAbs.sim in *. destruct (add_len x k t) eqn:Ea; try exact S.
  unfold add_len, bind in Ea. rewrite (owns_length _ _ _ _ _ _ _ HO) in Ea. unfold set_len, bind in Ea.
  destruct (owns_slot _ _ _ _ _ _ _ HO) as (l & g & Ex & _). rewrite (get_obj_ok _ _ _ Ex) in Ea. discriminate.
Qed.
Lemma insert_array_sim b s t x y o vs oy ws pos : rel b s t -> arr t x o vs -> arr t y oy ws -> x <> y -> in_u64 pos = true ->
  sim b b (ninsert_array d od x pos y s) (insert_all vd false x pos y t).
Proof.
  intros Hr Ha Hy Hne Hu. pose proof (zlen_nonneg vs). pose proof (zlen_nonneg ws). pose proof (ar_max _ _ _ _ Ha) as Hmax. pose proof (ar_max _ _ _ _ Hy) as Hmy.
  unfold ninsert_array, insert_all.
  apply (sim_bind d b b b); [apply (sim_handles d); [apply h_check|exact Hr]|]. intros [] s1 t1 _ E1 Hr1.
  destruct (check_ok _ _ _ _ _ _ Ha Hu E1) as [-> Hp].
  apply (sim_bind d b b b); [apply (sim_handles d); [apply h_length|exact Hr1]|]. intros k s2 t2 _ E2 Hr2.
  rewrite (arr_length _ _ _ _ Hy) in E2. injection E2 as <- <-.
  apply (sim_bind d b b b); [apply (sim_handles d); [apply h_length|exact Hr2]|]. intros n s3 t3 _ E3 Hr3.
  rewrite (arr_length _ _ _ _ Ha) in E3. injection E3 as <- <-.
  destruct ((pos =? 0) && (zlen vs <? zlen ws)); [apply assign_sim, Hr3|].
  unfold splice. rewrite (bind_ok _ _ _ _ _ (arr_length _ _ _ _ Ha)). rewrite u64_id by (unfold max_alloc, W64 in *; lia).
  apply (sim_bind d b b b); [apply (modify_sim b s3 t x _ o vs Hr3 Ha); lia|]. intros [] s4 t4 _ E4 Hr4.
  destruct (modify_owns t x (zlen vs + zlen ws) o vs t4 Ha ltac:(lia) ltac:(unfold max_alloc, W64 in *; lia) E4) as (off & bf & HO & Hroom & Hw).
  pose proof (owns_facts _ _ _ _ _ _ _ HO) as Hf.
  destruct (shift_sim b s4 t4 t x off (zlen vs) bf pos (zlen ws) Hr4 HO Hp ltac:(lia) ltac:(lia)) as (s5 & t5 & src & dst & X1 & X2 & X3 & X4 & Hr5 & HO5).
  { rewrite Hw. apply full_map. }
  rewrite (bind_ok _ _ _ _ _ X1), (bind_ok _ _ _ _ _ X2), (bind_ok _ _ _ _ _ X3), (bind_ok _ _ _ _ _ X4).
  set (bf5 := zupd _ _ bf) in HO5. assert (Hz5 : zlen bf5 = zlen bf) by (unfold bf5; rewrite zlen_zupd; zlen_simpl; lia).
  destruct HO5 as (I5 & F5 & l & g & Ex5 & El5). assert (HO5 : owns vd t t5 x off (zlen vs) bf5) by (split; [exact I5|split; [exact F5|eauto]]).
  pose proof (arr_frame _ _ _ _ _ _ Hy F5 I5 Hne) as Hy5.
  assert (Hrefs : forall ly, o_ref oy = Some ly -> ly <> l).
  { intros ly Ely ->. exact (inv_unique vd _ _ _ x _ l _ y oy I5 Ex5 eq_refl El5 eq_refl Hne (ar_env _ _ _ _ Hy5) Ely). }
  assert (Ecp : forall e, load y 0 (zlen ws) t5 = Ok e t5 -> copy_elems vd x y (zlen ws) pos t5 = store x pos e t5).
  { intros e Ee. unfold copy_elems. rewrite (bind_ok _ _ _ _ _ (get_obj_ok _ _ _ Ex5)), (bind_ok _ _ _ _ _ (get_obj_ok _ _ _ (ar_env _ _ _ _ Hy5))).
    cbn [d_class NestAbs.vd andb o_ref]. rewrite bool_decide_false by (intros X; symmetry in X; apply (Hrefs l X); reflexivity). rewrite (bind_ok _ _ _ _ _ Ee). reflexivity. }
  specialize (Ecp _ (arr_load _ _ _ _ Hy5)).
  destruct (owns_store vd t t5 x off (zlen vs) bf5 pos (map Some ws) HO5) as (t6 & E6 & HO6); [lia|rewrite zlen_map; lia|].
  rewrite E6 in Ecp. rewrite (bind_ok _ _ _ _ _ Ecp).
  destruct (Z.eq_dec (zlen ws) 0) as [Hz|Hz].
  - assert (ws = []) as -> by (apply zlen_0_nil, Hz). cbn in E6. injection E6 as <-. unfold nslots. cbn [zlen length Z.of_nat Z.leb Z.compare].
    eapply add_len_sim; eassumption.
  - destruct (arr_cell _ _ _ _ Hy5 ltac:(lia)) as (ly & cy & Ely & Ecy & H1 & H2 & H3).
    destruct (copy_sim d Hwf b s5 t5 l (Cell bf5 g 1) (off + pos) (zlen ws) ly cy (o_off oy) false Hr5 El5 Ecy) as (s6 & src' & dst' & Hsrc & Hdst & Hcp & _ & Hr6); cbn [c_buf]; try lia.
    { apply (ar_off _ _ _ _ Hy5). }
    { rewrite H3. apply full_map. }
    { left. apply Hrefs, Ely. }
    pose proof (rel_env _ _ _ _ Hr5) as Henv.
    assert (N1 : nslots y 0 (zlen ws) s5 = Ok src' s5).
    { rewrite (nslots_eq s5 y oy ly 0 (zlen ws)); [rewrite Z.add_0_r; exact Hsrc|rewrite <- Henv; apply Hy5|exact Ely|lia]. }
    assert (N2 : nslots x pos (zlen ws) s5 = Ok dst' s5).
    { rewrite (nslots_eq s5 x (Obj (Some l) off (zlen vs) 0) l pos (zlen ws)); [exact Hdst|rewrite <- Henv; exact Ex5|reflexivity|lia]. }
    rewrite (bind_ok _ _ _ _ _ N1), (bind_ok _ _ _ _ _ N2), (bind_ok _ _ _ _ _ Hcp).
    rewrite (store_eq t5 x _ l _ pos (map Some ws) Ex5 eq_refl El5) in E6; cbn [o_off c_buf] in *; rewrite ?zlen_map; try lia. injection E6 as <-.
    rewrite H3 in Hr6. eapply add_len_sim; eassumption.
Qed.

(** resize, reserve. *)
Lemma resize_sim b s t x o vs n : rel b s t -> arr t x o vs -> sim b b (nresize d od x n s) (resize vd x n t).
Proof.
  intros Hr Ha. unfold nresize, resize. apply (sim_bind d b b b); [apply (sim_handles d); [apply h_length|exact Hr]|]. intros m s1 t1 _ E1 Hr1.
  rewrite (arr_length _ _ _ _ Ha) in E1. injection E1 as <- <-. destruct (Z.ltb_spec n (zlen vs)); [apply (sim_handles d); [apply h_set_length|exact Hr1]|].
  apply (sim_bind d b b b); [apply (modify_sim b s1 t x _ o vs Hr1 Ha); lia|]. intros [] s2 t2 _ _ Hr2. apply (sim_handles d); [apply h_set_len|exact Hr2].
Qed.
Lemma reserve_own_sim b s t x o vs n : rel b s t -> arr t x o vs ->
  sim b b ((let* sh := outer (is_shared x) in if (sh : bool) then ret tt else nreserve d od x n (fun z => z)) s) (reserve_if_own vd x n t).
Proof.
  intros Hr Ha. unfold reserve_if_own. apply (sim_bind d b b b); [apply (sim_handles d); [apply h_shared|exact Hr]|]. intros sh s1 t1 _ E1 Hr1.
  destruct (is_shared_eq vd t x o (ar_inv _ _ _ _ Ha) (ar_env _ _ _ _ Ha)) as (sh' & Hsh & _). rewrite Hsh in E1. injection E1 as -> <-.
  destruct sh; [apply sim_ret, Hr1|]. apply (reserve_sim d od Hwf b s1 t x n _ o Hr1); try apply Ha. unfold full. rewrite (ar_view _ _ _ _ Ha). apply full_map.
Qed.

(** Reading an element. *)
Lemma arr_elem b s t x o vs pos w : rel b s t -> arr t x o vs -> znth pos vs = Some w ->
  exists f a z l c, Wf d b (bufs (n_out s)) (n_in s) a /\ t = abs f a (n_out s) /\ o_ref o = Some l /\ st_heap t !! l = Some c /\
    0 <= o_off o + pos < zlen (c_buf c) /\ zlen (c_buf c) <= max_alloc /\ znth (o_off o + pos) (c_buf c) = Some (Some w) /\
    nslot x pos s = Ok z s /\ odd z /\ a !! z = Some (sv w) /\
    forall i' a' b', RcaRel.R d i' a' -> (forall y, a' !! xO y = b' !! y) -> a' !! 1%positive = None -> is_Some (a' !! z) ->
      (forall q, xI q <> z -> a' !! xI q = a !! xI q) ->
      rel b' (NState (n_out s) i') (with_heap t (<[l := Cell (zupd (o_off o + pos) [val a' z] (c_buf c)) (c_gen c) (c_refs c)]> (st_heap t))).
Proof.
  intros Hr Ha Hw. pose proof (znth_inv _ _ _ Hw) as Hp. destruct (arr_cell _ _ _ _ Ha ltac:(lia)) as (l & c & Er & El & H1 & H2 & H3).
  pose proof (ar_off _ _ _ _ Ha) as Hoff.
  assert (Hj : znth (o_off o + pos) (c_buf c) = Some (Some w)).
  { assert (X : znth pos (zsub (o_off o) (zlen vs) (c_buf c)) = Some (Some w)) by (rewrite H3, znth_map, Hw; reflexivity).
    rewrite znth_zsub in X. destruct ((0 <=? pos) && (pos <? zlen vs)); [|discriminate]. replace (pos + Z.max 0 (o_off o)) with (o_off o + pos) in X by lia. exact X. }
  destruct (elem_sim d b s t l c (o_off o + pos) Hr El ltac:(lia)) as (f & a & z & W & Et & Hs & Oz & Sz & Hv & Hput).
  exists f, a, z, l, c. split_and!; try assumption; try lia.
  - eapply nslot_eq; [rewrite <- (rel_env _ _ _ _ Hr); apply Ha|exact Er|exact Hs].
  - rewrite Hj in Hv. injection Hv as Hv. unfold val in Hv. destruct (a !! z) as [[r v|]|]; try discriminate. injection Hv as ->. reflexivity.
Qed.
Lemma get_sim b s t x o vs pos w r : rel b s t -> arr t x o vs -> znth pos vs = Some w -> b !! r = None ->
  exists s', nget d r x pos s = Ok tt s' /\ rel (<[r := sv w]> b) s' t.
Proof.
  intros Hr Ha Hw Hb. destruct (arr_elem b s t x o vs pos w Hr Ha Hw) as (f & a & z & l & c & W & Et & Er & El & Hj & Hm & Hc & Hn & Oz & Hz & Hput).
  unfold nget. rewrite (bind_ok _ _ _ _ _ Hn).
  destruct (i_copy d Hwf a (xO r) z (fst w) (snd w) s (wf_R _ _ _ _ _ W)) as (i' & E & R'); [rewrite (wf_b _ _ _ _ _ W); exact Hb|exact Hz|].
  exists (NState (n_out s) i'). split; [exact E|]. exists f.
  destruct (Wf_inner d b (<[r := sv w]> b) (bufs (n_out s)) (n_in s) i' a (<[xO r := AVal (fst w) (snd w)]> a) W R') as [W' K'].
  - intros y. destruct (decide (r = y)) as [->|N]; [rewrite !lookup_insert; reflexivity|]. rewrite !lookup_insert_ne by congruence. apply W.
  - rewrite lookup_insert_ne by discriminate. apply W.
  - intros q. rewrite lookup_insert_ne by discriminate. reflexivity.
  - eexists. split; [exact W'|]. rewrite Et. symmetry. apply abs_inner. exact K'.
Qed.
Lemma load1_eq t x o vs pos w : arr t x o vs -> znth pos vs = Some w -> load1 x pos t = Ok w t.
Proof.
  intros Ha Hw. pose proof (znth_inv _ _ _ Hw) as Hp. destruct (arr_cell _ _ _ _ Ha ltac:(lia)) as (l & c & Er & El & H1 & H2 & H3).
  pose proof (ar_off _ _ _ _ Ha) as Hoff. pose proof (max_small _ H2).
  unfold load1, load, bind. cbn [Z.leb Z.compare]. rewrite (get_obj_ok _ _ _ (ar_env _ _ _ _ Ha)), Er, (get_cell_ok _ _ _ El). cbv zeta. rewrite u64_id by lia.
  destruct (Z.leb_spec (o_off o + pos + 1) (zlen (c_buf c))); [|lia]. cbn [ret].
  assert (zsub (o_off o + pos) 1 (c_buf c) = [Some w]) as ->; [|reflexivity].
  apply zlist_ext; [zlen_simpl; lia|]. zlen_simpl. intros m Hm. assert (m = 0) as -> by lia. rewrite znth_zsub. cbn.
  assert (X : znth pos (zsub (o_off o) (zlen vs) (c_buf c)) = Some (Some w)) by (rewrite H3, znth_map, Hw; reflexivity).
  rewrite znth_zsub in X. destruct ((0 <=? pos) && (pos <? zlen vs)); [|discriminate]. replace (Z.max 0 (o_off o + pos)) with (pos + Z.max 0 (o_off o)) by lia. exact X.
Qed.
Lemma take_sim b s t x o vs pos w r : rel b s t -> arr t x o vs -> znth pos vs = Some w -> b !! r = None ->
  exists s' t', take d r x pos s = Ok tt s' /\ move_out vd x pos t = Ok w t' /\ rel (<[r := sv w]> b) s' t'.
Proof.
  intros Hr Ha Hw Hb. destruct (is_shared_eq vd t x o (ar_inv _ _ _ _ Ha) (ar_env _ _ _ _ Ha)) as (sh & Hsh & _).
  assert (Hsh' : outer (is_shared x) s = Ok sh s).
  { destruct Hr as (f & a & W & ->). destruct (h_shared x f a (n_out s)) as [E1 _]. rewrite E1 in Hsh. unfold outer, absr in *.
    destruct (is_shared x (n_out s)) as [v o'|e o'| | |u] eqn:E; try discriminate. injection Hsh as -> _.
    assert (o' = n_out s) as ->; [|destruct s; reflexivity]. unfold is_shared, bind, get_obj in E. destruct (st_env (n_out s) !! x) as [ob|]; [|discriminate].
    destruct (o_ref ob) as [l|]; [|injection E as _ <-; reflexivity]. unfold get_cell in E. destruct (st_heap (n_out s) !! l); [|discriminate]. injection E as _ <-. reflexivity. }
  unfold take, move_out. rewrite (bind_ok _ _ _ _ _ Hsh'), (bind_ok _ _ _ _ _ (load1_eq _ _ _ _ _ _ Ha Hw)), (bind_ok _ _ _ _ _ Hsh).
  cbn [d_class NestAbs.vd andb]. destruct sh; cbn [negb].
  - destruct (get_sim b s t x o vs pos w r Hr Ha Hw Hb) as (s' & E & Hr'). exists s', t. split; [exact E|]. split; [reflexivity|exact Hr'].
  - destruct (arr_elem b s t x o vs pos w Hr Ha Hw) as (f & a & z & l & c & W & Et & Er & El & Hj & Hm & Hc & Hn & Oz & Hz & Hput).
    rewrite (bind_ok _ _ _ _ _ Hn).
    destruct (i_move d Hwf a (xO r) z (fst w) (snd w) s (wf_R _ _ _ _ _ W)) as (i' & E & R'); [rewrite (wf_b _ _ _ _ _ W); exact Hb|exact Hz|].
    assert (Hst : store x pos [None] t = Ok tt (with_heap t (<[l := Cell (zupd (o_off o + pos) [None] (c_buf c)) (c_gen c) (c_refs c)]> (st_heap t)))).
    { apply store_eq; try assumption; try apply Ha; change (zlen [None]) with 1; lia. }
    rewrite (bind_ok _ _ _ _ _ Hst). eexists _, (with_heap t (<[l := Cell (zupd (o_off o + pos) [None] (c_buf c)) (c_gen c) (c_refs c)]> (st_heap t))). split; [exact E|]. split; [reflexivity|].
    destruct Oz as [q0 ->]. set (a' := <[xO r := _]> _) in R'.
    assert (Vz : val a' (xI q0) = None) by (unfold val, a'; rewrite lookup_insert_ne, lookup_insert by discriminate; reflexivity).
    rewrite <- Vz. apply Hput; [exact R'| | | |]; unfold a'.
    + intros y. destruct (decide (r = y)) as [->|N]; [rewrite !lookup_insert; reflexivity|]. rewrite !lookup_insert_ne by congruence. apply W.
    + rewrite !lookup_insert_ne by discriminate. apply W.
    + rewrite lookup_insert_ne, lookup_insert by discriminate. eauto.
    + intros q Hq. rewrite !lookup_insert_ne by congruence. reflexivity.
Qed.
Lemma move_env t x o vs pos w t1 : arr t x o vs -> znth pos vs = Some w -> move_out vd x pos t = Ok w t1 -> st_env t1 !! x = Some o.
Proof.
  intros Ha Hw E2. assert (st_env t1 = st_env t) as ->; [|apply Ha].
  unfold move_out in E2. rewrite (bind_ok _ _ _ _ _ (load1_eq _ _ _ _ _ _ Ha Hw)) in E2.
  destruct (is_shared_eq vd t x o (ar_inv _ _ _ _ Ha) (ar_env _ _ _ _ Ha)) as (sh & Hsh & _). rewrite (bind_ok _ _ _ _ _ Hsh) in E2. unfold bind in E2.
  pose proof (znth_inv _ _ _ Hw) as Hp. destruct (arr_cell _ _ _ _ Ha ltac:(lia)) as (l & c & Er & El & H1 & H2 & _). pose proof (ar_off _ _ _ _ Ha).
  destruct sh; cbn [d_class NestAbs.vd andb negb] in E2; [injection E2 as <-; reflexivity|].
  rewrite (store_eq t x o l c pos [None] (ar_env _ _ _ _ Ha) Er El) in E2 by (try (change (zlen [None]) with 1); lia). injection E2 as <-. reflexivity.
Qed.
Lemma handles_ok {A} b (m : M (state positive) A) (m1 : M St A) s t v t' : handles m m1 -> rel b s t -> m1 t = Ok v t' ->
  exists s', outer m s = Ok v s' /\ rel b s' t'.
Proof. intros H Hr E. pose proof (sim_handles d b m m1 s t H Hr) as S. unfold NestAbs.sim in S. rewrite E in S. exact S. Qed.
Lemma asserts_ok b s t x o vs : rel b s t -> arr t x o vs -> 0 < zlen vs ->
  exists s', outer (check od (not_empty x)) s = Ok tt s' /\ check vd (not_empty x) t = Ok tt t /\ rel b s' t.
Proof.
  intros Hr Ha Hl. assert (check vd (not_empty x) t = Ok tt t) as E.
  { apply (RcaOwn.check_ok vd). unfold not_empty. rewrite (bind_ok _ _ _ _ _ (arr_length _ _ _ _ Ha)). unfold ret. destruct (Z.eqb_spec (zlen vs) 0); [lia|reflexivity]. }
  destruct (handles_ok b _ _ s t tt t (h_assert od _ _ (h_not_empty x)) Hr E) as (s' & E' & Hr'). exists s'. auto.
Qed.
Lemma shift_sim_ b s t x o vs w r : rel b s t -> arr t x o (w :: vs) -> b !! r = None ->
  exists s' t', nshift d od r x s = Ok tt s' /\ shift vd x t = Ok w t' /\ rel (<[r := sv w]> b) s' t'.
Proof.
  intros Hr0 Ha Hb. destruct (asserts_ok b s t x o (w :: vs) Hr0 Ha) as (s0 & Ea & Eb & Hr); [rewrite zlen_cons; pose proof (zlen_nonneg vs); lia|].
  destruct (take_sim b s0 t x o (w :: vs) 0 w r Hr Ha eq_refl Hb) as (s1 & t1 & E1 & E2 & Hr1).
  unfold nshift, shift. rewrite (bind_ok _ _ _ _ _ Ea), (bind_ok _ _ _ _ _ Eb). rewrite (bind_ok _ _ _ _ _ E1), (bind_ok _ _ _ _ _ E2).
  pose proof (move_env _ _ _ _ 0 w _ Ha eq_refl E2) as Ex.
  destruct (handles_ok (<[r := sv w]> b) (let* o := get_obj x in set_obj x (Obj (o_ref o) (u64 (o_off o + 1)) (u64 (o_len o - 1)) 0))
     (let* o := get_obj x in set_obj x (Obj (o_ref o) (u64 (o_off o + 1)) (u64 (o_len o - 1)) 0)) s1 t1 tt
     (with_env t1 (<[x := Obj (o_ref o) (u64 (o_off o + 1)) (u64 (o_len o - 1)) 0]> (st_env t1)))) as (s2 & E3 & Hr2).
  - apply h_bind; [apply h_get|intros; apply h_set].
  - exact Hr1.
  - unfold bind. rewrite (get_obj_ok _ _ _ Ex). reflexivity.
  - exists s2. eexists. split; [exact E3|]. split; [|exact Hr2]. unfold bind. rewrite (get_obj_ok _ _ _ Ex). reflexivity.
Qed.
Lemma pop_sim b s t x o vs w r : rel b s t -> arr t x o vs -> znth (zlen vs - 1) vs = Some w -> b !! r = None ->
  exists s' t', npop d od r x s = Ok tt s' /\ pop vd x t = Ok w t' /\ rel (<[r := sv w]> b) s' t'.
Proof.
  intros Hra Ha Hw Hb. pose proof (znth_inv _ _ _ Hw). pose proof (max_small _ (ar_max _ _ _ _ Ha)).
  destruct (asserts_ok b s t x o vs Hra Ha) as (sa & Ea & Eb & Hr); [lia|]. unfold npop, pop. rewrite (bind_ok _ _ _ _ _ Ea), (bind_ok _ _ _ _ _ Eb). clear Ea Eb Hra s. rename sa into s.
  destruct (take_sim b s t x o vs _ w r Hr Ha Hw Hb) as (s1 & t1 & E1 & E2 & Hr1).
  destruct (handles_ok b _ _ s t _ _ (h_length x) Hr (arr_length _ _ _ _ Ha)) as (s0 & E0 & _).
  assert (s0 = s) as ->.
  { unfold outer, length_of, bind, get_obj in E0. destruct (st_env (n_out s) !! x); [|discriminate]. injection E0 as _ <-. destruct s; reflexivity. }
  rewrite (bind_ok _ _ _ _ _ E0), (bind_ok _ _ _ _ _ (arr_length _ _ _ _ Ha)), u64_id by lia.
  rewrite (bind_ok _ _ _ _ _ E1), (bind_ok _ _ _ _ _ E2).
  pose proof (move_env _ _ _ _ _ w _ Ha Hw E2) as Ex.
  assert (Eck : check vd (not_empty x) t1 = Ok tt t1).
  { apply (RcaOwn.check_ok vd). unfold not_empty, length_of, bind. rewrite (get_obj_ok _ _ _ Ex). unfold ret. rewrite (ar_len _ _ _ _ Ha). destruct (Z.eqb_spec (zlen vs) 0); [lia|reflexivity]. }
  destruct (handles_ok (<[r := sv w]> b) _ _ s1 t1 tt (with_env t1 (<[x := Obj (o_ref o) (o_off o) (u64 (o_len o - 1)) 0]> (st_env t1))) (h_pop od x) Hr1) as (s2 & E3 & Hr2).
  - unfold pop_back. rewrite (bind_ok _ _ _ _ _ Eck). unfold sub_length, bind. rewrite (get_obj_ok _ _ _ Ex). reflexivity.
  - exists s2. eexists. split; [exact E3|]. split; [|exact Hr2]. unfold pop_back. unfold bind at 1 2. rewrite Eck. unfold sub_length, bind. rewrite (get_obj_ok _ _ _ Ex). reflexivity.
Qed.
End Calls.
