(** Cost of appending. *)
From Coq Require Import ZifyBool.
From Verif Require Import Base RcaSpec RcaModel RcaExec RcaInv RcaOwn RcaRel RcaMeet RcaMain RcaReach GrowModel.
Open Scope Z_scope.

Section Grow.
Context {T : Type} (d : desc T).
Notation St := (state T).
Definition need (len : Z) : Z := match d_nul d with None => len + 1 | Some _ => len + 2 end.

(** [x] is the only owner of a buffer of [cap] elements. *)
Definition own (x : var) (s : St) (cap off len : Z) : Prop :=
  exists l h c, st_env s !! x = Some (Obj (Some l) off len h) /\ st_heap s !! l = Some c /\ c_refs c = 1 /\ zlen (c_buf c) = cap /\
    0 <= off /\ 0 <= len /\ off + len <= cap /\ cap <= max_alloc.

Lemma bind_inv {S A B} (m : M S A) (k : A -> M S B) s v s' : bind m k s = Ok v s' -> exists a s1, m s = Ok a s1 /\ k a s1 = Ok v s'.
Proof. unfold bind. destruct (m s) as [a s1| | | |]; try discriminate. eauto. Qed.
Ltac bi H a s1 E := apply bind_inv in H as (a & s1 & E & H).

(** Ordinary growth. *)
Lemma aref_meter l n sc off len s off' s' c :
  st_heap s !! l = Some c -> zlen (c_buf c) <= max_alloc -> 0 <= off -> 0 <= len -> off + len <= zlen (c_buf c) -> len <= n ->
  aref_reserve d l n sc off len s = Ok off' s' ->
  st_env s' = st_env s /\ exists c', st_heap s' !! l = Some c' /\ c_refs c' = c_refs c /\
  (if zlen (c_buf c) <? n
   then zlen (c_buf c') = Z.max (sc (zlen (c_buf c))) n /\ zlen (c_buf c') <= max_alloc /\ off' = 0 /\ st_tick s' = S (st_tick s) /\
        st_freed s' = (if zlen (c_buf c) =? 0 then [] else [c_buf c]) ++ st_freed s
   else zlen (c_buf c') = zlen (c_buf c) /\ off' = (if zlen (c_buf c) - off <? n then 0 else off) /\ st_tick s' = st_tick s /\ st_freed s' = st_freed s).
Proof.
  intros Hl Hm Ho Hlen Hfit Hn H. unfold aref_reserve in H. bi H c0 s0 E. unfold get_cell in E. rewrite Hl in E. injection E as <- <-.
  destruct (zlen (c_buf c) <? n) eqn:E1.
  - bi H u s1 E2. unfold try_alloc in E2. destruct (_ || _) eqn:E3 in E2; [discriminate|]. injection E2 as <- <-.
    destruct (_ <? len) eqn:E4 in H; [discriminate|].
    destruct (c_buf c) as [|b0 b] eqn:Eb.
    + destruct (d_class d && (0 <? len)); [discriminate|]. unfold set_cell, ret, bind in H. injection H as <- <-. cbn [st_env with_heap st_heap st_tick st_freed].
      split; [reflexivity|]. eexists. split; [apply lookup_insert|]. cbn [c_refs c_buf]. split; [reflexivity|].
      change (zlen []) with 0 in *. assert (len = 0) as -> by lia. change (zrep 0 None) with (@nil (option T)). cbn [app].
      rewrite zlen_zrep. split; [lia|]. split; [lia|]. auto.
    + rewrite <- Eb in *. destruct ((off <? 0) || _) eqn:E5 in H; [discriminate|].
      unfold log_freed, set_cell, ret, bind in H. injection H as <- <-. cbn [st_env with_heap st_heap st_tick st_freed].
      split; [reflexivity|]. eexists. split; [apply lookup_insert|]. cbn [c_refs c_buf]. split; [reflexivity|].
      rewrite zlen_app, zlen_zrep, zlen_zsub by lia. split; [lia|]. split; [lia|].
      destruct (zlen (c_buf c) =? 0) eqn:E6; [|auto]. rewrite Eb, zlen_cons in E6. pose proof (zlen_nonneg b). lia.
  - assert (u64 (zlen (c_buf c) - off) = zlen (c_buf c) - off) as Eu by (apply u64_id; unfold max_alloc, W64 in *; lia).
    rewrite Eu in H. destruct (_ <? n) eqn:E2 in H |- *.
    + destruct ((off <? 0) || _) eqn:E5 in H; [discriminate|]. unfold set_cell, ret, bind in H. injection H as <- <-. cbn [st_env with_heap st_heap st_tick st_freed].
      split; [reflexivity|]. eexists. split; [apply lookup_insert|]. cbn [c_refs c_buf]. split; [reflexivity|].
      split; [|auto].
      assert (zlen (if d_class d then zupd off (zrep len None) (c_buf c) else c_buf c) = zlen (c_buf c)) as Es
        by (destruct (d_class d); [apply zlen_zupd; rewrite ?zlen_zrep; lia|reflexivity]).
      rewrite zlen_zupd; rewrite ?Es, ?zlen_zsub; lia.
    + injection H as <- <-. split; [reflexivity|]. exists c. auto 10.
Qed.
Lemma reserve_meter x n sc s s' cap off len : own x s cap off len -> len <= n -> 0 <= n ->
  base_reserve d x n sc s = Ok tt s' ->
  exists cap' off', own x s' cap' off' len /\
  (if cap <? n
   then cap' = Z.max (sc cap) n /\ off' = 0 /\ st_tick s' = S (st_tick s) /\ exists b, st_freed s' = b ++ st_freed s /\ total b = cap /\ (cap = 0 -> b = [])
   else cap' = cap /\ off' = (if cap - off <? n then 0 else off) /\ st_tick s' = st_tick s /\ st_freed s' = st_freed s).
Proof.
  intros (l & h & c & Hx & Hl & Hr & Hc & Ho & Hlen & Hfit & Hm) Hn Hn0 H. unfold base_reserve in H.
  bi H o s0 E. unfold get_obj in E. rewrite Hx in E. injection E as <- <-. cbn [o_ref o_off o_len o_hash] in H.
  bi H l0 s0 E. injection E as <- <-. bi H off' s1 E.
  subst cap. apply (aref_meter l n sc off len s off' s1 c Hl Hm Ho Hlen Hfit Hn) in E as (Ee & c' & Hl' & Hr' & E).
  unfold set_obj in H. injection H as <-. cbn [st_tick st_freed with_env]. exists (zlen (c_buf c')), off'.
  destruct (zlen (c_buf c) <? n) eqn:E1.
  - destruct E as (Ec & Em & -> & Et & Ef). split.
    + exists l, h, c'. cbn [st_env st_heap with_env]. rewrite lookup_insert. rewrite Hr', Hr. repeat match goal with |- _ /\ _ => split end; auto; lia.
    + split; [exact Ec|]. split; [reflexivity|]. split; [exact Et|]. eexists. split; [exact Ef|]. unfold total.
      destruct (zlen (c_buf c) =? 0) eqn:E0; cbn [fold_right]; split; [lia|auto|lia|lia].
  - destruct E as (Ec & -> & Et & Ef). split; [|auto].
    exists l, h, c'. cbn [st_env st_heap with_env]. rewrite lookup_insert, Hr', Hr, Ec.
    destruct (zlen (c_buf c) - off <? n) eqn:E2; repeat match goal with |- _ /\ _ => split end; auto; lia.
Qed.
Lemma vreserve_meter x len s s' cap off : own x s cap off len -> len + 2 <= max_alloc ->
  v_reserve d x (len + 1) (d_grow d) s = Ok tt s' ->
  exists cap' off', own x s' cap' off' len /\
  (if cap <? need len
   then cap' = Z.max (d_grow d cap) (need len) /\ off' = 0 /\ st_tick s' = S (st_tick s) /\ exists b, st_freed s' = b ++ st_freed s /\ total b = cap /\ (cap = 0 -> b = [])
   else cap' = cap /\ off' = (if cap - off <? need len then 0 else off) /\ st_tick s' = st_tick s /\ st_freed s' = st_freed s).
Proof.
  intros Hw Hb H. assert (0 <= len) as L by (destruct Hw as (? & ? & ? & ? & ? & ? & ? & ? & ? & _); assumption).
  unfold v_reserve in H. unfold need. destruct (d_nul d) as [z|].
  - destruct (0 <? len + 1) eqn:E; [|lia]. rewrite u64_id in H by (unfold max_alloc, W64 in *; lia). replace (len + 1 + 1) with (len + 2) in H by lia.
    bi H u s1 E1. destruct u. apply (reserve_meter x (len + 2) (d_grow d) s s1 cap off len Hw) in E1 as (cap' & off' & Hw' & E1); [|lia|lia].
    bi H o s2 E2. destruct Hw' as (l & h & c & Hx & Hl & Hr & Hc & Ho & Hlen & Hfit & Hm). unfold get_obj in E2. rewrite Hx in E2. injection E2 as <- <-.
    cbn [o_ref o_off] in H. bi H c0 s2 E2. unfold get_cell in E2. rewrite Hl in E2. injection E2 as <- <-.
    assert (cap' = zlen (c_buf c)) as Q by auto. clear Hc.
    destruct (c_buf c) as [|b0 b] eqn:Eb.
    + change (zlen []) with 0 in Q. subst cap'. destruct (off' =? 0) eqn:Eo; [|discriminate]. injection H as <-. exists 0, off'. split; [|exact E1].
      exists l, h, c. rewrite Eb. repeat match goal with |- _ /\ _ => split end; auto.
    + rewrite <- Eb in *. unfold set_cell in H. injection H as <-. cbn [st_tick st_freed with_heap]. exists cap', off'. split; [|exact E1].
      assert (0 < zlen (c_buf c)) as Pb by (rewrite Eb, zlen_cons; pose proof (zlen_nonneg b); lia).
      eexists l, h, _. cbn [st_env st_heap with_heap]. rewrite lookup_insert. split; [exact Hx|]. split; [reflexivity|]. cbn [c_refs c_buf].
      rewrite zlen_zupd by (change (zlen [Some z]) with 1; lia). repeat match goal with |- _ /\ _ => split end; auto; lia.
  - apply (reserve_meter x (len + 1) (d_grow d) s s' cap off len Hw) in H; [exact H|lia|lia].
Qed.
Lemma store_meter x p es s s' cap off len : own x s cap off len -> store x p es s = Ok tt s' ->
  own x s' cap off len /\ st_tick s' = st_tick s /\ st_freed s' = st_freed s.
Proof.
  intros Hw H. unfold store in H. destruct (zlen es <=? 0) eqn:E0; [injection H as <-; auto|].
  destruct Hw as (l & h & c & Hx & Hl & Hr & Hc & Ho & Hlen & Hfit & Hm).
  bi H o s0 E. unfold get_obj in E. rewrite Hx in E. injection E as <- <-. cbn [o_ref o_off] in H.
  bi H c0 s0 E. unfold get_cell in E. rewrite Hl in E. injection E as <- <-.
  destruct (_ <=? zlen (c_buf c)) eqn:E1 in H; [|discriminate]. unfold set_cell in H. injection H as <-. split; [|auto].
  eexists l, h, _. cbn [st_env st_heap with_heap]. rewrite lookup_insert. split; [exact Hx|]. split; [reflexivity|]. cbn [c_refs c_buf].
  pose proof (u64_range (off + p)). rewrite zlen_zupd by lia. repeat match goal with |- _ /\ _ => split end; auto; lia.
Qed.
Lemma set_len_meter x n s s' cap off len : own x s cap off len -> 0 <= n -> off + n <= cap -> set_len x n s = Ok tt s' ->
  own x s' cap off n /\ st_tick s' = st_tick s /\ st_freed s' = st_freed s.
Proof.
  intros (l & h & c & Hx & Hl & Hr & Hc & Ho & Hlen & Hfit & Hm) N F H. unfold set_len in H.
  bi H o s0 E. unfold get_obj in E. rewrite Hx in E. injection E as <- <-. unfold set_obj in H. injection H as <-. split; [|auto].
  exists l, h, c. cbn [st_env st_heap with_env o_ref o_off o_hash]. rewrite lookup_insert. repeat match goal with |- _ /\ _ => split end; auto.
Qed.
Lemma length_meter x s cap off len : own x s cap off len -> length_of x s = Ok len s.
Proof. intros (l & h & c & Hx & _). unfold length_of, bind, get_obj. rewrite Hx. reflexivity. Qed.
Lemma need_ge len : len + 1 <= need len <= len + 2.
Proof. unfold need. destruct (d_nul d); lia. Qed.
(** The part of insert after AboutToModify. *)
Lemma tail_meter x v s s' cap off len : own x s cap off len -> off + len + 1 <= cap ->
  (shift_right x len 1 ;;; store x len [Some v] ;;; add_len x 1) s = Ok tt s' ->
  own x s' cap off (len + 1) /\ st_tick s' = st_tick s /\ st_freed s' = st_freed s.
Proof.
  intros Hw Hf H. pose proof (length_meter _ _ _ _ _ Hw) as Hlen. bi H u s1 E. unfold shift_right in E. bi E n s0 E'. rewrite Hlen in E'. injection E' as <- <-.
  bi E es s0 E'. unfold load in E'. destruct (len - len <=? 0) eqn:E0; [|lia]. injection E' as <- <-.
  unfold store in E at 1. change (zlen [] <=? 0) with true in E. injection E as <- <-.
  bi H u s1 E. destruct u. apply (store_meter _ _ _ _ _ _ _ _ Hw) in E as (Hw1 & Et & Ef).
  unfold add_len in H. bi H n s2 E. rewrite (length_meter _ _ _ _ _ Hw1) in E. injection E as <- <-.
  assert (0 <= len /\ cap <= max_alloc) as [L C] by (destruct Hw as (? & ? & ? & ? & ? & ? & ? & ? & ? & ? & ?); auto).
  assert (0 <= off) by (destruct Hw as (? & ? & ? & ? & ? & ? & ? & ? & ? & ? & ?); auto).
  rewrite u64_id in H by (unfold max_alloc, W64 in *; lia).
  apply (set_len_meter x (len + 1) _ _ _ _ _ Hw1) in H as (Hw2 & Et2 & Ef2); [|lia|lia]. rewrite Et2, Ef2. auto.
Qed.
(** One append to an owner. *)
Lemma append_own x v s s' w cap off len : own x s cap off len -> len + 2 <= max_alloc ->
  exec d (AppendItem x v) s = Ok w s' ->
  exists cap' off', own x s' cap' off' (len + 1) /\
  (if cap <? need len
   then cap' = Z.max (d_grow d cap) (need len) /\ off' = 0 /\ st_tick s' = S (st_tick s) /\ (exists b, st_freed s' = b ++ st_freed s /\ total b = cap) /\
        append_moves d x s <= len
   else cap' = cap /\ off' = (if cap - off <? need len then 0 else off) /\ st_tick s' = st_tick s /\ st_freed s' = st_freed s /\
        append_moves d x s = (if cap - off <? need len then len else 0)).
Proof.
  intros Hw Hb H. pose proof (length_meter _ _ _ _ _ Hw) as Hlen. cbn [exec] in H. unfold unit_ in H. bi H u s1 E. injection H as _ <-. rename E into H.
  unfold append_item in H. bi H n s0 E. rewrite Hlen in E. injection E as <- <-. unfold insert_item in H.
  bi H u0 s0 E. assert (s0 = s) as ->.
  { unfold check_pos, validate_index in E. destruct (len =? 0); [injection E as _ <-; reflexivity|]. bi E n s2 E'. rewrite Hlen in E'. injection E' as <- <-.
    destruct (_ <=? _); [discriminate|]. injection E as _ <-. reflexivity. }
  clear E. bi H n s0 E. rewrite Hlen in E. injection E as <- <-. assert (0 <= len) as L by (destruct Hw as (? & ? & ? & ? & ? & ? & ? & ? & ? & ? & ?); auto).
  rewrite u64_id in H by (unfold max_alloc, W64 in *; lia).
  bi H u1 s2 E. unfold about_to_modify in E. bi E u2 s3 E'.
  assert (append_moves d x s = (if cap <? need len then (if cap =? 0 then 0 else len) else if cap - off <? need len then len else 0)) as Hmv.
  { destruct Hw as (l & h & c & Hx & Hl & Hr & Hc & _). unfold append_moves. rewrite Hx. cbn [o_ref o_len o_off]. rewrite Hl, Hr, Hc. reflexivity. }
  assert (own x s3 cap off len /\ st_tick s3 = st_tick s /\ st_freed s3 = st_freed s) as (Hw3 & Et3 & Ef3).
  { destruct Hw as (l & h & c & Hx & Hl & Hr & Hc & R). bi E' o s4 E4. unfold get_obj in E4. rewrite Hx in E4. injection E4 as <- <-.
    unfold set_obj in E'. injection E' as _ <-. split; [|auto]. exists l, 0, c. cbn [st_env st_heap with_env o_ref o_off o_len]. rewrite lookup_insert. auto. }
  bi E sh s4 E4. assert (sh = false /\ s4 = s3) as [-> ->].
  { destruct Hw3 as (l & h & c & Hx & Hl & Hr & _). unfold is_shared, bind, get_obj in E4. rewrite Hx in E4. cbn [o_ref] in E4. unfold get_cell in E4.
    rewrite Hl in E4. injection E4 as <- <-. rewrite Hr. auto. }
  destruct u1. apply (vreserve_meter x len s3 s2 cap off Hw3) in E as (cap' & off' & Hw' & E); [|lia].
  pose proof (need_ge len) as Hng.
  assert (off' + len + 1 <= cap') as Hroom.
  { destruct Hw3 as (? & ? & ? & _ & _ & _ & _ & ? & ? & ? & ?). destruct (cap <? need len) eqn:E5; [lia|]. destruct E as (-> & -> & _). destruct (cap - off <? need len) eqn:E6; lia. }
  destruct u. apply (tail_meter x v s2 s1 cap' off' len Hw' Hroom) in H as (Hw1 & Et & Ef).
  exists cap', off'. split; [exact Hw1|]. rewrite Hmv. destruct (cap <? need len) eqn:E5.
  - destruct E as (-> & -> & Et2 & b & Ef2 & Hb2 & _). rewrite Et, Et2, Et3, Ef, Ef2, Ef3. repeat match goal with |- _ /\ _ => split end; eauto.
    destruct (cap =? 0); lia.
  - destruct E as (-> & -> & Et2 & Ef2). rewrite Et, Et2, Et3, Ef, Ef2, Ef3. repeat match goal with |- _ /\ _ => split end; auto.
Qed.
(** An object without a buffer gets one. *)
Lemma none_split x n sc s s' h : st_env s !! x = Some (Obj None 0 0 h) -> base_reserve d x n sc s = Ok tt s' ->
  exists s1, own x s1 0 0 0 /\ st_tick s1 = S (st_tick s) /\ st_freed s1 = st_freed s /\ base_reserve d x n sc s1 = Ok tt s'.
Proof.
  intros Hx H. unfold base_reserve in H. bi H o s0 E. unfold get_obj in E. rewrite Hx in E. injection E as <- <-. cbn [o_ref o_off o_len o_hash] in H.
  bi H l s1 E. bi E l0 s2 E2. unfold new_cell in E2. bi E2 u s3 E3. unfold try_alloc in E3. destruct (_ || _) in E3; [discriminate|]. injection E3 as _ <-.
  injection E2 as <- <-. bi E u0 s4 E4. unfold set_obj in E4. injection E4 as _ <-. injection E as <- <-.
  match type of H with _ ?st = _ => exists st end. split; [|split; [|split; [|]]].
  4: { unfold base_reserve. unfold bind at 1, get_obj. cbn [st_env with_env]. rewrite lookup_insert. cbn [o_ref o_off o_len o_hash]. exact H. }
  - eexists _, _, _. cbn [st_env st_heap with_env]. rewrite !lookup_insert. split; [reflexivity|]. split; [reflexivity|]. cbn [c_refs c_buf].
    change (zlen []) with 0. repeat match goal with |- _ /\ _ => split end; auto; unfold max_alloc, W63; lia.
  - reflexivity.
  - reflexivity.
Qed.
Lemma vreserve_none x len s s' h : st_env s !! x = Some (Obj None 0 0 h) -> 0 <= len -> len + 2 <= max_alloc ->
  v_reserve d x (len + 1) (d_grow d) s = Ok tt s' ->
  exists cap, own x s' cap 0 0 /\ need len <= cap /\ st_tick s' = S (S (st_tick s)) /\ st_freed s' = st_freed s.
Proof.
  intros Hx L Hb H. unfold v_reserve in H. unfold need. destruct (d_nul d) as [z|] eqn:Hz.
  - destruct (0 <? len + 1) eqn:E; [|lia]. rewrite u64_id in H by (unfold max_alloc, W64 in *; lia). replace (len + 1 + 1) with (len + 2) in H by lia.
    bi H u s1 E1. destruct u. apply (none_split _ _ _ _ _ _ Hx) in E1 as (s2 & Hw & Et & Ef & E1).
    apply (reserve_meter x (len + 2) (d_grow d) s2 s1 0 0 0 Hw) in E1 as (cap' & off' & Hw' & E1); [|lia|lia].
    destruct (0 <? len + 2) eqn:E0; [|lia]. destruct E1 as (Ec & -> & Et1 & b & Ef1 & Hb1).
    assert (b = []) as -> by (apply Hb1; reflexivity).
    bi H o s3 E2. destruct Hw' as (l & hh & c & Hx' & Hl & Hr & Hc & Ho & Hlen & Hfit & Hm). unfold get_obj in E2. rewrite Hx' in E2. injection E2 as <- <-.
    cbn [o_ref o_off] in H. bi H c0 s3 E2. unfold get_cell in E2. rewrite Hl in E2. injection E2 as <- <-.
    destruct (c_buf c) as [|b0 b] eqn:Eb; [change (zlen []) with 0 in Hc; lia|]. rewrite <- Eb in *.
    unfold set_cell in H. injection H as <-. cbn [st_tick st_freed with_heap]. exists cap'. split; [|split; [lia|split; [congruence|rewrite Ef1, <- Ef; reflexivity]]].
    eexists l, hh, _. cbn [st_env st_heap with_heap]. rewrite lookup_insert. split; [exact Hx'|]. split; [reflexivity|]. cbn [c_refs c_buf].
    rewrite zlen_zupd by (change (zlen [Some z]) with 1; lia). repeat match goal with |- _ /\ _ => split end; auto; lia.
  - apply (none_split _ _ _ _ _ _ Hx) in H as (s2 & Hw & Et & Ef & E1).
    apply (reserve_meter x (len + 1) (d_grow d) s2 s' 0 0 0 Hw) in E1 as (cap' & off' & Hw' & E1); [|lia|lia].
    destruct (0 <? len + 1) eqn:E0; [|lia]. destruct E1 as (Ec & -> & Et1 & b & Ef1 & Hb1). exists cap'. split; [exact Hw'|]. split; [lia|]. split; [congruence|].
    assert (b = []) as -> by (apply Hb1; reflexivity). rewrite Ef1, <- Ef. reflexivity.
Qed.
(** The first append to an object that shares its buffer or has none. *)
Lemma append_first x v s s' w o : st_env s !! x = Some o -> 0 <= o_len o -> o_len o + 2 <= max_alloc ->
  (o_ref o = None /\ o_off o = 0 /\ o_len o = 0 \/ exists l c, o_ref o = Some l /\ st_heap s !! l = Some c /\ 1 < c_refs c) ->
  exec d (AppendItem x v) s = Ok w s' ->
  exists cap, own x s' cap 0 (o_len o + 1) /\ st_tick s' = S (S (st_tick s)) /\ st_freed s' = st_freed s /\ append_moves d x s <= o_len o.
Proof.
  intros Hx L Hb Hsh H. set (len := o_len o) in *.
  assert (length_of x s = Ok len s) as Hlen by (unfold length_of, bind, get_obj; rewrite Hx; reflexivity).
  cbn [exec] in H. unfold unit_ in H. bi H u s1 E. injection H as _ <-. rename E into H.
  unfold append_item in H. bi H n s0 E. rewrite Hlen in E. injection E as <- <-. unfold insert_item in H.
  bi H u0 s0 E. assert (s0 = s) as ->.
  { unfold check_pos, validate_index in E. destruct (len =? 0); [injection E as _ <-; reflexivity|]. bi E n s2 E'. rewrite Hlen in E'. injection E' as <- <-.
    destruct (_ <=? _); [discriminate|]. injection E as _ <-. reflexivity. }
  clear E. bi H n s0 E. rewrite Hlen in E. injection E as <- <-. rewrite u64_id in H by (unfold max_alloc, W64 in *; lia).
  bi H u1 s2 E. unfold about_to_modify in E. bi E u2 s3 E'.
  assert (append_moves d x s <= len) as Hmv.
  { unfold append_moves. rewrite Hx. destruct Hsh as [(-> & _)|(l & c & -> & -> & R)]; [lia|]. destruct (1 <? c_refs c) eqn:E1; [reflexivity|lia]. }
  bi E' o1 s4 E4. unfold get_obj in E4. rewrite Hx in E4. injection E4 as <- <-. unfold set_obj in E'. injection E' as _ <-.
  pose proof (need_ge len) as Hng.
  assert (exists cap, own x s2 cap 0 len /\ len + 1 <= cap /\ st_tick s2 = S (S (st_tick s)) /\ st_freed s2 = st_freed s) as (cap & Hw2 & Hroom & Et & Ef).
  { destruct u1. destruct Hsh as [(Hr & Ho & Hl)|(l & c & Hr & Hl & R)].
    - bi E sh s4 E4. unfold is_shared, bind, get_obj in E4. cbn [st_env with_env] in E4. rewrite lookup_insert in E4. cbn [o_ref] in E4. rewrite Hr in E4.
      injection E4 as <- <-. apply (vreserve_none x len _ s2 0) in E as (cap & Hw & Hc & Et & Ef); [|cbn [st_env with_env]; rewrite lookup_insert, Ho; fold len; rewrite Hl; reflexivity|lia|lia].
      exists cap. rewrite Hl in Hng, Hc |- *. split; [exact Hw|]. split; [lia|]. auto.
    - bi E sh s4 E4. unfold is_shared, bind, get_obj in E4. cbn [st_env with_env] in E4. rewrite lookup_insert in E4. cbn [o_ref] in E4. rewrite Hr in E4.
      unfold get_cell in E4. cbn [st_heap with_env] in E4. rewrite Hl in E4. destruct (1 <? c_refs c) eqn:E5; [|lia]. injection E4 as <- <-.
      unfold cow in E. bi E o1 s4 E4. unfold get_obj in E4. cbn [st_env with_env] in E4. rewrite lookup_insert in E4. injection E4 as <- <-.
      cbn [o_ref o_off o_len] in E. bi E uk s4 E4. rewrite (check_ok d) in E4 by (eapply shared_ok; [apply lookup_insert|reflexivity|exact Hl|lia]). injection E4 as _ <-.
      bi E u3 s4 E4. unfold do_detach in E4. bi E4 o1 s5 E6. unfold get_obj in E6. cbn [st_env with_env] in E6. rewrite lookup_insert in E6. injection E6 as <- <-.
      cbn [o_ref] in E4. rewrite ?Hr in E4. bi E4 r s5 E6. unfold dec_ref in E6. bi E6 c0 s6 E7. unfold get_cell in E7. cbn [st_heap with_env] in E7. rewrite Hl in E7. injection E7 as <- <-.
      bi E6 u4 s6 E7. unfold set_cell in E7. injection E7 as _ <-. injection E6 as <- <-. unfold set_obj in E4. injection E4 as _ <-.
      bi E u5 s5 E4. destruct u5. apply (vreserve_none x len _ s5 0) in E4 as (cap & Hw & Hc & Et & Ef); [|cbn [st_env with_env with_heap]; rewrite lookup_insert; reflexivity|lia|lia].
      cbn [st_tick st_freed with_env with_heap] in Et, Ef. fold len in E. replace (Z.min len (len + 1)) with len in E by lia.
      bi E u6 s6 E4. destruct u6. apply (set_len_meter _ _ _ _ _ _ _ Hw) in E4 as (Hw6 & Et6 & Ef6); [|lia|lia].
      exists cap. destruct (len <=? 0) eqn:E7.
      + injection E as <-. split; [exact Hw6|]. split; [lia|]. split; congruence.
      + rewrite ?Hr in E. bi E c1 s7 E8. unfold get_cell in E8. destruct (st_heap s6 !! l) as [c2|]; [|discriminate]. injection E8 as <- <-.
        destruct (_ <=? zlen (c_buf c2)) in E; [|discriminate]. apply (store_meter _ _ _ _ _ _ _ _ Hw6) in E as (Hw7 & Et7 & Ef7).
        split; [exact Hw7|]. split; [lia|]. split; congruence. }
  destruct u. apply (tail_meter x v s2 s1 cap 0 len Hw2) in H as (Hw1 & Et1 & Ef1); [|lia]. exists cap. split; [exact Hw1|]. split; [congruence|]. split; [congruence|exact Hmv].
Qed.

(** Repeated growth. *)
Definition gauge (cap : Z) : Z := if cap =? 0 then 4 else if cap =? 1 then 6 else 9 * (cap - 1).
Lemma gauge_grow c c' : 0 <= c -> c + 1 <= c' -> c + c / 2 <= c' -> 3 * gauge c <= 2 * gauge c'.
Proof. intros A B C. unfold gauge. destruct (c =? 0) eqn:?, (c =? 1) eqn:?, (c' =? 0) eqn:?, (c' =? 1) eqn:?; lia. Qed.
Lemma total_app {A} (a b : list (list A)) : total (a ++ b) = total a + total b.
Proof. induction a as [|x a IH]; cbn; [reflexivity|]. unfold total in *. cbn. lia. Qed.
Variable lim : Z.
Hypothesis Hgrow : forall z, 0 <= z <= lim -> z + z / 2 <= d_grow d z.
Hypothesis Hlim : lim <= max_alloc.
Lemma grow_all x vs : forall s s' m cap off len (K : nat) Sm M, own x s cap off len -> len + zlen vs + 2 <= lim ->
  Sm <= 3 * cap -> Sm <= 4 * len -> 4 * 3 ^ Z.of_nat K <= 2 ^ Z.of_nat K * gauge cap -> 3 ^ Z.of_nat K <= 2 ^ Z.of_nat K * (4 * (len + 1)) ->
  (if off =? 0 then M <= Sm + len else M = 0) -> 0 <= Sm ->
  append_all d x vs s = Some (s', m) ->
  exists (k : nat) R, st_tick s' = (st_tick s + k)%nat /\ st_freed s' = R ++ st_freed s /\ Sm + total R <= 4 * (len + zlen vs) /\
    M + m <= 5 * (len + zlen vs) /\ 3 ^ Z.of_nat (K + k) <= 2 ^ Z.of_nat (K + k) * (4 * (len + zlen vs + 1)).
Proof.
  induction vs as [|v vs IH]; intros s s' m cap off len K Sm M Hw Hl I1 I2 I3 I4 I5 I6 H; cbn [append_all] in H.
  - injection H as <- <-. change (zlen []) with 0 in *. exists O, []. rewrite !Nat.add_0_r, !Z.add_0_r. unfold total; cbn.
    assert (0 <= len) by (destruct Hw as (? & ? & ? & ? & ? & ? & ? & ? & ? & ? & ?); auto).
    repeat match goal with |- _ /\ _ => split end; auto; try lia. destruct (off =? 0); lia.
  - rewrite zlen_cons in *. pose proof (zlen_nonneg vs) as Hvs.
    destruct (exec d (AppendItem x v) s) as [w s1| | | |] eqn:E; try discriminate.
    destruct (append_all d x vs s1) as [[s2 m']|] eqn:E2; [|discriminate]. injection H as <- <-.
    apply (append_own x v s s1 w cap off len Hw) in E as (cap' & off' & Hw' & E); [|lia].
    pose proof (need_ge len) as Hng.
    assert (0 <= off /\ 0 <= len /\ off + len <= cap /\ cap <= max_alloc) as (O1 & O2 & O3 & O4) by (destruct Hw as (? & ? & ? & ? & ? & ? & ? & ? & ? & ? & ?); auto).
    destruct (cap <? need len) eqn:E1.
    + destruct E as (Ec & -> & Et & (b & Ef & Hb) & Hm). pose proof (Hgrow cap ltac:(lia)) as Hg.
      assert (cap + 1 <= cap' /\ cap + cap / 2 <= cap') as [G1 G2] by lia. pose proof (gauge_grow cap cap' ltac:(lia) G1 G2) as G3.
      apply (IH s1 s2 m' cap' 0 (len + 1) (S K) (Sm + cap) (M + append_moves d x s) Hw') in E2 as (k & R & Ht & Hf & HS & HM & HK).
      * exists (S k), (R ++ b). rewrite total_app. replace (K + S k)%nat with (S K + k)%nat by lia.
        split; [rewrite Ht, Et; lia|]. split; [rewrite Hf, Ef, app_assoc; reflexivity|]. split; [lia|]. split; [lia|].
        replace (len + (1 + zlen vs) + 1) with (len + 1 + zlen vs + 1) by lia. exact HK.
      * lia.
      * lia.
      * lia.
      * rewrite Nat2Z.inj_succ, !Z.pow_succ_r by lia. nia.
      * rewrite Nat2Z.inj_succ, !Z.pow_succ_r by lia.
        assert (gauge cap <= 9 * (len + 1)) as G4 by (unfold gauge; destruct (cap =? 0) eqn:?, (cap =? 1) eqn:?; lia).
        assert (0 < 2 ^ Z.of_nat K) by lia. nia.
      * cbn. destruct (off =? 0) eqn:Eo; lia.
      * lia.
    + destruct E as (-> & -> & Et & Ef & Hm).
      apply (IH s1 s2 m' cap (if cap - off <? need len then 0 else off) (len + 1) K Sm (M + append_moves d x s) Hw') in E2 as (k & R & Ht & Hf & HS & HM & HK).
      * exists k, R. split; [rewrite Ht, Et; lia|]. split; [rewrite Hf, Ef; reflexivity|]. split; [lia|]. split; [lia|].
        replace (len + (1 + zlen vs) + 1) with (len + 1 + zlen vs + 1) by lia. exact HK.
      * lia.
      * lia.
      * lia.
      * exact I3.
      * assert (0 < 2 ^ Z.of_nat K) by lia. nia.
      * rewrite Hm. destruct (cap - off <? need len) eqn:E3; cbn; [|destruct (off =? 0); lia].
        destruct (off =? 0) eqn:Eo; lia.
      * lia.
Qed.
Lemma append_cost x v s a vs s' m r : wf_desc d -> reached d s a -> a !! x = Some (AVal r v) -> zlen v + zlen vs + 2 <= lim ->
  append_all d x vs s = Some (s', m) ->
  exists k R, (st_tick s' <= st_tick s + k + 2)%nat /\ 3 ^ Z.of_nat k <= 2 ^ Z.of_nat k * (4 * (zlen v + zlen vs + 1)) /\
    st_freed s' = R ++ st_freed s /\ total R <= 4 * (zlen v + zlen vs) /\ m <= 5 * (zlen v + zlen vs).
Proof.
  intros Hwf Hre Ha Hl H. pose proof (reached_R d s a Hwf Hre) as HR. destruct (R_held d _ _ _ _ _ HR Ha) as (o & Hh).
  pose proof (held_len d _ _ _ _ _ Hh) as Hlen. pose proof (hd_env _ _ _ _ _ _ Hh) as Hx.
  assert (o_len o = zlen v) as Ho by (unfold length_of, bind, get_obj in Hlen; rewrite Hx in Hlen; injection Hlen as ->; reflexivity).
  pose proof (zlen_nonneg v) as Hv. pose proof (zlen_nonneg vs) as Hvs.
  destruct HR as [[Hc Hob] _].
  assert ((exists cap, own x s cap (o_off o) (o_len o)) \/
    (o_ref o = None /\ o_off o = 0 /\ o_len o = 0 \/ exists l c, o_ref o = Some l /\ st_heap s !! l = Some c /\ 1 < c_refs c)) as [[cap Hw]|Hs].
  { destruct (o_ref o) as [l|] eqn:Er.
    - destruct (Hob x o Hx l Er) as (c & Hcl & P1 & P2 & P3 & _). destruct (Hc l c Hcl) as [_ Hp Hsz _].
      destruct (decide (1 < c_refs c)) as [G|G]; [right; right; eauto|left].
      exists (zlen (c_buf c)), l, (o_hash o), c. rewrite <- Er. destruct o; cbn in *. repeat match goal with |- _ /\ _ => split end; auto; lia.
    - right. left. destruct (hd_good _ _ _ _ _ _ Hh Er) as (? & ? & _). auto. }
  - rewrite Ho in Hw. apply (grow_all x vs s s' m cap (o_off o) (zlen v) 0 0 0 Hw) in H as (k & R & Ht & Hf & HS & HM & HK); try lia.
    + exists k, R. split; [lia|]. split; [exact HK|]. split; [exact Hf|]. split; lia.
    + destruct Hw as (? & ? & ? & ? & ? & ? & ? & ? & ? & ? & ?). lia.
    + cbn. unfold gauge. destruct Hw as (? & ? & ? & ? & ? & ? & ? & ? & ? & ? & ?). destruct (cap =? 0) eqn:?, (cap =? 1) eqn:?; lia.
    + destruct (o_off o =? 0); lia.
  - destruct vs as [|e vs]; cbn [append_all] in H.
    { injection H as <- <-. exists O, []. cbn [app]. unfold total. cbn. change (zlen []) with 0. repeat match goal with |- _ /\ _ => split end; auto; lia. }
    rewrite zlen_cons in *. pose proof (zlen_nonneg vs) as Hvs'.
    destruct (exec d (AppendItem x e) s) as [w s1| | | |] eqn:E; try discriminate.
    destruct (append_all d x vs s1) as [[s2 m']|] eqn:E2; [|discriminate]. injection H as <- <-.
    apply (append_first x e s s1 w o Hx) in E as (cap & Hw & Et & Ef & Hm); [|lia|lia|exact Hs]. rewrite Ho in Hw, Hm.
    apply (grow_all x vs s1 s2 m' cap 0 (zlen v + 1) 0 0 (append_moves d x s) Hw) in E2 as (k & R & Ht & Hf & HS & HM & HK); try lia.
    + exists k, R. replace (zlen v + (1 + zlen vs) + 1) with (zlen v + 1 + zlen vs + 1) by lia. split; [lia|]. split; [exact HK|]. split; [congruence|]. split; lia.
    + destruct Hw as (? & ? & ? & ? & ? & ? & ? & ? & ? & ? & ?). lia.
    + cbn. unfold gauge. destruct Hw as (? & ? & ? & ? & ? & ? & ? & ? & ? & ? & ?). destruct (cap =? 0) eqn:?, (cap =? 1) eqn:?; lia.
    + cbn. lia.
Qed.
End Grow.

Lemma log_bound (k : nat) N : 0 < N -> 3 ^ Z.of_nat k <= 2 ^ Z.of_nat k * (4 * N) -> Z.of_nat k <= 2 * Z.log2 (4 * N) + 1.
Proof.
  intros HN H. assert (exists j r : Z, Z.of_nat k = 2 * j + r /\ 0 <= j /\ 0 <= r <= 1) as (j & r & E & J & R)
    by (exists (Z.of_nat k / 2), (Z.of_nat k mod 2); lia).
  rewrite E in H |- *. rewrite !Z.pow_add_r, !(Z.pow_mul_r _ 2 j) in H by lia. change (3 ^ 2) with 9 in H. change (2 ^ 2) with 4 in H.
  assert (8 ^ j <= 9 ^ j) as P by (apply Z.pow_le_mono_l; lia). change 8 with (2 * 4) in P. rewrite Z.pow_mul_l in P.
  assert (0 < 4 ^ j) as P4 by (apply Z.pow_pos_nonneg; lia). assert (0 < 2 ^ j) as P2 by (apply Z.pow_pos_nonneg; lia).
  assert (2 ^ r <= 3 ^ r /\ 0 < 2 ^ r) as [P5 P6] by (assert (r = 0 \/ r = 1) as [-> | ->] by lia; split; vm_compute; congruence).
  assert (2 ^ j <= 4 * N) as Q.
  { apply (Z.mul_le_mono_pos_r _ _ (4 ^ j * 2 ^ r)); [nia|].
    assert (2 ^ j * 4 ^ j * 2 ^ r <= 9 ^ j * 3 ^ r) as Q2 by (apply Z.mul_le_mono_nonneg; nia). nia. }
  apply Z.log2_le_mono in Q. rewrite Z.log2_pow2 in Q by lia. lia.
Qed.
