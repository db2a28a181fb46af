(** Proofs about items passed by reference. *)
From Coq Require Import Lia ZifyBool.
From Verif Require Import RcaSpec RcaModel RcaExec RcaInv RcaOwn RcaRel RcaMeet RcaReach PtrSpec PtrProof AliasModel AliasSpec.
Open Scope Z_scope.

Section Alias.
Context {T : Type} (d : desc T).
Implicit Types (s : state T) (a : astate T) (x y : positive).
Notation Mm := (M (state T)).

Lemma needs_room n : needs d n = room d n.
Proof. unfold needs, room. destruct (d_nul d); reflexivity. Qed.

(** A buffer held by someone else. *)
Lemma elsewhere_prefix {A} y l g j e (P : state T -> Prop) (m : Mm unit) (k : T -> Mm A) s :
  K y l g j e s -> tri y l g j e (K y l g j e) m P -> (forall s, P s -> K y l g j e s) ->
  (m ;;; (let* v := ptr_read (Ptr l g j) in k v)) s = (m ;;; k e) s.
Proof.
  intros HK Hm HP. unfold bind at 1 3. pose proof (Hm s HK) as H1. destruct (m s) as [? s1| | | |]; try reflexivity.
  unfold bind. rewrite (K_reads y l g j e s1 (HP s1 H1)). reflexivity.
Qed.
Lemma read_K s a y i p e : wf_desc d -> reached d s a -> ptr_to y i s = Ok p s -> ptr_read p s = Ok e s ->
  forall z oz, st_env s !! z = Some oz -> o_ref oz = Some (p_loc p) -> K z (p_loc p) (p_gen p) (p_idx p) e s.
Proof.
  intros Hwf H Hp Hr z oz Hz Hrz. pose proof (reached_R d s a Hwf H) as [HI _].
  revert Hr. unfold ptr_read, bind, get_cell. destruct (st_heap s !! p_loc p) as [c|] eqn:El; [|discriminate].
  destruct (Nat.eqb_spec (c_gen c) (p_gen p)) as [Hg|]; [|discriminate]. cbn.
  destruct (znth _ (c_buf c)) as [[w|]|] eqn:Ez; try discriminate. intros Hr. injection Hr as ->.
  destruct HI as [Hck Hob]. pose proof (Hck _ c El) as K1. exists oz, c. repeat split; auto.
  - rewrite (ck_refs _ _ _ _ K1). lia.
  - apply (ck_next _ _ _ _ K1).
Qed.
(** Another object holds the buffer. *)
Definition elsewhere s x y : Prop := y <> x \/ is_shared x s = Ok true s.
Lemma other_holder s a x y i p e : wf_desc d -> reached d s a -> ptr_to y i s = Ok p s -> ptr_read p s = Ok e s -> elsewhere s x y ->
  exists z, z <> x /\ K z (p_loc p) (p_gen p) (p_idx p) e s.
Proof.
  intros Hwf H Hp Hr He. pose proof (reached_R d s a Hwf H) as [HI _].
  assert (exists o, st_env s !! y = Some o /\ o_ref o = Some (p_loc p)) as (o & Ho & Er).
  { revert Hp. unfold ptr_to, bind, get_obj. destruct (st_env s !! y) as [o|]; [|discriminate]. exists o. split; [reflexivity|].
    destruct (o_ref o) as [l|]; [|discriminate]. unfold get_cell in Hp. destruct (st_heap s !! l); [|discriminate]. injection Hp as <-. reflexivity. }
  destruct (Pos.eq_dec y x) as [->|Hne].
  - destruct He as [He|He]; [congruence|]. destruct (is_shared_eq d s x o HI Ho) as (sh & E1 & Hs). rewrite He in E1. injection E1 as <-.
    destruct Hs as (l & c & Hl & Hc & H1). destruct (shared_other d s x o l c HI Ho Hl Hc H1) as (z & oz & Hzx & Hz & Hrz).
    exists z. split; [exact Hzx|]. eapply (read_K s a x i p e Hwf H Hp Hr z oz Hz). congruence.
  - exists y. split; [exact Hne|]. eapply (read_K s a y i p e Hwf H Hp Hr y o Ho Er).
Qed.
Lemma ptr_eta p : Ptr (p_loc p) (p_gen p) (p_idx p) = p. Proof. destruct p; reflexivity. Qed.

Lemma insert_elsewhere s a x y i p e pos : wf_desc d -> reached d s a -> ptr_to y i s = Ok p s -> ptr_read p s = Ok e s -> elsewhere s x y ->
  insert_ref d x pos p s = insert_item d x pos e s.
Proof.
  intros Hwf H Hp Hr He. destruct (other_holder s a x y i p e Hwf H Hp Hr He) as (z & Hz & HK). rewrite <- (ptr_eta p).
  set (l := p_loc p) in *. set (g := p_gen p) in *. set (j := p_idx p) in *.
  pose (pre := check_pos x pos ;;; (let* len := length_of x in about_to_modify d x (u64 (len + 1)) ;;; shift_right x pos 1)).
  assert (forall A (k : Mm A) s', (check_pos x pos ;;; (let* len := length_of x in about_to_modify d x (u64 (len + 1)) ;;; (shift_right x pos 1 ;;; k))) s' = (pre ;;; k) s') as Eq.
  { intros A k s'. unfold pre, bind. repeat match goal with |- context [match ?m with _ => _ end] => destruct m; try reflexivity end. }
  unfold insert_ref, insert_item. rewrite !Eq. apply (elsewhere_prefix z l g j e (N z l g j e x)); [exact HK| |apply N_K].
  unfold pre. eapply tri_bind; [apply tri_check; first [apply K_upd|auto]|intros _]. eapply tri_bind; [apply tri_length; first [apply K_upd|auto]|intros n].
  eapply tri_bind; [apply tri_atm; auto|intros _]. apply tri_shift_right.
Qed.
Lemma write_elsewhere s a x y i p e pos : wf_desc d -> reached d s a -> ptr_to y i s = Ok p s -> ptr_read p s = Ok e s -> elsewhere s x y ->
  write_ref d x pos p s = write d x pos e s.
Proof.
  intros Hwf H Hp Hr He. destruct (other_holder s a x y i p e Hwf H Hp Hr He) as (z & Hz & HK). rewrite <- (ptr_eta p).
  unfold write_ref, write. apply (elsewhere_prefix z _ _ _ e (N z (p_loc p) (p_gen p) (p_idx p) e x)); [exact HK| |apply N_K]. apply tri_own; auto.
Qed.
Lemma replace_write s x pos p e : write_ref d x pos p s = write d x pos e s -> replace_ref d x pos p s = replace_item d x pos e s.
Proof.
  intros E. unfold replace_ref, replace_item. unfold bind at 1 2. unfold check_pos, validate_index, bind, length_of, get_obj, throw, ret.
  destruct (pos =? 0); [exact E|]. unfold bind, get_obj. destruct (st_env s !! x); [|reflexivity]. destruct (_ <=? _); [reflexivity|exact E].
Qed.

(** The array's own buffer. *)
Definition nulled (b : list (option T)) : list (option T) := match d_nul d with Some z => zupd (zlen b - 1) [Some z] b | None => b end.
Definition packed (off len : Z) (b : list (option T)) : list (option T) :=
  zupd 0 (zsub off len b) (if d_class d then zupd off (zrep len None) b else b).
Lemma zlen_packed off len b : 0 <= off -> 0 <= len -> off + len <= zlen b -> zlen (packed off len b) = zlen b.
Proof.
  intros H1 H2 H3. unfold packed. set (c := if d_class d then _ else _).
  assert (zlen c = zlen b) as E. { unfold c. destruct (d_class d); [|reflexivity]. apply zlen_zupd; zlen_simpl; lia. }
  rewrite zlen_zupd by (zlen_simpl; lia). exact E.
Qed.
Lemma base_mine x l g b off len s n sc : mine x l g b off len s -> 0 <= off -> 0 <= len -> off + len <= zlen b -> zlen b < W63 -> len <= n -> 0 < zlen b ->
  (n <= zlen b -> exists s1, base_reserve d x n sc s = Ok tt s1 /\
     mine x l g (if off + n <=? zlen b then b else packed off len b) (if off + n <=? zlen b then off else 0) len s1) /\
  (zlen b < n -> match base_reserve d x n sc s with Ok _ s1 => exists b1 h, st_env s1 !! x = Some (Obj (Some l) 0 len h) /\ st_heap s1 !! l = Some (Cell b1 (S g) 1) | _ => True end).
Proof.
  intros (h & Hx & Hl) Ho Hn Hfit Hmax Hln Hb. unfold base_reserve, bind, get_obj. rewrite Hx. cbn [o_ref o_off o_len o_hash]. unfold ret, aref_reserve, bind, get_cell. rewrite Hl. cbn [c_buf c_gen c_refs]. cbv zeta.
  split; intros Hcap.
  - assert ((zlen b <? n) = false) as -> by lia. rewrite u64_id by (unfold W63, W64 in *; lia).
    destruct (off + n <=? zlen b) eqn:E.
    + assert ((zlen b - off <? n) = false) as -> by lia. unfold ret, set_obj. eexists. split; [reflexivity|]. exists h. cbn. rewrite lookup_insert. auto.
    + assert ((zlen b - off <? n) = true) as -> by lia. assert (((off <? 0) || (zlen b <? off + len)) = false) as -> by lia.
      unfold set_cell, ret, set_obj. eexists. split; [reflexivity|]. exists h. cbn. rewrite !lookup_insert. auto.
  - assert ((zlen b <? n) = true) as -> by lia. unfold try_alloc. destruct (_ || _); [exact I|]. destruct (_ <? len); [exact I|].
    destruct b as [|b0 b']; [change (zlen (@nil (option T))) with 0 in Hb; lia|]. destruct (_ || _); [exact I|].
    unfold log_freed, set_cell, ret, set_obj. cbn. rewrite !lookup_insert. eauto.
Qed.
Lemma atm_mine x l g b off len s n : mine x l g b off len s -> 0 <= off -> 0 < len -> off + len <= zlen b -> zlen b < W63 -> len <= n -> n < npos ->
  (room d n <= zlen b -> exists s1, about_to_modify d x n s = Ok tt s1 /\
     mine x l g (nulled (if off + room d n <=? zlen b then b else packed off len b)) (if off + room d n <=? zlen b then off else 0) len s1) /\
  (zlen b < room d n -> match about_to_modify d x n s with Ok _ s1 => exists b1 h, st_env s1 !! x = Some (Obj (Some l) 0 len h) /\ st_heap s1 !! l = Some (Cell b1 (S g) 1) | _ => True end).
Proof.
  intros (h & Hx & Hl) Ho Hn Hfit Hmax Hln Hnp.
  assert (exists s0, about_to_modify d x n s = v_reserve d x n (d_grow d) s0 /\ mine x l g b off len s0) as (s0 & -> & Hm0).
  { exists (with_env s (<[x := Obj (Some l) off len 0]> (st_env s))). split.
    - unfold about_to_modify, is_shared, bind, get_obj, set_obj. rewrite Hx. cbn. rewrite lookup_insert. cbn. unfold get_cell. cbn. rewrite Hl. reflexivity.
    - exists 0. cbn. rewrite lookup_insert. auto. }
  pose proof (room_ge d n) as Hrg.
  unfold v_reserve. unfold nulled, room in *. destruct (d_nul d) as [z|].
  - cbv zeta. assert ((0 <? n) = true) as E0 by lia. rewrite E0 in *. rewrite u64_id by (unfold npos, W64 in *; lia).
    destruct (base_mine x l g b off len s0 (n + 1) (d_grow d) Hm0 Ho ltac:(lia) Hfit Hmax ltac:(lia) ltac:(lia)) as [H1 H2]. split; intros Hc.
    + destruct (H1 Hc) as (s1 & E1 & h1 & Hx1 & Hl1). set (b1 := if _ <=? _ then b else _) in *. set (o1 := if _ <=? _ then off else 0) in *.
      assert (zlen b1 = zlen b) as Eb1. { unfold b1. destruct (_ <=? _); [reflexivity|]. apply zlen_packed; lia. }
      unfold bind. rewrite E1. unfold get_obj. rewrite Hx1. cbn [o_ref o_off]. unfold get_cell. rewrite Hl1. cbn [c_buf c_gen c_refs].
      destruct b1 as [|c1 b1'] eqn:Eb; [change (zlen (@nil (option T))) with 0 in Eb1; lia|]. rewrite <- Eb in *.
      unfold set_cell. eexists. split; [reflexivity|]. exists h1. cbn. rewrite lookup_insert. auto.
    + specialize (H2 Hc). unfold bind. destruct (base_reserve d x (n + 1) (d_grow d) s0) as [? s1| | | |]; try exact I. destruct H2 as (b1 & h1 & Hx1 & Hl1).
      unfold get_obj. rewrite Hx1. cbn [o_ref o_off]. unfold get_cell. rewrite Hl1. cbn [c_buf c_gen c_refs]. destruct b1 as [|c1 b1'].
      * cbn. eauto.
      * unfold set_cell. cbn. rewrite lookup_insert. eauto.
  - destruct (base_mine x l g b off len s0 n (d_grow d) Hm0 Ho ltac:(lia) Hfit Hmax ltac:(lia) ltac:(lia)) as [H1 H2]. split; assumption.
Qed.

Lemma own_mine s a x r v i p e : wf_desc d -> reached d s a -> a !! x = Some (AVal r v) -> ptr_to x i s = Ok p s -> ptr_read p s = Ok e s -> 0 <= i < zlen v -> is_shared x s = Ok false s ->
  forall o c, st_env s !! x = Some o -> capacity x s = Ok c s ->
  exists l g b, mine x l g b (o_off o) (zlen v) s /\ p = Ptr l g (o_off o + i) /\ 0 <= o_off o /\ o_off o + zlen v <= zlen b /\ zlen b <= max_alloc /\ vle v (zsub (o_off o) (zlen v) b) /\ c = zlen b /\
    (d_nul d <> None -> r = true -> o_off o + zlen v < zlen b).
Proof.
  intros Hwf H Ha Hp Hr Hi Hsh o c Hx Hc. pose proof (reached_R d s a Hwf H) as HR. destruct (R_held d _ _ _ _ _ HR Ha) as (o' & [Hx' Hg Hv Hrm Hlen Hoff Hfit Hcap]).
  rewrite Hx in Hx'. injection Hx' as <-. revert Hp. unfold ptr_to, bind, get_obj. rewrite Hx. destruct (o_ref o) as [l|] eqn:Er; [|discriminate].
  unfold get_cell. destruct (st_heap s !! l) as [ce|] eqn:El; [|discriminate]. unfold ret. intros Hp. injection Hp as <-.
  unfold cap, buf_of, view, room_ok in *. unfold cap, buf_of in Hrm. rewrite Er, El in *. cbn in Hfit, Hcap, Hrm.
  destruct (is_shared_eq d s x o (proj1 HR) Hx) as (sh & E1 & Hs). rewrite Hsh in E1. injection E1 as <-.
  pose proof max_alloc_lt. rewrite u64_id by (unfold W63, W64 in *; lia). rewrite Hlen in *.
  exists l, (c_gen ce), (c_buf ce). split; [|split; [reflexivity|]; split; [lia|]; split; [lia|]; split; [lia|]; split; [exact Hv|]; split].
  - exists (o_hash o). split; [rewrite Hx; destruct o; cbn in *; congruence|]. specialize (Hs l ce Er El). rewrite El. destruct ce; cbn in *; congruence.
  - revert Hc. unfold capacity, bind, get_obj. rewrite Hx, Er. unfold get_cell. rewrite El. unfold ret. congruence.
  - intros H1 H2. destruct (Hrm H1 H2); lia.
Qed.
Lemma read_mine x l g b off len s j : mine x l g b off len s -> 0 <= j ->
  ptr_read (Ptr l g j) s = match znth j b with None => Undef UbBounds | Some None => Undef UbIndet | Some (Some v) => Ok v s end.
Proof.
  intros (h & Hx & Hl) Hj. unfold ptr_read, bind, get_cell. cbn. rewrite Hl. cbn. rewrite Nat.eqb_refl. cbn. destruct (znth j b) as [[?|]|]; reflexivity.
Qed.
Lemma prep_in v off b n m w : 0 <= off -> off + zlen v <= zlen b -> zlen v < n -> vle v (zsub off (zlen v) b) -> room d n <= zlen b -> znth m v = Some (Some w) ->
  znth ((if off + room d n <=? zlen b then off else 0) + m) (nulled (if off + room d n <=? zlen b then b else packed off (zlen v) b)) = Some (Some w).
Proof.
  intros Ho Hfit Hn Hv Hr Hw. pose proof (znth_inv _ _ _ Hw) as Hm. apply (vle_nth _ _ _ Hv) in Hw. pose proof (room_ge d n) as Hrg.
  pose proof (zlen_packed off (zlen v) b Ho ltac:(lia) Hfit) as Hzp.
  set (b0 := if _ <=? _ then b else _). set (off1 := if _ <=? _ then off else 0).
  assert (zlen b0 = zlen b) as Eb by (unfold b0; destruct (_ <=? _); [reflexivity|exact Hzp]).
  assert (0 <= off1 /\ off1 + n <= zlen b) as [H1 H2] by (unfold off1; destruct (Z.leb_spec (off + room d n) (zlen b)); lia).
  assert (znth (off1 + m) b0 = Some (Some w)) as Hz.
  { unfold b0, off1. destruct (_ <=? _).
    - rewrite znth_zsub in Hw. destruct (_ && _); [|discriminate]. replace (m + Z.max 0 off) with (off + m) in Hw by lia. exact Hw.
    - unfold packed. set (c := if d_class d then _ else _). assert (zlen c = zlen b) as Ec. { unfold c. destruct (d_class d); [|reflexivity]. apply zlen_zupd; zlen_simpl; lia. }
      assert (zlen (zsub off (zlen v) b) = zlen v) as Ez by (zlen_simpl; lia). rewrite znth_zupd by lia. rewrite Ez. assert ((0 <=? 0 + m) && (0 + m <? 0 + zlen v) = true) as -> by lia.
      replace (0 + m - 0) with m by lia. exact Hw. }
  unfold nulled. destruct (d_nul d); [|exact Hz]. rewrite znth_zupd by (rewrite ?zlen_cons, ?zlen_nil; lia). rewrite zlen_cons, zlen_nil. assert ((_ <=? off1 + m) && (off1 + m <? _) = false) as -> by lia. exact Hz.
Qed.
Lemma kept_in v off b n i e : 0 <= off -> 0 <= i < zlen v -> off + zlen v <= zlen b -> zlen v <= n -> vle v (zsub off (zlen v) b) ->
  kept d v off (zlen b) n i = Some (Some e) -> room d n <= zlen b /\ znth (off + i) (nulled (if off + room d n <=? zlen b then b else packed off (zlen v) b)) = Some (Some e).
Proof.
  intros Ho Hi Hfit Hn Hv. unfold kept. rewrite needs_room. destruct (Z.ltb_spec (zlen b) (room d n)) as [|Hc]; [discriminate|].
  assert (Hin : forall k w, 0 <= k < zlen v -> znth k v = Some (Some w) -> znth (off + k) b = Some (Some w)).
  { intros k w Hk Hw. apply (vle_nth _ _ _ Hv) in Hw. rewrite znth_zsub in Hw. destruct (_ && _); [|discriminate]. replace (k + Z.max 0 off) with (off + k) in Hw by lia. exact Hw. }
  assert (Hr : d_nul d <> None -> n + 1 <= room d n). { unfold room. destruct (d_nul d); [|congruence]. intros _. assert ((0 <? n) = true) as -> by lia. lia. }
  assert (Hnul : forall b' k w, zlen b' = zlen b -> 0 <= k < zlen b -> (d_nul d <> None -> k <> zlen b - 1) -> znth k b' = Some (Some w) -> znth k (nulled b') = Some (Some w)).
  { intros b' k w Hb' Hk1 Hk2 Hk. unfold nulled. destruct (d_nul d) as [z|]; [|exact Hk]. specialize (Hk2 ltac:(discriminate)). rewrite znth_zupd by (rewrite ?zlen_cons, ?zlen_nil; lia).
    rewrite zlen_cons, zlen_nil. assert ((_ <=? k) && (k <? _) = false) as -> by lia. exact Hk. }
  destruct (Z.leb_spec (off + room d n) (zlen b)) as [Hf|Hf].
  - intros E. split; [exact Hc|]. apply Hnul; [reflexivity|lia| |apply Hin; [lia|exact E]]. intros Hd. specialize (Hr Hd). lia.
  - pose proof (zlen_packed off (zlen v) b Ho ltac:(lia) ltac:(lia)) as Hzp.
    assert (Hzs : zlen (zsub off (zlen v) b) = zlen v) by (zlen_simpl; lia).
    assert (Hzc : zlen (if d_class d then zupd off (zrep (zlen v) None) b else b) = zlen b). { destruct (d_class d); [|reflexivity]. apply zlen_zupd; zlen_simpl; lia. }
    assert (Hpk : forall k, 0 <= k -> znth k (packed off (zlen v) b) = if k <? zlen v then znth k (zsub off (zlen v) b) else znth k (if d_class d then zupd off (zrep (zlen v) None) b else b)).
    { intros k Hk. unfold packed. rewrite znth_zupd by lia. rewrite Hzs. destruct (k <? zlen v) eqn:Ek.
      - assert ((0 <=? k) && (k <? 0 + zlen v) = true) as -> by lia. f_equal. lia.
      - assert ((0 <=? k) && (k <? 0 + zlen v) = false) as -> by lia. reflexivity. }
    destruct (Z.ltb_spec (off + i) (zlen v)) as [Hj|Hj].
    + intros E. split; [exact Hc|]. apply Hnul; [exact Hzp|lia|intros Hd; specialize (Hr Hd); lia|]. rewrite Hpk by lia. assert ((off + i <? zlen v) = true) as -> by lia. apply (vle_nth _ _ _ Hv), E.
    + destruct (d_class d) eqn:Ecl; [discriminate|].
      assert (Hst : forall w, znth i v = Some (Some w) -> znth (off + i) (packed off (zlen v) b) = Some (Some w)).
      { intros w Hw. rewrite Hpk by lia. assert ((off + i <? zlen v) = false) as -> by lia. apply Hin; [lia|exact Hw]. }
      intros E. split; [exact Hc|]. revert E Hnul. unfold nulled. destruct (d_nul d) as [z|] eqn:Ed.
      * intros E Hnul. destruct (Z.eqb_spec (off + i) (zlen b - 1)) as [Ej|Ej].
        -- injection E as <-. rewrite Hzp, znth_zupd by (rewrite ?zlen_cons, ?zlen_nil; lia). rewrite zlen_cons, zlen_nil. assert ((_ <=? off + i) && (off + i <? _) = true) as -> by lia.
           replace (off + i - (zlen b - 1)) with 0 by lia. reflexivity.
        -- apply Hnul; [exact Hzp|lia|congruence|]. apply Hst, E.
      * intros E _. apply Hst, E.
Qed.
Lemma kept_none v off c n i : 0 <= off -> 0 <= i < zlen v -> kept d v off c n i = None -> c < room d n.
Proof.
  intros Ho Hi. unfold kept. rewrite needs_room. destruct (Z.ltb_spec c (room d n)); [auto|]. destruct (znth_some i v Hi) as (w & Hw). rewrite Hw.
  destruct (_ <=? _); [discriminate|]. destruct (Z.ltb_spec (off + i) (zlen v)). { destruct (znth_some (off + i) v ltac:(lia)) as (w' & ->). discriminate. }
  destruct (d_class d); [discriminate|]. destruct (d_nul d); [destruct (_ =? _)|]; discriminate.
Qed.
Lemma write_own s a x r v i p e0 e pos o c : wf_desc d -> reached d s a -> a !! x = Some (AVal r v) -> ptr_to x i s = Ok p s -> ptr_read p s = Ok e0 s -> 0 <= i < zlen v ->
  is_shared x s = Ok false s -> st_env s !! x = Some o -> capacity x s = Ok c s ->
  match kept d v (o_off o) c (zlen v) i with
  | Some (Some e) => write_ref d x pos p s = write d x pos e s
  | Some None => True
  | None => match get_own_copy d x s with Ok _ _ => write_ref d x pos p s = Undef UbFreed | _ => write_ref d x pos p s = write d x pos e s end
  end.
Proof.
  intros Hwf H Ha Hp Hr Hi Hsh Hx Hc. destruct (own_mine s a x r v i p e0 Hwf H Ha Hp Hr Hi Hsh o c Hx Hc) as (l & g & b & Hm & -> & Ho & Hfit & Hmax & Hv & -> & _).
  pose proof max_alloc_lt as Hma. assert (zlen v < npos) as Hnp by (unfold npos, W63, W64 in *; lia).
  assert (get_own_copy d x s = about_to_modify d x (zlen v) s) as Eown. { unfold get_own_copy, length_of, bind, get_obj. destruct Hm as (h & Hx' & _). rewrite Hx'. reflexivity. }
  destruct (atm_mine x l g b (o_off o) (zlen v) s (zlen v) Hm Ho ltac:(lia) Hfit ltac:(lia) ltac:(lia) Hnp) as [M1 M2].
  destruct (kept d v (o_off o) (zlen b) (zlen v) i) as [[w|]|] eqn:Ek; [|exact I|].
  - destruct (kept_in v (o_off o) b (zlen v) i w Ho Hi Hfit ltac:(lia) Hv Ek) as [Hrm Hz]. destruct (M1 Hrm) as (s1 & E1 & Hm1).
    unfold write_ref, write, bind. rewrite Eown, E1. rewrite (read_mine x _ _ _ _ _ _ _ Hm1) by lia. rewrite Hz. reflexivity.
  - pose proof (kept_none v _ _ _ i Ho Hi Ek) as Hlt.
    specialize (M2 Hlt). unfold write_ref, write, bind. rewrite Eown. destruct (about_to_modify d x (zlen v) s) as [? s1| | | |]; try reflexivity.
    destruct M2 as (b1 & h1 & Hx1 & Hl1). unfold ptr_read, bind, get_cell. cbn [p_loc p_gen]. rewrite Hl1. cbn [c_gen]. destruct (Nat.eqb_spec (S g) g); [lia|]. reflexivity.
Qed.
Lemma shift_mine x l g b off len s pos : mine x l g b off len s -> 0 <= off -> 0 <= pos <= len -> off + len < zlen b -> zlen b < W63 ->
  exists s', shift_right x pos 1 s = Ok tt s' /\ mine x l g (zupd (off + pos + 1) (zsub (off + pos) (len - pos) b) b) off len s'.
Proof.
  intros (h & Hx & Hl) Ho Hp Hf Hmax. unfold shift_right, length_of, load, store, bind, get_obj, ret. rewrite Hx. cbn [o_len o_ref o_off].
  destruct (Z.leb_spec (len - pos) 0) as [Hz|Hz].
  - change (zlen (@nil (option T)) <=? 0) with true. cbv iota. exists s. split; [reflexivity|]. exists h. split; [exact Hx|]. rewrite zsub_0 by lia. rewrite zupd_nil by lia. exact Hl.
  - unfold bind, get_obj. rewrite Hx. cbn [o_ref o_off]. unfold get_cell. rewrite Hl. cbn [c_buf]. rewrite !u64_id by (unfold W63, W64 in *; lia).
    assert ((off + pos + (len - pos) <=? zlen b) = true) as -> by lia. cbv iota.
    assert (zlen (zsub (off + pos) (len - pos) b) = len - pos) as Ez by (zlen_simpl; lia). rewrite Ez. assert ((len - pos <=? 0) = false) as -> by lia. unfold bind, get_obj. rewrite Hx. cbn [o_ref o_off]. unfold get_cell. rewrite Hl. cbn [c_buf c_gen c_refs].
    rewrite u64_id by (unfold W63, W64 in *; lia). assert ((off + (pos + 1) + (len - pos) <=? zlen b) = true) as -> by lia.
    unfold set_cell. eexists. split; [reflexivity|]. exists h. cbn. rewrite lookup_insert. split; [exact Hx|]. rewrite Z.add_assoc. reflexivity.
Qed.

(** What comes after the buffer has been prepared never throws. *)
Definition steady {A} (m : Mm A) : Prop := forall s, match m s with Exn _ _ => False | _ => True end.
Lemma steady_store x pos es : steady (store (T := T) x pos es).
Proof.
  intros s. unfold store. destruct (_ <=? 0); [exact I|]. unfold bind, get_obj, get_cell. destruct (st_env s !! x) as [o|]; [|exact I].
  destruct (o_ref o); [|exact I]. destruct (st_heap s !! _); [|exact I]. cbv zeta. destruct (_ <=? _); exact I.
Qed.
Lemma steady_bind {A B} (m : Mm A) (k : A -> Mm B) : steady m -> (forall v, steady (k v)) -> steady (bind m k).
Proof. intros Hm Hk s. unfold bind. specialize (Hm s). destruct (m s); try exact I; [apply Hk|destruct Hm]. Qed.
Lemma steady_length x : steady (length_of (T := T) x).
Proof. intros s. unfold length_of, bind, get_obj. destruct (st_env s !! x); exact I. Qed.
Lemma steady_add x k : steady (add_len (T := T) x k).
Proof. apply steady_bind; [apply steady_length|]. intros n s. unfold set_len, bind, get_obj. destruct (st_env s !! x); exact I. Qed.
Lemma steady_load x pos n : steady (load (T := T) x pos n).
Proof.
  intros s. unfold load. destruct (_ <=? 0); [exact I|]. unfold bind, get_obj, get_cell. destruct (st_env s !! x) as [o|]; [|exact I].
  destruct (o_ref o); [|exact I]. destruct (st_heap s !! _); [|exact I]. cbv zeta. destruct (_ <=? _); exact I.
Qed.
Lemma steady_shift x pos k : steady (shift_right (T := T) x pos k).
Proof. apply steady_bind; [apply steady_length|]. intros n. apply steady_bind; [apply steady_load|]. intros es. apply steady_store. Qed.
Lemma shift_gen x l g b off len h pos k s : st_env s !! x = Some (Obj (Some l) off len h) -> st_heap s !! l = Some (Cell b g 1) ->
  match shift_right x pos k s with Ok _ s' => exists b', st_heap s' !! l = Some (Cell b' g 1) | _ => True end.
Proof.
  intros Hx Hl. unfold shift_right, bind. destruct (length_of x s) as [n s0| | | |] eqn:E0; try exact I.
  assert (s0 = s) as ->. { revert E0. unfold length_of, bind, get_obj. rewrite Hx. unfold ret. congruence. }
  destruct (load x pos (n - pos) s) as [es s0| | | |] eqn:E1; try exact I.
  assert (s0 = s) as ->. { revert E1. unfold load. destruct (_ <=? 0); [unfold ret; congruence|]. unfold bind, get_obj, get_cell. rewrite Hx. cbn [o_ref]. rewrite Hl. cbv zeta. destruct (_ <=? _); unfold ret; [congruence|discriminate]. }
  unfold store. destruct (_ <=? 0); [exists b; exact Hl|]. unfold bind, get_obj, get_cell. rewrite Hx. cbn [o_ref]. rewrite Hl. cbv zeta. destruct (_ <=? _); [|exact I].
  unfold set_cell. cbn. rewrite lookup_insert. eauto.
Qed.

Lemma insert_own s a x r v i p e0 pos o c : wf_desc d -> reached d s a -> a !! x = Some (AVal r v) -> ptr_to x i s = Ok p s -> ptr_read p s = Ok e0 s -> 0 <= i < zlen v ->
  is_shared x s = Ok false s -> st_env s !! x = Some o -> capacity x s = Ok c s -> 0 <= pos < W64 ->
  match shifted d v (o_off o) c pos i with
  | Some (Some e) => insert_ref d x pos p s = insert_item d x pos e s
  | Some None => True
  | None => match insert_item d x pos e0 s with
            | Ok _ _ => insert_ref d x pos p s = Undef UbFreed
            | Exn ex s' => insert_ref d x pos p s = Exn ex s'
            | _ => True
            end
  end.
Proof.
  intros Hwf H Ha Hp Hr Hi Hsh Hx Hc Hpos. destruct (own_mine s a x r v i p e0 Hwf H Ha Hp Hr Hi Hsh o c Hx Hc) as (l & g & b & Hm & -> & Ho & Hfit & Hmax & Hv & -> & _).
  pose proof max_alloc_lt as Hma. assert (zlen v + 1 < npos) as Hnp by (unfold npos, W63, W64 in *; lia).
  assert (length_of x s = Ok (zlen v) s) as El. { destruct Hm as (h & Hx' & _). unfold length_of, bind, get_obj. rewrite Hx'. reflexivity. }
  destruct (Z.ltb_spec (zlen v) pos) as [Hbad|Hgood].
  { assert (check_pos x pos s = Exn OutOfRange s) as Ec.
    { unfold check_pos. assert ((pos =? 0) = false) as -> by lia. unfold validate_index. rewrite (bind_ok _ _ _ _ _ El). rewrite u64_id by lia. assert ((zlen v <=? pos - 1) = true) as -> by lia. reflexivity. }
    assert (forall A (k : unit -> Mm A), bind (check_pos x pos) k s = Exn OutOfRange s) as Eb by (intros A k; unfold bind; rewrite Ec; reflexivity).
    unfold insert_ref, insert_item. destruct (shifted _ _ _ _ _ _) as [[?|]|]; [rewrite !Eb; reflexivity|exact I|rewrite !Eb; reflexivity]. }
  assert (check_pos x pos s = Ok tt s) as Ec.
  { unfold check_pos. destruct (Z.eqb_spec pos 0); [reflexivity|]. unfold validate_index. rewrite (bind_ok _ _ _ _ _ El). rewrite u64_id by lia. assert ((zlen v <=? pos - 1) = false) as -> by lia. reflexivity. }
  destruct (atm_mine x l g b (o_off o) (zlen v) s (zlen v + 1) Hm Ho ltac:(lia) Hfit ltac:(lia) ltac:(lia) Hnp) as [M1 M2].
  assert (forall A (k : Mm A), (check_pos x pos ;;; (let* len := length_of x in about_to_modify d x (u64 (len + 1)) ;;; k)) s = (about_to_modify d x (zlen v + 1) ;;; k) s) as Epre.
  { intros A k. rewrite (bind_ok _ _ _ _ _ Ec), (bind_ok _ _ _ _ _ El). rewrite u64_id by (unfold W63, W64 in *; lia). reflexivity. }
  unfold insert_ref, insert_item. set (off := o_off o) in *.
  assert (Hrl : zlen v + 1 <= room d (zlen v + 1)) by apply room_ge.
  destruct (shifted d v off (zlen b) pos i) as [[w|]|] eqn:Es; [|exact I|].
  - revert Es. unfold shifted. cbv zeta. rewrite needs_room. destruct (Z.ltb_spec (zlen b) (room d (zlen v + 1))) as [|Hrm]; [discriminate|].
    destruct (M1 Hrm) as (s1 & E1 & Hm1). rewrite !Epre, !(bind_ok _ _ _ _ _ E1).
    set (off1 := if _ <=? _ then off else 0) in *. set (b0 := if _ <=? _ then b else packed off (zlen v) b) in *. set (b1 := nulled b0) in *.
    assert (zlen b0 = zlen b) as Hb0. { unfold b0. destruct (_ <=? _); [reflexivity|]. apply zlen_packed; lia. }
    assert (zlen b1 = zlen b) as Hb1. { unfold b1, nulled. destruct (d_nul d); [|exact Hb0]. rewrite zlen_zupd; [exact Hb0|rewrite ?zlen_cons, ?zlen_nil; lia|rewrite ?zlen_cons, ?zlen_nil; lia]. }
    assert (0 <= off1 /\ off1 + zlen v + 1 <= zlen b) as [Ho1 Hf1]. { unfold off1. destruct (Z.leb_spec (off + room d (zlen v + 1)) (zlen b)); lia. }
    destruct (shift_mine x l g b1 off1 (zlen v) s1 pos Hm1 Ho1 ltac:(lia) ltac:(lia) ltac:(lia)) as (s2 & E2 & Hm2). rewrite !(bind_ok _ _ _ _ _ E2).
    intros Es. assert (znth (off + i) (zupd (off1 + pos + 1) (zsub (off1 + pos) (zlen v - pos) b1) b1) = Some (Some w)) as Hz.
    { assert (zlen (zsub (off1 + pos) (zlen v - pos) b1) = zlen v - pos) as Ezs by (zlen_simpl; lia).
      rewrite znth_zupd by lia. rewrite Ezs. set (k := if _ <=? _ then i else off + i) in Es.
      assert (off + i = off1 + k) as Ek. { unfold off1, k. destruct (_ <=? _); lia. } rewrite Ek.
      destruct ((pos <? k) && (k <=? zlen v)) eqn:Ein.
      - assert ((off1 + pos + 1 <=? off1 + k) && (off1 + k <? off1 + pos + 1 + (zlen v - pos)) = true) as -> by lia.
        rewrite znth_zsub. assert ((0 <=? off1 + k - (off1 + pos + 1)) && (off1 + k - (off1 + pos + 1) <? zlen v - pos) = true) as -> by lia.
        replace (off1 + k - (off1 + pos + 1) + Z.max 0 (off1 + pos)) with (off1 + (k - 1)) by lia. exact (prep_in v off b (zlen v + 1) (k - 1) w Ho Hfit ltac:(lia) Hv Hrm Es).
      - assert ((off1 + pos + 1 <=? off1 + k) && (off1 + k <? off1 + pos + 1 + (zlen v - pos)) = false) as -> by lia.
        rewrite <- Ek. exact (proj2 (kept_in v off b (zlen v + 1) i w Ho Hi Hfit ltac:(lia) Hv Es)). }
    unfold bind at 1. rewrite (read_mine x _ _ _ _ _ _ _ Hm2) by lia. rewrite Hz. reflexivity.
  - assert (zlen b < room d (zlen v + 1)) as Hlt.
    { revert Es. unfold shifted. cbv zeta. rewrite needs_room. destruct (Z.ltb_spec (zlen b) (room d (zlen v + 1))); [auto|]. set (k := if _ <=? _ then i else off + i).
      destruct ((pos <? k) && (k <=? zlen v)) eqn:Ein; [destruct (znth_some (k - 1) v ltac:(lia)) as (w & ->); discriminate|]. apply (kept_none v off _ _ i Ho Hi). }
    specialize (M2 Hlt). rewrite !Epre. assert (forall A (k : Mm A), (about_to_modify d x (zlen v + 1) ;;; k) s = match about_to_modify d x (zlen v + 1) s with Ok _ s1 => k s1 | Exn ex s1 => Exn ex s1 | Term => Term | Fuel => Fuel | Undef u => Undef u end) as Eb by reflexivity.
    rewrite !Eb. destruct (about_to_modify d x (zlen v + 1) s) as [? s1|ex s1| | |]; try exact I; [|reflexivity].
    destruct M2 as (b1 & h1 & Hx1 & Hl1). pose proof (shift_gen x l (S g) b1 0 (zlen v) h1 pos 1 s1 Hx1 Hl1) as Hs. pose proof (steady_shift x pos 1 s1) as Hss.
    assert (forall A (k : Mm A), (shift_right x pos 1 ;;; k) s1 = match shift_right x pos 1 s1 with Ok _ s1 => k s1 | Exn ex s1 => Exn ex s1 | Term => Term | Fuel => Fuel | Undef u => Undef u end) as Eb2 by reflexivity.
    rewrite !Eb2. destruct (shift_right x pos 1 s1) as [? s2| | | |]; try exact I; [|destruct Hss]. destruct Hs as (b2 & Hl2).
    assert (forall A (k : T -> Mm A), (let* v0 := ptr_read (Ptr l g (off + i)) in k v0) s2 = Undef UbFreed) as Ed.
    { intros A k. unfold ptr_read, bind, get_cell. cbn [p_loc p_gen]. rewrite Hl2. cbn [c_gen]. destruct (Nat.eqb_spec (S g) g); [lia|]. reflexivity. }
    rewrite Ed. pose proof (steady_bind (store x pos [Some e0]) (fun _ => add_len x 1) (steady_store _ _ _) (fun _ => steady_add x 1) s2) as Hst.
    destruct ((store x pos [Some e0];;; add_len x 1) s2); try exact I; [reflexivity|destruct Hst].
Qed.
End Alias.

Section Thm.
Context {T : Type} (d : desc T).
Implicit Types (s : state T) (a : astate T) (x y : positive).
Lemma ref_reads s a y r v i p e : wf_desc d -> reached d s a -> a !! y = Some (AVal r v) -> znth i v = Some (Some e) -> ptr_to y i s = Ok p s -> ptr_read p s = Ok e s.
Proof. intros Hwf H Ha Hi Hp. destruct (points d s a y r v i e Hwf H Ha Hi) as (q & Hq & Hr). rewrite Hp in Hq. injection Hq as <-. exact Hr. Qed.
Lemma len_known s a x r v : wf_desc d -> reached d s a -> a !! x = Some (AVal r v) -> length_of x s = Ok (zlen v) s /\ zlen v <= max_alloc.
Proof.
  intros Hwf H Ha. pose proof (reached_R d s a Hwf H) as HR. destruct (R_held d _ _ _ _ _ HR Ha) as (o & Hh). split; [apply (held_len d _ _ _ _ _ Hh)|].
  destruct Hh as [_ _ _ _ Hl Hof Hf Hc]. pose proof (zlen_nonneg v). lia.
Qed.
Lemma append_insert s x p e : (forall n, insert_ref d x n p s = insert_item d x n e s) -> append_ref d x p s = append_item d x e s.
Proof.
  intros H. unfold append_ref, append_item, bind, length_of, bind, get_obj. destruct (st_env s !! x); [|reflexivity]. apply H.
Qed.
Lemma alias_elsewhere s a x y r v i p e pos : wf_desc d -> reached d s a -> a !! y = Some (AVal r v) -> znth i v = Some (Some e) -> ptr_to y i s = Ok p s ->
  y <> x \/ is_shared x s = Ok true s ->
  insert_ref d x pos p s = insert_item d x pos e s /\ append_ref d x p s = append_item d x e s /\ write_ref d x pos p s = write d x pos e s /\ replace_ref d x pos p s = replace_item d x pos e s.
Proof.
  intros Hwf H Ha Hi Hp He. pose proof (ref_reads s a y r v i p e Hwf H Ha Hi Hp) as Hr.
  pose proof (write_elsewhere d s a x y i p e pos Hwf H Hp Hr He) as Hw. split; [|split; [|split]].
  - exact (insert_elsewhere d s a x y i p e pos Hwf H Hp Hr He).
  - apply append_insert. intros n. exact (insert_elsewhere d s a x y i p e n Hwf H Hp Hr He).
  - exact Hw.
  - apply replace_write, Hw.
Qed.
Lemma alias_overwrite s a x r v i p e pos : wf_desc d -> reached d s a -> a !! x = Some (AVal r v) -> znth i v = Some (Some e) -> ptr_to x i s = Ok p s ->
  d_nul d = None \/ r = true ->
  write_ref d x pos p s = write d x pos e s /\ replace_ref d x pos p s = replace_item d x pos e s.
Proof.
  intros Hwf H Ha Hi Hp Hor. pose proof (ref_reads s a x r v i p e Hwf H Ha Hi Hp) as Hr. pose proof (znth_inv _ _ _ Hi) as Hir.
  assert (write_ref d x pos p s = write d x pos e s) as Hw; [|split; [exact Hw|apply replace_write, Hw]].
  pose proof (reached_R d s a Hwf H) as HR. destruct (R_held d _ _ _ _ _ HR Ha) as (o & Hh). pose proof (hd_env _ _ _ _ _ _ Hh) as Hx.
  destruct (is_shared_eq d s x o (proj1 HR) Hx) as (sh & Esh & _). destruct sh.
  { exact (write_elsewhere d s a x x i p e pos Hwf H Hp Hr (or_intror Esh)). }
  assert (exists c, capacity x s = Ok c s) as (c & Hc).
  { revert Hp. unfold ptr_to, capacity, bind, get_obj. rewrite Hx. destruct (o_ref o) as [l|]; [|discriminate]. unfold get_cell. destruct (st_heap s !! l); [|discriminate]. eexists. reflexivity. }
  pose proof (write_own d s a x r v i p e e pos o c Hwf H Ha Hp Hr Hir Esh Hx Hc) as K.
  destruct (own_mine d s a x r v i p e Hwf H Ha Hp Hr Hir Esh o c Hx Hc) as (l & g & b & Hm & -> & Ho & Hfit & Hmax & Hv & -> & Hrm).
  assert (o_off o + room d (zlen v) <= zlen b) as Hf.
  { unfold room. destruct (d_nul d) as [z|]; [|lia]. assert ((0 <? zlen v) = true) as -> by lia. destruct Hor as [Hor|Hor]; [discriminate|]. specialize (Hrm ltac:(discriminate) Hor). lia. }
  unfold kept in K. rewrite needs_room in K. assert ((zlen b <? room d (zlen v)) = false) as E1 by lia. assert ((o_off o + room d (zlen v) <=? zlen b) = true) as E2 by lia.
  rewrite E1, E2, Hi in K. exact K.
Qed.
Lemma alias_insert s a x r v i p e pos o c : wf_desc d -> reached d s a -> a !! x = Some (AVal r v) -> znth i v = Some (Some e) -> ptr_to x i s = Ok p s ->
  is_shared x s = Ok false s -> st_env s !! x = Some o -> capacity x s = Ok c s -> 0 <= pos < W64 ->
  match shifted d v (o_off o) c pos i with
  | Some (Some e') => insert_ref d x pos p s = insert_item d x pos e' s
  | Some None => True
  | None => match insert_item d x pos e s with
            | Ok _ _ => insert_ref d x pos p s = Undef UbFreed
            | Exn ex s' => insert_ref d x pos p s = Exn ex s'
            | _ => True
            end
  end.
Proof.
  intros Hwf H Ha Hi Hp Hsh Hx Hc Hpos. pose proof (ref_reads s a x r v i p e Hwf H Ha Hi Hp) as Hr. pose proof (znth_inv _ _ _ Hi) as Hir.
  exact (insert_own d s a x r v i p e pos o c Hwf H Ha Hp Hr Hir Hsh Hx Hc Hpos).
Qed.
Lemma alias_write s a x r v i p e pos o c : wf_desc d -> reached d s a -> a !! x = Some (AVal r v) -> znth i v = Some (Some e) -> ptr_to x i s = Ok p s ->
  is_shared x s = Ok false s -> st_env s !! x = Some o -> capacity x s = Ok c s ->
  match kept d v (o_off o) c (zlen v) i with
  | Some (Some e') => write_ref d x pos p s = write d x pos e' s
  | Some None => True
  | None => match get_own_copy d x s with
            | Ok _ _ => write_ref d x pos p s = Undef UbFreed
            | Exn ex s' => write_ref d x pos p s = Exn ex s'
            | _ => True
            end
  end.
Proof.
  intros Hwf H Ha Hi Hp Hsh Hx Hc. pose proof (ref_reads s a x r v i p e Hwf H Ha Hi Hp) as Hr. pose proof (znth_inv _ _ _ Hi) as Hir.
  pose proof (write_own d s a x r v i p e e pos o c Hwf H Ha Hp Hr Hir Hsh Hx Hc) as K. destruct (kept _ _ _ _ _ _) as [[?|]|]; [exact K|exact I|].
  destruct (get_own_copy d x s) eqn:E; try exact I; [exact K|]. rewrite K. unfold write, bind. rewrite E. reflexivity.
Qed.
(** With room behind the elements. *)
Lemma alias_room s a x r v i p e pos o c : wf_desc d -> reached d s a -> a !! x = Some (AVal r v) -> znth i v = Some (Some e) -> ptr_to x i s = Ok p s ->
  is_shared x s = Ok false s -> st_env s !! x = Some o -> capacity x s = Ok c s -> 0 <= pos < W64 -> o_off o + needs d (zlen v + 1) <= c ->
  (append_ref d x p s = append_item d x e s) /\
  (i <= pos -> insert_ref d x pos p s = insert_item d x pos e s) /\
  (pos < i -> forall e', znth (i - 1) v = Some (Some e') -> insert_ref d x pos p s = insert_item d x pos e' s).
Proof.
  intros Hwf H Ha Hi Hp Hsh Hx Hc Hpos Hroom. pose proof (znth_inv _ _ _ Hi) as Hir. destruct (len_known s a x r v Hwf H Ha) as [El Hmax]. pose proof max_alloc_lt.
  assert (0 <= o_off o) as Hof. { pose proof (reached_R d s a Hwf H) as HR. destruct (R_held d _ _ _ _ _ HR Ha) as (o' & Hh). pose proof (hd_env _ _ _ _ _ _ Hh). pose proof (hd_off _ _ _ _ _ _ Hh). congruence. }
  assert (forall q, 0 <= q < W64 -> shifted d v (o_off o) c q i = if q <? i then znth (i - 1) v else Some (Some e)) as Es.
  { intros q Hq. unfold shifted, kept. cbv zeta. assert ((c <? needs d (zlen v + 1)) = false) as -> by lia. assert ((o_off o + needs d (zlen v + 1) <=? c) = true) as -> by lia.
    destruct (q <? i) eqn:E; [|exact Hi]. assert ((i <=? zlen v) = true) as -> by lia. reflexivity. }
  assert (forall q, 0 <= q < W64 -> i <= q -> insert_ref d x q p s = insert_item d x q e s) as K.
  { intros q Hq Hiq. pose proof (alias_insert s a x r v i p e q o c Hwf H Ha Hi Hp Hsh Hx Hc Hq) as K. rewrite Es in K by exact Hq. assert ((q <? i) = false) as E by lia. rewrite E in K. exact K. }
  split; [|split].
  - unfold append_ref, append_item, bind. rewrite El. apply K; unfold W63, W64 in *; lia.
  - intros Hle. apply K; assumption.
  - intros Hlt e' He'. pose proof (alias_insert s a x r v i p e pos o c Hwf H Ha Hi Hp Hsh Hx Hc Hpos) as Q. rewrite Es in Q by exact Hpos. assert ((pos <? i) = true) as E by lia. rewrite E, He' in Q. exact Q.
Qed.
End Thm.
