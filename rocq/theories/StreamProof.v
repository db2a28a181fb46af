(** The Stream model implements the byte list with a cursor. *)
From Verif Require Import RcaSpec RcaModel RcaExec RcaInv RcaOwn RcaRel RcaMeet RcaReach RcaFacts RcaFacts2 StreamSpec StreamModel StreamMeet.
Open Scope Z_scope.

Ltac zls := repeat zlen_simpl.

Lemma wp_bind {A B} (m : MS A) (k : A -> MS B) P Q st :
  wp m (fun v st' => wp (k v) P Q st') Q st -> wp (bind m k) P Q st.
Proof. unfold wp, bind. destruct (m st); auto. Qed.
Lemma wp_ret {A} (v : A) (P : A -> _ -> Prop) Q st : P v st -> wp (ret v) P Q st.
Proof. intros H; exact H. Qed.
Lemma wp_conseq {A} (m : MS A) (P P' : A -> _ -> Prop) (Q Q' : exn -> _ -> Prop) st :
  wp m P Q st -> (forall v st', P v st' -> P' v st') -> (forall e st', Q e st' -> Q' e st') -> wp m P' Q' st.
Proof. unfold wp. destruct (m st); auto. Qed.

Section Proof.
Variable d : desc Z.
Hypothesis Hwf : wf_desc d.
Hypothesis Hnul : d_nul d = Some 0.
Notation reached := (reached d).
Notation step := (step d).

Lemma cls : d_class d = false.
Proof. exact (proj1 (Hwf 0 Hnul)). Qed.

Lemma wp_call o s z a a' v (P : unit -> _ -> Prop) (Q : exn -> _ -> Prop) :
  reached s a -> step o a = Some (SRet a' v) -> (forall g x, o <> CStr g x) ->
  (forall s', reached s' a' -> P tt (s', z)) ->
  (forall s' x a'', subject o = Some x -> no_memory d (asks o a' x) -> reached s' a'' ->
     a'' = a \/ (target o = Some x /\ a'' = <[x := AVal true []]> a) -> Q BadAlloc (s', z)) ->
  wp (call d o) P Q (s, z).
Proof.
  intros H Hs Hn HP HQ. unfold call, wp, bind, str_call.
  destruct (step_yields d o s a a' v Hwf H Hs Hn) as [(s' & v' & E & _ & Hr & _)|(s' & x & E & Hsub & Hm & a'' & Hr & _ & Ha)]; rewrite E.
  - apply HP, Hr.
  - apply (HQ s' x a'' Hsub Hm Hr). destruct Ha as [->|(Ht & _ & ->)]; auto.
Qed.
(** Calls that cannot allocate. *)
Lemma wp_call_safe o s z a a' v (P : unit -> _ -> Prop) (Q : exn -> _ -> Prop) :
  reached s a -> step o a = Some (SRet a' v) -> subject o = None ->
  (forall s', reached s' a' -> P tt (s', z)) -> wp (call d o) P Q (s, z).
Proof.
  intros H Hs Hn HP. eapply wp_call; [exact H|exact Hs| |exact HP|].
  - intros g x ->. discriminate.
  - intros s' x a'' Hx. congruence.
Qed.
Lemma wp_call_range o s z a (P : unit -> _ -> Prop) (Q : exn -> _ -> Prop) :
  reached s a -> step o a = Some SRange -> Q OutOfRange (s, z) -> wp (call d o) P Q (s, z).
Proof.
  intros H Hs HQ. unfold call, wp, bind, str_call. rewrite (step_range d o s a Hwf H Hs). exact HQ.
Qed.
Lemma wp_local {A} t (m : MS A) (P : A -> _ -> Prop) Q st :
  wp m P (fun e st' => wp (call d (Destroy t)) (fun _ st'' => Q e st'') (fun _ _ => False) st') st ->
  wp (with_local d t m) P Q st.
Proof.
  unfold wp, with_local. destruct (m st) as [v st'|e st'| | |u]; auto. destruct (call d (Destroy t) st'); auto.
Qed.
Lemma wp_str s z (P : positive -> _ -> Prop) Q : P (s_str z) (s, z) -> wp str P Q (s, z).
Proof. auto. Qed.
Lemma wp_tell s z (P : Z -> _ -> Prop) Q : P (s_pos z) (s, z) -> wp tell P Q (s, z).
Proof. auto. Qed.
Lemma wp_set_pos s z p (P : unit -> _ -> Prop) Q : P tt (s, Stream (s_str z) p (s_load z)) -> wp (set_pos p) P Q (s, z).
Proof. auto. Qed.
Lemma wp_set_loading s z b (P : unit -> _ -> Prop) Q : P tt (s, Stream (s_str z) (s_pos z) b) -> wp (set_loading b) P Q (s, z).
Proof. auto. Qed.
Lemma wp_length s z a x r v (P : Z -> _ -> Prop) Q :
  reached s a -> a !! x = Some (AVal r v) -> P (zlen v) (s, z) -> wp (str_call (length_of x)) P Q (s, z).
Proof.
  intros H Hx HP. unfold wp, str_call. destruct (reached_shows d s a Hwf H x r v Hx) as [-> _]. exact HP.
Qed.
Lemma wp_read s z a x r v i c (P : Z -> _ -> Prop) Q :
  reached s a -> a !! x = Some (AVal r v) -> znth i v = Some (Some c) -> P c (s, z) -> wp (str_call (read x i)) P Q (s, z).
Proof.
  intros H Hx Hi HP. unfold wp, str_call. destruct (reached_shows d s a Hwf H x r v Hx) as [_ Hr]. rewrite (Hr i c Hi). exact HP.
Qed.
Lemma capacity_ge s a x r v : reached s a -> a !! x = Some (AVal r v) -> exists c, capacity x s = Ok c s /\ zlen v <= c <= max_alloc.
Proof.
  intros H Ha. pose proof (reached_R d s a Hwf H) as HR. destruct (R_held d _ _ _ _ _ HR Ha) as (o & [Hx Hg Hv Hrm Hlen Hoff Hfit Hcap]).
  unfold capacity, bind. rewrite (get_obj_ok _ _ _ Hx). pose proof (zlen_nonneg v). unfold cap, buf_of in *. destruct (o_ref o) as [l|] eqn:Hr.
  - destruct (inv_ref_live d s x o l (proj1 HR) Hx Hr) as (c & Hc). rewrite (get_cell_ok _ _ _ Hc). rewrite Hc in Hfit, Hcap. cbn in *.
    eexists. split; [reflexivity|]. lia.
  - exists 0. split; [reflexivity|]. cbn in *. unfold max_alloc. lia.
Qed.
Lemma load_bytes s a x r (v : list Z) : reached s a -> a !! x = Some (AVal r (map Some v)) -> load x 0 (zlen v) s = Ok (map Some v) s.
Proof.
  intros H Ha. pose proof (reached_R d s a Hwf H) as HR. destruct (R_held d _ _ _ _ _ HR Ha) as (o & Hh).
  destruct (held_load d s x o r _ 0 (zlen v) (proj1 HR) Hh) as (es & E & Hv); [lia|rewrite zlen_map; lia|].
  rewrite E. f_equal. apply vle_somes. assert (zsub 0 (zlen v) (map Some v) = map Some v) as Ez; [|rewrite <- Ez; exact Hv].
  unfold zsub. rewrite zdrop_0 by lia. apply ztake_all. rewrite zlen_map. lia.
Qed.
Lemma bytes_some l : bytes (map Some l) = Some l.
Proof. induction l as [|c l IH]; [reflexivity|]. cbn. rewrite IH. reflexivity. Qed.

(** Pieces. *)
Lemma first_at_app c (m l : list Z) : ~ In c m -> first_at c (m ++ l) = option_map (Z.add (zlen m)) (first_at c l).
Proof.
  induction m as [|b m IH]; intros H; cbn [app first_at].
  - destruct (first_at c l); reflexivity.
  - destruct (Z.eqb_spec b c) as [->|Hb]; [exfalso; apply H; left; reflexivity|].
    rewrite IH by (intros I; apply H; right; exact I). rewrite zlen_cons. destruct (first_at c l); cbn [option_map]; [f_equal; lia|reflexivity].
Qed.
Lemma first_at_none c (m : list Z) : ~ In c m -> first_at c m = None.
Proof. intros H. rewrite <- (app_nil_r m), first_at_app by exact H. reflexivity. Qed.
Lemma first_at_range c (l : list Z) i : first_at c l = Some i -> 0 <= i < zlen l.
Proof.
  revert i. induction l as [|b l IH]; intros i; cbn [first_at]; [discriminate|]. rewrite zlen_cons. pose proof (zlen_nonneg l).
  destruct (b =? c); [intros [= <-]; lia|]. destruct (first_at c l) as [j|]; [|discriminate]. cbn. intros [= <-]. specialize (IH j eq_refl). lia.
Qed.
Lemma piece_ge n c (m l : list Z) : c <> 0 -> ~ In c m -> zlen m <= n -> zlen m <= zlen (piece n c (m ++ l)).
Proof.
  intros Hc Hm Hn. unfold piece. destruct (Z.eqb_spec c 0); [contradiction|]. rewrite first_at_app by exact Hm.
  pose proof (zlen_nonneg m). pose proof (zlen_nonneg l).
  destruct (first_at c l) as [i|] eqn:E; cbn [option_map].
  - apply first_at_range in E. destruct (Z.leb_spec (zlen m + i) n); zls; lia.
  - zls; lia.
Qed.
Lemma piece_delim n c (m l : list Z) : c <> 0 -> ~ In c m -> zlen m <= n -> piece n c (m ++ c :: l) = m ++ [c].
Proof.
  intros Hc Hm Hn. unfold piece. destruct (Z.eqb_spec c 0); [contradiction|]. rewrite first_at_app by exact Hm.
  cbn [first_at]. rewrite Z.eqb_refl. cbn [option_map]. destruct (Z.leb_spec (zlen m + 0) n); [|lia].
  replace (m ++ c :: l) with ((m ++ [c]) ++ l) by (rewrite <- app_assoc; reflexivity). replace (zlen m + 0 + 1) with (zlen (m ++ [c])) by (zls; lia). apply ztake_app_exact.
Qed.
Lemma piece_full n c (m l : list Z) : c <> 0 -> ~ In c m -> zlen m = Z.min n (zlen (m ++ l)) -> (forall b l', l = b :: l' -> b <> c) -> piece n c (m ++ l) = m.
Proof.
  intros Hc Hm Hn Hl. unfold piece. destruct (Z.eqb_spec c 0); [contradiction|]. rewrite zlen_app in Hn. pose proof (zlen_nonneg l).
  destruct l as [|b l].
  - rewrite app_nil_r, first_at_none by exact Hm. change (zlen (@nil Z)) with 0 in Hn. apply ztake_all. lia.
  - rewrite zlen_cons in *. rewrite first_at_app by exact Hm. cbn [first_at]. destruct (Z.eqb_spec b c) as [->|Hb]; [exfalso; eapply Hl; reflexivity|].
    assert (zlen m = n) by (pose proof (zlen_nonneg l); lia).
    destruct (first_at c l) as [i|] eqn:E; cbn [option_map].
    + apply first_at_range in E. destruct (Z.leb_spec (zlen m + Z.succ i) n); [lia|]. replace n with (zlen m). apply ztake_app_exact.
    + replace n with (zlen m). apply ztake_app_exact.
Qed.
Lemma piece_len n c (rest : list Z) : 0 <= n -> zlen (piece n c rest) <= zlen rest /\ zlen (piece n c rest) <= n + 1.
Proof.
  intros Hn. unfold piece. pose proof (zlen_nonneg rest). destruct (c =? 0); [zls; lia|].
  destruct (first_at c rest) as [i|] eqn:E; [|zls; lia]. apply first_at_range in E. destruct (Z.leb_spec i n); zlen_simpl; lia.
Qed.

Lemma zdrop_zdrop {A} (l : list A) n m : 0 <= n -> 0 <= m -> zdrop n (zdrop m l) = zdrop (m + n) l.
Proof. intros Hn Hm. unfold zdrop. rewrite drop_drop. f_equal. lia. Qed.
Lemma piece_prefix n c (rest : list Z) : piece n c rest ++ zdrop (zlen (piece n c rest)) rest = rest.
Proof.
  assert (G : forall k, ztake k rest ++ zdrop (zlen (ztake k rest)) rest = rest).
  { intros k. pose proof (zlen_nonneg rest). rewrite zlen_ztake. destruct (Z.le_gt_cases k 0).
    - rewrite (ztake_0 k), zdrop_0 by lia. reflexivity.
    - destruct (Z.le_gt_cases k (zlen rest)).
      + replace (Z.min (Z.max 0 k) (zlen rest)) with k by lia. apply ztake_zdrop.
      + rewrite ztake_all, zdrop_all, app_nil_r by lia. reflexivity. }
  unfold piece. destruct (c =? 0); [apply G|]. destruct (first_at c rest) as [i|]; [destruct (i <=? n)|]; apply G.
Qed.
Lemma piece_pos n c (rest : list Z) : 0 < n -> rest <> [] -> 0 < zlen (piece n c rest).
Proof.
  intros Hn Hr. assert (0 < zlen rest) by (destruct rest; [contradiction|rewrite zlen_cons; pose proof (zlen_nonneg rest); lia]).
  unfold piece. destruct (c =? 0); [zls; lia|]. destruct (first_at c rest) as [i|] eqn:E; [|zls; lia]. apply first_at_range in E. destruct (i <=? n); zls; lia.
Qed.

Lemma pieces_concat f c rest ls : pieces f c rest ls -> concat ls = rest.
Proof. induction 1 as [|rest ls Hr _ IH]; [reflexivity|]. cbn [concat]. rewrite IH. apply piece_prefix. Qed.
Lemma pieces_fun f c rest ls ls' : pieces f c rest ls -> pieces f c rest ls' -> ls = ls'.
Proof.
  intros H. revert ls'. induction H as [|rest ls Hr _ IH]; intros ls' H'; inversion H'; subst; try contradiction; [reflexivity|]. f_equal. apply IH. assumption.
Qed.
(** Lines. *)
Lemma split_lines_piece l : l <> [] -> split_lines l = piece (zlen l) 10 l :: split_lines (zdrop (zlen (piece (zlen l) 10 l)) l).
Proof.
  induction l as [|c l IH]; intros Hl; [contradiction|]. pose proof (zlen_nonneg l). cbn [split_lines]. destruct (Z.eqb_spec c 10) as [->|Hc].
  - assert (E : piece (zlen (10 :: l)) 10 (10 :: l) = [10]).
    { apply (piece_delim (zlen (10 :: l)) 10 [] l); [discriminate|exact (fun I => I)|rewrite zlen_cons; change (zlen (@nil Z)) with 0; lia]. }
    rewrite E. reflexivity.
  - assert (E : piece (zlen (c :: l)) 10 (c :: l) = c :: piece (zlen l) 10 l).
    { unfold piece. cbn [Z.eqb Pos.eqb first_at]. destruct (Z.eqb_spec c 10); [contradiction|]. rewrite zlen_cons. destruct (first_at 10 l) as [i|] eqn:Ei; cbn [option_map].
      - apply first_at_range in Ei. destruct (Z.leb_spec (Z.succ i) (1 + zlen l)); [|lia]. destruct (Z.leb_spec i (zlen l)); [|lia].
        unfold ztake. replace (Z.to_nat (Z.succ i + 1)) with (S (Z.to_nat (i + 1))) by lia. reflexivity.
      - unfold ztake. replace (Z.to_nat (1 + zlen l)) with (S (Z.to_nat (zlen l))) by lia. reflexivity. }
    rewrite E, zlen_cons. destruct l as [|b l'].
    + reflexivity.
    + rewrite IH by discriminate. f_equal. f_equal. unfold zdrop. pose proof (zlen_nonneg (piece (zlen (b :: l')) 10 (b :: l'))).
      replace (Z.to_nat (1 + zlen (piece (zlen (b :: l')) 10 (b :: l')))) with (S (Z.to_nat (zlen (piece (zlen (b :: l')) 10 (b :: l'))))) by lia. reflexivity.
Qed.
Lemma pieces_lines rest ls : pieces (fun k => k) 10 rest ls -> ls = split_lines rest.
Proof. induction 1 as [|rest ls Hr _ IH]; [reflexivity|]. rewrite (split_lines_piece rest Hr), IH. reflexivity. Qed.

Variables x t : positive.
Hypothesis Htx : t <> x.
Notation SR := (SR d x t).
Notation keeps := (keeps x).
Notation memlow := (memlow d).
Notation done_ok := (done_ok d x t).
Notation fail_post := (fail_post d x t).
Notation range_post := (range_post d x t).

Lemma keeps_refl a : keeps a a.
Proof. intros y _. reflexivity. Qed.

Lemma take_bytes_ok s z a b (P : sout -> _ -> Prop) Q r (l : list Z) :
  reached s a -> b !! t = None -> a = <[t := AVal r (map Some l)]> b ->
  (forall s', reached s' b -> P (RBytes l) (s', z)) -> wp (take_bytes d t) P Q (s, z).
Proof.
  intros H Hb -> HP. unfold take_bytes. apply wp_bind. eapply wp_length; [exact H|apply lookup_insert|]. rewrite zlen_map.
  apply wp_bind. unfold wp at 1, str_call. rewrite (load_bytes s _ t r l H (lookup_insert _ _ _)).
  apply wp_bind. eapply wp_call_safe; [exact H| |reflexivity|].
  - unfold step. cbn [spec_step]. rewrite (live_val _ _ _ (lookup_insert _ _ _)). cbn [need]. reflexivity.
  - intros s' H'. rewrite bytes_some. rewrite delete_insert in H' by exact Hb. apply HP, H'.
Qed.

Lemma over_map v p w : map (@Some Z) (over v p w) = sp_over (map Some v) p (map Some w).
Proof. unfold over, sp_over. rewrite !map_app, ztake_map, zdrop_map, zlen_map. reflexivity. Qed.
Lemma memlow_le n k : n <= k -> no_memory d n -> memlow k.
Proof. intros H1 H2. exists n. split; assumption. Qed.

(** Temporaries. *)
Lemma step_destroy_t a r (l : list (option Z)) : step (Destroy t) (<[t := AVal r l]> a) = Some (SRet (delete t (<[t := AVal r l]> a)) ONone).
Proof. unfold RcaMeet.step. cbn [spec_step]. rewrite (live_val _ _ _ (lookup_insert _ _ _)). reflexivity. Qed.
Lemma wp_destroy s z a av (P : unit -> _ -> Prop) Q :
  reached s a -> a !! t = Some av -> (forall s', reached s' (delete t a) -> P tt (s', z)) -> wp (call d (Destroy t)) P Q (s, z).
Proof.
  intros H Ht HP. eapply wp_call_safe; [exact H| |reflexivity|exact HP].
  unfold RcaMeet.step. cbn [spec_step]. rewrite (live_val _ _ _ Ht). reflexivity.
Qed.

(** puts *)
Definition put_state (mv rt : bool) (a : astate Z) (v w : list Z) (p : Z) : astate Z :=
  if (p =? 0) && (zlen v <? zlen w)
  then <[x := AVal rt (map Some (over v p w))]> (if mv then <[t := AMoved]> a else a)
  else <[x := AVal true (map Some (over v p w))]> a.
Lemma puts_exact mv s z (a : astate Z) r rt (v w : list Z) p (P : unit -> _ -> Prop) (Q : exn -> _ -> Prop) :
  s_str z = x -> s_pos z = p -> reached s a -> a !! x = Some (AVal r (map Some v)) -> a !! t = Some (AVal rt (map Some w)) ->
  0 <= p <= zlen v ->
  (forall s', reached s' (put_state mv rt a v w p) ->
     P tt (s', Stream x (p + zlen w) (s_load z))) ->
  (forall s' a', memlow (zlen v + zlen w + 3) -> reached s' a' -> a' = a \/ a' = <[x := AVal true []]> a -> Q BadAlloc (s', z)) ->
  wp (puts d mv t) P Q (s, z).
Proof.
  intros Hz Hpos H Hx Ht Hp HP HQ. pose proof (reached_len d s a x _ _ Hwf H Hx) as Hlv. pose proof (reached_len d s a t _ _ Hwf H Ht) as Hlw.
  rewrite !zlen_map in *.
  assert (Hu : u64 (p + zlen w) = p + zlen w) by (apply u64_id; unfold W64, max_alloc in *; lia).
  assert (Hlen : zlen (over v p w) <= zlen v + zlen w).
  { unfold over. zls; lia. }
  set (a' := put_state mv rt a v w p) in *.
  assert (Hs : step (ReplaceN mv x p t npos) a = Some (SRet a' ONone)).
  { unfold RcaMeet.step. cbn [spec_step]. rewrite (holds_val _ _ _ _ Hx), (holds_val _ _ _ _ Ht). rewrite !zlen_map.
    assert (in_u64 p && in_u64 npos = true) as -> by (unfold in_u64, npos, W64, max_alloc in *; lia). cbn [need].
    assert (npos =? 0 = false) as -> by reflexivity. assert (zlen v <? p = false) as -> by lia.
    assert (zlen w <=? npos = true) as -> by (unfold npos, max_alloc in *; lia). rewrite Z.eqb_refl. cbn [orb]. rewrite !andb_true_r.
    unfold a', put_state. destruct ((p =? 0) && (zlen v <? zlen w)) eqn:E.
    - unfold sp_take. assert (p = 0) as -> by lia. do 4 f_equal. unfold over. rewrite (ztake_0 0 v), zdrop_all, app_nil_r by lia. reflexivity.
    - assert (alias_ok (d_class d) x t p (Z.min npos (zlen w)) = true) as -> by (unfold alias_ok; rewrite cls; reflexivity). cbn [need].
      unfold put.
      assert (Z.min npos (zlen w) = zlen w) as -> by (unfold npos, max_alloc in *; lia).
      rewrite (ztake_all (zlen w)) by (rewrite zlen_map; lia). rewrite over_map. reflexivity. }
  assert (Hx' : exists r', a' !! x = Some (AVal r' (map Some (over v p w)))).
  { unfold a', put_state. destruct ((p =? 0) && (zlen v <? zlen w)); eexists; apply lookup_insert. }
  assert (Ht' : mv = false -> a' !! t = Some (AVal rt (map Some w))).
  { intros ->. unfold a', put_state. destruct ((p =? 0) && (zlen v <? zlen w)); rewrite lookup_insert_ne by congruence; exact Ht. }
  destruct Hx' as (r' & Hx').
  assert (HQ' : forall s' y a'', subject (T := Z) (ReplaceN mv x p t npos) = Some y -> no_memory d (asks (ReplaceN mv x p t npos) a' y) ->
     reached s' a'' -> a'' = a \/ target (T := Z) (ReplaceN mv x p t npos) = Some y /\ a'' = <[y := AVal true []]> a -> Q BadAlloc (s', z)).
  { intros s' y a'' [= <-] Hm Hr Ha. apply (HQ s' a'').
    - eapply memlow_le; [|exact Hm]. cbn [asks]. rewrite (vlen_val _ _ _ _ Hx'), zlen_map. lia.
    - exact Hr.
    - destruct Ha as [->|[_ ->]]; auto. }
  unfold puts. apply wp_bind, wp_str. apply wp_bind, wp_tell. rewrite Hz, Hpos. destruct mv.
  - apply wp_bind. eapply wp_length; [exact H|exact Ht|]. rewrite zlen_map.
    apply wp_bind. eapply wp_call; [exact H|exact Hs|discriminate| |exact HQ'].
    intros s' Hr. apply wp_set_pos. rewrite Hz, Hu. apply HP, Hr.
  - apply wp_bind. eapply wp_call; [exact H|exact Hs|discriminate| |exact HQ'].
    intros s' Hr. apply wp_bind. eapply wp_length; [exact Hr|apply Ht'; reflexivity|]. rewrite zlen_map.
    apply wp_set_pos. rewrite Hz, Hu. apply HP, Hr.
Qed.
Lemma puts_ok mv s z a r rt v w p (P : unit -> _ -> Prop) (Q : exn -> _ -> Prop) :
  s_str z = x -> s_pos z = p -> reached s a -> a !! x = Some (AVal r (map Some v)) -> a !! t = Some (AVal rt (map Some w)) ->
  0 <= p <= zlen v ->
  (forall s' a', reached s' a' -> (exists r', a' !! x = Some (AVal r' (map Some (over v p w)))) ->
     (exists av, a' !! t = Some av) -> (forall y, y <> x -> y <> t -> a' !! y = a !! y) ->
     P tt (s', Stream x (p + zlen w) (s_load z))) ->
  (forall s' a', memlow (zlen v + zlen w + 3) -> reached s' a' -> a' = a \/ a' = <[x := AVal true []]> a -> Q BadAlloc (s', z)) ->
  wp (puts d mv t) P Q (s, z).
Proof.
  intros Hz Hpos H Hx Ht Hp HP HQ. eapply puts_exact; [exact Hz|exact Hpos|exact H|exact Hx|exact Ht|exact Hp| |exact HQ].
  intros s' H'. eapply HP; [exact H'| | |]; unfold put_state.
  - destruct ((p =? 0) && (zlen v <? zlen w)); eexists; apply lookup_insert.
  - destruct ((p =? 0) && (zlen v <? zlen w)), mv; rewrite lookup_insert_ne by congruence; try rewrite lookup_insert; eauto.
  - intros y H1 H2. destruct ((p =? 0) && (zlen v <? zlen w)), mv; rewrite !lookup_insert_ne by congruence; reflexivity.
Qed.
Lemma puts_range mv s z a r rt v w p (P : unit -> _ -> Prop) (Q : exn -> _ -> Prop) :
  s_str z = x -> s_pos z = p -> reached s a -> a !! x = Some (AVal r v) -> a !! t = Some (AVal rt w) ->
  zlen v < p < W64 -> Q OutOfRange (s, z) -> wp (puts d mv t) P Q (s, z).
Proof.
  intros Hz Hpos H Hx Ht Hp HQ. pose proof (zlen_nonneg v).
  assert (Hs : step (ReplaceN mv x p t npos) a = Some SRange).
  { unfold RcaMeet.step. cbn [spec_step]. rewrite (holds_val _ _ _ _ Hx), (holds_val _ _ _ _ Ht).
    assert (in_u64 p && in_u64 npos = true) as -> by (unfold in_u64, npos, W64 in *; lia). cbn [need].
    assert (npos =? 0 = false) as -> by reflexivity. assert (zlen v <? p = true) as -> by lia. reflexivity. }
  unfold puts. apply wp_bind, wp_str. apply wp_bind, wp_tell. rewrite Hz, Hpos. destruct mv.
  - apply wp_bind. eapply wp_length; [exact H|exact Ht|]. apply wp_bind. eapply wp_call_range; [exact H|exact Hs|exact HQ].
  - apply wp_bind. eapply wp_call_range; [exact H|exact Hs|exact HQ].
Qed.

(** seek *)
Lemma seek_ok s z a v p off wh c (P : Z -> _ -> Prop) Q q :
  SR s z v p a -> capacity x s = Ok c s -> zlen v <= c ->
  pstep c (SSeek off wh) v p = Some (PRet v q (RInt q)) ->
  P q (s, Stream x q (s_load z)) -> wp (seek off wh) P Q (s, z).
Proof.
  intros [Hz Hpos Hpr Hr Hv Ht] Hc Hvc Hs HP. cbn [pstep] in Hs. unfold small in Hs.
  match type of Hs with (if ?b then _ else _) = _ => destruct b eqn:E; [|discriminate] end.
  pose proof (zlen_nonneg v).
  unfold seek. apply wp_bind, wp_tell. apply wp_bind. unfold scapacity. apply wp_bind, wp_str. rewrite Hz.
  unfold wp at 1, str_call. rewrite Hc. rewrite Hpos. apply wp_bind, wp_set_pos, wp_ret. rewrite Hz.
  match goal with |- P ?m _ => enough (m = q) as Heq end.
  { rewrite Heq. rewrite u64_id; [exact HP|]. rewrite <- Heq. unfold W64, W31 in *.
    match goal with |- context [if ?m <? 0 then _ else _] => destruct (Z.ltb_spec m 0) end; [lia|].
    match goal with |- context [if c <? ?m then _ else _] => destruct (Z.ltb_spec c m) end; [rewrite i32_id by (unfold W31; lia); lia|lia]. }
  assert (G : forall m, - W31 <= m < W31 -> (if m <? 0 then 0 else if c <? m then i32 c else m) = clamp 0 c m).
  { intros m Hm. unfold clamp. destruct (Z.ltb_spec m 0); [lia|]. destruct (Z.ltb_spec c m); [rewrite i32_id by (unfold W31 in *; lia)|]; lia. }
  destruct (wh =? 0); [injection Hs as <-; apply G; lia|].
  destruct (wh =? 1).
  { destruct (Z.ltb_spec (p + off) W31); [|discriminate]. injection Hs as <-.
    assert (i32 (u64 (p + u64 off)) = p + off) as ->; [|apply G; unfold W31 in *; lia].
    unfold i32, u64. rewrite Zplus_mod_idemp_r. rewrite <- Zplus_mod_idemp_l.
    replace (((p + off) mod W64) mod W32) with ((p + off) mod W32); [|unfold W32, W64; rewrite <- Znumtheory.Zmod_div_mod; [reflexivity|lia|lia|exists 4294967296; reflexivity]].
    rewrite Zplus_mod_idemp_l. apply (i32_id (p + off)). unfold W31 in *. lia. }
  destruct (wh =? 2).
  { destruct (Z.ltb_spec (c - off) W31); [|discriminate]. injection Hs as <-.
    assert (i32 (u64 (c - u64 off)) = c - off) as ->; [|apply G; unfold W31 in *; lia].
    unfold i32, u64. rewrite Zminus_mod_idemp_r. rewrite <- Zplus_mod_idemp_l.
    replace (((c - off) mod W64) mod W32) with ((c - off) mod W32); [|unfold W32, W64; rewrite <- Znumtheory.Zmod_div_mod; [reflexivity|lia|lia|exists 4294967296; reflexivity]].
    rewrite Zplus_mod_idemp_l. apply (i32_id (c - off)). unfold W31 in *. lia. }
  injection Hs as <-. rewrite i32_id by (unfold W31 in *; lia). apply G. unfold W31 in *; lia.
Qed.

(** Copying and slicing. *)
Lemma wp_copy s z a r v (P : unit -> _ -> Prop) Q :
  reached s a -> a !! x = Some (AVal r v) -> a !! t = None ->
  (forall s', reached s' (<[t := AVal r v]> a) -> P tt (s', z)) -> wp (call d (CtorCopy t x)) P Q (s, z).
Proof.
  intros H Hx Ht HP. eapply wp_call_safe; [exact H| |reflexivity|exact HP].
  unfold RcaMeet.step. cbn [spec_step]. rewrite (holds_val _ _ _ _ Hx), (fresh_val _ _ Ht). reflexivity.
Qed.
Lemma wp_slice s z a r (v : list Z) i k (P : unit -> _ -> Prop) Q :
  reached s (<[t := AVal r (map Some v)]> a) -> zlen v < W31 -> 0 <= i < W63 - W31 -> -1 <= k < W63 - W31 ->
  (forall s', reached s' (<[t := AVal r (map Some (if k =? -1 then zdrop i v else ztake k (zdrop i v)))]> a) -> P tt (s', z)) ->
  wp (call d (SliceTo t i k)) P Q (s, z).
Proof.
  intros H Hl Hi Hk HP. pose proof (zlen_nonneg v). eapply wp_call_safe; [exact H| |reflexivity|].
  - unfold RcaMeet.step. cbn [spec_step]. rewrite (holds_val _ _ _ _ (lookup_insert _ _ _)).
    assert (sp_slice_ok (zlen (map (@Some Z) v)) i k = true) as ->; [|cbn [need]; unfold put; reflexivity].
    rewrite zlen_map. unfold sp_slice_ok, sp_slice_start, in_s64, W63, W31 in *. destruct (i <? 0) eqn:E; lia.
  - intros s' H'. apply HP. rewrite insert_insert in H'.
    assert (E : sp_slice (map (@Some Z) v) i k = map Some (if k =? -1 then zdrop i v else ztake k (zdrop i v))); [|rewrite <- E; exact H'].
    unfold sp_slice, sp_slice_start. rewrite zlen_map. destruct (Z.ltb_spec i 0); [lia|].
    destruct (Z.leb_spec (zlen v) i).
    + rewrite zdrop_all by lia. destruct (k =? -1); [reflexivity|]. unfold ztake. rewrite firstn_nil. reflexivity.
    + rewrite zdrop_map, ztake_map. f_equal. destruct (Z.eqb_spec k (-1)); [apply ztake_all; zls; lia|].
      destruct (Z.ltb_spec k 0); [lia|]. destruct (Z.le_gt_cases (i + k) (zlen v)); [f_equal; lia|].
      rewrite !ztake_all by (zls; lia). reflexivity.
Qed.

Lemma truncate_ok s z a v p (P : unit -> _ -> Prop) Q :
  SR s z v p a -> zlen v < W31 -> p < W63 - W31 ->
  (forall s' r, a !! x = Some (AVal r (map Some v)) -> reached s' (<[x := AVal r (map Some (ztake p v))]> a) -> P tt (s', z)) -> wp (truncate d t) P Q (s, z).
Proof.
  intros [Hz Hpos Hpr Hr [r Hv] Ht] Hl Hp HP. unfold truncate. apply wp_bind, wp_str. apply wp_bind, wp_tell. rewrite Hz, Hpos.
  rewrite s64_id by (unfold W63, W31 in *; lia).
  apply wp_bind. eapply wp_copy; [exact Hr|exact Hv|exact Ht|]. intros s1 H1.
  apply wp_bind. eapply wp_slice; [exact H1|lia|unfold W63, W31; lia|unfold W63, W31 in *; lia|]. intros s2 H2.
  destruct (Z.eqb_spec p (-1)); [lia|]. rewrite zdrop_0 in H2 by lia.
  apply wp_bind. eapply wp_call_safe; [exact H2| |reflexivity|].
  - unfold RcaMeet.step. cbn [spec_step]. destruct (Pos.eqb_spec x t); [congruence|].
    rewrite (holds_val _ _ _ _ (lookup_insert _ _ _)).
    assert (live (<[t:=AVal r (map Some (ztake p v))]> a) x = true) as -> by (unfold live, fresh_var; rewrite lookup_insert_ne, Hv by congruence; reflexivity).
    cbn [need]. unfold sp_take. reflexivity.
  - intros s3 H3. rewrite insert_insert in H3. eapply wp_destroy; [exact H3|rewrite lookup_insert_ne by congruence; apply lookup_insert|].
    intros s4 H4. apply (HP s4 r Hv). rewrite delete_insert_ne in H4 by congruence. rewrite delete_insert in H4 by exact Ht. exact H4.
Qed.

(** read *)
Lemma read_loop_ok : forall fuel s z b0 (a : astate Z) r (pre taken todo : list Z) toRead delim (P : unit -> _ -> Prop) (Q : exn -> _ -> Prop),
  reached s (<[t := AVal true (map Some taken)]> a) -> a !! t = None -> a !! x = Some (AVal r (map Some (pre ++ taken ++ todo))) ->
  z = Stream x (zlen pre + zlen taken) b0 -> zlen taken <= toRead <= zlen taken + zlen todo -> toRead - zlen taken < Z.of_nat fuel ->
  (forall s' more todo', todo = more ++ todo' -> ~ In delim more -> reached s' (<[t := AVal true (map Some (taken ++ more))]> a) ->
     zlen (taken ++ more) <= toRead ->
     zlen (taken ++ more) = toRead \/ (exists todo'', todo' = delim :: todo'') ->
     P tt (s', Stream x (zlen pre + zlen (taken ++ more)) b0)) ->
  (forall s' a' av more todo', todo = more ++ todo' -> ~ In delim more -> zlen (taken ++ more) <= toRead -> memlow (zlen (pre ++ taken ++ todo) + 3) ->
     reached s' a' -> a' = <[t := av]> a ->
     Q BadAlloc (s', Stream x (zlen pre + zlen (taken ++ more)) b0)) ->
  wp (read_loop d fuel t toRead delim) P Q (s, z).
Proof.
  induction fuel as [|fuel IH]; intros s z b0 a r pre taken todo toRead delim P Q H Ht Hx -> Hto Hf HP HQ; [lia|].
  assert (Hx' : <[t := AVal true (map Some taken)]> a !! x = Some (AVal r (map Some (pre ++ taken ++ todo)))) by (rewrite lookup_insert_ne by congruence; exact Hx).
  pose proof (reached_len d s _ x _ _ Hwf H Hx') as Hlen. rewrite zlen_map in Hlen.
  pose proof (zlen_nonneg pre). pose proof (zlen_nonneg taken). pose proof (zlen_nonneg todo). rewrite !zlen_app in Hlen.
  cbn [read_loop]. apply wp_bind. eapply wp_length; [exact H|apply lookup_insert|]. rewrite zlen_map.
  destruct (Z.ltb_spec (zlen taken) toRead) as [Hlt|Hge].
  2:{ apply wp_ret. specialize (HP s [] todo). rewrite app_nil_r in HP. apply HP; auto; lia. }
  destruct todo as [|c todo]; [change (zlen (@nil Z)) with 0 in *; lia|]. rewrite zlen_cons in *.
  apply wp_bind, wp_str. apply wp_bind, wp_tell. cbn [s_str s_pos]. apply wp_bind.
  eapply (wp_read s _ _ x r _ _ c); [exact H|exact Hx'| |].
  { rewrite znth_map, app_assoc. replace (zlen pre + zlen taken) with (zlen (pre ++ taken)) by (zls; lia). rewrite znth_app.
    destruct (Z.ltb_spec (zlen (pre ++ taken)) (zlen (pre ++ taken))); [lia|]. rewrite Z.sub_diag. reflexivity. }
  destruct (Z.eqb_spec c delim) as [->|Hc].
  { apply wp_ret. specialize (HP s [] (delim :: todo)). rewrite app_nil_r in HP. apply HP; auto; try lia. right. eauto. }
  apply wp_bind, wp_set_pos. cbn [s_str s_load]. rewrite u64_id by (unfold W64, max_alloc in *; lia).
  replace (zlen pre + zlen taken + 1) with (zlen pre + zlen (taken ++ [c])) by (zls; lia).
  apply wp_bind. eapply wp_call; [exact H| |discriminate| |].
  - unfold RcaMeet.step. cbn [spec_step]. rewrite (holds_val _ _ _ _ (lookup_insert _ _ _)). unfold put. reflexivity.
  - intros s' H'. rewrite insert_insert in H'. change [Some c] with (map (@Some Z) [c]) in H'. rewrite <- map_app in H'.
    eapply (IH s' _ b0 a r pre (taken ++ [c]) todo); [exact H'|exact Ht| |reflexivity|zls; lia|zls; lia| |].
    + rewrite Hx. rewrite <- app_assoc. reflexivity.
    + intros s2 more todo' -> Hm Hr Hle Hor. rewrite <- app_assoc in *. apply (HP s2 (c :: more) todo'); auto. intros [I|I]; auto.
    + intros s2 a2 av2 more todo' -> Hm Hle Hml Hr Ha. rewrite <- !app_assoc in *. apply (HQ s2 a2 av2 (c :: more) todo'); auto.
      * intros [I|I]; auto.
  - intros s' y a'' [= <-] Hm Hr Ha.
    assert (exists av, a'' = <[t := av]> a) as (av & Ea).
    { destruct Ha as [->|[_ ->]]; [eexists; reflexivity|]. rewrite insert_insert. eexists; reflexivity. }
    specialize (HQ s' a'' av [c] todo). apply HQ; auto.
    + intros [I|[]]; congruence.
    + zls; lia.
    + eapply memlow_le; [|exact Hm]. cbn [asks]. unfold vlen. rewrite lookup_insert. zls. rewrite zlen_map. lia.
Qed.

Lemma sread_exact s z a rx v p n delim (P : unit -> _ -> Prop) (Q : exn -> _ -> Prop) :
  SR s z v p a -> a !! x = Some (AVal rx (map Some v)) -> zlen v < W31 -> p <= zlen v -> 0 <= n ->
  (forall s', reached s' (<[t := AVal (rx || negb (delim =? 0)) (map Some (piece n delim (zdrop p v)))]> a) ->
     P tt (s', Stream x (p + zlen (piece n delim (zdrop p v))) (s_load z))) ->
  (forall s' p', memlow (zlen v + 3) -> reached s' a -> p <= p' <= p + zlen (piece n delim (zdrop p v)) ->
     Q BadAlloc (s', Stream x p' (s_load z))) ->
  wp (sread d t n delim) P Q (s, z).
Proof.
  intros [Hz Hpos Hpr Hr _ Ht] Hv Hl Hp Hn HP HQ. rename rx into r. pose proof (zlen_nonneg v). destruct z as [zs zp zl]. cbn in Hz, Hpos. subst zs zp.
  set (rest := zdrop p v) in *. assert (Hrest : zlen rest = zlen v - p) by (unfold rest; zls; lia).
  assert (Hvr : v = ztake p v ++ rest) by (symmetry; apply ztake_zdrop). assert (Hpre : zlen (ztake p v) = p) by (zls; lia).
  unfold sread. apply wp_bind, wp_str. apply wp_bind, wp_tell. cbn [s_str s_pos s_load] in *.
  apply wp_bind. unfold slength. apply wp_bind, wp_str. cbn [s_str]. eapply wp_length; [exact Hr|exact Hv|]. rewrite zlen_map.
  rewrite (u64_id (zlen v - p)) by (unfold W64, W31 in *; lia). set (k := Z.min n (zlen v - p)).
  destruct (Z.eqb_spec delim 0) as [->|Hd].
  - apply wp_bind. eapply wp_copy; [exact Hr|exact Hv|exact Ht|]. intros s1 H1.
    rewrite !s64_id by (unfold W63, W31 in *; lia).
    apply wp_bind. eapply wp_slice; [exact H1|lia|unfold W63, W31 in *; lia|unfold W63, W31 in *; lia|]. intros s2 H2.
    destruct (Z.eqb_spec k (-1)); [lia|]. fold rest in H2. apply wp_set_pos. cbn [s_str s_load].
    unfold piece in HP. cbn [Z.eqb] in HP.
    assert (E : ztake k rest = ztake n rest).
    { unfold k. destruct (Z.le_gt_cases n (zlen v - p)); [f_equal; lia|]. rewrite !ztake_all by lia. reflexivity. }
    rewrite u64_id by (unfold W64, W31 in *; lia).
    replace (p + k) with (p + zlen (ztake n rest)) by (rewrite <- E; zls; lia). apply (HP s2). rewrite <- E. cbn [negb]. rewrite orb_false_r. exact H2.
  - cbn [negb] in HP. rewrite orb_true_r in HP. apply wp_bind. eapply wp_call; [exact Hr| |discriminate| |].
    + unfold RcaMeet.step. cbn [spec_step]. rewrite (fresh_val _ _ Ht).
      assert (in_u64 k = true) as -> by (unfold in_u64, W64, W31 in *; lia). cbn [andb need]. unfold put. reflexivity.
    + intros s1 H1. change (@nil (option Z)) with (map (@Some Z) []) in H1. apply wp_local. apply wp_bind.
      assert (Hfail : forall s' a' av m l, reached s' a' -> a' = <[t := av]> a -> rest = m ++ l -> ~ In delim m -> zlen m <= n -> memlow (zlen v + 3) ->
        wp (call d (Destroy t)) (fun _ st'' => Q BadAlloc st'') (fun _ _ => False) (s', Stream x (p + zlen m) zl)).
      { intros s' a' av m l Hr' -> Hml Hm Hle Hmem. eapply wp_destroy; [exact Hr'|apply lookup_insert|]. intros s2 H2.
        rewrite delete_insert in H2 by exact Ht. apply HQ; [exact Hmem|exact H2|]. pose proof (zlen_nonneg m). rewrite Hml. pose proof (piece_ge n delim m l Hd Hm Hle). lia. }
      eapply (read_loop_ok (S (Z.to_nat k)) s1 _ zl a r (ztake p v) [] rest k delim);
        [exact H1|exact Ht| |rewrite Hpre; change (zlen (@nil Z)) with 0; rewrite Z.add_0_r; reflexivity|change (zlen (@nil Z)) with 0; lia|change (zlen (@nil Z)) with 0; lia| |].
      * cbn [app]. rewrite <- Hvr. exact Hv.
      * intros s2 m l Hml Hm H2 Hle Hor. cbn [app] in *. rewrite Hpre. pose proof (zlen_nonneg m).
        assert (Hx2 : <[t := AVal true (map Some m)]> a !! x = Some (AVal r (map Some v))) by (rewrite lookup_insert_ne by congruence; exact Hv).
        assert (Hnth : znth (p + zlen m) (map Some v) = option_map Some (znth 0 l)).
        { rewrite znth_map, Hvr, Hml, app_assoc. replace (p + zlen m) with (zlen (ztake p v ++ m)) by (zls; lia). rewrite znth_app.
          destruct (Z.ltb_spec (zlen (ztake p v ++ m)) (zlen (ztake p v ++ m))); [lia|]. rewrite Z.sub_diag. reflexivity. }
        apply wp_bind, wp_tell. cbn [s_pos]. apply wp_bind, wp_bind, wp_str. cbn [s_str]. eapply wp_length; [exact H2|exact Hx2|]. rewrite zlen_map.
        assert (Hlm : zlen m + zlen l = zlen v - p) by (rewrite <- Hrest, Hml, zlen_app; reflexivity). pose proof (zlen_nonneg l).
        destruct (Z.ltb_spec (p + zlen m) (zlen v)) as [Hlt|Hge].
        -- destruct l as [|c l]; [change (zlen (@nil Z)) with 0 in *; lia|]. rewrite zlen_cons in *. cbn in Hnth.
           apply wp_bind. eapply wp_read; [exact H2|exact Hx2|exact Hnth|]. destruct (Z.eqb_spec c delim) as [->|Hc].
           ++ assert (Hpc : piece n delim rest = m ++ [delim]) by (rewrite Hml; apply piece_delim; [exact Hd|exact Hm|lia]).
              apply wp_bind. eapply wp_call; [exact H2| |discriminate| |].
              ** unfold RcaMeet.step. cbn [spec_step]. rewrite (holds_val _ _ _ _ (lookup_insert _ _ _)). unfold put. reflexivity.
              ** intros s3 K3. rewrite insert_insert in K3. change [Some delim] with (map (@Some Z) [delim]) in K3. rewrite <- map_app in K3.
                 apply wp_set_pos. cbn [s_str s_load]. rewrite Hpc in HP. rewrite u64_id by (unfold W64, W31 in *; lia).
                 replace (p + zlen m + 1) with (p + zlen (m ++ [delim])) by (zls; lia). apply (HP s3). exact K3.
              ** intros s3 y a'' [= <-] Hmem Hr3 Ha.
                 assert (exists av, a'' = <[t := av]> a) as (av & Ea).
                 { destruct Ha as [->|[_ ->]]; [eexists; reflexivity|]. rewrite insert_insert. eexists; reflexivity. }
                 eapply Hfail; [exact Hr3|exact Ea|exact Hml|exact Hm|lia|]. eapply memlow_le; [|exact Hmem].
                 cbn [asks]. unfold vlen. rewrite lookup_insert. zls. rewrite zlen_map. pose proof (zlen_nonneg l). lia.
           ++ apply wp_ret. assert (Hpc : piece n delim rest = m).
              { rewrite Hml. apply piece_full; [exact Hd|exact Hm| |].
                - rewrite <- Hml, Hrest. destruct Hor as [Ho|(l' & [= -> _])]; [rewrite Ho; reflexivity|contradiction].
                - intros b l' [= <- _]. exact Hc. }
              rewrite Hpc in HP. apply (HP s2). exact H2.
        -- destruct l as [|c l]; [|rewrite zlen_cons in *; pose proof (zlen_nonneg l); lia]. apply wp_ret. rewrite app_nil_r in Hml.
           assert (Hpc : piece n delim rest = m).
           { rewrite Hml. transitivity (piece n delim (m ++ [])); [rewrite app_nil_r; reflexivity|]. apply piece_full; [exact Hd|exact Hm| |discriminate].
             rewrite app_nil_r. rewrite <- Hml at 2. rewrite Hrest. destruct Hor as [Ho|(l' & [=])]. exact Ho. }
           rewrite Hpc in HP. apply (HP s2). exact H2.
      * intros s2 a2 av m l Hml Hm Hle Hmem Hr2 Ha. cbn [app] in *. rewrite Hpre. rewrite <- Hvr in Hmem.
        eapply Hfail; [exact Hr2|exact Ha|exact Hml|exact Hm|lia|exact Hmem].
    + intros s' y a'' [= <-] Hm Hr' Ha. assert (a'' = a) as -> by (destruct Ha as [->|[[=] _]]; reflexivity).
      apply HQ; [|exact Hr'|pose proof (zlen_nonneg (piece n delim rest)); lia]. eapply memlow_le; [|exact Hm]. cbn [asks]. lia.
Qed.
Lemma sread_ok s z a v p n delim (P : unit -> _ -> Prop) (Q : exn -> _ -> Prop) :
  SR s z v p a -> zlen v < W31 -> p <= zlen v -> 0 <= n ->
  (forall s' r, reached s' (<[t := AVal r (map Some (piece n delim (zdrop p v)))]> a) ->
     P tt (s', Stream x (p + zlen (piece n delim (zdrop p v))) (s_load z))) ->
  (forall s' p', memlow (zlen v + 3) -> reached s' a -> p <= p' <= p + zlen (piece n delim (zdrop p v)) ->
     Q BadAlloc (s', Stream x p' (s_load z))) ->
  wp (sread d t n delim) P Q (s, z).
Proof.
  intros H Hl Hp Hn HP HQ. destruct (sr_val _ _ _ _ _ _ _ _ H) as (r & Hv).
  eapply sread_exact; [exact H|exact Hv|exact Hl|exact Hp|exact Hn|intros s' H'; exact (HP _ _ H')|exact HQ].
Qed.

Lemma sr_put s z a v p v' p' r : SR s z v p a -> 0 <= p' < W64 -> forall s' z', reached s' (<[x := AVal r (map Some v')]> a) -> s_str z' = x -> s_pos z' = p' ->
  exists a', SR s' z' v' p' a' /\ keeps a a'.
Proof.
  intros [Hz Hpos Hpr Hr Hv Ht] Hp' s' z' H' Hz' Hp. eexists. split.
  - split; [exact Hz'|exact Hp|exact Hp'|exact H'|exists r; apply lookup_insert|]. rewrite lookup_insert_ne by congruence. exact Ht.
  - intros y Hy. apply lookup_insert_ne. congruence.
Qed.
Lemma sr_same s z a v p : SR s z v p a -> forall s' z' p', 0 <= p' < W64 -> reached s' a -> s_str z' = x -> s_pos z' = p' ->
  exists a', SR s' z' v p' a' /\ keeps a a'.
Proof.
  intros [Hz Hpos Hpr Hr Hv Ht] s' z' p' Hp' H' Hz' Hp. exists a. split; [split; assumption|apply keeps_refl].
Qed.

Theorem srun_ok o s z a v p c :
  SR s z v p a -> capacity x s = Ok c s -> zlen v <= c ->
  match pstep c o v p with
  | None => True
  | Some PRange => wp (srun d t o) (fun _ _ => False) (fun e st' => range_post a (s_load z) v p e st' \/ fail_post o a (s_load z) v p e st') (s, z)
  | Some (PRet v' p' r) => wp (srun d t o) (done_ok a (s_load z) v' p' r) (fail_post o a (s_load z) v p) (s, z)
  end.
Proof.
  intros HSR Hc Hvc. pose proof HSR as [Hz Hpos Hpr Hr [rx Hv] Ht]. pose proof (reached_len d s a x _ _ Hwf Hr Hv) as Hlv. rewrite zlen_map in Hlv.
  destruct o as [mv w|off wh| | | | |n dl|n| |].
  - (* puts *)
    cbn [pstep]. destruct (Z.ltb_spec (zlen w) npos) as [Hw|]; [|exact I].
    assert (Hs : step (CtorCstrLen t w (zlen w)) a = Some (SRet (<[t := AVal true (map Some w)]> a) ONone)).
    { unfold RcaMeet.step. cbn [spec_step]. rewrite (fresh_val _ _ Ht), Hnul. pose proof (zlen_nonneg w). unfold is_string.
      assert (true && true && (0 <=? zlen w) && (zlen w <? npos) && (zlen w <=? zlen w) = true) as -> by lia. cbn [need]. rewrite ztake_all by lia. reflexivity. }
    assert (Hx1 : <[t := AVal true (map Some w)]> a !! x = Some (AVal rx (map Some v))) by (rewrite lookup_insert_ne by congruence; exact Hv).
    assert (Hf1 : forall s' y a'', subject (T := Z) (CtorCstrLen t w (zlen w)) = Some y -> no_memory d (asks (CtorCstrLen t w (zlen w)) (<[t:=AVal true (map Some w)]> a) y) ->
       reached s' a'' -> a'' = a \/ target (T := Z) (CtorCstrLen t w (zlen w)) = Some y /\ a'' = <[y := AVal true []]> a -> fail_post (SPuts mv w) a (s_load z) v p BadAlloc (s', z)).
    { intros s' y a'' [= <-] Hm Hr' Ha. assert (a'' = a) as -> by (destruct Ha as [->|[[=] _]]; reflexivity).
      split; [reflexivity|]. split; [|split; [reflexivity|]].
      - eapply memlow_le; [|exact Hm]. cbn [asks]. unfold extent. unfold vlen. rewrite lookup_insert, zlen_map. lia.
      - exists v, p. destruct (sr_same _ _ _ _ _ HSR s' z p Hpr Hr' Hz Hpos) as (a' & Ha'). exists a'. split; [split; auto|exact Ha']. }
    destruct (Z.ltb_spec (zlen v) p) as [Hgt|Hle].
    + cbn [srun]. apply wp_bind. eapply wp_call; [exact Hr|exact Hs|discriminate| |].
      * intros s1 H1. apply wp_bind, wp_local.
        eapply puts_range; [exact Hz|exact Hpos|exact H1|exact Hx1|apply lookup_insert|rewrite zlen_map; lia|].
        eapply wp_destroy; [exact H1|apply lookup_insert|]. intros s2 H2. rewrite delete_insert in H2 by exact Ht.
        left. split; [reflexivity|]. split; [reflexivity|]. exact (sr_same _ _ _ _ _ HSR s2 z p Hpr H2 Hz Hpos).
      * intros. right. eapply Hf1; eassumption.
    + cbn [srun]. apply wp_bind. eapply wp_call; [exact Hr|exact Hs|discriminate| |exact Hf1].
      intros s1 H1. apply wp_bind, wp_local.
      pose proof (reached_len d s1 _ t _ _ Hwf H1 (lookup_insert _ _ _)) as Hlw. rewrite zlen_map in Hlw.
      eapply puts_ok; [exact Hz|exact Hpos|exact H1|exact Hx1|apply lookup_insert|lia| |].
      * intros s2 a2 H2 (r2 & Hx2) (av & Ht2) Hk. apply wp_bind. eapply wp_destroy; [exact H2|exact Ht2|]. intros s3 H3.
        split; [reflexivity|]. split; [reflexivity|]. exists (delete t a2). split.
        -- split; [reflexivity|reflexivity|unfold W64, max_alloc in *; lia|exact H3|exists r2; rewrite lookup_delete_ne by congruence; exact Hx2|apply lookup_delete].
        -- intros y Hy. destruct (Pos.eq_dec y t) as [->|Hyt]; [rewrite lookup_delete; congruence|].
           rewrite lookup_delete_ne, Hk, lookup_insert_ne by congruence. reflexivity.
      * intros s2 a2 Hm H2 Ha. assert (Hlt : exists av, a2 !! t = Some av).
        { destruct Ha as [->| ->]; [|rewrite lookup_insert_ne by congruence]; rewrite lookup_insert; eauto. }
        destruct Hlt as (av & Ht2). eapply wp_destroy; [exact H2|exact Ht2|]. intros s3 H3.
        split; [reflexivity|]. split; [unfold extent; exact Hm|]. split; [reflexivity|].
        destruct Ha as [->| ->].
        -- rewrite delete_insert in H3 by exact Ht. destruct (sr_same _ _ _ _ _ HSR s3 z p Hpr H3 Hz Hpos) as (a' & Ha'). exists v, p, a'. split; [split; auto|exact Ha'].
        -- rewrite delete_insert_ne in H3 by congruence. rewrite delete_insert in H3 by exact Ht.
           destruct (sr_put _ _ _ _ _ [] p true HSR Hpr s3 z H3 Hz Hpos) as (a' & Ha'). exists [], p, a'. split; [split; auto|exact Ha'].
  - (* seek *)
    destruct (pstep c (SSeek off wh) v p) as [[v' p' r|]|] eqn:E; [| |exact I].
    + assert (v' = v /\ r = RInt p' /\ 0 <= p' < W31) as (-> & -> & Hp').
      { cbn [pstep] in E. destruct (small c && small p && (- W31 <=? off) && (off <? W31)) eqn:Ec; [|discriminate]. unfold small, clamp in *.
        destruct (wh =? 0); [injection E as <- <- <-; repeat split; lia|]. destruct (wh =? 1); [destruct (p + off <? W31); [|discriminate]; injection E as <- <- <-; repeat split; lia|].
        destruct (wh =? 2); [destruct (c - off <? W31); [|discriminate]; injection E as <- <- <-; repeat split; lia|]. injection E as <- <- <-; repeat split; lia. }
      cbn [srun]. apply wp_bind. eapply seek_ok; [exact HSR|exact Hc|exact Hvc|exact E|]. apply wp_ret. split; [reflexivity|]. split; [reflexivity|].
      eapply sr_same; [exact HSR|unfold W64, W31 in *; lia|exact Hr|reflexivity|reflexivity].
    + exfalso. cbn [pstep] in E. destruct (small c && small p && (- W31 <=? off) && (off <? W31)); [|discriminate].
      destruct (wh =? 0); [discriminate|]. destruct (wh =? 1); [destruct (p + off <? W31); discriminate|]. destruct (wh =? 2); [destruct (c - off <? W31); discriminate|]. discriminate.
  - cbn [pstep srun]. apply wp_bind, wp_tell, wp_ret. rewrite Hpos. split; [reflexivity|]. split; [reflexivity|]. exact (sr_same _ _ _ _ _ HSR s z p Hpr Hr Hz Hpos).
  - cbn [pstep srun]. apply wp_bind. unfold slength. apply wp_bind, wp_str. rewrite Hz. eapply wp_length; [exact Hr|exact Hv|]. rewrite zlen_map. apply wp_ret.
    split; [reflexivity|]. split; [reflexivity|]. exact (sr_same _ _ _ _ _ HSR s z p Hpr Hr Hz Hpos).
  - cbn [pstep]. destruct (small (zlen v) && (p <? W63 - W31)) eqn:E; [|exact I]. unfold small in E. cbn [srun].
    apply wp_bind. eapply truncate_ok; [exact HSR|lia|lia|]. intros s' r' _ H'. split; [reflexivity|]. split; [reflexivity|].
    exact (sr_put _ _ _ _ _ _ p r' HSR Hpr s' z H' Hz Hpos).
  - cbn [pstep]. destruct (small (zlen v) && (p <? W63 - W31)) eqn:E; [|exact I]. unfold small in E. cbn [srun]. apply wp_bind. unfold peek.
    apply wp_bind, wp_str. apply wp_bind, wp_tell. rewrite Hz, Hpos. rewrite s64_id by (unfold W63, W31 in *; lia).
    apply wp_bind. eapply wp_copy; [exact Hr|exact Hv|exact Ht|]. intros s1 H1.
    eapply wp_slice; [exact H1|lia|lia|unfold W63, W31; lia|]. intros s2 H2. cbn [Z.eqb Pos.eqb] in H2.
    eapply take_bytes_ok; [exact H2|exact Ht|reflexivity|]. intros s3 H3. split; [reflexivity|]. split; [reflexivity|]. exact (sr_same _ _ _ _ _ HSR s3 z p Hpr H3 Hz Hpos).
  - cbn [pstep]. destruct (small (zlen v) && (p <=? zlen v) && (0 <=? n)) eqn:E; [|exact I]. unfold small in E. cbn [srun].
    assert (Hpl : p + zlen (piece n dl (zdrop p v)) <= zlen v).
    { pose proof (piece_len n dl (zdrop p v) ltac:(lia)) as [Hpl _]. rewrite zlen_zdrop in Hpl. lia. }
    pose proof (zlen_nonneg (piece n dl (zdrop p v))).
    apply wp_bind. eapply sread_ok; [exact HSR|lia|lia|lia| |].
    + intros s1 r1 H1. eapply take_bytes_ok; [exact H1|exact Ht|reflexivity|]. intros s2 H2. split; [reflexivity|]. split; [reflexivity|].
      eapply sr_same; [exact HSR|unfold W64, W31 in *; lia|exact H2|reflexivity|reflexivity].
    + intros s1 p1 Hm H1 Hp1. split; [reflexivity|]. split; [unfold extent; replace (zlen v + 0 + 3) with (zlen v + 3) by lia; exact Hm|]. split; [reflexivity|].
      destruct (sr_same _ _ _ _ _ HSR s1 (Stream x p1 (s_load z)) p1 ltac:(unfold W64, W31 in *; lia) H1 eq_refl eq_refl) as (a' & Ha'). exists v, p1, a'. split; [split; [reflexivity|lia]|exact Ha'].
  - cbn [pstep]. destruct (small (zlen v) && (p <=? zlen v) && (0 <=? n)) eqn:E; [|exact I]. unfold small in E. cbn [srun].
    set (n' := if n =? 99999999 then zlen v - p else n) in *. assert (Hn' : 0 <= n') by (unfold n'; destruct (n =? 99999999); lia).
    assert (Hpl : p + zlen (piece n' 10 (zdrop p v)) <= zlen v).
    { pose proof (piece_len n' 10 (zdrop p v) Hn') as [Hpl _]. rewrite zlen_zdrop in Hpl. lia. }
    pose proof (zlen_nonneg (piece n' 10 (zdrop p v))).
    apply wp_bind. unfold getline. apply wp_bind. unfold slength at 1. apply wp_bind, wp_str. rewrite Hz. eapply wp_length; [exact Hr|exact Hv|]. rewrite zlen_map.
    apply wp_bind, wp_tell. rewrite Hpos, u64_id by (unfold W64, W31 in *; lia). fold n'.
    eapply sread_ok; [exact HSR|lia|lia|lia| |].
    + intros s1 r1 H1. eapply take_bytes_ok; [exact H1|exact Ht|reflexivity|]. intros s2 H2. split; [reflexivity|]. split; [reflexivity|].
      eapply sr_same; [exact HSR|unfold W64, W31 in *; lia|exact H2|reflexivity|reflexivity].
    + intros s1 p1 Hm H1 Hp1. split; [reflexivity|]. split; [unfold extent; replace (zlen v + 0 + 3) with (zlen v + 3) by lia; exact Hm|]. split; [reflexivity|].
      destruct (sr_same _ _ _ _ _ HSR s1 (Stream x p1 (s_load z)) p1 ltac:(unfold W64, W31 in *; lia) H1 eq_refl eq_refl) as (a' & Ha'). exists v, p1, a'. split; [split; [reflexivity|exact Hp1]|exact Ha'].
  - cbn [pstep srun]. apply wp_bind. unfold to_string. apply wp_bind, wp_str. rewrite Hz. eapply wp_copy; [exact Hr|exact Hv|exact Ht|]. intros s1 H1.
    eapply take_bytes_ok; [exact H1|exact Ht|reflexivity|]. intros s3 H3. split; [reflexivity|]. split; [reflexivity|]. exact (sr_same _ _ _ _ _ HSR s3 z p Hpr H3 Hz Hpos).
  - cbn [pstep srun]. apply wp_bind. unfold sclear. apply wp_bind, wp_str. rewrite Hz. apply wp_bind. eapply wp_call_safe; [exact Hr| |reflexivity|].
    + unfold RcaMeet.step. cbn [spec_step]. rewrite (live_val _ _ _ Hv). cbn [need]. unfold put. reflexivity.
    + intros s1 H1. apply wp_set_pos. split; [reflexivity|]. split; [reflexivity|].
      eapply (sr_put _ _ _ _ _ [] 0); [exact HSR|unfold W64; lia|exact H1|exact Hz|reflexivity].
Qed.

(** Whole sequences of calls. *)
Theorem sobserve_ok ops : forall s z v p a, SR s z v p a -> sallows (fun o v => memlow (extent o v)) v p ops (sobserve d t ops (s, z)).
Proof.
  induction ops as [|o ops IH]; intros s z v p a H; [constructor|].
  destruct (sr_val _ _ _ _ _ _ _ _ H) as (r & Hv). destruct (capacity_ge s a x r _ (sr_reached _ _ _ _ _ _ _ _ H) Hv) as (c & Hc & Hge & _). rewrite zlen_map in Hge.
  pose proof (srun_ok o s z a v p c H Hc Hge) as K. cbn [sobserve].
  assert (saw o (s, z) = seen o c) as ->.
  { unfold saw, seen. destruct o; try reflexivity. unfold scapacity, bind, str, str_call. destruct z as [x' p' b']. pose proof (sr_str _ _ _ _ _ _ _ _ H) as Ez. cbn in *. subst x'. rewrite Hc. reflexivity. }
  assert (Hno : forall v' p', fail_ok o v p v' p' -> seen o c = []) by (intros v' p'; destruct o; cbn [fail_ok seen]; (contradiction || reflexivity)).
  unfold wp in K. destruct (pstep c o v p) as [[v' p' ro|]|] eqn:E.
  - destruct (srun d t o (s, z)) as [r' [s' z']|e [s' z']| | |u]; try contradiction.
    + destruct K as (-> & _ & a' & H' & _). eapply sa_ret; [exact Hge|exact E|]. eapply IH, H'.
    + destruct K as (-> & Hm & _ & v1 & p1 & a' & Hf & H' & _). rewrite (Hno _ _ Hf). cbn [app]. eapply sa_oom; [exact Hm|exact Hf|]. eapply IH, H'.
  - destruct (srun d t o (s, z)) as [r' [s' z']|e [s' z']| | |u]; try contradiction. destruct K as [(-> & _ & a' & H' & _)|(-> & Hm & _ & v1 & p1 & a' & Hf & H' & _)].
    + eapply sa_range; [exact Hge|exact E|]. eapply IH, H'.
    + rewrite (Hno _ _ Hf). cbn [app]. eapply sa_oom; [exact Hm|exact Hf|]. eapply IH, H'.
  - eapply sa_misuse; [exact Hge|exact E].
Qed.

(** Reading everything. *)
Lemma read_all_ok g : reads g -> forall fuel s z a v p,
  SR s z v p a -> zlen v < W31 -> p <= zlen v -> zlen v - p < Z.of_nat fuel ->
  wp (read_all d t fuel g)
    (fun ls '(s', z') => pieces (get_size g) (get_delim g) (zdrop p v) ls /\ s_load z' = s_load z /\ exists a', SR s' z' v (zlen v) a' /\ keeps a a')
    (fun e '(s', z') => e = BadAlloc /\ memlow (zlen v + 3) /\ s_load z' = s_load z /\ exists p' a', SR s' z' v p' a' /\ keeps a a' /\ p <= p' <= zlen v) (s, z).
Proof.
  intros Hg. induction fuel as [|fuel IH]; intros s z a v p H Hl Hp Hf; [lia|].
  pose proof H as [Hz Hpos Hpr Hr [rx Hv] Ht]. pose proof (zlen_nonneg v).
  cbn [read_all]. apply wp_bind, wp_tell. rewrite Hpos. apply wp_bind. unfold slength. apply wp_bind, wp_str. rewrite Hz. eapply wp_length; [exact Hr|exact Hv|]. rewrite zlen_map.
  destruct (Z.ltb_spec p (zlen v)) as [Hlt|Hge].
  2:{ apply wp_ret. assert (p = zlen v) as -> by lia. rewrite zdrop_all by lia. split; [constructor|]. split; [reflexivity|]. exists a. split; [exact H|apply keeps_refl]. }
  destruct (capacity_ge s a x rx _ Hr Hv) as (c & Hc & Hge & _). rewrite zlen_map in Hge.
  pose proof (srun_ok g s z a v p c H Hc Hge) as K.
  set (l := piece (get_size g (zlen (zdrop p v))) (get_delim g) (zdrop p v)).
  assert (Hsz : zlen (zdrop p v) = zlen v - p) by (zls; lia).
  assert (Hne : zdrop p v <> []). { intros E. rewrite E in Hsz. change (zlen (@nil Z)) with 0 in Hsz. lia. }
  assert (E : pstep c g v p = Some (PRet v (p + zlen l) (RBytes l))).
  { destruct g; cbn [reads] in Hg; try contradiction; cbn [pstep]; unfold small, l; cbn [get_size get_delim]; rewrite ?Hsz.
    - assert ((0 <=? zlen v) && (zlen v <? W31) && (p <=? zlen v) && (0 <=? n) = true) as -> by lia. reflexivity.
    - assert ((0 <=? zlen v) && (zlen v <? W31) && (p <=? zlen v) && (0 <=? n) = true) as -> by lia. reflexivity. }
  rewrite E in K. apply wp_bind. eapply wp_conseq; [exact K| |].
  - intros r1 [s1 z1] (-> & Hld & a1 & H1 & Hk1). 
    assert (Hgs : 0 < get_size g (zlen (zdrop p v))). { destruct g; cbn [reads] in Hg; try contradiction; cbn [get_size]; [lia|]. destruct (n =? 99999999); lia. }
    pose proof (piece_pos _ (get_delim g) _ Hgs Hne) as Hpos'. fold l in Hpos'. pose proof (piece_len (get_size g (zlen (zdrop p v))) (get_delim g) (zdrop p v) ltac:(lia)) as [Hpl _]. fold l in Hpl.
    apply wp_bind. eapply wp_conseq; [eapply (IH s1 z1 a1 v (p + zlen l)); [exact H1|lia|lia|lia]| |].
    + intros ls [s2 z2] (Hp2 & Hld2 & a2 & H2 & Hk2). apply wp_ret. split; [|split; [congruence|]].
      * apply pc_cons; [exact Hne|]. fold l. rewrite zdrop_zdrop by lia. exact Hp2.
      * exists a2. split; [exact H2|]. intros y Hy. rewrite Hk2, Hk1 by exact Hy. reflexivity.
    + intros e [s2 z2] (-> & Hm & Hld2 & p2 & a2 & H2 & Hk2 & Hp2). split; [reflexivity|]. split; [exact Hm|]. split; [congruence|]. exists p2, a2. split; [exact H2|]. split; [|lia].
      intros y Hy. rewrite Hk2, Hk1 by exact Hy. reflexivity.
  - intros e [s1 z1] (-> & Hm & Hld & v1 & p1 & a1 & Hfo & H1 & Hk1). split; [reflexivity|].
    pose proof (zlen_nonneg l).
    assert (Hx : zlen (zdrop p v) <= zlen v) by lia. 
    assert (v1 = v /\ p <= p1 <= p + zlen l) as (-> & Hp1).
    { destruct g; cbn [reads] in Hg; try contradiction; cbn [fail_ok] in Hfo; unfold l; cbn [get_size get_delim]; try exact Hfo; rewrite Hsz; exact Hfo. }
    split; [destruct g; cbn [reads] in Hg; try contradiction; unfold extent in Hm; replace (zlen v + 3) with (zlen v + 0 + 3) by lia; exact Hm|]. split; [exact Hld|].
    exists p1, a1. split; [exact H1|]. split; [exact Hk1|].
    assert (0 <= get_size g (zlen (zdrop p v))). { destruct g; cbn [reads] in Hg; try contradiction; cbn [get_size]; [lia|]. destruct (n =? 99999999); lia. }
    pose proof (piece_len (get_size g (zlen (zdrop p v))) (get_delim g) (zdrop p v) ltac:(lia)) as [Hpl _]. fold l in Hpl. lia.
Qed.

(** Files. *)
Lemma cleared_unshared s s' v : exec d (Clear x) s = Ok v s' -> is_shared x s' = Ok false s'.
Proof.
  cbn [exec]. unfold unit_, clear. unfold bind at 1 2. destruct (is_shared x s) as [sh s1|? ?| | |?] eqn:E; try discriminate.
  assert (s1 = s) as ->.
  { unfold is_shared, bind, get_obj, get_cell, ret in E. destruct (st_env s !! x) as [o|]; [|discriminate]. destruct (o_ref o) as [l|]; [|congruence]. destruct (st_heap s !! l); congruence. }
  destruct sh.
  - unfold do_detach, bind, get_obj. destruct (st_env s !! x) as [o|] eqn:Ex; [|discriminate]. destruct (dec_ref (o_ref o) s) as [n s1|? ?| | |?]; try discriminate.
    unfold set_obj. destruct (st_env s1 !! x) eqn:Ex1; try discriminate.
    all: intros [= <- <-]; unfold is_shared, bind, get_obj; cbn; rewrite lookup_insert; reflexivity.
  - unfold bind, get_obj. destruct (st_env s !! x) as [o|] eqn:Ex; [|discriminate]. unfold set_obj. cbn. intros [= <- <-].
    unfold is_shared, bind, get_obj in *. cbn. rewrite Ex in E. rewrite lookup_insert. cbn. destruct (o_ref o) as [l|]; [|reflexivity].
    unfold get_cell in *. cbn. destruct (st_heap s !! l) as [c|]; [|discriminate]. unfold ret in *. congruence.
Qed.
Lemma wp_reserve s z a r v n (P : unit -> _ -> Prop) (Q : exn -> _ -> Prop) :
  reached s a -> a !! x = Some (AVal r v) -> is_shared x s = Ok false s -> zlen v <= n < npos ->
  (forall s', reached s' a -> P tt (s', z)) -> (forall s', no_memory d (n + 1) -> reached s' a -> Q BadAlloc (s', z)) ->
  wp (str_call (v_reserve d x n (fun z => z))) P Q (s, z).
Proof.
  intros H Hx Hsh Hn HP HQ. pose proof (zlen_nonneg v).
  assert (Hs : step (ReserveIfOwn x n) a = Some (SRet a ONone)).
  { unfold RcaMeet.step. cbn [spec_step]. rewrite (holds_val _ _ _ _ Hx).
    assert (size_ok (d_nul d) n && (zlen v <=? n) = true) as -> by (unfold size_ok, in_u64, npos, W64 in *; lia). reflexivity. }
  assert (Hc : wp (call d (ReserveIfOwn x n)) P Q (s, z)).
  { eapply wp_call; [exact H|exact Hs|discriminate|exact HP|]. intros s' y a'' [= <-] Hm Hr Ha. destruct Ha as [->|[[=] _]]. apply HQ; assumption. }
  unfold wp, call, bind, str_call in *. cbn [exec] in Hc. unfold unit_, reserve_if_own, bind in Hc. rewrite Hsh in Hc.
  destruct (v_reserve d x n (fun z => z) s) as [[] s'|? ?| | |?]; exact Hc.
Qed.
Lemma seek0 s z a v p (P : Z -> _ -> Prop) Q :
  SR s z v p a -> P 0 (s, Stream x 0 (s_load z)) -> wp (seek 0 0) P Q (s, z).
Proof.
  intros [Hz Hpos Hpr Hr [r Hv] Ht] HP. destruct (capacity_ge s a x r _ Hr Hv) as (c & Hc & Hge & _). pose proof (zlen_nonneg (map (@Some Z) v)).
  unfold seek. apply wp_bind, wp_tell, wp_bind. unfold scapacity. apply wp_bind, wp_str. rewrite Hz. unfold wp at 1, str_call. rewrite Hc.
  apply wp_bind, wp_set_pos, wp_ret. cbn [Z.eqb Z.ltb Z.compare]. destruct (Z.ltb_spec c 0); [lia|]. rewrite Hz. exact HP.
Qed.

Variable fails : scall -> bool.
Notation load_fails := (load_fails fails).
Notation write_fails := (write_fails fails).
Lemma load_ok s z a v p f : SR s z v p a -> zlen f < W63 ->
  wp (load_fd d fails t f)
    (fun r '(s', z') => if load_fails f then r = 1 /\ s_load z' = s_load z /\ exists a', SR s' z' [] 0 a' /\ keeps a a'
                        else r = 0 /\ s_load z' = false /\ exists a', SR s' z' f 0 a' /\ keeps a a')
    (fun e '(s', z') => e = BadAlloc /\ memlow (2 * zlen f + 2048) /\ exists a', SR s' z' [] 0 a' /\ keeps a a') (s, z).
Proof.
  intros HSR Hf. pose proof HSR as [Hz Hpos Hpr Hr [rx Hv] Ht]. pose proof (zlen_nonneg f). unfold load_fd.
  assert (Hs : step (Clear x) a = Some (SRet (<[x := AVal true (map Some [])]> a) ONone)).
  { unfold RcaMeet.step. cbn [spec_step]. rewrite (live_val _ _ _ Hv). reflexivity. }
  destruct (step_returns d (Clear x) s a _ ONone Hwf Hr Hs eq_refl) as (s1 & E1 & H1 & _); [discriminate|].
  pose proof (cleared_unshared _ _ _ E1) as Hsh.
  apply wp_bind. unfold sclear. apply wp_bind, wp_str. rewrite Hz. apply wp_bind. unfold wp at 1, call, bind, str_call. rewrite E1. unfold ret at 1. apply wp_set_pos.
  rewrite Hz. set (z1 := Stream x 0 (s_load z)). set (a1 := <[x := AVal true (map Some [])]> a) in *.
  assert (Hx1 : a1 !! x = Some (AVal true (map Some []))) by apply lookup_insert.
  assert (Ht1 : a1 !! t = None) by (unfold a1; rewrite lookup_insert_ne by congruence; exact Ht).
  assert (Hemp : forall s' b, reached s' a1 -> exists a', SR s' (Stream x 0 b) [] 0 a' /\ keeps a a').
  { intros s' b H'. exists a1. split; [split; try reflexivity; [unfold W64; lia|exact H'|eauto|exact Ht1]|]. intros y Hy. apply lookup_insert_ne. congruence. }
  unfold load_fails. destruct (fails Lseek); cbn [orb].
  { apply wp_ret. split; [reflexivity|]. split; [reflexivity|]. apply Hemp, H1. }
  (* reserve *)
  apply wp_bind. unfold sreserve. apply wp_bind. unfold scapacity. apply wp_bind, wp_str. change (s_str z1) with x.
  destruct (capacity_ge s1 a1 x _ _ H1 Hx1) as (c & Hc & Hge & _). unfold wp at 1, str_call. rewrite Hc.
  assert (K : forall s2, reached s2 a1 ->
   wp (if fails MmapRead || (zlen f =? 0) then ret 1 else
        set_loading true ;;; call d (CtorCstrLen t f (zlen f)) ;;; with_local d t (puts d true t) ;;; call d (Destroy t) ;;;
        let* _ := seek 0 0 in set_loading false ;;; ret 0)
    (fun r '(s', z') => if fails MmapRead || (zlen f =? 0) then r = 1 /\ s_load z' = s_load z /\ exists a', SR s' z' [] 0 a' /\ keeps a a'
                        else r = 0 /\ s_load z' = false /\ exists a', SR s' z' f 0 a' /\ keeps a a')
    (fun e '(s', z') => e = BadAlloc /\ memlow (2 * zlen f + 2048) /\ exists a', SR s' z' [] 0 a' /\ keeps a a') (s2, z1)).
  { intros s2 H2. destruct (fails MmapRead || (zlen f =? 0)).
    { apply wp_ret. split; [reflexivity|]. split; [reflexivity|]. apply Hemp, H2. }
    apply wp_bind, wp_set_loading. change (s_str z1) with x. change (s_pos z1) with 0.
    apply wp_bind. eapply wp_call; [exact H2| |discriminate| |].
    - unfold RcaMeet.step. cbn [spec_step]. rewrite (fresh_val _ _ Ht1), Hnul. unfold is_string.
      assert (true && true && (0 <=? zlen f) && (zlen f <? npos) && (zlen f <=? zlen f) = true) as -> by (unfold npos, W63 in *; lia). cbn [need]. rewrite ztake_all by lia. reflexivity.
    - intros s3 H3. apply wp_bind, wp_local.
      eapply (puts_ok true s3 _ _ true true [] f 0); [reflexivity|reflexivity|exact H3|rewrite lookup_insert_ne by congruence; exact Hx1|apply lookup_insert|change (zlen (@nil Z)) with 0; lia| |].
      + intros s4 a4 H4 (r4 & Hx4) (av & Ht4) Hk4. apply wp_bind. eapply wp_destroy; [exact H4|exact Ht4|]. intros s5 H5. cbn [s_load].
        assert (Ho : over [] 0 f = f). { unfold over. rewrite (ztake_0 0), zdrop_all, app_nil_r by (change (zlen (@nil Z)) with 0; lia). reflexivity. }
        rewrite Ho in Hx4.
        assert (Hmy : exists a', SR s5 (Stream x (0 + zlen f) true) f (0 + zlen f) a' /\ keeps a a' /\ a' = delete t a4).
        { exists (delete t a4). split; [|split; [|reflexivity]].
          - split; try reflexivity; [unfold W64, W63 in *; lia|exact H5|exists r4; rewrite lookup_delete_ne by congruence; exact Hx4|apply lookup_delete].
          - intros y Hy. destruct (Pos.eq_dec y t) as [->|Hyt]; [rewrite lookup_delete; congruence|].
            rewrite lookup_delete_ne, Hk4, lookup_insert_ne by congruence. apply lookup_insert_ne. congruence. }
        destruct Hmy as (a5 & Hsr & Hk5 & _). apply wp_bind. eapply seek0; [exact Hsr|]. apply wp_bind, wp_set_loading, wp_ret. cbn [s_str s_pos].
        split; [reflexivity|]. split; [reflexivity|]. exists a5. split; [|exact Hk5]. destruct Hsr as [_ _ _ Q4 Q5 Q6]. split; try reflexivity; try assumption. unfold W64; lia.
      + intros s4 a4 Hm H4 Ha4. assert (Hlt : exists av, a4 !! t = Some av).
        { destruct Ha4 as [->| ->]; [|rewrite lookup_insert_ne by congruence]; rewrite lookup_insert; eauto. }
        destruct Hlt as (av & Ht4). eapply wp_destroy; [exact H4|exact Ht4|]. intros s5 H5.
        assert (Ed : delete t a4 = a1).
        { destruct Ha4 as [->| ->]; [apply delete_insert; exact Ht1|]. rewrite delete_insert_ne, delete_insert by (try congruence; exact Ht1). unfold a1. rewrite insert_insert. reflexivity. }
        rewrite Ed in H5. split; [reflexivity|]. split; [|apply Hemp, H5]. destruct Hm as (n & Hn & Hm). exists n. split; [|exact Hm]. change (zlen (@nil Z)) with 0 in Hn. lia.
    - intros s3 y a3 [= <-] Hm H3 Ha3. destruct Ha3 as [->|[[=] _]]. split; [reflexivity|]. split; [|apply Hemp, H3].
      eapply memlow_le; [|exact Hm]. cbn [asks]. unfold vlen. rewrite lookup_insert, zlen_map. lia. }
  destruct (Z.ltb_spec (zlen f) c).
  - apply wp_ret. apply K, H1.
  - apply wp_bind, wp_str. change (s_str z1) with x.
    assert (Hu : u64 (1024 * (u64 (zlen f + 1024 - 1) / 1024)) = 1024 * ((zlen f + 1023) / 1024) /\ zlen f <= 1024 * ((zlen f + 1023) / 1024) <= zlen f + 1023).
    { rewrite (u64_id (zlen f + 1024 - 1)) by (unfold W64, W63 in *; lia). replace (zlen f + 1024 - 1) with (zlen f + 1023) by lia.
      pose proof (Z.div_mod (zlen f + 1023) 1024 ltac:(lia)). pose proof (Z.mod_pos_bound (zlen f + 1023) 1024 ltac:(lia)).
      rewrite u64_id by (unfold W64, W63 in *; lia). lia. }
    destruct Hu as (-> & Hu). eapply wp_reserve; [exact H1|exact Hx1|exact Hsh|change (zlen (map (@Some Z) [])) with 0; unfold npos, W63 in *; lia|exact K|].
    intros s2 Hm H2. split; [reflexivity|]. split; [|apply Hemp, H2]. eapply memlow_le; [|exact Hm]. lia.
Qed.

Lemma write_ok s z a v p f : SR s z v p a ->
  exists f', write_fd fails f (s, z) = Ok (if write_fails v then 1 else 0, f') (s, z) /\ (write_fails v = false -> f' = v).
Proof.
  clear Htx Hnul. intros [Hz Hpos Hpr Hr [r Hv] Ht]. destruct (reached_shows d s a Hwf Hr x r _ Hv) as [Hl _]. rewrite zlen_map in Hl.
  unfold write_fd, slength, bind at 1 2, str at 1. rewrite Hz. unfold str_call at 1. rewrite Hl. unfold write_fails.
  destruct (fails Ftruncate); cbn [orb].
  { exists f. split; [reflexivity|discriminate]. }
  destruct (Z.eqb_spec (zlen v) 0) as [E|E]; cbn [negb andb].
  { eexists. split; [reflexivity|]. intros _. apply zlen_0_nil in E. subst v. unfold ftrunc. change (zlen (@nil Z)) with 0. rewrite (ztake_0 0) by lia.
    unfold zrep. pose proof (zlen_nonneg f). replace (Z.to_nat (0 - zlen f)) with 0%nat by lia. reflexivity. }
  destruct (fails MmapWrite); cbn [orb].
  { eexists. split; [reflexivity|discriminate]. }
  unfold bind, str at 1. rewrite Hz. unfold str_call. rewrite (load_bytes s a x r v Hr Hv). rewrite bytes_some. eexists. split; [reflexivity|reflexivity].
Qed.

Lemma no_throw o s z a v p e st' : SR s z v p a -> p <= zlen v -> zlen v < W31 ->
  (match o with SPuts _ w => zlen w < npos | SSeek _ _ => False | SRead n _ | SGetline n => 0 <= n | _ => True end) ->
  srun d t o (s, z) = Exn e st' -> e = BadAlloc /\ memlow (extent o v).
Proof.
  intros H Hp Hl Ho E. destruct (sr_val _ _ _ _ _ _ _ _ H) as (r & Hv). destruct (capacity_ge s a x r _ (sr_reached _ _ _ _ _ _ _ _ H) Hv) as (c & Hc & Hge & _).
  rewrite zlen_map in Hge. pose proof (srun_ok o s z a v p c H Hc Hge) as K. pose proof (sr_range _ _ _ _ _ _ _ _ H). pose proof (zlen_nonneg v).
  assert (Hs : exists v' p' ro, pstep c o v p = Some (PRet v' p' ro)).
  { destruct o; cbn [pstep]; unfold small; try contradiction.
    - destruct (Z.ltb_spec (zlen w) npos); [|lia]. destruct (Z.ltb_spec (zlen v) p); [lia|]. eauto.
    - eauto.
    - eauto.
    - assert ((0 <=? zlen v) && (zlen v <? W31) && (p <? W63 - W31) = true) as -> by (unfold W31, W63 in *; lia). eauto.
    - assert ((0 <=? zlen v) && (zlen v <? W31) && (p <? W63 - W31) = true) as -> by (unfold W31, W63 in *; lia). eauto.
    - assert ((0 <=? zlen v) && (zlen v <? W31) && (p <=? zlen v) && (0 <=? n) = true) as -> by lia. eauto.
    - assert ((0 <=? zlen v) && (zlen v <? W31) && (p <=? zlen v) && (0 <=? n) = true) as -> by lia. eauto.
    - eauto.
    - eauto. }
  destruct Hs as (v' & p' & ro & Hs). rewrite Hs in K. unfold wp in K. rewrite E in K. destruct st' as [s' z']. destruct K as (-> & Hm & _). split; [reflexivity|exact Hm].
Qed.
Lemma read_partition g : reads g -> forall s z a v p, SR s z v p a -> zlen v < W31 -> p <= zlen v ->
  wp (read_all d t (S (length v)) g)
    (fun ls '(s', z') => concat ls = zdrop p v /\ pieces (get_size g) (get_delim g) (zdrop p v) ls /\ exists a', SR s' z' v (zlen v) a' /\ keeps a a')
    (fun e '(s', z') => e = BadAlloc /\ memlow (zlen v + 3) /\ exists p' a', SR s' z' v p' a' /\ keeps a a' /\ p <= p' <= zlen v) (s, z).
Proof.
  intros Hg s z a v p H Hl Hp. pose proof (sr_range _ _ _ _ _ _ _ _ H). eapply wp_conseq; [eapply (read_all_ok g Hg); [exact H|exact Hl|exact Hp|unfold zlen; lia]| |].
  - intros ls [s' z'] (Hpc & _ & H'). split; [exact (pieces_concat _ _ _ _ Hpc)|]. split; [exact Hpc|exact H'].
  - intros e [s' z'] (He & Hm & _ & H'). auto.
Qed.
Lemma read_lines s z a v p : SR s z v p a -> zlen v < W31 -> p <= zlen v ->
  wp (read_all d t (S (length v)) (SGetline 99999999))
    (fun ls '(s', z') => ls = split_lines (zdrop p v) /\ exists a', SR s' z' v (zlen v) a' /\ keeps a a')
    (fun e '(s', z') => e = BadAlloc /\ memlow (zlen v + 3) /\ exists p' a', SR s' z' v p' a' /\ keeps a a' /\ p <= p' <= zlen v) (s, z).
Proof.
  intros H Hl Hp. eapply wp_conseq; [eapply (read_partition (SGetline 99999999)); [reflexivity|exact H|exact Hl|exact Hp]| |].
  - intros ls [s' z'] (_ & Hpc & H'). split; [|exact H']. apply pieces_lines. exact Hpc.
  - intros e [s' z'] He. exact He.
Qed.
Lemma stream_new s a : reached s a -> a !! x = None -> a !! t = None ->
  (exists s', exec d (CtorDefault x) s = Ok ONone s' /\ SR s' (Stream x 0 false) [] 0 (<[x := AVal true []]> a)) /\
  (forall y r w, a !! y = Some (AVal r (map Some w)) ->
     exists s', exec d (CtorCopy x y) s = Ok ONone s' /\ SR s' (Stream x 0 false) w 0 (<[x := AVal r (map Some w)]> a)).
Proof.
  intros H Hx Ht. split.
  - assert (Hs : step (CtorDefault x) a = Some (SRet (<[x := AVal true []]> a) ONone)) by (unfold RcaMeet.step; cbn [spec_step]; rewrite (fresh_val _ _ Hx); reflexivity).
    destruct (step_returns d _ s a _ ONone Hwf H Hs eq_refl) as (s1 & E1 & H1 & _); [discriminate|]. exists s1. split; [exact E1|].
    split; try reflexivity; [unfold W64; lia|exact H1|exists true; apply lookup_insert|rewrite lookup_insert_ne by congruence; exact Ht].
  - intros y r w Hy. assert (Hs : step (CtorCopy x y) a = Some (SRet (<[x := AVal r (map Some w)]> a) ONone)) by (unfold RcaMeet.step; cbn [spec_step]; rewrite (holds_val _ _ _ _ Hy), (fresh_val _ _ Hx); reflexivity).
    destruct (step_returns d _ s a _ ONone Hwf H Hs eq_refl) as (s1 & E1 & H1 & _); [discriminate|]. exists s1. split; [exact E1|].
    split; try reflexivity; [unfold W64; lia|exact H1|exists r; apply lookup_insert|rewrite lookup_insert_ne by congruence; exact Ht].
Qed.
End Proof.

Lemma split_lines_concat l : concat (split_lines l) = l.
Proof.
  induction l as [|c l IH]; [reflexivity|]. cbn [split_lines]. destruct (c =? 10); [cbn [concat app]; rewrite IH; reflexivity|].
  destruct (split_lines l) as [|m ms]; cbn [concat app] in *; rewrite IH; reflexivity.
Qed.
Lemma split_lines_are l : concat (split_lines l) = l /\
  forall ls1 m ls2, split_lines l = ls1 ++ m :: ls2 -> m <> [] /\ (exists b, (m = b \/ m = b ++ [10]) /\ ~ In 10 b) /\ (ls2 <> [] -> exists b, m = b ++ [10]).
Proof.
  split; [apply split_lines_concat|]. induction l as [|c l IH]; intros ls1 m ls2; cbn [split_lines].
  { destruct ls1; discriminate. }
  destruct (Z.eqb_spec c 10) as [->|Hc].
  { destruct ls1 as [|l1 ls1]; cbn [app].
    - intros [= <- <-]. split; [discriminate|]. split; [|intros _; exists []; reflexivity]. exists []. split; [right; reflexivity|]. exact (fun I => I).
    - intros [= _ E]. exact (IH ls1 m ls2 E). }
  destruct (split_lines l) as [|m1 ms] eqn:E.
  { destruct ls1 as [|l1 ls1]; cbn [app].
    - intros [= <- <-]. split; [discriminate|]. split; [|congruence]. exists [c]. split; [left; reflexivity|]. intros [I|[]]. congruence.
    - intros [= _ E']. destruct ls1; discriminate. }
  destruct ls1 as [|l1 ls1]; cbn [app].
  - intros [= <- <-]. destruct (IH [] m1 ms eq_refl) as (H1 & (b & Hb & Hn) & H2). split; [discriminate|]. split.
    + exists (c :: b). split; [destruct Hb as [->| ->]; auto|]. intros [I|I]; auto.
    + intros Hne. destruct (H2 Hne) as (b' & ->). exists (c :: b'). reflexivity.
  - intros [= _ E']. apply (IH (m1 :: ls1) m ls2). rewrite E'. reflexivity.
Qed.
Lemma first_at_split c l : match first_at c l with Some i => exists b r, l = b ++ c :: r /\ ~ In c b /\ zlen b = i | None => ~ In c l end.
Proof.
  induction l as [|b l IH]; cbn [first_at]; [exact (fun I => I)|]. destruct (Z.eqb_spec b c) as [->|Hb].
  - exists [], l. split; [reflexivity|]. split; [exact (fun I => I)|reflexivity].
  - destruct (first_at c l) as [i|]; cbn [option_map].
    + destruct IH as (b' & r & -> & Hn & Hi). exists (b :: b'), r. split; [reflexivity|]. split; [intros [I|I]; auto|]. rewrite zlen_cons. lia.
    + intros [I|I]; auto.
Qed.
Lemma piece_is n c rest : 0 < n -> rest <> [] ->
  let l := piece n c rest in
  l <> [] /\ (exists rest', rest = l ++ rest') /\ zlen l <= n + 1 /\ (c = 0 -> zlen l = Z.min n (zlen rest)) /\
  (c <> 0 -> exists b, ~ In c b /\ zlen b <= n /\ (l = b \/ l = b ++ [c]) /\ (l = b -> zlen b = Z.min n (zlen rest))).
Proof.
  intros Hn Hr l. pose proof (piece_pos n c rest Hn Hr) as Hp. fold l in Hp. split; [intros E; rewrite E in Hp; exact (Z.lt_irrefl 0 Hp)|].
  split; [eexists; symmetry; apply piece_prefix|]. destruct (piece_len n c rest ltac:(lia)) as [_ Hl]. split; [exact Hl|].
  split; [intros ->; unfold l, piece; cbn [Z.eqb]; rewrite zlen_ztake; pose proof (zlen_nonneg rest); lia|].
  intros Hc. unfold l, piece. destruct (Z.eqb_spec c 0); [contradiction|]. pose proof (first_at_split c rest) as Hs. destruct (first_at c rest) as [i|] eqn:Ei.
  - destruct Hs as (b & r & -> & Hb & <-). pose proof (zlen_nonneg b). destruct (Z.leb_spec (zlen b) n).
    + exists b. split; [exact Hb|]. split; [lia|]. assert (ztake (zlen b + 1) (b ++ c :: r) = b ++ [c]) as ->.
      { replace (b ++ c :: r) with ((b ++ [c]) ++ r) by (rewrite <- app_assoc; reflexivity). replace (zlen b + 1) with (zlen (b ++ [c])) by (zls; change (zlen (@nil Z)) with 0; lia). apply ztake_app_exact. }
      split; [right; reflexivity|]. intros E. apply (f_equal zlen) in E. rewrite zlen_app, zlen_cons in E. change (zlen (@nil Z)) with 0 in E. lia.
    + assert (ztake n (b ++ c :: r) = ztake n b) as -> by (rewrite ztake_app, (ztake_0 (n - zlen b)), app_nil_r by lia; reflexivity).
      exists (ztake n b). split; [intros I; apply Hb; rewrite <- (ztake_zdrop n b); apply in_or_app; left; exact I|]. split; [zls; lia|]. split; [left; reflexivity|].
      intros _. rewrite zlen_app, zlen_cons. pose proof (zlen_nonneg r). zls; lia.
  - exists (ztake n rest). split; [intros I; apply Hs; rewrite <- (ztake_zdrop n rest); apply in_or_app; left; exact I|]. pose proof (zlen_nonneg rest). split; [zls; lia|]. split; [left; reflexivity|]. intros _. zls; lia.
Qed.

Lemma roundtrip d : wf_desc d -> d_nul d = Some 0 -> forall x t x' t', t' <> x' ->
  forall s z a v p old s2 z2 a2 v2 p2, SR d x t s z v p a -> v <> [] -> SR d x' t' s2 z2 v2 p2 a2 ->
  exists f, write_name (fun _ => false) old (s, z) = Ok (0, f) (s, z) /\
  wp (load_name d (fun _ => false) t' f)
    (fun r '(s', z') => r = 0 /\ exists a', SR d x' t' s' z' v 0 a' /\ keeps x' a2 a')
    (fun e '(s', z') => e = BadAlloc /\ memlow d (2 * zlen v + 2048)) (s2, z2).
Proof.
  intros Hwf Hnul x t x' t' Htx s z a v p old s2 z2 a2 v2 p2 H Hv H2.
  destruct (write_ok d Hwf x t (fun _ => false) s z a v p [] H) as (f' & E & Hf).
  assert (Hw : write_fails (fun _ => false) v = false) by (unfold write_fails; cbn; apply andb_false_r). rewrite Hw in E. specialize (Hf Hw). subst f'.
  exists (Some v). split.
  - unfold write_name. unfold bind. rewrite E. reflexivity.
  - assert (zlen v < W63).
    { destruct (sr_val _ _ _ _ _ _ _ _ H) as (r & Hx). pose proof (reached_len d s a x r _ Hwf (sr_reached _ _ _ _ _ _ _ _ H) Hx) as K. rewrite zlen_map in K. unfold W63, max_alloc in *. lia. }
    cbn [load_name]. eapply wp_conseq; [eapply (load_ok d Hwf Hnul x' t' Htx (fun _ => false)); [exact H2|assumption]| |].
    + intros r [s' z']. unfold load_fails. cbn [orb]. destruct (Z.eqb_spec (zlen v) 0) as [E0|_]; [apply zlen_0_nil in E0; contradiction|]. intros (-> & _ & Ha). auto.
    + intros e [s' z'] (-> & Hm & _). auto.
Qed.
(** By name. *)
Lemma load_name_ok d : wf_desc d -> d_nul d = Some 0 -> forall x t, t <> x ->
  forall fails s z a v p file, SR d x t s z v p a -> match file with Some f => zlen f < W63 | None => True end ->
  wp (load_name d fails t file)
    (fun r '(s', z') =>
       match file with
       | Some f =>
         if fails OpenRead then r = 1 /\ s' = s /\ z' = z
         else if load_fails fails f then r = 1 /\ s_load z' = s_load z /\ exists a', SR d x t s' z' [] 0 a' /\ keeps x a a'
         else r = 0 /\ s_load z' = false /\ exists a', SR d x t s' z' f 0 a' /\ keeps x a a'
       | None => r = 1 /\ s' = s /\ z' = z
       end)
    (fun e '(s', z') => e = BadAlloc /\ (exists f, file = Some f /\ memlow d (2 * zlen f + 2048)) /\ exists a', SR d x t s' z' [] 0 a' /\ keeps x a a') (s, z).
Proof.
  intros Hwf Hnul x t Htx fails s z a v p [f|] H Hf; cbn [load_name]; [|repeat split]. destruct (fails OpenRead); [repeat split|].
  eapply wp_conseq; [apply (load_ok d Hwf Hnul x t Htx fails s z a v p f H Hf)| |].
  - intros r (s', z') K. exact K.
  - intros e (s', z') (-> & M & K). split; [reflexivity|]. split; [exists f; auto|exact K].
Qed.
Lemma write_name_ok d : wf_desc d -> forall x t fails s z a v p file, SR d x t s z v p a ->
  exists file', write_name fails file (s, z) = Ok (if fails OpenWrite || write_fails fails v then 1 else 0, file') (s, z) /\
    if fails OpenWrite then file' = file else exists f, file' = Some f /\ (write_fails fails v = false -> f = v).
Proof.
  intros Hwf x t fails s z a v p file H. unfold write_name. destruct (fails OpenWrite); cbn [orb]; [exists file; split; reflexivity|].
  destruct (write_ok d Hwf x t fails s z a v p [] H) as (f & E & K). unfold bind. rewrite E. cbn [fst snd]. exists (Some f). split; [reflexivity|]. eauto.
Qed.
