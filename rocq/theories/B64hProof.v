(** Proofs about B64hModel.v. *)
From Coq Require Import ZifyBool.
From Verif Require Import RcaSpec RcaModel RcaExec RcaInv RcaOwn RcaRel RcaMeet RcaReach StrSpec StrModel StrAlg AlgModel AlgMeet AlgRules HsProof ExpProof B64Model B64Spec B64Proof B64hModel B64hMeet.
Open Scope Z_scope.

(** Reading more memory does not change what works with less. *)
Definition mono {S A} (m m' : M S A) : Prop := forall s v s', m s = Ok v s' -> m' s = Ok v s'.
Lemma mono_refl {S A} (m : M S A) : mono m m. Proof. intros s v s' H. exact H. Qed.
Lemma mono_bind {S A B} (m m' : M S A) (f f' : A -> M S B) : mono m m' -> (forall v, mono (f v) (f' v)) -> mono (let* v := m in f v) (let* v := m' in f' v).
Proof. intros H Hf s v s' E. unfold bind in *. destruct (m s) as [w s1| | | |] eqn:E1; try discriminate. rewrite (H _ _ _ E1). apply Hf, E. Qed.
Lemma mono_rdm l k i : mono (rdm l i) (rdm (l ++ k) i).
Proof.
  intros s v s' E. unfold rdm in *. destruct (znth i l) as [c|] eqn:Ez; [|discriminate]. rewrite znth_app. pose proof (znth_inv _ _ _ Ez). replace (i <? zlen l) with true by lia. rewrite Ez. exact E.
Qed.
Ltac mn := repeat first [apply mono_refl | apply mono_rdm | apply mono_bind; [|intros ?] | match goal with |- mono (if ?b then _ else _) _ => destruct b end | progress cbv zeta].
Lemma mono_enc_loop k cs fuel : forall data di len bi, mono (enc_loop fuel data cs di len bi) (enc_loop fuel (data ++ k) cs di len bi).
Proof. induction fuel as [|f IH]; intros; cbn [enc_loop]; mn. apply IH. Qed.
Lemma mono_enc k cs fuel data len : mono (b64enc_buf fuel data len cs) (b64enc_buf fuel (data ++ k) len cs).
Proof. unfold b64enc_buf. mn; [apply mono_enc_loop|]. destruct v as [[di l] bi]. mn. Qed.
Lemma mono_dec_loop k idx fuel : forall data di bl bi, mono (dec_loop fuel data idx di bl bi) (dec_loop fuel (data ++ k) idx di bl bi).
Proof. induction fuel as [|f IH]; intros; cbn [dec_loop]; mn; apply IH. Qed.
Lemma mono_on_buffer {A} junk n (m m' : Mb A) : mono m m' -> mono (on_buffer junk n m) (on_buffer junk n m').
Proof. intros H s v s' E. unfold on_buffer in *. destruct (m _) as [w s1| | | |] eqn:E1; try discriminate. rewrite (H _ _ _ E1). exact E. Qed.
Lemma mono_b64enc junk fuel data k len cs : mono (b64enc junk fuel data len cs) (b64enc junk fuel (data ++ k) len cs).
Proof. unfold b64enc. cbv zeta. apply mono_on_buffer, mono_bind; [apply mono_enc|intros; apply mono_refl]. Qed.
Lemma mono_b64dec junk fuel data k len cs : mono (b64dec junk fuel data len cs) (b64dec junk fuel (data ++ k) len cs).
Proof.
  unfold b64dec. cbv zeta. apply mono_bind; [apply mono_refl|]. intros idx. apply mono_on_buffer, mono_bind; [apply mono_dec_loop|intros; apply mono_refl].
Qed.
(** The length given is inside the buffer. *)
Lemma on_buffer_in junk n (m : Mb Z) : forall p, on_buffer junk n (let* k := m in wr k 0 ;;; ret k) tt = Ok p tt -> 0 <= fst p < zlen (snd p).
Proof.
  intros p E. unfold on_buffer, bind in E. destruct (m _) as [k b| | | |]; try discriminate. unfold wr in E. destruct ((0 <=? k) && (k <? zlen b)) eqn:C; [|discriminate].
  cbn in E. injection E as <-. cbn [fst snd]. rewrite zlen_zupd; [lia|lia|]. rewrite zlen_cons, zlen_nil. lia.
Qed.
Lemma enc_in junk fuel data len cs p : b64enc junk fuel data len cs tt = Ok p tt -> 0 <= fst p < zlen (snd p).
Proof. apply on_buffer_in. Qed.
Lemma dec_in junk fuel data len cs p : b64dec junk fuel data len cs tt = Ok p tt -> 0 <= fst p < zlen (snd p).
Proof. unfold b64dec. cbv zeta. fold (index_of cs). unfold bind at 1. destruct (index_of cs tt) as [idx []| | | |]; try discriminate. apply on_buffer_in. Qed.
Lemma taken (m : M unit (Z * chars)) w : (let* r := m in if fst r <=? zlen (snd r) then ret (ztake (fst r) (snd r)) else undef UbBounds) tt = Ok w tt ->
  exists p, m tt = Ok p tt /\ w = ztake (fst p) (snd p).
Proof.
  unfold bind. destruct (m tt) as [p []| | | |]; try discriminate. destruct (fst p <=? zlen (snd p)); [|discriminate]. intros [= <-]. exists p. split; reflexivity.
Qed.
Lemma known_map l k : exists rest, known (map Some l ++ k) = l ++ rest.
Proof. exists (known k). induction l as [|c l IH]; [reflexivity|]. cbn. rewrite IH. reflexivity. Qed.

(** What is decoded does not depend on what was in the buffer. *)
Lemma wr_two i c b1 b2 u b1' : 0 <= i -> zlen b1 = zlen b2 -> ztake i b1 = ztake i b2 -> wr i c b1 = Ok u b1' ->
  exists b2', wr i c b2 = Ok tt b2' /\ zlen b1' = zlen b2' /\ ztake (i + 1) b1' = ztake (i + 1) b2'.
Proof.
  intros Hi L Ht E. assert (0 <= i < zlen b1) as Hr by (unfold wr in E; destruct ((0 <=? i) && (i <? zlen b1)) eqn:C; [lia|discriminate]).
  destruct (wr_ok i c b1 Hr) as (x1 & E1 & L1 & T1). destruct (wr_ok i c b2 ltac:(lia)) as (x2 & E2 & L2 & T2). rewrite E1 in E. injection E as _ <-.
  exists x2. split; [exact E2|]. split; [lia|]. rewrite T1, T2, Ht. reflexivity.
Qed.
Lemma rdm_st l i b v b' : rdm l i b = Ok v b' -> b' = b /\ forall b2, rdm l i b2 = Ok v b2.
Proof. unfold rdm. destruct (znth i l); [|discriminate]. intros [= <- <-]. split; reflexivity. Qed.
Ltac rd E := match type of E with context [rdm ?l ?i] => let R := fresh "R" in destruct (rdm l i _) as [? ?| | | |] eqn:R in E; try discriminate E; apply rdm_st in R; destruct R as [-> R] end.
Lemma dec_junk data idx f : forall di bl bi b1 b2 n b1', 0 <= bi -> zlen b1 = zlen b2 -> ztake bi b1 = ztake bi b2 -> dec_loop f data idx di bl bi b1 = Ok n b1' ->
  exists b2', dec_loop f data idx di bl bi b2 = Ok n b2' /\ zlen b1' = zlen b2' /\ ztake n b1' = ztake n b2'.
Proof.
  induction f as [|f IH]; intros di bl bi b1 b2 n b1' Hb L Ht E; cbn [dec_loop] in *.
  - destruct (bl <=? 0); [|discriminate]. injection E as <- <-. exists b2. auto.
  - destruct (bl <=? 0); [injection E as <- <-; exists b2; auto|].
    unfold bind in E |- *.
    destruct (rdm data di b1) as [d0 ?| | | |] eqn:R0; try discriminate; apply rdm_st in R0; destruct R0 as [-> R0]; rewrite R0.
    destruct (rdm idx d0 b1) as [x0 ?| | | |] eqn:R1; try discriminate; apply rdm_st in R1; destruct R1 as [-> R1]; rewrite R1.
    destruct (rdm data (di + 1) b1) as [d1 ?| | | |] eqn:R2; try discriminate; apply rdm_st in R2; destruct R2 as [-> R2]; rewrite R2.
    destruct (rdm idx d1 b1) as [x1 ?| | | |] eqn:R3; try discriminate; apply rdm_st in R3; destruct R3 as [-> R3]; rewrite R3.
    destruct (wr bi _ b1) as [u1 c1| | | |] eqn:W1; try discriminate. destruct (wr_two _ _ _ b2 _ _ Hb L Ht W1) as (c2 & -> & L1 & T1). clear L Ht W1.
    destruct (rdm data (di + 2) c1) as [d2 ?| | | |] eqn:R4; try discriminate; apply rdm_st in R4; destruct R4 as [-> R4]; rewrite R4.
    destruct (negb (d2 =? 61)); [|apply (IH _ _ _ c1); [lia|exact L1|exact T1|exact E]].
    destruct (rdm idx d2 c1) as [x2 ?| | | |] eqn:R5; try discriminate; apply rdm_st in R5; destruct R5 as [-> R5]; rewrite R5.
    destruct (wr (bi + 1) _ c1) as [u2 e1| | | |] eqn:W2; try discriminate. destruct (wr_two (bi + 1) _ _ c2 _ _ ltac:(lia) L1 T1 W2) as (e2 & -> & L2 & T2). clear L1 T1 W2.
    replace (bi + 1 + 1) with (bi + 2) in T2 by lia.
    destruct (rdm data (di + 3) e1) as [d3 ?| | | |] eqn:R6; try discriminate; apply rdm_st in R6; destruct R6 as [-> R6]; rewrite R6.
    destruct (negb (d3 =? 61)); [|apply (IH _ _ _ e1); [lia|exact L2|exact T2|exact E]].
    destruct (rdm idx d3 e1) as [x3 ?| | | |] eqn:R7; try discriminate; apply rdm_st in R7; destruct R7 as [-> R7]; rewrite R7.
    destruct (wr (bi + 2) _ e1) as [u3 g1| | | |] eqn:W3; try discriminate. destruct (wr_two (bi + 2) _ _ e2 _ _ ltac:(lia) L2 T2 W3) as (g2 & -> & L3 & T3).
    replace (bi + 2 + 1) with (bi + 3) in T3 by lia. apply (IH _ _ _ g1); [lia|exact L3|exact T3|exact E].
Qed.
Lemma decode_junk j1 j2 fuel mem len cs w : base64_decode j1 fuel mem len cs tt = Ok w tt -> base64_decode j2 fuel mem len cs tt = Ok w tt.
Proof.
  intros E. destruct (taken _ _ E) as ([n b] & Ep & Ew). pose proof (dec_in _ _ _ _ _ _ Ep) as Hi. cbn [fst snd] in Hi, Ew. unfold base64_decode.
  unfold b64dec in *. cbv zeta in *. fold (index_of cs) in *. unfold bind at 1 in Ep. unfold bind at 1 2. destruct (index_of cs tt) as [idx []| | | |]; try discriminate.
  unfold on_buffer in *. set (N := u64 (u64 (blocks_of len * 3) + 1)) in *. fold (fresh_buffer j1 N) in Ep. fold (fresh_buffer j2 N).
  assert (0 <= N) as HN by (unfold N, u64; apply Z.mod_pos_bound; reflexivity). pose proof (fresh_len j1 N HN) as F1. pose proof (fresh_len j2 N HN) as F2.
  unfold bind in Ep |- *. destruct (b64dec_buf fuel mem len idx (fresh_buffer j1 N)) as [k b1| | | |] eqn:D; try discriminate.
  destruct (dec_junk mem idx fuel 0 (blocks_of len) 0 (fresh_buffer j1 N) (fresh_buffer j2 N) _ _ ltac:(lia) ltac:(lia) ltac:(rewrite !ztake_0 by lia; reflexivity) D) as (b2 & D2 & L2 & T2).
  unfold b64dec_buf. rewrite D2. destruct (wr k 0 b1) as [u c1| | | |] eqn:W; try discriminate. cbn in Ep. injection Ep as <- <-.
  destruct (wr_two k 0 b1 b2 u c1 ltac:(lia) L2 T2 W) as (c2 & -> & L3 & T3). cbn [ret fst snd]. replace (k <=? zlen c2) with true by lia. unfold ret. f_equal. rewrite Ew.
  transitivity (ztake k (ztake (k + 1) c2)); [unfold ztake; rewrite firstn_firstn; f_equal; lia|]. rewrite <- T3. unfold ztake. rewrite firstn_firstn. f_equal. lia.
Qed.

Section Proof.
Context (d : desc Z) (Hwf : wf_desc d) (Hnul : d_nul d = Some 0).
Implicit Types (s : state Z) (a : astate Z) (x y r t : positive).
Notation reached := (reached d).

Lemma mem_at_is s a x l : reached s a -> is_str a x l -> exists rest, mem_at x s = Ok (l ++ rest) s.
Proof.
  intros H (rx & Hx). pose proof (reached_R d s a Hwf H) as HR. destruct (R_held d _ _ _ _ _ HR Hx) as (o & Hh). destruct Hh as [He Hg Hv _ Hl Ho Hf _].
  unfold mem_at. rewrite (bind_ok _ _ _ _ _ (get_obj_ok _ _ _ He)). unfold view, cap in *. destruct (o_ref o) as [c|] eqn:Er.
  - destruct (inv_ref_live d s x o c (proj1 HR) He Er) as (cc & Hc). rewrite (bind_ok _ _ _ _ _ (get_cell_ok _ _ _ Hc)). rewrite Hc in Hv. apply vle_somes in Hv.
    assert (zdrop (o_off o) (c_buf cc) = map Some l ++ zdrop (o_off o + o_len o) (c_buf cc)) as Ez.
    { rewrite <- Hv. unfold zsub. rewrite <- (ztake_zdrop (o_len o) (zdrop (o_off o) (c_buf cc))) at 1. f_equal. rewrite StrAlg.zdrop_zdrop; [reflexivity| |lia]. rewrite Hl. apply zlen_nonneg. }
    rewrite Ez. destruct (known_map l (zdrop (o_off o + o_len o) (c_buf cc))) as (rest & ->). exists rest. reflexivity.
  - apply vle_len in Hv. rewrite zlen_map, zlen_nil in Hv. destruct l; [|rewrite zlen_cons in Hv; pose proof (zlen_nonneg l); lia]. exists []. reflexivity.
Qed.
Lemma recodes_of work b n s a r x l p : reached s a -> is_str a x l -> a !! r = None -> b = false ->
  (forall rest, mono (work l (zlen l)) (work (l ++ rest) (zlen l))) -> work l (zlen l) tt = Ok p tt -> 0 <= fst p < zlen (snd p) -> fst p < npos ->
  recodes d (no_memory d (fst p + 2)) (recoded d b work r x) n s a r (ztake (fst p) (snd p)).
Proof.
  intros H Hx Hr -> Hm Hw Hp Hn. unfold recodes, recoded. unfold bind, on_heap. cbn [fst snd]. rewrite (length_is d Hwf s a x l H Hx). cbn [fst snd].
  destruct (mem_at_is s a x l H Hx) as (rest & ->). unfold malloced. cbn [fst snd]. unfold pure. rewrite (Hm rest _ _ _ Hw). cbn [fst snd].
  assert (step : RcaMeet.step d (CtorCstrLen r (snd p) (fst p)) a = Some (SRet (<[r := AVal true (map Some (ztake (fst p) (snd p)))]> a) ONone)).
  { unfold RcaMeet.step. cbn [spec_step]. unfold fresh_var, is_string. rewrite Hr, Hnul. replace (0 <=? fst p) with true by lia. replace (fst p <? npos) with true by lia.
    replace (fst p <=? zlen (snd p)) with true by lia. reflexivity. }
  destruct (ctor_cases d Hwf _ s a r _ H step ltac:(discriminate) eq_refl eq_refl ltac:(reflexivity)) as [(s1 & E & H1)|(s1 & E & H1 & Hm1)]; rewrite E.
  - unfold freed. cbn [fst snd]. split; [lia|apply (now_of d Hwf), H1].
  - split; [reflexivity|]. split; [|split; [reflexivity|apply (now_of d Hwf), H1]]. rewrite zlen_ztake in Hm1. replace (fst p + 2) with (Z.min (Z.max 0 (fst p)) (zlen (snd p)) + 2) by lia. exact Hm1.
Qed.
Lemma encode_recodes junk cs alpha n s a r x l : reached s a -> is_str a x l -> a !! r = None -> lists (table cs) alpha -> bytes l ->
  recodes d (no_memory d (zlen (enc64 alpha l) + 2)) (hencode d junk cs false r x) n s a r (enc64 alpha l).
Proof.
  intros H Hx Hr Hc Hb. pose proof (str_len d Hwf s a x l H Hx) as L. assert (max_alloc < W63) as Hma by reflexivity.
  pose proof (encode_spec junk (Z.to_nat (zlen l)) l cs alpha Hc Hb ltac:(lia) ltac:(unfold zlen; lia)) as E. destruct (taken _ _ E) as (p & Ep & Ew).
  pose proof (enc_in _ _ _ _ _ _ Ep) as Hi. assert (zlen (enc64 alpha l) = fst p) as Lp by (rewrite Ew, zlen_ztake; lia). rewrite Lp, Ew. unfold hencode.
  apply (recodes_of (fun mem len => b64enc junk (Z.to_nat len) mem len cs) false n s a r x l p H Hx Hr eq_refl); [intros rest; apply mono_b64enc|exact Ep|exact Hi|].
  rewrite <- Lp, enc64_len. unfold max_alloc, npos, W63, W64 in *. lia.
Qed.
Lemma decode_recodes junk cs w n s a r x l : reached s a -> is_str a x l -> a !! r = None ->
  base64_decode junk (Z.to_nat (zlen l)) l (zlen l) cs tt = Ok w tt -> zlen w < npos ->
  recodes d (no_memory d (zlen w + 2)) (hdecode d junk cs false r x) n s a r w.
Proof.
  intros H Hx Hr E Hn. destruct (taken _ _ E) as (p & Ep & Ew). pose proof (dec_in _ _ _ _ _ _ Ep) as Hi.
  assert (zlen w = fst p) as Lp by (rewrite Ew, zlen_ztake; lia). rewrite Lp, Ew. unfold hdecode.
  apply (recodes_of (fun mem len => b64dec junk (Z.to_nat len) mem len cs) false n s a r x l p H Hx Hr eq_refl); [intros rest; apply mono_b64dec|exact Ep|exact Hi|lia].
Qed.
Lemma decode_whole cs alpha l : selects cs alpha -> bytes l -> zlen l <= max_alloc -> zlen l mod 4 = 0 \/ ends_padded l ->
  exists w, zlen w <= (zlen l + 3) / 4 * 3 /\ forall junk n s a r x, reached s a -> is_str a x l -> a !! r = None ->
    recodes d (no_memory d (zlen w + 2)) (hdecode d junk cs false r x) n s a r w.
Proof.
  intros Hs Hb L Hp. assert (exists w, zlen w <= (zlen l + 3) / 4 * 3 /\ base64_decode (fun _ => 0) (Z.to_nat (zlen l)) l (zlen l) cs tt = Ok w tt) as (w & Lw & E).
  2:{ exists w. split; [exact Lw|]. intros junk n s a r x H Hx Hr. apply (decode_recodes junk cs w n s a r x l H Hx Hr); [exact (decode_junk _ _ _ _ _ _ _ E)|unfold max_alloc, npos, W64 in *; lia]. }
  destruct (decode_exact (fun _ => 0) (Z.to_nat (zlen l)) l cs alpha Hs Hb) as [(_ & w & E & Lw)|(N1 & N2 & _)];
    [unfold max_alloc, W63 in *; lia|unfold zlen; lia|exists w; auto|exfalso; tauto].
Qed.
Lemma roundtrip_recodes junk1 junk2 cs alpha n s a r r' x l n' s' v : reached s a -> is_str a x l -> a !! r = None -> a !! r' = None -> r <> r' -> selects cs alpha -> bytes l ->
  hencode d junk1 cs false r x (n, s) = Ok v (n', s') ->
  recodes d (no_memory d (zlen l + 2)) (hdecode d junk2 cs false r' r) n' s' (<[r := AVal true (map Some (enc64 alpha l))]> a) r' l.
Proof.
  intros H Hx Hr Hr' N Hs Hb E. pose proof (encode_recodes junk1 cs alpha n s a r x l H Hx Hr (proj1 (selects_table cs alpha Hs)) Hb) as R. unfold recodes in R. rewrite E in R.
  destruct R as (-> & H1 & _). pose proof (str_len d Hwf s a x l H Hx) as L. set (a1 := <[r := _]> a) in *.
  assert (is_str a1 r (enc64 alpha l)) as X1 by (eexists; apply lookup_insert). pose proof (str_len d Hwf s' a1 r _ H1 X1) as L1.
  apply (decode_recodes junk2 cs l n s' a1 r' r (enc64 alpha l) H1 X1); [unfold a1; rewrite lookup_insert_ne by congruence; exact Hr'| |unfold max_alloc, npos, W64 in *; lia].
  apply (decode_encoded junk2 _ l cs alpha Hs Hb); [unfold max_alloc, W63 in *; lia|]. rewrite enc64_len. unfold zlen in *. lia.
Qed.
Lemma refused_null work n s a r x l : reached s a -> is_str a x l -> recoded d true work r x (n, s) = Undef UbNull.
Proof.
  intros H Hx. unfold recoded, bind, on_heap. cbn [fst snd]. rewrite (length_is d Hwf s a x l H Hx). cbn [fst snd]. destruct (mem_at_is s a x l H Hx) as (rest & ->). reflexivity.
Qed.
End Proof.
