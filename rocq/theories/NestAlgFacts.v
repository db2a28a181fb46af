(** The algorithms on arrays of Strings meet the specifications of the algorithms on lists of texts. *)
From stdpp Require Import gmap.
From Verif Require Import RcaSpec RcaModel RcaExec RcaInv RcaOwn RcaRel RcaMeet RcaReach RcaFacts StrSpec StrModel StrCmp StrFind StrAlg ArrModel AlgModel AlgMeet AlgRules AlgSub AlgShare AlgSplit AlgFacts
  NestModel NestMeet NestSim NestAbs NestBuf NestOps NestCalls NestProof NestMain NestReach NestAlgModel NestAlgMeet NestAlgRules NestAlgProof.
Open Scope Z_scope.

Section Facts.
Variable d : desc Z.
Variable od : desc positive.
Hypothesis Hwf : wf_desc d.
Notation nreached := (nreached d od).
Notation nmakes := (nmakes d od).

(** Comparison *)
Section Equal.
Variable mdiff : Z -> Z -> Z.
Hypothesis Hm : memcmp_ok mdiff.
Lemma same_text i coin z w o1 o2 lz lw : st_env i !! z = Some o1 -> st_env i !! w = Some o2 -> is_text i z lz -> is_text i w lw ->
  same_address coin o1 o2 = true -> zlen lz = zlen lw -> lz = lw.
Proof.
  intros H1 H2 (C1 & L1 & _) (C2 & L2 & _) S L. unfold length_of, bind, get_obj in L1, L2. rewrite H1 in L1. rewrite H2 in L2. injection L1 as L1. injection L2 as L2.
  destruct (Z.eq_dec (zlen lz) 0) as [Z|NZ]. { rewrite (zlen_0_nil lz Z). symmetry. apply zlen_0_nil. lia. }
  assert (contents z i = contents w i) as E.
  { unfold contents, length_of, load, bind, get_obj. rewrite H1, H2. unfold ret. rewrite L1, L2, L. destruct (zlen lw <=? 0); [reflexivity|].
    rewrite H1, H2. unfold same_address in S. destruct (o_ref o1) as [l1|], (o_ref o2) as [l2|]; try (exfalso; lia); [|reflexivity].
    destruct (Pos.eqb l1 l2) eqn:P; [|exfalso; lia]. apply Pos.eqb_eq in P. subst l2. replace (o_off o1) with (o_off o2) by lia. reflexivity. }
  rewrite C1, C2 in E. congruence.
Qed.
Lemma is_text_env i z l : is_text i z l -> exists o, st_env i !! z = Some o.
Proof. intros (_ & L & _). unfold length_of, bind, get_obj in L. destruct (st_env i !! z) as [o|]; [eauto|discriminate]. Qed.
Lemma elem_ne_ok coin i z w lz lw : is_text i z lz -> is_text i w lw -> bytes lz -> bytes lw ->
  exists r, elem_ne mdiff coin z w i = Ok r i /\ (r = false <-> lz = lw).
Proof.
  intros Tz Tw Bz Bw. destruct (is_text_env _ _ _ Tz) as (o1 & H1). destruct (is_text_env _ _ _ Tw) as (o2 & H2).
  destruct (op_eq_spec mdiff Hm (same_address coin o1 o2) lz lw Bz Bw) as (r & E & Hr).
  - intros S L. exact (same_text i coin z w o1 o2 lz lw H1 H2 Tz Tw S L).
  - destruct Tz as (_ & _ & L). unfold max_alloc, W63 in *. lia.
  - destruct Tw as (_ & _ & L). unfold max_alloc, W63 in *. lia.
  - exists (negb r). split.
    + unfold elem_ne, bind, get_obj. rewrite H1, H2, (proj1 Tz), (proj1 Tw). unfold pure, op_ne, bind. rewrite E. reflexivity.
    + rewrite <- Hr. destruct r; split; auto; discriminate.
Qed.
Lemma neq_loop_ok coin s A b x y xs ys : nreached s A b -> elems A x = Some xs -> elems A y = Some ys ->
  forall vs ps, textual vs ps -> forall ws qs, textual ws qs -> length vs = length ws -> Forall bytes ps -> Forall bytes qs ->
  forall px py, zlen px = zlen py -> xs = px ++ vs -> ys = py ++ ws ->
  exists r, neq_loop mdiff coin (length vs) x y (zlen px) s = Ok r s /\ (r = true <-> ps = qs).
Proof.
  intros H Hx Hy vs ps Hf. induction Hf as [|v p vs ps Hv Hf IH]; intros ws qs Hg; destruct Hg as [|w q ws qs Hw Hg]; intros Hl Bp Bq px py EL -> ->; try discriminate Hl; cbn [length neq_loop].
  - exists true. split; [reflexivity|]. split; reflexivity.
  - destruct (elem_text d od Hwf s A b x _ (zlen px) v p H Hx (znth_mid _ _ _) Hv) as (z & Hz & Tz).
    destruct (elem_text d od Hwf s A b y _ (zlen py) w q H Hy (znth_mid _ _ _) Hw) as (z' & Hz' & Tw).
    inversion Bp as [|? ? B1 B2]; subst. inversion Bq as [|? ? B3 B4]; subst.
    destruct (elem_ne_ok coin _ _ _ _ _ Tz Tw B1 B3) as (r & Er & Hr).
    unfold bind at 1. rewrite Hz. unfold bind at 1. rewrite EL, Hz'. unfold bind at 1. rewrite (inner_read _ _ _ Er). destruct r.
    + exists false. split; [reflexivity|]. split; [discriminate|]. intros [= -> _]. discriminate (proj2 Hr eq_refl).
    + destruct (IH ws qs Hg ltac:(cbn in Hl; lia) B2 B4 (px ++ [v]) (py ++ [w])) as (r & E & Hr'); [rewrite !zlen_app; change (zlen [v]) with 1; change (zlen [w]) with 1; lia|rewrite <- app_assoc; reflexivity|rewrite <- app_assoc; reflexivity|].
      exists r. split; [rewrite <- EL; rewrite zlen_app in E; exact E|]. rewrite Hr', (proj1 Hr eq_refl). split; [intros ->; reflexivity|intros [=]; assumption].
Qed.
Lemma same_elems s A b x y o1 o2 coin vs ps ws qs : nreached s A b -> elems A x = Some vs -> elems A y = Some ws -> textual vs ps -> textual ws qs ->
  st_env (n_out s) !! x = Some o1 -> st_env (n_out s) !! y = Some o2 -> o_len o1 = zlen vs -> o_len o2 = zlen ws ->
  same_address coin o1 o2 = true -> zlen vs = zlen ws -> ps = qs.
Proof.
  intros H Hx Hy Tv Tw E1 E2 L1 L2 S L.
  assert (Lp : zlen vs = zlen ps) by (unfold zlen; f_equal; exact (Forall2_length _ _ _ Tv)).
  assert (Lq : zlen ws = zlen qs) by (unfold zlen; f_equal; exact (Forall2_length _ _ _ Tw)).
  destruct (Z.eq_dec (zlen vs) 0) as [Z|NZ]. { rewrite (zlen_0_nil ps), (zlen_0_nil qs) by lia. reflexivity. }
  apply zlist_ext_opt. intros i. destruct (Z.leb 0 i && (i <? zlen vs)) eqn:B.
  2: { destruct (Z.lt_ge_cases i 0); [rewrite !znth_neg by lia; reflexivity|rewrite !znth_ge by lia; reflexivity]. }
  destruct (znth_some i vs) as [v Zv]; [lia|]. destruct (znth_some i ws) as [w Zw]; [lia|].
  destruct (znth_some i ps) as [p Zp]; [lia|]. destruct (znth_some i qs) as [q Zq]; [lia|].
  assert (F : forall (us : list sval) rs, textual us rs -> forall u r, znth i us = Some u -> znth i rs = Some r -> snd u = map Some r).
  { intros us rs Hu u r. unfold znth. destruct (i <? 0); [discriminate|]. intros X Y.
    revert X Y. generalize (Z.to_nat i). induction Hu as [|u' r' us rs Hu' Hu IH]; intros [|n] X Y; cbn in X, Y; try discriminate; [congruence|eapply IH; eassumption]. }
  destruct (elem_text d od Hwf s A b x _ i v p H Hx Zv (F _ _ Tv _ _ Zv Zp)) as (z & Hz & (C1 & _)).
  destruct (elem_text d od Hwf s A b y _ i w q H Hy Zw (F _ _ Tw _ _ Zw Zq)) as (z' & Hz' & (C2 & _)).
  assert (nslot x i s = nslot y i s) as E.
  { unfold nslot, nslots, bind. destruct (1 <=? 0) eqn:X; [lia|]. unfold outer, get_obj. rewrite E1, E2. unfold same_address in S.
    destruct (o_ref o1) as [l1|], (o_ref o2) as [l2|]; try (exfalso; lia); [|reflexivity].
    destruct (Pos.eqb l1 l2) eqn:P; [|exfalso; lia]. apply Pos.eqb_eq in P. subst l2. replace (o_off o1) with (o_off o2) by lia. reflexivity. }
  rewrite Hz, Hz' in E. injection E as ->. congruence.
Qed.
Lemma narr_eq_ok coin s A b x y ps qs : nreached s A b -> has_texts A x ps -> has_texts A y qs -> Forall bytes ps -> Forall bytes qs ->
  exists r, narr_eq mdiff coin x y s = Ok r s /\ (r = true <-> ps = qs).
Proof.
  intros H (vs & Hx & Tv) (ws & Hy & Tw) Bp Bq. unfold narr_eq, bind at 1. rewrite (arr_len d od Hwf s A b x vs H Hx). unfold bind at 1. rewrite (arr_len d od Hwf s A b y ws H Hy).
  assert (Lp : zlen vs = zlen ps) by (unfold zlen; f_equal; exact (Forall2_length _ _ _ Tv)).
  assert (Lq : zlen ws = zlen qs) by (unfold zlen; f_equal; exact (Forall2_length _ _ _ Tw)).
  destruct (Z.eqb_spec (zlen vs) (zlen ws)) as [L|L].
  2: { exists false. split; [reflexivity|]. split; [discriminate|]. intros ->. lia. }
  unfold bind at 1. rewrite (arr_len d od Hwf s A b y ws H Hy). unfold nequals_n.
  pose proof (arr_len d od Hwf s A b x vs H Hx) as Lx. pose proof (arr_len d od Hwf s A b y ws H Hy) as Ly.
  unfold outer, length_of, bind, get_obj in Lx, Ly. destruct (st_env (n_out s) !! x) as [o1|] eqn:E1; [|discriminate]. destruct (st_env (n_out s) !! y) as [o2|] eqn:E2; [|discriminate].
  injection Lx as Lx. injection Ly as Ly.
  unfold bind at 1. rewrite (outer_read (get_obj x) o1 s) by (unfold get_obj; rewrite E1; reflexivity).
  unfold bind at 1. rewrite (outer_read (get_obj y) o2 s) by (unfold get_obj; rewrite E2; reflexivity). cbv zeta.
  rewrite Lx, Ly. replace (zlen vs =? zlen ws) with true by lia. rewrite andb_true_r. cbn [negb].
  destruct (same_address coin o1 o2) eqn:S.
  - exists true. split; [reflexivity|]. split; [intros _|reflexivity]. eapply (same_elems s A b x y o1 o2); eassumption.
  - replace (Z.to_nat (Z.min (zlen vs) (Z.min (zlen ws) (zlen ws)))) with (length vs) by (unfold zlen in *; lia).
    apply (neq_loop_ok coin s A b x y vs ws H Hx Hy vs ps Tv ws qs Tw ltac:(unfold zlen in L; lia) Bp Bq [] []); reflexivity.
Qed.
End Equal.

Hypothesis Hnul : d_nul d = Some 0.
(** join *)
Lemma njoin_makes s A b r x y (quoted : bool) c1 m1 c2 m2 sy ss : nreached s A b -> unused b [r; c1; m1; c2; m2] -> r <> 1%positive -> c1 <> 1%positive ->
  is_str b y sy -> has_texts A x ss ->
  let K := zlen ss * zlen sy + (if quoted then zlen ss * 2 else 0) + StrSpec.total ss in (ss = [] \/ 0 < K < W64) ->
  nmakes (no_memory d (K + 2)) (njoin d od r x y quoted c1 m1 c2 m2) s A b A (<[r := AVal true (map Some (intercalate sy (map (dress quoted) ss)))]> b) tt.
Proof.
  intros H Hu Hr Hc (ry & Hy) (vs & Hx & Hs) K HK. apply (nmakes_at d od Hwf). pose proof (join_loop_eq ss sy quoted) as El. rewrite <- El.
  pose proof (zlen_nonneg ss) as L1. pose proof (zlen_nonneg sy) as L2. pose proof (total_nonneg ss) as L3.
  apply (njoin_runs d od Hwf Hnul Z.sub r x y quoted c1 m1 c2 m2 s A b (K + 2) ry sy vs ss H Hu Hr Hc Hy Hx Hs).
  - intros Hn. destruct HK as [->|HK]; [contradiction|]. rewrite join_size_eq. replace (_ + StrSpec.total ss) with (K - 1) by (unfold K; lia). rewrite u64_id by lia. lia.
  - rewrite El. destruct ss as [|e ss]; [cbn; unfold K in *; cbn [StrSpec.total]; rewrite ?zlen_nil; destruct quoted; nia|].
    rewrite intercalate_len by (cbn; discriminate). rewrite zlen_map, total_dress. unfold K in *. nia.
Qed.

(** split *)
Section Split.
Variable mdiff : Z -> Z -> Z.
Hypothesis Hm : memcmp_ok mdiff.
Notation fails ps := (no_memory d 3 \/ no_memory od (zlen ps + 2)).
Lemma nsplit_from limit fuel s A b r x y sp t rx sx sy ps : nreached s A b -> A !! r = None -> b !! x = Some (AVal rx (map Some sx)) -> is_str b y sy -> unused b [sp; t] ->
  StrModel.split mdiff fuel sx sy limit tt = Ok ps tt ->
  nmakes (fails ps) (nsplit d od mdiff fuel r x y sp t limit) s A b (<[r := NVal (nvals rx ps)]> A) b tt.
Proof. intros. apply (nmakes_at d od Hwf). eapply (nsplit_runs d od Hwf Hnul); eassumption. Qed.
Lemma nsplit_makes fuel s A b r x y sp t rx sx sy : nreached s A b -> A !! r = None -> b !! x = Some (AVal rx (map Some sx)) -> is_str b y sy -> unused b [sp; t] ->
  bytes sx -> bytes sy -> sy <> [] -> zlen sx < W31 -> zlen sy < W31 -> (length sx < fuel)%nat ->
  exists ps, pieces (is_sp sy) sy sx ps /\ nmakes (fails ps) (nsplit d od mdiff fuel r x y sp t npos) s A b (<[r := NVal (nvals rx ps)]> A) b tt.
Proof.
  intros H HA Hx Hy Hu Bx By Hn Lx Ly Hf. destruct (split_all mdiff Hm sx sy fuel Bx By Hn Lx Ly Hf) as (ps & E & P).
  exists ps. split; [exact P|]. eapply nsplit_from; eassumption.
Qed.
Lemma nsplit_limit_makes limit fuel s A b r x y sp t rx sx sy : nreached s A b -> A !! r = None -> b !! x = Some (AVal rx (map Some sx)) -> is_str b y sy -> unused b [sp; t] ->
  bytes sx -> bytes sy -> sy <> [] -> zlen sx < W31 -> zlen sy < W31 -> (length sx < fuel)%nat -> sx <> [] -> 2 <= limit < npos ->
  exists ps, pieces_upto (is_sp sy) sy (limit - 1) sx ps /\ nmakes (fails ps) (nsplit d od mdiff fuel r x y sp t limit) s A b (<[r := NVal (nvals rx ps)]> A) b tt.
Proof.
  intros H HA Hx Hy Hu Bx By Hn Lx Ly Hf Hne Hl. destruct (split_limit mdiff Hm sx sy limit fuel Bx By Hn Lx Ly Hf Hne Hl) as (ps & E & P).
  exists ps. split; [exact P|]. eapply nsplit_from; eassumption.
Qed.
Lemma nsplit_one_makes fuel s A b r x y sp t rx sx sy : nreached s A b -> A !! r = None -> b !! x = Some (AVal rx (map Some sx)) -> is_str b y sy -> unused b [sp; t] -> sx <> [] ->
  nmakes (no_memory d 3 \/ no_memory od 3) (nsplit d od mdiff fuel r x y sp t 1) s A b (<[r := NVal [(rx, map Some sx)]]> A) b tt.
Proof. intros H HA Hx Hy Hu Hn. apply (nsplit_from 1 fuel s A b r x y sp t rx sx sy [sx] H HA Hx Hy Hu). apply split_one, Hn. Qed.

(** What was split can be joined. *)
Lemma ntexts A r rx ps : has_texts (<[r := NVal (nvals rx ps)]> A) r ps.
Proof.
  exists (nvals rx ps). unfold elems. rewrite lookup_insert. split; [reflexivity|]. induction ps as [|p ps IH]; constructor; [reflexivity|exact IH].
Qed.
Lemma nmakes_ok {B} (C : Prop) (m : M nstate B) s A b A' b' v v' s' : nmakes C m s A b A' b' v -> m s = Ok v' s' -> nreached s' A' b'.
Proof. unfold NestAlgMeet.nmakes. intros H E. rewrite E in H. apply H. Qed.
Lemma nsplit_njoin fuel s A b r x y sp t rx sx sy u c1 m1 c2 m2 s' : nreached s A b -> A !! r = None -> b !! x = Some (AVal rx (map Some sx)) -> is_str b y sy -> unused b [sp; t] ->
  bytes sx -> bytes sy -> sy <> [] -> sy <> [32] -> zlen sx < W31 -> zlen sy < W31 -> (length sx < fuel)%nat -> ~ suffix_of sy sx ->
  unused b [u; c1; m1; c2; m2] -> u <> 1%positive -> c1 <> 1%positive ->
  nsplit d od mdiff fuel r x y sp t npos s = Ok tt s' ->
  exists A', nreached s' A' b /\ nmakes (no_memory d (zlen sx + zlen sy + 2)) (njoin d od u r y false c1 m1 c2 m2) s' A' b A' (<[u := AVal true (map Some sx)]> b) tt.
Proof.
  intros H HA Hx Hy Hu Bx By Hn Hsp Lx Ly Hf Sx Hu2 Hu1 Hc E.
  destruct (nsplit_makes fuel s A b r x y sp t rx sx sy H HA Hx Hy Hu Bx By Hn Lx Ly Hf) as (ps & P & M).
  pose proof (nmakes_ok _ _ _ _ _ _ _ _ _ _ M E) as H'. exists (<[r := NVal (nvals rx ps)]> A). split; [exact H'|].
  assert (is_sp sy = false) as Esp by (destruct (is_sp sy) eqn:X; [apply is_sp_spec in X; contradiction|reflexivity]).
  rewrite Esp in P. pose proof (pieces_join_exact _ _ _ P Sx) as J.
  assert (EI : intercalate sy (map (dress false) ps) = sx).
  { transitivity (intercalate sy ps); [|exact J]. f_equal. clear. induction ps; cbn; [reflexivity|]. rewrite IHps. reflexivity. }
  assert (Lj : ps = [] \/ zlen ps * zlen sy + 0 + StrSpec.total ps = zlen sx + zlen sy).
  { destruct ps as [|p ps]; [left; reflexivity|right]. rewrite <- J, intercalate_len by discriminate. lia. }
  pose proof (njoin_makes s' _ b u r y false c1 m1 c2 m2 sy ps H' Hu2 Hu1 Hc Hy (ntexts A r rx ps)) as M2. cbv zeta in M2. rewrite EI in M2.
  assert (0 < zlen sy) by (destruct sy; [contradiction|]; rewrite zlen_cons; pose proof (zlen_nonneg sy); lia). pose proof (zlen_nonneg sx).
  destruct Lj as [->|Lj].
  - cbn [StrSpec.total] in M2. change (zlen []) with 0 in M2. specialize (M2 (or_introl eq_refl)). unfold NestAlgMeet.nmakes in *.
    destruct (njoin _ _ _ _ _ _ _ _ _ _ s') as [? ?|? ?| | |?]; try exact M2. destruct M2 as (? & N & ?). split; [assumption|]. split; [|assumption]. eapply no_memory_mono; [exact N|lia].
  - rewrite Lj in M2. apply M2. right. unfold W31, W64 in *. lia.
Qed.
End Split.
End Facts.
