(** Proofs for PtMeet, call by call. *)
From stdpp Require Import gmap.
From Verif Require Import Base RcaSpec RcaModel RcaExec RcaOwn RcaRel RcaMeet RcaReach StrSpec AlgMeet NestModel HashModel HsModel HsMeet HtModel HtMeet PtSpec PtModel PtMeet PtQuiet PtProof.
From Verif Require MstSpec MstProof RcaFacts RcaRel2 NestSim NestProof HsProof HtProof PtFlags.
Open Scope Z_scope.

Section Proof.
Variable d : desc Z.
Hypothesis Hwf : wf_desc d.
Variable mdiff : Z -> Z -> Z.
Hypothesis Hm : memcmp_ok mdiff.
Variable grow : Z -> Z -> option Z.
Implicit Types (s : state Z) (a b : astate Z) (ts : tables) (ms : maps).
Notation pr := (pr d).
Notation does_call := (pdoes d mdiff grow).
Notation pstep := (pstep (step d)).
Ltac run E := rewrite (HsProof.bind_ok _ _ _ _ _ E).
Ltac fail_run E := rewrite (HsProof.bind_exn _ _ _ _ _ E).
Ltac tab_at P I u U T := destruct (table_at d _ _ _ _ _ _ _ P I) as (u & U & T).

Lemma c_string o tr a s ts ms b rm r : pr a s ts ms b -> pstep rm (PString o) ms b = Some r -> does_call (PString o) tr (s, ts) ms b.
Proof.
  intros P. unfold pdoes. cbn [PtSpec.pstep pexec]. destruct (no_cstr o) eqn:C; [|discriminate]. cbn [need]. intros Hr.
  pose proof (call_ren d Hwf str o s a b inj_str (proj1 P) (pr_pulls _ _ _ _ _ _ P) C) as X.
  destruct (step d o b) as [[b' v|]|] eqn:E; [| |discriminate].
  - destruct X as [(v' & s' & a' & X & Lv & H' & P' & K')|(s' & a' & X & Sh & H' & F)].
    + run (lift_ok _ s ts v' s' X). cbn. exists rm, ms, b', (POut v). split; [reflexivity|]. split; [exact Lv|].
      eapply pr_prel, pr_user; eassumption.
    + fail_run (lift_exn _ s ts BadAlloc s' X). split; [exact Sh|]. destruct F as [->|(x & Tx & ->)].
      * exists ms, b. split; [apply pf_string, uf_same|]. eapply pr_prel, pr_same; eassumption.
      * exists ms, (<[x := AVal true []]> b). split; [apply pf_string, uf_gone, Tx|]. eapply pr_prel, (pr_user d a s ts ms b); [exact P|exact H'| |].
        -- apply NestSim.pulls_insert; [exact inj_str|exact (pr_pulls _ _ _ _ _ _ P)].
        -- apply NestSim.keeps_insert, NestSim.keeps_refl.
  - destruct X as (s' & X & H'). fail_run (lift_exn _ s ts OutOfRange s' X). exists rm, ms, b. split; [reflexivity|].
    eapply pr_prel, pr_same; eassumption.
Qed.
Ltac give rm := exists rm; eexists _, _, _; split; [reflexivity|]; split; [reflexivity|].
Lemma c_make i n tr a s ts ms b rm r : pr a s ts ms b -> pstep rm (PMake i n) ms b = Some r -> does_call (PMake i n) tr (s, ts) ms b.
Proof.
  intros P. unfold pdoes. cbn [PtSpec.pstep pexec]. destruct (ms !! i) eqn:I; [discriminate|]. destruct (Z.ltb_spec 0 n) as [Hn|]; [|discriminate]. intros _.
  destruct (starved (t_lack tr) && (1 <? n)) eqn:E.
  - cbn. split; [|exists ms, b; split; [apply pf_make|eapply pr_prel, P]]. apply andb_prop in E as [E1 E2]. split; [|lia]. intros X. rewrite X in E1. discriminate.
  - cbn [bind ret set_table]. cbn. give rm.
    eapply pr_prel, (pr_put_same d Hwf a s ts ms b i (empty_umap 1)); [exact P| |apply P|apply sub_refl|apply HsProof.empty_tab; assumption|rewrite !HtProof.others_empty; reflexivity].
    rewrite (no_table _ _ _ _ _ _ _ P I). reflexivity.
Qed.
Lemma entries_pairs b kvs m : entries b kvs = Some m -> HtProof.pairs b kvs /\ firsts b kvs = m.
Proof.
  revert m. induction kvs as [|[k v] kvs IH]; cbn [entries]; intros m.
  - intros [= <-]. split; [constructor|reflexivity].
  - destruct (key b k) as [l|] eqn:K; [|discriminate]. destruct (full b v) as [w|] eqn:V; [|discriminate]. destruct (entries b kvs) as [m'|]; [|discriminate].
    intros [= <-]. destruct (IH m' eq_refl) as [Pk F]. apply key_str in K as [K B]. apply full_str in V.
    pose proof (HsProof.text_str b k l K) as Tk. pose proof (HsProof.text_str b v w V) as Tv. split.
    + constructor; [|exact Pk]. cbn [fst snd]. rewrite Tk, Tv. split; [split|]; assumption.
    + change (<[text b k := text b v]> (firsts b kvs) = <[l := w]> m'). rewrite Tk, Tv, F. reflexivity.
Qed.
Lemma up_pairs b a kvs : (forall x l, is_str b x l -> is_str a (str x) l) -> HtProof.pairs b kvs ->
  let kvs' := map (fun kv : positive * positive => (str (fst kv), str (snd kv))) kvs in HtProof.pairs a kvs' /\ firsts a kvs' = firsts b kvs.
Proof.
  intros Hs. cbn. induction kvs as [|kv kvs IH]; intros F; [split; [constructor|reflexivity]|].
  inversion F as [|? ? [[K B] V] F']; subst. destruct (IH F') as [G E]. pose proof (HsProof.text_str a _ _ (Hs _ _ K)) as Tk. pose proof (HsProof.text_str a _ _ (Hs _ _ V)) as Tv. split.
  - constructor; [|exact G]. cbn [fst snd]. rewrite Tk, Tv. split; [split; [apply Hs, K|exact B]|apply Hs, V].
  - change (<[text a (str (fst kv)) := text a (str (snd kv))]> (firsts a (map (fun kv : positive * positive => (str (fst kv), str (snd kv))) kvs)) = <[text b (fst kv) := text b (snd kv)]> (firsts b kvs)).
    rewrite Tk, Tv, E. reflexivity.
Qed.
Lemma c_list i n kvs tr a s ts ms b rm r : pr a s ts ms b -> pstep rm (PList i n kvs) ms b = Some r -> does_call (PList i n kvs) tr (s, ts) ms b.
Proof.
  intros P. unfold pdoes. cbn [PtSpec.pstep pexec]. destruct (ms !! i) eqn:I; [discriminate|]. destruct (entries b kvs) as [m|] eqn:En; [|discriminate].
  destruct (Z.ltb_spec 0 n) as [Hn|]; [|discriminate]. cbn [need]. intros _. apply entries_pairs in En as [Pk F].
  destruct (up_pairs b a kvs (fun x l => up_str d a s ts ms b x l P) Pk) as [Pk' F'].
  destruct (does_cases d _ _ _ _ (HtProof.hlist_ok d Hwf mdiff Hm grow (t_lack tr) (t_lacks tr) n _ s a (proj1 P) Hn Pk') (q_list _ _ _ _ _ _ _))
    as [(u & s' & a' & X & Q & H' & T & O)|(s' & a' & X & Q & H' & -> & L)].
  - run (lift_ok _ s ts _ s' X). cbn. give rm. rewrite F', F in T.
    eapply pr_prel, (pr_put_same d Hwf a s ts ms b i (empty_umap 1)); [exact P| |exact H'|exact Q|exact T|rewrite HtProof.others_empty; exact O].
    rewrite (no_table _ _ _ _ _ _ _ P I). reflexivity.
  - fail_run (lift_exn _ s ts BadAlloc s' X). split; [exact L|]. exists ms, b. split; [apply pf_list|]. eapply pr_prel, pr_same; eassumption.
Qed.
Lemma c_copy i j tr a s ts ms b rm r : pr a s ts ms b -> pstep rm (PCopy i j) ms b = Some r -> does_call (PCopy i j) tr (s, ts) ms b.
Proof.
  intros P. unfold pdoes. cbn [PtSpec.pstep pexec]. destruct (ms !! i) eqn:I; [discriminate|]. destruct (ms !! j) as [m|] eqn:J; [|discriminate]. intros _.
  tab_at P J v V T. run (table_ok s ts j v V).
  destruct (does_cases d _ _ _ _ (HsProof.hcopy_ok d Hwf grow (t_fails tr) s a v m (proj1 P) T) (q_hcopy _ _ _))
    as [(u & s' & a' & X & Q & H' & T1 & _ & O)|(s' & a' & X & Q & H' & -> & L)].
  - run (lift_ok _ s ts _ s' X). cbn. give rm.
    eapply pr_prel, (pr_put_same d Hwf a s ts ms b i (empty_umap 1)); [exact P| |exact H'|exact Q|exact T1|rewrite HtProof.others_empty; exact O].
    rewrite (no_table _ _ _ _ _ _ _ P I). reflexivity.
  - fail_run (lift_exn _ s ts BadAlloc s' X). split; [exact L|]. exists ms, b. split; [apply pf_copy|]. eapply pr_prel, pr_same; eassumption.
Qed.
Lemma odd_nodes a s ts ms b i u : pr a s ts ms b -> ts !! i = Some u -> Forall (fun n => odd (fst n) /\ odd (snd n)) (List.concat (u_buckets u)).
Proof.
  intros (_ & _ & O) U. apply Forall_forall. intros n N. destruct (HsProof.in_own n (nodes u) N) as [A B]. split; eapply O; eassumption.
Qed.
Lemma others_none u a : nodes u = [] -> others u a = a.
Proof.
  intros N. apply map_eq. intros x. rewrite HsProof.others_lookup. destruct (decide (x ∈ owned u)) as [X|]; [|reflexivity].
  unfold owned in X. rewrite N in X. inversion X.
Qed.
Lemma c_assign i j tr a s ts ms b rm r : pr a s ts ms b -> pstep rm (PAssign i j) ms b = Some r -> does_call (PAssign i j) tr (s, ts) ms b.
Proof.
  intros P. unfold pdoes. cbn [PtSpec.pstep pexec]. destruct (ms !! i) as [m'|] eqn:I; [|discriminate]. destruct (ms !! j) as [m|] eqn:J; [|discriminate]. intros _.
  tab_at P I u U T. tab_at P J v V W. run (table_ok s ts i u U). run (table_ok s ts j v V). destruct (Pos.eqb_spec i j) as [->|N].
  - cbn. give rm. rewrite (insert_id ts j u U), (insert_id ms j m J). eapply pr_prel, P.
  - destruct (does_cases d _ _ _ _ (HtProof.hcopy_assign_ok d Hwf grow (t_fails tr) s a u m' v m (proj1 P) T W (all_apart _ _ _ _ _ (proj1 (proj2 P)) i j u v U V N))
      (q_copy_assign _ _ _ _ _ (odd_nodes _ _ _ _ _ _ _ P U))) as [([[|] u'] & s' & a' & X & Q & H' & Y)|(s' & a' & X & Q & H' & [])]; cbn [fst snd] in Y.
    + run (lift_ok _ s ts _ s' X). cbn. give rm. destruct Y as (T1 & _ & O1).
      eapply pr_prel, (pr_put_same d Hwf a s ts ms b i u); [exact P|rewrite U; reflexivity|exact H'|exact Q|exact T1|exact O1].
    + run (lift_ok _ s ts _ s' X). cbn. destruct Y as (L & _ & [[-> ->]|(T1 & _ & Nn & ->)]).
      * split; [auto|]. exists ms, b. split; [apply pf_assign|]. rewrite (insert_id ts i u U). eapply pr_prel, pr_same; eassumption.
      * split; [auto|]. exists (<[i := ∅]> ms), b. split; [apply pf_assign_gone|].
        eapply pr_prel, (pr_put_same d Hwf a s ts ms b i u); [exact P|rewrite U; reflexivity|exact H'|exact Q|exact T1|apply others_none, Nn].
Qed.
Lemma c_move i j tr a s ts ms b rm r : pr a s ts ms b -> pstep rm (PMove i j) ms b = Some r -> does_call (PMove i j) tr (s, ts) ms b.
Proof.
  intros P. unfold pdoes. cbn [PtSpec.pstep pexec]. destruct (ms !! i) eqn:I; [discriminate|]. destruct (ms !! j) as [m|] eqn:J; [|discriminate]. intros _.
  tab_at P J v V T. run (table_ok s ts j v V). cbn. give rm. assert (i <> j) as N by congruence. pose proof P as (H & A & O).
  eapply pr_prel, (pr_again d Hwf a s ts ms b); [exact P|exact H| |apply sub_refl|auto].
  assert (all d a (<[i := empty_umap 1]> ts) (<[i := ∅]> ms) (up b)) as A1 by (apply HtProof.empty_rest; [exact grow|exact A|lia|apply (all_none _ _ _ _ _ A), I]).
  pose proof (HtProof.all_swap d a _ _ (up b) i j (empty_umap 1) v ∅ m A1 (lookup_insert _ _ _) (eq_trans (lookup_insert_ne _ _ _ _ N) V) (lookup_insert _ _ _) (eq_trans (lookup_insert_ne _ _ _ _ N) J)) as A2.
  rewrite !insert_insert in A2. rewrite (insert_commute ts), (insert_commute ms) in A2 by congruence. exact A2.
Qed.
Lemma c_move_assign i j tr a s ts ms b rm r : pr a s ts ms b -> pstep rm (PMoveAssign i j) ms b = Some r -> does_call (PMoveAssign i j) tr (s, ts) ms b.
Proof.
  intros P. unfold pdoes. cbn [PtSpec.pstep pexec]. destruct (ms !! i) as [m'|] eqn:I; [|discriminate]. destruct (ms !! j) as [m|] eqn:J; [|discriminate].
  destruct (Pos.eqb_spec i j) as [|N]; [discriminate|]. intros _. cbn [negb need].
  tab_at P I u U T. tab_at P J v V W. run (table_ok s ts i u U). run (table_ok s ts j v V). pose proof P as (H & A & O).
  destruct (does_cases d _ _ _ _ (HsProof.hdestroy_ok d Hwf s a u m' H T) (q_hdestroy _ _)) as [([] & s' & a' & X & Q & H' & ->)|(s' & a' & X & Q & H' & [])].
  assert (hmove_assign d u v s = Ok (v, empty_umap 1) s') as X2 by (unfold hmove_assign; rewrite (HsProof.bind_ok _ _ _ _ _ X); reflexivity).
  run (lift_ok _ s ts _ s' X2). cbn. give rm.
  eapply pr_prel, (pr_again d Hwf a s ts ms b); [exact P|exact H'| |exact Q|auto].
  pose proof (HtProof.destroyed d grow a ts ms (up b) i u m' 1 A U T ltac:(lia)) as A1.
  pose proof (HtProof.all_swap d _ _ _ (up b) i j (empty_umap 1) v ∅ m A1 (lookup_insert _ _ _) (eq_trans (lookup_insert_ne _ _ _ _ N) V) (lookup_insert _ _ _) (eq_trans (lookup_insert_ne _ _ _ _ N) J)) as A2.
  rewrite !insert_insert in A2. rewrite (insert_commute ts), (insert_commute ms) in A2 by congruence. exact A2.
Qed.
Lemma c_swap i j tr a s ts ms b rm r : pr a s ts ms b -> pstep rm (PSwap i j) ms b = Some r -> does_call (PSwap i j) tr (s, ts) ms b.
Proof.
  intros P. unfold pdoes. cbn [PtSpec.pstep pexec]. destruct (ms !! i) as [m'|] eqn:I; [|discriminate]. destruct (ms !! j) as [m|] eqn:J; [|discriminate]. intros _.
  tab_at P I u U T. tab_at P J v V W. run (table_ok s ts i u U). run (table_ok s ts j v V). cbn. give rm.
  eapply pr_prel, (pr_again d Hwf a s ts ms b); [exact P|apply P| |apply sub_refl|auto]. apply HtProof.all_swap; try assumption. apply P.
Qed.
Lemma c_destroy i tr a s ts ms b rm r : pr a s ts ms b -> pstep rm (PDestroy i) ms b = Some r -> does_call (PDestroy i) tr (s, ts) ms b.
Proof.
  intros P. unfold pdoes. cbn [PtSpec.pstep pexec]. destruct (ms !! i) as [m|] eqn:I; [|discriminate]. intros _.
  tab_at P I u U T. run (table_ok s ts i u U). pose proof P as (H & A & O).
  destruct (does_cases d _ _ _ _ (HsProof.hdestroy_ok d Hwf s a u m H T) (q_hdestroy _ _)) as [([] & s' & a' & X & Q & H' & ->)|(s' & a' & X & Q & H' & [])].
  run (lift_ok _ s ts _ s' X). cbn. give rm. eapply pr_prel, (pr_again d Hwf a s ts ms b); [exact P|exact H'| |exact Q|auto].
  pose proof (HtProof.all_delete d _ _ _ (up b) i (empty_umap 1) (HtProof.destroyed d grow a ts ms (up b) i u m 1 A U T ltac:(lia)) (lookup_insert _ _ _) eq_refl) as A1.
  rewrite !delete_insert_delete in A1. exact A1.
Qed.
Lemma c_clear i tr a s ts ms b rm r : pr a s ts ms b -> pstep rm (PClear i) ms b = Some r -> does_call (PClear i) tr (s, ts) ms b.
Proof.
  intros P. unfold pdoes. cbn [PtSpec.pstep pexec]. destruct (ms !! i) as [m|] eqn:I; [|discriminate]. intros _.
  tab_at P I u U T. run (table_ok s ts i u U).
  destruct (does_cases d _ _ _ _ (HsProof.hclear_ok d Hwf grow s a u m (proj1 P) T) (q_clear _ _)) as [(u' & s' & a' & X & Q & H' & T1 & N & ->)|(s' & a' & X & Q & H' & [])].
  run (lift_ok _ s ts _ s' X). cbn. give rm.
  eapply pr_prel, (pr_put_same d Hwf a s ts ms b i u); [exact P|rewrite U; reflexivity|exact H'|exact Q|exact T1|apply others_none, N].
Qed.
Lemma tab_size a u m : tab d a u m -> u_count u = Z.of_nat (size m).
Proof.
  intros T. rewrite (tab_count _ _ _ _ T), (tab_map _ _ _ _ T). unfold zlen. f_equal. symmetry. unfold size, map_size.
  rewrite map_to_list_to_map.
  - apply map_length.
  - change (base.NoDup ((map (HsProof.entry a) (nodes u)).*1)). rewrite HsProof.entry_keys. exact (tab_keys _ _ _ _ T).
Qed.
Lemma c_size i tr a s ts ms b rm r : pr a s ts ms b -> pstep rm (PSize i) ms b = Some r -> does_call (PSize i) tr (s, ts) ms b.
Proof.
  intros P. unfold pdoes. cbn [PtSpec.pstep pexec]. destruct (ms !! i) as [m|] eqn:I; [|discriminate]. intros _.
  tab_at P I u U T. run (table_ok s ts i u U). cbn. rewrite (tab_size a u m T). give rm. eapply pr_prel, P.
Qed.

Lemma key_live b k l : is_str b k l -> is_Some (b !! k).
Proof. intros (q & ->). eauto. Qed.
Lemma robbed_lost p e k b : robbed (p && match e with LBuckets => true | _ => false end) k b = robbed (lost e p) k b.
Proof. destruct p, e; reflexivity. Qed.
Lemma c_insert mk mv i k v tr a s ts ms b rm r : pr a s ts ms b -> pstep rm (PInsert mk mv i k v) ms b = Some r -> does_call (PInsert mk mv i k v) tr (s, ts) ms b.
Proof.
  intros P. unfold pdoes. cbn [PtSpec.pstep pexec]. destruct (ms !! i) as [m|] eqn:I; [|discriminate]. destruct (key b k) as [l|] eqn:K; [|discriminate].
  destruct (full b v) as [w|] eqn:V; [|discriminate]. destruct (negb (mk && Pos.eqb k v)) eqn:Ne; [|discriminate]. cbn [need]. intros _.
  pose proof (key_str _ _ _ K) as [Ks B]. apply full_str in V. tab_at P I u U T. run (table_ok s ts i u U).
  assert (mk = true -> str k ∉ owned u /\ str k <> str v) as N1.
  { intros ->. split; [eapply not_owned; eassumption|]. intros E. apply inj_str in E as ->. rewrite Pos.eqb_refl in Ne. discriminate. }
  assert (mv = true -> str v ∉ owned u) as N2 by (intros _; eapply not_owned; eassumption).
  pose proof (HsProof.hinsert_ok d Hwf mdiff Hm grow (t_lack tr) mk mv s a u m (str k) l (str v) w (proj1 P) T
    (up_str _ _ _ _ _ _ _ _ P Ks) B (up_str _ _ _ _ _ _ _ _ P V) N1 N2) as D.
  destruct (does_cases d _ _ _ _ D (q_insert _ _ _ _ _ _ _ _ _)) as [([q u'] & s' & a' & X & Q & H' & Y)|(s' & a' & X & Q & H' & L & Nl & ->)].
  - run (lift_ok _ s ts _ s' X). cbn. destruct (m !! l) as [w0|] eqn:Ml.
    + destruct Y as [Y ->]. assert (q = false /\ u' = u) as [-> ->] by (split; congruence). give rm. rewrite (insert_id ts i u U). eapply pr_prel, pr_same; eassumption.
    + destruct Y as [Y [T1 O1]]. cbn [fst snd] in *. subst q. give rm. rewrite Ml in O1.
      eapply pr_prel, (pr_put d Hwf mk mv k v a s ts ms b i u); try eassumption; eapply key_live; eassumption.
  - fail_run (lift_exn _ s ts BadAlloc s' X). split; [exact L|]. exists ms, (robbed (lost (t_lack tr) mk) k b). split.
    + rewrite <- robbed_lost. eapply pf_insert; eassumption.
    + eapply pr_prel, pr_robbed; eassumption.
Qed.
Lemma c_put mk mv i k v tr a s ts ms b rm r : pr a s ts ms b -> pstep rm (PPut mk mv i k v) ms b = Some r -> does_call (PPut mk mv i k v) tr (s, ts) ms b.
Proof.
  intros P. unfold pdoes. cbn [PtSpec.pstep pexec]. destruct (ms !! i) as [m|] eqn:I; [|discriminate]. destruct (key b k) as [l|] eqn:K; [|discriminate].
  destruct (full b v) as [w|] eqn:V; [|discriminate]. destruct (negb (mk && Pos.eqb k v)) eqn:Ne; [|discriminate]. cbn [need]. intros _.
  pose proof (key_str _ _ _ K) as [Ks B]. apply full_str in V. tab_at P I u U T. run (table_ok s ts i u U).
  assert (mk = true -> str k ∉ owned u /\ str k <> str v) as N1.
  { intros ->. split; [eapply not_owned; eassumption|]. intros E. apply inj_str in E as ->. rewrite Pos.eqb_refl in Ne. discriminate. }
  assert (mv = true -> str v ∉ owned u) as N2 by (intros _; eapply not_owned; eassumption).
  pose proof (HsProof.hassign_ok d Hwf mdiff Hm grow (t_lack tr) mk mv s a u m (str k) l (str v) w (proj1 P) T
    (up_str _ _ _ _ _ _ _ _ P Ks) B (up_str _ _ _ _ _ _ _ _ P V) N1 N2) as D.
  destruct (does_cases d _ _ _ _ D (q_hassign _ _ _ _ _ _ _ _ _)) as [(u' & s' & a' & X & Q & H' & T1 & O1)|(s' & a' & X & Q & H' & L & Nl & ->)].
  - run (lift_ok _ s ts _ s' X). cbn. give rm. destruct (m !! l) as [w0|] eqn:Ml.
    + eapply pr_prel, (pr_put d Hwf false mv k v a s ts ms b i u); try eassumption; eapply key_live; eassumption.
    + eapply pr_prel, (pr_put d Hwf mk mv k v a s ts ms b i u); try eassumption; eapply key_live; eassumption.
  - fail_run (lift_exn _ s ts BadAlloc s' X). split; [exact L|]. exists ms, (robbed (lost (t_lack tr) mk) k b). split.
    + rewrite <- robbed_lost. eapply pf_put; eassumption.
    + eapply pr_prel, pr_robbed; eassumption.
Qed.
Lemma c_remove i k tr a s ts ms b rm r : pr a s ts ms b -> pstep rm (PRemove i k) ms b = Some r -> does_call (PRemove i k) tr (s, ts) ms b.
Proof.
  intros P. unfold pdoes. cbn [PtSpec.pstep pexec]. destruct (ms !! i) as [m|] eqn:I; [|discriminate]. destruct (key b k) as [l|] eqn:K; [|discriminate]. intros _.
  pose proof (key_str _ _ _ K) as [Ks B]. tab_at P I u U T. run (table_ok s ts i u U).
  destruct (does_cases d _ _ _ _ (HsProof.hremove_ok d Hwf mdiff Hm grow s a u m (str k) l (proj1 P) T (up_str _ _ _ _ _ _ _ _ P Ks) B) (q_remove _ _ _ _))
    as [([q u'] & s' & a' & X & Q & H' & E & T1 & O1)|(s' & a' & X & Q & H' & [])]. cbn [fst snd] in *. subst q.
  run (lift_ok _ s ts _ s' X). cbn. give rm. eapply pr_prel, (pr_put_same d Hwf a s ts ms b i u); [exact P|rewrite U; reflexivity|exact H'|exact Q|exact T1|exact O1].
Qed.
Lemma c_contains i k tr a s ts ms b rm r : pr a s ts ms b -> pstep rm (PContains i k) ms b = Some r -> does_call (PContains i k) tr (s, ts) ms b.
Proof.
  intros P. unfold pdoes. cbn [PtSpec.pstep pexec]. destruct (ms !! i) as [m|] eqn:I; [|discriminate]. destruct (key b k) as [l|] eqn:K; [|discriminate]. intros _.
  pose proof (key_str _ _ _ K) as [Ks B]. tab_at P I u U T. run (table_ok s ts i u U).
  destruct (HsProof.hcontains_ok d Hwf mdiff Hm grow s a u m (str k) l (proj1 P) T (up_str _ _ _ _ _ _ _ _ P Ks) B) as (s' & X & H').
  run (lift_ok _ s ts _ s' X). cbn. give rm. eapply pr_prel, pr_same; eassumption.
Qed.
Lemma c_get q i k tr a s ts ms b rm r : pr a s ts ms b -> pstep rm (PGet q i k) ms b = Some r -> does_call (PGet q i k) tr (s, ts) ms b.
Proof.
  intros P. unfold pdoes. cbn [PtSpec.pstep pexec]. destruct (ms !! i) as [m|] eqn:I; [|discriminate]. destruct (key b k) as [l|] eqn:K; [|discriminate].
  destruct (b !! q) eqn:Bq; [discriminate|]. intros _.
  pose proof (key_str _ _ _ K) as [Ks B]. tab_at P I u U T. run (table_ok s ts i u U).
  assert (a !! str q = None) as Aq by (rewrite (pr_pulls _ _ _ _ _ _ P); exact Bq).
  destruct (HsProof.does_elim d _ _ _ (HsProof.hget_ok d Hwf mdiff Hm grow s a u m (str k) l (str q) (proj1 P) T (up_str _ _ _ _ _ _ _ _ P Ks) B Aq))
    as ([] & s' & a' & X & H' & c & -> & _).
  run (lift_ok _ s ts _ s' X). cbn. give c. eapply pr_prel, (pr_user d a s ts ms b); [exact P|exact H'| |].
  - apply NestSim.pulls_insert; [exact inj_str|exact (pr_pulls _ _ _ _ _ _ P)].
  - apply NestSim.keeps_insert, NestSim.keeps_refl.
Qed.
Lemma c_find i k o tr a s ts ms b rm r : pr a s ts ms b -> pstep rm (PFind i k o) ms b = Some r -> does_call (PFind i k o) tr (s, ts) ms b.
Proof.
  intros P. unfold pdoes. cbn [PtSpec.pstep pexec]. destruct (ms !! i) as [m|] eqn:I; [|discriminate]. destruct (key b k) as [l|] eqn:K; [|discriminate].
  intros Hr. pose proof (key_str _ _ _ K) as [Ks B]. tab_at P I u U T. run (table_ok s ts i u U).
  destruct (HsProof.hfind_ok d Hwf mdiff Hm grow s a u m (str k) l (proj1 P) T (up_str _ _ _ _ _ _ _ _ P Ks) B) as ([n|] & s' & X & H' & Y); run (lift_ok _ s ts _ s' X).
  - destruct Y as (N & L & Ml). rewrite Ml in Hr |- *. set (w := text a (snd n)) in *.
    assert (<[i := <[l := w]> m]> ms = ms) as Em by (rewrite (insert_id m l w Ml); apply insert_id, I).
    assert (pr a s' ts (<[i := <[l := w]> m]> ms) b) as P1 by (rewrite Em; eapply pr_same; eassumption).
    pose proof (value_run d Hwf o rm i l w m ms b a s' ts u n r P1 U N L Hr) as V.
    destruct (exec d (ren (elem_name (snd n)) o) s') as [v s2|[|] s2| | |] eqn:E; try contradiction.
    + run (lift_ok _ s' ts _ s2 E). cbn. destruct V as (q & ms' & b' & v' & V1 & V2 & V3). exists q, ms', b', (POut v'). auto.
    + fail_run (lift_exn _ s' ts _ s2 E). exact V.
    + fail_run (lift_exn _ s' ts _ s2 E). destruct V as [(q & Sh) (ms' & b' & F & V)]. split; [exists m, l, w, q; auto|].
      exists ms', b'. split; [|exact V]. rewrite Em in F. eapply pf_find; eassumption.
  - rewrite Y. cbn. give rm. eapply pr_prel, pr_same; eassumption.
Qed.
Lemma c_value mk i k o tr a s ts ms b rm r : pr a s ts ms b -> pstep rm (PValue mk i k o) ms b = Some r -> does_call (PValue mk i k o) tr (s, ts) ms b.
Proof.
  intros P. unfold pdoes. cbn [PtSpec.pstep pexec short]. destruct (ms !! i) as [m|] eqn:I; [|discriminate]. destruct (key b k) as [l|] eqn:K; [|discriminate].
  intros Hr. pose proof (key_str _ _ _ K) as [Ks B]. tab_at P I u U T. run (table_ok s ts i u U).
  assert (mk = true -> str k ∉ owned u) as N1 by (intros _; eapply not_owned; eassumption).
  pose proof (q_index d mdiff grow (t_lack tr) mk u (str k) s) as Q.
  pose proof (HsProof.hindex_ok d Hwf mdiff Hm grow (t_lack tr) mk s a u m (str k) l (proj1 P) T (up_str _ _ _ _ _ _ _ _ P Ks) B N1) as D.
  set (b1 := match m !! l with Some _ => b | None => robbed mk k b end) in *. set (w := default [] (m !! l)) in *.
  assert (forall n (u' : table) s1 a1, hindex d mdiff grow (t_lack tr) mk u (str k) s = Ok (n, u') s1 -> pr a1 s1 (<[i := u']> ts) (<[i := <[l := w]> m]> ms) b1 ->
    In n (nodes u') -> text a1 (fst n) = l ->
    match (let* r0 := lift (hindex d mdiff grow (t_lack tr) mk u (str k)) in set_table i (snd r0) ;;; let* w0 := lift (exec d (ren (elem_name (snd (fst r0))) o)) in ret (POut w0)) (s, ts) with
    | Ok v st' => exists rm ms' b' v', on_value (step d) rm o i l w m ms b1 = Some (PRet ms' b' v') /\ pout_le v' v /\ prel d st' ms' b'
    | Exn OutOfRange st' => exists rm ms' b', on_value (step d) rm o i l w m ms b1 = Some (PRange ms' b') /\ prel d st' ms' b'
    | Exn BadAlloc st' => (t_lack tr <> LNone \/ exists m0 l0 rm, Some m = Some m0 /\ Some l = Some l0 /\
        ushort d o (<[1%positive := AVal rm (map Some (default [] (m0 !! l0)))]> (match m0 !! l0 with Some _ => b | None => robbed mk k b end))) /\
        exists ms' b', pfail ms b (PValue mk i k o) ms' b' /\ prel d st' ms' b'
    | _ => False
    end) as Go.
  { intros n u' s1 a1 X P1 N L. run (lift_ok _ s ts _ s1 X). cbn [fst snd].
    pose proof (value_run d Hwf o rm i l w m ms b1 a1 s1 (<[i := u']> ts) u' n r P1 (lookup_insert _ _ _) N L Hr) as V.
    unfold set_table at 1. cbv beta iota delta [bind]. unfold lift.
    destruct (exec d (ren (elem_name (snd n)) o) s1) as [v s2|[|] s2| | |] eqn:E; try contradiction.
    - cbn. destruct V as (q & ms' & b' & v' & V1 & V2 & V3). exists q, ms', b', (POut v'). auto.
    - exact V.
    - destruct V as [(q & Sh) (ms' & b' & F & V)]. split; [right; exists m, l, q; auto|]. exists ms', b'. split; [|exact V]. eapply pf_on; [exact I|exact K|reflexivity|exact F]. }
  destruct D as [(L & Ml & s' & X & H')|[(n & s' & Ml & X & H' & N & L)|(n & u' & s' & D)]].
  - fail_run (lift_exn _ s ts BadAlloc s' X). split; [left; exact L|]. exists ms, (robbed (lost (t_lack tr) mk) k b). split.
    + rewrite <- robbed_lost. eapply pf_value; eassumption.
    + eapply pr_prel, pr_robbed; eassumption.
  - apply (Go n u s' a X); [|exact N|exact L]. subst w b1. rewrite Ml. cbn [default]. rewrite (insert_id ts i u U), (insert_id m l _ Ml), (insert_id ms i m I).
    eapply pr_same; eassumption.
  - cbn zeta in D. destruct D as (Ml & X & H' & T' & Pm & L & A1 & A2 & N12). rewrite X in Q.
    match type of H' with reached _ _ ?A => apply (Go n u' s' A X); [|rewrite Pm; left; reflexivity|exact L] end. subst w b1. rewrite Ml. cbn [default].
    change (robbed mk k b) with (robbed mk k (robbed false k b)).
    apply (pr_put d Hwf mk false k k a s ts ms b i u); try assumption; [|eapply key_live; eassumption..].
    assert (forall x, x ∈ owned u' <-> x = fst n \/ x = snd n \/ x ∈ owned u) as Ow.
    { intros x. unfold owned. rewrite (HsProof.own_perm _ _ Pm). apply HtProof.own_cons. }
    assert (is_Some (a !! str k)) as Ak by (eapply key_live, (up_str _ _ _ _ _ _ _ _ P Ks)).
    apply map_eq. intros x. rewrite !HsProof.others_lookup.
    destruct (decide (x ∈ owned u')) as [X1|X1]; destruct (decide (x ∈ owned u)) as [X2|X2]; try reflexivity.
    + apply Ow in X1 as [->|[->|X1]]; [| |contradiction]; unfold taken; destruct mk; [| | |]; rewrite ?lookup_insert_ne; auto;
        intros Ek; rewrite Ek in Ak; destruct Ak as (? & Ak); congruence.
    + exfalso. apply X1, Ow. auto.
    + rewrite !lookup_insert_ne; [reflexivity|intros Ex; apply X1, Ow; auto..].
Qed.

(** Every call does what it is to do. *)
Lemma pexec_ok c tr st ms b rm r : prel d st ms b -> pstep rm c ms b = Some r -> does_call c tr st ms b.
Proof.
  destruct st as [s ts]. intros (a & P) Hr. change (pr a s ts ms b) in P.
  destruct c; [eapply c_string|eapply c_make|eapply c_list|eapply c_copy|eapply c_assign|eapply c_move|eapply c_move_assign|eapply c_swap|eapply c_destroy|
    eapply c_clear|eapply c_size|eapply c_insert|eapply c_put|eapply c_remove|eapply c_contains|eapply c_get|eapply c_value|eapply c_find]; eassumption.
Qed.
Lemma pobserve_ok prog : forall st ms b, prel d st ms b -> pallows d ms b prog (pobserve d mdiff grow prog st).
Proof.
  induction prog as [|[c tr] prog IH]; intros st ms b H; [constructor|]. cbn [pobserve].
  destruct (pstep true c ms b) as [r|] eqn:E.
  - pose proof (pexec_ok c tr st ms b true r H E) as D. unfold pdoes in D. destruct (pexec d mdiff grow c tr st) as [v st'|[|] st'| | |]; try contradiction.
    + destruct D as (rm & ms' & b' & v' & D1 & D2 & D3). eapply pl_ret; [exact D1|exact D2|apply IH, D3].
    + destruct D as (rm & ms' & b' & D1 & D3). eapply pl_range; [exact D1|apply IH, D3].
    + destruct D as (Sh & ms' & b' & D1 & D3). eapply pl_oom; [exact Sh|exact D1|apply IH, D3].
  - apply pl_misuse. intros rm. exact (PtFlags.step_none d true rm c ms b E).
Qed.
Lemma prel_init : prel d (st_init, ∅) ∅ ∅.
Proof.
  exists ∅. split; [apply re_init|]. split; [|intros i u x I; cbn in I; rewrite lookup_empty in I; discriminate]. cbn [snd]. constructor.
  - intros i. rewrite !lookup_empty. split; reflexivity.
  - intros i u m I. rewrite lookup_empty in I. discriminate.
  - intros i j u v I. rewrite lookup_empty in I. discriminate.
  - intros x y. rewrite kmap_empty. split; [intros E; rewrite lookup_empty in E; discriminate|]. intros [E _]. setoid_rewrite lookup_empty in E. discriminate.
Qed.
Lemma prel_none st ms b : prel d st ms b -> ms = ∅ -> b = ∅ -> st_heap (fst st) = ∅.
Proof.
  destruct st as [s ts]. intros (a & H & A & _) -> ->. cbn [fst snd] in *. rewrite kmap_empty in A. eapply HtProof.hold_none; [exact Hwf|]. exists a.
  assert (ts = ∅) as ->; [|auto]. apply map_empty. intros i. apply (all_none _ _ _ _ _ A), lookup_empty.
Qed.

(** What a call does not mention. *)
Lemma in_others x o : x <> 1%positive -> x ∈ MstSpec.mentions o -> x ∈ List.filter (fun x => negb (Pos.eqb x 1)) (MstSpec.mentions o).
Proof. intros N H. apply elem_of_list_In, filter_In. split; [apply elem_of_list_In, H|]. destruct (Pos.eqb_spec x 1); [contradiction|reflexivity]. Qed.
Definition kept (c : pcall) (ms : maps) (b : astate Z) (ms' : maps) (b' : astate Z) : Prop :=
  (forall j, j ∉ tables_of c -> ms' !! j = ms !! j) /\ (forall x, x ∉ strings_of c -> b' !! x = b !! x).
Lemma robbed_other p k b x : x <> k -> robbed p k b !! x = b !! x.
Proof. destruct p; [|reflexivity]. intros N. apply lookup_insert_ne. congruence. Qed.
Lemma kept_value rm o i l w m ms b c : i ∈ tables_of c -> (forall x, x <> 1%positive -> x ∈ MstSpec.mentions o -> x ∈ strings_of c) ->
  match on_value (step d) rm o i l w m ms b with Some (PRet ms' b' _) | Some (PRange ms' b') => kept c ms b ms' b' | None => True end.
Proof.
  intros Hi Ho. unfold on_value. destruct (no_cstr o); [|exact I]. cbn [need]. destruct (step d o _) as [[b' v|]|] eqn:E; [| |exact I].
  - destruct (full b' 1) as [w'|]; [|exact I]. split.
    + intros j J. apply lookup_insert_ne. intros ->. contradiction.
    + intros x X. destruct (decide (x = 1%positive)) as [->|N]; [apply lookup_partial_alter|]. rewrite lookup_partial_alter_ne by congruence.
      rewrite (MstProof.frame_mentions d o _ _ v x E); [apply lookup_insert_ne; congruence|]. intros Y. apply X, Ho; assumption.
  - split; [|reflexivity]. intros j J. apply lookup_insert_ne. intros ->. contradiction.
Qed.
Ltac other_names := repeat first [rewrite lookup_insert_ne by (intros ->; set_solver) | rewrite lookup_delete_ne by (intros ->; set_solver) | rewrite robbed_other by (intros ->; set_solver)]; reflexivity.
Lemma kept_step rm c ms b : match pstep rm c ms b with Some (PRet ms' b' _) | Some (PRange ms' b') => kept c ms b ms' b' | None => True end.
Proof.
  destruct c; cbn [PtSpec.pstep];
    try solve [unfold need; repeat (match goal with |- context [match ?e with _ => _ end] => lazymatch e with context [match _ with _ => _ end] => fail | _ => destruct e end end; try exact I); split; cbn [tables_of strings_of]; intros; other_names].
  - destruct (no_cstr o); [|exact I]. cbn [need]. destruct (step d o b) as [[b' v|]|] eqn:E; [| |exact I]; (split; [reflexivity|]); [|reflexivity].
    intros x X. exact (MstProof.frame_mentions d o _ _ v x E X).
  - destruct (ms !! i) as [m|]; [|exact I]. destruct (key b k) as [l|]; [|exact I].
    pose proof (kept_value rm o i l (default [] (m !! l)) m ms (match m !! l with Some _ => b | None => robbed mk k b end) (PValue mk i k o)) as V.
    destruct (on_value _ _ _ _ _ _ _ _ _) as [[ms' b' v|ms' b']|]; [| |exact I].
    all: destruct V as [V1 V2]; [cbn; set_solver|intros x N X; cbn [strings_of]; right; apply in_others; assumption|]; split; [exact V1|]; intros x X; rewrite V2 by exact X;
      destruct (m !! l); [reflexivity|]; apply robbed_other; intros ->; apply X; left.
  - destruct (ms !! i) as [m|]; [|exact I]. destruct (key b k) as [l|]; [|exact I]. destruct (m !! l) as [w|]; [|split; reflexivity].
    apply kept_value; [cbn; set_solver|]. intros x N X. cbn [strings_of]. right. apply in_others; assumption.
Qed.
Lemma kept_vfail ms b i l o ms' b' c : vfail ms b i l o ms' b' -> i ∈ tables_of c -> (forall x, x <> 1%positive -> x ∈ MstSpec.mentions o -> x ∈ strings_of c) -> kept c ms b ms' b'.
Proof.
  intros F Hi Ho. destruct F as [i l o|i l o m T J|i l o x T N]; (split; [|reflexivity || idtac]); try reflexivity.
  - intros j J'. apply lookup_insert_ne. intros ->. contradiction.
  - intros y Y. apply lookup_insert_ne. intros ->. apply Y, Ho; [exact N|]. apply MstProof.target_mentions, T.
Qed.
Lemma kept_fail c ms b ms' b' : pfail ms b c ms' b' -> kept c ms b ms' b'.
Proof.
  intros F. destruct F as [o b' U| | | | | |mk mv i k v m l lose| mk mv i k v m l lose|mk i k o m l lose|mk i k o m l b1 ms' b' J K E F|i k o m l w ms' b' J K E F];
    try solve [split; cbn [tables_of strings_of]; intros; other_names].
  - split; [reflexivity|]. intros x X. destruct U as [|y T]; [reflexivity|]. apply lookup_insert_ne. intros ->. apply X, MstProof.target_mentions, T.
  - apply (kept_vfail _ _ _ _ _ _ _ (PValue mk i k o)) in F as [V1 V2]; [|cbn; set_solver|intros x N X; cbn [strings_of]; right; apply in_others; assumption].
    split; [intros j J'; rewrite V1 by exact J'; apply lookup_insert_ne; intros ->; apply J'; left|]. intros x X. rewrite V2 by exact X. subst b1.
    destruct (m !! l); [reflexivity|]. apply robbed_other. intros ->. apply X. left.
  - apply (kept_vfail _ _ _ _ _ _ _ (PFind i k o)) in F; [exact F|cbn; set_solver|intros x N X; cbn [strings_of]; right; apply in_others; assumption].
Qed.
Lemma pexec_kept c tr st ms b rm r : prel d st ms b -> pstep rm c ms b = Some r ->
  match pexec d mdiff grow c tr st with
  | Ok _ st' | Exn _ st' => exists ms' b', prel d st' ms' b' /\ (forall j, j ∉ tables_of c -> ms' !! j = ms !! j) /\ (forall x, x ∉ strings_of c -> b' !! x = b !! x)
  | _ => False
  end.
Proof.
  intros H E. pose proof (pexec_ok c tr st ms b rm r H E) as D. unfold pdoes in D. destruct (pexec d mdiff grow c tr st) as [v st'|[|] st'| | |]; try contradiction.
  - destruct D as (rm' & ms' & b' & v' & D1 & _ & D3). exists ms', b'. split; [exact D3|]. pose proof (kept_step rm' c ms b) as K. rewrite D1 in K. exact K.
  - destruct D as (rm' & ms' & b' & D1 & D3). exists ms', b'. split; [exact D3|]. pose proof (kept_step rm' c ms b) as K. rewrite D1 in K. exact K.
  - destruct D as (_ & ms' & b' & D1 & D3). exists ms', b'. split; [exact D3|]. exact (kept_fail c ms b ms' b' D1).
Qed.
End Proof.
