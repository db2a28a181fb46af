(** Proofs for LibMeet. *)
From stdpp Require Import gmap.
From Verif Require Import Base RcaSpec RcaModel RcaExec RcaOwn RcaRel RcaMeet RcaReach StrSpec StrModel AlgModel AlgMeet B64hModel B64hMeet NestModel HashModel HsModel HsMeet
  HtModel HtMeet PtSpec PtModel PtMeet PtProof LibSpec LibModel LibMeet.
From Verif Require RcaInv RcaFacts StrCmp StrFind StrAlg AlgRules AlgSub AlgFacts AlgSplit B64Proof B64hProof NestSim HsProof HtProof PtCall.
Open Scope Z_scope.

(** Replacing makes a text longer by a factor at most. *)
Lemma replaced_len k v n s t : k <> [] -> replaced k v n s t -> (length t <= length s * S (length v))%nat.
Proof.
  intros N R. induction R as [n s _|n s _|n s a rest t _ -> _ R IH]; [lia|lia|].
  destruct k as [|c k]; [contradiction|]. rewrite !app_length. cbn [length]. nia.
Qed.
Fixpoint factor (kvs : list (chars * chars)) : nat := match kvs with [] => 1%nat | kv :: kvs' => (S (length (snd kv)) * factor kvs')%nat end.
Lemma factor_pos kvs : (1 <= factor kvs)%nat.
Proof. induction kvs as [|kv kvs IH]; cbn [factor]; nia. Qed.
Lemma factor_app l1 l2 : factor (l1 ++ l2) = (factor l1 * factor l2)%nat.
Proof. induction l1 as [|kv l1 IH]; cbn [factor app]; [lia|]. rewrite IH. lia. Qed.
Lemma turn_len kvs : forall s w, Forall (fun kv => fst kv <> []) kvs -> in_turn kvs s w -> (length w <= length s * factor kvs)%nat.
Proof.
  induction kvs as [|[k v] kvs IH]; intros s w N H; cbn [in_turn factor snd] in *; [subst; lia|].
  inversion N as [|? ? N1 N2]; subst. destruct H as (t & _ & R & H). apply (IH _ _ N2) in H. apply (replaced_len _ _ _ _ _ N1) in R. nia.
Qed.
Lemma turn_prefix l1 l2 : forall s w, in_turn (l1 ++ l2) s w -> exists t, in_turn l1 s t.
Proof.
  induction l1 as [|[k v] l1 IH]; intros s w H; [exists s; reflexivity|]. cbn [app in_turn] in *. destruct H as (t & L & R & H). destruct (IH _ _ H) as (u & U).
  exists u, t. auto.
Qed.
Lemma turn_subst fuel kvs : forall s w, Forall (fun kv => fst kv <> []) kvs -> in_turn kvs s w -> (length s * factor kvs < fuel)%nat -> subst fuel s kvs tt = Ok w tt.
Proof.
  induction kvs as [|[k v] kvs IH]; intros s w N H L; cbn [in_turn factor snd subst] in *; [subst; reflexivity|].
  inversion N as [|? ? N1 N2]; subst. destruct H as (t & Ls & R & H). cbn [fst] in N1. pose proof (factor_pos kvs).
  pose proof (replaced_len _ _ _ _ _ N1 R). unfold bind. destruct (StrAlg.sub_spec s k v (-1) fuel N1 Ls) as (t' & T1 & T2); [unfold W31; lia|nia|].
  rewrite T1. rewrite (StrAlg.replaced_det _ _ _ _ _ N1 T2 _ R). apply (IH _ _ N2 H). nia.
Qed.

(** Names of temporaries. *)
Lemma above_all e x (o : obj) : e !! x = Some o -> (x <= above e)%positive.
Proof.
  intros E. apply elem_of_map_to_list in E. unfold above. revert E. generalize (map_to_list e). intros l. induction l as [|p l IH]; intros E; [inversion E|].
  cbn [map fold_right]. inversion E as [|? ? ? E']; subst; cbn [fst]; [lia|]. specialize (IH E'). lia.
Qed.

Section Proof.
Variable d : desc Z.
Hypothesis Hwf : wf_desc d.
Hypothesis Hnul : d_nul d = Some 0.
Hypothesis Heqb : forall b c, d_eqb d b c = (b =? c).
Variable mdiff : Z -> Z -> Z.
Hypothesis Hm : memcmp_ok mdiff.
Variable grow : Z -> Z -> option Z.
Variable el : positive -> nat -> positive.
Hypothesis Hel : forall j k k', el j k = el j k' -> k = k'.
Variable upper : Z -> Z.
Variable junk : Z -> Z.
Implicit Types (s : state Z) (a b : astate Z) (ts : tables) (ms : maps).
Notation pr := (PtProof.pr d).
Notation ldoes := (ldoes d mdiff grow el upper junk).

Definition tmp s (k : nat) : positive := xI (above (st_env s) + Pos.of_succ_nat k).
Lemma tmp_new s a k : reached d s a -> a !! tmp s k = None.
Proof.
  intros H. apply (NestSim.R_env_none d s a _ (reached_R d s a Hwf H)). destruct (st_env s !! tmp s k) as [o|] eqn:E; [|reflexivity].
  apply above_all in E. unfold tmp in E. lia.
Qed.
Lemma tmp_inj s k k' : tmp s k = tmp s k' -> k = k'.
Proof. unfold tmp. intros E. injection E as E. lia. Qed.
Lemma tmp_str s k x : tmp s k <> str x.
Proof. discriminate. Qed.
Lemma tmps_unused s a ks : reached d s a -> base.NoDup ks -> unused a (map (tmp s) ks).
Proof.
  intros H N. split.
  - apply NoDup_ListNoDup. apply NoDup_fmap_2; [intros k k'; apply tmp_inj|exact N].
  - apply Forall_forall. intros x X. apply in_map_iff in X as (k & <- & _). apply tmp_new, H.
Qed.
Lemma str_tmps_unused s a r ks : reached d s a -> a !! str r = None -> base.NoDup ks -> unused a (str r :: map (tmp s) ks).
Proof.
  intros H R N. destruct (tmps_unused s a ks H N) as [A B]. split; [|constructor; assumption]. constructor; [|exact A].
  intros X. apply in_map_iff in X as (k & X & _). exact (tmp_str s k r X).
Qed.

(** Running on the heap. *)
Lemma on_ok {A} (m : M (state Z) A) s ts ls n v s' : m s = Ok v s' -> on_strs m (Lmem (s, ts) ls n) = Ok v (Lmem (s', ts) ls n).
Proof. intros E. unfold on_strs, on_pt. cbn [m_pt m_lists m_blocks]. rewrite (lift_ok m s ts v s' E). reflexivity. Qed.
Lemma on_exn {A} (m : M (state Z) A) s ts ls n e s' : m s = Exn e s' -> on_strs m (Lmem (s, ts) ls n) = Exn e (Lmem (s', ts) ls n).
Proof. intros E. unfold on_strs, on_pt. cbn [m_pt m_lists m_blocks]. rewrite (lift_exn m s ts e s' E). reflexivity. Qed.
Lemma makes_cases {A} (C : Prop) (m : M (state Z) A) s a a' v : makes d C m s a a' v ->
  (exists s', m s = Ok v s' /\ reached d s' a') \/ (exists s', m s = Exn BadAlloc s' /\ C /\ reached d s' a).
Proof.
  unfold makes. destruct (m s) as [v' s'|e s'| | |u]; [| |tauto..].
  - intros (-> & H & _). left. eauto.
  - intros (-> & HC & H & _). right. eauto.
Qed.
Lemma str_full b x l : full b x = Some l -> is_str b x l.
Proof. apply full_str. Qed.
Lemma pr_full a s ts ms b x l : pr a s ts ms b -> full b x = Some l -> is_str a (str x) l.
Proof. intros P F. eapply up_str; [exact P|]. apply full_str, F. Qed.
Lemma pr_new a s ts ms b r : pr a s ts ms b -> b !! r = None -> a !! str r = None.
Proof. intros P R. rewrite (pr_pulls d _ _ _ _ _ P). exact R. Qed.
Lemma pr_insert a s ts ms b s' r v : pr a s ts ms b -> reached d s' (<[str r := v]> a) -> pr (<[str r := v]> a) s' ts ms (<[r := v]> b).
Proof.
  intros P H'. apply (pr_user d a s ts ms b); [exact P|exact H'| |].
  - apply NestSim.pulls_insert; [exact inj_str|exact (pr_pulls d _ _ _ _ _ P)].
  - apply NestSim.keeps_insert, NestSim.keeps_refl.
Qed.
Lemma pr_prel' a s ts ms b ls n w : pr a s ts ms b -> w_maps w = ms -> w_strs w = b -> w_lists w = ls -> w_lost w = n -> lrel d (Lmem (s, ts) ls n) w.
Proof. intros P <- <- <- <-. split; [|split; reflexivity]. cbn [m_pt]. eapply pr_prel, P. Qed.

(** A call that makes a new String. *)
Lemma makes_new {A} C (m : M (state Z) A) c tr a s ts w r rm t v : pr a s ts (w_maps w) (w_strs w) ->
  makes d C m s a (<[str r := AVal rm (map Some t)]> a) v ->
  lexec d mdiff grow el upper junk c tr (Lmem (s, ts) (w_lists w) (w_lost w)) = bind (on_strs m) (fun _ => ret LVoid) (Lmem (s, ts) (w_lists w) (w_lost w)) ->
  (C -> lshort d el c tr w) -> lfail c w w ->
  (new_text r t w (with_strs w (<[r := AVal rm (map Some t)]> (w_strs w))) -> lpost (step d) el upper c w LVoid (with_strs w (<[r := AVal rm (map Some t)]> (w_strs w)))) ->
  ldoes c tr (Lmem (s, ts) (w_lists w) (w_lost w)) w.
Proof.
  intros P Mk Ex Sh Fl Po. unfold LibMeet.ldoes. rewrite Ex. destruct (makes_cases _ _ _ _ _ _ Mk) as [(s' & E & H')|(s' & E & HC & H')].
  - rewrite (HsProof.bind_ok _ _ _ _ _ (on_ok _ s ts _ _ _ _ E)). cbn [ret]. exists (with_strs w (<[r := AVal rm (map Some t)]> (w_strs w))), LVoid.
    split; [apply Po; exists rm; reflexivity|]. split; [reflexivity|].
    eapply pr_prel'; [eapply pr_insert; eassumption|reflexivity..].
  - rewrite (HsProof.bind_exn _ _ _ _ _ (on_exn _ s ts _ _ _ _ E)). split; [apply Sh, HC|]. exists w. split; [exact Fl|].
    eapply pr_prel'; [eapply pr_same; eassumption|reflexivity..].
Qed.
Notation at_w ts s w := (Lmem (s, ts) (w_lists w) (w_lost w)).
Ltac nd := apply NoDup_ListNoDup; repeat constructor; cbn; lia.

Lemma c_plus r x y tr a s ts w : pr a s ts (w_maps w) (w_strs w) -> lpre (step d) el upper (LPlus r x y) w -> ldoes (LPlus r x y) tr (at_w ts s w) w.
Proof.
  intros P ((sx & sy & X & Y) & R).
  pose proof (AlgFacts.plus_makes d Hwf Hnul s a (str r) (str x) (str y) (tmp s 0) sx sy (proj1 P)) as Mk.
  eapply makes_new; [exact P|apply Mk|reflexivity| | |].
  - apply (str_tmps_unused s a r [0%nat]); [apply P|eapply pr_new; eassumption|nd].
  - eapply pr_full; eassumption.
  - eapply pr_full; eassumption.
  - intros C. exists sx, sy. auto.
  - reflexivity.
  - intros T. split; [reflexivity|]. intros sx' sy' X' Y'. assert (sx' = sx) as -> by congruence. assert (sy' = sy) as -> by congruence. exact T.
Qed.
Lemma c_times r x n tr a s ts w : pr a s ts (w_maps w) (w_strs w) -> lpre (step d) el upper (LTimes r x n) w -> ldoes (LTimes r x n) tr (at_w ts s w) w.
Proof.
  intros P ((sx & X) & R & N).
  pose proof (AlgFacts.times_makes d Hwf Hnul s a (str r) (str x) n sx (proj1 P)) as Mk.
  eapply makes_new; [exact P|apply Mk|reflexivity| | |].
  - eapply pr_new; eassumption.
  - eapply pr_full; eassumption.
  - exact N.
  - intros C. exists sx. auto.
  - reflexivity.
  - intros T. split; [reflexivity|]. intros sx' X'. assert (sx' = sx) as -> by congruence. exact T.
Qed.
Lemma rounds_ok s a x l : reached d s a -> is_str a x l -> rounds x s = Ok (S (length l)) s.
Proof.
  intros H X. unfold rounds. rewrite (HsProof.bind_ok _ _ _ _ _ (AlgRules.length_is d Hwf s a x l H X)). unfold ret, zlen. rewrite Nat2Z.id. reflexivity.
Qed.
Lemma c_sub r x y z limit tr a s ts w : pr a s ts (w_maps w) (w_strs w) -> lpre (step d) el upper (LSub r x y z limit) w -> ldoes (LSub r x y z limit) tr (at_w ts s w) w.
Proof.
  intros P ((sx & sy & sz & X & Y & Hz & N & L) & R & Hl).
  destruct (AlgFacts.sub_makes d Hwf Hnul s a (str r) (tmp s 0) (tmp s 1) (str x) (str y) (str z) sx sy sz limit (S (length sx)) (proj1 P)) as (t & T & Mk).
  - apply (str_tmps_unused s a r [0%nat; 1%nat]); [apply P|eapply pr_new; eassumption|nd].
  - eapply pr_full; eassumption.
  - eapply pr_full; eassumption.
  - eapply pr_full; eassumption.
  - exact N.
  - exact L.
  - exact Hl.
  - lia.
  - eapply (makes_new _ (let* t := temps in let* f := rounds (str x) in hsub d f (str r) (t O) (t 1%nat) (str x) (str y) (str z) limit)); [exact P| |reflexivity| | |].
    + unfold makes in *. unfold temps at 1, bind at 1. unfold bind. rewrite (rounds_ok s a (str x) sx (proj1 P)) by (eapply pr_full; eassumption). exact Mk.
    + intros C. exists sx, sy, sz, t. split_and!; try assumption.
    + reflexivity.
    + intros T'. split; [reflexivity|]. intros sx' sy' sz' X' Y' Z'. assert (sx' = sx) as -> by congruence. assert (sy' = sy) as -> by congruence.
      assert (sz' = sz) as -> by congruence. exists t. auto.
Qed.
Lemma rounds_all_ok s a kvs tkvs : forall k, reached d s a -> Forall2 (fun p (tp : chars * chars) => is_str a (fst p) (fst tp) /\ is_str a (snd p) (snd tp)) kvs tkvs ->
  rounds_all k kvs s = Ok (k * factor tkvs)%nat s.
Proof.
  intros k H F. revert k. induction F as [|p tp kvs tkvs [_ V] F IH]; intros k; cbn [rounds_all factor].
  - rewrite Nat.mul_1_r. reflexivity.
  - unfold bind. rewrite (rounds_ok s a _ _ H V), IH. f_equal. lia.
Qed.
Lemma node_texts a u m : tab d a u m ->
  let l := map (fun n => (text a (fst n), text a (snd n))) (nodes u) in
  Permutation l (map_to_list m) /\ Forall2 (fun p (tp : chars * chars) => is_str a (fst p) (fst tp) /\ is_str a (snd p) (snd tp)) (nodes u) l.
Proof.
  intros T. cbn zeta. split.
  - rewrite (tab_map _ _ _ _ T). symmetry. apply map_to_list_to_map.
    replace ((map (fun n => (text a (fst n), text a (snd n))) (nodes u)).*1) with (map (fun n => text a (fst n)) (nodes u)); [apply T|].
    induction (nodes u) as [|n l IH]; [reflexivity|]. cbn. f_equal. exact IH.
  - pose proof (tab_node _ _ _ _ T) as F. induction F as [|n l (_ & K & V) F IH]; cbn [map]; constructor; [split; assumption|exact IH].
Qed.
Lemma keys_full (l : list (chars * chars)) (m : gmap chars chars) : Permutation l (map_to_list m) -> m !! [] = None -> Forall (fun kv : chars * chars => fst kv <> []) l.
Proof.
  intros Pm N. apply Forall_forall. intros [k v] I E. cbn in E. subst. apply (Permutation_in _ Pm), elem_of_list_In, elem_of_map_to_list in I. congruence.
Qed.
Lemma c_subst r x i tr a s ts w : pr a s ts (w_maps w) (w_strs w) -> lpre (step d) el upper (LSubst r x i) w -> ldoes (LSubst r x i) tr (at_w ts s w) w.
Proof.
  intros P ((m & sx & I & X & N & C) & R). destruct (table_at d _ _ _ _ _ _ _ P I) as (u & U & T).
  destruct (node_texts a u m T) as [Pm F]. set (l := map _ (nodes u)) in *. destruct (C l Pm) as (t & Ct). pose proof (keys_full l m Pm N) as Nk.
  pose proof (pr_full _ _ _ _ _ _ _ P X) as (rx & Xa).
  set (ffu := (S (length sx) * factor l)%nat).
  assert (forall K, (forall l1 l2 t, l = l1 ++ l2 -> in_turn l1 sx t -> zlen t + 2 <= K) ->
    makes d (no_memory d K) (hsubst d ffu (str r) (tmp s 0) (tmp s 1) (tmp s 2) (str x) (nodes u)) s a
      (<[str r := AVal (match nodes u with [] => rx | _ => true end) (map Some t)]> a) tt) as Mk.
  { intros K HK. apply (AlgRules.makes_str d Hwf). eapply (AlgSub.hsubst_runs d Hwf Hnul); [apply P| |exact Xa|exact F| |].
    - apply (str_tmps_unused s a r [0%nat; 1%nat; 2%nat]); [apply P|eapply pr_new; eassumption|nd].
    - apply turn_subst; [exact Nk|exact Ct|]. pose proof (factor_pos l). unfold ffu. lia.
    - intros l1 l2 w1 E E1. destruct (turn_prefix l1 l2 sx t) as (w2 & W2); [rewrite <- E; exact Ct|].
      assert (Forall (fun kv : chars * chars => fst kv <> []) l1) as N1 by (rewrite E in Nk; apply Forall_app in Nk; apply Nk).
      assert (subst ffu sx l1 tt = Ok w2 tt) as E2.
      { apply turn_subst; [exact N1|exact W2|]. unfold ffu. rewrite E, factor_app. pose proof (factor_pos l1). pose proof (factor_pos l2). nia. }
      assert (w2 = w1) as -> by congruence. eapply HK; eassumption. }
  unfold LibMeet.ldoes. cbn [lexec].
  assert (on_pt (table_of i) (at_w ts s w) = Ok u (at_w ts s w)) as Et by (unfold on_pt, table_of; cbn [m_pt m_lists m_blocks]; rewrite U; reflexivity).
  rewrite (HsProof.bind_ok _ _ _ _ _ Et). clear Et.
  set (body := (let* t0 := temps in _)).
  assert (body s = hsubst d ffu (str r) (tmp s 0) (tmp s 1) (tmp s 2) (str x) (nodes u) s) as Eb.
  { unfold body, temps, bind. rewrite (rounds_ok s a (str x) sx (proj1 P)) by (eexists; exact Xa).
    change (List.concat (u_buckets u)) with (nodes u). rewrite (rounds_all_ok s a (nodes u) l _ (proj1 P) F). reflexivity. }
  destruct (hsubst d ffu (str r) (tmp s 0) (tmp s 1) (tmp s 2) (str x) (nodes u) s) as [v s'|e s'| | |ubb] eqn:Eh.
  1: rewrite (HsProof.bind_ok _ _ _ _ _ (on_ok body s ts _ _ _ _ Eb)).
  2: rewrite (HsProof.bind_exn _ _ _ _ _ (on_exn body s ts _ _ _ _ Eb)).
  all: assert (exists K, forall l1 l2 t, l = l1 ++ l2 -> in_turn l1 sx t -> zlen t + 2 <= K) as (K & HK)
    by (exists (Z.of_nat (length sx * factor l) + 2); intros l1 l2 t1 E1 T1;
        assert (Forall (fun kv : chars * chars => fst kv <> []) l1) as N1 by (rewrite E1 in Nk; apply Forall_app in Nk; apply Nk);
        pose proof (turn_len l1 sx t1 N1 T1); rewrite E1, factor_app; pose proof (factor_pos l2); unfold zlen; nia).
  3-5: pose proof (Mk K HK) as X3; unfold makes in X3; rewrite Eh in X3; contradiction.
  - pose proof (Mk K HK) as X3. unfold makes in X3. rewrite Eh in X3. destruct X3 as (_ & H' & _). cbn [ret].
    eexists (with_strs w _), LVoid. split; [|split; [reflexivity|eapply pr_prel'; [eapply pr_insert; eassumption|reflexivity..]]].
    split; [reflexivity|]. intros m' sx' I' X'. assert (m' = m) as -> by congruence. assert (sx' = sx) as -> by congruence.
    exists l, t. split; [exact Pm|]. split; [exact Ct|]. eexists. reflexivity.
  - pose proof (Mk K HK) as X3. unfold makes in X3. rewrite Eh in X3. destruct X3 as (-> & _ & H' & _).
    split; [|exists w; split; [reflexivity|eapply pr_prel'; [eapply pr_same; eassumption|reflexivity..]]].
    exists m, sx, l. split_and!; try assumption. intros K' HK'. pose proof (Mk K' HK') as X4. unfold makes in X4. rewrite Eh in X4. apply X4.
Qed.
Lemma token_cut c (sx : chars) : exists tok tl, (sx = tok ++ c :: tl /\ ~ In c tok) \/ (sx = tok /\ ~ In c sx /\ tl = []).
Proof.
  induction sx as [|x sx (tok & tl & [[-> N]|(E & N & ->)])].
  - exists [], []. right. cbn. tauto.
  - destruct (Z.eq_dec x c) as [->|Nx]; [exists [], (tok ++ c :: tl); left; split; [reflexivity|cbn; tauto]|]. exists (x :: tok), tl. left. split; [reflexivity|]. cbn. intuition.
  - destruct (Z.eq_dec x c) as [->|Nx]; [exists [], sx; left; split; [reflexivity|cbn; tauto]|]. exists (x :: sx), []. right. split; [reflexivity|]. split; [cbn; intuition|reflexivity].
Qed.
Lemma c_newsplit r x c tr a s ts w : pr a s ts (w_maps w) (w_strs w) -> lpre (step d) el upper (LNewsplit r x c) w -> ldoes (LNewsplit r x c) tr (at_w ts s w) w.
Proof.
  intros P ((sx & X & L) & R). destruct (pr_full _ _ _ _ _ _ _ P X) as (rx & Xa). destruct (token_cut c sx) as (tok & tl & Ct).
  destruct (AlgFacts.newsplit_gives d Hwf s a (str r) (str x) c rx sx tok tl Heqb (proj1 P) (pr_new _ _ _ _ _ _ P R) Xa L Ct) as (room & s' & E & H' & _).
  unfold LibMeet.ldoes. cbn [lexec]. rewrite (HsProof.bind_ok _ _ _ _ _ (on_ok _ s ts _ _ _ _ E)). cbn [ret].
  assert (skip (c =? 32) [] = []) as Sk by (destruct (c =? 32); reflexivity).
  eexists (with_strs w _), LVoid. split; [|split; [reflexivity|]].
  2:{ eapply pr_prel'; [|reflexivity..]. eapply (pr_user d a s ts (w_maps w) (w_strs w)); [exact P|exact H'| |].
      - apply NestSim.pulls_insert; [exact inj_str|]. apply NestSim.pulls_insert; [exact inj_str|exact (pr_pulls d _ _ _ _ _ P)].
      - apply NestSim.keeps_insert, NestSim.keeps_insert, NestSim.keeps_refl. }
  split; [reflexivity|]. intros sx' X'. assert (sx' = sx) as -> by congruence. exists tok, (skip (c =? 32) tl), rx, room. split; [|reflexivity].
  destruct Ct as [[E1 E2]|(E1 & E2 & ->)]; [left; exists tl; auto|right; auto].
Qed.
Lemma c_ifind x y tr a s ts w : pr a s ts (w_maps w) (w_strs w) -> lpre (step d) el upper (LIfind x y) w -> ldoes (LIfind x y) tr (at_w ts s w) w.
Proof.
  intros P (sx & sy & X & Y & N).
  destruct (AlgFacts.ifind_makes d Hwf s a upper (str x) (str y) (tmp s 0) (tmp s 1) sx sy (proj1 P)) as (v & F & Mk).
  - apply (tmps_unused s a [0%nat; 1%nat]); [apply P|nd].
  - eapply pr_full; eassumption.
  - eapply pr_full; eassumption.
  - exact N.
  - unfold LibMeet.ldoes. cbn [lexec]. destruct (makes_cases _ _ _ _ _ _ Mk) as [(s' & E & H')|(s' & E & HC & H')].
    + rewrite (HsProof.bind_ok _ _ _ _ _ (on_ok (let* t := temps in hifind d upper (str x) (str y) (t O) (t 1%nat)) s ts _ _ _ _ E)). cbn [ret].
      exists w, (LNum v). split; [|split; [reflexivity|eapply pr_prel'; [eapply pr_same; eassumption|reflexivity..]]].
      split; [reflexivity|]. intros sx' sy' X' Y'. assert (sx' = sx) as -> by congruence. assert (sy' = sy) as -> by congruence. exists v. split; [|reflexivity].
      destruct F as [F|[_ F]]; [left|right]; exact F.
    + rewrite (HsProof.bind_exn _ _ _ _ _ (on_exn (let* t := temps in hifind d upper (str x) (str y) (t O) (t 1%nat)) s ts _ _ _ _ E)).
      split; [exists sx, sy; auto|]. exists w. split; [reflexivity|]. eapply pr_prel'; [eapply pr_same; eassumption|reflexivity..].
Qed.
Lemma c_rifind x y lpos tr a s ts w : pr a s ts (w_maps w) (w_strs w) -> lpre (step d) el upper (LRifind x y lpos) w -> ldoes (LRifind x y lpos) tr (at_w ts s w) w.
Proof.
  intros P (sx & sy & X & Y & N & Bx & By).
  destruct (AlgFacts.rifind_makes d Hwf s a mdiff upper (str x) (str y) (tmp s 0) (tmp s 1) lpos sx sy Hm Bx By (proj1 P)) as (v & F & Mk).
  - apply (tmps_unused s a [0%nat; 1%nat]); [apply P|nd].
  - eapply pr_full; eassumption.
  - eapply pr_full; eassumption.
  - exact N.
  - unfold LibMeet.ldoes. cbn [lexec]. destruct (makes_cases _ _ _ _ _ _ Mk) as [(s' & E & H')|(s' & E & HC & H')].
    + rewrite (HsProof.bind_ok _ _ _ _ _ (on_ok (let* t := temps in hrifind d mdiff upper (str x) (str y) (t O) (t 1%nat) lpos) s ts _ _ _ _ E)). cbn [ret].
      exists w, (LNum v). split; [|split; [reflexivity|eapply pr_prel'; [eapply pr_same; eassumption|reflexivity..]]].
      split; [reflexivity|]. intros sx' sy' X' Y'. assert (sx' = sx) as -> by congruence. assert (sy' = sy) as -> by congruence. exists v. split; [|reflexivity].
      destruct F as [[-> F]|[_ F]]; [left|right; exact F]. split; [reflexivity|]. intros j J. pose proof (F j J). destruct J as (pre & post & _ & <-). pose proof (zlen_nonneg pre). lia.
    + rewrite (HsProof.bind_exn _ _ _ _ _ (on_exn (let* t := temps in hrifind d mdiff upper (str x) (str y) (t O) (t 1%nat) lpos) s ts _ _ _ _ E)).
      split; [exists sx, sy; auto|]. exists w. split; [reflexivity|]. eapply pr_prel'; [eapply pr_same; eassumption|reflexivity..].
Qed.
(** Questions. *)
Lemma ask_heap q x y s a sx sy : reached d s a -> is_str a x sx -> is_str a y sy -> ask_pre q sx sy ->
  (exists o, ask_strs mdiff q x y s = Ok o s /\ ask_post q sx sy o) \/
  (ask_strs mdiff q x y s = Exn OutOfRange s /\ exists pos, q = QFindFrom pos /\ zlen sx < pos).
Proof.
  intros H X Y Pre.
  pose proof (AlgRules.contents_str d Hwf s a x sx H X) as Cx. pose proof (AlgRules.contents_str d Hwf s a y sy H Y) as Cy.
  pose proof (AlgRules.length_is d Hwf s a x sx H X) as Lx. pose proof (AlgRules.length_is d Hwf s a y sy H Y) as Ly.
  pose proof (AlgRules.str_len d Hwf s a x sx H X) as Zx. pose proof (AlgRules.str_len d Hwf s a y sy H Y) as Zy.
  destruct X as (rx & Ex), Y as (ry & Ey).
  destruct (R_held d s a x rx _ (reached_R d s a Hwf H) Ex) as (o & Ho). destruct (R_held d s a y ry _ (reached_R d s a Hwf H) Ey) as (p & Hp).
  pose proof (hd_env _ _ _ _ _ _ Ho) as Eo. pose proof (hd_env _ _ _ _ _ _ Hp) as Ep.
  remember (ask_strs mdiff q x y s) as res eqn:Er. revert Er.
  unfold ask_strs. unfold bind at 1. rewrite (get_obj_ok _ _ _ Eo). unfold bind at 1. rewrite (get_obj_ok _ _ _ Ep).
  rewrite (HsProof.bind_ok _ _ _ _ _ Cx), (HsProof.bind_ok _ _ _ _ _ Cy). cbv zeta. intros ->.
  assert (same_buf o p = true -> zlen sx = zlen sy -> sx = sy) as Sm by (intros Hs Hl; exact (HsProof.same_contents s x y o p sx sy Eo Ep Hs Cx Cy Lx Ly Hl)).
  assert (zlen sx < W63 /\ zlen sy < W63) as [Wx Wy] by (unfold max_alloc, W63 in *; lia).
  assert (forall (m : M unit bool) e, m tt = Ok e tt -> (let* e := pure m in ret (LBool e)) s = Ok (LBool e) s) as Yes
    by (intros m e E; rewrite (HsProof.bind_ok _ _ _ _ _ (AlgRules.pure_ok m e s E)); reflexivity).
  assert (forall (m : M unit Z) n, m tt = Ok n tt -> (let* n := pure m in ret (LNum n)) s = Ok (LNum n) s) as Num
    by (intros m n E; rewrite (HsProof.bind_ok _ _ _ _ _ (AlgRules.pure_ok m n s E)); reflexivity).
  destruct q; cbn [ask_pre ask_post] in *.
  - destruct Pre as (Bx & By & D). destruct (StrCmp.compare_spec mdiff Hm (same_buf o p) sx sy Bx By Sm Wx Wy D) as (c & C1 & C2). left. eexists. split; [apply Num, C1|]. eauto.
  - destruct Pre as (Bx & By). destruct (StrCmp.op_eq_spec mdiff Hm (same_buf o p) sx sy Bx By Sm Wx Wy) as (e & E1 & E2). left. eexists. split; [apply Yes, E1|]. eauto.
  - destruct Pre as (Bx & By). destruct (StrCmp.op_eq_spec mdiff Hm (same_buf o p) sx sy Bx By Sm Wx Wy) as (e & E1 & E2). left. exists (LBool (negb e)).
    split; [apply Yes; unfold op_ne, bind; rewrite E1; reflexivity|]. exists (negb e). split; [|reflexivity]. destruct e; cbn; intuition congruence.
  - destruct Pre as (Bx & By & D). destruct (StrCmp.operators_spec mdiff Hm (same_buf o p) sx sy Bx By Sm Wx Wy D) as (O1 & _). left. eexists. split; [apply Yes, O1|].
    eexists. split; [|reflexivity]. destruct (lexcmp sx sy); split; congruence.
  - destruct Pre as (Bx & By & D). destruct (StrCmp.operators_spec mdiff Hm (same_buf o p) sx sy Bx By Sm Wx Wy D) as (_ & O1 & _). left. eexists. split; [apply Yes, O1|].
    eexists. split; [|reflexivity]. destruct (lexcmp sx sy); split; congruence.
  - destruct Pre as (Bx & By & D). destruct (StrCmp.operators_spec mdiff Hm (same_buf o p) sx sy Bx By Sm Wx Wy D) as (_ & _ & O1 & _). left. eexists. split; [apply Yes, O1|].
    eexists. split; [|reflexivity]. destruct (lexcmp sx sy); split; congruence.
  - destruct Pre as (Bx & By & D). destruct (StrCmp.operators_spec mdiff Hm (same_buf o p) sx sy Bx By Sm Wx Wy D) as (_ & _ & _ & O1 & _). left. eexists. split; [apply Yes, O1|].
    eexists. split; [|reflexivity]. destruct (lexcmp sx sy); split; congruence.
  - destruct (StrFind.find_spec sx sy Wx Pre) as (v & E & F). left. eexists. split; [apply Num, E|]. exists v. split; [|reflexivity]. destruct F as [F|[_ F]]; [left|right]; exact F.
  - destruct Pre as (N & Hpos). destruct (Z_le_gt_dec pos (zlen sx)) as [L|L].
    + destruct (StrFind.find_at_spec sx sy pos Wx N) as (v & E & F); [lia|]. left. eexists. split; [apply Num, E|]. split; [exact L|]. exists v. split; [|reflexivity].
      destruct F as [F|[_ F]]; [left|right]; exact F.
    + right. split; [|exists pos; split; [reflexivity|lia]]. unfold bind, pure. rewrite StrFind.find_at_throws by lia. reflexivity.
  - destruct Pre as (Bx & By & N & Hlo). destruct (StrFind.rfind_spec mdiff Hm sx sy lpos Bx By N Hlo Wx) as (v & E & F). left. eexists. split; [apply Num, E|].
    exists v. split; [|reflexivity]. destruct F as [F|[_ F]]; [left|right]; exact F.
Qed.
Lemma c_ask q x y tr a s ts w : pr a s ts (w_maps w) (w_strs w) -> lpre (step d) el upper (LAsk q x y) w -> ldoes (LAsk q x y) tr (at_w ts s w) w.
Proof.
  intros P (sx & sy & X & Y & Pre). unfold LibMeet.ldoes. cbn [lexec].
  destruct (ask_heap q (str x) (str y) s a sx sy (proj1 P)) as [(o & E & A)|(E & pos & -> & L)]; [eapply pr_full; eassumption|eapply pr_full; eassumption|exact Pre| |].
  - rewrite (on_ok _ s ts _ _ _ _ E). exists w, o. split; [|split; [destruct q; cbn [ask_post] in A|eapply pr_prel'; [exact P|reflexivity..]]].
    + split; [reflexivity|]. intros sx' sy' X' Y'. assert (sx' = sx) as -> by congruence. assert (sy' = sy) as -> by congruence. exact A.
    + destruct A as (? & _ & ->); reflexivity.
    + destruct A as (? & _ & ->); reflexivity.
    + destruct A as (? & _ & ->); reflexivity.
    + destruct A as (? & _ & ->); reflexivity.
    + destruct A as (? & _ & ->); reflexivity.
    + destruct A as (? & _ & ->); reflexivity.
    + destruct A as (? & _ & ->); reflexivity.
    + destruct A as (? & _ & ->); reflexivity.
    + destruct A as (_ & ? & _ & ->); reflexivity.
    + destruct A as (? & _ & ->); reflexivity.
  - rewrite (on_exn _ s ts _ _ _ _ E). exists w. split; [|eapply pr_prel'; [exact P|reflexivity..]]. split; [reflexivity|]. intros sx' X'. assert (sx' = sx) as -> by congruence. exact L.
Qed.
(** New texts made of one. *)
Lemma call_ok o s a a1 v : reached d s a -> step d o a = Some (SRet a1 v) -> subject o = None -> exists s', call d o s = Ok tt s' /\ reached d s' a1.
Proof.
  intros H Hs Hn. pose proof (AlgRules.runs_call_safe d Hwf o s a a1 v (fun _ s' => reached d s' a1) (fun _ _ => False) H Hs Hn) as R.
  assert (RcaInv.runs (call d o) s (fun _ s' => reached d s' a1) (fun _ _ => False)) as R' by (apply R; intros; assumption). unfold RcaInv.runs in R'.
  destruct (call d o s) as [[] s'|e s'| | |u]; try contradiction. eauto.
Qed.
Lemma by_copy_heap o r x t l l' rx s a : reached d s a -> a !! x = Some (AVal rx (map Some l)) -> a !! r = None -> a !! t = None -> r <> t ->
  subject o = None -> step d o (<[t := AVal rx (map Some l)]> a) = Some (SRet (<[t := AVal rx (map Some l')]> (<[t := AVal rx (map Some l)]> a)) ONone) ->
  exists s', (call d (CtorCopy t x) ;;; scope d t (call d o ;;; call d (CtorCopy r t))) s = Ok tt s' /\ reached d s' (<[r := AVal rx (map Some l')]> a).
Proof.
  intros H X R Tn N So St.
  destruct (call_ok _ s a _ _ H (AlgRules.copy_step d a t x _ _ X Tn) eq_refl) as (s1 & E1 & H1).
  destruct (call_ok o s1 _ _ _ H1 St So) as (s2 & E2 & H2). rewrite insert_insert in H2.
  assert (<[t := AVal rx (map Some l')]> a !! r = None) as Rn by (rewrite lookup_insert_ne by congruence; exact R).
  destruct (call_ok _ s2 _ _ _ H2 (AlgRules.copy_step d _ r t _ _ (lookup_insert _ _ _) Rn) eq_refl) as (s3 & E3 & H3).
  assert (is_Some (<[r := AVal rx (map Some l')]> (<[t := AVal rx (map Some l')]> a) !! t)) as Tl by (rewrite lookup_insert_ne by congruence; rewrite lookup_insert; eauto).
  destruct (call_ok (Destroy t) s3 _ _ _ H3 (AlgRules.destroy_step d _ t Tl) eq_refl) as (s4 & E4 & H4).
  exists s4. split.
  - rewrite (HsProof.bind_ok _ _ _ _ _ E1). unfold scope, unwind, bind. rewrite E2, E3, E4. reflexivity.
  - rewrite delete_insert_ne, delete_insert in H4 by congruence. exact H4.
Qed.
Lemma chomp_ext (p q : Z -> bool) l : (forall c, p c = q c) -> sp_chomp1 p l = sp_chomp1 q l.
Proof. intros E. unfold sp_chomp1. destruct (rev l) as [|c l']; [reflexivity|]. rewrite E. reflexivity. Qed.
Lemma make_heap k r x t l s a : reached d s a -> is_str a x l -> a !! r = None -> a !! t = None -> r <> t -> make_pre k l ->
  exists s' rm, make_str d k r x t s = Ok tt s' /\ reached d s' (<[r := AVal rm (map Some (made k l))]> a).
Proof.
  intros H (rx & X) R Tn N Pre. destruct k as [start len|sp|]; cbn [make_str made make_pre] in *.
  - destruct (AlgFacts.slice_gives d Hwf s a r x rx l start len H X R Pre) as (s' & E & H' & _). eauto.
  - destruct (by_copy_heap (Trim sp t) r x t l (sp_trim sp l) rx s a H X R Tn N eq_refl) as (s' & E & H'); [|eauto].
    unfold step. cbn [spec_step]. rewrite (RcaFacts.holds_val _ _ _ _ (lookup_insert _ _ _)), RcaFacts.vals_map. reflexivity.
  - destruct (by_copy_heap (Chomp t 10 13) r x t l (made KChomp l) rx s a H X R Tn N eq_refl) as (s' & E & H'); [|eauto].
    unfold step. cbn [spec_step made]. rewrite (RcaFacts.holds_val _ _ _ _ (lookup_insert _ _ _)), RcaFacts.vals_map.
    rewrite (chomp_ext (fun c => d_eqb d c 10) (fun c => c =? 10)), (chomp_ext (fun c => d_eqb d c 13) (fun c => c =? 13)) by (intros; apply Heqb). reflexivity.
Qed.
Lemma c_make k r x tr a s ts w : pr a s ts (w_maps w) (w_strs w) -> lpre (step d) el upper (LMake k r x) w -> ldoes (LMake k r x) tr (at_w ts s w) w.
Proof.
  intros P ((sx & X & Pre) & R). destruct (make_heap k (str r) (str x) (tmp s 0) sx s a (proj1 P)) as (s' & rm & E & H').
  - eapply pr_full; eassumption.
  - eapply pr_new; eassumption.
  - apply tmp_new, P.
  - discriminate.
  - exact Pre.
  - unfold LibMeet.ldoes. cbn [lexec]. rewrite (HsProof.bind_ok _ _ _ _ _ (on_ok (let* t := temps in make_str d k (str r) (str x) (t O)) s ts _ _ _ _ E)). cbn [ret].
    eexists (with_strs w _), LVoid. split; [|split; [reflexivity|eapply pr_prel'; [eapply pr_insert; eassumption|reflexivity..]]].
    split; [reflexivity|]. intros sx' X'. assert (sx' = sx) as -> by congruence. exists rm. reflexivity.
Qed.
(** Strings of the program changed in [a']: seen from the program. *)
Lemma pr_pull a s ts ms b s' a' xs : pr a s ts ms b -> reached d s' a' -> (forall z, z ∉ map str xs -> a' !! z = a !! z) ->
  exists b', pr a' s' ts ms b' /\ (forall z, b' !! z = a' !! str z).
Proof.
  intros P H' K.
  assert (exists b', NestSim.pulls str a' b') as (b' & P').
  { clear H'. exists (foldr (fun x c => partial_alter (fun _ => a' !! str x) x c) b xs). intros y.
    assert (forall l, (y ∈ l -> foldr (fun x c => partial_alter (fun _ => a' !! str x) x c) b l !! y = a' !! str y) /\
      (y ∉ l -> foldr (fun x c => partial_alter (fun _ => a' !! str x) x c) b l !! y = b !! y)) as F.
    { induction l as [|x l [IH1 IH2]]; [split; [intros X; inversion X|reflexivity]|]. cbn [foldr]. destruct (decide (x = y)) as [->|N].
      - rewrite lookup_partial_alter. split; [reflexivity|]. intros X. exfalso. apply X. left.
      - rewrite lookup_partial_alter_ne by congruence. split; intros X; [apply IH1|apply IH2].
        + apply elem_of_cons in X as [X|X]; [congruence|exact X].
        + intros Y. apply X. right. exact Y. }
    destruct (F xs) as [F1 F2]. destruct (decide (y ∈ xs)) as [I|I]; [symmetry; apply F1, I|]. rewrite F2 by exact I. rewrite K; [apply (pr_pulls d _ _ _ _ _ P)|].
    intros X. apply I. apply elem_of_list_In, in_map_iff in X as (z & Z1 & Z2). apply inj_str in Z1. subst. apply elem_of_list_In, Z2. }
  exists b'. split; [|intros z; symmetry; apply P']. apply (pr_user d a s ts ms b); [exact P|exact H'|exact P'|].
  intros z Z. apply K. intros X. apply elem_of_list_In, in_map_iff in X as (y & Y & _). exact (Z y (eq_sym Y)).
Qed.
Lemma full_of b x l : is_str b x l -> full b x = Some l.
Proof. intros (r & E). unfold full. rewrite E. apply RcaFacts.vals_map. Qed.
Lemma writes_does C (m : M (state Z) unit) c tr a s ts w x old new (y : option positive) : pr a s ts (w_maps w) (w_strs w) ->
  writes d C m s a (str x) old new (option_map str y) ->
  lexec d mdiff grow el upper junk c tr (at_w ts s w) = bind (on_strs m) (fun _ => ret LVoid) (at_w ts s w) ->
  full (w_strs w) x = Some old -> (C -> lshort d el c tr w) ->
  (forall b', (full b' x = full (w_strs w) x \/ full b' x = Some []) -> (forall z, z <> x -> b' !! z = w_strs w !! z) -> lfail c w (with_strs w b')) ->
  (forall b', full b' x = Some new -> (forall z, z <> x -> y <> Some z -> b' !! z = w_strs w !! z) -> (forall z, y = Some z -> is_Some (b' !! z)) ->
    lpost (step d) el upper c w LVoid (with_strs w b')) ->
  ldoes c tr (at_w ts s w) w.
Proof.
  intros P W Ex Fx Sh Fl Po. unfold LibMeet.ldoes. rewrite Ex. unfold writes in W. destruct (m s) as [v s'|e s'| | |u] eqn:E; try contradiction.
  - rewrite (HsProof.bind_ok _ _ _ _ _ (on_ok _ s ts _ _ _ _ E)). cbn [ret]. destruct W as (a' & H' & _ & X' & K & L).
    destruct (pr_pull a s ts _ _ s' a' (x :: match y with Some y => [y] | None => [] end) P H') as (b' & P' & B').
    { intros z Z. apply K.
      - intros ->. apply Z. left.
      - intros Y. apply Z. destruct y as [y|]; [|discriminate]. injection Y as <-. cbn. right. left. }
    exists (with_strs w b'), LVoid. split; [|split; [reflexivity|eapply pr_prel'; [exact P'|reflexivity..]]]. apply Po.
    + apply full_of. destruct X' as (q & X'). exists q. rewrite B'. exact X'.
    + intros z Z1 Z2. rewrite B', K; [apply (pr_pulls d _ _ _ _ _ P)|intros Q; apply Z1, inj_str, Q|]. destruct y as [y|]; [|discriminate]. cbn. intros [= Q]. apply Z2. f_equal. exact Q.
    + intros z ->. rewrite B'. apply L. reflexivity.
  - rewrite (HsProof.bind_exn _ _ _ _ _ (on_exn _ s ts _ _ _ _ E)). destruct W as (-> & HC & a' & H' & _ & X' & K). split; [apply Sh, HC|].
    destruct (pr_pull a s ts _ _ s' a' [x] P H') as (b' & P' & B'). { intros z Z. apply K. intros ->. apply Z. left. }
    exists (with_strs w b'). split; [|eapply pr_prel'; [exact P'|reflexivity..]]. apply Fl.
    + destruct X' as [(q & X')|(q & X')]; [left; rewrite Fx|right]; apply full_of; exists q; rewrite B'; exact X'.
    + intros z Z. rewrite B', K; [apply (pr_pulls d _ _ _ _ _ P)|]. intros Q. apply Z, inj_str, Q.
Qed.
Lemma c_slice mv x start len y tr a s ts w : pr a s ts (w_maps w) (w_strs w) -> lpre (step d) el upper (LSlice mv x start len y) w -> ldoes (LSlice mv x start len y) tr (at_w ts s w) w.
Proof.
  intros P (sx & sy & X & Y & Hs & Hl & Hn). pose proof (pr_full _ _ _ _ _ _ _ P X) as Xa. pose proof (pr_full _ _ _ _ _ _ _ P Y) as Ya.
  destruct (Z_lt_dec start 0) as [Neg|Pos].
  - pose proof (AlgFacts.slice_negative d Hwf s a mv (str x) (str y) sx sy start len (proj1 P) Xa Ya ltac:(lia) Hl Hn) as E.
    unfold LibMeet.ldoes. cbn [lexec]. rewrite (HsProof.bind_exn _ _ _ _ _ (on_exn _ s ts _ _ _ _ E)). exists w. split; [split; [exact Neg|reflexivity]|].
    eapply pr_prel'; [exact P|reflexivity..].
  - pose proof (AlgFacts.slice_writes d Hwf Hnul s a mv (str x) (str y) sx sy start len (proj1 P) Xa Ya ltac:(lia) Hl Hn) as W. cbv zeta in W.
    replace (if mv then Some (str y) else None) with (option_map str (if mv then Some y else None)) in W by (destruct mv; reflexivity).
    eapply writes_does; [exact P|exact W|reflexivity|exact X| | |].
    + intros C. exists sx, sy. auto.
    + intros b' B1 B2. exists b'. auto.
    + intros b' B1 B2 B3. split; [reflexivity|]. split; [lia|]. intros sx' sy' X' Y'. assert (sx' = sx) as -> by congruence. assert (sy' = sy) as -> by congruence.
      exists b'. split; [reflexivity|]. split; [exact B1|]. split.
      * intros z Z1 Z2. apply B2; [exact Z1|]. destruct mv; [|discriminate]. intros [= ->]. cbn in Z2. rewrite Pos.eqb_refl in Z2. discriminate.
      * destruct mv; [apply B3; reflexivity|]. destruct (decide (y = x)) as [->|Nx].
        -- unfold full in B1. destruct (b' !! x); [eauto|discriminate].
        -- rewrite B2 by (assumption || discriminate). apply full_str in Y as (q & ->). eauto.
Qed.
Lemma c_slice_of x start len y start' len' tr a s ts w : pr a s ts (w_maps w) (w_strs w) -> lpre (step d) el upper (LSliceOf x start len y start' len') w ->
  ldoes (LSliceOf x start len y start' len') tr (at_w ts s w) w.
Proof.
  intros P (sx & sy & X & Y & Hs & Hl & Hn & Ok'). pose proof (pr_full _ _ _ _ _ _ _ P X) as Xa. pose proof (pr_full _ _ _ _ _ _ _ P Y) as Ya.
  pose proof (AlgFacts.slice_slice_writes d Hwf Hnul s a (str x) (str y) (tmp s 0) sx sy start len start' len' (proj1 P) Xa Ya (tmp_new s a 0 (proj1 P)) Hs Hl Hn Ok') as W. cbv zeta in W.
  change (@None positive) with (option_map str None) in W.
  eapply (writes_does _ (let* t := temps in slice_set_slice d (str x) start len (str y) start' len' (t O))); [exact P|exact W|reflexivity|exact X| | |].
  - intros C. exists sx, sy. auto.
  - intros b' B1 B2. exists b'. auto.
  - intros b' B1 B2 _. split; [reflexivity|]. intros sx' sy' X' Y'. assert (sx' = sx) as -> by congruence. assert (sy' = sy) as -> by congruence.
    exists b'. split; [reflexivity|]. split; [exact B1|]. intros z Z1. apply B2; [exact Z1|discriminate].
Qed.
Lemma recodes_does C (m : M (Z * state Z) unit) c tr a s ts w r t : pr a s ts (w_maps w) (w_strs w) ->
  recodes d C m (w_lost w) s a (str r) t ->
  lexec d mdiff grow el upper junk c tr (at_w ts s w) = bind (on_malloc m) (fun _ => ret LVoid) (at_w ts s w) ->
  (C -> lshort d el c tr w) -> lfail c w (World (w_maps w) (w_lists w) (w_strs w) (w_lost w + 1)) ->
  (new_text r t w (with_strs w (<[r := AVal true (map Some t)]> (w_strs w))) -> lpost (step d) el upper c w LVoid (with_strs w (<[r := AVal true (map Some t)]> (w_strs w)))) ->
  ldoes c tr (at_w ts s w) w.
Proof.
  intros P W Ex Sh Fl Po. unfold LibMeet.ldoes. rewrite Ex. unfold recodes in W. unfold bind, on_malloc. cbn [m_blocks m_pt m_lists fst snd].
  destruct (m (w_lost w, s)) as [v [n s']|e [n s']| | |u]; try contradiction.
  - cbn [ret]. destruct W as (-> & H' & _). eexists _, LVoid. split; [apply Po; exists true; reflexivity|]. split; [reflexivity|].
    eapply pr_prel'; [eapply pr_insert; eassumption|reflexivity..].
  - destruct W as (-> & HC & -> & H' & _). split; [apply Sh, HC|]. eexists. split; [exact Fl|]. eapply pr_prel'; [eapply pr_same; eassumption|reflexivity..].
Qed.
Lemma c_encode r x tr a s ts w : pr a s ts (w_maps w) (w_strs w) -> lpre (step d) el upper (LEncode r x) w -> ldoes (LEncode r x) tr (at_w ts s w) w.
Proof.
  intros P ((l & X & B) & R).
  pose proof (B64hProof.encode_recodes d Hwf Hnul junk None std_alpha (w_lost w) s a (str r) (str x) l (proj1 P) (pr_full _ _ _ _ _ _ _ P X) (pr_new _ _ _ _ _ _ P R) B64Proof.std_lists B) as Mk.
  eapply recodes_does; [exact P|exact Mk|reflexivity| |reflexivity|].
  - intros C. exists l. auto.
  - intros T. split; [reflexivity|]. intros l' X'. assert (l' = l) as -> by congruence. exact T.
Qed.
Lemma enc64_inj l l' : bytes l -> bytes l' -> zlen (enc64 std_alpha l) < W63 -> enc64 std_alpha l = enc64 std_alpha l' -> l = l'.
Proof.
  intros B B' L E. pose proof (B64Proof.decode_encoded (fun _ => 0) (length l + length l') l None std_alpha eq_refl B L ltac:(lia)) as D.
  pose proof (B64Proof.decode_encoded (fun _ => 0) (length l + length l') l' None std_alpha eq_refl B') as D'. rewrite <- E in D'. rewrite D' in D by (exact L || lia). congruence.
Qed.
Lemma c_decode r x tr a s ts w : pr a s ts (w_maps w) (w_strs w) -> lpre (step d) el upper (LDecode r x) w -> ldoes (LDecode r x) tr (at_w ts s w) w.
Proof.
  intros P ((l & X & B) & R). pose proof (pr_full _ _ _ _ _ _ _ P X) as Xa. pose proof (AlgRules.str_len d Hwf s a _ _ (proj1 P) Xa) as L.
  assert (zlen (enc64 std_alpha l) < W63) as L' by (unfold max_alloc, W63 in *; lia).
  assert (zlen l <= zlen (enc64 std_alpha l)) as Ll by (rewrite B64Proof.enc64_len; pose proof (zlen_nonneg l); lia).
  assert (recodes d (no_memory d (zlen l + 2)) (hdecode d junk None false (str r) (str x)) (w_lost w) s a (str r) l) as Mk.
  { apply (B64hProof.decode_recodes d Hwf Hnul junk None l (w_lost w) s a (str r) (str x) (enc64 std_alpha l) (proj1 P) Xa (pr_new _ _ _ _ _ _ P R)).
    - apply B64Proof.decode_encoded; [reflexivity|exact B|exact L'|]. unfold zlen in *. lia.
    - unfold npos, W63 in *. lia. }
  eapply recodes_does; [exact P|exact Mk|reflexivity| |reflexivity|].
  - intros C. exists l. auto.
  - intros T. split; [reflexivity|]. intros l' X' B'. assert (l' = l) as ->; [|exact T]. symmetry. apply enc64_inj; [exact B|exact B'|exact L'|congruence].
Qed.
Lemma put_app rm xs ss x t b : length xs = length ss -> put_texts rm (xs ++ [x]) (ss ++ [t]) b = put_texts rm xs ss (<[x := AVal rm (map Some t)]> b).
Proof. revert ss. induction xs as [|y xs IH]; intros [|u ss] L; try discriminate; [reflexivity|]. cbn. rewrite IH by (cbn in L; lia). reflexivity. Qed.
Lemma elems_pulls j rm ps : forall k a b, NestSim.pulls str a b ->
  NestSim.pulls str (with_elems (fun k => str (el j k)) rm k ps a) (put_texts rm (map (el j) (seq k (length ps))) ps b) /\
  NestSim.keeps str a (with_elems (fun k => str (el j k)) rm k ps a).
Proof.
  induction ps as [|p ps IH]; intros k a b H; cbn [with_elems length seq map put_texts]; [split; [exact H|apply NestSim.keeps_refl]|].
  destruct (IH (S k) a b H) as [A B]. split; [apply NestSim.pulls_insert; [exact inj_str|exact A]|apply NestSim.keeps_insert, B].
Qed.
Lemma c_split j x y limit tr a s ts w : pr a s ts (w_maps w) (w_strs w) -> lpre (step d) el upper (LSplit j x y limit) w -> ldoes (LSplit j x y limit) tr (at_w ts s w) w.
Proof.
  intros P ((sx & sy & X & Y & Bx & By & N & Lx & Ly & Hl) & J & Fr). destruct (pr_full _ _ _ _ _ _ _ P X) as (rx & Xa). pose proof (pr_full _ _ _ _ _ _ _ P Y) as Ya.
  assert (unused a [tmp s 0; tmp s 1]) as Hu by (apply (tmps_unused s a [0%nat; 1%nat]); [apply P|nd]).
  assert (AlgFacts.elements_unused (fun k => str (el j k)) a [tmp s 0; tmp s 1]) as He.
  { split; [intros k k' E; apply inj_str, Hel in E; exact E|]. intros k. split; [eapply pr_new; [exact P|apply Fr]|]. intros [E|[E|[]]]; discriminate. }
  assert (exists ps, (if limit =? npos then pieces (StrAlg.is_sp sy) sy sx ps else pieces_upto (StrAlg.is_sp sy) sy (limit - 1) sx ps) /\
    makes d (AlgFacts.split_fails d (n_grow tr)) (hsplit d mdiff (n_grow tr) (fun k => str (el j k)) (S (length sx)) (str x) (str y) (tmp s 0) (tmp s 1) limit) s a
      (with_elems (fun k => str (el j k)) rx 0 ps a) (length ps)) as (ps & Hp & Mk).
  { destruct Hl as [->|[Hne Hl]].
    - rewrite Z.eqb_refl. apply (AlgFacts.split_makes d Hwf Hnul mdiff (n_grow tr) _ Hm); try eassumption; [apply P|lia].
    - destruct (Z.eqb_spec limit npos) as [E|_]; [lia|]. apply (AlgFacts.split_limit_makes d Hwf Hnul mdiff (n_grow tr) _ Hm); try eassumption; [apply P|lia]. }
  unfold LibMeet.ldoes. cbn [lexec]. set (body := (let* t := temps in _)).
  assert (body s = hsplit d mdiff (n_grow tr) (fun k => str (el j k)) (S (length sx)) (str x) (str y) (tmp s 0) (tmp s 1) limit s) as Eb.
  { unfold body, temps, bind. rewrite (rounds_ok s a (str x) sx (proj1 P)) by (eexists; exact Xa). reflexivity. }
  destruct (makes_cases _ _ _ _ _ _ Mk) as [(s' & E & H')|(s' & E & HC & H')]; rewrite <- Eb in E.
  - rewrite (HsProof.bind_ok _ _ _ _ _ (on_ok body s ts _ _ _ _ E)). cbn [bind set_list ret].
    destruct (elems_pulls j rx ps 0 a (w_strs w) (pr_pulls d _ _ _ _ _ P)) as [Pl Kp].
    exists (World (w_maps w) (<[j := length ps]> (w_lists w)) (put_texts rx (elems_of el j (length ps)) ps (w_strs w)) (w_lost w)), LVoid.
    split; [|split; [reflexivity|]].
    + split; [reflexivity|]. intros sx' sy' X' Y'. assert (sx' = sx) as -> by congruence. assert (sy' = sy) as -> by congruence. exists ps, rx. split; [exact Hp|reflexivity].
    + eapply pr_prel'; [|reflexivity..]. eapply pr_user; [exact P|exact H'|exact Pl|exact Kp].
  - rewrite (HsProof.bind_exn _ _ _ _ _ (on_exn body s ts _ _ _ _ E)). split; [exact HC|]. exists w. split; [reflexivity|].
    eapply pr_prel'; [eapply pr_same; eassumption|reflexivity..].
Qed.
Lemma texts_up a s ts ms b xs ss : pr a s ts ms b -> texts_of b xs ss -> Forall2 (is_str a) (map str xs) ss.
Proof. intros P F. induction F as [|x t xs ss X F IH]; cbn [map]; constructor; [eapply pr_full; eassumption|exact IH]. Qed.
Lemma texts_det b xs ss ss' : texts_of b xs ss -> texts_of b xs ss' -> ss = ss'.
Proof.
  intros F. revert ss'. induction F as [|x t xs ss X F IH]; intros ss' F'; inversion F' as [|? t' ? ss1 X' F1]; subst; [reflexivity|]. f_equal; [congruence|apply IH, F1].
Qed.
Lemma names_str j n : names_of el j n = map str (elems_of el j n).
Proof. unfold names_of, elems_of. rewrite map_map. reflexivity. Qed.
Lemma c_join r j y quoted tr a s ts w : pr a s ts (w_maps w) (w_strs w) -> lpre (step d) el upper (LJoin r j y quoted) w -> ldoes (LJoin r j y quoted) tr (at_w ts s w) w.
Proof.
  intros P ((n & sy & ss & J & Y & F & K) & R).
  pose proof (AlgFacts.join_makes d Hwf Hnul s a (str r) (str y) (names_of el j n) quoted (tmp s 0) (tmp s 1) (tmp s 2) (tmp s 3) sy ss (proj1 P)) as Mk. cbv zeta in Mk.
  eapply (makes_new _ (let* t := temps in hjoin d (str r) (str y) (names_of el j n) quoted (t O) (t 1%nat) (t 2%nat) (t 3%nat))); [exact P|apply Mk| | | |].
  - apply (str_tmps_unused s a r [0%nat; 1%nat; 2%nat; 3%nat]); [apply P|eapply pr_new; eassumption|nd].
  - eapply pr_full; eassumption.
  - rewrite names_str. eapply texts_up; eassumption.
  - exact K.
  - cbn [lexec]. unfold bind at 1, list_len. cbn [m_lists]. rewrite J. reflexivity.
  - intros C. exists n, sy, ss. auto.
  - reflexivity.
  - intros T. split; [reflexivity|]. intros n' sy' ss' J' Y' F'. assert (n' = n) as -> by congruence. assert (sy' = sy) as -> by congruence.
    assert (ss' = ss) as -> by (eapply texts_det; eassumption). exact T.
Qed.
Lemma c_count j tr a s ts w : pr a s ts (w_maps w) (w_strs w) -> lpre (step d) el upper (LCount j) w -> ldoes (LCount j) tr (at_w ts s w) w.
Proof.
  intros P (n & J). unfold LibMeet.ldoes. cbn [lexec]. unfold bind, list_len. cbn [m_lists]. rewrite J. cbn [ret].
  exists w, (LNum (Z.of_nat n)). split; [|split; [reflexivity|eapply pr_prel'; [exact P|reflexivity..]]]. split; [reflexivity|]. intros n' J'. congruence.
Qed.
Lemma dropped xs : forall a b, NestSim.pulls str a b ->
  NestSim.pulls str (foldl (fun a x => delete x a) a (map str xs)) (foldl (fun b x => delete x b) b xs) /\ NestSim.keeps str a (foldl (fun a x => delete x a) a (map str xs)).
Proof.
  induction xs as [|x xs IH]; intros a b H; cbn [map foldl]; [split; [exact H|apply NestSim.keeps_refl]|].
  destruct (IH (delete (str x) a) (delete x b)) as [A B].
  - intros y. destruct (decide (x = y)) as [<-|N]; [rewrite !lookup_delete; reflexivity|]. rewrite !lookup_delete_ne by (try exact N; intros E; apply N, inj_str, E). apply H.
  - split; [exact A|]. intros z Z. rewrite B by exact Z. apply lookup_delete_ne. intros E. apply (Z x). congruence.
Qed.
Lemma drop_fold xs (b : astate Z) : foldl (fun b x => delete x b) b xs = drop_all xs b.
Proof.
  unfold drop_all. revert b. induction xs as [|x xs IH]; intros b; cbn [foldl fold_right]; [reflexivity|]. rewrite IH. clear IH.
  induction xs as [|y xs IH]; cbn [fold_right]; [reflexivity|]. rewrite IH. apply delete_commute.
Qed.
Lemma c_free j tr a s ts w : pr a s ts (w_maps w) (w_strs w) -> lpre (step d) el upper (LFree j) w -> ldoes (LFree j) tr (at_w ts s w) w.
Proof.
  intros P (n & J & F). unfold LibMeet.ldoes. cbn [lexec]. unfold bind at 1, list_len. cbn [m_lists]. rewrite J.
  destruct (HsProof.destroy_ok d Hwf (names_of el j n) s a (proj1 P)) as (s' & E & H').
  - unfold names_of. apply NoDup_fmap_2_strong; [intros k k' _ _ E; apply inj_str, Hel in E; exact E|apply NoDup_seq].
  - intros x X. rewrite names_str in X. apply elem_of_list_In, in_map_iff in X as (z & <- & Z). rewrite (pr_pulls d _ _ _ _ _ P). apply F, Z.
  - rewrite (HsProof.bind_ok _ _ _ _ _ (on_ok _ s ts _ _ _ _ E)). cbn [bind del_list ret m_pt m_lists m_blocks].
    exists (World (w_maps w) (delete j (w_lists w)) (drop_all (elems_of el j n) (w_strs w)) (w_lost w)), LVoid. split; [|split; [reflexivity|]].
    + split; [reflexivity|]. intros n' J'. assert (n' = n) as -> by congruence. reflexivity.
    + eapply pr_prel'; [|reflexivity..]. rewrite names_str in H'. destruct (dropped (elems_of el j n) a (w_strs w) (pr_pulls d _ _ _ _ _ P)) as [Pl Kp].
      cbn [w_strs]. rewrite <- drop_fold. eapply pr_user; [exact P|exact H'|exact Pl|exact Kp].
Qed.
Lemma c_arr j tr a s ts w : pr a s ts (w_maps w) (w_strs w) -> lpre (step d) el upper (LArr j) w -> ldoes (LArr j) tr (at_w ts s w) w.
Proof.
  intros P _. unfold LibMeet.ldoes. cbn [lexec]. unfold bind, set_list. cbn [m_pt m_lists m_blocks ret].
  exists (World (w_maps w) (<[j := O]> (w_lists w)) (w_strs w) (w_lost w)), LVoid. split; [split; reflexivity|]. split; [reflexivity|eapply pr_prel'; [exact P|reflexivity..]].
Qed.
Lemma c_push mv j x tr a s ts w : pr a s ts (w_maps w) (w_strs w) -> lpre (step d) el upper (LPush mv j x) w -> ldoes (LPush mv j x) tr (at_w ts s w) w.
Proof.
  intros P ((n & sx & J & X & N) & D). destruct (pr_full _ _ _ _ _ _ _ P X) as (rx & Xa). pose proof (pr_new _ _ _ _ _ _ P N) as Na.
  unfold LibMeet.ldoes. cbn [lexec]. unfold bind at 1, list_len. cbn [m_lists]. rewrite J. destruct (n_grow tr n) eqn:G.
  - rewrite (HsProof.bind_exn _ _ _ _ _ (on_exn _ s ts _ _ _ _ eq_refl)). split; [exists n; auto|]. exists w. split; [reflexivity|]. eapply pr_prel'; [exact P|reflexivity..].
  - set (o := if mv then CtorMove (str (el j n)) (str x) else CtorCopy (str (el j n)) (str x)).
    set (f := fun (A : positive -> positive) (c : astate Z) => <[A (el j n) := AVal rx (map Some sx)]> (if mv then <[A x := AMoved]> c else c)).
    assert (S1 : step d o a = Some (SRet (f str a) ONone)).
    { unfold o, f, step. destruct mv; cbn [spec_step]; rewrite (RcaFacts.holds_val _ _ _ _ Xa); unfold fresh_var; rewrite Na; reflexivity. }
    destruct (call_ok o s a (f str a) ONone (proj1 P) S1) as (s' & E & H'); [destruct mv; reflexivity|].
    rewrite (HsProof.bind_ok _ _ _ _ _ (on_ok _ s ts _ _ _ _ E)). cbn [bind set_list ret m_pt m_lists m_blocks].
    exists (World (w_maps w) (<[j := S n]> (w_lists w)) (f id (w_strs w)) (w_lost w)), LVoid. split; [|split; [reflexivity|]].
    + split; [reflexivity|]. intros n' sx' J' X'. assert (n' = n) as -> by congruence. assert (sx' = sx) as -> by congruence. exists rx. reflexivity.
    + eapply pr_prel'; [|reflexivity..]. eapply (pr_user d a s ts (w_maps w) (w_strs w)); [exact P|exact H'| |]; unfold f, id; cbn [w_strs].
      * apply NestSim.pulls_insert; [exact inj_str|]. destruct mv; [apply NestSim.pulls_insert; [exact inj_str|]|]; exact (pr_pulls d _ _ _ _ _ P).
      * apply NestSim.keeps_insert. destruct mv; [apply NestSim.keeps_insert|]; apply NestSim.keeps_refl.
Qed.
Lemma c_pop r j tr a s ts w : pr a s ts (w_maps w) (w_strs w) -> lpre (step d) el upper (LPop r j) w -> ldoes (LPop r j) tr (at_w ts s w) w.
Proof.
  intros P ((n & sx & J & X) & R). destruct (pr_full _ _ _ _ _ _ _ P X) as (rx & Xa). pose proof (pr_new _ _ _ _ _ _ P R) as Ra.
  assert (Ne : str (el j n) <> str r) by (intros Q; rewrite Q, Ra in Xa; discriminate).
  set (a1 := <[str r := AVal rx (map Some sx)]> (<[str (el j n) := AMoved]> a)).
  assert (S1 : step d (CtorMove (str r) (str (el j n))) a = Some (SRet a1 ONone)).
  { unfold step. cbn [spec_step]. rewrite (RcaFacts.holds_val _ _ _ _ Xa). unfold fresh_var. rewrite Ra. reflexivity. }
  destruct (call_ok _ s a a1 ONone (proj1 P) S1 eq_refl) as (s1 & E1 & H1).
  assert (S2 : step d (Destroy (str (el j n))) a1 = Some (SRet (delete (str (el j n)) a1) ONone)).
  { unfold step. cbn [spec_step]. unfold live, fresh_var. replace (a1 !! str (el j n)) with (Some (@AMoved Z)); [reflexivity|]. unfold a1. rewrite lookup_insert_ne by congruence. rewrite lookup_insert. reflexivity. }
  destruct (call_ok _ s1 a1 _ ONone H1 S2 eq_refl) as (s2 & E2 & H2).
  unfold LibMeet.ldoes. cbn [lexec]. unfold bind at 1, list_len. cbn [m_lists]. rewrite J.
  assert (E : (call d (CtorMove (str r) (str (el j n))) ;;; call d (Destroy (str (el j n)))) s = Ok tt s2) by (rewrite (HsProof.bind_ok _ _ _ _ _ E1); exact E2).
  rewrite (HsProof.bind_ok _ _ _ _ _ (on_ok _ s ts _ _ _ _ E)). cbn [bind set_list ret m_pt m_lists m_blocks].
  exists (World (w_maps w) (<[j := n]> (w_lists w)) (delete (el j n) (<[r := AVal rx (map Some sx)]> (w_strs w))) (w_lost w)), LVoid. split; [|split; [reflexivity|]].
  - split; [reflexivity|]. intros n' sx' J' X'. assert (n' = n) as -> by congruence. assert (sx' = sx) as -> by congruence. exists rx. reflexivity.
  - eapply pr_prel'; [|reflexivity..]. eapply (pr_user d a s ts (w_maps w) (w_strs w)); [exact P|exact H2| |]; cbn [w_strs]; unfold a1.
    + intros y. destruct (decide (el j n = y)) as [<-|Ny]; [rewrite !lookup_delete; reflexivity|]. assert (str (el j n) <> str y) by (intros Q; apply Ny, inj_str, Q). rewrite !lookup_delete_ne by assumption.
      destruct (decide (r = y)) as [<-|Nr]; [rewrite !lookup_insert; reflexivity|]. assert (str r <> str y) by (intros Q; apply Nr, inj_str, Q). rewrite !lookup_insert_ne by assumption. apply (pr_pulls d _ _ _ _ _ P).
    + intros z Z. rewrite lookup_delete_ne, !lookup_insert_ne by (intros <-; eapply Z; reflexivity). reflexivity.
Qed.
Lemma c_elem r j k tr a s ts w : pr a s ts (w_maps w) (w_strs w) -> lpre (step d) el upper (LElem r j k) w -> ldoes (LElem r j k) tr (at_w ts s w) w.
Proof.
  intros P ((n & J & K & F) & R). unfold LibMeet.ldoes. cbn [lexec]. unfold bind at 1, list_len. cbn [m_lists]. rewrite J. destruct (Z.leb_spec (Z.of_nat n) k) as [L|L].
  - cbn [throw]. exists w. split; [|eapply pr_prel'; [exact P|reflexivity..]]. split; [reflexivity|]. intros n' J'. assert (n' = n) as -> by congruence. exact L.
  - destruct (F L) as (sx & X). destruct (pr_full _ _ _ _ _ _ _ P X) as (rx & Xa). pose proof (pr_new _ _ _ _ _ _ P R) as Ra.
    assert (S1 : step d (CtorCopy (str r) (str (el j (Z.to_nat k)))) a = Some (SRet (<[str r := AVal rx (map Some sx)]> a) ONone)).
    { unfold step. cbn [spec_step]. rewrite (RcaFacts.holds_val _ _ _ _ Xa). unfold fresh_var. rewrite Ra. reflexivity. }
    destruct (call_ok _ s a _ ONone (proj1 P) S1 eq_refl) as (s1 & E1 & H1). rewrite (HsProof.bind_ok _ _ _ _ _ (on_ok _ s ts _ _ _ _ E1)). cbn [ret].
    exists (with_strs w (<[r := AVal rx (map Some sx)]> (w_strs w))), LVoid. split; [|split; [reflexivity|eapply pr_prel'; [eapply pr_insert; eassumption|reflexivity..]]].
    split; [reflexivity|]. intros n' J'. assert (n' = n) as -> by congruence. split; [exact L|]. intros sx' X'. assert (sx' = sx) as -> by congruence. exists rx. reflexivity.
Qed.
Lemma c_pt c tr a s ts w : pr a s ts (w_maps w) (w_strs w) -> lpre (step d) el upper (LPt c) w -> ldoes (LPt c) tr (at_w ts s w) w.
Proof.
  intros P (rm & r & E). pose proof (PtCall.pexec_ok d Hwf mdiff Hm grow c (n_pt tr) (s, ts) _ _ rm r (pr_prel d _ _ _ _ _ P) E) as D. unfold pdoes in D.
  unfold LibMeet.ldoes. cbn [lexec]. unfold bind, on_pt. cbn [m_pt m_lists m_blocks].
  destruct (pexec d mdiff grow c (n_pt tr) (s, ts)) as [v st'|[|] st'| | |u]; try contradiction.
  - destruct D as (rm' & ms' & b' & v' & S' & L & H'). cbn [ret]. exists (World ms' (w_lists w) b' (w_lost w)), (LOut v').
    split; [exists rm', ms', b', v'; auto|]. split; [exact L|]. split; [exact H'|split; reflexivity].
  - destruct D as (rm' & ms' & b' & S' & H'). exists (World ms' (w_lists w) b' (w_lost w)). split; [exists rm', ms', b'; auto|]. split; [exact H'|split; reflexivity].
  - destruct D as (Sh & ms' & b' & S' & H'). split; [exact Sh|]. exists (World ms' (w_lists w) b' (w_lost w)). split; [exists ms', b'; auto|]. split; [exact H'|split; reflexivity].
Qed.

Lemma lexec_ok c tr q w : lrel d q w -> lpre (step d) el upper c w -> ldoes c tr q w.
Proof.
  destruct q as [[s ts] ls n]. intros ((a & H & A & O) & L & B) Pre. cbn [m_pt m_lists m_blocks fst snd] in *. subst ls n.
  assert (pr a s ts (w_maps w) (w_strs w)) as P by (split; [exact H|split; [exact A|exact O]]).
  destruct c; [eapply c_pt|eapply c_plus|eapply c_times|eapply c_sub|eapply c_subst|eapply c_newsplit|eapply c_ifind|eapply c_rifind|eapply c_ask|eapply c_make|eapply c_slice|eapply c_slice_of|
    eapply c_encode|eapply c_decode|eapply c_split|eapply c_join|eapply c_count|eapply c_free|eapply c_arr|eapply c_push|eapply c_pop|eapply c_elem]; eassumption.
Qed.
Lemma lobserve_ok prog : forall q w, lrel d q w -> lallows d el upper w prog (lobserve d mdiff grow el upper junk prog q).
Proof.
  induction prog as [|[c tr] prog IH]; intros q w H; [reflexivity|]. cbn [lallows lobserve]. intros Pre. pose proof (lexec_ok c tr q w H Pre) as D. unfold LibMeet.ldoes in D.
  destruct (lexec d mdiff grow el upper junk c tr q) as [v q'|[|] q'| | |u]; try contradiction.
  - destruct D as (w' & v' & Po & L & H'). exists v', w'. auto.
  - destruct D as (w' & R & H'). exists w'. auto.
  - destruct D as (Sh & w' & F & H'). split; [exact Sh|]. exists w'. auto.
Qed.
Lemma lrel_init : lrel d (Lmem (st_init, ∅) ∅ 0) (World ∅ ∅ ∅ 0).
Proof. split; [apply PtCall.prel_init|split; reflexivity]. Qed.
Lemma lrel_none q w : lrel d q w -> w_maps w = ∅ -> w_strs w = ∅ -> st_heap (fst (m_pt q)) = ∅ /\ m_blocks q = w_lost w.
Proof. intros (H & _ & B) M S. split; [eapply PtCall.prel_none; eassumption|exact B]. Qed.

Ltac stay := split; [|split]; cbn [w_maps w_lists w_strs with_strs]; intros; cbn [l_tables l_arrays l_strings] in *; try reflexivity;
  repeat (rewrite lookup_insert_ne by (intros ->; set_solver)); try reflexivity.
Lemma put_other rm x : forall xs ss (b : astate Z), x ∉ xs -> put_texts rm xs ss b !! x = b !! x.
Proof. induction xs as [|y xs IH]; intros [|t ss] b N; cbn [put_texts]; try reflexivity. rewrite lookup_insert_ne by (intros ->; set_solver). apply IH. set_solver. Qed.
Lemma drop_other x xs (b : astate Z) : x ∉ xs -> drop_all xs b !! x = b !! x.
Proof. unfold drop_all. induction xs as [|y xs IH]; intros N; cbn [fold_right]; [reflexivity|]. rewrite lookup_delete_ne by (intros ->; set_solver). apply IH. set_solver. Qed.
Lemma not_elem j n x : (forall k, x <> el j k) -> x ∉ elems_of el j n.
Proof. intros N X. apply elem_of_list_In, in_map_iff in X as (k & <- & _). exact (N k eq_refl). Qed.
Lemma post_apart c w o w' : lpre (step d) el upper c w -> lpost (step d) el upper c w o w' -> apart el c w w'.
Proof.
  destruct c; intros Pre Po; cbn [lpre lpost] in *; unfold new_text in *.
  - destruct Po as (rm & ms' & b' & v & E & _ & ->). pose proof (PtCall.kept_step d Hwf mdiff Hm grow rm c (w_maps w) (w_strs w)) as K. rewrite E in K. destruct K as [K1 K2].
    split; [exact K1|split; [reflexivity|]]. intros z N _. apply K2, N.
  - destruct Pre as ((sx & sy & X & Y) & _), Po as (_ & Po). destruct (Po _ _ X Y) as (rm & ->). stay.
  - destruct Pre as ((sx & X) & _), Po as (_ & Po). destruct (Po _ X) as (rm & ->). stay.
  - destruct Pre as ((sx & sy & sz & X & Y & Z1 & _) & _), Po as (_ & Po). destruct (Po _ _ _ X Y Z1) as (t & _ & rm & ->). stay.
  - destruct Pre as ((m & sx & I & X & _) & _), Po as (_ & Po). destruct (Po _ _ I X) as (l & t & _ & _ & rm & ->). stay.
  - destruct Pre as ((sx & X & _) & _), Po as (_ & Po). destruct (Po _ X) as (tok & rest & rm & rm' & _ & ->). stay.
  - destruct Po as (-> & _). stay.
  - destruct Po as (-> & _). stay.
  - destruct Po as (-> & _). stay.
  - destruct Pre as ((sx & X & _) & _), Po as (_ & Po). destruct (Po _ X) as (rm & ->). stay.
  - destruct Pre as (sx & sy & X & Y & _), Po as (_ & _ & Po). destruct (Po _ _ X Y) as (b' & -> & _ & K & _). stay. apply K; [set_solver|].
    destruct (Pos.eqb_spec x0 y) as [->|_]; [set_solver|apply andb_false_r].
  - destruct Pre as (sx & sy & X & Y & _), Po as (_ & Po). destruct (Po _ _ X Y) as (b' & -> & _ & K). stay. apply K. set_solver.
  - destruct Pre as ((l & X & _) & _), Po as (_ & Po). destruct (Po _ X) as (rm & ->). stay.
  - destruct Pre as ((l & X & B) & _), Po as (_ & Po). destruct (Po _ X B) as (rm & ->). stay.
  - destruct Pre as ((sx & sy & X & Y & _) & _), Po as (_ & Po). destruct (Po _ _ X Y) as (ps & rm & _ & ->). stay. apply put_other, not_elem. intros k. apply H0. set_solver.
  - destruct Pre as ((n & sy & ss & J & Y & F & _) & _), Po as (_ & Po). destruct (Po _ _ _ J Y F) as (rm & ->). stay.
  - destruct Po as (-> & _). stay.
  - destruct Pre as (n & J & _), Po as (_ & Po). rewrite (Po _ J). stay; [apply lookup_delete_ne; intros ->; set_solver|]. apply drop_other, not_elem. intros k. apply H0. set_solver.
  - destruct Po as (_ & ->). stay.
  - destruct Pre as ((n & sx & J & X & _) & _), Po as (_ & Po). destruct (Po _ _ J X) as (rm & ->). stay.
    rewrite lookup_insert_ne by (intros E; apply (H0 j n); [set_solver|congruence]). destruct mv; [apply lookup_insert_ne; intros ->; set_solver|reflexivity].
  - destruct Pre as ((n & sx & J & X) & _), Po as (_ & Po). destruct (Po _ _ J X) as (rm & ->). stay.
    rewrite lookup_delete_ne by (intros E; apply (H0 j n); [set_solver|congruence]). apply lookup_insert_ne. intros ->. set_solver.
  - destruct Pre as ((n & J & _ & F) & _), Po as (_ & Po). destruct (Po _ J) as (L & Po'). destruct (F L) as (sx & X). destruct (Po' _ X) as (rm & ->). stay.
Qed.
Lemma range_apart c w w' : lrange (step d) c w w' -> apart el c w w'.
Proof.
  destruct c; cbn [lrange]; intros F; try contradiction.
  - destruct F as (rm & ms' & b' & E & ->). pose proof (PtCall.kept_step d Hwf mdiff Hm grow rm c (w_maps w) (w_strs w)) as K. rewrite E in K. destruct K as [K1 K2].
    split; [exact K1|split; [reflexivity|]]. intros z N _. apply K2, N.
  - destruct q; try contradiction. destruct F as (-> & _). stay.
  - destruct F as (_ & ->). stay.
  - destruct F as (-> & _). stay.
Qed.
Lemma fail_apart c w w' : lfail c w w' -> apart el c w w'.
Proof.
  destruct c; cbn [lfail]; intros F; try contradiction; try (subst w'; stay; fail).
  - destruct F as (ms' & b' & E & ->). destruct (PtCall.kept_fail d Hwf mdiff Hm c _ _ _ _ E) as [K1 K2]. split; [exact K1|split; [reflexivity|]]. intros z N _. apply K2, N.
  - destruct F as (b' & -> & _ & K). stay. apply K. set_solver.
  - destruct F as (b' & -> & _ & K). stay. apply K. set_solver.
Qed.
Lemma lexec_apart c tr q w : lrel d q w -> lpre (step d) el upper c w ->
  match lexec d mdiff grow el upper junk c tr q with
  | Ok _ q' | Exn _ q' => exists w', lrel d q' w' /\ apart el c w w'
  | _ => False
  end.
Proof.
  intros H Pre. pose proof (lexec_ok c tr q w H Pre) as D. unfold LibMeet.ldoes in D. destruct (lexec d mdiff grow el upper junk c tr q) as [v q'|[|] q'| | |u]; try contradiction.
  - destruct D as (w' & v' & Po & _ & H'). exists w'. split; [exact H'|eapply post_apart; eassumption].
  - destruct D as (w' & R & H'). exists w'. split; [exact H'|eapply range_apart; eassumption].
  - destruct D as (_ & w' & F & H'). exists w'. split; [exact H'|eapply fail_apart; eassumption].
Qed.
End Proof.
(** Replacing in turn is possible while texts are short. *)
Lemma turn_some kvs : forall s, Forall (fun kv => fst kv <> []) kvs -> Z.of_nat (length s * factor kvs) < W31 -> exists t, in_turn kvs s t.
Proof.
  induction kvs as [|[k v] kvs IH]; intros s N L; [exists s; reflexivity|]. cbn [factor snd in_turn] in *. inversion N as [|? ? N1 N2]; subst. cbn [fst] in N1.
  pose proof (factor_pos kvs). assert (zlen s < W31) as Ls by (unfold zlen; nia). destruct (StrAlg.sub_spec s k v (-1) (S (length s)) N1 Ls) as (t & _ & T); [unfold W31; lia|lia|].
  change (if 0 <? -1 then Some (-1) else None) with (@None Z) in T. pose proof (replaced_len _ _ _ _ _ N1 T). destruct (IH t N2) as (u & U); [nia|]. exists u, t. auto.
Qed.
