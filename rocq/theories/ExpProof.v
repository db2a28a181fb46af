(** Proofs about ExpModel.v. *)
From Coq Require Import ZifyBool.
From Verif Require Import RcaSpec RcaModel RcaExec RcaInv RcaOwn RcaRel RcaRel2 RcaMeet RcaReach RcaFacts RcaFacts2 StrSpec StrModel StrCmp AlgModel AlgMeet AlgRules HsProof ExpModel ExpMeet.
Open Scope Z_scope.

Section Proof.
Context (d : desc Z) (Hwf : wf_desc d) (Hnul : d_nul d = Some 0).
Implicit Types (s : state Z) (a : astate Z) (x y r t : positive).
Notation reached := (reached d).
Notation step := (RcaMeet.step d).

Lemma dup_is b s a x l : reached s a -> is_str a x l -> hdup b x s = if b then Exn BadAlloc s else Ok (l ++ [0]) s.
Proof. intros H Hx. unfold hdup. destruct b; [reflexivity|]. unfold bind. rewrite (contents_str d Hwf s a x l H Hx). reflexivity. Qed.
Lemma std_is b s a x l : reached s a -> is_str a x l -> to_std b x s = if b then Exn BadAlloc s else Ok l s.
Proof. intros H Hx. unfold to_std. destruct b; [reflexivity|]. apply (contents_str d Hwf s a x l H Hx). Qed.
Lemma from_step a r l : a !! r = None -> zlen l < npos -> step (CtorCstrLen r (l ++ [0]) (zlen l)) a = Some (SRet (<[r := AVal true (map Some l)]> a) ONone).
Proof.
  intros Hr L. unfold RcaMeet.step. cbn [spec_step]. unfold fresh_var, is_string. rewrite Hr, Hnul. pose proof (zlen_nonneg l).
  pose proof (zlen_nonneg [0]). replace (0 <=? zlen l) with true by lia. replace (zlen l <? npos) with true by lia.
  replace (zlen l <=? zlen (l ++ [0])) with true by (rewrite zlen_app; lia). rewrite ztake_app_exact. reflexivity.
Qed.
Lemma cstr_of_is mem w : cstring mem w -> cstr_of (fun c => d_eqb d c 0) mem = Some w.
Proof.
  intros [N (rest & ->)]. destruct (Hwf 0 Hnul) as [_ Hz]. induction w as [|c w IH]; cbn [cstr_of app].
  - rewrite (proj2 (Hz 0) eq_refl). reflexivity.
  - cbn in N. destruct (d_eqb d c 0) eqn:E; [apply Hz in E; subst c; tauto|]. rewrite IH by tauto. reflexivity.
Qed.
Lemma cstr_step a r mem w : a !! r = None -> cstring mem w -> zlen w < npos -> step (CtorCstr r mem) a = Some (SRet (<[r := AVal true (map Some w)]> a) ONone).
Proof.
  intros Hr Hc L. unfold RcaMeet.step. cbn [spec_step]. unfold sp_carg. rewrite Hnul, Z.eqb_refl, (cstr_of_is mem w Hc). unfold fresh_var. rewrite Hr.
  replace (zlen w <? npos) with true by lia. reflexivity.
Qed.
Lemma ctor_cases o s a r w : reached s a -> step o a = Some (SRet (<[r := AVal true (map Some w)]> a) ONone) -> (forall g x, o <> CStr g x) ->
  subject o = Some r -> target o = None -> (forall a' x, asks o a' x = vlen a' x + 2) ->
  (exists s', call d o s = Ok tt s' /\ reached s' (<[r := AVal true (map Some w)]> a)) \/
  (exists s', call d o s = Exn BadAlloc s' /\ reached s' a /\ no_memory d (zlen w + 2)).
Proof.
  intros H Hs Hn Hsub Ht Hk. destruct (step_yields d o s a _ _ Hwf H Hs Hn) as [(s1 & v & E & _ & H1 & _)|(s1 & y & E & Hy & Hm & a1 & H1 & _ & Ha)].
  - left. exists s1. split; [unfold call, bind; rewrite E; reflexivity|exact H1].
  - right. exists s1. split; [unfold call, bind; rewrite E; reflexivity|]. destruct Ha as [->|(Hta & _)]; [|congruence]. split; [exact H1|].
    rewrite Hsub in Hy. injection Hy as <-. rewrite Hk in Hm. unfold vlen in Hm. rewrite lookup_insert, zlen_map in Hm. exact Hm.
Qed.
Lemma now_of s a : reached s a -> reached s a /\ shows s a.
Proof. intros H. split; [exact H|apply (reached_shows d s a Hwf H)]. Qed.
Lemma ma_npos : max_alloc < npos. Proof. unfold max_alloc, npos, W64. lia. Qed.

Lemma via_std_makes b s a r x l : reached s a -> is_str a x l -> a !! r = None ->
  makes d (b = true \/ no_memory d (zlen l + 2)) (via_std d b r x) s a (<[r := AVal true (map Some l)]> a) tt.
Proof.
  intros H Hx Hr. pose proof (str_len d Hwf s a x l H Hx) as L. pose proof ma_npos. unfold makes, via_std, bind. rewrite (std_is b s a x l H Hx). destruct b.
  - split; [reflexivity|]. split; [left; reflexivity|apply now_of, H].
  - unfold from_std. destruct (ctor_cases (CtorCstrLen r (l ++ [0]) (zlen l)) s a r l H (from_step a r l Hr ltac:(lia)) ltac:(discriminate) eq_refl eq_refl ltac:(reflexivity)) as [(s1 & E & H1)|(s1 & E & H1 & Hm)]; rewrite E.
    + split; [reflexivity|apply now_of, H1].
    + split; [reflexivity|]. split; [right; exact Hm|apply now_of, H1].
Qed.
Lemma via_dup_makes b s a r x l w : reached s a -> is_str a x l -> a !! r = None -> cstring (l ++ [0]) w ->
  makes d (b = true \/ no_memory d (zlen w + 2)) (via_dup d b r x) s a (<[r := AVal true (map Some w)]> a) tt.
Proof.
  intros H Hx Hr Hc. pose proof (str_len d Hwf s a x l H Hx) as L. pose proof ma_npos. unfold makes, via_dup, bind. rewrite (dup_is b s a x l H Hx). destruct b.
  - split; [reflexivity|]. split; [left; reflexivity|apply now_of, H].
  - assert (zlen w <= zlen l) as Lw by (destruct Hc as (_ & rest & E); apply (f_equal zlen) in E; rewrite !zlen_app, !zlen_cons, zlen_nil in E; pose proof (zlen_nonneg rest); lia).
    destruct (ctor_cases (CtorCstr r (l ++ [0])) s a r w H (cstr_step a r _ w Hr Hc ltac:(lia)) ltac:(discriminate) eq_refl eq_refl ltac:(reflexivity)) as [(s1 & E & H1)|(s1 & E & H1 & Hm)]; rewrite E.
    + split; [reflexivity|apply now_of, H1].
    + split; [reflexivity|]. split; [right; exact Hm|apply now_of, H1].
Qed.
Lemma valued_map l : valued (map Some l) = Some l.
Proof. apply valued_some. Qed.
Lemma via_cstr_makes g s a r x l w : reached s a -> a !! x = Some (AVal true (map Some l)) -> a !! r = None -> cstring (l ++ [0]) w ->
  makes_or_ends d (no_memory d (zlen w + 2)) (no_memory d (zlen l + 2)) (via_cstr d g r x) s a r w.
Proof.
  intros H Hx Hr Hc. assert (is_str a x l) as Hs by (eexists; exact Hx). pose proof (str_len d Hwf s a x l H Hs) as L. pose proof ma_npos. unfold makes_or_ends, via_cstr, bind.
  assert (zlen w <= zlen l) as Lw by (destruct Hc as (_ & rest & E); apply (f_equal zlen) in E; rewrite !zlen_app, !zlen_cons, zlen_nil in E; pose proof (zlen_nonneg rest); lia).
  destruct (c_str_spec d s a g x l 0 Hwf H Hx Hnul) as [(s1 & E & H1 & _)|(E & Hm)]; rewrite E; [|exact Hm].
  rewrite valued_map.
  destruct (ctor_cases (CtorCstr r (l ++ [0])) s1 a r w H1 (cstr_step a r _ w Hr Hc ltac:(lia)) ltac:(discriminate) eq_refl eq_refl ltac:(reflexivity)) as [(s2 & E2 & H2)|(s2 & E2 & H2 & Hm)]; rewrite E2.
  - apply now_of, H2.
  - split; [reflexivity|]. split; [exact Hm|apply now_of, H2].
Qed.
Lemma assign_via_writes b s a y x l old : reached s a -> is_str a x l -> is_str a y old ->
  writes d (b = true \/ no_memory d (zlen l + 2)) (assign_via_std d b y x) s a y old l None.
Proof.
  intros H Hx Hy. pose proof (str_len d Hwf s a x l H Hx) as L. pose proof ma_npos. unfold writes, assign_via_std, bind. rewrite (std_is b s a x l H Hx). destruct b.
  - split; [reflexivity|]. split; [left; reflexivity|]. exists a. destruct (now_of s a H). auto.
  - assert (step (AssignStd y l) a = Some (SRet (<[y := AVal true (map Some l)]> a) ONone)) as Hs.
    { destruct Hy as (ry & Hy). unfold RcaMeet.step. cbn [spec_step]. unfold live, fresh_var, is_string. rewrite Hy, Hnul. replace (zlen l <? npos) with true by lia. reflexivity. }
    unfold call, bind. destruct (step_yields d _ s a _ _ Hwf H Hs ltac:(discriminate)) as [(s1 & v & E & _ & H1 & _)|(s1 & z & E & Hz & Hm & a1 & H1 & _ & Ha)]; rewrite E.
    + exists (<[y := AVal true (map Some l)]> a). destruct (now_of s1 _ H1). split; [assumption|]. split; [assumption|]. split; [eexists; apply lookup_insert|].
      split; [intros z Nz _; apply lookup_insert_ne; congruence|intros z Q; discriminate].
    + cbn [subject target] in Hz. injection Hz as <-. cbn [asks] in Hm. unfold vlen in Hm. rewrite lookup_insert, zlen_map in Hm.
      split; [reflexivity|]. split; [right; exact Hm|]. exists a1. destruct (now_of s1 _ H1). split; [assumption|]. split; [assumption|]. destruct Ha as [->|(_ & _ & ->)].
      * auto.
      * split; [right; exists true; apply lookup_insert|]. intros z Nz. apply lookup_insert_ne. congruence.
Qed.
Lemma copy_is s a x l dst n : reached s a -> is_str a x l -> 0 <= n -> Z.min n (zlen l) <= zlen dst ->
  hcopy x dst n s = Ok (Z.min n (zlen l), map Some (ztake n l) ++ zdrop (Z.min n (zlen l)) dst) s.
Proof.
  intros H Hx Hn Hd. unfold hcopy. rewrite (bind_ok _ _ _ _ _ (length_is d Hwf s a x l H Hx)). destruct Hx as (rx & Hx). pose proof (zlen_nonneg l).
  pose proof (reached_R d s a Hwf H) as HR. destruct (R_held d _ _ _ _ _ HR Hx) as (o & Hh). set (k := Z.min n (zlen l)) in *.
  destruct (held_load d s x o rx _ 0 k (proj1 HR) Hh) as (es & E & Hv); [lia|rewrite zlen_map; lia|]. rewrite (bind_ok _ _ _ _ _ E).
  assert (es = map Some (ztake n l)) as ->.
  { apply vle_somes. assert (zsub 0 k (map Some l) = map Some (ztake n l)) as Ez; [|rewrite <- Ez; exact Hv].
    unfold zsub. rewrite zdrop_0 by lia. rewrite ztake_map. f_equal. unfold k. destruct (Z.le_ge_cases n (zlen l)); [rewrite Z.min_l by lia; reflexivity|].
    rewrite Z.min_r by lia. rewrite !ztake_all by lia. reflexivity. }
  destruct (Z.ltb_spec (zlen dst) k); [lia|]. reflexivity.
Qed.
Lemma copy_short s a x l dst n : reached s a -> is_str a x l -> 0 <= n -> zlen dst < Z.min n (zlen l) -> hcopy x dst n s = Undef UbBounds.
Proof.
  intros H Hx Hn Hd. unfold hcopy. rewrite (bind_ok _ _ _ _ _ (length_is d Hwf s a x l H Hx)). destruct Hx as (rx & Hx). pose proof (zlen_nonneg l).
  pose proof (reached_R d s a Hwf H) as HR. destruct (R_held d _ _ _ _ _ HR Hx) as (o & Hh). set (k := Z.min n (zlen l)) in *.
  destruct (held_load d s x o rx _ 0 k (proj1 HR) Hh) as (es & E & Hv); [lia|rewrite zlen_map; lia|]. rewrite (bind_ok _ _ _ _ _ E).
  destruct (Z.ltb_spec (zlen dst) k); [reflexivity|lia].
Qed.
Lemma le_cases mdiff s a t x l mem w : memcmp_ok mdiff -> reached s a -> is_str a x l -> a !! t = None -> cstring mem w -> bytes l -> bytes w ->
  zlen w < npos -> Z.abs (zlen l - zlen w) < W31 ->
  (exists s', hle_c d mdiff t x mem s = Ok (match lexcmp l w with Gt => false | _ => true end) s' /\ reached s' a) \/
  (hle_c d mdiff t x mem s = Term /\ no_memory d (zlen w + 2)).
Proof.
  intros Hm H Hx Ht Hc Bl Bw Lw Ld. pose proof (str_len d Hwf s a x l H Hx) as L. assert (max_alloc < W63) by reflexivity.
  unfold hle_c, noexcept. destruct (ctor_cases (CtorCstr t mem) s a t w H (cstr_step a t _ w Ht Hc Lw) ltac:(discriminate) eq_refl eq_refl ltac:(reflexivity)) as [(s1 & E & H1)|(s1 & E & H1 & Hmm)].
  - left. rewrite (bind_ok _ _ _ _ _ E).
    assert (is_str (<[t := AVal true (map Some w)]> a) t w) as Htt by (eexists; apply lookup_insert).
    assert (is_str (<[t := AVal true (map Some w)]> a) x l) as Hxx.
    { destruct Hx as (rx & Hx). exists rx. rewrite lookup_insert_ne; [exact Hx|congruence]. }
    pose proof (str_len d Hwf s1 _ t w H1 Htt) as L1.
    destruct (operators_spec mdiff Hm false w l Bw Bl ltac:(discriminate) ltac:(lia) ltac:(lia) ltac:(lia)) as (Elt & _).
    unfold scope, unwind. unfold bind at 1. unfold bind at 1. rewrite (contents_str d Hwf s1 _ t w H1 Htt). unfold bind at 1. rewrite (contents_str d Hwf s1 _ x l H1 Hxx).
    unfold bind at 1. rewrite (pure_ok _ _ s1 Elt). cbn [ret].
    destruct (call_ok d Hwf (Destroy t) s1 _ _ _ H1 (destroy_step d _ t (mk_is_Some _ _ (lookup_insert _ _ _))) eq_refl) as (s2 & E2 & H2). unfold ret at 1.
    rewrite (bind_ok _ _ _ _ _ E2). exists s2. rewrite delete_insert in H2 by exact Ht. split; [|exact H2]. unfold ret.
    rewrite lexcmp_antisym. destruct (lexcmp l w); reflexivity.
  - right. rewrite (bind_exn _ _ _ _ _ E). auto.
Qed.
Lemma lt_is s a x l mem w : reached s a -> is_str a x l -> cstring mem w -> bytes l -> bytes w -> ~ prefix_of (w ++ [0]) l ->
  hlt_c x mem s = Ok (match lexcmp l w with Lt => true | _ => false end) s.
Proof.
  intros H Hx Hc Bl Bw N. unfold hlt_c. rewrite (bind_ok _ _ _ _ _ (contents_str d Hwf s a x l H Hx)). apply pure_ok.
  destruct (compare_c_spec l mem w Bl Bw Hc N) as (c & E & Hs). unfold op_lt_c. rewrite (bind_ok _ _ _ _ _ E). unfold ret, has_sign, Z.ltb in *. rewrite Hs. destruct (lexcmp l w); reflexivity.
Qed.
End Proof.
