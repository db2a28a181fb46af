(** The algorithms on the heap meet the specifications of the algorithms on values. *)
From Coq Require Import Lia.
From Verif Require Import RcaSpec RcaModel RcaExec RcaInv RcaOwn RcaRel RcaMeet RcaReach RcaFacts StrSpec StrModel StrFind StrAlg
  AlgModel AlgMeet AlgRules AlgSub AlgShare AlgSplit.
Open Scope Z_scope.

Ltac if_t b := let E := fresh in assert (b = true) as E by (unfold in_u64, W64, npos, max_alloc in *; lia); rewrite E; clear E; cbn [need].
Ltac if_f b := let E := fresh in assert (b = false) as E by (unfold in_u64, W64, npos, max_alloc in *; lia); rewrite E; clear E; cbn [need].

Section Facts.
Variable d : desc Z.
Hypothesis Hwf : wf_desc d.
Hypothesis Hnul : d_nul d = Some 0.
Notation reached := (reached d).

Lemma makes_enough {A} (C : Prop) (m : M (state Z) A) s a a' v : makes d C m s a a' v -> ~ C -> gives d m s a' v.
Proof.
  unfold makes, gives. intros H HC. destruct (m s) as [v' s'|e s'| | |?]; try contradiction.
  - destruct H as (-> & H1 & H2). exists s'. auto.
  - destruct H as (_ & H & _). contradiction.
Qed.

Lemma enough_memory n : (forall k, d_oom d k = false) -> n <= max_alloc -> (forall z, 0 <= z < n -> d_grow d z <= max_alloc) ->
  forall A (m : M (state Z) A) s a a' v, makes d (no_memory d n) m s a a' v -> gives d m s a' v.
Proof. intros H1 H2 H3 A m s a a' v H. eapply makes_enough; [exact H|]. apply no_memory_absurd; assumption. Qed.
Lemma sub_makes s a r u t x y z sx sy sz limit fuel : reached s a -> unused a [r; u; t] -> is_str a x sx -> is_str a y sy -> is_str a z sz ->
  sy <> [] -> zlen sx < W31 -> - W31 <= limit < W31 -> (length sx < fuel)%nat ->
  exists w, replaced sy sz (budget limit) sx w /\
    makes d (no_memory d (Z.max (zlen sx) (zlen w) + 2)) (hsub d fuel r u t x y z limit) s a (<[r := AVal true (map Some w)]> a) tt.
Proof.
  intros H Hu Hx Hy Hz Hn L Hl Hf. destruct (sub_spec sx sy sz limit fuel Hn L Hl Hf) as (w & E & Hw). exists w. split; [exact Hw|].
  apply (makes_str d Hwf). eapply (hsub_runs d Hwf Hnul); try eassumption; lia.
Qed.

Lemma subst_prefixes kvs sx w : Forall (fun kv => fst kv <> []) kvs -> subst_chain kvs sx w ->
  exists f0, forall fuel, (f0 <= fuel)%nat -> forall l1 l2, kvs = l1 ++ l2 -> exists w1, subst_chain l1 sx w1 /\ subst fuel sx l1 tt = Ok w1 tt.
Proof.
  intros N C. induction C as [s|k v kvs s t u L R C IH].
  - exists 0%nat. intros fuel _ l1 l2 E. symmetry in E. apply app_eq_nil in E as [-> ->]. exists s. split; [constructor|reflexivity].
  - inversion N as [|? ? N1 N2]; subst. destruct (IH N2) as (f0 & F). exists (Nat.max f0 (S (length s))). intros fuel Hf l1 l2 E.
    destruct l1 as [|p l1]; [exists s; split; [constructor|reflexivity]|]. injection E as <- E.
    destruct (F fuel ltac:(lia) l1 l2 E) as (w1 & C1 & E1). exists w1. split; [econstructor; eassumption|].
    cbn [subst]. unfold bind. destruct (sub_spec s k v (-1) fuel N1 L) as (t' & T1 & T2); [unfold W31; lia|lia|].
    rewrite T1. rewrite (replaced_det _ _ _ _ _ N1 T2 _ R). exact E1.
Qed.
Lemma subst_makes s a r q u t x kvs tkvs sx w K : reached s a -> unused a [r; q; u; t] -> is_str a x sx ->
  Forall2 (fun p tp => is_str a (fst p) (fst tp) /\ is_str a (snd p) (snd tp)) kvs tkvs ->
  Forall (fun kv => fst kv <> []) tkvs -> subst_chain tkvs sx w ->
  (forall l1 l2 w1, tkvs = l1 ++ l2 -> subst_chain l1 sx w1 -> zlen w1 + 2 <= K) ->
  exists f0 room, forall fuel, (f0 <= fuel)%nat -> makes d (no_memory d K) (hsubst d fuel r q u t x kvs) s a (<[r := AVal room (map Some w)]> a) tt.
Proof.
  intros H Hu (rx & Hx) HF N C HK. destruct (subst_prefixes tkvs sx w N C) as (f0 & F). exists f0, (match kvs with [] => rx | _ => true end). intros fuel Hf.
  destruct (F fuel Hf tkvs [] (eq_sym (app_nil_r _))) as (w' & C' & E').
  assert (w' = w) as ->. { destruct (subst_spec tkvs sx w N C) as (f1 & F1). destruct (subst_spec tkvs sx w' N C') as (f2 & F2).
    specialize (F1 (Nat.max f1 f2) ltac:(lia)). specialize (F2 (Nat.max f1 f2) ltac:(lia)). congruence. }
  apply (makes_str d Hwf). eapply (hsubst_runs d Hwf Hnul); try eassumption. intros l1 l2 w1 E E1.
  destruct (F fuel Hf l1 l2 E) as (w2 & C2 & E2). assert (w2 = w1) as -> by congruence. eapply HK; eassumption.
Qed.

Lemma repeat_len s n : zlen (repeat_str s n) = zlen s * Z.of_nat n.
Proof. induction n as [|n IH]; cbn [repeat_str]; [rewrite zlen_nil; lia|]. rewrite zlen_app, IH. lia. Qed.
Lemma times_makes s a r x n sx : reached s a -> a !! r = None -> is_str a x sx -> 0 <= n < W31 ->
  makes d (no_memory d (zlen sx * n + 2)) (htimes d r x n) s a (<[r := AVal true (map Some (repeat_str sx (Z.to_nat n)))]> a) tt.
Proof.
  intros H Hr (rx & Hx) Hn. apply (makes_str d Hwf). pose proof (zlen_nonneg sx).
  eapply (htimes_runs d Hwf Hnul); try eassumption.
  - rewrite (u64_id n) by (unfold W31, W64 in *; lia). pose proof (Z.mod_le (zlen sx * n) W64 ltac:(nia) ltac:(reflexivity)) as M. unfold u64. lia.
  - rewrite repeat_len. rewrite Z2Nat.id by lia. lia.
Qed.
Lemma plus_makes s a r x y p v w : reached s a -> unused a [r; p] -> is_str a x v -> is_str a y w ->
  makes d (no_memory d (zlen v + zlen w + 2)) (concat d r x y p) s a (<[r := AVal true (map Some (v ++ w))]> a) tt.
Proof. intros H Hu (rx & Hx) (ry & Hy). apply (makes_str d Hwf). eapply (concat_runs d Hwf Hnul); try eassumption; lia. Qed.

Lemma intercalate_len delim l : l <> [] -> zlen (intercalate delim l) = (zlen l - 1) * zlen delim + total l.
Proof.
  induction l as [|e l IH]; [congruence|]. intros _. destruct l as [|f l].
  - cbn [intercalate total]. rewrite (zlen_cons e), zlen_nil. lia.
  - change (intercalate delim (e :: f :: l)) with (e ++ delim ++ intercalate delim (f :: l)).
    change (total (e :: f :: l)) with (zlen e + total (f :: l)). rewrite !zlen_app, IH by discriminate. rewrite !zlen_cons. lia.
Qed.
Lemma total_dress quoted l : total (map (dress quoted) l) = total l + (if quoted then zlen l * 2 else 0).
Proof.
  induction l as [|e l IH]; cbn [total map]; [destruct quoted; reflexivity|]. rewrite IH, (zlen_cons e). destruct quoted; cbn [dress]; [|lia].
  unfold quote. rewrite zlen_cons, zlen_app, zlen_cons, zlen_nil. lia.
Qed.
Lemma join_makes s a r y xs (quoted : bool) c1 m1 c2 m2 sy ss : reached s a -> unused a [r; c1; m1; c2; m2] -> is_str a y sy -> Forall2 (is_str a) xs ss ->
  let K := zlen ss * zlen sy + (if quoted then zlen ss * 2 else 0) + total ss in (ss = [] \/ 0 < K < W64) ->
  makes d (no_memory d (K + 2)) (hjoin d r y xs quoted c1 m1 c2 m2) s a (<[r := AVal true (map Some (intercalate sy (map (dress quoted) ss)))]> a) tt.
Proof.
  intros H Hu (ry & Hy) Hs K HK. apply (makes_str d Hwf). pose proof (join_loop_eq ss sy quoted) as El. rewrite <- El.
  pose proof (zlen_nonneg ss) as L1. pose proof (zlen_nonneg sy) as L2. pose proof (total_nonneg ss) as L3.
  eapply (hjoin_runs d Hwf Hnul Z.sub); try eassumption.
  - intros Hn. destruct HK as [->|HK]; [contradiction|]. rewrite join_size_eq. replace (_ + total ss) with (K - 1) by (unfold K; lia). rewrite u64_id by lia. lia.
  - rewrite El. destruct ss as [|e ss]; [cbn; unfold K in *; cbn [total]; rewrite ?zlen_nil; destruct quoted; nia|].
    rewrite intercalate_len by (cbn; discriminate). rewrite zlen_map, total_dress. unfold K in *. nia.
Qed.

Lemma ifind_makes s a up x y p q sx sy : reached s a -> unused a [p; q] -> is_str a x sx -> is_str a y sy -> sy <> [] ->
  exists v, found_first (map up sy) (map up sx) v /\ makes d (no_memory d (Z.max (zlen sx) (zlen sy) + 2)) (hifind d up x y p q) s a a v.
Proof.
  intros H Hu Hx Hy Hn. pose proof (str_len d Hwf s a x sx H Hx) as [_ L].
  destruct (ifind_spec up sx sy) as (v & E & F); [unfold max_alloc, W63 in *; lia|exact Hn|]. exists v. split; [exact F|].
  apply (makes_with d Hwf). eapply (hifind_runs d Hwf); try eassumption; lia.
Qed.
Lemma rifind_makes s a mdiff up x y p q lpos sx sy : memcmp_ok mdiff -> bytes (map up sx) -> bytes (map up sy) ->
  reached s a -> unused a [p; q] -> is_str a x sx -> is_str a y sy -> sy <> [] ->
  exists v, found_last (map up sy) (map up sx) 0 v /\ makes d (no_memory d (Z.max (zlen sx) (zlen sy) + 2)) (hrifind d mdiff up x y p q lpos) s a a v.
Proof.
  intros Hm Bx By H Hu Hx Hy Hn. pose proof (str_len d Hwf s a x sx H Hx) as [_ L].
  destruct (rifind_spec mdiff Hm up sx sy lpos Bx By) as (v & E & F); [unfold max_alloc, W63 in *; lia|exact Hn|]. exists v. split; [exact F|].
  apply (makes_with d Hwf). eapply (hrifind_runs d Hwf); try eassumption; lia.
Qed.

(** split *)
Section Split.
Variables (mdiff : Z -> Z -> Z) (grow_fails : nat -> bool) (el : nat -> positive).
Hypothesis Hm : memcmp_ok mdiff.
Definition elements_unused (a : astate Z) (tmps : list positive) : Prop :=
  (forall i j, el i = el j -> i = j) /\ forall i, a !! el i = None /\ ~ In (el i) tmps.
Definition split_fails : Prop := no_memory d 3 \/ exists k, grow_fails k = true.

Lemma split_from limit fuel a x y sp t rx sx sy s ps : reached s a -> a !! x = Some (AVal rx (map Some sx)) -> is_str a y sy ->
  unused a [sp; t] -> elements_unused a [sp; t] -> split mdiff fuel sx sy limit tt = Ok ps tt ->
  makes d split_fails (hsplit d mdiff grow_fails el fuel x y sp t limit) s a (with_elems el rx 0 ps a) (length ps).
Proof.
  intros H Hx Hy Hu [Hi He] E. apply (makes_with d Hwf). eapply runs_conseq; [eapply (hsplit_runs d Hwf Hnul); try eassumption| |].
  - intros i. destruct (He i) as [H1 H2]. cbn [In] in H2. split; [exact H1|]. split; intros Hq; apply H2; auto.
  - intros k s' [Hw _]. exact Hw.
  - intros e s' Ht. exact Ht.
Qed.
Lemma split_makes fuel a x y sp t rx sx sy s : reached s a -> a !! x = Some (AVal rx (map Some sx)) -> is_str a y sy ->
  unused a [sp; t] -> elements_unused a [sp; t] -> bytes sx -> bytes sy -> sy <> [] -> zlen sx < W31 -> zlen sy < W31 -> (length sx < fuel)%nat ->
  exists ps, pieces (is_sp sy) sy sx ps /\
    makes d split_fails (hsplit d mdiff grow_fails el fuel x y sp t npos) s a (with_elems el rx 0 ps a) (length ps).
Proof.
  intros H Hx Hy Hu He Bx By Hn Lx Ly Hf. destruct (split_all mdiff Hm sx sy fuel Bx By Hn Lx Ly Hf) as (ps & E & P).
  exists ps. split; [exact P|]. eapply split_from; eassumption.
Qed.
Lemma split_limit_makes limit fuel a x y sp t rx sx sy s : reached s a -> a !! x = Some (AVal rx (map Some sx)) -> is_str a y sy ->
  unused a [sp; t] -> elements_unused a [sp; t] -> bytes sx -> bytes sy -> sy <> [] -> zlen sx < W31 -> zlen sy < W31 -> (length sx < fuel)%nat ->
  sx <> [] -> 2 <= limit < npos ->
  exists ps, pieces_upto (is_sp sy) sy (limit - 1) sx ps /\
    makes d split_fails (hsplit d mdiff grow_fails el fuel x y sp t limit) s a (with_elems el rx 0 ps a) (length ps).
Proof.
  intros H Hx Hy Hu He Bx By Hn Lx Ly Hf Hne Hl. destruct (split_limit mdiff Hm sx sy limit fuel Bx By Hn Lx Ly Hf Hne Hl) as (ps & E & P).
  exists ps. split; [exact P|]. eapply split_from; eassumption.
Qed.
Lemma split_shares_from limit fuel a x y sp t sx sy s ps k s' n : reached s a -> is_str a x sx -> is_str a y sy ->
  unused a [sp; t] -> elements_unused a [sp; t] -> split mdiff fuel sx sy limit tt = Ok ps tt ->
  hsplit d mdiff grow_fails el fuel x y sp t limit s = Ok k s' -> rcount x s = Ok n s -> rcount x s' = Ok (n + Z.of_nat k) s'.
Proof.
  intros H (rx & Hx) Hy Hu [Hi He] E Ek En.
  pose proof (hsplit_runs d Hwf Hnul mdiff grow_fails el Hi limit fuel a x y sp t rx sx sy s ps H Hx Hy Hu) as R. unfold runs in R. rewrite Ek in R.
  destruct R as [[-> H'] Hs]; [|exact E|].
  { intros i. destruct (He i) as [H1 H2]. cbn [In] in H2. split; [exact H1|]. split; intros Hq; apply H2; auto. }
  rewrite (rcount_exact d s a x Hwf H (live_val _ _ _ Hx)) in En. injection En as <-.
  rewrite (rcount_exact d s' _ x Hwf H'); [rewrite Hs; reflexivity|]. eapply live_val. rewrite (with_elems_other grow_fails el Hi); [exact Hx|].
  intros i _ Eq. destruct (He i) as [H1 _]. congruence.
Qed.
Lemma split_any limit fuel sx sy : bytes sx -> bytes sy -> sy <> [] -> zlen sx < W31 -> zlen sy < W31 -> (length sx < fuel)%nat -> 0 <= limit < W64 ->
  exists ps, split mdiff fuel sx sy limit tt = Ok ps tt.
Proof.
  intros Bx By Hn Lx Ly Hf Hl. destruct (decide (sx = [])) as [->|Hne]; [exists []; reflexivity|].
  destruct (Z.eq_dec limit npos) as [->|H1]; [destruct (split_all mdiff Hm sx sy fuel) as (ps & E & _); eauto|].
  destruct (Z.eq_dec limit 0) as [->|H2]; [destruct (split_limit0 mdiff Hm sx sy fuel) as (ps & E & _); eauto|].
  destruct (Z.eq_dec limit 1) as [->|H3]; [exists [sx]; apply split_one; exact Hne|].
  destruct (split_limit mdiff Hm sx sy limit fuel) as (ps & E & _); eauto. unfold npos, W64 in *. lia.
Qed.
Lemma split_shares limit fuel a x y sp t sx sy s k s' n : reached s a -> is_str a x sx -> is_str a y sy ->
  unused a [sp; t] -> elements_unused a [sp; t] -> bytes sx -> bytes sy -> sy <> [] -> zlen sx < W31 -> zlen sy < W31 -> (length sx < fuel)%nat -> 0 <= limit < W64 ->
  hsplit d mdiff grow_fails el fuel x y sp t limit s = Ok k s' -> rcount x s = Ok n s -> rcount x s' = Ok (n + Z.of_nat k) s'.
Proof.
  intros H Hx Hy Hu He Bx By Hn Lx Ly Hf Hl. destruct (split_any limit fuel sx sy Bx By Hn Lx Ly Hf Hl) as (ps & E). eapply split_shares_from; eassumption.
Qed.
End Split.

(** newsplit *)
Lemma first_in (b : Z) l : In b l -> exists tok rest, l = tok ++ b :: rest /\ ~ In b tok.
Proof.
  induction l as [|c l IH]; [intros []|]. destruct (Z.eq_dec c b) as [->|Hc]; [exists [], l; split; [reflexivity|intros []]|].
  intros [Hb|Hb]; [congruence|]. destruct (IH Hb) as (tok & rest & -> & Hn). exists (c :: tok), rest. split; [reflexivity|]. intros [?|?]; [congruence|contradiction].
Qed.
Lemma newsplit_gives s a r x b rx sx tok rest : (forall b c, d_eqb d b c = (b =? c)) ->
  reached s a -> a !! r = None -> a !! x = Some (AVal rx (map Some sx)) -> zlen sx < W31 ->
  (sx = tok ++ b :: rest /\ ~ In b tok) \/ (sx = tok /\ ~ In b sx /\ rest = []) ->
  exists room, gives d (hnewsplit d r x b) s (<[x := AVal rx (map Some (skip (b =? 32) rest))]> (<[r := AVal room (map Some tok)]> a)) tt.
Proof.
  intros Heq H Hr Hx L Hc. eexists. apply (gives_str d Hwf). eapply (hnewsplit_runs d Hwf); try eassumption.
  destruct Hc as [[Hs Hn]|(-> & Hn & ->)]; [apply newsplit_found; assumption|]. rewrite newsplit_last by assumption. destruct (b =? 32); reflexivity.
Qed.
Lemma newsplit_shares_count s a r x b sx s' n : (forall b c, d_eqb d b c = (b =? c)) ->
  reached s a -> a !! r = None -> is_str a x sx -> sx <> [] -> zlen sx < W31 ->
  hnewsplit d r x b s = Ok tt s' -> rcount x s = Ok n s -> rcount x s' = Ok (n + 1) s'.
Proof.
  intros Heq H Hr (rx & Hx) Hne L E En. rewrite (rcount_exact d s a x Hwf H (live_val _ _ _ Hx)) in En. injection En as <-.
  destruct (shared_start d s a x rx (map Some sx) Hwf H Hx) as (l & Hl); [intros Hm; apply map_eq_nil in Hm; contradiction|].
  assert (o_len_of x s <> Some 0) as Ho.
  { unfold o_len_of. pose proof (length_is d Hwf s a x sx H (ex_intro _ rx Hx)) as El. unfold length_of, bind, get_obj, ret in El.
    destruct (st_env s !! x) as [o|]; [|discriminate]. cbn [option_map]. injection El as El. intros [= Eo]. apply Hne, zlen_0_nil. lia. }
  pose proof (newsplit_shares d l r x b _ s Hl Ho tt s' E) as Hs. cbv beta in Hs.
  assert (exists tok rest, newsplit sx b tt = Ok (tok, rest) tt) as (tok & rest & Ens).
  { destruct (in_dec Z.eq_dec b sx) as [Hi|Hi].
    - destruct (first_in b sx Hi) as (tok & rest & -> & Hn). exists tok, (skip (b =? 32) rest). apply newsplit_found; auto.
    - exists sx, []. apply newsplit_last; assumption. }
  pose proof (hnewsplit_runs d Hwf r x b s a rx sx tok rest Heq H Hr Hx Ens) as R. unfold runs in R. rewrite E in R.
  rewrite (rcount_exact d s' _ x Hwf R); [rewrite (shared_sharers _ _ _ _ Hs); reflexivity|]. eapply live_val. apply lookup_insert.
Qed.

(** Slices *)
Lemma slice_gives s a t x rx sx start len : reached s a -> a !! x = Some (AVal rx (map Some sx)) -> a !! t = None ->
  sp_slice_ok (zlen sx) start len = true ->
  gives d (hslice d t x start len) s (<[t := AVal rx (map Some (sp_slice sx start len))]> a) tt.
Proof. intros H Hx Ht Hok. apply (gives_str d Hwf). eapply (hslice_to d Hwf); [exact H|exact Hx|exact Ht|exact Hok|reflexivity]. Qed.
Lemma replace_step a mv x y rx ry sx sy pos n : a !! x = Some (AVal rx (map Some sx)) -> a !! y = Some (AVal ry (map Some sy)) ->
  0 <= pos <= zlen sx -> zlen sx <= max_alloc -> 0 < n < W64 ->
  let w := ztake (Z.min n (zlen sy)) sy in
  exists a', step d (ReplaceN mv x pos y n) a = Some (SRet a' ONone) /\ is_str a' x (over sx pos w) /\
    (forall z, z <> x -> (if mv then Some y else None) <> Some z -> a' !! z = a !! z) /\ is_Some (a' !! y).
Proof.
  intros Hx Hy Hp Hm Hn w. pose proof (zlen_nonneg sy) as Ly. pose proof (zlen_nonneg sx) as Lx.
  set (k := Z.min n (zlen sy)) in *. assert (Hk : zlen (ztake k (map Some sy)) = k) by (rewrite zlen_ztake, zlen_map; lia).
  assert (Hw : zlen w = k) by (unfold w; rewrite zlen_ztake; lia).
  assert (d_class d = false) as Hcl by (destruct (Hwf 0 Hnul) as [Hf _]; exact Hf).
  destruct ((pos =? 0) && (zlen sx <? zlen sy) && (zlen sy <=? n) && ((n =? npos) || (n =? zlen sy))) eqn:Hst.
  - exists (<[x := AVal ry (map Some sy)]> (if mv then <[y := AMoved]> a else a)). split; [|split; [|split]].
    + unfold RcaMeet.step, spec_step. rewrite (holds_val _ _ _ _ Hx), (holds_val _ _ _ _ Hy), !zlen_map. if_t (in_u64 pos && in_u64 n). if_f (n =? 0). if_f (zlen sx <? pos).
      rewrite Hst. reflexivity.
    + exists ry. rewrite lookup_insert. do 3 f_equal. assert (k = zlen sy) as Ek by lia. assert (pos = 0) as -> by lia. unfold over, w. rewrite Ek.
      rewrite ztake_0, (ztake_all (zlen sy) sy), zdrop_all, app_nil_r by lia. reflexivity.
    + intros z Hz Hzy. rewrite lookup_insert_ne by congruence. destruct mv; [|reflexivity]. rewrite lookup_insert_ne by congruence. reflexivity.
    + destruct (decide (x = y)) as [->|]; [rewrite lookup_insert; eauto|]. rewrite lookup_insert_ne by assumption. destruct mv; [rewrite lookup_insert; eauto|eauto].
  - exists (<[x := AVal true (map Some (over sx pos w))]> a). split; [|split; [|split]].
    + unfold RcaMeet.step, spec_step. rewrite (holds_val _ _ _ _ Hx), (holds_val _ _ _ _ Hy), !zlen_map. if_t (in_u64 pos && in_u64 n). if_f (n =? 0). if_f (zlen sx <? pos).
      rewrite Hst. fold k. unfold alias_ok. rewrite Hcl. cbn [andb negb orb need]. unfold put, sp_over. rewrite Hk. do 5 f_equal.
      unfold over. rewrite !map_app, <- ztake_map, <- zdrop_map, Hw. unfold w. rewrite <- ztake_map. reflexivity.
    + exists true. apply lookup_insert.
    + intros z Hz _. rewrite lookup_insert_ne by congruence. reflexivity.
    + destruct (decide (x = y)) as [->|]; [rewrite lookup_insert; eauto|]. rewrite lookup_insert_ne by assumption. eauto.
Qed.
Lemma replace_writes s a mv x y sx sy pos n : reached s a -> is_str a x sx -> is_str a y sy -> 0 <= pos <= zlen sx -> 0 < n < W64 ->
  let w := ztake (Z.min n (zlen sy)) sy in
  writes d (no_memory d (Z.max (zlen sx) (pos + zlen w) + 2)) (call d (ReplaceN mv x pos y n)) s a x sx (over sx pos w) (if mv then Some y else None).
Proof.
  intros H Hx0 Hy0 Hp Hn w. pose proof (str_len d Hwf s a x sx H Hx0) as [Lx Lx']. destruct Hx0 as (rx & Hx), Hy0 as (ry & Hy).
  pose proof (zlen_nonneg w) as Lw.
  destruct (replace_step a mv x y rx ry sx sy pos n Hx Hy Hp Lx' Hn) as (a' & Hst & Hnew & Hz & Hly). fold w in Hnew.
  unfold writes, call, bind.
  destruct (step_yields d _ s a a' _ Hwf H Hst ltac:(discriminate)) as [(s' & v' & E & _ & Hr & Hsh)|(s' & x' & E & Hsub & Hm & a'' & Hr & Hsh & Ha)]; rewrite E; cbn [ret].
  - exists a'. split; [exact Hr|]. split; [exact Hsh|]. split; [exact Hnew|]. split; [exact Hz|]. intros z Hzy. destruct mv; [|discriminate]. injection Hzy as <-. exact Hly.
  - cbn [subject] in Hsub. injection Hsub as <-. split; [reflexivity|]. split.
    + eapply no_memory_mono; [exact Hm|]. cbn [asks]. destruct Hnew as (r & Hnew). rewrite (vlen_val _ _ _ _ Hnew), zlen_map. unfold over.
      rewrite !zlen_app, zlen_ztake, zlen_zdrop. lia.
    + exists a''. split; [exact Hr|]. split; [exact Hsh|]. destruct Ha as [->|(_ & _ & ->)].
      * split; [left; exists rx; exact Hx|reflexivity].
      * split; [right; exists true; apply lookup_insert|]. intros z Hzx. apply lookup_insert_ne. congruence.
Qed.
Lemma slice_writes s a mv x y sx sy start len : reached s a -> is_str a x sx -> is_str a y sy -> 0 <= start <= zlen sx -> - W63 <= len < W63 -> len <> 0 ->
  let w := if len <? 0 then sy else ztake len sy in
  writes d (no_memory d (Z.max (zlen sx) (start + zlen w) + 2)) (slice_set d mv x start len y) s a x sx (over sx start w) (if mv then Some y else None).
Proof.
  intros H Hx Hy Hs Hl Hl0 w. pose proof (str_len d Hwf s a y sy H Hy) as Ly. pose proof (str_len d Hwf s a x sx H Hx) as Lx.
  unfold slice_set. rewrite (u64_id start) by (unfold max_alloc, W64 in *; lia).
  assert (w = ztake (Z.min (u64 len) (zlen sy)) sy) as ->.
  { unfold w. destruct (Z.ltb_spec len 0) as [Hneg|Hpos].
    - assert (u64 len = len + W64) as -> by (unfold u64; rewrite <- (Z.mod_small (len + W64) W64); [rewrite <- (Z_mod_plus_full len 1 W64); f_equal; lia|unfold W63, W64 in *; lia]).
      rewrite ztake_all; [reflexivity|]. unfold max_alloc, W63, W64 in *. lia.
    - rewrite u64_id by (unfold W63, W64 in *; lia). destruct (Z.min_spec len (zlen sy)) as [[? ->]|[? ->]]; [reflexivity|].
      rewrite !ztake_all by lia. reflexivity. }
  apply replace_writes; try assumption. pose proof (u64_range len). destruct (Z.eq_dec (u64 len) 0) as [E|E]; [|lia].
  exfalso. unfold u64 in E. apply Z.mod_divide in E; [|discriminate]. destruct E as (q & ->). unfold W63, W64 in *. lia.
Qed.
(** Reading what was written. *)
Lemma over_slice sx start w : 0 <= start <= zlen sx -> 0 < zlen w -> sp_slice (over sx start w) start (zlen w) = w.
Proof.
  intros Hs Hw. unfold sp_slice, sp_slice_start. replace (start <? 0) with false by lia.
  assert (zlen (over sx start w) = Z.max (zlen sx) (start + zlen w)) as Hl by (unfold over; rewrite !zlen_app, zlen_ztake, zlen_zdrop; lia).
  rewrite Hl. replace (_ <=? start) with false by lia. replace (zlen w =? -1) with false by lia. replace (zlen w <? 0) with false by lia.
  unfold over. rewrite zdrop_app. rewrite (zdrop_all start (ztake start sx)) by (rewrite zlen_ztake; lia). rewrite zlen_ztake.
  replace (start - _) with 0 by lia. rewrite zdrop_0 by lia. rewrite app_nil_l, ztake_app. rewrite (ztake_all _ w) by lia. rewrite (ztake_0 (_ - zlen w)) by lia. apply app_nil_r.
Qed.
(** Writing what was read. *)
Lemma over_same sx start len : 0 <= start <= zlen sx -> 0 <= len -> over sx start (sp_slice sx start len) = sx.
Proof.
  intros Hs Hl. unfold sp_slice, sp_slice_start. replace (start <? 0) with false by lia. destruct (Z.leb_spec (zlen sx) start) as [H|H].
  - unfold over. rewrite ztake_all, zdrop_all, app_nil_r by (rewrite ?zlen_nil; lia). reflexivity.
  - replace (len =? -1) with false by lia. replace (len <? 0) with false by lia. unfold over.
    set (k := Z.min (zlen sx) (start + len) - start). rewrite zlen_ztake, zlen_zdrop. replace (start + _) with (start + k) by lia.
    rewrite <- (ztake_zdrop start sx) at 4. f_equal. rewrite <- (ztake_zdrop k (zdrop start sx)) at 2. f_equal. unfold zdrop. rewrite drop_drop. f_equal. lia.
Qed.
Lemma put_get s a mv x y sx sy start : reached s a -> is_str a x sx -> is_str a y sy -> 0 <= start <= zlen sx -> 0 < zlen sy ->
  Z.max (zlen sx) (start + zlen sy) < W31 -> forall s', slice_set d mv x start (zlen sy) y s = Ok tt s' ->
  exists a', reached s' a' /\ is_str a' x (over sx start sy) /\
    forall t, a' !! t = None -> exists room, gives d (hslice d t x start (zlen sy)) s' (<[t := AVal room (map Some sy)]> a') tt.
Proof.
  intros H Hx Hy Hs Hl Hb s' E. pose proof (slice_writes s a mv x y sx sy start (zlen sy) H Hx Hy Hs) as W. unfold writes in W. rewrite E in W.
  destruct W as (a' & Hr & _ & Hnew & _); [unfold W31, W63 in *; lia|lia|]. replace (zlen sy <? 0) with false in Hnew by lia. rewrite ztake_all in Hnew by lia.
  exists a'. split; [exact Hr|]. split; [exact Hnew|]. intros t Ht. destruct Hnew as (r & Hnew). exists r.
  rewrite <- (over_slice sx start sy Hs Hl) at 2. apply slice_gives; try assumption. unfold sp_slice_ok, in_s64, sp_slice_start.
  assert (zlen (over sx start sy) = Z.max (zlen sx) (start + zlen sy)) as -> by (unfold over; rewrite !zlen_app, zlen_ztake, zlen_zdrop; lia).
  replace (start <? 0) with false by lia. unfold W31, W63 in *. lia.
Qed.
Lemma slice_slice_writes s a x y t sx sy start len start' len' : reached s a -> is_str a x sx -> is_str a y sy -> a !! t = None ->
  0 <= start <= zlen sx -> - W63 <= len < W63 -> len <> 0 -> sp_slice_ok (zlen sy) start' len' = true ->
  let v := sp_slice sy start' len' in let w := if len <? 0 then v else ztake len v in
  writes d (no_memory d (Z.max (zlen sx) (start + zlen w) + 2)) (slice_set_slice d x start len y start' len' t) s a x sx (over sx start w) None.
Proof.
  intros H (rx & Hx) (ry & Hy) Ht Hs Hl Hl0 Hok v w. unfold slice_set_slice.
  assert (Hxt : x <> t) by congruence.
  destruct (slice_gives s a t y ry sy start' len' H Hy Ht Hok) as (s1 & E1 & H1 & _). fold v in H1.
  set (a1 := <[t := AVal ry (map Some v)]> a) in *.
  assert (is_str a1 x sx) as Hx1 by (exists rx; unfold a1; rewrite lookup_insert_ne by congruence; exact Hx).
  assert (is_str a1 t v) as Ht1 by (exists ry; apply lookup_insert).
  pose proof (slice_writes s1 a1 true x t sx v start len H1 Hx1 Ht1 Hs Hl Hl0) as W. fold w in W. unfold slice_set in W.
  unfold writes in W |- *. unfold bind at 1. rewrite E1. unfold scope, unwind, bind at 1. destruct (call d (ReplaceN true x (u64 start) t (u64 len)) s1) as [[] s2|e s2| | |?] eqn:E2.
  - destruct W as (a2 & Hr & _ & Hnew & Hz).
    assert (is_Some (a2 !! t)) as Hlt by (apply Hz; reflexivity).
    pose proof (runs_destroy d Hwf s2 a2 t (fun _ s' => reached s' (delete t a2)) (fun _ _ => False) Hr Hlt (fun _ _ _ Hq => Hq)) as D. unfold runs in D.
    unfold bind. destruct (call d (Destroy t) s2) as [? s3|? ?| | |?]; try contradiction. cbn [ret]. exists (delete t a2). split; [exact D|].
    split; [apply (reached_shows d); assumption|]. split; [|split; [|discriminate]].
    + destruct Hnew as (r & Hnew). exists r. rewrite lookup_delete_ne by congruence. exact Hnew.
    + intros z Hzx _. destruct (decide (t = z)) as [<-|Htz]; [rewrite lookup_delete, Ht; reflexivity|]. rewrite lookup_delete_ne by exact Htz.
      rewrite (proj1 Hz) by congruence. unfold a1. apply lookup_insert_ne, Htz.
  - destruct W as (-> & Hm & a2 & Hr & _ & Hv & Hz). cbn [destroy_all]. assert (is_Some (a2 !! t)) as Hlt by (rewrite Hz by congruence; unfold a1; rewrite lookup_insert; eauto).
    pose proof (runs_destroy d Hwf s2 a2 t (fun _ s' => reached s' (delete t a2)) (fun _ _ => False) Hr Hlt (fun _ _ _ Hq => Hq)) as D. unfold runs in D.
    unfold bind. destruct (call d (Destroy t) s2) as [? s3|? ?| | |?]; try contradiction. cbn [ret]. split; [reflexivity|]. split; [exact Hm|].
    exists (delete t a2). split; [exact D|]. split; [apply (reached_shows d); assumption|]. split.
    + destruct Hv as [(r & Hv)|(r & Hv)]; [left|right]; exists r; rewrite lookup_delete_ne by congruence; exact Hv.
    + intros z Hzx. destruct (decide (t = z)) as [<-|Htz]; [rewrite lookup_delete, Ht; reflexivity|]. rewrite lookup_delete_ne by exact Htz.
      rewrite Hz by congruence. unfold a1. apply lookup_insert_ne, Htz.
  - contradiction.
  - contradiction.
  - contradiction.
Qed.
(** x(start, len) = x(start, len) *)
Lemma get_put s a x t sx start len : reached s a -> is_str a x sx -> a !! t = None -> 0 <= start <= zlen sx -> 0 < len < W31 -> zlen sx < W31 ->
  writes d (no_memory d (zlen sx + 2)) (slice_set_slice d x start len x start len t) s a x sx sx None.
Proof.
  intros H Hx Ht Hs Hl Hb. pose proof (slice_slice_writes s a x x t sx sx start len start len H Hx Hx Ht Hs) as W. cbv zeta in W.
  replace (len <? 0) with false in W by lia.
  assert (ztake len (sp_slice sx start len) = sp_slice sx start len) as E.
  { apply ztake_all. unfold sp_slice, sp_slice_start. replace (start <? 0) with false by lia. destruct (_ <=? _); [rewrite zlen_nil; lia|].
    replace (len =? -1) with false by lia. replace (len <? 0) with false by lia. rewrite zlen_ztake, zlen_zdrop. lia. }
  rewrite E in W. rewrite over_same in W by lia.
  replace (zlen sx + 2) with (Z.max (zlen sx) (start + zlen (sp_slice sx start len)) + 2); [apply W; unfold sp_slice_ok, in_s64, sp_slice_start, W31, W63 in *|].
  - lia.
  - lia.
  - replace (start <? 0) with false by lia. lia.
  - pose proof (over_same sx start len Hs ltac:(lia)) as Eo. apply (f_equal zlen) in Eo. unfold over in Eo. rewrite !zlen_app, zlen_ztake, zlen_zdrop in Eo. lia.
Qed.
(** A negative start is taken for a huge one. *)
Lemma slice_negative s a mv x y sx sy start len : reached s a -> is_str a x sx -> is_str a y sy -> - W63 <= start < 0 -> - W63 <= len < W63 -> len <> 0 ->
  slice_set d mv x start len y s = Exn OutOfRange s.
Proof.
  intros H Hx0 Hy0 Hs Hl Hl0. pose proof (str_len d Hwf s a x sx H Hx0) as [Lx Lx']. destruct Hx0 as (rx & Hx), Hy0 as (ry & Hy).
  unfold slice_set, call, bind. rewrite (step_range d _ s a Hwf H); [reflexivity|].
  assert (forall z, - W63 <= z < 0 -> u64 z = z + W64) as Hu.
  { intros z Hz. unfold u64. rewrite <- (Z.mod_small (z + W64) W64); [rewrite <- (Z_mod_plus_full z 1 W64); f_equal; lia|unfold W63, W64 in *; lia]. }
  assert (0 < u64 len) as Hpos.
  { destruct (Z.ltb_spec len 0); [rewrite Hu by lia; unfold W63, W64 in *; lia|rewrite u64_id by (unfold W63, W64 in *; lia); lia]. }
  pose proof (u64_range len) as Rl. rewrite Hu by lia.
  unfold RcaMeet.step, spec_step. rewrite (holds_val _ _ _ _ Hx), (holds_val _ _ _ _ Hy), !zlen_map.
  unfold in_u64. replace (_ && _) with true by (unfold W63, W64 in *; lia). cbn [need]. replace (u64 len =? 0) with false by lia.
  replace (zlen sx <? start + W64) with true by (unfold max_alloc, W63, W64 in *; lia). reflexivity.
Qed.
End Facts.
