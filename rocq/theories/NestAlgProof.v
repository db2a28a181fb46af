(** split, join and comparison on arrays of Strings. *)
From stdpp Require Import gmap.
From Verif Require Import RcaSpec RcaModel RcaExec RcaInv RcaOwn RcaRel RcaMeet RcaReach RcaFacts StrSpec StrModel StrCmp StrFind StrAlg ArrModel AlgModel AlgMeet AlgRules AlgSub AlgShare AlgSplit AlgFacts
  NestModel NestMeet NestReach NestAlgModel NestAlgMeet NestAlgRules.
Open Scope Z_scope.

Lemma no_mem_le (od : desc positive) n m : no_memory od n -> n <= m -> no_memory od m.
Proof.
  unfold no_memory, starves. intros [H|[H|(z & Hz & H)]] L; [left; exact H|right; left; lia|right; right].
  exists z. split; [lia|exact H].
Qed.
Lemma split_loop_grows mdiff fuel : forall sx sy limit it arr it' arr', split_loop mdiff fuel sx sy limit it arr tt = Ok (it', arr') tt -> zlen arr <= zlen arr'.
Proof.
  induction fuel as [|f IH]; intros sx sy limit it arr it' arr' E; cbn [split_loop] in E.
  - destruct (negb _); [injection E as <- <-; lia|discriminate].
  - destruct (negb _); [injection E as <- <-; lia|]. unfold bind at 1 in E. destruct (is_space_delim mdiff sy tt) as [b []|? ?| | |?]; try discriminate. cbv zeta in E.
    destruct (_ <=? _); [injection E as <- <-; lia|]. unfold bind at 1 in E. destruct (find_ sx sy _ tt) as [p []|? ?| | |?]; try discriminate.
    unfold bind at 1 in E. destruct (substr sx _ _ tt) as [w []|? ?| | |?]; try discriminate. apply IH in E. rewrite zlen_app in E. change (zlen [w]) with 1 in E. lia.
Qed.

Section Proof.
Variable d : desc Z.
Variable od : desc positive.
Hypothesis Hwf : wf_desc d.
Hypothesis Hnul : d_nul d = Some 0.
Notation nreached := (nreached d od).
Notation nat_ := (nat_ d od).
Notation nthrown := (nthrown d od).
Variable mdiff : Z -> Z -> Z.

Lemma hskip_ok i x y sp sx sy it b : is_text i x sx -> is_text i y sy -> is_text i sp [32] -> is_space_delim mdiff sy tt = Ok b tt ->
  hskip mdiff x y sp it i = Ok (if b then it + spaces (zdrop it sx) else it) i.
Proof.
  intros (Ex & _) (Ey & _) (Es & _) Hb. unfold hskip, hspace, bind. rewrite Ey, Es. unfold is_space_delim in Hb. rewrite (pure_ok _ b i Hb), Ex. reflexivity.
Qed.
Lemma hfind_ok i x y sx sy it p : is_text i x sx -> is_text i y sy -> find_ sx sy it tt = Ok p tt -> hfind_ x y it i = Ok p i.
Proof. intros (Ex & _) (Ey & _) E. unfold hfind_, bind. rewrite Ex, Ey. apply pure_ok, E. Qed.

Section Split.
Variables (A : arrs) (b : astate Z) (r : var) (x y sp t : positive) (rx : bool) (sx sy : list Z) (C : Prop).
Hypothesis (HA : A !! r = None) (Hx : b !! x = Some (AVal rx (map Some sx))) (Hy : is_str b y sy).
Hypothesis Hshort : zlen sx < W63.
Hypothesis (Hsp : b !! sp = None) (Ht : b !! t = None) (Hst : sp <> t).
Definition arr_at ps : arrs := <[r := NVal (nvals rx ps)]> A.
Definition strs_at : astate Z := <[sp := AVal true [Some 32]]> b.

Lemma nvals_snoc ps p : nvals rx ps ++ [(rx, map Some p)] = nvals rx (ps ++ [p]).
Proof. unfold nvals. rewrite map_app. reflexivity. Qed.
Lemma nvals_len ps : zlen (nvals rx ps) = zlen ps.
Proof. unfold nvals. apply zlen_map. Qed.
Lemma npiece_runs s b1 X arr it len : nreached s (arr_at arr) b1 -> b1 !! x = Some (AVal rx (map Some sx)) -> b1 !! t = None -> t ∉ X -> within X b b1 ->
  sp_slice_ok (zlen sx) it len = true -> (no_memory od (zlen arr + 3) -> C) ->
  runs (npiece d od r t x it len) s (nat_ (arr_at (arr ++ [sp_slice sx it len])) b1) (nthrown C [r] X A b).
Proof.
  intros H H1 H2 H3 HX Hok HC. unfold npiece.
  eapply (then_n d od); [eapply (str_safe d od Hwf); [exact H|eapply copy_step; eassumption|reflexivity|reflexivity|reflexivity]|]. intros s1 R1.
  eapply (then_n d od); [eapply (str_safe d od Hwf); [exact R1|eapply slice_step; [apply lookup_insert|exact Hok]|reflexivity|reflexivity|apply insert_insert]|]. intros s2 R2.
  eapply (scope_str d od Hwf); [|exact H3|exact Ht|rewrite lookup_insert; eauto|apply delete_insert, H2].
  unfold arr_at in *. rewrite <- nvals_snoc, <- (insert_insert A r (NVal (nvals rx arr ++ [_])) (NVal (nvals rx arr))).
  eapply (append_to d od Hwf); [exact R2|unfold elems; rewrite lookup_insert; reflexivity|unfold item; rewrite lookup_insert; reflexivity| | |left|].
  - apply within_new, within_refl.
  - apply within_new, HX.
  - rewrite nvals_len. exact HC.
Qed.
Lemma strs_text s arr z l : nreached s arr strs_at -> is_str b z l -> is_text (n_in s) (str z) l.
Proof. intros H (rz & Hz). eapply (str_text d od Hwf); [exact H|]. exists rz. unfold strs_at. rewrite lookup_insert_ne by congruence. exact Hz. Qed.
Lemma space_text s arr : nreached s arr strs_at -> is_text (n_in s) (str sp) [32].
Proof. intros H. eapply (str_text d od Hwf); [exact H|]. exists true. apply lookup_insert. Qed.

Lemma nsplit_loop_runs limit fuel : forall s arr it it' arr', nreached s (arr_at arr) strs_at -> 0 <= it ->
  split_loop mdiff fuel sx sy limit it arr tt = Ok (it', arr') tt -> (no_memory od (zlen arr' + 2) -> C) ->
  runs (nsplit_loop d od mdiff fuel r x y sp t limit it) s (nwith d od it' (arr_at arr') strs_at) (nthrown C [r] [sp] A b).
Proof.
  induction fuel as [|f IH]; intros s arr it it' arr' H H0 E HC; cbn [split_loop nsplit_loop] in *;
    (eapply runs_step; [eapply (arr_len d od Hwf); [exact H|unfold elems, arr_at; rewrite lookup_insert; reflexivity]|]; rewrite nvals_len).
  - destruct (negb (zlen arr <? u64 (limit - 1))); [|discriminate]. injection E as <- <-. apply runs_ret. split; [reflexivity|exact H].
  - destruct (negb (zlen arr <? u64 (limit - 1))); [injection E as <- <-; apply runs_ret; split; [reflexivity|exact H]|].
    unfold bind at 1 in E. destruct (is_space_delim mdiff sy tt) as [sb []|? ?| | |?] eqn:Eb; try discriminate. cbv zeta in E.
    set (it1 := if sb then it + spaces (zdrop it sx) else it) in *.
    assert (0 <= it1) as H01 by (unfold it1; pose proof (spaces_pos (zdrop it sx)); destruct sb; lia).
    pose proof (strs_text s _ x sx H (ex_intro _ rx Hx)) as Tx. pose proof (strs_text s _ y sy H Hy) as Ty.
    eapply runs_step; [apply inner_read; eapply hskip_ok; [exact Tx|exact Ty|eapply space_text; exact H|exact Eb]|]. fold it1.
    eapply runs_step; [apply inner_read; apply Tx|].
    destruct (zlen sx <=? it1) eqn:El; [injection E as <- <-; apply runs_ret; split; [reflexivity|exact H]|].
    unfold bind at 1 in E. destruct (find_ sx sy it1 tt) as [p []|? ?| | |?] eqn:Ef; try discriminate. cbv zeta in E.
    eapply runs_step; [apply inner_read; eapply hfind_ok; [exact Tx|exact Ty|exact Ef]|]. cbv zeta.
    set (pos := if p =? npos then zlen sx - it1 else p) in *.
    unfold bind at 1 in E. destruct (substr sx it1 pos tt) as [w []|? ?| | |?] eqn:Es; try discriminate.
    destruct (substr_ok _ _ _ _ Es) as [Hok ->]. rewrite (s64_small pos) by (eapply slice_ok_len; exact Hok).
    eapply (then_n d od).
    { eapply (npiece_runs s strs_at [sp] arr it1 pos); [exact H| | | | |exact Hok|].
      - unfold strs_at. rewrite lookup_insert_ne by congruence. exact Hx.
      - unfold strs_at. rewrite lookup_insert_ne by congruence. exact Ht.
      - rewrite elem_of_list_singleton. congruence.
      - apply within_new, within_refl.
      - intros N. apply HC. pose proof (split_loop_grows _ _ _ _ _ _ _ _ _ E) as G. rewrite zlen_app in G. change (zlen [_]) with 1 in G.
        eapply no_mem_le; [exact N|lia]. }
    intros s1 H1. pose proof (strs_text s1 _ y sy H1 Hy) as Ty1. eapply runs_step; [apply inner_read; apply Ty1|]. cbv zeta.
    pose proof (find_in mdiff sp t Hst sx sy it1 p Ef ltac:(lia) Hshort) as FI. fold pos in FI.
    eapply runs_step; [apply inner_read; unfold assert_; replace (it1 + (pos + zlen sy) - zlen sy <=? zlen sx) with true by lia; apply check_ok; reflexivity|].
    eapply IH; [exact H1| |exact E|exact HC]. pose proof (zlen_nonneg sy). lia.
Qed.
End Split.

(** When split fails. *)
Definition nsplit_fails (n : Z) : Prop := no_memory d 3 \/ no_memory od (n + 2).
Lemma nsplit_runs limit fuel A b r x y sp t rx sx sy s ps :
  nreached s A b -> A !! r = None -> b !! x = Some (AVal rx (map Some sx)) -> is_str b y sy -> unused b [sp; t] ->
  StrModel.split mdiff fuel sx sy limit tt = Ok ps tt ->
  runs (nsplit d od mdiff fuel r x y sp t limit) s (nat_ (<[r := NVal (nvals rx ps)]> A) b) (nthrown (nsplit_fails (zlen ps)) [] [] A b).
Proof.
  intros H HA Hx Hy (Hnd & Hf) E. nodup Hnd Hf. unfold nsplit, StrModel.split in *.
  pose proof (str_text d od Hwf s A b x sx H (ex_intro _ rx Hx)) as Tx.
  assert (Hshort : zlen sx < W63) by (destruct Tx as (_ & _ & L); unfold max_alloc, W63 in *; lia).
  eapply runs_step; [apply inner_read; apply Tx|].
  destruct (zlen sx =? 0) eqn:Ez; [injection E as <-; apply (new_to d od Hwf); assumption|].
  destruct (limit =? 1).
  - injection E as <-.
    eapply (then_n d od); [eapply (str_safe d od Hwf); [exact H|eapply copy_step; [exact Hx|assumption]|reflexivity|reflexivity|reflexivity]|]. intros s1 H1.
    eapply (scope_str d od Hwf); [|member|assumption|rewrite lookup_insert; eauto|apply delete_insert; assumption].
    eapply (then_n d od); [apply (new_to d od Hwf); [exact H1|exact HA]|]. intros s2 H2.
    eapply (unwind_arr d od Hwf); [|member|exact HA].
    eapply (then_n d od).
    { eapply (reserve_to d od Hwf); [exact H2|unfold elems; rewrite lookup_insert; reflexivity|reflexivity|discriminate|apply within_new, within_refl|apply within_new, within_refl|].
      intros N. right. eapply no_mem_le; [exact N|]. change (zlen [sx]) with 1. lia. }
    intros s3 H3. rewrite <- (insert_insert A r _ (NVal [])). change (nvals rx [sx]) with ([] ++ [(rx, map Some sx)]).
    eapply (append_to d od Hwf); [exact H3|unfold elems; rewrite lookup_insert; reflexivity|unfold item; rewrite lookup_insert; reflexivity|apply within_new, within_refl|apply within_new, within_refl|left|].
    intros N. right. exact N.
  - unfold bind at 1 in E. destruct (split_loop mdiff fuel sx sy limit 0 [] tt) as [[it arr] []|? ?| | |?] eqn:El; try discriminate.
    eapply (then_n d od); [eapply (char_to d od Hwf Hnul); [exact H|assumption|apply within_refl|apply within_refl|intros N; left; exact N|reflexivity]|]. intros s1 H1.
    eapply (scope_str d od Hwf); [|member|assumption|rewrite lookup_insert; eauto|apply delete_insert; assumption].
    eapply (then_n d od); [apply (new_to d od Hwf); [exact H1|exact HA]|]. intros s2 H2.
    eapply (unwind_arr d od Hwf); [|member|exact HA].
    assert (Hle : zlen arr <= zlen ps).
    { destruct (negb (limit =? npos)); [|injection E as <-; lia]. unfold bind at 1 in E. destruct (is_space_delim mdiff sy tt) as [sb []|? ?| | |?]; try discriminate.
      unfold bind at 1 in E. destruct (substr sx _ (-1) tt) as [w []|? ?| | |?]; try discriminate. injection E as <-. rewrite zlen_app. pose proof (zlen_nonneg [w]). lia. }
    eapply runs_bind with (P' := nwith d od it (arr_at A r rx arr) (strs_at b sp)).
    { eapply (nsplit_loop_runs A b r x y sp t rx sx sy); try eassumption; try congruence; [exact H2|lia|]. intros N. right. eapply no_mem_le; [exact N|lia]. }
    intros ? s3 [-> H3]. destruct (negb (limit =? npos)); [|injection E as <-; apply runs_ret; exact H3].
    unfold bind at 1 in E. destruct (is_space_delim mdiff sy tt) as [sb []|? ?| | |?] eqn:Eb; try discriminate. cbv zeta in E.
    set (it1 := if sb then it + spaces (zdrop it sx) else it) in *.
    unfold bind at 1 in E. destruct (substr sx it1 (-1) tt) as [w []|? ?| | |?] eqn:Es; try discriminate. injection E as <-.
    destruct (substr_ok _ _ _ _ Es) as [Hok ->].
    eapply runs_step; [apply inner_read; eapply hskip_ok; [eapply (strs_text b sp t Hn Hn0); [exact H3|exists rx; exact Hx]|eapply (strs_text b sp t Hn Hn0); [exact H3|exact Hy]|eapply space_text; exact H3|exact Eb]|].
    fold it1. eapply (npiece_runs A b r x t rx sx); [assumption|exact H3| | | | |exact Hok|].
    + unfold strs_at. rewrite lookup_insert_ne by congruence. exact Hx.
    + unfold strs_at. rewrite lookup_insert_ne by congruence. assumption.
    + rewrite elem_of_list_singleton. congruence.
    + apply within_new, within_refl.
    + intros N. right. rewrite zlen_app. change (zlen [_]) with 1. eapply no_mem_le; [exact N|lia].
Qed.

(** join *)
Lemma znth_mid {T} (l k : list T) v : znth (zlen l) (l ++ v :: k) = Some v.
Proof. rewrite znth_app by apply zlen_nonneg. rewrite Z.ltb_irrefl, Z.sub_diag. reflexivity. Qed.
Definition textual (vs : list sval) (ps : list (list Z)) : Prop := Forall2 (fun v p => snd v = map Some p) vs ps.
Lemma nsum_ok s A b x vs0 : nreached s A b -> forall vs ps, textual vs ps -> forall pre, vs0 = pre ++ vs -> elems A x = Some vs0 ->
  forall sz, nsum x (length vs) (zlen pre) sz s = Ok (fold_left (fun sz e => u64 (sz + zlen e)) ps sz) s.
Proof.
  intros H vs ps Hf. induction Hf as [|v p vs ps Hv Hf IH]; intros pre -> Hx sz; cbn [length nsum fold_left]; [reflexivity|].
  destruct (elem_text d od Hwf s A b x _ (zlen pre) v p H Hx (znth_mid _ _ _) Hv) as (z & Hz & _ & L & _).
  unfold bind at 1. rewrite Hz. unfold bind at 1. rewrite (inner_read _ _ _ L). replace (zlen pre + 1) with (zlen (pre ++ [v])) by (rewrite zlen_app; reflexivity).
  apply (IH (pre ++ [v])); [rewrite <- app_assoc; reflexivity|exact Hx].
Qed.
Lemma nplus_quoted_runs r x i c1 m1 c2 m2 s A b K acc vs v e : nreached s A (<[r := AVal true (map Some acc)]> b) -> unused b [r; c1; m1; c2; m2] -> c1 <> 1%positive ->
  elems A x = Some vs -> znth i vs = Some v -> snd v = map Some e -> zlen acc + zlen e + 4 <= K ->
  runs (nplus_quoted d od r x i c1 m1 c2 m2) s (nat_ A (<[r := AVal true (map Some (acc ++ ([34] ++ e ++ [34])))]> b)) (nthrown (no_memory d K) [] [r] A b).
Proof.
  intros H (Hnd & Hf) Hc Hx Hv He HK. nodup Hnd Hf. unfold nplus_quoted. pose proof (zlen_nonneg acc) as Lacc. pose proof (zlen_nonneg e) as Le.
  assert (HM : forall n, n <= K -> no_memory d n -> no_memory d K) by (intros n HnK N; eapply no_memory_mono; eassumption).
  assert (WA : within [] A A) by apply within_refl.
  eapply (then_n d od); [eapply (char_to d od Hwf Hnul); [exact H|found|exact WA|scoped|apply HM; lia|reflexivity]|].
  intros s1 H1. eapply (scope_str d od Hwf c1 _ s1 _ [] [r] A b A (<[r := AVal true (map Some (acc ++ ([34] ++ e ++ [34])))]> (<[c1 := AMoved]> b))); [|member|assumption|keys; eauto|meq].
  eapply (then_n d od).
  { eapply (peek_plus d od Hwf Hnul x i c1 s1 A _ vs v true [34] e); [exact H1|exact Hx|exact Hv|exact He|exact Hc|found|exact WA|scoped|member|apply HM; change (zlen [34]) with 1; lia|reflexivity]. }
  intros s2 H2. eapply (then_n d od); [eapply (str_safe d od Hwf); [exact H2|apply move_step; [apply lookup_insert|found]|reflexivity|reflexivity|reflexivity]|].
  intros s3 H3. eapply (scope_str d od Hwf m1 _ s3 _ [] [c1; r] A b A (<[r := AVal true (map Some (acc ++ ([34] ++ e ++ [34])))]> (<[m1 := AMoved]> (<[c1 := AMoved]> b)))); [|member|assumption|keys; eauto|meq].
  eapply (then_n d od); [eapply (char_to d od Hwf Hnul); [exact H3|found|exact WA|scoped|apply HM; lia|reflexivity]|].
  intros s4 H4. eapply (scope_str d od Hwf c2 _ s4 _ [] [m1; c1; r] A b A (<[r := AVal true (map Some (acc ++ ([34] ++ e ++ [34])))]> (<[c2 := AVal true [Some 34]]> (<[m1 := AMoved]> (<[c1 := AMoved]> b))))); [|member|assumption|keys; eauto|meq].
  eapply (then_n d od).
  { eapply (plus_str d od Hwf Hnul false m1 c2 s4 A _ true true ([34] ++ e) [34]); [exact H4|found|found|exact WA|scoped|member| |reflexivity].
    apply HM. rewrite zlen_app. change (zlen [34]) with 1. lia. }
  intros s5 H5. eapply (then_n d od); [eapply (str_safe d od Hwf); [exact H5|apply move_step; [apply lookup_insert|found]|reflexivity|reflexivity|reflexivity]|].
  intros s6 H6. eapply (scope_str d od Hwf m2); [|member|assumption| |].
  - eapply (plus_str d od Hwf Hnul true r m2 s6 A _ true true acc (([34] ++ e) ++ [34])); [exact H6|found|found|exact WA|scoped|member| |reflexivity].
    apply HM. rewrite !zlen_app. change (zlen [34]) with 1. lia.
  - keys; eauto.
  - rewrite <- app_assoc. meq.
Qed.
Lemma njoin_loop_runs r x y quoted c1 m1 c2 m2 A b K ry sy vs0 : unused b [r; c1; m1; c2; m2] -> r <> 1%positive -> c1 <> 1%positive -> b !! y = Some (AVal ry (map Some sy)) ->
  elems A x = Some vs0 -> forall vs ss, textual vs ss -> forall pre s acc, vs0 = pre ++ vs -> nreached s A (<[r := AVal true (map Some acc)]> b) ->
  zlen (join_loop (zlen pre =? 0) ss sy quoted acc) + 2 <= K ->
  runs (njoin_loop d od (length vs) (zlen pre) r x y quoted c1 m1 c2 m2) s (nat_ A (<[r := AVal true (map Some (join_loop (zlen pre =? 0) ss sy quoted acc))]> b))
    (nthrown (no_memory d K) [] [r] A b).
Proof.
  intros Hu Hr Hc Hy Hx vs ss Hs. destruct (Hu) as [Hnd Hf]. nodup Hnd Hf.
  assert (HM : forall n, n <= K -> no_memory d n -> no_memory d K) by (intros n HnK N; eapply no_memory_mono; eassumption).
  assert (WA : within [] A A) by apply within_refl.
  induction Hs as [|v e vs ss Hv Hs IH]; intros pre s acc -> H HK; cbn [length njoin_loop join_loop] in *; [apply runs_ret; exact H|].
  set (first := zlen pre =? 0) in *.
  set (acc1 := if first then acc else acc ++ sy) in *. set (acc2 := if quoted then acc1 ++ ([34] ++ e ++ [34]) else acc1 ++ e) in *.
  pose proof (join_loop_grows ss false sy quoted acc2) as HG.
  assert (HL : zlen acc1 + zlen e <= zlen acc2) by (unfold acc2; destruct quoted; rewrite !zlen_app; unfold zlen; lia).
  pose proof (zlen_nonneg e) as Le. pose proof (zlen_nonneg pre) as Lp.
  eapply (then_n d od A (<[r := AVal true (map Some acc1)]> b)).
  { unfold acc1 in *. destruct first; [apply runs_ret; exact H|].
    eapply (plus_str d od Hwf Hnul); [exact H|apply lookup_insert|found|exact WA|scoped|member|apply HM; rewrite zlen_app in *; lia|apply insert_insert]. }
  intros s1 H1. eapply (then_n d od A (<[r := AVal true (map Some acc2)]> b)).
  { unfold acc2 in *. destruct quoted.
    - eapply nplus_quoted_runs; [exact H1|exact Hu|exact Hc|exact Hx|apply znth_mid|exact Hv|]. rewrite !zlen_app in HG. change (zlen [34]) with 1 in HG. lia.
    - eapply (peek_plus d od Hwf Hnul); [exact H1|exact Hx|apply znth_mid|exact Hv|exact Hr|apply lookup_insert|exact WA|scoped|member|apply HM; lia|apply insert_insert]. }
  intros s2 H2. replace (zlen pre + 1) with (zlen (pre ++ [v])) by (rewrite zlen_app; reflexivity).
  assert (F : (zlen (pre ++ [v]) =? 0) = false) by (rewrite zlen_app; change (zlen [v]) with 1; lia).
  specialize (IH (pre ++ [v]) s2 acc2). rewrite F in IH. apply IH; [rewrite <- app_assoc; reflexivity|exact H2|exact HK].
Qed.
Lemma njoin_runs r x y quoted c1 m1 c2 m2 s A b K ry sy vs ss : nreached s A b -> unused b [r; c1; m1; c2; m2] -> r <> 1%positive -> c1 <> 1%positive ->
  b !! y = Some (AVal ry (map Some sy)) -> elems A x = Some vs -> textual vs ss ->
  (ss <> [] -> join_size ss sy quoted + 1 <= K) -> zlen (join_loop true ss sy quoted []) + 2 <= K ->
  runs (njoin d od r x y quoted c1 m1 c2 m2) s (nat_ A (<[r := AVal true (map Some (join_loop true ss sy quoted []))]> b)) (nthrown (no_memory d K) [] [] A b).
Proof.
  intros H Hu Hr Hc Hy Hx Hs HK1 HK2. destruct (Hu) as [Hnd Hf]. nodup Hnd Hf. unfold njoin.
  assert (EL : zlen vs = zlen ss) by (unfold zlen; f_equal; exact (Forall2_length _ _ _ Hs)).
  eapply runs_step; [eapply (arr_len d od Hwf); eassumption|].
  destruct (Z.eqb_spec (zlen vs) 0) as [E0|E0].
  - rewrite EL in E0. apply zlen_0_nil in E0 as ->. eapply (str_safe d od Hwf); [exact H|apply default_step; assumption|reflexivity|reflexivity|reflexivity].
  - eapply runs_step; [apply inner_read; apply (str_text d od Hwf s A b y sy H (ex_intro _ ry Hy))|]. cbv zeta.
    replace (Z.to_nat (zlen vs)) with (length vs) by (unfold zlen; lia).
    eapply runs_step; [apply (nsum_ok s A b x vs H vs ss Hs []); [reflexivity|exact Hx]|]. rewrite EL.
    change (fold_left _ ss _) with (join_size ss sy quoted).
    assert (Hne : ss <> []) by (intros ->; rewrite EL in E0; contradiction).
    eapply (then_n d od).
    { eapply (str_to d od Hwf); [exact H|apply sized_step; [assumption|]|reflexivity|apply within_refl|apply within_refl|discriminate| |reflexivity].
      - unfold join_size. destruct (exists_last Hne) as (l & z & ->). rewrite fold_left_app. cbn [fold_left]. apply u64_range.
      - cbn. intros v [= <-] N. eapply no_memory_mono; [exact N|]. apply HK1, Hne. }
    intros s1 H1. eapply (unwind_str d od Hwf); [|member|assumption].
    apply (njoin_loop_runs r x y quoted c1 m1 c2 m2 A b K ry sy vs Hu Hr Hc Hy Hx vs ss Hs [] s1 []); [reflexivity|exact H1|exact HK2].
Qed.
End Proof.
