(** ifind, rifind, split and join on the heap. *)
From Verif Require Import RcaSpec RcaModel RcaExec RcaInv RcaOwn RcaRel RcaMeet RcaReach RcaFacts StrSpec StrModel StrFind StrAlg AlgModel AlgMeet AlgRules AlgSub AlgShare.
Open Scope Z_scope.

Section Split.
Variable d : desc Z.
Hypothesis Hwf : wf_desc d.
Hypothesis Hnul : d_nul d = Some 0.
Notation reached := (reached d).
Notation step := (step d).

(** ifind, rifind *)
Lemma push_all_runs x l : forall s a a0 X K acc, reached s a -> a !! x = Some (AVal true (map Some acc)) -> around X a0 a -> x ∈ X ->
  zlen acc + zlen l + 2 <= K -> runs (push_all d x l) s (at_ d (<[x := AVal true (map Some (acc ++ l))]> a)) (oom d K X a0).
Proof.
  induction l as [|c l IH]; intros s a a0 X K acc H Hx HX Hin HK; cbn [push_all].
  - apply runs_ret. rewrite app_nil_r. unfold at_. rewrite insert_id by exact Hx. exact H.
  - rewrite zlen_cons in HK. pose proof (zlen_nonneg l).
    eapply (then_ d).
    { eapply (call_to d Hwf); [exact H|eapply push_step; exact Hx|exact HX|discriminate| | |reflexivity].
      - cbn. intros z [= <-]. exact Hin.
      - cbn [subject target asks]. intros z [= <-]. rewrite (vlen_val _ _ _ _ (lookup_insert _ _ _)), zlen_map, zlen_app, zlen_cons, zlen_nil. lia. }
    intros s1 H1. eapply runs_conseq; [eapply (IH s1 _ a0 X K (acc ++ [c])); [exact H1|apply lookup_insert|apply around_set; assumption|exact Hin|]| |auto].
    + rewrite zlen_app, zlen_cons, zlen_nil. lia.
    + intros [] s2 H2. unfold at_ in *. rewrite insert_insert, <- app_assoc in H2. exact H2.
Qed.
Lemma uppers_runs up x y p q s a K sx sy k v : reached s a -> unused a [p; q] -> is_str a x sx -> is_str a y sy ->
  zlen sx + 2 <= K -> zlen sy + 2 <= K ->
  (forall s', reached s' (<[q := AVal true (map Some (map up sx))]> (<[p := AVal true (map Some (map up sy))]> a)) -> k s' = Ok v s') ->
  runs (uppers d up x y p q k) s (with_ d v a) (oom d K [] a).
Proof.
  intros H (Hnd & Hf) Hx Hy HK1 HK2 Hk. pose proof (str_len d Hwf s a x sx H Hx) as Lx. pose proof (str_len d Hwf s a y sy H Hy) as Ly.
  nodup Hnd Hf. destruct Hx as (rx & Ex). destruct Hy as (ry & Ey). unfold uppers.
  eapply runs_step; [eapply (length_is d Hwf); [exact H|exists ry; exact Ey]|].
  eapply (then_ d (<[p := AVal true []]> a)).
  { eapply (call_to d Hwf); [exact H|apply sized_step; [assumption|unfold max_alloc, W63, W64 in *; lia]|scoped|discriminate|discriminate| |reflexivity].
    cbn. intros z [= <-]. lia. }
  intros s1 H1. eapply (scope_with d Hwf v p _ s1 _ [] a (<[p := AVal true (map Some (map up sy))]> a)); [|member|assumption|keys; eauto|meq].
  eapply runs_step; [eapply (length_is d Hwf); [exact H1|exists rx; found]|].
  eapply (then_ d (<[q := AVal true []]> (<[p := AVal true []]> a))).
  { eapply (call_to d Hwf); [exact H1|apply sized_step; [found|unfold max_alloc, W63, W64 in *; lia]|scoped|discriminate|discriminate| |reflexivity].
    cbn. intros z [= <-]. lia. }
  intros s2 H2. eapply (scope_with d Hwf v q _ s2 _ [p] a (<[q := AVal true (map Some (map up sx))]> (<[p := AVal true (map Some (map up sy))]> a))); [|member|assumption|keys; eauto|meq].
  eapply runs_step; [eapply (contents_str d Hwf); [exact H2|exists ry; found]|].
  eapply (then_ d (<[q := AVal true []]> (<[p := AVal true (map Some (map up sy))]> a))).
  { eapply runs_conseq; [eapply (push_all_runs p (map up sy) s2 _ a [q; p] K []); [exact H2|found|scoped|member|rewrite zlen_nil, zlen_map; lia]| |auto].
    intros [] s3 H3. unfold at_ in *. match goal with |- reached _ ?m => match type of H3 with reached _ ?m' => replace m with m'; [exact H3|] end end. cbn [app]. meq. }
  intros s3 H3. eapply runs_step; [eapply (contents_str d Hwf); [exact H3|exists rx; found]|].
  eapply (then_ d (<[q := AVal true (map Some (map up sx))]> (<[p := AVal true (map Some (map up sy))]> a))).
  { eapply runs_conseq; [eapply (push_all_runs q (map up sx) s3 _ a [q; p] K []); [exact H3|found|scoped|member|rewrite zlen_nil, zlen_map; lia]| |auto].
    intros [] s4 H4. unfold at_ in *. rewrite insert_insert in H4. exact H4. }
  intros s4 H4. unfold runs. rewrite (Hk s4 H4). split; [reflexivity|exact H4].
Qed.
Lemma hifind_runs up x y p q s a K sx sy v : reached s a -> unused a [p; q] -> is_str a x sx -> is_str a y sy ->
  zlen sx + 2 <= K -> zlen sy + 2 <= K -> ifind up sx sy tt = Ok v tt ->
  runs (hifind d up x y p q) s (with_ d v a) (oom d K [] a).
Proof.
  intros H Hu Hx Hy HK1 HK2 E. destruct (Hu) as [Hnd Hf]. nodup Hnd Hf. eapply uppers_runs; try eassumption. intros s' H'. unfold hfind, bind.
  rewrite (contents_str d Hwf s' _ q (map up sx) H' (ex_intro _ true (lookup_insert _ _ _))).
  erewrite (contents_str d Hwf s' _ p (map up sy)); [apply pure_ok, E|exact H'|exists true; found].
Qed.
Lemma hrifind_runs mdiff up x y p q lpos s a K sx sy v : reached s a -> unused a [p; q] -> is_str a x sx -> is_str a y sy ->
  zlen sx + 2 <= K -> zlen sy + 2 <= K -> rifind up mdiff sx sy lpos tt = Ok v tt ->
  runs (hrifind d mdiff up x y p q lpos) s (with_ d v a) (oom d K [] a).
Proof.
  intros H Hu Hx Hy HK1 HK2 E. destruct (Hu) as [Hnd Hf]. nodup Hnd Hf. eapply uppers_runs; try eassumption. intros s' H'. unfold bind.
  rewrite (contents_str d Hwf s' _ q (map up sx) H' (ex_intro _ true (lookup_insert _ _ _))).
  erewrite (contents_str d Hwf s' _ p (map up sy)); [apply pure_ok, E|exact H'|exists true; found].
Qed.

(** split *)
Variable mdiff : Z -> Z -> Z.
Variable grow_fails : nat -> bool.
Variable el : nat -> positive.
Hypothesis el_inj : forall i j, el i = el j -> i = j.
Definition why : Prop := no_memory d 3 \/ exists k, grow_fails k = true.

Lemma with_elems_other r ps a x : forall k, (forall i, (k <= i < k + length ps)%nat -> el i <> x) -> with_elems el r k ps a !! x = a !! x.
Proof.
  induction ps as [|p ps IH]; intros k H; cbn [with_elems]; [reflexivity|].
  rewrite lookup_insert_ne by (apply H; cbn [length]; lia). apply IH. intros i Hi. apply H. cbn [length]. lia.
Qed.
Lemma with_elems_live r ps a i : forall k, (k <= i < k + length ps)%nat -> is_Some (with_elems el r k ps a !! el i).
Proof.
  induction ps as [|p ps IH]; intros k H; cbn [with_elems length] in *; [lia|].
  destruct (decide (k = i)) as [->|Hn]; [rewrite lookup_insert; eauto|]. rewrite lookup_insert_ne by (intros E; apply el_inj in E; lia). apply IH. lia.
Qed.
Lemma with_elems_snoc r ps p a : forall k, with_elems el r k (ps ++ [p]) a = <[el (k + length ps)%nat := AVal r (map Some p)]> (with_elems el r k ps a).
Proof.
  induction ps as [|q ps IH]; intros k; cbn [with_elems app length]; [rewrite Nat.add_0_r; reflexivity|].
  rewrite IH. replace (k + S (length ps))%nat with (S k + length ps)%nat by lia. apply insert_commute. intros E. apply el_inj in E. lia.
Qed.
Lemma in_elems x k : x ∈ elems el k <-> exists i, (i < k)%nat /\ x = el i.
Proof.
  unfold elems. rewrite elem_of_list_In, in_map_iff. split.
  - intros (i & <- & Hi). apply in_seq in Hi. exists i. split; [lia|reflexivity].
  - intros (i & Hi & ->). exists i. split; [reflexivity|]. apply in_seq. lia.
Qed.
Lemma elems_nodup k : NoDup (elems el k).
Proof. unfold elems. apply FinFun.Injective_map_NoDup; [exact el_inj|apply seq_NoDup]. Qed.

Section Loop.
Variables (a : astate Z) (x y sp t : positive) (rx : bool) (sx sy : list Z).
Hypothesis (Hx : a !! x = Some (AVal rx (map Some sx))) (Hy : is_str a y sy).
Hypothesis Hshort : zlen sx < W63.
Hypothesis (Hsp : a !! sp = None) (Ht : a !! t = None) (Hst : sp <> t).
Hypothesis (Hel : forall i, a !! el i = None /\ el i <> sp /\ el i <> t).
Definition loop_at arr : astate Z := <[sp := AVal true [Some 32]]> (with_elems el rx 0 arr a).

Lemma loop_at_user arr z v : a !! z = Some v -> loop_at arr !! z = Some v.
Proof.
  intros Hz. unfold loop_at. rewrite lookup_insert_ne by congruence. rewrite with_elems_other; [exact Hz|].
  intros i _ E. destruct (Hel i) as [Hi _]. congruence.
Qed.
Lemma loop_at_t arr : loop_at arr !! t = None.
Proof. unfold loop_at. rewrite lookup_insert_ne by congruence. rewrite with_elems_other; [exact Ht|]. intros i _. apply Hel. Qed.
Lemma loop_at_next arr : loop_at arr !! el (length arr) = None.
Proof.
  unfold loop_at. rewrite lookup_insert_ne by (intros E; symmetry in E; revert E; apply Hel). rewrite with_elems_other; [apply Hel|].
  intros i Hi E. apply el_inj in E. lia.
Qed.
Lemma loop_at_around arr : around (elems el (length arr) ++ [sp]) a (loop_at arr).
Proof.
  split; intros z Hz; unfold loop_at.
  - rewrite elem_of_app, elem_of_list_singleton, in_elems in Hz. rewrite lookup_insert_ne by (intros E; apply Hz; auto).
    apply with_elems_other. intros i Hi E. apply Hz. left. exists i. split; [lia|congruence].
  - destruct (decide (sp = z)) as [->|Hn]; [rewrite lookup_insert; eauto|]. rewrite lookup_insert_ne by exact Hn.
    rewrite elem_of_app, elem_of_list_singleton, in_elems in Hz. destruct Hz as [(i & Hi & ->)|]; [|congruence]. apply with_elems_live. lia.
Qed.
Lemma elems_fresh k : Forall (fun z => z ∉ [sp] /\ a !! z = None) (elems el k).
Proof.
  apply List.Forall_forall. intros z Hz. apply elem_of_list_In, in_elems in Hz as (i & _ & ->). rewrite elem_of_list_singleton. split; apply Hel.
Qed.

(** skipping spaces *)
Lemma hskip_runs s arr it b (E : exn -> state Z -> Prop) : reached s (loop_at arr) -> is_space_delim mdiff sy tt = Ok b tt ->
  runs (hskip mdiff x y sp it) s (with_ d (if b then it + spaces (zdrop it sx) else it) (loop_at arr)) E.
Proof.
  intros H Hb. unfold hskip, hspace. destruct Hy as (ry & Ey).
  eapply runs_bind with (P' := with_ d b (loop_at arr)).
  - eapply runs_step; [eapply (contents_str d Hwf); [exact H|exists ry; apply loop_at_user, Ey]|].
    eapply runs_step; [eapply (contents_str d Hwf s _ sp [32]); [exact H|exists true; apply lookup_insert]|].
    unfold runs. unfold is_space_delim in Hb; rewrite (pure_ok _ b s Hb). split; [reflexivity|exact H].
  - intros ? s' [-> H']. eapply runs_step; [eapply (contents_str d Hwf); [exact H'|exists rx; apply loop_at_user, Hx]|].
    apply runs_ret. split; [reflexivity|exact H'].
Qed.
(** what is found lies in the string *)
Lemma find_in s w it p : find_ s w it tt = Ok p tt -> 0 <= it < zlen s -> zlen s < W63 -> 0 <= (if p =? npos then zlen s - it else p) <= zlen s - it.
Proof.
  intros E Hi L. destruct (Z.eqb_spec p npos) as [->|Hp]; [lia|]. destruct (Z.eq_dec (zlen w) 0) as [Hw|Hw].
  - unfold find_ in E. rewrite Hw in E. injection E as <-. lia.
  - rewrite find__spec in E by first [exact L|lia|intros ->; apply Hw; reflexivity]. injection E as <-.
    pose proof (or_npos_found w (zdrop it s)) as F. unfold found_first in F. destruct F as [[F _]|[F _]]; [contradiction|]. rewrite zlen_zdrop in F. lia.
Qed.
Lemma spaces_pos l : 0 <= spaces l.
Proof. apply (spaces_skip l). Qed.
(** one piece *)
Lemma piece_runs s arr it pos : reached s (loop_at arr) -> sp_slice_ok (zlen sx) it pos = true ->
  runs (hslice d t x it pos ;;; scope d t (push_elem d grow_fails el (length arr) t)) s (at_ d (loop_at (arr ++ [sp_slice sx it pos])))
    (thrown d why (elems el (length arr) ++ [sp]) a).
Proof.
  intros H Hok. eapply (then_ d); [eapply (hslice_to d Hwf); [exact H|apply loop_at_user, Hx|apply loop_at_t|exact Hok|reflexivity]|].
  intros s1 H1. pose proof (loop_at_t arr) as Et.
  assert (Htx : t ∉ elems el (length arr) ++ [sp]).
  { rewrite elem_of_app, elem_of_list_singleton, in_elems. intros [(i & _ & E)|E]; [|congruence]. symmetry in E. revert E. apply Hel. }
  eapply (scope_to d Hwf t _ s1 why _ a (<[el (length arr) := AVal rx (map Some (sp_slice sx it pos))]> (<[t:=AVal rx (map Some (sp_slice sx it pos))]> (loop_at arr)))).
  - unfold push_elem. destruct (grow_fails (length arr)) eqn:Eg.
    + apply runs_throw. split; [reflexivity|]. split; [right; eauto|]. eexists. split; [exact H1|].
      destruct (loop_at_around arr) as [A1 A2]. split; intros z Hz.
      * apply not_elem_of_cons in Hz as [Hz1 Hz2]. rewrite lookup_insert_ne by congruence. apply A1, Hz2.
      * apply elem_of_cons in Hz as [->|Hz]; [rewrite lookup_insert; eauto|]. rewrite lookup_insert_ne by (intros ->; contradiction). apply A2, Hz.
    + eapply (safe_to d Hwf); [exact H1|eapply copy_step; [apply lookup_insert|]|reflexivity|reflexivity].
      rewrite lookup_insert_ne by (intros E; symmetry in E; revert E; apply Hel). apply loop_at_next.
  - exact Htx.
  - exact Ht.
  - rewrite lookup_insert_ne by apply Hel. rewrite lookup_insert. eauto.
  - unfold loop_at. rewrite with_elems_snoc. cbn [Nat.add]. apply map_eq. intros z.
    destruct (decide (t = z)) as [<-|Hz].
    + rewrite lookup_delete, lookup_insert_ne by congruence. rewrite lookup_insert_ne by apply Hel. symmetry.
      rewrite with_elems_other; [exact Ht|]. intros i _. apply Hel.
    + rewrite lookup_delete_ne by exact Hz. destruct (decide (el (length arr) = z)) as [<-|Hz'].
      * rewrite lookup_insert, lookup_insert_ne by (intros E; symmetry in E; revert E; apply Hel). rewrite lookup_insert. reflexivity.
      * rewrite lookup_insert_ne by exact Hz'. rewrite lookup_insert_ne by exact Hz. destruct (decide (sp = z)) as [<-|Hs].
        -- rewrite !lookup_insert. reflexivity.
        -- rewrite !lookup_insert_ne by assumption. reflexivity.
Qed.

Lemma hsplit_loop_runs limit fuel : forall s arr it it' arr', reached s (loop_at arr) -> 0 <= it ->
  split_loop mdiff fuel sx sy limit it arr tt = Ok (it', arr') tt ->
  runs (hsplit_loop d mdiff grow_fails el fuel x y sp t limit it (length arr)) s (with_ d (it', length arr') (loop_at arr')) (thrown d why [sp] a).
Proof.
  destruct Hy as (ry & Ey).
  induction fuel as [|f IH]; intros s arr it it' arr' H H0 E; cbn [split_loop hsplit_loop] in *; change (Z.of_nat (length arr)) with (zlen arr).
  - destruct (negb (zlen arr <? u64 (limit - 1))); [|discriminate]. injection E as <- <-. apply runs_ret. split; [reflexivity|exact H].
  - destruct (negb (zlen arr <? u64 (limit - 1))); [injection E as <- <-; apply runs_ret; split; [reflexivity|exact H]|].
    unfold bind at 1 in E. destruct (is_space_delim mdiff sy tt) as [b []|? ?| | |?] eqn:Eb; try discriminate. cbv zeta in E.
    set (it1 := if b then it + spaces (zdrop it sx) else it) in *.
    assert (0 <= it1) as H01 by (unfold it1; pose proof (spaces_pos (zdrop it sx)); destruct b; lia).
    destruct (zlen sx <=? it1) eqn:El.
    + injection E as <- <-. eapply (then_with d (it1, None) (loop_at arr)).
      * apply (runs_unwind d Hwf); [|apply elems_nodup|apply elems_fresh].
        eapply (then_with d it1); [eapply hskip_runs; eassumption|]. intros s1 H1.
        eapply runs_step; [eapply (length_is d Hwf); [exact H1|exists rx; apply loop_at_user, Hx]|]. rewrite El. apply runs_ret. split; [reflexivity|exact H1].
      * intros s1 H1. apply runs_ret. split; [reflexivity|exact H1].
    + unfold bind at 1 in E. destruct (find_ sx sy it1 tt) as [p []|? ?| | |?] eqn:Ef; try discriminate. cbv zeta in E.
      set (pos := if p =? npos then zlen sx - it1 else p) in *.
      unfold bind at 1 in E. destruct (substr sx it1 pos tt) as [w []|? ?| | |?] eqn:Es; try discriminate.
      destruct (substr_ok _ _ _ _ Es) as [Hok ->].
      eapply (then_with d (it1, Some (it1 + (pos + zlen sy))) (loop_at (arr ++ [sp_slice sx it1 pos]))).
      * apply (runs_unwind d Hwf); [|apply elems_nodup|apply elems_fresh].
        eapply (then_with d it1); [eapply hskip_runs; eassumption|]. intros s1 H1.
        eapply runs_step; [eapply (length_is d Hwf); [exact H1|exists rx; apply loop_at_user, Hx]|]. rewrite El.
        eapply (then_with d p (loop_at arr)).
        { unfold hfind_. eapply runs_step; [eapply (contents_str d Hwf); [exact H1|exists rx; apply loop_at_user, Hx]|].
          eapply runs_step; [eapply (contents_str d Hwf); [exact H1|exists ry; apply loop_at_user, Ey]|].
          unfold runs. rewrite (pure_ok _ p s1 Ef). split; [reflexivity|exact H1]. }
        intros s2 H2. fold pos. rewrite (s64_small pos) by (eapply slice_ok_len; exact Hok).
        pose proof (piece_runs s2 arr it1 pos H2 Hok) as Hp.
        unfold runs in Hp |- *. unfold bind in Hp |- *. destruct (hslice d t x it1 pos s2) as [[] s3|? ?| | |?]; try exact Hp.
        destruct (scope d t (push_elem d grow_fails el (length arr) t) s3) as [[] s4|? ?| | |?]; try exact Hp.
        rewrite (length_is d Hwf s4 _ y sy Hp (ex_intro _ ry (loop_at_user _ _ _ Ey))). 
        replace (it1 + (pos + zlen sy) - zlen sy <=? zlen sx) with true by (pose proof (find_in _ _ _ _ Ef ltac:(lia) Hshort); lia).
        unfold assert_. rewrite (check_ok d) by reflexivity.
        split; [reflexivity|exact Hp].
      * intros s1 H1. replace (S (length arr)) with (length (arr ++ [sp_slice sx it1 pos])) by (rewrite app_length; cbn [length]; lia).
        eapply IH; [exact H1| |exact E]. pose proof (find_in _ _ _ _ Ef ltac:(lia) Hshort). pose proof (zlen_nonneg sy). unfold pos in *. lia.
Qed.
End Loop.

Lemma hsplit_rest_runs limit fuel a x y sp t rx sx sy s it arr ps :
  reached s (loop_at a sp rx []) -> a !! x = Some (AVal rx (map Some sx)) -> is_str a y sy -> zlen sx < W63 -> a !! sp = None -> a !! t = None -> sp <> t ->
  (forall i, a !! el i = None /\ el i <> sp /\ el i <> t) ->
  split_loop mdiff fuel sx sy limit 0 [] tt = Ok (it, arr) tt ->
  (if negb (limit =? npos) then
     let* sp := is_space_delim mdiff sy in
     let it := if (sp : bool) then it + spaces (zdrop it sx) else it in
     let* piece := substr sx it (-1) in
     ret (arr ++ [piece])
   else ret arr) tt = Ok ps tt ->
  runs (hsplit_rest d mdiff grow_fails el fuel x y sp t limit) s (with_ d (length ps) (loop_at a sp rx ps)) (thrown d why [sp] a).
Proof.
  intros H Hx Hy Hshort Hsp Ht Hst Hel El E. unfold hsplit_rest.
  eapply (then_with d (it, length arr) (loop_at a sp rx arr)); [eapply (hsplit_loop_runs a x y sp t rx sx sy) with (arr := []); auto; try congruence; lia|].
  intros s2 H2. destruct (negb (limit =? npos)); [|injection E as <-; apply runs_ret; split; [reflexivity|exact H2]].
  unfold bind at 1 in E. destruct (is_space_delim mdiff sy tt) as [b []|? ?| | |?] eqn:Eb; try discriminate. cbv zeta in E.
  set (it1 := if b then it + spaces (zdrop it sx) else it) in *.
  unfold bind at 1 in E. destruct (substr sx it1 (-1) tt) as [w []|? ?| | |?] eqn:Es; try discriminate. injection E as <-.
  destruct (substr_ok _ _ _ _ Es) as [Hok ->].
  eapply (then_ d (loop_at a sp rx (arr ++ [sp_slice sx it1 (-1)]))).
  - apply (runs_unwind d Hwf); [|apply elems_nodup|apply elems_fresh with (t := t); exact Hel].
    eapply (then_with d it1); [eapply hskip_runs; eassumption|]. intros s3 H3.
    eapply piece_runs; first [eassumption|congruence].
  - intros s3 H3. apply runs_ret. split; [rewrite app_length; cbn [length]; lia|exact H3].
Qed.
(** assertions hold because nothing but the elements has come to share the buffer *)
Lemma runs_post {A} (m : M (state Z) A) s (P Q : A -> state Z -> Prop) E : runs m s P E -> post m s Q -> runs m s (fun v s' => P v s' /\ Q v s') E.
Proof. unfold runs, post. destruct (m s) as [v s'|? ?| | |?]; auto. Qed.
Lemma hsplit_runs limit fuel a x y sp t rx sx sy s ps :
  reached s a -> a !! x = Some (AVal rx (map Some sx)) -> is_str a y sy -> unused a [sp; t] ->
  (forall i, a !! el i = None /\ el i <> sp /\ el i <> t) -> split mdiff fuel sx sy limit tt = Ok ps tt ->
  runs (hsplit d mdiff grow_fails el fuel x y sp t limit) s
    (fun k s' => with_ d (length ps) (with_elems el rx 0 ps a) k s' /\ sharers s' x = sharers s x + zlen ps) (thrown d why [] a).
Proof.
  intros H Hx Hy (Hnd & Hf) Hel E. nodup Hnd Hf. unfold hsplit, split in *.
  eapply runs_step; [eapply (length_is d Hwf); [exact H|exists rx; exact Hx]|].
  destruct (zlen sx =? 0) eqn:Ez; [injection E as <-; apply runs_ret; split; [split; [reflexivity|exact H]|rewrite zlen_nil; lia]|].
  assert (Hne : map Some sx <> []) by (intros Hm; apply map_eq_nil in Hm; subst sx; discriminate).
  destruct (shared_start d s a x rx (map Some sx) Hwf H Hx Hne) as (l & Hl).
  destruct (limit =? 1).
  - injection E as <-. eapply runs_conseq with (E := thrown d why [] a); [apply runs_post; [|eapply whole_shares; exact Hl]| |auto].
    2:{ intros k s' [Hw Hs]. split; [exact Hw|]. apply shared_sharers in Hs. exact Hs. }
    eapply (then_ d); [eapply (safe_to d Hwf); [exact H|eapply copy_step; [exact Hx|assumption]|reflexivity|reflexivity]|].
    intros s1 H1. eapply (then_ d (<[el 0 := AVal rx (map Some sx)]> a)); [|intros s2 H2; apply runs_ret; split; [reflexivity|exact H2]].
    destruct (Hel 0%nat) as (E0 & E1 & E2).
    eapply (scope_to d Hwf t _ s1 why [] a (<[el 0 := AVal rx (map Some sx)]> (<[t := AVal rx (map Some sx)]> a))); [|member|assumption|keys; eauto|meq].
    unfold push_elem. destruct (grow_fails 0) eqn:Eg.
    + apply runs_throw. split; [reflexivity|]. split; [right; eauto|]. eexists. split; [exact H1|]. scoped.
    + eapply (safe_to d Hwf); [exact H1|eapply copy_step; [apply lookup_insert|found]|reflexivity|reflexivity].
  - unfold bind at 1 in E. destruct (split_loop mdiff fuel sx sy limit 0 [] tt) as [[it arr] []|? ?| | |?] eqn:El; try discriminate.
    eapply runs_step; [eapply (rcount_exact d); [exact Hwf|exact H|eapply live_val; exact Hx]|].
    eapply runs_bind with (P' := fun _ s' => reached s' (loop_at a sp rx []) /\ splitting l x sp (sharers s x) s').
    { apply (runs_post _ _ (at_ d (loop_at a sp rx [])) (fun _ => splitting l x sp (sharers s x))); [|eapply char_shares; eassumption].
      eapply (runs_conseq _ _ (at_ d (loop_at a sp rx [])) _ (oom d 3 [] a)); [|auto|].
      - eapply (call_to d Hwf) with (K := 3) (X := []) (a0 := a); [exact H|apply (char_step d Hnul); exact Hn|scoped|discriminate|discriminate| |reflexivity].
        cbn [subject target asks]. intros z [= <-]. rewrite (vlen_val _ _ _ _ (lookup_insert _ _ _)). change (zlen [Some 32]) with 1. lia.
      - intros e s' (He & Hk & Ha). split; [exact He|]. split; [left; exact Hk|exact Ha]. }
    intros ? s1 (H1 & S1).
    set (body := let* k := hsplit_rest d mdiff grow_fails el fuel x y sp t limit in _).
    assert (Hbody : runs body s1 (fun k s' => with_ d (length ps) (loop_at a sp rx ps) k s' /\ splitting l x sp (sharers s x + zlen ps) s') (thrown d why [sp] a)).
    { unfold body. eapply runs_bind with (P' := fun k s' => with_ d (length ps) (loop_at a sp rx ps) k s' /\ splitting l x sp (sharers s x + Z.of_nat k) s').
      - apply runs_post; [|eapply rest_shares; exact S1]. eapply hsplit_rest_runs; try eassumption; try congruence.
        pose proof (str_len d Hwf s a x sx H (ex_intro _ rx Hx)) as [_ Hs]. unfold max_alloc, W63 in *. lia.
      - intros k s2 ([-> H2] & S2).
        eapply runs_step; [eapply (rcount_exact d); [exact Hwf|exact H2|eapply live_val; eapply loop_at_user; eassumption]|].
        destruct S2 as [S2 S2']. rewrite (shared_sharers _ _ _ _ S2). rewrite Z.eqb_refl. eapply runs_step; [apply check_ok; reflexivity|].
        apply runs_ret. split; [split; [reflexivity|exact H2]|]. split; [exact S2|exact S2']. }
    eapply runs_conseq with (E := thrown d why [] a); [apply runs_post with (Q := fun _ => shared_by l x (sharers s x + zlen ps))| |auto].
    3:{ intros k s' [Hw Hs]. split; [exact Hw|]. apply shared_sharers in Hs. exact Hs. }
    + eapply (scope_with d Hwf (length ps) sp _ s1 why [] a (loop_at a sp rx ps)); [|member|assumption|unfold loop_at; rewrite lookup_insert; eauto|].
      * eapply runs_conseq; [exact Hbody| |auto]. intros ? ? [Hw _]. exact Hw.
      * unfold loop_at. rewrite delete_insert; [reflexivity|]. rewrite with_elems_other; [assumption|]. intros i _. apply Hel.
    + eapply post_scope with (P := fun _ => splitting l x sp (sharers s x + zlen ps)); [|intros ? ? S3; apply drop_shares, S3].
      unfold post. intros k s' Ek. unfold runs in Hbody. fold body in Ek. rewrite Ek in Hbody. apply Hbody.
Qed.

(** join *)
Lemma sum_lengths_ok s a xs ss : reached s a -> Forall2 (is_str a) xs ss -> forall sz, sum_lengths xs sz s = Ok (fold_left (fun sz e => u64 (sz + zlen e)) ss sz) s.
Proof.
  intros H Hs. induction Hs as [|x l xs ss Hx Hs IH]; intros sz; cbn [sum_lengths fold_left]; [reflexivity|].
  unfold bind. rewrite (length_is d Hwf s a x l H Hx). apply IH.
Qed.
Lemma plus_quoted_runs r x c1 m1 c2 m2 s a K acc rx e : reached s (<[r := AVal true (map Some acc)]> a) -> unused a [r; c1; m1; c2; m2] ->
  a !! x = Some (AVal rx (map Some e)) -> zlen acc + zlen e + 4 <= K ->
  runs (plus_quoted d r x c1 m1 c2 m2) s (at_ d (<[r := AVal true (map Some (acc ++ ([34] ++ e ++ [34])))]> a)) (oom d K [r] a).
Proof.
  intros H (Hnd & Hf) Hx HK. nodup Hnd Hf. unfold plus_quoted. pose proof (zlen_nonneg acc) as Lacc. pose proof (zlen_nonneg e) as Le.
  eapply (then_ d).
  { eapply (call_to d Hwf); [exact H|apply char_step; [assumption|found]|scoped|discriminate|discriminate| |reflexivity].
    cbn [subject target asks]. intros z [= <-]. rewrite (vlen_val _ _ _ _ (lookup_insert _ _ _)). change (zlen [Some 34]) with 1. lia. }
  intros s1 H1. eapply (scope_to d Hwf c1 _ s1 _ [r] a (<[r := AVal true (map Some (acc ++ ([34] ++ e ++ [34])))]> (<[c1 := AMoved]> a))); [|member|assumption|keys; eauto|meq].
  eapply (then_ d).
  { eapply (hplus_runs d Hwf Hnul m1 c1 x s1 _ a [c1; r] K true rx [34] e); [exact H1|scoped|member|found|found|found|]. unfold zlen at 1. cbn. lia. }
  intros s2 H2. eapply (scope_to d Hwf m1 _ s2 _ [c1; r] a (<[r := AVal true (map Some (acc ++ ([34] ++ e ++ [34])))]> (<[m1 := AMoved]> (<[c1 := AMoved]> a)))); [|member|assumption|keys; eauto|meq].
  eapply (then_ d).
  { eapply (call_to d Hwf); [exact H2|apply char_step; [assumption|found]|scoped|discriminate|discriminate| |reflexivity].
    cbn [subject target asks]. intros z [= <-]. rewrite (vlen_val _ _ _ _ (lookup_insert _ _ _)). change (zlen [Some 34]) with 1. lia. }
  intros s3 H3. eapply (scope_to d Hwf c2 _ s3 _ [m1; c1; r] a (<[r := AVal true (map Some (acc ++ ([34] ++ e ++ [34])))]> (<[c2 := AVal true [Some 34]]> (<[m1 := AMoved]> (<[c1 := AMoved]> a))))); [|member|assumption|keys; eauto|meq].
  eapply (then_ d).
  { eapply (hplus_runs d Hwf Hnul m2 m1 c2 s3 _ a [c2; m1; c1; r] K true true ([34] ++ e) [34]); [exact H3|scoped|member|found|found|found|]. rewrite zlen_app. unfold zlen at 1 3. cbn. lia. }
  intros s4 H4. eapply (scope_to d Hwf m2); [eapply (plus_to d Hwf Hnul); [exact H4|found|found|scoped|member| |reflexivity]|member|assumption|keys; eauto|].
  - rewrite !zlen_app. unfold zlen at 2 4. cbn. lia.
  - rewrite <- app_assoc. meq.
Qed.
Lemma join_loop_grows arr : forall first delim quoted acc, zlen acc <= zlen (join_loop first arr delim quoted acc).
Proof.
  induction arr as [|e arr IH]; intros first delim quoted acc; cbn [join_loop]; [lia|].
  eapply Z.le_trans; [|apply IH]. pose proof (zlen_nonneg e). pose proof (zlen_nonneg delim). destruct first, quoted; rewrite ?zlen_app, ?zlen_cons; rewrite ?zlen_nil; lia.
Qed.
Lemma hjoin_loop_runs r y quoted c1 m1 c2 m2 a K ry sy xs ss : unused a [r; c1; m1; c2; m2] -> a !! y = Some (AVal ry (map Some sy)) ->
  Forall2 (is_str a) xs ss -> forall first s acc, reached s (<[r := AVal true (map Some acc)]> a) ->
  zlen (join_loop first ss sy quoted acc) + 2 <= K ->
  runs (hjoin_loop d first xs r y quoted c1 m1 c2 m2) s (at_ d (<[r := AVal true (map Some (join_loop first ss sy quoted acc))]> a)) (oom d K [r] a).
Proof.
  intros Hu Hy Hs. destruct (Hu) as [Hnd Hf]. nodup Hnd Hf.
  induction Hs as [|x e xs ss Hx Hs IH]; intros first s acc H HK; cbn [hjoin_loop join_loop] in *; [apply runs_ret; exact H|].
  set (acc1 := if first then acc else acc ++ sy) in *. set (acc2 := if quoted then acc1 ++ ([34] ++ e ++ [34]) else acc1 ++ e) in *.
  pose proof (join_loop_grows ss false sy quoted acc2) as HG.
  assert (HL : zlen acc1 + zlen e <= zlen acc2) by (unfold acc2; destruct quoted; rewrite !zlen_app; unfold zlen; lia).
  pose proof (zlen_nonneg e) as Le.
  eapply (then_ d (<[r := AVal true (map Some acc1)]> a)).
  { unfold acc1 in *. destruct first; [apply runs_ret; exact H|].
    eapply (plus_to d Hwf Hnul); [exact H|apply lookup_insert|found|scoped|member|rewrite zlen_app in *; lia|apply insert_insert]. }
  intros s1 H1. destruct Hx as (rx & Ex). eapply (then_ d (<[r := AVal true (map Some acc2)]> a)).
  { unfold acc2 in *. destruct quoted.
    - eapply plus_quoted_runs; [exact H1|exact Hu|exact Ex|]. rewrite !zlen_app in HG. change (zlen [34]) with 1 in HG. lia.
    - eapply (plus_to d Hwf Hnul); [exact H1|apply lookup_insert|found|scoped|member|lia|apply insert_insert]. }
  intros s2 H2. apply IH; [exact H2|exact HK].
Qed.
Lemma hjoin_runs r y xs quoted c1 m1 c2 m2 s a K ry sy ss : reached s a -> unused a [r; c1; m1; c2; m2] -> a !! y = Some (AVal ry (map Some sy)) ->
  Forall2 (is_str a) xs ss -> (ss <> [] -> join_size ss sy quoted + 1 <= K) -> zlen (join_loop true ss sy quoted []) + 2 <= K ->
  runs (hjoin d r y xs quoted c1 m1 c2 m2) s (at_ d (<[r := AVal true (map Some (join_loop true ss sy quoted []))]> a)) (oom d K [] a).
Proof.
  intros H Hu Hy Hs HK1 HK2. destruct (Hu) as [Hnd Hf]. nodup Hnd Hf. unfold hjoin.
  assert (EL : zlen xs = zlen ss) by (unfold zlen; rewrite (Forall2_length _ _ _ Hs); reflexivity).
  destruct (Z.eqb_spec (zlen xs) 0) as [E0|E0].
  - rewrite EL in E0. apply zlen_0_nil in E0 as ->. eapply (safe_to d Hwf); [exact H|apply default_step; assumption|reflexivity|reflexivity].
  - eapply runs_step; [eapply (length_is d Hwf); [exact H|exists ry; exact Hy]|]. cbv zeta.
    eapply runs_step; [eapply sum_lengths_ok; eassumption|]. rewrite EL.
    change (fold_left _ ss _) with (join_size ss sy quoted).
    assert (Hne : ss <> []) by (intros ->; contradiction).
    eapply (then_ d).
    { eapply (call_to d Hwf); [exact H|apply sized_step; [assumption|]|scoped|discriminate|discriminate| |reflexivity].
      - unfold join_size. destruct (exists_last Hne) as (l & z & ->). rewrite fold_left_app. cbn [fold_left]. apply u64_range.
      - cbn. intros v [= <-]. apply HK1, Hne. }
    intros s1 H1. eapply (runs_unwind1 d Hwf); [|member|assumption]. eapply hjoin_loop_runs; eassumption.
Qed.
End Split.
