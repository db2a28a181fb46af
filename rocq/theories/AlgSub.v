(** sub, subst, operator*, operator+ and newsplit on the heap. *)
From Verif Require Import RcaSpec RcaModel RcaExec RcaInv RcaOwn RcaRel RcaMeet RcaReach RcaFacts StrSpec StrModel AlgModel AlgMeet AlgRules.
Open Scope Z_scope.

Section Sub.
Variable d : desc Z.
Hypothesis Hwf : wf_desc d.
Hypothesis Hnul : d_nul d = Some 0.
Notation reached := (reached d).
Notation step := (step d).

Lemma s64_small z : in_s64 z = true -> s64 z = z.
Proof. unfold in_s64. intros H. apply s64_id. lia. Qed.
Lemma substr_ok s start len t : substr s start len tt = Ok t tt -> sp_slice_ok (zlen s) start len = true /\ t = sp_slice s start len.
Proof. unfold substr. destruct (sp_slice_ok (zlen s) start len); [|discriminate]. intros [= <-]. auto. Qed.
Lemma slice_ok_len n start len : sp_slice_ok n start len = true -> in_s64 len = true.
Proof. unfold sp_slice_ok. intros H. repeat (apply andb_prop in H as [H ?]). assumption. Qed.
Lemma runs_find s a u y lu ly p (P : Z -> state Z -> Prop) Q :
  reached s a -> is_str a u lu -> is_str a y ly -> find lu ly tt = Ok p tt -> P p s -> runs (hfind u y) s P Q.
Proof.
  intros H Hu Hy E HP. unfold hfind. eapply runs_step; [eapply contents_str; eassumption|].
  eapply runs_step; [eapply contents_str; eassumption|]. unfold runs. rewrite (pure_ok _ _ _ E). exact HP.
Qed.

Lemma sub_loop_grows fuel : forall search repl limit cnt new srch w,
  sub_loop fuel search repl limit cnt new srch tt = Ok w tt -> zlen new <= zlen w.
Proof.
  induction fuel as [|f IH]; intros search repl limit cnt new srch w; cbn [sub_loop]; unfold bind at 1;
    destruct (find srch search tt) as [p []|? ?| | |?]; try discriminate; (destruct (p =? npos); [intros [= <-]; zlen_simpl; pose proof (zlen_nonneg srch); lia|]); [discriminate|].
  unfold bind at 1. destruct (substr srch 0 p tt) as [h []|? ?| | |?]; try discriminate.
  pose proof (zlen_nonneg h). pose proof (zlen_nonneg repl).
  assert (L : forall c srch' w', sub_loop f search repl limit c ((new ++ h) ++ repl) srch' tt = Ok w' tt -> zlen new <= zlen w')
    by (intros c srch' w' E; apply IH in E; rewrite !zlen_app in E; lia).
  destruct (limit =? -1); [apply L|]. destruct (negb (fits_i32 (cnt + 1))); [discriminate|].
  destruct (cnt + 1 =? limit); [|apply L]. intros [= <-]. rewrite !zlen_app. pose proof (zlen_nonneg (zdrop (u64 (p + zlen search)) srch)). lia.
Qed.

Section Loop.
Variables (a : astate Z) (r u t y z : positive) (K : Z) (sy sz : list Z).
Hypothesis (Hr : a !! r = None) (Hu : a !! u = None) (Ht : a !! t = None) (Hru : r <> u) (Hrt : r <> t) (Hut : u <> t).
Hypothesis (Hy : is_str a y sy) (Hz : is_str a z sz).
Definition in_loop ru new srch : astate Z := <[u := AVal ru (map Some srch)]> (<[r := AVal true (map Some new)]> a).

Lemma finish_runs s ru new srch :
  reached s (in_loop ru new srch) -> zlen (new ++ srch) + 2 <= K ->
  runs (let* n := length_of u in if n =? 0 then ret tt else plus_eq d false r u) s
    (fun _ s' => exists ru srch', reached s' (in_loop ru (new ++ srch) srch')) (oom d K [u; r] a).
Proof.
  intros H HK. eapply runs_step; [eapply (length_is d Hwf); [exact H|]; exists ru; apply lookup_insert|].
  destruct (Z.eqb_spec (zlen srch) 0) as [E|E].
  - apply zlen_0_nil in E as ->. apply runs_ret. rewrite app_nil_r. eauto.
  - rewrite zlen_app in HK. eapply (runs_plus d Hwf Hnul); [exact H|unfold in_loop; scoped|member|unfold in_loop; found|apply lookup_insert|exact HK|].
    intros s' H'. exists ru, srch. replace (in_loop ru (new ++ srch) srch) with (<[r:=AVal true (map Some (new ++ srch))]> (in_loop ru new srch)); [exact H'|].
    unfold in_loop. meq.
Qed.

Lemma hsub_loop_runs limit fuel : forall s ru new srch cnt w,
  reached s (in_loop ru new srch) -> zlen w + 2 <= K ->
  sub_loop fuel sy sz limit cnt new srch tt = Ok w tt ->
  runs (hsub_loop d fuel r u t y z limit cnt) s
    (fun _ s' => exists ru' srch', reached s' (in_loop ru' w srch')) (oom d K [u; r] a).
Proof.
  destruct Hy as (ry & Ey). destruct Hz as (rz & Ez).
  induction fuel as [|f IH]; intros s ru new srch cnt w H HK; cbn [sub_loop hsub_loop]; unfold bind at 1;
    destruct (find srch sy tt) as [p []|? ?| | |?] eqn:Ef; try discriminate; intros E.
  all: eapply runs_bind; [eapply (runs_find _ _ u y srch sy p (fun v s' => v = p /\ s' = s)); [exact H|exists ru; apply lookup_insert|exists ry; unfold in_loop; found|exact Ef|auto]|]; intros ? ? [-> ->].
  - destruct (p =? npos); [injection E as <-; eapply finish_runs; eassumption|discriminate].
  - destruct (p =? npos); [injection E as <-; eapply finish_runs; eassumption|].
    unfold bind at 1 in E. destruct (substr srch 0 p tt) as [h []|? ?| | |?] eqn:Eh; try discriminate.
    destruct (substr_ok _ _ _ _ Eh) as [Hok ->]. rewrite (s64_small p) by (eapply slice_ok_len; exact Hok).
    assert (HL : zlen ((new ++ sp_slice srch 0 p) ++ sz) <= zlen w).
    { destruct (limit =? -1); [eapply sub_loop_grows; exact E|]. destruct (negb (fits_i32 (cnt + 1))); [discriminate|].
      destruct (cnt + 1 =? limit); [|eapply sub_loop_grows; exact E]. injection E as <-. rewrite (zlen_app _ (zdrop _ _)).
      pose proof (zlen_nonneg (zdrop (u64 (p + zlen sy)) srch)). lia. }
    rewrite !zlen_app in HL. pose proof (zlen_nonneg sz).
    eapply (then_ d); [eapply (hslice_to d Hwf); [exact H|apply lookup_insert|unfold in_loop; found|exact Hok|reflexivity]|]. intros s1 H1.
    eapply (then_ d (in_loop ru (new ++ sp_slice srch 0 p) srch)).
    { eapply scope_to; [assumption|eapply (plus_to d Hwf Hnul)|..]; [exact H1|unfold in_loop; found|apply lookup_insert|unfold in_loop; scoped|member|lia|reflexivity|member|exact Ht|keys; eauto|unfold in_loop; meq]. }
    intros s2 H2.
    eapply (then_ d (in_loop ru ((new ++ sp_slice srch 0 p) ++ sz) srch)).
    { eapply (plus_to d Hwf Hnul); [exact H2|unfold in_loop; found|unfold in_loop; found|unfold in_loop; scoped|member|rewrite zlen_app; lia|unfold in_loop; meq]. }
    intros s3 H3.
    eapply runs_step; [eapply (length_is d Hwf s3 _ y sy); [exact H3|exists ry; unfold in_loop; found]|].
    eapply (then_ d (in_loop ru ((new ++ sp_slice srch 0 p) ++ sz) (zdrop (u64 (p + zlen sy)) srch))).
    { eapply (safe_to d Hwf); [exact H3|apply drop_step; [apply lookup_insert|apply u64_range]|reflexivity|apply insert_insert]. }
    intros s4 H4. destruct (limit =? -1); [eapply IH; eassumption|].
    destruct (negb (fits_i32 (cnt + 1))); [discriminate|]. destruct (cnt + 1 =? limit); [|eapply IH; eassumption].
    injection E as <-. eapply finish_runs; eassumption.
Qed.
End Loop.

(** sub *)
Lemma hsub_runs fuel r u t x y z limit s a K sx sy sz w :
  reached s a -> unused a [r; u; t] -> is_str a x sx -> is_str a y sy -> is_str a z sz ->
  sub fuel sx sy sz limit tt = Ok w tt -> zlen sx + 1 <= K -> zlen w + 2 <= K ->
  runs (hsub d fuel r u t x y z limit) s (at_ d (<[r := AVal true (map Some w)]> a)) (oom d K [] a).
Proof.
  intros H (Hnd & Hf) Hx Hy Hz E HK1 HK2. pose proof (str_len d Hwf s a x sx H Hx) as Lx. destruct Hx as (rx & Ex).
  nodup Hnd Hf.
  unfold hsub. eapply runs_step; [eapply (length_is d Hwf); [exact H|exists rx; exact Ex]|].
  eapply (then_ d).
  { eapply (call_to d Hwf); [exact H|apply sized_step; [assumption|unfold max_alloc, W63, W64 in *; lia]|scoped|discriminate|discriminate| |reflexivity].
    cbn. intros v [= <-]. exact HK1. }
  intros s1 H1. eapply (runs_unwind1 d Hwf); [|member|assumption].
  eapply (then_ d); [eapply (safe_to d Hwf); [exact H1|eapply (copy_step d _ u x rx (map Some sx)); found|reflexivity|reflexivity]|].
  intros s2 H2.
  eapply runs_scope; [assumption| |member|assumption|].
  - eapply (hsub_loop_runs a r u t y z K sy sz) with (ru := rx) (new := []) (srch := sx) (w := w); auto.
  - intros [] s3 (ru & srch & H3). eexists. split; [exact H3|]. split; [unfold in_loop; keys; eauto|].
    intros s4 H4. replace (delete u (in_loop a r u ru w srch)) with (<[r := AVal true (map Some w)]> a) in H4; [exact H4|]. unfold in_loop. meq.
Qed.
Lemma oom_in (K : Prop) X a a0 e s : thrown d K [] a e s -> around X a0 a -> thrown d K X a0 e s.
Proof.
  intros (He & Hk & a1 & H & Ha) HX. apply around_nil in Ha as ->. split; [exact He|]. split; [exact Hk|]. exists a. auto.
Qed.

(** subst *)
Lemma hsubst_loop_runs fuel r q u t a K kvs : unused a [r; q; u; t] -> forall tkvs s rr cur w,
  Forall2 (fun p (tp : list Z * list Z) => is_str a (fst p) (fst tp) /\ is_str a (snd p) (snd tp)) kvs tkvs ->
  reached s (<[r := AVal rr (map Some cur)]> a) -> subst fuel cur tkvs tt = Ok w tt -> zlen cur + 2 <= K ->
  (forall l1 l2 w1, tkvs = l1 ++ l2 -> subst fuel cur l1 tt = Ok w1 tt -> zlen w1 + 2 <= K) ->
  runs (hsubst_loop d fuel r q u t kvs) s (at_ d (<[r := AVal (match kvs with [] => rr | _ => true end) (map Some w)]> a)) (oom d K [r] a).
Proof.
  intros (Hnd & Hf). nodup Hnd Hf.
  induction kvs as [|[k v] kvs IH]; intros tkvs s rr cur w Hs H E HK HP; inversion Hs as [|? [tk tv] ? tkvs' [Hk Hv] Hs']; subst; cbn [hsubst_loop subst] in *.
  - injection E as <-. apply runs_ret. exact H.
  - cbn [fst snd] in Hk, Hv. unfold bind in E. destruct (sub fuel cur tk tv (-1) tt) as [cur' []|? ?| | |?] eqn:E1; try discriminate.
    assert (HL : zlen cur' + 2 <= K). { apply (HP [(tk, tv)] tkvs'); [reflexivity|]. cbn [subst]. unfold bind. rewrite E1. reflexivity. }
    eapply (then_ d).
    { eapply runs_conseq; [eapply (hsub_runs fuel q u t r k v (-1)) with (K := K); [exact H| |..]|intros ? ? X; exact X|].
      - split; [repeat constructor; cbn [In]; intuition congruence|]. repeat constructor; found.
      - exists rr. apply lookup_insert.
      - destruct Hk as (rk & Ek). exists rk. found.
      - destruct Hv as (rv & Ev). exists rv. found.
      - exact E1.
      - lia.
      - exact HL.
      - intros e s' X. eapply oom_in; [exact X|]. scoped. }
    intros s1 H1. eapply (then_ d (<[r := AVal true (map Some cur')]> a)).
    { eapply (scope_to d Hwf); [eapply (safe_to d Hwf); [exact H1|eapply assign_move_step; [apply lookup_insert|found|congruence]|reflexivity|reflexivity]|member|assumption|keys; eauto|meq]. }
    intros s2 H2. eapply runs_conseq; [eapply (IH tkvs' s2 true cur' w Hs' H2 E HL)| |auto].
    + intros l1 l2 w1 -> Ew. apply (HP ((tk, tv) :: l1) l2 w1); [reflexivity|]. cbn [subst]. unfold bind. rewrite E1. exact Ew.
    + intros [] s3. destruct kvs; exact id.
Qed.
Lemma hsubst_runs fuel r q u t x kvs tkvs s a K rx sx w :
  reached s a -> unused a [r; q; u; t] -> a !! x = Some (AVal rx (map Some sx)) ->
  Forall2 (fun p (tp : list Z * list Z) => is_str a (fst p) (fst tp) /\ is_str a (snd p) (snd tp)) kvs tkvs ->
  subst fuel sx tkvs tt = Ok w tt ->
  (forall l1 l2 w1, tkvs = l1 ++ l2 -> subst fuel sx l1 tt = Ok w1 tt -> zlen w1 + 2 <= K) ->
  runs (hsubst d fuel r q u t x kvs) s (at_ d (<[r := AVal (match kvs with [] => rx | _ => true end) (map Some w)]> a)) (oom d K [] a).
Proof.
  intros H Hu Hx Hs E HP. destruct (Hu) as [Hnd Hf]. nodup Hnd Hf. unfold hsubst.
  eapply (then_ d); [eapply (safe_to d Hwf); [exact H|eapply copy_step; [exact Hx|assumption]|reflexivity|reflexivity]|].
  intros s1 H1. eapply (runs_unwind1 d Hwf); [|member|assumption].
  eapply hsubst_loop_runs; try eassumption. apply (HP [] tkvs sx); reflexivity.
Qed.

(** operator* *)
Lemma times_loop_runs r x k : forall s a K rx sx acc, reached s (<[r := AVal true (map Some acc)]> a) -> a !! r = None ->
  a !! x = Some (AVal rx (map Some sx)) -> zlen acc + zlen (repeat_str sx k) + 2 <= K ->
  runs (times_loop d k r x) s (at_ d (<[r := AVal true (map Some (acc ++ repeat_str sx k))]> a)) (oom d K [r] a).
Proof.
  induction k as [|k IH]; intros s a K rx sx acc H Hr Hx HK; cbn [times_loop repeat_str] in *.
  - apply runs_ret. rewrite app_nil_r. exact H.
  - rewrite zlen_app in HK. pose proof (zlen_nonneg (repeat_str sx k)). eapply (then_ d).
    { eapply (plus_to d Hwf Hnul); [exact H|apply lookup_insert|found|scoped|member|lia|apply insert_insert]. }
    intros s1 H1. rewrite app_assoc. eapply IH; try eassumption. rewrite zlen_app. lia.
Qed.
Lemma htimes_runs r x n s a K rx sx : reached s a -> a !! r = None -> a !! x = Some (AVal rx (map Some sx)) ->
  u64 (zlen sx * u64 n) + 1 <= K -> zlen (repeat_str sx (Z.to_nat n)) + 2 <= K ->
  runs (htimes d r x n) s (at_ d (<[r := AVal true (map Some (repeat_str sx (Z.to_nat n)))]> a)) (oom d K [] a).
Proof.
  intros H Hr Hx HK1 HK2. unfold htimes. eapply runs_step; [eapply (length_is d Hwf); [exact H|exists rx; exact Hx]|].
  eapply (then_ d).
  { eapply (call_to d Hwf); [exact H|apply sized_step; [assumption|apply u64_range]|scoped|discriminate|discriminate| |reflexivity].
    cbn. intros v [= <-]. exact HK1. }
  intros s1 H1. eapply (runs_unwind1 d Hwf); [|member|assumption].
  eapply (times_loop_runs r x _ s1 a K rx sx []); auto.
Qed.

(** operator+ *)
Lemma hplus_runs r p y s a a0 X K rp ry (v w : list Z) : reached s a -> around X a0 a -> p ∈ X -> a !! r = None ->
  a !! p = Some (AVal rp (map Some v)) -> a !! y = Some (AVal ry (map Some w)) -> zlen v + zlen w + 2 <= K ->
  runs (hplus d r p y) s (at_ d (<[r := AVal true (map Some (v ++ w))]> (<[p := AMoved]> a))) (oom d K X a0).
Proof.
  intros H HX Hp Hr Ep Ey HK. unfold hplus. eapply (then_ d); [eapply (plus_to d Hwf Hnul); [exact H|exact Ep|exact Ey|exact HX|exact Hp|exact HK|reflexivity]|].
  intros s1 H1. eapply (safe_to d Hwf); [exact H1|eapply move_step; [apply lookup_insert|found]|reflexivity|]. rewrite insert_insert. reflexivity.
Qed.
Lemma concat_runs r x y p s a K rx ry (v w : list Z) : reached s a -> unused a [r; p] ->
  a !! x = Some (AVal rx (map Some v)) -> a !! y = Some (AVal ry (map Some w)) -> zlen v + zlen w + 2 <= K ->
  runs (concat d r x y p) s (at_ d (<[r := AVal true (map Some (v ++ w))]> a)) (oom d K [] a).
Proof.
  intros H (Hnd & Hf) Hx Hy HK. nodup Hnd Hf. unfold concat.
  eapply (then_ d); [eapply (safe_to d Hwf); [exact H|eapply copy_step; [exact Hx|assumption]|reflexivity|reflexivity]|].
  intros s1 H1. eapply (scope_to d Hwf); [eapply hplus_runs; [exact H1|scoped|member|found|apply lookup_insert|found|exact HK]|member|assumption|keys; eauto|meq].
Qed.

(** newsplit *)
Lemma sp_index_ext {A} (p q : A -> bool) l : (forall c, p c = q c) -> sp_index p l = sp_index q l.
Proof. intros E. induction l as [|c l IH]; [reflexivity|]. cbn. rewrite E, IH. reflexivity. Qed.
Lemma find_char_step a x r (l : list Z) c : (forall b c, d_eqb d b c = (b =? c)) -> a !! x = Some (AVal r (map Some l)) ->
  step (FindItem x c 0) a = Some (SRet a (OInt (or_npos (sp_index (fun b => b =? c) l)))).
Proof.
  intros Heq Hx. unfold RcaMeet.step. cbn [spec_step]. rewrite (holds_val _ _ _ _ Hx), zlen_map. pose proof (zlen_nonneg l).
  change (in_u64 0) with true. cbn [need]. replace (zlen l <? 0) with false by lia. rewrite vals_map, zdrop_0 by lia.
  rewrite (sp_index_ext _ (fun b => b =? c)); [reflexivity|]. intros b. apply Heq.
Qed.
Lemma hnewsplit_runs r x delim s a rx sx tok rest : (forall b c, d_eqb d b c = (b =? c)) ->
  reached s a -> a !! r = None -> a !! x = Some (AVal rx (map Some sx)) -> newsplit sx delim tt = Ok (tok, rest) tt ->
  runs (hnewsplit d r x delim) s (at_ d (<[x := AVal rx (map Some rest)]> (<[r := AVal (match sx with [] => true | _ => rx end) (map Some tok)]> a))) (fun _ _ => False).
Proof.
  intros Heq H Hr Hx. unfold hnewsplit, newsplit. intros E.
  eapply runs_step; [eapply (length_is d Hwf); [exact H|exists rx; exact Hx]|].
  destruct (Z.eqb_spec (zlen sx) 0) as [E0|E0].
  - apply zlen_0_nil in E0 as ->. injection E as <- <-. eapply (safe_to d Hwf); [exact H|apply default_step; assumption|reflexivity|].
    meq.
  - assert (match sx with [] => true | _ => rx end = rx) as -> by (destruct sx; [contradiction|reflexivity]).
    eapply (then_with d (or_npos (sp_index (fun c => c =? delim) sx)) a).
    { eapply (runs_ask d Hwf); [exact H|eapply find_char_step; eassumption|reflexivity|intros s' _ H'; split; [reflexivity|exact H']]. }
    intros s1 H1. cbv zeta in E |- *.
    set (pos := if or_npos (sp_index (fun c => c =? delim) sx) =? npos then zlen sx else or_npos (sp_index (fun c => c =? delim) sx)) in *.
    unfold bind at 1 in E. destruct (substr sx 0 pos tt) as [t0 []|? ?| | |?] eqn:Es; try discriminate.
    destruct (substr_ok _ _ _ _ Es) as [Hok ->]. rewrite (s64_small pos) by (eapply slice_ok_len; exact Hok). injection E as <- <-.
    eapply (then_ d); [eapply (hslice_to d Hwf); [exact H1|exact Hx|exact Hr|exact Hok|reflexivity]|].
    intros s2 H2. apply runs_unwind_safe.
    eapply runs_step; [eapply (contents_str d Hwf); [exact H2|exists rx; found]|].
    eapply (safe_to d Hwf); [exact H2|eapply drop_step; [found|apply u64_range]|reflexivity|reflexivity].
Qed.
End Sub.
