(** Proofs about operator>> and getline on the heap. *)
From Coq Require Import ZifyBool.
From Verif Require Import RcaSpec RcaModel RcaExec RcaInv RcaOwn RcaRel RcaRel2 RcaMod RcaMeet RcaReach RcaFacts AlgModel AlgMeet AlgRules AlgSplit HsProof
  IsSpec IsModel IsProof IshModel IshMeet.
Open Scope Z_scope.

(** After an append the buffer is the string's own. *)
Lemma append_owned (d : desc Z) s a x r v e w s' : wf_desc d -> reached d s a -> a !! x = Some (AVal r v) ->
  exec d (AppendItem x e) s = Ok w s' -> is_shared x s' = Ok false s'.
Proof.
  intros Hwf H Ha E. pose proof (reached_R d s a Hwf H) as HR. destruct (R_held d _ _ _ _ _ HR Ha) as (o & Hh).
  pose proof (held_bounds d _ _ _ _ _ Hh) as Hb. pose proof (zlen_nonneg v).
  assert (Hma : max_alloc + 1 < npos /\ npos < W64) by (unfold max_alloc, npos, W64; lia).
  assert (runs (append_item d x e) s (fun _ s' => exists off b, owns d s s' x off (zlen v + 1) b) (fun _ _ => True)) as Hrun.
  { unfold append_item. eapply runs_step; [eapply held_len; exact Hh|]. unfold insert_item. eapply runs_step.
    { rewrite (check_pos_eq d _ _ _ _ _ _ HR Ha) by lia. destruct (Z.ltb_spec (zlen v) (zlen v)); [lia|reflexivity]. }
    eapply runs_step; [eapply held_len; exact Hh|]. rewrite u64_id by lia.
    eapply runs_bind.
    { eapply runs_conseq; [eapply (atm_R d); try eassumption; lia| |intros; exact I]. intros ? s1 Q. exact Q. }
    cbn beta. intros _ s1 (off & b & HO & Hroom & Hv). pose proof (room_ge d (zlen v + 1)).
    pose proof (owns_facts d _ _ _ _ _ _ HO) as (Q1 & Q2 & Q3 & Q4).
    destruct (shift_right_owns d _ _ _ _ _ _ (zlen v) 1 HO) as (s2 & E2 & HO2); [lia|lia|lia|].
    eapply runs_step; [exact E2|].
    assert (Hz : zlen (zupd (off + (zlen v + 1)) (zsub (off + zlen v) (zlen v - zlen v) b) b) = zlen b).
    { apply zlen_zupd; [lia|zlen_simpl; lia]. }
    eapply (step_store d); [exact HO2|lia|rewrite Hz; zlen_simpl; lia|]. intros s3 HO3.
    assert (Hz3 : forall q, zlen q = zlen b -> zlen (zupd (off + zlen v) [Some e] q) = zlen b).
    { intros q Hq. rewrite zlen_zupd; [exact Hq|lia|rewrite Hq; zlen_simpl; lia]. }
    destruct (add_len_owns d _ _ _ _ _ _ 1 HO3) as (s4 & E4 & HO4); [lia|rewrite Hz3 by exact Hz; lia|].
    unfold runs. rewrite E4. eauto. }
  cbn [exec] in E. unfold unit_, bind in E. unfold runs in Hrun. destruct (append_item d x e s) as [u s1|? ?| | |]; try discriminate.
  injection E as <- <-. destruct Hrun as (off & b & _ & _ & l & g & Hx & Hl).
  unfold is_shared, bind. rewrite (get_obj_ok _ _ _ Hx). cbn [o_ref]. rewrite (get_cell_ok _ _ _ Hl). reflexivity.
Qed.

Lemma bind_undef {S A B} (m : M S A) (k : A -> M S B) s u : m s = Undef u -> bind m k s = Undef u.
Proof. unfold bind. intros ->. reflexivity. Qed.
Section Proof.
Variable d : desc Z.
Hypothesis Hwf : wf_desc d.
Hypothesis Hnul : d_nul d = Some 0.
Variable high : Z -> option bool.
Notation reached := (RcaMeet.reached d).
Notation step := (RcaMeet.step d).
Notation val l := (AVal true (map (@Some Z) l)).
Implicit Types (s : state Z) (a : astate Z) (x t : positive) (i : istream).

Lemma cstrlen_step a t : a !! t = None -> step (CtorCstrLen t [0] 0) a = Some (SRet (<[t := val []]> a) ONone).
Proof. intros Ht. unfold RcaMeet.step. cbn [spec_step]. unfold fresh_var, is_string. rewrite Ht, Hnul. reflexivity. Qed.
(** [string = ""] *)
Lemma make_empty_cases i s a x t vx : reached s a -> a !! x = Some vx -> a !! t = None ->
  (exists s', make_empty d x t (i, s) = Ok tt (i, s') /\ reached s' (<[x := val []]> a)) \/
  (exists s', make_empty d x t (i, s) = Exn BadAlloc (i, s') /\ reached s' a /\ no_memory d 2).
Proof.
  intros H Hx Ht. assert (x <> t) as N by congruence. unfold make_empty, on_heap. cbn [fst snd].
  destruct (step_yields d (CtorCstrLen t [0] 0) s a _ _ Hwf H (cstrlen_step a t Ht)) as [(s1 & v & E & _ & H1 & _)|(s1 & y & E & Hs & Hm & a1 & H1 & _ & Ha)]; [discriminate| |].
  - left. assert (call d (CtorCstrLen t [0] 0) s = Ok tt s1) as Ec by (unfold call, bind; rewrite E; reflexivity). rewrite (bind_ok _ _ _ _ _ Ec).
    destruct (call_ok d Hwf (AssignMove x t) s1 _ _ _ H1 (assign_move_step d _ x t true [] vx (lookup_insert _ _ _) (eq_trans (lookup_insert_ne _ _ _ _ (not_eq_sym N)) Hx) N) eq_refl) as (s2 & E2 & H2).
    unfold scope, unwind. unfold bind at 1. rewrite E2.
    assert (exists s3, call d (Destroy t) s2 = Ok tt s3 /\ reached s3 (<[x := val []]> a)) as (s3 & E3 & H3).
    { destruct (call_ok d Hwf (Destroy t) s2 _ _ _ H2 (destroy_step d _ t (mk_is_Some _ _ (eq_trans (lookup_insert_ne _ _ _ _ N) (lookup_insert _ _ _)))) eq_refl) as (s3 & E3 & H3).
      exists s3. split; [exact E3|]. rewrite delete_insert_ne in H3 by congruence. rewrite insert_insert, delete_insert in H3 by exact Ht. exact H3. }
    rewrite (bind_ok _ _ _ _ _ E3). exists s3. split; [reflexivity|exact H3].
  - right. assert (call d (CtorCstrLen t [0] 0) s = Exn BadAlloc s1) as Ec by (unfold call, bind; rewrite E; reflexivity). rewrite (bind_exn _ _ _ _ _ Ec).
    exists s1. split; [reflexivity|]. destruct Ha as [->|(Hta & _)]; [|discriminate Hta]. split; [exact H1|].
    cbn [subject] in Hs. injection Hs as <-. revert Hm. unfold asks, vlen. rewrite lookup_insert. intros Hm. exact Hm.
Qed.
(** [string += ch] on a string that was built here *)
Definition own_str s x (l : list Z) : Prop := l = [] \/ is_shared x s = Ok false s.
Lemma put_char_cases i s a x l b : reached s (<[x := val l]> a) -> own_str s x l ->
  (exists s', put_char d x (Some b) (i, s) = Ok tt (i, s') /\ reached s' (<[x := val (l ++ [b])]> a) /\ own_str s' x (l ++ [b])) \/
  (exists s', put_char d x (Some b) (i, s) = Exn BadAlloc (i, s') /\ reached s' (<[x := val l]> a) /\ no_memory d (zlen l + 3)).
Proof.
  intros H Ho. unfold put_char, on_heap. cbn [fst snd]. pose proof (lookup_insert a x (val l)) as Hx.
  destruct (step_yields d (AppendItem x b) s _ _ _ Hwf H (push_step d _ x true l b Hx)) as [(s1 & v & E & _ & H1 & _)|(s1 & y & E & Hs & Hm & a1 & H1 & _ & Ha)]; [discriminate| |].
  - left. exists s1. unfold call, bind. rewrite E. split; [reflexivity|]. rewrite insert_insert in H1. split; [exact H1|]. right. exact (append_owned d s _ x true _ b v s1 Hwf H Hx E).
  - right. exists s1. unfold call, bind. rewrite E. split; [reflexivity|]. cbn [subject target] in Hs. injection Hs as <-. split.
    + destruct Ha as [->|(_ & [D|Sh] & ->)]; [exact H1|discriminate D|]. destruct Ho as [->|Ho]; [rewrite insert_insert in H1; exact H1|]. congruence.
    + revert Hm. unfold asks, vlen. rewrite lookup_insert. cbn beta iota. rewrite zlen_map, zlen_app, zlen_cons, zlen_nil.
      replace (zlen l + (1 + 0) + 2) with (zlen l + 3) by lia. auto.
Qed.

(** The run on the heap and the run on contents, appending failing at length [b]. *)
Definition at_len (b : option Z) (k : Z) : bool := match b with Some j => k =? j | None => false end.
Definition agree {A} (x : positive) (a : astate Z) (r : res (istream * state Z) A) (q : res ist A) : Prop :=
  match r, q with
  | Ok v p, Ok w st => v = w /\ fst p = i_is st /\ reached (snd p) (<[x := val (i_str st)]> a)
  | Exn e p, Exn f st => e = f /\ fst p = i_is st /\ reached (snd p) (<[x := val (i_str st)]> a)
  | Term, Term | Fuel, Fuel => True
  | Undef u, Undef u' => u = u'
  | _, _ => False
  end.
Definition lacking (b : option Z) (n : Z) : Prop := forall j, b = Some j -> n <= j /\ no_memory d (j + 3).

(** Steps on the stream alone do the same on both sides. *)
Lemma extract_both noskip ch i : exists v i', (forall s, on_is (extract noskip ch) (i, s) = Ok v (i', s)) /\ forall l, extract noskip ch (IST i l) = Ok v (IST i' l).
Proof.
  unfold on_is, extract, bind, get_is, set_is, ret. cbn [fst snd i_is i_str]. destruct (sentry noskip i) as [[|] i']; cbn; [|eauto].
  destruct (is_data i'); cbn; eauto.
Qed.
Lemma putback_both b i : exists i', (forall s, on_is (putback b) (i, s) = Ok tt (i', s)) /\ forall l, putback b (IST i l) = Ok tt (IST i' l).
Proof. unfold on_is, putback, bind, get_is, set_is. cbn [fst snd i_is i_str]. destruct (negb _); cbn; eauto. Qed.
Lemma isspace_both ch i : (exists v, (forall s, on_is (isspace high ch) (i, s) = Ok v (i, s)) /\ forall l, isspace high ch (IST i l) = Ok v (IST i l)) \/
  exists u, (forall s, on_is (isspace high ch) (i, s) = Undef u) /\ forall l, isspace high ch (IST i l) = Undef u.
Proof.
  unfold on_is, isspace. cbn [fst snd]. destruct ch as [b|]; [|right; eauto]. destruct ((128 <=? b) && _); [destruct (high b)|]; cbn; eauto.
Qed.
Lemma get_both i s : on_is get_is (i, s) = Ok i (i, s).
Proof. reflexivity. Qed.
Lemma get_is_ok i l : get_is (IST i l) = Ok i (IST i l).
Proof. reflexivity. Qed.
Lemma agree_ok {A} x a (v : A) i s l : reached s (<[x := val l]> a) -> agree x a (ret v (i, s)) (ret v (IST i l)).
Proof. intros H. cbn. auto. Qed.
Lemma no_lack n : lacking None n.
Proof. intros j. discriminate. Qed.
(** An append with what follows it. *)
Lemma put_char_sim {A} x a i s l c (k : M (istream * state Z) A) (k' : (Z -> bool) -> Mi A) : reached s (<[x := val l]> a) -> own_str s x l ->
  (forall s', reached s' (<[x := val (l ++ [c])]> a) -> own_str s' x (l ++ [c]) -> exists b, lacking b (zlen (l ++ [c])) /\ agree x a (k (i, s')) (k' (at_len b) (IST i (l ++ [c])))) ->
  exists b, lacking b (zlen l) /\ agree x a ((put_char d x (Some c) ;;; k) (i, s)) ((append_char (at_len b) (Some c) ;;; k' (at_len b)) (IST i l)).
Proof.
  intros H Ho Hk. destruct (put_char_cases i s a x l c H Ho) as [(s1 & E & H1 & O1)|(s1 & E & H1 & Hm)].
  - destruct (Hk s1 H1 O1) as (b & Hb & Ag). exists b. rewrite zlen_app, zlen_cons, zlen_nil in Hb. split; [intros j Hj; specialize (Hb j Hj); split; [lia|apply Hb]|].
    rewrite (bind_ok _ _ _ _ _ E). unfold bind, append_char. cbn [i_is i_str]. assert (at_len b (zlen l) = false) as ->; [|exact Ag].
    destruct b as [j|]; [|reflexivity]. cbn. specialize (Hb j eq_refl). lia.
  - exists (Some (zlen l)). split; [intros j [= <-]; split; [lia|exact Hm]|]. rewrite (bind_exn _ _ _ _ _ E). unfold bind, append_char. cbn [i_is i_str at_len].
    rewrite Z.eqb_refl. cbn. auto.
Qed.
Lemma word_loop_sim fuel : forall ch i s a x l, reached s (<[x := val l]> a) -> own_str s x l ->
  exists b, lacking b (zlen l) /\ agree x a (hword_loop d high fuel x ch (i, s)) (word_loop (at_len b) high fuel ch (IST i l)).
Proof.
  induction fuel as [|f IH]; intros ch i s a x l H Ho; cbn [hword_loop word_loop].
  { exists None. split; [apply no_lack|exact I]. }
  destruct ch as [c|]; [|exists None; split; [apply no_lack|reflexivity]].
  apply (put_char_sim x a i s l c _ (fun full => let* ch := extract true (Some c) in let* i := get_is in if is_fail i || is_bad i then ret ch else
    let* sp := isspace high ch in if (sp : bool) then ret ch else word_loop full high f ch) H Ho).
  intros s1 H1 O1. destruct (extract_both true (Some c) i) as (ch & i' & E1 & E2).
  destruct (is_fail i' || is_bad i') eqn:F.
  { exists None. split; [apply no_lack|]. rewrite (bind_ok _ _ _ _ _ (E1 s1)), (bind_ok _ _ _ _ _ (E2 _)), (bind_ok _ _ _ _ _ (get_both i' s1)), (bind_ok _ _ _ _ _ (get_is_ok i' _)), F.
    apply agree_ok, H1. }
  destruct (isspace_both ch i') as [(sp & I1 & I2)|(u & I1 & I2)].
  - destruct (IH ch i' s1 a x (l ++ [c]) H1 O1) as (b & Hb & Ag). exists b. split; [exact Hb|].
    rewrite (bind_ok _ _ _ _ _ (E1 s1)), (bind_ok _ _ _ _ _ (E2 _)), (bind_ok _ _ _ _ _ (get_both i' s1)), (bind_ok _ _ _ _ _ (get_is_ok i' _)), F.
    rewrite (bind_ok _ _ _ _ _ (I1 s1)), (bind_ok _ _ _ _ _ (I2 _)). destruct sp; [apply agree_ok, H1|exact Ag].
  - exists None. split; [apply no_lack|].
    rewrite (bind_ok _ _ _ _ _ (E1 s1)), (bind_ok _ _ _ _ _ (E2 _)), (bind_ok _ _ _ _ _ (get_both i' s1)), (bind_ok _ _ _ _ _ (get_is_ok i' _)), F.
    rewrite (bind_undef _ _ _ _ (I1 s1)), (bind_undef _ _ _ _ (I2 _)). reflexivity.
Qed.
Lemma line_loop_sim fuel : forall ch i s a x l, reached s (<[x := val l]> a) -> own_str s x l ->
  exists b, lacking b (zlen l) /\ agree x a (hline_loop d fuel x ch (i, s)) (line_loop (at_len b) fuel ch (IST i l)).
Proof.
  induction fuel as [|f IH]; intros ch0 i s a x l H Ho; cbn [hline_loop line_loop]; destruct (extract_both true ch0 i) as (ch & i' & E1 & E2).
  - exists None. split; [apply no_lack|]. rewrite (bind_ok _ _ _ _ _ (E1 s)), (bind_ok _ _ _ _ _ (E2 _)), (bind_ok _ _ _ _ _ (get_both i' s)), (bind_ok _ _ _ _ _ (get_is_ok i' _)).
    destruct (is_fail i' || is_bad i'); [apply agree_ok, H|]. destruct ch as [c|]; [|reflexivity]. destruct (c =? 10); [apply agree_ok, H|exact I].
  - assert (forall b, (hline_loop d (S f) x ch0 (i, s), line_loop (at_len b) (S f) ch0 (IST i l)) =
      ((if is_fail i' || is_bad i' then ret tt else match ch with None => undef UbIndet | Some c => if c =? 10 then ret tt else put_char d x ch ;;; hline_loop d f x ch end) (i', s),
       (if is_fail i' || is_bad i' then ret tt else match ch with None => undef UbIndet | Some c => if c =? 10 then ret tt else append_char (at_len b) ch ;;; line_loop (at_len b) f ch end) (IST i' l))) as Eq.
    { intros b. cbn [hline_loop line_loop]. rewrite (bind_ok _ _ _ _ _ (E1 s)), (bind_ok _ _ _ _ _ (E2 _)), (bind_ok _ _ _ _ _ (get_both i' s)), (bind_ok _ _ _ _ _ (get_is_ok i' _)). reflexivity. }
    enough (exists b, lacking b (zlen l) /\ agree x a
      ((if is_fail i' || is_bad i' then ret tt else match ch with None => undef UbIndet | Some c => if c =? 10 then ret tt else put_char d x ch ;;; hline_loop d f x ch end) (i', s))
      ((if is_fail i' || is_bad i' then ret tt else match ch with None => undef UbIndet | Some c => if c =? 10 then ret tt else append_char (at_len b) ch ;;; line_loop (at_len b) f ch end) (IST i' l))) as (b & Hb & Ag).
    { exists b. split; [exact Hb|]. specialize (Eq b). cbn [hline_loop line_loop] in Eq. injection Eq as -> ->. exact Ag. }
    destruct (is_fail i' || is_bad i'); [exists None; split; [apply no_lack|apply agree_ok, H]|]. destruct ch as [c|]; [|exists None; split; [apply no_lack|reflexivity]].
    destruct (c =? 10); [exists None; split; [apply no_lack|apply agree_ok, H]|].
    apply (put_char_sim x a i' s l c _ (fun full => line_loop full f (Some c)) H Ho). intros s1 H1 O1. apply IH; assumption.
Qed.
(** The two functions: either the first allocation fails, or all is as on contents. *)
Definition refused {A} (r : res (istream * state Z) A) i a : Prop := exists s', r = Exn BadAlloc (i, s') /\ reached s' a /\ no_memory d 2.
Lemma word_sim i s a x t vx : reached s a -> a !! x = Some vx -> a !! t = None ->
  refused (hread_word d high x t (i, s)) i a \/
  exists b, lacking b 0 /\ forall old, agree x a (hread_word d high x t (i, s)) (read_word (at_len b) high (IST i old)).
Proof.
  intros H Hx Ht. unfold hread_word, read_word. destruct (make_empty_cases i s a x t vx H Hx Ht) as [(s1 & E & H1)|(s1 & E & H1 & Hm)].
  2: { left. exists s1. rewrite (bind_exn _ _ _ _ _ E). auto. }
  right. destruct (extract_both false None i) as (ch & i' & E1 & E2).
  destruct (word_loop_sim (S (length (is_data i'))) ch i' s1 a x [] H1 (or_introl eq_refl)) as (b & Hb & Ag). exists b. split; [exact Hb|]. intros old.
  rewrite (bind_ok _ _ _ _ _ E). rewrite (bind_ok (set_str []) _ (IST i old) tt (IST i []) eq_refl).
  rewrite (bind_ok _ _ _ _ _ (E1 s1)), (bind_ok _ _ _ _ _ (E2 _)), (bind_ok _ _ _ _ _ (get_both i' s1)), (bind_ok _ _ _ _ _ (get_is_ok i' _)).
  destruct (is_fail i' || is_bad i'); [apply agree_ok, H1|]. unfold agree in Ag.
  destruct (hword_loop d high _ x ch (i', s1)) as [c p|e p| | |u] eqn:L; destruct (word_loop _ high _ ch _) as [c' q|e' q| | |u'] eqn:L'; try contradiction.
  - destruct Ag as (<- & P & H2). rewrite (bind_ok _ _ _ _ _ L), (bind_ok _ _ _ _ _ L'). destruct p as [i2 s2], q as [i3 l2]. cbn in P, H2. subst i3.
    destruct (isspace_both c i2) as [(sp & I1 & I2)|(u & I1 & I2)].
    + rewrite (bind_ok _ _ _ _ _ (I1 s2)), (bind_ok _ _ _ _ _ (I2 _)). destruct sp; [|apply agree_ok, H2]. destruct c as [c|]; [|apply agree_ok, H2].
      destruct (putback_both c i2) as (i4 & P1 & P2). rewrite P1, P2. cbn. auto.
    + rewrite (bind_undef _ _ _ _ (I1 s2)), (bind_undef _ _ _ _ (I2 _)). reflexivity.
  - rewrite (bind_exn _ _ _ _ _ L), (bind_exn _ _ _ _ _ L'). exact Ag.
  - unfold bind. rewrite L, L'. exact I.
  - unfold bind. rewrite L, L'. exact I.
  - rewrite (bind_undef _ _ _ _ L), (bind_undef _ _ _ _ L'). exact Ag.
Qed.
Lemma line_sim i s a x t vx : reached s a -> a !! x = Some vx -> a !! t = None ->
  refused (hread_line d x t (i, s)) i a \/
  exists b, lacking b 0 /\ forall old, agree x a (hread_line d x t (i, s)) (read_line (at_len b) (IST i old)).
Proof.
  intros H Hx Ht. unfold hread_line, read_line. destruct (make_empty_cases i s a x t vx H Hx Ht) as [(s1 & E & H1)|(s1 & E & H1 & Hm)].
  2: { left. exists s1. rewrite (bind_exn _ _ _ _ _ E). auto. }
  right. destruct (line_loop_sim (length (is_data i)) (Some 0) i s1 a x [] H1 (or_introl eq_refl)) as (b & Hb & Ag). exists b. split; [exact Hb|]. intros old.
  rewrite (bind_ok _ _ _ _ _ E). rewrite (bind_ok (set_str []) _ (IST i old) tt (IST i []) eq_refl).
  rewrite (bind_ok _ _ _ _ _ (get_both i s1)), (bind_ok _ _ _ _ _ (get_is_ok i _)). exact Ag.
Qed.

(** One word, one line. *)
Lemma now_of s a : reached s a -> now d s a.
Proof. intros H. split; [exact H|apply (reached_shows d s a Hwf H)]. Qed.
Lemma refused_delivers m i s a x w i' left : refused (m (i, s)) i a -> delivers d m i s a x w i' left.
Proof.
  intros (s' & E & H & Hm). unfold delivers. rewrite E. split; [reflexivity|]. split; [|left; split; [reflexivity|apply now_of, H]].
  apply (no_memory_mono d 2); [exact Hm|]. pose proof (zlen_nonneg w). lia.
Qed.
Lemma split_at {A} (l : list A) j : 0 <= j < zlen l -> exists l1 c l2, l = l1 ++ c :: l2 /\ zlen l1 = j.
Proof.
  intros Hj. destruct (zdrop j l) as [|c l2] eqn:E.
  - exfalso. pose proof (zlen_zdrop j l). rewrite E, zlen_nil in H. lia.
  - exists (ztake j l), c, l2. split; [rewrite <- E, ztake_zdrop; reflexivity|]. rewrite zlen_ztake. lia.
Qed.
Lemma agree_delivers m i s a x w i' left b (q : (Z -> bool) -> res ist unit) : lacking b 0 -> agree x a (m (i, s)) (q (at_len b)) ->
  (forall full, (forall k, 0 <= k < zlen w -> full k = false) -> q full = Ok tt (IST i' w)) ->
  (forall full w1 c w2, w = w1 ++ c :: w2 -> (forall k, 0 <= k < zlen w1 -> full k = false) -> full (zlen w1) = true -> q full = Exn BadAlloc (IST (left w2) w1)) ->
  delivers d m i s a x w i' left.
Proof.
  intros Hb Ag Q1 Q2. unfold delivers. assert ((exists j, b = Some j /\ j < zlen w) \/ forall k, 0 <= k < zlen w -> at_len b k = false) as [(j & -> & Hj)|F].
  { destruct b as [j|]; [|right; reflexivity]. destruct (Z.ltb_spec j (zlen w)); [left; eauto|right]. intros k Hk. cbn. lia. }
  - destruct (Hb j eq_refl) as [H0 Hm]. destruct (split_at w j) as (w1 & c & w2 & Hw & Hl); [lia|]. unfold agree in Ag. rewrite (Q2 _ w1 c w2 Hw) in Ag.
    + destruct (m (i, s)) as [? ?|e [i2 s2]| | |]; try contradiction. cbn in Ag. destruct Ag as (-> & -> & H). split; [reflexivity|].
      split; [apply (no_memory_mono d (j + 3)); [exact Hm|lia]|]. right. exists w1, c, w2. split; [exact Hw|]. split; [reflexivity|apply now_of, H].
    + intros k Hk. cbn. lia.
    + cbn. lia.
  - unfold agree in Ag. rewrite (Q1 _ F) in Ag. destruct (m (i, s)) as [? [i2 s2]|? ?| | |]; try contradiction. cbn in Ag. destruct Ag as (_ & -> & H).
    split; [reflexivity|apply now_of, H].
Qed.
Lemma word_first_oom full text blanks word rest old : word_first text blanks word rest -> usable high word -> forall w1 c w2, word = w1 ++ c :: w2 ->
  (forall k, 0 <= k < zlen w1 -> full k = false) -> full (zlen w1) = true ->
  read_word full high (IST (IsProof.fresh text) old) = Exn BadAlloc (IST (IsProof.fresh (w2 ++ rest)) w1).
Proof.
  intros (-> & Hb & Hw & _ & _) U w1 c w2 -> F F1. destruct w1 as [|b w1].
  - cbn [app]. inversion Hw as [|? ? Nc _ Q]; subst. unfold read_word, bind, set_str, get_is. cbn [i_is]. rewrite (first_char blanks c (w2 ++ rest) [] Hb Nc).
    cbn [i_is IsProof.fresh is_fail is_bad orb is_data word_loop]. unfold bind, append_char. cbn [i_str]. rewrite F1. reflexivity.
  - rewrite <- app_assoc. cbn [app]. rewrite zlen_cons in F, F1. apply read_word_oom; [exact Hb| | | |].
    + apply List.Forall_forall. intros y Hy. rewrite List.Forall_forall in Hw. apply Hw. rewrite !in_app_iff in *. cbn in *. rewrite in_app_iff in Hy. cbn in Hy. tauto.
    + intros y Hy. apply U. rewrite !in_app_iff in *. cbn in *. rewrite in_app_iff in Hy. cbn in Hy. tauto.
    + intros k Hk. apply F. lia.
    + rewrite <- F1. f_equal. lia.
Qed.
Lemma word_delivers s a x t vx text blanks word rest : reached s a -> a !! x = Some vx -> a !! t = None ->
  word_first text blanks word rest -> usable high word ->
  delivers d (hread_word d high x t) (IsProof.fresh text) s a x word (match rest with [] => ended [] | _ => IsProof.fresh rest end) (fun w2 => IsProof.fresh (w2 ++ rest)).
Proof.
  intros H Hx Ht Hw U. destruct (word_sim (IsProof.fresh text) s a x t vx H Hx Ht) as [R|(b & Hb & Ag)]; [apply refused_delivers, R|].
  eapply agree_delivers with (q := fun full => read_word full high (IST (IsProof.fresh text) [])); [exact Hb|apply Ag| |].
  - intros full F. eapply read_word_ok; eassumption.
  - intros full w1 c w2 E F F1. eapply word_first_oom; eassumption.
Qed.
Lemma line_delivers s a x t vx line rest : reached s a -> a !! x = Some vx -> a !! t = None -> ~ In 10 line ->
  delivers d (hread_line d x t) (IsProof.fresh (line ++ 10 :: rest)) s a x line (IsProof.fresh rest) (fun w2 => IsProof.fresh (w2 ++ 10 :: rest)).
Proof.
  intros H Hx Ht N. destruct (line_sim (IsProof.fresh (line ++ 10 :: rest)) s a x t vx H Hx Ht) as [R|(b & Hb & Ag)]; [apply refused_delivers, R|].
  eapply agree_delivers with (q := fun full => read_line full (IST (IsProof.fresh (line ++ 10 :: rest)) [])); [exact Hb|apply Ag| |].
  - intros full F. apply read_line_ok; assumption.
  - intros full w1 c w2 -> F F1. rewrite <- app_assoc. cbn [app]. rewrite in_app_iff in N. cbn in N. apply read_line_oom; [tauto|intros ->; tauto|exact F|exact F1].
Qed.
Lemma last_line_delivers s a x t vx line : reached s a -> a !! x = Some vx -> a !! t = None -> ~ In 10 line ->
  delivers d (hread_line d x t) (IsProof.fresh line) s a x line (ended []) IsProof.fresh.
Proof.
  intros H Hx Ht N. destruct (line_sim (IsProof.fresh line) s a x t vx H Hx Ht) as [R|(b & Hb & Ag)]; [apply refused_delivers, R|].
  eapply agree_delivers with (q := fun full => read_line full (IST (IsProof.fresh line) [])); [exact Hb|apply Ag| |].
  - intros full F. apply read_line_last; assumption.
  - intros full w1 c w2 -> F F1. rewrite in_app_iff in N. cbn in N. apply read_line_oom; [tauto|intros ->; tauto|exact F|exact F1].
Qed.
Lemma empty_delivers m i s a x i' left (q : (Z -> bool) -> res ist unit) :
  (refused (m (i, s)) i a \/ exists b, lacking b 0 /\ agree x a (m (i, s)) (q (at_len b))) -> (forall full, q full = Ok tt (IST i' [])) ->
  delivers d m i s a x [] i' left.
Proof.
  intros [R|(b & Hb & Ag)] Q; [apply refused_delivers, R|]. eapply agree_delivers; [exact Hb|exact Ag|intros; apply Q|].
  intros full [|? ?] c w2 E; discriminate E.
Qed.
Lemma none_delivers s a x t vx blanks left : reached s a -> a !! x = Some vx -> a !! t = None -> Forall space blanks ->
  delivers d (hread_word d high x t) (IsProof.fresh blanks) s a x [] (ended []) left.
Proof.
  intros H Hx Ht B. apply empty_delivers with (q := fun full => read_word full high (IST (IsProof.fresh blanks) [])).
  - destruct (word_sim (IsProof.fresh blanks) s a x t vx H Hx Ht) as [R|(b & Hb & Ag)]; [left; exact R|right; exists b; auto].
  - intros full. apply read_word_none, B.
Qed.
Lemma bad_delivers s a x t vx i left : reached s a -> a !! x = Some vx -> a !! t = None -> is_good i = false ->
  delivers d (hread_word d high x t) i s a x [] (setstate false true i) left /\ delivers d (hread_line d x t) i s a x [] (setstate false true i) left.
Proof.
  intros H Hx Ht B. split.
  - apply empty_delivers with (q := fun full => read_word full high (IST i [])); [|intros full; apply read_word_bad, B].
    destruct (word_sim i s a x t vx H Hx Ht) as [R|(b & Hb & Ag)]; [left; exact R|right; exists b; auto].
  - apply empty_delivers with (q := fun full => read_line full (IST i [])); [|intros full; apply read_line_bad, B].
    destruct (line_sim i s a x t vx H Hx Ht) as [R|(b & Hb & Ag)]; [left; exact R|right; exists b; auto].
Qed.

(** Reading everything in a loop. *)
Definition failed i : bool := is_fail i || is_bad i.
Definition always (rd : M (istream * state Z) unit) i x t w i' : Prop := forall s a, reached s a -> is_Some (a !! x) -> a !! t = None -> exists left, delivers d rd i s a x w i' left.
Inductive feed (rd : M (istream * state Z) unit) (x t : positive) : istream -> list (list Z) -> list Z -> istream -> Prop :=
| feed_end i w i' : always rd i x t w i' -> failed i' = true -> feed rd x t i [] w i'
| feed_more i w i1 ws last i' : always rd i x t w i1 -> failed i1 = false -> feed rd x t i1 ws last i' -> feed rd x t i (w :: ws) last i'.

Section Collect.
Variables (gf : nat -> bool) (el : nat -> positive).
Hypothesis el_inj : forall (m n : nat), el m = el n -> m = n.
Lemma elems_insert ps v y b : forall k, (forall n : nat, (k <= n)%nat -> el n <> y) -> with_elems el true k ps (<[y := v]> b) = <[y := v]> (with_elems el true k ps b).
Proof.
  induction ps as [|p ps IH]; intros k H; cbn [with_elems]; [reflexivity|]. rewrite (IH (S k)) by (intros i Hi; apply H; lia).
  apply insert_commute. apply H. lia.
Qed.
Lemma collect_feed rd x t i ws last i' : feed rd x t i ws last i' -> forall fuel k s a,
  reached s a -> is_Some (a !! x) -> a !! t = None -> (length ws <= fuel)%nat -> (forall j, (k <= j)%nat -> a !! el j = None) -> (forall j, el j <> t) ->
  match hcollect d gf el fuel rd x k (i, s) with
  | Ok n (j, s') => n = (k + length ws)%nat /\ j = i' /\ reached s' (with_elems el true k ws (<[x := val last]> a))
  | Exn e (_, s') => e = BadAlloc /\ ((exists k, gf k = true) \/ exists w, In w (ws ++ [last]) /\ no_memory d (zlen w + 2)) /\
      exists n v, (n <= length ws)%nat /\ reached s' (with_elems el true k (firstn n ws) (<[x := v]> a))
  | Term | Fuel | Undef _ => False
  end.
Proof.
  induction 1 as [i w i' Hd F|i w i1 ws last i' Hd F Hf IH]; intros fuel k s a H Hx Ht Hfu Hel Het.
  - destruct (Hd s a H Hx Ht) as (left & D). unfold delivers in D. destruct fuel; cbn [hcollect];
    (destruct (rd (i, s)) as [[] [j s1]|e [j s1]| | |] eqn:E; try contradiction).
    1,3: destruct D as (-> & H1 & _); rewrite (bind_ok _ _ _ _ _ E), (bind_ok _ _ _ _ _ (get_both i' s1)); unfold failed in F; rewrite F; cbn; split; [lia|]; split; [reflexivity|exact H1].
    all: destruct D as (-> & Hm & D); rewrite (bind_exn _ _ _ _ _ E); split; [reflexivity|]; (split; [right; exists w; split; [left; reflexivity|exact Hm]|]);
      exists 0%nat; cbn [firstn with_elems]; destruct D as [(_ & H1 & _)|(w1 & c & w2 & _ & _ & H1 & _)];
      [destruct Hx as (vx & Hx); exists vx; split; [lia|rewrite insert_id by exact Hx; exact H1]|eexists; split; [lia|exact H1]].
  - destruct (Hd s a H Hx Ht) as (left & D). unfold delivers in D. destruct fuel as [|fuel]; [cbn in Hfu; lia|]. cbn [hcollect].
    destruct (rd (i, s)) as [[] [j s1]|e [j s1]| | |] eqn:E; try contradiction.
    + destruct D as (-> & H1 & _). rewrite (bind_ok _ _ _ _ _ E), (bind_ok _ _ _ _ _ (get_both i1 s1)). unfold failed in F. rewrite F.
      unfold on_heap at 1, push_elem. unfold bind at 1. cbn [fst snd]. destruct (gf k) eqn:G.
      { split; [reflexivity|]. split; [left; eauto|]. exists 0%nat, (val w). split; [lia|exact H1]. }
      assert (x <> el k) as Nk by (intros ->; rewrite Hel in Hx by lia; destruct Hx; discriminate).
      destruct (call_ok d Hwf (CtorCopy (el k) x) s1 _ _ _ H1 (copy_step d _ (el k) x true _ (lookup_insert _ _ _) (eq_trans (lookup_insert_ne _ _ _ _ Nk) (Hel k (le_n k)))) eq_refl) as (s2 & E2 & H2).
      rewrite E2. cbn [fst]. specialize (IH fuel (S k) s2 _ H2).
      assert (forall v, <[x := v]> (<[el k := val w]> (<[x := val w]> a)) = <[el k := val w]> (<[x := v]> a)) as Cm.
      { intros v. rewrite insert_commute, insert_insert by congruence. reflexivity. }
      assert (forall v ps, with_elems el true (S k) ps (<[x := v]> (<[el k := val w]> (<[x := val w]> a))) = with_elems el true k (w :: ps) (<[x := v]> a)) as We.
      { intros v ps. rewrite Cm. cbn [with_elems]. apply elems_insert. intros i0 Hi Q. apply el_inj in Q. lia. }
      cbn in Hfu. specialize (IH ltac:(rewrite lookup_insert_ne, lookup_insert by congruence; eauto)). 
      specialize (IH ltac:(rewrite !lookup_insert_ne; [exact Ht|intros ->; rewrite Ht in Hx; destruct Hx; discriminate|apply Het])). specialize (IH ltac:(lia)).
      assert (forall j, (S k <= j)%nat -> <[el k := val w]> (<[x := val w]> a) !! el j = None) as Hel'.
      { intros j Hj. rewrite lookup_insert_ne by (intros Q; apply el_inj in Q; lia). rewrite lookup_insert_ne; [apply Hel; lia|].
        intros ->. rewrite Hel in Hx by lia. destruct Hx; discriminate. }
      specialize (IH Hel' Het). destruct (hcollect d gf el fuel rd x (S k) (i1, s2)) as [n [j s3]|e [j s3]| | |]; try contradiction.
      * destruct IH as (-> & -> & H3). split; [cbn; lia|]. split; [reflexivity|]. rewrite We in H3. exact H3.
      * destruct IH as (-> & Y & n & v & Hn & H3). split; [reflexivity|]. split.
        { destruct Y as [Y|(w0 & I & Y)]; [left; exact Y|right; exists w0; split; [right; exact I|exact Y]]. }
        exists (S n), v. cbn [length firstn]. split; [lia|]. rewrite We in H3. exact H3.
    + destruct D as (-> & Hm & D). rewrite (bind_exn _ _ _ _ _ E). split; [reflexivity|]. split; [right; exists w; split; [left; reflexivity|exact Hm]|].
      exists 0%nat. cbn [firstn with_elems]. destruct D as [(_ & H1 & _)|(w1 & c & w2 & _ & _ & H1 & _)];
      [destruct Hx as (vx & Hx); exists vx; split; [lia|rewrite insert_id by exact Hx; exact H1]|eexists; split; [lia|exact H1]].
Qed.
Lemma feed_gathers rd x t i ws last i' s a fuel : feed rd x t i ws last i' -> reached s a -> is_Some (a !! x) -> a !! t = None -> (length ws <= fuel)%nat ->
  (forall j, a !! el j = None /\ ~ In (el j) [t]) -> gathers d gf el (hcollect d gf el fuel rd x 0) i s a x ws last i'.
Proof.
  intros Hf H Hx Ht Hfu Hel. pose proof (collect_feed rd x t i ws last i' Hf fuel 0%nat s a H Hx Ht Hfu (fun j _ => proj1 (Hel j))) as C.
  unfold gathers. assert (forall j, el j <> t) as Het by (intros j Q; apply (Hel j); left; congruence). specialize (C Het).
  destruct (hcollect d gf el fuel rd x 0 (i, s)) as [n [j s1]|e [j s1]| | |]; try contradiction.
  - destruct C as (-> & -> & H1). split; [reflexivity|]. split; [reflexivity|apply now_of, H1].
  - destruct C as (-> & Y & n & v & Hn & H1). split; [reflexivity|]. split; [exact Y|]. exists n, v. split; [exact Hn|apply now_of, H1].
Qed.
End Collect.
Lemma words_feed x t ws : forall first tail, words_ok first ws -> Forall space tail -> tail <> [] -> Forall (fun w => usable high (snd w)) ws ->
  feed (hread_word d high x t) x t (IsProof.fresh (words_text ws ++ tail)) (map snd ws) [] (ended []).
Proof.
  induction ws as [|[bl w] ws IH]; intros first tail W T Tn U; cbn [words_text app map snd].
  - apply feed_end; [|reflexivity]. intros s a H (vx & Hx) Ht. exists IsProof.fresh. eapply none_delivers; eassumption.
  - destruct W as (B & _ & Nw & Ne & W). inversion U as [|? ? U1 U2 Q]; subst. cbn [snd] in U1. rewrite <- !app_assoc.
    assert (exists c r, words_text ws ++ tail = c :: r /\ space c) as (c & r & Er & Sc).
    { destruct ws as [|[b2 w2] ws].
      - destruct tail as [|c r]; [contradiction|]. exists c, r. split; [reflexivity|]. inversion T; assumption.
      - destruct W as (B2 & N2 & _). destruct b2 as [|c r]; [destruct (N2 eq_refl eq_refl)|]. cbn [words_text app]. eexists _, _.
        split; [reflexivity|]. inversion B2; assumption. }
    apply feed_more with (i1 := IsProof.fresh (words_text ws ++ tail)); [|reflexivity|eapply IH; eassumption].
    intros s a H (vx & Hx) Ht. pose proof (word_delivers s a x t vx (bl ++ w ++ words_text ws ++ tail) bl w (words_text ws ++ tail) H Hx Ht) as D. rewrite Er in D |- *. eexists. apply D; [|exact U1].
    split; [reflexivity|]. auto.
Qed.
Lemma words_last_feed x t bl w ws : forall first, words_ok first (ws ++ [(bl, w)]) -> Forall (fun w => usable high (snd w)) (ws ++ [(bl, w)]) ->
  feed (hread_word d high x t) x t (IsProof.fresh (words_text (ws ++ [(bl, w)]))) (map snd ws) w (ended []).
Proof.
  induction ws as [|[bl1 w1] ws IH]; intros first W U; cbn [words_text app map snd] in *.
  - destruct W as (B & _ & Nw & Ne & _). inversion U as [|? ? U1 U2 Q]; subst. apply feed_end; [|reflexivity]. intros s a H (vx & Hx) Ht.
    eexists. refine (word_delivers s a x t vx _ bl w [] H Hx Ht _ U1). split; [reflexivity|]. auto.
  - destruct W as (B & _ & Nw & Ne & W). inversion U as [|? ? U1 U2 Q]; subst. cbn [snd] in U1.
    assert (exists c r, words_text (ws ++ [(bl, w)]) = c :: r /\ space c) as (c & r & Er & Sc).
    { destruct ws as [|[b2 w2] ws]; cbn [app words_text] in *; destruct W as (B2 & N2 & _);
      (match goal with N : false = false -> ?b <> [] |- _ => destruct b as [|c r]; [destruct (N eq_refl eq_refl)|] end);
      cbn [app]; eexists _, _; (split; [reflexivity|]); inversion B2; assumption. }
    apply feed_more with (i1 := IsProof.fresh (words_text (ws ++ [(bl, w)]))); [|reflexivity|eapply IH; eassumption].
    intros s a H (vx & Hx) Ht. pose proof (word_delivers s a x t vx (bl1 ++ w1 ++ words_text (ws ++ [(bl, w)])) bl1 w1 (words_text (ws ++ [(bl, w)])) H Hx Ht) as D. rewrite Er in D |- *. eexists. apply D; [|exact U1].
    split; [reflexivity|]. auto.
Qed.
Lemma lines_feed x t ls tail : Forall (fun l => ~ In 10 l) ls -> ~ In 10 tail -> feed (hread_line d x t) x t (IsProof.fresh (lines_text ls ++ tail)) ls tail (ended []).
Proof.
  intros N T. induction N as [|l ls N _ IH]; cbn [lines_text app].
  - apply feed_end; [|reflexivity]. intros s a H (vx & Hx) Ht. eexists. eapply last_line_delivers; eassumption.
  - rewrite <- app_assoc. cbn [app]. apply feed_more with (i1 := IsProof.fresh (lines_text ls ++ tail)); [|reflexivity|exact IH]. intros s a H (vx & Hx) Ht. eexists. eapply line_delivers; eassumption.
Qed.
End Proof.
