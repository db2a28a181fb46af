(** split, join, sub, newsplit, repetition and printf meet their specifications. *)
From Coq Require Import Lia.
From Verif Require Import Base RcaSpec StrModel StrSpec StrCmp StrFind.
Open Scope Z_scope.

Lemma spaces_skip l : 0 <= spaces l <= zlen l /\ zdrop (spaces l) l = skip_spaces l.
Proof.
  induction l as [|c l [IH1 IH2]]; [split; [cbn; rewrite zlen_nil; lia|reflexivity]|]. rewrite zlen_cons. zl.
  cbn [skip_spaces]. destruct (Z.eqb_spec c 32) as [->|N].
  - cbn [spaces]. split; [lia|]. rewrite zdrop_cons by lia. rewrite Z.add_simpl_l. exact IH2.
  - replace (spaces (c :: l)) with 0; [split; [lia|apply zdrop_0; lia]|].
    cbn [spaces]. destruct c as [|p|p]; try reflexivity.
    do 6 (destruct p as [p|p|]; try reflexivity). contradiction.
Qed.
Lemma zdrop_zdrop {A} (l : list A) n m : 0 <= n -> 0 <= m -> zdrop n (zdrop m l) = zdrop (m + n) l.
Proof. intros. unfold zdrop. rewrite drop_drop. f_equal. lia. Qed.
Lemma sp_slice_from s it len : 0 <= it < zlen s -> zlen s < W31 -> 0 <= len <= zlen s ->
  substr s it len tt = Ok (ztake len (zdrop it s)) tt.
Proof.
  intros H L Hl. unfold substr, sp_slice_ok, sp_slice, in_s64, sp_slice_start.
  replace (it <? 0) with false by lia.
  replace (_ && _ && _ && _ && _ && _) with true
    by (symmetry; repeat (apply andb_true_intro; split); unfold W31, W63 in *; try lia; apply orb_true_iff; left; apply orb_true_iff; left; lia).
  cbv zeta. replace (zlen s <=? it) with false by lia. replace (len =? -1) with false by lia. replace (len <? 0) with false by lia.
  unfold ret. f_equal.
  destruct (Z.le_ge_cases (it + len) (zlen s)).
  - rewrite Z.min_r by lia. f_equal. lia.
  - rewrite Z.min_l by lia. rewrite !ztake_all by (rewrite zlen_zdrop; lia). reflexivity.
Qed.
Lemma sp_slice_rest s it : 0 <= it < W63 -> zlen s < W31 -> substr s it (-1) tt = Ok (zdrop it s) tt.
Proof.
  intros H L. zl. unfold substr, sp_slice_ok, sp_slice, in_s64, sp_slice_start.
  replace (it <? 0) with false by lia.
  replace (_ && _ && _ && _ && _ && _) with true
    by (symmetry; repeat (apply andb_true_intro; split); unfold W31, W63 in *; try lia).
  cbv zeta. change (-1 =? -1) with true. cbv iota. unfold ret.
  destruct (Z.leb_spec (zlen s) it).
  - rewrite zdrop_all by lia. reflexivity.
  - rewrite ztake_all by (rewrite zlen_zdrop; lia). reflexivity.
Qed.
Lemma substr_head s n : 0 <= n <= zlen s -> zlen s < W31 -> substr s 0 n tt = Ok (ztake n s) tt.
Proof.
  intros H L. destruct s as [|c s].
  - assert (n = 0) as -> by (rewrite zlen_nil in H; lia). reflexivity.
  - rewrite sp_slice_from; [rewrite zdrop_0 by lia; reflexivity|rewrite zlen_cons in *; zl; lia|exact L|exact H].
Qed.

(** The delimiter is a single space. *)
Definition is_sp (delim : chars) : bool := match delim with [c] => c =? 32 | _ => false end.
Lemma is_sp_spec delim : is_sp delim = true <-> delim = [32].
Proof.
  destruct delim as [|c [|c' d]]; cbn; try (split; discriminate). rewrite Z.eqb_eq. split; [intros ->; reflexivity|]. congruence.
Qed.
(** Pieces cut so far and what is left. *)
Inductive cuts (sp : bool) (delim : chars) : Z -> chars -> list chars -> chars -> Prop :=
| cuts_stop k s : k <= 0 -> cuts sp delim k s [] s
| cuts_end k s : 0 < k -> skip sp s = [] -> cuts sp delim k s [] []
| cuts_last k s : 0 < k -> skip sp s <> [] -> no_occ delim (skip sp s) -> cuts sp delim k s [skip sp s] []
| cuts_cut k s a rest ps r :
    0 < k -> skip sp s = a ++ delim ++ rest -> first_occ delim (skip sp s) (zlen a) ->
    cuts sp delim (k - 1) rest ps r -> cuts sp delim k s (a :: ps) r.
Lemma zlen_skip sp s : zlen (skip sp s) <= zlen s.
Proof.
  destruct sp; cbn; [|lia]. destruct (spaces_skip s) as [H <-]. rewrite zlen_zdrop. lia.
Qed.
Lemma skip_nil sp : skip sp [] = [].
Proof. destruct sp; reflexivity. Qed.

Section S.
Variable mdiff : Z -> Z -> Z.
Hypothesis Hm : memcmp_ok mdiff.

Lemma is_space_delim_spec delim : bytes delim -> zlen delim < W63 -> is_space_delim mdiff delim tt = Ok (is_sp delim) tt.
Proof.
  intros B L. unfold is_space_delim. destruct (op_eq_spec mdiff Hm false delim [32]) as (r & E & Q);
    [exact B|constructor; [lia|constructor]|discriminate|exact L|reflexivity|].
  rewrite E. do 2 f_equal. destruct r, (is_sp delim) eqn:S; try reflexivity.
    + exfalso. rewrite (proj2 (is_sp_spec delim) (proj1 Q eq_refl)) in S. discriminate.
    + exfalso. apply is_sp_spec, Q in S. discriminate.
Qed.
Lemma first_occ_app w s i : first_occ w s i -> exists a rest, s = a ++ w ++ rest /\ zlen a = i.
Proof. intros [(a & rest & E & L) _]. eauto. Qed.

Lemma split_loop_spec s delim limit : bytes s -> bytes delim -> delim <> [] -> zlen s < W31 -> zlen delim < W31 ->
  forall fuel it arr, 0 <= it <= zlen s + zlen delim -> zlen arr <= it -> zlen arr <= zlen s ->
  (Z.to_nat (zlen s - it) < fuel)%nat ->
  exists it' ps, split_loop mdiff fuel s delim limit it arr tt = Ok (it', arr ++ ps) tt /\
    0 <= it' <= zlen s + zlen delim /\ (zlen s < it' -> zdrop it' s = []) /\ exists r, skip (is_sp delim) r = skip (is_sp delim) (zdrop it' s) /\
    cuts (is_sp delim) delim (u64 (limit - 1) - zlen arr) (zdrop it s) ps r.
Proof.
  intros Bs Bd Nd Ls Ld. assert (0 < zlen delim) as Pd.
  { destruct delim; [contradiction|]. rewrite zlen_cons. zl. lia. }
  induction fuel as [|f IH]; intros it arr Hit Ha1 Ha2 Hf; [lia|]. zl. cbn [split_loop].
  destruct (Z.ltb_spec (zlen arr) (u64 (limit - 1))) as [C|C]; cbn [negb].
  2:{ exists it, []. rewrite app_nil_r. split; [reflexivity|]. split; [exact Hit|]. split; [intros; apply zdrop_all; lia|].
      exists (zdrop it s). split; [reflexivity|]. apply cuts_stop. lia. }
  unfold bind at 1. rewrite is_space_delim_spec by (auto; unfold W31, W63 in *; lia). cbv zeta.
  set (it1 := if is_sp delim then it + spaces (zdrop it s) else it).
  destruct (spaces_skip (zdrop it s)) as [Sp1 Sp2]. rewrite zlen_zdrop in Sp1.
  assert (it <= it1 <= zlen s + zlen delim) as Hit1 by (subst it1; destruct (is_sp delim); lia).
  assert (zdrop it1 s = skip (is_sp delim) (zdrop it s)) as Dr.
  { subst it1. destruct (is_sp delim); cbn [skip]; [|reflexivity]. rewrite <- Sp2. rewrite zdrop_zdrop by lia. reflexivity. }
  destruct (Z.leb_spec (zlen s) it1) as [E|E].
  - exists it1, []. rewrite app_nil_r. split; [reflexivity|]. split; [lia|]. split; [intros; apply zdrop_all; lia|].
    exists []. split.
    + rewrite (zdrop_all it1) by lia. reflexivity.
    + apply cuts_end; [lia|]. rewrite <- Dr. apply zdrop_all. lia.
  - unfold bind at 1. rewrite find__spec by (auto; unfold W31, W63 in *; lia).
    pose proof (memmem_spec delim (zdrop it1 s)) as Mm. destruct (memmem (zdrop it1 s) delim) as [i|] eqn:Em; cbn [or_npos].
    + destruct Mm as [Oc Fi]. pose proof (occurs_range _ _ _ Oc) as R. rewrite zlen_zdrop in R.
      replace (i =? npos) with false by (unfold npos, W31 in *; lia).
      unfold bind at 1. rewrite sp_slice_from by lia.
      destruct Oc as (a & rest & Ea & La).
      assert (ztake i (zdrop it1 s) = a) as Et by (rewrite Ea, <- La; apply ztake_app_exact). rewrite Et.
      destruct (IH (it1 + (i + zlen delim)) (arr ++ [a])) as (it' & ps & R1 & R2 & R3 & r & R4 & R5);
        [lia|rewrite zlen_app, zlen_cons, zlen_nil; lia|rewrite zlen_app, zlen_cons, zlen_nil; lia|lia|].
      exists it', (a :: ps). rewrite <- app_assoc in R1. split; [exact R1|]. split; [exact R2|]. split; [exact R3|].
      exists r. split; [exact R4|].
      apply cuts_cut with (rest := rest); [lia|rewrite <- Dr; exact Ea|rewrite <- Dr; split; [exists a, rest; auto|rewrite La; exact Fi]|].
      assert (zdrop (it1 + (i + zlen delim)) s = rest) as Er.
      { rewrite <- zdrop_zdrop by lia. rewrite Ea. rewrite app_assoc. rewrite <- La, <- zlen_app. apply zdrop_app_exact. }
      rewrite Er in R5. rewrite zlen_app, zlen_cons, zlen_nil in R5.
      replace (u64 (limit - 1) - zlen arr - 1) with (u64 (limit - 1) - (zlen arr + (1 + 0))) by lia. exact R5.
    + change (npos =? npos) with true. cbv iota. unfold bind at 1. rewrite sp_slice_from by lia.
      rewrite ztake_all by (rewrite zlen_zdrop; lia).
      (* next round: nothing left *)
      destruct f as [|f']; [lia|].
      destruct (IH (it1 + (zlen s - it1 + zlen delim)) (arr ++ [zdrop it1 s])) as (it' & ps & R1 & R2 & R3 & r & R4 & R5);
        [lia|rewrite zlen_app, zlen_cons, zlen_nil; lia|rewrite zlen_app, zlen_cons, zlen_nil; lia|lia|].
      assert (ps = [] /\ skip (is_sp delim) r = []) as [-> Rn].
      { rewrite (zdrop_all (it1 + (zlen s - it1 + zlen delim))) in R5 by lia. inversion R5; subst.
        - split; [reflexivity|apply skip_nil].
        - split; [reflexivity|apply skip_nil].
        - exfalso. apply H0. apply skip_nil.
        - exfalso. rewrite skip_nil in H0. apply app_cons_not_nil with (x := a) (y := []) (a := 0).
          destruct a; [|discriminate]. destruct delim; [contradiction|discriminate]. }
      rewrite app_nil_r in R1. exists it', [zdrop it1 s]. split; [exact R1|]. split; [exact R2|]. split; [exact R3|].
      exists []. split; [rewrite skip_nil, <- R4; symmetry; exact Rn|].
      rewrite Dr. apply cuts_last; [lia| |rewrite <- Dr; exact Mm].
      rewrite <- Dr. intros X. apply (f_equal zlen) in X. rewrite zlen_zdrop, zlen_nil in X. lia.
Qed.

(** Cutting with room to spare gives all pieces; otherwise the rest follows as one more. *)
Lemma cuts_all sp delim k s ps r : delim <> [] -> cuts sp delim k s ps r -> zlen s < k -> pieces sp delim s ps.
Proof.
  intros Nd C. induction C as [k s Hk|k s Hk E|k s Hk E N|k s a rest ps r Hk E F C IH]; intros L; zl.
  - lia.
  - apply pieces_end; exact E.
  - apply pieces_last; assumption.
  - apply pieces_cut with (rest := rest); [exact E|exact F|]. apply IH.
    pose proof (zlen_skip sp s) as Q. rewrite E, !zlen_app in Q. zl.
    destruct delim; [contradiction|]. rewrite zlen_cons in Q. zl. lia.
Qed.
Lemma cuts_upto sp delim k s ps r : cuts sp delim k s ps r -> pieces_upto sp delim k s (ps ++ [skip sp r]).
Proof.
  intros C. induction C as [k s Hk|k s Hk E|k s Hk E N|k s a rest ps r Hk E F C IH]; cbn [app].
  - apply upto_stop; exact Hk.
  - rewrite skip_nil. apply upto_end; assumption.
  - rewrite skip_nil. apply upto_last; assumption.
  - apply upto_cut with (rest := rest); assumption.
Qed.
Lemma split_all s delim fuel : bytes s -> bytes delim -> delim <> [] -> zlen s < W31 -> zlen delim < W31 ->
  (length s < fuel)%nat ->
  exists ps, split mdiff fuel s delim npos tt = Ok ps tt /\ pieces (is_sp delim) delim s ps.
Proof.
  intros Bs Bd Nd Ls Ld Hf. unfold split. zl. destruct (Z.eqb_spec (zlen s) 0) as [E|E].
  - apply zlen_0_nil in E as ->. exists []. split; [reflexivity|]. apply pieces_end. apply skip_nil.
  - change (npos =? 1) with false. cbv iota.
    destruct (split_loop_spec s delim npos Bs Bd Nd Ls Ld fuel 0 []) as (it' & ps & R1 & _ & _ & r & _ & R5);
      [lia|rewrite zlen_nil; lia|rewrite zlen_nil; lia|unfold zlen; lia|].
    unfold bind at 1. rewrite R1. change (negb (npos =? npos)) with false. cbv iota. exists ps. split; [reflexivity|].
    rewrite zdrop_0 in R5 by lia. apply (cuts_all _ _ _ _ _ _ Nd R5). rewrite zlen_nil. unfold u64, npos, W64, W31 in *. cbn. lia.
Qed.
Lemma split_limit s delim limit fuel : bytes s -> bytes delim -> delim <> [] -> zlen s < W31 -> zlen delim < W31 ->
  (length s < fuel)%nat -> s <> [] -> 2 <= limit < npos ->
  exists ps, split mdiff fuel s delim limit tt = Ok ps tt /\ pieces_upto (is_sp delim) delim (limit - 1) s ps.
Proof.
  intros Bs Bd Nd Ls Ld Hf Ns Hl. unfold split. zl. destruct (Z.eqb_spec (zlen s) 0) as [E|E].
  { apply zlen_0_nil in E. contradiction. }
  destruct (Z.eqb_spec limit 1); [lia|].
  destruct (split_loop_spec s delim limit Bs Bd Nd Ls Ld fuel 0 []) as (it' & ps & R1 & R2 & R3 & r & R4 & R5);
    [lia|rewrite zlen_nil; lia|rewrite zlen_nil; lia|unfold zlen; lia|].
  unfold bind at 1. rewrite R1. destruct (Z.eqb_spec limit npos); [lia|]. cbn [negb app].
  unfold bind at 1. rewrite is_space_delim_spec by (auto; unfold W31, W63 in *; lia). cbv zeta.
  set (it1 := if is_sp delim then it' + spaces (zdrop it' s) else it').
  destruct (spaces_skip (zdrop it' s)) as [Sp1 Sp2]. rewrite zlen_zdrop in Sp1.
  assert (zdrop it1 s = skip (is_sp delim) (zdrop it' s)) as Dr.
  { subst it1. destruct (is_sp delim); cbn [skip]; [|reflexivity]. rewrite <- Sp2. rewrite zdrop_zdrop by lia. reflexivity. }
  unfold bind. rewrite sp_slice_rest; [|subst it1; destruct (is_sp delim); unfold W31, W63 in *; lia|exact Ls].
  rewrite Dr, <- R4. eexists; split; [reflexivity|].
  rewrite zdrop_0 in R5 by lia. rewrite zlen_nil, Z.sub_0_r, u64_id in R5 by (unfold npos, W64 in *; lia).
  apply cuts_upto. exact R5.
Qed.
(** A limit of zero is no limit, plus the rest. *)
Lemma split_limit0 s delim fuel : bytes s -> bytes delim -> delim <> [] -> zlen s < W31 -> zlen delim < W31 ->
  (length s < fuel)%nat -> s <> [] ->
  exists ps, split mdiff fuel s delim 0 tt = Ok ps tt /\ pieces_upto (is_sp delim) delim npos s ps.
Proof.
  intros Bs Bd Nd Ls Ld Hf Ns. unfold split. zl. destruct (Z.eqb_spec (zlen s) 0) as [E|E].
  { apply zlen_0_nil in E. contradiction. }
  change (0 =? 1) with false. cbv iota.
  destruct (split_loop_spec s delim 0 Bs Bd Nd Ls Ld fuel 0 []) as (it' & ps & R1 & R2 & R3 & r & R4 & R5);
    [lia|rewrite zlen_nil; lia|rewrite zlen_nil; lia|unfold zlen; lia|].
  unfold bind at 1. rewrite R1. change (negb (0 =? npos)) with true. cbn [app].
  unfold bind at 1. rewrite is_space_delim_spec by (auto; unfold W31, W63 in *; lia). cbv zeta.
  set (it1 := if is_sp delim then it' + spaces (zdrop it' s) else it').
  destruct (spaces_skip (zdrop it' s)) as [Sp1 Sp2]. rewrite zlen_zdrop in Sp1.
  assert (zdrop it1 s = skip (is_sp delim) (zdrop it' s)) as Dr.
  { subst it1. destruct (is_sp delim); cbn [skip]; [|reflexivity]. rewrite <- Sp2. rewrite zdrop_zdrop by lia. reflexivity. }
  unfold bind. rewrite sp_slice_rest; [|subst it1; destruct (is_sp delim); unfold W31, W63 in *; lia|exact Ls].
  rewrite Dr, <- R4. eexists; split; [reflexivity|].
  rewrite zdrop_0 in R5 by lia. rewrite zlen_nil, Z.sub_0_r in R5. change (u64 (0 - 1)) with npos in R5.
  apply cuts_upto. exact R5.
Qed.
Lemma split_one s delim fuel : s <> [] -> split mdiff fuel s delim 1 tt = Ok [s] tt.
Proof. intros N. unfold split. destruct (Z.eqb_spec (zlen s) 0) as [E|E]; [apply zlen_0_nil in E; contradiction|reflexivity]. Qed.
Lemma split_empty delim limit fuel : split mdiff fuel [] delim limit tt = Ok [] tt.
Proof. reflexivity. Qed.
(** An empty delimiter never advances. *)
Lemma split_loop_empty s : 0 < zlen s < W31 ->
  forall fuel arr, zlen arr + Z.of_nat fuel <= W63 -> split_loop mdiff fuel s [] npos 0 arr tt = Fuel.
Proof.
  intros H. induction fuel as [|f IH]; intros arr Ha; cbn [split_loop].
  - change (u64 (npos - 1)) with (W64 - 2). replace (zlen arr <? W64 - 2) with true by (unfold W63, W64 in *; lia). reflexivity.
  - change (u64 (npos - 1)) with (W64 - 2). replace (zlen arr <? W64 - 2) with true by (unfold W63, W64 in *; lia). cbn [negb].
    unfold bind at 1. change (is_space_delim mdiff [] tt) with (Ok (A := bool) false tt). cbv iota zeta.
    replace (zlen s <=? 0) with false by lia.
    unfold bind at 1. rewrite find_empty. change (0 =? npos) with false. cbv iota.
    unfold bind at 1. rewrite sp_slice_from by lia. apply IH. rewrite zlen_app, zlen_cons, zlen_nil. lia.
Qed.
Lemma split_empty_delim s fuel : 0 < zlen s < W31 -> Z.of_nat fuel <= W63 -> split mdiff fuel s [] npos tt = Fuel.
Proof.
  intros H F. unfold split. destruct (Z.eqb_spec (zlen s) 0); [lia|]. change (npos =? 1) with false. cbv iota.
  unfold bind. rewrite split_loop_empty; [reflexivity|exact H|rewrite zlen_nil; lia].
Qed.
End S.

(** The specification determines the pieces, and they have the expected shape. *)
Lemma app_inj_zlen (a b c d : chars) : a ++ b = c ++ d -> zlen a = zlen c -> a = c /\ b = d.
Proof. intros E L. apply app_inj_1; [apply Nat2Z.inj; exact L|exact E]. Qed.
Lemma first_occ_no w s i : first_occ w s i -> no_occ w s -> False.
Proof. intros [O _] N. exact (N _ O). Qed.
Lemma pieces_det sp delim s ps : delim <> [] -> pieces sp delim s ps -> forall qs, pieces sp delim s qs -> ps = qs.
Proof.
  intros Nd P. induction P as [s E|s E N|s a rest ps E F P IH]; intros qs Q.
  - inversion Q as [s' E' |s' E' N' |s' a' rest' qs' E' F' Q']; subst; [reflexivity|congruence|].
    exfalso. rewrite E in E'. destruct a'; [|discriminate]. destruct delim; [contradiction|discriminate].
  - inversion Q as [s' E' |s' E' N' |s' a' rest' qs' E' F' Q']; subst; [congruence|reflexivity|].
    exfalso. exact (first_occ_no _ _ _ F' N).
  - inversion Q as [s' E' |s' E' N' |s' a' rest' qs' E' F' Q']; subst.
    + exfalso. rewrite E' in E. destruct a; [|discriminate]. destruct delim; [contradiction|discriminate].
    + exfalso. exact (first_occ_no _ _ _ F N').
    + pose proof (first_occ_unique _ _ _ _ F F') as L. rewrite E in E'. apply app_inj_zlen in E' as [-> E']; [|exact L].
      apply app_inv_head in E' as ->. f_equal. apply IH. exact Q'.
Qed.
Lemma pieces_upto_det sp delim k s ps : delim <> [] -> pieces_upto sp delim k s ps -> forall qs, pieces_upto sp delim k s qs -> ps = qs.
Proof.
  intros Nd P. induction P as [k s Hk|k s Hk E|k s Hk E N|k s a rest ps Hk E F P IH]; intros qs Q;
    inversion Q as [k' s' Hk'|k' s' Hk' E' |k' s' Hk' E' N' |k' s' a' rest' qs' Hk' E' F' Q']; subst; try lia; try congruence.
  - exfalso. rewrite E in E'. destruct a'; [|discriminate]. destruct delim; [contradiction|discriminate].
  - exfalso. exact (first_occ_no _ _ _ F' N).
  - exfalso. rewrite E' in E. destruct a; [|discriminate]. destruct delim; [contradiction|discriminate].
  - exfalso. exact (first_occ_no _ _ _ F N').
  - pose proof (first_occ_unique _ _ _ _ F F') as L. rewrite E in E'. apply app_inj_zlen in E' as [-> E']; [|exact L].
    apply app_inv_head in E' as ->. f_equal. apply IH. exact Q'.
Qed.
Lemma no_occ_before delim a rest : first_occ delim (a ++ delim ++ rest) (zlen a) -> delim <> [] -> no_occ delim a.
Proof.
  intros [_ F] Nd j (p & q & -> & <-).
  assert (occurs delim ((p ++ delim ++ q) ++ delim ++ rest) (zlen p)) as O.
  { exists p, (q ++ delim ++ rest). split; [rewrite <- !app_assoc; reflexivity|reflexivity]. }
  specialize (F _ O). rewrite !zlen_app in F. zl. destruct delim; [contradiction|]. rewrite zlen_cons in F. zl. lia.
Qed.
Lemma pieces_free sp delim s ps : delim <> [] -> pieces sp delim s ps -> Forall (no_occ delim) ps.
Proof.
  intros Nd P. induction P as [s E|s E N|s a rest ps E F P IH]; [constructor|repeat constructor; exact N|].
  constructor; [|exact IH]. rewrite E in F. exact (no_occ_before _ _ _ F Nd).
Qed.
Lemma pieces_count sp delim s ps : delim <> [] -> pieces sp delim s ps -> zlen ps <= zlen s.
Proof.
  intros Nd P. induction P as [s E|s E N|s a rest ps E F P IH].
  - rewrite zlen_nil. zl. lia.
  - rewrite zlen_cons, zlen_nil. pose proof (zlen_skip sp s). assert (zlen (skip sp s) <> 0) by (intros X; apply zlen_0_nil in X; contradiction). zl. lia.
  - rewrite zlen_cons. pose proof (zlen_skip sp s) as Q. rewrite E, !zlen_app in Q. zl.
    destruct delim; [contradiction|]. rewrite zlen_cons in Q. zl. lia.
Qed.
Lemma pieces_upto_count sp delim k s ps : 0 <= k -> pieces_upto sp delim k s ps -> 1 <= zlen ps <= k + 1.
Proof.
  intros Hk P. induction P as [k s Hk'|k s Hk' E|k s Hk' E N|k s a rest ps Hk' E F P IH];
    repeat rewrite zlen_cons in *; repeat rewrite zlen_nil in *; try lia.
Qed.
Lemma skip_head s c s' : skip_spaces s = c :: s' -> c <> 32.
Proof.
  induction s as [|x s IH]; cbn; [discriminate|]. destruct (Z.eqb_spec x 32); [exact IH|]. intros E. injection E as -> _. exact n.
Qed.
(** Words: never empty. *)
Lemma pieces_words s ps : pieces true [32] s ps -> Forall (fun w => w <> [] /\ ~ In 32 w) ps.
Proof.
  assert (forall w, no_occ [32] w -> ~ In 32 w) as X.
  { intros w N I. apply in_split in I as (p & q & ->). exact (N (zlen p) (ex_intro _ p (ex_intro _ q (conj eq_refl eq_refl)))). }
  intros P. pose proof (pieces_free true [32] s ps ltac:(discriminate) P) as Fr.
  induction P as [s E|s E N|s a rest ps E F P IH].
  - constructor.
  - constructor; [|constructor]. split; [exact E|]. apply X. exact N.
  - inversion Fr as [|? ? F1 F2]; subst. constructor; [|exact (IH F2)]. split; [|apply X; exact F1].
    intros ->. cbn in E. apply skip_head in E. contradiction.
Qed.

(** split then join. *)
Lemma pieces_join delim s ps : pieces false delim s ps ->
  s = intercalate delim ps \/ (s = intercalate delim ps ++ delim /\ suffix_of delim s).
Proof.
  intros P. induction P as [s E|s E N|s a rest ps E F P IH]; cbn in E.
  - left. exact E.
  - left. reflexivity.
  - subst s. destruct ps as [|p ps].
    + right. assert (rest = []) as -> by (inversion P; auto). cbn. rewrite app_nil_r. split; [reflexivity|exists a; reflexivity].
    + change (intercalate delim (a :: p :: ps)) with (a ++ delim ++ intercalate delim (p :: ps)).
      destruct IH as [IH|[IH1 IH2]].
      * left. rewrite <- IH. reflexivity.
      * right. split; [rewrite IH1 at 1; rewrite <- !app_assoc; reflexivity|]. destruct IH2 as (r & E2).
        exists (a ++ delim ++ r). rewrite E2, <- !app_assoc. reflexivity.
Qed.
Lemma pieces_join_exact delim s ps : pieces false delim s ps -> ~ suffix_of delim s -> intercalate delim ps = s.
Proof. intros P N. destruct (pieces_join _ _ _ P) as [E|[_ S]]; [auto|contradiction]. Qed.
(** join then split. *)
Lemma first_occ_extend delim a rest : first_occ delim (a ++ delim) (zlen a) -> first_occ delim (a ++ delim ++ rest) (zlen a).
Proof.
  intros [O F]. split; [exists a, rest; auto|]. intros j Oj. destruct (Z.lt_ge_cases j (zlen a)) as [L|]; [|lia].
  destruct Oj as (p & q & E & Lp). apply F. exists p. rewrite app_assoc in E.
  assert (zlen (p ++ delim) <= zlen (a ++ delim)) as Q by (rewrite !zlen_app; lia).
  assert (ztake (zlen (a ++ delim)) ((a ++ delim) ++ rest) = ztake (zlen (a ++ delim)) (p ++ delim ++ q)) as T by (rewrite E; reflexivity).
  rewrite ztake_app_exact in T. rewrite app_assoc, ztake_app in T. rewrite ztake_all in T by exact Q.
  eexists; split; [rewrite T, <- app_assoc; reflexivity|exact Lp].
Qed.
Lemma join_pieces delim ps z : Forall (fun a => first_occ delim (a ++ delim) (zlen a)) ps -> z <> [] -> no_occ delim z ->
  pieces false delim (intercalate delim (ps ++ [z])) (ps ++ [z]).
Proof.
  intros F Nz Oz. induction F as [|a ps Fa F IH]; cbn [app].
  - apply pieces_last; cbn; assumption.
  - assert (intercalate delim (a :: ps ++ [z]) = a ++ delim ++ intercalate delim (ps ++ [z])) as ->
      by (destruct ps; reflexivity).
    apply pieces_cut with (rest := intercalate delim (ps ++ [z])); [reflexivity| |exact IH].
    cbn [skip]. apply first_occ_extend. exact Fa.
Qed.
Lemma single_clean d a : ~ In d a -> first_occ [d] (a ++ [d]) (zlen a).
Proof.
  intros N. split; [exists a, []; auto|]. intros j (p & q & E & <-). destruct (Z.lt_ge_cases (zlen p) (zlen a)) as [L|]; [|lia].
  exfalso. apply N. assert (znth (zlen p) (a ++ [d]) = Some d) as H.
  { rewrite E, znth_app. replace (_ <? _) with false by lia. rewrite Z.sub_diag. reflexivity. }
  rewrite znth_app in H. replace (zlen p <? zlen a) with true in H by lia. unfold znth in H.
  destruct (zlen p <? 0); [discriminate|]. exact (nth_error_In _ _ H).
Qed.
Lemma single_free d a : ~ In d a -> no_occ [d] a.
Proof. intros N j (p & q & -> & _). apply N. apply in_or_app. right. left. reflexivity. Qed.

(** join *)
Lemma u64_add_l x y : u64 (u64 x + y) = u64 (x + y).
Proof. unfold u64. rewrite Z.add_mod_idemp_l by discriminate. reflexivity. Qed.
Lemma fold_size arr : forall x, fold_left (fun sz e => u64 (sz + zlen e)) arr (u64 x) = u64 (x + total arr).
Proof.
  induction arr as [|e arr IH]; intros x; cbn; [f_equal; lia|]. rewrite u64_add_l, IH. f_equal. lia.
Qed.
Lemma join_size_eq arr delim (quoted : bool) :
  join_size arr delim quoted = u64 (zlen arr * zlen delim - 1 + (if quoted then zlen arr * 2 else 0) + total arr).
Proof.
  unfold join_size. cbv zeta.
  assert (u64 (u64 (zlen arr * zlen delim) - 1) = u64 (zlen arr * zlen delim - 1)) as ->
    by (unfold u64; rewrite Zminus_mod_idemp_l; reflexivity).
  destruct quoted; rewrite ?u64_add_l.
  - assert (u64 (zlen arr * zlen delim - 1 + u64 (zlen arr * 2)) = u64 (zlen arr * zlen delim - 1 + zlen arr * 2)) as ->
      by (unfold u64; rewrite Z.add_mod_idemp_r by discriminate; reflexivity).
    apply fold_size.
  - rewrite fold_size, Z.add_0_r. reflexivity.
Qed.
Definition dress (quoted : bool) (e : chars) : chars := if quoted then quote e else e.
Lemma join_loop_false arr delim quoted : forall str,
  join_loop false arr delim quoted str = str ++ concat (map (fun e => delim ++ dress quoted e) arr).
Proof.
  induction arr as [|e arr IH]; intros str; cbn; [rewrite app_nil_r; reflexivity|].
  rewrite IH. destruct quoted; cbn; rewrite <- !app_assoc; reflexivity.
Qed.
Lemma intercalate_concat delim e l : intercalate delim (e :: l) = e ++ concat (map (fun x => delim ++ x) l).
Proof.
  revert e. induction l as [|f l IH]; intros e; [cbn; rewrite app_nil_r; reflexivity|].
  change (intercalate delim (e :: f :: l)) with (e ++ delim ++ intercalate delim (f :: l)). rewrite IH. cbn. rewrite <- app_assoc. reflexivity.
Qed.
Lemma join_loop_eq arr delim quoted : join_loop true arr delim quoted [] = intercalate delim (map (dress quoted) arr).
Proof.
  destruct arr as [|e arr]; [reflexivity|]. cbn [map]. rewrite intercalate_concat. cbn [join_loop app].
  rewrite join_loop_false, map_map. destruct quoted; reflexivity.
Qed.
Lemma total_nonneg l : 0 <= total l.
Proof. induction l; cbn; zl; lia. Qed.
Lemma join_spec arr delim (quoted : bool) :
  (arr = [] \/ 0 < zlen arr * zlen delim + (if quoted then zlen arr * 2 else 0) + total arr <= W63) ->
  join arr delim quoted tt = Ok (intercalate delim (map (dress quoted) arr)) tt.
Proof.
  intros H. unfold join. destruct (Z.eqb_spec (zlen arr) 0) as [E|E].
  - apply zlen_0_nil in E as ->. reflexivity.
  - destruct H as [->|H]; [exfalso; apply E; reflexivity|]. rewrite join_size_eq, u64_id by (unfold W63, W64 in *; lia).
    replace (max_alloc <? _) with false by (unfold max_alloc, W63 in *; lia). rewrite join_loop_eq. reflexivity.
Qed.
Lemma join_all_empty arr : arr <> [] -> total arr = 0 -> join arr [] false tt = Exn BadAlloc tt.
Proof.
  intros N H. unfold join. destruct (Z.eqb_spec (zlen arr) 0) as [E|E]; [apply zlen_0_nil in E; contradiction|].
  rewrite join_size_eq, H, zlen_nil, Z.mul_0_r. reflexivity.
Qed.

(** sub *)
Lemma replaced_det search repl k s t : search <> [] -> replaced search repl k s t -> forall u, replaced search repl k s u -> t = u.
Proof.
  intros Ns R. induction R as [k s Hk|k s N|k s a rest t Hk E F R IH]; intros u U;
    inversion U as [k' s' Hk'|k' s' N' |k' s' a' rest' t' Hk' E' F' U']; subst; try reflexivity.
  - specialize (Hk' _ eq_refl). lia.
  - exfalso. exact (first_occ_no _ _ _ F' N).
  - specialize (Hk _ eq_refl). lia.
  - exfalso. exact (first_occ_no _ _ _ F N').
  - pose proof (first_occ_unique _ _ _ _ F F') as L. apply app_inj_zlen in E' as [-> E']; [|exact L].
    apply app_inv_head in E' as ->. do 2 f_equal. apply IH. exact U'.
Qed.
Definition budget (limit : Z) : option Z := if 0 <? limit then Some limit else None.
Lemma sub_loop_spec search repl limit : search <> [] -> - W31 <= limit < W31 ->
  forall fuel srch new cnt, (length srch < fuel)%nat -> 0 <= cnt -> cnt + zlen srch < W31 -> (0 < limit -> cnt < limit) ->
  exists t, sub_loop fuel search repl limit cnt new srch tt = Ok (new ++ t) tt /\
    replaced search repl (option_map (fun n => n - cnt) (budget limit)) srch t.
Proof.
  intros Ns Hl. assert (0 < zlen search) as Ps by (destruct search; [contradiction|]; rewrite zlen_cons; zl; lia).
  induction fuel as [|f IH]; intros srch new cnt Hf Hc Hb Hk; [lia|]. zl. cbn [sub_loop].
  unfold bind at 1. unfold find. rewrite find__spec by (auto; unfold W31, W63 in *; zl; lia). rewrite (zdrop_0 0) by lia.
  pose proof (memmem_spec search srch) as Mm. destruct (memmem srch search) as [i|] eqn:Em; cbn [or_npos].
  2:{ change (npos =? npos) with true. cbv iota. exists srch. split; [reflexivity|]. apply replaced_none. exact Mm. }
  pose proof Mm as [Oc Fi]. pose proof (occurs_range _ _ _ Oc) as R. destruct Oc as (a & rest & Ea & La).
  replace (i =? npos) with false by (unfold npos, W31 in *; lia).
  unfold bind at 1. rewrite substr_head by lia. cbv zeta.
  rewrite u64_id by (unfold W31, W64 in *; lia).
  assert (ztake i srch = a) as -> by (rewrite Ea, <- La; apply ztake_app_exact).
  assert (zdrop (i + zlen search) srch = rest) as ->.
  { rewrite Ea, app_assoc, <- La, <- zlen_app. apply zdrop_app_exact. }
  assert (zlen rest < zlen srch) as Lr by (rewrite Ea, !zlen_app; zl; lia).
  assert (first_occ search srch (zlen a)) as Fo by (rewrite La; exact Mm).
  assert (forall n, option_map (fun n => n - cnt) (budget limit) = Some n -> 0 < n) as Bp.
  { unfold budget. destruct (Z.ltb_spec 0 limit); cbn; [|discriminate]. intros n E. injection E as <-. specialize (Hk ltac:(lia)). lia. }
  destruct (Z.eqb_spec limit (-1)) as [E1|E1].
  - destruct (IH rest ((new ++ a) ++ repl) cnt) as (t & T1 & T2); [unfold zlen in *; lia|lia|lia|lia|].
    exists (a ++ repl ++ t). split; [rewrite T1, <- !app_assoc; reflexivity|].
    apply replaced_hit with (rest := rest); [exact Bp|exact Ea|exact Fo|]. subst limit. exact T2.
  - replace (fits_i32 (cnt + 1)) with true
      by (symmetry; unfold fits_i32, W31 in *; apply andb_true_intro; zl; lia). cbn [negb].
    destruct (Z.eqb_spec (cnt + 1) limit) as [E2|E2].
    + exists (a ++ repl ++ rest). rewrite <- !app_assoc. split; [reflexivity|].
      apply replaced_hit with (rest := rest); [exact Bp|exact Ea|exact Fo|].
      unfold budget. replace (0 <? limit) with true by lia. cbn. apply replaced_stop. lia.
    + destruct (IH rest ((new ++ a) ++ repl) (cnt + 1)) as (t & T1 & T2); [unfold zlen in *; lia|lia|lia|lia|].
      exists (a ++ repl ++ t). split; [rewrite T1, <- !app_assoc; reflexivity|].
      apply replaced_hit with (rest := rest); [exact Bp|exact Ea|exact Fo|].
      replace (option_map Z.pred (option_map (fun n => n - cnt) (budget limit))) with (option_map (fun n => n - (cnt + 1)) (budget limit)); [exact T2|].
      unfold budget. destruct (0 <? limit); cbn; [|reflexivity]. f_equal. lia.
Qed.
Lemma sub_spec s search repl limit fuel : search <> [] -> zlen s < W31 -> - W31 <= limit < W31 -> (length s < fuel)%nat ->
  exists t, sub fuel s search repl limit tt = Ok t tt /\ replaced search repl (budget limit) s t.
Proof.
  intros Ns Ls Hl Hf. unfold sub. destruct (sub_loop_spec search repl limit Ns Hl fuel s [] 0) as (t & T1 & T2); try lia.
  exists t. split; [exact T1|]. replace (budget limit) with (option_map (fun n => n - 0) (budget limit)); [exact T2|].
  destruct (budget limit); cbn; [f_equal; lia|reflexivity].
Qed.
Lemma sub_loop_empty srch repl : zlen srch < W31 -> forall fuel new cnt, sub_loop fuel [] repl (-1) cnt new srch tt = Fuel.
Proof.
  intros L. induction fuel as [|f IH]; intros new cnt; cbn [sub_loop]; unfold bind at 1; unfold find; rewrite find_empty;
    change (0 =? npos) with false; cbv iota; [reflexivity|].
  unfold bind at 1. zl. rewrite substr_head by lia. change (-1 =? -1) with true. cbv iota zeta.
  rewrite zlen_nil. change (u64 (0 + 0)) with 0. rewrite (zdrop_0 0) by lia. apply IH.
Qed.

(** newsplit *)
Lemma sp_index_memmem d s : sp_index (fun c => c =? d) s = memmem s [d].
Proof.
  induction s as [|c s IH]; [reflexivity|]. cbn. rewrite Z.eqb_sym, andb_true_r, IH. reflexivity.
Qed.
Lemma newsplit_found s d a rest : zlen s < W31 -> s = a ++ d :: rest -> ~ In d a ->
  newsplit s d tt = Ok (a, skip (d =? 32) rest) tt.
Proof.
  intros Ls -> Na. unfold newsplit. set (s := a ++ d :: rest) in *.
  assert (zlen s = zlen a + 1 + zlen rest) as L by (subst s; rewrite zlen_app, zlen_cons; lia). zl.
  replace (zlen s =? 0) with false by lia. rewrite sp_index_memmem.
  assert (first_occ [d] s (zlen a)) as Fo by (apply (first_occ_extend [d] a rest), single_clean; exact Na).
  pose proof (memmem_spec [d] s) as Mm. destruct (memmem s [d]) as [i|]; [|exfalso; exact (first_occ_no _ _ _ Fo Mm)].
  rewrite (first_occ_unique _ _ _ _ Mm Fo). cbn [or_npos]. cbv zeta. replace (zlen a =? npos) with false by (unfold npos, W31 in *; lia).
  unfold bind. rewrite substr_head by lia. replace (ztake (zlen a) s) with a by (symmetry; apply ztake_app_exact).
  unfold ret. do 2 f_equal.
  assert (zdrop (zlen a + 1) s = rest) as Dr.
  { subst s. change (d :: rest) with ([d] ++ rest). rewrite app_assoc.
    replace (zlen a + 1) with (zlen (a ++ [d])) by (rewrite zlen_app, zlen_cons, zlen_nil; lia). apply zdrop_app_exact. }
  rewrite Dr. destruct (d =? 32); cbn [skip].
  - destruct (spaces_skip rest) as [S1 S2]. rewrite u64_id by (unfold W31, W64 in *; lia).
    transitivity (zdrop (spaces rest) (zdrop (zlen a + 1) s)); [rewrite zdrop_zdrop by lia; f_equal; lia|rewrite Dr; exact S2].
  - rewrite u64_id by (unfold W31, W64 in *; lia). exact Dr.
Qed.
Lemma newsplit_last s d : zlen s < W31 -> ~ In d s -> newsplit s d tt = Ok (s, []) tt.
Proof.
  intros Ls Na. unfold newsplit. zl. destruct (Z.eqb_spec (zlen s) 0) as [E|E].
  - apply zlen_0_nil in E as ->. reflexivity.
  - rewrite sp_index_memmem. pose proof (memmem_spec [d] s) as Mm. destruct (memmem s [d]) as [i|].
    + exfalso. destruct Mm as [O _]. exact (single_free _ _ Na _ O).
    + cbn [or_npos]. change (npos =? npos) with true. cbv iota zeta. unfold bind. rewrite substr_head by lia.
      rewrite ztake_all by lia. rewrite (zdrop_all (zlen s + 1)) by lia. cbn [spaces]. unfold ret. do 2 f_equal.
      rewrite u64_id by (destruct (d =? 32); unfold W31, W64 in *; lia). apply zdrop_all. destruct (d =? 32); lia.
Qed.
(** The usual loop over all tokens. *)
Fixpoint tokens (fuel : nat) (s : chars) (d : Z) : Mv (list chars) :=
  if zlen s =? 0 then ret [] else
  match fuel with
  | O => fuel_out
  | S f => let* p := newsplit s d in let* ts := tokens f (snd p) d in ret (fst p :: ts)
  end.
Lemma first_sep (d : Z) (s : chars) : ~ In d s \/ exists a rest, s = a ++ d :: rest /\ ~ In d a.
Proof.
  induction s as [|c s IH]; [left; intros []|]. destruct (Z.eq_dec c d) as [->|N].
  - right. exists [], s. split; [reflexivity|intros []].
  - destruct IH as [IH|(a & rest & -> & Na)].
    + left. intros [E|I]; [contradiction|]. exact (IH I).
    + right. exists (c :: a), rest. split; [reflexivity|]. intros [E|I]; [contradiction|]. exact (Na I).
Qed.
Lemma skip_idem s : skip_spaces (skip_spaces s) = skip_spaces s.
Proof.
  destruct (skip_spaces s) as [|c s'] eqn:E; [reflexivity|]. pose proof (skip_head _ _ _ E). cbn. destruct (Z.eqb_spec c 32); [contradiction|reflexivity].
Qed.
Lemma pieces_skip sp delim s ps : pieces sp delim (skip sp s) ps <-> pieces sp delim s ps.
Proof.
  assert (skip sp (skip sp s) = skip sp s) as I by (destruct sp; [apply skip_idem|reflexivity]).
  split; intros P; inversion P as [s' E' |s' E' N' |s' a' rest' qs' E' F' Q']; subst; rewrite ?I in *.
  - apply pieces_end; auto.
  - apply pieces_last; auto.
  - apply pieces_cut with (rest := rest'); auto.
  - apply pieces_end; rewrite I; auto.
  - rewrite <- I at 2. apply pieces_last; rewrite I; auto.
  - apply pieces_cut with (rest := rest'); rewrite ?I; auto.
Qed.
Lemma tokens_spec d : forall fuel s, zlen s < W31 -> (length s <= fuel)%nat -> (d = 32 -> skip_spaces s = s) ->
  exists ts, tokens fuel s d tt = Ok ts tt /\ pieces (d =? 32) [d] s ts.
Proof.
  induction fuel as [|f IH]; intros s Ls Hf Hs.
  - destruct s; [|cbn in Hf; lia]. exists []. split; [reflexivity|]. apply pieces_end. apply skip_nil.
  - cbn [tokens]. destruct (Z.eqb_spec (zlen s) 0) as [E|E].
    { apply zlen_0_nil in E as ->. exists []. split; [reflexivity|]. apply pieces_end. apply skip_nil. }
    assert (skip (d =? 32) s = s) as Hk by (destruct (Z.eqb_spec d 32); cbn; [apply Hs; assumption|reflexivity]).
    destruct (first_sep d s) as [N|(a & rest & -> & Na)].
    + unfold bind at 1. rewrite newsplit_last by assumption. cbn [fst snd].
      exists [s]. split; [destruct f; reflexivity|]. rewrite <- Hk at 2. apply pieces_last; rewrite Hk.
      * intros ->. apply E. reflexivity.
      * apply single_free. exact N.
    + unfold bind at 1. rewrite (newsplit_found _ d a rest) by auto. cbn [fst snd].
      assert (zlen (skip (d =? 32) rest) <= zlen rest) as Lk by apply zlen_skip.
      destruct (IH (skip (d =? 32) rest)) as (ts & T1 & T2).
      * rewrite zlen_app, zlen_cons in Ls. zl. lia.
      * rewrite app_length in Hf. cbn in Hf. unfold zlen in Lk. lia.
      * intros ->. cbn. apply skip_idem.
      * unfold bind. rewrite T1. exists (a :: ts). split; [reflexivity|].
        apply pieces_cut with (rest := rest); rewrite ?Hk; [reflexivity| |apply pieces_skip; exact T2].
        apply (first_occ_extend [d] a rest), single_clean; exact Na.
Qed.
(** A leading space gives one empty token first. *)
Lemma tokens_leading s fuel : zlen s + 1 < W31 -> (length s < fuel)%nat ->
  exists ts, tokens fuel (32 :: s) 32 tt = Ok ([] :: ts) tt /\ pieces true [32] s ts.
Proof.
  intros Ls Hf. destruct fuel as [|f]; [lia|]. cbn [tokens]. zl.
  replace (zlen (32 :: s) =? 0) with false by (rewrite zlen_cons; lia).
  unfold bind at 1. rewrite (newsplit_found _ 32 [] s) by (rewrite ?zlen_cons; auto; lia). cbn [fst snd Z.eqb Pos.eqb].
  pose proof (zlen_skip true s) as Lk. cbn [skip] in *.
  destruct (tokens_spec 32 f (skip_spaces s)) as (ts & T1 & T2); [lia|unfold zlen in Lk; lia|intros _; apply skip_idem|].
  unfold bind. rewrite T1. exists ts. split; [reflexivity|]. apply (pieces_skip true). exact T2.
Qed.

(** Repetition and printf *)
Lemma iter_repeat s n : Nat.iter n (fun acc => acc ++ s) [] = repeat_str s n.
Proof.
  assert (forall m, repeat_str s m ++ s = s ++ repeat_str s m) as C.
  { induction m as [|m IH]; cbn; [rewrite app_nil_r; reflexivity|]. rewrite <- app_assoc, IH. reflexivity. }
  induction n as [|n IH]; [reflexivity|]. cbn [Nat.iter nat_rect]. change (nat_rect _ _ _ n) with (Nat.iter n (fun acc => acc ++ s) []).
  rewrite IH. cbn [repeat_str]. apply C.
Qed.
Lemma times_spec s n : 0 <= n < W31 -> zlen s * n < W63 -> times s n tt = Ok (repeat_str s (Z.to_nat n)) tt.
Proof.
  intros Hn H. unfold times. zl. rewrite (u64_id n) by (unfold W31, W64 in *; lia). rewrite u64_id by (unfold W63, W64 in *; nia).
  replace (max_alloc <? _) with false by (unfold max_alloc, W63 in *; lia). rewrite iter_repeat. reflexivity.
Qed.
Lemma times_negative s n : s <> [] -> zlen s < W31 -> - W31 <= n < 0 -> times s n tt = Exn BadAlloc tt.
Proof.
  intros N L H. unfold times. assert (0 < zlen s) by (destruct s; [contradiction|]; rewrite zlen_cons; zl; lia).
  assert (u64 n = n + W64) as -> by (unfold u64, W31, W64 in *; lia).
  assert (u64 (zlen s * (n + W64)) = zlen s * n + W64) as ->.
  { unfold u64. replace (zlen s * (n + W64)) with (zlen s * n + W64 + (zlen s - 1) * W64) by lia.
    rewrite Z.mod_add by discriminate. apply Z.mod_small. unfold W31, W64 in *. nia. }
  replace (max_alloc <? _) with true; [reflexivity|]. symmetry. apply Z.ltb_lt. unfold max_alloc, W31, W64 in *. nia.
Qed.
Lemma printf_ok out : zlen out < 4096 -> printf out tt = Ok out tt.
Proof.
  intros H. zl. unfold printf, printf_buf. rewrite (ztake_all 4095) by lia. rewrite zlen_app, zlen_zrep.
  replace (_ <=? _) with true by lia. rewrite ztake_app_exact. reflexivity.
Qed.
Lemma printf_4096 out : zlen out = 4096 -> printf out tt = Ok (ztake 4095 out ++ [0]) tt.
Proof.
  intros H. unfold printf, printf_buf. rewrite zlen_app, zlen_zrep, zlen_ztake, H. cbn. rewrite ztake_all; [reflexivity|].
  rewrite zlen_app, zlen_ztake, zlen_zrep, H. lia.
Qed.
Lemma printf_beyond out : 4096 < zlen out -> printf out tt = Undef UbBounds.
Proof.
  intros H. unfold printf, printf_buf. rewrite zlen_app, zlen_zrep, zlen_ztake.
  replace (_ <=? _) with false by lia. reflexivity.
Qed.

(** subst: one table entry after the other. *)
Inductive subst_chain : list (chars * chars) -> chars -> chars -> Prop :=
| chain_nil s : subst_chain [] s s
| chain_cons k v kvs s t u : zlen s < W31 -> replaced k v None s t -> subst_chain kvs t u -> subst_chain ((k, v) :: kvs) s u.
Lemma subst_spec kvs s t : Forall (fun kv => fst kv <> []) kvs -> subst_chain kvs s t ->
  exists f0, forall fuel, (f0 <= fuel)%nat -> subst fuel s kvs tt = Ok t tt.
Proof.
  intros N C. induction C as [s|k v kvs s t u L R C IH].
  - exists 0%nat. reflexivity.
  - inversion N as [|? ? N1 N2]; subst. destruct (IH N2) as (f0 & F). exists (Nat.max f0 (S (length s))). intros fuel Hf.
    cbn [subst]. unfold bind. destruct (sub_spec s k v (-1) fuel N1 L) as (t' & T1 & T2); [unfold W31; lia|lia|].
    rewrite T1. rewrite (replaced_det _ _ _ _ _ N1 T2 _ R). apply F. lia.
Qed.
(** Combinations. *)
Lemma split_join_roundtrip mdiff s delim fuel : memcmp_ok mdiff -> bytes s -> bytes delim -> delim <> [] -> delim <> [32] ->
  zlen s < W31 -> zlen delim < W31 -> (length s < fuel)%nat -> ~ suffix_of delim s ->
  exists ps, split mdiff fuel s delim npos tt = Ok ps tt /\ join ps delim false tt = Ok s tt.
Proof.
  intros Hm Bs Bd Nd Nsp Ls Ld Hf Sx. destruct (split_all mdiff Hm s delim fuel Bs Bd Nd Ls Ld Hf) as (ps & S1 & S2).
  exists ps. split; [exact S1|].
  assert (is_sp delim = false) as E by (destruct (is_sp delim) eqn:X; [apply is_sp_spec in X; contradiction|reflexivity]).
  rewrite E in S2. pose proof (pieces_join_exact _ _ _ S2 Sx) as J.
  pose proof (pieces_count _ _ _ _ Nd S2) as Cn.
  assert (forall l, zlen (intercalate delim l) = (if zlen l =? 0 then 0 else (zlen l - 1) * zlen delim) + total l) as Li.
  { clear. induction l as [|e l IH]; [reflexivity|]. destruct l as [|f l].
    - cbn [intercalate total]. rewrite (zlen_cons e), zlen_nil. change (1 + 0 =? 0) with false. cbv iota. lia.
    - change (intercalate delim (e :: f :: l)) with (e ++ delim ++ intercalate delim (f :: l)).
      change (total (e :: f :: l)) with (zlen e + total (f :: l)).
      rewrite !zlen_app, IH, !zlen_cons. zl. replace (1 + zlen l =? 0) with false by lia. replace (1 + (1 + zlen l) =? 0) with false by lia. lia. }
  specialize (Li ps). rewrite J in Li.
  rewrite join_spec.
  - do 2 f_equal. transitivity (intercalate delim ps); [|exact J]. f_equal. clear. induction ps; cbn; [reflexivity|]. rewrite IHps. reflexivity.
  - destruct ps as [|p ps]; [left; reflexivity|right]. pose proof (total_nonneg (p :: ps)) as Tn.
    assert (0 < zlen delim) by (destruct delim; [contradiction|]; rewrite zlen_cons; zl; lia).
    rewrite zlen_cons in *. zl. replace (1 + zlen ps =? 0) with false in Li by lia. unfold W31, W63 in *. nia.
Qed.
Lemma join_split_roundtrip mdiff ps z delim fuel : memcmp_ok mdiff -> delim <> [] -> delim <> [32] ->
  Forall (fun a => first_occ delim (a ++ delim) (zlen a)) ps -> z <> [] -> no_occ delim z ->
  let s := intercalate delim (ps ++ [z]) in bytes s -> bytes delim -> zlen s < W31 -> zlen delim < W31 -> (length s < fuel)%nat ->
  split mdiff fuel s delim npos tt = Ok (ps ++ [z]) tt.
Proof.
  intros Hm Nd Nsp F Nz Oz s Bs Bd Ls Ld Hf. destruct (split_all mdiff Hm s delim fuel Bs Bd Nd Ls Ld Hf) as (qs & S1 & S2).
  assert (is_sp delim = false) as E by (destruct (is_sp delim) eqn:X; [apply is_sp_spec in X; contradiction|reflexivity]).
  rewrite E in S2. rewrite S1. do 2 f_equal.
  apply (pieces_det false delim s); [exact Nd|exact S2|]. apply join_pieces; assumption.
Qed.
Lemma join_split_single mdiff ps z d fuel : memcmp_ok mdiff -> d <> 32 ->
  Forall (fun a => ~ In d a) (ps ++ [z]) -> z <> [] ->
  let s := intercalate [d] (ps ++ [z]) in bytes s -> 0 <= d < 256 -> zlen s < W31 -> (length s < fuel)%nat ->
  split mdiff fuel s [d] npos tt = Ok (ps ++ [z]) tt.
Proof.
  intros Hm Nd F Nz s Bs Bd Ls Hf. apply Forall_app in F as [F1 F2]. inversion F2 as [|? ? Fz _]; subst.
  apply join_split_roundtrip; auto; try discriminate.
  - congruence.
  - refine (List.Forall_impl _ _ F1). intros a. apply single_clean.
  - apply single_free. exact Fz.
  - constructor; [exact Bd|constructor].
  - reflexivity.
Qed.
Lemma tokens_split mdiff s d fuel : memcmp_ok mdiff -> d <> 32 -> bytes s -> 0 <= d < 256 -> zlen s < W31 -> (length s < fuel)%nat ->
  tokens fuel s d tt = split mdiff fuel s [d] npos tt.
Proof.
  intros Hm Nd Bs Bd Ls Hf.
  destruct (split_all mdiff Hm s [d] fuel) as (ps & S1 & S2);
    [exact Bs|repeat constructor; lia|discriminate|exact Ls|reflexivity|exact Hf|].
  destruct (tokens_spec d fuel s Ls) as (ts & T1 & T2); [lia|intros ->; contradiction|].
  rewrite S1, T1. do 2 f_equal. apply (pieces_det (d =? 32) [d] s); [discriminate|exact T2|exact S2].
Qed.
