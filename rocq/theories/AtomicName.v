(** The name of the temporary file. *)
From stdpp Require Import gmap.
From Verif Require Import Base RcaSpec StrModel StrSpec StrFind AtomicSpec AtomicModel AtomicProof.
From Coq Require Import Lia.
Open Scope Z_scope.

Lemma segments_ne p : segments p <> [].
Proof. induction p as [|c p IH]; cbn; [discriminate|]. destruct (c =? slash); [discriminate|]. destruct (segments p); discriminate. Qed.
Lemma segments_app a b : segments (a ++ slash :: b) = segments a ++ segments b.
Proof.
  induction a as [|c a IH]; cbn [app segments]; [reflexivity|].
  rewrite IH. destruct (c =? slash); [reflexivity|].
  pose proof (segments_ne a). destruct (segments a) as [|s r]; [contradiction|reflexivity].
Qed.
Lemma segments_plain a : ~ In slash a -> segments a = [a].
Proof.
  induction a as [|c a IH]; intros H; cbn; [reflexivity|].
  rewrite IH by (intros I; apply H; right; exact I).
  destruct (Z.eqb_spec c slash); [exfalso; apply H; left; auto|reflexivity].
Qed.
Lemma last_slash p : ~ In slash p \/ exists d base, p = d ++ slash :: base /\ ~ In slash base.
Proof.
  induction p as [|c p [IH|(d & base & -> & H)]]; [left; intros []| |].
  - destruct (Z.eq_dec c slash) as [->|N]; [right; exists [], p; auto|left]. intros [X|X]; [auto|exact (IH X)].
  - right. exists (c :: d), base. auto.
Qed.
Lemma cstr_plain p : ~ In 0 p -> cstr p = p.
Proof.
  induction p as [|c p IH]; intros H; cbn; [reflexivity|].
  destruct (Z.eqb_spec c 0); [exfalso; apply H; left; auto|]. rewrite IH; [reflexivity|]. intros I; apply H; right; exact I.
Qed.

Section Name.
Variable mdiff : Z -> Z -> Z.
Hypothesis Hm : memcmp_ok mdiff.

Lemma rfind_slash_none fn : bytes fn -> zlen fn < W63 -> ~ In slash fn -> rfind mdiff fn [slash] 0 tt = Ok npos tt.
Proof.
  intros B L N. destruct (rfind_spec mdiff Hm fn [slash] 0) as (r & E & F); auto; try discriminate; try (unfold W64; lia).
  { repeat constructor; unfold slash; lia. }
  destruct F as [[-> _]|[_ [(pre & post & -> & _) _]]]; [exact E|].
  exfalso. apply N. apply in_or_app. right. left. reflexivity.
Qed.
Lemma rfind_slash_some d base : bytes (d ++ slash :: base) -> zlen (d ++ slash :: base) < W63 -> ~ In slash base ->
  rfind mdiff (d ++ slash :: base) [slash] 0 tt = Ok (zlen d) tt.
Proof.
  intros B L N. destruct (rfind_spec mdiff Hm (d ++ slash :: base) [slash] 0) as (r & E & F); auto; try discriminate; try (unfold W64; lia).
  { repeat constructor; unfold slash; lia. }
  assert (O : occurs [slash] (d ++ slash :: base) (zlen d)) by (exists d, base; split; reflexivity).
  rewrite E. f_equal.
  destruct F as [[-> F]|[_ [(pre & post & Eq & <-) [_ F]]]].
  - specialize (F _ O). pose proof (zlen_nonneg d). lia.
  - specialize (F _ O (zlen_nonneg _)). destruct (Z.eq_dec (zlen pre) (zlen d)) as [X|X]; [exact X|exfalso].
    (* a later slash lies in [base] *)
    apply N. assert (G : znth (zlen pre) (d ++ slash :: base) = Some slash).
    { rewrite Eq, znth_app, Z.ltb_irrefl, Z.sub_diag. reflexivity. }
    rewrite znth_app in G. destruct (Z.ltb_spec (zlen pre) (zlen d)); [lia|].
    rewrite znth_cons in G. destruct (Z.eqb_spec (zlen pre - zlen d) 0); [lia|].
    unfold znth in G. destruct (_ <? 0); [discriminate|]. apply nth_error_In in G. exact G.
Qed.
Lemma usual_bytes fn : Forall (fun c => 0 < c < 256) fn -> bytes fn /\ ~ In 0 fn.
Proof.
  intros F. split.
  - revert F. apply List.Forall_impl. intros a; lia.
  - intros I. apply (proj1 (List.Forall_forall _ _) F) in I. lia.
Qed.
Definition temp_of_plain (fn suf : chars) : chars := [dot; slash; dot] ++ fn ++ [dot] ++ suf.
Definition temp_of_slash (d base suf : chars) : chars := d ++ slash :: dot :: slash :: base ++ [dot] ++ suf.
Lemma substr_all fn p : 0 <= p < zlen fn -> zlen fn < W31 -> substr fn p (-1) tt = Ok (zdrop p fn) tt.
Proof.
  intros H L. unfold substr, sp_slice_ok, sp_slice, sp_slice_start, in_s64. 
  replace (p <? 0) with false by (symmetry; apply Z.ltb_ge; lia).
  unfold W31, W63 in *.
  match goal with |- (if ?b then _ else _) _ = _ => replace b with true by (symmetry; unfold fits_s64, W31, W63; repeat (apply andb_true_intro; split); lia) end.
  replace (zlen fn <=? p) with false by (symmetry; apply Z.leb_gt; lia).
  change (-1 =? -1) with true. cbv iota. unfold ret. f_equal. apply ztake_all. rewrite zlen_zdrop. lia.
Qed.
Lemma substr_pre fn n : 0 < n <= zlen fn -> zlen fn < W31 -> substr fn 0 n tt = Ok (ztake n fn) tt.
Proof.
  intros H L. unfold substr, sp_slice_ok, sp_slice, sp_slice_start, in_s64. cbn [Z.ltb Z.compare].
  unfold W31, W63 in *.
  match goal with |- (if ?b then _ else _) _ = _ => replace b with true by (symmetry; unfold fits_s64, W31, W63; repeat (apply andb_true_intro; split); lia) end.
  replace (zlen fn <=? 0) with false by (symmetry; apply Z.leb_gt; lia).
  replace (n =? -1) with false by (symmetry; apply Z.eqb_neq; lia).
  replace (n <? 0) with false by (symmetry; apply Z.ltb_ge; lia).
  unfold ret. f_equal. rewrite zdrop_0 by lia. f_equal. lia.
Qed.
Lemma printf_short o : zlen o < 4096 -> printf o tt = Ok o tt.
Proof.
  intros H. unfold printf, printf_buf. pose proof (zlen_nonneg o).
  rewrite zlen_app, zlen_ztake, zlen_zrep.
  replace (zlen o <=? _) with true by (symmetry; apply Z.leb_le; lia).
  unfold ret. f_equal. rewrite (ztake_all 4095 o) by lia. apply ztake_app_exact.
Qed.
Lemma template_plain fn : Forall (fun c => 0 < c < 256) fn -> fn <> [] -> zlen fn < 4086 -> ~ In slash fn ->
  template mdiff fn tt = Ok (temp_of_plain fn xs) tt.
Proof.
  intros F NE L N. destruct (usual_bytes _ F) as [B Z0]. unfold template, bind.
  assert (0 < zlen fn) by (destruct fn; [contradiction|]; rewrite zlen_cons; pose proof (zlen_nonneg fn); lia).
  rewrite rfind_slash_none by (auto; unfold W63; lia). cbn [Z.eqb]. change (npos =? npos) with true.
  unfold ret at 1. rewrite substr_all by (unfold W31; lia). rewrite zdrop_0 by lia.
  rewrite (cstr_plain fn Z0). rewrite printf_short; [reflexivity|]. rewrite !zlen_app. 
  change (zlen (cstr [dot; slash])) with 2. change (zlen [dot]) with 1. change (zlen xs) with 6. lia.
Qed.
Lemma template_slash d base : Forall (fun c => 0 < c < 256) (d ++ slash :: base) -> zlen (d ++ slash :: base) < 4086 -> ~ In slash base ->
  template mdiff (d ++ slash :: base) tt = Ok (temp_of_slash d base xs) tt.
Proof.
  intros F L N. destruct (usual_bytes _ F) as [B Z0]. unfold template, bind.
  rewrite rfind_slash_some by (auto; unfold W63; lia). pose proof (zlen_nonneg d). pose proof (zlen_nonneg base).
  rewrite zlen_app, zlen_cons in L.
  replace (zlen d =? npos) with false by (symmetry; apply Z.eqb_neq; unfold npos; lia).
  rewrite substr_pre by (rewrite zlen_app, zlen_cons; unfold W31; lia).
  rewrite substr_all by (rewrite zlen_app, zlen_cons; unfold W31; lia).
  rewrite zdrop_app_exact.
  replace (ztake (zlen d + 1) (d ++ slash :: base)) with (d ++ [slash]).
  2: { rewrite ztake_app. rewrite (ztake_all _ d) by lia. replace (zlen d + 1 - zlen d) with 1 by lia. reflexivity. }
  assert (I1 : ~ In 0 (d ++ [slash])).
  { intros I. apply Z0. apply in_app_or in I as [I|[I|[]]]; apply in_or_app; [left; exact I|right; left; exact I]. }
  assert (I2 : ~ In 0 (slash :: base)).
  { intros I. apply Z0. apply in_or_app. right; exact I. }
  rewrite (cstr_plain _ I1), (cstr_plain _ I2), printf_short.
  - unfold temp_of_slash. rewrite <- !app_assoc. reflexivity.
  - rewrite !zlen_app, (zlen_cons slash base). change (zlen [slash]) with 1. change (zlen [dot]) with 1. change (zlen xs) with 6. lia.
Qed.
End Name.

Lemma file_path_name d base : ~ In slash base -> file_path (d ++ slash :: base) = true -> is_name base = true.
Proof.
  intros N. unfold file_path, last_segment. rewrite segments_app, (segments_plain base N), List.last_last.
  intros H. apply andb_prop in H. tauto.
Qed.
Lemma is_name_long a c b : is_name (a ++ c :: b) = true \/ (a = [] /\ b = []).
Proof. destruct a as [|x a]; [destruct b; [right; auto|left; reflexivity]|left]. destruct a; reflexivity. Qed.
Lemma absolute_slash d base k : absolute (d ++ slash :: base) = absolute (d ++ slash :: k).
Proof. destruct d; reflexivity. Qed.
Lemma name_chars suf : forallb name_char suf = true -> ~ In slash suf /\ ~ In 0 suf.
Proof.
  intros H. split; intros I; apply (proj1 (forallb_forall _ _) H) in I; unfold name_char in I; cbn in I; discriminate.
Qed.
Lemma with_suffix_app (a suf : chars) : zlen suf = 6 -> with_suffix (a ++ xs) suf = a ++ suf.
Proof.
  intros _. unfold with_suffix. rewrite zlen_app. change (zlen xs) with 6. replace (zlen a + 6 - 6) with (zlen a) by lia.
  rewrite ztake_app_exact. reflexivity.
Qed.
Lemma not_in_app {A} (c : A) a b : ~ In c a -> ~ In c b -> ~ In c (a ++ b).
Proof. intros H K I. apply in_app_or in I. tauto. Qed.

Lemma resolve_plain fn suf : is_name fn = true -> ~ In slash fn -> ~ In slash suf -> zlen suf = 6 ->
  resolve fn = (absolute fn, [] ++ [fn]) /\ resolve (temp_of_plain fn suf) = (absolute fn, [] ++ [dot :: fn ++ dot :: suf]).
Proof.
  intros Nm N1 N2 L. unfold resolve. rewrite (segments_plain fn N1). cbn [List.filter]. rewrite Nm. split; [reflexivity|].
  unfold temp_of_plain. change ([dot; slash; dot] ++ fn ++ [dot] ++ suf) with ([dot] ++ slash :: (dot :: fn ++ dot :: suf)).
  rewrite segments_app. rewrite (segments_plain [dot]) by (intros [X|[]]; discriminate).
  rewrite (segments_plain (dot :: fn ++ dot :: suf)).
  2: { intros [X|X]; [discriminate|]. apply in_app_or in X as [X|[X|X]]; [auto|discriminate|auto]. }
  cbn [app List.filter is_name]. change (dot =? dot) with true. cbn [negb].
  destruct fn as [|c fn]; [discriminate|]. cbn [app].
  f_equal. cbn [absolute]. destruct (Z.eqb_spec c slash); [exfalso; apply N1; left; auto|reflexivity].
Qed.
Lemma resolve_slash d base suf : is_name base = true -> ~ In slash base -> ~ In slash suf -> zlen suf = 6 ->
  exists dir, resolve (d ++ slash :: base) = (absolute (d ++ slash :: base), dir ++ [base]) /\
    resolve (temp_of_slash d base suf) = (absolute (d ++ slash :: base), dir ++ [base ++ dot :: suf]).
Proof.
  intros Nm N1 N2 L. exists (List.filter is_name (segments d)). unfold resolve. split.
  - rewrite segments_app, (segments_plain base N1), List.filter_app. cbn [List.filter]. rewrite Nm. reflexivity.
  - unfold temp_of_slash. f_equal; [apply absolute_slash|].
    rewrite segments_app. change (dot :: slash :: base ++ [dot] ++ suf) with ([dot] ++ slash :: (base ++ dot :: suf)).
    rewrite segments_app, (segments_plain [dot]) by (intros [X|[]]; discriminate).
    rewrite (segments_plain (base ++ dot :: suf)).
    2: { intros X. apply in_app_or in X as [X|[X|X]]; [auto|discriminate|auto]. }
    rewrite List.filter_app. f_equal. cbn [app List.filter is_name]. change (dot =? dot) with true. cbn [negb].
    destruct (is_name_long base dot suf) as [->|[_ ->]]; [reflexivity|discriminate].
Qed.

Section TempPath.
Variable mdiff : Z -> Z -> Z.
Hypothesis Hm : memcmp_ok mdiff.
Lemma file_path_ne fn : file_path fn = true -> fn <> [].
Proof. intros H ->. discriminate. Qed.
Lemma file_path_plain fn : ~ In slash fn -> file_path fn = true -> is_name fn = true.
Proof. intros N. unfold file_path, last_segment. rewrite (segments_plain fn N). cbn [List.last]. intros H. apply andb_prop in H; tauto. Qed.
Lemma xs_chars : forallb name_char xs = true /\ zlen xs = 6.
Proof. split; reflexivity. Qed.
(** The template and every name made from it. *)
Lemma template_path fn : usual_name fn -> exists t, template mdiff fn tt = Ok t tt /\ cstr t = t /\
  forall suf, zlen suf = 6 -> forallb name_char suf = true -> temp_path fn (resolve (with_suffix t suf)) /\ with_suffix t xs = t.
Proof.
  intros (F & L & P). destruct (usual_bytes fn F) as [B Z0]. destruct (last_slash fn) as [N|(d & base & -> & N)].
  - exists (temp_of_plain fn xs). split; [apply template_plain; auto using file_path_ne|].
    assert (E : temp_of_plain fn xs = ([dot; slash; dot] ++ fn ++ [dot]) ++ xs) by (unfold temp_of_plain; rewrite <- !app_assoc; reflexivity).
    split.
    + apply cstr_plain. rewrite E. repeat apply not_in_app; auto; intros X; cbn in X; intuition discriminate.
    + intros suf Ls Cs. rewrite E, !with_suffix_app by auto. split; [|reflexivity].
      destruct (name_chars _ Cs) as [S1 S2].
      destruct (resolve_plain fn suf (file_path_plain _ N P) N S1 Ls) as [R1 R2].
      exists [], fn, suf. split; [exact R1|]. split; [exact Ls|]. right. rewrite <- R2. unfold temp_of_plain. rewrite <- !app_assoc. reflexivity.
  - exists (temp_of_slash d base xs). split; [apply template_slash; auto|].
    assert (E : forall s, temp_of_slash d base s = (d ++ slash :: dot :: slash :: base ++ [dot]) ++ s).
    { intros s. unfold temp_of_slash. rewrite <- app_assoc. cbn [app]. do 4 f_equal. rewrite <- app_assoc. reflexivity. }
    split.
    + apply cstr_plain. rewrite E. apply not_in_app; [|intros X; cbn in X; intuition discriminate].
      intros X. apply in_app_or in X as [X|[X|[X|[X|X]]]]; try discriminate.
      * apply Z0. apply in_or_app; auto.
      * apply in_app_or in X as [X|[X|[]]]; [|discriminate]. apply Z0. apply in_or_app; right; right; exact X.
    + intros suf Ls Cs. rewrite E, !with_suffix_app by auto. split; [|reflexivity].
      destruct (name_chars _ Cs) as [S1 S2].
      destruct (resolve_slash d base suf (file_path_name _ _ N P) N S1 Ls) as (dir & R1 & R2).
      exists dir, base, suf. split; [exact R1|]. split; [exact Ls|]. left. rewrite <- R2, E. reflexivity.
Qed.
Lemma temp_name_path fn p : usual_name fn -> temp_name mdiff fn p -> temp_path fn (resolve p).
Proof.
  intros U (t & Et & Hp). destruct (template_path fn U) as (t' & Et' & Ec & H). assert (t' = t) by congruence. subst t'.
  rewrite Ec in Hp. destruct Hp as [->|(suf & Ls & Cs & ->)].
  - destruct (H xs) as [A Eq]; try reflexivity. rewrite <- Eq. exact A.
  - apply H; auto.
Qed.
Lemma temp_path_other fn : ~ temp_path fn (resolve fn).
Proof.
  intros (dir & base & suf & R & L & [E|E]); rewrite R in E; injection E as E; apply app_inj_tail in E as [_ E];
    apply (f_equal (@zlen Z)) in E; rewrite ?zlen_cons, ?zlen_app, ?zlen_cons in E; pose proof (zlen_nonneg base); lia.
Qed.
End TempPath.
