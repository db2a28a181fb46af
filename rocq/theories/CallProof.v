From Verif Require Import Base ZList StrSpec StrModel StrAlg ScriptModel ScriptSpec ScriptProof CallModel CallSpec.
Open Scope Z_scope.

Definition quoted (t : chars) : chars := quote :: t ++ [quote].
Lemma parse_quoted t : literal t -> forall w cmd cmds rest, parse (Quoted w) cmd cmds (t ++ quote :: rest) = parse (Closed (w ++ t)) cmd cmds rest.
Proof.
  induction t as [|c t IH]; intros HL w cmd cmds rest; cbn [app parse].
  - rewrite Z.eqb_refl. now rewrite app_nil_r.
  - destruct (HL c) as [H1 H2]; [left; reflexivity|]. rewrite (proj2 (Z.eqb_neq _ _) H1), H2. rewrite IH by (intros d Hd; apply HL; right; exact Hd).
    now rewrite <- app_assoc.
Qed.
(** Quoted words after a space. *)
Lemma parse_words ps : Forall literal ps -> forall cmd, cmd ++ ps <> [] ->
  parse Between cmd [] (intercalate [32] (map quoted ps)) = Some [cmd ++ ps].
Proof.
  induction ps as [|t ps IH]; intros HF cmd Hne.
  - cbn. rewrite app_nil_r in *. destruct cmd; [contradiction Hne; reflexivity|]. reflexivity.
  - inversion HF as [|? ? Ht HF']; subst. clear HF. destruct ps as [|u ps].
    + cbn [map intercalate]. unfold quoted. cbn [parse]. change (is_space quote) with false. change (is_end quote) with false. cbv iota.
      rewrite Z.eqb_refl, (parse_quoted t Ht). cbn [parse app]. destruct cmd; reflexivity.
    + change (intercalate [32] (map quoted (t :: u :: ps))) with (quoted t ++ [32] ++ intercalate [32] (map quoted (u :: ps))).
      unfold quoted at 1. rewrite <- app_comm_cons, <- app_assoc. cbn [parse]. change (is_space quote) with false. change (is_end quote) with false. cbv iota.
      rewrite Z.eqb_refl. cbn [app]. rewrite (parse_quoted t Ht). cbn [app parse]. change (is_space 32) with true. cbv iota.
      rewrite IH; [now rewrite <- app_assoc|exact HF'|]. rewrite <- app_assoc. destruct cmd; discriminate.
Qed.
(** A command without an end goes on after a space. *)
Lemma parse_more s : (forall c, In c s -> is_end c = false) -> forall m cmd ws rest, parse m cmd [] s = Some [ws] ->
  parse m cmd [] (s ++ 32 :: rest) = parse Between ws [] rest.
Proof.
  induction s as [|c s IH]; intros HE m cmd ws rest.
  - cbn [parse app]. change (is_space 32) with true. cbv iota. destruct m as [|w|w|w]; try discriminate;
      [destruct cmd; [discriminate|]; now intros [= <-]|..]; (destruct (cmd ++ [w]) eqn:E; [destruct cmd; discriminate|]; now intros [= <-]).
  - assert (HE' : forall d, In d s -> is_end d = false) by (intros d Hd; apply HE; right; exact Hd).
    cbn [parse app]. rewrite (HE c) by (left; reflexivity). specialize (IH HE').
    destruct m as [|w|w|w]; repeat match goal with |- context [if ?b then _ else _] => destruct b end; try discriminate; apply IH.
Qed.
Lemma call_words cmd ws ps : prefix cmd ws -> Forall literal ps ->
  commands (cmd ++ [32] ++ intercalate [32] (map quoted ps)) = Some [ws ++ ps].
Proof.
  intros [HC HE] HL. unfold commands in *. cbn [app]. rewrite (parse_more cmd (fun c H => proj1 (HE c H)) _ _ _ _ HC).
  apply parse_words; [exact HL|]. intros E. apply app_eq_nil in E as [-> _].
  clear - HC. assert (G : forall s m cmd cmds r, parse m cmd cmds s = Some r -> Forall (fun c => c <> []) cmds -> Forall (fun c => c <> []) r).
  { clear. assert (P : forall cmds cmd, Forall (fun c : list chars => c <> []) cmds -> Forall (fun c => c <> []) (push cmds cmd)).
    { intros cmds cmd H. destruct cmd; [exact H|]. apply Forall_app. split; [exact H|]. constructor; [discriminate|constructor]. }
    induction s as [|c s IH]; intros m cmd cmds r; cbn [parse].
    - destruct m; try discriminate; intros [= <-] H; now apply P.
    - destruct m; repeat match goal with |- context [if ?b then _ else _] => destruct b end; try discriminate; intros E H; (eapply IH; [exact E|]); auto. }
  apply G in HC; [|constructor]. inversion HC as [|? ? H]. now contradiction H.
Qed.

Lemma intercalate_in (c : Z) ls : In c (intercalate [32] ls) -> c = 32 \/ exists l, In l ls /\ In c l.
Proof.
  induction ls as [|l ls IH]; [intros []|]. destruct ls as [|k ls]; [intros H; right; exists l; split; [left; reflexivity|exact H]|].
  change (intercalate [32] (l :: k :: ls)) with (l ++ [32] ++ intercalate [32] (k :: ls)). intros H. apply in_app_or in H as [H|[H|H]].
  - right. exists l. split; [left; reflexivity|exact H].
  - left. symmetry. exact H.
  - destruct (IH H) as [E|(l' & H1 & H2)]; [left; exact E|]. right. exists l'. split; [right; exact H1|exact H2].
Qed.

Section WithTcl.
Context {E : Type}.
Variable tc : tcl.
Variable run : chars -> E -> bool * tobj * E.

Lemma i32_id z : 0 <= z < 2147483648 -> i32 z = z.
Proof. intros H. unfold i32, W31, W32. rewrite Z.mod_small by lia. lia. Qed.
Lemma evaluated_short s : zlen s < 2147483648 -> evaluated s = s.
Proof.
  intros H. pose proof (zlen_nonneg s). unfold evaluated. rewrite i32_id by lia. destruct (Z.ltb_spec (zlen s) 0); [lia|]. apply ztake_all. lia.
Qed.
Lemma eval_ok f s e o e' : zlen s < 2147483648 -> run s e = (true, o, e') -> eval tc run (S f) s e = Ok (string_from_tcl tc o) e'.
Proof. intros H R. cbn [eval]. rewrite evaluated_short, R by exact H. reflexivity. Qed.
Lemma eval_error f s e o e1 o2 e2 : zlen s < 2147483648 -> run s e = (false, o, e1) -> run set_error_info e1 = (true, o2, e2) ->
  eval tc run (S (S f)) s e = Ok (string_from_tcl tc o2) e2.
Proof. intros H R R2. cbn [eval]. rewrite evaluated_short, R by exact H. rewrite evaluated_short by reflexivity. rewrite R2. reflexivity. Qed.
Lemma eval_loops (I : E -> Prop) : (forall e, I e -> exists o e', run set_error_info e = (false, o, e') /\ I e') ->
  forall f s e o e1, zlen s < 2147483648 -> run s e = (false, o, e1) -> I e1 -> eval tc run f s e = Fuel.
Proof.
  intros HI f. induction f as [|f IH]; intros s e o e1 H R H1; [reflexivity|]. cbn [eval]. rewrite evaluated_short, R by exact H.
  destruct (HI e1 H1) as (o' & e' & R' & H'). apply (IH set_error_info e1 o' e'); [reflexivity|exact R'|exact H'].
Qed.

Lemma quote_dress ps : map quoted ps = map (dress true) ps.
Proof. reflexivity. Qed.
Lemma script_of f cmd ps e : ~ In 0 cmd -> Forall (fun p => ~ In 0 p) ps ->
  let script := cmd ++ [32] ++ intercalate [32] (map quoted ps) in
  zlen script < 4096 -> callback_call tc run f cmd ps e = eval tc run f script e.
Proof.
  intros HC HP script HL. unfold callback_call. unfold clift at 1, bind at 1.
  assert (HZ : ~ In 0 (intercalate [32] (map quoted ps))).
  { intros H. apply intercalate_in in H as [H|(l & H1 & H2)]; [discriminate|]. apply in_map_iff in H1 as (p & <- & Hp).
    rewrite Forall_forall in HP. apply (HP p Hp). destruct H2 as [H2|H2]; [discriminate|]. apply in_app_or in H2 as [H2|[H2|[]]]; [exact H2|discriminate]. }
  assert (HT : 2 * zlen ps + total ps <= zlen (intercalate [32] (map quoted ps)) /\ zlen ps <= zlen (intercalate [32] (map quoted ps))).
  { clear. induction ps as [|p ps IH]; [cbn [map intercalate total]; rewrite !zlen_nil; lia|]. cbn [total]. rewrite zlen_cons.
    assert (Q : zlen (quoted p) = zlen p + 2) by (unfold quoted; rewrite zlen_cons, zlen_app; change (zlen [quote]) with 1; lia).
    pose proof (zlen_nonneg p). destruct ps as [|q ps]; [cbn [map intercalate total]; rewrite !zlen_nil; lia|].
    change (intercalate [32] (map quoted (p :: q :: ps))) with (quoted p ++ [32] ++ intercalate [32] (map quoted (q :: ps))).
    rewrite !zlen_app. change (zlen [32]) with 1. lia. }
  unfold script in HL. rewrite !zlen_app in HL. change (zlen [32]) with 1 in HL. pose proof (zlen_nonneg cmd).
  rewrite join_spec.
  2:{ destruct ps as [|p ps]; [left; reflexivity|]. right. change (zlen [32]) with 1. rewrite zlen_cons in *. pose proof (zlen_nonneg ps).
      pose proof (total_nonneg (p :: ps)). unfold W63. lia. }
  rewrite <- quote_dress. rewrite (upto_nul_id _ HZ), (upto_nul_id _ HC). unfold clift, bind. rewrite printf_ok; [reflexivity|].
  rewrite !zlen_app. change (zlen [32]) with 1. lia.
Qed.
Lemma literal_nul t : literal t -> ~ In 0 t.
Proof. intros H H0. destruct (H 0 H0) as [_ D]. discriminate. Qed.
Lemma call_ok f cmd ws ps e : prefix cmd ws -> Forall literal ps -> zlen cmd + 1 + zlen (intercalate [32] (map (fun p => quote :: p ++ [quote]) ps)) < 4096 ->
  exists script, commands script = Some [ws ++ ps] /\ zlen script < 4096 /\ callback_call tc run f cmd ps e = eval tc run f script e.
Proof.
  intros HC HP HL. change (map (fun p => quote :: p ++ [quote]) ps) with (map quoted ps) in HL.
  exists (cmd ++ [32] ++ intercalate [32] (map quoted ps)). split; [now apply call_words|].
  assert (HL' : zlen (cmd ++ [32] ++ intercalate [32] (map quoted ps)) < 4096) by (rewrite !zlen_app; change (zlen [32]) with 1; lia).
  split; [exact HL'|]. apply script_of.
  - intros H. destruct HC as [_ HC]. destruct (HC 0 H) as [_ D]. now contradiction D.
  - eapply Forall_impl; [|exact HP]. exact literal_nul.
  - exact HL'.
Qed.
End WithTcl.
