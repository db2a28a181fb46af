(** Proofs about the Tcl glue. *)
From Coq Require Import ZifyBool.
From Verif Require Import Base StrSpec StrModel StrFind ScriptModel ScriptSpec.
Open Scope Z_scope.

Section Casts.
Variable tc : tcl.
Hypothesis Htc : tcl_ok tc.

Lemma wrap_low n v : 0 < n -> 0 <= v < 2 ^ (n - 1) -> wrap_s n v = v.
Proof.
  intros N V. unfold wrap_s. assert (2 ^ n = 2 * 2 ^ (n - 1)) as E by (rewrite <- Z.pow_succ_r by lia; f_equal; lia).
  rewrite Z.mod_small by lia. lia.
Qed.
Lemma wrap_high n v : 0 < n -> 2 ^ (n - 1) <= v < 2 ^ n -> wrap_s n v = v - 2 ^ n.
Proof.
  intros N V. unfold wrap_s. assert (2 ^ n = 2 * 2 ^ (n - 1)) as E by (rewrite <- Z.pow_succ_r by lia; f_equal; lia).
  replace (v + 2 ^ (n - 1)) with (v - 2 ^ (n - 1) + 1 * 2 ^ n) by lia. rewrite Z.mod_add, Z.mod_small by lia. lia.
Qed.
Lemma signed_back t v : is_signed t = true -> in_type t v -> int_from_tcl tc t (int_to_tcl t v) = v.
Proof.
  intros S I. destruct t; try discriminate; cbn in I; cbn [int_to_tcl int_from_tcl]; unfold checked, i8_to_tcl, i16_to_tcl, i32_to_tcl, i64_to_tcl;
    rewrite (ok_long tc Htc) by (unfold W63 in *; lia); try reflexivity; destruct (_ || _) eqn:E; lia.
Qed.
Lemma unsigned_low t v : t <> U64 -> is_signed t = false -> 0 <= v < 2 ^ (width t - 1) -> int_from_tcl tc t (int_to_tcl t v) = v.
Proof.
  intros N S I. destruct t; try discriminate; try contradiction; cbn [width] in I; cbn [int_to_tcl int_from_tcl];
    rewrite wrap_low by (try lia; exact I); unfold checked, i8_to_tcl, i16_to_tcl, i32_to_tcl; cbn in I;
    rewrite (ok_long tc Htc) by (unfold W63; lia); destruct (_ || _) eqn:E; lia.
Qed.
Lemma unsigned_high t v : is_signed t = false -> 2 ^ (width t - 1) <= v < 2 ^ width t ->
  int_to_tcl t v = TInt (v - 2 ^ width t) /\ int_from_tcl tc t (int_to_tcl t v) = 0.
Proof.
  intros S I. destruct t; try discriminate; cbn [width] in *; cbn [int_to_tcl int_from_tcl]; rewrite wrap_high by (try lia; exact I);
    (split; [reflexivity|]); unfold checked, i8_to_tcl, i16_to_tcl, i32_to_tcl, i64_to_tcl; cbn in I |- *.
  1-3: rewrite (ok_long tc Htc) by (unfold W63; lia); destruct (_ || _) eqn:E; lia.
  destruct (get_long tc _); reflexivity.
Qed.
Lemma from_script t o : in_type t (int_from_tcl tc t o) /\
  (forall z, t <> U64 -> get_long tc o = Some z -> in_type t z -> int_from_tcl tc t o = z) /\
  ((forall z, get_long tc o = Some z -> ~ in_type t z) -> int_from_tcl tc t o = 0).
Proof.
  destruct (get_long tc o) as [z|] eqn:E; [pose proof (ok_long_range tc Htc o z E) as R|];
  (split; [|split; [intros z0 N E0 I; try discriminate; try (injection E0 as <-)|intros H; try specialize (H z eq_refl)]]);
  destruct t; cbn [int_from_tcl in_type] in *; unfold checked; rewrite ?E; unfold W63, W64 in *; try lia; try contradiction; try reflexivity;
  destruct (_ || _) eqn:E2; lia.
Qed.
Lemma u64_zero o : int_from_tcl tc U64 o = 0.
Proof. cbn. destruct (get_long tc o); reflexivity. Qed.

Lemma shown t v : in_type t v -> int_to_tcl t v = TInt (if is_signed t || (v <? 2 ^ (width t - 1)) then v else v - 2 ^ width t).
Proof.
  intros I. destruct t; cbn [is_signed width orb int_to_tcl in_type] in *; try reflexivity;
    (destruct (v <? _) eqn:E; [rewrite wrap_low|rewrite wrap_high]; try reflexivity; try lia; split; try lia);
    cbn in E |- *; unfold W64 in *; lia.
Qed.
Lemma collect_map {A} (f : tobj -> A) l : forall acc, collect f l acc = acc ++ map f l.
Proof. induction l as [|o l IH]; intros acc; cbn; [rewrite app_nil_r; reflexivity|]. rewrite IH, <- app_assoc. reflexivity. Qed.
Lemma append_objs_ok {A} (f : A -> Mv (option tobj)) (g : A -> tobj) l : (forall e, In e l -> f e tt = Ok (Some (g e)) tt) ->
  forall acc, append_objs f l acc tt = Ok (TList (acc ++ map g l)) tt.
Proof.
  induction l as [|e l IH]; intros H acc; cbn [append_objs map]; [rewrite app_nil_r; reflexivity|].
  unfold bind. rewrite H by (left; reflexivity). rewrite IH by (intros; apply H; right; assumption). rewrite <- app_assoc. reflexivity.
Qed.
Lemma strings_ok l : Forall short l -> strings_to_tcl l tt = Ok (TList (map TText l)) tt.
Proof.
  intros F. unfold strings_to_tcl. rewrite (append_objs_ok _ TText); [reflexivity|]. intros e I. rewrite Forall_forall in F. specialize (F e I).
  unfold ret, string_to_tcl. unfold short in F. destruct (zlen e <? 2147483647) eqn:E; [reflexivity|lia].
Qed.
Lemma strings_back l : strings_from_tcl tc (TList (map TText l)) = l.
Proof.
  unfold strings_from_tcl. rewrite (ok_list tc Htc), collect_map, map_map. cbn [app]. rewrite <- (map_id l) at 2. apply map_ext. intros t.
  unfold string_from_tcl. rewrite (ok_text tc Htc). reflexivity.
Qed.
Lemma table_ok l : Forall (Forall short) l -> table_to_tcl l tt = Ok (TList (map (fun r => TList (map TText r)) l)) tt.
Proof.
  intros F. unfold table_to_tcl. rewrite (append_objs_ok _ (fun r => TList (map TText r))); [reflexivity|]. intros e I. rewrite Forall_forall in F.
  unfold bind. rewrite (strings_ok e (F e I)). reflexivity.
Qed.
Lemma table_back l : table_from_tcl tc (TList (map (fun r => TList (map TText r)) l)) = l.
Proof.
  unfold table_from_tcl. rewrite (ok_list tc Htc), collect_map, map_map. cbn [app]. rewrite <- (map_id l) at 2. apply map_ext. intros t. apply strings_back.
Qed.
Lemma upto_nul_id t : ~ In 0 t -> upto_nul t = t.
Proof.
  induction t as [|c t IH]; intros N; cbn; [reflexivity|]. destruct (c =? 0) eqn:E; [destruct N; left; lia|]. rewrite IH; [reflexivity|]. intros I. apply N. right. exact I.
Qed.
Lemma back si ty v res : portable ty v -> (forall t, ty = CInt t -> res = t) -> exists o, to_tcl res v tt = Ok (Some o) tt /\ from_tcl tc si ty o = v.
Proof.
  intros P Hr. destruct ty; destruct v; cbn in P; try contradiction; cbn [to_tcl from_tcl].
  - rewrite (Hr t eq_refl). eexists. split; [reflexivity|]. f_equal. destruct (is_signed t) eqn:E; [apply signed_back; assumption|apply unsigned_low; tauto].
  - eexists. split; [reflexivity|]. rewrite (ok_double tc Htc). reflexivity.
  - eexists. split; [reflexivity|]. rewrite (ok_bool tc Htc). destruct b; reflexivity.
  - unfold short in P. unfold ret, string_to_tcl. destruct (zlen t <? 2147483647) eqn:E; [|lia]. eexists. split; [reflexivity|]. unfold string_from_tcl. rewrite (ok_text tc Htc). reflexivity.
  - destruct t as [t|]; [|contradiction]. destruct P as [P1 P2]. unfold short in P1. unfold ret, string_to_tcl. rewrite upto_nul_id by exact P2.
    destruct (zlen t <? 2147483647) eqn:E; [|lia]. eexists. split; [reflexivity|]. unfold cstr_from_tcl. rewrite (ok_text tc Htc), upto_nul_id by exact P2. reflexivity.
  - unfold bind. rewrite (strings_ok l P). eexists. split; [reflexivity|]. rewrite strings_back. reflexivity.
  - unfold bind. rewrite (table_ok l P). eexists. split; [reflexivity|]. rewrite table_back. reflexivity.
Qed.

(** The specification of the conversions. *)
Lemma takes_ok si t o : from_tcl tc si t o = takes tc si t o.
Proof.
  destruct t as [i| | | | | | |]; cbn [from_tcl takes missing]; unfold string_from_tcl, cstr_from_tcl, strings_from_tcl, table_from_tcl, text_in, items_in.
  - destruct (get_long tc o) as [z|] eqn:E; destruct i; cbn [int_from_tcl]; unfold checked; rewrite ?E; try reflexivity; unfold number, least, most; cbn [is_signed width];
      f_equal; destruct (_ || _) eqn:E1, (_ && _) eqn:E2; lia.
  - destruct (get_double tc o); reflexivity.
  - destruct (get_bool tc o); reflexivity.
  - reflexivity.
  - destruct (get_string tc o); reflexivity.
  - destruct (get_list tc o); [rewrite collect_map|]; reflexivity.
  - destruct (get_list tc o); [rewrite collect_map|]; [|reflexivity]. cbn [app]. f_equal. apply map_ext. intros r. unfold strings_from_tcl, items_in.
    destruct (get_list tc r); [rewrite collect_map|]; reflexivity.
  - destruct (get_string tc o); reflexivity.
Qed.
Lemma brief_all l : forallb brief l = true -> Forall short l.
Proof. intros H. rewrite forallb_forall in H. apply Forall_forall. intros t I. specialize (H t I). unfold brief in H. unfold short. lia. Qed.
Lemma answers_ok t v o : answers t v = Some o -> to_tcl t v tt = Ok (Some o) tt.
Proof.
  destruct v as [z| | |s| |l|l|]; cbn [answers to_tcl]; try discriminate.
  - destruct (in_typeb t z) eqn:E; [|discriminate]. intros [= <-]. unfold ret. rewrite shown; [reflexivity|].
    unfold in_typeb, least, most in E. destruct t; cbn [is_signed width] in E; cbn [in_type]; unfold W63, W64; lia.
  - intros [= <-]. reflexivity.
  - intros [= <-]. reflexivity.
  - unfold brief, ret, string_to_tcl. destruct (_ <? _); congruence.
  - destruct (forallb brief l) eqn:E; [|discriminate]. intros [= <-]. unfold bind. rewrite (strings_ok l (brief_all l E)). reflexivity.
  - destruct (forallb (forallb brief) l) eqn:E; [|discriminate]. intros [= <-]. unfold bind. rewrite table_ok; [reflexivity|].
    rewrite forallb_forall in E. apply Forall_forall. intros r I. apply brief_all, E, I.
Qed.
(** Dispatch. *)
Lemma indices_seq n : forall k, indices_impl n (seq n k) = seq 0 (n + k).
Proof. induction n as [|n IH]; intros k; cbn [indices_impl]; [reflexivity|]. change (n :: seq (S n) k) with (seq n (S k)). rewrite IH. f_equal. lia. Qed.
Lemma make_indices_seq n : make_indices n = seq 0 n.
Proof. unfold make_indices. change (@nil nat) with (seq n 0). rewrite indices_seq. f_equal. lia. Qed.
Lemma real_args_default si types : forall j argc objv, 1 <= argc < W63 -> argc - 1 <= Z.of_nat j ->
  real_args tc types (seq j (length types)) argc objv si tt = Ok (receives tc si types []) tt.
Proof.
  induction types as [|t types IH]; intros j argc objv A J; cbn [real_args receives length seq]; [reflexivity|].
  rewrite u64_id by (unfold W63, W64 in *; lia). destruct (Z.of_nat j + 1 <=? argc - 1) eqn:E; [lia|]. unfold bind, ret. rewrite IH by lia. reflexivity.
Qed.
Lemma real_args_ok si types : forall k name pre args, length pre = k -> zlen (name :: pre ++ args) < W63 ->
  real_args tc types (seq k (length types)) (zlen (name :: pre ++ args)) (name :: pre ++ args) si tt = Ok (receives tc si types args) tt.
Proof.
  induction types as [|t types IH]; intros k name pre args K L; cbn [real_args receives length seq]; [reflexivity|].
  rewrite zlen_cons, zlen_app in *. pose proof (zlen_nonneg pre). pose proof (zlen_nonneg args). assert (zlen pre = Z.of_nat k) as Kp by (unfold zlen; lia).
  replace (u64 (1 + (zlen pre + zlen args) - 1)) with (zlen pre + zlen args) by (rewrite u64_id; unfold W63, W64 in *; lia).
  destruct args as [|a args].
  - change (zlen []) with 0 in *. rewrite Z.add_0_r in *. destruct (Z.of_nat k + 1 <=? zlen pre) eqn:E; [lia|]. unfold bind, ret.
    rewrite real_args_default by lia. reflexivity.
  - rewrite zlen_cons in *. pose proof (zlen_nonneg args). destruct (Z.of_nat k + 1 <=? zlen pre + (1 + zlen args)) eqn:E; [|lia].
    assert (znth (Z.of_nat k + 1) (name :: pre ++ a :: args) = Some a) as Hn.
    { rewrite <- Kp. rewrite znth_cons. destruct (zlen pre + 1 =? 0) eqn:E0; [lia|]. replace (zlen pre + 1 - 1) with (zlen pre) by lia.
      rewrite znth_app. destruct (zlen pre <? zlen pre) eqn:E1; [lia|]. rewrite Z.sub_diag. reflexivity. }
    unfold bind at 1 2, nth_obj. rewrite Hn. unfold ret at 1 2.
    specialize (IH (S k) name (pre ++ [a]) args ltac:(rewrite app_length; cbn; lia)).
    rewrite <- app_assoc in IH. cbn [app] in IH. rewrite zlen_cons, zlen_app, zlen_cons in IH. unfold bind. rewrite IH by lia. rewrite takes_ok. reflexivity.
Qed.
Lemma invoke_called h si name args : accepts h args -> zlen args + 1 < W63 ->
  shows_answer h (h_fun h (receives tc si (h_types h) args)) (receives tc si (h_types h) args) (invoke tc h si (name :: args) tt).
Proof.
  intros [A1 A2] L. pose proof (zlen_nonneg args). unfold invoke. rewrite zlen_cons. replace (1 + zlen args - 1) with (zlen args) by lia.
  rewrite u64_id by (unfold W63, W64 in *; lia). destruct (_ || _) eqn:E; [lia|].
  pose proof (real_args_ok si (h_types h) 0 name [] args eq_refl) as R. cbn [app] in R. rewrite zlen_cons in R. specialize (R ltac:(lia)).
  unfold bind at 1. rewrite make_indices_seq, R. unfold shows_answer. destruct (h_fun h _) as [[v|]|e|]; try reflexivity.
  - intros o Ho. apply answers_ok in Ho. unfold bind. rewrite Ho. reflexivity.
  - intros S. unfold string_to_tcl. destruct (zlen e <? 2147483647) eqn:E2; [reflexivity|lia].
Qed.
Lemma invoke_refused h si name args : ~ accepts h args -> zlen args + 1 < W63 ->
  invoke tc h si (name :: args) tt = Ok (Outcome false (RWrongArgs (h_min h) (zlen args) (h_usage h)) None) tt.
Proof.
  intros A L. pose proof (zlen_nonneg args). unfold invoke. rewrite zlen_cons. replace (1 + zlen args - 1) with (zlen args) by lia.
  rewrite u64_id by (unfold W63, W64 in *; lia). destruct (_ || _) eqn:E; [reflexivity|]. destruct A. unfold accepts. lia.
Qed.
End Casts.

(** loadScript. *)
Lemma suffix_dec file : suffix_of dot_tcl file -> occurs dot_tcl file (zlen file - 4).
Proof. intros [r ->]. exists r, []. rewrite app_nil_r. split; [reflexivity|]. rewrite zlen_app. change (zlen dot_tcl) with 4. lia. Qed.
Lemma load_accepts mdiff eval file result : memcmp_ok mdiff -> bytes file -> zlen file < W63 -> suffix_of dot_tcl file ->
  load_script mdiff eval file result tt =
    Ok (match eval (upto_nul file) with Some e => (LoadError, e, Some (upto_nul file)) | None => (LoadOk, result, Some (upto_nul file)) end) tt.
Proof.
  intros Hm Hb Hl Hs. pose proof (suffix_dec file Hs) as Ho.
  assert (4 <= zlen file) as L by (destruct Hs as [r ->]; rewrite zlen_app; change (zlen dot_tcl) with 4; pose proof (zlen_nonneg r); lia).
  unfold load_script. rewrite u64_id by (unfold W63, W64 in *; lia).
  destruct (rfind_spec mdiff Hm file dot_tcl (zlen file - 4) Hb) as (r & E & F); [repeat constructor; lia|discriminate|unfold W63, W64 in *; lia|exact Hl|].
  unfold bind. rewrite E. destruct F as [[-> F]|[F _]].
  - specialize (F _ Ho). lia.
  - destruct (r =? npos) eqn:En; [unfold npos, W63, W64 in *; lia|]. destruct (eval (upto_nul file)); reflexivity.
Qed.
Lemma load_refuses mdiff eval file result : memcmp_ok mdiff -> bytes file -> zlen file < W63 -> ~ suffix_of dot_tcl file ->
  load_script mdiff eval file result tt = Ok (LoadWrongInterp, result, None) tt.
Proof.
  intros Hm Hb Hl Hs. pose proof (zlen_nonneg file). unfold load_script.
  destruct (rfind_spec mdiff Hm file dot_tcl (u64 (zlen file - 4)) Hb) as (r & E & F); [repeat constructor; lia|discriminate|apply u64_range|exact Hl|].
  unfold bind. rewrite E. destruct F as [[-> F]|[F [(pre & post & E1 & E2) [F2 _]]]]; [reflexivity|]. exfalso.
  assert (zlen file = r + 4 + zlen post) as Lf by (rewrite E1, !zlen_app; change (zlen dot_tcl) with 4; lia).
  pose proof (zlen_nonneg post). pose proof (zlen_nonneg pre). rewrite u64_id in F2 by (unfold W63, W64 in *; lia).
  assert (post = []) as -> by (apply zlen_0_nil; lia). apply Hs. exists pre. rewrite E1, app_nil_r. reflexivity.
Qed.
