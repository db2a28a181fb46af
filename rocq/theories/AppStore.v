(** Proofs: a String that is encoded and saved is found again. *)
From stdpp Require Import gmap.
From Verif Require Import Base RcaSpec RcaModel RcaExec RcaOwn RcaRel RcaMeet RcaReach StrSpec NestModel HsModel PtSpec PtModel PtMeet B64Spec LibSpec LibModel LibMeet LibProof AppSpec AppModel AppMeet AppProof.
From Verif Require RcaFacts StreamModel MstSpec MstMeet MstProof MfSpec MfModel MfMeet MfProof.
Open Scope Z_scope.

Lemma full_text b x rm l : b !! x = Some (AVal rm (map Some l)) -> full b x = Some l.
Proof. intros E. unfold full. rewrite E. apply RcaFacts.vals_map. Qed.
Lemma text_text (b : astate Z) x rm l : b !! x = Some (AVal rm (map Some l)) -> MstSpec.text b x = Some (rm, l).
Proof. intros E. unfold MstSpec.text. rewrite E, RcaFacts.vals_map. reflexivity. Qed.
Lemma not_spare o x : x ∈ MfSpec.finvolved o -> negb (Pos.eqb x (spare o)) = true.
Proof. intros H. apply negb_true_iff, Pos.eqb_neq. intros ->. exact (spare_new o H). Qed.
Lemma unused_ok o (b : astate Z) x : x ∈ MfSpec.finvolved o -> b !! x = None -> MstSpec.unused (spare o) b x = true.
Proof. intros H E. unfold MstSpec.unused, fresh_var. rewrite E. apply not_spare, H. Qed.
Lemma plain_ok o (m : gmap positive Z) x : x ∈ MfSpec.finvolved o -> m !! x = None -> MstSpec.plain (spare o) m x = true.
Proof. intros H E. unfold MstSpec.plain. rewrite E. apply not_spare, H. Qed.

Section Store.
Variable d : desc Z.
Hypothesis Hwf : wf_desc d.
Hypothesis Hnul : d_nul d = Some 0.
Hypothesis Heqb : forall b c, d_eqb d b c = (b =? c).
Variable mdiff : Z -> Z -> Z.
Hypothesis Hm : memcmp_ok mdiff.
Variable grow : Z -> Z -> option Z.
Variable el : positive -> nat -> positive.
Hypothesis Hel : forall j k k', el j k = el j k' -> k = k'.
Variable upper : Z -> Z.
Variable junk : Z -> Z.
Variable mm : bool.
Notation arel := (arel d).
Notation aexec := (aexec d mdiff grow el upper junk mm).
Notation step := (RcaMeet.step d).

Lemma goes c e q w v q' : arel q w -> MfMeet.sane (e_sys e) -> acap c q 0 -> aexec c e q = Ok v q' -> apre step el upper mm (lucky mm c e w) 0 c w ->
  exists w' v', apost step el upper mm (lucky mm c e w) 0 c w v' w' /\ aout_le v' v /\ arel q' w'.
Proof.
  intros HA Hx Hc E Pre. pose proof (aexec_ok d Hwf Hnul Heqb mdiff Hm grow el Hel upper junk mm c e q w 0 HA Hx Hc Pre) as K. unfold adoes in K. rewrite E in K. exact (proj2 K).
Qed.
(** A name without text is no Stream either. *)
Lemma cur_none q w k : arel q w -> w_strs (w_lib w) !! k = None -> w_cur w !! k = None.
Proof. intros HA E. destruct (w_cur w !! k) as [p|] eqn:P; [|reflexivity]. destruct (ar_live _ _ _ HA k p P) as ((v & Ev) & _). rewrite E in Ev. discriminate. Qed.
Lemma off_two c (m : gmap positive Z) x y : l_arrays c = [] -> l_strings c = [x; y] -> m !! x = None -> m !! y = None -> off_streams el c m.
Proof.
  intros A S X Y k [p E]. rewrite A, S. split; [|intros j n H; inversion H]. intros H. apply elem_of_cons in H as [->|H]; [congruence|].
  apply elem_of_cons in H as [->|H]; [congruence|inversion H].
Qed.

(** Encoding [x] as [r], making Stream [k] of it, saving that under the name in [y]. *)
Theorem encoded_saved q w x r k y l n e1 e2 e3 g q1 q2 q3 :
  arel q w -> MfMeet.sane (e_sys e1) -> MfMeet.sane (e_sys e2) -> MfMeet.sane (e_sys e3) ->
  full (w_strs (w_lib w)) x = Some l -> bytes l -> MstSpec.text (w_strs (w_lib w)) y = Some (true, n) -> w_cur w !! x = None -> w_cur w !! y = None ->
  w_strs (w_lib w) !! r = None -> w_strs (w_lib w) !! k = None -> r <> k ->
  aexec (ALib (LEncode r x)) e1 q = Ok (XLib LVoid) q1 -> aexec (AFile (MfSpec.FDo (MstSpec.MFrom false k r))) e2 q1 = Ok (XFile MstSpec.MNone) q2 ->
  aexec (AFile (MfSpec.FSave g k y)) e3 q2 = Ok (XFile (MstSpec.MInt 0)) q3 -> a_disk q3 !! MfSpec.file_name n = Some (enc64 std_alpha l).
Proof.
  intros HA S1 S2 S3 X B Y Cx Cy R K N E1 E2 E3. pose proof (cur_none q w r HA R) as Cr. pose proof (cur_none q w k HA K) as Ck.
  assert (Yr : y <> r /\ y <> k) by (unfold MstSpec.text in Y; split; intros ->; rewrite ?R, ?K in Y; discriminate). destruct Yr as [Yr Yk].
  destruct (goes (ALib (LEncode r x)) e1 q w _ q1 HA S1 I E1) as (w1 & v1 & (o1 & l1 & Po & _ & ->) & _ & H1).
  { split; [split; [exists l; auto|exact R]|]. apply (off_two _ _ r x); auto. }
  destruct Po as (_ & Po). destruct (Po l X) as (rm & ->). set (b1 := <[r := AVal rm (map Some (enc64 std_alpha l))]> (w_strs (w_lib w))) in *.
  assert (T1 : tstep step mm MfSpec.Good 0 (MfSpec.FDo (MstSpec.MFrom false k r)) (with_lib w (with_strs (w_lib w) b1)) =
    Some (MfSpec.FRet (<[k := AVal rm (map Some (enc64 std_alpha l))]> b1) (<[k := 0]> (w_cur w)) (eq (w_disk w)) MstSpec.MNone)).
  { unfold tstep. cbn [with_lib with_strs w_lib w_strs w_cur w_disk MfSpec.fstep MstSpec.mstep]. unfold holds. replace (b1 !! r) with (Some (AVal rm (map Some (enc64 std_alpha l)))) by (unfold b1; rewrite lookup_insert; reflexivity).
    rewrite unused_ok, plain_ok; [reflexivity|cbn; set_solver|exact Cr|cbn; set_solver|unfold b1; rewrite lookup_insert_ne by congruence; exact K]. }
  destruct (goes (AFile (MfSpec.FDo (MstSpec.MFrom false k r))) e2 q1 _ _ q2 H1 S2 I E2) as (w2 & v2 & (b2 & m2 & F2 & fs2 & r2 & T2 & HF2 & _ & ->) & _ & H2).
  { eexists. exact T1. }
  cbn [lucky MfMeet.luck_of] in T2. rewrite T1 in T2. injection T2 as <- <- <- <-. subst fs2.
  set (b2 := <[k := AVal rm (map Some (enc64 std_alpha l))]> b1) in *. set (w2 := with_files (with_lib w (with_strs (w_lib w) b1)) b2 (<[k := 0]> (w_cur w)) (w_disk w)) in *.
  assert (Hk : MstSpec.strm (w_strs (w_lib w2)) (w_cur w2) k = Some (rm, enc64 std_alpha l, 0)).
  { unfold MstSpec.strm. cbn [w2 with_files with_lib w_lib with_strs w_strs w_cur]. rewrite (text_text b2 k rm (enc64 std_alpha l)), lookup_insert by (unfold b2; apply lookup_insert). reflexivity. }
  assert (Hy : MstSpec.text (w_strs (w_lib w2)) y = Some (true, n)).
  { unfold MstSpec.text in *. cbn [w2 with_files with_lib w_lib with_strs w_strs]. unfold b2, b1. rewrite !lookup_insert_ne by congruence. exact Y. }
  assert (Hp : MstSpec.plain (spare (MfSpec.FSave g k y)) (w_cur w2) y = true).
  { apply plain_ok; [cbn; set_solver|]. cbn [w2 with_files w_cur]. rewrite lookup_insert_ne by congruence. exact Cy. }
  destruct (goes (AFile (MfSpec.FSave g k y)) e3 q2 w2 _ q3 H2 S3 I E3) as (w3 & v3 & (b3 & m3 & F3 & fs3 & r3 & T3 & HF3 & -> & ->) & Le & H3).
  { cbn [apre]. unfold tstep. cbn [MfSpec.fstep]. rewrite Hk, Hy, Hp. cbn [need]. destruct (lucky mm (AFile (MfSpec.FSave g k y)) e3 w2); eexists; reflexivity. }
  unfold tstep in T3. cbn [MfSpec.fstep] in T3. rewrite Hk, Hy, Hp in T3. cbn [need] in T3. rewrite (ar_disk _ _ _ H3). cbn [with_files w_disk].
  destruct (lucky mm (AFile (MfSpec.FSave g k y)) e3 w2); injection T3 as <- <- <- <-; try discriminate Le. subst fs3. apply lookup_insert.
Qed.
(** Loading that into a new Stream [j], taking its text as [z], decoding that as [u]. *)
Theorem loaded_decoded q w y j z u l n e1 e2 e3 e4 g q1 q2 q3 q4 :
  arel q w -> MfMeet.sane (e_sys e1) -> MfMeet.sane (e_sys e2) -> MfMeet.sane (e_sys e3) -> MfMeet.sane (e_sys e4) -> (mm = true \/ MfModel.x_err (e_sys e2) = None) ->
  a_disk q !! MfSpec.file_name n = Some (enc64 std_alpha l) -> bytes l -> MstSpec.text (w_strs (w_lib w)) y = Some (true, n) -> w_cur w !! y = None ->
  w_strs (w_lib w) !! j = None -> w_strs (w_lib w) !! z = None -> w_strs (w_lib w) !! u = None -> NoDup [j; z; u] ->
  aexec (AFile (MfSpec.FDo (MstSpec.MNew j))) e1 q = Ok (XFile MstSpec.MNone) q1 -> aexec (AFile (MfSpec.FLoad g j y)) e2 q1 = Ok (XFile (MstSpec.MInt 0)) q2 ->
  aexec (AFile (MfSpec.FDo (MstSpec.MTake MstSpec.GString z j))) e3 q2 = Ok (XFile MstSpec.MNone) q3 -> aexec (ALib (LDecode u z)) e4 q3 = Ok (XLib LVoid) q4 ->
  exists w4, arel q4 w4 /\ full (w_strs (w_lib w4)) u = Some l /\ forall x, x <> j -> x <> z -> x <> u -> w_strs (w_lib w4) !! x = w_strs (w_lib w) !! x.
Proof.
  intros HA S1 S2 S3 S4 Herr Hf B Y Cy J Z U ND E1 E2 E3 E4. rewrite (ar_disk _ _ _ HA) in Hf.
  assert (Hd : j <> z /\ j <> u /\ z <> u). { inversion ND as [|? ? N1 ND1]; subst. inversion ND1 as [|? ? N2 _]; subst. set_solver. } destruct Hd as (Jz & Ju & Zu).
  assert (Yr : y <> j /\ y <> z /\ y <> u) by (unfold MstSpec.text in Y; repeat split; intros ->; rewrite ?J, ?Z, ?U in Y; discriminate). destruct Yr as (Yj & Yz & Yu).
  pose proof (cur_none q w z HA Z) as Cz. pose proof (cur_none q w u HA U) as Cu. set (b := w_strs (w_lib w)) in *.
  assert (T1 : tstep step mm MfSpec.Good 0 (MfSpec.FDo (MstSpec.MNew j)) w = Some (MfSpec.FRet (<[j := AVal true []]> b) (<[j := 0]> (w_cur w)) (eq (w_disk w)) MstSpec.MNone)).
  { unfold tstep. cbn [MfSpec.fstep MstSpec.mstep]. rewrite unused_ok; [reflexivity|cbn; set_solver|exact J]. }
  destruct (goes (AFile (MfSpec.FDo (MstSpec.MNew j))) e1 q w _ q1 HA S1 I E1) as (w1 & v1 & (b1' & m1 & F1 & fs1 & r1 & T1' & HF1 & _ & ->) & _ & H1).
  { eexists. exact T1. }
  cbn [lucky MfMeet.luck_of] in T1'. rewrite T1 in T1'. injection T1' as <- <- <- <-. subst fs1.
  set (b1 := <[j := AVal true []]> b) in *. set (w1 := with_files w b1 (<[j := 0]> (w_cur w)) (w_disk w)) in *.
  assert (Hj : MstSpec.strm (w_strs (w_lib w1)) (w_cur w1) j = Some (true, [], 0)).
  { unfold MstSpec.strm, MstSpec.text. cbn [w1 with_files w_lib with_strs w_strs w_cur]. unfold b1. rewrite !lookup_insert. reflexivity. }
  assert (Hy : MstSpec.text (w_strs (w_lib w1)) y = Some (true, n)).
  { unfold MstSpec.text in *. cbn [w1 with_files w_lib with_strs w_strs]. unfold b1. rewrite !lookup_insert_ne by congruence. exact Y. }
  assert (Hp : MstSpec.plain (spare (MfSpec.FLoad g j y)) (w_cur w1) y = true).
  { apply plain_ok; [cbn; set_solver|]. cbn [w1 with_files w_cur]. rewrite lookup_insert_ne by congruence. exact Cy. }
  assert (Hf1 : w_disk w1 !! MfSpec.file_name n = Some (enc64 std_alpha l)) by exact Hf.
  set (lk := lucky mm (AFile (MfSpec.FLoad g j y)) e2 w1) in *.
  assert (Hlk : match lk with MfSpec.Part _ => False | _ => True end).
  { unfold lk. cbn [lucky MfMeet.luck_of]. unfold MfMeet.luck_load. destruct Herr as [->|He]; [|rewrite He]; repeat match goal with |- context [if ?b then _ else _] => destruct b end; exact I. }
  destruct (goes (AFile (MfSpec.FLoad g j y)) e2 q1 w1 _ q2 H1 S2 I E2) as (w2 & v2 & (b2' & m2 & F2 & fs2 & r2 & T2 & HF2 & -> & ->) & Le & H2).
  { cbn [apre]. unfold tstep. cbn [MfSpec.fstep]. rewrite Hj, Hy, Hp, Hf1. cbn [need]. fold lk. destruct lk; try (eexists; reflexivity); destruct (mm && _); eexists; reflexivity. }
  fold lk in T2. unfold tstep in T2. cbn [MfSpec.fstep] in T2. rewrite Hj, Hy, Hp, Hf1 in T2. cbn [need] in T2.
  assert (T2' : Some (MfSpec.FRet (<[j := MstSpec.str_ true (enc64 std_alpha l)]> (w_strs (w_lib w1))) (<[j := 0]> (w_cur w1)) (eq (w_disk w1)) (MstSpec.MInt 0)) = Some (MfSpec.FRet b2' m2 F2 r2)).
  { destruct lk; try contradiction; cbn [MfSpec.readable] in T2; try (injection T2 as <- <- <- <-; discriminate Le).
    destruct (mm && _); [injection T2 as <- <- <- <-; discriminate Le|exact T2]. }
  clear T2. injection T2' as <- <- <- <-. subst fs2. clear Le.
  cbn [w1 with_files w_lib with_strs w_strs w_cur w_disk] in H2.
  set (b2 := <[j := MstSpec.str_ true (enc64 std_alpha l)]> b1) in *. set (w2 := with_files w1 b2 (<[j := 0]> (<[j := 0]> (w_cur w))) (w_disk w)) in *.
  assert (T3 : tstep step mm MfSpec.Good 0 (MfSpec.FDo (MstSpec.MTake MstSpec.GString z j)) w2 =
    Some (MfSpec.FRet (<[z := MstSpec.str_ true (enc64 std_alpha l)]> b2) (<[j := 0]> (w_cur w2)) (eq (w_disk w)) MstSpec.MNone)).
  { unfold tstep. cbn [MfSpec.fstep MstSpec.mstep]. cbn [w2 w1 with_files w_lib with_strs w_strs w_cur w_disk]. unfold MstSpec.strm. rewrite (text_text b2 j true (enc64 std_alpha l)), !lookup_insert by (unfold b2; apply lookup_insert). cbn [MstSpec.taken].
    rewrite unused_ok; [reflexivity|cbn; set_solver|]. unfold b2, b1. rewrite !lookup_insert_ne by congruence. exact Z. }
  destruct (goes (AFile (MfSpec.FDo (MstSpec.MTake MstSpec.GString z j))) e3 q2 w2 _ q3 H2 S3 I E3) as (w3 & v3 & (b3' & m3 & F3 & fs3 & r3 & T3' & HF3 & _ & ->) & _ & H3).
  { eexists. exact T3. }
  cbn [lucky MfMeet.luck_of] in T3'. rewrite T3 in T3'. injection T3' as <- <- <- <-. subst fs3.
  set (b3 := <[z := MstSpec.str_ true (enc64 std_alpha l)]> b2) in *. set (w3 := with_files w2 b3 (<[j := 0]> (w_cur w2)) (w_disk w)) in *.
  assert (Hz : full (w_strs (w_lib w3)) z = Some (enc64 std_alpha l)) by (apply (full_text _ _ true); cbn [w3 with_files w_lib with_strs w_strs]; unfold b3; apply lookup_insert).
  assert (Hu : w_strs (w_lib w3) !! u = None) by (cbn [w3 with_files w_lib with_strs w_strs]; unfold b3, b2, b1; rewrite !lookup_insert_ne by congruence; exact U).
  destruct (goes (ALib (LDecode u z)) e4 q3 w3 _ q4 H3 S4 I E4) as (w4 & v4 & (o4 & l4 & Po & _ & ->) & _ & H4).
  { split; [split; [exists l; auto|exact Hu]|]. apply (off_two _ _ u z); try reflexivity; cbn [w3 w2 w1 with_files w_cur]; rewrite !lookup_insert_ne by congruence; assumption. }
  destruct Po as (_ & Po). destruct (Po l Hz B) as (rm & ->). eexists. split; [exact H4|]. cbn [with_lib w_lib with_strs w_strs w3 w2 w1 with_files].
  split; [apply (full_text _ _ rm), lookup_insert|]. intros x X1 X2 X3. unfold b3, b2, b1. rewrite !lookup_insert_ne by congruence. reflexivity.
Qed.
End Store.
