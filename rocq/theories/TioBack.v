(** What is written to an ostream comes back from an istream. *)
From stdpp Require Import gmap.
From Verif Require Import Base RcaSpec RcaModel RcaExec RcaOwn RcaRel RcaMeet StrSpec LibSpec LibModel LibMeet LibProof AppSpec AppModel AppMeet AppProof IsSpec IsProof TioSpec TioModel TioMeet TioProof.
From Verif Require MstSpec MfSpec MfModel MfMeet.
Open Scope Z_scope.

Section Return.
Variable d : desc Z.
Hypothesis Hwf : wf_desc d.
Hypothesis Hnul : d_nul d = Some 0.
Hypothesis Heqb : forall b c, d_eqb d b c = (b =? c).
Variable mdiff : Z -> Z -> Z.
Hypothesis Hm : memcmp_ok mdiff.
Variable grow : Z -> Z -> option Z.
Variable el : positive -> nat -> positive.
Hypothesis Hel : forall j k k', el j k = el j k' -> k = k'.
Variable upper : Z -> Z.
Variable junk : Z -> Z.
Variable mm : bool.
Variable high : Z -> option bool.
Variable marks : bool.
Notation trel := (trel d).
Notation texec := (texec d mdiff grow el upper junk mm high marks).
Notation step := (RcaMeet.step d).

Lemma returned c e q w v q' : trel q w -> MfMeet.sane (e_sys e) -> tcap c q 0 -> texec c e q = Ok v q' -> tpre step el upper mm high (tlucky mm c e w) 0 c w ->
  exists w' v', tpost step el upper mm (tlucky mm c e w) 0 c w v' w' /\ trel q' w'.
Proof.
  intros HT Hx Hc E Pre. pose proof (texec_ok d Hwf Hnul Heqb mdiff Hm grow el Hel upper junk mm high marks c e q w 0 HT Hx Hc Pre) as K. unfold tdoes in K. rewrite E in K.
  destruct K as (_ & w' & v' & Po & _ & H'). eauto.
Qed.
Lemma full_text (b : astate Z) x l : full (<[x := AVal true (map Some l)]> b) x = Some l.
Proof. unfold full. rewrite lookup_insert, RcaFacts.vals_map. reflexivity. Qed.

(** o << x << '\n' << y; i(o.str()); getline(i, u); getline(i, v); *)
Theorem lines_back q w o i x y u v lx ly e q1 q2 q3 q4 q5 q6 q7 : trel q w -> MfMeet.sane (e_sys e) ->
  s_out w !! o = None -> s_in w !! i = None -> full (texts w) x = Some lx -> full (texts w) y = Some ly -> w_cur (s_app w) !! x = None -> w_cur (s_app w) !! y = None ->
  is_Some (texts w !! u) -> is_Some (texts w !! v) -> w_cur (s_app w) !! u = None -> w_cur (s_app w) !! v = None -> u <> v -> ~ In 10 lx -> ~ In 10 ly ->
  texec (TOut o) e q = Ok ZVoid q1 -> texec (TWrite o x) e q1 = Ok ZVoid q2 -> texec (TPut o 10) e q2 = Ok ZVoid q3 -> texec (TWrite o y) e q3 = Ok ZVoid q4 ->
  texec (TBack i o) e q4 = Ok ZVoid q5 -> texec (TRead true i u) e q5 = Ok ZVoid q6 -> texec (TRead true i v) e q6 = Ok ZVoid q7 ->
  exists w', trel q7 w' /\ full (texts w') u = Some lx /\ full (texts w') v = Some ly /\ s_in w' !! i = Some Failed /\ s_out w' !! o = Some (lx ++ 10 :: ly) /\
    forall z, z <> u -> z <> v -> texts w' !! z = texts w !! z.
Proof.
  intros HT Hx Ho Hi Fx Fy Cx Cy Su Sv Cu Cv N Nx Ny E1 E2 E3 E4 E5 E6 E7.
  destruct (returned (TOut o) e q w _ _ HT Hx I E1 Ho) as (w1 & v1 & (_ & ->) & H1).
  destruct (returned (TWrite o x) e q1 _ _ _ H1 Hx I E2) as (w2 & v2 & (_ & t2 & l2 & O2 & F2 & ->) & H2).
  { split; [cbn [s_out]; rewrite lookup_insert; eauto|]. split; [exact Cx|]. exists lx. exact Fx. }
  cbn [s_out] in O2. rewrite lookup_insert in O2. injection O2 as <-. change (full (texts w) x = Some l2) in F2. rewrite Fx in F2. injection F2 as <-. cbn [app s_app s_in s_out] in H2. rewrite insert_insert in H2.
  destruct (returned (TPut o 10) e q2 _ _ _ H2 Hx I E3) as (w3 & v3 & (_ & t3 & O3 & ->) & H3).
  { cbn [tpre s_out]. rewrite lookup_insert. eauto. }
  cbn [s_out] in O3. rewrite lookup_insert in O3. injection O3 as <-. cbn [app s_app s_in s_out] in H3. rewrite insert_insert in H3.
  destruct (returned (TWrite o y) e q3 _ _ _ H3 Hx I E4) as (w4 & v4 & (_ & t4 & l4 & O4 & F4 & ->) & H4).
  { split; [cbn [s_out]; rewrite lookup_insert; eauto|]. split; [exact Cy|]. exists ly. exact Fy. }
  cbn [s_out] in O4. rewrite lookup_insert in O4. injection O4 as <-. change (full (texts w) y = Some l4) in F4. rewrite Fy in F4. injection F4 as <-. cbn [app s_app s_in s_out] in H4. rewrite insert_insert in H4.
  rewrite <- app_assoc in H4. cbn [app] in H4.
  destruct (returned (TBack i o) e q4 _ _ _ H4 Hx I E5) as (w5 & v5 & (_ & t5 & O5 & ->) & H5).
  { split; [exact Hi|]. cbn [s_out]. rewrite lookup_insert. eauto. }
  cbn [s_out] in O5. rewrite lookup_insert in O5. injection O5 as <-. cbn [s_app s_in s_out] in H5.
  destruct (returned (TRead true i u) e q5 _ _ _ H5 Hx I E6) as (w6 & v6 & (_ & s6 & l6 & s6' & f6 & I6 & R6 & ->) & H6).
  { split; [exact Su|]. split; [exact Cu|]. eexists. split; [cbn [s_in]; apply lookup_insert|discriminate]. }
  cbn [s_in] in I6. rewrite lookup_insert in I6. injection I6 as <-. destruct (reads_one _ _ _ _ _ _ _ _ R6 (reads_line lx ly Nx)) as [-> ->]. unfold with_text in H6. cbn [s_app s_in s_out] in H6. rewrite insert_insert in H6.
  destruct (returned (TRead true i v) e q6 _ _ _ H6 Hx I E7) as (w7 & v7 & (_ & s7 & l7 & s7' & f7 & I7 & R7 & ->) & H7).
  { split; [|split; [exact Cv|eexists; split; [cbn [s_in]; apply lookup_insert|discriminate]]]. unfold texts. cbn [s_app with_files w_lib with_strs w_strs]. rewrite lookup_insert_ne by exact N. exact Sv. }
  cbn [s_in] in I7. rewrite lookup_insert in I7. injection I7 as <-. destruct (reads_one _ _ _ _ _ _ _ _ R7 (reads_last ly Ny)) as [-> ->].
  eexists. split; [exact H7|]. unfold with_text, texts. cbn [s_app s_in s_out with_files w_lib with_strs w_strs].
  split; [unfold full; rewrite lookup_insert_ne by congruence; apply full_text|]. split; [apply full_text|]. split; [apply lookup_insert|]. split; [apply lookup_insert|].
  intros z Nu Nv. rewrite !lookup_insert_ne by congruence. reflexivity.
Qed.
End Return.
