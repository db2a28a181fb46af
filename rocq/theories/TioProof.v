(** Proofs for TioMeet. *)
From stdpp Require Import gmap.
From Verif Require Import Base RcaSpec RcaModel RcaExec RcaOwn RcaRel RcaMeet RcaReach StreamModel StrSpec NestModel HsModel PtSpec PtModel PtMeet PtProof LibSpec LibModel LibMeet LibProof AlgMeet AppSpec AppModel AppMeet AppProof
  IsSpec IsModel IsProof IshModel IshMeet IshProof OsSpec OsModel OsProof TioSpec TioModel TioMeet.
From Verif Require MstSpec MstModel MstMeet MstProof MfSpec MfModel MfMeet MfProof NestSim.
Open Scope Z_scope.

(** Every istream can be read from, in one way. *)
Lemma reads_some line v : exists l v' f, reads line v l v' f.
Proof.
  destruct v as [t|]; [|do 3 eexists; apply reads_none]. destruct line.
  - assert (~ In 10 t \/ exists l r, t = l ++ 10 :: r /\ ~ In 10 l) as [N|(l & r & -> & N)].
    { induction t as [|b t [IH|(l & r & -> & N)]]; [left; intros []| |].
      - destruct (Z.eq_dec b 10) as [->|Nb]; [right; exists [], t; split; [reflexivity|intros []]|]. left. intros [E|E]; [congruence|exact (IH E)].
      - right. destruct (Z.eq_dec b 10) as [->|Nb]; [exists [], (l ++ 10 :: r); split; [reflexivity|intros []]|]. exists (b :: l), r. split; [reflexivity|]. intros [E|E]; [congruence|exact (N E)]. }
    + do 3 eexists. apply reads_last. exact N.
    + do 3 eexists. apply reads_line. exact N.
  - assert (forall t, exists w r, t = w ++ r /\ List.Forall (fun b => ~ space b) w /\ match r with [] => True | b :: _ => space b end) as W.
    { clear t. induction t as [|b t (w & r & -> & F & R)]; [exists [], []; split; [reflexivity|split; [constructor|exact I]]|].
      destruct (blank b) eqn:B; [exists [], (b :: w ++ r); split; [reflexivity|split; [constructor|apply blank_space, B]]|].
      exists (b :: w), r. split; [reflexivity|]. split; [constructor; [|exact F]|exact R]. intros S. apply blank_space in S. congruence. }
    assert (exists bl t', t = bl ++ t' /\ List.Forall space bl /\ match t' with [] => True | b :: _ => ~ space b end) as (bl & t' & -> & Fb & N).
    { clear W. induction t as [|b t (bl & t' & -> & F & N)]; [exists [], []; split; [reflexivity|split; [constructor|exact I]]|].
      destruct (blank b) eqn:B; [exists (b :: bl), t'; split; [reflexivity|split; [constructor; [apply blank_space, B|exact F]|exact N]]|].
      exists [], (b :: bl ++ t'). split; [reflexivity|]. split; [constructor|]. intros S. apply blank_space in S. congruence. }
    destruct t' as [|b t']; [rewrite app_nil_r; do 3 eexists; apply reads_blank; exact Fb|].
    destruct (W (b :: t')) as (w & r & E & F & R). do 3 eexists. apply (reads_word _ bl w r). split; [rewrite E; reflexivity|]. split; [exact Fb|]. split; [exact F|]. split; [|exact R].
    intros ->. cbn in E. subst r. exact (N R).
Qed.
Lemma span_eq {P : Z -> Prop} (HP : forall b, P b \/ ~ P b) : forall w1 r1 w2 r2, w1 ++ r1 = w2 ++ r2 -> List.Forall P w1 -> List.Forall P w2 ->
  match r1 with [] => True | b :: _ => ~ P b end -> match r2 with [] => True | b :: _ => ~ P b end -> w1 = w2 /\ r1 = r2.
Proof.
  induction w1 as [|b w1 IH]; intros r1 [|c w2] r2 E F1 F2 N1 N2; cbn [app] in E.
  - auto.
  - subst r1. inversion F2. contradiction.
  - subst r2. inversion F1. contradiction.
  - injection E as <- E. inversion F1; inversion F2; subst. destruct (IH _ _ _ E) as [-> ->]; auto.
Qed.
Lemma word_one t b1 w1 r1 b2 w2 r2 : word_first t b1 w1 r1 -> word_first t b2 w2 r2 -> w1 = w2 /\ r1 = r2.
Proof.
  assert (D : forall b, space b \/ ~ space b) by (intros b; unfold space; lia). assert (D' : forall b, ~ space b \/ ~ ~ space b) by (intros b; unfold space; lia).
  intros (E & B1 & W1 & N1 & R1) (E2 & B2 & W2 & N2 & R2). rewrite E in E2.
  assert (forall w r, List.Forall (fun b => ~ space b) w -> w <> [] -> match w ++ r with [] => True | b :: _ => ~ space b end) as Hd.
  { intros [|b w] r F N; [contradiction|]. inversion F; assumption. }
  destruct (span_eq D b1 (w1 ++ r1) b2 (w2 ++ r2) E2 B1 B2 (Hd _ _ W1 N1) (Hd _ _ W2 N2)) as [-> E3].
  apply (span_eq D' _ _ _ _ E3 W1 W2); [destruct r1 as [|b r1]; [exact I|intros X; exact (X R1)]|destruct r2 as [|b r2]; [exact I|intros X; exact (X R2)]].
Qed.
Lemma word_blank t b w r : word_first t b w r -> ~ List.Forall space t.
Proof.
  intros (-> & _ & W & N & _) F. destruct w as [|c w]; [contradiction|]. inversion W as [|c0 w0 Hc _]; subst. apply Hc. apply (proj1 (List.Forall_forall _ _) F). apply in_or_app. right. left. reflexivity.
Qed.
Lemma line_one l1 r1 l2 r2 : l1 ++ 10 :: r1 = l2 ++ 10 :: r2 -> ~ In 10 l1 -> ~ In 10 l2 -> l1 = l2 /\ r1 = r2.
Proof.
  intros E N1 N2. assert (forall l, ~ In 10 l -> List.Forall (fun b => b <> 10) l) as F by (intros l N; apply List.Forall_forall; intros b I ->; contradiction).
  destruct (span_eq (P := fun b => b <> 10) ltac:(intros b; destruct (Z.eq_dec b 10); [right; intros X; contradiction|left; assumption]) _ _ _ _ E (F _ N1) (F _ N2)) as [-> E2]; [intros X; apply X; reflexivity..|]. injection E2 as ->. auto.
Qed.
Lemma reads_one line v l1 v1 f1 l2 v2 f2 : reads line v l1 v1 f1 -> reads line v l2 v2 f2 -> l1 = l2 /\ v1 = v2.
Proof.
  assert (M : forall l r, ~ ~ In 10 (l ++ 10 :: r)) by (intros l r N; apply N, in_or_app; right; left; reflexivity).
  intros H1. remember v as v0 eqn:Ev. destruct H1 as [t b w r W|t F|l r N|l N|b]; intros H2; inversion H2; subst; try (split; reflexivity); try discriminate.
  - match goal with W2 : word_first _ _ _ _ |- _ => destruct (word_one _ _ _ _ _ _ _ W W2) as [-> ->]; auto end.
  - exfalso. eapply word_blank; eassumption.
  - exfalso. eapply word_blank; eassumption.
  - match goal with E : _ ++ 10 :: _ = _ ++ 10 :: _, N2 : ~ In 10 l2 |- _ => symmetry in E; destruct (line_one _ _ _ _ E N N2) as [-> ->]; auto | E : _ ++ 10 :: _ = _ ++ 10 :: _, N2 : ~ In 10 l2 |- _ => destruct (line_one _ _ _ _ E N2 N) as [-> ->]; auto end.
  - exfalso. eapply M; eassumption.
  - exfalso. eapply M; eassumption.
Qed.

Section Proof.
Variable d : desc Z.
Hypothesis Hwf : wf_desc d.
Hypothesis Hnul : d_nul d = Some 0.
Hypothesis Heqb : forall b c, d_eqb d b c = (b =? c).
Variable mdiff : Z -> Z -> Z.
Hypothesis Hm : memcmp_ok mdiff.
Variable grow : Z -> Z -> option Z.
Variable el : positive -> nat -> positive.
Hypothesis Hel : forall j k k', el j k = el j k' -> k = k'.
Variable upper : Z -> Z.
Variable junk : Z -> Z.
Variable mm : bool.
Variable high : Z -> option bool.
Variable marks : bool.
Notation trel := (trel d).
Notation tdoes := (tdoes d mdiff grow el upper junk mm high marks).
Notation texec := (texec d mdiff grow el upper junk mm high marks).
Notation step := (RcaMeet.step d).

Lemma with_same q w : arel d q w -> forall s' a, PtProof.pr d a (heap_of q) (snd (m_pt (a_lib q))) (w_maps (w_lib w)) (w_strs (w_lib w)) -> reached d s' a -> arel d (with_heap q s') w.
Proof.
  intros HA s' a P H'. destruct HA as [(_ & L & B) Hl Ho Hd Hs]. constructor; unfold with_heap; cbn [put_back a_lib a_streams a_disk]; try assumption.
  split; [|split; assumption]. eapply pr_prel, pr_user; [exact P|exact H'|exact (pr_pulls _ _ _ _ _ _ P)|apply NestSim.keeps_refl].
Qed.
Lemma with_new q w x v : arel d q w -> forall s' a, PtProof.pr d a (heap_of q) (snd (m_pt (a_lib q))) (w_maps (w_lib w)) (w_strs (w_lib w)) -> reached d s' (<[str x := v]> a) ->
  arel d (with_heap q s') (with_files w (<[x := v]> (w_strs (w_lib w))) (w_cur w) (w_disk w)).
Proof.
  intros HA s' a P H'. destruct HA as [(_ & L & B) Hl Ho Hd Hs]. constructor; unfold with_heap; cbn [put_back a_lib a_streams a_disk with_files w_lib w_cur w_disk with_strs w_maps w_lists w_strs w_lost]; try assumption.
  - split; [|split; assumption]. eapply pr_prel, pr_insert; eassumption.
  - intros k p E. destruct (Hl k p E) as (S & Hp & Hb). split; [|auto]. destruct (decide (x = k)) as [->|N]; [rewrite lookup_insert; eauto|rewrite lookup_insert_ne by exact N; exact S].
Qed.
Lemma in_upd q w i st v : (forall i, match t_ins q !! i, s_in w !! i with Some st, Some v => is_input st v | None, None => True | _, _ => False end) -> is_input st v ->
  forall j, match <[i := st]> (t_ins q) !! j, <[i := v]> (s_in w) !! j with Some st, Some v => is_input st v | None, None => True | _, _ => False end.
Proof. intros H I j. destruct (decide (i = j)) as [->|N]; [rewrite !lookup_insert; exact I|rewrite !lookup_insert_ne by exact N; apply H]. Qed.
Lemma out_upd q w o t : (forall o, t_outs q !! o = an_output <$> s_out w !! o) -> forall j, <[o := an_output t]> (t_outs q) !! j = an_output <$> <[o := t]> (s_out w) !! j.
Proof. intros H j. destruct (decide (o = j)) as [->|N]; [rewrite !lookup_insert; reflexivity|rewrite !lookup_insert_ne by exact N; apply H]. Qed.
Lemma in_at q w i v : trel q w -> s_in w !! i = Some v -> exists st, t_ins q !! i = Some st /\ is_input st v.
Proof. intros [_ H _] E. specialize (H i). rewrite E in H. destruct (t_ins q !! i) as [st|]; [eauto|contradiction]. Qed.
Lemma out_at q w o t : trel q w -> s_out w !! o = Some t -> t_outs q !! o = Some (an_output t).
Proof. intros [_ _ H] E. rewrite H, E. reflexivity. Qed.

(** What reading does, in terms of the specification. *)
Lemma reading line st v s a x t vx : is_input st v -> reached d s a -> a !! x = Some vx -> a !! t = None ->
  (line = false -> forall l v' f, reads false v l v' f -> classified high l) ->
  exists l v' f i' g, reads line v l v' f /\ delivers d (if line then hread_line d x t else hread_word d high x t) st s a x l i' g /\ is_input i' v' /\ (v <> Failed -> forall l2, g l2 = IS (f l2) false false false true) /\ (v = Failed -> l = []).
Proof.
  intros Hi H Hx Ht Hc. destruct (reads_some line v) as (l & v' & f & R). destruct R as [text blanks word rest W|text F|ln rest N|ln N|b].
  - cbn in Hi. subst st. do 5 eexists. split; [exact (reads_word _ _ _ _ W)|]. split; [exact (word_delivers d Hwf Hnul high s a x t vx _ _ _ _ H Hx Ht W (Hc eq_refl _ _ _ (reads_word _ _ _ _ W)))|].
    split; [destruct rest; reflexivity|]. split; [reflexivity|discriminate].
  - cbn in Hi. subst st. do 5 eexists. split; [apply reads_blank; exact F|]. split; [eapply (none_delivers d Hwf Hnul high s a x t vx text IsProof.fresh); assumption|]. split; [reflexivity|]. split; [reflexivity|discriminate].
  - cbn in Hi. subst st. do 5 eexists. split; [apply reads_line; exact N|]. split; [eapply line_delivers; eassumption|]. split; [reflexivity|]. split; [reflexivity|discriminate].
  - cbn in Hi. subst st. do 5 eexists. split; [apply reads_last; exact N|]. split; [eapply last_line_delivers; eassumption|]. split; [reflexivity|]. split; [reflexivity|discriminate].
  - cbn in Hi. assert (G : is_good st = false) by (unfold is_good; rewrite Hi; destruct (is_eof st); reflexivity).
    destruct (bad_delivers d Hwf Hnul high s a x t vx st IsProof.fresh H Hx Ht G) as [D1 D2]. exists [], Failed, (fun w2 => w2), (setstate false true st), IsProof.fresh.
    split; [apply reads_none|]. split; [destruct b; assumption|]. split; [cbn; apply orb_true_r|]. split; [contradiction|reflexivity].
Qed.
Lemma read_ok line i x e q w cap : trel q w -> tpre step el upper mm high (tlucky mm (TRead line i x) e w) cap (TRead line i x) w -> tdoes cap (TRead line i x) e q w.
Proof.
  intros HT ((vx & Hx) & Hc & v & Hv & Hcl). destruct (in_at q w i v HT Hv) as (st & Hst & Hi). pose proof HT as [HA HI HO].
  destruct (to_files d Hwf el Hel (t_app q) (s_app w) HA) as (a & P & HF). pose proof (pr_pulls _ _ _ _ _ _ P) as Pu.
  pose proof (MstMeet.mr_tmp _ _ _ _ _ (MfMeet.fr_mem _ _ _ _ _ _ HF)) as Ht. assert (Hxa : a !! str x = Some vx) by (rewrite Pu; exact Hx).
  destruct (reading line st v (heap_of (t_app q)) a (str x) (spare_var (heap_of (t_app q))) vx Hi (proj1 P) Hxa Ht Hcl) as (l & v' & f & i' & g & R & D & Hi' & Hg & Hl0).
  unfold TioMeet.tdoes. cbn [TioModel.texec]. unfold bind, get_in. rewrite Hst. unfold delivers in D.
  destruct ((if line then hread_line d (str x) (spare_var (heap_of (t_app q))) else hread_word d high (str x) (spare_var (heap_of (t_app q)))) (st, heap_of (t_app q))) as [u [j s']|ex [j s']| | |u]; try contradiction.
  - destruct D as (-> & H' & _). split; [reflexivity|]. exists (with_text w x l i v'), ZVoid. split; [split; [reflexivity|]; exists v, l, v', f; auto|]. split; [reflexivity|].
    constructor; cbn [t_app t_ins t_outs with_text s_app s_in s_out]; [eapply with_new; eassumption|apply in_upd; assumption|exact HO].
  - destruct D as (-> & Nm & D). split; [symmetry; apply Z.add_0_r|]. split; [exists v, l, v', f; auto|]. destruct D as [(-> & H' & _)|(l1 & b & l2 & -> & -> & H' & _)].
    + exists w. split; [left; reflexivity|]. constructor; cbn [t_app t_ins t_outs]; [eapply with_same; eassumption|rewrite insert_id by exact Hst; exact HI|exact HO].
    + assert (v <> Failed) as Nf by (intros E; apply Hl0 in E; destruct l1; discriminate). exists (with_text w x l1 i (Open (f l2))). split; [right; exists v, l1, b, l2, v', f; auto|].
      constructor; cbn [t_app t_ins t_outs with_text s_app s_in s_out]; [eapply with_new; eassumption|apply in_upd; [exact HI|exact (Hg Nf l2)]|exact HO].
Qed.
Lemma app_ok c e q w cap : trel q w -> MfMeet.sane (e_sys e) -> tcap (TApp c) q cap -> tpre step el upper mm high (tlucky mm (TApp c) e w) cap (TApp c) w -> tdoes cap (TApp c) e q w.
Proof.
  intros [HA HI HO] Hx Hc Pre. pose proof (aexec_ok d Hwf Hnul Heqb mdiff Hm grow el Hel upper junk mm c e (t_app q) (s_app w) cap HA Hx Hc Pre) as K.
  unfold TioMeet.tdoes. cbn [TioModel.texec]. unfold AppMeet.adoes in K. destruct (aexec d mdiff grow el upper junk mm c e (t_app q)) as [v a|[|] a| | |u]; try contradiction.
  - destruct K as (Fd & w' & v' & Po & Le & H'). split; [exact Fd|]. exists (with_app w w'), (ZApp v'). split; [exists v', w'; auto|]. split; [exact Le|]. constructor; assumption.
  - destruct K as (Fd & w' & R & H'). split; [exact Fd|]. exists (with_app w w'). split; [exists w'; auto|]. constructor; assumption.
  - destruct K as (Fd & Sh & w' & F & H'). split; [exact Fd|]. split; [exact Sh|]. exists (with_app w w'). split; [exists w'; auto|]. constructor; assumption.
  - exact K.
Qed.
Lemma put_plain t l : insert_chars marks l (an_output t) = an_output (t ++ l).
Proof. rewrite chars_plain; [|reflexivity|cbn; lia|intros k _; reflexivity]. destruct l; [rewrite app_nil_r|]; reflexivity. Qed.
Lemma write_ok o x e q w cap : trel q w -> tpre step el upper mm high (tlucky mm (TWrite o x) e w) cap (TWrite o x) w -> tdoes cap (TWrite o x) e q w.
Proof.
  intros HT ((t & Ho) & Hc & l & Hl). pose proof (out_at q w o t HT Ho) as Hq. pose proof HT as [HA HI HO]. destruct (to_files d Hwf el Hel (t_app q) (s_app w) HA) as (a & P & HF).
  unfold texts in Hl. destruct (pr_full d _ _ _ _ _ _ _ P Hl) as (r & Xa).
  unfold TioMeet.tdoes. cbn [TioModel.texec]. unfold bind, get_out. rewrite Hq, (hput_is d Hwf marks _ a (str x) l _ (proj1 P) (ex_intro _ r Xa)), put_plain.
  split; [reflexivity|]. exists (Scene (s_app w) (s_in w) (<[o := t ++ l]> (s_out w))), ZVoid. split; [split; [reflexivity|]; exists t, l; auto|]. split; [reflexivity|].
  constructor; cbn [t_app t_ins t_outs s_app s_in s_out]; [eapply with_same; [exact HA|exact P|exact (proj1 P)]|exact HI|apply out_upd; exact HO].
Qed.
Theorem texec_ok c e q w cap : trel q w -> MfMeet.sane (e_sys e) -> tcap c q cap -> tpre step el upper mm high (tlucky mm c e w) cap c w -> tdoes cap c e q w.
Proof.
  intros HT Hx Hc Pre. destruct c as [c|i text|line i x|i|o|o x|o c|o|i o]; [eapply app_ok; eassumption| |eapply read_ok; eassumption| | |eapply write_ok; eassumption| | |];
    pose proof HT as [HA HI HO]; unfold TioMeet.tdoes; cbn [TioModel.texec tpre] in *; unfold bind, set_in, set_out, ret.
  - split; [reflexivity|]. eexists _, ZVoid. split; [split; reflexivity|]. split; [reflexivity|]. constructor; cbn [t_app t_ins t_outs s_app s_in s_out]; [exact HA|apply in_upd; [exact HI|reflexivity]|exact HO].
  - destruct Pre as (v & Hv). destruct (in_at q w i v HT Hv) as (st & Hst & Hi). unfold get_in. rewrite Hst. split; [reflexivity|]. eexists w, _. split; [split; [reflexivity|]; exists v; split; [exact Hv|reflexivity]|]. split; [|exact HT].
    destruct v as [t|]; cbn in Hi; [subst st; reflexivity|]. cbn. rewrite Hi. reflexivity.
  - split; [reflexivity|]. eexists _, ZVoid. split; [split; reflexivity|]. split; [reflexivity|]. constructor; cbn [t_app t_ins t_outs s_app s_in s_out]; [exact HA|exact HI|apply (out_upd q w o []); exact HO].
  - destruct Pre as (t & Ho). unfold get_out. rewrite (out_at q w o t HT Ho). split; [reflexivity|]. eexists _, ZVoid. split; [split; [reflexivity|]; exists t; split; [exact Ho|reflexivity]|]. split; [reflexivity|].
    constructor; cbn [t_app t_ins t_outs s_app s_in s_out]; [exact HA|exact HI|]. pose proof (put_plain t [c]) as E. cbn [insert_chars] in E. rewrite E. apply out_upd; exact HO.
  - destruct Pre as (t & Ho). unfold get_out. rewrite (out_at q w o t HT Ho). split; [reflexivity|]. eexists w, (ZText t). split; [split; [reflexivity|]; exists t; split; [exact Ho|reflexivity]|]. split; [reflexivity|exact HT].
  - destruct Pre as (_ & t & Ho). unfold get_out. rewrite (out_at q w o t HT Ho). split; [reflexivity|]. eexists _, ZVoid. split; [split; [reflexivity|]; exists t; split; [exact Ho|reflexivity]|]. split; [reflexivity|].
    constructor; cbn [t_app t_ins t_outs s_app s_in s_out]; [exact HA|apply in_upd; [exact HI|reflexivity]|exact HO].
Qed.
Lemma tcap_exists c q w : trel q w -> tplaced c w -> exists cap, tcap c q cap /\ tsaw c q = tseen c cap.
Proof.
  intros [HA _ _] Hp. destruct c; try (exists 0; split; [exact I|reflexivity]). destruct (acap_exists d Hwf el Hel c _ _ HA Hp) as (cap & Hc & E). exists cap. split; [exact Hc|]. cbn [tsaw tseen]. rewrite E. reflexivity.
Qed.
Theorem tobserve_ok p : forall q w, trel q w -> all_sane p -> tallows d el upper mm high w p (tobserve d mdiff grow el upper junk mm high marks p q).
Proof.
  induction p as [|c e k IH]; intros q w HT Hs; [reflexivity|]. destruct Hs as [Hx Hs]. cbn [tallows tobserve]. intros Hp.
  destruct (tcap_exists c q w HT Hp) as (cap & Hc & ->). eexists cap, _. split; [reflexivity|]. intros Pre.
  pose proof (texec_ok c e q w cap HT Hx Hc Pre) as K. unfold TioMeet.tdoes in K. destruct (texec c e q) as [v q'|[|] q'| | |u]; try contradiction.
  - destruct K as (_ & w' & v' & Po & Hle & H'). exists v', w'. auto.
  - destruct K as (_ & w' & R & H'). exists w'. auto.
  - destruct K as (_ & Sh & w' & F & H'). split; [exact Sh|]. exists w'. auto.
  - exact K.
Qed.

(** What a call does not mention. *)
Ltac same := repeat split; cbn [s_in s_out with_app with_text]; intros; try reflexivity; try (apply lookup_insert_ne; intros ->; set_solver).
Lemma text_apart w line x l i v : t_apart el (TRead line i x) w (with_text w x l i v).
Proof. split; [|same]. repeat split. intros y N. unfold texts, with_text. cbn [s_app with_files w_lib with_strs w_strs]. apply lookup_insert_ne. congruence. Qed.
Lemma t_post_apart lk cap c w v w' : tpre step el upper mm high lk cap c w -> tpost step el upper mm lk cap c w v w' -> t_apart el c w w'.
Proof.
  intros Pre Po. destruct c as [c|i text|line i x|i|o|o x|o c|o|i o].
  - destruct Po as (r & a & Po & _ & ->). split; [|same]. exact (a_post_apart d Hwf Hnul Heqb mdiff Hm grow el Hel upper junk mm lk cap c _ _ _ Pre Po).
  - destruct Po as (_ & ->). same.
  - destruct Po as (_ & st & l & st' & f & _ & _ & ->). apply text_apart.
  - destruct Po as (-> & _). same.
  - destruct Po as (_ & ->). same.
  - destruct Po as (_ & t & l & _ & _ & ->). same.
  - destruct Po as (_ & t & _ & ->). same.
  - destruct Po as (-> & _). same.
  - destruct Po as (_ & t & _ & ->). same.
Qed.
Lemma t_range_apart lk cap c w w' : trange step mm lk cap c w w' -> t_apart el c w w'.
Proof. intros R. destruct c; try contradiction. destruct R as (a & R & ->). split; [|same]. eapply a_range_apart; eassumption. Qed.
Lemma t_fail_apart lk c w w' : tfail mm lk c w w' -> t_apart el c w w'.
Proof.
  intros F. destruct c as [c| |line i x| | | | | |]; try contradiction.
  - destruct F as (a & F & ->). split; [|same]. exact (a_fail_apart d Hwf Hnul Heqb mdiff Hm grow el Hel upper junk mm lk c _ _ F).
  - destruct F as [->|(st & l1 & b & l2 & st' & f & _ & _ & ->)]; [same|apply text_apart].
Qed.
Theorem texec_apart c e q w cap : trel q w -> MfMeet.sane (e_sys e) -> tcap c q cap -> tpre step el upper mm high (tlucky mm c e w) cap c w ->
  match texec c e q with
  | Ok _ q' | Exn _ q' => exists w', trel q' w' /\ t_apart el c w w'
  | Term => tends d c w
  | _ => False
  end.
Proof.
  intros HT Hx Hc Pre. pose proof (texec_ok c e q w cap HT Hx Hc Pre) as K. unfold TioMeet.tdoes in K. destruct (texec c e q) as [v q'|[|] q'| | |u]; try contradiction.
  - destruct K as (_ & w' & v' & Po & _ & H'). exists w'. split; [exact H'|eapply t_post_apart; eassumption].
  - destruct K as (_ & w' & R & H'). exists w'. split; [exact H'|eapply t_range_apart; eassumption].
  - destruct K as (_ & _ & w' & F & H'). exists w'. split; [exact H'|eapply t_fail_apart; eassumption].
  - exact K.
Qed.
Lemma trel_init n : trel (Tmem (Amem (Lmem (st_init, ∅) ∅ 0) ∅ ∅ n) ∅ ∅) (Scene (Total (World ∅ ∅ ∅ 0) ∅ ∅) ∅ ∅).
Proof. constructor; cbn [t_app t_ins t_outs s_app s_in s_out]; [apply arel_init; assumption|intros i; rewrite !lookup_empty; exact I|intros o; rewrite !lookup_empty; reflexivity]. Qed.
End Proof.
