(** Proofs for AppMeet. *)
From stdpp Require Import gmap.
From Verif Require Import Base RcaSpec RcaModel RcaExec RcaOwn RcaRel RcaMeet RcaReach StreamModel StrSpec NestModel HashModel HsModel HtMeet PtSpec PtModel PtMeet PtProof LibSpec LibModel LibMeet LibProof AppSpec AppModel AppMeet.
From Verif Require MstSpec MstModel MstMeet MstProof MfSpec MfModel MfMeet MfProof NestSim AppSim.
Open Scope Z_scope.

Lemma spare_new o : spare o ∉ MfSpec.finvolved o.
Proof.
  assert (H : forall l x, x ∈ l -> (x <= fold_right Pos.max 1 l)%positive).
  { induction l as [|y l IH]; intros x Hx; [inversion Hx|]. cbn [fold_right]. apply elem_of_cons in Hx as [->|Hx]; [lia|]. specialize (IH x Hx). lia. }
  intros Hx. apply H in Hx. unfold spare in Hx. lia.
Qed.

Section Proof.
Variable d : desc Z.
Hypothesis Hwf : wf_desc d.
Hypothesis Hnul : d_nul d = Some 0.
Hypothesis Heqb : forall b c, d_eqb d b c = (b =? c).
Variable mdiff : Z -> Z -> Z.
Hypothesis Hm : memcmp_ok mdiff.
Variable grow : Z -> Z -> option Z.
Variable el : positive -> nat -> positive.
Hypothesis Hel : forall j k k', el j k = el j k' -> k = k'.
Variable upper : Z -> Z.
Variable junk : Z -> Z.
Variable mm : bool.
Notation arel := (arel d).
Notation adoes := (adoes d mdiff grow el upper junk mm).
Notation aexec := (aexec d mdiff grow el upper junk mm).
Notation step := (RcaMeet.step d).

(** The relation of MfMeet, for the memory as a whole. *)
Lemma up_cur (m : gmap positive Z) y : up m !! str y = m !! y.
Proof. apply lookup_kmap. apply _. Qed.
Lemma to_files q w : arel q w -> exists a, PtProof.pr d a (heap_of q) (snd (m_pt (a_lib q))) (w_maps (w_lib w)) (w_strs (w_lib w)) /\
  MfMeet.frel d (spare_var (heap_of q)) (files_of q) a (up (w_cur w)) (w_disk w).
Proof.
  intros [((a & H & A & O) & L & B) Hl Ho Hd Hs]. exists a. assert (P : PtProof.pr d a (heap_of q) (snd (m_pt (a_lib q))) (w_maps (w_lib w)) (w_strs (w_lib w))) by (split; [exact H|split; [exact A|exact O]]).
  split; [exact P|]. pose proof (pr_pulls _ _ _ _ _ _ P) as Pu. split; [|exact Hd|exact Hs]. cbn [files_of fst]. split.
  - exact H.
  - exact (tmp_new d Hwf el Hel (heap_of q) a 0 H).
  - intros k p E. apply lookup_kmap_Some in E as (k0 & -> & E); [|apply _]. destruct (Hl k0 p E) as (S & Hp & Hb). rewrite Pu. auto.
  - intros k E. cbn [snd]. destruct (a_streams q !! k) as [z|] eqn:Ez; [|reflexivity]. destruct (Ho k) as (k0 & -> & c & Ec); [eauto|]. rewrite up_cur in E. congruence.
Qed.
Lemma from_files q w t a a' b' m' fs' st : PtProof.pr d a (heap_of q) (snd (m_pt (a_lib q))) (w_maps (w_lib w)) (w_strs (w_lib w)) -> arel q w ->
  MfMeet.frel d t st a' (up m') fs' -> NestSim.pulls str a' b' -> NestSim.keeps str a a' -> arel (put_back q st) (with_files w b' m' fs').
Proof.
  intros P [(_ & L & B) _ _ _ _] [HM Hf Hs] Pu K. destruct st as [[s zs] [fs n]]. cbn [fst snd put_back] in *. subst fs. destruct HM as [H _ Hl Hn]. cbn [fst snd] in *.
  constructor; cbn [a_lib a_streams a_disk with_files w_lib w_cur w_disk with_strs w_maps w_lists w_strs w_lost].
  - split; [|split; assumption]. eapply pr_prel, pr_user; eassumption.
  - intros k p E. destruct (Hl (str k) p) as (S & Hp & b & Hb); [rewrite up_cur; exact E|]. rewrite Pu in S. eauto.
  - intros z (x & Ez). destruct (up m' !! z) as [p|] eqn:E; [|rewrite Hn in Ez by exact E; discriminate]. apply lookup_kmap_Some in E as (k0 & -> & E); [|apply _]. eauto.
  - reflexivity.
  - exact Hs.
Qed.

Lemma acap_fcap c o q cap : c = AFile o -> acap c q cap -> MfMeet.fcap (fren str o) (files_of q) cap.
Proof. intros -> H. destruct o as [[]| | |]; try exact I; exact H. Qed.
Lemma with_same w : with_files w (w_strs (w_lib w)) (w_cur w) (w_disk w) = w.
Proof. destruct w as [[]]; reflexivity. Qed.
Lemma file_ok o e q w cap : arel q w -> MfMeet.sane (e_sys e) -> acap (AFile o) q cap -> apre step el upper mm (lucky mm (AFile o) e w) cap (AFile o) w -> adoes cap (AFile o) e q w.
Proof.
  intros HA Hx Hc (r & Er). destruct (to_files q w HA) as (a & P & HF). pose proof (pr_pulls _ _ _ _ _ _ P) as Pu.
  set (b := w_strs (w_lib w)) in *. set (t' := spare_var (heap_of q)) in *.
  assert (Ht : forall y, t' <> str y) by (intros y E; discriminate).
  pose proof (MfProof.fexec_ok d Hwf Hnul t' mm (e_sys e) (fren str o) (files_of q) a (up (w_cur w)) (w_disk w) cap HF Hx (acap_fcap _ o q cap eq_refl Hc)) as K.
  rewrite (AppSim.eq_luck str str_inj mm (e_sys e) o a b (w_cur w) Pu) in K. cbn [lucky] in Er. fold b in Er. unfold tstep in Er. fold b in Er.
  pose proof (AppSim.f_sim d str str_inj mm (spare o) t' Ht _ cap o a b (w_cur w) (w_disk w) r Pu (spare_new o) Er) as S.
  unfold AppMeet.adoes. cbn [AppModel.aexec lucky apost arange afail ashort aends aleaked]. unfold tstep. fold b t'.
  destruct r as [b1 m1 F1 v1|].
  - destruct S as (a1 & E1 & P1 & K1). rewrite E1 in K. unfold MfMeet.fdoes in K. destruct (MfModel.fexec d t' mm (e_sys e) (fren str o) (files_of q)) as [v st'|[|] st'| | |u]; try contradiction.
    + destruct K as (Hn & a2 & m2 & F2 & fs2 & v2 & E2 & HF2 & Hle & H2). injection E2 as <- <- <- <-.
      split; [destruct st' as [[] []]; exact Hn|]. exists (with_files w b1 m1 fs2), (XFile v1). split; [|split; [exact Hle|]].
      * exists b1, m1, F1, fs2, v1. auto.
      * eapply from_files; eassumption.
    + destruct K as (_ & K & _). discriminate.
    + destruct K as (Hn & _ & Hsh & a2 & m2 & Hf & H2). rewrite (AppSim.eq_luck str str_inj mm (e_sys e) o a b (w_cur w) Pu) in Hf.
      destruct (AppSim.ffail_sim str str_inj mm _ o a b (w_cur w) (w_disk w) a2 m2 Pu Hf) as (b2 & m3 & Hf' & -> & P2 & K2).
      split; [destruct st' as [[] []]; cbn [put_back a_fds files_of snd] in *; rewrite Hn; destruct o; reflexivity|]. split; [exact (AppSim.short_sim d str str_inj mm _ _ cap o a b (w_cur w) (w_disk w) _ Pu Er Hsh)|].
      exists (with_files w b2 m3 (w_disk w)). split; [eauto|]. eapply from_files; eassumption.
    + exact (AppSim.ends_sim d str str_inj mm _ _ cap o a b (w_cur w) (w_disk w) _ Pu Er K).
  - rewrite S in K. unfold MfMeet.fdoes in K. destruct (MfModel.fexec d t' mm (e_sys e) (fren str o) (files_of q)) as [v st'|[|] st'| | |u]; try contradiction.
    + destruct K as (_ & ? & ? & ? & ? & ? & K & _). discriminate.
    + destruct K as (Hn & _ & H2). split; [destruct st' as [[] []]; exact Hn|]. exists w. split; [auto|]. rewrite <- (with_same w) at 1. eapply from_files; [eassumption|eassumption|eassumption|exact Pu|apply NestSim.keeps_refl].
    + destruct K as (_ & (? & ? & ? & ? & K) & _). discriminate.
    + exact (AppSim.ends_sim d str str_inj mm _ _ cap o a b (w_cur w) (w_disk w) _ Pu Er K).
Qed.
Lemma lib_ok c e q w cap : arel q w -> apre step el upper mm (lucky mm (ALib c) e w) cap (ALib c) w -> adoes cap (ALib c) e q w.
Proof.
  intros HA (Pre & Off). pose proof HA as [HL Hl Ho Hd Hs]. pose proof (lexec_ok d Hwf Hnul Heqb mdiff Hm grow el Hel upper junk c (e_need e) (a_lib q) (w_lib w) HL Pre) as K.
  unfold AppMeet.adoes. cbn [AppModel.aexec]. unfold LibMeet.ldoes in K.
  assert (Next : forall l l', lrel d l l' -> apart el c (w_lib w) l' -> arel (Amem l (a_streams q) (a_disk q) (a_fds q)) (with_lib w l')).
  { intros l l' HR (_ & _ & Hst). constructor; cbn [a_lib a_streams a_disk with_lib w_lib w_cur w_disk]; try assumption.
    intros k p E. destruct (Hl k p E) as (S & Hp & Hb). destruct (Off k) as [O1 O2]; [eauto|]. rewrite (Hst k O1) by (intros j n Hj; apply O2, Hj). auto. }
  destruct (lexec d mdiff grow el upper junk c (e_need e) (a_lib q)) as [v l|[|] l| | |u]; try contradiction.
  - destruct K as (l' & v' & Po & Hle & HR). split; [reflexivity|]. exists (with_lib w l'), (XLib v'). split; [exists v', l'; auto|]. split; [exact Hle|]. apply Next; [exact HR|exact (post_apart d Hwf Hnul Heqb mdiff Hm grow el Hel upper junk _ _ _ _ Pre Po)].
  - destruct K as (l' & R & HR). split; [reflexivity|]. exists (with_lib w l'). split; [exists l'; auto|]. apply Next; [exact HR|exact (range_apart d Hwf mdiff Hm grow el _ _ _ R)].
  - destruct K as (Sh & l' & F & HR). split; [cbn; lia|]. split; [exact Sh|]. exists (with_lib w l'). split; [exists l'; auto|]. apply Next; [exact HR|exact (fail_apart d Hwf Hnul Heqb mdiff Hm grow el Hel upper junk _ _ _ F)].
Qed.
Theorem aexec_ok c e q w cap : arel q w -> MfMeet.sane (e_sys e) -> acap c q cap -> apre step el upper mm (lucky mm c e w) cap c w -> adoes cap c e q w.
Proof. intros HA Hx Hc Pre. destruct c as [c|o]; [eapply lib_ok|eapply file_ok]; eassumption. Qed.

Lemma acap_exists c q w : arel q w -> placed c w -> exists cap, acap c q cap /\ asaw c q = aseen c cap.
Proof.
  intros HA Hp. destruct c as [c|o]; [exists 0; split; [exact I|reflexivity]|]. destruct (to_files q w HA) as (a & P & HF).
  destruct o as [o| | |]; try (exists 0; split; [exact I|reflexivity]). destruct o as [| | | | | | | | | | |k off wh| | | | |]; try (exists 0; split; [exact I|reflexivity]).
  destruct (MstProof.cap_exists d Hwf _ (MstSpec.MSeek (str k) off wh) _ _ _ (MfMeet.fr_mem _ _ _ _ _ _ HF)) as [(cap & Hc & Hs)|(k0 & off0 & wh0 & E & H)].
  - exists cap. split; [exact Hc|]. cbn [asaw fren mren MfModel.fsaw aseen]. rewrite Hs. reflexivity.
  - injection E as <- _ _. rewrite (AppSim.eq_strm str str_inj a (w_strs (w_lib w)) (w_cur w) k (pr_pulls _ _ _ _ _ _ P)) in H. contradiction.
Qed.
Theorem aobserve_ok prog : forall q w, arel q w -> Forall (fun c => MfMeet.sane (e_sys (snd c))) prog -> aallows d el upper mm w prog (aobserve d mdiff grow el upper junk mm prog q).
Proof.
  induction prog as [|[c e] prog IH]; intros q w HA Hx; [reflexivity|]. inversion Hx as [|c0 l0 Hx0 Hxs]; subst. cbn [snd] in Hx0. cbn [aallows aobserve]. intros Hp.
  destruct (acap_exists c q w HA Hp) as (cap & Hc & ->). eexists cap, _. split; [reflexivity|]. intros Pre.
  pose proof (aexec_ok c e q w cap HA Hx0 Hc Pre) as K. unfold AppMeet.adoes in K. destruct (aexec c e q) as [v q'|[|] q'| | |u]; try contradiction.
  - destruct K as (_ & w' & v' & Po & Hle & H'). exists v', w'. auto.
  - destruct K as (_ & w' & R & H'). exists w'. auto.
  - destruct K as (_ & Sh & w' & F & H'). split; [exact Sh|]. exists w'. auto.
  - exact K.
Qed.

(** What a call does not mention. *)
Lemma a_post_apart lk cap c w v w' : apre step el upper mm lk cap c w -> apost step el upper mm lk cap c w v w' -> a_apart el c w w'.
Proof.
  intros Pre Po. destruct c as [c|o].
  - destruct Pre as (Pre & _). destruct Po as (o & l & Po & _ & ->). destruct (post_apart d Hwf Hnul Heqb mdiff Hm grow el Hel upper junk _ _ _ _ Pre Po) as (A1 & A2 & A3).
    split; [exact A1|]. split; [exact A2|]. split; [intros x X1 X2; split; [apply A3; assumption|reflexivity]|reflexivity].
  - destruct Po as (b & m & F & fs & r & E & HF & _ & ->). split; [reflexivity|]. split; [reflexivity|]. split.
    + intros x X1 _. exact (MfProof.fstep_apart _ _ _ _ _ _ _ _ _ _ _ _ _ _ E X1).
    + intros p Hp. exact (MfProof.fstep_files _ _ _ _ _ _ _ _ _ _ _ _ _ _ _ E HF Hp).
Qed.
Lemma a_range_apart lk cap c w w' : arange step mm lk cap c w w' -> a_apart el c w w'.
Proof.
  intros R. destruct c as [c|o].
  - destruct R as (l & R & ->). destruct (range_apart d Hwf mdiff Hm grow el _ _ _ R) as (A1 & A2 & A3).
    split; [exact A1|]. split; [exact A2|]. split; [intros x X1 X2; split; [apply A3; assumption|reflexivity]|reflexivity].
  - destruct R as (_ & ->). repeat split.
Qed.
Lemma a_fail_apart lk c w w' : afail mm lk c w w' -> a_apart el c w w'.
Proof.
  intros F. destruct c as [c|o].
  - destruct F as (l & F & ->). destruct (fail_apart d Hwf Hnul Heqb mdiff Hm grow el Hel upper junk _ _ _ F) as (A1 & A2 & A3).
    split; [exact A1|]. split; [exact A2|]. split; [intros x X1 X2; split; [apply A3; assumption|reflexivity]|reflexivity].
  - destruct F as (b & m & F & ->). split; [reflexivity|]. split; [reflexivity|]. split; [|reflexivity]. intros x X1 _. exact (MfProof.ffail_apart _ _ _ _ _ _ _ _ _ F X1).
Qed.
Theorem aexec_apart c e q w cap : arel q w -> MfMeet.sane (e_sys e) -> acap c q cap -> apre step el upper mm (lucky mm c e w) cap c w ->
  match aexec c e q with
  | Ok _ q' | Exn _ q' => exists w', arel q' w' /\ a_apart el c w w'
  | Term => aends d c w
  | _ => False
  end.
Proof.
  intros HA Hx Hc Pre. pose proof (aexec_ok c e q w cap HA Hx Hc Pre) as K. unfold AppMeet.adoes in K. destruct (aexec c e q) as [v q'|[|] q'| | |u]; try contradiction.
  - destruct K as (_ & w' & v' & Po & _ & H'). exists w'. split; [exact H'|eapply a_post_apart; eassumption].
  - destruct K as (_ & w' & R & H'). exists w'. split; [exact H'|eapply a_range_apart; eassumption].
  - destruct K as (_ & _ & w' & F & H'). exists w'. split; [exact H'|eapply a_fail_apart; eassumption].
  - exact K.
Qed.
Lemma arel_init n : arel (Amem (Lmem (st_init, ∅) ∅ 0) ∅ ∅ n) (Total (World ∅ ∅ ∅ 0) ∅ ∅).
Proof.
  constructor; cbn [a_lib a_streams a_disk w_lib w_cur w_disk]; [apply lrel_init| | |reflexivity|].
  - intros k p E. rewrite lookup_empty in E. discriminate.
  - intros z (x & E). rewrite lookup_empty in E. discriminate.
  - intros p f E. rewrite lookup_empty in E. discriminate.
Qed.
Theorem arel_none q w : arel q w -> w_maps (w_lib w) = ∅ -> w_strs (w_lib w) = ∅ -> st_heap (heap_of q) = ∅ /\ m_blocks (a_lib q) = w_lost (w_lib w) /\ a_streams q = ∅.
Proof.
  intros HA Hm1 Hs. destruct (lrel_none d Hwf _ _ (ar_lib _ _ _ HA) Hm1 Hs) as [H1 H2]. split; [exact H1|]. split; [exact H2|].
  apply map_empty. intros z. destruct (a_streams q !! z) as [x|] eqn:E; [|reflexivity]. destruct (ar_only _ _ _ HA z) as (k & -> & p & Ep); [eauto|].
  destruct (ar_live _ _ _ HA k p Ep) as ((v & Ev) & _). rewrite Hs, lookup_empty in Ev. discriminate.
Qed.
End Proof.
