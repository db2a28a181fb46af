(** Rules for running algorithms on arrays of Strings. *)
From stdpp Require Import gmap.
From Verif Require Import RcaSpec RcaModel RcaExec RcaInv RcaOwn RcaRel RcaMeet RcaMain RcaReach RcaFacts RcaFacts2 StrModel StreamProof AlgModel AlgMeet AlgRules
  NestModel NestMeet NestSim NestAbs NestBuf NestOps NestCalls NestProof NestMain NestReach NestAlgModel NestAlgMeet.
Open Scope Z_scope.

(** [m] with [X] in scope, whatever their values. *)
Definition within {V} (X : list positive) (m m1 : gmap positive V) : Prop :=
  (forall x, x ∉ X -> m1 !! x = m !! x) /\ forall x, x ∈ X -> is_Some (m1 !! x).
Lemma within_nil {V} (m m1 : gmap positive V) : within [] m m1 -> m1 = m.
Proof. intros [H _]. apply map_eq. intros i. apply H. apply not_elem_of_nil. Qed.
Lemma within_refl {V} (m : gmap positive V) : within [] m m.
Proof. split; [reflexivity|]. intros x H. apply elem_of_nil in H as []. Qed.
Lemma within_set {V} X (m m1 : gmap positive V) x v : within X m m1 -> x ∈ X -> within X m (<[x := v]> m1).
Proof.
  intros [H1 H2] Hx. split; intros y Hy.
  - rewrite lookup_insert_ne; [apply H1, Hy|congruence].
  - destruct (decide (x = y)) as [->|]; [rewrite lookup_insert; eauto|]. rewrite lookup_insert_ne by assumption. apply H2, Hy.
Qed.
Lemma within_new {V} X (m m1 : gmap positive V) x v : within X m m1 -> within (x :: X) m (<[x := v]> m1).
Proof.
  intros [H1 H2]. split; intros y Hy.
  - apply not_elem_of_cons in Hy as [N Hy]. rewrite lookup_insert_ne by congruence. apply H1, Hy.
  - destruct (decide (x = y)) as [->|N]; [rewrite lookup_insert; eauto|]. rewrite lookup_insert_ne by assumption. apply H2.
    apply elem_of_cons in Hy as [->|Hy]; [congruence|exact Hy].
Qed.
Lemma within_del {V} x X (m m1 : gmap positive V) : within (x :: X) m m1 -> x ∉ X -> m !! x = None -> within X m (delete x m1).
Proof.
  intros [H1 H2] Hx Ha. split; intros y Hy; (destruct (decide (x = y)) as [->|Hn]; [|rewrite lookup_delete_ne by assumption]).
  - rewrite lookup_delete. auto.
  - apply H1. apply not_elem_of_cons. auto.
  - contradiction.
  - apply H2. apply elem_of_cons. auto.
Qed.

Section Rules.
Variable d : desc Z.
Variable od : desc positive.
Hypothesis Hwf : wf_desc d.
Hypothesis Hnul : d_nul d = Some 0.
Notation nreached := (nreached d od).
Notation Mn := (M nstate).

(** bad_alloc for the reason [C], with the arrays [Y] and the Strings [X] in scope. *)
Definition nthrown (C : Prop) (Y X : list positive) (A : arrs) (b : astate Z) (e : exn) (s : nstate) : Prop :=
  e = BadAlloc /\ C /\ exists A1 b1, nreached s A1 b1 /\ within Y A A1 /\ within X b b1.
Definition nat_ (A : arrs) (b : astate Z) : unit -> nstate -> Prop := fun _ s => nreached s A b.
Definition nwith {B} (v : B) (A : arrs) (b : astate Z) : B -> nstate -> Prop := fun v' s => v' = v /\ nreached s A b.

Lemma then_n {B} A1 b1 (m : Mn unit) (k : unit -> Mn B) s (P : B -> nstate -> Prop) E :
  runs m s (nat_ A1 b1) E -> (forall s', nreached s' A1 b1 -> runs (k tt) s' P E) -> runs (bind m k) s P E.
Proof. intros Hm Hk. eapply runs_bind; [exact Hm|]. intros [] s' H. apply Hk, H. Qed.
Lemma runs_ncall o s A b A' b' v (P : unit -> nstate -> Prop) (Q : exn -> nstate -> Prop) :
  nreached s A b -> nstep d o A b = Some (NRet A' b' v) -> (forall s', nreached s' A' b' -> P tt s') ->
  (forall s', nstarves d od o A b (NRet A' b' v) -> nreached s' (fst (noom o s' A b)) (snd (noom o s' A b)) -> Q BadAlloc s') -> runs (ncall d od o) s P Q.
Proof.
  intros H Hs HP HQ. unfold ncall, runs, bind. destruct (step_nyields d od Hwf o s A b _ H Hs) as [(s' & v' & E & _ & Hr & _)|(Hst & s' & A1 & b1 & E & Eq & Hr & _)]; rewrite E.
  - apply HP, Hr.
  - apply HQ; [exact Hst|]. rewrite <- Eq. exact Hr.
Qed.
(** A call on Strings of the program. *)
Lemma str_to o s A b b1 v (C : Prop) Y X A0 b0 b' :
  nreached s A b -> step d o b = Some (SRet b1 v) -> is_cstr o = false -> within Y A0 A -> within X b0 b -> (forall x, target o = Some x -> x ∈ X) ->
  (forall x, subject o = Some x -> no_memory d (asks o b1 x) -> C) -> b1 = b' -> runs (scall d od o) s (nat_ A b') (nthrown C Y X A0 b0).
Proof.
  intros H Hs Hc HY HX HT HC <-. unfold scall. eapply runs_ncall; [exact H|cbn [nstep]; rewrite Hc, Hs; reflexivity|intros s' H'; exact H'|].
  intros s' Hst H'. split; [reflexivity|]. split.
  - destruct Hst as [(x & Hx & _)|(o' & b2 & b3 & w & t & E1 & E2 & E3 & E4)]; [discriminate|]. cbn [inner_call] in E1. injection E1 as <- <-.
    assert (b3 = b1) as -> by congruence. eapply HC; eassumption.
  - eexists _, _. split; [exact H'|]. cbn [noom]. destruct (target o) as [t|]; [|auto]. cbn [fst snd]. split; [exact HY|]. unfold fell.
    destruct (bool_decide _); [|exact HX]. apply within_set; [exact HX|apply HT; reflexivity].
Qed.
Lemma str_safe o s A b b1 v b' E : nreached s A b -> step d o b = Some (SRet b1 v) -> is_cstr o = false -> subject o = None -> b1 = b' ->
  runs (scall d od o) s (nat_ A b') E.
Proof.
  intros H Hs Hc Hn <-. unfold scall. eapply runs_ncall; [exact H|cbn [nstep]; rewrite Hc, Hs; reflexivity|intros s' H'; exact H'|].
  intros s' [(x & Hx & _)|(o' & b2 & b3 & w & t & E1 & E2 & E3 & E4)] _; [discriminate|]. cbn [inner_call] in E1. injection E1 as <- <-. congruence.
Qed.
Lemma new_to r s A b E : nreached s A b -> A !! r = None -> runs (ncall d od (NNew r)) s (nat_ (<[r := NVal []]> A) b) E.
Proof.
  intros H Hr. eapply runs_ncall; [exact H|cbn [nstep]; rewrite Hr; reflexivity|intros s' H'; exact H'|].
  intros s' [(x & Hx & _)|(o' & b2 & b3 & w & t & E1 & _)] _; discriminate.
Qed.
Lemma append_to r t s A b vs w (C : Prop) Y X A0 b0 :
  nreached s A b -> elems A r = Some vs -> item b t = Some w -> within Y A0 A -> within X b0 b -> r ∈ Y -> (no_memory od (zlen vs + 3) -> C) ->
  runs (ncall d od (NAppend false r t)) s (nat_ (<[r := NVal (vs ++ [w])]> A) b) (nthrown C Y X A0 b0).
Proof.
  intros H Hr Ht HY HX Hin HC. eapply runs_ncall; [exact H|cbn [nstep]; rewrite Hr, Ht; reflexivity|intros s' H'; exact H'|].
  intros s' Hst H'. split; [reflexivity|]. split.
  - destruct Hst as [(x & Hx & Hm)|(o' & b2 & b3 & w' & t' & E1 & _)]; [|discriminate]. injection Hx as <-. cbn [nasks NestMeet.after] in Hm.
    unfold elems in Hm. rewrite lookup_insert in Hm. rewrite zlen_app in Hm. change (zlen [w]) with 1 in Hm. apply HC.
    replace (zlen vs + 3) with (zlen vs + 1 + 2) by lia. exact Hm.
  - eexists _, _. split; [exact H'|]. cbn [noom ntarget fst snd]. split; [|exact HX]. destruct (bool_decide _); [|exact HY]. apply within_set; assumption.
Qed.
Lemma reserve_to r n s A b vs (C : Prop) Y X A0 b0 :
  nreached s A b -> elems A r = Some vs -> in_u64 n = true -> zlen vs <= n -> within Y A0 A -> within X b0 b -> (no_memory od (n + 1) -> C) ->
  runs (ncall d od (NReserve r n)) s (nat_ A b) (nthrown C Y X A0 b0).
Proof.
  intros H Hr Hn Hl HY HX HC. eapply runs_ncall; [exact H|cbn [nstep]; rewrite Hr, Hn; replace (zlen vs <=? n) with true by lia; reflexivity|intros s' H'; exact H'|].
  intros s' Hst H'. split; [reflexivity|]. split.
  - destruct Hst as [(x & Hx & Hm)|(o' & b2 & b3 & w' & t' & E1 & _)]; [|discriminate]. cbn [nasks] in Hm. apply HC, Hm.
  - eexists _, _. split; [exact H'|]. cbn [noom fst snd]. auto.
Qed.

(** Scopes. *)
Lemma drop_call t s A b : nreached s A b -> is_Some (b !! t) -> exists s', ncall d od (NStr (Destroy t)) s = Ok tt s' /\ nreached s' A (delete t b).
Proof.
  intros H Ht. assert (runs (ncall d od (NStr (Destroy t))) s (nat_ A (delete t b)) (fun _ _ => False)) as R.
  { eapply str_safe; [exact H|apply destroy_step, Ht|reflexivity|reflexivity|reflexivity]. }
  unfold runs, nat_ in R. destruct (ncall _ _ _ s) as [[] s'|? ?| | |?]; try contradiction. eauto.
Qed.
Lemma kill_call r s A b : nreached s A b -> is_Some (A !! r) -> exists s', ncall d od (NKill r) s = Ok tt s' /\ nreached s' (delete r A) b.
Proof.
  intros H [v Hv]. assert (runs (ncall d od (NKill r)) s (nat_ (delete r A) b) (fun _ _ => False)) as R.
  { eapply runs_ncall; [exact H|cbn [nstep]; rewrite Hv; reflexivity|intros s' H'; exact H'|].
    intros s' [(x & Hx & _)|(o' & b2 & b3 & w & t & E1 & _)] _; discriminate. }
  unfold runs, nat_ in R. destruct (ncall _ _ _ s) as [[] s'|? ?| | |?]; try contradiction. eauto.
Qed.
Lemma unwind_str {B} t (m : Mn B) s (C : Prop) Y X A b (P : B -> nstate -> Prop) :
  runs m s P (nthrown C Y (t :: X) A b) -> t ∉ X -> b !! t = None -> runs (nunwind d od (NStr (Destroy t)) m) s P (nthrown C Y X A b).
Proof.
  intros Hm Ht Hb. unfold runs, nunwind in *. destruct (m s) as [v s'|e s'| | |u]; try exact Hm. destruct Hm as (He & HC & A1 & b1 & H1 & HY & HX).
  destruct (drop_call t s' A1 b1 H1) as (s2 & E & H2); [apply HX; left|]. rewrite E. split; [exact He|]. split; [exact HC|].
  exists A1, (delete t b1). split; [exact H2|]. split; [exact HY|]. apply within_del; assumption.
Qed.
Lemma unwind_arr {B} r (m : Mn B) s (C : Prop) Y X A b (P : B -> nstate -> Prop) :
  runs m s P (nthrown C (r :: Y) X A b) -> r ∉ Y -> A !! r = None -> runs (nunwind d od (NKill r) m) s P (nthrown C Y X A b).
Proof.
  intros Hm Hr HA. unfold runs, nunwind in *. destruct (m s) as [v s'|e s'| | |u]; try exact Hm. destruct Hm as (He & HC & A1 & b1 & H1 & HY & HX).
  destruct (kill_call r s' A1 b1 H1) as (s2 & E & H2); [apply HY; left|]. rewrite E. split; [exact He|]. split; [exact HC|].
  exists (delete r A1), b1. split; [exact H2|]. split; [|exact HX]. apply within_del; assumption.
Qed.
Lemma scope_str t (m : Mn unit) s (C : Prop) Y X A b A1 b1 b' :
  runs m s (nat_ A1 b1) (nthrown C Y (t :: X) A b) -> t ∉ X -> b !! t = None -> is_Some (b1 !! t) -> delete t b1 = b' ->
  runs (nscope d od (NStr (Destroy t)) m) s (nat_ A1 b') (nthrown C Y X A b).
Proof.
  intros Hm Ht Hb Hl <-. unfold nscope. eapply runs_bind with (P' := nat_ A1 b1); [apply unwind_str; assumption|].
  intros [] s' H'. destruct (drop_call t s' A1 b1 H' Hl) as (s2 & E & H2). eapply runs_step; [exact E|]. apply runs_ret. exact H2.
Qed.

(** Reading. *)
Lemma inner_read {B} (m : M (state Z) B) v s : m (n_in s) = Ok v (n_in s) -> inner m s = Ok v s.
Proof. intros E. unfold inner. rewrite E. destruct s. reflexivity. Qed.
Lemma outer_read {B} (m : M (state positive) B) v s : m (n_out s) = Ok v (n_out s) -> outer m s = Ok v s.
Proof. intros E. unfold outer. rewrite E. destruct s. reflexivity. Qed.
Definition is_text (i : state Z) (z : positive) (l : list Z) : Prop := contents z i = Ok l i /\ length_of z i = Ok (zlen l) i /\ zlen l <= max_alloc.
Lemma R_text i a z r l : RcaRel.R d i a -> a !! z = Some (AVal r (map Some l)) -> is_text i z l.
Proof.
  intros HR Ha. destruct (R_held d _ _ _ _ _ HR Ha) as (o & Hh). pose proof (held_len d _ _ _ _ _ Hh) as L. rewrite zlen_map in L.
  destruct (held_load d i z o r _ 0 (zlen l) (proj1 HR) Hh) as (es & E & Hv); [lia|rewrite zlen_map; lia|].
  assert (zsub 0 (zlen l) (map Some l) = map Some l) as Ez.
  { unfold zsub. rewrite zdrop_0 by lia. apply ztake_all. rewrite zlen_map. lia. }
  rewrite Ez in Hv. apply vle_somes in Hv as ->.
  split; [unfold contents, bind; rewrite L, E, valued_some; reflexivity|]. split; [exact L|].
  pose proof (RcaMain.val_len d i a z r _ HR Ha) as B. rewrite zlen_map in B. lia.
Qed.
Lemma str_text s A b y l : nreached s A b -> is_str b y l -> is_text (n_in s) (str y) l.
Proof.
  intros H (r & Hy). destruct (reached_nr d od Hwf _ _ _ H) as (t & A1 & (f & a & W & _) & _). eapply R_text; [apply (wf_R _ _ _ _ _ W)|].
  unfold str. rewrite (wf_b _ _ _ _ _ W). exact Hy.
Qed.
Lemma elem_text s A b x vs i v l : nreached s A b -> elems A x = Some vs -> znth i vs = Some v -> snd v = map Some l ->
  exists z, nslot x i s = Ok z s /\ is_text (n_in s) z l.
Proof.
  intros H Hx Hv Hl. destruct (reached_nr d od Hwf _ _ _ H) as (t & A1 & Hr & HR & Ha).
  destruct (rel_arr d od A A1 b s t x vs Hr HR Ha Hx) as (ob & Har).
  destruct (arr_elem d od b s t x ob vs i v Hr Har Hv) as (f & a & z & l' & c & W & _ & _ & _ & _ & _ & _ & Hn & _ & Hz & _).
  exists z. split; [exact Hn|]. destruct v as [rv v]. cbn in Hl. subst v. eapply R_text; [apply (wf_R _ _ _ _ _ W)|exact Hz].
Qed.
Lemma arr_len s A b x vs : nreached s A b -> elems A x = Some vs -> outer (length_of x) s = Ok (zlen vs) s.
Proof. intros H Hx. apply outer_read. apply (reached_nshows d od Hwf s A b H). apply elems_some, Hx. Qed.
Lemma str_bound s A b y r l : nreached s A b -> b !! y = Some (AVal r (map Some l)) -> zlen l <= max_alloc.
Proof. intros H Hy. apply (str_text s A b y l H). exists r. exact Hy. Qed.

(** str += *constBuf(i) *)
Lemma peek_plus x i c s A b vs v rc u e (C : Prop) Y X A0 b0 b' :
  nreached s A b -> elems A x = Some vs -> znth i vs = Some v -> snd v = map Some e -> c <> 1%positive -> b !! c = Some (AVal rc (map Some u)) ->
  within Y A0 A -> within X b0 b -> c ∈ X -> (no_memory d (zlen u + zlen e + 2) -> C) -> <[c := AVal true (map Some (u ++ e))]> b = b' ->
  runs (ncall d od (NPeek x i (AppendN false c 1 npos))) s (nat_ A b') (nthrown C Y X A0 b0).
Proof.
  intros H Hx Hv He Hc Hb HY HX Hin HC <-.
  assert (Le : zlen e <= max_alloc). { destruct (elem_text s A b x vs i v e H Hx Hv He) as (z & _ & _ & _ & L). exact L. }
  pose proof (str_bound s A b c rc u H Hb) as Lu.
  assert (Hst : step d (AppendN false c 1 npos) (<[1%positive := sv v]> b) = Some (SRet (<[c := AVal true (map Some (u ++ e))]> (<[1%positive := sv v]> b)) ONone)).
  { eapply (append_step d Hwf Hnul); [rewrite lookup_insert_ne by congruence; exact Hb|rewrite lookup_insert; unfold sv; rewrite He; reflexivity|assumption|assumption]. }
  eapply runs_ncall with (v := ONone).
  - exact H.
  - cbn [nstep is_cstr orb target]. rewrite bool_decide_false by congruence. rewrite Hx, Hv, Hst. rewrite bool_decide_true; [reflexivity|].
    unfold item. rewrite lookup_insert_ne by congruence. rewrite lookup_insert. destruct v; reflexivity.
  - intros s' H'. unfold nat_. match goal with |- nreached _ _ ?m => match type of H' with nreached _ _ ?m' => replace m with m'; [exact H'|] end end.
    apply map_eq. intros k. destruct (decide (1%positive = k)) as [<-|N].
    + rewrite lookup_partial_alter. rewrite lookup_insert_ne by congruence. reflexivity.
    + rewrite lookup_partial_alter_ne by exact N. destruct (decide (c = k)) as [<-|N']; [rewrite !lookup_insert; reflexivity|].
      rewrite !lookup_insert_ne by congruence. reflexivity.
  - intros s' Hs H'. split; [reflexivity|]. split.
    + destruct Hs as [(? & Hx' & _)|(o' & b2 & b3 & w & t & E1 & E2 & E3 & E4)]; [discriminate|]. cbn [inner_call] in E1. rewrite Hx, Hv in E1. injection E1 as <- <-.
      rewrite Hst in E2. injection E2 as <- <-. cbn in E3. injection E3 as <-. apply HC. revert E4. cbn [asks].
      rewrite (vlen_val _ _ _ _ (lookup_insert _ _ _)), zlen_map, zlen_app. exact (fun h => h).
    + eexists _, _. split; [exact H'|]. cbn [noom target fst snd]. split; [exact HY|]. unfold fell. destruct (bool_decide _); [|exact HX].
      apply within_set; assumption.
Qed.
(** str += y *)
Lemma plus_str mv x y s A b rx ry v w (C : Prop) Y X A0 b0 b' :
  nreached s A b -> b !! x = Some (AVal rx (map Some v)) -> b !! y = Some (AVal ry (map Some w)) -> within Y A0 A -> within X b0 b -> x ∈ X ->
  (no_memory d (zlen v + zlen w + 2) -> C) -> <[x := AVal true (map Some (v ++ w))]> b = b' ->
  runs (scall d od (AppendN mv x y npos)) s (nat_ A b') (nthrown C Y X A0 b0).
Proof.
  intros H Hx Hy HY HX Hin HC <-. pose proof (str_bound s A b x rx v H Hx) as Lv. pose proof (str_bound s A b y ry w H Hy) as Lw.
  eapply str_to; [exact H|apply (append_step d Hwf Hnul mv b x y rx ry v w Hx Hy); assumption|reflexivity|exact HY|exact HX| | |reflexivity].
  - cbn. intros z [= <-]. exact Hin.
  - cbn [subject target asks]. intros z [= <-]. rewrite (vlen_val _ _ _ _ (lookup_insert _ _ _)), zlen_map, zlen_app. exact HC.
Qed.
Lemma char_to x c s A b (C : Prop) Y X A0 b0 b' : nreached s A b -> b !! x = None -> within Y A0 A -> within X b0 b -> (no_memory d 3 -> C) ->
  <[x := AVal true [Some c]]> b = b' -> runs (scall d od (CtorChar x c)) s (nat_ A b') (nthrown C Y X A0 b0).
Proof.
  intros H Hx HY HX HC <-. eapply str_to; [exact H|apply (char_step d Hnul); exact Hx|reflexivity|exact HY|exact HX|discriminate| |reflexivity].
  cbn [subject target asks]. intros z [= <-]. rewrite (vlen_val _ _ _ _ (lookup_insert _ _ _)). exact HC.
Qed.

Lemma nmakes_at (m : Mn unit) (C : Prop) s A b A' b' : runs m s (nat_ A' b') (nthrown C [] [] A b) -> nmakes d od C m s A b A' b' tt.
Proof.
  unfold runs, nmakes. destruct (m s) as [[] s'|e s'| | |u]; try (intros []; fail).
  - intros H. split; [reflexivity|]. split; [exact H|]. apply (reached_nshows d od Hwf), H.
  - intros (He & Hk & A1 & b1 & H & HA & Hb). apply within_nil in HA as ->. apply within_nil in Hb as ->.
    split; [exact He|]. split; [exact Hk|]. split; [exact H|]. apply (reached_nshows d od Hwf), H.
Qed.
End Rules.
