(** Programs with arrays of Strings. *)
From stdpp Require Import gmap.
From Verif Require Import RcaSpec RcaModel RcaExec RcaInv RcaOwn RcaRel RcaMeet RcaMain RcaReach NestModel NestMeet NestSim NestAbs NestBuf NestOps NestCalls NestProof NestMain.
From Coq Require Import ZifyBool.
Open Scope Z_scope.

Section Reach.
Variable d : desc Z.
Variable od : desc positive.
Hypothesis Hwf : wf_desc d.
Notation nr := (nr d od).

Lemma nr_init : nr ∅ ∅ n_init.
Proof.
  exists st_init, ∅. split; [|split; [apply R_init|intros x; rewrite !lookup_empty; exact I]]. exists [], ∅. split.
  - constructor; cbn.
    + apply R_init.
    + intros y. rewrite !lookup_empty. reflexivity.
    + apply lookup_empty.
    + unfold bufs. cbn. intros l bf. rewrite fmap_empty, lookup_empty. discriminate.
    + unfold bufs. cbn. intros l l' bf bf' p. rewrite fmap_empty, lookup_empty. discriminate.
    + intros q [v E]. rewrite lookup_empty in E. discriminate.
  - unfold abs. cbn. rewrite fmap_empty. reflexivity.
Qed.
Lemma reached_nr s A b : nreached d od s A b -> nr A b s.
Proof.
  intros H. induction H as [|s A b o A' b' v v' s' _ IH Hs E|s A b o s' _ IH Hs E|s A b o r s' _ IH Hs E].
  - apply nr_init.
  - destruct (nstep_out d od Hwf o s A b _ IH Hs) as [(s2 & v2 & E2 & _ & Hn)|(_ & s2 & E2 & _)]; rewrite E in E2; [|discriminate]. injection E2 as -> <-. exact Hn.
  - destruct (nstep_out d od Hwf o s A b _ IH Hs) as [(s2 & E2 & Hn)|(_ & s2 & E2 & _)]; rewrite E in E2; [|discriminate]. injection E2 as <-. exact Hn.
  - destruct (nstep_out d od Hwf o s A b _ IH Hs) as [H|(_ & s2 & E2 & Hn)].
    + destruct r; [destruct H as (s2 & v2 & E2 & _)|destruct H as (s2 & E2 & _)]; rewrite E in E2; discriminate.
    + rewrite E in E2. injection E2 as <-. exact Hn.
Qed.
Lemma inner_shows s i a z r v : RcaRel.R d i a -> n_in s = i -> a !! z = Some (AVal r v) -> shows_str s z v.
Proof. intros HR <- Ha. exact (R_shows d _ _ HR z r v Ha). Qed.
Lemma nr_shows s A b : nr A b s -> nshows s A b.
Proof.
  intros (t & A1 & Hr & HR & Ha). split.
  - intros x vs Hx. assert (E : elems A x = Some vs) by (unfold elems; rewrite Hx; reflexivity).
    destruct (rel_arr d od A A1 b s t x vs Hr HR Ha E) as (ob & Har). split.
    + pose proof (arr_length _ _ _ _ _ Har) as L. unfold length_of, bind, get_obj in *. rewrite (rel_env _ _ _ _ Hr) in L.
      destruct (st_env (n_out s) !! x); [|discriminate]. injection L as L. cbn. rewrite L. reflexivity.
    + intros i v Hv. destruct (arr_elem d od b s t x ob vs i v Hr Har Hv) as (f & a & z & l & c & W & _ & _ & _ & _ & _ & _ & Hn & _ & Hz & _).
      exists z. split; [exact Hn|]. eapply inner_shows; [apply (wf_R _ _ _ _ _ W)|reflexivity|exact Hz].
  - intros y r v Hy. destruct Hr as (f & a & W & _). eapply inner_shows; [apply (wf_R _ _ _ _ _ W)|reflexivity|]. unfold str. rewrite (wf_b _ _ _ _ _ W). exact Hy.
Qed.
Lemma reached_nshows s A b : nreached d od s A b -> nshows s A b.
Proof. intros H. apply nr_shows, reached_nr, H. Qed.
Lemma step_nyields o s A b r : nreached d od s A b -> nstep d o A b = Some r -> nyields d od o s A b r.
Proof.
  intros H Hs. pose proof (nstep_out d od Hwf o s A b r (reached_nr _ _ _ H) Hs) as [G|(Hst & s' & E & Hn)].
  - left. destruct r as [A' b' v|].
    + destruct G as (s' & v' & E & Ho & Hn). exists s', v'. split; [exact E|]. split; [exact Ho|]. split; [eapply nre_ret; eassumption|apply nr_shows, Hn].
    + destruct G as (s' & E & Hn). exists s'. split; [exact E|]. split; [eapply nre_range; eassumption|apply nr_shows, Hn].
  - right. split; [exact Hst|]. exists s', (fst (noom o s' A b)), (snd (noom o s' A b)). split; [exact E|]. split; [destruct (noom o s' A b); reflexivity|].
    split; [eapply nre_oom; eassumption|apply nr_shows, Hn].
Qed.

(** What a call does not name keeps its value. *)
Lemma step_others o A b A' b' v x : nstep d o A b = Some (NRet A' b' v) -> ~ In x (nchanges o) -> A' !! x = A !! x.
Proof.
  intros H Hx. destruct o; cbn [nstep nchanges In] in *; unfold nput in H;
    repeat match type of H with
           | (if ?c then _ else _) = _ => destruct c
           | (match ?c with _ => _ end) = _ => destruct c
           end; try discriminate; injection H as <- _ _; try reflexivity;
    repeat (first [rewrite lookup_insert_ne by (intros ->; tauto) | rewrite lookup_delete_ne by (intros ->; tauto)]); reflexivity.
Qed.
Lemma oom_others o s' A b x : ~ In x (nchanges o) -> fst (noom o s' A b) !! x = A !! x.
Proof.
  intros Hx. destruct o; cbn [noom ntarget nchanges In] in *;
    repeat match goal with |- context [match ?c with _ => _ end] => lazymatch c with context [lookup _ _] => fail | _ => destruct c end end;
    cbn [fst]; try reflexivity; rewrite lookup_insert_ne by (intros ->; tauto); reflexivity.
Qed.
Definition ends {A} (r : res nstate A) (s' : nstate) : Prop := (exists v, r = Ok v s') \/ (exists e, r = Exn e s').
Lemma others_keep o s A b r x vs s' : nreached d od s A b -> nstep d o A b = Some r -> ends (nexec d od o s) s' ->
  ~ In x (nchanges o) -> A !! x = Some (NVal vs) ->
  length_of x (n_out s') = Ok (zlen vs) (n_out s') /\ forall i v, znth i vs = Some v -> exists z, nslot x i s' = Ok z s' /\ shows_str s' z (snd v).
Proof.
  intros H Hs Hend Hx HA. destruct (step_nyields o s A b r H Hs) as [G|(_ & s2 & A' & b' & E & En & _ & Hsh)].
  - destruct r as [A' b' v|].
    + destruct G as (s2 & v' & E & _ & _ & Hsh). destruct Hend as [[v2 E2]|[e E2]]; rewrite E in E2; [|discriminate]. injection E2 as <- <-.
      apply Hsh. rewrite (step_others _ _ _ _ _ _ x Hs Hx). exact HA.
    + destruct G as (s2 & E & _ & Hsh). destruct Hend as [[v2 E2]|[e E2]]; rewrite E in E2; [discriminate|]. injection E2 as <- <-. apply Hsh, HA.
  - destruct Hend as [[v2 E2]|[e E2]]; rewrite E in E2; [discriminate|]. injection E2 as <- <-. apply Hsh.
    replace A' with (fst (noom o s2 A b)) by (rewrite <- En; reflexivity). rewrite (oom_others o s2 A b x Hx). exact HA.
Qed.

(** Memory. *)
Lemma inv_no_leak {T} (dd : desc T) s : Inv dd s -> st_env s = ∅ -> st_heap s = ∅.
Proof.
  intros HI He. apply map_empty. intros l. destruct (st_heap s !! l) as [c|] eqn:Hc; [exfalso|reflexivity]. destruct HI as [Hck _].
  pose proof (Hck l c Hc) as K. pose proof (ck_pos _ _ _ _ K) as Kp. rewrite (ck_refs _ _ _ _ K) in Kp. destruct (count_witness _ _ Kp) as (x & o & Hx & _).
  rewrite He, lookup_empty in Hx. discriminate.
Qed.
Lemma nothing_left s b : nreached d od s ∅ b ->
  st_env (n_out s) = ∅ /\ st_heap (n_out s) = ∅ /\ (forall z o, st_env (n_in s) !! z = Some o -> exists y, z = str y /\ is_Some (b !! y)) /\
  (b = ∅ -> st_env (n_in s) = ∅ /\ st_heap (n_in s) = ∅).
Proof.
  intros H. destruct (reached_nr _ _ _ H) as (t & A1 & Hr & HR & Ha).
  assert (Het : st_env t = ∅).
  { apply map_empty. intros x. apply (R_fresh _ _ _ _ HR). apply (arel_none _ _ _ Ha). apply lookup_empty. }
  pose proof (inv_no_leak _ _ (proj1 HR) Het) as Hht. rewrite (rel_env _ _ _ _ Hr) in Het. destruct Hr as (f & a & W & Et).
  assert (Hho : st_heap (n_out s) = ∅).
  { rewrite Et in Hht. cbn in Hht. apply fmap_empty_inv in Hht. exact Hht. }
  assert (Hin : forall z o, st_env (n_in s) !! z = Some o -> exists y, z = str y /\ is_Some (b !! y)).
  { intros z o Hz. destruct (a !! z) as [v|] eqn:E; [|rewrite (R_fresh d _ _ _ (wf_R _ _ _ _ _ W) E) in Hz; discriminate]. destruct z as [q|q|].
    - destruct (wf_cover _ _ _ _ _ W q (ex_intro _ v E)) as (l & bf & Hl & _). unfold bufs in Hl. rewrite Hho, fmap_empty, lookup_empty in Hl. discriminate.
    - exists q. split; [reflexivity|]. rewrite <- (wf_b _ _ _ _ _ W), E. eauto.
    - rewrite (wf_1 _ _ _ _ _ W) in E. discriminate. }
  split; [exact Het|]. split; [exact Hho|]. split; [exact Hin|]. intros ->.
  assert (Hei : st_env (n_in s) = ∅).
  { apply map_empty. intros z. destruct (st_env (n_in s) !! z) as [o|] eqn:E; [|reflexivity]. destruct (Hin z o E) as (y & _ & [v Ev]). rewrite lookup_empty in Ev. discriminate. }
  split; [exact Hei|]. apply (inv_no_leak d); [apply (wf_R _ _ _ _ _ W)|exact Hei].
Qed.
(** Never undefined behaviour, never std::terminate. *)
Lemma step_safe o s A b r : nreached d od s A b -> nstep d o A b = Some r -> exists s', ends (nexec d od o s) s'.
Proof.
  intros H Hs. destruct (step_nyields o s A b r H Hs) as [G|(_ & s2 & A' & b' & E & _)].
  - destruct r; [destruct G as (s2 & v' & E & _)|destruct G as (s2 & E & _)]; exists s2; [left|right]; eauto.
  - exists s2. right. eauto.
Qed.
End Reach.
