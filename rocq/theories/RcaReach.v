(** Facts about reached states. *)
From Verif Require Import RcaSpec RcaModel RcaExec RcaInv RcaOwn RcaRel RcaRel2 RcaMod RcaMeet RcaMain.
From Coq Require Import ZifyBool.
Open Scope Z_scope.

Section Reach.
Context {T : Type} (d : desc T).
Implicit Types (s : state T) (x y : var) (a : astate T) (v w : list (option T)) (o : op T).
Notation R := (R d).
Notation step := (step d).
Notation reached := (reached d).

Lemma length_zero s a x r v : R s a -> a !! x = Some (AVal r v) -> length_of x s = Ok 0 s -> v = [].
Proof.
  intros HR Ha Hl. destruct (R_held d _ _ _ _ _ HR Ha) as (o & Hh). rewrite (held_len d _ _ _ _ _ Hh) in Hl.
  injection Hl as Hl. apply zlen_0_nil, Hl.
Qed.
(** An empty value can be described as empty with room. *)
Lemma R_empty_again s a x r : R s a -> a !! x = Some (AVal r []) -> R s (<[x:=AVal true []]> a).
Proof.
  intros HR Ha. destruct (R_held d _ _ _ _ _ HR Ha) as (o & [Hx Hg Hv Hrm Hlen Hoff Hfit Hcap]).
  eapply R_put; [exact HR|apply HR|apply frame_refl|exact Hx|].
  split; [exact Hg|]. split; [exact Hv|]. intros _ _. left. cbn in Hlen. exact Hlen.
Qed.
Lemma R_empty_weak s a x r : R s (<[x:=AVal true []]> a) -> a !! x = Some (AVal r []) -> R s a.
Proof.
  intros HR Ha. destruct (R_held d _ _ x _ _ HR (lookup_insert _ _ _)) as (o & [Hx Hg Hv Hrm Hlen Hoff Hfit Hcap]).
  rewrite <- (insert_id a x _ Ha), <- (insert_insert a x (AVal r []) (AVal true [])).
  eapply R_put; [exact HR|apply HR|apply frame_refl|exact Hx|].
  split; [exact Hg|]. split; [exact Hv|]. intros _ _. left. cbn in Hlen. exact Hlen.
Qed.
(** A moved-from target is only legitimate for calls that assign to it or do nothing. *)
Lemma target_moved o s a a' (v : out T) x e s' :
  step o a = Some (SRet a' v) -> target o = Some x -> discards o = false -> exec d o s = Exn e s' -> a !! x <> Some AMoved.
Proof.
  intros Hs Ht Hd E Ha. revert Hs E. destruct o; cbn in Ht, Hd; try discriminate; injection Ht as ->; unfold RcaMeet.step; cbn [spec_step exec].
  all: try (unfold holds; rewrite Ha; discriminate).
  - unfold sp_insert_n, sp_insert. destruct (in_u64 n && live a x && live a y); [|discriminate]. cbn [need].
    unfold holds. rewrite Ha. unfold unit_, insert_n. destruct (n =? 0); [|discriminate]. cbn. discriminate.
  - unfold sp_insert, holds. rewrite Ha. discriminate.
Qed.
Lemma target_subject o x : target o = Some x -> subject o = Some x.
Proof. destruct o; cbn; congruence. Qed.

Lemma reached_R s a : wf_desc d -> reached s a -> R s a.
Proof.
  intros Hwf H. induction H as [|s a o a' v v' s' _ IH Hs E|s a o s' _ IH Hs E|s a o a' v x s' _ IH Hs E Hsub Hk|s a o a' v x s' _ IH Hs E Ht Hl].
  - apply R_init.
  - pose proof (exec_meets d o s a Hwf IH) as Hm. unfold meets in Hm. rewrite Hs, E in Hm. apply Hm.
  - pose proof (exec_meets d o s a Hwf IH) as Hm. unfold meets in Hm. rewrite Hs, E in Hm. injection Hm as ->. exact IH.
  - pose proof (exec_meets d o s a Hwf IH) as Hm. unfold meets in Hm. rewrite Hs, E in Hm.
    destruct Hm as (_ & x' & Hx' & _ & [[_ HR]|(Ht & _ & HR)]); [exact HR|].
    assert (x' = x) as -> by congruence.
    destruct Hk as [Hk|[Hk|(r & Hk)]]; [congruence| |eapply R_empty_weak; eassumption]. exfalso. apply Hk.
    destruct (R_held d s' _ x _ _ HR (lookup_insert _ _ _)) as (ob & Hh). exact (held_len d _ _ _ _ _ Hh).
  - pose proof (exec_meets d o s a Hwf IH) as Hm. unfold meets in Hm. rewrite Hs, E in Hm.
    destruct Hm as (_ & x' & Hx' & _ & [[Hd HR]|(Ht' & _ & HR)]).
    + destruct (a !! x) as [[r w|]|] eqn:Ha.
      * pose proof (length_zero s' a x r w HR Ha Hl) as ->. eapply R_empty_again; eassumption.
      * destruct (target_moved o s a a' v x _ s' Hs Ht Hd E Ha).
      * exfalso. unfold length_of, bind, get_obj in Hl. rewrite (R_fresh d _ _ _ HR Ha) in Hl. discriminate.
    + assert (x' = x) as -> by congruence. exact HR.
Qed.

Lemma R_shows s a : R s a -> shows s a.
Proof.
  intros HR x r v Ha. destruct (R_held d _ _ _ _ _ HR Ha) as (o & Hh). split; [eapply held_len; exact Hh|].
  intros i e Hi. eapply held_load1; [apply HR|exact Hh|exact Hi].
Qed.
Lemma reached_shows s a : wf_desc d -> reached s a -> shows s a.
Proof. intros Hwf H. apply R_shows, reached_R; assumption. Qed.

(** The main theorem in terms of reached states. *)
Lemma zero_or_not x s : length_of x s = Ok 0 s \/ length_of x s <> Ok 0 s.
Proof.
  unfold length_of, bind, get_obj, ret. destruct (st_env s !! x) as [o|]; [|right; discriminate].
  destruct (Z.eq_dec (o_len o) 0) as [->|H]; [left; reflexivity|right; congruence].
Qed.
Lemma fail_out o s a a' (v : out T) s' e :
  wf_desc d -> reached s a -> step o a = Some (SRet a' v) -> exec d o s = Exn e s' -> out_of_memory d o s a a'.
Proof.
  intros Hwf H Hs E. pose proof (reached_R s a Hwf H) as HR.
  pose proof (exec_meets d o s a Hwf HR) as Hm. unfold meets in Hm. rewrite Hs, E in Hm.
  destruct Hm as (-> & x & Hsub & Hst & Hk). exists s', x. split; [exact E|]. split; [exact Hsub|]. split; [exact Hst|].
  destruct Hk as [[Hd HR']|(Ht & Hsh & HR')].
  - exists a. split; [|split; [apply R_shows, HR'|left; reflexivity]]. eapply re_oom_kept; try eassumption.
    destruct (target o) as [y|] eqn:Ht; [right|left; reflexivity].
    assert (y = x) as -> by (apply target_subject in Ht; congruence).
    destruct (zero_or_not x s') as [Hl|Hl]; [right|left; exact Hl].
    destruct (a !! x) as [[r w|]|] eqn:Ha.
    + pose proof (length_zero s' a x r w HR' Ha Hl) as ->. exists r; reflexivity.
    + destruct (target_moved o s a a' v x _ s' Hs Ht Hd E Ha).
    + exfalso. unfold length_of, bind, get_obj in Hl. rewrite (R_fresh d _ _ _ HR' Ha) in Hl. discriminate.
  - exists (<[x:=AVal true []]> a). split; [|split; [apply R_shows, HR'|right; auto]].
    eapply re_oom_emptied; try eassumption.
    destruct (R_held d s' _ x _ _ HR' (lookup_insert _ _ _)) as (ob & Hh). exact (held_len d _ _ _ _ _ Hh).
Qed.
Lemma step_yields o s a a' (v : out T) :
  wf_desc d -> reached s a -> step o a = Some (SRet a' v) -> (forall g x, o <> CStr g x) -> yields d o s a a' v.
Proof.
  intros Hwf H Hs Hnc. pose proof (reached_R s a Hwf H) as HR.
  pose proof (exec_meets d o s a Hwf HR) as Hm. unfold meets in Hm. rewrite Hs in Hm.
  destruct (exec d o s) as [v' s'|e s'| | |u] eqn:E; try contradiction.
  - left. exists s', v'. destruct Hm as [HR' Ho]. split; [exact E|]. split; [exact Ho|].
    assert (reached s' a') by (eapply re_ret; eassumption). split; [assumption|apply reached_shows; assumption].
  - right. eapply fail_out; eassumption.
  - destruct Hm as (g & x & -> & _). destruct (Hnc g x eq_refl).
Qed.
(** Operations without a subject never fail. *)
Lemma out_le_plain (v v' : out T) : (forall m, v <> OMem m) -> out_le v v' -> v' = v.
Proof. destruct v, v'; cbn; congruence. Qed.
Lemma step_returns o s a a' (v : out T) :
  wf_desc d -> reached s a -> step o a = Some (SRet a' v) -> subject o = None -> (forall m, v <> OMem m) -> returns d o s a' v.
Proof.
  intros Hwf H Hs Hsub Hv. destruct (step_yields o s a a' v Hwf H Hs) as [(s' & v' & E & Ho & H1 & H2)|Hoom].
  - intros g x ->. discriminate.
  - exists s'. apply out_le_plain in Ho as ->; [|exact Hv]. auto.
  - destruct Hoom as (s' & x & _ & Hx & _). congruence.
Qed.
Lemma step_range o s a : wf_desc d -> reached s a -> step o a = Some SRange -> exec d o s = Exn OutOfRange s.
Proof.
  intros Hwf H Hs. pose proof (exec_meets d o s a Hwf (reached_R s a Hwf H)) as Hm. unfold meets in Hm. rewrite Hs in Hm. exact Hm.
Qed.
(** Legitimate calls never go wrong. *)
Lemma step_safe o s a : wf_desc d -> reached s a -> step o a <> None ->
  match exec d o s with Undef _ | Fuel => False | _ => True end.
Proof.
  intros Hwf H Hs. pose proof (exec_meets d o s a Hwf (reached_R s a Hwf H)) as Hm. unfold meets in Hm.
  destruct (step o a) as [[a' v|]|]; [| |congruence].
  - destruct (exec d o s); try exact I; contradiction.
  - rewrite Hm. exact I.
Qed.
(** Without failing allocations nothing is thrown. *)
Lemma no_memory_absurd n : (forall k, d_oom d k = false) -> n <= max_alloc -> (forall z, 0 <= z < n -> d_grow d z <= max_alloc) -> ~ no_memory d n.
Proof.
  intros H1 H2 H3 [(k & Hk)|[H|(z & Hz & Hz')]]; [rewrite H1 in Hk; discriminate|lia|specialize (H3 z Hz); lia].
Qed.

(** Reference counts. *)
Definition sharers s x : Z :=
  match st_env s !! x with
  | Some o => match o_ref o with Some l => count l (st_env s) | None => 0 end
  | None => 0
  end.
Lemma rcount_exact s a x : wf_desc d -> reached s a -> live a x = true -> rcount x s = Ok (sharers s x) s.
Proof.
  intros Hwf H Hl. pose proof (reached_R s a Hwf H) as HR. destruct (live_some _ _ Hl) as (av & Ha).
  destruct (R_lookup _ _ _ _ _ HR Ha) as (o & Hx & _). unfold rcount, sharers, bind. rewrite (get_obj_ok _ _ _ Hx), Hx.
  destruct (o_ref o) as [l|] eqn:Hr; [|reflexivity].
  destruct (inv_ref_live d s x o l (proj1 HR) Hx Hr) as (c & Hc). rewrite (get_cell_ok _ _ _ Hc). unfold ret.
  destruct HR as [[Hck _] _]. rewrite (ck_refs _ _ _ _ (Hck l c Hc)). reflexivity.
Qed.
Lemma buffer_iff_used s a l : wf_desc d -> reached s a ->
  (exists c, st_heap s !! l = Some c) <-> (exists x (o : obj), st_env s !! x = Some o /\ o_ref o = Some l).
Proof.
  intros Hwf H. pose proof (reached_R s a Hwf H) as HR. split.
  - intros (c & Hc). apply count_witness. destruct HR as [[Hck _] _]. pose proof (Hck l c Hc) as K. rewrite <- (ck_refs _ _ _ _ K). apply (ck_pos _ _ _ _ K).
  - intros (x & o & Hx & Hr). eapply inv_ref_live; [apply HR|exact Hx|exact Hr].
Qed.
Lemma live_iff s a x : wf_desc d -> reached s a -> (exists o : obj, st_env s !! x = Some o) <-> live a x = true.
Proof.
  intros Hwf H. pose proof (reached_R s a Hwf H) as HR. split.
  - intros (o & Ho). unfold live, fresh_var. destruct (a !! x) eqn:Ha; [reflexivity|]. rewrite (R_fresh d _ _ _ HR Ha) in Ho. discriminate.
  - intros Hl. destruct (live_some _ _ Hl) as (av & Ha). destruct (R_lookup _ _ _ _ _ HR Ha) as (o & Hx & _). eauto.
Qed.
Lemma no_leak s : wf_desc d -> reached s ∅ -> st_heap s = ∅.
Proof.
  intros Hwf H. apply map_empty. intros l. destruct (st_heap s !! l) as [c|] eqn:Hc; [exfalso|reflexivity].
  destruct (proj1 (buffer_iff_used s ∅ l Hwf H)) as (x & o & Hx & _); [eauto|].
  pose proof (proj1 (live_iff s ∅ x Hwf H) (ex_intro _ o Hx)) as Hl. unfold live, fresh_var in Hl. rewrite lookup_empty in Hl. discriminate.
Qed.

(** [track] follows reached states. *)
Lemma track1_reached o s a s' a' : reached s a -> track1 d o (s, a) = Some (s', a') -> reached s' a'.
Proof.
  intros H. unfold track1. destruct (step o a) as [[a1 v|]|] eqn:Hs; [| |discriminate].
  - destruct (exec d o s) as [v' s1|[] s1| | |u] eqn:E; try discriminate.
    + intros [= <- <-]. eapply re_ret; eassumption.
    + destruct (subject o) as [x|] eqn:Hsub; [|discriminate]. destruct (target o) as [y|] eqn:Ht.
      * assert (y = x) as -> by (apply target_subject in Ht; congruence).
        destruct (length_of x s1) as [n s2|? ?| | |?] eqn:El.
        -- assert (s2 = s1) as ->.
           { unfold length_of, bind, get_obj, ret in El. destruct (st_env s1 !! x); [|discriminate]. congruence. }
           destruct (Z.eqb_spec n 0) as [->|Hn]; intros [= <- <-].
           ++ eapply re_oom_emptied; eassumption.
           ++ eapply re_oom_kept; try eassumption. right; left. rewrite El. congruence.
        -- intros [= <- <-]. eapply re_oom_kept; try eassumption. right; left. rewrite El. discriminate.
        -- intros [= <- <-]. eapply re_oom_kept; try eassumption. right; left. rewrite El. discriminate.
        -- intros [= <- <-]. eapply re_oom_kept; try eassumption. right; left. rewrite El. discriminate.
        -- intros [= <- <-]. eapply re_oom_kept; try eassumption. right; left. rewrite El. discriminate.
      * intros [= <- <-]. eapply re_oom_kept; try eassumption. left; exact Ht.
  - destruct (exec d o s) as [v' s1|[] s1| | |u] eqn:E; try discriminate. intros [= <- <-]. eapply re_range; eassumption.
Qed.
Lemma track_reached ops : forall s a s' a', reached s a -> track d ops (s, a) = Some (s', a') -> reached s' a'.
Proof.
  induction ops as [|o ops IH]; cbn [track]; intros s a s' a' H; [intros [= <- <-]; exact H|].
  destruct (track1 d o (s, a)) as [[s1 a1]|] eqn:E; [|discriminate]. apply IH. eapply track1_reached; eassumption.
Qed.
Lemma track_init ops s a : track d ops (st_init, ∅) = Some (s, a) -> reached s a.
Proof. apply track_reached. apply re_init. Qed.
End Reach.
