(** Several Streams: every call does what MstSpec says. *)
From Verif Require Import RcaSpec RcaModel RcaExec RcaInv RcaOwn RcaRel RcaMeet RcaMain RcaReach RcaFacts RcaFacts2 StreamSpec StreamModel StreamMeet StreamProof MstSpec MstModel MstMeet.
Open Scope Z_scope.

Section Proof.
Variable d : desc Z.
Hypothesis Hwf : wf_desc d.
Hypothesis Hnul : d_nul d = Some 0.
Variable t : positive.
Notation streams := (gmap positive stream).
Notation MM := (M (state Z * streams)).
Notation reached := (reached d).
Notation step := (step d).
Notation mrel := (mrel d t).
Notation mstep := (mstep step t).
Notation memlow := (memlow d).

Definition mwp {A} (f : MM A) (P : A -> state Z * streams -> Prop) (Q : exn -> state Z * streams -> Prop) (st : state Z * streams) : Prop :=
  match f st with Ok v st' => P v st' | Exn e st' => Q e st' | _ => False end.
Lemma mwp_bind {A B} (f : MM A) (g : A -> MM B) P Q st : mwp f (fun v st' => mwp (g v) P Q st') Q st -> mwp (bind f g) P Q st.
Proof. unfold mwp, bind. destruct (f st); auto. Qed.
Lemma mwp_ret {A} (v : A) (P : A -> _ -> Prop) Q st : P v st -> mwp (ret v) P Q st.
Proof. intros H; exact H. Qed.
Lemma mwp_on {A} k (f : MS A) z s (zs : streams) P Q :
  zs !! k = Some z -> wp f (fun v '(s', z') => P v (s', <[k := z']> zs)) (fun e '(s', z') => Q e (s', <[k := z']> zs)) (s, z) ->
  mwp (on k f) P Q (s, zs).
Proof. intros E H. unfold mwp, on. rewrite E. unfold wp in H. destruct (f (s, z)) as [v [s' z']|e [s' z']| | |u]; exact H. Qed.
Lemma mwp_cursor k z s (zs : streams) (P : _ -> _ -> Prop) Q :
  zs !! k = Some z -> P (s_pos z, s_load z) (s, zs) -> mwp (cursor k) P Q (s, zs).
Proof. intros E H. unfold mwp, cursor. rewrite E. exact H. Qed.
Lemma mwp_set k c s (zs : streams) (P : _ -> _ -> Prop) Q :
  P tt (s, <[k := Stream k (fst c) (snd c)]> zs) -> mwp (set_cursor k c) P Q (s, zs).
Proof. intros H. exact H. Qed.
Lemma mwp_safe o s zs a a' v (P : _ -> _ -> Prop) Q :
  reached s a -> step o a = Some (SRet a' v) -> subject o = None -> (forall m, v <> OMem m) ->
  (forall s', reached s' a' -> P v (s', zs)) -> mwp (ucall d o) P Q (s, zs).
Proof.
  intros H Hs Hn Hm HP. unfold mwp, ucall. destruct (step_returns d o s a a' v Hwf H Hs Hn Hm) as (s' & E & H' & _).
  rewrite E. apply HP, H'.
Qed.

Lemma vals_some (v : list (option Z)) l : vals v = Some l -> v = map Some l.
Proof.
  revert l. induction v as [|[e|] v IH]; intros l; cbn [vals].
  - intros [= <-]. reflexivity.
  - destruct (vals v) as [l'|]; [|discriminate]. intros [= <-]. cbn [map]. f_equal. apply IH. reflexivity.
  - discriminate.
Qed.
Lemma text_some a x r l : text a x = Some (r, l) -> a !! x = Some (AVal r (map Some l)).
Proof.
  unfold text. destruct (a !! x) as [[r' v|]|]; try discriminate. destruct (vals v) as [l'|] eqn:E; [|discriminate].
  intros [= -> ->]. apply vals_some in E. congruence.
Qed.
Lemma strm_some a m k r v p : strm a m k = Some (r, v, p) -> a !! k = Some (AVal r (map Some v)) /\ m !! k = Some p.
Proof.
  unfold strm. destruct (text a k) as [[r' v']|] eqn:E; [|discriminate]. destruct (m !! k); [|discriminate].
  intros [= -> -> ->]. split; [apply text_some, E|reflexivity].
Qed.
Lemma unused_some a x : unused t a x = true -> a !! x = None /\ x <> t.
Proof.
  unfold unused, fresh_var. destruct (a !! x); [discriminate|]. destruct (Pos.eqb_spec x t); [discriminate|]. auto.
Qed.
Lemma plain_some m x : plain t m x = true -> m !! x = None /\ x <> t.
Proof.
  unfold plain. destruct (m !! x); [discriminate|]. destruct (Pos.eqb_spec x t); [discriminate|]. auto.
Qed.

(** The relation. *)
Lemma mrel_stream s zs a m k p : mrel (s, zs) a m -> m !! k = Some p ->
  reached s a /\ a !! t = None /\ k <> t /\ 0 <= p < W64 /\ exists b, zs !! k = Some (Stream k p b).
Proof.
  intros [H Ht Hl Hn] Hk. cbn [fst snd] in *. destruct (Hl k p Hk) as ((av & Ha) & Hp & Hb). repeat split; try assumption; try lia.
  intros ->. congruence.
Qed.
(** Only texts change. *)
Lemma mrel_texts s zs a m s' a' : mrel (s, zs) a m -> reached s' a' -> a' !! t = None ->
  (forall k p, m !! k = Some p -> is_Some (a' !! k)) -> mrel (s', zs) a' m.
Proof.
  intros [H Ht Hl Hn] H' Ht' Hk. split; cbn [fst snd] in *; try assumption. intros k p E. destruct (Hl k p E) as (_ & R). split; [eapply Hk, E|exact R].
Qed.
(** One cursor is set. *)
Lemma mrel_set s zs a m s' a' k p b : mrel (s, zs) a m -> reached s' a' -> a' !! t = None -> is_Some (a' !! k) -> 0 <= p < W64 ->
  (forall j q, m !! j = Some q -> is_Some (a' !! j)) -> mrel (s', <[k := Stream k p b]> zs) a' (<[k := p]> m).
Proof.
  intros [H Ht Hl Hn] H' Ht' Ha Hp Hk. cbn [fst snd] in *. split; cbn [fst snd]; try assumption.
  - intros j q E. destruct (Pos.eq_dec k j) as [<-|Hj].
    + rewrite lookup_insert in E. injection E as <-. rewrite lookup_insert. eauto.
    + rewrite lookup_insert_ne in E by exact Hj. rewrite lookup_insert_ne by exact Hj. destruct (Hl j q E) as (_ & R). split; [eapply Hk, E|exact R].
  - intros j E. destruct (Pos.eq_dec k j) as [<-|Hj].
    + rewrite lookup_insert in E. discriminate.
    + rewrite lookup_insert_ne in E by exact Hj. rewrite lookup_insert_ne by exact Hj. apply Hn, E.
Qed.
Lemma some_insert (a : astate Z) k av j : is_Some (a !! j) -> is_Some (<[k := av]> a !! j).
Proof. intros H. destruct (Pos.eq_dec k j) as [<-|Hj]; [rewrite lookup_insert|rewrite lookup_insert_ne by exact Hj]; eauto. Qed.
Lemma mrel_names s zs a m j q : mrel (s, zs) a m -> m !! j = Some q -> is_Some (a !! j).
Proof. intros [H Ht Hl Hn] E. exact (proj1 (Hl j q E)). Qed.

(** Calls on Strings. *)
Lemma frame_mentions o (a a' : astate Z) v y : step o a = Some (SRet a' v) -> y ∉ mentions o -> a' !! y = a !! y.
Proof.
  clear Hnul. intros Hs Hy. revert Hs. unfold RcaMeet.step. destruct o; cbn [spec_step mentions] in *.
  all: unfold put, same, sp_insert_n, sp_insert, sp_take, need.
  all: repeat match goal with H : _ ∉ _ :: _ |- _ => apply not_elem_of_cons in H; destruct H end.
  all: repeat match goal with |- context [match ?c with _ => _ end] => destruct c eqn:? end; try discriminate.
  all: intros [= <- <-]; try reflexivity.
  all: repeat rewrite lookup_insert_ne by congruence; try rewrite lookup_delete_ne by congruence; reflexivity.
Qed.
Lemma target_mentions o y : target (T := Z) o = Some y -> y ∈ mentions o.
Proof. destruct o; cbn [target mentions]; try discriminate; intros [= ->]; apply elem_of_list_here. Qed.
Lemma forallb_plain m l x : forallb (plain t m) l = true -> x ∈ l -> m !! x = None /\ x <> t.
Proof. intros H E. apply plain_some. eapply forallb_forall; [exact H|]. apply elem_of_list_In, E. Qed.

Notation mdoes := (mdoes d t).
Lemma string_ok o s zs a m r cap : mrel (s, zs) a m -> mstep cap (MString o) a m = Some r -> mdoes (MString o) (s, zs) a m r.
Proof.
  intros HM Hs. cbn [MstSpec.mstep] in Hs. destruct (forallb (plain t m) (mentions o)) eqn:Hf; [|discriminate]. cbn [need] in Hs.
  pose proof (mr_reached _ _ _ _ _ HM) as H. pose proof (mr_tmp _ _ _ _ _ HM) as Ht. cbn [fst] in H.
  assert (Htm : t ∉ mentions o) by (intros E; destruct (forallb_plain _ _ _ Hf E); congruence).
  assert (Hkm : forall k p, m !! k = Some p -> k ∉ mentions o) by (intros k p Hk E; destruct (forallb_plain _ _ _ Hf E); congruence).
  unfold MstMeet.mdoes. cbn [mexec]. unfold bind, ucall. destruct (step o a) as [[a' v|]|] eqn:Es; [| |discriminate].
  - injection Hs as <-. pose proof (exec_meets d o s a Hwf (reached_R d s a Hwf H)) as Hm. unfold meets in Hm. rewrite Es in Hm.
    destruct (exec d o s) as [v' s'|e s'| | |u] eqn:E; try contradiction.
    + exists a', m, (MOut v). split; [reflexivity|]. split; [exact (proj2 Hm)|]. eapply mrel_texts; [exact HM|eapply re_ret; eassumption| |].
      * rewrite (frame_mentions _ _ _ _ _ Es Htm). exact Ht.
      * intros k p Hk. rewrite (frame_mentions _ _ _ _ _ Es (Hkm k p Hk)). eapply mrel_names; [exact HM|exact Hk].
    + destruct (fail_out d o s a a' v s' e Hwf H Es E) as (s1 & x & E1 & Hsub & Hmem & a1 & H1 & _ & Ha). rewrite E in E1. injection E1 as -> <-.
      split; [eauto|]. split; [exists a', v, x; auto|].
      destruct Ha as [->|(Hta & _ & ->)].
      * exists a, m. split; [constructor|]. eapply mrel_texts; [exact HM|exact H1|exact Ht|]. intros k p Hk. eapply mrel_names; [exact HM|exact Hk].
      * exists (<[x := AVal true []]> a), m. split; [constructor; exact Hta|]. pose proof (target_mentions _ _ Hta) as Hx. eapply mrel_texts; [exact HM|exact H1| |].
        -- rewrite lookup_insert_ne; [exact Ht|]. intros ->. contradiction.
        -- intros k p Hk. apply some_insert. eapply mrel_names; [exact HM|exact Hk].
    + destruct Hm as (g & x & -> & Hm). exists g, x. split; [reflexivity|]. exists a', v, x. auto.
  - injection Hs as <-. rewrite (step_range d o s a Hwf H Es). split; [reflexivity|exact HM].
Qed.

(** From outcome predicates to what a call has to do. *)
Lemma does_wp o s zs a m r :
  mwp (mexec d t o)
    (fun v st' => exists a' m' v', r = MRet a' m' v' /\ mout_le v' v /\ mrel st' a' m')
    (fun e st' => match e with
                  | OutOfRange => r = MRange /\ mrel st' a m
                  | BadAlloc => (exists a' m' v', r = MRet a' m' v') /\ short d o a /\ exists a' m', mfail a m o a' m' /\ mrel st' a' m'
                  end) (s, zs) -> mdoes o (s, zs) a m r.
Proof. unfold mwp, MstMeet.mdoes. destruct (mexec d t o (s, zs)) as [v st'|[] st'| | |u]; auto; contradiction. Qed.

Lemma default_unshared k s s' v : exec d (CtorDefault k) s = Ok v s' -> is_shared k s' = Ok false s'.
Proof.
  cbn [exec]. unfold unit_, bind, ctor_default, new_obj. destruct (st_env s !! k); intros [= _ <-];
  unfold is_shared, bind, get_obj; cbn; rewrite lookup_insert; reflexivity.
Qed.
Lemma step_default k a : a !! k = None -> step (CtorDefault k) a = Some (SRet (<[k := AVal true []]> a) ONone).
Proof. intros Hk. unfold RcaMeet.step. cbn [spec_step]. rewrite (fresh_val _ _ Hk). reflexivity. Qed.
Lemma step_copy k y a r v : a !! k = None -> a !! y = Some (AVal r v) -> step (CtorCopy k y) a = Some (SRet (<[k := AVal r v]> a) ONone).
Proof. intros Hk Hy. unfold RcaMeet.step. cbn [spec_step]. rewrite (fresh_val _ _ Hk), (holds_val _ _ _ _ Hy). reflexivity. Qed.
Lemma step_move k y a r v : a !! k = None -> a !! y = Some (AVal r v) ->
  step (CtorMove k y) a = Some (SRet (<[k := AVal r v]> (<[y := AMoved]> a)) ONone).
Proof. intros Hk Hy. unfold RcaMeet.step. cbn [spec_step]. rewrite (fresh_val _ _ Hk), (holds_val _ _ _ _ Hy). reflexivity. Qed.
Lemma step_swap k j a x y : a !! k = Some x -> a !! j = Some y -> step (Swap k j) a = Some (SRet (<[j := x]> (<[k := y]> a)) ONone).
Proof. intros Hk Hj. unfold RcaMeet.step. cbn [spec_step]. rewrite Hk, Hj. reflexivity. Qed.
Lemma step_destroy k a x : a !! k = Some x -> step (Destroy k) a = Some (SRet (delete k a) ONone).
Proof. intros Hk. unfold RcaMeet.step. cbn [spec_step]. rewrite (live_val _ _ _ Hk). reflexivity. Qed.
Lemma holds_some (a : astate Z) x r v : holds a x = Some (r, v) -> a !! x = Some (AVal r v).
Proof. unfold holds. destruct (a !! x) as [[? ?|]|]; congruence. Qed.

Ltac mret a m := exists a, m; eexists; split; [reflexivity|]; split; [reflexivity|].
Ltac names HM := intros ? ? ?; repeat apply some_insert; (eapply mrel_names; [exact HM|eassumption]).

Lemma new_ok k s zs a m r cap : mrel (s, zs) a m -> mstep cap (MNew k) a m = Some r -> mdoes (MNew k) (s, zs) a m r.
Proof.
  intros HM Hs. cbn [MstSpec.mstep] in Hs. destruct (unused t a k) eqn:Hu; [|discriminate]. injection Hs as <-. destruct (unused_some _ _ Hu) as [Hk Hkt].
  pose proof HM as [H Ht _ _]. cbn [fst] in H. apply does_wp. cbn [mexec]. apply mwp_bind. unfold new. apply mwp_bind.
  eapply mwp_safe; [exact H|apply step_default, Hk|reflexivity|discriminate|]. intros s' H'. apply mwp_set, mwp_ret. mret (<[k := AVal true []]> a) (<[k := 0]> m).
  eapply mrel_set; [exact HM|exact H'|rewrite lookup_insert_ne by congruence; exact Ht|rewrite lookup_insert; eauto|unfold W64; lia|names HM].
Qed.
Lemma from_ok mv k y s zs a m r cap : mrel (s, zs) a m -> mstep cap (MFrom mv k y) a m = Some r -> mdoes (MFrom mv k y) (s, zs) a m r.
Proof.
  intros HM Hs. cbn [MstSpec.mstep] in Hs. destruct (holds a y) as [[ry v]|] eqn:Hy; [|discriminate]. apply holds_some in Hy.
  destruct (unused t a k && plain t m y) eqn:Hu; [|discriminate]. apply andb_prop in Hu as [Hu Hp]. injection Hs as <-.
  destruct (unused_some _ _ Hu) as [Hk Hkt]. destruct (plain_some _ _ Hp) as [Hmy Hyt].
  pose proof HM as [H Ht _ _]. cbn [fst] in H. apply does_wp. cbn [mexec]. apply mwp_bind. unfold new_from. apply mwp_bind.
  assert (Hm : forall s', reached s' (<[k := AVal ry v]> (if mv then <[y := AMoved]> a else a)) ->
    mrel (s', <[k := Stream k 0 false]> zs) (<[k := AVal ry v]> (if mv then <[y := AMoved]> a else a)) (<[k := 0]> m)).
  { intros s' H'. eapply mrel_set; [exact HM|exact H'| |rewrite lookup_insert; eauto|unfold W64; lia|destruct mv; names HM].
    rewrite lookup_insert_ne by congruence. destruct mv; [rewrite lookup_insert_ne by congruence|]; exact Ht. }
  destruct mv; (eapply mwp_safe; [exact H|eapply step_move || eapply step_copy; [exact Hk|exact Hy]|reflexivity|discriminate|]);
    intros s' H'; apply mwp_set, mwp_ret; (eexists _, _, _; split; [reflexivity|]; split; [reflexivity|]; apply Hm, H').
Qed.
Lemma copy_ok (mv : bool) k j s zs a m r cap : mrel (s, zs) a m -> mstep cap (if mv then MMove k j else MCopy k j) a m = Some r ->
  mdoes (if mv then MMove k j else MCopy k j) (s, zs) a m r.
Proof.
  intros HM Hs.
  assert (exists rj v p, holds a j = Some (rj, v) /\ m !! j = Some p /\ unused t a k = true /\
    r = MRet (<[k := AVal rj v]> (if mv then <[j := AMoved]> a else a)) (<[k := p]> m) MNone) as (rj & v & p & Hj & Hmj & Hu & ->).
  { destruct mv; cbn [MstSpec.mstep] in Hs; destruct (holds a j) as [[rj v]|]; try discriminate; destruct (m !! j) as [p|]; try discriminate;
    (destruct (unused t a k) eqn:Hu; [|discriminate]); injection Hs as <-; exists rj, v, p; auto. }
  apply holds_some in Hj. destruct (unused_some _ _ Hu) as [Hk Hkt]. destruct (mrel_stream _ _ _ _ _ _ HM Hmj) as (H & Ht & Hjt & Hp & b & Hz).
  assert (Hm : forall s', reached s' (<[k := AVal rj v]> (if mv then <[j := AMoved]> a else a)) ->
    mrel (s', <[k := Stream k p b]> zs) (<[k := AVal rj v]> (if mv then <[j := AMoved]> a else a)) (<[k := p]> m)).
  { intros s' H'. eapply mrel_set; [exact HM|exact H'| |rewrite lookup_insert; eauto|exact Hp|destruct mv; names HM].
    rewrite lookup_insert_ne by congruence. destruct mv; [rewrite lookup_insert_ne by congruence|]; exact Ht. }
  apply does_wp. destruct mv; cbn [mexec]; apply mwp_bind; unfold new_copy; apply mwp_bind; (eapply mwp_cursor; [exact Hz|]); cbn [s_pos s_load]; apply mwp_bind;
    (eapply mwp_safe; [exact H|eapply step_move || eapply step_copy; [exact Hk|exact Hj]|reflexivity|discriminate|]);
    intros s' H'; apply mwp_set, mwp_ret; (eexists _, _, _; split; [reflexivity|]; split; [reflexivity|]; apply Hm, H').
Qed.
Lemma kill_ok k s zs a m r cap : mrel (s, zs) a m -> mstep cap (MDestroy k) a m = Some r -> mdoes (MDestroy k) (s, zs) a m r.
Proof.
  intros HM Hs. cbn [MstSpec.mstep] in Hs. destruct (m !! k) as [p|] eqn:Hk; [|discriminate]. injection Hs as <-.
  destruct (mrel_names _ _ _ _ _ _ HM Hk) as (av & Ha). pose proof HM as [H Ht Hl Hn]. cbn [fst snd] in *.
  apply does_wp. cbn [mexec]. apply mwp_bind. unfold kill. apply mwp_bind. eapply mwp_safe; [exact H|eapply step_destroy, Ha|reflexivity|discriminate|].
  intros s' H'. unfold mwp at 1, gone. apply mwp_ret. mret (delete k a) (delete k m). split; cbn [fst snd].
  - exact H'.
  - rewrite lookup_delete_ne; [exact Ht|]. intros ->. congruence.
  - intros j q Hj. destruct (Pos.eq_dec k j) as [<-|Hne]; [rewrite lookup_delete in Hj; discriminate|].
    rewrite lookup_delete_ne in Hj by exact Hne. rewrite !lookup_delete_ne by exact Hne. apply Hl, Hj.
  - intros j Hj. destruct (Pos.eq_dec k j) as [<-|Hne]; [apply lookup_delete|].
    rewrite lookup_delete_ne in Hj by exact Hne. rewrite lookup_delete_ne by exact Hne. apply Hn, Hj.
Qed.
(** Two cursors are exchanged. *)
Lemma swap_ok k j s zs a m r cap : mrel (s, zs) a m -> mstep cap (MSwap k j) a m = Some r -> mdoes (MSwap k j) (s, zs) a m r.
Proof.
  intros HM Hs. cbn [MstSpec.mstep] in Hs. destruct (a !! k) as [x|] eqn:Hk; [|discriminate]. destruct (a !! j) as [y|] eqn:Hj; [|discriminate].
  destruct (m !! k) as [p|] eqn:Hmk; [|discriminate]. destruct (m !! j) as [q|] eqn:Hmj; [|discriminate]. injection Hs as <-.
  destruct (mrel_stream _ _ _ _ _ _ HM Hmk) as (H & Ht & Hkt & Hp & b & Hz). destruct (mrel_stream _ _ _ _ _ _ HM Hmj) as (_ & _ & Hjt & Hq & b' & Hz').
  apply does_wp. cbn [mexec]. apply mwp_bind. unfold swap_streams. apply mwp_bind. eapply mwp_safe; [exact H|apply step_swap; [exact Hk|exact Hj]|reflexivity|discriminate|].
  intros s' H'. apply mwp_bind. eapply mwp_cursor; [exact Hz|]. apply mwp_bind. eapply mwp_cursor; [exact Hz'|]. cbn [s_pos s_load].
  apply mwp_bind, mwp_set, mwp_set, mwp_ret. cbn [fst snd]. mret (<[j := x]> (<[k := y]> a)) (<[j := p]> (<[k := q]> m)).
  eapply mrel_set; [eapply (mrel_set s zs a m s a k q b'); [exact HM|exact H|exact Ht|eauto|exact Hq|names HM]|exact H'| |rewrite lookup_insert; eauto|exact Hp|].
  - rewrite !lookup_insert_ne by congruence. exact Ht.
  - intros i pi Hi. destruct (Pos.eq_dec k i) as [<-|Hne]; [apply some_insert; rewrite lookup_insert; eauto|]. rewrite lookup_insert_ne in Hi by exact Hne.
    do 2 apply some_insert. eapply mrel_names; [exact HM|exact Hi].
Qed.
Lemma assign_ok k j s zs a m r cap : mrel (s, zs) a m -> mstep cap (MAssign k j) a m = Some r -> mdoes (MAssign k j) (s, zs) a m r.
Proof.
  intros HM Hs. cbn [MstSpec.mstep] in Hs. destruct (holds a j) as [[rj v]|] eqn:Hj; [|discriminate]. apply holds_some in Hj.
  destruct (m !! j) as [p|] eqn:Hmj; [|discriminate]. destruct (m !! k) as [q|] eqn:Hmk; [|discriminate]. injection Hs as <-.
  destruct (mrel_stream _ _ _ _ _ _ HM Hmj) as (H & Ht & Hjt & Hp & b & Hz). destruct (mrel_stream _ _ _ _ _ _ HM Hmk) as (_ & _ & Hkt & Hq & b' & Hz').
  destruct (mrel_names _ _ _ _ _ _ HM Hmk) as (av & Hk). pose proof (mr_none _ _ _ _ _ HM) as Hn. cbn [snd] in Hn.
  assert (Hmt : m !! t = None). { destruct (m !! t) as [pt|] eqn:E; [|reflexivity]. destruct (mrel_names _ _ _ _ _ _ HM E). congruence. }
  apply does_wp. cbn [mexec]. apply mwp_bind. unfold assign. apply mwp_bind. unfold new_copy. apply mwp_bind. eapply mwp_cursor; [exact Hz|]. cbn [s_pos s_load].
  apply mwp_bind. eapply mwp_safe; [exact H|eapply step_copy; [exact Ht|exact Hj]|reflexivity|discriminate|]. intros s1 H1. apply mwp_set. cbn [fst snd].
  apply mwp_bind. unfold swap_streams. apply mwp_bind.
  eapply mwp_safe; [exact H1|apply (step_swap k t); [rewrite lookup_insert_ne by congruence; exact Hk|apply lookup_insert]|reflexivity|discriminate|]. intros s2 H2.
  apply mwp_bind. eapply mwp_cursor; [rewrite lookup_insert_ne by congruence; exact Hz'|]. apply mwp_bind. eapply mwp_cursor; [apply lookup_insert|]. cbn [s_pos s_load].
  apply mwp_bind, mwp_set, mwp_set. cbn [fst snd]. unfold kill. apply mwp_bind. eapply mwp_safe; [exact H2|eapply step_destroy, lookup_insert|reflexivity|discriminate|]. intros s3 H3.
  unfold mwp at 1, gone. apply mwp_ret. mret (<[k := AVal rj v]> a) (<[k := p]> m).
  assert (Ea : delete t (<[t := av]> (<[k := AVal rj v]> (<[t := AVal rj v]> a))) = <[k := AVal rj v]> a).
  { apply map_eq. intros i. destruct (Pos.eq_dec t i) as [<-|Hti]; [rewrite lookup_delete, lookup_insert_ne by congruence; symmetry; exact Ht|].
    rewrite lookup_delete_ne, lookup_insert_ne by exact Hti. destruct (Pos.eq_dec k i) as [<-|Hki]; [rewrite !lookup_insert; reflexivity|].
    rewrite !lookup_insert_ne by assumption. reflexivity. }
  assert (Ez : delete t (<[t := Stream t q b']> (<[k := Stream k p b]> (<[t := Stream t p b]> zs))) = <[k := Stream k p b]> zs).
  { apply map_eq. intros i. destruct (Pos.eq_dec t i) as [<-|Hti]; [rewrite lookup_delete, lookup_insert_ne by congruence; symmetry; apply Hn, Hmt|].
    rewrite lookup_delete_ne, lookup_insert_ne by exact Hti. destruct (Pos.eq_dec k i) as [<-|Hki]; [rewrite !lookup_insert; reflexivity|].
    rewrite !lookup_insert_ne by assumption. reflexivity. }
  rewrite Ez. rewrite Ea in H3. eapply mrel_set; [exact HM|exact H3|rewrite lookup_insert_ne by congruence; exact Ht|rewrite lookup_insert; eauto|exact Hp|names HM].
Qed.

Lemma sized_ok k n s zs a m r cap : mrel (s, zs) a m -> mstep cap (MSized k n) a m = Some r -> mdoes (MSized k n) (s, zs) a m r.
Proof.
  intros HM Hs. cbn [MstSpec.mstep] in Hs. destruct (unused t a k && (- W31 <=? n) && (n <? W31)) eqn:Hu; [|discriminate]. injection Hs as <-.
  assert (Hn : - W31 <= n < W31) by lia. assert (unused t a k = true) as Hu' by lia. destruct (unused_some _ _ Hu') as [Hk Hkt].
  pose proof HM as [H Ht _ Hno]. cbn [fst snd] in *. apply does_wp. cbn [mexec]. apply mwp_bind. unfold new_sized. apply mwp_bind. unfold new. apply mwp_bind.
  assert (Hzk : zs !! k = None). { apply Hno. destruct (m !! k) eqn:E; [|reflexivity]. destruct (mrel_names _ _ _ _ _ _ HM E). congruence. }
  destruct (step_returns d _ s a _ ONone Hwf H (step_default k a Hk) eq_refl) as (s1 & E1 & H1 & _); [discriminate|].
  unfold mwp at 1, ucall. rewrite E1. apply mwp_set. cbn [fst snd]. pose proof (default_unshared _ _ _ _ E1) as Hsh.
  assert (Hrel : forall s', reached s' (<[k := AVal true []]> a) -> mrel (s', <[k := Stream k 0 false]> zs) (<[k := AVal true []]> a) (<[k := 0]> m)).
  { intros s' H'. eapply mrel_set; [exact HM|exact H'|rewrite lookup_insert_ne by congruence; exact Ht|rewrite lookup_insert; eauto|unfold W64; lia|names HM]. }
  destruct (Z.ltb_spec 0 n) as [Hpos|]; [|apply mwp_ret, mwp_ret; mret (<[k := AVal true []]> a) (<[k := 0]> m); apply Hrel, H1].
  assert (W : wp (with_local d k (sreserve d n)) (fun _ '(s', z') => z' = Stream k 0 false /\ reached s' (<[k := AVal true []]> a))
                (fun e '(s', z') => e = BadAlloc /\ z' = Stream k 0 false /\ memlow (n + 1024) /\ reached s' a) (s1, Stream k 0 false)).
  { apply wp_local. unfold sreserve. apply wp_bind. unfold scapacity. apply wp_bind, wp_str. cbn [s_str].
    destruct (capacity_ge d Hwf s1 _ k true [] H1 (lookup_insert _ _ _)) as (c & Hc & Hge & _). unfold wp at 1, str_call. rewrite Hc.
    destruct (Z.ltb_spec n c); [apply wp_ret; auto|]. apply wp_bind, wp_str. cbn [s_str].
    assert (Hu2 : u64 (1024 * (u64 (n + 1024 - 1) / 1024)) = 1024 * ((n + 1023) / 1024) /\ n <= 1024 * ((n + 1023) / 1024) <= n + 1023).
    { rewrite (u64_id (n + 1024 - 1)) by (unfold W64, W31 in *; lia). replace (n + 1024 - 1) with (n + 1023) by lia.
      pose proof (Z.div_mod (n + 1023) 1024 ltac:(lia)). pose proof (Z.mod_pos_bound (n + 1023) 1024 ltac:(lia)).
      rewrite u64_id by (unfold W64, W31 in *; lia). lia. }
    destruct Hu2 as (-> & Hb). eapply (wp_reserve d Hwf k t (not_eq_sym Hkt)); [exact H1|apply lookup_insert|exact Hsh|change (zlen (@nil (option Z))) with 0; unfold npos, W64, W31 in *; lia|auto|].
    intros s2 Hm H2. eapply (wp_destroy d Hwf k); [exact H2|apply lookup_insert|]. intros s3 H3. rewrite delete_insert in H3 by exact Hk. split; [reflexivity|]. split; [reflexivity|]. split; [|exact H3].
    eapply memlow_le; [|exact Hm]. lia. }
  unfold mwp at 1, on. rewrite lookup_insert. unfold wp in W. destruct (with_local d k (sreserve d n) (s1, Stream k 0 false)) as [[] [s2 z2]|e [s2 z2]| | |u]; try contradiction.
  - destruct W as (-> & H2). rewrite insert_insert. apply mwp_ret. mret (<[k := AVal true []]> a) (<[k := 0]> m). apply Hrel, H2.
  - destruct W as (-> & -> & Hm & H2). split; [eauto|]. split; [exact Hm|]. exists a, m. split; [constructor|].
    rewrite insert_insert, delete_insert by exact Hzk. eapply mrel_texts; [exact HM|exact H2|exact Ht|names HM].
Qed.

(** Calls on one Stream. *)
Lemma sr_of s zs a m k r v p z : mrel (s, zs) a m -> a !! k = Some (AVal r (map Some v)) -> m !! k = Some p -> a !! z = None ->
  exists b, zs !! k = Some (Stream k p b) /\ SR d k z s (Stream k p b) v p a.
Proof.
  intros HM Ha Hm Hz. destruct (mrel_stream _ _ _ _ _ _ HM Hm) as (H & Ht & Hkt & Hp & b & Hb). exists b. split; [exact Hb|].
  split; try reflexivity; try assumption. eauto.
Qed.
Lemma set_same s zs a m k p b s' : mrel (s, zs) a m -> m !! k = Some p -> zs !! k = Some (Stream k p b) -> reached s' a ->
  mrel (s', <[k := Stream k p b]> zs) a m.
Proof.
  intros HM Hm Hz H'. rewrite insert_id by exact Hz. eapply mrel_texts; [exact HM|exact H'|exact (mr_tmp _ _ _ _ _ HM)|names HM].
Qed.
Lemma vlen_val' (a : astate Z) x r (v : list Z) : a !! x = Some (AVal r (map Some v)) -> vlen a x = zlen v.
Proof. intros Ha. unfold vlen. rewrite Ha, zlen_map. reflexivity. Qed.

Lemma puts_does mv k y s zs a m r cap : mrel (s, zs) a m -> mstep cap (MPuts mv k y) a m = Some r -> mdoes (MPuts mv k y) (s, zs) a m r.
Proof.
  intros HM Hs. cbn [MstSpec.mstep] in Hs. destruct (strm a m k) as [[[rk v] p]|] eqn:Hk; [|discriminate]. destruct (text a y) as [[ry w]|] eqn:Hy; [|discriminate].
  destruct (plain t m y) eqn:Hp; [|discriminate]. cbn [need] in Hs. destruct (strm_some _ _ _ _ _ _ Hk) as [Ha Hm]. apply text_some in Hy. destruct (plain_some _ _ Hp) as [Hmy Hyt].
  assert (Hyk : y <> k) by (intros ->; congruence).
  destruct (mrel_stream _ _ _ _ _ _ HM Hm) as (H & Ht & Hkt & Hpr & b & Hb).
  pose proof (reached_len d s a k _ _ Hwf H Ha) as Hlv. pose proof (reached_len d s a y _ _ Hwf H Hy) as Hlw. rewrite !zlen_map in *.
  apply does_wp. cbn [mexec]. apply mwp_bind. eapply mwp_on; [exact Hb|]. destruct (Z.ltb_spec (zlen v) p) as [Hgt|Hle].
  - injection Hs as <-. eapply (puts_range d Hwf k y Hyk); [reflexivity|reflexivity|exact H|exact Ha|exact Hy|cbn [s_pos]; rewrite zlen_map; lia|].
    split; [reflexivity|]. eapply set_same; [exact HM|exact Hm|exact Hb|exact H].
  - assert (Hr : r = MRet (put_state k y mv ry a v w p) (<[k := p + zlen w]> m) MNone).
    { unfold put_state. destruct ((p =? 0) && (zlen v <? zlen w)) eqn:E; injection Hs as <-; [|reflexivity]. assert (p = 0) as -> by lia.
      unfold over, str_. rewrite (ztake_0 0 v), zdrop_all, app_nil_r by lia. reflexivity. }
    subst r. eapply (puts_exact d Hwf Hnul k y Hyk mv s _ a rk ry v w p); [reflexivity|reflexivity|exact H|exact Ha|exact Hy|lia| |].
    + intros s' H'. apply mwp_ret. cbn [s_load]. mret (put_state k y mv ry a v w p) (<[k := p + zlen w]> m).
      eapply mrel_set; [exact HM|exact H'| | |unfold W64, max_alloc in *; lia|].
      * unfold put_state. destruct ((p =? 0) && (zlen v <? zlen w)), mv; rewrite !lookup_insert_ne by congruence; exact Ht.
      * unfold put_state. destruct ((p =? 0) && (zlen v <? zlen w)); rewrite lookup_insert; eauto.
      * unfold put_state. destruct ((p =? 0) && (zlen v <? zlen w)), mv; names HM.
    + intros s' a' Hmem H' Ha'. split; [eauto|]. split; [cbn [short]; rewrite (vlen_val' _ _ _ _ Ha), (vlen_val' _ _ _ _ Hy); exact Hmem|].
      destruct Ha' as [->| ->].
      * exists a, m. split; [constructor|]. eapply set_same; [exact HM|exact Hm|exact Hb|exact H'].
      * exists (<[k := AVal true []]> a), m. split; [constructor|]. rewrite insert_id by exact Hb.
        eapply mrel_texts; [exact HM|exact H'|rewrite lookup_insert_ne by congruence; exact Ht|names HM].
Qed.
Lemma take_does g z k s zs a m r cap : mrel (s, zs) a m -> mstep cap (MTake g z k) a m = Some r -> mdoes (MTake g z k) (s, zs) a m r.
Proof.
  intros HM Hs. cbn [MstSpec.mstep] in Hs. destruct (strm a m k) as [[[rk v] p]|] eqn:Hk; [|discriminate].
  destruct (taken g rk v p) as [[[rz l] p']|] eqn:Hg; [|discriminate]. destruct (unused t a z) eqn:Hu; [|discriminate]. injection Hs as <-.
  destruct (strm_some _ _ _ _ _ _ Hk) as [Ha Hm]. destruct (unused_some _ _ Hu) as [Hz Hzt]. pose proof (mr_tmp _ _ _ _ _ HM) as Ht.
  assert (Hzk : z <> k) by (intros ->; congruence). destruct (sr_of _ _ _ _ _ _ _ _ z HM Ha Hm Hz) as (b & Hb & HSR).
  pose proof HSR as [_ _ Hpr H _ _]. pose proof (zlen_nonneg v).
  assert (Hdone : forall s', reached s' (<[z := AVal rz (map Some l)]> a) -> 0 <= p' < W64 -> mrel (s', <[k := Stream k p' b]> zs) (<[z := str_ rz l]> a) (<[k := p']> m)).
  { intros s' H' Hp'. eapply mrel_set; [exact HM|exact H'|rewrite lookup_insert_ne by congruence; exact Ht|rewrite lookup_insert_ne by congruence; eauto|exact Hp'|names HM]. }
  assert (Hfail : forall s' p'', memlow (zlen v + 3) -> reached s' a -> p <= p'' <= p' -> 0 <= p' < W64 ->
    (exists a' m' v', MRet (<[z := str_ rz l]> a) (<[k := p']> m) MNone = MRet a' m' v') /\ short d (MTake g z k) a /\
    exists a' m', mfail a m (MTake g z k) a' m' /\ mrel (s', <[k := Stream k p'' b]> zs) a' m').
  { intros s' p'' Hmem H' Hp'' Hp'. split; [eauto|]. split; [cbn [short]; rewrite (vlen_val' _ _ _ _ Ha); exact Hmem|].
    exists a, (<[k := p'']> m). split; [econstructor; eassumption|]. eapply mrel_set; [exact HM|exact H'|exact Ht|eauto|lia|names HM]. }
  assert (Hread : forall n c, taken (GRead n c) rk v p = Some (rz, l, p') -> 0 <= p' < W64 /\
    wp (sread d z n c) (fun _ '(s', z') => z' = Stream k p' b /\ reached s' (<[z := AVal rz (map Some l)]> a))
      (fun e '(s', z') => e = BadAlloc /\ exists p'', z' = Stream k p'' b /\ memlow (zlen v + 3) /\ reached s' a /\ p <= p'' <= p') (s, Stream k p b)).
  { intros n c Hr. cbn [taken] in Hr. destruct (small (zlen v) && (p <=? zlen v) && (0 <=? n)) eqn:E; [|discriminate]. unfold small in E. injection Hr as <- <- <-.
    pose proof (piece_len n c (zdrop p v) ltac:(lia)) as [Hpl _]. rewrite zlen_zdrop in Hpl. pose proof (zlen_nonneg (piece n c (zdrop p v))).
    split; [unfold W64, W31 in *; lia|]. eapply (sread_exact d Hwf k z Hzk s _ a rk v p); [exact HSR|exact Ha|lia|lia|lia| |].
    - intros s' H'. auto.
    - intros s' p'' Hmem H' Hp''. cbn [s_load]. split; [reflexivity|]. exists p''. auto. }
  apply does_wp. cbn [mexec]. apply mwp_bind. eapply mwp_on; [exact Hb|]. destruct g as [|n c|n|]; cbn [take].
  - cbn [taken] in Hg. destruct (small (zlen v) && (p <? W63 - W31)) eqn:E; [|discriminate]. unfold small in E. injection Hg as <- <- <-.
    unfold peek. apply wp_bind, wp_str. apply wp_bind, wp_tell. cbn [s_str s_pos]. rewrite s64_id by (unfold W63, W31 in *; lia).
    apply wp_bind. eapply (wp_copy d Hwf k z); [exact H|exact Ha|exact Hz|]. intros s1 H1.
    eapply (wp_slice d Hwf k z Hzk); [exact H1|lia|lia|unfold W63, W31; lia|]. intros s2 H2. cbn [Z.eqb Pos.eqb] in H2.
    apply mwp_ret. mret (<[z := str_ rk (zdrop p v)]> a) (<[k := p]> m). apply Hdone; [exact H2|exact Hpr].
  - destruct (Hread n c Hg) as [Hp' W]. eapply wp_conseq; [exact W| |].
    + intros [] [s' z'] (-> & H'). apply mwp_ret. mret (<[z := str_ rz l]> a) (<[k := p']> m). apply Hdone; assumption.
    + intros e [s' z'] (-> & p'' & -> & Hmem & H' & Hp''). apply Hfail; assumption.
  - cbn [taken] in Hg. destruct (Z.leb_spec 0 n) as [Hn|]; [|discriminate]. set (n' := if n =? 99999999 then zlen v - p else n) in *.
    assert (zlen v < W31 /\ p <= zlen v) as [Hl Hpl]. { unfold small in Hg. match type of Hg with need ?b _ = _ => destruct b eqn:E; [|discriminate] end. lia. }
    destruct (Hread n' 10 Hg) as [Hp' W]. unfold getline. apply wp_bind. unfold slength. apply wp_bind, wp_str. cbn [s_str]. eapply (wp_length d Hwf); [exact H|exact Ha|]. rewrite zlen_map.
    apply wp_bind, wp_tell. cbn [s_pos]. rewrite u64_id by (unfold W64, W31 in *; lia). fold n'. eapply wp_conseq; [exact W| |].
    + intros [] [s' z'] (-> & H'). apply mwp_ret. mret (<[z := str_ rz l]> a) (<[k := p']> m). apply Hdone; assumption.
    + intros e [s' z'] (-> & p'' & -> & Hmem & H' & Hp''). apply Hfail; assumption.
  - cbn [taken] in Hg. injection Hg as <- <- <-. unfold to_string. apply wp_bind, wp_str. cbn [s_str]. eapply (wp_copy d Hwf k z); [exact H|exact Ha|exact Hz|]. intros s1 H1.
    apply mwp_ret. mret (<[z := str_ rk v]> a) (<[k := p]> m). apply Hdone; [exact H1|exact Hpr].
Qed.
Lemma seek_does k off wh s zs a m r cap : mrel (s, zs) a m -> capacity k s = Ok cap s -> mstep cap (MSeek k off wh) a m = Some r -> mdoes (MSeek k off wh) (s, zs) a m r.
Proof.
  intros HM Hc Hs. cbn [MstSpec.mstep] in Hs. destruct (strm a m k) as [[[rk v] p]|] eqn:Hk; [|discriminate]. destruct (strm_some _ _ _ _ _ _ Hk) as [Ha Hm].
  destruct (pstep cap (SSeek off wh) v p) as [[v' q o|]|] eqn:E; [|discriminate|discriminate]. injection Hs as <-.
  pose proof (mr_tmp _ _ _ _ _ HM) as Ht. destruct (sr_of _ _ _ _ _ _ _ _ t HM Ha Hm Ht) as (b & Hb & HSR). pose proof HSR as [_ _ Hpr H _ _].
  destruct (capacity_ge d Hwf s a k rk _ H Ha) as (c & Hc' & Hge & Hmax). rewrite Hc in Hc'. injection Hc' as <-. rewrite zlen_map in Hge.
  assert (v' = v /\ o = RInt q /\ 0 <= q < W31) as (-> & -> & Hq).
  { cbn [pstep] in E. destruct (small cap && small p && (- W31 <=? off) && (off <? W31)) eqn:Ec; [|discriminate]. unfold small, clamp in *.
    destruct (wh =? 0); [injection E as <- <- <-; repeat split; lia|]. destruct (wh =? 1); [destruct (p + off <? W31); [|discriminate]; injection E as <- <- <-; repeat split; lia|].
    destruct (wh =? 2); [destruct (cap - off <? W31); [|discriminate]; injection E as <- <- <-; repeat split; lia|]. injection E as <- <- <-; repeat split; lia. }
  assert (Htk : t <> k) by (intros ->; congruence). apply does_wp. cbn [mexec]. apply mwp_bind. eapply mwp_on; [exact Hb|].
  eapply (seek_ok d k t Htk s _ a v p off wh cap); [exact HSR|exact Hc|exact Hge|exact E|]. apply mwp_ret. mret a (<[k := q]> m).
  eapply mrel_set; [exact HM|exact H|exact Ht|eauto|unfold W64, W31 in *; lia|names HM].
Qed.
Lemma simple_does o s zs a m r cap : mrel (s, zs) a m ->
  match o with MTell _ | MLength _ | MNot _ | MTruncate _ | MClear _ => True | _ => False end -> mstep cap o a m = Some r -> mdoes o (s, zs) a m r.
Proof.
  intros HM Ho Hs. pose proof (mr_tmp _ _ _ _ _ HM) as Ht. apply does_wp. destruct o; try contradiction; cbn [MstSpec.mstep] in Hs; cbn [mexec]; apply mwp_bind.
  - destruct (m !! k) as [p|] eqn:Hm; [|discriminate]. injection Hs as <-. destruct (mrel_stream _ _ _ _ _ _ HM Hm) as (H & _ & Hkt & Hpr & b & Hb).
    eapply mwp_on; [exact Hb|]. apply wp_tell. apply mwp_ret. mret a m. eapply set_same; [exact HM|exact Hm|exact Hb|exact H].
  - destruct (holds a k) as [[rk v]|] eqn:Ha; [|discriminate]. apply holds_some in Ha. destruct (m !! k) as [p|] eqn:Hm; [|discriminate]. injection Hs as <-.
    destruct (mrel_stream _ _ _ _ _ _ HM Hm) as (H & _ & Hkt & Hpr & b & Hb). eapply mwp_on; [exact Hb|]. unfold slength. apply wp_bind, wp_str. cbn [s_str].
    eapply (wp_length d Hwf); [exact H|exact Ha|]. apply mwp_ret. mret a m. eapply set_same; [exact HM|exact Hm|exact Hb|exact H].
  - destruct (holds a k) as [[rk v]|] eqn:Ha; [|discriminate]. apply holds_some in Ha. destruct (m !! k) as [p|] eqn:Hm; [|discriminate]. injection Hs as <-.
    destruct (mrel_stream _ _ _ _ _ _ HM Hm) as (H & _ & Hkt & Hpr & b & Hb). eapply mwp_on; [exact Hb|]. unfold s_not, slength. apply wp_bind, wp_bind, wp_str. cbn [s_str].
    eapply (wp_length d Hwf); [exact H|exact Ha|]. apply wp_ret, mwp_ret. mret a m. eapply set_same; [exact HM|exact Hm|exact Hb|exact H].
  - destruct (strm a m k) as [[[rk v] p]|] eqn:Hk; [|discriminate]. destruct (strm_some _ _ _ _ _ _ Hk) as [Ha Hm].
    destruct (small (zlen v) && (p <? W63 - W31)) eqn:E; [|discriminate]. unfold small in E. injection Hs as <-.
    destruct (sr_of _ _ _ _ _ _ _ _ t HM Ha Hm Ht) as (b & Hb & HSR). assert (Htk : t <> k) by (intros ->; congruence).
    eapply mwp_on; [exact Hb|]. eapply (truncate_ok d Hwf k t Htk); [exact HSR|lia|lia|]. intros s' r' Hr' H'. assert (r' = rk) as -> by congruence.
    apply mwp_ret. rewrite (insert_id zs) by exact Hb. mret (<[k := str_ rk (ztake p v)]> a) m.
    eapply mrel_texts; [exact HM|exact H'|rewrite lookup_insert_ne by congruence; exact Ht|names HM].
  - destruct (m !! k) as [p|] eqn:Hm; [|discriminate]. injection Hs as <-. destruct (mrel_stream _ _ _ _ _ _ HM Hm) as (H & _ & Hkt & Hpr & b & Hb).
    destruct (mrel_names _ _ _ _ _ _ HM Hm) as (av & Ha).
    eapply mwp_on; [exact Hb|]. unfold sclear. apply wp_bind, wp_str. cbn [s_str]. apply wp_bind. eapply (wp_call_safe d Hwf); [exact H| |reflexivity|].
    { unfold RcaMeet.step. cbn [spec_step]. rewrite (live_val _ _ _ Ha). cbn [need]. unfold put. reflexivity. }
    intros s' H'. apply wp_set_pos. apply mwp_ret. cbn [s_str s_load]. mret (<[k := AVal true []]> a) (<[k := 0]> m).
    eapply mrel_set; [exact HM|exact H'|rewrite lookup_insert_ne by congruence; exact Ht|rewrite lookup_insert; eauto|unfold W64; lia|names HM].
Qed.

Theorem mexec_ok o st a m cap : mrel st a m -> cap_of o st cap ->
  match mstep cap o a m with None => True | Some r => mdoes o st a m r end.
Proof.
  intros HM Hc. destruct st as [s zs]. destruct (mstep cap o a m) as [r|] eqn:Hs; [|exact I]. destruct o.
  - eapply string_ok; eassumption.
  - eapply new_ok; eassumption.
  - eapply sized_ok; eassumption.
  - eapply from_ok; eassumption.
  - eapply (copy_ok false); eassumption.
  - eapply (copy_ok true); eassumption.
  - eapply assign_ok; eassumption.
  - eapply swap_ok; eassumption.
  - eapply kill_ok; eassumption.
  - eapply puts_does; eassumption.
  - eapply take_does; eassumption.
  - eapply seek_does; eassumption.
  - eapply simple_does; [exact HM|exact I|exact Hs].
  - eapply simple_does; [exact HM|exact I|exact Hs].
  - eapply simple_does; [exact HM|exact I|exact Hs].
  - eapply simple_does; [exact HM|exact I|exact Hs].
  - eapply simple_does; [exact HM|exact I|exact Hs].
Qed.

(** Programs. *)
Lemma mrel_init : mrel (st_init, ∅) ∅ ∅.
Proof. split; cbn [fst snd]; [constructor|apply lookup_empty|intros k p E; rewrite lookup_empty in E; discriminate|intros; apply lookup_empty]. Qed.
Lemma cap_exists o st a m : mrel st a m ->
  (exists cap, cap_of o st cap /\ msaw o st = mseen o cap) \/ (exists k off wh, o = MSeek k off wh /\ strm a m k = None).
Proof.
  intros HM. destruct o as [| | | | | | | | | | |k off wh| | | | |]; try (left; exists 0; split; [exact I|reflexivity]).
  destruct (strm a m k) as [[[rk v] p]|] eqn:Hk; [left|right; eauto].
  destruct st as [s zs]. destruct (strm_some _ _ _ _ _ _ Hk) as [Ha Hm]. destruct (mrel_stream _ _ _ _ _ _ HM Hm) as (H & _ & _ & _ & b & Hb).
  destruct (capacity_ge d Hwf _ a k rk _ H Ha) as (c & Hc & _). exists c. split; [exact Hc|].
  cbn [msaw mseen]. unfold on. rewrite Hb. unfold scapacity, bind, str, str_call. cbn. rewrite Hc. reflexivity.
Qed.
Theorem mobserve_ok ops : forall st a m, mrel st a m -> mallows d t a m ops (mobserve d t ops st).
Proof.
  induction ops as [|o ops IH]; intros st a m HM; [constructor|]. cbn [mobserve].
  destruct (cap_exists o st a m HM) as [(cap & Hc & ->)|(k & off & wh & -> & Hk)]; [|apply ml_nowhere, Hk].
  pose proof (mexec_ok o st a m cap HM Hc) as K. destruct (mstep cap o a m) as [r|] eqn:E; [|eapply ml_misuse, E].
  assert (Hno : short d o a -> mseen o cap = []) by (destruct o; cbn [short mseen]; (contradiction || reflexivity)).
  unfold MstMeet.mdoes in K. destruct (mexec d t o st) as [v st'|[] st'| | |u]; try contradiction.
  - destruct K as (a' & m' & v' & -> & Hle & H'). eapply ml_ret; [exact E|exact Hle|]. apply IH, H'.
  - destruct K as (-> & H'). eapply ml_range; [exact E|]. apply IH, H'.
  - destruct K as (_ & Hsh & a' & m' & Hf & H'). rewrite (Hno Hsh). eapply ml_oom; [exact Hsh|exact Hf|]. apply IH, H'.
  - destruct K as (g & x & -> & Hsh). apply ml_term, Hsh.
Qed.

(** Names a call does not mention. *)
Ltac away := repeat match goal with H : _ ∉ _ :: _ |- _ => apply not_elem_of_cons in H; destruct H as [? H] end.
Lemma mstep_apart cap o a m a' m' v x : mstep cap o a m = Some (MRet a' m' v) -> x ∉ involved o -> a' !! x = a !! x /\ m' !! x = m !! x.
Proof.
  intros Hs Hx. revert Hs. destruct o; cbn [MstSpec.mstep involved] in *; unfold need, str_.
  1:{ destruct (forallb _ _); [|discriminate]. destruct (step o a) as [[a1 v1|]|] eqn:E; [|discriminate|discriminate]. intros [= <- <- <-].
      split; [|reflexivity]. eapply frame_mentions; eassumption. }
  all: away; intros Hs; repeat match type of Hs with
    | context [match ?b with _ => _ end] => destruct b; try discriminate Hs
    end; injection Hs as <- <- _.
  all: split; rewrite ?lookup_insert_ne, ?lookup_delete_ne by congruence; reflexivity.
Qed.
Lemma mfail_apart o a m a' m' x : mfail a m o a' m' -> x ∉ involved o -> a' !! x = a !! x /\ m' !! x = m !! x.
Proof.
  intros Hf Hx. destruct Hf; cbn [involved] in *; away; split; try reflexivity; rewrite lookup_insert_ne; try reflexivity; try congruence.
  intros ->. apply Hx. eapply target_mentions; eassumption.
Qed.
Theorem apart o st a m cap r st' x : mrel st a m -> cap_of o st cap -> mstep cap o a m = Some r ->
  (exists v, mexec d t o st = Ok v st') \/ (exists e, mexec d t o st = Exn e st') -> x ∉ involved o ->
  (forall rm v, a !! x = Some (AVal rm v) -> length_of x (fst st') = Ok (zlen v) (fst st') /\ forall i e, znth i v = Some (Some e) -> RcaModel.read x i (fst st') = Ok e (fst st')) /\
  (forall p, m !! x = Some p -> exists b, snd st' !! x = Some (Stream x p b)).
Proof.
  intros HM Hc Hs He Hx. pose proof (mexec_ok o st a m cap HM Hc) as K. rewrite Hs in K. unfold MstMeet.mdoes in K.
  assert (exists a' m', mrel st' a' m' /\ a' !! x = a !! x /\ m' !! x = m !! x) as (a' & m' & H' & Ea & Em).
  { destruct He as [[v E]|[e E]]; rewrite E in K.
    - destruct K as (a' & m' & v' & -> & _ & H'). exists a', m'. split; [exact H'|]. eapply mstep_apart; eassumption.
    - destruct e; [exists a, m; split; [apply K|split; reflexivity]|]. destruct K as (_ & _ & a' & m' & Hf & H'). exists a', m'. split; [exact H'|]. eapply mfail_apart; eassumption. }
  split.
  - intros rm v Hv. rewrite <- Ea in Hv. exact (reached_shows d _ _ Hwf (mr_reached _ _ _ _ _ H') x rm v Hv).
  - intros p Hp. rewrite <- Em in Hp. destruct (mr_live _ _ _ _ _ H' x p Hp) as (_ & _ & Hb). exact Hb.
Qed.
End Proof.
