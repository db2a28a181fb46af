(** The calls of NestModel.v do what NestMeet.v says. *)
From stdpp Require Import gmap.
From Verif Require Import RcaSpec RcaModel RcaExec RcaInv RcaOwn RcaRel RcaMeet RcaMain RcaReach NestModel NestMeet NestSim NestAbs NestBuf NestOps NestCalls.
From Coq Require Import ZifyBool.
Open Scope Z_scope.

Section Proof.
Variable d : desc Z.
Variable od : desc positive.
Hypothesis Hwf : wf_desc d.
Notation vd := (vd od).
Notation St := (state sval).
Notation rel := (rel d).
Notation sim := (sim d).
Notation Rv := (RcaRel.R vd).
Notation Rd := (RcaRel.R d).

Lemma wf_vd : wf_desc vd.
Proof. intros z; discriminate. Qed.

(** The arrays of values are the predicted ones. *)
Definition same_arr (v : option aarr) (w : option (aval sval)) : Prop :=
  match v, w with
  | Some (NVal vs), Some (AVal _ w) => w = map Some vs
  | Some NMoved, Some AMoved => True
  | None, None => True
  | _, _ => False
  end.
Definition arel (A : arrs) (A1 : astate sval) : Prop := forall x, same_arr (A !! x) (A1 !! x).
Definition nr (A : arrs) (b : astate Z) (s : nstate) : Prop := exists t A1, rel b s t /\ Rv t A1 /\ arel A A1.
Lemma arel_insert A A1 x v w : arel A A1 -> same_arr (Some v) (Some w) -> arel (<[x := v]> A) (<[x := w]> A1).
Proof.
  intros H Hv y. destruct (decide (x = y)) as [<-|N]; [rewrite !lookup_insert; exact Hv|]. rewrite !lookup_insert_ne by exact N. apply H.
Qed.
Lemma arel_delete A A1 x : arel A A1 -> arel (delete x A) (delete x A1).
Proof.
  intros H y. destruct (decide (x = y)) as [<-|N]; [rewrite !lookup_delete; exact I|]. rewrite !lookup_delete_ne by exact N. apply H.
Qed.
Lemma arel_val A A1 x vs : arel A A1 -> elems A x = Some vs -> exists r, A1 !! x = Some (AVal r (map Some vs)).
Proof.
  intros H E. specialize (H x). unfold elems in E. destruct (A !! x) as [[vs'|]|]; try discriminate. injection E as ->. cbn in H.
  destruct (A1 !! x) as [[r w|]|]; try contradiction. subst w. eauto.
Qed.
Lemma arel_holds A A1 x vs : arel A A1 -> elems A x = Some vs -> exists r, holds A1 x = Some (r, map Some vs).
Proof. intros H E. destruct (arel_val _ _ _ _ H E) as (r & X). exists r. unfold holds. rewrite X. reflexivity. Qed.
Lemma arel_none A A1 x : arel A A1 -> A !! x = None -> A1 !! x = None.
Proof. intros H E. specialize (H x). rewrite E in H. cbn in H. destruct (A1 !! x); [contradiction|reflexivity]. Qed.
Lemma arel_some A A1 x v : arel A A1 -> A !! x = Some v -> exists w, A1 !! x = Some w /\ same_arr (Some v) (Some w).
Proof. intros H E. specialize (H x). rewrite E in H. destruct (A1 !! x) as [w|]; [eauto|]. destruct v; contradiction. Qed.
Lemma arel_live A A1 x v : arel A A1 -> A !! x = Some v -> live A1 x = true.
Proof. intros H E. destruct (arel_some _ _ _ _ H E) as (w & X & _). unfold live, fresh_var. rewrite X. reflexivity. Qed.
Lemma elems_some A x vs : elems A x = Some vs -> A !! x = Some (NVal vs).
Proof. unfold elems. destruct (A !! x) as [[]|]; congruence. Qed.
Lemma item_some b v w : item b v = Some w -> b !! v = Some (sv w).
Proof. unfold item. destruct (b !! v) as [[r u|]|]; try discriminate. intros [= <-]. reflexivity. Qed.

Lemma rel_arr A A1 b s t x vs : rel b s t -> Rv t A1 -> arel A A1 -> elems A x = Some vs -> exists o, arr od t x o vs.
Proof. intros _ HR Ha E. destruct (arel_val _ _ _ _ Ha E) as (r & X). eapply arr_R; eassumption. Qed.
Lemma alen_env b s t x vs : rel b s t -> length_of x t = Ok (zlen vs) t -> alen x s = Some (zlen (A := sval) vs).
Proof.
  intros Hr E. unfold alen. unfold length_of, bind, get_obj in *. rewrite (rel_env _ _ _ _ Hr) in E.
  destruct (st_env (n_out s) !! x) as [o|]; [|discriminate]. injection E as E. cbn. rewrite E. reflexivity.
Qed.
Lemma alen_arr b s t x o vs : rel b s t -> arr od t x o vs -> alen x s = Some (zlen vs).
Proof. intros Hr Ha. eapply alen_env; [exact Hr|]. eapply arr_length, Ha. Qed.

(** The outcome of a call. *)
Definition good_out (o : nop) (s : nstate) (A : arrs) (b : astate Z) (r : nres) : Prop :=
  match r with
  | NRet A' b' v => exists s' v', nexec d od o s = Ok v' s' /\ out_le v v' /\ nr A' b' s'
  | NRange => exists s', nexec d od o s = Exn OutOfRange s' /\ nr A b s'
  end \/
  (nstarves d od o A b r /\ exists s', nexec d od o s = Exn BadAlloc s' /\ nr (fst (noom o s' A b)) (snd (noom o s' A b)) s').

(** Calls on arrays are the calls on arrays of values. *)
Definition plain (o : nop) (o1 : op sval) (A : arrs) (b : astate Z) : Prop := (target o1 = None /\ forall s', noom o s' A b = (A, b)) \/ forall s',
  noom o s' A b = match ntarget o with Some x => (if bool_decide (alen x s' = Some 0) then <[x := NVal []]> A else A, b) | None => (A, b) end.
Lemma oom_nr o (o1 : op sval) s' t t' A A1 b : rel b s' t' -> Rv t A1 -> arel A A1 -> plain o o1 A b -> subject o1 = ntarget o ->
  (forall x, ntarget o = Some x -> exists vs, elems A x = Some vs) ->
  (exists x, subject o1 = Some x /\ (Rv t' A1 \/ target o1 = Some x /\ Rv t' (<[x := AVal true []]> A1))) ->
  nr (fst (noom o s' A b)) (snd (noom o s' A b)) s'.
Proof.
  intros Hr' HR Ha [[Hn Hp]|Hp] Hs Ht (x & Hx & Hk).
  { rewrite Hp. destruct Hk as [Hk|[Hk _]]; [|congruence]. exists t', A1. auto. }
  rewrite Hp, <- Hs, Hx. cbn [fst snd]. destruct (Ht x ltac:(congruence)) as (vs & Hv).
  destruct Hk as [Hk|[_ Hk]].
  - destruct (rel_arr A A1 b s' t' x vs Hr' Hk Ha Hv) as (ob & Har). rewrite (alen_arr _ _ _ _ _ _ Hr' Har).
    destruct (bool_decide_reflect (Some (zlen vs) = Some 0)) as [E|E]; [|exists t', A1; auto]. injection E as E. apply zlen_0_nil in E as ->.
    exists t', A1. split; [exact Hr'|]. split; [exact Hk|]. rewrite insert_id; [exact Ha|apply elems_some, Hv].
  - destruct (R_held _ _ _ x _ _ Hk (lookup_insert _ _ _)) as (ob & Hh). pose proof (held_len _ _ _ _ _ _ Hh) as Hl.
    rewrite (alen_env b s' t' x [] Hr' Hl). cbn [zlen length Z.of_nat]. rewrite bool_decide_true by reflexivity.
    exists t', (<[x := AVal true []]> A1). split; [exact Hr'|]. split; [exact Hk|]. apply arel_insert; [exact Ha|reflexivity].
Qed.
Lemma lift o (o1 : op sval) (m : M nstate unit) (m1 : M St unit) s t A A1 b b' A' A1' :
  rel b s t -> Rv t A1 -> arel A A1 ->
  nexec d od o = bind m (fun _ => ret ONone) -> exec vd o1 = bind m1 (fun _ => ret ONone) -> sim b' b (m s) (m1 t) ->
  step vd o1 A1 = Some (SRet A1' ONone) -> arel A' A1' ->
  subject o1 = ntarget o -> plain o o1 A b -> (forall x, ntarget o = Some x -> exists vs, elems A x = Some vs) ->
  (forall x, ntarget o = Some x -> nasks o A' x = asks o1 A1' x) ->
  good_out o s A b (NRet A' b' ONone).
Proof.
  intros Hr HR Ha En E1 S Hst Ha' Hs Hp Ht Hq. pose proof (exec_meets vd o1 t A1 wf_vd HR) as Hm. unfold meets in Hm. rewrite Hst in Hm.
  unfold good_out. rewrite En. rewrite E1 in Hm. unfold bind, ret in *. unfold NestAbs.sim in S.
  destruct (m1 t) as [[] t'|e t'| | |u] eqn:Em.
  - destruct S as (s' & E & Hr'). left. exists s', ONone. rewrite E. split; [reflexivity|]. split; [reflexivity|]. exists t', A1'. split; [exact Hr'|]. split; [apply Hm|exact Ha'].
  - destruct S as (s' & E & Hr'). destruct Hm as (-> & x & Hx & Hn & Hk). right. split.
    + left. exists x. rewrite <- Hs. split; [exact Hx|]. cbn [after]. rewrite Hq by congruence. exact Hn.
    + exists s'. rewrite E. split; [reflexivity|]. eapply (oom_nr o o1); try eassumption. exists x. split; [exact Hx|]. destruct Hk as [[_ Hk]|(Ht' & _ & Hk)]; auto.
  - destruct Hm as (g & x & -> & _). cbn in Hs. destruct o; try discriminate; cbn in E1; unfold mem_, with_nul in E1; cbn in E1;
      exfalso; apply (f_equal (fun m => m t)) in E1; unfold bind, undef in E1; rewrite Em in E1; discriminate.
  - contradiction.
  - contradiction.
Qed.
Lemma lift_range o (o1 : op sval) (m : M nstate unit) (m1 : M St unit) s t A A1 b b' :
  rel b s t -> Rv t A1 -> arel A A1 ->
  nexec d od o = bind m (fun _ => ret ONone) -> exec vd o1 = bind m1 (fun _ => ret ONone) -> sim b' b (m s) (m1 t) ->
  step vd o1 A1 = Some SRange -> good_out o s A b NRange.
Proof.
  intros Hr HR Ha En E1 S Hst. pose proof (exec_meets vd o1 t A1 wf_vd HR) as Hm. unfold meets in Hm. rewrite Hst, E1 in Hm.
  left. rewrite En. unfold bind, ret in *. unfold NestAbs.sim in S. destruct (m1 t) as [[] t'|e t'| | |u]; try discriminate. injection Hm as -> ->.
  destruct S as (s' & E & Hr'). exists s'. rewrite E. split; [reflexivity|]. exists t, A1. auto.
Qed.

(** Values under [map Some]. *)
Lemma ztake_map {X Y} (f : X -> Y) n l : ztake n (map f l) = map f (ztake n l).
Proof. unfold ztake. apply firstn_map. Qed.
Lemma zdrop_map {X Y} (f : X -> Y) n l : zdrop n (map f l) = map f (zdrop n l).
Proof. unfold zdrop. apply skipn_map. Qed.
Lemma slice_map {X Y} (f : X -> Y) l a b : sp_slice (map f l) a b = map f (sp_slice l a b).
Proof. unfold sp_slice. rewrite !zlen_map. cbv zeta. destruct (_ <=? _); [reflexivity|]. rewrite zdrop_map, ztake_map. reflexivity. Qed.
Lemma over_map (vs : list sval) pos w : 0 <= pos < zlen vs -> sp_over (map Some vs) pos [Some w] = map Some (zupd pos [w] vs).
Proof.
  intros Hp. unfold sp_over. change (zlen [Some w]) with 1. rewrite ztake_map, zdrop_map. change [Some w] with (map Some [w]). rewrite <- !map_app. f_equal.
Qed.

(** Calls on Strings, whatever they are called. *)
Definition ilen (z : positive) (i : state Z) : option Z := match length_of z i with Ok n _ => Some n | _ => None end.
Definition fallen (z : positive) (i : state Z) (a : astate Z) : astate Z := if bool_decide (ilen z i = Some 0) then <[z := AVal true []]> a else a.
Lemma ilen_R i a z r v : Rd i a -> a !! z = Some (AVal r v) -> ilen z i = Some (zlen v).
Proof. intros HR Ha. destruct (R_held d _ _ _ _ _ HR Ha) as (o & Hh). unfold ilen. rewrite (held_len d _ _ _ _ _ Hh). reflexivity. Qed.
Lemma ilen_None i a z : Rd i a -> a !! z = None -> ilen z i = None.
Proof. intros HR Ha. unfold ilen, length_of, bind, get_obj. rewrite (R_fresh d _ _ _ HR Ha). reflexivity. Qed.
Lemma fallen_kept i a z : Rd i a -> a !! z <> Some AMoved -> Rd i (fallen z i a).
Proof.
  intros HR Hm. unfold fallen. destruct (a !! z) as [[r v|]|] eqn:E; [|congruence|].
  - rewrite (ilen_R _ _ _ _ _ HR E). destruct (bool_decide_reflect (Some (zlen v) = Some 0)) as [Z0|]; [|exact HR]. injection Z0 as Z0. apply zlen_0_nil in Z0 as ->.
    eapply R_empty_again; eassumption.
  - rewrite (ilen_None _ _ _ HR E). rewrite bool_decide_false by discriminate. exact HR.
Qed.
Lemma fallen_emptied i a z : Rd i (<[z := AVal true []]> a) -> Rd i (fallen z i a).
Proof. intros HR. unfold fallen. rewrite (ilen_R _ _ _ _ _ HR (lookup_insert _ _ _)). rewrite bool_decide_true by reflexivity. exact HR. Qed.
Lemma ren_discards f (o : op Z) : discards (ren f o) = discards o.
Proof. destruct o; reflexivity. Qed.
Lemma call_ok f o i a b0 : (forall x y, f x = f y -> x = y) -> Rd i a -> pulls f a b0 -> is_cstr o = false ->
  match step d o b0 with
  | Some (SRet b1 v) =>
    (exists v' i' a', exec d (ren f o) i = Ok v' i' /\ out_le v v' /\ Rd i' a' /\ pulls f a' b1 /\ keeps f a a') \/
    (exists i' t, exec d (ren f o) i = Exn BadAlloc i' /\ subject o = Some t /\ no_memory d (asks o b1 t) /\
       Rd i' (match target o with Some u => fallen (f u) i' a | None => a end))
  | Some SRange => exec d (ren f o) i = Exn OutOfRange i
  | None => True
  end.
Proof.
  intros Hf HR Hp Hc. pose proof (ren_step d f Hf o a b0 Hp) as Hfo. unfold follows in Hfo.
  pose proof (exec_meets d (ren f o) i a Hwf HR) as Hm. unfold meets in Hm.
  destruct (step d o b0) as [[b1 v|]|] eqn:Hst; [| |exact I].
  - destruct Hfo as (a' & Hst' & P' & K'). rewrite Hst' in Hm. destruct (exec d (ren f o) i) as [v' i'|e i'| | |u] eqn:E.
    + left. exists v', i', a'. destruct Hm. auto.
    + right. destruct Hm as (-> & t' & Hs & Hn & Hk). rewrite ren_subject in Hs. destruct (subject o) as [t|] eqn:Es; [|discriminate]. injection Hs as <-.
      rewrite (ren_asks f o a' b1 t P') in Hn. exists i', t. split; [reflexivity|]. split; [reflexivity|]. split; [exact Hn|].
      rewrite ren_discards, ren_target in Hk. destruct (target o) as [u|] eqn:Et.
      * pose proof (target_subject o u Et). assert (u = t) as -> by congruence. destruct Hk as [[Hd Hk]|(_ & _ & Hk)]; [|apply fallen_emptied, Hk].
        apply fallen_kept; [exact Hk|]. eapply (target_moved d (ren f o)); [exact Hst'|rewrite ren_target, Et; reflexivity|rewrite ren_discards; exact Hd|exact E].
      * destruct Hk as [[_ Hk]|(Hk & _)]; [exact Hk|discriminate].
    + destruct Hm as (g & x & Eq & _). exfalso. rewrite <- (ren_cstr f), Eq in Hc. discriminate.
    + contradiction.
    + contradiction.
  - rewrite Hfo in Hm. exact Hm.
Qed.
Lemma rel_inner b b' s t i' : rel b s t -> (forall a, Rd (n_in s) a -> (forall y, a !! xO y = b !! y) ->
   exists a', Rd i' a' /\ (forall y, a' !! xO y = b' !! y) /\ a' !! 1%positive = a !! 1%positive /\ (forall q, a' !! xI q = a !! xI q)) ->
  rel b' (NState (n_out s) i') t.
Proof.
  intros (f & a & W & ->) H. destruct (H a (wf_R _ _ _ _ _ W) (wf_b _ _ _ _ _ W)) as (a' & R' & B' & H1 & HI).
  destruct (Wf_inner d b b' (bufs (n_out s)) (n_in s) i' a a' W R' B') as [W' K']; [rewrite H1; apply W|exact HI|].
  exists f, a'. split; [exact W'|]. symmetry. apply abs_inner. exact K'.
Qed.
Lemma inj_xO : forall x y, xO x = xO y -> x = y. Proof. intros x y [= E]. exact E. Qed.
Lemma keeps_str a a' : keeps str a a' -> a' !! 1%positive = a !! 1%positive /\ forall q, a' !! xI q = a !! xI q.
Proof. intros K. split; [apply K; discriminate|]. intros q. apply K. discriminate. Qed.
Lemma str_out o s A b r : nr A b s -> nstep d (NStr o) A b = Some r -> good_out (NStr o) s A b r.
Proof.
  intros (t & A1 & Hr & HR & Ha). cbn [nstep]. destruct (is_cstr o) eqn:Hc; [discriminate|].
  destruct Hr as (f & a & W & Et).
  pose proof (call_ok str o (n_in s) a b inj_xO (wf_R _ _ _ _ _ W) (wf_b _ _ _ _ _ W) Hc) as Hm.
  assert (Hx : forall b' i' a', Rd i' a' -> pulls str a' b' -> keeps str a a' -> nr A b' (NState (n_out s) i')).
  { intros b' i' a' R' P' K'. destruct (keeps_str _ _ K') as [K1 KI]. exists t, A1. split; [|auto].
    destruct (Wf_inner d b b' (bufs (n_out s)) (n_in s) i' a a' W R' P') as [W' X']; [rewrite K1; apply W|exact KI|].
    exists f, a'. split; [exact W'|]. rewrite Et. symmetry. apply abs_inner. exact X'. }
  destruct (step d o b) as [[b1 v|]|] eqn:Hst; [| |discriminate]; intros [= <-].
  - unfold good_out. cbn [nexec]. unfold inner. destruct Hm as [(v' & i' & a' & E & Ho & R' & P' & K')|(i' & u & E & Hs & Hn & R')]; rewrite E.
    + left. eexists _, v'. split; [reflexivity|]. split; [exact Ho|]. eapply Hx; eassumption.
    + right. split.
      * right. exists o, b, b1, v, u. auto.
      * eexists. split; [reflexivity|]. cbn [noom]. destruct (target o) as [w|]; cbn [fst snd].
        -- eapply Hx; [exact R'| |].
           ++ unfold fallen, fell. change (slen (str w) (NState (n_out s) i')) with (ilen (str w) i'). destruct (bool_decide _); [|exact (wf_b _ _ _ _ _ W)].
              apply pulls_insert; [exact inj_xO|exact (wf_b _ _ _ _ _ W)].
           ++ unfold fallen. destruct (bool_decide _); [apply keeps_insert|]; apply keeps_refl.
        -- eapply Hx; [exact R'|exact (wf_b _ _ _ _ _ W)|apply keeps_refl].
  - left. cbn [nexec]. unfold inner. rewrite Hm. eexists. split; [reflexivity|]. eapply Hx; [apply W|exact (wf_b _ _ _ _ _ W)|apply keeps_refl].
Qed.

(** A call on an element. *)
Lemma inj_elem z : odd z -> forall x y, elem_name z x = elem_name z y -> x = y.
Proof. intros [q ->] [x|x|] [y|y|]; cbn; intros E; try discriminate; try reflexivity; injection E as E; congruence. Qed.
Lemma elem_pulls z a b w : odd z -> (forall y, a !! xO y = b !! y) -> a !! z = Some (sv w) -> pulls (elem_name z) a (<[1%positive := sv w]> b).
Proof.
  intros Oz Hb Hz [y|y|]; cbn; [| |rewrite lookup_insert; exact Hz]; rewrite lookup_insert_ne by discriminate; apply Hb.
Qed.
Lemma elem_keeps z a a' : odd z -> keeps (elem_name z) a a' ->
  a' !! 1%positive = a !! 1%positive /\ (forall q, xI q <> z -> a' !! xI q = a !! xI q) /\ a' !! 2%positive = a !! 2%positive.
Proof.
  intros [q0 ->] K. split_and!.
  - apply K. intros [y|y|]; discriminate.
  - intros q Hq. apply K. intros [y|y|]; cbn; try discriminate. exact Hq.
  - apply K. intros [y|y|]; cbn; discriminate.
Qed.
Lemma write_step A1 x r vs pos w : A1 !! x = Some (AVal r (map Some vs)) -> 0 <= pos < zlen vs ->
  step vd (Write x pos w) A1 = Some (SRet (<[x := AVal true (map Some (zupd pos [w] vs))]> A1) ONone).
Proof.
  intros E Hp. unfold step. cbn [spec_step]. unfold holds. rewrite E, zlen_map. destruct (Z.leb_spec 0 pos); [|lia]. destruct (Z.ltb_spec pos (zlen vs)); [|lia].
  cbn [andb need]. rewrite over_map by lia. reflexivity.
Qed.
Lemma own_step A1 x r vs : A1 !! x = Some (AVal r (map Some vs)) -> step vd (BeginMut x) A1 = Some (SRet (<[x := AVal true (map Some vs)]> A1) ONone).
Proof. intros E. unfold step. cbn [spec_step]. unfold holds. rewrite E. reflexivity. Qed.
Lemma own_arr t x o vs t1 : arr od t x o vs -> get_own_copy vd x t = Ok tt t1 -> exists l off bf g,
  st_env t1 !! x = Some (Obj (Some l) off (zlen vs) 0) /\ st_heap t1 !! l = Some (Cell bf g 1) /\ 0 <= off /\ off + zlen vs <= zlen bf /\ zlen bf <= max_alloc.
Proof.
  intros Ha E. destruct (own_owns _ _ _ _ _ _ Ha E) as (off & bf & HO & H). pose proof (owns_facts _ _ _ _ _ _ _ HO) as Hf.
  destruct HO as (_ & _ & l & g & Ex & El). exists l, off, bf, g. split; [exact Ex|]. split; [exact El|]. lia.
Qed.

Lemma nslot_out s x pos z i' : nslot x pos s = Ok z s -> nslot x pos (NState (n_out s) i') = Ok z (NState (n_out s) i').
Proof.
  unfold nslot, nslots, slots, bind, outer, get_obj, get_cell. cbn [Z.leb Z.compare n_out]. destruct (st_env (n_out s) !! x) as [ob|]; [|discriminate].
  destruct (o_ref ob) as [l|]; [|discriminate]. cbn [n_out]. destruct (st_heap (n_out s) !! l) as [c|]; [|discriminate]. destruct (_ || _); [discriminate|].
  destruct (names _) as [[|z' [|]]|]; try discriminate. intros [= ->]. reflexivity.
Qed.
Lemma match_ne {X} (u : positive) (p q : X) : u <> 1%positive -> match u with 1%positive => p | _ => q end = q.
Proof. destruct u; congruence. Qed.
Lemma settled_no o b t : settled o (delete 1%positive b) = true -> target o = Some t -> t <> 1%positive -> b !! t <> Some AMoved.
Proof. unfold settled. intros H Ht Hn E. rewrite Ht, lookup_delete_ne, E in H by congruence. discriminate. Qed.
Lemma elem_out x pos o s A b r : nr A b s -> nstep d (NElem x pos o) A b = Some r -> good_out (NElem x pos o) s A b r.
Proof.
  intros (t & A1 & Hr & HR & Ha). cbn [nstep]. destruct (is_cstr o) eqn:Hc; [discriminate|]. cbn [orb].
  destruct (settled o (delete 1%positive b)) eqn:Hset; [|discriminate]. cbn [negb].
  destruct (elems A x) as [vs|] eqn:Hv; [|discriminate]. destruct (znth pos vs) as [v|] eqn:Hw; [|discriminate]. intros Hst.
  pose proof (znth_inv _ _ _ Hw) as Hp.
  destruct (rel_arr A A1 b s t x vs Hr HR Ha Hv) as (ob & Har). destruct (arel_val _ _ _ _ Ha Hv) as (r0 & H0).
  pose proof (own_sim d od Hwf b s t x ob vs Hr Har) as S. pose proof (exec_meets vd (BeginMut x) t A1 wf_vd HR) as Hm.
  unfold meets in Hm. rewrite (own_step _ _ _ _ H0) in Hm. cbn [exec] in Hm. unfold RcaExec.unit_, bind, ret in Hm.
  set (A2 := <[x := _]> A1) in Hm.
  assert (Ha2 : arel A A2).
  { unfold A2. rewrite <- (insert_id A x _ (elems_some _ _ _ Hv)). apply arel_insert; [exact Ha|reflexivity]. }
  assert (Hlen : forall vs', zlen vs' = zlen vs -> bool_decide (Some (zlen (A := sval) vs') = Some 0) = false).
  { intros vs' E. apply bool_decide_false. intros X. injection X as X. lia. }
  destruct (get_own_copy vd x t) as [[] t1|e t1| | |u] eqn:Eo.
  - (* the array owns its buffer *)
    destruct S as (s1 & E1 & Hr1). destruct Hm as [HR1 _].
    destruct (arr_R od t1 A2 x true vs HR1 (lookup_insert _ _ _)) as (o1 & Har1).
    destruct (arr_elem d od b s1 t1 x o1 vs pos v Hr1 Har1 Hw) as (f & a & z & l & c & W & Et & Er & El & Hj & Hmx & Hcv & Hn & Oz & Hz & Hput).
    assert (E0 : nexec d od (NElem x pos o) s = inner (exec d (ren (elem_name z) o)) s1).
    { cbn [nexec]. unfold nelem. rewrite (bind_ok _ _ _ _ _ E1), (bind_ok _ _ _ _ _ Hn). reflexivity. }
    assert (Hwr : forall v', exists A3, Rv (with_heap t1 (<[l := Cell (zupd (o_off o1 + pos) [Some v'] (c_buf c)) (c_gen c) (c_refs c)]> (st_heap t1))) A3 /\
        arel (<[x := NVal (zupd pos [v'] vs)]> A) A3).
    { intros v'. pose proof (exec_meets vd (Write x pos v') t A1 wf_vd HR) as Hm'. unfold meets in Hm'. rewrite (write_step A1 x r0 vs pos v' H0 Hp) in Hm'.
      cbn [exec] in Hm'. unfold RcaExec.unit_, write in Hm'.
      assert (X : bind (get_own_copy vd x) (fun _ => store x pos [Some v']) t = Ok tt (with_heap t1 (<[l := Cell (zupd (o_off o1 + pos) [Some v'] (c_buf c)) (c_gen c) (c_refs c)]> (st_heap t1)))).
      { rewrite (bind_ok _ _ _ _ _ Eo). apply store_eq; try assumption; [apply Har1|lia| |]; change (zlen [Some v']) with 1; lia. }
      rewrite (bind_ok _ _ _ _ _ X) in Hm'. destruct Hm' as [HR3 _]. eexists. split; [exact HR3|]. apply arel_insert; [exact Ha|reflexivity]. }
    assert (Hkeep : forall b' i' a', Rd i' a' -> (forall y, a' !! xO y = b' !! y) -> a' !! 1%positive = a !! 1%positive -> (forall q, a' !! xI q = a !! xI q) ->
        nr A b' (NState (n_out s1) i')).
    { intros b' i' a' R' B' K1 KI. exists t1, A2. split; [|auto].
      destruct (Wf_inner d b b' (bufs (n_out s1)) (n_in s1) i' a a' W R' B') as [W' X']; [rewrite K1; apply W|exact KI|].
      exists f, a'. split; [exact W'|]. rewrite Et. symmetry. apply abs_inner. exact X'. }
    pose proof (call_ok (elem_name z) o (n_in s1) a _ (inj_elem z Oz) (wf_R _ _ _ _ _ W) (elem_pulls z a b v Oz (wf_b _ _ _ _ _ W) Hz) Hc) as Hcall.
    destruct (step d o (<[1%positive := sv v]> b)) as [[b1 w|]|] eqn:Hs; [| |discriminate].
    + destruct (item b1 1) as [v'|] eqn:Hi; [|discriminate]. injection Hst as <-. apply item_some in Hi.
      destruct Hcall as [(w' & i' & a' & E & Ho & R' & P' & K')|(i' & u & E & Hsu & Hno & R')].
      * left. exists (NState (n_out s1) i'), w'. rewrite E0. unfold inner. rewrite E. split; [reflexivity|]. split; [exact Ho|].
        destruct (Hwr v') as (A3 & HR3 & Ha3). eexists _, A3. split; [|split; [exact HR3|exact Ha3]].
        destruct (elem_keeps z a a' Oz K') as (K1 & KI & K2). pose proof (P' 1%positive) as Pz. cbn [elem_name] in Pz. rewrite Hi in Pz.
        assert (Vz : val a' z = Some v') by (unfold val; rewrite Pz; destruct v'; reflexivity). rewrite <- Vz. apply Hput.
        -- exact R'.
        -- intros y. destruct (decide (1%positive = y)) as [<-|N].
           ++ rewrite lookup_partial_alter, K2. apply (wf_b _ _ _ _ _ W).
           ++ rewrite lookup_partial_alter_ne by exact N. rewrite <- (P' y). destruct y; try reflexivity. congruence.
        -- rewrite K1. apply W.
        -- rewrite Pz. eauto.
        -- exact KI.
      * right. split; [right; exists o, (<[1%positive := sv v]> b), b1, w, u; cbn [inner_call]; rewrite Hv, Hw; auto|].
        exists (NState (n_out s1) i'). rewrite E0. unfold inner. rewrite E. split; [reflexivity|]. cbn [noom].
        change (alen x (NState (n_out s1) i')) with (alen x s1). rewrite (alen_arr _ _ _ _ _ _ Hr1 Har1), (Hlen vs eq_refl), Hv.
        destruct (target o) as [u'|] eqn:Htg; [|cbn [fst snd]; eapply Hkeep; [exact R'|apply W|reflexivity|reflexivity]].
        destruct (decide (u' = 1%positive)) as [->|Nu].
        -- cbn [elem_name] in R'. cbn [fst snd]. unfold elen.
           rewrite (nslot_out _ _ _ _ i' Hn), Hw. cbn [option_map]. change (slen z (NState (n_out s1) i')) with (ilen z i').
           unfold fallen in R'. destruct (bool_decide_reflect (ilen z i' = Some 0)) as [Z0|Z0].
           ++ destruct (bool_decide_reflect (ilen z i' = Some 0 /\ Some (snd v) <> Some [])) as [_|Hk].
              ** destruct (Hwr (true, [])) as (A3 & HR3 & Ha3). eexists _, A3. split; [|split; [exact HR3|exact Ha3]].
                 destruct Oz as [q0 ->]. assert (Vz : val (<[xI q0 := AVal true []]> a) (xI q0) = Some (true, [])) by (unfold val; rewrite lookup_insert; reflexivity).
                 specialize (Hput i' (<[xI q0 := AVal true []]> a) b). rewrite Vz in Hput. apply Hput; [exact R'| | | |].
                 --- intros y. rewrite lookup_insert_ne by discriminate. apply W.
                 --- rewrite lookup_insert_ne by discriminate. apply W.
                 --- rewrite lookup_insert. eauto.
                 --- intros q Hq. rewrite lookup_insert_ne by congruence. reflexivity.
              ** assert (snd v = []) as Hnil.
                 { destruct (decide (snd v = [])) as [|N]; [assumption|]. exfalso. apply Hk. split; [exact Z0|congruence]. }
                 unfold sv in Hz. rewrite Hnil in Hz. eapply Hkeep; [eapply R_empty_weak; [exact R'|exact Hz]|apply W|reflexivity|reflexivity].
           ++ rewrite bool_decide_false by (intros [X _]; contradiction). eapply Hkeep; [exact R'|apply W|reflexivity|reflexivity].
        -- rewrite (match_ne _ _ _ Nu). cbn [fst snd]. assert (elem_name z u' = str u') as X by (destruct u'; try reflexivity; congruence). rewrite X in R'.
           unfold fell. change (slen (str u') (NState (n_out s1) i')) with (ilen (str u') i'). unfold fallen in R'. destruct (bool_decide _).
           ++ eapply Hkeep; [exact R'| | |].
              ** apply pulls_insert; [exact inj_xO|exact (wf_b _ _ _ _ _ W)].
              ** rewrite lookup_insert_ne by discriminate. reflexivity.
              ** intros q. rewrite lookup_insert_ne by discriminate. reflexivity.
           ++ eapply Hkeep; [exact R'|apply W|reflexivity|reflexivity].
    + injection Hst as <-. left. exists (NState (n_out s1) (n_in s1)). rewrite E0. unfold inner. rewrite Hcall. split; [reflexivity|].
      eapply Hkeep; [apply W|apply W|reflexivity|reflexivity].
  - (* it cannot *)
    destruct S as (s1 & E1 & Hr1). destruct Hm as (-> & x' & Hx' & Hno & Hk). injection Hx' as <-. right. split.
    + left. exists x. split; [reflexivity|]. assert (exists vs', elems (after r A) x = Some vs' /\ zlen vs' = zlen vs) as (vs' & X1 & X2).
      { destruct (step d o _) as [[b1 w|]|]; [| |discriminate].
        - destruct (item b1 1) as [v'|]; [|discriminate]. injection Hst as <-. cbn [after]. unfold elems. rewrite lookup_insert. eexists. split; [reflexivity|].
          rewrite zlen_zupd; change (zlen [v']) with 1; lia.
        - injection Hst as <-. cbn [after]. eauto. }
      cbn [nasks]. rewrite X1, X2. unfold asks, vlen, A2 in Hno. rewrite lookup_insert, zlen_map in Hno. exact Hno.
    + exists s1. cbn [nexec]. unfold nelem. rewrite (bind_exn _ _ _ _ _ E1). split; [reflexivity|]. destruct Hk as [[_ Hk]|(_ & _ & Hk)].
      * destruct (arr_R od t1 A1 x r0 vs Hk H0) as (o1 & Har1). unfold noom. rewrite (alen_arr _ _ _ _ _ _ Hr1 Har1), (Hlen vs eq_refl), Hv.
        assert (Hsame : nr A b s1) by (exists t1, A1; auto).
        destruct (target o) as [u'|] eqn:Htg; [|exact Hsame].
        destruct (arr_elem d od b s1 t1 x o1 vs pos v Hr1 Har1 Hw) as (f & a & z & l & c & W & Et & Er & El & Hj & Hmx & Hcv & Hn & Oz & Hz & Hput).
        destruct (decide (u' = 1%positive)) as [->|Nu].
        -- cbn [fst snd]. unfold elen. rewrite Hn, Hw. cbn [option_map]. change (slen z s1) with (ilen z (n_in s1)).
           rewrite (ilen_R _ _ _ _ _ (wf_R _ _ _ _ _ W) Hz). rewrite bool_decide_false; [exact Hsame|]. intros [X1 X2]. apply X2. f_equal.
           injection X1 as X1. apply zlen_0_nil, X1.
        -- rewrite (match_ne _ _ _ Nu). cbn [fst snd]. unfold fell. change (slen (str u') s1) with (ilen (str u') (n_in s1)).
           assert (Hmv : a !! str u' <> Some AMoved) by (unfold str; rewrite (wf_b _ _ _ _ _ W); eapply settled_no; eassumption).
           pose proof (fallen_kept (n_in s1) a (str u') (wf_R _ _ _ _ _ W) Hmv) as R'. unfold fallen in R'. destruct (bool_decide _); [|exact Hsame].
           exists t1, A1. split; [|auto]. 
           destruct (Wf_inner d b (<[u' := AVal true []]> b) (bufs (n_out s1)) (n_in s1) (n_in s1) a _ W R') as [W' X'].
           ++ apply pulls_insert; [exact inj_xO|exact (wf_b _ _ _ _ _ W)].
           ++ rewrite lookup_insert_ne by discriminate. apply W.
           ++ intros q. rewrite lookup_insert_ne by discriminate. reflexivity.
           ++ exists f. eexists. split; [exact W'|]. rewrite Et. symmetry. apply abs_inner. exact X'.
      * unfold noom. destruct (R_held _ _ _ x _ _ Hk (lookup_insert _ _ _)) as (ob' & Hh). pose proof (held_len _ _ _ _ _ _ Hh) as Hl.
        rewrite (alen_env b s1 t1 x [] Hr1 Hl). cbn [zlen length Z.of_nat]. rewrite bool_decide_true by reflexivity. cbn [fst snd].
        exists t1, (<[x := AVal true []]> A1). split; [exact Hr1|]. split; [exact Hk|]. apply arel_insert; [exact Ha|reflexivity].
  - destruct Hm as (g & y & X & _). discriminate.
  - contradiction.
  - contradiction.
Qed.

(** A call that uses an element. *)
Lemma peek_out x pos o s A b r : nr A b s -> nstep d (NPeek x pos o) A b = Some r -> good_out (NPeek x pos o) s A b r.
Proof.
  intros (t & A1 & Hr & HR & Ha). cbn [nstep]. destruct (is_cstr o) eqn:Hc; [discriminate|]. cbn [orb].
  destruct (bool_decide_reflect (target o = Some 1%positive)) as [|Ht]; [discriminate|].
  destruct (elems A x) as [vs|] eqn:Hv; [|discriminate]. destruct (znth pos vs) as [v|] eqn:Hw; [|discriminate]. intros Hst.
  destruct (rel_arr A A1 b s t x vs Hr HR Ha Hv) as (ob & Har).
  destruct (arr_elem d od b s t x ob vs pos v Hr Har Hw) as (f & a & z & l & c & W & Et & Er & El & Hj & Hmx & Hcv & Hn & Oz & Hz & _).
  assert (E0 : nexec d od (NPeek x pos o) s = inner (exec d (ren (elem_name z) o)) s).
  { cbn [nexec]. unfold npeek. rewrite (bind_ok _ _ _ _ _ Hn). reflexivity. }
  assert (Hkeep : forall b' i' a', Rd i' a' -> (forall y, a' !! xO y = b' !! y) -> a' !! 1%positive = a !! 1%positive -> (forall q, a' !! xI q = a !! xI q) ->
      nr A b' (NState (n_out s) i')).
  { intros b' i' a' R' B' K1 KI. exists t, A1. split; [|auto].
    destruct (Wf_inner d b b' (bufs (n_out s)) (n_in s) i' a a' W R' B') as [W' X']; [rewrite K1; apply W|exact KI|].
    exists f, a'. split; [exact W'|]. rewrite Et. symmetry. apply abs_inner. exact X'. }
  pose proof (call_ok (elem_name z) o (n_in s) a _ (inj_elem z Oz) (wf_R _ _ _ _ _ W) (elem_pulls z a b v Oz (wf_b _ _ _ _ _ W) Hz) Hc) as Hcall.
  destruct (step d o (<[1%positive := sv v]> b)) as [[b1 w|]|] eqn:Hs; [| |discriminate].
  - destruct (bool_decide_reflect (item b1 1 = Some v)) as [Hi|]; [|discriminate]. injection Hst as <-. apply item_some in Hi.
    destruct Hcall as [(w' & i' & a' & E & Ho & R' & P' & K')|(i' & u & E & Hsu & Hno & R')].
    + left. exists (NState (n_out s) i'), w'. rewrite E0. unfold inner. rewrite E. split; [reflexivity|]. split; [exact Ho|].
      destruct (elem_keeps z a a' Oz K') as (K1 & KI & K2). pose proof (P' 1%positive) as Pz. cbn [elem_name] in Pz. rewrite Hi in Pz.
      eapply Hkeep; [exact R'| |exact K1|].
      * intros y. destruct (decide (1%positive = y)) as [<-|N].
        -- rewrite lookup_partial_alter, K2. apply (wf_b _ _ _ _ _ W).
        -- rewrite lookup_partial_alter_ne by exact N. rewrite <- (P' y). destruct y; try reflexivity. congruence.
      * intros q. destruct (decide (xI q = z)) as [->|N]; [congruence|apply KI, N].
    + right. split; [right; exists o, (<[1%positive := sv v]> b), b1, w, u; cbn [inner_call]; rewrite Hv, Hw; auto|].
      exists (NState (n_out s) i'). rewrite E0. unfold inner. rewrite E. split; [reflexivity|]. cbn [noom].
      destruct (target o) as [u'|] eqn:Htg; [|cbn [fst snd]; eapply Hkeep; [exact R'|apply W|reflexivity|reflexivity]].
      assert (Nu : u' <> 1%positive) by congruence.
      cbn [fst snd]. assert (elem_name z u' = str u') as X by (destruct u'; try reflexivity; congruence). rewrite X in R'.
      unfold fell. change (slen (str u') (NState (n_out s) i')) with (ilen (str u') i'). unfold fallen in R'. destruct (bool_decide _).
      * eapply Hkeep; [exact R'| | |].
        -- apply pulls_insert; [exact inj_xO|exact (wf_b _ _ _ _ _ W)].
        -- rewrite lookup_insert_ne by discriminate. reflexivity.
        -- intros q. rewrite lookup_insert_ne by discriminate. reflexivity.
      * eapply Hkeep; [exact R'|apply W|reflexivity|reflexivity].
  - injection Hst as <-. left. exists (NState (n_out s) (n_in s)). rewrite E0. unfold inner. rewrite Hcall. split; [reflexivity|].
    eapply Hkeep; [apply W|apply W|reflexivity|reflexivity].
Qed.
End Proof.
