(** Sharing: which buffer the temporaries and elements made by split and newsplit refer to. *)
From Coq Require Import Lia.
From Verif Require Import RcaSpec RcaModel RcaExec RcaInv RcaOwn RcaRel RcaMeet RcaReach StrSpec StrModel AlgModel.
Open Scope Z_scope.

Section Share.
Variable d : desc Z.
Notation Mm := (M (state Z)).

(** What holds if [m] returns. *)
Definition post {A} (m : Mm A) (s : state Z) (Q : A -> state Z -> Prop) : Prop := forall v s', m s = Ok v s' -> Q v s'.
Lemma post_ret {A} (v : A) s (Q : A -> state Z -> Prop) : Q v s -> post (ret v) s Q.
Proof. intros H ? ? [= <- <-]. exact H. Qed.
Lemma post_bind {A B} (m : Mm A) (f : A -> Mm B) s (P : A -> state Z -> Prop) (Q : B -> state Z -> Prop) : post m s P -> (forall v s', P v s' -> post (f v) s' Q) -> post (bind m f) s Q.
Proof. intros Hm Hf v s' E. unfold bind in E. destruct (m s) as [u s1|? ?| | |?] eqn:Em; try discriminate. exact (Hf u s1 (Hm u s1 Em) v s' E). Qed.
Lemma post_conseq {A} (m : Mm A) s (P Q : A -> state Z -> Prop) : post m s P -> (forall v s', P v s' -> Q v s') -> post m s Q.
Proof. intros H HPQ v s' E. apply HPQ, H, E. Qed.
Lemma post_unwind {A} xs (m : Mm A) s (Q : A -> state Z -> Prop) : post m s Q -> post (unwind d xs m) s Q.
Proof.
  intros H v s' E. unfold unwind in E. destruct (m s) as [? ?|? ?| | |?] eqn:Em; try discriminate; [|destruct (destroy_all d xs s0) as [? ?|? ?| | |?]; discriminate].
  injection E as -> ->. apply H, Em.
Qed.
Lemma post_scope {A} x (m : Mm A) s (P Q : A -> state Z -> Prop) : post m s P -> (forall v s', P v s' -> post (call d (Destroy x)) s' (fun _ => Q v)) -> post (scope d x m) s Q.
Proof.
  intros Hm Hd. unfold scope. eapply post_bind; [apply post_unwind, Hm|]. intros v s' Hv. eapply post_bind; [apply (Hd v s' Hv)|].
  intros ? s2 Hq. apply post_ret, Hq.
Qed.
(** Computations that only look. *)
Definition looks {A} (m : Mm A) : Prop := forall s v s', m s = Ok v s' -> s' = s.
Lemma looks_ret {A} (v : A) : looks (ret v).
Proof. intros s ? ? [= _ <-]. reflexivity. Qed.
Lemma looks_undef {A} u : looks (undef (A := A) u).
Proof. intros s ? ? [=]. Qed.
Lemma looks_bind {A B} (m : Mm A) (f : A -> Mm B) : looks m -> (forall v, looks (f v)) -> looks (bind m f).
Proof. intros Hm Hf s v s' E. unfold bind in E. destruct (m s) as [u s1|? ?| | |?] eqn:Em; try discriminate. apply Hm in Em as ->. eapply Hf, E. Qed.
Lemma looks_post {A} (m : Mm A) s (Q : state Z -> Prop) : looks m -> Q s -> post m s (fun _ => Q).
Proof. intros H Hq v s' E. apply H in E as ->. exact Hq. Qed.
Lemma looks_get_obj x : looks (get_obj (T := Z) x).
Proof. intros s v s'. unfold get_obj. destruct (st_env s !! x); [intros [= _ <-]; reflexivity|discriminate]. Qed.
Lemma looks_get_cell l : looks (get_cell (T := Z) l).
Proof. intros s v s'. unfold get_cell. destruct (st_heap s !! l); [intros [= _ <-]; reflexivity|discriminate]. Qed.
Ltac looks := repeat (apply looks_ret || apply looks_undef || apply looks_get_obj || apply looks_get_cell || (apply looks_bind; [|intros]) ||
  match goal with |- looks (if ?b then _ else _) => destruct b | |- looks (match ?b with _ => _ end) => destruct b end).
Lemma looks_length x : looks (length_of (T := Z) x).
Proof. unfold length_of. looks. Qed.
Lemma looks_contents x : looks (contents x).
Proof. unfold contents, length_of, load. looks. Qed.
Lemma looks_rcount x : looks (rcount (T := Z) x).
Proof. unfold rcount. looks. Qed.
Lemma looks_assert b : looks (assert_ d b).
Proof. unfold assert_, check. destruct (d_debug d); [destruct b; [apply looks_ret|intros ? ? ? [=]]|apply looks_ret]. Qed.
Lemma looks_pure {A} (m : M unit A) : looks (pure m).
Proof. intros s v s'. unfold pure. destruct (m tt); try discriminate. intros [= _ <-]. reflexivity. Qed.
Lemma looks_hskip mdiff x y sp it : looks (hskip mdiff x y sp it).
Proof.
  unfold hskip, hspace. apply looks_bind; [|intros; apply looks_bind; [apply looks_contents|intros; apply looks_ret]].
  apply looks_bind; [apply looks_contents|intros]. apply looks_bind; [apply looks_contents|intros; apply looks_pure].
Qed.
Lemma looks_hfind_ x y pos : looks (hfind_ x y pos).
Proof. unfold hfind_. apply looks_bind; [apply looks_contents|intros]. apply looks_bind; [apply looks_contents|intros; apply looks_pure]. Qed.

(** What the calls do to the objects. *)
Lemma post_call o s (Q : state Z -> Prop) : (forall v s', exec d o s = Ok v s' -> Q s') -> post (call d o) s (fun _ => Q).
Proof. intros H v s' E. unfold call, bind, ret in E. destruct (exec d o s) as [u s1|? ?| | |?] eqn:Eo; try discriminate. injection E as _ <-. eapply H; reflexivity. Qed.
Lemma env_inc_ref r s u s' : inc_ref (T := Z) r s = Ok u s' -> st_env s' = st_env s.
Proof.
  unfold inc_ref. destruct r as [l|]; [|intros [= _ <-]; reflexivity]. unfold bind, get_cell, set_cell, ret. destruct (st_heap s !! l); [|discriminate].
  intros [= _ <-]. reflexivity.
Qed.
Lemma env_copy x y s v s' : exec d (CtorCopy x y) s = Ok v s' -> exists o, st_env s !! y = Some o /\ st_env s !! x = None /\ st_env s' = <[x := o]> (st_env s).
Proof.
  cbn [exec]. unfold unit_, ctor_copy, bind, get_obj, new_obj, ret. destruct (st_env s !! y) as [o|]; [|discriminate].
  destruct (st_env s !! x) eqn:Ex; [discriminate|]. destruct (inc_ref _ _) as [? s1|? ?| | |?] eqn:Ei; try discriminate. intros [= _ <-].
  exists o. split; [reflexivity|]. split; [reflexivity|]. rewrite (env_inc_ref _ _ _ _ Ei). reflexivity.
Qed.
Lemma env_slice x start len s v s' : exec d (SliceTo x start len) s = Ok v s' ->
  exists o o', st_env s !! x = Some o /\ o_ref o' = o_ref o /\ st_env s' = <[x := o']> (st_env s).
Proof.
  cbn [exec]. unfold unit_, slice, bind, get_obj, set_obj, ret, throw. cbv zeta. destruct (st_env s !! x) as [o|] eqn:Ex; [|discriminate].
  intros E. exists o. destruct (_ && negb _); [discriminate|]. destruct (i32 (o_len o) <=? start).
  - injection E as _ <-. eexists. split; [reflexivity|]. split; [|reflexivity]. reflexivity.
  - destruct (negb _); [discriminate|]. injection E as _ <-. eexists. split; [reflexivity|]. split; [|reflexivity]. reflexivity.
Qed.
Lemma env_cleanse x s u s' : cleanse_if_last d x s = Ok u s' -> st_env s' = st_env s.
Proof.
  unfold cleanse_if_last, bind, get_obj, get_cell, set_cell, ret. destruct (d_nul d); [|intros [= _ <-]; reflexivity].
  destruct (st_env s !! x) as [o|]; [|discriminate]. destruct (o_ref o) as [l|]; [|intros [= _ <-]; reflexivity].
  destruct (st_heap s !! l) as [c|]; [|discriminate]. destruct (c_refs c =? 1); intros [= _ <-]; reflexivity.
Qed.
Lemma env_dealloc x (s : state Z) u s' : check_dealloc x s = Ok u s' ->
  exists o, st_env s !! x = Some o /\ (st_env s' = st_env s \/ exists o', st_env s' = <[x := o']> (st_env s)).
Proof.
  unfold check_dealloc, dec_ref, delete_cell, bind, get_obj, set_obj, get_cell, set_cell, ret. destruct (st_env s !! x) as [o|]; [|discriminate].
  intros E. exists o. split; [reflexivity|]. destruct (o_ref o) as [l|]; [|injection E as _ <-; left; reflexivity].
  destruct (st_heap s !! l) as [c|]; [|discriminate]. cbv beta iota in E. destruct (c_refs c - 1 <? 1); [|injection E as _ <-; left; reflexivity].
  cbn [st_heap with_heap] in E. rewrite lookup_insert in E. injection E as _ <-. right. eexists. reflexivity.
Qed.
Lemma env_destroy x s v s' : exec d (Destroy x) s = Ok v s' -> exists o, st_env s !! x = Some o /\ st_env s' = delete x (st_env s).
Proof.
  cbn [exec]. unfold unit_, destroy, bind, del_obj, ret. destruct (cleanse_if_last d x s) as [? s1|? ?| | |?] eqn:Ec; try discriminate. apply env_cleanse in Ec.
  destruct (check_dealloc x s1) as [? s2|? ?| | |?] eqn:Ed; try discriminate. apply env_dealloc in Ed as (o & Ho & Ed). rewrite Ec in Ho, Ed. intros [= _ <-].
  exists o. split; [exact Ho|]. cbn [st_env with_env]. destruct Ed as [->|(o' & ->)]; [reflexivity|apply delete_insert_delete].
Qed.
Lemma env_store x pos es s u s' : store (T := Z) x pos es s = Ok u s' -> st_env s' = st_env s.
Proof.
  unfold store, bind, get_obj, get_cell, set_cell, ret, undef. destruct (zlen es <=? 0); [intros [= _ <-]; reflexivity|].
  destruct (st_env s !! x) as [o|]; [|discriminate]. destruct (o_ref o) as [l|]; [|discriminate]. destruct (st_heap s !! l) as [c|]; [|discriminate]. cbv zeta.
  destruct (_ <=? _); [|discriminate]. intros [= _ <-]. reflexivity.
Qed.
Lemma env_aref_reserve dd l n sc off sub s v s' : aref_reserve (T := Z) dd l n sc off sub s = Ok v s' -> st_env s' = st_env s.
Proof.
  unfold aref_reserve, try_alloc, log_freed, bind, get_cell, set_cell, ret, undef. destruct (st_heap s !! l) as [c|]; [|discriminate]. cbv zeta.
  destruct (_ <? n).
  - destruct (_ || _); [discriminate|]. destruct (_ <? sub); [discriminate|]. destruct (c_buf c).
    + destruct (_ && _); [discriminate|]. intros [= _ <-]. reflexivity.
    + destruct (_ || _); [discriminate|]. intros [= _ <-]. reflexivity.
  - destruct (_ <? n); [|intros [= _ <-]; reflexivity]. destruct (_ || _); [discriminate|]. intros [= _ <-]. reflexivity.
Qed.
Lemma env_char x c s v s' : exec d (CtorChar x c) s = Ok v s' ->
  exists o, st_env s !! x = None /\ st_env s' = <[x := o]> (st_env s) /\ o_ref o = Some (st_next s).
Proof.
  cbn [exec]. unfold with_nul. destruct (d_nul d) as [z|] eqn:En; [|intros E; discriminate E]. unfold unit_, ctor_char, ctor_default, ctor_guard. unfold bind at 1 2. unfold new_obj.
  destruct (st_env s !! x) eqn:Ex; [discriminate|]. unfold bind at 1.
  destruct (base_reserve d x 2 _ _) as [? s1|? s1| | |?] eqn:Eb; try discriminate; [|destruct (destroy d x s1) as [? ?|? ?| | |?]; discriminate].
  unfold base_reserve, new_cell, try_alloc in Eb. unfold bind, get_obj, ret in Eb. cbn [st_env with_env st_tick st_next st_heap] in Eb. rewrite lookup_insert in Eb. cbn [o_ref obj_empty] in Eb.
  destruct (d_oom d _ || _); [discriminate|]. unfold set_obj in Eb. cbn [st_env with_env st_tick st_next st_heap] in Eb.
  destruct (aref_reserve _ _ _ _ _ _ _) as [off s2|? ?| | |?] eqn:Er; try discriminate. apply env_aref_reserve in Er. cbn [st_env with_env] in Er. injection Eb as _ <-.
  unfold bind. destruct (store x 0 _ _) as [? s3|? ?| | |?] eqn:E3; try discriminate. apply env_store in E3.
  destruct (store x 1 _ _) as [? s4|? ?| | |?] eqn:E4; try discriminate. apply env_store in E4.
  unfold set_len, bind, get_obj, set_obj, ret. rewrite E4, E3. cbn [st_env with_env]. rewrite lookup_insert. intros [= _ <-].
  eexists. split; [reflexivity|]. cbn [st_env with_env]. rewrite E4, E3. cbn [st_env with_env]. rewrite Er, !insert_insert. split; reflexivity.
Qed.

(** [c] objects refer to the buffer [l]; [x] does. *)
Definition shared_by l x c (s : state Z) : Prop := count l (st_env s) = c /\ exists o, st_env s !! x = Some o /\ o_ref o = Some l.
(** While split runs, [sp] refers to another. *)
Definition splitting l x sp c s : Prop := shared_by l x c s /\ exists o, st_env s !! sp = Some o /\ o_ref o <> Some l.

Lemma copy_shares l x sp t c s : splitting l x sp c s ->
  post (call d (CtorCopy t x)) s (fun _ s' => splitting l x sp (c + 1) s' /\ exists o, st_env s' !! t = Some o /\ o_ref o = Some l /\ t <> x /\ t <> sp).
Proof.
  intros [(Hc & o & Ho & Hr) (q & Hq & Hqr)]. apply post_call. intros v s' E. apply env_copy in E as (o1 & E1 & En & Es). assert (o1 = o) as -> by congruence.
  assert (t <> x) as Htx by congruence. assert (t <> sp) as Hts by congruence.
  unfold splitting, shared_by. rewrite Es. split; [split; [split|]|].
  - rewrite count_insert by exact En. rewrite (ind_some _ _ Hr). lia.
  - exists o. rewrite lookup_insert_ne by exact Htx. split; assumption.
  - exists q. rewrite lookup_insert_ne by exact Hts. split; assumption.
  - exists o. rewrite lookup_insert. repeat split; assumption.
Qed.
Lemma piece_shares gf el k l x sp t c start len s : splitting l x sp c s ->
  post (hslice d t x start len ;;; scope d t (push_elem d gf el k t)) s (fun _ => splitting l x sp (c + 1)).
Proof.
  intros H. unfold hslice.
  eapply post_bind with (P := fun _ s' => splitting l x sp (c + 1) s' /\ exists o, st_env s' !! t = Some o /\ o_ref o = Some l /\ t <> x /\ t <> sp).
  - eapply post_bind; [eapply copy_shares; exact H|]. intros ? s1 ([(Hc & o & Ho & Hr) (q & Hq & Hqr)] & o1 & E1 & R1 & Htx & Hts).
    apply post_call. intros ? s2 E. apply env_slice in E as (o2 & o3 & E2 & R3 & Es). assert (o2 = o1) as -> by congruence. rewrite R1 in R3.
    unfold splitting, shared_by. rewrite Es. split; [split; [split|]|].
    + rewrite (count_update _ _ _ _ _ E1). rewrite (ind_some _ _ R1), (ind_some _ _ R3). lia.
    + exists o. rewrite lookup_insert_ne by exact Htx. split; assumption.
    + exists q. rewrite lookup_insert_ne by exact Hts. split; assumption.
    + exists o3. rewrite lookup_insert. repeat split; assumption.
  - intros ? s1 (Hs & o1 & E1 & R1 & Htx & Hts).
    eapply post_scope with (P := fun _ s' => splitting l x sp (c + 2) s' /\ exists o, st_env s' !! t = Some o /\ o_ref o = Some l).
    + unfold push_elem. destruct (gf k); [intros ? ? [=]|]. destruct Hs as [(Hc & o & Ho & Hr) (q & Hq & Hqr)].
      apply post_call. intros ? s2 E. apply env_copy in E as (o2 & E2 & En & Es). assert (o2 = o1) as -> by congruence.
      unfold splitting, shared_by. rewrite Es. split; [split; [split|]|].
      * rewrite count_insert by exact En. rewrite (ind_some _ _ R1). lia.
      * exists o. rewrite lookup_insert_ne by congruence. split; assumption.
      * exists q. rewrite lookup_insert_ne by congruence. split; assumption.
      * exists o1. rewrite lookup_insert_ne by congruence. split; assumption.
    + intros ? s2 ([(Hc & o & Ho & Hr) (q & Hq & Hqr)] & o2 & E2 & R2). apply post_call. intros ? s3 E. apply env_destroy in E as (o3 & E3 & Es).
      assert (o3 = o2) as -> by congruence. unfold splitting, shared_by. rewrite Es. split; [split|].
      * rewrite (count_delete _ _ _ _ E2). rewrite (ind_some _ _ R2). lia.
      * exists o. rewrite lookup_delete_ne by exact Htx. split; assumption.
      * exists q. rewrite lookup_delete_ne by exact Hts. split; assumption.
Qed.
Lemma loop_shares mdiff gf el l x y sp t limit fuel : forall it k c s, splitting l x sp c s ->
  post (hsplit_loop d mdiff gf el fuel x y sp t limit it k) s (fun r s' => splitting l x sp (c + (Z.of_nat (snd r) - Z.of_nat k)) s').
Proof.
  induction fuel as [|f IH]; intros it k c s H; cbn [hsplit_loop].
  - destruct (negb _); [|intros ? ? [=]]. apply post_ret. cbn [snd]. rewrite Z.sub_diag, Z.add_0_r. exact H.
  - destruct (negb _); [apply post_ret; cbn [snd]; rewrite Z.sub_diag, Z.add_0_r; exact H|].
    eapply post_bind with (P := fun r s' => splitting l x sp (match snd r with None => c | Some _ => c + 1 end) s').
    + apply post_unwind. eapply post_bind; [apply looks_post with (Q := splitting l x sp c); [apply looks_hskip|exact H]|]. intros it1 s1 H1. cbv beta in H1.
      eapply post_bind; [apply looks_post with (Q := splitting l x sp c); [apply looks_length|exact H1]|]. intros n s2 H2. cbv beta in H2.
      destruct (n <=? it1); [apply post_ret; exact H2|].
      eapply post_bind; [apply looks_post with (Q := splitting l x sp c); [apply looks_hfind_|exact H2]|]. intros p s3 H3. cbv beta in H3. cbv zeta.
      set (pos := if p =? npos then n - it1 else p). intros v s' E.
      pose proof (piece_shares gf el k l x sp t c it1 (s64 pos) s3 H3) as Hp.
      unfold bind in E. unfold post, bind in Hp. destruct (hslice d t x it1 (s64 pos) s3) as [? s4|? ?| | |?]; try discriminate.
      destruct (scope d t (push_elem d gf el k t) s4) as [? s5|? ?| | |?]; try discriminate. specialize (Hp _ _ eq_refl).
      destruct (length_of y s5) as [m s6|? ?| | |?] eqn:Ey; try discriminate. apply looks_length in Ey as ->.
      destruct (assert_ _ _ s5) as [? s6|? ?| | |?] eqn:Ea; try discriminate. apply looks_assert in Ea as ->. injection E as <- <-. exact Hp.
    + intros [it1 [it2|]] s1 H1; cbn [snd] in H1; [|apply post_ret; cbn [snd]; rewrite Z.sub_diag, Z.add_0_r; exact H1].
      eapply post_conseq; [apply IH; exact H1|]. intros r s2 H2. cbv beta in H2 |- *.
      replace (c + (Z.of_nat (snd r) - Z.of_nat k)) with (c + 1 + (Z.of_nat (snd r) - Z.of_nat (S k))) by lia. exact H2.
Qed.
Lemma rest_shares mdiff gf el l x y sp t limit fuel c s : splitting l x sp c s ->
  post (hsplit_rest d mdiff gf el fuel x y sp t limit) s (fun k s' => splitting l x sp (c + Z.of_nat k) s').
Proof.
  intros H. unfold hsplit_rest. eapply post_bind; [eapply loop_shares; exact H|]. intros [it k] s1 H1. cbn [snd] in H1.
  replace (c + (Z.of_nat k - Z.of_nat 0)) with (c + Z.of_nat k) in H1 by lia.
  destruct (negb _); [|apply post_ret, H1].
  eapply post_bind with (P := fun _ s' => splitting l x sp (c + Z.of_nat k + 1) s').
  - apply post_unwind. eapply post_bind; [apply looks_post with (Q := splitting l x sp (c + Z.of_nat k)); [apply looks_hskip|exact H1]|].
    intros it1 s2 H2. apply piece_shares, H2.
  - intros ? s2 H2. apply post_ret. replace (c + Z.of_nat (S k)) with (c + Z.of_nat k + 1) by lia. exact H2.
Qed.
(** The space split builds is in a buffer of its own. *)
Lemma char_shares l x sp b c s a : wf_desc d -> reached d s a -> shared_by l x c s -> post (call d (CtorChar sp b)) s (fun _ => splitting l x sp c).
Proof.
  intros Hwf H (Hc & o & Ho & Hr). apply post_call. intros ? s1 E. apply env_char in E as (o1 & En & Es & R1).
  pose proof (reached_R d s a Hwf H) as HR. destruct (inv_ref_live d s x o l (proj1 HR) Ho Hr) as (ce & Hce).
  destruct HR as [[Hck _] _]. pose proof (ck_next _ _ _ _ (Hck l ce Hce)) as Hlt.
  assert (o_ref o1 <> Some l) as Hne by (rewrite R1; intros [= E]; subst l; lia).
  unfold splitting, shared_by. rewrite Es. split; [split|].
  - rewrite count_insert by exact En. rewrite (ind_other _ _ Hne). lia.
  - exists o. rewrite lookup_insert_ne by congruence. split; assumption.
  - exists o1. rewrite lookup_insert. split; [reflexivity|exact Hne].
Qed.
Lemma drop_shares l x sp c s : splitting l x sp c s -> post (call d (Destroy sp)) s (fun _ => shared_by l x c).
Proof.
  intros [(Hc & o & Ho & Hr) (q & Hq & Hqr)]. apply post_call. intros ? s1 E. apply env_destroy in E as (q' & Eq & Es). assert (q' = q) as -> by congruence.
  unfold shared_by. rewrite Es. split.
  - rewrite (count_delete _ _ _ _ Hq). rewrite (ind_other _ _ Hqr). lia.
  - exists o. rewrite lookup_delete_ne by congruence. split; assumption.
Qed.
Lemma whole_shares gf el l x t c s : shared_by l x c s -> post (call d (CtorCopy t x) ;;; scope d t (push_elem d gf el 0 t) ;;; ret 1%nat) s (fun _ => shared_by l x (c + 1)).
Proof.
  intros (Hc & o & Ho & Hr).
  eapply post_bind with (P := fun _ s' => shared_by l x (c + 1) s' /\ st_env s' !! t = Some o /\ t <> x).
  - apply post_call. intros ? s1 E. apply env_copy in E as (o1 & E1 & En & Es). assert (o1 = o) as -> by congruence. assert (t <> x) as Htx by congruence.
    unfold shared_by. rewrite Es. split; [split|].
    + rewrite count_insert by exact En. rewrite (ind_some _ _ Hr). lia.
    + exists o. rewrite lookup_insert_ne by exact Htx. split; assumption.
    + rewrite lookup_insert. split; [reflexivity|exact Htx].
  - intros ? s1 ((Hc1 & o1 & Ho1 & Hr1) & Ht & Htx). eapply post_bind with (P := fun _ => shared_by l x (c + 1)); [|intros ? s2 H2; apply post_ret, H2].
    eapply post_scope with (P := fun _ s' => shared_by l x (c + 2) s' /\ st_env s' !! t = Some o).
    + unfold push_elem. destruct (gf 0%nat); [intros ? ? [=]|]. apply post_call. intros ? s2 E. apply env_copy in E as (o2 & E2 & En & Es).
      assert (o2 = o) as -> by congruence. unfold shared_by. rewrite Es. split; [split|].
      * rewrite count_insert by exact En. rewrite (ind_some _ _ Hr). lia.
      * exists o1. rewrite lookup_insert_ne by congruence. split; assumption.
      * rewrite lookup_insert_ne by congruence. exact Ht.
    + intros ? s2 ((Hc2 & o2 & Ho2 & Hr2) & Ht2). apply post_call. intros ? s3 E. apply env_destroy in E as (o3 & E3 & Es).
      unfold shared_by. rewrite Es. split.
      * rewrite (count_delete _ _ _ _ Ht2). rewrite (ind_some _ _ Hr). lia.
      * exists o2. rewrite lookup_delete_ne by exact Htx. split; assumption.
Qed.
Definition o_len_of x (s : state Z) : option Z := option_map o_len (st_env s !! x).
(** A non-empty value has a buffer. *)
Lemma shared_start s a x r v : wf_desc d -> reached d s a -> a !! x = Some (AVal r v) -> v <> [] -> exists l, shared_by l x (sharers s x) s.
Proof.
  intros Hwf H Ha Hv. destruct (R_held d _ _ _ _ _ (reached_R d s a Hwf H) Ha) as (o & Hh). destruct Hh as [Hx Hg Hview Hrm Hlen Hoff Hfit Hcap].
  unfold sharers, shared_by. rewrite Hx. destruct (o_ref o) as [l|] eqn:Er.
  - exists l. split; [reflexivity|]. exists o. split; [reflexivity|exact Er].
  - exfalso. destruct (Hg Er) as (_ & Hl & _). apply Hv. apply zlen_0_nil. rewrite <- Hlen. exact Hl.
Qed.
(** newsplit: the token comes to share the buffer. *)
Lemma env_drop x n s v s' : exec d (StrDropFront x n) s = Ok v s' ->
  exists o o', st_env s !! x = Some o /\ o_ref o' = o_ref o /\ st_env s' = <[x := o']> (st_env s).
Proof.
  cbn [exec]. unfold unit_, str_drop_front, bind, get_obj, set_obj, ret. destruct (st_env s !! x) as [o|] eqn:Ex; [|discriminate].
  intros E. exists o. destruct (o_len o =? 0).
  - injection E as _ <-. exists o. split; [reflexivity|]. split; [reflexivity|]. symmetry. apply insert_id, Ex.
  - destruct (o_len o <? n); injection E as _ <-; eexists; (split; [reflexivity|]); (split; [|reflexivity]); reflexivity.
Qed.
Lemma looks_find x b : looks (ask d (FindItem x b 0)).
Proof.
  unfold ask. cbn [exec]. unfold int_. apply looks_bind; [|intros []; looks]. apply looks_bind; [|intros; looks].
  unfold find_item, check_pos, load, length_of. looks.
Qed.
Lemma newsplit_shares l r x b c s : shared_by l x c s -> o_len_of x s <> Some 0 -> post (hnewsplit d r x b) s (fun _ => shared_by l x (c + 1)).
Proof.
  intros H Hn. unfold hnewsplit. intros v s' E. unfold bind at 1 in E. destruct (length_of x s) as [n s0|? ?| | |?] eqn:El; try discriminate.
  assert (n <> 0) as Hn0.
  { intros ->. apply Hn. unfold length_of, bind, get_obj, ret in El. unfold o_len_of. destruct (st_env s !! x); [|discriminate]. cbn [option_map]. congruence. }
  apply looks_length in El as ->. destruct (Z.eqb_spec n 0) as [|_]; [contradiction|]. revert v s' E.
  match goal with |- forall v s', ?m s = Ok v s' -> ?G => change (post m s (fun _ => shared_by l x (c + 1))) end.
  eapply post_bind; [apply looks_post with (Q := shared_by l x c); [apply looks_find|exact H]|]. intros p s1 H1. cbv beta zeta in H1 |- *.
  eapply post_bind with (P := fun _ s' => shared_by l x (c + 1) s').
  - destruct H1 as (Hc & o & Ho & Hr). unfold hslice.
    eapply post_bind with (P := fun _ s' => shared_by l x (c + 1) s' /\ st_env s' !! r = Some o /\ r <> x).
    + apply post_call. intros ? s2 E. apply env_copy in E as (o1 & E1 & En & Es). assert (o1 = o) as -> by congruence. assert (r <> x) as Hrx by congruence.
      unfold shared_by. rewrite Es. split; [split|].
      * rewrite count_insert by exact En. rewrite (ind_some _ _ Hr). lia.
      * exists o. rewrite lookup_insert_ne by exact Hrx. split; assumption.
      * rewrite lookup_insert. split; [reflexivity|exact Hrx].
    + intros ? s2 ((Hc2 & o2 & Ho2 & Hr2) & Er & Hrx). apply post_call. intros ? s3 E. apply env_slice in E as (o3 & o4 & E3 & R4 & Es).
      assert (o3 = o) as -> by congruence. unfold shared_by. rewrite Es. split.
      * rewrite (count_update _ _ _ _ _ Er). rewrite (ind_some _ _ Hr). rewrite ind_some; [lia|congruence].
      * exists o2. rewrite lookup_insert_ne by exact Hrx. split; assumption.
  - intros ? s2 H2. cbv beta in H2. apply post_unwind.
    eapply post_bind; [apply looks_post with (Q := shared_by l x (c + 1)); [apply looks_contents|exact H2]|]. intros cs s3 (Hc & o & Ho & Hr).
    apply post_call. intros ? s4 E. apply env_drop in E as (o3 & o4 & E3 & R4 & Es). assert (o3 = o) as -> by congruence. rewrite Hr in R4.
    unfold shared_by. rewrite Es. split.
    + rewrite (count_update _ _ _ _ _ Ho). rewrite (ind_some _ _ Hr), (ind_some _ _ R4). lia.
    + exists o4. rewrite lookup_insert. split; [reflexivity|exact R4].
Qed.
Lemma shared_sharers l x c s : shared_by l x c s -> sharers s x = c.
Proof. intros (Hc & o & Ho & Hr). unfold sharers. rewrite Ho, Hr. exact Hc. Qed.
End Share.
