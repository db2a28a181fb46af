(** Concrete programs with Streams, Strings and files, for the examples of PropsMf. *)
From stdpp Require Import gmap.
From Verif Require Import Base ZList RcaSpec RcaModel RcaExec RcaOwn RcaRel RcaMeet RcaReach RcaEx StreamSpec StreamModel StreamMeet StdioModel MstSpec MstModel MstMeet MstProof MfSpec MfModel MfMeet MfProof.
Open Scope Z_scope.

Notation fstate := ((state Z * gmap positive stream) * (files * Z))%type.
(** Nothing fails; nothing can be opened; the device takes two bytes. *)
Definition good : world := World (fun _ => false) (fun _ => false) None None.
Definition shut : world := World (fun _ => true) (fun _ => true) None None.
Definition full : world := World (fun c => match c with MmapWrite => true | _ => false end) (fun _ => false) None (Some 2).
(** Stream 3 over "hello" of String 1 is saved as "f", the name being in String 2; changed; loaded into Stream 4 under the name "f\0x". *)
Definition ex_make : list fop :=
  [FDo (MString (CtorCstrLen 1 hello 5)); FDo (MString (CtorCstrLen 2 [102] 1)); FDo (MFrom false 3 1); FDo (MNew 4); FDo (MString (CtorCstrLen 5 [102; 0; 120] 3))].
Definition ex_rest : list fop := [FSave false 3 2; FDo (MClear 3); FDo (MPuts false 3 2); FLoad true 4 5; FDo (MLength 4); FDo (MTake GString 6 4); FDo (MString (Read 6 1)); FDo (MLength 3)].
Definition fine (l : list fop) : list (world * fop) := map (fun o => (good, o)) l.
Definition init : fstate := ((st_init, ∅), (∅, 3)).

Fixpoint fafter (d : desc Z) (t : positive) (mm : bool) (ops : list (world * fop)) (st : fstate) : option fstate :=
  match ops with
  | [] => Some st
  | (x, o) :: ops' => match fexec d t mm x o st with Ok _ st' => fafter d t mm ops' st' | _ => None end
  end.
(** Texts and cursors according to the specification; the files are asked of the model. *)
Fixpoint fspec (d : desc Z) (t : positive) (mm : bool) (ops : list (world * fop)) (a : astate Z) (m : gmap positive Z) (st : fstate) {struct ops} : option (astate Z * gmap positive Z) :=
  match ops with
  | [] => Some (a, m)
  | (x, o) :: ops' =>
    match fstep (step d) t mm (luck_of mm x o a m) 0 o a m (fst (snd st)), fexec d t mm x o st with
    | Some (FRet a' m' _ _), Ok _ st' => fspec d t mm ops' a' m' st'
    | _, _ => None
    end
  end.
Definition no_seek (o : fop) : bool := match o with FDo (MSeek _ _ _) => false | _ => true end.
Lemma fafter_rel d t mm : wf_desc d -> d_nul d = Some 0 -> forall ops st a m st' a' m', frel d t st a m (fst (snd st)) ->
  Forall (fun c => sane (fst c) /\ no_seek (snd c) = true) ops -> fafter d t mm ops st = Some st' -> fspec d t mm ops a m st = Some (a', m') -> frel d t st' a' m' (fst (snd st')).
Proof.
  intros Hwf Hnul. induction ops as [|[x o] ops IH]; intros st a m st' a' m' HF Hx Ha Hs; cbn [fafter fspec] in *.
  - injection Ha as <-. injection Hs as <- <-. exact HF.
  - inversion Hx as [|c0 l0 [Hx0 Hn0] Hxs]; subst. clear Hx. cbn [fst snd] in *.
    assert (Hc : fcap o st 0) by (destruct o as [[]| | |]; try discriminate; exact I).
    pose proof (fexec_ok d Hwf Hnul t mm x o st a m _ 0 HF Hx0 Hc) as K.
    destruct (fstep (step d) t mm (luck_of mm x o a m) 0 o a m (fst (snd st))) as [[a1 m1 F1 v1|]|]; [|discriminate|discriminate]. unfold fdoes in K.
    destruct (fexec d t mm x o st) as [v st1|e st1| | |u]; try discriminate. destruct K as (_ & a2 & m2 & F2 & fs2 & v2 & E2 & _ & _ & H1). injection E2 as <- <- _ _.
    rewrite <- (fr_files _ _ _ _ _ _ H1) in H1. eapply IH; eassumption.
Qed.
Definition ex_st (mm : bool) : fstate := match fafter sdesc 9 mm (fine ex_make) init with Some st => st | None => init end.
Definition ex_am (mm : bool) : astate Z * gmap positive Z := match fspec sdesc 9 mm (fine ex_make) ∅ ∅ init with Some am => am | None => (∅, ∅) end.
Lemma fine_ok l : forallb no_seek l = true -> Forall (fun c => sane (fst c) /\ no_seek (snd c) = true) (fine l).
Proof. induction l as [|o l IH]; cbn [forallb]; intros H; [constructor|]. apply andb_true_iff in H as [H1 H2]. constructor; [split; [exact I|exact H1]|apply IH, H2]. Qed.
Lemma ex_rel mm : frel sdesc 9 (ex_st mm) (fst (ex_am mm)) (snd (ex_am mm)) ∅.
Proof.
  assert (E : fst (snd (ex_st mm)) = ∅) by (destruct mm; vm_compute; reflexivity). rewrite <- E.
  apply (fafter_rel sdesc 9 mm sdesc_wf eq_refl (fine ex_make) init ∅ ∅).
  - apply frel_init.
  - apply fine_ok. reflexivity.
  - destruct mm; vm_compute; reflexivity.
  - destruct mm; vm_compute; reflexivity.
Qed.
(** The file named [p] is not written on the way. *)
Fixpoint avoids (d : desc Z) (t : positive) (mm : bool) (p : list Z) (ops : list (world * fop)) (a : astate Z) (m : gmap positive Z) (st : fstate) {struct ops} : bool :=
  match ops with
  | [] => true
  | (x, o) :: ops' =>
    negb (bool_decide (ftouches o a = Some p)) &&
    match fstep (step d) t mm (luck_of mm x o a m) 0 o a m (fst (snd st)), fexec d t mm x o st with
    | Some (FRet a' m' _ _), Ok _ st' => avoids d t mm p ops' a' m' st'
    | _, _ => false
    end
  end.
Lemma avoids_elsewhere d t mm p : wf_desc d -> d_nul d = Some 0 -> forall ops st a m st', frel d t st a m (fst (snd st)) ->
  Forall (fun c => sane (fst c) /\ no_seek (snd c) = true) ops -> fafter d t mm ops st = Some st' -> avoids d t mm p ops a m st = true -> elsewhere d t mm p st ops st'.
Proof.
  intros Hwf Hnul. induction ops as [|[x o] ops IH]; intros st a m st' HF Hx Ha Hs; cbn [fafter avoids] in *.
  - injection Ha as <-. constructor.
  - inversion Hx as [|c0 l0 [Hx0 Hn0] Hxs]; subst. clear Hx. cbn [fst snd] in *. apply andb_true_iff in Hs as [Hp Hs].
    assert (Hc : fcap o st 0) by (destruct o as [[]| | |]; try discriminate; exact I).
    pose proof (fexec_ok d Hwf Hnul t mm x o st a m _ 0 HF Hx0 Hc) as K.
    destruct (fstep (step d) t mm (luck_of mm x o a m) 0 o a m (fst (snd st))) as [[a1 m1 F1 v1|]|] eqn:Ef; [|discriminate|discriminate]. unfold fdoes in K.
    destruct (fexec d t mm x o st) as [v st1|e st1| | |u] eqn:Ex; try discriminate. destruct K as (_ & a2 & m2 & F2 & fs2 & v2 & E2 & _ & _ & H1). injection E2 as <- <- _ _.
    rewrite <- (fr_files _ _ _ _ _ _ H1) in H1.
    eapply ew_cons; [exact HF|exact Hx0|exact Hc|exact Ef| |left; eauto|eapply IH; eassumption].
    apply negb_true_iff in Hp. apply bool_decide_eq_false in Hp. exact Hp.
Qed.
(** The state after a program from [init]; an allocator that serves the first [k] requests only. *)
Definition sdesc_first (k : nat) : desc Z := Desc false 0 (Some 0) (fun z => z) Z.eqb grow15 (Nat.leb k) true.
Lemma sdesc_first_wf k : wf_desc (sdesc_first k).
Proof. intros z [= <-]. split; [reflexivity|]. intros v. apply Z.eqb_eq. Qed.
Definition is_ok {A} (o : option A) : bool := match o with Some _ => true | None => false end.
Definition st_at (d : desc Z) (mm : bool) (ops : list (world * fop)) : fstate := match fafter d 9 mm ops init with Some s => s | None => init end.
Definition am_at (d : desc Z) (mm : bool) (ops : list (world * fop)) : astate Z * gmap positive Z := match fspec d 9 mm ops ∅ ∅ init with Some p => p | None => (∅, ∅) end.
Lemma at_rel d mm l : wf_desc d -> d_nul d = Some 0 -> forallb no_seek l = true -> is_ok (fafter d 9 mm (fine l) init) && is_ok (fspec d 9 mm (fine l) ∅ ∅ init) = true ->
  frel d 9 (st_at d mm (fine l)) (fst (am_at d mm (fine l))) (snd (am_at d mm (fine l))) (fst (snd (st_at d mm (fine l)))).
Proof.
  intros Hwf Hnul Hl H. unfold st_at, am_at. destruct (fafter d 9 mm (fine l) init) as [st1|] eqn:E1; [|discriminate]. destruct (fspec d 9 mm (fine l) ∅ ∅ init) as [[a1 m1]|] eqn:S1; [|discriminate].
  eapply (fafter_rel d 9 mm Hwf Hnul (fine l) init ∅ ∅); [apply frel_init|apply fine_ok, Hl|exact E1|exact S1].
Qed.
Lemma fafter_app d t mm : forall l l' st, fafter d t mm (l ++ l') st = match fafter d t mm l st with Some s => fafter d t mm l' s | None => None end.
Proof. induction l as [|[x o] l IH]; intros l' st; [reflexivity|]. cbn [app fafter]. destruct (fexec d t mm x o st); auto. Qed.
Lemma at_next d mm l l' : is_ok (fafter d 9 mm (fine (l ++ l')) init) = true -> fafter d 9 mm (fine l') (st_at d mm (fine l)) = Some (st_at d mm (fine (l ++ l'))).
Proof.
  intros H. unfold st_at, fine in *. rewrite map_app in *. rewrite fafter_app in *. destruct (fafter d 9 mm _ init) as [s|]; [|discriminate]. destruct (fafter d 9 mm _ s); [reflexivity|discriminate].
Qed.
(** What a call returned or threw, and the state it left. *)
Definition ret_of (r : Base.res fstate mout) : option mout := match r with Ok v _ => Some v | _ => None end.
Definition exn_of (r : Base.res fstate mout) : bool := match r with Exn BadAlloc _ => true | _ => false end.
Definition left_of (r : Base.res fstate mout) : fstate := match r with Ok _ s | Exn _ s => s | _ => init end.
Lemma ret_left r v : ret_of r = Some v -> r = Ok v (left_of r).
Proof. destruct r; try discriminate. intros [= <-]. reflexivity. Qed.
Lemma exn_left r : exn_of r = true -> r = Exn BadAlloc (left_of r).
Proof. destruct r as [|[]| | |]; try discriminate. reflexivity. Qed.
Lemma ex_st_at mm : ex_st mm = st_at sdesc mm (fine ex_make).
Proof. reflexivity. Qed.
Lemma ex_am_at mm : ex_am mm = am_at sdesc mm (fine ex_make).
Proof. reflexivity. Qed.
Lemma one_at d mm o v st st' : fafter d 9 mm (fine [o]) st = Some st' -> ret_of (fexec d 9 mm good o st) = Some v -> fexec d 9 mm good o st = Ok v st'.
Proof. cbn [fine map fafter]. destruct (fexec d 9 mm good o st); try discriminate. intros [= <-] [= <-]. reflexivity. Qed.
