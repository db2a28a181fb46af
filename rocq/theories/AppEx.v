(** Concrete programs that use the whole library, for the examples of PropsApp. *)
From Coq Require Import String.
From stdpp Require Import gmap.
From Verif Require Import Base ZList RcaSpec RcaModel RcaExec RcaOwn RcaRel RcaMeet RcaReach RcaEx StrSpec StrEx HashModel HsModel HtMeet PtSpec PtModel PtMeet PtEx LibSpec LibModel LibMeet LibProof LibEx AppSpec AppModel AppMeet AppProof.
From Verif Require MstSpec MfSpec MfModel MfMeet MfEx.
Open Scope Z_scope.

Definition a_fine : env := Env l_fine MfEx.good.
Definition a_do (o : MstSpec.mop) : acall := AFile (MfSpec.FDo o).
Definition a_new (x : positive) (s : string) : acall := ALib (new_str x s).
Definition a_len (x : positive) : acall := ALib (LPt (PString (Length x))).
(** "a,b,,c d" is split at ",", joined with "; ", encoded and saved as "f" through Stream 6; Stream 8 loads it; what it holds is decoded
    and compared with what was joined; its parts go through a table; Stream 8 is read from the middle. *)
Definition app_prog : list (acall * env) := map (fun c => (c, a_fine))
  [a_new 1 "a,b,,c d"; a_new 2 ","; a_new 3 "; "; a_new 7 "f"; ALib (LSplit 1 1 2 npos); ALib (LJoin 4 1 3 false); ALib (LEncode 5 4);
   a_do (MstSpec.MFrom false 6 5); AFile (MfSpec.FSave false 6 7); a_do (MstSpec.MClear 6); a_do (MstSpec.MNew 8); AFile (MfSpec.FLoad true 8 7);
   a_do (MstSpec.MTake MstSpec.GString 9 8); ALib (LDecode 10 9); ALib (LAsk QEq 10 4); a_len 10;
   ALib (LPt (PMake 1 1)); ALib (LPt (PPut false false 1 3 2)); ALib (LSubst 11 10 1); ALib (LAsk QEq 11 1); a_len 11;
   a_do (MstSpec.MSeek 8 12 0); a_do (MstSpec.MTake (MstSpec.GRead 2 (-1)) 12 8); a_len 12; a_do (MstSpec.MTell 8); ALib (LAsk QFind 9 12);
   AFile (MfSpec.FOutside [102] None); AFile (MfSpec.FLoad true 8 7); a_do (MstSpec.MLength 8)].
(** Its end. *)
Definition app_end : list (acall * env) := map (fun c => (c, a_fine))
  ([ALib (LFree 1); ALib (LPt (PDestroy 1)); a_do (MstSpec.MDestroy 6); a_do (MstSpec.MDestroy 8)] ++ map (fun x => ALib (LPt (PString (Destroy x)))) [1; 2; 3; 4; 5; 7; 9; 10; 11; 12]%positive).
(** Saving fails, the device being full; encoding fails for want of memory; both are tried again. *)
Definition app_fail : list (acall * env) :=
  [(a_new 1 "foob", a_fine); (a_new 2 "f", a_fine); (a_do (MstSpec.MFrom false 3 1), a_fine); (AFile (MfSpec.FSave false 3 2), Env l_fine MfEx.full);
   (ALib (LEncode 4 1), a_fine); (AFile (MfSpec.FSave false 3 2), a_fine); (ALib (LEncode 4 1), a_fine); (a_len 4, a_fine); (a_do (MstSpec.MLength 3), a_fine)].
Definition a_init : amem := Amem l_start ∅ ∅ 3.
Fixpoint a_after (d : desc Z) (mm : bool) (prog : list (acall * env)) (q : amem) : option amem :=
  match prog with
  | [] => Some q
  | (c, e) :: prog' => match aexec d Z.sub ex_grow ex_el upper ex_junk mm c e q with Ok _ q' | Exn _ q' => a_after d mm prog' q' | _ => None end
  end.
Definition a_last (d : desc Z) (mm : bool) (prog : list (acall * env)) : amem := match a_after d mm prog a_init with Some q => q | None => a_init end.

(** From the memory of LibEx: Stream 4 is made of String 1, "hello"; Stream 5 is empty; a file "k", the text of String 3, has an encoding of 7, 8, 9. *)
Definition ex_files : list MfSpec.fop := [MfSpec.FDo (MstSpec.MFrom false 4 1); MfSpec.FDo (MstSpec.MNew 5); MfSpec.FOutside [107] (Some (enc64 std_alpha [7; 8; 9]))].
Fixpoint f_after (mm : bool) (ops : list MfSpec.fop) (q : amem) : option amem :=
  match ops with
  | [] => Some q
  | o :: ops' => match aexec sdesc Z.sub ex_grow ex_el upper ex_junk mm (AFile o) a_fine q with Ok _ q' => f_after mm ops' q' | _ => None end
  end.
(** Texts and cursors according to the specification; the files are asked of the model. *)
Fixpoint f_spec (mm : bool) (ops : list MfSpec.fop) (q : amem) (w : total) : option total :=
  match ops with
  | [] => Some w
  | o :: ops' =>
    match tstep (step sdesc) mm (lucky mm (AFile o) a_fine w) 0 o w, aexec sdesc Z.sub ex_grow ex_el upper ex_junk mm (AFile o) a_fine q with
    | Some (MfSpec.FRet b m _ _), Ok _ q' => f_spec mm ops' q' (with_files w b m (a_disk q'))
    | _, _ => None
    end
  end.
Lemma f_after_rel mm : forall ops q w q' w', arel sdesc q w -> forallb MfEx.no_seek ops = true -> f_after mm ops q = Some q' -> f_spec mm ops q w = Some w' -> arel sdesc q' w'.
Proof.
  induction ops as [|o ops IH]; intros q w q' w' HA Hn Ha Hs; cbn [f_after f_spec forallb] in *.
  - injection Ha as <-. injection Hs as <-. exact HA.
  - apply andb_prop in Hn as [Hn0 Hn]. assert (Hc : acap (AFile o) q 0) by (destruct o as [[]| | |]; try discriminate; exact I).
    destruct (tstep (step sdesc) mm (lucky mm (AFile o) a_fine w) 0 o w) as [[b m F v|]|] eqn:E; [|discriminate|discriminate].
    pose proof (aexec_ok sdesc sdesc_wf eq_refl (fun _ _ => eq_refl) Z.sub StrEx.sub_ok ex_grow ex_el ex_el_inj upper ex_junk mm (AFile o) a_fine q w 0 HA I Hc (ex_intro _ _ E)) as K.
    unfold adoes in K. destruct (aexec sdesc Z.sub ex_grow ex_el upper ex_junk mm (AFile o) a_fine q) as [v1 q1|e q1| | |]; try discriminate.
    destruct K as (_ & w1 & v2 & (b2 & m2 & F2 & fs2 & r2 & E2 & _ & _ & ->) & _ & H1). rewrite E in E2. injection E2 as <- <- _ _.
    eapply IH; [|exact Hn|exact Ha|exact Hs]. rewrite (ar_disk _ _ _ H1). exact H1.
Qed.
Definition ex_a0 : amem := Amem ex_q ∅ ∅ 3.
Definition ex_w0 : total := Total ex_w ∅ ∅.
Definition ex_a (mm : bool) : amem := match f_after mm ex_files ex_a0 with Some q => q | None => ex_a0 end.
Definition ex_t (mm : bool) : total := match f_spec mm ex_files ex_a0 ex_w0 with Some w => w | None => ex_w0 end.
Lemma ex_arel0 : arel sdesc ex_a0 ex_w0.
Proof.
  constructor; cbn [ex_a0 ex_w0 a_lib a_streams a_disk w_lib w_cur w_disk]; [exact ex_lrel| | |reflexivity|].
  - intros k p E. rewrite lookup_empty in E. discriminate.
  - intros z (x & E). rewrite lookup_empty in E. discriminate.
  - intros p f E. rewrite lookup_empty in E. discriminate.
Qed.
Lemma ex_arel mm : arel sdesc (ex_a mm) (ex_t mm).
Proof.
  assert (B : MfEx.is_ok (f_after mm ex_files ex_a0) && MfEx.is_ok (f_spec mm ex_files ex_a0 ex_w0) = true) by (destruct mm; vm_compute; reflexivity).
  unfold ex_a, ex_t. destruct (f_after mm ex_files ex_a0) as [q|] eqn:E1; [|discriminate]. destruct (f_spec mm ex_files ex_a0 ex_w0) as [w|] eqn:E2; [|discriminate].
  exact (f_after_rel mm ex_files ex_a0 ex_w0 q w ex_arel0 eq_refl E1 E2).
Qed.
(** What the calls of the example need. *)
Definition at_streams (w : total) : bool := forallb (fun kv : positive * Z => (Pos.leb 4 (fst kv) && Pos.leb (fst kv) 5)%positive) (map_to_list (w_cur w)).
Lemma ex_off mm : off_streams ex_el (LSubst 9 1 1) (w_cur (ex_t mm)).
Proof.
  intros k [p E]. assert (B : at_streams (ex_t mm) = true) by (destruct mm; vm_compute; reflexivity).
  unfold at_streams in B. rewrite forallb_forall in B. apply elem_of_map_to_list, elem_of_list_In, B in E. cbn [fst] in E. apply andb_prop in E as [E1 E2]. apply Pos.leb_le in E1, E2.
  split; [|intros j n H; cbn in H; inversion H]. cbn [l_strings]. intros H. apply elem_of_cons in H as [H|H]; [lia|]. apply elem_of_cons in H as [H|H]; [lia|inversion H].
Qed.
Lemma ex_lib mm : apre (step sdesc) ex_el upper mm (lucky mm (ALib (LSubst 9 1 1)) a_fine (ex_t mm)) 0 (ALib (LSubst 9 1 1)) (ex_t mm).
Proof.
  split; [|apply ex_off]. apply (subst_ready 9 1 1 (w_lib (ex_t mm)) (default ∅ (w_maps (w_lib (ex_t mm)) !! 1%positive)) hello).
  - destruct (w_maps (w_lib (ex_t mm)) !! 1%positive) eqn:E; [reflexivity|]. exfalso. assert (MfEx.is_ok (w_maps (w_lib (ex_t mm)) !! 1%positive) = true) as F by (destruct mm; vm_compute; reflexivity). rewrite E in F. discriminate.
  - destruct mm; vm_compute; reflexivity.
  - destruct mm; vm_compute; reflexivity.
  - destruct mm; vm_compute; reflexivity.
  - apply Z.ltb_lt. destruct mm; vm_compute; reflexivity.
Qed.
Definition ex_load : acall := AFile (MfSpec.FLoad false 4 3).
Lemma ex_file mm : apre (step sdesc) ex_el upper mm (lucky mm ex_load a_fine (ex_t mm)) 0 ex_load (ex_t mm).
Proof.
  cbn [ex_load apre]. assert (B : MfEx.is_ok (tstep (step sdesc) mm (lucky mm ex_load a_fine (ex_t mm)) 0 (MfSpec.FLoad false 4 3) (ex_t mm)) = true) by (destruct mm; vm_compute; reflexivity).
  unfold ex_load in B. destruct (tstep _ _ _ _ _ _) as [r|]; [exists r; reflexivity|discriminate].
Qed.
(** What a call left when it returned. *)
Definition got_of (r : Base.res amem aout) : option aout := match r with Ok v _ => Some v | _ => None end.
Definition mem_of (r : Base.res amem aout) : amem := match r with Ok _ q | Exn _ q => q | _ => a_init end.
Lemma got_mem r v : got_of r = Some v -> r = Ok v (mem_of r).
Proof. destruct r; try discriminate. intros [= <-]. reflexivity. Qed.
Definition ex_run (mm : bool) (c : acall) (q : amem) : amem := mem_of (aexec sdesc Z.sub ex_grow ex_el upper ex_junk mm c a_fine q).
