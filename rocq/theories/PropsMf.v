(** C78: programs with Streams, Strings and files. Every theorem is closed by a lemma of MfProof; examples beside them. *)
From stdpp Require Import gmap.
From Verif Require Import Base ZList RcaSpec RcaModel RcaExec RcaOwn RcaRel RcaMeet RcaReach RcaEx StreamSpec StreamModel StreamMeet StdioModel MstSpec MstModel MstMeet MstProof MfSpec MfModel MfMeet MfProof MfEx.
Open Scope Z_scope.

(** C78: whatever a program does with its Streams, Strings and files, with or without mmap and whichever system calls fail, all results and
    exceptions are as if every Stream had a text and a cursor of its own, every String a text of its own, and the files were a map from names to bytes. *)
Theorem C78_history : forall d, wf_desc d -> d_nul d = Some 0 -> forall t mm ops n, Forall (fun c => sane (fst c)) ops ->
  fallows d t mm ∅ ∅ ∅ ops (fobserve d t mm ops ((st_init, ∅), (∅, n))).
Proof. intros d Hwf Hnul t mm ops n Hx. exact (fobserve_ok d Hwf Hnul t mm ops _ _ _ _ (frel_init d t n) Hx). Qed.
Print Assumptions C78_history.
Example C78_history_ex : forall mm, Forall (fun c => sane (fst c)) (fine (ex_make ++ ex_rest)) /\ fobserve sdesc 9 mm (fine (ex_make ++ ex_rest)) init =
  [BRet (MOut ONone); BRet (MOut ONone); BRet MNone; BRet MNone; BRet (MOut ONone);
   BRet (MInt 0); BRet MNone; BRet MNone; BRet (MInt 0); BRet (MInt 5); BRet MNone; BRet (MOut (OVal 101)); BRet (MInt 1)].
Proof. intros mm. split; [repeat (constructor; [exact I|]); constructor|]. destruct mm; vm_compute; reflexivity. Qed.

(** C78: one call in detail: the result, every text, every cursor and every file are as specified, and the descriptors that were open are open. An
    exception is the one specified, or bad_alloc when memory can be refused at a size the call may ask for; it leaves what [ffail] says, and a
    load that it ends leaves one descriptor open with mmap, two without. *)
Theorem C78_step : forall d, wf_desc d -> d_nul d = Some 0 -> forall t mm x o st a m fs cap, frel d t st a m fs -> sane x -> fcap o st cap ->
  match fstep (step d) t mm (luck_of mm x o a m) cap o a m fs with None => True | Some r => fdoes d t mm x o st a m fs r end.
Proof. exact fexec_ok. Qed.
Print Assumptions C78_step.
(** Saving when all goes well, when nothing can be opened, and when the device is full. *)
Example C78_step_ex : forall mm, frel sdesc 9 (ex_st mm) (fst (ex_am mm)) (snd (ex_am mm)) ∅ /\ sane good /\ sane shut /\ sane full /\
  luck_of mm good (FSave false 3 2) (fst (ex_am mm)) (snd (ex_am mm)) = Good /\ luck_of mm shut (FSave false 3 2) (fst (ex_am mm)) (snd (ex_am mm)) = Shut /\
  luck_of mm full (FSave false 3 2) (fst (ex_am mm)) (snd (ex_am mm)) = Lost /\
  match fexec sdesc 9 mm good (FSave false 3 2) (ex_st mm) with Ok r st => r = MInt 0 /\ fst (snd st) !! [102] = Some hello | _ => False end /\
  match fexec sdesc 9 mm shut (FSave false 3 2) (ex_st mm) with Ok r st => r = MInt 1 /\ fst (snd st) !! [102] = None | _ => False end /\
  match fexec sdesc 9 mm full (FSave false 3 2) (ex_st mm) with Ok r st => r = MInt 1 /\ fst (snd st) !! [102] = Some (if mm then [0; 0; 0; 0; 0] else [104; 101]) | _ => False end.
Proof.
  intros mm. split; [apply ex_rel|]. split; [exact I|]. split; [exact I|]. split; [unfold sane; cbn; lia|].
  destruct mm; vm_compute; repeat split.
Qed.

(** C78: what a call does not mention is as before it, whether it returns or throws: Streams and Strings read the same, cursors are where they
    were, and files it does not write have the same bytes. *)
Theorem C78_apart : forall d, wf_desc d -> d_nul d = Some 0 -> forall t mm x o st a m fs cap r st', frel d t st a m fs -> sane x -> fcap o st cap ->
  fstep (step d) t mm (luck_of mm x o a m) cap o a m fs = Some r -> outcome d t mm x o st st' ->
  (forall y, y ∉ finvolved o ->
    (forall rm v, a !! y = Some (AVal rm v) -> length_of y (fst (fst st')) = Ok (zlen v) (fst (fst st')) /\
      forall i e, znth i v = Some (Some e) -> RcaModel.read y i (fst (fst st')) = Ok e (fst (fst st'))) /\
    (forall p, m !! y = Some p -> exists b, snd (fst st') !! y = Some (Stream y p b))) /\
  (forall p, ftouches o a <> Some p -> fst (snd st') !! p = fst (snd st) !! p).
Proof. exact fapart. Qed.
Print Assumptions C78_apart.
(** Stream 3 and String 1 share a buffer; loading another file into Stream 3 does not change String 1. *)
Example C78_apart_ex : forall mm,
  match fafter sdesc 9 mm [(good, FOutside [102] (Some [7; 8; 9])); (good, FLoad false 3 2)] (ex_st mm) with
  | Some st => content_is 3 (fst (fst st)) [7; 8; 9] /\ content_is 1 (fst (fst st)) hello /\ content_is 2 (fst (fst st)) [102] /\ fst (snd st) !! [102] = Some [7; 8; 9] /\ snd (snd st) = 3
  | None => False
  end.
Proof. intros mm. destruct mm; vm_compute; repeat split. Qed.

(** C78: what a Stream held when it was saved is what a Stream holds that is loaded from that file later, whatever was done in between to Streams,
    Strings and other files, and wherever the String with the name comes from: only its bytes before the first NUL count. *)
Theorem C78_roundtrip : forall d, wf_desc d -> d_nul d = Some 0 -> forall t mm x g k y st a m fs rk v p w st1 ops st2 x2 g2 j z a2 m2 fs2 w2 st3,
  frel d t st a m fs -> sane x -> strm a m k = Some (rk, v, p) -> text a y = Some (true, w) -> plain t m y = true -> fexec d t mm x (FSave g k y) st = Ok (MInt 0) st1 ->
  elsewhere d t mm (file_name w) st1 ops st2 ->
  frel d t st2 a2 m2 fs2 -> sane x2 -> (mm = true \/ x_err x2 = None) -> strm a2 m2 j <> None -> text a2 z = Some (true, w2) -> plain t m2 z = true -> file_name w2 = file_name w ->
  fexec d t mm x2 (FLoad g2 j z) st2 = Ok (MInt 0) st3 ->
  (exists b, snd (fst st3) !! j = Some (Stream j 0 b)) /\ length_of j (fst (fst st3)) = Ok (zlen v) (fst (fst st3)) /\
  forall i c, znth i v = Some c -> RcaModel.read j i (fst (fst st3)) = Ok c (fst (fst st3)).
Proof. exact save_then_load. Qed.
Print Assumptions C78_roundtrip.
(** Between the save and the load Stream 3 is cleared, written again and saved under the name "hello"; the load is by the name "f\0x". *)
Example C78_roundtrip_ex : forall mm, exists st1 st2 a2 m2 fs2 st3,
  let am := ex_am mm in let ops := fine [FDo (MClear 3); FDo (MPuts false 3 2); FSave false 3 1] in
  frel sdesc 9 (ex_st mm) (fst am) (snd am) ∅ /\ strm (fst am) (snd am) 3 = Some (true, hello, 0) /\ text (fst am) 2 = Some (true, [102]) /\
  fexec sdesc 9 mm good (FSave false 3 2) (ex_st mm) = Ok (MInt 0) st1 /\ elsewhere sdesc 9 mm [102] st1 ops st2 /\ frel sdesc 9 st2 a2 m2 fs2 /\
  strm a2 m2 4 <> None /\ text a2 5 = Some (true, [102; 0; 120]) /\ plain 9 m2 5 = true /\ file_name [102; 0; 120] = file_name [102] /\
  fexec sdesc 9 mm good (FLoad true 4 5) st2 = Ok (MInt 0) st3 /\ content_is 4 (fst (fst st3)) hello /\ content_is 3 (fst (fst st3)) [102] /\ fst (snd st3) !! hello = Some [102].
Proof.
  intros mm. set (l2 := [FDo (MClear 3); FDo (MPuts false 3 2); FSave false 3 1]). set (l1 := ex_make ++ [FSave false 3 2]).
  assert (H2 : frel sdesc 9 (st_at sdesc mm (fine (l1 ++ l2))) (fst (am_at sdesc mm (fine (l1 ++ l2)))) (snd (am_at sdesc mm (fine (l1 ++ l2)))) (fst (snd (st_at sdesc mm (fine (l1 ++ l2)))))).
  { apply at_rel; [apply sdesc_wf|reflexivity|reflexivity|destruct mm; vm_compute; reflexivity]. }
  exists (st_at sdesc mm (fine l1)), (st_at sdesc mm (fine (l1 ++ l2))), (fst (am_at sdesc mm (fine (l1 ++ l2)))), (snd (am_at sdesc mm (fine (l1 ++ l2)))), (fst (snd (st_at sdesc mm (fine (l1 ++ l2))))).
  exists (left_of (fexec sdesc 9 mm good (FLoad true 4 5) (st_at sdesc mm (fine (l1 ++ l2))))). cbv zeta.
  split; [apply ex_rel|]. split; [destruct mm; vm_compute; reflexivity|]. split; [destruct mm; vm_compute; reflexivity|]. split; [|split; [|split; [exact H2|]]].
  - rewrite ex_st_at. apply one_at; [apply at_next; destruct mm; vm_compute; reflexivity|destruct mm; vm_compute; reflexivity].
  - apply (avoids_elsewhere sdesc 9 mm [102] sdesc_wf eq_refl (fine l2) (st_at sdesc mm (fine l1)) (fst (am_at sdesc mm (fine l1))) (snd (am_at sdesc mm (fine l1)))).
    + apply at_rel; [apply sdesc_wf|reflexivity|reflexivity|destruct mm; vm_compute; reflexivity].
    + apply fine_ok. reflexivity.
    + apply (at_next sdesc mm l1 l2). destruct mm; vm_compute; reflexivity.
    + destruct mm; vm_compute; reflexivity.
  - split; [intros E; assert (B : is_ok (strm (fst (am_at sdesc mm (fine (l1 ++ l2)))) (snd (am_at sdesc mm (fine (l1 ++ l2)))) 4) = true) by (destruct mm; vm_compute; reflexivity); rewrite E in B; discriminate|].
    split; [destruct mm; vm_compute; reflexivity|]. split; [destruct mm; vm_compute; reflexivity|]. split; [reflexivity|].
    split; [apply ret_left; destruct mm; vm_compute; reflexivity|]. destruct mm; vm_compute; repeat split.
Qed.

(** C78: Strings that differ can name the same file: saving under "f\0x" replaces what was saved under "f". *)
Theorem C78_names_refuted : exists d t mm st a m fs y z w w' st1 st2, frel d t st a m fs /\ text a y = Some (true, w) /\ text a z = Some (true, w') /\ w <> w' /\
  fexec d t mm good (FSave false 3 y) st = Ok (MInt 0) st1 /\ fst (snd st1) !! file_name w = Some hello /\
  fexec d t mm good (FSave false 4 z) st1 = Ok (MInt 0) st2 /\ fst (snd st2) !! file_name w = Some [].
Proof.
  exists sdesc, 9%positive, false, (ex_st false), (fst (ex_am false)), (snd (ex_am false)), ∅, 2%positive, 5%positive, [102], [102; 0; 120].
  eexists _, _. split; [apply ex_rel|]. split; [vm_compute; reflexivity|]. split; [vm_compute; reflexivity|]. split; [discriminate|].
  split; [vm_compute; reflexivity|]. split; [vm_compute; reflexivity|]. split; vm_compute; reflexivity.
Qed.
Print Assumptions C78_names_refuted.

(** C78: descriptors are not always given back: a load ended by bad_alloc leaves what it had opened, so that a program that goes on trying runs out. *)
Theorem C78_leak_refuted : exists d t mm x st a m fs st1 st2, frel d t st a m fs /\ fs !! [102] = Some [7; 8; 9] /\ snd (snd st) = 3 /\
  fexec d t mm x (FLoad false 4 2) st = Exn BadAlloc st1 /\ snd (snd st1) = 4 /\ fexec d t mm x (FLoad false 4 2) st1 = Exn BadAlloc st2 /\ snd (snd st2) = 5.
Proof.
  set (d := sdesc_first 6). set (l := ex_make ++ [FOutside [102] (Some [7; 8; 9])]). set (st0 := st_at d true (fine l)).
  set (st1 := left_of (fexec d 9 true good (FLoad false 4 2) st0)). set (st2 := left_of (fexec d 9 true good (FLoad false 4 2) st1)).
  exists d, 9%positive, true, good, st0, (fst (am_at d true (fine l))), (snd (am_at d true (fine l))), (fst (snd st0)), st1, st2.
  split; [apply at_rel; [apply sdesc_first_wf|reflexivity|reflexivity|vm_compute; reflexivity]|].
  split; [vm_compute; reflexivity|]. split; [vm_compute; reflexivity|].
  split; [apply exn_left; vm_compute; reflexivity|]. split; [vm_compute; reflexivity|].
  split; [apply exn_left; vm_compute; reflexivity|vm_compute; reflexivity].
Qed.
Print Assumptions C78_leak_refuted.
