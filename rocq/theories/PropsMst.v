(** C73: programs with several Streams and Strings. Every theorem is closed by a lemma of MstProof; examples beside them. *)
From stdpp Require Import gmap.
From Verif Require Import Base ZList RcaSpec RcaModel RcaExec RcaOwn RcaRel RcaMeet RcaReach RcaEx StreamSpec StreamModel StreamMeet MstSpec MstModel MstMeet MstProof MstEx.
Open Scope Z_scope.

(** C73: whatever a program does with its Streams and Strings, all results and exceptions are as if every Stream had a
    text and a cursor of its own and every String a text of its own. *)
Theorem C73_history : forall d, wf_desc d -> d_nul d = Some 0 -> forall t ops,
  mallows d t ∅ ∅ ops (mobserve d t ops (st_init, ∅)).
Proof. intros d Hwf Hnul t ops. exact (mobserve_ok d Hwf Hnul t ops _ _ _ (mrel_init d t)). Qed.
Print Assumptions C73_history.
Example C73_history_ex : mobserve sdesc 9 ex_prog (st_init, ∅) =
  [BRet (MOut ONone); BRet MNone; BRet MNone; BCap 6; BRet (MInt 1); BRet (MOut ONone); BRet MNone;
   BRet MNone; BRet (MOut (OVal 76)); BRet (MOut (OVal 108)); BRet MNone; BRet (MInt 3); BRet (MOut (OInt 3)); BRet MNone; BRet (MInt 3);
   BRet MNone; BRet MNone; BRet (MInt 5); BRet (MBool true); BRet (MInt 3); BRet MNone; BRet (MInt 3); BRet (MInt 5); BRet MNone; BRet MNone;
   BRet (MInt 0); BRet (MOut (OInt 5))].
Proof. vm_compute. reflexivity. Qed.

(** C73: one call in detail: the result, every text and every cursor are as specified; an exception is the one specified,
    or bad_alloc when memory can be refused at a size the call may ask for, and leaves what [mfail] says. *)
Theorem C73_step : forall d, wf_desc d -> d_nul d = Some 0 -> forall t o st a m cap, mrel d t st a m -> cap_of o st cap ->
  match mstep (step d) t cap o a m with None => True | Some r => mdoes d t o st a m r end.
Proof. exact mexec_ok. Qed.
Print Assumptions C73_step.

Example C73_step_ex : mrel sdesc 9 ex_st (fst ex_am) (snd ex_am) /\
  strm (fst ex_am) (snd ex_am) 2 = Some (true, [104; 69; 76; 108; 111], 3) /\ strm (fst ex_am) (snd ex_am) 3 = Some (true, hello, 0) /\
  match mstep (step sdesc) 9 0 (MTake (GRead 2 0) 5 2) (fst ex_am) (snd ex_am) with
  | Some (MRet a m _) => text a 5 = Some (true, [108; 111]) /\ m !! 2%positive = Some 5 /\ m !! 3%positive = Some 0
  | _ => False
  end.
Proof. split; [exact ex_rel|]. vm_compute. auto. Qed.

(** C73: a Stream or String that a call does not mention is as before it, whether the call returns or throws: its text reads
    the same and its cursor is where it was, also when it shared its buffer with one that the call changed. *)
Theorem C73_apart : forall d, wf_desc d -> d_nul d = Some 0 -> forall t o st a m cap r st' x, mrel d t st a m -> cap_of o st cap ->
  mstep (step d) t cap o a m = Some r ->
  (exists v, mexec d t o st = Ok v st') \/ (exists e, mexec d t o st = Exn e st') -> x ∉ involved o ->
  (forall rm v, a !! x = Some (AVal rm v) -> length_of x (fst st') = Ok (zlen v) (fst st') /\
     forall i e, znth i v = Some (Some e) -> RcaModel.read x i (fst st') = Ok e (fst st')) /\
  (forall p, m !! x = Some p -> exists b, snd st' !! x = Some (Stream x p b)).
Proof. exact apart. Qed.
Print Assumptions C73_apart.
(** Truncating Stream 2, which then appends: neither the copy 3 nor String 1 notices. *)
Example C73_apart_ex : mrel sdesc 9 ex_st (fst ex_am) (snd ex_am) /\ (3%positive ∉ involved (MTruncate 2)) /\
  match mexec sdesc 9 (MTruncate 2) ex_st with
  | Ok _ st' => content_is 2 (fst st') [104; 69; 76] /\ content_is 3 (fst st') hello /\ content_is 1 (fst st') hello
  | _ => False
  end.
Proof.
  split; [exact ex_rel|]. split; [intros E; apply elem_of_list_singleton in E; discriminate|]. vm_compute. auto.
Qed.

(** C73: Stream::reserve(), which is public and const, is not such a call. On a Stream made from part of a String it moves
    the bytes inside the buffer they share: the String "hello" then reads "llo" followed by memory never written. *)
Theorem C73_reserve_refuted : exists d t ops st st' a m,
  after d t ops (st_init, ∅) = Some st /\ mrel d t st a m /\ m !! 1%positive = None /\ content_is 1 (fst st) hello /\
  on 3 (sreserve d 100) st = Ok tt st' /\ content_is 3 (fst st') [108; 108; 111] /\ content 1 (fst st') = Some [Some 108; Some 108; Some 111; None; None].
Proof.
  pose (ops := [MString (CtorCstrLen 1 hello 5); MString (CtorCopy 2 1); MString (SliceTo 2 2 3); MFrom false 3 2]).
  destruct (after sdesc 9 ops (st_init, ∅)) as [st|] eqn:E; [|vm_compute in E; discriminate].
  destruct (spec_after sdesc 9 [0; 0; 0; 0] ops ∅ ∅) as [[a m]|] eqn:Es; [|vm_compute in Es; discriminate].
  exists sdesc, 9%positive, ops, st, (match on 3 (sreserve sdesc 100) st with Ok _ s => s | _ => st end), a, m.
  split; [exact E|]. split.
  { eapply (after_rel sdesc 9 sdesc_wf eq_refl ops [0; 0; 0; 0]); [apply mrel_init| |exact E|exact Es]. vm_compute. repeat split. }
  vm_compute in E. injection E as <-. vm_compute in Es. injection Es as <- <-. vm_compute. auto 6.
Qed.
Print Assumptions C73_reserve_refuted.
