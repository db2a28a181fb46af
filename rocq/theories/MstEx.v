(** Concrete programs with several Streams, for the examples of PropsMst. *)
From stdpp Require Import gmap.
From Verif Require Import Base ZList RcaSpec RcaModel RcaExec RcaOwn RcaRel RcaMeet RcaReach RcaEx StreamSpec StreamModel StreamMeet MstSpec MstModel MstMeet MstProof.
Open Scope Z_scope.

(** "hello" in String 1, a Stream 2 made from it, a copy 3 of that Stream; all three share one buffer until 2 is written.
    The copy is read, assigned, swapped and outlives both. *)
Definition ex_prog : list mop :=
  [MString (CtorCstrLen 1 hello 5); MFrom false 2 1; MCopy 3 2; MSeek 2 1 0; MString (CtorCstrLen 4 [69; 76] 2); MPuts true 2 4;
   MTake GString 5 2; MString (Read 5 2); MString (Read 1 2); MTake (GLine 3) 6 3; MTell 3; MString (Length 6); MAssign 2 3; MTell 2;
   MNew 7; MSwap 3 7; MLength 7; MNot 3; MTell 7; MTruncate 7; MLength 7; MLength 2; MDestroy 7; MClear 2; MTell 2; MString (Length 1)].
(** States after a program, for the examples. *)
Fixpoint after (d : desc Z) (t : positive) (ops : list mop) (st : state Z * gmap positive stream) : option (state Z * gmap positive stream) :=
  match ops with
  | [] => Some st
  | o :: ops' => match mexec d t o st with Ok _ st' => after d t ops' st' | _ => None end
  end.
Definition ex_st : state Z * gmap positive stream := match after sdesc 9 (firstn 6 ex_prog) (st_init, ∅) with Some st => st | None => (st_init, ∅) end.
(** The model and the specification together. *)
Fixpoint spec_after (d : desc Z) (t : positive) (caps : list Z) (ops : list mop) (a : astate Z) (m : gmap positive Z) {struct ops} : option (astate Z * gmap positive Z) :=
  match ops, caps with
  | [], _ => Some (a, m)
  | o :: ops', c :: caps' => match mstep (step d) t c o a m with Some (MRet a' m' _) => spec_after d t caps' ops' a' m' | _ => None end
  | _ :: _, [] => None
  end.
Lemma after_rel d t : wf_desc d -> d_nul d = Some 0 -> forall ops caps st a m st' a' m', mrel d t st a m ->
  (fix caps_ok (ops : list mop) (caps : list Z) (st : state Z * gmap positive stream) : Prop :=
     match ops, caps with
     | o :: ops', c :: caps' => cap_of o st c /\ match mexec d t o st with Ok _ st1 => caps_ok ops' caps' st1 | _ => False end
     | _, _ => True
     end) ops caps st ->
  after d t ops st = Some st' -> spec_after d t caps ops a m = Some (a', m') -> mrel d t st' a' m'.
Proof.
  intros Hwf Hnul. induction ops as [|o ops IH]; intros caps st a m st' a' m' HM Hc Ha Hs; cbn [after spec_after] in *.
  - destruct caps; injection Ha as <-; injection Hs as <- <-; exact HM.
  - destruct caps as [|c caps]; [discriminate|]. destruct Hc as [Hc Hcs]. pose proof (mexec_ok d Hwf Hnul t o st a m c HM Hc) as K.
    destruct (mstep (step d) t c o a m) as [[a1 m1 v1|]|]; [|discriminate|discriminate]. unfold mdoes in K.
    destruct (mexec d t o st) as [v st1|e st1| | |u]; try discriminate. destruct K as (a2 & m2 & v2 & E2 & _ & H1). injection E2 as <- <- <-.
    eapply IH; eassumption.
Qed.
Definition ex_am : astate Z * gmap positive Z := match spec_after sdesc 9 [0; 0; 0; 6; 0; 0] (firstn 6 ex_prog) ∅ ∅ with Some am => am | None => (∅, ∅) end.
Lemma ex_rel : mrel sdesc 9 ex_st (fst ex_am) (snd ex_am).
Proof.
  apply (after_rel sdesc 9 sdesc_wf eq_refl (firstn 6 ex_prog) [0; 0; 0; 6; 0; 0] (st_init, ∅) ∅ ∅).
  - apply mrel_init.
  - vm_compute. repeat split.
  - vm_compute. reflexivity.
  - vm_compute. reflexivity.
Qed.
