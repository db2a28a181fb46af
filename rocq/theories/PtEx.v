(** Concrete programs with several tables of Strings, for the examples of PropsPt. *)
From stdpp Require Import gmap.
From Verif Require Import Base ZList RcaSpec RcaModel RcaExec RcaOwn RcaRel RcaMeet RcaReach RcaEx StrSpec HashModel HsModel HtModel HsMeet HtMeet PtSpec PtModel PtMeet PtCall.
From Verif Require StrEx.
Open Scope Z_scope.

Definition fine : trouble := Trouble LNone [] (fun _ => false).
Definition ex_grow (n c : Z) : option Z := if n <=? c then Some (2 * n) else None.
(** "hello", "World!!" and "k" as 1, 2, 3; two tables filled from them, a copy of the first; values are written to and read. *)
Definition ex_prog : list (pcall * trouble) := map (fun c => (c, fine))
  [PString (CtorCstrLen 1 hello 5); PString (CtorCstrLen 2 world 7); PString (CtorCstrLen 3 [107] 1);
   PMake 1 1; PPut false false 1 1 2; PInsert false false 1 3 1; PInsert false true 1 1 3; PCopy 2 1;
   PValue false 1 1 (AppendItem 1 33); PValue false 2 3 (InsertAll false 1 0 2)].
(** What follows: reads, an index out of range, a new entry by operator[], a moved key, failing memory, moves and the end. *)
Definition ex_more : list (pcall * trouble) :=
  [(PFind 1 1 (Length 1), fine); (PFind 2 1 (Length 1), fine); (PFind 2 3 (Length 1), fine); (PFind 1 3 (At 1 7), fine); (PGet 4 1 1, fine); (PString (AppendItem 4 33), fine);
   (PFind 1 1 (Length 1), fine); (PString (Length 4), fine); (PString (CtorCopy 5 4), fine); (PValue true 1 5 (Length 1), fine); (PSize 1, fine); (PSize 2, fine);
   (PContains 2 4, fine); (PContains 1 4, fine); (PPut true false 2 4 1, Trouble LNode [] (fun _ => false)); (PContains 1 4, fine);
   (PPut true false 2 4 1, Trouble LBuckets [] (fun _ => false)); (PSize 2, fine); (PAssign 2 1, Trouble LNone [] (fun n => Nat.eqb n 0)); (PSize 2, fine); (PAssign 2 1, Trouble LNone [] (fun n => Nat.eqb n 1)); (PSize 2, fine); (PAssign 2 1, fine); (PSize 2, fine);
   (PList 3 2 [(1, 2); (3, 3); (1, 3)]%positive, Trouble LNone [LNone; LNode] (fun _ => false)); (PList 3 2 [(1, 2); (3, 3); (1, 3)]%positive, fine); (PSize 3, fine); (PFind 3 1 (Length 1), fine);
   (PMove 4 3, fine); (PSize 3, fine); (PSwap 4 1, fine); (PSize 1, fine); (PMoveAssign 3 4, fine); (PSize 3, fine); (PSize 4, fine); (PRemove 3 1, fine); (PRemove 3 1, fine); (PClear 1, fine); (PSize 1, fine);
   (PDestroy 1, fine); (PDestroy 2, fine); (PDestroy 3, fine); (PDestroy 4, fine);
   (PString (Destroy 1), fine); (PString (Destroy 2), fine); (PString (Destroy 3), fine); (PString (Destroy 4), fine); (PString (Destroy 5), fine)].
(** States after a program. *)
Fixpoint after (d : desc Z) (prog : list (pcall * trouble)) (st : state Z * tables) : option (state Z * tables) :=
  match prog with
  | [] => Some st
  | (c, tr) :: prog' => match pexec d Z.sub ex_grow c tr st with Ok _ st' | Exn _ st' => after d prog' st' | _ => None end
  end.
Definition ex_st : state Z * tables := match after sdesc (firstn 8 ex_prog) (st_init, ∅) with Some st => st | None => (st_init, ∅) end.
Definition ex_end : state Z * tables := match after sdesc (ex_prog ++ ex_more) (st_init, ∅) with Some st => st | None => (st_init, ∅) end.
(** The specification alongside; the flags are those of the model. *)
Fixpoint spec_after (d : desc Z) (prog : list (pcall * trouble)) (ms : maps) (b : astate Z) : option (maps * astate Z) :=
  match prog with
  | [] => Some (ms, b)
  | (c, _) :: prog' => match pstep (step d) true c ms b with Some (PRet ms' b' _) => spec_after d prog' ms' b' | _ => None end
  end.
Definition plain_call (c : pcall) : bool := match c with PGet _ _ _ => false | PValue _ _ _ _ | PFind _ _ _ => false | _ => true end.
Lemma plain_rm d rm c ms b : plain_call c = true -> pstep (step d) rm c ms b = pstep (step d) true c ms b.
Proof. destruct c; try discriminate; reflexivity. Qed.
Lemma after_rel d : wf_desc d -> forall prog st ms b st' ms' b', prel d st ms b -> forallb (fun c => plain_call (fst c)) prog = true ->
  ~ In (QThrow BadAlloc) (pobserve d Z.sub ex_grow prog st) ->
  after d prog st = Some st' -> spec_after d prog ms b = Some (ms', b') -> prel d st' ms' b'.
Proof.
  intros Hwf. induction prog as [|[c tr] prog IH]; intros st ms b st' ms' b' H Hp Hn Ha Hs; cbn [after spec_after forallb fst pobserve] in *.
  - injection Ha as <-. injection Hs as <- <-. exact H.
  - apply andb_prop in Hp as [Hc Hp]. destruct (pstep (step d) true c ms b) as [[ms1 b1 v1|]|] eqn:E; [|discriminate|discriminate].
    pose proof (pexec_ok d Hwf Z.sub StrEx.sub_ok ex_grow c tr st ms b true _ H E) as D. unfold pdoes in D.
    destruct (pexec d Z.sub ex_grow c tr st) as [v st1|[|] st1| | |]; try contradiction.
    + destruct D as (rm & ms2 & b2 & v2 & E2 & _ & H2). rewrite plain_rm, E in E2 by exact Hc. injection E2 as <- <- <-.
      eapply IH; try eassumption. intros X. apply Hn. right. exact X.
    + destruct D as (rm & ms2 & b2 & E2 & _). rewrite plain_rm, E in E2 by exact Hc. discriminate.
    + exfalso. apply Hn. left. reflexivity.
Qed.
Definition ex_mb : maps * astate Z := match spec_after sdesc (firstn 8 ex_prog) ∅ ∅ with Some p => p | None => (∅, ∅) end.
Lemma ex_rel : prel sdesc ex_st (fst ex_mb) (snd ex_mb).
Proof.
  apply (after_rel sdesc sdesc_wf (firstn 8 ex_prog) (st_init, ∅) ∅ ∅).
  - apply prel_init.
  - reflexivity.
  - assert (existsb (fun o => match o with QThrow BadAlloc => true | _ => false end) (pobserve sdesc Z.sub ex_grow (firstn 8 ex_prog) (st_init, ∅)) = false) as E by (vm_compute; reflexivity).
    intros X. assert (existsb (fun o => match o with QThrow BadAlloc => true | _ => false end) (pobserve sdesc Z.sub ex_grow (firstn 8 ex_prog) (st_init, ∅)) = true) as F; [|congruence].
    apply existsb_exists. eexists. split; [exact X|reflexivity].
  - vm_compute. reflexivity.
  - vm_compute. reflexivity.
Qed.
(** What a call on it does: its observation, and the entries of the first table afterwards. *)
Definition entry_at (ms : maps) (i : positive) (l : list Z) : option (list Z) := match ms !! i with Some m => m !! l | None => None end.
Definition would (c : pcall) : option (pout * list (option (list Z)) * list (option (list Z))) :=
  match pstep (step sdesc) true c (fst ex_mb) (snd ex_mb) with
  | Some (PRet ms b o) => Some (o, [entry_at ms 1 hello; entry_at ms 1 [107]; entry_at ms 2 hello; entry_at ms 2 [107]], map (full b) [1; 2; 3]%positive)
  | _ => None
  end.
