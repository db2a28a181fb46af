(** C74: programs with several HashTable<String, String> and Strings. Every theorem is closed by a lemma of PtCall; examples beside
    them. [prel d st ms b]: the tables of [st] hold the maps [ms], its Strings the texts [b], and nothing is shared that can be seen. *)
From stdpp Require Import gmap.
From Verif Require Import Base RcaSpec RcaModel RcaExec RcaOwn RcaRel RcaMeet RcaReach RcaEx StrSpec HashModel HsModel HsMeet HtMeet PtSpec PtModel PtMeet PtCall PtEx.
From Verif Require StrEx.
Open Scope Z_scope.

(** C74: every program, from nothing, with memory running out anywhere and exceptions caught, is observed as if every table were
    a map of its own and every String a text of its own. *)
Theorem C74_history : forall d, wf_desc d -> forall mdiff, memcmp_ok mdiff -> forall grow prog,
  pallows d ∅ ∅ prog (pobserve d mdiff grow prog (st_init, ∅)).
Proof. exact (fun d Hwf mdiff Hm grow prog => pobserve_ok d Hwf mdiff Hm grow prog (st_init, ∅) ∅ ∅ (prel_init d)). Qed.
Print Assumptions C74_history.
(** C74: one call. It returns or throws as the maps and texts say; bad_alloc comes only if memory is refused, and then leaves what
    [pfail] says. Nothing else happens. *)
Theorem C74_step : forall d, wf_desc d -> forall mdiff, memcmp_ok mdiff -> forall grow c tr st ms b rm r,
  prel d st ms b -> pstep (step d) rm c ms b = Some r -> pdoes d mdiff grow c tr st ms b.
Proof. exact pexec_ok. Qed.
Print Assumptions C74_step.
(** C74: whether it returns or throws, the tables and Strings that a call does not mention are as they were. *)
Theorem C74_apart : forall d, wf_desc d -> forall mdiff, memcmp_ok mdiff -> forall grow c tr st ms b rm r,
  prel d st ms b -> pstep (step d) rm c ms b = Some r ->
  match pexec d mdiff grow c tr st with
  | Ok _ st' | Exn _ st' => exists ms' b', prel d st' ms' b' /\
      (forall j, j ∉ tables_of c -> ms' !! j = ms !! j) /\ (forall x, x ∉ strings_of c -> b' !! x = b !! x)
  | _ => False
  end.
Proof. exact pexec_kept. Qed.
Print Assumptions C74_apart.
(** C74: when all tables and Strings are gone so is all memory. *)
Theorem C74_no_leak : forall d, wf_desc d -> forall st ms b, prel d st ms b -> ms = ∅ -> b = ∅ -> st_heap (fst st) = ∅.
Proof. exact prel_none. Qed.
Print Assumptions C74_no_leak.

Example C74_ex : wf_desc sdesc /\ memcmp_ok Z.sub /\ prel sdesc ex_st (fst ex_mb) (snd ex_mb) /\
  would (PValue false 1 1 (AppendItem 1 33)) = Some (POut ONone, [Some (world ++ [33]); Some hello; Some world; Some hello], [Some hello; Some world; Some [107]]) /\
  would (PPut true true 2 3 1) = Some (PNone, [Some world; Some hello; Some world; Some hello], [None; Some world; Some [107]]) /\
  would (PRemove 2 1) = Some (PBool true, [Some world; Some hello; None; Some hello], [Some hello; Some world; Some [107]]) /\
  pobserve sdesc Z.sub ex_grow (ex_prog ++ ex_more) (st_init, ∅) =
    [QRet (POut ONone); QRet (POut ONone); QRet (POut ONone); QRet PNone; QRet PNone; QRet (PBool true); QRet (PBool false); QRet PNone; QRet (POut ONone); QRet (POut ONone);
     QRet (POut (OInt 8)); QRet (POut (OInt 7)); QRet (POut (OInt 7)); QThrow OutOfRange; QRet PNone; QRet (POut ONone); QRet (POut (OInt 8)); QRet (POut (OInt 9)); QRet (POut ONone);
     QRet (POut (OInt 0)); QRet (PInt 3); QRet (PInt 2); QRet (PBool false); QRet (PBool true); QThrow BadAlloc; QRet (PBool true); QThrow BadAlloc; QRet (PInt 2);
     QThrow BadAlloc; QRet (PInt 2); QThrow BadAlloc; QRet (PInt 0); QRet PNone; QRet (PInt 3); QThrow BadAlloc; QRet PNone; QRet (PInt 2); QRet (POut (OInt 7));
     QRet PNone; QRet (PInt 0); QRet PNone; QRet (PInt 2); QRet PNone; QRet (PInt 3); QRet (PInt 0); QRet (PBool true); QRet (PBool false); QRet PNone; QRet (PInt 0)] ++
    repeat (QRet PNone) 4 ++ repeat (QRet (POut ONone)) 5 /\
  map_to_list (st_heap (fst ex_end)) = [] /\ map_to_list (snd ex_end) = [].
Proof.
  split; [exact sdesc_wf|]. split; [exact StrEx.sub_ok|]. split; [exact ex_rel|]. split_and!; vm_compute; reflexivity.
Qed.
