(** C75: programs that use Strings and their algorithms, HashTable<String, String>, Array<String> and base64 together. Every
    theorem is closed by a lemma of LibProof; examples beside them. [lrel d q w]: the memory [q] holds the tables, arrays and
    Strings of the world [w]. [el j k] is the name of the k-th element of array [j]. *)
From stdpp Require Import gmap.
From Verif Require Import Base RcaSpec RcaModel RcaExec RcaOwn RcaRel RcaMeet RcaEx StrSpec StrEx PtSpec PtModel PtMeet PtEx LibSpec LibModel LibMeet LibProof LibEx.
Open Scope Z_scope.

(** C75: every program, from nothing, with memory running out anywhere and exceptions caught, is observed as if every String
    were a text, every table a map and every array a list of its own. *)
Theorem C75_history : forall d, wf_desc d -> d_nul d = Some 0 -> (forall b c, d_eqb d b c = (b =? c)) -> forall mdiff, memcmp_ok mdiff ->
  forall grow el, (forall j k k', el j k = el j k' -> k = k') -> forall upper junk prog,
  lallows d el upper (World ∅ ∅ ∅ 0) prog (lobserve d mdiff grow el upper junk prog (Lmem (st_init, ∅) ∅ 0)).
Proof. exact (fun d Hw Hz He mdiff Hm grow el Hel upper junk prog => lobserve_ok d Hw Hz He mdiff Hm grow el Hel upper junk prog _ _ (lrel_init d)). Qed.
Print Assumptions C75_history.
(** C75: one call, in any memory that holds a world in which the call has what it needs. *)
Theorem C75_step : forall d, wf_desc d -> d_nul d = Some 0 -> (forall b c, d_eqb d b c = (b =? c)) -> forall mdiff, memcmp_ok mdiff ->
  forall grow el, (forall j k k', el j k = el j k' -> k = k') -> forall upper junk c tr q w,
  lrel d q w -> lpre (step d) el upper c w -> ldoes d mdiff grow el upper junk c tr q w.
Proof. exact lexec_ok. Qed.
Print Assumptions C75_step.
(** C75: whether it returns or throws, what a call does not mention is as it was. *)
Theorem C75_apart : forall d, wf_desc d -> d_nul d = Some 0 -> (forall b c, d_eqb d b c = (b =? c)) -> forall mdiff, memcmp_ok mdiff ->
  forall grow el, (forall j k k', el j k = el j k' -> k = k') -> forall upper junk c tr q w,
  lrel d q w -> lpre (step d) el upper c w ->
  match lexec d mdiff grow el upper junk c tr q with
  | Ok _ q' | Exn _ q' => exists w', lrel d q' w' /\ apart el c w w'
  | _ => False
  end.
Proof. exact lexec_apart. Qed.
Print Assumptions C75_apart.
(** C75: when all tables, arrays and Strings are gone, all memory is, but for one block per failed base64 call. *)
Theorem C75_no_leak : forall d, wf_desc d -> forall q w, lrel d q w -> w_maps w = ∅ -> w_strs w = ∅ -> st_heap (fst (m_pt q)) = ∅ /\ m_blocks q = w_lost w.
Proof. exact lrel_none. Qed.
Print Assumptions C75_no_leak.

Notation ORet z := (YRet (LOut (POut (OInt z)))) (only parsing).
Notation OVoid := (YRet (LOut (POut ONone))) (only parsing).
Example C75_ex : wf_desc sdesc /\ d_nul sdesc = Some 0 /\ (forall b c, d_eqb sdesc b c = (b =? c)) /\ memcmp_ok Z.sub /\ (forall j k k', ex_el j k = ex_el j k' -> k = k') /\
  lrel sdesc ex_q ex_w /\ lpre (step sdesc) ex_el upper (LSubst 9 1 1) ex_w /\ lpre (step sdesc) ex_el upper (LSplit 1 2 3 npos) ex_w /\
  lpre (step sdesc) ex_el upper (LPush true 1 2) (World (w_maps ex_w) {[ 1%positive := 0%nat ]} (w_strs ex_w) 0) /\
  lobserve sdesc Z.sub ex_grow ex_el upper ex_junk lib_array l_start =
    [OVoid; OVoid; OVoid; YRet LVoid; YRet LVoid; YThrow BadAlloc; ORet 3; YRet LVoid; YRet (LNum 2); YRet LVoid; ORet 3; YThrow OutOfRange; OVoid; ORet 2;
     YRet LVoid; ORet 6; YRet LVoid; YRet (LNum 1); YRet (LBool true); YRet LVoid; YRet (LNum 0); YRet LVoid; ORet 3; YRet LVoid; YRet LVoid] ++ repeat OVoid 7 /\
  map_to_list (st_heap (fst (m_pt (l_last sdesc lib_array)))) = [] /\
  lobserve sdesc Z.sub ex_grow ex_el upper ex_junk (lib_prog ++ lib_end) l_start =
    [OVoid; OVoid; OVoid; YRet LVoid; YRet (LNum 4); YRet LVoid; ORet 11; YRet (LOut PNone); YRet (LOut PNone); YRet LVoid; ORet 8; YRet (LNum 0);
     OVoid; YRet LVoid; ORet 20; YRet LVoid; YRet LVoid; YRet LVoid; ORet 8; YRet (LNum 0); ORet 12; YRet LVoid; YRet LVoid; YRet LVoid; ORet 20; OVoid;
     YRet (LNum 5); YRet (LNum 13); YRet LVoid; YRet (LNum 2); ORet 6; YRet LVoid; ORet 1; ORet 6; YThrow OutOfRange; YRet LVoid; YRet LVoid; ORet 7;
     YRet (LOut (POut (OVal 67))); YRet (LOut (POut (OVal 44))); ORet 8] ++ YRet LVoid :: YRet (LOut PNone) :: repeat OVoid 13 /\
  (let q := l_last sdesc (lib_prog ++ lib_end) in map_to_list (st_heap (fst (m_pt q))) = [] /\ m_blocks q = 0) /\
  lobserve sdesc Z.sub ex_grow ex_el upper ex_junk lib_ask l_start =
    [OVoid; OVoid; OVoid; YRet (LBool true); YRet (LBool false); YRet (LNum 0); YRet (LNum (-1)); YRet (LNum 1);
     YRet LVoid; YRet (LBool false); YRet (LBool true); YRet (LBool false); YRet (LBool true); YRet (LBool false);
     YRet (LNum 1); YRet (LNum 2); YThrow OutOfRange; YRet (LNum 4); YRet (LNum npos); YRet (LNum npos);
     OVoid; YRet LVoid; YRet LVoid; ORet 3; ORet 2; ORet 5; YRet (LBool true)] /\
  lobserve sdesc Z.sub ex_grow ex_el upper ex_junk lib_fail l_start = [OVoid; OVoid; YThrow BadAlloc; YRet LVoid; YRet (LNum 2)] /\
  lobserve (sdesc_oom 2) Z.sub ex_grow ex_el upper ex_junk lib_twice l_start = [OVoid; YThrow BadAlloc; ORet 4; YRet LVoid; ORet 8] /\
  m_blocks (l_last (sdesc_oom 2) lib_twice) = 1.
Proof.
  split; [exact sdesc_wf|]. split; [reflexivity|]. split; [reflexivity|]. split; [exact StrEx.sub_ok|]. split; [exact ex_el_inj|].
  split; [exact ex_lrel|]. split; [exact ex_subst|]. split; [exact ex_split|]. split; [exact ex_push|]. cbv zeta. split_and!; vm_compute; reflexivity.
Qed.
