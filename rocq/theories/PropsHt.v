(** C67: several HashTable<String, String> on the heap: assignment, moves, swap, lists. Every theorem is closed by a lemma of
    HtProof; examples beside them. [tab], [others] and [does] as in PropsHs; [apart]: the tables have no String in common. *)
From stdpp Require Import gmap.
From Verif Require Import RcaSpec RcaModel RcaExec RcaOwn RcaRel RcaMeet RcaReach RcaFacts RcaEx AlgModel AlgMeet StrSpec StrModel HashModel HsModel HsMeet HsProof HtModel HtMeet HtProof PropsHs.
Open Scope Z_scope.

(** Beside the table of PropsHs a second one, kk -> k. *)
Definition ex2_prog : list (op Z) := ex_prog ++ [CtorCopy 20 4; CtorCopy 21 3].
Definition ex2_s := st sdesc ex2_prog.
Definition ex2_a := av sdesc ex2_prog.
Definition ex2_v : table := UMap 1 [[(20, 21)]%positive] 1.
Definition ex2_w : texts := {[ [107; 107] := [107] ]}.
Lemma ex2_reached : reached sdesc ex2_s ex2_a.
Proof. apply run_reached. Qed.
Lemma ex2_u : tab sdesc ex2_a ex_u ex_m.
Proof. apply (tab_same sdesc ex_a); [exact ex_tab|]. intros x X. unfold owned, own in X. cbn in X. rewrite !elem_of_cons in X. destruct X as [->|[->|[->|[->|X]]]]; [reflexivity..|inversion X]. Qed.
Lemma ex2_tab : tab sdesc ex2_a ex2_v ex2_w.
Proof.
  constructor.
  - reflexivity.
  - reflexivity.
  - intros i b n Z _. cbn [ex2_v u_n u_buckets] in *. rewrite Z.mod_1_r. unfold znth in Z. destruct (i <? 0) eqn:E; [discriminate|].
    destruct (Z.to_nat i) as [|[|j]] eqn:F; [lia|discriminate|discriminate].
  - reflexivity.
  - apply (bool_decide_unpack _). vm_compute. reflexivity.
  - constructor; [|constructor]. split; [vm_compute; repeat constructor; discriminate|split; exists true; vm_compute; reflexivity].
  - apply (bool_decide_unpack _). vm_compute. reflexivity.
  - vm_compute. reflexivity.
Qed.
Lemma ex2_apart : apart ex_u ex2_v /\ apart ex2_v ex_u.
Proof. split; unfold apart; apply (proj1 (list.Forall_forall _ _)); apply (bool_decide_unpack _); vm_compute; reflexivity. Qed.

(** C67: t = u for two tables. The target then holds the map of the source in Strings of its own, the source is as
    before, and no String outside of the target has changed. If memory runs out the target is as before or empty, its
    Strings destroyed; the source and the rest are as before. *)
Theorem C67_assign : forall d, wf_desc d -> forall fails s a u m v w,
  reached d s a -> tab d a u m -> tab d a v w -> apart u v ->
  does d (hcopy_assign d false fails u v) s (fun r a' =>
    if fst r then tab d a' (snd r) w /\ tab d a' v w /\ others (snd r) a' = others u a
    else (exists c, fails c = true) /\ (u_n u <> u_n v \/ zlen (nodes u) < zlen (nodes v)) /\
      (snd r = u /\ a' = a \/ tab d a' (snd r) ∅ /\ tab d a' v w /\ nodes (snd r) = [] /\ a' = others u a)) (fun _ => False).
Proof. exact (fun d Hwf => hcopy_assign_ok d Hwf (fun _ _ => None)). Qed.
Print Assumptions C67_assign.
(** C67: assigning a table to one with as many buckets and no fewer entries needs no memory, and so returns. *)
Theorem C67_reuse : forall d, wf_desc d -> forall fails s a u m v w,
  reached d s a -> tab d a u m -> tab d a v w -> apart u v -> u_n u = u_n v -> u_count v <= u_count u ->
  does d (hcopy_assign d false fails u v) s (fun r a' => fst r = true /\ tab d a' (snd r) w /\ tab d a' v w /\ others (snd r) a' = others u a) (fun _ => False).
Proof. exact hcopy_assign_safe. Qed.
Print Assumptions C67_reuse.
Example C67_assign_ex : wf_desc sdesc /\ reached sdesc ex2_s ex2_a /\ tab sdesc ex2_a ex_u ex_m /\ tab sdesc ex2_a ex2_v ex2_w /\ apart ex_u ex2_v /\ apart ex2_v ex_u /\
  u_n ex_u = u_n ex2_v /\ u_count ex2_v <= u_count ex_u /\
  see (hcopy_assign sdesc false (fun _ => true) ex_u ex2_v) ex2_s [10; 11; 12; 13; 20; 21; 1]%positive =
    Some (true, UMap 1 [[(10, 11)]]%positive 1, [str [107; 107]; str [107]; None; None; str [107; 107]; str [107]; str hello]) /\
  see (hcopy_assign sdesc false (fun _ => false) ex2_v ex_u) ex2_s [20; 21; 23; 25; 10; 11; 12; 13]%positive =
    Some (true, UMap 1 [[(20, 21); (23, 25)]]%positive 2, map str [hello; world; [107]; hello; hello; world; [107]; hello]) /\
  see (hcopy_assign sdesc false (Nat.eqb 1) ex2_v ex_u) ex2_s [20; 21; 10; 11; 4]%positive = Some (false, UMap 1 [[]] 0, [None; None; str hello; str world; str [107; 107]]).
Proof.
  split_and!; first [exact ex2_reached|exact ex2_u|exact ex2_tab|apply ex2_apart|exact sdesc_wf|discriminate|vm_compute; reflexivity].
Qed.

(** C67: a table made of a list holds its entries, of several with one key the first; each String is a copy, and nothing
    else changes. If memory runs out nothing is left of it. *)
Theorem C67_list : forall d, wf_desc d -> forall mdiff, memcmp_ok mdiff -> forall grow e es n kvs s a,
  reached d s a -> 0 < n -> Forall (fun kv => is_key a (fst kv) (text a (fst kv)) /\ is_str a (snd kv) (text a (snd kv))) kvs ->
  does d (hlist d mdiff grow e es n kvs) s (fun u a' => tab d a' u (firsts a kvs) /\ others u a' = a)
    (fun a' => a' = a /\ exists e', In e' (e :: es) /\ e' <> LNone).
Proof. exact hlist_ok. Qed.
Print Assumptions C67_list.
Example C67_list_ex : reached sdesc ex_s ex_a /\
  Forall (fun kv => is_key ex_a (fst kv) (text ex_a (fst kv)) /\ is_str ex_a (snd kv) (text ex_a (snd kv))) [(1, 2); (3, 4); (13, 3)]%positive /\
  firsts ex_a [(1, 2); (3, 4); (13, 3)]%positive = {[hello := world; [107] := [107; 107]]} /\
  see (hlist sdesc Z.sub ex_grow LNone [] 1 [(1, 2); (3, 4); (13, 3)]%positive) ex_s [1; 15; 17; 19; 21]%positive =
    Some (UMap 2 [[(19, 21)]; [(15, 17)]]%positive 2, map str [hello; hello; world; [107]; [107; 107]]) /\
  threw (hlist sdesc Z.sub ex_grow LNone [LNone; LBuckets] 1 [(1, 2); (3, 4); (13, 3)]%positive) ex_s [1; 15; 17; 19]%positive = Some [str hello; None; None; None].
Proof.
  split; [exact ex_reached|]. split; [|split_and!; [apply (bool_decide_unpack _)|..]; vm_compute; reflexivity].
  repeat constructor; first [exists true; vm_compute; reflexivity|vm_compute; discriminate|idtac]; vm_compute; repeat constructor; discriminate.
Qed.

(** C67: whatever a program does with any number of tables - calls on one of them, making, copying, assigning, moving,
    swapping, destroying them - each holds the map that it should, in Strings of its own; a table moved from is empty. *)
Theorem C67_history : forall d, wf_desc d -> forall mdiff, memcmp_ok mdiff -> forall grow cs s ts x rs y,
  hold d s ts (fst x) (snd x) -> tspecs cs x rs y ->
  exists s' ts', trun d mdiff grow cs ts s = Ok (rs, ts') s' /\ hold d s' ts' (fst y) (snd y).
Proof. exact trun_ok. Qed.
Print Assumptions C67_history.
(** C67: and when it has destroyed them all, and its Strings, no memory is left. *)
Theorem C67_nothing_left : forall d, wf_desc d -> forall s, hold d s ∅ ∅ ∅ -> st_heap s = ∅.
Proof. exact hold_none. Qed.
Print Assumptions C67_nothing_left.
(** Three tables: 1 made of a list; 2 a copy of it from which hello is removed; 1 assigned to itself and moved to 3; 2 and 3
    swapped; 2 moved to 1; 3 assigned 1 and destroyed, and the others too. *)
Definition ex3_prog : list (op Z) := [CtorCstrLen 1 hello 5; CtorCstrLen 2 world 7; CtorCstrLen 3 [107] 1; CtorCstrLen 4 [107; 107] 2].
Definition ex3_s := st sdesc ex3_prog.
Definition ex3_b := av sdesc ex3_prog.
Definition ex3_calls : list tcall :=
  [TList 1 1 [(1, 2); (3, 4)]; TCopy 2 1; TOn 2 (HRemove 1); TAssign 1 1; TMove 3 1; TSwap 2 3; TMoveAssign 1 2]%positive.
Definition ex3_end : list tcall := [TAssign 3 1; TDestroy 3; TDestroy 1; TDestroy 2]%positive.
Definition ex3_m : texts := {[hello := world; [107] := [107; 107]]}.
Ltac look := repeat first [apply lookup_empty|apply lookup_insert|rewrite lookup_insert_ne by discriminate].
Example C67_history_ex : hold sdesc ex3_s ∅ ∅ ex3_b /\
  (exists ms, tspecs ex3_calls (∅, ex3_b) [true; true; true; true; true; true; true] (ms, ex3_b) /\
    ms !! 1%positive = Some ex3_m /\ ms !! 2%positive = Some ∅ /\ ms !! 3%positive = Some (delete hello ex3_m)) /\
  see (let* r := trun sdesc Z.sub ex_grow ex3_calls ∅ in ret (map_to_list (snd r))) ex3_s [5; 7; 9; 11; 13; 15; 17; 19; 1]%positive =
    Some ([(1, UMap 2 [[(9, 11)]; [(5, 7)]] 2); (2, UMap 1 [[]] 0); (3, UMap 2 [[(13, 15)]; []] 1)]%positive,
      [str hello; str world; str [107]; str [107; 107]; str [107]; str [107; 107]; None; None; str hello]) /\
  match (trun sdesc Z.sub ex_grow (ex3_calls ++ ex3_end) ∅) ex3_s with
  | Ok r s' => map_to_list (snd r) = [] /\ match destroy_all sdesc [1; 2; 3; 4]%positive s' with Ok _ s'' => size (st_heap s'') = O | _ => False end
  | _ => False end.
Proof.
  assert (is_key ex3_b 1 hello) as K by (split; [exists true; vm_compute; reflexivity|repeat constructor; lia]).
  split.
  { exists ex3_b. split; [apply run_reached|]. constructor.
    - intros i. rewrite !lookup_empty. tauto.
    - intros i u m I. rewrite lookup_empty in I. discriminate.
    - intros i j u v I. rewrite lookup_empty in I. discriminate.
    - intros x y. split; [|tauto]. intros E. split; [exact E|]. intros i u I. rewrite lookup_empty in I. discriminate. }
  split; [|split; [vm_compute; reflexivity|vm_compute; auto]].
  eexists. split.
  { unfold ex3_calls. eapply ts_cons; [apply ts_list; [look|lia|]|].
    { repeat constructor; first [exists true; vm_compute; reflexivity|vm_compute; discriminate|idtac]; vm_compute; repeat constructor; discriminate. }
    eapply ts_cons; [eapply ts_copy; look|].
    eapply ts_cons; [eapply ts_on; [look|]|].
    { replace true with (bool_decide (is_Some (firsts ex3_b [(1, 2); (3, 4)]%positive !! hello))) by (vm_compute; reflexivity). apply hs_remove. exact K. }
    eapply ts_cons; [eapply ts_assign; look|].
    eapply ts_cons; [eapply ts_move; look|].
    eapply ts_cons; [eapply ts_swap; look|].
    eapply ts_cons; [eapply ts_move_assign; [look|look|discriminate]|apply ts_nil]. }
  split_and!; apply (bool_decide_unpack _); vm_compute; reflexivity.
Qed.

(** C67 refuted: "an assignment that throws leaves the table as it was". The table has been emptied. *)
Theorem C67_lost_refuted : exists d fails s a u m v w s' u', wf_desc d /\ reached d s a /\ tab d a u m /\ tab d a v w /\ apart u v /\ m <> ∅ /\
  hcopy_assign d false fails u v s = Ok (false, u') s' /\ nodes u' = [] /\ forall x, x ∈ owned u -> content x s' = None.
Proof.
  exists sdesc, (Nat.eqb 1), ex2_s, ex2_a, ex2_v, ex2_w, ex_u, ex_m.
  exists (match hcopy_assign sdesc false (Nat.eqb 1) ex2_v ex_u ex2_s with Ok _ s' => s' | _ => ex2_s end), (empty_umap 1).
  split; [exact sdesc_wf|]. split; [exact ex2_reached|]. split; [exact ex2_tab|]. split; [exact ex2_u|]. split; [apply ex2_apart|]. split; [|split; [vm_compute; reflexivity|split; [reflexivity|]]].
  - intros E. apply (f_equal (fun q : texts => q !! [107; 107])) in E. vm_compute in E. discriminate.
  - intros x X. unfold owned, own in X. cbn in X. rewrite !elem_of_cons in X. destruct X as [->|[->|X]]; [vm_compute; reflexivity..|inversion X].
Qed.
Print Assumptions C67_lost_refuted.
