(** C71: split, join and == on arrays of Strings, on the heap of both: the elements are Strings with buffers of their own. Every
    theorem is closed by a lemma of NestAlgFacts; examples beside them. [nmakes C m s A b A' b' v]: [m] returns [v] and leaves exactly
    the arrays [A'] and the Strings [b'], or throws bad_alloc, which takes [C], and leaves exactly [A] and [b]. *)
From stdpp Require Import gmap.
From Coq Require Import String.
From Verif Require Import Base ZList RcaSpec RcaModel RcaExec RcaOwn RcaMeet RcaEx StrSpec StrModel StrAlg StrEx ArrModel AlgModel AlgMeet
  AlgEx NestModel NestMeet NestReach NestEx NestAlgModel NestAlgMeet NestAlgFacts NestAlgEx.
Open Scope Z_scope.
Open Scope string_scope.

Ltac run := vm_compute; reflexivity.
Ltac is_there := apply alg_reached; match goal with |- is_Some ?x => destruct x eqn:E; [eauto|vm_compute in E; discriminate] end.
Notation S1 := (ss sdesc adesc). Notation A1 := (aa sdesc adesc). Notation B1 := (bb sdesc adesc).
Ltac here := lazymatch goal with
  | |- _ /\ _ => split; here
  | |- nreached _ _ _ _ _ => is_there
  | |- wf_desc sdesc => apply sdesc_wf
  | |- memcmp_ok _ => apply sub_ok
  | |- is_str _ _ _ => apply AlgEx.holds_str_ok; run
  | |- unused _ _ => apply AlgEx.none_of_ok; run
  | |- has_texts _ _ _ => apply are_texts; run
  | |- _ => run
  end.

(** C71: split() makes the Array of exactly the pieces; nothing else changes. If it throws everything is as before, and that takes a failing
    allocation of the local space or of the Array for one more than the pieces. *)
Theorem C71_split : forall d od, wf_desc d -> d_nul d = Some 0 -> forall mdiff, memcmp_ok mdiff -> forall fuel s A b r x y sp t rx sx sy,
  nreached d od s A b -> A !! r = None -> b !! x = Some (AVal rx (map Some sx)) -> is_str b y sy -> unused b [sp; t] ->
  bytes sx -> bytes sy -> sy <> [] -> zlen sx < W31 -> zlen sy < W31 -> (length sx < fuel)%nat ->
  exists ps, pieces (is_sp sy) sy sx ps /\
    nmakes d od (no_memory d 3 \/ no_memory od (zlen ps + 2)) (nsplit d od mdiff fuel r x y sp t npos) s A b (<[r := NVal (nvals rx ps)]> A) b tt.
Proof. exact nsplit_makes. Qed.
Print Assumptions C71_split.
Theorem C71_split_limit : forall d od, wf_desc d -> d_nul d = Some 0 -> forall mdiff, memcmp_ok mdiff -> forall limit fuel s A b r x y sp t rx sx sy,
  nreached d od s A b -> A !! r = None -> b !! x = Some (AVal rx (map Some sx)) -> is_str b y sy -> unused b [sp; t] ->
  bytes sx -> bytes sy -> sy <> [] -> zlen sx < W31 -> zlen sy < W31 -> (length sx < fuel)%nat -> sx <> [] -> 2 <= limit < npos ->
  exists ps, pieces_upto (is_sp sy) sy (limit - 1) sx ps /\
    nmakes d od (no_memory d 3 \/ no_memory od (zlen ps + 2)) (nsplit d od mdiff fuel r x y sp t limit) s A b (<[r := NVal (nvals rx ps)]> A) b tt.
Proof. exact nsplit_limit_makes. Qed.
Print Assumptions C71_split_limit.
Theorem C71_split_one : forall d od, wf_desc d -> d_nul d = Some 0 -> forall mdiff fuel s A b r x y sp t rx sx sy,
  nreached d od s A b -> A !! r = None -> b !! x = Some (AVal rx (map Some sx)) -> is_str b y sy -> unused b [sp; t] -> sx <> [] ->
  nmakes d od (no_memory d 3 \/ no_memory od 3) (nsplit d od mdiff fuel r x y sp t 1) s A b (<[r := NVal [(rx, map Some sx)]]> A) b tt.
Proof. exact nsplit_one_makes. Qed.
Print Assumptions C71_split_one.
Example C71_split_ex : wf_desc sdesc /\ memcmp_ok Z.sub /\ nreached sdesc adesc S1 A1 B1 /\ A1 !! 9%positive = None /\
  B1 !! 2%positive = Some (AVal true (map Some (bs "a-b--c"))) /\ is_str B1 3 (bs "-") /\ unused B1 [10; 11]%positive /\
  seen (nsplit sdesc adesc Z.sub 9 9 2 3 10 11 npos S1) [9; 1]%positive [2; 3; 10; 11]%positive =
    Some (true, [Some [bs "a"; bs "b"; []; bs "c"]; two], [Some (bs "a-b--c"); Some (bs "-"); None; None]) /\
  seen (nsplit sdesc adesc Z.sub 9 9 2 3 10 11 2 S1) [9]%positive [] = Some (true, [Some [bs "a"; bs "b--c"]], []) /\
  seen (nsplit sdesc adesc Z.sub 9 9 2 3 10 11 1 S1) [9]%positive [] = Some (true, [Some [bs "a-b--c"]], []) /\
  (* the Array cannot grow for the second time *)
  (let od := adesc_oom 7 in nreached sdesc od (ss sdesc od) (aa sdesc od) (bb sdesc od) /\
   seen (nsplit sdesc od Z.sub 9 9 2 3 10 11 npos (ss sdesc od)) [9; 1; 2; 3]%positive [2; 3; 10; 11]%positive =
     Some (false, [None; two; two; two], [Some (bs "a-b--c"); Some (bs "-"); None; None])).
Proof. cbv zeta. here. Qed.

(** C71: join() makes the String of the elements, quoted if asked for, with the delimiter between them; the Array and its elements are as
    before. If it throws everything is as before. The String of the result and its first temporary are not called 1, the name that
    stands for the element in a call that uses it. *)
Theorem C71_join : forall d od, wf_desc d -> d_nul d = Some 0 -> forall s A b r x y (quoted : bool) c1 m1 c2 m2 sy ss,
  nreached d od s A b -> unused b [r; c1; m1; c2; m2] -> r <> 1%positive -> c1 <> 1%positive -> is_str b y sy -> has_texts A x ss ->
  let K := zlen ss * zlen sy + (if quoted then zlen ss * 2 else 0) + StrSpec.total ss in (ss = [] \/ 0 < K < W64) ->
  nmakes d od (no_memory d (K + 2)) (njoin d od r x y quoted c1 m1 c2 m2) s A b A (<[r := AVal true (map Some (intercalate sy (map (dress quoted) ss)))]> b) tt.
Proof. exact njoin_makes. Qed.
Print Assumptions C71_join.
Example C71_join_ex : nreached sdesc adesc S1 A1 B1 /\ unused B1 [9; 10; 11; 12; 13]%positive /\ is_str B1 3 (bs "-") /\ has_texts A1 1 [bs "b"; bs "a-b--c"] /\
  seen (njoin sdesc adesc 9 1 3 false 10 11 12 13 S1) [1; 2]%positive [9; 10; 11; 12; 13]%positive =
    Some (true, [two; two], [Some (bs "b-a-b--c"); None; None; None; None]) /\
  seen (njoin sdesc adesc 9 1 3 true 10 11 12 13 S1) [1]%positive [9; 10]%positive =
    Some (true, [two], [Some ([34] ++ bs "b" ++ [34; 45; 34] ++ bs "a-b--c" ++ [34])%list; None]) /\
  (let d := sdesc_oom 9 in nreached d adesc (ss d adesc) (aa d adesc) (bb d adesc) /\
   seen (njoin d adesc 9 1 3 true 10 11 12 13 (ss d adesc)) [1; 2]%positive [9; 10; 11; 12; 13; 3]%positive =
     Some (false, [two; two], [None; None; None; None; None; Some (bs "-")])).
Proof. cbv zeta. here. Qed.

(** C71: two arrays of Strings are equal exactly if they have the same texts, whether or not they share buffers, and wherever the
    library's shortcut by addresses applies. Nothing changes. *)
Theorem C71_equal : forall d od, wf_desc d -> forall mdiff, memcmp_ok mdiff -> forall coin s A b x y ps qs,
  nreached d od s A b -> has_texts A x ps -> has_texts A y qs -> Forall bytes ps -> Forall bytes qs ->
  exists r, narr_eq mdiff coin x y s = Ok r s /\ (r = true <-> ps = qs).
Proof. exact narr_eq_ok. Qed.
Print Assumptions C71_equal.
Definition verdict (r : res nstate bool) : option bool := match r with Ok b _ => Some b | _ => None end.
Example C71_equal_ex : nreached sdesc adesc S1 A1 B1 /\ has_texts A1 1 [bs "b"; bs "a-b--c"] /\ has_texts A1 2 [bs "b"; bs "a-b--c"] /\ has_texts A1 3 [bs "b"; bs "a-b--c"] /\
  map (fun y => verdict (narr_eq Z.sub false 1 y S1)) [1; 2; 3]%positive = [Some true; Some true; Some true] /\
  (match nsplit sdesc adesc Z.sub 9 9 2 3 10 11 npos S1 with Ok _ s => verdict (narr_eq Z.sub true 9 1 s) | _ => None end) = Some false /\
  (match nsplit sdesc adesc Z.sub 9 9 2 3 10 11 2 S1 with Ok _ s => verdict (narr_eq Z.sub true 9 1 s) | _ => None end) = Some false.
Proof. here. Qed.

(** C71: what was split is joined to the original text. *)
Theorem C71_split_join : forall d od, wf_desc d -> d_nul d = Some 0 -> forall mdiff, memcmp_ok mdiff -> forall fuel s A b r x y sp t rx sx sy u c1 m1 c2 m2 s',
  nreached d od s A b -> A !! r = None -> b !! x = Some (AVal rx (map Some sx)) -> is_str b y sy -> unused b [sp; t] ->
  bytes sx -> bytes sy -> sy <> [] -> sy <> [32] -> zlen sx < W31 -> zlen sy < W31 -> (length sx < fuel)%nat -> ~ suffix_of sy sx ->
  unused b [u; c1; m1; c2; m2] -> u <> 1%positive -> c1 <> 1%positive ->
  nsplit d od mdiff fuel r x y sp t npos s = Ok tt s' ->
  exists A', nreached d od s' A' b /\
    nmakes d od (no_memory d (zlen sx + zlen sy + 2)) (njoin d od u r y false c1 m1 c2 m2) s' A' b A' (<[u := AVal true (map Some sx)]> b) tt.
Proof. exact nsplit_njoin. Qed.
Print Assumptions C71_split_join.
Example C71_split_join_ex : nreached sdesc adesc S1 A1 B1 /\ unused B1 [9; 10; 11; 12; 13]%positive /\
  (match nsplit sdesc adesc Z.sub 9 9 2 3 10 11 npos S1 with
   | Ok _ s => seen (njoin sdesc adesc 9 9 3 false 10 11 12 13 s) [9]%positive [9]%positive | _ => None end) =
    Some (true, [Some [bs "a"; bs "b"; []; bs "c"]], [Some (bs "a-b--c")]).
Proof. here. Qed.
