(** C54-C57: String's algorithms run on the heap. [r] names the result, further new names the locals and temporaries. *)
From Coq Require Import Lia String.
From Verif Require Import RcaSpec RcaModel RcaExec RcaOwn RcaMeet RcaEx StrSpec StrModel StrFind StrAlg StrEx AlgModel AlgMeet AlgFacts AlgEx.
Open Scope Z_scope.
Ltac run := vm_compute; reflexivity.
Ltac here := lazymatch goal with
  | |- _ /\ _ => split; here
  | |- reached _ _ _ => apply run_reached
  | |- wf_desc sdesc => apply sdesc_wf
  | |- is_str _ _ _ => apply holds_str_ok; run
  | |- unused _ _ => apply none_of_ok; run
  | |- forall _, _ => intros; reflexivity
  | _ => run
  end.

(** C54: sub() returns the string with the replacements made, in a new String, and changes nothing else; or throws bad_alloc, which takes an
    allocation that can fail, and changes nothing at all. *)
Theorem C54_sub : forall d, wf_desc d -> d_nul d = Some 0 -> forall s a r u t x y z sx sy sz limit fuel,
  reached d s a -> unused a [r; u; t] -> is_str a x sx -> is_str a y sy -> is_str a z sz ->
  sy <> [] -> zlen sx < W31 -> - W31 <= limit < W31 -> (length sx < fuel)%nat ->
  exists w, replaced sy sz (budget limit) sx w /\
    makes d (no_memory d (Z.max (zlen sx) (zlen w) + 2)) (hsub d fuel r u t x y z limit) s a (<[r := AVal true (map Some w)]> a) tt.
Proof. exact sub_makes. Qed.
Print Assumptions C54_sub.
Example C54_sub_ex : wf_desc sdesc /\ reached sdesc sa va /\ unused va [10; 11; 12]%positive /\ is_str va 1 (bs "a-b--c") /\ is_str va 3 (bs "-") /\ is_str va 4 (bs "+=") /\
  after (hsub sdesc 9 10 11 12 1 3 4 (-1)) sa [10; 1; 3; 11]%positive = (Returned, [str "a+=b+=+=c"; str "a-b--c"; str "-"; None]) /\
  after (hsub sdesc 9 10 11 12 1 3 4 2) sa [10]%positive = (Returned, [str "a+=b+=-c"]) /\
  reached (sdesc_oom 9) (so 9) (vo 9) /\
  after (hsub (sdesc_oom 9) 9 10 11 12 1 3 4 (-1)) (so 9) [10; 1; 3; 11]%positive = (Threw BadAlloc, [None; str "a-b--c"; str "-"; None]).
Proof. here. Qed.

(** C54: subst() makes all its replacements in turn. [K] bounds the intermediate results. *)
Theorem C54_subst : forall d, wf_desc d -> d_nul d = Some 0 -> forall s a r q u t x kvs tkvs sx w K,
  reached d s a -> unused a [r; q; u; t] -> is_str a x sx ->
  Forall2 (fun p tp => is_str a (fst p) (fst tp) /\ is_str a (snd p) (snd tp)) kvs tkvs ->
  Forall (fun kv => fst kv <> []) tkvs -> subst_chain tkvs sx w ->
  (forall l1 l2 w1, tkvs = l1 ++ l2 -> subst_chain l1 sx w1 -> zlen w1 + 2 <= K) ->
  exists f0 room, forall fuel, (f0 <= fuel)%nat ->
    makes d (no_memory d K) (hsubst d fuel r q u t x kvs) s a (<[r := AVal room (map Some w)]> a) tt.
Proof. exact subst_makes. Qed.
Print Assumptions C54_subst.
Example C54_subst_ex : reached sdesc sa va /\ unused va [10; 13; 11; 12]%positive /\
  after (hsubst sdesc 20 10 13 11 12 1 [(3, 4); (4, 5)]%positive) sa [10; 1; 13]%positive = (Returned, [str "aBbBBc"; str "a-b--c"; None]) /\
  after (hsubst sdesc 20 10 13 11 12 1 []) sa [10; 1; 13]%positive = (Returned, [str "a-b--c"; str "a-b--c"; None]).
Proof. here. Qed.

(** C54: operator*. *)
Theorem C54_times : forall d, wf_desc d -> d_nul d = Some 0 -> forall s a r x n sx,
  reached d s a -> a !! r = None -> is_str a x sx -> 0 <= n < W31 ->
  makes d (no_memory d (zlen sx * n + 2)) (htimes d r x n) s a (<[r := AVal true (map Some (repeat_str sx (Z.to_nat n)))]> a) tt.
Proof. exact times_makes. Qed.
Print Assumptions C54_times.
Example C54_times_ex : reached sdesc sa va /\ va !! 10%positive = None /\
  after (htimes sdesc 10 4 3) sa [10; 4]%positive = (Returned, [str "+=+=+="; str "+="]) /\
  after (htimes sdesc 10 4 0) sa [10; 4]%positive = (Returned, [str ""; str "+="]).
Proof. here. Qed.

(** C54: operator+. *)
Theorem C54_plus : forall d, wf_desc d -> d_nul d = Some 0 -> forall s a r x y p v w,
  reached d s a -> unused a [r; p] -> is_str a x v -> is_str a y w ->
  makes d (no_memory d (zlen v + zlen w + 2)) (concat d r x y p) s a (<[r := AVal true (map Some (v ++ w))]> a) tt.
Proof. exact plus_makes. Qed.
Print Assumptions C54_plus.
Example C54_plus_ex : reached sdesc sa va /\ unused va [10; 11]%positive /\
  after (concat sdesc 10 1 4 11) sa [10; 1; 2; 4; 11]%positive = (Returned, [str "a-b--c+="; str "a-b--c"; str "a-b--c"; str "+="; None]) /\
  after (concat sdesc 10 4 4 11) sa [10; 4]%positive = (Returned, [str "+=+="; str "+="]) /\
  reached (sdesc_oom 8) (so 8) (vo 8) /\
  after (concat (sdesc_oom 8) 10 1 4 11) (so 8) [10; 1; 2; 4; 11]%positive = (Threw BadAlloc, [None; str "a-b--c"; str "a-b--c"; str "+="; None]).
Proof. here. Qed.

(** C54: join(). *)
Theorem C54_join : forall d, wf_desc d -> d_nul d = Some 0 -> forall s a r y xs (quoted : bool) c1 m1 c2 m2 sy ss,
  reached d s a -> unused a [r; c1; m1; c2; m2] -> is_str a y sy -> Forall2 (is_str a) xs ss ->
  let K := zlen ss * zlen sy + (if quoted then zlen ss * 2 else 0) + total ss in (ss = [] \/ 0 < K < W64) ->
  makes d (no_memory d (K + 2)) (hjoin d r y xs quoted c1 m1 c2 m2) s a (<[r := AVal true (map Some (intercalate sy (map (dress quoted) ss)))]> a) tt.
Proof. exact join_makes. Qed.
Print Assumptions C54_join.
Example C54_join_ex : reached sdesc sa va /\ unused va [10; 11; 12; 13; 14]%positive /\ Forall2 (is_str va) [1; 4; 5]%positive [bs "a-b--c"; bs "+="; bs "B"] /\
  after (hjoin sdesc 10 3 [1; 4; 5]%positive false 11 12 13 14) sa [10; 1; 11]%positive = (Returned, [str "a-b--c-+=-B"; str "a-b--c"; None]) /\
  after (hjoin sdesc 10 3 [4; 5]%positive true 11 12 13 14) sa [10; 4; 11]%positive = (Returned, [Some (map Some ([34] ++ bs "+=" ++ [34; 45; 34] ++ bs "B" ++ [34])); str "+="; None]).
Proof. do 2 (split; [here|]). split; [repeat constructor; here|]. here. Qed.

(** C54: ifind() and rifind(). *)
Theorem C54_ifind : forall d, wf_desc d -> forall s a up x y p q sx sy,
  reached d s a -> unused a [p; q] -> is_str a x sx -> is_str a y sy -> sy <> [] ->
  exists v, found_first (map up sy) (map up sx) v /\ makes d (no_memory d (Z.max (zlen sx) (zlen sy) + 2)) (hifind d up x y p q) s a a v.
Proof. exact ifind_makes. Qed.
Print Assumptions C54_ifind.
Theorem C54_rifind : forall d, wf_desc d -> forall s a mdiff up x y p q lpos sx sy, memcmp_ok mdiff -> bytes (map up sx) -> bytes (map up sy) ->
  reached d s a -> unused a [p; q] -> is_str a x sx -> is_str a y sy -> sy <> [] ->
  exists v, found_last (map up sy) (map up sx) 0 v /\ makes d (no_memory d (Z.max (zlen sx) (zlen sy) + 2)) (hrifind d mdiff up x y p q lpos) s a a v.
Proof. exact rifind_makes. Qed.
Print Assumptions C54_rifind.
Example C54_ifind_ex : reached sdesc sa va /\ unused va [10; 11]%positive /\ is_str va 5 (bs "B") /\
  hifind sdesc upper 1 5 10 11 sa = Ok 2 (end_state (hifind sdesc upper 1 5 10 11 sa)) /\
  hrifind sdesc Z.sub upper 1 3 10 11 0 sa = Ok 4 (end_state (hrifind sdesc Z.sub upper 1 3 10 11 0 sa)) /\
  after (hifind sdesc upper 1 5 10 11) sa [1; 5; 10; 11]%positive = (Returned, [str "a-b--c"; str "B"; None; None]).
Proof. here. Qed.

(** C54: where memory does not run out they all return. *)
Theorem C54_enough_memory : forall d n, (forall k, d_oom d k = false) -> n <= max_alloc -> (forall z, 0 <= z < n -> d_grow d z <= max_alloc) ->
  forall A (m : M (state Z) A) s a a' v, makes d (no_memory d n) m s a a' v -> gives d m s a' v.
Proof. exact enough_memory. Qed.
Print Assumptions C54_enough_memory.
Example C54_enough_memory_ex : (forall k, d_oom sdesc k = false) /\ (forall z, 0 <= z < 1000 -> d_grow sdesc z <= max_alloc) /\
  makes sdesc (no_memory sdesc 10) (concat sdesc 10 1 4 11) sa va (<[10%positive := AVal true (map Some (bs "a-b--c" ++ bs "+="))]> va) tt.
Proof.
  split; [reflexivity|]. split; [exact grow15_small|]. apply (plus_makes sdesc sdesc_wf eq_refl sa va 10 1 4 11 (bs "a-b--c") (bs "+=")); here.
Qed.

(** C55: split() makes one String per piece and nothing else changes; its failure needs a failing allocation of three characters (the local
    space) or of the Array. *)
Theorem C55_split : forall d, wf_desc d -> d_nul d = Some 0 -> forall mdiff grow_fails el, memcmp_ok mdiff -> forall fuel a x y sp t rx sx sy s,
  reached d s a -> a !! x = Some (AVal rx (map Some sx)) -> is_str a y sy -> unused a [sp; t] -> elements_unused el a [sp; t] ->
  bytes sx -> bytes sy -> sy <> [] -> zlen sx < W31 -> zlen sy < W31 -> (length sx < fuel)%nat ->
  exists ps, pieces (is_sp sy) sy sx ps /\
    makes d (split_fails d grow_fails) (hsplit d mdiff grow_fails el fuel x y sp t npos) s a (with_elems el rx 0 ps a) (length ps).
Proof. exact split_makes. Qed.
Print Assumptions C55_split.
Theorem C55_split_limit : forall d, wf_desc d -> d_nul d = Some 0 -> forall mdiff grow_fails el, memcmp_ok mdiff -> forall limit fuel a x y sp t rx sx sy s,
  reached d s a -> a !! x = Some (AVal rx (map Some sx)) -> is_str a y sy -> unused a [sp; t] -> elements_unused el a [sp; t] ->
  bytes sx -> bytes sy -> sy <> [] -> zlen sx < W31 -> zlen sy < W31 -> (length sx < fuel)%nat -> sx <> [] -> 2 <= limit < npos ->
  exists ps, pieces_upto (is_sp sy) sy (limit - 1) sx ps /\
    makes d (split_fails d grow_fails) (hsplit d mdiff grow_fails el fuel x y sp t limit) s a (with_elems el rx 0 ps a) (length ps).
Proof. exact split_limit_makes. Qed.
Print Assumptions C55_split_limit.
Definition no_failure (_ : nat) := false.
Example C55_split_ex : reached sdesc sa va /\ va !! 1%positive = Some (AVal true (map Some (bs "a-b--c"))) /\ unused va [10; 11]%positive /\
  elements_unused el100 va [10; 11]%positive /\
  after (hsplit sdesc Z.sub no_failure el100 9 1 3 10 11 npos) sa [101; 102; 103; 104; 105; 1; 10]%positive =
    (Returned, [str "a"; str "b"; str ""; str "c"; None; str "a-b--c"; None]) /\
  after (hsplit sdesc Z.sub no_failure el100 9 1 3 10 11 2) sa [101; 102; 103]%positive = (Returned, [str "a"; str "b--c"; None]) /\
  after (hsplit sdesc Z.sub (Nat.eqb 2) el100 9 1 3 10 11 npos) sa [101; 102; 103; 1; 10; 11]%positive = (Threw BadAlloc, [None; None; None; str "a-b--c"; None; None]).
Proof. split; [here|]. split; [here|]. split; [here|]. split; [apply el100_unused; run|]. here. Qed.

(** C55: newsplit() cuts off a token and never throws. *)
Theorem C55_newsplit : forall d, wf_desc d -> forall s a r x b rx sx tok rest, (forall b c, d_eqb d b c = (b =? c)) ->
  reached d s a -> a !! r = None -> a !! x = Some (AVal rx (map Some sx)) -> zlen sx < W31 ->
  (sx = tok ++ b :: rest /\ ~ In b tok) \/ (sx = tok /\ ~ In b sx /\ rest = []) ->
  exists room, gives d (hnewsplit d r x b) s (<[x := AVal rx (map Some (skip (b =? 32) rest))]> (<[r := AVal room (map Some tok)]> a)) tt.
Proof. exact newsplit_gives. Qed.
Print Assumptions C55_newsplit.
Example C55_newsplit_ex : reached sdesc sa va /\ va !! 10%positive = None /\ va !! 1%positive = Some (AVal true (map Some (bs "a-b--c"))) /\
  (forall b c, d_eqb sdesc b c = (b =? c)) /\
  after (hnewsplit sdesc 10 1 45) sa [10; 1; 2]%positive = (Returned, [str "a"; str "b--c"; str "a-b--c"]) /\
  after (hnewsplit sdesc 10 1 120) sa [10; 1; 2]%positive = (Returned, [str "a-b--c"; str ""; str "a-b--c"]).
Proof. here. Qed.

(** C56: the pieces share the buffer of the string: split() copies no characters. *)
Theorem C56_split : forall d, wf_desc d -> d_nul d = Some 0 -> forall mdiff grow_fails el, memcmp_ok mdiff -> forall limit fuel a x y sp t sx sy s k s' n,
  reached d s a -> is_str a x sx -> is_str a y sy -> unused a [sp; t] -> elements_unused el a [sp; t] ->
  bytes sx -> bytes sy -> sy <> [] -> zlen sx < W31 -> zlen sy < W31 -> (length sx < fuel)%nat -> 0 <= limit < W64 ->
  hsplit d mdiff grow_fails el fuel x y sp t limit s = Ok k s' -> rcount x s = Ok n s -> rcount x s' = Ok (n + Z.of_nat k) s'.
Proof. exact split_shares. Qed.
Print Assumptions C56_split.
Theorem C56_newsplit : forall d, wf_desc d -> forall s a r x b sx s' n, (forall b c, d_eqb d b c = (b =? c)) ->
  reached d s a -> a !! r = None -> is_str a x sx -> sx <> [] -> zlen sx < W31 ->
  hnewsplit d r x b s = Ok tt s' -> rcount x s = Ok n s -> rcount x s' = Ok (n + 1) s'.
Proof. exact newsplit_shares_count. Qed.
Print Assumptions C56_newsplit.
Example C56_ex : reached sdesc sa va /\ rcount 1%positive sa = Ok 2 sa /\
  let s' := end_state (hsplit sdesc Z.sub no_failure el100 9 1 3 10 11 npos sa) in
  ending_of (hsplit sdesc Z.sub no_failure el100 9 1 3 10 11 npos sa) = Returned /\ rcount 1%positive s' = Ok 6 s' /\ rcount 103%positive s' = Ok 6 s' /\
  let s' := end_state (hnewsplit sdesc 10 1 45 sa) in rcount 1%positive s' = Ok 3 s'.
Proof. split; [here|]. split; [run|]. cbv zeta. here. Qed.

(** C57: assignment to a slice writes over the characters from its start on; a length of -1 or any negative length stands for the whole of
    the assigned string. *)
Theorem C57_assign : forall d, wf_desc d -> d_nul d = Some 0 -> forall s a mv x y sx sy start len,
  reached d s a -> is_str a x sx -> is_str a y sy -> 0 <= start <= zlen sx -> - W63 <= len < W63 -> len <> 0 ->
  let w := if len <? 0 then sy else ztake len sy in
  writes d (no_memory d (Z.max (zlen sx) (start + zlen w) + 2)) (slice_set d mv x start len y) s a x sx (over sx start w) (if mv then Some y else None).
Proof. exact slice_writes. Qed.
Print Assumptions C57_assign.
(** C57: a slice assigned to a slice, also of the same string. *)
Theorem C57_assign_slice : forall d, wf_desc d -> d_nul d = Some 0 -> forall s a x y t sx sy start len start' len',
  reached d s a -> is_str a x sx -> is_str a y sy -> a !! t = None ->
  0 <= start <= zlen sx -> - W63 <= len < W63 -> len <> 0 -> sp_slice_ok (zlen sy) start' len' = true ->
  let v := sp_slice sy start' len' in let w := if len <? 0 then v else ztake len v in
  writes d (no_memory d (Z.max (zlen sx) (start + zlen w) + 2)) (slice_set_slice d x start len y start' len' t) s a x sx (over sx start w) None.
Proof. exact slice_slice_writes. Qed.
Print Assumptions C57_assign_slice.
(** C57: a slice reads as what was assigned to it; assigning it to itself changes nothing. *)
Theorem C57_put_get : forall d, wf_desc d -> d_nul d = Some 0 -> forall s a mv x y sx sy start,
  reached d s a -> is_str a x sx -> is_str a y sy -> 0 <= start <= zlen sx -> 0 < zlen sy ->
  Z.max (zlen sx) (start + zlen sy) < W31 -> forall s', slice_set d mv x start (zlen sy) y s = Ok tt s' ->
  exists a', reached d s' a' /\ is_str a' x (over sx start sy) /\
    forall t, a' !! t = None -> exists room, gives d (hslice d t x start (zlen sy)) s' (<[t := AVal room (map Some sy)]> a') tt.
Proof. exact put_get. Qed.
Print Assumptions C57_put_get.
Theorem C57_get_put : forall d, wf_desc d -> d_nul d = Some 0 -> forall s a x t sx start len,
  reached d s a -> is_str a x sx -> a !! t = None -> 0 <= start <= zlen sx -> 0 < len < W31 -> zlen sx < W31 ->
  writes d (no_memory d (zlen sx + 2)) (slice_set_slice d x start len x start len t) s a x sx sx None.
Proof. exact get_put. Qed.
Print Assumptions C57_get_put.
Example C57_ex : reached sdesc sa va /\ is_str va 1 (bs "a-b--c") /\ is_str va 4 (bs "+=") /\
  after (slice_set sdesc false 1 1 2 4) sa [1; 2; 4]%positive = (Returned, [str "a+=--c"; str "a-b--c"; str "+="]) /\
  after (slice_set sdesc false 1 5 (-1) 4) sa [1; 2]%positive = (Returned, [str "a-b--+="; str "a-b--c"]) /\
  after (slice_set_slice sdesc 1 0 2 1 2 2 10) sa [1; 2; 10]%positive = (Returned, [str "b-b--c"; str "a-b--c"; None]) /\
  after (slice_set sdesc false 1 1 2 4 ;;; hslice sdesc 10 1 1 2) sa [10]%positive = (Returned, [str "+="]).
Proof. here. Qed.

(** C57: a slice may be read from the end, but not assigned to: a negative start throws out_of_range. *)
Theorem C57_negative : forall d, wf_desc d -> forall s a mv x y sx sy start len,
  reached d s a -> is_str a x sx -> is_str a y sy -> - W63 <= start < 0 -> - W63 <= len < W63 -> len <> 0 ->
  slice_set d mv x start len y s = Exn OutOfRange s.
Proof. exact slice_negative. Qed.
Print Assumptions C57_negative.
Example C57_negative_ex : after (hslice sdesc 10 1 (-3) 2) sa [10]%positive = (Returned, [str "--"]) /\
  after (slice_set sdesc false 1 (-3) 2 4) sa [1]%positive = (Threw OutOfRange, [str "a-b--c"]).
Proof. split; run. Qed.
(** C57: a shorter or longer string does not take the slice's place. *)
Theorem C57_resize_refuted : exists s a x y start len, reached sdesc s a /\ is_str a x (bs "a-b--c") /\ is_str a y (bs "B") /\ start = 1 /\ len = 4 /\
  after (slice_set sdesc false x start len y) s [x] = (Returned, [str "aBb--c"]).
Proof. exists sa, va, 1%positive, 5%positive, 1, 4. here. Qed.
Print Assumptions C57_resize_refuted.
(** C57: if memory runs out while a shared string is being assigned to, its contents are lost. *)
Theorem C57_atomic_refuted : exists k s a x y, reached (sdesc_oom k) s a /\ is_str a x (bs "a-b--c") /\ is_str a y (bs "+=") /\
  after (slice_set (sdesc_oom k) false x 1 2 y) s [x; y] = (Threw BadAlloc, [str ""; str "+="]).
Proof. exists 8%nat, (so 8), (vo 8), 1%positive, 4%positive. here. Qed.
Print Assumptions C57_atomic_refuted.
