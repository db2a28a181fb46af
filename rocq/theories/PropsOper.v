(** C60: operators made of other members. Every theorem is closed by a lemma of OperProof; examples beside
    them. T is any element type. *)
From Verif Require Import RcaSpec RcaModel RcaExec RcaOwn RcaRel RcaMeet RcaReach RcaEx OperModel OperMeet OperProof.
Open Scope Z_scope.

(** 1 is [7; 8; 9], shared with 2. *)
Definition ex_prog : list (op Z) := [CtorList 1 [7; 8; 9]; CtorCopy 2 1].
Definition ex_s := st kdesc ex_prog.
Definition ex_a := av kdesc ex_prog.
Definition after {A} (m : M (state Z) A) (s : state Z) (xs : list (positive * list Z)) : Prop :=
  match m s with Ok _ s' => map (fun p => content (fst p) s') xs = map (fun p => Some (map Some (snd p))) xs | _ => False end.
Ltac ex := cbv zeta; repeat match goal with |- _ /\ _ => split end;
  match goal with |- reached _ _ _ => apply run_reached | |- _ => vm_compute; repeat split; try reflexivity end.

(** C60: a++ and a-- on an array of at least one element return the array of the first (last) element and
    remove it; no other array changes and nothing can fail. *)
Theorem C60_array_postfix : forall T (d : desc T), wf_desc d -> forall s a x r rx v,
  reached d s a -> a !! x = Some (AVal rx v) -> a !! r = None -> 0 < zlen v < W31 ->
  gives d (arr_post_inc d r x) s (<[x := AVal rx (zdrop 1 v)]> (<[r := AVal rx (ztake 1 v)]> a)) tt /\
  gives d (arr_post_dec d r x) s (<[x := AVal rx (ztake (zlen v - 1) v)]> (<[r := AVal rx (zdrop (zlen v - 1) v)]> a)) tt.
Proof. exact @array_postfix. Qed.
Print Assumptions C60_array_postfix.
Example C60_array_postfix_ex : reached kdesc ex_s ex_a /\ ex_a !! 1%positive = Some (AVal true (map Some [7; 8; 9])) /\ ex_a !! 5%positive = None /\
  after (arr_post_inc kdesc 5 1) ex_s [(1%positive, [8; 9]); (2%positive, [7; 8; 9]); (5%positive, [7])] /\
  after (arr_post_dec kdesc 5 1) ex_s [(1%positive, [7; 8]); (2%positive, [7; 8; 9]); (5%positive, [9])].
Proof. ex. Qed.

(** C60: ++a and --a drop the first (last) element; ++ on nothing is harmless. *)
Theorem C60_prefix : forall T (d : desc T), wf_desc d -> forall s a x rx v,
  reached d s a -> a !! x = Some (AVal rx v) ->
  (zlen v < W31 -> gives d (arr_pre_inc d x) s (<[x := AVal rx (zdrop 1 v)]> a) tt) /\
  gives d (str_pre_inc d x) s (<[x := AVal rx (zdrop 1 v)]> a) tt /\
  (0 < zlen v -> gives d (arr_pre_dec d x) s (<[x := AVal rx (ztake (zlen v - 1) v)]> a) tt /\
                 gives d (str_pre_dec d x) s (<[x := AVal rx (ztake (zlen v - 1) v)]> a) tt).
Proof. exact @prefix_ops. Qed.
Print Assumptions C60_prefix.
Example C60_prefix_ex : reached kdesc ex_s ex_a /\ ex_a !! 1%positive = Some (AVal true (map Some [7; 8; 9])) /\
  after (arr_pre_inc kdesc 1) ex_s [(1%positive, [8; 9]); (2%positive, [7; 8; 9])] /\ after (arr_pre_dec kdesc 1) ex_s [(1%positive, [7; 8]); (2%positive, [7; 8; 9])].
Proof. ex. Qed.

(** C60: s++ and s-- on a String return what it was before. *)
Theorem C60_string_postfix : forall T (d : desc T), wf_desc d -> forall s a x r rx v,
  reached d s a -> a !! x = Some (AVal rx v) -> a !! r = None ->
  gives d (str_post_inc d r x) s (<[x := AVal rx (zdrop 1 v)]> (<[r := AVal rx v]> a)) tt /\
  (0 < zlen v -> gives d (str_post_dec d r x) s (<[x := AVal rx (ztake (zlen v - 1) v)]> (<[r := AVal rx v]> a)) tt).
Proof. exact @string_postfix. Qed.
Print Assumptions C60_string_postfix.
Example C60_string_postfix_ex : reached sdesc (st sdesc prog_s) (av sdesc prog_s) /\ av sdesc prog_s !! 1%positive = Some (AVal true (map Some hello)) /\ av sdesc prog_s !! 9%positive = None /\
  after (str_post_inc sdesc 9 1) (st sdesc prog_s) [(1%positive, [101; 108; 108; 111]); (9%positive, hello); (2%positive, hello)] /\
  after (str_post_dec sdesc 9 1) (st sdesc prog_s) [(1%positive, [104; 101; 108; 108]); (9%positive, hello); (2%positive, hello)].
Proof. ex. Qed.

(** C60: a << e appends; a >> x takes the last element, so the two are a stack. If memory runs out the
    array is as before or empty, and no other changes. *)
Theorem C60_shl : forall T (d : desc T), wf_desc d -> forall s a x rx v e,
  reached d s a -> a !! x = Some (AVal rx v) ->
  makes d (zlen v + 3) (fun af => af = a \/ af = <[x := AVal true []]> a) (shl d x e) s (<[x := AVal true (v ++ [Some e])]> a) tt.
Proof. exact @shl_ok. Qed.
Print Assumptions C60_shl.
Theorem C60_shr : forall T (d : desc T), wf_desc d -> forall x s a rx v e,
  reached d s a -> a !! x = Some (AVal rx (v ++ [Some e])) -> gives d (shr d x) s (<[x := AVal rx v]> a) e.
Proof. exact @pop_ok. Qed.
Print Assumptions C60_shr.
Theorem C60_stack : forall T (d : desc T), wf_desc d -> forall s a x rx v e,
  reached d s a -> a !! x = Some (AVal rx v) ->
  makes d (zlen v + 3) (fun af => af = a \/ af = <[x := AVal true []]> a) (shl d x e ;;; shr d x) s (<[x := AVal true v]> a) e.
Proof. exact @shl_shr. Qed.
Print Assumptions C60_stack.
Example C60_stack_ex : reached kdesc ex_s ex_a /\ ex_a !! 1%positive = Some (AVal true (map Some [7; 8; 9])) /\
  after (shl kdesc 1 5) ex_s [(1%positive, [7; 8; 9; 5]); (2%positive, [7; 8; 9])] /\
  match (shl kdesc 1 5 ;;; shr kdesc 1) ex_s with Ok v s' => v = 5 /\ content_is 1 s' [7; 8; 9] | _ => False end /\
  match shr kdesc 2 ex_s with Ok v s' => v = 9 /\ content_is 2 s' [7; 8] /\ content_is 1 s' [7; 8; 9] | _ => False end.
Proof. ex. Qed.

(** C60: a + b is the concatenation, in an array of its own; a and b and all else are untouched, also if
    memory runs out. a and b may be the same array or share their buffers. *)
Theorem C60_plus : forall T (d : desc T), wf_desc d -> forall s a x y r p rx ry v w,
  reached d s a -> a !! x = Some (AVal rx v) -> a !! y = Some (AVal ry w) -> a !! r = None -> a !! p = None -> r <> p ->
  makes d (zlen v + zlen w + 2) (fun af => af = a) (plus d r p x y) s (<[r := AVal true (v ++ w)]> a) tt.
Proof. exact @plus_ok. Qed.
Print Assumptions C60_plus.
Example C60_plus_ex : reached kdesc ex_s ex_a /\ ex_a !! 1%positive = Some (AVal true (map Some [7; 8; 9])) /\ ex_a !! 5%positive = None /\ ex_a !! 6%positive = None /\
  after (plus kdesc 5 6 1 2) ex_s [(1%positive, [7; 8; 9]); (2%positive, [7; 8; 9]); (5%positive, [7; 8; 9; 7; 8; 9])] /\ after (plus kdesc 5 6 1 1) ex_s [(1%positive, [7; 8; 9]); (2%positive, [7; 8; 9]); (5%positive, [7; 8; 9; 7; 8; 9])].
Proof. ex. Qed.

(** C60: postfix operators on temporaries: the array of the first (last) element; if memory runs out the
    element is lost. *)
Theorem C60_rvalue_postfix : forall T (d : desc T), wf_desc d -> forall s a x r rx v e,
  d_nul d = None -> reached d s a -> a !! r = None ->
  (a !! x = Some (AVal rx (Some e :: v)) ->
   makes d 3 (fun af => af = <[x := AVal rx v]> a) (arr_post_inc_rv d r x) s (<[r := AVal true [Some e]]> (<[x := AVal rx v]> a)) tt) /\
  (a !! x = Some (AVal rx (v ++ [Some e])) ->
   makes d 3 (fun af => af = <[x := AVal rx v]> a) (arr_post_dec_rv d r x) s (<[r := AVal true [Some e]]> (<[x := AVal rx v]> a)) tt).
Proof. exact @rvalue_postfix. Qed.
Print Assumptions C60_rvalue_postfix.
Example C60_rvalue_postfix_ex : reached kdesc ex_s ex_a /\ ex_a !! 1%positive = Some (AVal true (map Some [7; 8; 9])) /\ ex_a !! 5%positive = None /\
  after (arr_post_inc_rv kdesc 5 1) ex_s [(1%positive, [8; 9]); (2%positive, [7; 8; 9]); (5%positive, [7])] /\
  after (arr_post_dec_rv kdesc 5 1) ex_s [(1%positive, [7; 8]); (2%positive, [7; 8; 9]); (5%positive, [9])].
Proof. ex. Qed.

(** C60: shift() and pop() on a temporary that shares its buffer with nobody return the first (last)
    element; when the temporary is gone every other array is untouched. *)
Theorem C60_temporaries : forall T (d : desc T), wf_desc d -> forall s a x rx v e,
  reached d s a -> is_shared x s = Ok false s ->
  (a !! x = Some (AVal rx (Some e :: v)) -> gives d (scope d x (shift_rv d x)) s (delete x a) e) /\
  (a !! x = Some (AVal rx (v ++ [Some e])) -> gives d (scope d x (pop_rv d x)) s (delete x a) e).
Proof. exact @temporaries. Qed.
Print Assumptions C60_temporaries.
Example C60_temporaries_ex :
  let s := st kdesc prog_k in
  reached kdesc s (av kdesc prog_k) /\ match is_shared 1 s with Ok b _ => b = false | _ => False end /\
  match scope kdesc 1 (shift_rv kdesc 1) s with Ok v s' => v = 104 /\ content_is 2 s' [1; 2] | _ => False end /\
  match scope kdesc 1 (pop_rv kdesc 1) s with Ok v s' => v = 111 /\ content_is 2 s' [1; 2] | _ => False end.
Proof. ex. Qed.

(** C60: postfix ++ and -- and prefix -- on an empty array do not leave it empty: its length becomes
    2^64 - 1 (in a release build; with assertions those that pop stop, see C76). Prefix ++ is harmless. *)
Definition kdesc0 : desc Z := Desc true 0 None (fun z => z) Z.eqb grow15 never false.
Theorem C60_empty_refuted : exists s a, reached kdesc0 s a /\ a !! 1%positive = Some (AVal true []) /\
  (match arr_post_inc kdesc0 5 1 s with Ok _ s' => match length_of 1 s' with Ok n _ => n = npos | _ => False end | _ => False end) /\
  (match arr_post_dec kdesc0 5 1 s with Ok _ s' => match length_of 1 s' with Ok n _ => n = npos | _ => False end | _ => False end) /\
  (match arr_pre_dec kdesc0 1 s with Ok _ s' => match length_of 1 s' with Ok n _ => n = npos | _ => False end | _ => False end) /\
  (match arr_pre_inc kdesc0 1 s with Ok _ s' => match length_of 1 s' with Ok n _ => n = 0 | _ => False end | _ => False end).
Proof. exists (st kdesc0 [CtorDefault 1]), (av kdesc0 [CtorDefault 1]). ex. Qed.
Print Assumptions C60_empty_refuted.
(** C60: shift() on an array cast to an rvalue while a copy shares the buffer: the element is gone from the
    copy (in a release build; otherwise the program is aborted). *)
Theorem C60_steal_refuted : exists s a, reached kdesc s a /\ a !! 2%positive = Some (AVal true (map Some [7; 8; 9])) /\
  (match shift_rv kdesc 1 s with Ok v s' => v = 7 /\ read 2 0 s' = Undef UbIndet | _ => False end) /\
  (match pop_rv kdesc 1 s with Ok v s' => v = 9 /\ read 2 2 s' = Undef UbIndet | _ => False end) /\
  checked 1 (shift_rv kdesc 1) s = Undef Asserted.
Proof. exists ex_s, ex_a. unfold ex_s, ex_a. ex. Qed.
Print Assumptions C60_steal_refuted.
(** C60: a postfix operator on a temporary that runs out of memory has removed the element already. *)
Definition kdesc_oom : desc Z := Desc true 0 None (fun z => z) Z.eqb grow15 (Nat.eqb 2) false.
Theorem C60_lost_refuted : exists s a, reached kdesc_oom s a /\ a !! 1%positive = Some (AVal true (map Some [7; 8; 9])) /\
  (match arr_post_inc_rv kdesc_oom 5 1 s with Exn BadAlloc s' => content_is 1 s' [8; 9] | _ => False end) /\
  (match arr_post_dec_rv kdesc_oom 5 1 s with Exn BadAlloc s' => content_is 1 s' [7; 8] | _ => False end).
Proof. exists (st kdesc_oom [CtorList 1 [7; 8; 9]]), (av kdesc_oom [CtorList 1 [7; 8; 9]]). ex. Qed.
Print Assumptions C60_lost_refuted.
