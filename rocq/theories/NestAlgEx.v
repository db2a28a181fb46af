(** Concrete arrays of Strings for the algorithms. *)
From stdpp Require Import gmap.
From Coq Require Import String.
From Verif Require Import Base ZList RcaSpec RcaModel RcaExec RcaOwn RcaMeet RcaEx StrSpec StrEx NestModel NestMeet NestReach NestEx NestAlgMeet.
Open Scope Z_scope.
Open Scope string_scope.

(** String 2 is "a-b--c", 3 is "-", 4 is "b"; array 1 holds copies of 4 and 2, array 2 a copy of it, array 3 the same texts made anew. *)
Definition cstr (l : string) : list Z := (bs l ++ [0])%list.
Definition alg_ops : list nop :=
  [NStr (CtorCstr 2 (cstr "a-b--c")); NStr (CtorCstr 3 (cstr "-")); NStr (CtorCstr 4 (cstr "b")); NNew 1; NAppend false 1 4; NAppend false 1 2; NCopy 2 1;
   NNew 3; NAppend false 3 4; NStr (CtorCstr 5 (cstr "a-b--c")); NAppend true 3 5; NStr (Destroy 5)].
Definition at_end d od := match follow d od alg_ops n_init ∅ ∅ with Some t => t | None => (n_init, ∅, ∅) end.
Definition ss d od := fst (fst (at_end d od)).
Definition aa d od := snd (fst (at_end d od)).
Definition bb d od := snd (at_end d od).
Lemma alg_reached d od : is_Some (follow d od alg_ops n_init ∅ ∅) -> nreached d od (ss d od) (aa d od) (bb d od).
Proof. intros [[[s A] b] E]. unfold ss, aa, bb, at_end. rewrite E. eapply follow_reached; [apply nre_init|exact E]. Qed.
Definition seen {X} (r : res nstate X) (xs : list positive) (ys : list positive) : option (bool * list (option (list (list Z))) * list (option (list Z))) :=
  match r with
  | Ok _ s => Some (true, map (texts s) xs, map (fun y => text s (str y)) ys)
  | Exn BadAlloc s => Some (false, map (texts s) xs, map (fun y => text s (str y)) ys)
  | _ => None
  end.
Definition two := Some [bs "b"; bs "a-b--c"].
Lemma are_texts A x ps : match elems A x with Some vs => bool_decide (map snd vs = map (map Some) ps) | None => false end = true -> has_texts A x ps.
Proof.
  destruct (elems A x) as [vs|] eqn:E; [|discriminate]. intros H. apply bool_decide_eq_true in H. exists vs. split; [exact E|]. clear E. revert ps H.
  induction vs as [|v vs IH]; intros [|p ps] H; try discriminate; constructor; injection H; auto.
Qed.
