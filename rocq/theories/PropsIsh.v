(** C62, reading Strings that live on the heap from an istream. *)
From Coq Require Import Lia String.
From Verif Require Import RcaSpec RcaModel RcaExec RcaOwn RcaMeet RcaEx StrEx AlgModel AlgMeet AlgFacts AlgEx IsSpec IsModel IsProof IshModel IshMeet IshProof.
Open Scope Z_scope.
Definition strict (b : Z) : option bool := None.
Lemma ascii_usable (w : list Z) : forallb (fun b => b <? 128) w = true -> forall high, usable high w.
Proof. intros A high b I R. rewrite forallb_forall in A. specialize (A b I). lia. Qed.
Lemma spaces l : forallb blank l = true -> List.Forall space l.
Proof. intros A. apply List.Forall_forall. intros b I. rewrite forallb_forall in A. apply blank_space, A, I. Qed.
Lemma nospaces l : forallb (fun b => negb (blank b)) l = true -> List.Forall (fun b => ~ space b) l.
Proof.
  intros A. apply List.Forall_forall. intros b I S. rewrite forallb_forall in A. specialize (A b I).
  rewrite (proj2 (blank_space b) S) in A. discriminate.
Qed.
Ltac run := vm_compute; reflexivity.
(** How a run ended, the stream, and what the variables [xs] hold. *)
Definition outcome {A} (r : res (istream * state Z) A) (xs : list positive) : ending * option istream * list (option (list (option Z))) :=
  match r with
  | Ok _ (i, s) => (Returned, Some i, map (fun x => content x s) xs)
  | Exn e (i, s) => (Threw e, Some i, map (fun x => content x s) xs)
  | _ => (Other, None, [])
  end.

(** C62: operator>> puts the word into the String and touches no other String, also none that shared its buffer. *)
Theorem C62_word : forall d high s a x t vx text blanks word rest, wf_desc d -> d_nul d = Some 0 -> reached d s a ->
  a !! x = Some vx -> a !! t = None -> word_first text blanks word rest -> usable high word ->
  delivers d (hread_word d high x t) (fresh text) s a x word (match rest with [] => ended [] | _ => fresh rest end) (fun w2 => fresh (w2 ++ rest)).
Proof. intros d high s a x t vx text blanks word rest Hw Hn. exact (word_delivers d Hw Hn high s a x t vx text blanks word rest). Qed.
Print Assumptions C62_word.
(** "a-b--c" in 1 with a copy in 2; the 14th request for memory fails in the second run. *)
Example C62_word_ex : word_first (bs "  two words") (bs "  ") (bs "two") (bs " words") /\ usable strict (bs "two") /\
  va !! 9%positive = None /\
  outcome (hread_word sdesc strict 1 9 (fresh (bs "  two words"), sa)) [1; 2; 9]%positive =
    (Returned, Some (fresh (bs " words")), [str "two"; str "a-b--c"; None]) /\
  outcome (hread_word (sdesc_oom 14) strict 1 9 (fresh (bs "  lengthiest word"), so 14)) [1; 2; 9]%positive =
    (Threw BadAlloc, Some (fresh (bs "iest word")), [str "lengt"; str "a-b--c"; None]).
Proof.
  split; [unfold word_first; repeat match goal with |- _ /\ _ => split end; try run; try (apply spaces; run); try (apply nospaces; run); try discriminate; vm_compute; right; reflexivity|].
  split; [apply ascii_usable; run|]. split; [run|]. split; run.
Qed.

(** C62: likewise getline, for a line that ends with a newline and for the rest of the stream. *)
Theorem C62_line : forall d s a x t vx line rest, wf_desc d -> d_nul d = Some 0 -> reached d s a ->
  a !! x = Some vx -> a !! t = None -> ~ In 10 line ->
  delivers d (hread_line d x t) (fresh (line ++ 10 :: rest)) s a x line (fresh rest) (fun w2 => fresh (w2 ++ 10 :: rest)).
Proof. intros d s a x t vx line rest Hw Hn. exact (line_delivers d Hw Hn strict s a x t vx line rest). Qed.
Print Assumptions C62_line.
Theorem C62_last_line : forall d s a x t vx line, wf_desc d -> d_nul d = Some 0 -> reached d s a ->
  a !! x = Some vx -> a !! t = None -> ~ In 10 line ->
  delivers d (hread_line d x t) (fresh line) s a x line (ended []) fresh.
Proof. intros d s a x t vx line Hw Hn. exact (last_line_delivers d Hw Hn strict s a x t vx line). Qed.
Print Assumptions C62_last_line.
Example C62_line_ex : ~ In 10 (bs "a line ") /\
  outcome (hread_line sdesc 1 9 (fresh (bs "a line " ++ 10 :: bs "next"), sa)) [1; 2; 9]%positive =
    (Returned, Some (fresh (bs "next")), [str "a line "; str "a-b--c"; None]) /\
  outcome (hread_line sdesc 1 9 (fresh (bs "next"), sa)) [1; 2; 9]%positive = (Returned, Some (ended []), [str "next"; str "a-b--c"; None]).
Proof. split; [intros I; vm_compute in I; intuition discriminate|split; run]. Qed.

(** C62: nothing but blanks left, or a stream already in an error state: the String is emptied. *)
Theorem C62_no_word : forall d high s a x t vx blanks left, wf_desc d -> d_nul d = Some 0 -> reached d s a ->
  a !! x = Some vx -> a !! t = None -> List.Forall space blanks ->
  delivers d (hread_word d high x t) (fresh blanks) s a x [] (ended []) left.
Proof. intros d high s a x t vx blanks left Hw Hn. exact (none_delivers d Hw Hn high s a x t vx blanks left). Qed.
Print Assumptions C62_no_word.
Example C62_no_word_ex : List.Forall space (bs "   ") /\
  outcome (hread_word sdesc strict 1 9 (fresh (bs "   "), sa)) [1; 2]%positive = (Returned, Some (ended []), [str ""; str "a-b--c"]).
Proof. split; [apply spaces; run|run]. Qed.
Theorem C62_not_good : forall d high s a x t vx i left, wf_desc d -> d_nul d = Some 0 -> reached d s a ->
  a !! x = Some vx -> a !! t = None -> is_good i = false ->
  delivers d (hread_word d high x t) i s a x [] (setstate false true i) left /\ delivers d (hread_line d x t) i s a x [] (setstate false true i) left.
Proof. intros d high s a x t vx i left Hw Hn. exact (bad_delivers d Hw Hn high s a x t vx i left). Qed.
Print Assumptions C62_not_good.
Example C62_not_good_ex : is_good (IS (bs "left") true false false true) = false /\
  outcome (hread_line sdesc 1 9 (IS (bs "left") true false false true, sa)) [1; 2]%positive =
    (Returned, Some (IS (bs "left") true true false true), [str ""; str "a-b--c"]).
Proof. split; run. Qed.

(** C62: the loop while (is >> s) array << s; the elements do not change when [s] is read into again. The last word is
    left in [s] alone if nothing follows it. *)
Theorem C62_all_words : forall d high gf el s a x t ws fuel first tail, wf_desc d -> d_nul d = Some 0 -> reached d s a ->
  is_Some (a !! x) -> a !! t = None -> elements_unused el a [t] ->
  words_ok first ws -> List.Forall space tail -> tail <> [] -> List.Forall (fun w => usable high (snd w)) ws -> (List.length ws <= fuel)%nat ->
  gathers d gf el (hcollect d gf el fuel (hread_word d high x t) x 0) (fresh (words_text ws ++ tail)) s a x (map snd ws) [] (ended []).
Proof.
  intros d high gf el s a x t ws fuel first tail Hw Hn H Hx Ht [Ei Eu] W T Tn U F.
  exact (feed_gathers d Hw high gf el Ei _ x t _ _ _ _ s a fuel (words_feed d Hw Hn high x t ws first tail W T Tn U) H Hx Ht ltac:(rewrite map_length; exact F) Eu).
Qed.
Print Assumptions C62_all_words.
Theorem C62_last_word_skipped : forall d high gf el s a x t ws fuel first blanks word, wf_desc d -> d_nul d = Some 0 -> reached d s a ->
  is_Some (a !! x) -> a !! t = None -> elements_unused el a [t] ->
  words_ok first (ws ++ [(blanks, word)]) -> List.Forall (fun w => usable high (snd w)) (ws ++ [(blanks, word)]) -> (List.length ws <= fuel)%nat ->
  gathers d gf el (hcollect d gf el fuel (hread_word d high x t) x 0) (fresh (words_text (ws ++ [(blanks, word)]))) s a x (map snd ws) word (ended []).
Proof.
  intros d high gf el s a x t ws fuel first blanks word Hw Hn H Hx Ht [Ei Eu] W U F.
  exact (feed_gathers d Hw high gf el Ei _ x t _ _ _ _ s a fuel (words_last_feed d Hw Hn high x t blanks word ws first W U) H Hx Ht ltac:(rewrite map_length; exact F) Eu).
Qed.
Print Assumptions C62_last_word_skipped.
Definition never (k : nat) : bool := false.
Example C62_all_words_ex : elements_unused el100 va [9%positive] /\ is_Some (va !! 1%positive) /\
  words_ok true [([], bs "one"); (bs " ", bs "two")] /\
  outcome (hcollect sdesc never el100 5 (hread_word sdesc strict 1 9) 1 0 (fresh (bs "one two "), sa)) [101; 102; 103; 1; 2]%positive =
    (Returned, Some (ended []), [str "one"; str "two"; None; str ""; str "a-b--c"]) /\
  outcome (hcollect sdesc never el100 5 (hread_word sdesc strict 1 9) 1 0 (fresh (bs "one two"), sa)) [101; 102; 103; 1; 2]%positive =
    (Returned, Some (ended []), [str "one"; None; None; str "two"; str "a-b--c"]).
Proof.
  split; [apply el100_unused; run|]. split; [vm_compute; eauto|]. split.
  { cbn [words_ok]. repeat match goal with |- _ /\ _ => split end; try exact I; try (apply spaces; run); try (apply nospaces; run); discriminate. }
  split; run.
Qed.
(** C62: likewise with getline. *)
Theorem C62_all_lines : forall d gf el s a x t ls fuel tail, wf_desc d -> d_nul d = Some 0 -> reached d s a ->
  is_Some (a !! x) -> a !! t = None -> elements_unused el a [t] ->
  List.Forall (fun l => ~ In 10 l) ls -> ~ In 10 tail -> (List.length ls <= fuel)%nat ->
  gathers d gf el (hcollect d gf el fuel (hread_line d x t) x 0) (fresh (lines_text ls ++ tail)) s a x ls tail (ended []).
Proof.
  intros d gf el s a x t ls fuel tail Hw Hn H Hx Ht [Ei Eu] N T F.
  exact (feed_gathers d Hw strict gf el Ei _ x t _ _ _ _ s a fuel (lines_feed d Hw Hn strict x t ls tail N T) H Hx Ht F Eu).
Qed.
Print Assumptions C62_all_lines.
Example C62_all_lines_ex : 
  outcome (hcollect sdesc never el100 5 (hread_line sdesc 1 9) 1 0 (fresh (bs "one" ++ 10 :: 10 :: bs "two"), sa)) [101; 102; 103; 1; 2]%positive =
    (Returned, Some (ended []), [str "one"; str ""; None; str "two"; str "a-b--c"]) /\
  outcome (hcollect (sdesc_oom 16) never el100 5 (hread_line (sdesc_oom 16) 1 9) 1 0 (fresh (bs "one" ++ 10 :: bs "lengthiest"), so 16)) [101; 102; 1; 2]%positive =
    (Threw BadAlloc, Some (fresh (bs "ngthiest")), [str "one"; None; str "l"; str "a-b--c"]).
Proof. split; run. Qed.
