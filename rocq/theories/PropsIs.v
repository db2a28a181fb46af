(** C29, reading Strings from an istream. [full] tells when appending runs out of memory, [high] what isspace does with a
    negative argument (C leaves that undefined, some libraries define it). *)
From Coq Require Import Lia String.
From Verif Require Import Base StrEx IsSpec IsModel IsProof.
Open Scope Z_scope.
Ltac run := vm_compute; reflexivity.
Definition ample (n : Z) : bool := false.
Definition strict (b : Z) : option bool := None.
Lemma ascii_usable (w : list Z) : forallb (fun b => b <? 128) w = true -> forall high, usable high w.
Proof. intros A high b I R. rewrite forallb_forall in A. specialize (A b I). lia. Qed.
Lemma spaces l : forallb blank l = true -> Forall space l.
Proof. intros A. apply Forall_forall. intros b I. rewrite forallb_forall in A. apply blank_space, A, I. Qed.
Lemma nospaces l : forallb (fun b => negb (blank b)) l = true -> Forall (fun b => ~ space b) l.
Proof.
  intros A. apply Forall_forall. intros b I S. rewrite forallb_forall in A. specialize (A b I).
  rewrite (proj2 (blank_space b) S) in A. discriminate.
Qed.

(** C29: >> skips blanks and delivers the word up to the next blank, which stays in the stream. Without a next blank the
    stream is left failed. *)
Theorem C29_word : forall high full text blanks word rest old,
  word_first text blanks word rest -> usable high word -> (forall k, 0 <= k < zlen word -> full k = false) ->
  read_word full high (IST (fresh text) old) = Ok tt (IST (match rest with [] => ended [] | _ => fresh rest end) word).
Proof. exact read_word_ok. Qed.
Print Assumptions C29_word.
Example C29_word_ex : word_first (bs "  two words") (bs "  ") (bs "two") (bs " words") /\ usable strict (bs "two") /\
  read_word ample strict (IST (fresh (bs "  two words")) (bs "old")) = Ok tt (IST (fresh (bs " words")) (bs "two")) /\
  word_first (bs "words") [] (bs "words") [] /\
  read_word ample strict (IST (fresh (bs "words")) []) = Ok tt (IST (ended []) (bs "words")).
Proof.
  unfold word_first.
  repeat match goal with |- _ /\ _ => split end; try run; try (apply ascii_usable; run); try (apply spaces; run); try (apply nospaces; run); try discriminate.
  vm_compute. right. reflexivity.
Qed.

(** C29: nothing but blanks left, or a stream already in an error state. *)
Theorem C29_no_word : forall high full blanks old, Forall space blanks ->
  read_word full high (IST (fresh blanks) old) = Ok tt (IST (ended []) []).
Proof. exact read_word_none. Qed.
Print Assumptions C29_no_word.
Example C29_no_word_ex : Forall space (bs "   ") /\ read_word ample strict (IST (fresh (bs "   ")) (bs "old")) = Ok tt (IST (ended []) []).
Proof. split; [apply spaces; run|run]. Qed.
Theorem C29_not_good : forall high full i old, is_good i = false ->
  read_word full high (IST i old) = Ok tt (IST (setstate false true i) []) /\ read_line full (IST i old) = Ok tt (IST (setstate false true i) []).
Proof. intros high full i old B. exact (conj (read_word_bad high full i old B) (read_line_bad full i old B)). Qed.
Print Assumptions C29_not_good.
Example C29_not_good_ex : is_good (IS (bs "left") true false false true) = false /\
  read_word ample strict (IST (IS (bs "left") true false false true) (bs "old")) = Ok tt (IST (IS (bs "left") true true false true) []).
Proof. split; run. Qed.

(** C29: getline delivers the characters before the newline, which it takes from the stream. *)
Theorem C29_line : forall full line rest old, ~ In 10 line -> (forall k, 0 <= k < zlen line -> full k = false) ->
  read_line full (IST (fresh (line ++ 10 :: rest)) old) = Ok tt (IST (fresh rest) line).
Proof. exact read_line_ok. Qed.
Print Assumptions C29_line.
Example C29_line_ex : ~ In 10 (bs "a line ") /\ read_line ample (IST (fresh (bs "a line " ++ 10 :: bs "next")) (bs "old")) = Ok tt (IST (fresh (bs "next")) (bs "a line ")).
Proof. split; [intros I; vm_compute in I; intuition discriminate|run]. Qed.
Theorem C29_last_line : forall full line old, ~ In 10 line -> (forall k, 0 <= k < zlen line -> full k = false) ->
  read_line full (IST (fresh line) old) = Ok tt (IST (ended []) line).
Proof. exact read_line_last. Qed.
Print Assumptions C29_last_line.
Example C29_last_line_ex : read_line ample (IST (fresh (bs "tail")) []) = Ok tt (IST (ended []) (bs "tail")).
Proof. run. Qed.

(** C29: running out of memory keeps what was appended and loses one character of the stream. *)
Theorem C29_word_no_memory : forall high full blanks b w1 c w2 rest old,
  Forall space blanks -> Forall (fun b => ~ space b) (b :: w1 ++ [c]) -> usable high (b :: w1 ++ [c]) ->
  (forall k, 0 <= k <= zlen w1 -> full k = false) -> full (zlen w1 + 1) = true ->
  read_word full high (IST (fresh (blanks ++ b :: w1 ++ c :: w2 ++ rest)) old) = Exn BadAlloc (IST (fresh (w2 ++ rest)) (b :: w1)).
Proof. exact read_word_oom. Qed.
Print Assumptions C29_word_no_memory.
Example C29_word_no_memory_ex : read_word (Z.eqb 3) strict (IST (fresh (bs " lengthy word")) []) = Exn BadAlloc (IST (fresh (bs "thy word")) (bs "len")).
Proof. run. Qed.
Theorem C29_line_no_memory : forall full l1 c rest old, ~ In 10 l1 -> c <> 10 -> (forall k, 0 <= k < zlen l1 -> full k = false) -> full (zlen l1) = true ->
  read_line full (IST (fresh (l1 ++ c :: rest)) old) = Exn BadAlloc (IST (fresh rest) l1).
Proof. exact read_line_oom. Qed.
Print Assumptions C29_line_no_memory.
Example C29_line_no_memory_ex : read_line (Z.eqb 3) (IST (fresh (bs "lengthy line")) []) = Exn BadAlloc (IST (fresh (bs "thy line")) (bs "len")).
Proof. run. Qed.

(** C29: the loop while (is >> s) sees every word followed by a blank ... *)
Theorem C29_all_words : forall high full ws fuel first tail old,
  words_ok first ws -> Forall space tail -> tail <> [] -> Forall (fun w => usable high (snd w)) ws ->
  longest full (map snd ws) -> (List.length ws <= fuel)%nat ->
  collect fuel (read_word full high) (IST (fresh (words_text ws ++ tail)) old) = Ok (map snd ws) (IST (ended []) []).
Proof. exact collect_words. Qed.
Print Assumptions C29_all_words.
Example C29_all_words_ex : words_ok true [([], bs "one"); (bs " ", bs "two")] /\
  collect 5 (read_word ample strict) (IST (fresh (bs "one two ")) []) = Ok [bs "one"; bs "two"] (IST (ended []) []).
Proof.
  split; [|run]. cbn [words_ok].
  repeat match goal with |- _ /\ _ => split end; try exact I; try (apply spaces; run); try (apply nospaces; run); discriminate.
Qed.
(** ... and not the last one when the stream ends right after it. *)
Theorem C29_last_word_skipped : forall high full ws fuel first blanks word old,
  words_ok first (ws ++ [(blanks, word)]) -> Forall (fun w => usable high (snd w)) (ws ++ [(blanks, word)]) ->
  longest full (map snd (ws ++ [(blanks, word)])) -> (List.length ws <= fuel)%nat ->
  collect fuel (read_word full high) (IST (fresh (words_text (ws ++ [(blanks, word)]))) old) = Ok (map snd ws) (IST (ended []) word).
Proof. exact collect_words_last. Qed.
Print Assumptions C29_last_word_skipped.
Example C29_last_word_skipped_ex :
  collect 5 (read_word ample strict) (IST (fresh (bs "one two")) []) = Ok [bs "one"] (IST (ended []) (bs "two")).
Proof. run. Qed.
(** C29: likewise for lines. *)
Theorem C29_all_lines : forall full ls fuel tail old,
  Forall (fun l => ~ In 10 l) ls -> ~ In 10 tail -> longest full (ls ++ [tail]) -> (List.length ls <= fuel)%nat ->
  collect fuel (read_line full) (IST (fresh (lines_text ls ++ tail)) old) = Ok ls (IST (ended []) tail).
Proof. exact collect_lines. Qed.
Print Assumptions C29_all_lines.
Example C29_all_lines_ex : collect 5 (read_line ample) (IST (fresh (bs "one" ++ 10 :: 10 :: bs "two")) []) = Ok [bs "one"; []] (IST (ended []) (bs "two")).
Proof. run. Qed.
(** So the usual loops drop the end of a text without final blank or newline. *)
Theorem C29_loop_refuted : exists text, In 122 text /\
  collect 9 (read_word ample strict) (IST (fresh text) []) = Ok [bs "x"; bs "y"] (IST (ended []) (bs "z")) /\
  exists text', In 122 text' /\ collect 9 (read_line ample) (IST (fresh text') []) = Ok [bs "x"; bs "y"] (IST (ended []) (bs "z")).
Proof.
  exists (bs "x y z"). split; [vm_compute; tauto|]. split; [run|]. exists (bs "x" ++ 10 :: bs "y" ++ 10 :: bs "z"). split; [vm_compute; tauto|run].
Qed.
Print Assumptions C29_loop_refuted.

(** C29: a byte from 128 to 254 is passed to isspace as a negative number. *)
Theorem C29_high_bytes_refuted : exists text, ~ In 0 text /\ read_word ample strict (IST (fresh text) []) = Undef UbBounds.
Proof. exists [195; 169; 116; 195; 169]. split; [intros I; vm_compute in I; intuition discriminate|run]. Qed.
Print Assumptions C29_high_bytes_refuted.

(** C29: with skipws switched off a leading blank is delivered as part of the word. *)
Theorem C29_noskipws_refuted : exists text, read_word ample strict (IST (IS text false false false false) []) =
  Ok tt (IST (IS (bs " c") false false false false) (bs " ab")) /\ text = bs " ab c".
Proof. eexists. split; [|reflexivity]. run. Qed.
Print Assumptions C29_noskipws_refuted.
