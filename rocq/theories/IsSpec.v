(** What reading Strings from an istream should do. Characters are bytes. *)
From Verif Require Export Base.
Open Scope Z_scope.

(** The white space of the C locale. *)
Definition space (b : Z) : Prop := 9 <= b <= 13 \/ b = 32.
(** An istream: what is still to be read, its error state and the skipws flag. *)
Record istream := IS { is_data : list Z; is_eof : bool; is_fail : bool; is_bad : bool; is_skipws : bool }.
Definition is_good (i : istream) : bool := negb (is_eof i) && negb (is_fail i) && negb (is_bad i).
(** Text split into blanks, a word, and what follows the word. *)
Definition word_first (text blanks word rest : list Z) : Prop :=
  text = blanks ++ word ++ rest /\ Forall space blanks /\ Forall (fun b => ~ space b) word /\ word <> [] /\
  match rest with [] => True | b :: _ => space b end.
(** Words, each with the blanks before it. *)
Fixpoint words_text (ws : list (list Z * list Z)) : list Z :=
  match ws with [] => [] | (blanks, word) :: ws' => blanks ++ word ++ words_text ws' end.
Fixpoint words_ok (first : bool) (ws : list (list Z * list Z)) : Prop :=
  match ws with
  | [] => True
  | (blanks, word) :: ws' => Forall space blanks /\ (first = false -> blanks <> []) /\ Forall (fun b => ~ space b) word /\ word <> [] /\ words_ok false ws'
  end.
(** Lines, each with its newline. *)
Fixpoint lines_text (ls : list (list Z)) : list Z := match ls with [] => [] | l :: ls' => l ++ 10 :: lines_text ls' end.
