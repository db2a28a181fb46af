(** Model of operator<<(std::ostream&, const String&) and (std::ostream&, String&&) (String.h:603-615), on a model of
    std::ostream: the formatted insertion of one character as the standard and libstdc++ describe it. The state is the
    stream and the heap model. exceptions() is not in use. Characters are written by a loop that only reads the String, so its
    contents are read once. *)
From Verif Require Import RcaSpec RcaModel RcaExec AlgModel OsSpec.
Open Scope Z_scope.

Section Os.
Variable marks : bool.   (* the sentry sets failbit when the stream is not good: the standard leaves this open *)

Definition with_out (o : ostream) (l : list Z) : ostream := OS l (os_eof o) (os_fail o) (os_bad o) (os_width o) (os_fill o) (os_left o) (os_takes o).
Definition set_bad (o : ostream) : ostream := OS (os_out o) (os_eof o) (os_fail o) true (os_width o) (os_fill o) (os_left o) (os_takes o).
Definition set_fail (o : ostream) : ostream := OS (os_out o) (os_eof o) true (os_bad o) (os_width o) (os_fill o) (os_left o) (os_takes o).
Definition set_width (o : ostream) (w : Z) : ostream := OS (os_out o) (os_eof o) (os_fail o) (os_bad o) w (os_fill o) (os_left o) (os_takes o).
(** sputc, with badbit set if it fails. *)
Definition sputc (c : Z) (o : ostream) : ostream := if os_takes o (zlen (os_out o)) then with_out o (os_out o ++ [c]) else set_bad o.
(** The padding: stops when it fails. *)
Fixpoint pad (n : nat) (o : ostream) : ostream :=
  match n with O => o | S n' => let o := sputc (os_fill o) o in if os_good o then pad n' o else o end.
(** operator<<(ostream&, char). *)
Definition insert_char (c : Z) (o : ostream) : ostream :=
  if negb (os_good o) then (if marks then set_fail o else o) else
  let n := Z.to_nat (os_width o - 1) in
  let left := os_left o in
  let o := if left then o else pad n o in
  let o := if os_good o then sputc c o else o in
  let o := if left && os_good o then pad n o else o in
  set_width o 0.
(** The loop, String.h:604-605. *)
Fixpoint insert_chars (l : list Z) (o : ostream) : ostream :=
  match l with [] => o | c :: l' => insert_chars l' (insert_char c o) end.

Notation Mo := (M (ostream * state Z)).
Definition on_heap {A} (m : M (state Z) A) : Mo A := fun p =>
  match m (snd p) with
  | Ok v s => Ok v (fst p, s)
  | Exn e s => Exn e (fst p, s)
  | Term => Term | Fuel => Fuel | Undef u => Undef u
  end.
Definition on_os (f : ostream -> ostream) : Mo unit := fun p => Ok tt (f (fst p), snd p).
(** operator<<(std::ostream&, const String&), String.h:603-608. *)
Definition hput (x : positive) : Mo unit := let* l := on_heap (contents x) in on_os (insert_chars l).
(** operator<<(std::ostream&, String&&), String.h:610-615; [dbg]: assertions are on. *)
Definition hput_rv (dbg : bool) (x : positive) : Mo unit :=
  let* sh := on_heap (is_shared x) in
  if dbg && sh then undef Asserted else hput x.
(** os << x.substring(start, len), with String.h:323-327: the temporary [t] is an rvalue. *)
Definition hput_substring (d : desc Z) (dbg : bool) (t x : positive) (start len : Z) : Mo unit :=
  on_heap (hslice d t x start len) ;;; hput_rv dbg t ;;; on_heap (call d (Destroy t)).
(** for (x : xs) os << x << sep; *)
Fixpoint hput_all (xs : list positive) (sep : Z) : Mo unit :=
  match xs with [] => ret tt | x :: xs' => hput x ;;; on_os (insert_char sep) ;;; hput_all xs' sep end.
End Os.
