(** operator>> and getline for String, as in IsModel.v, with the String on the heap model: every assignment and append is
    the modelled member function ([exec]), so buffers shared with other Strings and failing allocations are seen.
    The temporary of [string = ""] is a variable named by the caller. *)
From Verif Require Import RcaSpec RcaModel RcaExec AlgModel IsSpec IsModel.
Open Scope Z_scope.

Section Ish.
Variable d : desc Z.
Variable high : Z -> option bool.   (* isspace of a negative argument, as in IsModel.v *)
Notation Mh := (M (istream * state Z)).

Definition on_heap {A} (m : M (state Z) A) : Mh A := fun p =>
  match m (snd p) with
  | Ok v s => Ok v (fst p, s)
  | Exn e s => Exn e (fst p, s)
  | Term => Term | Fuel => Fuel | Undef u => Undef u
  end.
Definition on_is {A} (m : Mi A) : Mh A := fun p =>
  match m (IST (fst p) []) with
  | Ok v q => Ok v (i_is q, snd p)
  | Exn e q => Exn e (i_is q, snd p)
  | Term => Term | Fuel => Fuel | Undef u => Undef u
  end.

(** string = "", String.h:159-162: the temporary String("", 0) is [t]. *)
Definition make_empty (x t : positive) : Mh unit :=
  on_heap (call d (CtorCstrLen t [0] 0) ;;; scope d t (call d (AssignMove x t))).
(** string += ch, String.h:428-431. *)
Definition put_char (x : positive) (ch : option Z) : Mh unit :=
  match ch with None => undef UbIndet | Some b => on_heap (call d (AppendItem x b)) end.
(** do ... while, String.cpp:161-165. *)
Fixpoint hword_loop (fuel : nat) (x : positive) (ch : option Z) : Mh (option Z) :=
  match fuel with
  | O => fun _ => Fuel
  | S f =>
    put_char x ch ;;;
    let* ch := on_is (extract true ch) in
    let* i := on_is get_is in
    if is_fail i || is_bad i then ret ch else
    let* sp := on_is (isspace high ch) in
    if (sp : bool) then ret ch else hword_loop f x ch
  end.
(** operator>>, String.cpp:154-173. *)
Definition hread_word (x t : positive) : Mh unit :=
  make_empty x t ;;;
  let* ch := on_is (extract false None) in
  let* i := on_is get_is in
  if is_fail i || is_bad i then ret tt else
  let* ch := hword_loop (S (length (is_data i))) x ch in
  let* sp := on_is (isspace high ch) in
  if (sp : bool) then match ch with Some b => on_is (putback b) | None => ret tt end else ret tt.
(** getline, String.cpp:175-184. *)
Fixpoint hline_loop (fuel : nat) (x : positive) (ch : option Z) : Mh unit :=
  let* ch := on_is (extract true ch) in
  let* i := on_is get_is in
  if is_fail i || is_bad i then ret tt else
  match ch with
  | None => undef UbIndet
  | Some b => if b =? 10 then ret tt else
    match fuel with
    | O => fun _ => Fuel
    | S f => put_char x ch ;;; hline_loop f x ch
    end
  end.
Definition hread_line (x t : positive) : Mh unit :=
  make_empty x t ;;; let* i := on_is get_is in hline_loop (length (is_data i)) x (Some 0).
(** while (is >> s) array << s; and the same with getline. [gf], [el] as in AlgModel.v. *)
Fixpoint hcollect (gf : nat -> bool) (el : nat -> positive) (fuel : nat) (rd : Mh unit) (x : positive) (k : nat) : Mh nat :=
  rd ;;;
  let* i := on_is get_is in
  if is_fail i || is_bad i then ret k else
  match fuel with
  | O => fun _ => Fuel
  | S f => on_heap (push_elem d gf el k x) ;;; hcollect gf el f rd x (S k)
  end.
End Ish.
