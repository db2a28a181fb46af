(** Model of operator>> and getline for String (String.cpp:154-184) on a model of std::istream: formatted and unformatted
    extraction of one character and putback as the standard describes them, the C locale for skipping blanks. Putting back
    the character just read succeeds. The String is its contents; appending to it may run out of memory. *)
From Verif Require Import Base IsSpec.
Open Scope Z_scope.

Record ist := IST { i_is : istream; i_str : list Z }.
Notation Mi := (M ist).
Definition set_is (i : istream) : Mi unit := fun s => Ok tt (IST i (i_str s)).
Definition get_is : Mi istream := fun s => Ok (i_is s) s.
Definition setstate (eof fail : bool) (i : istream) : istream := IS (is_data i) (is_eof i || eof) (is_fail i || fail) (is_bad i) (is_skipws i).
Definition with_data (i : istream) (l : list Z) : istream := IS l (is_eof i) (is_fail i) (is_bad i) (is_skipws i).
Definition blank (b : Z) : bool := ((9 <=? b) && (b <=? 13)) || (b =? 32).
Fixpoint skip_blanks (l : list Z) : list Z := match l with [] => [] | b :: l' => if blank b then skip_blanks l' else l end.
(** istream::sentry. *)
Definition sentry (noskip : bool) (i : istream) : bool * istream :=
  if negb (is_good i) then (false, setstate false true i) else
  if noskip || negb (is_skipws i) then (true, i) else
  match skip_blanks (is_data i) with
  | [] => (false, setstate true true (with_data i []))
  | l => (true, with_data i l)
  end.
(** One character; [ch] stays as it was when there is none. *)
Definition extract (noskip : bool) (ch : option Z) : Mi (option Z) :=
  let* i := get_is in
  let (ok, i) := sentry noskip i in
  if negb ok then set_is i ;;; ret ch else
  match is_data i with
  | [] => set_is (setstate true true i) ;;; ret ch
  | b :: l => set_is (with_data i l) ;;; ret (Some b)
  end.
(** istream::putback. *)
Definition putback (b : Z) : Mi unit :=
  let* i := get_is in
  let i := IS (is_data i) false (is_fail i) (is_bad i) (is_skipws i) in
  if negb (is_good i) then set_is (setstate false true i) else set_is (with_data i (b :: is_data i)).

Section Model.
Variable full : Z -> bool.          (* appending to a string of this length throws bad_alloc *)
Variable high : Z -> option bool.   (* isspace of a negative argument (byte 128 to 254): None is undefined *)

Definition set_str (l : list Z) : Mi unit := fun s => Ok tt (IST (i_is s) l).
Definition append_char (ch : option Z) : Mi unit := fun s =>
  match ch with
  | None => Undef UbIndet
  | Some b => if full (zlen (i_str s)) then Exn BadAlloc s else Ok tt (IST (i_is s) (i_str s ++ [b]))
  end.
(** isspace(ch); char is signed, 255 is EOF. *)
Definition isspace (ch : option Z) : Mi bool :=
  match ch with
  | None => undef UbIndet
  | Some b => if (128 <=? b) && (b <? 255) then match high b with Some r => ret r | None => undef UbBounds end else ret (blank b)
  end.
(** do ... while, String.cpp:161-165; gives the last ch. *)
Fixpoint word_loop (fuel : nat) (ch : option Z) : Mi (option Z) :=
  match fuel with
  | O => fun _ => Fuel
  | S f =>
    append_char ch ;;;
    let* ch := extract true ch in
    let* i := get_is in
    if is_fail i || is_bad i then ret ch else
    let* sp := isspace ch in
    if (sp : bool) then ret ch else word_loop f ch
  end.
(** operator>>, String.cpp:154-173. *)
Definition read_word : Mi unit :=
  set_str [] ;;;
  let* ch := extract false None in
  let* i := get_is in
  if is_fail i || is_bad i then ret tt else
  let* ch := word_loop (S (length (is_data i))) ch in
  let* sp := isspace ch in
  if (sp : bool) then match ch with Some b => putback b | None => ret tt end else ret tt.
(** getline, String.cpp:175-184. *)
Fixpoint line_loop (fuel : nat) (ch : option Z) : Mi unit :=
  let* ch := extract true ch in
  let* i := get_is in
  if is_fail i || is_bad i then ret tt else
  match ch with
  | None => undef UbIndet
  | Some b => if b =? 10 then ret tt else
    match fuel with
    | O => fun _ => Fuel
    | S f => append_char ch ;;; line_loop f ch
    end
  end.
Definition read_line : Mi unit :=
  set_str [] ;;; let* i := get_is in line_loop (length (is_data i)) (Some 0).
(** The usual loop: while (is >> s) out << s; *)
Fixpoint collect (fuel : nat) (rd : Mi unit) : Mi (list (list Z)) :=
  rd ;;;
  fun s => if is_fail (i_is s) || is_bad (i_is s) then Ok [] s else
  match fuel with
  | O => Fuel
  | S f => (let* out := collect f rd in ret (i_str s :: out)) s
  end.
End Model.
