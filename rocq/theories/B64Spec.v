(** RFC 4648 base64: three bytes form a 24 bit number written as four base 64 digits; the last group is filled with
    zero bits and padded with '='. [alpha] gives the character of a digit. *)
From Verif Require Import Base StrSpec.
Open Scope Z_scope.

Section Enc.
Variable alpha : Z -> Z.
Definition digit (n k : Z) : Z := alpha (n / 64 ^ k mod 64).
Fixpoint enc64 (x : chars) : chars :=
  match x with
  | a :: b :: c :: r =>
    let n := (a * 256 + b) * 256 + c in digit n 3 :: digit n 2 :: digit n 1 :: digit n 0 :: enc64 r
  | [a; b] => let n := (a * 256 + b) * 256 in [digit n 3; digit n 2; digit n 1; 61]
  | [a] => let n := a * 256 * 256 in [digit n 3; digit n 2; 61; 61]
  | [] => []
  end.
End Enc.
(** The standard alphabet A-Z a-z 0-9 + /. *)
Definition std_alpha (v : Z) : Z :=
  if v <? 26 then 65 + v else if v <? 52 then 97 + (v - 26) else if v <? 62 then 48 + (v - 52) else if v =? 62 then 43 else 47.
(** The character table [cs] lists [alpha]. *)
Definition lists (cs : chars) (alpha : Z -> Z) : Prop := forall v, 0 <= v < 64 -> znth v cs = Some (alpha v).
(** An alphabet: 64 different ASCII characters without '='. *)
Definition alphabet (alpha : Z -> Z) : Prop :=
  (forall v, 0 <= v < 64 -> 0 <= alpha v < 128 /\ alpha v <> 61) /\
  (forall v w, 0 <= v < 64 -> 0 <= w < 64 -> alpha v = alpha w -> v = w).
(** The charset argument (null for the standard one) stands for the alphabet [alpha]. *)
Definition selects (charset : option chars) (alpha : Z -> Z) : Prop :=
  match charset with Some cs => lists cs alpha /\ alphabet alpha | None => alpha = std_alpha end.
(** A length of 4k+3 whose last character is the padding. *)
Definition ends_padded (data : chars) : Prop := zlen data mod 4 = 3 /\ znth (zlen data - 1) data = Some 61.
