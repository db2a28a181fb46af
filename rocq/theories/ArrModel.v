(** Model of the comparisons of Array (Array.h:178-216) over the heap model of RcaModel. operator!= of the element type is the
    negation of its operator==. *)
From Verif Require Import Base RcaModel.
Open Scope Z_scope.

Section Model.
Context {T : Type} (d : desc T).
Notation Mm := (M (state T)).

(** constBuf() == array.constBuf(): the same ArrayRef and offset (ReferenceCountedArray.h:301-310). The pointer of an empty
    array may point behind a buffer and so be equal to an unrelated one: [coin]. *)
Definition same_address (coin : bool) (o1 o2 : obj) : bool :=
  match o_ref o1, o_ref o2 with
  | None, None => true
  | Some l1, Some l2 => if Pos.eqb l1 l2 then o_off o1 =? o_off o2 else ((o_len o1 =? 0) || (o_len o2 =? 0)) && coin
  | _, _ => ((o_len o1 =? 0) || (o_len o2 =? 0)) && coin
  end.
(** The loop, Array.h:202-206. *)
Fixpoint eq_loop (fuel : nat) (x y : var) (i len : Z) : Mm bool :=
  if len <=? i then ret true else
  match fuel with
  | O => fun _ => Fuel
  | S f => let* v := read x i in let* w := read y i in if d_eqb d v w then eq_loop f x y (i + 1) len else ret false
  end.
(** equals(array, n), Array.h:187-207. *)
Definition arr_equals_n (coin : bool) (x y : var) (n : Z) : Mm bool :=
  let* o1 := get_obj x in let* o2 := get_obj y in
  let same_length := o_len o1 =? o_len o2 in
  if same_address coin o1 o2 && same_length then ret true else
  if negb same_length then ret false else
  let slen := Z.min (o_len o2) n in
  let len := Z.min (o_len o1) slen in
  eq_loop (Z.to_nat len) x y 0 len.
(** equals(array), Array.h:178-180. *)
Definition arr_equals (coin : bool) (x y : var) : Mm bool := let* n := length_of y in arr_equals_n coin x y n.
(** operator==, Array.h:209-212, and operator!=, 213-216. *)
Definition arr_eq (coin : bool) (x y : var) : Mm bool :=
  let* n := length_of x in let* m := length_of y in if n =? m then arr_equals coin x y else ret false.
Definition arr_ne (coin : bool) (x y : var) : Mm bool := let* b := arr_eq coin x y in ret (negb b).
End Model.
