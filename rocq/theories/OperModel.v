(** Operators of Array and String that are made of other members: increment, decrement, stream operators,
    concatenation; and the members of temporaries. On the heap model; results are constructed in a
    variable named by the caller. For Array, T is any type; String has T = char.
    Not instantiable and so not modelled: Array(const_pointer) and Array::operator+=(Array&&), which use
    names of the dependent base class unqualified; prefix ++ of an Array<int>, where [+= 1] is ambiguous. *)
From Verif Require Import RcaSpec RcaModel RcaExec.
Open Scope Z_scope.

Section Oper.
Context {T : Type} (d : desc T).
Notation Mm := (M (state T)).

Definition call (o : op T) : Mm unit := exec d o ;;; ret tt.
(** The scope of a local that is destroyed at its end, also by an exception. *)
Definition scope {A} (x : positive) (m : Mm A) : Mm A := fun s =>
  match m s with
  | Ok v s' => (call (Destroy x) ;;; ret v) s'
  | Exn e s' => match call (Destroy x) s' with
                | Ok _ s'' => Exn e s''
                | Exn _ _ => Term
                | Term => Term | Fuel => Fuel | Undef u => Undef u
                end
  | r => r
  end.

(** Slice::operator T, ReferenceCountedArray.h:173-177. *)
Definition sliced (r x : positive) (start len : Z) : Mm unit := call (CtorCopy r x) ;;; call (SliceTo r start len).
(** ++offset. *)
Definition bump x : Mm unit :=
  let* o := get_obj x in set_obj x (Obj (o_ref o) (u64 (o_off o + 1)) (o_len o) (o_hash o)).

(** Array::operator++(), Array.h:265-267, and operator--(), 287-290. *)
Definition arr_pre_inc x : Mm unit := call (ArrDropFront x 1).
Definition arr_pre_dec x : Mm unit := call (PopBack x).
(** Array::operator++(int) &, Array.h:272-277. *)
Definition arr_post_inc (r x : positive) : Mm unit := sliced r x 0 1 ;;; bump x ;;; sub_length x 1.
(** Array::operator--(int) &, Array.h:295-299. *)
Definition arr_post_dec (r x : positive) : Mm unit :=
  let* n := length_of x in
  sliced r x (s64 (u64 (n - 1))) 1 ;;; sub_length x 1.
(** Array::operator++(int) && and operator--(int) &&, Array.h:279-282, 301-304: the array of one element. *)
Definition arr_post_inc_rv (r x : positive) : Mm unit := let* v := shift d x in call (CtorList r [v]).
Definition arr_post_dec_rv (r x : positive) : Mm unit := let* v := pop d x in call (CtorList r [v]).

(** String::operator++(), String.h:480-482, operator++(int), 487-491, operator--(), 496-499, operator--(int), 504-508. *)
Definition str_pre_inc x : Mm unit := call (StrDropFront x 1).
Definition str_post_inc (r x : positive) : Mm unit := call (CtorCopy r x) ;;; str_pre_inc x.
Definition str_pre_dec x : Mm unit := call (PopBack x).
Definition str_post_dec (r x : positive) : Mm unit := call (CtorCopy r x) ;;; str_pre_dec x.

(** operator<<(Array&, item), Array.h:92-101, and operator>>(Array&, item), 144-148. *)
Definition shl x (v : T) : Mm unit := call (AppendItem x v).
Definition shr x : Mm T := pop d x.

(** operator+(Array, const Array&), Array.h:257-260: [p] is the parameter. *)
Definition plus (r p x y : positive) : Mm unit :=
  call (CtorCopy p x) ;;; scope p (call (AppendN false p y npos) ;;; call (CtorMove r p)).

(** Array::shift() && and pop() &&, Array.h:118-122, 135-139, in a release build: the element is moved
    out of its slot whoever else uses the buffer. *)
Definition steal x (pos : Z) : Mm T :=
  let* v := load1 x pos in
  (if d_class d then store x pos [None] else ret tt) ;;; ret v.
Definition shift_rv x : Mm T := steal x 0.
Definition pop_rv x : Mm T := let* n := length_of x in steal x (u64 (n - 1)).
(** The same with assertions on. *)
Definition checked {A} x (m : Mm A) : Mm A :=
  let* n := length_of x in
  let* sh := is_shared x in
  if (n =? 0) || (sh : bool) then undef Asserted else m.
End Oper.
