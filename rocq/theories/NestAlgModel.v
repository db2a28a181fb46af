(** String::split, and join and the comparisons of Array<String>, on arrays in memory (String.cpp:192-236, Array.h:153-216).

    AlgModel.v runs split and join on Strings on the heap, with an Array<String> that is a list of variables. Here the
    array is one of NestModel.v: it grows, shares, and its allocations can fail. Names are as in NestModel.v: [r], [x]
    are arrays or Strings of the program as said, locals and temporaries have names of their own. The name 1 is for the
    element that a call uses.

    Simplifications:
    - loops that only read do so as in AlgModel.v;
    - Array<String>({a}), ReferenceCountedArray.h:487-490, is reserve(1) and an append;
    - the assertions of split about reference counts (199, 217, 227, 233) are those of AlgModel.v (C56). *)
From Verif Require Import RcaSpec RcaModel RcaExec StrModel AlgModel ArrModel NestModel.
Open Scope Z_scope.

Section Alg.
Variable d : desc Z.
Variable od : desc positive.
Variable mdiff : Z -> Z -> Z.
Notation Mn := (M nstate).

Definition ncall (o : nop) : Mn unit := nexec d od o ;;; ret tt.
Definition scall (o : op Z) : Mn unit := ncall (NStr o).
(** When an exception leaves the scope of something, it is destroyed by [o]. *)
Definition nunwind {A} (o : nop) (m : Mn A) : Mn A := fun s =>
  match m s with
  | Exn e s' => match ncall o s' with
                | Ok _ s'' => Exn e s''
                | Exn _ _ => Term
                | Term => Term | Fuel => Fuel | Undef u => Undef u
                end
  | r => r
  end.
Definition nscope {A} (o : nop) (m : Mn A) : Mn A := let* v := nunwind o m in ncall o ;;; ret v.

(** array << operator()(it, len), String.cpp:216 and 226: the temporary is const, so it is copied. *)
Definition npiece (r : var) (t x : positive) (it len : Z) : Mn unit :=
  scall (CtorCopy t x) ;;; scall (SliceTo t it len) ;;; nscope (NStr (Destroy t)) (ncall (NAppend false r t)).
(** String::split, String.cpp:192-236: the array is [r], the local space is [sp], [t] the temporaries. *)
Fixpoint nsplit_loop (fuel : nat) (r : var) (x y sp t : positive) (limit it : Z) : Mn Z :=
  let* k := outer (length_of r) in
  if negb (k <? u64 (limit - 1)) then ret it else                                              (* 205 *)
  match fuel with
  | O => fun _ => Fuel
  | S f =>
    let* it := inner (hskip mdiff (str x) (str y) (str sp) it) in                              (* 209 *)
    let* n := inner (length_of (str x)) in
    if n <=? it then ret it else                                                               (* 212 *)
    let* p := inner (hfind_ (str x) (str y) it) in
    let pos := if p =? npos then n - it else p in                                              (* 214-215 *)
    npiece r t x it (s64 pos) ;;;                                                              (* 216 *)
    let* m := inner (length_of (str y)) in
    let it' := it + (pos + m) in                                                               (* 218 *)
    inner (assert_ d (it' - m <=? n)) ;;;                                                        (* 219 *)
    nsplit_loop f r x y sp t limit it'
  end.
Definition nsplit (fuel : nat) (r : var) (x y sp t : positive) (limit : Z) : Mn unit :=
  let* n := inner (length_of (str x)) in
  if n =? 0 then ncall (NNew r) else                                                           (* 193 *)
  if limit =? 1 then                                                                           (* 194-196 *)
    scall (CtorCopy t x) ;;;
    nscope (NStr (Destroy t)) (ncall (NNew r) ;;; nunwind (NKill r) (ncall (NReserve r 1) ;;; ncall (NAppend false r t)))
  else
  scall (CtorChar sp 32) ;;;                                                                   (* 201 *)
  nscope (NStr (Destroy sp))
   (ncall (NNew r) ;;;                                                                         (* 202 *)
    nunwind (NKill r)
     (let* it := nsplit_loop fuel r x y sp t limit 0 in                                        (* 205-220 *)
      if negb (limit =? npos) then
        let* it := inner (hskip mdiff (str x) (str y) (str sp) it) in                          (* 225 *)
        npiece r t x it (-1)                                                                   (* 226 *)
      else ret tt)).

(** Array<String>::join, Array.h:153-176: str is [r], the array [x], the delimiter [y]; [c1], [c2] hold the quotes, [m1], [m2]
    the sums. *)
Fixpoint nsum (x : var) (k : nat) (i sz : Z) : Mn Z :=
  match k with
  | O => ret sz
  | S k' => let* z := nslot x i in let* n := inner (length_of z) in nsum x k' (i + 1) (u64 (sz + n))
  end.
(** str += '"' + *constBuf(i) + '"' *)
Definition nplus_quoted (r : positive) (x : var) (i : Z) (c1 m1 c2 m2 : positive) : Mn unit :=
  scall (CtorChar c1 34) ;;;
  nscope (NStr (Destroy c1))
   (ncall (NPeek x i (AppendN false c1 1 npos)) ;;; scall (CtorMove m1 c1) ;;;
    nscope (NStr (Destroy m1))
     (scall (CtorChar c2 34) ;;;
      nscope (NStr (Destroy c2))
       (scall (AppendN false m1 c2 npos) ;;; scall (CtorMove m2 m1) ;;;
        nscope (NStr (Destroy m2)) (scall (AppendN true r m2 npos))))).
Fixpoint njoin_loop (k : nat) (i : Z) (r : positive) (x : var) (y : positive) (quoted : bool) (c1 m1 c2 m2 : positive) : Mn unit :=
  match k with
  | O => ret tt
  | S k' =>
    (if i =? 0 then ret tt else scall (AppendN false r y npos)) ;;;
    (if quoted then nplus_quoted r x i c1 m1 c2 m2 else ncall (NPeek x i (AppendN false r 1 npos))) ;;;
    njoin_loop k' (i + 1) r x y quoted c1 m1 c2 m2
  end.
Definition njoin (r : positive) (x : var) (y : positive) (quoted : bool) (c1 m1 c2 m2 : positive) : Mn unit :=
  let* n := outer (length_of x) in
  if n =? 0 then scall (CtorDefault r) else
  let* dl := inner (length_of (str y)) in
  let sz := u64 (u64 (n * dl) - 1) in
  let sz := if quoted then u64 (sz + u64 (n * 2)) else sz in
  let* sz := nsum x (Z.to_nat n) 0 sz in
  scall (CtorSized r sz) ;;;
  nunwind (NStr (Destroy r)) (njoin_loop (Z.to_nat n) 0 r x y quoted c1 m1 c2 m2).

(** The comparison of two elements, operator!= of String (String.h:542-601); [coin] as in ArrModel.v. *)
Definition elem_ne (coin : bool) (z w : positive) : M (state Z) bool :=
  let* o1 := get_obj z in let* o2 := get_obj w in
  let* a := contents z in let* b := contents w in pure (op_ne mdiff (same_address coin o1 o2) a b).
(** Array.h:202-206. *)
Fixpoint neq_loop (coin : bool) (k : nat) (x y : var) (i : Z) : Mn bool :=
  match k with
  | O => ret true
  | S k' =>
    let* z := nslot x i in let* w := nslot y i in
    let* b := inner (elem_ne coin z w) in
    if (b : bool) then ret false else neq_loop coin k' x y (i + 1)
  end.
(** equals(array, n), Array.h:187-207. *)
Definition nequals_n (coin : bool) (x y : var) (n : Z) : Mn bool :=
  let* o1 := outer (get_obj x) in let* o2 := outer (get_obj y) in
  let same_length := o_len o1 =? o_len o2 in
  if same_address coin o1 o2 && same_length then ret true else
  if negb same_length then ret false else
  let slen := Z.min (o_len o2) n in
  let len := Z.min (o_len o1) slen in
  neq_loop coin (Z.to_nat len) x y 0.
(** operator==, Array.h:209-212, with equals(array), 178-180. *)
Definition narr_eq (coin : bool) (x y : var) : Mn bool :=
  let* n := outer (length_of x) in let* m := outer (length_of y) in
  if n =? m then let* m := outer (length_of y) in nequals_n coin x y m else ret false.
End Alg.
