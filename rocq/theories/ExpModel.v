(** Strings going out to C and C++ strings and coming back, and the comparison that makes a String of a C string, on the
    heap model. Memory at a pointer is a list, as in RcaModel.v; a std::string is the list of its characters. [refuses]:
    new char[] or the allocation of the std::string throws. memcpy of no bytes does nothing, whatever the pointers. *)
From Verif Require Import RcaSpec RcaModel RcaExec StrModel AlgModel.
Open Scope Z_scope.

Section Exp.
Variable d : desc Z.
Variable mdiff : Z -> Z -> Z.      (* memcmp, as in StrModel.v *)
Notation Mm := (M (state Z)).

(** dup(), String.h:249-254: the memory at the pointer returned. *)
Definition hdup (refuses : bool) (x : positive) : Mm (list Z) :=
  if refuses then throw BadAlloc else let* l := contents x in ret (l ++ [0]).
(** copy(dst, n), String.cpp:99-106: [dst] is the memory at the pointer; gives the result and what is there afterwards. *)
Definition hcopy (x : positive) (dst : list (option Z)) (n : Z) : Mm (Z * list (option Z)) :=
  let* len := length_of x in
  let slen := Z.min n len in
  let* l := load x 0 slen in
  if zlen dst <? slen then undef UbBounds else ret (slen, l ++ zdrop slen dst).
(** operator std::string, String.h:256-258. *)
Definition to_std (refuses : bool) (x : positive) : Mm chars :=
  if refuses then throw BadAlloc else contents x.
(** String(const std::string&), String.h:92; data() is followed by a NUL. *)
Definition from_std (r : positive) (l : chars) : Mm unit := call d (CtorCstrLen r (l ++ [0]) (zlen l)).
(** String r = std::string(x). *)
Definition via_std (refuses : bool) (r x : positive) : Mm unit := let* l := to_std refuses x in from_std r l.
(** y = std::string(x), String.h:164-171. *)
Definition assign_via_std (refuses : bool) (y x : positive) : Mm unit := let* l := to_std refuses x in call d (AssignStd y l).
(** String r(x.c_str()), String.h:100-108 and 232-244. *)
Definition via_cstr (guess : bool) (r x : positive) : Mm unit :=
  let* v := exec d (CStr guess x) in
  match v with
  | OMem m => match valued m with Some mem => call d (CtorCstr r mem) | None => undef UbIndet end
  | _ => undef UbIndet
  end.
(** char* p = x.dup(); String r(p); *)
Definition via_dup (refuses : bool) (r x : positive) : Mm unit := let* mem := hdup refuses x in call d (CtorCstr r mem).
(** operator<=(const String&, const char* ), String.h:578-581, with the operator< of 563-566: [t] is the temporary made of
    the C string, inside a function declared noexcept. *)
Definition hle_c (t x : positive) (mem : chars) : Mm bool := noexcept (
  call d (CtorCstr t mem) ;;;
  scope d t (let* l := contents t in let* w := contents x in let* c := pure (op_lt mdiff false l w) in ret (negb c))).
(** operator<(const String&, const char* ), 568-571. *)
Definition hlt_c (x : positive) (mem : chars) : Mm bool := let* w := contents x in pure (op_lt_c w mem).
End Exp.
