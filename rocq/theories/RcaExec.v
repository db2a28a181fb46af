(** Running API calls ([RcaSpec.op]) on the heap model: each call is the modelled function. *)
From Verif Require Import RcaSpec RcaModel.
Open Scope Z_scope.

Section Exec.
Context {T : Type} (d : desc T).
Notation Mm := (M (state T)).

Definition unit_ (m : Mm unit) : Mm (out T) := m ;;; ret ONone.
Definition val_ (m : Mm T) : Mm (out T) := let* v := m in ret (OVal v).
Definition int_ (m : Mm Z) : Mm (out T) := let* v := m in ret (OInt v).
Definition mem_ (m : Mm (list (option T))) : Mm (out T) := let* v := m in ret (OMem v).
(** String members exist only in String. *)
Definition with_nul {A} (k : T -> Mm A) : Mm A :=
  match d_nul d with Some z => k z | None => undef UbDeadVar end.
(** if (!x.isShared()) x.reserve(n); the default scaling factor is 1. *)
Definition reserve_if_own (x : positive) (n : Z) : Mm unit :=
  let* sh := is_shared x in
  if (sh : bool) then ret tt else v_reserve d x n (fun z => z).

Definition exec (o : op T) : Mm (out T) :=
  match o with
  | CtorDefault x => unit_ (ctor_default x)
  | CtorCopy x y => unit_ (ctor_copy x y)
  | CtorMove x y => unit_ (ctor_move x y)
  | CtorSized x n => unit_ (ctor_sized d x n)
  | CtorFill x n v => unit_ (ctor_fill d x n v)
  | CtorList x vs => unit_ (ctor_list d x vs)
  | CtorRange x vs => unit_ (ctor_range d x vs)
  | CtorCstr x mem => unit_ (with_nul (fun z => ctor_cstr d z x mem))
  | CtorCstrLen x mem n => unit_ (with_nul (fun z => ctor_cstrlen d z x mem n))
  | CtorChar x v => unit_ (with_nul (fun z => ctor_char d z x v))
  | Destroy x => unit_ (destroy d x)
  | AssignCopy x y => unit_ (assign_copy x y)
  | AssignMove x y => unit_ (assign_move x y)
  | Swap x y => unit_ (swap x y)
  | AssignList x vs => unit_ (assign_list d x vs)
  | AssignStd x vs => unit_ (with_nul (fun z => assign_std d z x vs))
  | Clear x => unit_ (clear x)
  | Resize x n => unit_ (resize d x n)
  | ResizeFill x n v => unit_ (resize_fill d x n v)
  | ReserveIfOwn x n => unit_ (reserve_if_own x n)
  | SliceTo x start len => unit_ (slice x start len)
  | AppendItem x v => unit_ (append_item d x v)
  | InsertItem x pos v => unit_ (insert_item d x pos v)
  | InsertN mv x pos y n => unit_ (insert_n d mv x pos y n)
  | InsertAll mv x pos y => unit_ (insert_all d mv x pos y)
  | AppendN mv x y n => unit_ (append_n d mv x y n)
  | InsertRange x pos vs => unit_ (insert_range d x pos vs)
  | InsertCstr x pos mem n => unit_ (with_nul (fun z => insert_cstr d z x pos mem n))
  | ReplaceItem x pos v => unit_ (replace_item d x pos v)
  | ReplaceN mv x pos y n => unit_ (replace_n d mv x pos y n)
  | ReplaceCstr x pos mem n => unit_ (with_nul (fun z => replace_cstr d z x pos mem n))
  | Write x pos v => unit_ (write d x pos v)
  | Read x pos => val_ (read x pos)
  | At x pos => val_ (at_ x pos)
  | Length x => int_ (length_of x)
  | HashOf x => int_ (hash d x)
  | FindItem x v pos => int_ (find_item d x v pos)
  | RFindItem x v => int_ (rfind_item d x v)
  | BeginMut x => unit_ (get_own_copy d x)
  | PopBack x => unit_ (pop_back d x)
  | Shift x => val_ (shift d x)
  | Pop x => val_ (pop d x)
  | ArrDropFront x n => unit_ (arr_drop_front x n)
  | ArrDropBack x n => unit_ (arr_drop_back x n)
  | StrDropFront x n => unit_ (str_drop_front x n)
  | StrDropBack x n => unit_ (str_drop_back x n)
  | CStr guess x => mem_ (with_nul (fun z => c_str d z guess x))
  | Trim sp x => unit_ (trim sp x)
  | Chomp x nl cr => unit_ (chomp d x nl cr)
  end.
End Exec.
