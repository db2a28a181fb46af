(** The heap model with the reference counter left open, to look at its width: refs is a std::atomic<int>
    (ReferenceCountedArray.h:59). Every function of RcaModel.v that reaches incRef() or decRef() is written here once more
    with [inc] and [dec] in their place; CntProof.g_exec_is shows that with the counter of RcaModel.v this is [exec] again.
    Line numbers are those given there. *)
From stdpp Require Import gmap.
From Verif Require Import RcaSpec RcaModel RcaExec.
Open Scope Z_scope.

Section Model.
Context {T : Type}.
Implicit Types (x y : var) (l : loc).
Notation Mm := (M (state T)).
Variable inc : option loc -> Mm unit.   (* incRef, 269 *)
Variable dec : option loc -> Mm Z.      (* decRef, 274 *)

Section WithDesc.
Variable d : desc T.
(** doDetach, 259-265. *)
Definition g_do_detach x : Mm unit :=
  let* o := get_obj x in
  dec (o_ref o) ;;; set_obj x obj_empty.
(** Detach, 346-354; clear() is 617. *)
Definition g_clear x : Mm unit :=
  let* sh := is_shared x in
  if (sh : bool) then g_do_detach x
  else let* o := get_obj x in set_obj x (Obj (o_ref o) 0 0 0).
(** CheckDeallocRef, 363-368. *)
Definition g_check_dealloc x : Mm unit :=
  let* o := get_obj x in
  match o_ref o with
  | None => ret tt
  | Some l =>
    let* n := dec (Some l) in
    if n <? 1 then delete_cell l ;;; set_obj x (Obj None (o_off o) (o_len o) (o_hash o))
    else ret tt
  end.
(** COW, 383-392: the reference is dropped before the elements are copied. *)
Definition g_cow x (n : Z) : Mm unit :=
  let* o := get_obj x in
  check d (is_shared x) ;;;
  g_do_detach x ;;;
  v_reserve d x n (d_grow d) ;;;
  let k := Z.min (o_len o) n in
  set_len x k ;;;
  if k <=? 0 then ret tt
  else
    match o_ref o with
    | None => undef UbNull
    | Some l =>
      let* c := get_cell l in
      if o_off o + k <=? zlen (c_buf c) then store x 0 (zsub (o_off o) k (c_buf c))
      else undef UbBounds
    end.
(** AboutToModify, 405-413; getOwnCopy, 399. *)
Definition g_about_to_modify x (n : Z) : Mm unit :=
  (let* o := get_obj x in set_obj x (Obj (o_ref o) (o_off o) (o_len o) 0)) ;;;
  let* sh := is_shared x in
  if (sh : bool) then g_cow x n else v_reserve d x n (d_grow d).
Definition g_get_own_copy x : Mm unit :=
  let* n := length_of x in g_about_to_modify x n.
(** operator=(const&), 527-536. *)
Definition g_assign_copy x y : Mm unit :=
  let* oy := get_obj y in
  inc (o_ref oy) ;;;
  let* ox := get_obj x in
  set_obj x (Obj (o_ref ox) (o_off oy) (o_len oy) (o_hash oy)) ;;;
  g_check_dealloc x ;;;
  let* ox' := get_obj x in
  let* oy' := get_obj y in
  set_obj x (Obj (o_ref oy') (o_off ox') (o_len ox') (o_hash ox')).
(** operator=(&&), 542-560. *)
Definition g_assign_move x y : Mm unit :=
  if Pos.eqb x y then ret tt else
  g_check_dealloc x ;;;
  let* oy := get_obj y in
  set_obj x oy ;;;
  set_obj y (Obj None (o_off oy) (o_len oy) (o_hash oy)).
(** ~String (String.h:148-153) then ~ReferenceCountedArray (429). cleanse() (String.h:71-84) overwrites
    the whole buffer with values that do not depend on it, represented by [None]; see CleanseModel.v. *)
Definition g_destroy x : Mm unit := cleanse_if_last d x ;;; g_check_dealloc x ;;; del_obj x.
(** Default constructor 431, copy constructor 434-440, move constructor 441-451. *)
Definition g_ctor_copy x y : Mm unit :=
  let* oy := get_obj y in new_obj x oy ;;; inc (o_ref oy).
End WithDesc.

Section Ops.
Variable d : desc T.
Let bd := base_desc d.
(** ReferenceCountedArray(size_t), 462-468. *)
Definition g_ctor_sized x (n : Z) : Mm unit :=
  ctor_default x ;;;
  ctor_guard x (g_destroy bd x) (if n =? 0 then ret tt else base_reserve bd x n (fun z => z)).
(** resize(len), 631-638. *)
Definition g_resize x (n : Z) : Mm unit :=
  let* len := length_of x in
  if n <? len then set_length x n else g_about_to_modify d x n ;;; set_len x n.
(** resize(len, value), 645-660. *)
Definition g_resize_fill (d : desc T) x (n : Z) (v : T) : Mm unit :=
  let* len := length_of x in
  if n <? len then set_length x n
  else
    g_about_to_modify d x n ;;;
    let* o := get_obj x in
    match o_ref o with
    | None => undef UbNull
    | Some l =>
      let* c := get_cell l in
      (if zlen (c_buf c) <? o_off o + n then undef UbBounds
       else store x (o_len o) (zrep (n - o_len o) (Some v))) ;;;
      set_len x n
    end.
(** Fill constructor, 477-481. *)
Definition g_ctor_fill x (n : Z) (v : T) : Mm unit :=
  ctor_default x ;;; ctor_guard x (g_destroy bd x) (g_resize_fill bd x n v).
(** Initializer-list constructor 487-490 and (pointer, length) constructor 500-503. *)
Definition g_ctor_list x (vs : list T) : Mm unit :=
  g_ctor_sized x (zlen vs) ;;; store x 0 (map Some vs) ;;; set_len x (zlen vs).
(** insert(pos, item), 1173-1203, the item being passed by value. *)
Definition g_insert_item (d : desc T) x (pos : Z) (v : T) : Mm unit :=
  check_pos x pos ;;;
  let* len := length_of x in
  g_about_to_modify d x (u64 (len + 1)) ;;;
  shift_right x pos 1 ;;;
  store x pos [Some v] ;;;
  add_len x 1.
(** append(item) / push_back, 989-992. *)
Definition g_append_item x (v : T) : Mm unit :=
  let* len := length_of x in g_insert_item d x len v.
(** insert(const_iterator, first, last), 1045-1052 (through 1029-1033), the position given as an
    index and the source as a list of values. *)
Fixpoint g_insert_loop (d : desc T) x (pos : Z) (vs : list T) : Mm unit :=
  match vs with
  | [] => ret tt
  | v :: vs' =>
    g_get_own_copy d x ;;;              (* begin() in the argument *)
    g_insert_item d x pos v ;;;
    g_get_own_copy d x ;;;              (* begin() in the return value *)
    g_insert_loop d x (pos + 1) vs'
  end.
Definition g_insert_range (d : desc T) x (pos : Z) (vs : list T) : Mm unit :=
  let* len := length_of x in
  g_about_to_modify d x (u64 (len + zlen vs)) ;;;
  g_insert_loop d x pos vs ;;;
  g_get_own_copy d x.
(** Range constructor, 563-571. *)
Definition g_ctor_range x (vs : list T) : Mm unit :=
  g_ctor_sized x (zlen vs) ;;; ctor_guard x (g_destroy bd x) (g_insert_range bd x 0 vs).
(** Common tail of the array inserts (1077-1081, 1102-1106, 1132-1136, 1157-1161). std::move from
    const iterators copies, so the rvalue versions have the same effect. *)
Definition g_splice x (pos : Z) y (k : Z) : Mm unit :=
  let* len := length_of x in
  g_about_to_modify d x (u64 (len + k)) ;;;
  shift_right x pos k ;;;
  copy_elems d x y k pos ;;;
  add_len x k.
(** insert(pos, const rca&, n) 1061-1082 and insert(pos, rca&&, n) 1116-1137. *)
Definition g_insert_n (mv : bool) x (pos : Z) y (n : Z) : Mm unit :=
  if n =? 0 then ret tt else
  check_pos x pos ;;;
  let* slen := length_of y in
  let* len := length_of x in
  if (pos =? 0) && (len <? slen) && (n =? slen)
  then (if mv then g_assign_move x y else g_assign_copy x y)
  else g_splice x pos y (if slen <? n then slen else n).
(** insert(pos, const rca&) 1090-1107 and insert(pos, rca&&) 1145-1162. *)
Definition g_insert_all (mv : bool) x (pos : Z) y : Mm unit :=
  check_pos x pos ;;;
  let* slen := length_of y in
  let* len := length_of x in
  if (pos =? 0) && (len <? slen)
  then (if mv then g_assign_move x y else g_assign_copy x y)
  else g_splice x pos y slen.
(** append(rca, n = npos), 1022-1027. *)
Definition g_append_n (mv : bool) x y (n : Z) : Mm unit :=
  let* len := length_of x in g_insert_n mv x len y n.
(** replace(pos, item), 1212-1233. *)
Definition g_replace_item x (pos : Z) (v : T) : Mm unit :=
  check_pos x pos ;;; g_get_own_copy d x ;;; store x pos [Some v].
(** replace(pos, rca, n), 1241-1265 and 1273-1297. *)
Definition g_replace_n (mv : bool) x (pos : Z) y (n : Z) : Mm unit :=
  if n =? 0 then ret tt else
  check_pos x pos ;;;
  let* slen := length_of y in
  let* len := length_of x in
  if (pos =? 0) && (len <? slen) && ((n =? npos) || (n =? slen))
  then (if mv then g_assign_move x y else g_assign_copy x y)
  else
    let k := if (n =? npos) || (slen <? n) then slen else n in
    let newlen := u64 (pos + k) in
    let newlen := if newlen <? len then len else newlen in
    g_about_to_modify d x newlen ;;;
    copy_elems d x y k pos ;;;
    set_len x newlen.
(** write(pos, item), 844-851; Cref::operator= 877-916 is this. *)
Definition g_write x (pos : Z) (v : T) : Mm unit := g_get_own_copy d x ;;; store x pos [Some v].
(** operator=(initializer_list), 577-583. *)
Definition g_assign_list x (vs : list T) : Mm unit :=
  g_clear x ;;; v_reserve d x (zlen vs) (fun z => z) ;;; store x 0 (map Some vs) ;;; set_len x (zlen vs).
Section StringOps.
Variable z : T.
(** String(const char* ), String.h:100-108; [mem] is the memory at the pointer (not null). *)
Definition g_ctor_cstr x (mem : list T) : Mm unit :=
  ctor_default x ;;;
  let* n := cstrlen d z mem in
  if n =? 0 then ret tt else
  set_len x n ;;;
  ctor_guard x (g_destroy d x) (base_reserve d x (u64 (n + 1)) (fun z => z)) ;;;
  let* es := mem_read mem (n + 1) in
  store x 0 (map Some es) ;;;
  check d (ends_nul d z x n).
(** String(const char*, size_t), String.h:117-122. *)
Definition g_ctor_cstrlen x (mem : list T) (n : Z) : Mm unit :=
  g_ctor_sized x (u64 (n + 1)) ;;;
  let* es := mem_read mem n in
  store x 0 (map Some es) ;;;
  store x n [Some z] ;;;
  set_len x n.
(** String(char), String.h:131-135. *)
Definition g_ctor_char x (v : T) : Mm unit :=
  ctor_default x ;;;
  ctor_guard x (g_destroy d x) (base_reserve d x 2 (fun z => z)) ;;;
  store x 0 [Some v] ;;; store x 1 [Some z] ;;; set_len x 1.
(** String::operator=(std::string), String.h:164-171; [vs] are the characters of the argument. *)
Definition g_assign_std x (vs : list T) : Mm unit :=
  g_clear x ;;;
  base_reserve d x (u64 (zlen vs + 1)) (fun z => z) ;;;
  set_len x (zlen vs) ;;;
  store x 0 (map Some (vs ++ [z])) ;;;
  check d (ends_nul d z x (zlen vs)).
(** String::insert(pos, const char*, n), String.cpp:117-130. *)
Definition g_insert_cstr x (pos : Z) (mem : list T) (n : Z) : Mm unit :=
  if n =? 0 then ret tt else
  check_pos x pos ;;;
  let* slen := (if n =? npos then cstrlen d z mem else ret n) in
  let* len := length_of x in
  g_about_to_modify d x (u64 (len + slen)) ;;;
  shift_right x pos slen ;;;
  add_len x slen ;;;
  let* es := mem_read mem slen in
  store x pos (map Some es).
(** String::replace(pos, const char*, n), String.cpp:138-152. *)
Definition g_replace_cstr x (pos : Z) (mem : list T) (n : Z) : Mm unit :=
  if n =? 0 then ret tt else
  check_pos x pos ;;;
  let* slen := (if n =? npos then cstrlen d z mem else ret n) in
  let* len := length_of x in
  let newlen := u64 (pos + slen) in
  let newlen := if newlen <? len then len else newlen in
  g_about_to_modify d x newlen ;;;
  set_len x newlen ;;;
  let* es := mem_read mem slen in
  store x pos (map Some es).
(** c_str(), String.h:232-244. The byte after the end may be indeterminate; [guess] is whether it
    then happens to compare equal to NUL. Returns the bytes the caller may read at the pointer. *)
Definition g_c_str (guess : bool) x : Mm (list (option T)) := noexcept (
  let* len := length_of x in
  if len =? 0 then ret [Some z]                                     (* the literal "" *)
  else
    check d (let* o := get_obj x in ret (bool_decide (is_Some (o_ref o)))) ;;; check d (ret (0 <? len)) ;;;
    let* e := load x len 1 in
    (match e with
     | [Some v] => if d_eqb d v z then check d (ends_nul d z x len)
                   else g_about_to_modify d x (u64 (len + 1)) ;;; store x len [Some z]
     | _ => if guess then store x len [Some z]
            else g_about_to_modify d x (u64 (len + 1)) ;;; store x len [Some z]
     end) ;;;
    load x 0 (len + 1)).
End StringOps.
End Ops.

(** The calls of RcaExec.v. *)
Definition g_exec (d : desc T) (o : op T) : Mm (out T) :=
  match o with
  | CtorDefault x => unit_ (ctor_default x)
  | CtorCopy x y => unit_ (g_ctor_copy x y)
  | CtorMove x y => unit_ (ctor_move x y)
  | CtorSized x n => unit_ (g_ctor_sized d x n)
  | CtorFill x n v => unit_ (g_ctor_fill d x n v)
  | CtorList x vs => unit_ (g_ctor_list d x vs)
  | CtorRange x vs => unit_ (g_ctor_range d x vs)
  | CtorCstr x mem => unit_ (with_nul d (fun z => g_ctor_cstr d z x mem))
  | CtorCstrLen x mem n => unit_ (with_nul d (fun z => g_ctor_cstrlen d z x mem n))
  | CtorChar x v => unit_ (with_nul d (fun z => g_ctor_char d z x v))
  | Destroy x => unit_ (g_destroy d x)
  | AssignCopy x y => unit_ (g_assign_copy x y)
  | AssignMove x y => unit_ (g_assign_move x y)
  | Swap x y => unit_ (swap x y)
  | AssignList x vs => unit_ (g_assign_list d x vs)
  | AssignStd x vs => unit_ (with_nul d (fun z => g_assign_std d z x vs))
  | Clear x => unit_ (g_clear x)
  | Resize x n => unit_ (g_resize d x n)
  | ResizeFill x n v => unit_ (g_resize_fill d x n v)
  | ReserveIfOwn x n => unit_ (reserve_if_own d x n)
  | SliceTo x start len => unit_ (slice x start len)
  | AppendItem x v => unit_ (g_append_item d x v)
  | InsertItem x pos v => unit_ (g_insert_item d x pos v)
  | InsertN mv x pos y n => unit_ (g_insert_n d mv x pos y n)
  | InsertAll mv x pos y => unit_ (g_insert_all d mv x pos y)
  | AppendN mv x y n => unit_ (g_append_n d mv x y n)
  | InsertRange x pos vs => unit_ (g_insert_range d x pos vs)
  | InsertCstr x pos mem n => unit_ (with_nul d (fun z => g_insert_cstr d z x pos mem n))
  | ReplaceItem x pos v => unit_ (g_replace_item d x pos v)
  | ReplaceN mv x pos y n => unit_ (g_replace_n d mv x pos y n)
  | ReplaceCstr x pos mem n => unit_ (with_nul d (fun z => g_replace_cstr d z x pos mem n))
  | Write x pos v => unit_ (g_write d x pos v)
  | Read x pos => val_ (read x pos)
  | At x pos => val_ (at_ x pos)
  | Length x => int_ (length_of x)
  | HashOf x => int_ (hash d x)
  | FindItem x v pos => int_ (find_item d x v pos)
  | RFindItem x v => int_ (rfind_item d x v)
  | BeginMut x => unit_ (g_get_own_copy d x)
  | PopBack x => unit_ (pop_back d x)
  | Shift x => val_ (shift d x)
  | Pop x => val_ (pop d x)
  | ArrDropFront x n => unit_ (arr_drop_front x n)
  | ArrDropBack x n => unit_ (arr_drop_back x n)
  | StrDropFront x n => unit_ (str_drop_front x n)
  | StrDropBack x n => unit_ (str_drop_back x n)
  | CStr guess x => mem_ (with_nul d (fun z => g_c_str d z guess x))
  | Trim sp x => unit_ (trim sp x)
  | Chomp x nl cr => unit_ (chomp d x nl cr)
  end.
End Model.

(** The counter as an int that wraps. *)
Section Int.
Context {T : Type}.
Notation Mm := (M (state T)).
Definition inc32 (r : option loc) : Mm unit :=
  match r with
  | None => ret tt
  | Some l => let* c := get_cell l in set_cell l (Cell (c_buf c) (c_gen c) (i32 (c_refs c + 1)))
  end.
Definition dec32 (r : option loc) : Mm Z :=
  match r with
  | None => ret 0
  | Some l => let* c := get_cell l in
              set_cell l (Cell (c_buf c) (c_gen c) (i32 (c_refs c - 1))) ;;; ret (i32 (c_refs c - 1))
  end.
Definition exec32 (d : desc T) (o : op T) : Mm (out T) := g_exec inc32 dec32 d o.
(** Programs, with the counter of RcaModel.v and with an int; they end with the first exception. *)
Fixpoint run_inf (d : desc T) (ops : list (op T)) : Mm (list (out T)) :=
  match ops with [] => ret [] | o :: ops' => let* v := exec d o in let* vs := run_inf d ops' in ret (v :: vs) end.
Fixpoint run32 (d : desc T) (ops : list (op T)) : Mm (list (out T)) :=
  match ops with [] => ret [] | o :: ops' => let* v := exec32 d o in let* vs := run32 d ops' in ret (v :: vs) end.
End Int.
