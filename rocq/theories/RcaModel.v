(** Heap model of ArrayRef and ReferenceCountedArray (src/ReferenceCountedArray.h) together with
    the String overrides that take part in buffer management (src/String.h).

    Line numbers refer to src/ReferenceCountedArray.h unless another file is named.

    Simplifications:
    - elements are pure values; copying an element neither throws nor has side effects;
      [None] in a buffer is an element without a determinate value (raw memory of a plain type, or a
      moved-from class object);
    - the reference counter is an unbounded integer (the code: std::atomic<int>);
    - size_t(size * scaling_factor) is an arbitrary function [d_grow] of the size;
    - whether an allocation succeeds is decided by an arbitrary oracle [d_oom] (indexed by the number
      of allocations made so far) and by PTRDIFF_MAX;
    - addresses are never reused, so every access to released memory is visible as [Undef UbFreed]. *)
From stdpp Require Export gmap.
From Verif Require Export Base.
Open Scope Z_scope.

Notation loc := positive.
Notation var := positive.

(** Properties of the element type and of the class using the container. *)
Record desc (T : Type) := Desc {
  d_class : bool;          (* std::is_class<T>::value *)
  d_def : T;               (* T() *)
  d_nul : option T;        (* Some '\0' for String: selects String::reserve and ~String *)
  d_hash : T -> Z;         (* std::hash<T> *)
  d_eqb : T -> T -> bool;  (* operator== of T *)
  d_grow : Z -> Z;         (* size_t(size * 1.5) *)
  d_oom : nat -> bool;     (* does the k-th allocation fail? *)
  d_debug : bool           (* is this a build without NDEBUG, so that assert() checks? *)
}.
Arguments Desc {T}. Arguments d_class {T}. Arguments d_def {T}. Arguments d_nul {T}.
Arguments d_hash {T}. Arguments d_eqb {T}. Arguments d_grow {T}. Arguments d_oom {T}. Arguments d_debug {T}.

(** Virtual calls made while a base-class constructor runs use the base version (no String override). *)
Definition base_desc {T} (d : desc T) : desc T :=
  Desc (d_class d) (d_def d) None (d_hash d) (d_eqb d) (d_grow d) (d_oom d) (d_debug d).

(** class ArrayRef, 50-145. [c_buf] has [size] elements; buf == nullptr iff size == 0.
    [c_gen] identifies the current buffer: it changes whenever buf is replaced. *)
Record cell (T : Type) := Cell { c_buf : list (option T); c_gen : nat; c_refs : Z }.
Arguments Cell {T}. Arguments c_buf {T}. Arguments c_gen {T}. Arguments c_refs {T}.

(** A ReferenceCountedArray object: fields Ref, offset, sublen, my_hash (317-336). *)
Record obj := Obj { o_ref : option loc; o_off : Z; o_len : Z; o_hash : Z }.
Definition obj_empty : obj := Obj None 0 0 0.

(** Program state: live ArrayRefs, live objects, next address, allocation counter, and a ghost log of
    the final contents of every released buffer (most recent first). *)
Record state (T : Type) := State {
  st_heap : gmap loc (cell T);
  st_env : gmap var obj;
  st_next : loc;
  st_tick : nat;
  st_freed : list (list (option T))
}.
Arguments State {T}. Arguments st_heap {T}. Arguments st_env {T}. Arguments st_next {T}.
Arguments st_tick {T}. Arguments st_freed {T}.
Definition st_init {T} : state T := State ∅ ∅ 1%positive 0 [].

Section Model.
Context {T : Type}.
Implicit Types (x y : var) (l : loc).
Notation St := (state T).
Notation Mm := (M St).

Definition with_heap (s : St) h := State h (st_env s) (st_next s) (st_tick s) (st_freed s).
Definition with_env (s : St) e := State (st_heap s) e (st_next s) (st_tick s) (st_freed s).

(** Use of an object; outside its lifetime this is undefined. *)
Definition get_obj x : Mm obj := fun s =>
  match st_env s !! x with Some o => Ok o s | None => Undef UbDeadVar end.
Definition set_obj x (o : obj) : Mm unit := fun s => Ok tt (with_env s (<[x:=o]> (st_env s))).
(** Start of an object's lifetime: the name must be unused. *)
Definition new_obj x (o : obj) : Mm unit := fun s =>
  match st_env s !! x with
  | Some _ => Undef UbDeadVar
  | None => Ok tt (with_env s (<[x:=o]> (st_env s)))
  end.
Definition del_obj x : Mm unit := fun s => Ok tt (with_env s (delete x (st_env s))).
(** Access through Ref; a deleted ArrayRef is released memory. *)
Definition get_cell l : Mm (cell T) := fun s =>
  match st_heap s !! l with Some c => Ok c s | None => Undef UbFreed end.
Definition set_cell l (c : cell T) : Mm unit := fun s =>
  Ok tt (with_heap s (<[l:=c]> (st_heap s))).
(** delete Ref: runs ~ArrayRef (62-64), which releases the buffer (126-133). *)
Definition delete_cell l : Mm unit := fun s =>
  match st_heap s !! l with
  | Some c => Ok tt (State (delete l (st_heap s)) (st_env s) (st_next s) (st_tick s)
                           (c_buf c :: st_freed s))
  | None => Undef UbFreed
  end.
Definition log_freed (b : list (option T)) : Mm unit := fun s =>
  Ok tt (State (st_heap s) (st_env s) (st_next s) (st_tick s) (b :: st_freed s)).

Section WithDesc.
Variable d : desc T.

(** assert(), <cassert>, which ends the program when it fails; used at ReferenceCountedArray.h:387, 1011, Array.h:108, 129, String.h:106, 169, 235-242. *)
Definition check (m : Mm bool) : Mm unit :=
  if d_debug d then let* b := m in if b then ret tt else undef Asserted else ret tt.

(** operator new / allocator::allocate(n): succeeds or throws std::bad_alloc. *)
Definition try_alloc (n : Z) : Mm unit := fun s =>
  let s' := State (st_heap s) (st_env s) (st_next s) (S (st_tick s)) (st_freed s) in
  if d_oom d (st_tick s) || (max_alloc <? n) then Exn BadAlloc s' else Ok tt s'.

(** new ArrayRef(alloc), 60-61 and 609. *)
Definition new_cell : Mm loc :=
  try_alloc 0 ;;;
  (fun s => Ok (st_next s)
     (State (<[st_next s := Cell [] 0 1]> (st_heap s)) (st_env s) (Pos.succ (st_next s))
            (st_tick s) (st_freed s))).

(** ArrayRef::reserve, 76-118. [sc] is the scaling function; returns the new offset. *)
Definition aref_reserve l (newSize : Z) (sc : Z -> Z) (off sublen : Z) : Mm Z :=
  let* c := get_cell l in
  let size := zlen (c_buf c) in
  if size <? newSize then
    let n := Z.max (sc size) newSize in                                       (* 81 *)
    try_alloc n ;;;                                                           (* 83 *)
    if n <? sublen then undef UbBounds                                        (* 88: fill range inverted *)
    else
      let fill := zrep (n - sublen) (if d_class d then Some (d_def d) else None) in
      match c_buf c with
      | [] => (* buf == nullptr: nothing is moved; [0,sublen) stays raw *)
        if d_class d && (0 <? sublen) then undef UbRaw
        else set_cell l (Cell (zrep sublen None ++ fill) (S (c_gen c)) (c_refs c)) ;;; ret 0
      | _ :: _ =>
        if (off <? 0) || (size <? off + sublen) then undef UbBounds           (* 93-104 *)
        else
          log_freed (c_buf c) ;;;                                             (* 105 *)
          set_cell l (Cell (zsub off sublen (c_buf c) ++ fill) (S (c_gen c)) (c_refs c)) ;;;
          ret 0                                                               (* 107-109 *)
      end
  else if u64 (size - off) <? newSize then                                    (* 111 *)
    if (off <? 0) || (size <? off + sublen) then undef UbBounds
    else
      (* 115: std::move to the front; class elements left behind are moved-from *)
      let src := if d_class d then zupd off (zrep sublen None) (c_buf c) else c_buf c in
      set_cell l (Cell (zupd 0 (zsub off sublen (c_buf c)) src) (c_gen c) (c_refs c)) ;;;
      ret 0                                                                   (* 116 *)
  else ret off.

(** ReferenceCountedArray::reserve, 606-612. *)
Definition base_reserve x (n : Z) (sc : Z -> Z) : Mm unit :=
  let* o := get_obj x in
  let* l := match o_ref o with
            | Some l => ret l
            | None => let* l := new_cell in
                      set_obj x (Obj (Some l) (o_off o) (o_len o) (o_hash o)) ;;; ret l
            end in
  let* off := aref_reserve l n sc (o_off o) (o_len o) in
  set_obj x (Obj (Some l) off (o_len o) (o_hash o)).

(** The virtual reserve: String::reserve (String.h:137-144) when [d_nul] is set. *)
Definition v_reserve x (n : Z) (sc : Z -> Z) : Mm unit :=
  match d_nul d with
  | None => base_reserve x n sc
  | Some z =>
    let realSize := if 0 <? n then u64 (n + 1) else n in
    base_reserve x realSize sc ;;;
    let* o := get_obj x in
    match o_ref o with
    | None => ret tt
    | Some l =>
      let* c := get_cell l in
      match c_buf c with
      | [] => if o_off o =? 0 then ret tt else undef UbNull
      | _ :: _ => (* &buf[offset + (capacity - offset - 1)] *)
        set_cell l (Cell (zupd (zlen (c_buf c) - 1) [Some z] (c_buf c)) (c_gen c) (c_refs c))
      end
    end
  end.

(** isShared, 596-598 and 138-140. *)
Definition is_shared x : Mm bool :=
  let* o := get_obj x in
  match o_ref o with
  | None => ret false
  | Some l => let* c := get_cell l in ret (1 <? c_refs c)
  end.
(** rcount, 588. *)
Definition rcount x : Mm Z :=
  let* o := get_obj x in
  match o_ref o with
  | None => ret 0
  | Some l => let* c := get_cell l in ret (c_refs c)
  end.
(** capacity, 623-625. *)
Definition capacity x : Mm Z :=
  let* o := get_obj x in
  match o_ref o with
  | None => ret 0
  | Some l => let* c := get_cell l in ret (zlen (c_buf c))
  end.
(** length, 667-669. *)
Definition length_of x : Mm Z := let* o := get_obj x in ret (o_len o).

(** incRef 269, decRef 274. *)
Definition inc_ref (r : option loc) : Mm unit :=
  match r with
  | None => ret tt
  | Some l => let* c := get_cell l in set_cell l (Cell (c_buf c) (c_gen c) (c_refs c + 1))
  end.
Definition dec_ref (r : option loc) : Mm Z :=
  match r with
  | None => ret 0
  | Some l => let* c := get_cell l in
              set_cell l (Cell (c_buf c) (c_gen c) (c_refs c - 1)) ;;; ret (c_refs c - 1)
  end.

(** doDetach, 259-265. *)
Definition do_detach x : Mm unit :=
  let* o := get_obj x in
  dec_ref (o_ref o) ;;; set_obj x obj_empty.
(** Detach, 346-354; clear() is 617. *)
Definition clear x : Mm unit :=
  let* sh := is_shared x in
  if (sh : bool) then do_detach x
  else let* o := get_obj x in set_obj x (Obj (o_ref o) 0 0 0).
(** CheckDeallocRef, 363-368. *)
Definition check_dealloc x : Mm unit :=
  let* o := get_obj x in
  match o_ref o with
  | None => ret tt
  | Some l =>
    let* n := dec_ref (Some l) in
    if n <? 1 then delete_cell l ;;; set_obj x (Obj None (o_off o) (o_len o) (o_hash o))
    else ret tt
  end.

(** Memory access through Buf(pos) = &Ref->buf[offset + pos], 301-310. *)
Definition load x (pos n : Z) : Mm (list (option T)) :=
  if n <=? 0 then ret [] else
  let* o := get_obj x in
  match o_ref o with
  | None => undef UbNull
  | Some l =>
    let* c := get_cell l in
    let i := u64 (o_off o + pos) in
    if i + n <=? zlen (c_buf c) then ret (zsub i n (c_buf c)) else undef UbBounds
  end.
Definition store x (pos : Z) (es : list (option T)) : Mm unit :=
  if zlen es <=? 0 then ret tt else
  let* o := get_obj x in
  match o_ref o with
  | None => undef UbNull
  | Some l =>
    let* c := get_cell l in
    let i := u64 (o_off o + pos) in
    if i + zlen es <=? zlen (c_buf c)
    then set_cell l (Cell (zupd i es (c_buf c)) (c_gen c) (c_refs c)) else undef UbBounds
  end.
(** Reading an element as a value. *)
Definition load1 x (pos : Z) : Mm T :=
  let* es := load x pos 1 in
  match es with
  | [Some v] => ret v
  | _ => undef UbIndet
  end.
Definition set_len x (n : Z) : Mm unit :=   (* sublen = n *)
  let* o := get_obj x in set_obj x (Obj (o_ref o) (o_off o) n (o_hash o)).
Definition set_length x (n : Z) : Mm unit :=  (* setLength 281 *)
  let* o := get_obj x in set_obj x (Obj (o_ref o) (o_off o) n 0).

(** COW, 383-392: the reference is dropped before the elements are copied. *)
Definition cow x (n : Z) : Mm unit :=
  let* o := get_obj x in
  check (is_shared x) ;;;                                                    (* 387 *)
  do_detach x ;;;
  v_reserve x n (d_grow d) ;;;
  let k := Z.min (o_len o) n in
  set_len x k ;;;
  if k <=? 0 then ret tt
  else
    match o_ref o with
    | None => undef UbNull
    | Some l =>
      let* c := get_cell l in
      if o_off o + k <=? zlen (c_buf c) then store x 0 (zsub (o_off o) k (c_buf c))
      else undef UbBounds
    end.

(** AboutToModify, 405-413; getOwnCopy, 399. *)
Definition about_to_modify x (n : Z) : Mm unit :=
  (let* o := get_obj x in set_obj x (Obj (o_ref o) (o_off o) (o_len o) 0)) ;;;
  let* sh := is_shared x in
  if (sh : bool) then cow x n else v_reserve x n (d_grow d).
Definition get_own_copy x : Mm unit :=
  let* n := length_of x in about_to_modify x n.

(** validateIndex, 419-422, and the guard "if (pos != 0) validateIndex(pos - 1)". *)
Definition validate_index x (pos : Z) : Mm unit :=
  let* n := length_of x in if n <=? pos then throw OutOfRange else ret tt.
Definition check_pos x (pos : Z) : Mm unit :=
  if pos =? 0 then ret tt else validate_index x (u64 (pos - 1)).

(** operator=(const&), 527-536. *)
Definition assign_copy x y : Mm unit :=
  let* oy := get_obj y in
  inc_ref (o_ref oy) ;;;
  let* ox := get_obj x in
  set_obj x (Obj (o_ref ox) (o_off oy) (o_len oy) (o_hash oy)) ;;;
  check_dealloc x ;;;
  let* ox' := get_obj x in
  let* oy' := get_obj y in
  set_obj x (Obj (o_ref oy') (o_off ox') (o_len ox') (o_hash ox')).
(** operator=(&&), 542-560. *)
Definition assign_move x y : Mm unit :=
  if Pos.eqb x y then ret tt else
  check_dealloc x ;;;
  let* oy := get_obj y in
  set_obj x oy ;;;
  set_obj y (Obj None (o_off oy) (o_len oy) (o_hash oy)).
(** swap, 508-516. *)
Definition swap x y : Mm unit :=
  let* ox := get_obj x in
  let* oy := get_obj y in
  set_obj x oy ;;; set_obj y ox.

(** ~String (String.h:148-153) then ~ReferenceCountedArray (429). cleanse() (String.h:71-84) overwrites
    the whole buffer with values that do not depend on it, represented by [None]; see CleanseModel.v. *)
Definition cleanse_if_last x : Mm unit :=
  match d_nul d with
  | None => ret tt
  | Some _ =>
    let* o := get_obj x in
    match o_ref o with
    | None => ret tt
    | Some l =>
      let* c := get_cell l in
      if c_refs c =? 1
      then set_cell l (Cell (zrep (zlen (c_buf c)) None) (c_gen c) (c_refs c)) else ret tt
    end
  end.
Definition destroy x : Mm unit := cleanse_if_last x ;;; check_dealloc x ;;; del_obj x.

(** Constructors that throw destroy what has been built so far (the delegated-to constructor has
    completed, so the destructor of that class runs). *)
Definition ctor_guard x (dtor : Mm unit) (m : Mm unit) : Mm unit := fun s =>
  match m s with
  | Exn e s' => match dtor s' with Ok _ s'' => Exn e s'' | r => r end
  | r => r
  end.

(** Default constructor 431, copy constructor 434-440, move constructor 441-451. *)
Definition ctor_default x : Mm unit := new_obj x obj_empty.
Definition ctor_copy x y : Mm unit :=
  let* oy := get_obj y in new_obj x oy ;;; inc_ref (o_ref oy).
Definition ctor_move x y : Mm unit :=
  let* oy := get_obj y in
  new_obj x oy ;;; set_obj y (Obj None (o_off oy) (o_len oy) (o_hash oy)).
End WithDesc.

Section Ops.
Variable d : desc T.
Let bd := base_desc d.

(** ReferenceCountedArray(size_t), 462-468. *)
Definition ctor_sized x (n : Z) : Mm unit :=
  ctor_default x ;;;
  ctor_guard x (destroy bd x) (if n =? 0 then ret tt else base_reserve bd x n (fun z => z)).

(** resize(len), 631-638. *)
Definition resize x (n : Z) : Mm unit :=
  let* len := length_of x in
  if n <? len then set_length x n else about_to_modify d x n ;;; set_len x n.
(** resize(len, value), 645-660. *)
Definition resize_fill (d : desc T) x (n : Z) (v : T) : Mm unit :=
  let* len := length_of x in
  if n <? len then set_length x n
  else
    about_to_modify d x n ;;;
    let* o := get_obj x in
    match o_ref o with
    | None => undef UbNull
    | Some l =>
      let* c := get_cell l in
      (if zlen (c_buf c) <? o_off o + n then undef UbBounds
       else store x (o_len o) (zrep (n - o_len o) (Some v))) ;;;
      set_len x n
    end.
(** Fill constructor, 477-481. *)
Definition ctor_fill x (n : Z) (v : T) : Mm unit :=
  ctor_default x ;;; ctor_guard x (destroy bd x) (resize_fill bd x n v).
(** Initializer-list constructor 487-490 and (pointer, length) constructor 500-503. *)
Definition ctor_list x (vs : list T) : Mm unit :=
  ctor_sized x (zlen vs) ;;; store x 0 (map Some vs) ;;; set_len x (zlen vs).

(** insert(pos, item), 1173-1203, the item being passed by value. *)
Definition shift_right x (pos k : Z) : Mm unit :=
  let* len := length_of x in
  let* es := load x pos (len - pos) in store x (pos + k) es.
Definition add_len x (k : Z) : Mm unit :=
  let* len := length_of x in set_len x (u64 (len + k)).
Definition insert_item (d : desc T) x (pos : Z) (v : T) : Mm unit :=
  check_pos x pos ;;;
  let* len := length_of x in
  about_to_modify d x (u64 (len + 1)) ;;;
  shift_right x pos 1 ;;;
  store x pos [Some v] ;;;
  add_len x 1.
(** append(item) / push_back, 989-992. *)
Definition append_item x (v : T) : Mm unit :=
  let* len := length_of x in insert_item d x len v.

(** insert(const_iterator, first, last), 1045-1052 (through 1029-1033), the position given as an
    index and the source as a list of values. *)
Fixpoint insert_loop (d : desc T) x (pos : Z) (vs : list T) : Mm unit :=
  match vs with
  | [] => ret tt
  | v :: vs' =>
    get_own_copy d x ;;;              (* begin() in the argument *)
    insert_item d x pos v ;;;
    get_own_copy d x ;;;              (* begin() in the return value *)
    insert_loop d x (pos + 1) vs'
  end.
Definition insert_range (d : desc T) x (pos : Z) (vs : list T) : Mm unit :=
  let* len := length_of x in
  about_to_modify d x (u64 (len + zlen vs)) ;;;
  insert_loop d x pos vs ;;;
  get_own_copy d x.
(** Range constructor, 563-571. *)
Definition ctor_range x (vs : list T) : Mm unit :=
  ctor_sized x (zlen vs) ;;; ctor_guard x (destroy bd x) (insert_range bd x 0 vs).

(** std::copy(y.cbegin(), y.cbegin()+k, x.Buf(pos)): memmove for plain types, an element by element
    forward copy for class types (which matters only when both are the same buffer). *)
Fixpoint copy_fwd (n : nat) x y (src pos : Z) : Mm unit :=
  match n with
  | O => ret tt
  | S n' => let* e := load y src 1 in store x pos e ;;; copy_fwd n' x y (src + 1) (pos + 1)
  end.
Definition copy_elems x y (k pos : Z) : Mm unit :=
  let* ox := get_obj x in
  let* oy := get_obj y in
  if d_class d && bool_decide (o_ref ox = o_ref oy) then copy_fwd (Z.to_nat k) x y 0 pos
  else let* es := load y 0 k in store x pos es.

(** Common tail of the array inserts (1077-1081, 1102-1106, 1132-1136, 1157-1161). std::move from
    const iterators copies, so the rvalue versions have the same effect. *)
Definition splice x (pos : Z) y (k : Z) : Mm unit :=
  let* len := length_of x in
  about_to_modify d x (u64 (len + k)) ;;;
  shift_right x pos k ;;;
  copy_elems x y k pos ;;;
  add_len x k.
(** insert(pos, const rca&, n) 1061-1082 and insert(pos, rca&&, n) 1116-1137. *)
Definition insert_n (mv : bool) x (pos : Z) y (n : Z) : Mm unit :=
  if n =? 0 then ret tt else
  check_pos x pos ;;;
  let* slen := length_of y in
  let* len := length_of x in
  if (pos =? 0) && (len <? slen) && (n =? slen)
  then (if mv then assign_move x y else assign_copy x y)
  else splice x pos y (if slen <? n then slen else n).
(** insert(pos, const rca&) 1090-1107 and insert(pos, rca&&) 1145-1162. *)
Definition insert_all (mv : bool) x (pos : Z) y : Mm unit :=
  check_pos x pos ;;;
  let* slen := length_of y in
  let* len := length_of x in
  if (pos =? 0) && (len <? slen)
  then (if mv then assign_move x y else assign_copy x y)
  else splice x pos y slen.
(** append(rca, n = npos), 1022-1027. *)
Definition append_n (mv : bool) x y (n : Z) : Mm unit :=
  let* len := length_of x in insert_n mv x len y n.

(** replace(pos, item), 1212-1233. *)
Definition replace_item x (pos : Z) (v : T) : Mm unit :=
  check_pos x pos ;;; get_own_copy d x ;;; store x pos [Some v].
(** replace(pos, rca, n), 1241-1265 and 1273-1297. *)
Definition replace_n (mv : bool) x (pos : Z) y (n : Z) : Mm unit :=
  if n =? 0 then ret tt else
  check_pos x pos ;;;
  let* slen := length_of y in
  let* len := length_of x in
  if (pos =? 0) && (len <? slen) && ((n =? npos) || (n =? slen))
  then (if mv then assign_move x y else assign_copy x y)
  else
    let k := if (n =? npos) || (slen <? n) then slen else n in
    let newlen := u64 (pos + k) in
    let newlen := if newlen <? len then len else newlen in
    about_to_modify d x newlen ;;;
    copy_elems x y k pos ;;;
    set_len x newlen.

(** write(pos, item), 844-851; Cref::operator= 877-916 is this. *)
Definition write x (pos : Z) (v : T) : Mm unit := get_own_copy d x ;;; store x pos [Some v].
(** read(pos) 834-839, operator[] const 927. *)
Definition read x (pos : Z) : Mm T := load1 x pos.
(** at(pos), 946-949. *)
Definition at_ x (pos : Z) : Mm T := validate_index x pos ;;; load1 x pos.

(** slice(start, len), 956-980; [start], [len] are ssize_t. *)
Definition slice x (start len : Z) : Mm unit :=
  let* o := get_obj x in
  let n := o_len o in
  (if (len =? -1) && negb (fits_s64 (i32 n - start)) then undef UbOverflow else ret tt) ;;;
  let len := if len =? -1 then i32 n - start else len in                     (* 957 *)
  if i32 n <=? start then set_obj x (Obj (o_ref o) n 0 0)                    (* 959-963 *)
  else
    let start := if start <? 0 then s64 (u64 (n + start)) else start in      (* 966-967 *)
    let start := if start <? 0 then 0 else start in                          (* 969-970 *)
    let off := u64 (o_off o + start) in                                      (* 972 *)
    if negb (fits_s64 (start + len)) then undef UbOverflow else
    let len := if i32 n <=? start + len then s64 (u64 (n - start))           (* 974-975 *)
               else if len <? 0 then s64 (u64 (n - start + len))             (* 977-978 *)
               else len in
    set_obj x (Obj (o_ref o) off (u64 len) 0).                               (* 979 *)

(** pop_back, 1010-1013. *)
Definition sub_length x (k : Z) : Mm unit :=
  let* o := get_obj x in set_obj x (Obj (o_ref o) (o_off o) (u64 (o_len o - k)) 0).
Definition not_empty x : Mm bool := let* n := length_of x in ret (negb (n =? 0)).
Definition pop_back x : Mm unit := check d (not_empty x) ;;; sub_length x 1.

(** hash(), 780-788. *)
Fixpoint djb (h : Z) (es : list (option T)) : option Z :=
  match es with
  | [] => Some h
  | None :: _ => None
  | Some v :: es' => djb (u64 (u64 (u64 (h * 32) + h) + d_hash d v)) es'
  end.
Definition hash x : Mm Z :=
  let* o := get_obj x in
  if negb (o_hash o =? 0) then ret (o_hash o) else
  let* es := load x 0 (o_len o) in
  match djb 5381 es with
  | None => undef UbIndet
  | Some h => let h := Z.land h 2147483647 in
              set_obj x (Obj (o_ref o) (o_off o) (o_len o) h) ;;; ret h
  end.

(** _find, 791-796 and find, 802-815: the result is counted from [pos]. *)
Fixpoint find_from (es : list (option T)) (v : T) (i : Z) : option Z :=
  match es with
  | [] => Some npos
  | None :: _ => None
  | Some w :: es' => if d_eqb d w v then Some i else find_from es' v (i + 1)
  end.
Definition find_item x (v : T) (pos : Z) : Mm Z :=
  check_pos x pos ;;;
  let* len := length_of x in
  let* es := load x pos (len - pos) in
  match find_from es v 0 with Some i => ret i | None => undef UbIndet end.
(** rfind(item), 821-826. *)
Fixpoint rfind_loop (fuel : nat) x (v : T) (i : Z) : Mm Z :=
  if u64 (i + 1) <=? 0 then ret npos else
  match fuel with
  | O => fun _ => Fuel
  | S f => let* w := load1 x i in
           if d_eqb d w v then ret i else rfind_loop f x v (u64 (i - 1))
  end.
Definition rfind_item x (v : T) : Mm Z :=
  let* len := length_of x in rfind_loop (S (Z.to_nat len)) x v (u64 (len - 1)).

(** operator=(initializer_list), 577-583. *)
Definition assign_list x (vs : list T) : Mm unit :=
  clear x ;;; v_reserve d x (zlen vs) (fun z => z) ;;; store x 0 (map Some vs) ;;; set_len x (zlen vs).

(** Array::shift() &, Array.h:107-116: an unshared class element is moved out of its slot. *)
Definition move_out x (pos : Z) : Mm T :=
  let* v := load1 x pos in
  let* sh := is_shared x in
  (if d_class d && negb sh then store x pos [None] else ret tt) ;;; ret v.
Definition shift x : Mm T :=
  check d (not_empty x) ;;;
  let* v := move_out x 0 in
  let* o := get_obj x in
  set_obj x (Obj (o_ref o) (u64 (o_off o + 1)) (u64 (o_len o - 1)) 0) ;;; ret v.
(** Array::pop() &, Array.h:128-133. *)
Definition pop x : Mm T :=
  check d (not_empty x) ;;;
  let* len := length_of x in
  let* v := move_out x (u64 (len - 1)) in
  pop_back x ;;; ret v.
(** Array::operator+=(int) and operator-=(int), Array.h:327-349. *)
Definition arr_drop_front x (n : Z) : Mm unit :=
  let* o := get_obj x in
  if o_len o =? 0 then ret tt else
  if negb (fits_i32 (i32 (o_len o) - n)) then undef UbOverflow else
  if i32 (o_len o) - n <? 0 then set_obj x (Obj (o_ref o) (o_len o) 0 0)
  else set_obj x (Obj (o_ref o) (u64 (o_off o + n)) (u64 (o_len o - n)) 0).
Definition arr_drop_back x (n : Z) : Mm unit :=
  let* o := get_obj x in
  if o_len o =? 0 then ret tt else
  if negb (fits_i32 (i32 (o_len o) - n)) then undef UbOverflow else
  if i32 (o_len o) - n <? 0 then set_obj x (Obj (o_ref o) (o_len o) 0 0)
  else sub_length x n.

(** String::operator+=(size_t) and operator-=(size_t), String.h:453-475. *)
Definition str_drop_front x (n : Z) : Mm unit :=
  let* o := get_obj x in
  if o_len o =? 0 then ret tt else
  if o_len o <? n then set_obj x (Obj (o_ref o) (o_len o) 0 0)
  else set_obj x (Obj (o_ref o) (u64 (o_off o + n)) (u64 (o_len o - n)) 0).
Definition str_drop_back x (n : Z) : Mm unit :=
  let* o := get_obj x in
  if o_len o =? 0 then ret tt else
  if o_len o <? n then set_obj x (Obj (o_ref o) (o_len o) 0 0)
  else sub_length x n.

(** The operations below are String members and take the NUL character [z]. *)
Section StringOps.
Variable z : T.
(** Memory of a C string argument: the bytes reachable from the pointer. *)
Fixpoint strlen_from (mem : list T) (i : Z) : option Z :=
  match mem with
  | [] => None
  | c :: mem' => if d_eqb d c z then Some i else strlen_from mem' (i + 1)
  end.
Definition cstrlen (mem : list T) : Mm Z :=
  match strlen_from mem 0 with Some n => ret n | None => undef UbBounds end.
Definition mem_read (mem : list T) (n : Z) : Mm (list T) :=
  if n <=? zlen mem then ret (ztake n mem) else undef UbBounds.

(** *Buf(n) == '\0', String.h:106, 169, 242. *)
Definition ends_nul x (n : Z) : Mm bool := let* v := load1 x n in ret (d_eqb d v z).
(** String(const char* ), String.h:100-108; [mem] is the memory at the pointer (not null). *)
Definition ctor_cstr x (mem : list T) : Mm unit :=
  ctor_default x ;;;
  let* n := cstrlen mem in
  if n =? 0 then ret tt else
  set_len x n ;;;
  ctor_guard x (destroy d x) (base_reserve d x (u64 (n + 1)) (fun z => z)) ;;;
  let* es := mem_read mem (n + 1) in
  store x 0 (map Some es) ;;;
  check d (ends_nul x n).
(** String(const char*, size_t), String.h:117-122. *)
Definition ctor_cstrlen x (mem : list T) (n : Z) : Mm unit :=
  ctor_sized x (u64 (n + 1)) ;;;
  let* es := mem_read mem n in
  store x 0 (map Some es) ;;;
  store x n [Some z] ;;;
  set_len x n.
(** String(char), String.h:131-135. *)
Definition ctor_char x (v : T) : Mm unit :=
  ctor_default x ;;;
  ctor_guard x (destroy d x) (base_reserve d x 2 (fun z => z)) ;;;
  store x 0 [Some v] ;;; store x 1 [Some z] ;;; set_len x 1.
(** String::operator=(std::string), String.h:164-171; [vs] are the characters of the argument. *)
Definition assign_std x (vs : list T) : Mm unit :=
  clear x ;;;
  base_reserve d x (u64 (zlen vs + 1)) (fun z => z) ;;;
  set_len x (zlen vs) ;;;
  store x 0 (map Some (vs ++ [z])) ;;;
  check d (ends_nul x (zlen vs)).
(** String::insert(pos, const char*, n), String.cpp:117-130. *)
Definition insert_cstr x (pos : Z) (mem : list T) (n : Z) : Mm unit :=
  if n =? 0 then ret tt else
  check_pos x pos ;;;
  let* slen := (if n =? npos then cstrlen mem else ret n) in
  let* len := length_of x in
  about_to_modify d x (u64 (len + slen)) ;;;
  shift_right x pos slen ;;;
  add_len x slen ;;;
  let* es := mem_read mem slen in
  store x pos (map Some es).
(** String::replace(pos, const char*, n), String.cpp:138-152. *)
Definition replace_cstr x (pos : Z) (mem : list T) (n : Z) : Mm unit :=
  if n =? 0 then ret tt else
  check_pos x pos ;;;
  let* slen := (if n =? npos then cstrlen mem else ret n) in
  let* len := length_of x in
  let newlen := u64 (pos + slen) in
  let newlen := if newlen <? len then len else newlen in
  about_to_modify d x newlen ;;;
  set_len x newlen ;;;
  let* es := mem_read mem slen in
  store x pos (map Some es).

(** c_str(), String.h:232-244. The byte after the end may be indeterminate; [guess] is whether it
    then happens to compare equal to NUL. Returns the bytes the caller may read at the pointer. *)
Definition c_str (guess : bool) x : Mm (list (option T)) := noexcept (
  let* len := length_of x in
  if len =? 0 then ret [Some z]                                     (* the literal "" *)
  else
    check d (let* o := get_obj x in ret (bool_decide (is_Some (o_ref o)))) ;;; check d (ret (0 <? len)) ;;;     (* 235-236 *)
    let* e := load x len 1 in
    (match e with
     | [Some v] => if d_eqb d v z then check d (ends_nul x len)      (* 242 *)
                   else about_to_modify d x (u64 (len + 1)) ;;; store x len [Some z]
     | _ => if guess then store x len [Some z]
            else about_to_modify d x (u64 (len + 1)) ;;; store x len [Some z]
     end) ;;;
    load x 0 (len + 1)).
End StringOps.

(** String::trim and String::chomp, String.cpp:256-268; [sp] is isspace. *)
Section Trim.
Variable sp : T -> bool.
Fixpoint ltrim_loop (fuel : nat) x : Mm unit :=
  let* len := length_of x in
  if len =? 0 then ret tt else
  let* v := load1 x 0 in
  if negb (sp v) then ret tt else
  match fuel with
  | O => fun _ => Fuel
  | S f =>
    (let* o := get_obj x in
     set_obj x (Obj (o_ref o) (u64 (o_off o + 1)) (u64 (o_len o - 1)) 0)) ;;;
    ltrim_loop f x
  end.
Fixpoint rtrim_loop (fuel : nat) x : Mm unit :=
  let* len := length_of x in
  if len =? 0 then ret tt else
  let* v := load1 x (u64 (len - 1)) in
  if negb (sp v) then ret tt else
  match fuel with
  | O => fun _ => Fuel
  | S f => sub_length x 1 ;;; rtrim_loop f x
  end.
Definition trim x : Mm unit :=
  let* n := length_of x in
  ltrim_loop (Z.to_nat n) x ;;; rtrim_loop (Z.to_nat n) x.
End Trim.
Definition chomp1 x (c : T) : Mm unit :=
  let* len := length_of x in
  if len =? 0 then ret tt else
  let* v := load1 x (u64 (len - 1)) in
  if d_eqb d v c then pop_back x else ret tt.
Definition chomp x (nl cr : T) : Mm unit := chomp1 x nl ;;; chomp1 x cr.
End Ops.

(** Raw pointers into a buffer: what front(), back(), read() (non-const, 834, 994-1004), begin(),
    mdata() (707-716) hand out. A pointer is dangling once its buffer has been replaced or freed. *)
Record ptr := Ptr { p_loc : loc; p_gen : nat; p_idx : Z }.
Definition ptr_to x (pos : Z) : Mm ptr :=
  let* o := get_obj x in
  match o_ref o with
  | None => undef UbNull
  | Some l => let* c := get_cell l in ret (Ptr l (c_gen c) (u64 (o_off o + pos)))
  end.
Definition ptr_read (p : ptr) : Mm T :=
  let* c := get_cell (p_loc p) in
  if negb (Nat.eqb (c_gen c) (p_gen p)) then undef UbFreed else
  match znth (p_idx p) (c_buf c) with
  | None => undef UbBounds
  | Some None => undef UbIndet
  | Some (Some v) => ret v
  end.
Definition ptr_write (p : ptr) (v : T) : Mm unit :=
  let* c := get_cell (p_loc p) in
  if negb (Nat.eqb (c_gen c) (p_gen p)) then undef UbFreed else
  if (0 <=? p_idx p) && (p_idx p <? zlen (c_buf c))
  then set_cell (p_loc p) (Cell (zupd (p_idx p) [Some v] (c_buf c)) (c_gen c) (c_refs c))
  else undef UbBounds.
(** front() 994, back() 1002, read() 834: no copy-on-write. begin()/mdata() 707-716: with it. *)
Definition front_ptr x : Mm ptr := ptr_to x 0.
Definition back_ptr x : Mm ptr := let* n := length_of x in ptr_to x (u64 (n - 1)).
Definition begin_ptr (d : desc T) x : Mm ptr := get_own_copy d x ;;; ptr_to x 0.
(** insert(pos, const_reference item) with the item still referring to memory, 1173-1183: it is read
    after the buffer was prepared. *)
Definition insert_ref (d : desc T) x (pos : Z) (p : ptr) : Mm unit :=
  check_pos x pos ;;;
  let* len := length_of x in
  about_to_modify d x (u64 (len + 1)) ;;;
  shift_right x pos 1 ;;;
  let* v := ptr_read p in
  store x pos [Some v] ;;;
  add_len x 1.
End Model.
