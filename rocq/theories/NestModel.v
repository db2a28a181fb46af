(** Array<String> on the heap: ReferenceCountedArray.h and Array.h with elements that are Strings of RcaModel.v.

    Two levels share buffers. The buffer of an array is the list of its slots; a slot is the name of a String in the heap
    of Strings, so copying an array shares the slots, and copying a slot shares the buffer of its String. Handles of
    arrays are those of RcaModel.v with slots for elements. Constructing, assigning and destroying an element is the
    modelled member function of String. String's copy and move operations and its default constructor are noexcept, so
    only the array's own allocations can throw.

    Line numbers refer to src/ReferenceCountedArray.h unless another file is named; the branches taken are those of
    std::is_class<T>::value.

    Simplifications:
    - a loop over elements computes the addresses of the slots before it starts; they do not change meanwhile;
    - item arguments are Strings outside the arrays;
    - left out: resize(n, value) and the fill constructor, which construct over live elements (LifeModel.v, C52), hash(),
      and inserting an array into itself (C06). *)
From Verif Require Export RcaSpec RcaModel RcaExec.
Open Scope Z_scope.

(** The arrays, and the Strings: those of the program and the elements. *)
Record nstate := NState { n_out : state positive; n_in : state Z }.
Definition n_init : nstate := NState st_init st_init.
(** The program's String [x]; names ending in a one are slots. *)
Definition str (x : positive) : positive := xO x.

(** A call with other names for its variables. *)
Definition ren {T} (f : positive -> positive) (o : op T) : op T :=
  match o with
  | CtorDefault x => CtorDefault (f x)
  | CtorCopy x y => CtorCopy (f x) (f y)
  | CtorMove x y => CtorMove (f x) (f y)
  | CtorSized x n => CtorSized (f x) n
  | CtorFill x n v => CtorFill (f x) n v
  | CtorList x vs => CtorList (f x) vs
  | CtorRange x vs => CtorRange (f x) vs
  | CtorCstr x m => CtorCstr (f x) m
  | CtorCstrLen x m n => CtorCstrLen (f x) m n
  | CtorChar x v => CtorChar (f x) v
  | Destroy x => Destroy (f x)
  | AssignCopy x y => AssignCopy (f x) (f y)
  | AssignMove x y => AssignMove (f x) (f y)
  | Swap x y => Swap (f x) (f y)
  | AssignList x vs => AssignList (f x) vs
  | AssignStd x vs => AssignStd (f x) vs
  | Clear x => Clear (f x)
  | Resize x n => Resize (f x) n
  | ResizeFill x n v => ResizeFill (f x) n v
  | ReserveIfOwn x n => ReserveIfOwn (f x) n
  | SliceTo x s n => SliceTo (f x) s n
  | AppendItem x v => AppendItem (f x) v
  | InsertItem x p v => InsertItem (f x) p v
  | InsertN mv x p y n => InsertN mv (f x) p (f y) n
  | InsertAll mv x p y => InsertAll mv (f x) p (f y)
  | AppendN mv x y n => AppendN mv (f x) (f y) n
  | InsertRange x p vs => InsertRange (f x) p vs
  | InsertCstr x p m n => InsertCstr (f x) p m n
  | ReplaceItem x p v => ReplaceItem (f x) p v
  | ReplaceN mv x p y n => ReplaceN mv (f x) p (f y) n
  | ReplaceCstr x p m n => ReplaceCstr (f x) p m n
  | Write x p v => Write (f x) p v
  | Read x p => Read (f x) p
  | At x p => At (f x) p
  | Length x => Length (f x)
  | HashOf x => HashOf (f x)
  | FindItem x v p => FindItem (f x) v p
  | RFindItem x v => RFindItem (f x) v
  | BeginMut x => BeginMut (f x)
  | PopBack x => PopBack (f x)
  | Shift x => Shift (f x)
  | Pop x => Pop (f x)
  | ArrDropFront x n => ArrDropFront (f x) n
  | ArrDropBack x n => ArrDropBack (f x) n
  | StrDropFront x n => StrDropFront (f x) n
  | StrDropBack x n => StrDropBack (f x) n
  | CStr g x => CStr g (f x)
  | Trim sp x => Trim sp (f x)
  | Chomp x nl cr => Chomp (f x) nl cr
  end.
(** In a call on the element [z], the name 1 stands for it. *)
Definition elem_name (z y : positive) : positive := match y with xH => z | _ => str y end.

Section Nest.
Variable d : desc Z.           (* String *)
Variable od : desc positive.   (* the array: only d_grow and d_oom matter *)
Notation Mn := (M nstate).

Definition outer {A} (m : M (state positive) A) : Mn A := fun s =>
  match m (n_out s) with
  | Ok v o => Ok v (NState o (n_in s))
  | Exn e o => Exn e (NState o (n_in s))
  | Term => Term | Fuel => Fuel | Undef u => Undef u
  end.
Definition inner {A} (m : M (state Z) A) : Mn A := fun s =>
  match m (n_in s) with
  | Ok v i => Ok v (NState (n_out s) i)
  | Exn e i => Exn e (NState (n_out s) i)
  | Term => Term | Fuel => Fuel | Undef u => Undef u
  end.
(** A member function of String. *)
Definition ecall (o : op Z) : Mn unit := inner (exec d o ;;; ret tt).

(** The name of a String that is about to be constructed in a slot. *)
Definition half (z : positive) : option positive := match z with xI p => Some p | _ => None end.
Definition free_slot (e : gmap positive obj) : positive :=
  xI (fresh (list_to_set (omap half (elements (dom e : gset positive))) : gset positive)).
Definition new_slot : Mn positive := fun s => Ok (free_slot (st_env (n_in s))) s.
(** The slots [i, i + n) of a buffer. *)
Fixpoint names (b : list (option positive)) : option (list positive) :=
  match b with
  | [] => Some []
  | Some z :: b' => option_map (cons z) (names b')
  | None :: _ => None
  end.
Definition slots (l : loc) (i n : Z) : Mn (list positive) :=
  let* c := outer (get_cell l) in
  if (i <? 0) || (zlen (c_buf c) <? i + n) then undef UbBounds else
  match names (zsub i n (c_buf c)) with Some zs => ret zs | None => undef UbRaw end.

(** std::uninitialized_fill with copies of [t]. *)
Fixpoint nfill (n : nat) (t : positive) : Mn (list positive) :=
  match n with
  | O => ret []
  | S m => let* z := new_slot in ecall (CtorCopy z t) ;;; let* zs := nfill m t in ret (z :: zs)
  end.
(** std::uninitialized_move_n. *)
Fixpoint nmoves (src : list positive) : Mn (list positive) :=
  match src with
  | [] => ret []
  | z :: src' => let* q := new_slot in ecall (CtorMove q z) ;;; let* qs := nmoves src' in ret (q :: qs)
  end.
(** std::copy, std::move: from the first of each pair to the second. *)
Fixpoint neach (mk : positive -> positive -> op Z) (ps : list (positive * positive)) : Mn unit :=
  match ps with [] => ret tt | (z, t) :: ps' => ecall (mk t z) ;;; neach mk ps' end.
(** FreeBuf, 126-133. *)
Fixpoint nfree (b : list (option positive)) : Mn unit :=
  match b with
  | [] => ret tt
  | Some z :: b' => ecall (Destroy z) ;;; nfree b'
  | None :: _ => undef UbRaw
  end.

(** ArrayRef::reserve, 76-118; returns the new offset. *)
Definition nref_reserve (l : loc) (newSize : Z) (sc : Z -> Z) (off len : Z) : Mn Z :=
  let* c := outer (get_cell l) in
  let size := zlen (c_buf c) in
  if size <? newSize then
    let n := Z.max (sc size) newSize in                                         (* 81 *)
    outer (try_alloc od n) ;;;                                                  (* 83 *)
    if n <? len then undef UbBounds else
    let* t := new_slot in                                                       (* 88: the temporary T() *)
    ecall (CtorDefault t) ;;;
    let* fill := nfill (Z.to_nat (n - len)) t in
    ecall (Destroy t) ;;;
    match c_buf c with
    | [] => if 0 <? len then undef UbRaw                                        (* 89: buf is null *)
            else outer (set_cell l (Cell (map Some fill) (S (c_gen c)) (c_refs c))) ;;; ret 0
    | _ :: _ =>
      let* src := slots l off len in
      let* front := nmoves src in                                               (* 93-102 *)
      nfree (c_buf c) ;;;                                                       (* 105 *)
      outer (set_cell l (Cell (map Some (front ++ fill)) (S (c_gen c)) (c_refs c))) ;;;
      ret 0                                                                     (* 107-109 *)
    end
  else if u64 (size - off) <? newSize then                                      (* 111 *)
    let* src := slots l off len in
    let* dst := slots l 0 len in
    neach AssignMove (combine src dst) ;;; ret 0                                (* 115-116 *)
  else ret off.
(** reserve, 606-612. *)
Definition nreserve (x : var) (n : Z) (sc : Z -> Z) : Mn unit :=
  let* o := outer (get_obj x) in
  let* l := match o_ref o with
            | Some l => ret l
            | None => let* l := outer (new_cell od) in
                      outer (set_obj x (Obj (Some l) (o_off o) (o_len o) (o_hash o))) ;;; ret l
            end in
  let* off := nref_reserve l n sc (o_off o) (o_len o) in
  outer (set_obj x (Obj (Some l) off (o_len o) (o_hash o))).
(** The slots of elements [pos, pos + n): Buf(pos), 301-303. Loops over nothing touch no memory. *)
Definition nslots (x : var) (pos n : Z) : Mn (list positive) :=
  if n <=? 0 then ret [] else
  let* o := outer (get_obj x) in
  match o_ref o with None => undef UbNull | Some l => slots l (o_off o + pos) n end.
Definition nslot (x : var) (pos : Z) : Mn positive :=
  let* zs := nslots x pos 1 in match zs with [z] => ret z | _ => undef UbBounds end.

(** COW, 383-392. *)
Definition ncow (x : var) (n : Z) : Mn unit :=
  let* o := outer (get_obj x) in
  outer (check od (is_shared x)) ;;;
  outer (do_detach x) ;;;
  nreserve x n (d_grow od) ;;;
  let k := Z.min (o_len o) n in
  outer (set_len x k) ;;;
  if k <=? 0 then ret tt else
  match o_ref o with
  | None => undef UbNull
  | Some ls => let* src := slots ls (o_off o) k in let* dst := nslots x 0 k in neach AssignCopy (combine src dst)
  end.
(** AboutToModify, 405-413; getOwnCopy, 399. *)
Definition nmodify (x : var) (n : Z) : Mn unit :=
  outer (let* o := get_obj x in set_obj x (Obj (o_ref o) (o_off o) (o_len o) 0)) ;;;
  let* sh := outer (is_shared x) in
  if (sh : bool) then ncow x n else nreserve x n (d_grow od).
Definition nown (x : var) : Mn unit := let* n := outer (length_of x) in nmodify x n.
(** CheckDeallocRef, 363-368, with ~ArrayRef, 62-64. *)
Definition ndrop (x : var) : Mn unit :=
  let* o := outer (get_obj x) in
  match o_ref o with
  | None => ret tt
  | Some l =>
    let* n := outer (dec_ref (Some l)) in
    if n <? 1 then
      let* c := outer (get_cell l) in
      nfree (c_buf c) ;;; outer (delete_cell l) ;;; outer (set_obj x (Obj None (o_off o) (o_len o) (o_hash o)))
    else ret tt
  end.
(** operator=(const&), 527-536. *)
Definition nassign (x y : var) : Mn unit :=
  let* oy := outer (get_obj y) in
  outer (inc_ref (o_ref oy)) ;;;
  let* ox := outer (get_obj x) in
  outer (set_obj x (Obj (o_ref ox) (o_off oy) (o_len oy) (o_hash oy))) ;;;
  ndrop x ;;;
  let* ox' := outer (get_obj x) in
  let* oy' := outer (get_obj y) in
  outer (set_obj x (Obj (o_ref oy') (o_off ox') (o_len ox') (o_hash ox'))).
(** operator=(&&), 542-560. *)
Definition nassign_move (x y : var) : Mn unit :=
  if Pos.eqb x y then ret tt else
  ndrop x ;;;
  let* oy := outer (get_obj y) in
  outer (set_obj x oy) ;;;
  outer (set_obj y (Obj None (o_off oy) (o_len oy) (o_hash oy))).
(** Assignment to an element from the String [v], an rvalue if [mv]. *)
Definition give (mv : bool) (z v : positive) : Mn unit := ecall (if mv then AssignMove z v else AssignCopy z v).

(** insert(pos, item), 1173-1203. *)
Definition ninsert (mv : bool) (x : var) (pos : Z) (v : positive) : Mn unit :=
  outer (check_pos x pos) ;;;
  let* n := outer (length_of x) in
  nmodify x (u64 (n + 1)) ;;;
  let* src := nslots x pos (n - pos) in
  let* dst := nslots x (pos + 1) (n - pos) in
  neach AssignCopy (rev (combine src dst)) ;;;   (* move_backward from const iterators copies *)
  let* z := nslot x pos in
  give mv z v ;;;
  outer (add_len x 1).
(** append(item), 989-992. *)
Definition nappend (mv : bool) (x : var) (v : positive) : Mn unit :=
  let* n := outer (length_of x) in ninsert mv x n v.
(** insert(pos, array), 1090-1107. *)
Definition ninsert_array (x : var) (pos : Z) (y : var) : Mn unit :=
  outer (check_pos x pos) ;;;
  let* k := outer (length_of y) in
  let* n := outer (length_of x) in
  if (pos =? 0) && (n <? k) then nassign x y else
  nmodify x (u64 (n + k)) ;;;
  let* src := nslots x pos (n - pos) in
  let* dst := nslots x (pos + k) (n - pos) in
  neach AssignCopy (rev (combine src dst)) ;;;
  let* src := nslots y 0 k in
  let* dst := nslots x pos k in
  neach AssignCopy (combine src dst) ;;;
  outer (add_len x k).
(** write(pos, item), 844-851; Cref::operator= 877-916 is this. *)
Definition nwrite (mv : bool) (x : var) (pos : Z) (v : positive) : Mn unit :=
  nown x ;;; let* z := nslot x pos in give mv z v.
(** replace(pos, item), 1212-1233. *)
Definition nreplace (mv : bool) (x : var) (pos : Z) (v : positive) : Mn unit := outer (check_pos x pos) ;;; nwrite mv x pos v.
(** a[pos].mget(), 893-896, and a member function on what it returns. *)
Definition nelem (x : var) (pos : Z) (o : op Z) : Mn (out Z) :=
  nown x ;;; let* z := nslot x pos in inner (exec d (ren (elem_name z) o)).
(** A call that uses a const reference to an element, a[pos] of a const array or *constBuf(pos), 834-839: as an argument or
    for a const member function. *)
Definition npeek (x : var) (pos : Z) (o : op Z) : Mn (out Z) :=
  let* z := nslot x pos in inner (exec d (ren (elem_name z) o)).
(** String r(a[pos]), 834-839. *)
Definition nget (r : positive) (x : var) (pos : Z) : Mn unit :=
  let* z := nslot x pos in ecall (CtorCopy (str r) z).
(** String r(a.shift()), Array.h:107-116, and String r(a.pop()), Array.h:128-133: moved out of an unshared array. *)
Definition take (r : positive) (x : var) (pos : Z) : Mn unit :=
  let* sh := outer (is_shared x) in
  let* z := nslot x pos in
  ecall (if (sh : bool) then CtorCopy (str r) z else CtorMove (str r) z).
Definition nshift (r : positive) (x : var) : Mn unit :=
  outer (check od (not_empty x)) ;;;
  take r x 0 ;;;
  outer (let* o := get_obj x in set_obj x (Obj (o_ref o) (u64 (o_off o + 1)) (u64 (o_len o - 1)) 0)).
Definition npop (r : positive) (x : var) : Mn unit :=
  outer (check od (not_empty x)) ;;;
  let* n := outer (length_of x) in
  take r x (u64 (n - 1)) ;;; outer (pop_back od x).
(** resize(n), 631-638. *)
Definition nresize (x : var) (n : Z) : Mn unit :=
  let* len := outer (length_of x) in
  if n <? len then outer (set_length x n) else nmodify x n ;;; outer (set_len x n).

(** Calls a program can make. *)
Inductive nop :=
| NStr (o : op Z)                        (* on the Strings of the program *)
| NNew (x : var)                         (* 431-433 *)
| NCopy (x y : var)                      (* 434-440 *)
| NMove (x y : var)                      (* 441-451 *)
| NKill (x : var)                        (* 429 *)
| NAssign (x y : var)
| NAssignMove (x y : var)
| NSwap (x y : var)                      (* 508-516 *)
| NClear (x : var)                       (* 346-354 *)
| NReserve (x : var) (n : Z)             (* if (!x.isShared()) x.reserve(n) *)
| NResize (x : var) (n : Z)
| NSlice (x : var) (start len : Z)       (* 956-980 *)
| NInsert (mv : bool) (x : var) (pos : Z) (v : positive)
| NAppend (mv : bool) (x : var) (v : positive)
| NInsertArray (x : var) (pos : Z) (y : var)
| NWrite (mv : bool) (x : var) (pos : Z) (v : positive)
| NReplace (mv : bool) (x : var) (pos : Z) (v : positive)
| NInsertEl (x : var) (pos : Z) (y : var) (i : Z)   (* the item is the element y[i]: a const reference to it *)
| NAppendEl (x y : var) (i : Z)
| NWriteEl (x : var) (pos : Z) (y : var) (i : Z)
| NReplaceEl (x : var) (pos : Z) (y : var) (i : Z)
| NElem (x : var) (pos : Z) (o : op Z)
| NPeek (x : var) (pos : Z) (o : op Z)
| NGet (r : positive) (x : var) (pos : Z)
| NShift (r : positive) (x : var)
| NPop (r : positive) (x : var).

Definition unit_ (m : Mn unit) : Mn (out Z) := m ;;; ret ONone.
Definition nexec (o : nop) : Mn (out Z) :=
  match o with
  | NStr o => inner (exec d (ren str o))
  | NNew x => unit_ (outer (ctor_default x))
  | NCopy x y => unit_ (outer (ctor_copy x y))
  | NMove x y => unit_ (outer (ctor_move x y))
  | NKill x => unit_ (ndrop x ;;; outer (del_obj x))
  | NAssign x y => unit_ (nassign x y)
  | NAssignMove x y => unit_ (nassign_move x y)
  | NSwap x y => unit_ (outer (swap x y))
  | NClear x => unit_ (outer (clear x))
  | NReserve x n => unit_ (let* sh := outer (is_shared x) in if (sh : bool) then ret tt else nreserve x n (fun z => z))
  | NResize x n => unit_ (nresize x n)
  | NSlice x start len => unit_ (outer (slice x start len))
  | NInsert mv x pos v => unit_ (ninsert mv x pos (str v))
  | NAppend mv x v => unit_ (nappend mv x (str v))
  | NInsertArray x pos y => unit_ (ninsert_array x pos y)
  | NWrite mv x pos v => unit_ (nwrite mv x pos (str v))
  | NReplace mv x pos v => unit_ (nreplace mv x pos (str v))
  | NInsertEl x pos y i => unit_ (let* z := nslot y i in ninsert false x pos z)
  | NAppendEl x y i => unit_ (let* z := nslot y i in nappend false x z)
  | NWriteEl x pos y i => unit_ (let* z := nslot y i in nwrite false x pos z)
  | NReplaceEl x pos y i => unit_ (let* z := nslot y i in nreplace false x pos z)
  | NElem x pos o => nelem x pos o
  | NPeek x pos o => npeek x pos o
  | NGet r x pos => unit_ (nget r x pos)
  | NShift r x => unit_ (nshift r x)
  | NPop r x => unit_ (npop r x)
  end.
End Nest.
