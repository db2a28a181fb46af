(** Lifetimes of the elements of an Array (src/ReferenceCountedArray.h, src/Array.h).

    RcaModel.v treats elements as pure values. Here they are objects of a class type: they are constructed, assigned
    to and destroyed, and constructing or copying one can throw. A buffer is a list of slots, each raw memory or an
    object. Ghost counters record every construction and destruction.

    Line numbers refer to src/ReferenceCountedArray.h unless another file is named; the branches taken are those of
    std::is_class<T>::value.

    Simplifications:
    - std::allocator: an allocation either succeeds or throws, as does constructing, copy constructing or copy
      assigning an element; one oracle [e_fails], indexed by the number of such attempts, decides;
    - moving an element does not throw when the class has move operations ([e_moves]); otherwise it is a copy;
    - destructors do not throw;
    - item arguments are objects outside the array; they are passed as lvalues;
    - sizes are not wrapped (allocation fails above PTRDIFF_MAX; wrapping is followed in RcaModel.v);
    - the hash cache is left out, as are the overloads for rvalues, which copy because cbegin() is const. *)
From Verif Require Export RcaModel.
Open Scope Z_scope.

(** An element type with values in [V]. *)
Record ety (V : Type) := Ety {
  e_def : V;               (* the value of T() *)
  e_moves : bool;          (* has move operations that do not throw *)
  e_grow : Z -> Z;         (* size_t(size * 1.5) *)
  e_fails : nat -> bool    (* does the k-th attempt to allocate, construct or copy throw? *)
}.
Arguments Ety {V}. Arguments e_def {V}. Arguments e_moves {V}. Arguments e_grow {V}. Arguments e_fails {V}.

(** A slot of a buffer: raw memory, or an object. The value of a moved-from object is unspecified ([None]). *)
Inductive slot (V : Type) := Raw | Live (v : option V).
Arguments Raw {V}. Arguments Live {V}.

(** ArrayRef, 50-59: the buffer (its length is [size]) and the counter. *)
Record ecell (V : Type) := ECell { e_buf : list (slot V); e_refs : Z }.
Arguments ECell {V}. Arguments e_buf {V}. Arguments e_refs {V}.

(** Objects are those of RcaModel.v with the hash left at 0. The ghosts: number of objects constructed and destroyed,
    values of the objects that were overwritten or abandoned without being destroyed, number of abandoned buffers. *)
Record estate (V : Type) := EState {
  e_heap : gmap loc (ecell V);
  e_env : gmap var obj;
  e_next : loc;
  e_tick : nat;
  e_built : Z;
  e_killed : Z;
  e_lost : list (option V);
  e_mem : Z
}.
Arguments EState {V}. Arguments e_heap {V}. Arguments e_env {V}. Arguments e_next {V}. Arguments e_tick {V}.
Arguments e_built {V}. Arguments e_killed {V}. Arguments e_lost {V}. Arguments e_mem {V}.
Definition e_init {V} : estate V := EState ∅ ∅ 1%positive 0 0 0 [] 0.

Section Life.
Context {V : Type}.
Notation St := (estate V).
Notation Me := (M St).

Definition up_heap (f : gmap loc (ecell V) -> gmap loc (ecell V)) (s : St) : St :=
  EState (f (e_heap s)) (e_env s) (e_next s) (e_tick s) (e_built s) (e_killed s) (e_lost s) (e_mem s).
Definition up_env (f : gmap var obj -> gmap var obj) (s : St) : St :=
  EState (e_heap s) (f (e_env s)) (e_next s) (e_tick s) (e_built s) (e_killed s) (e_lost s) (e_mem s).
Definition count_up (b k : Z) (lost : list (option V)) (m : Z) (s : St) : St :=
  EState (e_heap s) (e_env s) (e_next s) (e_tick s) (e_built s + b) (e_killed s + k) (e_lost s ++ lost) (e_mem s + m).
Definition upd (f : St -> St) : Me unit := fun s => Ok tt (f s).

Definition obj_of (x : var) : Me obj := fun s =>
  match e_env s !! x with Some o => Ok o s | None => Undef UbDeadVar end.
Definition put_obj (x : var) (o : obj) : Me unit := upd (up_env <[x := o]>).
(** Start of an array's lifetime: the name must be unused. *)
Definition start_obj (x : var) (o : obj) : Me unit := fun s =>
  match e_env s !! x with Some _ => Undef UbDeadVar | None => put_obj x o s end.
Definition cell_of (l : loc) : Me (ecell V) := fun s =>
  match e_heap s !! l with Some c => Ok c s | None => Undef UbFreed end.
Definition put_cell (l : loc) (c : ecell V) : Me unit := upd (up_heap <[l := c]>).

(** The value of the element in slot [i]; there must be one. *)
Definition get_slot (l : loc) (i : Z) : Me (option V) :=
  let* c := cell_of l in
  if i <? 0 then undef UbBounds else
  match znth i (e_buf c) with None => undef UbBounds | Some Raw => undef UbRaw | Some (Live v) => ret v end.
(** Assignment to the element in slot [i]; there must be one. *)
Definition set_slot (l : loc) (i : Z) (v : option V) : Me unit :=
  let* c := cell_of l in
  if i <? 0 then undef UbBounds else
  match znth i (e_buf c) with
  | None => undef UbBounds
  | Some Raw => undef UbRaw
  | Some (Live _) => put_cell l (ECell (zupd i [Live v] (e_buf c)) (e_refs c))
  end.
(** Construction in slot [i]; an object that is there is lost. *)
Definition lost_of (s : slot V) : list (option V) := match s with Raw => [] | Live v => [v] end.
Definition construct (l : loc) (i : Z) (v : option V) : Me unit :=
  let* c := cell_of l in
  if i <? 0 then undef UbBounds else
  match znth i (e_buf c) with
  | None => undef UbBounds
  | Some old =>
    put_cell l (ECell (zupd i [Live v] (e_buf c)) (e_refs c)) ;;; upd (count_up 1 0 (lost_of old) 0)
  end.
(** Destruction in slot [i], leaving raw memory. *)
Definition destruct_slot (l : loc) (i : Z) : Me unit :=
  let* c := cell_of l in
  match znth i (e_buf c) with
  | Some (Live _) => put_cell l (ECell (zupd i [Raw] (e_buf c)) (e_refs c)) ;;; upd (count_up 0 1 [] 0)
  | _ => undef UbRaw
  end.

(** Destroying the elements of a buffer that is about to be released, 128-130; each slot must hold one. *)
Fixpoint destroy_all (b : list (slot V)) : Me unit :=
  match b with
  | [] => ret tt
  | Raw :: _ => undef UbRaw
  | Live _ :: b' => upd (count_up 0 1 [] 0) ;;; destroy_all b'
  end.
(** delete Ref (364-367), ~ArrayRef (62-64), FreeBuf (126-133). *)
Definition delete_ref (l : loc) : Me unit :=
  let* c := cell_of l in
  destroy_all (e_buf c) ;;; upd (up_heap (delete l)).

Section WithType.
Variable t : ety V.

(** A step that can throw. *)
Definition attempt : Me unit := fun s =>
  let s' := EState (e_heap s) (e_env s) (e_next s) (S (e_tick s)) (e_built s) (e_killed s) (e_lost s) (e_mem s) in
  if e_fails t (e_tick s) then Exn BadAlloc s' else Ok tt s'.
Definition allocate (n : Z) : Me unit := if max_alloc <? n then throw BadAlloc else attempt.
(** [m], and [k] on the way out if it throws. *)
Definition on_throw {A} (m : Me A) (k : St -> St) : Me A := fun s =>
  match m s with Exn e s' => Exn e (k s') | r => r end.

(** std::uninitialized_fill of new memory with copies of [v]: what was constructed is destroyed if a copy throws. *)
Fixpoint build (n : nat) (v : option V) (acc : list (slot V)) : Me (list (slot V)) :=
  match n with
  | O => ret acc
  | S m =>
    on_throw attempt (count_up 0 (zlen acc) [] 0) ;;;
    upd (count_up 1 0 [] 0) ;;; build m v (acc ++ [Live v])
  end.
(** A temporary T() around [m]. *)
Definition with_temp {A} (m : Me A) : Me A :=
  attempt ;;; upd (count_up 1 0 [] 0) ;;;
  let* a := on_throw m (count_up 0 1 [] 0) in
  upd (count_up 0 1 [] 0) ;;; ret a.

(** std::uninitialized_move_n / uninitialized_copy_n with move iterators (93-102): [n] elements of [l] from [i] on are
    moved (or copied) into new memory. *)
Fixpoint relocate (n : nat) (l : loc) (i : Z) (acc : list (slot V)) : Me (list (slot V)) :=
  match n with
  | O => ret acc
  | S m =>
    let* v := get_slot l i in
    (if e_moves t then set_slot l i None else on_throw attempt (count_up 0 (zlen acc) [] 0)) ;;;
    upd (count_up 1 0 [] 0) ;;; relocate m l (i + 1) (acc ++ [Live v])
  end.
(** std::move to an earlier place in the same buffer (115). *)
Fixpoint move_down (n : nat) (l : loc) (i j : Z) : Me unit :=
  match n with
  | O => ret tt
  | S m =>
    let* v := get_slot l i in
    (if e_moves t then set_slot l j v ;;; set_slot l i None else attempt ;;; set_slot l j v) ;;;
    move_down m l (i + 1) (j + 1)
  end.
(** std::copy between buffers. *)
Fixpoint copy_up (n : nat) (ls : loc) (i : Z) (ld : loc) (j : Z) : Me unit :=
  match n with
  | O => ret tt
  | S m =>
    let* v := get_slot ls i in
    attempt ;;; set_slot ld j v ;;; copy_up m ls (i + 1) ld (j + 1)
  end.
(** std::copy from objects elsewhere. *)
Fixpoint copy_in (vs : list V) (ld : loc) (j : Z) : Me unit :=
  match vs with
  | [] => ret tt
  | v :: vs' => attempt ;;; set_slot ld j (Some v) ;;; copy_in vs' ld (j + 1)
  end.
(** std::move_backward; the source is const, so the elements are copied (e.g. 1104, 1180). *)
Fixpoint shift_up (n : nat) (l : loc) (i k : Z) : Me unit :=
  match n with
  | O => ret tt
  | S m =>
    let* v := get_slot l (i + Z.of_nat m) in
    attempt ;;; set_slot l (i + Z.of_nat m + k) v ;;; shift_up m l i k
  end.
(** std::uninitialized_fill of a range of a buffer in use (655): slots already hold objects. What was constructed is
    destroyed if a copy throws, which leaves raw slots behind. *)
Fixpoint unbuild (n : nat) (l : loc) (i : Z) : Me unit :=
  match n with O => ret tt | S m => destruct_slot l i ;;; unbuild m l (i + 1) end.
Fixpoint fill_over (n : nat) (l : loc) (i : Z) (v : option V) (done : nat) : Me unit :=
  match n with
  | O => ret tt
  | S m => fun s =>
    match attempt s with
    | Exn e s' => (unbuild done l (i - Z.of_nat done) ;;; throw e) s'
    | Ok _ s' => (construct l i v ;;; fill_over m l (i + 1) v (S done)) s'
    | r => r
    end
  end.

(** ArrayRef::reserve, 76-118; returns the new offset. *)
Definition ref_reserve (l : loc) (newSize : Z) (sc : Z -> Z) (off len : Z) : Me Z :=
  let* c := cell_of l in
  let size := zlen (e_buf c) in
  if size <? newSize then
    let n := Z.max (sc size) newSize in                                         (* 81 *)
    allocate n ;;;                                                              (* 83 *)
    if n <? len then undef UbBounds else
    let* fill := on_throw (with_temp (build (Z.to_nat (n - len)) (Some (e_def t)) []))
                          (count_up 0 0 [] 1) in                                (* 87-88 *)
    let* front := (match e_buf c with
                   | [] => ret (zrep len Raw)                                   (* 89: buf is null *)
                   | _ => on_throw (relocate (Z.to_nat len) l off [])
                            (count_up 0 0 (concat (map lost_of fill)) 1)        (* 92-102 *)
                   end) in
    let* c' := cell_of l in
    destroy_all (e_buf c') ;;;                                                  (* 105 *)
    put_cell l (ECell (front ++ fill) (e_refs c)) ;;;
    ret 0                                                                       (* 107-109 *)
  else if u64 (size - off) <? newSize then                                      (* 111 *)
    move_down (Z.to_nat len) l off 0 ;;; ret 0                                  (* 115-116 *)
  else ret off.
(** reserve, 606-612. *)
Definition reserve (x : var) (n : Z) (sc : Z -> Z) : Me unit :=
  let* o := obj_of x in
  let* l := (match o_ref o with
             | Some l => ret l
             | None =>
               attempt ;;;
               let* l := (fun s => Ok (e_next s)
                 (EState (<[e_next s := ECell [] 1]> (e_heap s)) (e_env s) (Pos.succ (e_next s)) (e_tick s)
                         (e_built s) (e_killed s) (e_lost s) (e_mem s))) in
               put_obj x (Obj (Some l) (o_off o) (o_len o) 0) ;;; ret l
             end) in
  let* off := ref_reserve l n sc (o_off o) (o_len o) in
  put_obj x (Obj (Some l) off (o_len o) 0).

(** isShared, 596-598. *)
Definition shared (x : var) : Me bool :=
  let* o := obj_of x in
  match o_ref o with None => ret false | Some l => let* c := cell_of l in ret (1 <? e_refs c) end.
(** incRef 269, decRef 274. *)
Definition add_ref (r : option loc) (k : Z) : Me Z :=
  match r with
  | None => ret 0
  | Some l => let* c := cell_of l in put_cell l (ECell (e_buf c) (e_refs c + k)) ;;; ret (e_refs c + k)
  end.
(** doDetach, 259-265. *)
Definition detach (x : var) : Me unit :=
  let* o := obj_of x in add_ref (o_ref o) (-1) ;;; put_obj x obj_empty.
(** Detach 346-354, clear 617. *)
Definition eclear (x : var) : Me unit :=
  let* sh := shared x in
  if (sh : bool) then detach x else let* o := obj_of x in put_obj x (Obj (o_ref o) 0 0 0).
(** CheckDeallocRef, 363-368. *)
Definition drop_ref (x : var) : Me unit :=
  let* o := obj_of x in
  match o_ref o with
  | None => ret tt
  | Some l => let* n := add_ref (Some l) (-1) in
              if n <? 1 then delete_ref l ;;; put_obj x (Obj None (o_off o) (o_len o) 0) else ret tt
  end.
Definition put_len (x : var) (n : Z) : Me unit :=
  let* o := obj_of x in put_obj x (Obj (o_ref o) (o_off o) n 0).
(** The place of element [pos]: Buf(pos), 301-303. *)
Definition place (x : var) (pos : Z) : Me (loc * Z) :=
  let* o := obj_of x in
  match o_ref o with None => undef UbNull | Some l => ret (l, o_off o + pos) end.
(** Loops over no element touch no memory: they may be given the null pointer. *)
Definition at_place (x : var) (pos n : Z) (k : loc -> Z -> Me unit) : Me unit :=
  if n <=? 0 then ret tt else let* p := place x pos in k (fst p) (snd p).

(** COW, 383-392. *)
Definition ecow (x : var) (n : Z) : Me unit :=
  let* o := obj_of x in
  detach x ;;;
  reserve x n (e_grow t) ;;;
  let k := Z.min (o_len o) n in
  put_len x k ;;;
  at_place x 0 k (fun ld j =>
    match o_ref o with None => undef UbNull | Some ls => copy_up (Z.to_nat k) ls (o_off o) ld j end).
(** AboutToModify, 405-413; getOwnCopy, 399. *)
Definition modify (x : var) (n : Z) : Me unit :=
  let* sh := shared x in if (sh : bool) then ecow x n else reserve x n (e_grow t).
Definition own_copy (x : var) : Me unit := let* o := obj_of x in modify x (o_len o).
(** "if (pos != 0) validateIndex(pos - 1)", 419-422. *)
Definition check (x : var) (pos : Z) : Me unit :=
  let* o := obj_of x in if o_len o <? pos then throw OutOfRange else ret tt.

(** A constructor body after the delegated constructor has finished: if it throws, the destructor (429) runs. *)
Definition end_obj (x : var) : Me unit := drop_ref x ;;; upd (up_env (delete x)).
Definition body (x : var) (m : Me unit) : Me unit := fun s =>
  match m s with Exn e s' => (end_obj x ;;; throw e) s' | r => r end.

(** operator=(const&), 527-536. *)
Definition eassign (x y : var) : Me unit :=
  let* oy := obj_of y in
  add_ref (o_ref oy) 1 ;;;
  let* ox := obj_of x in
  put_obj x (Obj (o_ref ox) (o_off oy) (o_len oy) 0) ;;;
  drop_ref x ;;;
  let* ox' := obj_of x in
  let* oy' := obj_of y in
  put_obj x (Obj (o_ref oy') (o_off ox') (o_len ox') 0).
(** operator=(&&), 542-560. *)
Definition eassign_move (x y : var) : Me unit :=
  if Pos.eqb x y then ret tt else
  drop_ref x ;;;
  let* oy := obj_of y in
  put_obj x oy ;;; put_obj y (Obj None (o_off oy) (o_len oy) 0).

(** resize, 631-638 and 645-660; the value is passed by value. *)
Definition eresize (x : var) (n : Z) : Me unit :=
  let* o := obj_of x in
  if n <? o_len o then put_len x n else modify x n ;;; put_len x n.
(** A parameter passed by value: a copy made before and destroyed after the call. *)
Definition eresize_fill (x : var) (n : Z) (v : V) : Me unit :=
  with_temp
  (let* o := obj_of x in
   if n <? o_len o then put_len x n
   else
     modify x n ;;;
     let* o := obj_of x in
     at_place x (o_len o) (n - o_len o) (fun l i => fill_over (Z.to_nat (n - o_len o)) l i (Some v) 0) ;;;
     put_len x n).

(** insert of an item, 1173-1183. *)
Definition einsert (x : var) (pos : Z) (v : V) : Me unit :=
  check x pos ;;;
  let* o := obj_of x in
  let n := o_len o in
  modify x (n + 1) ;;;
  at_place x pos (n - pos) (fun l i => shift_up (Z.to_nat (n - pos)) l i 1) ;;;
  let* p := place x pos in
  attempt ;;; set_slot (fst p) (snd p) (Some v) ;;;
  put_len x (n + 1).
(** insert of an array, 1090-1107. *)
Definition einsert_array (x : var) (pos : Z) (y : var) : Me unit :=
  check x pos ;;;
  let* oy := obj_of y in
  let* ox := obj_of x in
  let k := o_len oy in
  let n := o_len ox in
  if (pos =? 0) && (n <? k) then eassign x y else
  modify x (n + k) ;;;
  at_place x pos (n - pos) (fun l i => shift_up (Z.to_nat (n - pos)) l i k) ;;;
  at_place x pos k (fun ld j => at_place y 0 k (fun ls i => copy_up (Z.to_nat k) ls i ld j)) ;;;
  put_len x (n + k).
(** insert of a range, 1041-1052, and the insert it calls, 1029-1033. *)
Fixpoint insert_each (x : var) (pos : Z) (vs : list V) : Me unit :=
  match vs with
  | [] => ret tt
  | v :: vs' => own_copy x ;;; einsert x pos v ;;; own_copy x ;;; insert_each x (pos + 1) vs'
  end.
Definition einsert_range (x : var) (pos : Z) (vs : list V) : Me unit :=
  let* o := obj_of x in
  modify x (o_len o + zlen vs) ;;; insert_each x pos vs ;;; own_copy x.
(** write, 844-847. *)
Definition ewrite (x : var) (pos : Z) (v : V) : Me unit :=
  own_copy x ;;; let* p := place x pos in attempt ;;; set_slot (fst p) (snd p) (Some v).
(** replace of an item, 1212-1218. *)
Definition ereplace (x : var) (pos : Z) (v : V) : Me unit := check x pos ;;; ewrite x pos v.
(** replace with an array, 1241-1265, n = npos. *)
Definition ereplace_array (x : var) (pos : Z) (y : var) : Me unit :=
  check x pos ;;;
  let* oy := obj_of y in
  let* ox := obj_of x in
  let k := o_len oy in
  if (pos =? 0) && (o_len ox <? k) then eassign x y else
  let newlen := Z.max (pos + k) (o_len ox) in
  modify x newlen ;;;
  at_place x pos k (fun ld j => at_place y 0 k (fun ls i => copy_up (Z.to_nat k) ls i ld j)) ;;;
  put_len x newlen.
(** operator=(initializer_list), 577-583; a constructor from a list, 487-490, is this on an empty array. *)
Definition fill_list (x : var) (vs : list V) : Me unit :=
  at_place x 0 (zlen vs) (fun l i => copy_in vs l i) ;;; put_len x (zlen vs).
Definition eassign_list (x : var) (vs : list V) : Me unit :=
  eclear x ;;; reserve x (zlen vs) (fun z => z) ;;; fill_list x vs.
(** slice, 956-980, for 0 <= start, 0 <= len (the rest is C08). *)
Definition eslice (x : var) (start len : Z) : Me unit :=
  let* o := obj_of x in
  if o_len o <=? start then put_obj x (Obj (o_ref o) (o_len o) 0 0)
  else put_obj x (Obj (o_ref o) (o_off o + start) (Z.min len (o_len o - start)) 0).
(** Array::shift, Array.h:107-116, and Array::pop, Array.h:128-133: the result is moved out of an unshared array. The
    object that is returned is a temporary of the caller. *)
Definition take (x : var) (pos : Z) : Me (option V) :=
  let* sh := shared x in
  let* p := place x pos in
  let* v := get_slot (fst p) (snd p) in
  (if (sh : bool) || negb (e_moves t) then attempt else set_slot (fst p) (snd p) None) ;;;
  upd (count_up 1 1 [] 0) ;;; ret v.
Definition eshift (x : var) : Me unit :=
  let* _ := take x 0 in
  let* o := obj_of x in put_obj x (Obj (o_ref o) (o_off o + 1) (o_len o - 1) 0).
Definition epop (x : var) : Me unit :=
  let* o := obj_of x in
  let* _ := take x (o_len o - 1) in
  put_len x (o_len o - 1).

(** Calls a program can make. *)
Inductive eop :=
| ECtor (x : var)                        (* 431-433 *)
| ECtorSized (x : var) (n : Z)           (* 462-468 *)
| ECtorFill (x : var) (n : Z) (v : V)    (* 477-481 *)
| ECtorList (x : var) (vs : list V)      (* 487-490 *)
| ECtorCopy (x y : var)                  (* 434-440 *)
| ECtorMove (x y : var)                  (* 441-451 *)
| EDestroy (x : var)                     (* 429 *)
| EAssign (x y : var)
| EAssignMove (x y : var)
| ESwap (x y : var)                      (* 508-516 *)
| EAssignList (x : var) (vs : list V)
| EClear (x : var)
| EReserve (x : var) (n : Z)             (* if (!x.isShared()) x.reserve(n) *)
| EResize (x : var) (n : Z)
| EResizeFill (x : var) (n : Z) (v : V)
| ESlice (x : var) (start len : Z)
| EInsert (x : var) (pos : Z) (v : V)
| EInsertArray (x : var) (pos : Z) (y : var)
| EInsertRange (x : var) (pos : Z) (vs : list V)
| EWrite (x : var) (pos : Z) (v : V)
| EReplace (x : var) (pos : Z) (v : V)
| EReplaceArray (x : var) (pos : Z) (y : var)
| EShift (x : var)
| EPop (x : var).

Definition eexec (o : eop) : Me unit :=
  match o with
  | ECtor x => start_obj x obj_empty
  | ECtorSized x n => start_obj x obj_empty ;;; body x (if n =? 0 then ret tt else reserve x n (fun z => z))
  | ECtorFill x n v => with_temp (start_obj x obj_empty ;;; body x (eresize_fill x n v))
  | ECtorList x vs =>
      start_obj x obj_empty ;;;
      body x ((if zlen vs =? 0 then ret tt else reserve x (zlen vs) (fun z => z)) ;;; fill_list x vs)
  | ECtorCopy x y => let* o := obj_of y in start_obj x o ;;; add_ref (o_ref o) 1 ;;; ret tt
  | ECtorMove x y => let* o := obj_of y in start_obj x o ;;; put_obj y (Obj None (o_off o) (o_len o) 0)
  | EDestroy x => end_obj x
  | EAssign x y => eassign x y
  | EAssignMove x y => eassign_move x y
  | ESwap x y => let* ox := obj_of x in let* oy := obj_of y in put_obj x oy ;;; put_obj y ox
  | EAssignList x vs => eassign_list x vs
  | EClear x => eclear x
  | EReserve x n => let* sh := shared x in if (sh : bool) then ret tt else reserve x n (fun z => z)
  | EResize x n => eresize x n
  | EResizeFill x n v => eresize_fill x n v
  | ESlice x a n => eslice x a n
  | EInsert x pos v => einsert x pos v
  | EInsertArray x pos y => einsert_array x pos y
  | EInsertRange x pos vs => einsert_range x pos vs
  | EWrite x pos v => ewrite x pos v
  | EReplace x pos v => ereplace x pos v
  | EReplaceArray x pos y => ereplace_array x pos y
  | EShift x => eshift x
  | EPop x => epop x
  end.
End WithType.
End Life.
