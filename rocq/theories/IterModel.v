(** Iterators: begin(), end(), rbegin(), rend() and their const forms (ReferenceCountedArray.h:707-775), and algorithms
    that run over the ranges they delimit. An iterator is a pointer into the buffer. *)
From stdpp Require Import gmap.
From Verif Require Import ZList Base RcaModel IterSpec.
Open Scope Z_scope.

Section Iter.
Context {T A : Type} (d : desc T).
Notation Mm := (M (state T)).
(** end() 732: begin() again, plus length(). *)
Definition end_ptr x : Mm ptr :=
  let* p := begin_ptr d x in
  let* n := length_of x in
  ret (Ptr (p_loc p) (p_gen p) (p_idx p + n)).
(** [first, last): forwards [it_lo, it_hi); backwards reverse_iterator(it_hi) up to reverse_iterator(it_lo). None: nullptr. *)
Record range := Range { it_lo : option ptr; it_hi : option ptr; it_back : bool }.
(** begin() and end() 713-716, 732; rbegin() and rend() 748, 764: both ends are asked for, and either call copies a shared buffer. *)
Definition range_of x (back : bool) : Mm range :=
  if back then let* hi := end_ptr x in let* lo := begin_ptr d x in ret (Range (Some lo) (Some hi) back)
  else let* lo := begin_ptr d x in let* hi := end_ptr x in ret (Range (Some lo) (Some hi) back).
(** cbegin() 718-720, constBuf() 308-310: nullptr without a buffer. *)
Definition cbegin_ptr x : Mm (option ptr) :=
  let* o := get_obj x in
  match o_ref o with
  | None => ret None
  | Some _ => let* p := ptr_to x 0 in ret (Some p)
  end.
(** cend() 734-736: cbegin() + length(); nullptr + n is undefined unless n is 0. *)
Definition cend_ptr x : Mm (option ptr) :=
  let* p := cbegin_ptr x in
  let* n := length_of x in
  match p with
  | Some p => ret (Some (Ptr (p_loc p) (p_gen p) (p_idx p + n)))
  | None => if n =? 0 then ret None else undef UbNull
  end.
(** cbegin() and cend() 718-726, 734-742; crbegin() and crend() 750-758, 766-774. *)
Definition crange_of x (back : bool) : Mm range :=
  let* lo := cbegin_ptr x in let* hi := cend_ptr x in ret (Range lo hi back).
(** last - first (the standard iterators, 716, 732); pointers into different buffers cannot be subtracted. *)
Definition size_of (r : range) : Mm Z :=
  match it_lo r, it_hi r with
  | Some p, Some q => if Pos.eqb (p_loc p) (p_loc q) && Nat.eqb (p_gen p) (p_gen q) then ret (p_idx q - p_idx p) else undef UbFreed
  | None, None => ret 0
  | _, _ => undef UbNull
  end.
(** first + i (713-774); a reverse iterator refers to the element before the pointer it keeps. *)
Definition at_ (r : range) (i : Z) : Mm ptr :=
  match (if it_back r then it_hi r else it_lo r) with
  | Some p => ret (Ptr (p_loc p) (p_gen p) (if it_back r then p_idx p - i - 1 else p_idx p + i))
  | None => undef UbNull
  end.
(** The algorithm: *(first + i), and *(first + i) = v. *)
Fixpoint run (rs : list range) (own : option range) (p : alg T A) : Mm A :=
  match p with
  | Done v => ret v
  | Get k i f =>
    match nth_error rs k with
    | Some r => let* q := at_ r i in let* e := ptr_read q in run rs own (f e)
    | None => undef UbBounds
    end
  | Own i f =>
    match own with
    | Some r => let* q := at_ r i in let* e := ptr_read q in run rs own (f e)
    | None => undef UbBounds
    end
  | Put i e p =>
    match own with
    | Some r => let* q := at_ r i in ptr_write q e ;;; run rs own p
    | None => undef UbBounds
    end
  end.
Fixpoint cranges (ys : list (positive * bool)) : Mm (list range * list Z) :=
  match ys with
  | [] => ret ([], [])
  | (y, back) :: ys' =>
    let* r := crange_of y back in
    let* n := size_of r in
    let* rn := cranges ys' in
    ret (r :: fst rn, n :: snd rn)
  end.
(** A call of an algorithm that reads the ranges [ys]: f(y.cbegin(), y.cend(), ...). *)
Definition call_const (ys : list (positive * bool)) (p : list Z -> alg T A) : Mm A :=
  let* rn := cranges ys in run (fst rn) None (p (snd rn)).
(** One that may also write the range of [x]: f(y.cbegin(), y.cend(), ..., x.begin(), x.end()). *)
Definition call_own (ys : list (positive * bool)) (x : positive) (back : bool) (p : list Z -> Z -> alg T A) : Mm A :=
  let* rn := cranges ys in
  let* r := range_of x back in
  let* n := size_of r in
  run (fst rn) (Some r) (p (snd rn) n).

(** std::move( *it): a class object is left valid but unspecified, any other value stays (cf. the moves in ArrayRef, 95-104). *)
Definition ptr_take (p : ptr) : Mm T :=
  let* v := ptr_read p in
  if d_class d then
    let* c := get_cell (p_loc p) in
    set_cell (p_loc p) (Cell (zupd (p_idx p) [None] (c_buf c)) (c_gen c) (c_refs c)) ;;;
    ret v
  else ret v.
(** An algorithm that moves, over the ranges of 713-774. *)
Fixpoint mrun (rs : list range) (r : range) (p : malg T A) : Mm A :=
  match p with
  | MDone v => ret v
  | MGet k i f =>
    match nth_error rs k with
    | Some r' => let* q := at_ r' i in let* e := ptr_read q in mrun rs r (f e)
    | None => undef UbBounds
    end
  | MOwn i f => let* q := at_ r i in let* e := ptr_read q in mrun rs r (f e)
  | MTake i f => let* q := at_ r i in let* e := ptr_take q in mrun rs r (f e)
  | MPut i e p => let* q := at_ r i in ptr_write q e ;;; mrun rs r p
  end.
Definition call_move (ys : list (positive * bool)) (x : positive) (back : bool) (p : list Z -> Z -> malg T A) : Mm A :=
  let* rn := cranges ys in
  let* r := range_of x back in
  let* n := size_of r in
  mrun (fst rn) r (p (snd rn) n).
End Iter.
