(** C string helpers (src/Cstrings.cpp). Memory is flat: every mapped address holds a byte; allocations are recorded with
    their size. Reading or writing an unmapped address, freeing something not allocated and memcpy between overlapping
    ranges are undefined. [alloc] is any allocator: it is given the memory and a size and picks an address, or fails.
    The outcome [Term] stands for the exit(5) of bd::calloc and bd::realloc. Pointers are addresses without provenance. *)
From stdpp Require Import gmap.
From Verif Require Import Base.
Open Scope Z_scope.

Record heap := Heap { mem : gmap Z Z; live : gmap Z Z }.
Notation Mh := (M heap).
Definition ld (a : Z) : Mh Z := fun h => match mem h !! a with Some c => Ok c h | None => Undef UbBounds end.
Definition st (a c : Z) : Mh unit := fun h =>
  match mem h !! a with Some _ => Ok tt (Heap (<[a := c]> (mem h)) (live h)) | None => Undef UbBounds end.

(** strlcpy, Cstrings.cpp:38-61. *)
Fixpoint cpy_loop (fuel : nat) (d s n : Z) : Mh (Z * Z * Z) :=
  match fuel with
  | O => fun _ => Fuel
  | S f =>
    let* c := ld s in st d c ;;;
    if c =? 0 then ret (d + 1, s + 1, n)
    else let n' := u64 (n - 1) in
      if n' =? 0 then ret (d + 1, s + 1, n') else cpy_loop f (d + 1) (s + 1) n'
  end.
(** while ( *s++) ; (Cstrings.cpp:57). Also the body of strlen. *)
Fixpoint skip_loop (fuel : nat) (s : Z) : Mh Z :=
  match fuel with
  | O => fun _ => Fuel
  | S f => let* c := ld s in if c =? 0 then ret (s + 1) else skip_loop f (s + 1)
  end.
Definition strlcpy (fuel : nat) (dst src siz : Z) : Mh Z :=
  let* r := (if siz =? 0 then ret (dst, src, siz)
             else let n := u64 (siz - 1) in
               if n =? 0 then ret (dst, src, n) else cpy_loop fuel dst src n) in
  let '(d, s, n) := r in
  let* s' := (if n =? 0 then (if siz =? 0 then ret tt else st d 0) ;;; skip_loop fuel s else ret s) in
  ret (s' - src - 1).

(** strlen of the C library. *)
Definition strlen (fuel : nat) (s : Z) : Mh Z := let* e := skip_loop fuel s in ret (e - s - 1).

(** strlcat, Cstrings.cpp:69-95. *)
Fixpoint end_loop (fuel : nat) (d n : Z) : Mh Z :=
  match fuel with
  | O => fun _ => Fuel
  | S f =>
    let* c := ld d in
    if c =? 0 then ret d
    else if n =? 0 then ret d else end_loop f (d + 1) (u64 (n - 1))
  end.
Fixpoint cat_loop (fuel : nat) (d s n : Z) : Mh (Z * Z) :=
  match fuel with
  | O => fun _ => Fuel
  | S f =>
    let* c := ld s in
    if c =? 0 then ret (d, s)
    else if n =? 1 then cat_loop f d (s + 1) n
    else st d c ;;; cat_loop f (d + 1) (s + 1) (u64 (n - 1))
  end.
Definition strlcat (fuel : nat) (dst src siz : Z) : Mh Z :=
  let* d := end_loop fuel dst siz in
  let dlen := d - dst in
  let n := u64 (siz - dlen) in
  if n =? 0 then let* l := strlen fuel src in ret (dlen + l)
  else
    let* r := cat_loop fuel d src n in
    st (fst r) 0 ;;;
    ret (dlen + (snd r - src)).

(** The C library's allocation functions. *)
Section Alloc.
Variable alloc : gmap Z Z -> Z -> option Z.
Variable junk : Z -> Z.
(** The [n] addresses from [a] on get the values of [f]; are unmapped. *)
Fixpoint fill (n : nat) (a : Z) (f : Z -> Z) (m : gmap Z Z) : gmap Z Z :=
  match n with O => m | S n' => <[a := f a]> (fill n' (a + 1) f m) end.
Fixpoint unmap (n : nat) (a : Z) (m : gmap Z Z) : gmap Z Z :=
  match n with O => m | S n' => delete a (unmap n' (a + 1) m) end.
(** bd::calloc, Cstrings.cpp:133-141: exit(5) on failure. *)
Definition bd_calloc (n : Z) : Mh Z := fun h =>
  match alloc (mem h) n with
  | None => Term
  | Some a => Ok a (Heap (fill (Z.to_nat n) a (fun _ => 0) (mem h)) (<[a := n]> (live h)))
  end.
(** free *)
Definition release (a : Z) : Mh unit := fun h =>
  match live h !! a with
  | None => Undef UbFreed
  | Some n => Ok tt (Heap (unmap (Z.to_nat n) a (mem h)) (delete a (live h)))
  end.
(** bd::realloc, Cstrings.cpp:143-151, for a non-zero size: a null pointer is allocated; otherwise the block may stay,
    move or grow into its surroundings, and keeps the contents that fit. exit(5) on failure. *)
Definition bd_realloc (p : option Z) (n : Z) : Mh Z := fun h =>
  match p with
  | None =>
    match alloc (mem h) n with
    | None => Term
    | Some a => Ok a (Heap (fill (Z.to_nat n) a junk (mem h)) (<[a := n]> (live h)))
    end
  | Some p =>
    match live h !! p with
    | None => Undef UbFreed
    | Some k =>
      let m := unmap (Z.to_nat k) p (mem h) in
      match alloc m n with
      | None => Term
      | Some a =>
        let old i := if i - a <? k then match mem h !! (p + (i - a)) with Some c => c | None => junk i end else junk i in
        Ok a (Heap (fill (Z.to_nat n) a old m) (<[a := n]> (delete p (live h))))
      end
    end
  end.
(** memcpy *)
Fixpoint copy_loop (n : nat) (d s : Z) : Mh unit :=
  match n with O => ret tt | S n' => let* c := ld s in st d c ;;; copy_loop n' (d + 1) (s + 1) end.
Definition memcpy (d s n : Z) : Mh unit :=
  if (0 <? n) && (d <? s + n) && (s <? d + n) then undef UbOverlap else copy_loop (Z.to_nat n) d s.

(** str_redup, Cstrings.cpp:97-110; the pointer variable is passed in and out, null is None. *)
Definition str_redup (fuel : nat) (str newstr : option Z) : Mh (option Z) :=
  match newstr with
  | None => (match str with Some p => release p | None => ret tt end) ;;; ret None
  | Some q =>
    let* l := strlen fuel q in
    let len := u64 (l + 1) in
    let* a := bd_realloc str len in
    memcpy a q len ;;;
    ret (Some a)
  end.
(** strdup, Cstrings.cpp:112-120. *)
Definition strdup (fuel : nat) (entry : Z) : Mh Z :=
  let* len := strlen fuel entry in
  let* target := bd_calloc (u64 (len + 1)) in
  st (target + len) 0 ;;;
  memcpy target entry len ;;;
  ret target.
(** strldup, Cstrings.cpp:122-131. *)
Definition strldup (fuel : nat) (entry maxlen : Z) : Mh Z :=
  let* slen := strlen fuel entry in
  let len := if slen <? maxlen then slen else maxlen in
  let* target := bd_calloc (u64 (len + 1)) in
  st (target + len) 0 ;;;
  memcpy target entry len ;;;
  ret target.
End Alloc.
