(** The algorithms of String on buffers (String.cpp, String.h, Array.h, ReferenceCountedArray.h:147-210).

    StrModel.v follows these functions on contents. Here they run on the heap model: every copy, slice, append and
    destruction is the modelled member function ([exec]), so temporaries, sharing and failing allocations are seen.
    Results of type String are constructed in a variable named by the caller; so are temporaries, whose names are not
    otherwise in use.

    Simplifications:
    - loops that only read (memmem, memcmp, scanning for spaces) read the contents once and then do what StrModel.v
      says; compare's test for the same address is left out where one side is a fresh temporary;
    - an Array<String> is the list of the variables that are its elements; growing it to [k + 1] elements throws if
      [grow_fails k]; its own buffer is the subject of RcaModel.v and LifeModel.v. *)
From Verif Require Import RcaSpec RcaModel RcaExec StrSpec StrModel.
Open Scope Z_scope.

Section Alg.
Variable d : desc Z.
Variable mdiff : Z -> Z -> Z.      (* memcmp, as in StrModel.v *)
Notation Mm := (M (state Z)).

(** A call of a member function. *)
Definition call (o : op Z) : Mm unit := exec d o ;;; ret tt.
Definition ask (o : op Z) : Mm Z := let* v := exec d o in match v with OInt z => ret z | _ => undef UbIndet end.
(** Destroying variables in order. *)
Fixpoint destroy_all (xs : list positive) : Mm unit :=
  match xs with [] => ret tt | x :: xs' => call (Destroy x) ;;; destroy_all xs' end.
(** When an exception leaves the scope of [xs], they are destroyed. *)
Definition unwind {A} (xs : list positive) (m : Mm A) : Mm A := fun s =>
  match m s with
  | Exn e s' => match destroy_all xs s' with
                | Ok _ s'' => Exn e s''
                | Exn _ _ => Term
                | Term => Term | Fuel => Fuel | Undef u => Undef u
                end
  | r => r
  end.
(** The scope of a temporary or local that is destroyed at its end. *)
Definition scope {A} (x : positive) (m : Mm A) : Mm A :=
  let* v := unwind [x] m in call (Destroy x) ;;; ret v.
(** assert(), in a build without NDEBUG. *)
Definition assert_ (b : bool) : Mm unit := check d (ret b).
(** The characters of a String; reading one without a value is undefined. *)
Fixpoint valued (l : list (option Z)) : option chars :=
  match l with
  | [] => Some []
  | Some c :: l' => option_map (cons c) (valued l')
  | None :: _ => None
  end.
Definition contents (x : positive) : Mm chars :=
  let* n := length_of x in
  let* l := load x 0 n in
  match valued l with Some s => ret s | None => undef UbIndet end.
(** A computation on contents. *)
Definition pure {A} (m : M unit A) : Mm A := fun s =>
  match m tt with
  | Ok v _ => Ok v s
  | Exn e _ => Exn e s
  | Term => Term | Fuel => Fuel | Undef u => Undef u
  end.

(** String::find(str), String.h:181-183. *)
Definition hfind (x y : positive) : Mm Z :=
  let* s := contents x in let* w := contents y in pure (find s w).
(** String::_find(str, pos), String.cpp:270-290. *)
Definition hfind_ (x y : positive) (pos : Z) : Mm Z :=
  let* s := contents x in let* w := contents y in pure (find_ s w pos).

(** Slice::operator T, ReferenceCountedArray.h:173-177, and substring, String.h:322-326: into [t]. *)
Definition hslice (t x : positive) (start len : Z) : Mm unit := call (CtorCopy t x) ;;; call (SliceTo t start len).

(** operator+=(const String&) and (String&&), String.h:444-451. *)
Definition plus_eq (mv : bool) (x y : positive) : Mm unit := call (AppendN mv x y npos).

(** operator+(String, const String&), String.h:537-540; [p] is the parameter, already constructed, destroyed by the
    caller at the end of the expression. *)
Definition hplus (r p y : positive) : Mm unit := plus_eq false p y ;;; call (CtorMove r p).
(** x + y *)
Definition concat (r x y p : positive) : Mm unit := call (CtorCopy p x) ;;; scope p (hplus r p y).

(** String::operator*(int), String.cpp:238-243. *)
Fixpoint times_loop (k : nat) (r x : positive) : Mm unit :=
  match k with O => ret tt | S k' => plus_eq false r x ;;; times_loop k' r x end.
Definition htimes (r x : positive) (n : Z) : Mm unit :=
  let* len := length_of x in
  call (CtorSized r (u64 (len * u64 n))) ;;;
  unwind [r] (times_loop (Z.to_nat n) r x).

(** String::sub, String.cpp:319-334: newStr is [r], search_str is [u], [t] is the temporary in line 325. *)
Fixpoint hsub_loop (fuel : nat) (r u t y z : positive) (limit cnt : Z) : Mm unit :=
  let finish := let* n := length_of u in if n =? 0 then ret tt else plus_eq false r u in     (* 331-332 *)
  let* pos := hfind u y in
  if pos =? npos then finish else
  match fuel with
  | O => fun _ => Fuel
  | S f =>
    hslice t u 0 (s64 pos) ;;; scope t (plus_eq true r t) ;;;                                (* 325 *)
    plus_eq false r z ;;;                                                                    (* 326 *)
    let* m := length_of y in
    call (StrDropFront u (u64 (pos + m))) ;;;                                                (* 327 *)
    if limit =? -1 then hsub_loop f r u t y z limit cnt else
    if negb (fits_i32 (cnt + 1)) then undef UbOverflow else
    if cnt + 1 =? limit then finish else hsub_loop f r u t y z limit (cnt + 1)
  end.
Definition hsub (fuel : nat) (r u t x y z : positive) (limit : Z) : Mm unit :=
  let* n := length_of x in
  call (CtorSized r n) ;;;                                                                   (* 320 *)
  unwind [r] (call (CtorCopy u x) ;;; scope u (hsub_loop fuel r u t y z limit 0)).

(** String::subst, String.cpp:336-342; [kvs] are the keys and values in the order the table iterates them; [q] is the
    result of sub. *)
Fixpoint hsubst_loop (fuel : nat) (r q u t : positive) (kvs : list (positive * positive)) : Mm unit :=
  match kvs with
  | [] => ret tt
  | (k, v) :: kvs' =>
    hsub fuel q u t r k v (-1) ;;; scope q (call (AssignMove r q)) ;;; hsubst_loop fuel r q u t kvs'
  end.
Definition hsubst (fuel : nat) (r q u t x : positive) (kvs : list (positive * positive)) : Mm unit :=
  call (CtorCopy r x) ;;; unwind [r] (hsubst_loop fuel r q u t kvs).

(** newsplit, String.cpp:351-369: the token is constructed in [r]. *)
Definition hnewsplit (r x : positive) (delim : Z) : Mm unit :=
  let* n := length_of x in
  if n =? 0 then call (CtorDefault r) else                                                   (* 353 *)
  let* p := ask (FindItem x delim 0) in
  let pos := if p =? npos then n else p in                                                   (* 354-356 *)
  hslice r x 0 (s64 pos) ;;;                                                                 (* 358 *)
  unwind [r]
   (let* s := contents x in
    let pos := if delim =? 32 then pos + spaces (zdrop (pos + 1) s) else pos in              (* 361-364 *)
    call (StrDropFront x (u64 (pos + 1)))).                                                  (* 367 *)

(** String::ifind, String.cpp:292-297, and rifind, 299-304: str_upper is [p], this_upper is [q]. *)
Fixpoint push_all (x : positive) (l : chars) : Mm unit :=
  match l with [] => ret tt | c :: l' => call (AppendItem x c) ;;; push_all x l' end.
Definition uppers (up : Z -> Z) (x y p q : positive) (k : Mm Z) : Mm Z :=
  let* m := length_of y in
  call (CtorSized p m) ;;;
  scope p
   (let* n := length_of x in
    call (CtorSized q n) ;;;
    scope q
     (let* w := contents y in
      push_all p (map up w) ;;;
      let* s := contents x in
      push_all q (map up s) ;;;
      k)).
Definition hifind (up : Z -> Z) (x y p q : positive) : Mm Z := uppers up x y p q (hfind q p).
Definition hrifind (up : Z -> Z) (x y p q : positive) (lpos : Z) : Mm Z :=
  uppers up x y p q (let* s := contents q in let* w := contents p in pure (rfind mdiff s w 0)).

(** Slice::operator=(const T&) and (T&&), ReferenceCountedArray.h:197-209. *)
Definition slice_set (mv : bool) (x : positive) (start len : Z) (y : positive) : Mm unit :=
  call (ReplaceN mv x (u64 start) y (u64 len)).
(** Slice::operator=(const Slice&), ReferenceCountedArray.h:186-189: T(slice) is [t]. The defaulted move assignment is
    deleted (the class has a reference member), so rvalue Slices come here too. *)
Definition slice_set_slice (x : positive) (start len : Z) (y : positive) (start' len' : Z) (t : positive) : Mm unit :=
  hslice t y start' len' ;;; scope t (call (ReplaceN true x (u64 start) t (u64 len))).

(** An Array<String>: [el i] is the i-th element. *)
Variable grow_fails : nat -> bool.
Variable el : nat -> positive.
Definition elems (k : nat) : list positive := map el (seq 0 k).
(** array << t, Array.h:92-96, push_back of a copy. *)
Definition push_elem (k : nat) (t : positive) : Mm unit :=
  if grow_fails k then throw BadAlloc else call (CtorCopy (el k) t).

(** String::split, String.cpp:192-236: returns the number of elements; [sp] is the local space, [t] the temporaries. *)
Definition hspace (y sp : positive) : Mm bool :=
  let* w := contents y in let* b := contents sp in pure (op_eq mdiff false w b).
Definition hskip (x y sp : positive) (it : Z) : Mm Z :=
  let* b := hspace y sp in
  let* s := contents x in
  ret (if (b : bool) then it + spaces (zdrop it s) else it).
Fixpoint hsplit_loop (fuel : nat) (x y sp t : positive) (limit it : Z) (k : nat) : Mm (Z * nat) :=
  if negb (Z.of_nat k <? u64 (limit - 1)) then ret (it, k) else
  match fuel with
  | O => fun _ => Fuel
  | S f =>
    let* r := unwind (elems k)
     (let* it := hskip x y sp it in                                                            (* 209 *)
      let* n := length_of x in
      if n <=? it then ret (it, None) else                                                     (* 212 *)
      let* p := hfind_ x y it in
      let pos := if p =? npos then n - it else p in                                            (* 214-215 *)
      hslice t x it (s64 pos) ;;; scope t (push_elem k t) ;;;                                  (* 216 *)
      let* m := length_of y in
      let it' := it + (pos + m) in                                                             (* 218 *)
      assert_ (it' - m <=? n) ;;;                                                              (* 219 *)
      ret (it, Some it')) in
    match r with
    | (it, None) => ret (it, k)
    | (_, Some it') => hsplit_loop f x y sp t limit it' (S k)
    end
  end.
Definition hsplit_rest (fuel : nat) (x y sp t : positive) (limit : Z) : Mm nat :=
  let* r := hsplit_loop fuel x y sp t limit 0 0 in                                             (* 205-220 *)
  let '(it, k) := r in
  if negb (limit =? npos) then
    unwind (elems k)
     (let* it := hskip x y sp it in                                                            (* 225 *)
      hslice t x it (-1) ;;; scope t (push_elem k t)) ;;;                                      (* 226 *)
    ret (S k)
  else ret k.
(** [ref] counts the elements added (217 and 227). *)
Definition hsplit (fuel : nat) (x y sp t : positive) (limit : Z) : Mm nat :=
  let* n := length_of x in
  if n =? 0 then ret O else                                                                    (* 193 *)
  if limit =? 1 then call (CtorCopy t x) ;;; scope t (push_elem 0 t) ;;; ret 1%nat else        (* 194-196 *)
  let* ref := rcount x in                                                                      (* 199 *)
  call (CtorChar sp 32) ;;;                                                                    (* 201 *)
  scope sp
   (let* k := hsplit_rest fuel x y sp t limit in
    let* now := rcount x in
    assert_ (ref + Z.of_nat k =? now) ;;;                                                      (* 233 *)
    ret k).

(** Array<String>::join, Array.h:153-176; str is [r]; [c1], [c2] hold the quotes, [m1], [m2] the sums. *)
Fixpoint sum_lengths (xs : list positive) (sz : Z) : Mm Z :=
  match xs with [] => ret sz | x :: xs' => let* n := length_of x in sum_lengths xs' (u64 (sz + n)) end.
(** str += '"' + e + '"': temporaries are destroyed in reverse order. *)
Definition plus_quoted (r x c1 m1 c2 m2 : positive) : Mm unit :=
  call (CtorChar c1 34) ;;;
  scope c1
   (hplus m1 c1 x ;;;
    scope m1
     (call (CtorChar c2 34) ;;;
      scope c2
       (hplus m2 m1 c2 ;;;
        scope m2 (plus_eq true r m2)))).
Fixpoint hjoin_loop (first : bool) (xs : list positive) (r y : positive) (quoted : bool) (c1 m1 c2 m2 : positive) : Mm unit :=
  match xs with
  | [] => ret tt
  | x :: xs' =>
    (if first then ret tt else plus_eq false r y) ;;;
    (if quoted then plus_quoted r x c1 m1 c2 m2 else plus_eq false r x) ;;;
    hjoin_loop false xs' r y quoted c1 m1 c2 m2
  end.
Definition hjoin (r y : positive) (xs : list positive) (quoted : bool) (c1 m1 c2 m2 : positive) : Mm unit :=
  if zlen xs =? 0 then call (CtorDefault r) else
  let* dl := length_of y in
  let sz := u64 (u64 (zlen xs * dl) - 1) in
  let sz := if quoted then u64 (sz + u64 (zlen xs * 2)) else sz in
  let* sz := sum_lengths xs sz in
  call (CtorSized r sz) ;;;
  unwind [r] (hjoin_loop true xs r y quoted c1 m1 c2 m2).
End Alg.
