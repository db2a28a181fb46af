(** Model of programs that use Strings, their algorithms, tables, arrays, and base64 together, on top of
    AlgModel.v, B64hModel.v and PtModel.v. Simplified: as there; in particular an Array<String> is the list of the Strings
    that are its elements, here a length, the names of the elements being given by [el]. *)
From Verif Require Import RcaSpec RcaModel RcaExec StrModel NestModel HashModel HsModel HtModel AlgModel B64hModel PtSpec PtModel LibSpec.
Open Scope Z_scope.

(** What is refused to a call: as in PtModel.v; growing an array to [k + 1] elements. *)
Record need_of := Need { n_pt : trouble; n_grow : nat -> bool }.
(** Strings and tables, the lengths of the arrays, the malloc'ed blocks not freed. *)
Record lmem := Lmem { m_pt : state Z * gmap positive (umap positive positive); m_lists : gmap positive nat; m_blocks : Z }.

Section Lib.
Variable d : desc Z.
Variable mdiff : Z -> Z -> Z.
Variable grow : Z -> Z -> option Z.
Variable el : positive -> nat -> positive.
Variable upper : Z -> Z.
Variable junk : Z -> Z.
Notation Mm := (M (state Z)).
Notation ML := (M lmem).

Definition on_pt {A} (m : M (state Z * gmap positive (umap positive positive)) A) : ML A := fun q =>
  match m (m_pt q) with
  | Ok v p => Ok v (Lmem p (m_lists q) (m_blocks q))
  | Exn e p => Exn e (Lmem p (m_lists q) (m_blocks q))
  | Term => Term
  | Fuel => Fuel
  | Undef u => Undef u
  end.
Definition on_strs {A} (m : Mm A) : ML A := on_pt (lift m).
Definition on_malloc {A} (m : M (Z * state Z) A) : ML A := fun q =>
  match m (m_blocks q, fst (m_pt q)) with
  | Ok v (n, s) => Ok v (Lmem (s, snd (m_pt q)) (m_lists q) n)
  | Exn e (n, s) => Exn e (Lmem (s, snd (m_pt q)) (m_lists q) n)
  | Term => Term
  | Fuel => Fuel
  | Undef u => Undef u
  end.
Definition list_len (j : positive) : ML nat := fun q => match m_lists q !! j with Some n => Ok n q | None => Undef UbDeadVar end.
Definition set_list (j : positive) (n : nat) : ML unit := fun q => Ok tt (Lmem (m_pt q) (<[j := n]> (m_lists q)) (m_blocks q)).
Definition del_list (j : positive) : ML unit := fun q => Ok tt (Lmem (m_pt q) (delete j (m_lists q)) (m_blocks q)).

(** Names for locals and temporaries: none is in use, and none is that of a String of the program. *)
Definition above (e : gmap positive obj) : positive := fold_right Pos.max 1%positive (map fst (map_to_list e)).
Definition temps : Mm (nat -> positive) := fun s => Ok (fun k => xI (above (st_env s) + Pos.of_succ_nat k)) s.
(** Rounds that the loops of sub and subst need at most. *)
Definition rounds (x : positive) : Mm nat := let* n := length_of x in ret (S (Z.to_nat n)).
Fixpoint rounds_all (k : nat) (kvs : list (positive * positive)) : Mm nat :=
  match kvs with [] => ret k | kv :: kvs' => let* n := rounds (snd kv) in rounds_all (k * n) kvs' end.
Definition names_of (j : positive) (n : nat) : list positive := map (fun k => str (el j k)) (seq 0 n).

(** compare, String.cpp:42-56; the operators, String.h:542-601; find and rfind, String.h:181-196, String.cpp:245-279 (StrModel.v, on
    the characters); as in HsModel.key_eq, equal addresses of the buffers are noticed. *)
Definition ask_strs (q : lquery) (x y : positive) : Mm lout :=
  let* o := get_obj x in
  let* p := get_obj y in
  let* v := contents x in
  let* w := contents y in
  let same := same_buf o p in
  let yes m := let* b := pure m in ret (LBool b) in
  let num m := let* n := pure m in ret (LNum n) in
  match q with
  | QCompare => num (compare mdiff same v w)
  | QEq => yes (op_eq mdiff same v w)
  | QNe => yes (op_ne mdiff same v w)
  | QLt => yes (op_lt mdiff same v w)
  | QLe => yes (op_le mdiff same v w)
  | QGt => yes (op_gt mdiff same v w)
  | QGe => yes (op_ge mdiff same v w)
  | QFind => num (StrModel.find v w)
  | QFindFrom pos => num (find_at v w pos)
  | QRfind lpos => num (rfind mdiff v w lpos)
  end.
(** substring() const &, String.h:322-326; trim() const and chomp() const, String.h:298, 310: a temporary copy is changed, the result
    copied from it (the member returns a String&), the temporary destroyed. *)
Definition make_str (k : lmaker) (r x t : positive) : Mm unit :=
  let by_copy o := call d (CtorCopy t x) ;;; scope d t (call d o ;;; call d (CtorCopy r t)) in
  match k with
  | KSubstring start len => hslice d r x start len
  | KTrim sp => by_copy (Trim sp t)
  | KChomp => by_copy (Chomp t 10 13)
  end.

(** String.cpp:192-243, 292-304, 319-369 and String.h:444-451, 537-540 the algorithms (AlgModel.v); ReferenceCountedArray.h:147-210
    slices; base64.cpp:103-109, 167-173; Array.h:153-176 join. subst goes through the nodes in the order of the buckets.
    The moved-from element that pop_back() leaves behind the end of the array (RCA 1010-1013) is destroyed at once. *)
Definition lexec (c : lcall) (tr : need_of) : ML lout :=
  match c with
  | LPt c => let* v := on_pt (pexec d mdiff grow c (n_pt tr)) in ret (LOut v)
  | LPlus r x y => on_strs (let* t := temps in AlgModel.concat d (str r) (str x) (str y) (t O)) ;;; ret LVoid
  | LTimes r x n => on_strs (htimes d (str r) (str x) n) ;;; ret LVoid
  | LSub r x y z limit =>
    on_strs (let* t := temps in let* f := rounds (str x) in hsub d f (str r) (t O) (t 1%nat) (str x) (str y) (str z) limit) ;;; ret LVoid
  | LSubst r x i =>
    let* u := on_pt (table_of i) in
    on_strs (let* t := temps in
      let kvs := List.concat (u_buckets u) in
      let* f := rounds (str x) in
      let* f := rounds_all f kvs in
      hsubst d f (str r) (t O) (t 1%nat) (t 2%nat) (str x) kvs) ;;; ret LVoid
  | LNewsplit r x delim => on_strs (hnewsplit d (str r) (str x) delim) ;;; ret LVoid
  | LIfind x y => let* v := on_strs (let* t := temps in hifind d upper (str x) (str y) (t O) (t 1%nat)) in ret (LNum v)
  | LRifind x y lpos => let* v := on_strs (let* t := temps in hrifind d mdiff upper (str x) (str y) (t O) (t 1%nat) lpos) in ret (LNum v)
  | LAsk q x y => on_strs (ask_strs q (str x) (str y))
  | LMake k r x => on_strs (let* t := temps in make_str k (str r) (str x) (t O)) ;;; ret LVoid
  | LSlice mv x start len y => on_strs (slice_set d mv (str x) start len (str y)) ;;; ret LVoid
  | LSliceOf x start len y start' len' => on_strs (let* t := temps in slice_set_slice d (str x) start len (str y) start' len' (t O)) ;;; ret LVoid
  | LEncode r x => on_malloc (hencode d junk None false (str r) (str x)) ;;; ret LVoid
  | LDecode r x => on_malloc (hdecode d junk None false (str r) (str x)) ;;; ret LVoid
  | LSplit j x y limit =>
    let* n := on_strs (let* t := temps in let* f := rounds (str x) in
      hsplit d mdiff (n_grow tr) (fun k => str (el j k)) f (str x) (str y) (t O) (t 1%nat) limit) in
    set_list j n ;;; ret LVoid
  | LJoin r j y quoted =>
    let* n := list_len j in
    on_strs (let* t := temps in hjoin d (str r) (str y) (names_of j n) quoted (t O) (t 1%nat) (t 2%nat) (t 3%nat)) ;;; ret LVoid
  | LCount j => let* n := list_len j in ret (LNum (Z.of_nat n))
  | LFree j => let* n := list_len j in on_strs (destroy_all d (names_of j n)) ;;; del_list j ;;; ret LVoid
  | LArr j => set_list j O ;;; ret LVoid                                                       (* Array.h:61 *)
  | LPush mv j x =>                                                                            (* RCA 991-992, Array.h:92-101 *)
    let* n := list_len j in
    on_strs (if n_grow tr n then throw BadAlloc else call d (if mv then CtorMove (str (el j n)) (str x) else CtorCopy (str (el j n)) (str x))) ;;;
    set_list j (S n) ;;; ret LVoid
  | LPop r j =>                                                                                (* Array.h:128-133; the array is not shared *)
    let* n := list_len j in
    match n with
    | O => undef UbBounds
    | S n => on_strs (call d (CtorMove (str r) (str (el j n))) ;;; call d (Destroy (str (el j n)))) ;;; set_list j n ;;; ret LVoid
    end
  | LElem r j k =>                                                                             (* RCA 946-949 *)
    let* n := list_len j in
    if Z.of_nat n <=? k then throw OutOfRange else on_strs (call d (CtorCopy (str r) (str (el j (Z.to_nat k))))) ;;; ret LVoid
  end.

(** A program: calls in order, exceptions being caught. *)
Inductive lobs := YRet (o : lout) | YThrow (e : exn) | YTerm | YFuel | YUndef (u : ub).
Fixpoint lobserve (prog : list (lcall * need_of)) (q : lmem) : list lobs :=
  match prog with
  | [] => []
  | (c, tr) :: prog' =>
    match lexec c tr q with
    | Ok v q' => YRet v :: lobserve prog' q'
    | Exn e q' => YThrow e :: lobserve prog' q'
    | Term => [YTerm]
    | Fuel => [YFuel]
    | Undef u => [YUndef u]
    end
  end.
End Lib.
