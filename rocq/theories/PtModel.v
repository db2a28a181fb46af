(** Model of a program with several HashTable<String, String> and Strings, on top of HsModel.v and HtModel.v. Simplified: as
    there; the String [x] of the program is the variable [str x] of the heap, which leaves the other names to the nodes. *)
From Verif Require Import RcaSpec RcaModel RcaExec NestModel HashModel HsModel HtModel PtSpec.
Open Scope Z_scope.

(** What is refused to one call: in an insertion; in each insertion of a list; in a copy, by number. *)
Record trouble := Trouble { t_lack : lack; t_lacks : list lack; t_fails : nat -> bool }.

Section Pt.
Variable d : desc Z.
Variable mdiff : Z -> Z -> Z.
Variable grow : Z -> Z -> option Z.
Notation table := (umap positive positive).
Notation tables := (gmap positive table).
Notation Mm := (M (state Z)).
Notation MT := (M (state Z * tables)).

(** Something done on the heap. *)
Definition lift {A} (m : Mm A) : MT A := fun '(s, ts) =>
  match m s with
  | Ok v s' => Ok v (s', ts)
  | Exn e s' => Exn e (s', ts)
  | Term => Term
  | Fuel => Fuel
  | Undef u => Undef u
  end.
Definition table_of (i : positive) : MT table := fun '(s, ts) =>
  match ts !! i with Some u => Ok u (s, ts) | None => Undef UbDeadVar end.
Definition set_table (i : positive) (u : table) : MT unit := fun '(s, ts) => Ok tt (s, <[i := u]> ts).
Definition drop_table (i : positive) : MT unit := fun '(s, ts) => Ok tt (s, delete i ts).
Definition starved (e : lack) : bool := match e with LNone => false | _ => true end.

(** The calls of PtSpec: HashTable.h:58-72 constructors, 87-113 clear, swap and assignment, 125-127 size, 138-198 the rest;
    [tr]: what memory is refused. The functions are those of HsModel.v and HtModel.v. *)
Definition pexec (c : pcall) (tr : trouble) : MT pout :=
  match c with
  | PString o => let* r := lift (exec d (ren str o)) in ret (POut r)
  | PMake i n => if starved (t_lack tr) && (1 <? n) then throw BadAlloc else set_table i (empty_umap n) ;;; ret PNone
  | PList i n kvs =>
    let* u := lift (hlist d mdiff grow (t_lack tr) (t_lacks tr) n (map (fun kv => (str (fst kv), str (snd kv))) kvs)) in
    set_table i u ;;; ret PNone
  | PCopy i j => let* v := table_of j in let* u := lift (hcopy d (t_fails tr) v) in set_table i u ;;; ret PNone
  | PAssign i j =>
    let* u := table_of i in let* v := table_of j in
    let* r := lift (hcopy_assign d (Pos.eqb i j) (t_fails tr) u v) in
    set_table i (snd r) ;;; if fst r : bool then ret PNone else throw BadAlloc
  | PMove i j => let* v := table_of j in let* r := lift (hmove v) in set_table j (snd r) ;;; set_table i (fst r) ;;; ret PNone
  | PMoveAssign i j =>
    let* u := table_of i in let* v := table_of j in
    let* r := lift (hmove_assign d u v) in set_table j (snd r) ;;; set_table i (fst r) ;;; ret PNone
  | PSwap i j =>
    let* u := table_of i in let* v := table_of j in
    let* r := lift (hswap u v) in set_table i (fst r) ;;; set_table j (snd r) ;;; ret PNone
  | PDestroy i => let* u := table_of i in lift (hdestroy d u) ;;; drop_table i ;;; ret PNone
  | PClear i => let* u := table_of i in let* u' := lift (hclear d u) in set_table i u' ;;; ret PNone
  | PSize i => let* u := table_of i in ret (PInt (u_count u))
  | PInsert mk mv i k v =>
    let* u := table_of i in
    let* r := lift (hinsert d mdiff grow (t_lack tr) mk mv u (str k) (str v)) in set_table i (snd r) ;;; ret (PBool (fst r))
  | PPut mk mv i k v =>
    let* u := table_of i in
    let* u' := lift (hassign d mdiff grow (t_lack tr) mk mv u (str k) (str v)) in set_table i u' ;;; ret PNone
  | PRemove i k =>
    let* u := table_of i in let* r := lift (hremove d mdiff u (str k)) in set_table i (snd r) ;;; ret (PBool (fst r))
  | PContains i k => let* u := table_of i in let* r := lift (hcontains d mdiff u (str k)) in ret (PBool r)
  | PGet r i k => let* u := table_of i in lift (hget d mdiff (str r) u (str k)) ;;; ret PNone
  | PValue mk i k o =>
    let* u := table_of i in
    let* r := lift (hindex d mdiff grow (t_lack tr) mk u (str k)) in
    set_table i (snd r) ;;;
    let* w := lift (exec d (ren (elem_name (snd (fst r))) o)) in ret (POut w)
  | PFind i k o =>
    let* u := table_of i in
    let* r := lift (hfind d mdiff u (str k)) in
    match r with Some n => let* w := lift (exec d (ren (elem_name (snd n)) o)) in ret (POut w) | None => ret PNone end
  end.

(** A program: calls in order, exceptions being caught. *)
Inductive pobs := QRet (o : pout) | QThrow (e : exn) | QTerm | QFuel | QUndef (u : ub).
Fixpoint pobserve (prog : list (pcall * trouble)) (st : state Z * tables) : list pobs :=
  match prog with
  | [] => []
  | (c, tr) :: prog' =>
    match pexec c tr st with
    | Ok r st' => QRet r :: pobserve prog' st'
    | Exn e st' => QThrow e :: pobserve prog' st'
    | Term => [QTerm]
    | Fuel => [QFuel]
    | Undef u => [QUndef u]
    end
  end.
End Pt.
