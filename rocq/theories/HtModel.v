(** Several HashTable<String, String> on the heap model: copy assignment, moves, swap and construction from a list, on top
    of HsModel.v. The library is libstdc++: bits/hashtable.h, _M_assign_elements and _M_assign with the node reuse of
    _ReuseOrAllocNode; _M_move_assign; the constructor from a range.
    Simplified: as in HsModel.v; the order in which the nodes are visited when they are destroyed; the number of buckets
    that a list gives rise to is a parameter. *)
From Verif Require Import RcaSpec RcaModel RcaExec StrSpec StrModel AlgModel HashModel HsModel.
Open Scope Z_scope.

Section Ht.
Variable d : desc Z.
Variable mdiff : Z -> Z -> Z.
Variable grow : Z -> Z -> option Z.
Notation Mm := (M (state Z)).
Notation node := (positive * positive)%type.
Notation table := (umap positive positive).

(** What a call did that may leave by bad_alloc: the table that it leaves behind, and whether it returned. *)
Definition caught {A} (m : Mm A) : Mm (option A) := fun s =>
  match m s with
  | Ok v s' => Ok (Some v) s'
  | Exn BadAlloc s' => Ok None s'
  | Exn e s' => Exn e s'
  | Term => Term | Fuel => Fuel | Undef u => Undef u
  end.
(** The nodes of [src] copied, into the nodes of [old] as long as there are any: their Strings are destroyed and made
    again in place. What is left of [old] is destroyed at the end. *)
Fixpoint hreuse (fails : nat -> bool) (k : nat) (old src : list node) {struct src} : Mm (list node) :=
  match src, old with
  | [], _ => hfree d old ;;; ret []
  | _ :: _, [] => hcopy_nodes d fails k src
  | n :: src', o :: old' =>
    destroy_all d [snd o; fst o] ;;;
    call d (CtorCopy (fst o) (fst n)) ;;;
    call d (CtorCopy (snd o) (snd n)) ;;;
    let* l := unwind d [snd o; fst o] (hreuse fails k old' src') in
    ret (o :: l)
  end.
(** HashTable::operator=(const HashTable&), HashTable.h:99-103; [same]: the two are one table. Allocation number [k] fails
    if [fails k], the first being the bucket array, which is kept if its size is right. *)
Definition hcopy_assign (same : bool) (fails : nat -> bool) (u v : table) : Mm (bool * table) :=
  if same then ret (true, u) else
  if negb (u_n u =? u_n v) && fails O then ret (false, u) else
  let* r := caught (hreuse fails 1%nat (List.concat (u_buckets u)) (List.concat (u_buckets v))) in
  match r with
  | Some l => let* u' := hpush_all d (empty_umap (u_n v)) (rev l) in ret (true, u')
  | None => ret (false, empty_umap (u_n u))
  end.
(** HashTable(HashTable&&), HashTable.h:66-71: the new table, and what is left of the other. *)
Definition hmove (v : table) : Mm (table * table) := ret (v, empty_umap 1).
(** HashTable::operator=(HashTable&&), HashTable.h:105-113, for two tables. *)
Definition hmove_assign (u v : table) : Mm (table * table) := hdestroy d u ;;; hmove v.
(** swap, HashTable.h:91-97. *)
Definition hswap (u v : table) : Mm (table * table) := ret (v, u).
(** insert(value_type const&) of the library: key and value are copied into the node. *)
Definition hput (e : lack) (u : table) (k v : positive) : Mm table :=
  let* r := hfind d mdiff u k in
  match r with
  | Some _ => ret u
  | None =>
    match e with LNode => throw BadAlloc | _ =>
    let* kn := new_var in
    call d (CtorCopy kn k) ;;;
    let* vn := new_var in
    call d (CtorCopy vn v) ;;;
    unwind d [vn; kn] (hlink d grow e u (kn, vn)) end
  end.
(** The table made so far is destroyed if an exception leaves [m]. *)
Definition hguard {A} (u : table) (m : Mm A) : Mm A := fun s =>
  match m s with
  | Exn e s' => match hdestroy d u s' with
                | Ok _ s'' => Exn e s''
                | Exn _ _ => Term
                | Term => Term | Fuel => Fuel | Undef x => Undef x
                end
  | r => r
  end.
Fixpoint hputs (es : list lack) (u : table) (kvs : list node) : Mm table :=
  match kvs with
  | [] => ret u
  | kv :: kvs' =>
    let* u' := hguard u (hput (hd LNone es) u (fst kv) (snd kv)) in
    hputs (tl es) u' kvs'
  end.
(** HashTable(std::initializer_list<value_type>), HashTable.h:72; [n] buckets to begin with, if they can be had; [es]: what
    each insertion lacks. *)
Definition hlist (e : lack) (es : list lack) (n : Z) (kvs : list node) : Mm table :=
  match e with LNone => hputs es (empty_umap n) kvs | _ => throw BadAlloc end.
End Ht.
