(** HashTable<String, String> on the heap model: HashTable.h over std::unordered_map as in HashModel.v, with the Strings
    of the nodes as variables of RcaModel.v, so that copies of keys and values, shared buffers, cached hashes and moved-from
    Strings are seen. A node is allocated with its key and a default value; its address is a pair of variables not in use.
    Simplified: the order of operands of == and when the library recomputes the hash of a stored key are a choice; the
    bucket array and the nodes themselves are not on the heap, but allocating them can fail. *)
From Verif Require Import RcaSpec RcaModel RcaExec StrSpec StrModel AlgModel HashModel.
From Verif Require NestModel.
Open Scope Z_scope.

(** What fails in a call that may allocate: nothing, the node, the new bucket array. *)
Inductive lack := LNone | LNode | LBuckets.

Section Hs.
Variable d : desc Z.
Variable mdiff : Z -> Z -> Z.        (* memcmp, as in StrModel.v *)
Variable grow : Z -> Z -> option Z.  (* rehash policy, as in HashModel.v *)
Notation Mm := (M (state Z)).
Notation node := (positive * positive)%type.
Notation table := (umap positive positive).

(** std::hash<String>, String.h:655-662. *)
Definition key_hash (x : positive) : Mm Z := ask d (HashOf x).
(** constBuf() of two Strings is the same address. *)
Definition same_buf (o p : obj) : bool := bool_decide (o_ref o = o_ref p) && (o_off o =? o_off p).
(** operator==, String.h:543-547. *)
Definition key_eq (x y : positive) : Mm bool :=
  let* o := get_obj x in
  let* p := get_obj y in
  let* v := contents x in
  let* w := contents y in
  pure (op_eq mdiff (same_buf o p) v w).

(** unordered_map::find. *)
Definition hbucket (u : table) (h : Z) : Mm (list node) :=
  match znth (h mod u_n u) (u_buckets u) with Some b => ret b | None => undef UbBounds end.
Fixpoint hscan (b : list node) (k : positive) : Mm (option node) :=
  match b with
  | [] => ret None
  | n :: b' => let* e := key_eq (fst n) k in if (e : bool) then ret (Some n) else hscan b' k
  end.
Definition hfind (u : table) (k : positive) : Mm (option node) :=
  let* h := key_hash k in
  let* b := hbucket u h in
  hscan b k.
(** A node into its bucket. *)
Definition hpush (u : table) (n : node) : Mm table :=
  let* h := key_hash (fst n) in
  let* b := hbucket u h in
  ret (put_bucket u (h mod u_n u) (n :: b) (u_count u + 1)).
Fixpoint hpush_all (u : table) (l : list node) : Mm table :=
  match l with [] => ret u | n :: l' => let* u' := hpush u n in hpush_all u' l' end.
(** Insertion of a node whose key is not there. *)
Definition hlink (e : lack) (u : table) (n : node) : Mm table :=
  let* u := match grow (u_n u) (u_count u) with
    | Some m => if 0 <? m then match e with LBuckets => throw BadAlloc | _ => hpush_all (empty_umap m) (List.concat (u_buckets u)) end else ret u
    | None => ret u end in
  hpush u n.
(** A variable that is not in use; its name ends in a one, which leaves the others to the program. *)
Definition new_var : Mm positive := fun s => Ok (NestModel.free_slot (st_env s)) s.
(** A new node: the key copied or moved, the value String(). *)
Definition hnode (e : lack) (mv : bool) (k : positive) : Mm node :=
  match e with LNode => throw BadAlloc | _ =>
  let* kn := new_var in
  call d (if mv then CtorMove kn k else CtorCopy kn k) ;;;
  let* vn := new_var in
  call d (CtorDefault vn) ;;;
  ret (kn, vn) end.
(** map[key] and map[std::move(key)]; HashTable::operator[], HashTable.h:193-198. *)
Definition hindex (e : lack) (mv : bool) (u : table) (k : positive) : Mm (node * table) :=
  let* r := hfind u k in
  match r with
  | Some n => ret (n, u)
  | None =>
    let* n := hnode e mv k in
    let* u' := unwind d [snd n; fst n] (hlink e u n) in
    ret (n, u')
  end.
(** HashTable::contains, HashTable.h:162-165. *)
Definition hcontains (u : table) (k : positive) : Mm bool :=
  if isEmpty u then ret false else
  let* r := hfind u k in ret (match r with Some _ => true | None => false end).
(** t[k] = v *)
Definition hassign (e : lack) (mk mv : bool) (u : table) (k v : positive) : Mm table :=
  let* r := hindex e mk u k in
  call d (if mv then AssignMove (snd (fst r)) v else AssignCopy (snd (fst r)) v) ;;;
  ret (snd r).
(** HashTable::insert, HashTable.h:138-160; [mk], [mv]: the key, the value is an rvalue. *)
Definition hinsert (e : lack) (mk mv : bool) (u : table) (k v : positive) : Mm (bool * table) :=
  let* old := hcontains u k in
  if (old : bool) then ret (false, u) else
  let* u' := hassign e mk mv u k v in ret (true, u').
(** HashTable::remove, HashTable.h:167-170. *)
Fixpoint hdrop (b : list node) (n : node) : list node :=
  match b with [] => [] | n' :: b' => if Pos.eqb (fst n') (fst n) then b' else n' :: hdrop b' n end.
Definition hremove (u : table) (k : positive) : Mm (bool * table) :=
  if isEmpty u then ret (false, u) else
  let* h := key_hash k in
  let* b := hbucket u h in
  let* r := hscan b k in
  match r with
  | None => ret (false, u)
  | Some n => destroy_all d [snd n; fst n] ;;; ret (true, put_bucket u (h mod u_n u) (hdrop b n) (u_count u - 1))
  end.
(** HashTable::getValue and operator[] const, HashTable.h:172-185: into [r]. *)
Definition hget (r : positive) (u : table) (k : positive) : Mm unit :=
  let* n := hfind u k in
  match n with Some n => call d (CtorCopy r (snd n)) | None => call d (CtorDefault r) end.
(** The destructor, and HashTable::clear, HashTable.h:87-89. *)
Fixpoint hfree (l : list node) : Mm unit :=
  match l with [] => ret tt | n :: l' => destroy_all d [snd n; fst n] ;;; hfree l' end.
Definition hdestroy (u : table) : Mm unit := hfree (List.concat (u_buckets u)).
Definition hclear (u : table) : Mm table := hdestroy u ;;; ret (empty_umap (u_n u)).
(** The copy constructor, HashTable.h:65; allocation number [k] fails if [fails k], the first being the bucket array. *)
Fixpoint hcopy_nodes (fails : nat -> bool) (k : nat) (l : list node) : Mm (list node) :=
  match l with
  | [] => ret []
  | n :: l' =>
    if fails k then throw BadAlloc else
    let* kn := new_var in
    call d (CtorCopy kn (fst n)) ;;;
    let* vn := new_var in
    call d (CtorCopy vn (snd n)) ;;;
    let* l'' := unwind d [vn; kn] (hcopy_nodes fails (S k) l') in
    ret ((kn, vn) :: l'')
  end.
Definition hcopy (fails : nat -> bool) (u : table) : Mm table :=
  if fails O then throw BadAlloc else
  let* l := hcopy_nodes fails 1%nat (List.concat (u_buckets u)) in
  hpush_all (empty_umap (u_n u)) (rev l).
End Hs.
