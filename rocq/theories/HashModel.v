(** Model of HashTable (HashTable.h) on std::unordered_map. The map is a sequence of buckets; the bucket of a key is its
    hash modulo the number of buckets; the library may choose another number of buckets before an insertion. Simplified:
    the nodes of a bucket are a list (no separate node chain), running out of memory is considered for single insertions
    only, moved-from keys and values are not followed, a moved-from map is empty (as libstdc++ and libc++ leave it).
    operator=(initializer_list) (HashTable.h:118-123) calls members a pair does not have and cannot be instantiated. *)
From Verif Require Import Base HashSpec.
From stdpp Require Import gmap.
Open Scope Z_scope.

Section Model.
Context {K V : Type}.
Variable hash : K -> Z.              (* std::hash<Key> *)
Variable keq : K -> K -> bool.       (* operator== on keys *)
Variable dflt : V.
Variable grow : Z -> Z -> option Z.  (* rehash policy: number of buckets, of elements *)

Record umap := UMap { u_n : Z; u_buckets : list (list (K * V)); u_count : Z }.
Definition empty_umap (n : Z) : umap := UMap n (zrep n []) 0.
Definition bucket_of (u : umap) (k : K) : Z := hash k mod u_n u.
Definition bucket (u : umap) (i : Z) : M unit (list (K * V)) :=
  match znth i (u_buckets u) with Some b => ret b | None => undef UbBounds end.
Fixpoint scan (b : list (K * V)) (k : K) : option (K * V) :=
  match b with [] => None | (k', v) :: b' => if keq k' k then Some (k', v) else scan b' k end.
(** unordered_map::find *)
Definition u_find (u : umap) (k : K) : M unit (option (K * V)) :=
  let* b := bucket u (bucket_of u k) in ret (scan b k).
(** Replacing one bucket. *)
Definition put_bucket (u : umap) (i : Z) (b : list (K * V)) (count : Z) : umap :=
  UMap (u_n u) (zupd i [b] (u_buckets u)) count.
(** A new node at the front of its bucket. *)
Definition push (u : umap) (k : K) (v : V) : M unit umap :=
  let* b := bucket u (bucket_of u k) in ret (put_bucket u (bucket_of u k) ((k, v) :: b) (u_count u + 1)).
Fixpoint push_all (u : umap) (l : list (K * V)) : M unit umap :=
  match l with [] => ret u | (k, v) :: l' => let* u' := push u k v in push_all u' l' end.
(** unordered_map::rehash *)
Definition rehash (u : umap) (n : Z) : M unit umap := push_all (empty_umap n) (concat (u_buckets u)).
(** Insertion of a key that is not there. *)
Definition u_insert (u : umap) (k : K) (v : V) : M unit umap :=
  let* u := match grow (u_n u) (u_count u) with Some n => if 0 <? n then rehash u n else ret u | None => ret u end in
  push u k v.
Fixpoint set_value (b : list (K * V)) (k : K) (v : V) : list (K * V) :=
  match b with [] => [] | (k', v') :: b' => if keq k' k then (k', v) :: b' else (k', v') :: set_value b' k v end.
Definition u_set (u : umap) (k : K) (v : V) : M unit umap :=
  let* b := bucket u (bucket_of u k) in ret (put_bucket u (bucket_of u k) (set_value b k v) (u_count u)).
Fixpoint drop_key (b : list (K * V)) (k : K) : list (K * V) :=
  match b with [] => [] | (k', v') :: b' => if keq k' k then b' else (k', v') :: drop_key b' k end.
(** unordered_map::erase(key): how many were removed. *)
Definition u_erase (u : umap) (k : K) : M unit (Z * umap) :=
  let* b := bucket u (bucket_of u k) in
  match scan b k with
  | Some _ => ret (1, put_bucket u (bucket_of u k) (drop_key b k) (u_count u - 1))
  | None => ret (0, u)
  end.
(** unordered_map(list): insertions that never overwrite. *)
Fixpoint u_init (u : umap) (l : list (K * V)) : M unit umap :=
  match l with
  | [] => ret u
  | (k, v) :: l' => let* r := u_find u k in
    match r with Some _ => u_init u l' | None => let* u' := u_insert u k v in u_init u' l' end
  end.

(** HashTable. *)
Definition isEmpty (u : umap) : bool := u_count u =? 0.                      (* HashTable.h:131-133 *)
Definition contains (u : umap) (k : K) : M unit bool :=                      (* HashTable.h:162-165 *)
  if isEmpty u then ret false else let* r := u_find u k in ret (match r with Some _ => true | None => false end).
Definition remove (u : umap) (k : K) : M unit (bool * umap) :=               (* HashTable.h:167-170 *)
  if isEmpty u then ret (false, u) else let* r := u_erase u k in ret (0 <? fst r, snd r).
Definition getValue (u : umap) (k : K) : M unit V :=                         (* HashTable.h:172-177 *)
  let* r := u_find u k in ret (match r with Some (_, v) => v | None => dflt end).
(** map[key]: the value found or a new default one. *)
Definition u_index (e : trouble) (u : umap) (k : K) : M unit (option (V * umap)) :=
  let* r := u_find u k in
  match r with
  | Some (_, v) => ret (Some (v, u))
  | None => match e with TAlloc => ret None | _ => let* u' := u_insert u k dflt in ret (Some (dflt, u')) end
  end.
(** map[key] = value *)
Definition u_assign (e : trouble) (u : umap) (k : K) (v : V) : M unit (bool * umap) :=
  let* r := u_index e u k in
  match r with
  | None => ret (false, u)
  | Some (_, u') => match e with TAssign => ret (false, u') | _ => let* u'' := u_set u' k v in ret (true, u'') end
  end.
(** HashTable::insert, HashTable.h:138-160: the result, None when it throws. *)
Definition insert (e : trouble) (u : umap) (k : K) (v : V) : M unit (option bool * umap) :=
  let* old := contains u k in
  if (old : bool) then ret (Some false, u) else
  let* r := u_assign e u k v in ret (if fst r then Some true else None, snd r).

Notation MT := (M (gmap nat umap)).
Definition on {A} (t : nat) (f : umap -> M unit (A * umap)) : MT A := fun s =>
  match s !! t with
  | None => Undef UbDeadVar
  | Some u => match f u tt with
    | Ok (a, u') _ => Ok a (<[t := u']> s) | Exn x _ => Exn x s | Term => Term | Fuel => Fuel | Undef x => Undef x end
  end.
Definition look {A} (t : nat) (f : umap -> M unit A) : MT A := fun s =>
  match s !! t with
  | None => Undef UbDeadVar
  | Some u => match f u tt with Ok a _ => Ok a s | Exn x _ => Exn x s | Term => Term | Fuel => Fuel | Undef x => Undef x end
  end.
Definition get_table (t : nat) : MT umap := look t (fun u => ret u).
Definition set_table (t : nat) (u : umap) : MT unit := fun s => Ok tt (<[t := u]> s).

Definition hexec (e : trouble) (o : hop K V) : MT (hout K V) :=
  match o with
  | HNew t cap => set_table t (empty_umap (Z.max 1 cap)) ;;; ret RUnit                    (* HashTable.h:60-64 *)
  | HInit t l => fun s => match u_init (empty_umap 1) l tt with                          (* HashTable.h:72 *)
      | Ok u _ => Ok RUnit (<[t := u]> s) | Exn x _ => Exn x s | Term => Term | Fuel => Fuel | Undef x => Undef x end
  | HInsert t k v => let* r := on t (fun u => insert e u k v) in ret (match r with Some b => RBool b | None => RThrow end)
  | HContains t k => let* r := look t (fun u => contains u k) in ret (RBool r)
  | HRemove t k => let* r := on t (fun u => remove u k) in ret (RBool r)
  | HGet t k => let* r := look t (fun u => getValue u k) in ret (RVal r)                  (* HashTable.h:172-185 *)
  | HFind t k => let* r := look t (fun u => u_find u k) in ret (ROpt r)                   (* HashTable.h:80-85 *)
  | HIndex t k =>                                                                         (* HashTable.h:193-198 *)
      let* r := on t (fun u => let* r := u_index e u k in ret (match r with Some (v, u') => (Some v, u') | None => (None, u) end)) in
      ret (match r with Some v => RVal v | None => RThrow end)
  | HAssign t k v => let* r := on t (fun u => u_assign e u k v) in ret (if (r : bool) then RUnit else RThrow)
  | HClear t => on t (fun u => ret (tt, empty_umap (u_n u))) ;;; ret RUnit                (* HashTable.h:87-89 *)
  | HSize t => let* r := look t (fun u => ret (u_count u)) in ret (RNum r)                (* HashTable.h:125-127 *)
  | HEmpty t => let* r := look t (fun u => ret (isEmpty u)) in ret (RBool r)
  | HCopyNew s t => let* u := get_table s in set_table t u ;;; ret RUnit                  (* HashTable.h:65 *)
  | HCopy s t => let* u' := get_table t in                                                (* HashTable.h:98-102 *)
      if Nat.eqb s t then ret RUnit else let* u := get_table s in set_table t u ;;; ret RUnit
  | HMove s t => let* u := get_table s in let* u' := get_table t in                       (* HashTable.h:104-113 *)
      set_table s (empty_umap 1) ;;; set_table t u ;;; ret RUnit
  | HSwap s t => let* u := get_table s in let* u' := get_table t in                       (* HashTable.h:91-96 *)
      set_table s u' ;;; set_table t u ;;; ret RUnit
  | HItems t => let* u := get_table t in ret (RItems (concat (u_buckets u)))              (* HashTable.h:74-79 *)
  end.
Fixpoint hrun (l : list (trouble * hop K V)) : MT (list (hout K V)) :=
  match l with
  | [] => ret []
  | (e, o) :: l' => let* r := hexec e o in let* rs := hrun l' in ret (r :: rs)
  end.
End Model.
Arguments umap : clear implicits.
