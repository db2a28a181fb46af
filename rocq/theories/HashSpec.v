(** What a user of HashTable relies on: a finite map from key contents to values. Nothing here refers to the model. *)
From Verif Require Export Base.
From stdpp Require Import gmap.
Open Scope Z_scope.

Section Spec.
Context {K C V : Type} `{Countable C}.
Variable c : K -> C.       (* contents of a key *)
Variable dflt : V.         (* Value() *)

(** Calls; tables are numbered. *)
Inductive hop :=
| HNew (t : nat) (cap : Z)
| HInit (t : nat) (l : list (K * V))
| HInsert (t : nat) (k : K) (v : V)
| HContains (t : nat) (k : K)
| HRemove (t : nat) (k : K)
| HGet (t : nat) (k : K)                (* getValue and [] on a const table *)
| HFind (t : nat) (k : K)
| HIndex (t : nat) (k : K)              (* [] read on a table that is not const *)
| HAssign (t : nat) (k : K) (v : V)     (* t[k] = v *)
| HClear (t : nat)
| HSize (t : nat)
| HEmpty (t : nat)
| HCopyNew (s t : nat)                  (* copy constructor *)
| HCopy (s t : nat)                     (* t = s *)
| HMove (s t : nat)                     (* t = std::move(s) *)
| HSwap (s t : nat)
| HItems (t : nat).                     (* begin() to end() *)
(** What may go wrong during a call: no memory for a node, or copying the value throws. *)
Inductive trouble := TNone | TAlloc | TAssign.
Inductive hout := RUnit | RBool (b : bool) | RVal (v : V) | RNum (z : Z) | ROpt (o : option (K * V)) | RItems (l : list (K * V)) | RThrow.

(** The map of each table. *)
Notation tables := (gmap nat (gmap C V)).
(** The first of several values for a key counts. *)
Fixpoint add_all (m : gmap C V) (l : list (K * V)) : gmap C V :=
  match l with
  | [] => m
  | (k, v) :: l' => add_all (match m !! c k with Some _ => m | None => <[c k := v]> m end) l'
  end.
(** A key and value as stored: any key with these contents. *)
Definition holds_pair (m : gmap C V) (x : K * V) : Prop := m !! c (fst x) = Some (snd x).
(** What a call on existing tables may return and which maps it leaves. *)
Inductive hstep : trouble -> hop -> tables -> hout -> tables -> Prop :=
| St_new e t cap a : hstep e (HNew t cap) a RUnit (<[t := ∅]> a)
| St_init e t l a : hstep e (HInit t l) a RUnit (<[t := add_all ∅ l]> a)
| St_insert_old e t k v a m x : a !! t = Some m -> m !! c k = Some x -> hstep e (HInsert t k v) a (RBool false) a
| St_insert t k v a m : a !! t = Some m -> m !! c k = None -> hstep TNone (HInsert t k v) a (RBool true) (<[t := <[c k := v]> m]> a)
| St_insert_alloc t k v a m : a !! t = Some m -> m !! c k = None -> hstep TAlloc (HInsert t k v) a RThrow a
| St_insert_assign t k v a m : a !! t = Some m -> m !! c k = None -> hstep TAssign (HInsert t k v) a RThrow (<[t := <[c k := dflt]> m]> a)
| St_contains e t k a m : a !! t = Some m -> hstep e (HContains t k) a (RBool (match m !! c k with Some _ => true | None => false end)) a
| St_remove e t k a m : a !! t = Some m ->
    hstep e (HRemove t k) a (RBool (match m !! c k with Some _ => true | None => false end)) (<[t := delete (c k) m]> a)
| St_get e t k a m : a !! t = Some m -> hstep e (HGet t k) a (RVal (default dflt (m !! c k))) a
| St_find e t k a m o : a !! t = Some m -> (forall x, o = Some x -> c (fst x) = c k) -> option_map snd o = m !! c k -> hstep e (HFind t k) a (ROpt o) a
| St_index_old e t k a m x : a !! t = Some m -> m !! c k = Some x -> hstep e (HIndex t k) a (RVal x) a
| St_index e t k a m : e <> TAlloc -> a !! t = Some m -> m !! c k = None -> hstep e (HIndex t k) a (RVal dflt) (<[t := <[c k := dflt]> m]> a)
| St_index_alloc t k a m : a !! t = Some m -> m !! c k = None -> hstep TAlloc (HIndex t k) a RThrow a
| St_assign_old e t k v a m x : e <> TAssign -> a !! t = Some m -> m !! c k = Some x -> hstep e (HAssign t k v) a RUnit (<[t := <[c k := v]> m]> a)
| St_assign_old_throw t k v a m x : a !! t = Some m -> m !! c k = Some x -> hstep TAssign (HAssign t k v) a RThrow a
| St_assign t k v a m : a !! t = Some m -> m !! c k = None -> hstep TNone (HAssign t k v) a RUnit (<[t := <[c k := v]> m]> a)
| St_assign_alloc t k v a m : a !! t = Some m -> m !! c k = None -> hstep TAlloc (HAssign t k v) a RThrow a
| St_assign_throw t k v a m : a !! t = Some m -> m !! c k = None -> hstep TAssign (HAssign t k v) a RThrow (<[t := <[c k := dflt]> m]> a)
| St_clear e t a m : a !! t = Some m -> hstep e (HClear t) a RUnit (<[t := ∅]> a)
| St_size e t a m : a !! t = Some m -> hstep e (HSize t) a (RNum (Z.of_nat (size m))) a
| St_empty e t a m : a !! t = Some m -> hstep e (HEmpty t) a (RBool (bool_decide (size m = O))) a
| St_copynew e s t a m : a !! s = Some m -> hstep e (HCopyNew s t) a RUnit (<[t := m]> a)
| St_copy e s t a m m' : a !! s = Some m -> a !! t = Some m' -> hstep e (HCopy s t) a RUnit (<[t := m]> a)
| St_move e s t a m m' : s <> t -> a !! s = Some m -> a !! t = Some m' -> hstep e (HMove s t) a RUnit (<[t := m]> (<[s := ∅]> a))
| St_swap e s t a m m' : a !! s = Some m -> a !! t = Some m' -> hstep e (HSwap s t) a RUnit (<[t := m]> (<[s := m']> a))
| St_items e t a m l : a !! t = Some m ->
    Permutation (map (fun x => (c (fst x), snd x)) l) (map_to_list m) -> hstep e (HItems t) a (RItems l) a.
(** Every call names tables that exist by then, and no table is moved to itself. *)
Fixpoint legal (alive : gset nat) (l : list (trouble * hop)) : Prop :=
  match l with
  | [] => True
  | (_, o) :: l' =>
    match o with
    | HNew t _ | HInit t _ => legal ({[t]} ∪ alive) l'
    | HCopyNew s t => s ∈ alive /\ legal ({[t]} ∪ alive) l'
    | HCopy s t | HSwap s t => s ∈ alive /\ t ∈ alive /\ legal alive l'
    | HMove s t => s <> t /\ s ∈ alive /\ t ∈ alive /\ legal alive l'
    | HInsert t _ _ | HContains t _ | HRemove t _ | HGet t _ | HFind t _ | HIndex t _ | HAssign t _ _
    | HClear t | HSize t | HEmpty t | HItems t => t ∈ alive /\ legal alive l'
    end
  end.
(** Sequences of calls. *)
Inductive hsteps : list (trouble * hop) -> tables -> list hout -> tables -> Prop :=
| Ss_nil a : hsteps [] a [] a
| Ss_cons e o l a r a' rs a'' : hstep e o a r a' -> hsteps l a' rs a'' -> hsteps ((e, o) :: l) a (r :: rs) a''.
(** Answers that only differ in which of several equal keys is stored and in the order of iteration. *)
Definition same_answer (r r' : hout) : Prop :=
  match r, r' with
  | ROpt o, ROpt o' => option_map (fun x => (c (fst x), snd x)) o = option_map (fun x => (c (fst x), snd x)) o'
  | RItems l, RItems l' => Permutation (map (fun x => (c (fst x), snd x)) l) (map (fun x => (c (fst x), snd x)) l')
  | _, _ => r = r'
  end.
End Spec.
Arguments hop : clear implicits. Arguments hout : clear implicits.
