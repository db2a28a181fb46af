(** What it means for a HashTable<String, String> on the heap to hold a finite map. *)
From Verif Require Import Base RcaSpec RcaModel RcaRel RcaMeet AlgMeet StrSpec HashModel HsModel.
Open Scope Z_scope.

Notation table := (umap positive positive).
Notation texts := (gmap (list Z) (list Z)).

Section Meet.
Variable d : desc Z.
(** The nodes, and the variables they consist of. *)
Definition nodes (u : table) : list (positive * positive) := List.concat (u_buckets u).
Definition own (l : list (positive * positive)) : list positive := flat_map (fun n => [fst n; snd n]) l.
Definition owned (u : table) : list positive := own (nodes u).
(** The value of a String, and its hash. *)
Definition text (a : astate Z) (x : positive) : list Z :=
  match a !! x with Some (AVal _ v) => match vals v with Some l => l | None => [] end | _ => [] end.
Definition text_hash (a : astate Z) (x : positive) : Z := sp_hash (d_hash d) (text a x).
(** A node with its two Strings. *)
Definition is_node (a : astate Z) (n : positive * positive) : Prop :=
  bytes (text a (fst n)) /\ is_str a (fst n) (text a (fst n)) /\ is_str a (snd n) (text a (snd n)).
(** The table holds [m]: every node is in the bucket of its key, no two keys are equal, no variable is used
    twice. *)
Record tab (a : astate Z) (u : table) (m : texts) : Prop := Tab {
  tab_pos : 0 < u_n u;
  tab_len : zlen (u_buckets u) = u_n u;
  tab_place : forall i b n, znth i (u_buckets u) = Some b -> In n b -> text_hash a (fst n) mod u_n u = i;
  tab_count : u_count u = zlen (nodes u);
  tab_own : base.NoDup (owned u);
  tab_node : Forall (is_node a) (nodes u);
  tab_keys : base.NoDup (map (fun n => text a (fst n)) (nodes u));
  tab_map : m = list_to_map (map (fun n => (text a (fst n), text a (snd n))) (nodes u)) }.
(** Everything that does not belong to the table. *)
Definition others (u : table) (a : astate Z) : astate Z := base.filter (fun p => fst p ∉ owned u) a.
(** A String that was moved from, if [b]. *)
Definition taken (b : bool) (x : positive) (a : astate Z) : astate Z := if b then <[x := AMoved]> a else a.
(** The call returns with [P] or throws bad_alloc with [E]; nothing else happens. *)
Definition does {A} (m : M (state Z) A) (s : state Z) (P : A -> astate Z -> Prop) (E : astate Z -> Prop) : Prop :=
  match m s with
  | Ok v s' => exists a, reached d s' a /\ shows s' a /\ P v a
  | Exn e s' => e = BadAlloc /\ exists a, reached d s' a /\ shows s' a /\ E a
  | _ => False
  end.
(** The key, an rvalue, was taken and is lost: the node was made, the bucket array was not. *)
Definition lost (e : lack) (mv : bool) : bool := match e with LBuckets => mv | _ => false end.
(** After t[k] = v: the table has the new entry, an rvalue was moved from, nothing else has changed. An rvalue key is
    left alone if its key was there. *)
Definition assigned (mk mv : bool) (a : astate Z) (u : table) (m : texts) (k v : positive) (l w : list Z) (u' : table) (a' : astate Z) : Prop :=
  tab a' u' (<[l := w]> m) /\
  others u' a' = others u (match m !! l with Some _ => taken mv v a | None => taken mk k (taken mv v a) end).
(** A state with a table [u] holding [m], and the values [b] elsewhere. *)
Definition has (s : state Z) (u : table) (m : texts) (b : astate Z) : Prop :=
  exists a, reached d s a /\ tab a u m /\ others u a = b.
End Meet.

(** Calls on a table, and what they do to the map and to the rest. *)
Inductive hcall := HInsert (mk mv : bool) (k v : positive) | HAssign (mk mv : bool) (k v : positive) | HRemove (k : positive) | HContains (k : positive) | HClear.
Definition hdo d mdiff grow (c : hcall) (u : table) : M (state Z) (bool * table) :=
  match c with
  | HInsert mk mv k v => hinsert d mdiff grow LNone mk mv u k v
  | HAssign mk mv k v => let* u' := hassign d mdiff grow LNone mk mv u k v in ret (true, u')
  | HRemove k => hremove d mdiff u k
  | HContains k => let* r := hcontains d mdiff u k in ret (r, u)
  | HClear => let* u' := hclear d u in ret (true, u')
  end.
Fixpoint hrun d mdiff grow (cs : list hcall) (u : table) : M (state Z) (list bool * table) :=
  match cs with
  | [] => ret ([], u)
  | c :: cs' => let* r := hdo d mdiff grow c u in let* q := hrun d mdiff grow cs' (snd r) in ret (fst r :: fst q, snd q)
  end.
(** A key is a String of bytes outside the table. *)
Definition is_key (b : astate Z) (k : positive) (l : list Z) : Prop := is_str b k l /\ bytes l.
Inductive hspec : hcall -> texts * astate Z -> bool -> texts * astate Z -> Prop :=
| hs_insert mk mv k v l w m b : is_key b k l -> is_str b v w -> (mk = true -> k <> v) -> m !! l = None ->
    hspec (HInsert mk mv k v) (m, b) true (<[l := w]> m, taken mk k (taken mv v b))
| hs_there mk mv k v l w m b : is_key b k l -> is_str b v w -> (mk = true -> k <> v) -> is_Some (m !! l) ->
    hspec (HInsert mk mv k v) (m, b) false (m, b)
| hs_new mk mv k v l w m b : is_key b k l -> is_str b v w -> (mk = true -> k <> v) -> m !! l = None ->
    hspec (HAssign mk mv k v) (m, b) true (<[l := w]> m, taken mk k (taken mv v b))
| hs_old mk mv k v l w m b : is_key b k l -> is_str b v w -> (mk = true -> k <> v) -> is_Some (m !! l) ->
    hspec (HAssign mk mv k v) (m, b) true (<[l := w]> m, taken mv v b)
| hs_remove k l m b : is_key b k l -> hspec (HRemove k) (m, b) (bool_decide (is_Some (m !! l))) (delete l m, b)
| hs_contains k l m b : is_key b k l -> hspec (HContains k) (m, b) (bool_decide (is_Some (m !! l))) (m, b)
| hs_clear m b : hspec HClear (m, b) true (∅, b).
Inductive hspecs : list hcall -> texts * astate Z -> list bool -> texts * astate Z -> Prop :=
| hs_nil x : hspecs [] x [] x
| hs_cons c cs x r y rs z : hspec c x r y -> hspecs cs y rs z -> hspecs (c :: cs) x (r :: rs) z.
