(** Several HashTables of Strings on the heap holding a finite map each, and what a program may do with them. *)
From stdpp Require Import gmap.
From Verif Require Import Base RcaSpec RcaModel RcaRel RcaMeet AlgMeet StrSpec HashModel HsModel HsMeet HtModel.
Open Scope Z_scope.

Notation tables := (gmap positive table).
Notation maps := (gmap positive texts).

(** Two tables have no String in common. *)
Definition apart (u v : table) : Prop := forall x, x ∈ owned u -> x ∉ owned v.
(** The map that a list of entries gives rise to: of several with one key the first counts. *)
Definition firsts (a : astate Z) (kvs : list (positive * positive)) : texts :=
  list_to_map (map (fun n => (text a (fst n), text a (snd n))) kvs).

(** [ts] hold [ms], each in Strings of its own; the Strings outside of all tables are [b]. *)
Record all (d : desc Z) (a : astate Z) (ts : tables) (ms : maps) (b : astate Z) : Prop := All {
  all_none : forall i, ts !! i = None <-> ms !! i = None;
  all_tab : forall i u m, ts !! i = Some u -> ms !! i = Some m -> tab d a u m;
  all_apart : forall i j u v, ts !! i = Some u -> ts !! j = Some v -> i <> j -> apart u v;
  all_rest : forall x y, b !! x = Some y <-> a !! x = Some y /\ forall i u, ts !! i = Some u -> x ∉ owned u }.
Definition hold (d : desc Z) (s : state Z) (ts : tables) (ms : maps) (b : astate Z) : Prop :=
  exists a, reached d s a /\ all d a ts ms b.

(** What a program does: calls on one table, and operations on whole tables. *)
Inductive tcall :=
| TOn (i : positive) (c : hcall)
| TMake (i : positive) (n : Z)
| TList (i : positive) (n : Z) (kvs : list (positive * positive))
| TCopy (i j : positive)
| TAssign (i j : positive)
| TMove (i j : positive)
| TMoveAssign (i j : positive)
| TSwap (i j : positive)
| TDestroy (i : positive).

Section Run.
Variable d : desc Z.
Variable mdiff : Z -> Z -> Z.
Variable grow : Z -> Z -> option Z.
Notation Mm := (M (state Z)).
Definition get (ts : tables) (i : positive) : Mm table := match ts !! i with Some u => ret u | None => undef UbBounds end.
Definition tdo (c : tcall) (ts : tables) : Mm (bool * tables) :=
  match c with
  | TOn i c => let* u := get ts i in let* r := hdo d mdiff grow c u in ret (fst r, <[i := snd r]> ts)
  | TMake i n => ret (true, <[i := empty_umap n]> ts)
  | TList i n kvs => let* u := hlist d mdiff grow LNone [] n kvs in ret (true, <[i := u]> ts)
  | TCopy i j => let* v := get ts j in let* u := hcopy d (fun _ => false) v in ret (true, <[i := u]> ts)
  | TAssign i j => let* u := get ts i in let* v := get ts j in
      let* r := hcopy_assign d (Pos.eqb i j) (fun _ => false) u v in ret (fst r, <[i := snd r]> ts)
  | TMove i j => let* v := get ts j in let* r := hmove v in ret (true, <[i := fst r]> (<[j := snd r]> ts))
  | TMoveAssign i j => let* u := get ts i in let* v := get ts j in
      let* r := hmove_assign d u v in ret (true, <[i := fst r]> (<[j := snd r]> ts))
  | TSwap i j => let* u := get ts i in let* v := get ts j in let* r := hswap u v in ret (true, <[j := snd r]> (<[i := fst r]> ts))
  | TDestroy i => let* u := get ts i in hdestroy d u ;;; ret (true, delete i ts)
  end.
Fixpoint trun (cs : list tcall) (ts : tables) : Mm (list bool * tables) :=
  match cs with
  | [] => ret ([], ts)
  | c :: cs' => let* r := tdo c ts in let* q := trun cs' (snd r) in ret (fst r :: fst q, snd q)
  end.
End Run.

(** What they do, in terms of maps. *)
Inductive tspec : tcall -> maps * astate Z -> bool -> maps * astate Z -> Prop :=
| ts_on i c ms m b r m' b' : ms !! i = Some m -> hspec c (m, b) r (m', b') -> tspec (TOn i c) (ms, b) r (<[i := m']> ms, b')
| ts_make i n ms b : ms !! i = None -> 0 < n -> tspec (TMake i n) (ms, b) true (<[i := ∅]> ms, b)
| ts_list i n kvs ms b : ms !! i = None -> 0 < n ->
    Forall (fun kv => is_key b (fst kv) (text b (fst kv)) /\ is_str b (snd kv) (text b (snd kv))) kvs ->
    tspec (TList i n kvs) (ms, b) true (<[i := firsts b kvs]> ms, b)
| ts_copy i j ms m b : ms !! i = None -> ms !! j = Some m -> tspec (TCopy i j) (ms, b) true (<[i := m]> ms, b)
| ts_assign i j ms m m' b : ms !! i = Some m' -> ms !! j = Some m -> tspec (TAssign i j) (ms, b) true (<[i := m]> ms, b)
| ts_move i j ms m b : ms !! i = None -> ms !! j = Some m -> tspec (TMove i j) (ms, b) true (<[i := m]> (<[j := ∅]> ms), b)
| ts_move_assign i j ms m m' b : ms !! i = Some m' -> ms !! j = Some m -> i <> j -> tspec (TMoveAssign i j) (ms, b) true (<[i := m]> (<[j := ∅]> ms), b)
| ts_swap i j ms m m' b : ms !! i = Some m' -> ms !! j = Some m -> tspec (TSwap i j) (ms, b) true (<[j := m']> (<[i := m]> ms), b)
| ts_destroy i ms m b : ms !! i = Some m -> tspec (TDestroy i) (ms, b) true (delete i ms, b).
Inductive tspecs : list tcall -> maps * astate Z -> list bool -> maps * astate Z -> Prop :=
| ts_nil x : tspecs [] x [] x
| ts_cons c cs x r y rs z : tspec c x r y -> tspecs cs y rs z -> tspecs (c :: cs) x (r :: rs) z.
