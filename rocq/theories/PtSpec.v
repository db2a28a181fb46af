(** What a program with several HashTable<String, String> and Strings relies on: every table is a finite map from texts to
    texts of its own, every String a text of its own. Nothing here refers to the model. *)
From Verif Require Export RcaSpec.
From Verif Require MstSpec.
Open Scope Z_scope.

Notation texts := (gmap (list Z) (list Z)).
Notation maps := (gmap positive texts).

(** Tables are [i], [j]; Strings [k], [v], [r]; [mk], [mv] say that the key, the value is an rvalue. In a call on the
    value of an entry, the String named 1 is that value. *)
Inductive pcall :=
| PString (o : op Z)                             (* a call on Strings *)
| PMake (i : positive) (n : Z)                   (* HashTable i(n); *)
| PList (i : positive) (n : Z) (kvs : list (positive * positive))  (* HashTable i{{k, v}, ...}; *)
| PCopy (i j : positive)                         (* HashTable i(j); *)
| PAssign (i j : positive)                       (* i = j; *)
| PMove (i j : positive)                         (* HashTable i(std::move(j)); *)
| PMoveAssign (i j : positive)                   (* i = std::move(j); *)
| PSwap (i j : positive)
| PDestroy (i : positive)
| PClear (i : positive)
| PSize (i : positive)
| PInsert (mk mv : bool) (i k v : positive)
| PPut (mk mv : bool) (i k v : positive)         (* i[k] = v; *)
| PRemove (i k : positive)
| PContains (i k : positive)
| PGet (r i k : positive)                        (* String r(i.getValue(k)); *)
| PValue (mk : bool) (i k : positive) (o : op Z) (* i[k].o *)
| PFind (i k : positive) (o : op Z).             (* if found, find(k)->second.o *)
Inductive pout := PNone | PBool (b : bool) | PInt (z : Z) | POut (o : out Z).
Inductive pres := PRet (ms : maps) (b : astate Z) (o : pout) | PRange (ms : maps) (b : astate Z).

(** The tables and the Strings a call mentions. *)
Definition tables_of (c : pcall) : list positive :=
  match c with
  | PString _ => []
  | PMake i _ | PList i _ _ | PDestroy i | PClear i | PSize i | PInsert _ _ i _ _ | PPut _ _ i _ _ | PRemove i _ | PContains i _ | PGet _ i _
  | PValue _ i _ _ | PFind i _ _ => [i]
  | PCopy i j | PAssign i j | PMove i j | PMoveAssign i j | PSwap i j => [i; j]
  end.
Definition strings_of (c : pcall) : list positive :=
  let others o := List.filter (fun x => negb (Pos.eqb x 1)) (MstSpec.mentions o) in
  match c with
  | PString o => MstSpec.mentions o
  | PList _ _ kvs => flat_map (fun kv => [fst kv; snd kv]) kvs
  | PInsert _ _ _ k v | PPut _ _ _ k v => [k; v]
  | PRemove _ k | PContains _ k => [k]
  | PGet r _ k => [r; k]
  | PValue _ _ k o | PFind _ k o => k :: others o
  | _ => []
  end.

Section Spec.
(** What a call on Strings does (RcaSpec). *)
Variable ustep : op Z -> astate Z -> option (sres Z).

(** The text of a String all of whose elements are specified; a key consists of bytes. *)
Definition full (b : astate Z) (x : positive) : option (list Z) := match b !! x with Some (AVal _ v) => vals v | _ => None end.
Definition byte (c : Z) : bool := (0 <=? c) && (c <? 256).
Definition key (b : astate Z) (x : positive) : option (list Z) :=
  match full b x with Some l => if forallb byte l then Some l else None | None => None end.
(** A String that was moved from, if [mv]. *)
Definition robbed (mv : bool) (x : positive) (b : astate Z) : astate Z := if mv then <[x := AMoved]> b else b.
(** The map made of a list of entries: of several with one key the first counts. *)
Fixpoint entries (b : astate Z) (kvs : list (positive * positive)) : option texts :=
  match kvs with
  | [] => Some ∅
  | (k, v) :: kvs' =>
    match key b k, full b v, entries b kvs' with Some l, Some w, Some m => Some (<[l := w]> m) | _, _, _ => None end
  end.
Definition no_cstr (o : op Z) : bool := match o with CStr _ _ => false | _ => true end.
(** A call on the value [w] of the entry [l]; [rm] is not specified. *)
Definition on_value (rm : bool) (o : op Z) (i : positive) (l w : list Z) (m : texts) (ms : maps) (b : astate Z) : option pres :=
  need (no_cstr o)
    match ustep o (<[1%positive := AVal rm (map Some w)]> b) with
    | Some (SRet b' r) =>
      match full b' 1 with
      | Some w' => Some (PRet (<[i := <[l := w']> m]> ms) (partial_alter (fun _ => b !! 1%positive) 1%positive b') (POut r))
      | None => None                                  (* the value is to be left a text *)
      end
    | Some SRange => Some (PRange (<[i := <[l := w]> m]> ms) b)
    | None => None
    end.

(** [rm] stands for what is not specified about the memory of a String copied out of a table. [None]: not specified. *)
Definition pstep (rm : bool) (c : pcall) (ms : maps) (b : astate Z) : option pres :=
  let ret ms o := Some (PRet ms b o) in
  match c with
  | PString o =>
    need (no_cstr o)
      match ustep o b with
      | Some (SRet b' r) => Some (PRet ms b' (POut r))
      | Some SRange => Some (PRange ms b)
      | None => None
      end
  | PMake i n => match ms !! i with None => need (0 <? n) (ret (<[i := ∅]> ms) PNone) | _ => None end
  | PList i n kvs => match ms !! i, entries b kvs with None, Some m => need (0 <? n) (ret (<[i := m]> ms) PNone) | _, _ => None end
  | PCopy i j => match ms !! i, ms !! j with None, Some m => ret (<[i := m]> ms) PNone | _, _ => None end
  | PAssign i j => match ms !! i, ms !! j with Some _, Some m => ret (<[i := m]> ms) PNone | _, _ => None end
  | PMove i j => match ms !! i, ms !! j with None, Some m => ret (<[i := m]> (<[j := ∅]> ms)) PNone | _, _ => None end
  | PMoveAssign i j => match ms !! i, ms !! j with
      | Some _, Some m => need (negb (Pos.eqb i j)) (ret (<[i := m]> (<[j := ∅]> ms)) PNone) | _, _ => None end
  | PSwap i j => match ms !! i, ms !! j with Some m, Some m' => ret (<[j := m]> (<[i := m']> ms)) PNone | _, _ => None end
  | PDestroy i => match ms !! i with Some _ => ret (delete i ms) PNone | None => None end
  | PClear i => match ms !! i with Some _ => ret (<[i := ∅]> ms) PNone | None => None end
  | PSize i => match ms !! i with Some m => ret ms (PInt (Z.of_nat (size m))) | None => None end
  | PInsert mk mv i k v =>
    match ms !! i, key b k, full b v with
    | Some m, Some l, Some w => need (negb (mk && Pos.eqb k v))
      match m !! l with
      | Some _ => ret ms (PBool false)
      | None => Some (PRet (<[i := <[l := w]> m]> ms) (robbed mk k (robbed mv v b)) (PBool true))
      end
    | _, _, _ => None
    end
  | PPut mk mv i k v =>
    match ms !! i, key b k, full b v with
    | Some m, Some l, Some w => need (negb (mk && Pos.eqb k v))
      (Some (PRet (<[i := <[l := w]> m]> ms)
        (match m !! l with Some _ => robbed mv v b | None => robbed mk k (robbed mv v b) end) PNone))
    | _, _, _ => None
    end
  | PRemove i k =>
    match ms !! i, key b k with
    | Some m, Some l => ret (<[i := delete l m]> ms) (PBool (bool_decide (is_Some (m !! l)))) | _, _ => None end
  | PContains i k =>
    match ms !! i, key b k with Some m, Some l => ret ms (PBool (bool_decide (is_Some (m !! l)))) | _, _ => None end
  | PGet r i k =>
    match ms !! i, key b k, b !! r with
    | Some m, Some l, None => Some (PRet ms (<[r := AVal rm (map Some (default [] (m !! l)))]> b) PNone)
    | _, _, _ => None
    end
  | PValue mk i k o =>                            (* operator[] makes the entry *)
    match ms !! i, key b k with
    | Some m, Some l =>
      on_value rm o i l (default [] (m !! l)) m ms (match m !! l with Some _ => b | None => robbed mk k b end)
    | _, _ => None
    end
  | PFind i k o =>
    match ms !! i, key b k with
    | Some m, Some l => match m !! l with Some w => on_value rm o i l w m ms b | None => ret ms PNone end
    | _, _ => None
    end
  end.

(** What bad_alloc may leave behind of a call on Strings: all is as it was, or the text that was being written to is gone. *)
Inductive ufail (b : astate Z) (o : op Z) : astate Z -> Prop :=
| uf_same : ufail b o b
| uf_gone x : target o = Some x -> ufail b o (<[x := AVal true []]> b).
(** Of a call on the value of an entry. *)
Inductive vfail (ms : maps) (b : astate Z) : positive -> list Z -> op Z -> maps -> astate Z -> Prop :=
| vf_same i l o : vfail ms b i l o ms b
| vf_value i l o m : target o = Some 1%positive -> ms !! i = Some m -> vfail ms b i l o (<[i := <[l := []]> m]> ms) b
| vf_other i l o x : target o = Some x -> x <> 1%positive -> vfail ms b i l o ms (<[x := AVal true []]> b).
(** What it may leave behind of a call. An rvalue key of a new entry may be lost. *)
Inductive pfail (ms : maps) (b : astate Z) : pcall -> maps -> astate Z -> Prop :=
| pf_string o b' : ufail b o b' -> pfail ms b (PString o) ms b'
| pf_make i n : pfail ms b (PMake i n) ms b
| pf_list i n kvs : pfail ms b (PList i n kvs) ms b
| pf_copy i j : pfail ms b (PCopy i j) ms b
| pf_assign i j : pfail ms b (PAssign i j) ms b
| pf_assign_gone i j : pfail ms b (PAssign i j) (<[i := ∅]> ms) b
| pf_insert mk mv i k v m l lose : ms !! i = Some m -> key b k = Some l -> m !! l = None ->
    pfail ms b (PInsert mk mv i k v) ms (robbed (mk && lose) k b)
| pf_put mk mv i k v m l lose : ms !! i = Some m -> key b k = Some l -> m !! l = None ->
    pfail ms b (PPut mk mv i k v) ms (robbed (mk && lose) k b)
| pf_value mk i k o m l lose : ms !! i = Some m -> key b k = Some l -> m !! l = None ->
    pfail ms b (PValue mk i k o) ms (robbed (mk && lose) k b)
| pf_on mk i k o m l b1 ms' b' : ms !! i = Some m -> key b k = Some l ->
    b1 = (match m !! l with Some _ => b | None => robbed mk k b end) ->
    vfail (<[i := <[l := default [] (m !! l)]> m]> ms) b1 i l o ms' b' -> pfail ms b (PValue mk i k o) ms' b'
| pf_find i k o m l w ms' b' : ms !! i = Some m -> key b k = Some l -> m !! l = Some w ->
    vfail ms b i l o ms' b' -> pfail ms b (PFind i k o) ms' b'.
End Spec.
