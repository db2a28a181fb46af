(** When reference counts are right, and what an object says. *)
From stdpp Require Import gmap.
From Verif Require Import Base ZList StrSpec TobModel.
Open Scope Z_scope.

(** How often [o] occurs in [l]. *)
Fixpoint times (o : positive) (l : list positive) : Z := match l with [] => 0 | x :: l' => (if Pos.eqb x o then 1 else 0) + times o l' end.
(** References from outside of the heap of objects. *)
Definition outer (s : tst) : list positive := map snd (map_to_list (t_slots s)) ++ t_held s.
(** Every count is the number of references, from [X] and from lists, and not 0 but for [T]; what is referred to is there;
    lists are not cyclic. *)
Record counted (h : gmap positive tob) (next : positive) (X T : list positive) : Prop := Counted {
  c_rc : forall o ob, h !! o = Some ob -> t_rc ob = times o (X ++ cells h);
  c_live : forall o, o ∈ X ++ cells h -> is_Some (h !! o);
  c_used : forall o ob, h !! o = Some ob -> 1 <= t_rc ob \/ o ∈ T;
  c_next : forall o, is_Some (h !! o) -> (o < next)%positive;
  c_rank : exists f : positive -> nat, forall o ob e, h !! o = Some ob -> e ∈ elems (t_val ob) -> (f e < f o)%nat }.
Definition sound (s : tst) : Prop := counted (t_heap s) (t_next s) (outer s) [].

(** What an object says. *)
Definition says_text (s : tst) (o : positive) (t : chars) : Prop := exists r, t_heap s !! o = Some (Tob r (TText t)).
Definition says_list {A} (P : positive -> A -> Prop) (s : tst) (o : positive) (l : list A) : Prop :=
  exists r es, t_heap s !! o = Some (Tob r (TList es)) /\ Forall2 P es l.
Definition says (s : tst) (o : positive) (v : cvalue) : Prop :=
  match v with
  | CText t | CString t => says_text s o t
  | CStrings l => says_list (says_text s) s o l
  | CStringss l => says_list (says_list (says_text s) s) s o l
  end.
Definition said (rep : list chars -> chars) (v : cvalue) : chars :=
  match v with CText t | CString t => t | CStrings l => rep l | CStringss l => rep (map rep l) end.
(** [a] is [t] up to its first NUL. *)
Definition cut_nul (t a : chars) : Prop := 0 ∉ a /\ (t = a \/ exists b, t = a ++ 0 :: b).
(** No String in it is too long for Tcl. *)
Definition short (t : chars) : Prop := zlen t < 2147483647.
Definition fits (v : cvalue) : Prop :=
  match v with CText _ => True | CString t => short t | CStrings l => Forall short l | CStringss l => Forall (Forall short) l end.
(** Objects do not change while they are there, and do not come back. *)
Definition later (s s' : tst) : Prop :=
  (t_next s <= t_next s')%positive /\
  forall o ob', (o < t_next s)%positive -> t_heap s' !! o = Some ob' -> exists ob, t_heap s !! o = Some ob /\ t_val ob' = t_val ob.

(** What a program and its scripts do. *)
Inductive tcall :=
| KFinish (i : Z) (v : option cvalue) | KTraceGet (i : Z) (n : chars) (v : cvalue) | KTraceSet (i : Z) (n : chars)
| KArg (o : positive) | KResult (i : Z)
| KNew (v : tval) | KHold (o : positive) | KRelease (o : positive) | KStore (k : slot) (o : positive) | KClear (k : slot).
Definition kdo (rep : list chars -> chars) (c : tcall) : Mt unit :=
  match c with
  | KFinish i v => finish i v
  | KTraceGet i n v => trace_get rep i n v
  | KTraceSet i n => let* _ := trace_set rep i n in ret tt
  | KArg o => let* _ := argument rep o in ret tt
  | KResult i => let* _ := result rep i in ret tt
  | KNew v => let* _ := hold_new v in ret tt
  | KHold o => hold_again o
  | KRelease o => release o
  | KStore k o => tstore k (Some o)
  | KClear k => clear_slot k
  end.
Fixpoint krun (rep : list chars -> chars) (cs : list tcall) : Mt unit := match cs with [] => ret tt | c :: cs' => kdo rep c ;;; krun rep cs' end.
(** Scripts use only what they hold; values fit. *)
Definition can (s : tst) (c : tcall) : Prop :=
  match c with
  | KFinish _ (Some v) => fits v
  | KTraceGet _ _ v => match v with CString _ => True | _ => fits v end
  | KTraceSet _ n => short n
  | KArg o | KHold o | KRelease o | KStore _ o => o ∈ t_held s
  | KNew v => Forall (fun e => e ∈ t_held s) (elems v)
  | _ => True
  end.
Fixpoint cans (rep : list chars -> chars) (cs : list tcall) (s : tst) : Prop :=
  match cs with
  | [] => True
  | c :: cs' => can s c /\ match kdo rep c s with Ok _ s' => cans rep cs' s' | _ => True end
  end.
