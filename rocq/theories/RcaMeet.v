(** What it means for the code to implement the specification of RcaSpec. *)
From Verif Require Import RcaSpec RcaModel RcaExec RcaInv RcaOwn RcaRel.
Open Scope Z_scope.

Section Meet.
Context {T : Type} (d : desc T).
Implicit Types (s : state T) (a : astate T) (o : op T) (x : var).

Definition step o a : option (sres T) := spec_step (d_class d) (d_eqb d) (d_hash d) (d_nul d) o a.

(** Results agree; unspecified elements may have any value. *)
Definition out_le (o1 o2 : out T) : Prop :=
  match o1, o2 with
  | OMem m1, OMem m2 => vle m1 m2
  | _, _ => o1 = o2
  end.

(** The variable on whose behalf an operation may allocate. *)
Definition subject o : option var :=
  match o with
  | CtorSized x _ | CtorFill x _ _ | CtorList x _ | CtorRange x _ | CtorCstr x _ | CtorCstrLen x _ _
  | CtorChar x _ | ReserveIfOwn x _ | CStr _ x => Some x
  | _ => target o
  end.
(** An upper bound for the number of elements it asks for. *)
Definition vlen a x : Z := match a !! x with Some (AVal _ v) => zlen v | _ => 0 end.
Definition asks o a' x : Z :=
  match o with CtorSized _ n | ReserveIfOwn _ n => n + 1 | _ => vlen a' x + 2 end.

(** Allocation of so many elements can fail: the allocator refuses, or the (grown) size is absurd. *)
Definition no_memory (n : Z) : Prop := starves d (d_grow d) n.

Definition meets o s a (r : res (state T) (out T)) : Prop :=
  match step o a with
  | None => True
  | Some SRange => r = Exn OutOfRange s
  | Some (SRet a' v) =>
    match r with
    | Ok v' s' => R d s' a' /\ out_le v v'
    | Exn e s' =>
      e = BadAlloc /\ exists x, subject o = Some x /\ no_memory (asks o a' x) /\
      ((discards o = false /\ R d s' a) \/
       (target o = Some x /\ (discards o = true \/ is_shared x s = Ok true s) /\
        R d s' (<[x := AVal true []]> a)))
    | Term => exists g x, o = CStr g x /\ no_memory (asks o a' x)
    | Fuel => False
    | Undef _ => False
    end
  end.

(** Observations of a whole program: a sequence of calls, exceptions being caught by the caller. *)
Inductive obs := ORet (v : out T) | OThrow (e : exn) | OTerm | OFuel | OUndef (u : ub).
Fixpoint observe (ops : list (op T)) s : list obs :=
  match ops with
  | [] => []
  | o :: ops' =>
    match exec d o s with
    | Ok v s' => ORet v :: observe ops' s'
    | Exn e s' => OThrow e :: observe ops' s'
    | Term => [OTerm]
    | Fuel => [OFuel]
    | Undef u => [OUndef u]
    end
  end.
(** Observations the specification allows, starting from values [a]. *)
Inductive allows : astate T -> list (op T) -> list obs -> Prop :=
| al_nil a : allows a [] []
| al_misuse a o ops tr : step o a = None -> allows a (o :: ops) tr
| al_ret a o ops a' v v' tr :
    step o a = Some (SRet a' v) -> out_le v v' -> allows a' ops tr -> allows a (o :: ops) (ORet v' :: tr)
| al_range a o ops tr :
    step o a = Some SRange -> allows a ops tr -> allows a (o :: ops) (OThrow OutOfRange :: tr)
| al_oom_keep a o ops a' v x tr :
    step o a = Some (SRet a' v) -> subject o = Some x -> no_memory (asks o a' x) ->
    allows a ops tr -> allows a (o :: ops) (OThrow BadAlloc :: tr)
| al_oom_empty a o ops a' v x tr :
    step o a = Some (SRet a' v) -> target o = Some x -> no_memory (asks o a' x) ->
    allows (<[x := AVal true []]> a) ops tr -> allows a (o :: ops) (OThrow BadAlloc :: tr)
| al_term a g x ops a' v :
    step (CStr g x) a = Some (SRet a' v) -> no_memory (asks (CStr g x) a' x) ->
    allows a (CStr g x :: ops) [OTerm].

(** States a program can reach when it respects the preconditions, with the values predicted for them.
    After a failed allocation the prediction is that the target kept its value or became empty. *)
Inductive reached : state T -> astate T -> Prop :=
| re_init : reached st_init ∅
| re_ret s a o a' v v' s' :
    reached s a -> step o a = Some (SRet a' v) -> exec d o s = Ok v' s' -> reached s' a'
| re_range s a o s' :
    reached s a -> step o a = Some SRange -> exec d o s = Exn OutOfRange s' -> reached s' a
| re_oom_kept s a o a' v x s' :
    reached s a -> step o a = Some (SRet a' v) -> exec d o s = Exn BadAlloc s' ->
    subject o = Some x -> target o = None \/ length_of x s' <> Ok 0 s' \/ (exists r, a !! x = Some (AVal r [])) -> reached s' a
| re_oom_emptied s a o a' v x s' :
    reached s a -> step o a = Some (SRet a' v) -> exec d o s = Exn BadAlloc s' ->
    target o = Some x -> length_of x s' = Ok 0 s' -> reached s' (<[x := AVal true []]> a).

(** The observable content of a state: every live object has the predicted length and elements. *)
Definition shows s a : Prop := forall x r v, a !! x = Some (AVal r v) ->
  length_of x s = Ok (zlen v) s /\
  forall i e, znth i v = Some (Some e) -> read x i s = Ok e s.

(** The call ends with bad_alloc although it was legitimate: memory can run out at the size in question,
    and every object keeps its value except that a target that was shared (or that the operation was
    assigning to) may have become empty. *)
Definition out_of_memory o s a a' : Prop :=
  exists s' x, exec d o s = Exn BadAlloc s' /\ subject o = Some x /\ no_memory (asks o a' x) /\
  exists a'', reached s' a'' /\ shows s' a'' /\
    (a'' = a \/ (target o = Some x /\ (discards o = true \/ is_shared x s = Ok true s) /\
                a'' = <[x := AVal true []]> a)).
(** The call returns [v] and leaves exactly the values [a'], or runs out of memory. *)
Definition yields o s a a' (v : out T) : Prop :=
  (exists s' v', exec d o s = Ok v' s' /\ out_le v v' /\ reached s' a' /\ shows s' a') \/ out_of_memory o s a a'.
(** The same for calls that do not allocate. *)
Definition returns o s a' (v : out T) : Prop :=
  exists s', exec d o s = Ok v s' /\ reached s' a' /\ shows s' a'.

(** Following a program and its specification together; used to exhibit reached states. *)
Definition track1 o (p : state T * astate T) : option (state T * astate T) :=
  let '(s, a) := p in
  match step o a, exec d o s with
  | Some (SRet a' _), Ok _ s' => Some (s', a')
  | Some SRange, Exn OutOfRange s' => Some (s', a)
  | Some (SRet _ _), Exn BadAlloc s' =>
    match subject o with
    | Some x => match target o, length_of x s' with
                | Some _, Ok n _ => if n =? 0 then Some (s', <[x := AVal true []]> a) else Some (s', a)
                | _, _ => Some (s', a)
                end
    | None => None
    end
  | _, _ => None
  end.
Fixpoint track (ops : list (op T)) (p : state T * astate T) : option (state T * astate T) :=
  match ops with [] => Some p | o :: ops' => match track1 o p with Some p' => track ops' p' | None => None end end.
End Meet.
Arguments obs : clear implicits.
Arguments ORet {T}. Arguments OThrow {T}. Arguments OTerm {T}. Arguments OFuel {T}. Arguments OUndef {T}.
