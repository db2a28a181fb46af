(** What it means for an algorithm on the heap to compute a value. *)
From Verif Require Import RcaSpec RcaModel RcaExec RcaInv RcaOwn RcaRel RcaMeet.
Open Scope Z_scope.

Section Meet.
Context (d : desc Z).

(** [m] returns [v] and leaves exactly the values [a']; or it throws bad_alloc, which it does only if [C], and
    leaves exactly the values [a]. *)
Definition makes {A} (C : Prop) (m : M (state Z) A) (s : state Z) (a a' : astate Z) (v : A) : Prop :=
  match m s with
  | Ok v' s' => v' = v /\ reached d s' a' /\ shows s' a'
  | Exn e s' => e = BadAlloc /\ C /\ reached d s' a /\ shows s' a
  | Term | Fuel | Undef _ => False
  end.
(** [m] returns [v], without ever failing. *)
Definition gives {A} (m : M (state Z) A) (s : state Z) (a' : astate Z) (v : A) : Prop :=
  exists s', m s = Ok v s' /\ reached d s' a' /\ shows s' a'.
(** A String with characters [l]; whether there is room for a terminator is not said. *)
Definition is_str (a : astate Z) (x : positive) (l : list Z) : Prop := exists r, a !! x = Some (AVal r (map Some l)).
Definition unused (a : astate Z) (xs : list positive) : Prop := NoDup xs /\ Forall (fun x => a !! x = None) xs.
(** The elements of an array of Strings: the [i]-th, from [k] on, is [el i]. *)
Fixpoint with_elems (el : nat -> positive) (r : bool) (k : nat) (ps : list (list Z)) (a : astate Z) : astate Z :=
  match ps with [] => a | p :: ps' => <[el k := AVal r (map Some p)]> (with_elems el r (S k) ps' a) end.
(** [w] written over [v] from [start] on. *)
Definition over (v : list Z) (start : Z) (w : list Z) : list Z := ztake start v ++ w ++ zdrop (start + zlen w) v.
(** [m] makes [x] the string [new] and changes nothing else but [y]; or it throws bad_alloc, which it does only if [C];
    then [x] is what it was or is empty, and nothing else is changed. *)
Definition writes {A} (C : Prop) (m : M (state Z) A) (s : state Z) (a : astate Z) (x : positive) (old new : list Z) (y : option positive) : Prop :=
  match m s with
  | Ok _ s' => exists a', reached d s' a' /\ shows s' a' /\ is_str a' x new /\ (forall z, z <> x -> y <> Some z -> a' !! z = a !! z) /\
      forall z, y = Some z -> is_Some (a' !! z)
  | Exn e s' => e = BadAlloc /\ C /\ exists a', reached d s' a' /\ shows s' a' /\ (is_str a' x old \/ is_str a' x []) /\ forall z, z <> x -> a' !! z = a !! z
  | Term | Fuel | Undef _ => False
  end.
End Meet.
