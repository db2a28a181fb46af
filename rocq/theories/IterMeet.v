(** How a call of an algorithm that writes the range of one array may end. *)
From stdpp Require Import gmap.
From Verif Require Import RcaSpec RcaModel RcaExec RcaMeet.
Open Scope Z_scope.
Section Meet.
Context {T A : Type} (d : desc T).
(** With the result and the new value of [x], every other array as it was; or begin() ran out of memory before anything was
    written, [x] being unchanged, or empty if its buffer was shared. *)
Definition ends (s : state T) (a : astate T) x (v : list (option T)) (m : M (state T) A) (res : A) (v' : list (option T)) : Prop :=
  (exists s', m s = Ok res s' /\ reached d s' (<[x := AVal true v']> a) /\ shows s' (<[x := AVal true v']> a)) \/
  (exists s', m s = Exn BadAlloc s' /\ exec d (BeginMut x) s = Exn BadAlloc s' /\ out_of_memory d (BeginMut x) s a (<[x := AVal true v]> a)).
End Meet.
