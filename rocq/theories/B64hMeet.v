(** What recoding a String into a new one should do. *)
From Verif Require Import RcaSpec RcaModel RcaMeet AlgMeet.
Open Scope Z_scope.

(** [m] makes [r] the string [w], changes nothing else and frees what it mallocs; or it throws bad_alloc, which it does only
    if [C]; then no String is changed, and the block is not freed. *)
Definition recodes (d : desc Z) (C : Prop) (m : M (Z * state Z) unit) (n : Z) (s : state Z) (a : astate Z) (r : positive) (w : list Z) : Prop :=
  match m (n, s) with
  | Ok _ (n', s') => n' = n /\ reached d s' (<[r := AVal true (map Some w)]> a) /\ shows s' (<[r := AVal true (map Some w)]> a)
  | Exn e (n', s') => e = BadAlloc /\ C /\ n' = n + 1 /\ reached d s' a /\ shows s' a
  | Term | Fuel | Undef _ => False
  end.
