(** What going out and coming back should do. *)
From Verif Require Import RcaSpec RcaModel RcaMeet AlgMeet.
Open Scope Z_scope.

(** [m] makes [r] the string [w]; or it throws bad_alloc and changes nothing, which it does only if [C]; or it ends the program,
    only if [D]. *)
Definition makes_or_ends (d : desc Z) (C D : Prop) (m : M (state Z) unit) (s : state Z) (a : astate Z) (r : positive) (w : list Z) : Prop :=
  match m s with
  | Ok _ s' => reached d s' (<[r := AVal true (map Some w)]> a) /\ shows s' (<[r := AVal true (map Some w)]> a)
  | Exn e s' => e = BadAlloc /\ C /\ reached d s' a /\ shows s' a
  | Term => D
  | Fuel | Undef _ => False
  end.
