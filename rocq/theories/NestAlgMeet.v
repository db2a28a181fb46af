(** What it means for an algorithm on arrays of Strings to compute a value. *)
From stdpp Require Import gmap.
From Verif Require Import RcaSpec RcaModel RcaOwn RcaMeet NestModel NestMeet.
Open Scope Z_scope.

Section Meet.
Variable d : desc Z.
Variable od : desc positive.
(** [m] returns [v] and leaves exactly the arrays [A'] and the Strings [b']; or it throws bad_alloc, which it does only if
    [C], and leaves exactly the arrays [A] and the Strings [b]. *)
Definition nmakes {X} (C : Prop) (m : M nstate X) (s : nstate) (A : arrs) (b : astate Z) (A' : arrs) (b' : astate Z) (v : X) : Prop :=
  match m s with
  | Ok v' s' => v' = v /\ nreached d od s' A' b' /\ nshows s' A' b'
  | Exn e s' => e = BadAlloc /\ C /\ nreached d od s' A b /\ nshows s' A b
  | Term | Fuel | Undef _ => False
  end.
End Meet.
(** An array of the texts [ps]. *)
Definition nvals (r : bool) (ps : list (list Z)) : list sval := map (fun p => (r, map Some p)) ps.
(** The array [x] has the texts [ps]; whether there is room for terminators is not said. *)
Definition has_texts (A : arrs) (x : positive) (ps : list (list Z)) : Prop :=
  exists vs, elems A x = Some vs /\ Forall2 (fun v p => snd v = map Some p) vs ps.
