(** What reading into a String on the heap should do. *)
From Verif Require Import RcaSpec RcaModel RcaMeet AlgModel AlgMeet IsSpec IshModel.
Open Scope Z_scope.

Section Meet.
Variable d : desc Z.
(** The values [a], seen in the state [s]. *)
Definition now (s : state Z) (a : astate Z) : Prop := reached d s a /\ shows s a.
Definition text_val (l : list Z) : aval Z := AVal true (map Some l).
(** [m] makes [x] the string [w], leaves the stream as [i'] and changes nothing else; or it throws bad_alloc, which it does only if
    memory for [w] can be lacking. Then nothing has happened, or [x] holds the beginning [w1] of [w]; the character after that is
    lost, and [left w2] is the stream with what follows it. *)
Definition delivers (m : M (istream * state Z) unit) (i : istream) (s : state Z) (a : astate Z) (x : positive) (w : list Z) (i' : istream)
    (left : list Z -> istream) : Prop :=
  match m (i, s) with
  | Ok _ (j, s') => j = i' /\ now s' (<[x := text_val w]> a)
  | Exn e (j, s') => e = BadAlloc /\ no_memory d (zlen w + 2) /\
      ((j = i /\ now s' a) \/ exists w1 c w2, w = w1 ++ c :: w2 /\ j = left w2 /\ now s' (<[x := text_val w1]> a))
  | Term | Fuel | Undef _ => False
  end.
(** [m] leaves [ws] in new elements, [last] in [x], and the stream as [i']; or it throws bad_alloc, which it does only if the array
    cannot grow or memory for one of the strings can be lacking, and leaves the first of [ws]. *)
Definition gathers (gf : nat -> bool) (el : nat -> positive) (m : M (istream * state Z) nat) (i : istream) (s : state Z) (a : astate Z) (x : positive)
    (ws : list (list Z)) (last : list Z) (i' : istream) : Prop :=
  match m (i, s) with
  | Ok n (j, s') => n = length ws /\ j = i' /\ now s' (with_elems el true 0 ws (<[x := text_val last]> a))
  | Exn e (_, s') => e = BadAlloc /\ ((exists k, gf k = true) \/ exists w, In w (ws ++ [last]) /\ no_memory d (zlen w + 2)) /\
      exists n v, (n <= length ws)%nat /\ now s' (with_elems el true 0 (firstn n ws) (<[x := v]> a))
  | Term | Fuel | Undef _ => False
  end.
End Meet.
