(** Algorithms over ranges, as the standard library has them: they learn the lengths of their ranges and then read and
    write elements until they are done. What they do to plain lists. *)
From stdpp Require Import gmap.
From Verif Require Import ZList RcaSpec.
Open Scope Z_scope.

Section Iter.
Context {T A : Type}.
(** [Get k i]: read the [i]-th element of the [k]-th range that is only read. [Own i]: read the [i]-th element of the range
    that may be written, [Put i v]: write it. *)
Inductive alg := Done (v : A) | Get (k : nat) (i : Z) (f : T -> alg) | Own (i : Z) (f : T -> alg) | Put (i : Z) (v : T) (p : alg).
(** On lists: the result and the list as it was left; None: an index outside its range, or an element nobody has set. *)
Fixpoint on_lists (ws : list (list (option T))) (v : list (option T)) (p : alg) : option (A * list (option T)) :=
  match p with
  | Done r => Some (r, v)
  | Get k i f =>
    match nth_error ws k with
    | Some w => match znth i w with Some (Some e) => on_lists ws v (f e) | _ => None end
    | None => None
    end
  | Own i f => match znth i v with Some (Some e) => on_lists ws v (f e) | _ => None end
  | Put i e q => if (0 <=? i) && (i <? zlen v) then on_lists ws (sp_over v i [Some e]) q else None
  end.
(** A range traversed backwards is the reversed list. *)
Definition turn {B} (b : bool) (v : list B) : list B := if b then rev v else v.
(** What the ranges of the arrays [ys] (backwards if marked) show, the arrays having the values [a]. *)
Definition shown (a : astate T) (ys : list (positive * bool)) (ws : list (list (option T))) : Prop :=
  Forall2 (fun y w => exists r v, a !! fst y = Some (AVal r v) /\ w = turn (snd y) v) ys ws.
End Iter.
Arguments alg : clear implicits.

(** Some algorithms: reading a range from first to last; std::transform in place; std::copy of the first range read. *)
Section Algs.
Context {T : Type}.
Fixpoint collect (n : nat) (i : Z) (acc : list T) : alg T (list T) :=
  match n with O => Done (rev acc) | S n' => Get 0 i (fun e => collect n' (i + 1) (e :: acc)) end.
Fixpoint transform (f : T -> T) (n : nat) (i : Z) : alg T unit :=
  match n with O => Done tt | S n' => Own i (fun e => Put i (f e) (transform f n' (i + 1))) end.
Fixpoint copy (n : nat) (i : Z) : alg T unit :=
  match n with O => Done tt | S n' => Get 0 i (fun e => Put i e (copy n' (i + 1))) end.
(** Sorting by exchanging neighbours. *)
Fixpoint sift (le : T -> T -> bool) (j : nat) (k : alg T unit) : alg T unit :=
  match j with
  | O => k
  | S j' => Own (Z.of_nat j') (fun a => Own (Z.of_nat j) (fun b => if le a b then k else Put (Z.of_nat j') b (Put (Z.of_nat j) a (sift le j' k))))
  end.
Fixpoint sort_from (le : T -> T -> bool) (n : nat) (j : nat) : alg T unit :=
  match n with O => Done tt | S n' => sift le j (sort_from le n' (S j)) end.
End Algs.

(** Algorithms that also move: [MTake i] is std::move( *(first + i)), after which the element is valid but unspecified
    until it is written again. *)
Section Moving.
Context {T A : Type}.
Inductive malg := MDone (v : A) | MGet (k : nat) (i : Z) (f : T -> malg) | MOwn (i : Z) (f : T -> malg) | MTake (i : Z) (f : T -> malg) | MPut (i : Z) (v : T) (p : malg).
Fixpoint on_mlists (ws : list (list (option T))) (v : list (option T)) (p : malg) : option (A * list (option T)) :=
  match p with
  | MDone r => Some (r, v)
  | MGet k i f =>
    match nth_error ws k with
    | Some w => match znth i w with Some (Some e) => on_mlists ws v (f e) | _ => None end
    | None => None
    end
  | MOwn i f => match znth i v with Some (Some e) => on_mlists ws v (f e) | _ => None end
  | MTake i f => match znth i v with Some (Some e) => on_mlists ws (sp_over v i [None]) (f e) | _ => None end
  | MPut i e q => if (0 <=? i) && (i <? zlen v) then on_mlists ws (sp_over v i [Some e]) q else None
  end.
End Moving.
Arguments malg : clear implicits.

(** Sorting by insertion, the element in hand moved out and in, as std::sort does it. *)
Section MAlgs.
Context {T : Type}.
Fixpoint hole (le : T -> T -> bool) (e : T) (j : nat) (k : malg T unit) : malg T unit :=
  match j with
  | O => MPut 0 e k
  | S j' => MOwn (Z.of_nat j') (fun a => if le a e then MPut (Z.of_nat j) e k else MTake (Z.of_nat j') (fun a => MPut (Z.of_nat j) a (hole le e j' k)))
  end.
Fixpoint msort_from (le : T -> T -> bool) (n : nat) (j : nat) : malg T unit :=
  match n with O => MDone tt | S n' => MTake (Z.of_nat j) (fun e => hole le e j (msort_from le n' (S j))) end.
End MAlgs.
