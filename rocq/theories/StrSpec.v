(** What the string algorithms promise, stated on byte lists without reference to the code. *)
From Verif Require Import Base.
Open Scope Z_scope.

Notation chars := (list Z).
Definition bytes (l : chars) : Prop := Forall (fun c => 0 <= c < 256) l.

(** Unsigned lexicographic order, a proper prefix first. *)
Fixpoint lexcmp (a b : chars) : comparison :=
  match a, b with
  | [], [] => Eq
  | [], _ :: _ => Lt
  | _ :: _, [] => Gt
  | x :: a', y :: b' => match x ?= y with Eq => lexcmp a' b' | c => c end
  end.
(** [c] has the sign of an order result. *)
Definition has_sign (c : Z) (o : comparison) : Prop := (c ?= 0) = o.

(** [mdiff] is what memcmp may return for two differing bytes. *)
Definition memcmp_ok (mdiff : Z -> Z -> Z) : Prop :=
  forall x y, 0 <= x < 256 -> 0 <= y < 256 -> (x < y -> mdiff x y < 0) /\ (y < x -> 0 < mdiff x y).

(** Memory holding the C string [t]. *)
Definition cstring (mem t : chars) : Prop := ~ In 0 t /\ exists rest, mem = t ++ 0 :: rest.

(** [w] occurs in [s] at offset [i]; it is the first, the last such offset from [lo] on; there is none. *)
Definition occurs (w s : chars) (i : Z) : Prop := exists pre post, s = pre ++ w ++ post /\ zlen pre = i.
Definition first_occ (w s : chars) (i : Z) : Prop := occurs w s i /\ forall j, occurs w s j -> i <= j.
Definition last_occ (w s : chars) (lo i : Z) : Prop :=
  occurs w s i /\ lo <= i /\ forall j, occurs w s j -> lo <= j -> j <= i.
Definition no_occ (w s : chars) : Prop := forall j, ~ occurs w s j.
Definition prefix_of (p l : chars) : Prop := exists r, l = p ++ r.
Definition suffix_of (p l : chars) : Prop := exists r, l = r ++ p.

(** Leading spaces dropped. *)
Fixpoint skip_spaces (s : chars) : chars :=
  match s with c :: s' => if c =? 32 then skip_spaces s' else s | [] => [] end.
Definition skip (sp : bool) (s : chars) : chars := if sp then skip_spaces s else s.

(** Cutting a string at successive leftmost delimiters; with [sp], spaces before each piece are dropped. *)
Inductive pieces (sp : bool) (delim : chars) : chars -> list chars -> Prop :=
| pieces_end s : skip sp s = [] -> pieces sp delim s []
| pieces_last s : skip sp s <> [] -> no_occ delim (skip sp s) -> pieces sp delim s [skip sp s]
| pieces_cut s a rest ps :
    skip sp s = a ++ delim ++ rest -> first_occ delim (skip sp s) (zlen a) ->
    pieces sp delim rest ps -> pieces sp delim s (a :: ps).
(** The same with at most [k] cuts, then whatever is left as one more piece. *)
Inductive pieces_upto (sp : bool) (delim : chars) : Z -> chars -> list chars -> Prop :=
| upto_stop k s : k <= 0 -> pieces_upto sp delim k s [skip sp s]
| upto_end k s : 0 < k -> skip sp s = [] -> pieces_upto sp delim k s [[]]
| upto_last k s : 0 < k -> skip sp s <> [] -> no_occ delim (skip sp s) -> pieces_upto sp delim k s [skip sp s; []]
| upto_cut k s a rest ps :
    0 < k -> skip sp s = a ++ delim ++ rest -> first_occ delim (skip sp s) (zlen a) ->
    pieces_upto sp delim (k - 1) rest ps -> pieces_upto sp delim k s (a :: ps).

(** Elements with a separator between. *)
Fixpoint intercalate (delim : chars) (l : list chars) : chars :=
  match l with [] => [] | [e] => e | e :: l' => e ++ delim ++ intercalate delim l' end.
Definition quote (e : chars) : chars := 34 :: e ++ [34].
Fixpoint total (l : list chars) : Z := match l with [] => 0 | e :: l' => zlen e + total l' end.

(** Left to right replacement, at most [k] times when a bound is given. *)
Inductive replaced (search repl : chars) : option Z -> chars -> chars -> Prop :=
| replaced_stop k s : k <= 0 -> replaced search repl (Some k) s s
| replaced_none k s : no_occ search s -> replaced search repl k s s
| replaced_hit k s a rest t :
    (forall n, k = Some n -> 0 < n) ->
    s = a ++ search ++ rest -> first_occ search s (zlen a) ->
    replaced search repl (option_map Z.pred k) rest t ->
    replaced search repl k s (a ++ repl ++ t).

Fixpoint repeat_str (s : chars) (n : nat) : chars := match n with O => [] | S m => s ++ repeat_str s m end.
