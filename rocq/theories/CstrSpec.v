(** C strings in flat memory. *)
From stdpp Require Import gmap.
From Verif Require Import Base StrSpec.
Open Scope Z_scope.

(** The bytes [l] stand at [p]. *)
Definition stands (m : gmap Z Z) (p : Z) (l : chars) : Prop := forall i c, znth i l = Some c -> m !! (p + i) = Some c.
(** [s] is the C string at [p]. *)
Definition cstr (m : gmap Z Z) (p : Z) (s : chars) : Prop := stands m p (s ++ [0]) /\ ~ In 0 s.
(** [n] bytes from [p] on may be accessed. *)
Definition mapped (m : gmap Z Z) (p n : Z) : Prop := forall a, p <= a < p + n -> is_Some (m !! a).
Definition apart (a n b k : Z) : Prop := a + n <= b \/ b + k <= a.
(** [m'] is [m] with [l] stored at [p] and nothing else changed. *)
Definition stored (m : gmap Z Z) (p : Z) (l : chars) (m' : gmap Z Z) : Prop :=
  forall a, m' !! a = if (p <=? a) && (a <? p + zlen l) then znth (a - p) l else m !! a.
(** An allocator picks unmapped memory. *)
Definition allocator (alloc : gmap Z Z -> Z -> option Z) : Prop :=
  forall m n a, alloc m n = Some a -> forall b, a <= b < a + n -> m !! b = None.
(** [m'] is [m] without the [k] bytes at [p]. *)
Definition unmapped (m : gmap Z Z) (p k : Z) (m' : gmap Z Z) : Prop :=
  forall a, m' !! a = if (p <=? a) && (a <? p + k) then None else m !! a.
