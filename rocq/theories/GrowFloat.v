(** size_t(size * scaling_factor) with scaling_factor = 1.5 in binary64, ReferenceCountedArray.h:81 and 225. *)
From Coq Require Import ZArith Reals Lia Lra.
From Flocq Require Import Core.
Open Scope Z_scope.

(** Round to nearest, ties to even, to a double. *)
Definition rnd64 (r : R) : R := round radix2 (FLT_exp (-1074) 53) ZnearestE r.
(** The size converted to double, multiplied, truncated. *)
Definition scaled (size : Z) : Z := Ztrunc (rnd64 (rnd64 (IZR size) * (3 / 2))).

Lemma format_int m e : Z.abs m < 2 ^ 53 -> -1074 <= e -> generic_format radix2 (FLT_exp (-1074) 53) (F2R (Float radix2 m e)).
Proof. intros M E. apply generic_format_FLT. exists (Float radix2 m e); [reflexivity|exact M|exact E]. Qed.
Lemma F2R_int m : F2R (Float radix2 m 0) = IZR m.
Proof. unfold F2R. cbn. lra. Qed.
Lemma F2R_half m : F2R (Float radix2 m (-1)) = (IZR m / 2)%R.
Proof. unfold F2R. cbn. lra. Qed.
Lemma scaled_exact size : 0 <= size -> 3 * size < 2 ^ 53 -> scaled size = size + size / 2.
Proof.
  intros A B. unfold scaled, rnd64. rewrite (round_generic _ _ ZnearestE (IZR size)).
  2: { rewrite <- F2R_int. apply format_int; lia. }
  replace (IZR size * (3 / 2))%R with (F2R (Float radix2 (3 * size) (-1))) by (rewrite F2R_half, mult_IZR; lra).
  rewrite round_generic; [|apply valid_rnd_N|apply format_int; lia]. rewrite F2R_half.
  assert (0 <= IZR (3 * size) / 2)%R as P by (apply (IZR_le 0) in A; rewrite mult_IZR; lra).
  rewrite Ztrunc_floor by exact P. apply Zfloor_imp. rewrite plus_IZR.
  pose proof (Z.div_mod (3 * size) 2 ltac:(lia)) as D. pose proof (Z.mod_pos_bound (3 * size) 2 ltac:(lia)) as Bd.
  pose proof (Z.div_mod size 2 ltac:(lia)) as D2. pose proof (Z.mod_pos_bound size 2 ltac:(lia)) as Bd2.
  rewrite <- plus_IZR. assert (size + size / 2 = 3 * size / 2) as -> by lia.
  assert (IZR (3 * size) = 2 * IZR (3 * size / 2) + IZR ((3 * size) mod 2))%R as Q by (rewrite <- mult_IZR, <- plus_IZR; f_equal; exact D).
  assert (0 <= IZR ((3 * size) mod 2) <= 1)%R as [Q1 Q2] by (split; apply IZR_le; lia). rewrite plus_IZR. lra.
Qed.
