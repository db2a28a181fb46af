(** String comparison computes the lexicographic order. *)
From Coq Require Import Lia.
From Verif Require Import Base RcaSpec StrModel StrSpec.
Open Scope Z_scope.
Ltac zl1 l := lazymatch goal with H : 0 <= zlen l |- _ => fail | _ => let Z0 := fresh "Zlen" in pose proof (zlen_nonneg l) as Z0 end.
Ltac zl := repeat match goal with |- context [zlen ?l] => zl1 l | _ : context [zlen ?l] |- _ => zl1 l end.

(** The order itself. *)
Lemma lexcmp_refl a : lexcmp a a = Eq.
Proof. induction a as [|x a IH]; cbn; [reflexivity|rewrite Z.compare_refl; exact IH]. Qed.
Lemma lexcmp_eq a : forall b, lexcmp a b = Eq -> a = b.
Proof.
  induction a as [|x a IH]; intros [|y b]; cbn; try discriminate; [reflexivity|].
  destruct (Z.compare_spec x y) as [->| |]; try discriminate. intros H; rewrite (IH _ H); reflexivity.
Qed.
Lemma lexcmp_antisym a : forall b, lexcmp b a = CompOpp (lexcmp a b).
Proof.
  induction a as [|x a IH]; intros [|y b]; cbn; try reflexivity.
  rewrite (Z.compare_antisym x y). destruct (x ?= y); cbn; auto.
Qed.
Lemma lexcmp_trans a : forall b c, lexcmp a b = Lt -> lexcmp b c = Lt -> lexcmp a c = Lt.
Proof.
  induction a as [|x a IH]; intros [|y b] [|z c]; cbn; try discriminate; try reflexivity.
  destruct (Z.compare_spec x y), (Z.compare_spec y z), (Z.compare_spec x z);
    try discriminate; try (exfalso; lia); try reflexivity; eauto.
Qed.

Lemma ztake_cons {A} n (x : A) l : 0 < n -> ztake n (x :: l) = x :: ztake (n - 1) l.
Proof. intros H. unfold ztake. replace (Z.to_nat n) with (S (Z.to_nat (n - 1))) by lia. reflexivity. Qed.
Lemma zdrop_cons {A} n (x : A) l : 0 < n -> zdrop n (x :: l) = zdrop (n - 1) l.
Proof. intros H. unfold zdrop. replace (Z.to_nat n) with (S (Z.to_nat (n - 1))) by lia. reflexivity. Qed.
Lemma i32_u64_id d : Z.abs d < W31 -> i32 (u64 d) = d.
Proof. unfold i32, u64, W31, W32, W64. lia. Qed.
(** memcmp over a common length. *)
Lemma bytes_ztake n a : bytes a -> bytes (ztake n a).
Proof.
  unfold bytes, ztake. intros H. revert a H. induction (Z.to_nat n) as [|m IH]; intros [|x a] H; cbn; constructor; inversion H; auto.
Qed.
Lemma bytes_cons x a : bytes (x :: a) -> 0 <= x < 256 /\ bytes a.
Proof. intros H; inversion H; auto. Qed.

Section Cmp.
Variable mdiff : Z -> Z -> Z.
Hypothesis Hm : memcmp_ok mdiff.

Lemma first_diff_sign a : forall b, bytes a -> bytes b -> length a = length b ->
  has_sign (first_diff mdiff a b) (lexcmp a b).
Proof.
  induction a as [|x a IH]; intros [|y b] Ba Bb L; try discriminate; [reflexivity|].
  apply bytes_cons in Ba as [Hx Ba]. apply bytes_cons in Bb as [Hy Bb]. cbn.
  destruct (Z.eqb_spec x y) as [->|N].
  - rewrite Z.compare_refl. apply IH; auto.
  - destruct (Hm x y Hx Hy) as [H1 H2]. unfold has_sign.
    destruct (Z.compare_spec x y); try lia.
    + apply Z.compare_lt_iff. lia.
    + apply Z.compare_gt_iff. lia.
Qed.
(** The order is decided by the common part or else by the lengths. *)
Lemma lexcmp_common a : forall b,
  lexcmp a b = match lexcmp (ztake (Z.min (zlen a) (zlen b)) a) (ztake (Z.min (zlen a) (zlen b)) b) with
               | Eq => zlen a ?= zlen b | c => c end.
Proof.
  induction a as [|x a IH]; intros [|y b].
  - reflexivity.
  - rewrite zlen_cons. zl. rewrite zlen_nil, Z.min_l by lia. rewrite !ztake_0 by lia. cbn [lexcmp]. symmetry. apply Z.compare_lt_iff. lia.
  - rewrite zlen_cons. zl. rewrite zlen_nil, Z.min_r by lia. rewrite !ztake_0 by lia. cbn [lexcmp]. symmetry. apply Z.compare_gt_iff. lia.
  - rewrite !zlen_cons. zl. replace (Z.min _ _) with (1 + Z.min (zlen a) (zlen b)) by lia.
    rewrite !ztake_cons by lia. rewrite Z.add_simpl_l. cbn [lexcmp].
    rewrite Zcompare_plus_compat.
    destruct (x ?= y); try reflexivity. apply IH.
Qed.
Lemma bind_ret {A B} (x : A) (k : A -> Mv B) : bind (ret x) k tt = k x tt.
Proof. reflexivity. Qed.
Lemma length_ztake_eq (a b : chars) n : n <= zlen a -> n <= zlen b -> length (ztake n a) = length (ztake n b).
Proof. unfold ztake, zlen. rewrite !firstn_length. lia. Qed.
Lemma has_sign_nz c o : has_sign c o -> c <> 0 -> has_sign c o /\ o <> Eq.
Proof. intros H N; split; [exact H|]. intros ->. apply Z.compare_eq_iff in H. lia. Qed.

Lemma compare_spec same a b :
  bytes a -> bytes b -> (same = true -> zlen a = zlen b -> a = b) ->
  zlen a < W63 -> zlen b < W63 -> Z.abs (zlen a - zlen b) < W31 ->
  exists c, compare mdiff same a b tt = Ok c tt /\ has_sign c (lexcmp a b).
Proof.
  intros Ba Bb S La Lb D. zl. unfold compare.
  destruct (same && (zlen a =? zlen b)) eqn:E.
  - apply andb_prop in E as [E1 E2]. rewrite (S E1) by lia. exists 0. split; [reflexivity|].
    unfold has_sign. rewrite lexcmp_refl. reflexivity.
  - clear E. cbv zeta. unfold memcmp at 1.
    replace (_ && _) with true by (symmetry; apply andb_true_intro; lia).
    rewrite bind_ret.
    pose proof (first_diff_sign (ztake (Z.min (zlen a) (zlen b)) a) (ztake (Z.min (zlen a) (zlen b)) b)
                  (bytes_ztake _ _ Ba) (bytes_ztake _ _ Bb) (length_ztake_eq _ _ _ (Z.le_min_l _ _) (Z.le_min_r _ _))) as F.
    rewrite lexcmp_common.
    destruct (Z.eqb_spec (first_diff mdiff (ztake (Z.min (zlen a) (zlen b)) a) (ztake (Z.min (zlen a) (zlen b)) b)) 0) as [F0|F0]; cbn [negb].
    + rewrite F0 in F. unfold has_sign in F. cbn in F. rewrite <- F. eexists; split; [reflexivity|].
      assert (i32 (u64 (zlen a - zlen b)) = zlen a - zlen b) as ->.
      { apply i32_u64_id; exact D. }
      unfold has_sign. rewrite <- Z.compare_sub. reflexivity.
    + apply has_sign_nz in F as [F N]; [|exact F0]. eexists; split; [reflexivity|]. unfold has_sign in *.
      rewrite F. destruct (lexcmp _ _); [contradiction|reflexivity|reflexivity].
Qed.
(** Whatever the lengths: zero exactly for equal strings, given equal lengths. *)
Lemma op_eq_spec same a b :
  bytes a -> bytes b -> (same = true -> zlen a = zlen b -> a = b) -> zlen a < W63 -> zlen b < W63 ->
  exists r, op_eq mdiff same a b tt = Ok r tt /\ (r = true <-> a = b).
Proof.
  intros Ba Bb S La Lb. unfold op_eq. destruct (Z.eqb_spec (zlen a) (zlen b)) as [E|E]; cbn [negb].
  - destruct (compare_spec same a b) as (c & C1 & C2); auto. { unfold W31; lia. }
    unfold bind at 1. rewrite C1. eexists; split; [reflexivity|]. rewrite Z.eqb_eq. unfold has_sign in C2. split.
    + intros ->. apply lexcmp_eq. rewrite <- C2. reflexivity.
    + intros ->. rewrite lexcmp_refl in C2. apply Z.compare_eq_iff in C2. exact C2.
  - eexists; split; [reflexivity|]. split; [discriminate|]. intros ->. contradiction.
Qed.

(** With a bound. *)
Lemma compare_n_spec same a b n :
  bytes a -> bytes b -> (same = true -> zlen a = zlen b -> a = b) ->
  zlen a < W63 -> zlen b < W63 -> 0 <= n < W64 -> Z.abs (Z.min n (zlen a) - Z.min n (zlen b)) < W31 ->
  exists c, compare_n mdiff same a b n tt = Ok c tt /\ has_sign c (lexcmp (ztake n a) (ztake n b)).
Proof.
  intros Ba Bb S La Lb Hn D. zl. unfold compare_n.
  destruct (Z.eqb_spec n 0) as [->|N0]. { exists 0. split; reflexivity. }
  destruct (same && (zlen a =? zlen b)) eqn:E.
  - apply andb_prop in E as [E1 E2]. rewrite (S E1) by lia. exists 0. split; [reflexivity|].
    unfold has_sign. rewrite lexcmp_refl. reflexivity.
  - clear E. cbv zeta.
    assert (forall l : chars, zlen (ztake n l) = Z.min n (zlen l)) as Lt by (intros l; rewrite zlen_ztake; lia).
    unfold memcmp at 1.
    replace (_ && _) with true by (symmetry; apply andb_true_intro; lia).
    rewrite bind_ret, lexcmp_common, !Lt.
    set (m := Z.min (Z.min n (zlen a)) (Z.min n (zlen b))).
    replace (Z.min (zlen a) (Z.min (zlen b) n)) with m by lia.
    assert (forall l : chars, ztake m (ztake n l) = ztake m l) as Tm.
    { intros l. unfold ztake. rewrite firstn_firstn. f_equal. lia. }
    rewrite !Tm.
    pose proof (first_diff_sign (ztake m a) (ztake m b)
                  (bytes_ztake _ _ Ba) (bytes_ztake _ _ Bb) (length_ztake_eq a b m ltac:(lia) ltac:(lia))) as F.
    destruct (Z.eqb_spec (first_diff mdiff (ztake m a) (ztake m b)) 0) as [F0|F0]; cbn [negb].
    + rewrite F0 in F. unfold has_sign in F. cbn in F. rewrite <- F. eexists; split; [reflexivity|].
      assert (i32 (u64 (Z.min (zlen a) n - Z.min (zlen b) n)) = Z.min n (zlen a) - Z.min n (zlen b)) as ->.
      { rewrite (Z.min_comm (zlen a)), (Z.min_comm (zlen b)). apply i32_u64_id; exact D. }
      unfold has_sign. rewrite <- Z.compare_sub. reflexivity.
    + apply has_sign_nz in F as [F N]; [|exact F0]. eexists; split; [reflexivity|]. unfold has_sign in *.
      rewrite F. destruct (lexcmp _ _); [contradiction|reflexivity|reflexivity].
Qed.

(** All operators agree with the order. *)
Definition lexlt a b := match lexcmp a b with Lt => true | _ => false end.
Lemma op_lt_spec same a b :
  bytes a -> bytes b -> (same = true -> zlen a = zlen b -> a = b) ->
  zlen a < W63 -> zlen b < W63 -> Z.abs (zlen a - zlen b) < W31 ->
  op_lt mdiff same a b tt = Ok (lexlt a b) tt.
Proof.
  intros Ba Bb S La Lb D. destruct (compare_spec same a b) as (c & C1 & C2); auto.
  unfold op_lt, bind. rewrite C1. unfold ret, lexlt. unfold has_sign in C2. rewrite <- C2. unfold Z.ltb. destruct (c ?= 0); reflexivity.
Qed.
Lemma operators_spec same a b :
  bytes a -> bytes b -> (same = true -> zlen a = zlen b -> a = b) ->
  zlen a < W63 -> zlen b < W63 -> Z.abs (zlen a - zlen b) < W31 ->
  op_lt mdiff same a b tt = Ok (match lexcmp a b with Lt => true | _ => false end) tt /\
  op_le mdiff same a b tt = Ok (match lexcmp a b with Gt => false | _ => true end) tt /\
  op_gt mdiff same a b tt = Ok (match lexcmp a b with Gt => true | _ => false end) tt /\
  op_ge mdiff same a b tt = Ok (match lexcmp a b with Lt => false | _ => true end) tt /\
  op_eq mdiff same a b tt = Ok (match lexcmp a b with Eq => true | _ => false end) tt /\
  op_ne mdiff same a b tt = Ok (match lexcmp a b with Eq => false | _ => true end) tt.
Proof.
  intros Ba Bb S La Lb D.
  pose proof (op_lt_spec same a b Ba Bb S La Lb D) as O1.
  pose proof (op_lt_spec same b a Bb Ba) as O2.
  assert (op_lt mdiff same b a tt = Ok (match lexcmp a b with Gt => true | _ => false end) tt) as O3.
  { rewrite O2 by (auto; try lia; intros; symmetry; apply S; auto). unfold lexlt. rewrite lexcmp_antisym. destruct (lexcmp a b); reflexivity. }
  unfold lexlt in O1. destruct (op_eq_spec same a b) as (r & E1 & E2); auto.
  assert (r = match lexcmp a b with Eq => true | _ => false end) as Er.
  { destruct (lexcmp a b) eqn:C.
    - apply E2. apply lexcmp_eq; exact C.
    - destruct r; [|reflexivity]. rewrite (proj1 E2 eq_refl), lexcmp_refl in C. discriminate.
    - destruct r; [|reflexivity]. rewrite (proj1 E2 eq_refl), lexcmp_refl in C. discriminate. }
  rewrite Er in E1.
  split_and?; [exact O1| | | | exact E1|].
  - unfold op_le, bind. rewrite O3. unfold ret. destruct (lexcmp a b); reflexivity.
  - exact O3.
  - unfold op_ge, bind. rewrite O1. unfold ret. destruct (lexcmp a b); reflexivity.
  - unfold op_ne, bind. rewrite E1. unfold ret. destruct (lexcmp a b); reflexivity.
Qed.

(** Against C strings. *)
Lemma compare_c_spec a : forall mem t,
  bytes a -> bytes t -> cstring mem t -> ~ prefix_of (t ++ [0]) a ->
  exists c, compare_c a mem tt = Ok c tt /\ has_sign c (lexcmp a t).
Proof.
  induction a as [|x a IH]; intros mem t Ba Bt [Nt (rest & ->)] P.
  - destruct t as [|y t]; cbn.
    + exists 0. split; reflexivity.
    + exists (0 - y). split; [reflexivity|]. apply bytes_cons in Bt as [Hy _].
      apply Z.compare_lt_iff. assert (y <> 0) by (intros ->; apply Nt; left; reflexivity). lia.
  - apply bytes_cons in Ba as [Hx Ba]. destruct t as [|y t]; cbn.
    + destruct (Z.eqb_spec x 0) as [->|N]; cbn [negb].
      * exfalso. apply P. exists a. reflexivity.
      * exists (x - 0). split; [reflexivity|]. apply Z.compare_gt_iff. lia.
    + apply bytes_cons in Bt as [Hy Bt]. destruct (Z.eqb_spec x y) as [->|N]; cbn [negb].
      * rewrite Z.compare_refl. apply IH; auto.
        { split; [|eexists; reflexivity]. intros H; apply Nt; right; exact H. }
        intros (r & ->). apply P. exists r. reflexivity.
      * eexists; split; [reflexivity|]. unfold has_sign. rewrite <- Z.compare_sub.
        destruct (Z.compare_spec x y); try lia; reflexivity.
Qed.
Lemma compare_cn_loop_spec a : forall mem t n,
  bytes a -> bytes t -> cstring mem t -> 0 < n < W64 -> ~ prefix_of (t ++ [0]) (ztake n a) ->
  exists c, compare_cn_loop a mem n tt = Ok c tt /\ has_sign c (lexcmp (ztake n a) (ztake n t)).
Proof.
  induction a as [|x a IH]; intros mem t n Ba Bt [Nt (rest & ->)] Hn P.
  - destruct t as [|y t]; [exists 0; unfold ztake; rewrite !firstn_nil; split; reflexivity|].
    rewrite ztake_cons by lia. unfold ztake at 1; rewrite firstn_nil; cbn.
    exists (0 - y). split; [reflexivity|]. apply bytes_cons in Bt as [Hy _].
    apply Z.compare_lt_iff. assert (y <> 0) by (intros ->; apply Nt; left; reflexivity). lia.
  - apply bytes_cons in Ba as [Hx Ba]. rewrite ztake_cons in P |- * by lia. destruct t as [|y t]; cbn [app compare_cn_loop].
    + destruct (Z.eqb_spec x 0) as [->|N]; cbn [negb].
      * exfalso. apply P. exists (ztake (n - 1) a). reflexivity.
      * exists (x - 0). split; [reflexivity|]. unfold ztake at 2; rewrite firstn_nil. apply Z.compare_gt_iff. lia.
    + rewrite ztake_cons by lia. apply bytes_cons in Bt as [Hy Bt]. cbn [lexcmp]. destruct (Z.eqb_spec x y) as [->|N]; cbn [negb].
      * rewrite Z.compare_refl. rewrite u64_id by lia. destruct (Z.eqb_spec (n - 1) 0) as [E|E].
        -- rewrite E. exists (y - y). split; [reflexivity|]. rewrite Z.sub_diag. reflexivity.
        -- apply IH; auto; [|lia|].
           { split; [|eexists; reflexivity]. intros H; apply Nt; right; exact H. }
           intros (r & E'). apply P. rewrite E'. exists r. reflexivity.
      * eexists; split; [reflexivity|]. unfold has_sign. rewrite <- Z.compare_sub.
        destruct (Z.compare_spec x y); try lia; reflexivity.
Qed.
Lemma compare_cn_spec a mem t n :
  bytes a -> bytes t -> cstring mem t -> 0 <= n < W64 -> ~ prefix_of (t ++ [0]) (ztake n a) ->
  exists c, compare_cn a mem n tt = Ok c tt /\ has_sign c (lexcmp (ztake n a) (ztake n t)).
Proof.
  intros Ba Bt C Hn P. unfold compare_cn. destruct (Z.eqb_spec n 0) as [->|N].
  - exists 0. split; reflexivity.
  - apply compare_cn_loop_spec; auto. lia.
Qed.
Lemma cstr_of_cstring mem t : cstring mem t -> cstr_of (Z.eqb 0) mem = Some t.
Proof.
  intros [N (rest & ->)]. induction t as [|y t IH]; [reflexivity|]. cbn [app cstr_of].
  destruct (Z.eqb_spec 0 y) as [<-|E]; [exfalso; apply N; left; reflexivity|].
  rewrite IH; [reflexivity|]. intros H; apply N; right; exact H.
Qed.
Lemma operators_c_spec a mem t :
  bytes a -> bytes t -> cstring mem t -> ~ prefix_of (t ++ [0]) a ->
  zlen a < W63 -> zlen t < W63 -> Z.abs (zlen a - zlen t) < W31 ->
  op_eq_c a mem tt = Ok (match lexcmp a t with Eq => true | _ => false end) tt /\
  op_lt_c a mem tt = Ok (match lexcmp a t with Lt => true | _ => false end) tt /\
  op_le_c mdiff a mem tt = Ok (match lexcmp a t with Gt => false | _ => true end) tt /\
  op_gt_c a mem tt = Ok (match lexcmp a t with Gt => true | _ => false end) tt /\
  op_ge_c a mem tt = Ok (match lexcmp a t with Lt => false | _ => true end) tt.
Proof.
  intros Ba Bt C P La Lt D. destruct (compare_c_spec a mem t) as (c & C1 & C2); auto. unfold has_sign in C2.
  split_and?.
  - unfold op_eq_c, bind. rewrite C1, <- C2. unfold ret. do 2 f_equal. destruct (Z.compare_spec c 0); lia.
  - unfold op_lt_c, bind. rewrite C1, <- C2. unfold ret. do 2 f_equal.
  - unfold op_le_c. rewrite (cstr_of_cstring _ _ C). unfold bind.
    rewrite op_lt_spec by (auto; try lia; discriminate). unfold lexlt. rewrite lexcmp_antisym. unfold ret. destruct (lexcmp a t); reflexivity.
  - unfold op_gt_c, bind. rewrite C1, <- C2. unfold ret. do 2 f_equal. destruct (Z.compare_spec c 0); lia.
  - unfold op_ge_c, op_lt_c, bind. rewrite C1, <- C2. unfold ret. do 2 f_equal. unfold Z.ltb. destruct (c ?= 0); reflexivity.
Qed.

(** Boundaries: a length difference of 2^31 or more is narrowed to int. *)
Lemma compare_narrows (a : chars) : zlen a = W31 ->
  compare mdiff false a [] tt = Ok (- W31) tt /\ lexcmp a [] = Gt.
Proof.
  intros L. split.
  - unfold compare, memcmp. cbn [andb]. cbv zeta. rewrite L, zlen_nil. change (Z.min W31 0) with 0.
    rewrite !ztake_0 by lia. reflexivity.
  - destruct a; [discriminate|reflexivity].
Qed.
End Cmp.
