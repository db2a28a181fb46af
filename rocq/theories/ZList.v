(** Lists indexed by [Z]: the vocabulary used for buffers, ranges and bytes.
    Nothing in this file models code; it only provides list ranges and their laws. *)
From Coq Require Export ZArith List Lia Bool.
From Coq Require Import ZifyBool ZifyNat.
Export ListNotations.
Open Scope Z_scope.

Section ZList.
Context {A : Type}.
Implicit Types (l k : list A) (v : A) (i n a : Z).

Definition zlen l : Z := Z.of_nat (length l).
Definition znth i l : option A := if i <? 0 then None else nth_error l (Z.to_nat i).
Definition ztake n l : list A := firstn (Z.to_nat n) l.
Definition zdrop n l : list A := skipn (Z.to_nat n) l.
(** [zsub a n l]: the [n] elements of [l] starting at index [a]. *)
Definition zsub a n l : list A := ztake n (zdrop a l).
(** [zupd a k l]: [l] with the elements from index [a] on overwritten by [k]. *)
Definition zupd a k l : list A := ztake a l ++ k ++ zdrop (a + zlen k) l.
Definition zrep n (v : A) : list A := repeat v (Z.to_nat n).

Lemma zlen_nonneg l : 0 <= zlen l.
Proof. unfold zlen; lia. Qed.
Lemma zlen_nil : zlen [] = 0.
Proof. reflexivity. Qed.
Lemma zlen_cons v l : zlen (v :: l) = 1 + zlen l.
Proof. unfold zlen; cbn [length]; lia. Qed.
Lemma zlen_app l k : zlen (l ++ k) = zlen l + zlen k.
Proof. unfold zlen; rewrite app_length; lia. Qed.
Lemma zlen_ztake n l : zlen (ztake n l) = Z.min (Z.max 0 n) (zlen l).
Proof. unfold zlen, ztake; rewrite firstn_length; lia. Qed.
Lemma zlen_zdrop n l : zlen (zdrop n l) = Z.max 0 (zlen l - Z.max 0 n).
Proof. unfold zlen, zdrop; rewrite skipn_length; lia. Qed.
Lemma zlen_zrep n v : zlen (zrep n v) = Z.max 0 n.
Proof. unfold zlen, zrep; rewrite repeat_length; lia. Qed.
Lemma zlen_zsub a n l : zlen (zsub a n l) = Z.min (Z.max 0 n) (Z.max 0 (zlen l - Z.max 0 a)).
Proof. unfold zsub; rewrite zlen_ztake, zlen_zdrop; lia. Qed.
Lemma zlen_zupd a k l : 0 <= a -> a + zlen k <= zlen l -> zlen (zupd a k l) = zlen l.
Proof.
  intros Ha Hk; unfold zupd; rewrite !zlen_app, zlen_ztake, zlen_zdrop.
  pose proof (zlen_nonneg k); lia.
Qed.
Lemma zlen_0_nil l : zlen l = 0 -> l = [].
Proof. destruct l; [reflexivity|]. rewrite zlen_cons; pose proof (zlen_nonneg l); lia. Qed.

Lemma nth_error_nil_any (i : nat) : nth_error (@nil A) i = None.
Proof. destruct i; reflexivity. Qed.
Lemma nth_error_firstn_any (n i : nat) l :
  nth_error (firstn n l) i = if Nat.ltb i n then nth_error l i else None.
Proof.
  revert n i; induction l as [|v l IH]; intros n i.
  - rewrite firstn_nil, !nth_error_nil_any; destruct (Nat.ltb i n); reflexivity.
  - destruct n as [|n]; [rewrite nth_error_nil_any; reflexivity|].
    destruct i as [|i]; [reflexivity|]. cbn [firstn nth_error]. rewrite IH.
    destruct (Nat.ltb_spec i n), (Nat.ltb_spec (S i) (S n)); try lia; reflexivity.
Qed.
Lemma nth_error_skipn_any (n i : nat) l : nth_error (skipn n l) i = nth_error l (n + i).
Proof.
  revert i l; induction n as [|n IH]; intros i l; [reflexivity|].
  destruct l as [|v l]; cbn [skipn].
  - rewrite !nth_error_nil_any; reflexivity.
  - rewrite IH; reflexivity.
Qed.
Lemma nth_error_repeat_any (n i : nat) v :
  nth_error (repeat v n) i = if Nat.ltb i n then Some v else None.
Proof.
  revert i; induction n as [|n IH]; intros i.
  - cbn [repeat]. rewrite nth_error_nil_any; destruct (Nat.ltb_spec i 0); [lia|reflexivity].
  - destruct i as [|i]; [reflexivity|]. cbn [repeat nth_error]. rewrite IH.
    destruct (Nat.ltb_spec i n), (Nat.ltb_spec (S i) (S n)); try lia; reflexivity.
Qed.

Lemma znth_neg i l : i < 0 -> znth i l = None.
Proof. intros Hi; unfold znth; destruct (Z.ltb_spec i 0); [reflexivity|lia]. Qed.
Lemma znth_ge i l : zlen l <= i -> znth i l = None.
Proof.
  intros Hi; unfold znth; destruct (Z.ltb_spec i 0); [reflexivity|].
  apply nth_error_None; unfold zlen in Hi; lia.
Qed.
Lemma znth_some i l : 0 <= i < zlen l -> exists v, znth i l = Some v.
Proof.
  intros Hi; unfold znth; destruct (Z.ltb_spec i 0) as [Hn|_]; [lia|].
  destruct (nth_error l (Z.to_nat i)) as [v|] eqn:E; [exists v; reflexivity|].
  apply nth_error_None in E; unfold zlen in Hi; lia.
Qed.
Lemma znth_inv i l v : znth i l = Some v -> 0 <= i < zlen l.
Proof.
  unfold znth; destruct (Z.ltb_spec i 0) as [_|Hn]; [discriminate|].
  intros E; assert (nth_error l (Z.to_nat i) <> None) as Hs by congruence.
  apply nth_error_Some in Hs; unfold zlen; lia.
Qed.
Lemma znth_app i l k : znth i (l ++ k) = if i <? zlen l then znth i l else znth (i - zlen l) k.
Proof.
  unfold znth, zlen. destruct (Z.ltb_spec i 0) as [Hn|Hn].
  - destruct (Z.ltb_spec i (Z.of_nat (length l))); [reflexivity|].
    destruct (Z.ltb_spec (i - Z.of_nat (length l)) 0); [reflexivity|lia].
  - destruct (Z.ltb_spec i (Z.of_nat (length l))) as [Hl|Hl].
    + rewrite nth_error_app1; [reflexivity|lia].
    + rewrite nth_error_app2 by lia.
      destruct (Z.ltb_spec (i - Z.of_nat (length l)) 0); [lia|].
      f_equal; lia.
Qed.
Lemma znth_ztake i n l : znth i (ztake n l) = if i <? n then znth i l else None.
Proof.
  unfold znth, ztake. rewrite nth_error_firstn_any.
  destruct (Z.ltb_spec i 0), (Z.ltb_spec i n), (Nat.ltb_spec (Z.to_nat i) (Z.to_nat n));
    try reflexivity; lia.
Qed.
Lemma znth_zdrop i n l : znth i (zdrop n l) = if i <? 0 then None else znth (i + Z.max 0 n) l.
Proof.
  unfold znth, zdrop. rewrite nth_error_skipn_any.
  destruct (Z.ltb_spec i 0), (Z.ltb_spec (i + Z.max 0 n) 0); try reflexivity; try lia.
  f_equal; lia.
Qed.
Lemma znth_zrep i n v : znth i (zrep n v) = if (0 <=? i) && (i <? n) then Some v else None.
Proof.
  unfold znth, zrep. rewrite nth_error_repeat_any.
  destruct (Z.ltb_spec i 0), (Z.leb_spec 0 i), (Z.ltb_spec i n),
    (Nat.ltb_spec (Z.to_nat i) (Z.to_nat n)); cbn; try reflexivity; lia.
Qed.
Lemma znth_zsub i a n l :
  znth i (zsub a n l) = if (0 <=? i) && (i <? n) then znth (i + Z.max 0 a) l else None.
Proof.
  unfold zsub; rewrite znth_ztake, znth_zdrop.
  destruct (Z.leb_spec 0 i), (Z.ltb_spec i n), (Z.ltb_spec i 0); cbn; try reflexivity; lia.
Qed.
Lemma znth_zupd i a k l :
  0 <= a <= zlen l ->
  znth i (zupd a k l) =
  if (a <=? i) && (i <? a + zlen k) then znth (i - a) k else znth i l.
Proof.
  intros Ha; unfold zupd; rewrite !znth_app, zlen_ztake, znth_ztake, znth_zdrop.
  pose proof (zlen_nonneg k) as Hk.
  replace (Z.min (Z.max 0 a) (zlen l)) with a by lia.
  destruct (Z.leb_spec a i), (Z.ltb_spec i (a + zlen k)), (Z.ltb_spec i a),
    (Z.ltb_spec (i - a) (zlen k)), (Z.ltb_spec (i - a - zlen k) 0); cbn; try lia; try reflexivity.
  f_equal; lia.
Qed.
Lemma znth_cons i v l : znth i (v :: l) = if i =? 0 then Some v else znth (i - 1) l.
Proof.
  unfold znth. destruct (Z.ltb_spec i 0), (Z.eqb_spec i 0), (Z.ltb_spec (i-1) 0);
    try reflexivity; try lia.
  - subst; reflexivity.
  - replace (Z.to_nat i) with (S (Z.to_nat (i - 1))) by lia. reflexivity.
Qed.
Lemma znth_nil i : znth i [] = None.
Proof. unfold znth; destruct (i <? 0); [reflexivity|]. apply nth_error_nil_any. Qed.

Lemma zlist_ext l k :
  zlen l = zlen k -> (forall i, 0 <= i < zlen l -> znth i l = znth i k) -> l = k.
Proof.
  revert k; induction l as [|v l IH]; intros k Hlen Hext.
  - symmetry; apply zlen_0_nil; rewrite <- Hlen; reflexivity.
  - destruct k as [|w k]; [apply zlen_0_nil in Hlen; discriminate|].
    rewrite !zlen_cons in Hlen. pose proof (zlen_nonneg l) as Hl.
    assert (v = w) as ->.
    { specialize (Hext 0); rewrite zlen_cons, !znth_cons in Hext; change (0 =? 0) with true in Hext; cbv iota in Hext.
      assert (Some v = Some w) by (apply Hext; lia). congruence. }
    f_equal; apply IH; [lia|]. intros i Hi.
    specialize (Hext (i + 1)). rewrite zlen_cons, !znth_cons in Hext.
    destruct (Z.eqb_spec (i + 1) 0); [lia|].
    replace (i + 1 - 1) with i in Hext by lia. apply Hext; lia.
Qed.

Lemma zlist_ext_opt l k : (forall i, znth i l = znth i k) -> l = k.
Proof.
  intros Hext; apply zlist_ext; [|intros i _; apply Hext].
  destruct (Z.lt_trichotomy (zlen l) (zlen k)) as [Hlt|[Heq|Hgt]]; [|exact Heq|].
  - exfalso. pose proof (zlen_nonneg l). destruct (znth_some (zlen l) k) as [v Hv]; [lia|].
    rewrite <- Hext, (znth_ge (zlen l) l) in Hv by lia; discriminate.
  - exfalso. pose proof (zlen_nonneg k). destruct (znth_some (zlen k) l) as [v Hv]; [lia|].
    rewrite Hext, (znth_ge (zlen k) k) in Hv by lia; discriminate.
Qed.
End ZList.

Arguments zlen_nil A : clear implicits.
Arguments zlen : simpl never.
Arguments znth : simpl never.
Arguments ztake : simpl never.
Arguments zdrop : simpl never.
Arguments zsub : simpl never.
Arguments zupd : simpl never.
Arguments zrep : simpl never.

(** Pointwise solver for equalities between list expressions. *)
Ltac zlen_simpl :=
  rewrite ?zlen_app, ?zlen_ztake, ?zlen_zdrop, ?zlen_zsub, ?zlen_zrep, ?zlen_cons, ?zlen_nil.
Ltac znth_simpl :=
  repeat first
    [ rewrite znth_app | rewrite znth_ztake | rewrite znth_zdrop | rewrite znth_zrep
    | rewrite znth_zsub | rewrite znth_cons | rewrite znth_nil
    | rewrite znth_zupd by (zlen_simpl; lia) ];
  zlen_simpl.
Ltac zlen_facts :=
  repeat match goal with
  | |- context [zlen ?l] => lazymatch goal with
      | H : 0 <= zlen l |- _ => fail
      | _ => pose proof (zlen_nonneg l) end
  | H0 : context [zlen ?l] |- _ => lazymatch goal with
      | H : 0 <= zlen l |- _ => fail
      | _ => pose proof (zlen_nonneg l) end
  end.
Ltac zcases :=
  repeat match goal with
  | |- context [Z.ltb ?a ?b] => destruct (Z.ltb_spec a b)
  | |- context [Z.leb ?a ?b] => destruct (Z.leb_spec a b)
  | |- context [Z.eqb ?a ?b] => destruct (Z.eqb_spec a b)
  end; cbn [andb orb negb].
Ltac zfin :=
  first [ reflexivity | lia | (f_equal; lia) | (rewrite znth_ge by lia; reflexivity)
        | (rewrite znth_neg by lia; reflexivity)
        | (symmetry; rewrite znth_ge by lia; reflexivity)
        | (symmetry; rewrite znth_neg by lia; reflexivity)
        | (rewrite !znth_ge by lia; reflexivity) ].
(** The same for larger goals: prune impossible branches at once. *)
Ltac zprune :=
  repeat match goal with
  | |- context [Z.max 0 ?a] => replace (Z.max 0 a) with a by lia
  end;
  repeat (match goal with
  | |- context [Z.ltb ?a ?b] => destruct (Z.ltb_spec a b)
  | |- context [Z.leb ?a ?b] => destruct (Z.leb_spec a b)
  | |- context [Z.eqb ?a ?b] => destruct (Z.eqb_spec a b)
  end; try (exfalso; lia); cbn [andb orb negb]).
Ltac zlist :=
  apply zlist_ext_opt; intros ?i; zlen_facts; znth_simpl; zcases; try (exfalso; lia); zfin.

Section ZListLaws.
Context {A : Type}.
Implicit Types (l k : list A) (v : A) (i n a : Z).

Lemma ztake_all n l : zlen l <= n -> ztake n l = l.
Proof. intros; unfold ztake; apply firstn_all2; unfold zlen in *; lia. Qed.
Lemma ztake_0 n l : n <= 0 -> ztake n l = [].
Proof. intros; unfold ztake; replace (Z.to_nat n) with 0%nat by lia; reflexivity. Qed.
Lemma zdrop_0 n l : n <= 0 -> zdrop n l = l.
Proof. intros; unfold zdrop; replace (Z.to_nat n) with 0%nat by lia; reflexivity. Qed.
Lemma zdrop_all n l : zlen l <= n -> zdrop n l = [].
Proof. intros; unfold zdrop; apply skipn_all2; unfold zlen in *; lia. Qed.
Lemma ztake_zdrop n l : ztake n l ++ zdrop n l = l.
Proof. apply firstn_skipn. Qed.
Lemma zsub_0 a n l : n <= 0 -> zsub a n l = [].
Proof. intros; apply ztake_0; assumption. Qed.
Lemma zsub_all l : zsub 0 (zlen l) l = l.
Proof. unfold zsub; rewrite zdrop_0, ztake_all by lia; reflexivity. Qed.
Lemma zsub_zsub a n b m l :
  0 <= a -> 0 <= b -> b + m <= n -> zsub b m (zsub a n l) = zsub (a + b) m l.
Proof. intros; zlist. Qed.
Lemma zsub_zupd_same a k l n :
  0 <= a -> a + zlen k <= zlen l -> n = zlen k -> zsub a n (zupd a k l) = k.
Proof. intros; subst; zlist. Qed.
Lemma zsub_zupd_out a n b k l :
  0 <= a -> 0 <= b -> b + zlen k <= zlen l -> a + n <= b \/ b + zlen k <= a ->
  zsub a n (zupd b k l) = zsub a n l.
Proof. intros; zlist. Qed.
Lemma zupd_nil a l : 0 <= a <= zlen l -> zupd a [] l = l.
Proof. intros; zlist. Qed.
Lemma zsub_split a n m l : 0 <= a -> 0 <= n -> 0 <= m -> a + n + m <= zlen l ->
  zsub a (n + m) l = zsub a n l ++ zsub (a + n) m l.
Proof. intros; zlist. Qed.
Lemma zsub_app_l a n l k : 0 <= a -> a + n <= zlen l -> zsub a n (l ++ k) = zsub a n l.
Proof. intros; zlist. Qed.
Lemma zrep_app n m (v : A) : 0 <= n -> 0 <= m -> zrep (n + m) v = zrep n v ++ zrep m v.
Proof. intros; zlist. Qed.
End ZListLaws.

Lemma zlen_map {A B} (f : A -> B) l : zlen (map f l) = zlen l.
Proof. unfold zlen; rewrite map_length; reflexivity. Qed.
Lemma zsub_map {A B} (f : A -> B) i n l : zsub i n (map f l) = map f (zsub i n l).
Proof. unfold zsub, ztake, zdrop. rewrite skipn_map, firstn_map. reflexivity. Qed.
Lemma zdrop_map {A B} (f : A -> B) n l : zdrop n (map f l) = map f (zdrop n l).
Proof. unfold zdrop; rewrite skipn_map; reflexivity. Qed.
Lemma ztake_map {A B} (f : A -> B) n l : ztake n (map f l) = map f (ztake n l).
Proof. unfold ztake; rewrite firstn_map; reflexivity. Qed.
Lemma zlist_snoc {A} (l : list A) n :
  0 < n <= zlen l -> exists c, znth (n - 1) l = Some c /\ ztake n l = ztake (n - 1) l ++ [c].
Proof.
  intros Hn. destruct (znth_some (n - 1) l) as (c & Hc); [lia|]. exists c; split; [exact Hc|].
  apply zlist_ext_opt; intros i. znth_simpl. zcases; try lia; try reflexivity.
  - replace i with (n - 1) by lia. exact Hc.
Qed.
Lemma znth_map {A B} (f : A -> B) i l : znth i (map f l) = option_map f (znth i l).
Proof. unfold znth; destruct (i <? 0); [reflexivity|]. apply nth_error_map. Qed.
Lemma zlen_rev {A} (l : list A) : zlen (rev l) = zlen l.
Proof. unfold zlen; rewrite rev_length; reflexivity. Qed.
Lemma ztake_zsub {A} n (v : list A) : ztake n v = zsub 0 n v.
Proof. unfold zsub; rewrite zdrop_0 by lia; reflexivity. Qed.
Lemma zdrop_zsub {A} n (v : list A) : 0 <= n <= zlen v -> zdrop n v = zsub n (zlen v - n) v.
Proof. intros; unfold zsub. rewrite ztake_all; [reflexivity|]. zlen_simpl; lia. Qed.
Lemma ztake_app {A} n (l k : list A) : ztake n (l ++ k) = ztake n l ++ ztake (n - zlen l) k.
Proof. unfold ztake, zlen. rewrite firstn_app. do 2 f_equal. lia. Qed.
Lemma zdrop_app {A} n (l k : list A) : zdrop n (l ++ k) = zdrop n l ++ zdrop (n - zlen l) k.
Proof. unfold zdrop, zlen. rewrite skipn_app. do 2 f_equal. lia. Qed.
Lemma ztake_app_exact {A} (l k : list A) : ztake (zlen l) (l ++ k) = l.
Proof. rewrite ztake_app, Z.sub_diag, (ztake_all (zlen l)), (ztake_0 0), app_nil_r by lia. reflexivity. Qed.
Lemma zdrop_app_exact {A} (l k : list A) : zdrop (zlen l) (l ++ k) = k.
Proof. rewrite zdrop_app, Z.sub_diag, (zdrop_all (zlen l)), (zdrop_0 0) by lia. reflexivity. Qed.
Lemma znth_rev {A} i (l : list A) : 0 <= i < zlen l -> znth i (rev l) = znth (zlen l - 1 - i) l.
Proof.
  revert i; induction l as [|c l IH]; intros i Hi; [rewrite zlen_nil in Hi; lia|].
  cbn [rev]. rewrite zlen_cons in *. rewrite znth_app, zlen_rev, !znth_cons.
  destruct (Z.ltb_spec i (zlen l)).
  - rewrite IH by lia. destruct (Z.eqb_spec (1 + zlen l - 1 - i) 0); [lia|]. f_equal; lia.
  - assert (i = zlen l) as -> by lia. rewrite Z.sub_diag. destruct (Z.eqb_spec (1 + zlen l - 1 - zlen l) 0); [reflexivity|lia].
Qed.
