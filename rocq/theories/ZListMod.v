(** List equations for the in-place buffer updates. *)
From Verif Require Import ZList.
Open Scope Z_scope.

Section Lists.
Context {A : Type}.
Implicit Types (b w : list A).
(** Moving the tail right and overwriting the gap is the splice. *)
Lemma splice_eq b w off len pos k :
  0 <= off -> 0 <= pos <= len -> k = zlen w -> off + len + k <= zlen b ->
  zsub off (len + k) (zupd (off + pos) w (zupd (off + (pos + k)) (zsub (off + pos) (len - pos) b) b))
  = ztake pos (zsub off len b) ++ w ++ zdrop pos (zsub off len b).
Proof.
  intros H1 H2 -> H4. pose proof (zlen_nonneg w).
  assert (Hz : zlen (zsub (off + pos) (len - pos) b) = len - pos) by (zlen_simpl; lia).
  assert (Hz2 : zlen (zupd (off + (pos + zlen w)) (zsub (off + pos) (len - pos) b) b) = zlen b) by (apply zlen_zupd; lia).
  apply zlist_ext_opt; intros i. rewrite znth_zsub, znth_zupd, znth_zupd, Hz by lia.
  znth_simpl. zprune; zfin.
Qed.
Lemma over_eq b w off len newlen pos :
  0 <= off -> 0 <= pos <= len -> newlen = Z.max len (pos + zlen w) -> off + newlen <= zlen b ->
  zsub off newlen (zupd (off + pos) w b)
  = ztake pos (zsub off len b) ++ w ++ zdrop (pos + zlen w) (zsub off len b).
Proof.
  intros H1 H2 H3 H4. pose proof (zlen_nonneg w). assert (zlen w <= newlen - pos) by lia.
  apply zlist_ext_opt; intros i. rewrite znth_zsub, znth_zupd by lia.
  znth_simpl. zprune; zfin.
Qed.
Lemma copy_step b off j p n :
  0 <= off -> 0 <= j -> 0 <= p -> 0 <= n -> off + p + j + (n + 1) <= zlen b -> (p = 0 \/ n + 1 <= p) ->
  let b' := zupd (off + (p + j)) (zsub (off + j) 1 b) b in
  zupd (off + (p + (j + 1))) (zsub (off + (j + 1)) n b') b'
  = zupd (off + (p + j)) (zsub (off + j) (n + 1) b) b.
Proof.
  intros H1 H2 H3 H4 H5 H6 b'. assert (Hz1 : zlen (zsub (off + j) 1 b) = 1) by (zlen_simpl; lia).
  assert (Hb' : zlen b' = zlen b) by (unfold b'; apply zlen_zupd; lia).
  assert (Hz2 : zlen (zsub (off + (j + 1)) n b') = n) by (zlen_simpl; lia).
  assert (Hz3 : zlen (zsub (off + j) (n + 1) b) = n + 1) by (zlen_simpl; lia).
  apply zlist_ext_opt; intros i. rewrite !znth_zupd, Hz2, Hz3 by lia.
  rewrite !znth_zsub. unfold b'. rewrite !znth_zupd, Hz1 by lia. rewrite !znth_zsub.
  zprune; zfin.
Qed.
End Lists.

