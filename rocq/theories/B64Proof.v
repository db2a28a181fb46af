(** base64 encoding meets RFC 4648, decoding inverts it, and both stay inside their buffers. *)
From Coq Require Import Lia.
From Verif Require Import Base StrSpec StrCmp B64Model B64Spec.
Open Scope Z_scope.

(** Checking all bytes. *)
Definition upto (n : Z) : list Z := map Z.of_nat (seq 0 (Z.to_nat n)).
Lemma upto_in n a : 0 <= a < n -> In a (upto n).
Proof. intros H. unfold upto. apply in_map_iff. exists (Z.to_nat a). split; [lia|]. apply in_seq. lia. Qed.
Lemma all1 n (P : Z -> bool) : forallb P (upto n) = true -> forall a, 0 <= a < n -> P a = true.
Proof. intros H a Ha. rewrite forallb_forall in H. apply H, upto_in, Ha. Qed.
Lemma all2 n m (P : Z -> Z -> bool) : forallb (fun a => forallb (P a) (upto m)) (upto n) = true ->
  forall a b, 0 <= a < n -> 0 <= b < m -> P a b = true.
Proof. intros H a b Ha Hb. exact (all1 m (P a) (all1 n _ H a Ha) b Hb). Qed.

Ltac byte1 := intros a Ha; apply Z.eqb_eq; revert a Ha; apply all1; vm_compute; reflexivity.
Ltac byte2 := intros a b Ha Hb; apply Z.eqb_eq; revert a b Ha Hb; apply all2; vm_compute; reflexivity.
Lemma bits_d0 : forall a, 0 <= a < 256 -> Z.shiftr (Z.land a 252) 2 = a / 4. Proof. byte1. Qed.
Lemma bits_d1 : forall a b, 0 <= a < 256 -> 0 <= b < 256 ->
  Z.lor (Z.shiftl (Z.land a 3) 4) (Z.shiftr (Z.land b 240) 4) = a mod 4 * 16 + b / 16. Proof. byte2. Qed.
Lemma bits_d2 : forall a b, 0 <= a < 256 -> 0 <= b < 256 ->
  Z.lor (Z.shiftl (Z.land a 15) 2) (Z.shiftr (Z.land b 192) 6) = a mod 16 * 4 + b / 64. Proof. byte2. Qed.
Lemma bits_d3 : forall a, 0 <= a < 256 -> Z.land a 63 = a mod 64. Proof. byte1. Qed.
Lemma bits_d1' : forall a, 0 <= a < 256 -> Z.shiftl (Z.land a 3) 4 = a mod 4 * 16. Proof. byte1. Qed.
Lemma bits_d2' : forall a, 0 <= a < 256 -> Z.shiftl (Z.land a 15) 2 = a mod 16 * 4. Proof. byte1. Qed.
Lemma bits_e0 : forall a b, 0 <= a < 64 -> 0 <= b < 64 ->
  to_char (Z.shiftl a 2 + Z.shiftr (Z.land b 48) 4) = a * 4 + b / 16. Proof. byte2. Qed.
Lemma bits_e1 : forall a b, 0 <= a < 64 -> 0 <= b < 64 ->
  to_char (Z.shiftl (Z.land a 15) 4 + Z.shiftr (Z.land b 60) 2) = a mod 16 * 16 + b / 4. Proof. byte2. Qed.
Lemma bits_e2 : forall a b, 0 <= a < 64 -> 0 <= b < 64 ->
  to_char (Z.shiftl (Z.land a 3) 6 + b) = a mod 4 * 64 + b. Proof. byte2. Qed.

(** One write. *)
Lemma wr_ok i c d : 0 <= i < zlen d ->
  exists d', wr i c d = Ok tt d' /\ zlen d' = zlen d /\ ztake (i + 1) d' = ztake i d ++ [c].
Proof.
  intros H. unfold wr. replace (_ && _) with true by (symmetry; apply andb_true_intro; lia).
  eexists; split; [reflexivity|].
  assert (zlen [c] = 1) as L1 by reflexivity. split; [rewrite zlen_zupd; lia|].
  unfold zupd. rewrite ztake_app. rewrite zlen_ztake, ztake_all by (rewrite zlen_ztake; lia). f_equal.
  replace (i + 1 - Z.min (Z.max 0 i) (zlen d)) with 1 by lia.
  change 1 with (zlen [c]) at 1. apply ztake_app_exact.
Qed.
Lemma rdm_ok l i c d : znth i l = Some c -> rdm l i d = Ok c d.
Proof. intros E. unfold rdm. rewrite E. reflexivity. Qed.
Lemma zdrop_znth {A} (l : list A) di x r : 0 <= di -> zdrop di l = x :: r -> znth di l = Some x /\ zdrop (di + 1) l = r.
Proof.
  intros H E. assert (znth 0 (zdrop di l) = Some x) as N by (rewrite E; reflexivity).
  rewrite znth_zdrop in N. cbn in N. rewrite Z.max_r in N by lia. split; [exact N|].
  replace (zdrop (di + 1) l) with (zdrop 1 (zdrop di l)); [rewrite E; reflexivity|].
  apply zlist_ext_opt. intros i. rewrite !znth_zdrop. destruct (Z.ltb_spec i 0); [reflexivity|].
  destruct (Z.ltb_spec (i + Z.max 0 1) 0); [lia|]. f_equal. lia.
Qed.
Ltac wrt := match goal with |- context [bind (wr ?i ?c) _ ?d] =>
  let d' := fresh "d" in let E := fresh "W" in let L := fresh "L" in let T := fresh "T" in
  destruct (wr_ok i c d) as (d' & E & L & T); [lia|]; unfold bind at 1; rewrite E end.
Ltac rdt E := unfold bind at 1; rewrite (rdm_ok _ _ _ _ E).

Section Enc.
Variables (data cs : chars) (alpha : Z -> Z).
Hypothesis Hcs : lists cs alpha.
Definition enc_rest (r : Z * Z * Z) : Mb Z :=
  let '(di, len, bi) := r in
  if 0 <? len then
    let* d0 := rdm data di in
    let* c0 := rdm cs (Z.shiftr (Z.land d0 252) 2) in wr bi c0 ;;;
    (if len =? 1 then
       let* c1 := rdm cs (Z.shiftl (Z.land d0 3) 4) in wr (bi + 1) c1 ;;;
       wr (bi + 2) 61
     else
       let* d1 := rdm data (di + 1) in
       let* c1 := rdm cs (Z.lor (Z.shiftl (Z.land d0 3) 4) (Z.shiftr (Z.land d1 240) 4)) in wr (bi + 1) c1 ;;;
       let* c2 := rdm cs (Z.shiftl (Z.land d1 15) 2) in wr (bi + 2) c2) ;;;
    wr (bi + 3) 61 ;;;
    ret (bi + 4)
  else ret bi.
Lemma enc_all fuel : forall x di bi d more, bytes x -> 0 <= di -> zdrop di data = x ++ more -> (length x <= fuel)%nat ->
  0 <= bi -> bi + zlen (enc64 alpha x) <= zlen d ->
  exists d', bind (enc_loop fuel data cs di (zlen x) bi) enc_rest d = Ok (bi + zlen (enc64 alpha x)) d' /\
    zlen d' = zlen d /\ ztake (bi + zlen (enc64 alpha x)) d' = ztake bi d ++ enc64 alpha x.
Proof.
  induction fuel as [|f IH]; intros x di bi d more B Hdi Ex Hf Hbi Hd.
  - destruct x; [|cbn in Hf; lia]. cbn [enc64] in *. rewrite zlen_nil, Z.add_0_r. exists d.
    split; [reflexivity|]. rewrite app_nil_r. auto.
  - destruct x as [|a [|b [|c r]]].
    + cbn [enc64] in *. rewrite zlen_nil, Z.add_0_r. exists d. split; [reflexivity|]. rewrite app_nil_r. auto.
    + apply bytes_cons in B as [Ha _]. cbn [app] in Ex. destruct (zdrop_znth _ _ _ _ Hdi Ex) as [N0 _].
      cbn [enc64] in *. set (n := a * 256 * 256) in *. rewrite !zlen_cons, zlen_nil in Hd.
      change (zlen [a]) with 1. cbn [enc_loop]. unfold bind at 1. change (1 <? 3) with true. cbn [ret].
      unfold enc_rest. change (0 <? 1) with true. change (1 =? 1) with true. cbv iota.
      rdt N0.
      assert (znth (a / 4) cs = Some (digit alpha n 3)) as C0.
      { unfold digit. rewrite <- Hcs by lia. f_equal. subst n. change (64 ^ 3) with 262144. lia. }
      rewrite bits_d0 by assumption. rdt C0. wrt.
      assert (znth (a mod 4 * 16) cs = Some (digit alpha n 2)) as C1.
      { unfold digit. rewrite <- Hcs by lia. f_equal. subst n. change (64 ^ 2) with 4096. lia. }
      rewrite bits_d1' by assumption. unfold bind at 1. rdt C1. wrt.
      destruct (wr_ok (bi + 2) 61 d1) as (d2 & W2 & L2 & T2); [lia|]. rewrite W2. wrt.
      replace (bi + 2) with (bi + 1 + 1) in * by lia. replace (bi + 3) with (bi + 1 + 1 + 1) in * by lia.
      exists d3. rewrite !zlen_cons, zlen_nil. replace (bi + (1 + (1 + (1 + (1 + 0))))) with (bi + 1 + 1 + 1 + 1) by lia.
      split; [unfold ret; f_equal; lia|]. split; [lia|]. rewrite T1, T2, T0, T, <- !app_assoc. reflexivity.
    + apply bytes_cons in B as [Ha B]. apply bytes_cons in B as [Hb _]. cbn [app] in Ex.
      destruct (zdrop_znth _ _ _ _ Hdi Ex) as [N0 Ex1]. assert (0 <= di + 1) as Hdi1 by lia. destruct (zdrop_znth _ _ _ _ Hdi1 Ex1) as [N1 _].
      cbn [enc64] in *. set (n := (a * 256 + b) * 256) in *. rewrite !zlen_cons, zlen_nil in Hd.
      change (zlen [a; b]) with 2. cbn [enc_loop]. unfold bind at 1. change (2 <? 3) with true. cbn [ret].
      unfold enc_rest. change (0 <? 2) with true. change (2 =? 1) with false. cbv iota.
      rdt N0.
      assert (znth (a / 4) cs = Some (digit alpha n 3)) as C0.
      { unfold digit. rewrite <- Hcs by lia. f_equal. subst n. change (64 ^ 3) with 262144. lia. }
      rewrite bits_d0 by assumption. rdt C0. wrt.
      assert (znth (a mod 4 * 16 + b / 16) cs = Some (digit alpha n 2)) as C1.
      { unfold digit. rewrite <- Hcs by lia. f_equal. subst n. change (64 ^ 2) with 4096. lia. }
      unfold bind at 1. rdt N1. rewrite bits_d1 by assumption. rdt C1. wrt.
      assert (znth (b mod 16 * 4) cs = Some (digit alpha n 1)) as C2.
      { unfold digit. rewrite <- Hcs by lia. f_equal. subst n. change (64 ^ 1) with 64. lia. }
      rewrite bits_d2' by assumption. rdt C2.
      destruct (wr_ok (bi + 2) (digit alpha n 1) d1) as (d2 & W2 & L2 & T2); [lia|]. rewrite W2. wrt.
      replace (bi + 2) with (bi + 1 + 1) in * by lia. replace (bi + 3) with (bi + 1 + 1 + 1) in * by lia.
      exists d3. rewrite !zlen_cons, zlen_nil. replace (bi + (1 + (1 + (1 + (1 + 0))))) with (bi + 1 + 1 + 1 + 1) by lia.
      split; [unfold ret; f_equal; lia|]. split; [lia|]. rewrite T1, T2, T0, T, <- !app_assoc. reflexivity.
    + apply bytes_cons in B as [Ha B]. apply bytes_cons in B as [Hb B]. apply bytes_cons in B as [Hc B]. cbn [app] in Ex.
      destruct (zdrop_znth _ _ _ _ Hdi Ex) as [N0 Ex1]. assert (0 <= di + 1) as Hdi1 by lia. destruct (zdrop_znth _ _ _ _ Hdi1 Ex1) as [N1 Ex2].
      replace (di + 1 + 1) with (di + 2) in Ex2 by lia. assert (0 <= di + 2) as Hdi2 by lia. destruct (zdrop_znth _ _ _ _ Hdi2 Ex2) as [N2 Ex3].
      replace (di + 2 + 1) with (di + 3) in Ex3 by lia.
      cbn [enc64] in *. set (n := (a * 256 + b) * 256 + c) in *. rewrite !zlen_cons in Hd.
      cbn [enc_loop]. replace (zlen (a :: b :: c :: r) <? 3) with false by (rewrite !zlen_cons; zl; lia).
      replace (zlen (a :: b :: c :: r) - 3) with (zlen r) by (rewrite !zlen_cons; lia).
      pose proof (zlen_nonneg (enc64 alpha r)) as Zr.
      unfold bind at 1. rdt N0. rdt N1. rdt N2.
      assert (znth (a / 4) cs = Some (digit alpha n 3)) as C0.
      { unfold digit. rewrite <- Hcs by lia. f_equal. subst n. change (64 ^ 3) with 262144. lia. }
      rewrite bits_d0 by assumption. rdt C0. wrt.
      assert (znth (a mod 4 * 16 + b / 16) cs = Some (digit alpha n 2)) as C1.
      { unfold digit. rewrite <- Hcs by lia. f_equal. subst n. change (64 ^ 2) with 4096. lia. }
      rewrite bits_d1 by assumption. rdt C1. wrt.
      assert (znth (b mod 16 * 4 + c / 64) cs = Some (digit alpha n 1)) as C2.
      { unfold digit. rewrite <- Hcs by lia. f_equal. subst n. change (64 ^ 1) with 64. lia. }
      rewrite bits_d2 by assumption. rdt C2. wrt.
      assert (znth (c mod 64) cs = Some (digit alpha n 0)) as C3.
      { unfold digit. rewrite <- Hcs by lia. f_equal. subst n. change (64 ^ 0) with 1. lia. }
      rewrite bits_d3 by assumption. rdt C3. wrt.
      destruct (IH r (di + 3) (bi + 4) d3 more B) as (d' & E & L' & T'); [lia|exact Ex3|cbn in Hf; lia|lia|lia|].
      unfold bind in E. exists d'. split; [|split; [lia|]].
      * rewrite !zlen_cons. replace (bi + (1 + (1 + (1 + (1 + zlen (enc64 alpha r)))))) with (bi + 4 + zlen (enc64 alpha r)) by lia. exact E.
      * rewrite !zlen_cons. replace (bi + (1 + (1 + (1 + (1 + zlen (enc64 alpha r)))))) with (bi + 4 + zlen (enc64 alpha r)) by lia.
        rewrite T'. replace (bi + 2) with (bi + 1 + 1) in * by lia. replace (bi + 3) with (bi + 1 + 1 + 1) in * by lia.
        replace (bi + 4) with (bi + 1 + 1 + 1 + 1) by lia. rewrite T2, T1, T0, T, <- !app_assoc. reflexivity.
Qed.
End Enc.
Lemma enc64_len alpha x : zlen (enc64 alpha x) = (zlen x + 2) / 3 * 4.
Proof.
  assert (forall n y, (length y <= n)%nat -> zlen (enc64 alpha y) = (zlen y + 2) / 3 * 4) as H.
  { induction n as [|n IH]; intros y Hy.
    - destruct y; [reflexivity|cbn in Hy; lia].
    - destruct y as [|a [|b [|c r]]]; try reflexivity. cbn [enc64]. rewrite !zlen_cons, IH by (cbn in Hy; lia). zl. lia. }
  apply (H (length x)). lia.
Qed.

Definition table (charset : option chars) : chars := match charset with Some c => c | None => b64_charset end.
Lemma std_lists : lists b64_charset std_alpha.
Proof.
  assert (forall a, 0 <= a < 64 -> match znth a b64_charset with Some c => c =? std_alpha a | None => false end = true) as H
    by (apply all1; vm_compute; reflexivity).
  intros v Hv. specialize (H v Hv). destruct (znth v b64_charset); [|discriminate]. apply Z.eqb_eq in H as ->. reflexivity.
Qed.
Lemma std_alphabet : alphabet std_alpha.
Proof.
  split.
  - assert (forall a, 0 <= a < 64 -> (0 <=? std_alpha a) && (std_alpha a <? 128) && negb (std_alpha a =? 61) = true) as H
      by (apply all1; vm_compute; reflexivity).
    intros v Hv. specialize (H v Hv). lia.
  - assert (forall a b, 0 <= a < 64 -> 0 <= b < 64 -> negb (std_alpha a =? std_alpha b) || (a =? b) = true) as H
      by (apply all2; vm_compute; reflexivity).
    intros v w Hv Hw E. specialize (H v w Hv Hw). lia.
Qed.
Definition fresh_buffer (junk : Z -> Z) (n : Z) : chars := map (fun i => junk (Z.of_nat i)) (seq 0 (Z.to_nat n)).
Lemma fresh_len junk n : 0 <= n -> zlen (fresh_buffer junk n) = n.
Proof. intros H. unfold fresh_buffer, zlen. rewrite map_length, seq_length. lia. Qed.

(** base64Encode *)
Lemma encode_spec junk fuel s charset alpha :
  lists (table charset) alpha -> bytes s -> zlen s < W63 -> (length s <= fuel)%nat ->
  base64_encode junk fuel s charset tt = Ok (enc64 alpha s) tt.
Proof.
  intros Hcs B L Hf. unfold base64_encode, b64enc. cbv zeta. zl.
  rewrite (u64_id (zlen s + 2)) by (unfold W63, W64 in *; lia).
  assert (zlen s <= W63 - 1) as L' by lia. assert (0 <= (zlen s + 2) / 3 * 4 <= W63 / 3 * 4 + 4) as R by (unfold W63 in *; lia).
  rewrite (u64_id ((zlen s + 2) / 3 * 4)) by (unfold W63, W64 in *; lia).
  rewrite u64_id by (unfold W63, W64 in *; lia).
  unfold bind at 1. unfold on_buffer at 1. fold (fresh_buffer junk ((zlen s + 2) / 3 * 4 + 1)).
  pose proof (fresh_len junk ((zlen s + 2) / 3 * 4 + 1) ltac:(lia)) as Lb.
  set (d := fresh_buffer junk ((zlen s + 2) / 3 * 4 + 1)) in *.
  destruct (enc_all s (table charset) alpha Hcs fuel s 0 0 d [] B) as (d' & E & L1 & T1);
    [lia|rewrite app_nil_r, zdrop_0 by lia; reflexivity|exact Hf|lia|rewrite enc64_len; lia|].
  assert (b64enc_buf fuel s (zlen s) charset d = Ok (0 + zlen (enc64 alpha s)) d') as E' by exact E.
  unfold bind at 1. rewrite E'. rewrite Z.add_0_l in *.
  destruct (wr_ok (zlen (enc64 alpha s)) 0 d') as (d2 & W2 & L2 & T2); [rewrite enc64_len; zl; lia|].
  unfold bind at 1. rewrite W2. cbn [ret fst snd].
  replace (zlen (enc64 alpha s) <=? zlen d2) with true by (rewrite enc64_len; lia). unfold ret. f_equal.
  transitivity (ztake (zlen (enc64 alpha s)) (ztake (zlen (enc64 alpha s) + 1) d2)).
  - unfold ztake. rewrite firstn_firstn. f_equal. zl. lia.
  - rewrite T2, T1. rewrite (ztake_0 0 d) by lia. cbn [app]. apply ztake_app_exact.
Qed.
Lemma enc64_shape alpha x : exists body pad, enc64 alpha x = body ++ pad /\
  Forall (fun c => exists v, 0 <= v < 64 /\ c = alpha v) body /\ (pad = [] \/ pad = [61] \/ pad = [61; 61]).
Proof.
  assert (forall n k, exists v, 0 <= v < 64 /\ digit alpha n k = alpha v) as D
    by (intros n k; exists (n / 64 ^ k mod 64); split; [apply Z.mod_pos_bound; reflexivity|reflexivity]).
  assert (forall n y, (length y <= n)%nat -> exists body pad, enc64 alpha y = body ++ pad /\
    Forall (fun c => exists v, 0 <= v < 64 /\ c = alpha v) body /\ (pad = [] \/ pad = [61] \/ pad = [61; 61])) as H.
  { induction n as [|n IH]; intros y Hy.
    - destruct y; [|cbn in Hy; lia]. exists [], []. auto.
    - destruct y as [|a [|b [|c r]]].
      + exists [], []. auto.
      + cbn [enc64]. eexists [_; _], [61; 61]. split; [reflexivity|]. split; [repeat constructor; apply D|auto].
      + cbn [enc64]. eexists [_; _; _], [61]. split; [reflexivity|]. split; [repeat constructor; apply D|auto].
      + destruct (IH r) as (body & pad & E & F & P); [cbn in Hy; lia|]. cbn [enc64]. rewrite E.
        eexists (_ :: _ :: _ :: _ :: body), pad. split; [reflexivity|]. split; [repeat constructor; auto|exact P]. }
  apply (H (length x)). lia.
Qed.

(** The decoder's table. *)
Definition inverts (idx : chars) (alpha : Z -> Z) : Prop := zlen idx = 256 /\ forall v, 0 <= v < 64 -> znth (alpha v) idx = Some v.
Lemma std_inverts : inverts b64_indexes std_alpha.
Proof.
  split; [reflexivity|].
  assert (forall a, 0 <= a < 64 -> match znth (std_alpha a) b64_indexes with Some c => c =? a | None => false end = true) as H
    by (apply all1; vm_compute; reflexivity).
  intros v Hv. specialize (H v Hv). destruct (znth (std_alpha v) b64_indexes); [|discriminate]. apply Z.eqb_eq in H as ->. reflexivity.
Qed.
Lemma index_loop_spec cs alpha : lists cs alpha -> alphabet alpha ->
  forall n i idx, 0 <= i -> i + Z.of_nat n = 64 -> zlen idx = 256 -> (forall v, 0 <= v < i -> znth (alpha v) idx = Some v) ->
  exists idx', index_loop n i cs idx tt = Ok idx' tt /\ inverts idx' alpha.
Proof.
  intros Hcs [A1 A2]. induction n as [|n IH]; intros i idx Hi En L Inv; cbn [index_loop].
  - exists idx. split; [reflexivity|]. split; [exact L|]. intros v Hv. apply Inv. lia.
  - rewrite Hcs by lia. destruct (A1 i ltac:(lia)) as [R _].
    assert (char_int (alpha i) = alpha i) as -> by (unfold char_int; destruct (Z.ltb_spec (alpha i) 128); lia).
    replace (_ && _) with true by (symmetry; apply andb_true_intro; lia).
    assert (zlen [i] = 1) as L1 by reflexivity.
    apply IH; [lia|lia|rewrite zlen_zupd; lia|]. intros v Hv. rewrite znth_zupd by lia. rewrite L1.
    destruct (Z.eq_dec (alpha v) (alpha i)) as [E|E].
    + assert (v = i) as -> by (apply A2; [lia|lia|exact E]). destruct (_ && _) eqn:X; [|lia]. rewrite Z.sub_diag. reflexivity.
    + destruct (_ && _) eqn:X; [lia|]. apply Inv. assert (v <> i) by congruence. lia.
Qed.

(** Decoding stays inside input and output, whatever the bytes. *)
Lemma znth_idx (idx : chars) c : zlen idx = 256 -> 0 <= c < 256 -> exists v, znth c idx = Some v.
Proof. intros L H. apply znth_some. lia. Qed.
Lemma bytes_znth (l : chars) i : bytes l -> 0 <= i < zlen l -> exists c, znth i l = Some c /\ 0 <= c < 256.
Proof.
  intros B H. destruct (znth_some i l H) as (c & E). exists c. split; [exact E|]. unfold bytes in B. rewrite Forall_forall in B. apply B.
  unfold znth in E. destruct (i <? 0); [discriminate|]. exact (nth_error_In _ _ E).
Qed.
Lemma dec_safe data idx : bytes data -> zlen idx = 256 ->
  forall fuel di blocks bi d, 0 <= di -> 0 <= bi -> 0 <= blocks -> (Z.to_nat blocks <= fuel)%nat ->
  di + 4 * blocks <= zlen data -> bi + 3 * blocks <= zlen d ->
  exists n d', dec_loop fuel data idx di blocks bi d = Ok n d' /\ bi <= n <= bi + 3 * blocks /\ zlen d' = zlen d.
Proof.
  intros B Li. induction fuel as [|f IH]; intros di blocks bi d Hdi Hbi Hb Hf Hd Hn; cbn [dec_loop].
  - replace (blocks <=? 0) with true by lia. exists bi, d. split; [reflexivity|]. lia.
  - destruct (Z.leb_spec blocks 0). { exists bi, d. split; [reflexivity|]. lia. }
    destruct (bytes_znth data di B) as (c0 & N0 & R0); [lia|]. destruct (bytes_znth data (di + 1) B) as (c1 & N1 & R1); [lia|].
    destruct (bytes_znth data (di + 2) B) as (c2 & N2 & R2); [lia|]. destruct (bytes_znth data (di + 3) B) as (c3 & N3 & R3); [lia|].
    destruct (znth_idx idx c0 Li R0) as (x0 & X0). destruct (znth_idx idx c1 Li R1) as (x1 & X1).
    destruct (znth_idx idx c2 Li R2) as (x2 & X2). destruct (znth_idx idx c3 Li R3) as (x3 & X3).
    rdt N0. rdt X0. rdt N1. rdt X1. wrt. rdt N2. destruct (negb (c2 =? 61)).
    + rdt X2. wrt. rdt N3. destruct (negb (c3 =? 61)).
      * rdt X3. wrt. destruct (IH (di + 4) (blocks - 1) (bi + 3) d2) as (n & d' & E & Q1 & Q2); try lia.
        exists n, d'. split; [exact E|]. lia.
      * destruct (IH (di + 4) (blocks - 1) (bi + 2) d1) as (n & d' & E & Q1 & Q2); try lia.
        exists n, d'. split; [exact E|]. lia.
    + destruct (IH (di + 4) (blocks - 1) (bi + 1) d0) as (n & d' & E & Q1 & Q2); try lia.
      exists n, d'. split; [exact E|]. lia.
Qed.

(** Decoding an encoding. *)
Lemma dec_enc data idx alpha : alphabet alpha -> inverts idx alpha ->
  forall fuel x di bi d more, bytes x -> 0 <= di -> zdrop di data = enc64 alpha x ++ more -> 0 <= bi -> (length x <= fuel)%nat ->
  bi + zlen x <= zlen d ->
  exists d', dec_loop fuel data idx di ((zlen x + 2) / 3) bi d = Ok (bi + zlen x) d' /\ zlen d' = zlen d /\
    ztake (bi + zlen x) d' = ztake bi d ++ x.
Proof.
  intros [A1 A2] [Li Inv]. induction fuel as [|f IH]; intros x di bi d more B Hdi Ex Hbi Hf Hd.
  - destruct x; [|cbn in Hf; lia]. exists d. cbn [dec_loop]. rewrite zlen_nil, Z.add_0_r, app_nil_r. split; [reflexivity|auto].
  - destruct x as [|a [|b [|c r]]].
    + exists d. rewrite zlen_nil, Z.add_0_r, app_nil_r. split; [reflexivity|auto].
    + apply bytes_cons in B as [Ha _]. cbn [enc64 app] in Ex. set (n := a * 256 * 256) in *.
      destruct (zdrop_znth _ _ _ _ Hdi Ex) as [N0 Ex1]. assert (0 <= di + 1) as Hdi1 by lia. destruct (zdrop_znth _ _ _ _ Hdi1 Ex1) as [N1 Ex2].
      replace (di + 1 + 1) with (di + 2) in Ex2 by lia. assert (0 <= di + 2) as Hdi2 by lia. destruct (zdrop_znth _ _ _ _ Hdi2 Ex2) as [N2 _].
      change (zlen [a]) with 1 in *. cbn [dec_loop]. change ((1 + 2) / 3 <=? 0) with false. cbv iota.
      rdt N0. unfold digit at 1. rdt (Inv (n / 64 ^ 3 mod 64) ltac:(apply Z.mod_pos_bound; reflexivity)).
      rdt N1. unfold digit at 1. rdt (Inv (n / 64 ^ 2 mod 64) ltac:(apply Z.mod_pos_bound; reflexivity)).
      rewrite bits_e0 by (apply Z.mod_pos_bound; reflexivity). wrt. rdt N2. change (negb (61 =? 61)) with false. cbv iota.
      assert (dec_loop f data idx (di + 4) ((1 + 2) / 3 - 1) (bi + 1) d0 = Ok (bi + 1) d0) as -> by (destruct f; reflexivity).
      exists d0. split; [reflexivity|]. split; [exact L|]. rewrite T. f_equal. f_equal. subst n. change (64 ^ 3) with 262144. change (64 ^ 2) with 4096. lia.
    + apply bytes_cons in B as [Ha B]. apply bytes_cons in B as [Hb _]. cbn [enc64 app] in Ex. set (n := (a * 256 + b) * 256) in *.
      destruct (zdrop_znth _ _ _ _ Hdi Ex) as [N0 Ex1]. assert (0 <= di + 1) as Hdi1 by lia. destruct (zdrop_znth _ _ _ _ Hdi1 Ex1) as [N1 Ex2].
      replace (di + 1 + 1) with (di + 2) in Ex2 by lia. assert (0 <= di + 2) as Hdi2 by lia. destruct (zdrop_znth _ _ _ _ Hdi2 Ex2) as [N2 Ex3].
      replace (di + 2 + 1) with (di + 3) in Ex3 by lia. assert (0 <= di + 3) as Hdi3 by lia. destruct (zdrop_znth _ _ _ _ Hdi3 Ex3) as [N3 _].
      change (zlen [a; b]) with 2 in *. cbn [dec_loop]. change ((2 + 2) / 3 <=? 0) with false. cbv iota.
      rdt N0. unfold digit at 1. rdt (Inv (n / 64 ^ 3 mod 64) ltac:(apply Z.mod_pos_bound; reflexivity)).
      rdt N1. unfold digit at 1. rdt (Inv (n / 64 ^ 2 mod 64) ltac:(apply Z.mod_pos_bound; reflexivity)).
      rewrite bits_e0 by (apply Z.mod_pos_bound; reflexivity). wrt. rdt N2.
      assert (digit alpha n 1 <> 61) as D1 by (apply A1; apply Z.mod_pos_bound; reflexivity).
      replace (digit alpha n 1 =? 61) with false by lia. cbn [negb].
      unfold digit at 1. rdt (Inv (n / 64 ^ 1 mod 64) ltac:(apply Z.mod_pos_bound; reflexivity)).
      rewrite bits_e1 by (apply Z.mod_pos_bound; reflexivity). wrt. rdt N3. change (negb (61 =? 61)) with false. cbv iota.
      assert (dec_loop f data idx (di + 4) ((2 + 2) / 3 - 1) (bi + 2) d1 = Ok (bi + 2) d1) as -> by (destruct f; reflexivity).
      exists d1. split; [reflexivity|]. split; [lia|]. replace (bi + 2) with (bi + 1 + 1) by lia. rewrite T0, T, <- app_assoc. f_equal. cbn [app].
      subst n. change (64 ^ 3) with 262144. change (64 ^ 2) with 4096. change (64 ^ 1) with 64. f_equal; [lia|]. f_equal. lia.
    + apply bytes_cons in B as [Ha B]. apply bytes_cons in B as [Hb B]. apply bytes_cons in B as [Hc B]. cbn [enc64 app] in Ex. set (n := (a * 256 + b) * 256 + c) in *.
      destruct (zdrop_znth _ _ _ _ Hdi Ex) as [N0 Ex1]. assert (0 <= di + 1) as Hdi1 by lia. destruct (zdrop_znth _ _ _ _ Hdi1 Ex1) as [N1 Ex2].
      replace (di + 1 + 1) with (di + 2) in Ex2 by lia. assert (0 <= di + 2) as Hdi2 by lia. destruct (zdrop_znth _ _ _ _ Hdi2 Ex2) as [N2 Ex3].
      replace (di + 2 + 1) with (di + 3) in Ex3 by lia. assert (0 <= di + 3) as Hdi3 by lia. destruct (zdrop_znth _ _ _ _ Hdi3 Ex3) as [N3 Ex4].
      replace (di + 3 + 1) with (di + 4) in Ex4 by lia.
      rewrite !zlen_cons in Hd. zl. cbn [dec_loop].
      replace (zlen (a :: b :: c :: r)) with (3 + zlen r) by (rewrite !zlen_cons; lia).
      replace ((3 + zlen r + 2) / 3 <=? 0) with false by lia.
      rdt N0. unfold digit at 1. rdt (Inv (n / 64 ^ 3 mod 64) ltac:(apply Z.mod_pos_bound; reflexivity)).
      rdt N1. unfold digit at 1. rdt (Inv (n / 64 ^ 2 mod 64) ltac:(apply Z.mod_pos_bound; reflexivity)).
      rewrite bits_e0 by (apply Z.mod_pos_bound; reflexivity). wrt. rdt N2.
      assert (digit alpha n 1 <> 61) as D1 by (apply A1; apply Z.mod_pos_bound; reflexivity).
      replace (digit alpha n 1 =? 61) with false by lia. cbn [negb].
      unfold digit at 1. rdt (Inv (n / 64 ^ 1 mod 64) ltac:(apply Z.mod_pos_bound; reflexivity)).
      rewrite bits_e1 by (apply Z.mod_pos_bound; reflexivity). wrt. rdt N3.
      assert (digit alpha n 0 <> 61) as D0 by (apply A1; apply Z.mod_pos_bound; reflexivity).
      replace (digit alpha n 0 =? 61) with false by lia. cbn [negb].
      unfold digit at 1. rdt (Inv (n / 64 ^ 0 mod 64) ltac:(apply Z.mod_pos_bound; reflexivity)).
      rewrite bits_e2 by (apply Z.mod_pos_bound; reflexivity). wrt.
      destruct (IH r (di + 4) (bi + 3) d2 more B) as (d' & E & L' & T'); [lia|exact Ex4|lia|cbn in Hf; lia|lia|].
      replace ((3 + zlen r + 2) / 3 - 1) with ((zlen r + 2) / 3) by lia.
      replace (bi + (3 + zlen r)) with (bi + 3 + zlen r) by lia.
      exists d'. split; [exact E|]. split; [lia|]. rewrite T'.
      replace (bi + 2) with (bi + 1 + 1) in * by lia. replace (bi + 3) with (bi + 1 + 1 + 1) by lia. rewrite T1, T0, T, <- !app_assoc. f_equal. cbn [app].
      subst n. change (64 ^ 3) with 262144. change (64 ^ 2) with 4096. change (64 ^ 1) with 64. change (64 ^ 0) with 1.
      f_equal; [lia|]. f_equal; [lia|]. f_equal. lia.
Qed.
Definition index_of (charset : option chars) : M unit chars :=
  match charset with Some cs => index_loop 64 0 cs (zrep 256 (-1)) | None => ret b64_indexes end.
Lemma selects_table charset alpha : selects charset alpha ->
  lists (table charset) alpha /\ alphabet alpha /\ exists idx, index_of charset tt = Ok idx tt /\ inverts idx alpha.
Proof.
  destruct charset as [cs|]; cbn [selects table index_of].
  - intros [H1 H2]. split; [exact H1|]. split; [exact H2|].
    apply (index_loop_spec cs alpha H1 H2 64 0 (zrep 256 (-1))); [lia|reflexivity|rewrite zlen_zrep; lia|intros; lia].
  - intros ->. split; [exact std_lists|]. split; [exact std_alphabet|]. exists b64_indexes. split; [reflexivity|exact std_inverts].
Qed.
Lemma decode_run junk fuel mem len charset idx n d' :
  index_of charset tt = Ok idx tt -> 0 <= len < W63 ->
  b64dec_buf fuel mem len idx (fresh_buffer junk (blocks_of len * 3 + 1)) = Ok n d' ->
  zlen d' = blocks_of len * 3 + 1 -> 0 <= n <= blocks_of len * 3 ->
  base64_decode junk fuel mem len charset tt = Ok (ztake n d') tt.
Proof.
  intros I Hl E Ld Hn. unfold base64_decode, b64dec. cbv zeta. fold (index_of charset). unfold bind. rewrite I.
  assert (0 <= blocks_of len <= len / 4 + 1) as Hb by (unfold blocks_of; destruct (len mod 4 =? 0); lia).
  rewrite (u64_id (blocks_of len * 3)) by (unfold W63, W64 in *; lia). rewrite u64_id by (unfold W63, W64 in *; lia).
  unfold on_buffer. fold (fresh_buffer junk (blocks_of len * 3 + 1)). rewrite E.
  destruct (wr_ok n 0 d') as (d2 & W2 & L2 & T2); [lia|]. rewrite W2. cbn [ret fst snd].
  replace (n <=? zlen d2) with true by lia. unfold ret. f_equal.
  transitivity (ztake n (ztake (n + 1) d2)).
  - unfold ztake. rewrite firstn_firstn. f_equal. lia.
  - rewrite T2. replace n with (zlen (ztake n d')) at 1 by (rewrite zlen_ztake; lia). apply ztake_app_exact.
Qed.
Lemma decode_encoded junk fuel x charset alpha :
  selects charset alpha -> bytes x -> zlen (enc64 alpha x) < W63 -> (length x <= fuel)%nat ->
  base64_decode junk fuel (enc64 alpha x) (zlen (enc64 alpha x)) charset tt = Ok x tt.
Proof.
  intros S B L Hf. destruct (selects_table _ _ S) as (H1 & H2 & idx & I & H3). rewrite enc64_len in *. zl.
  assert (blocks_of ((zlen x + 2) / 3 * 4) = (zlen x + 2) / 3) as Bl.
  { unfold blocks_of. rewrite Z.mod_mul by lia. rewrite Z.div_mul by lia. cbn. lia. }
  pose proof (fresh_len junk ((zlen x + 2) / 3 * 3 + 1) ltac:(lia)) as Lb.
  destruct (dec_enc (enc64 alpha x) idx alpha H2 H3 fuel x 0 0 (fresh_buffer junk ((zlen x + 2) / 3 * 3 + 1)) [] B) as (d' & E & L1 & T1);
    [lia|rewrite zdrop_0, app_nil_r by lia; reflexivity|lia|exact Hf|lia|].
  rewrite (decode_run junk fuel _ _ charset idx (0 + zlen x) d' I); [|lia|unfold b64dec_buf; rewrite Bl; exact E|rewrite Bl; lia|rewrite Bl; lia].
  f_equal. rewrite T1. rewrite (ztake_0 0) by lia. reflexivity.
Qed.
Lemma roundtrip junk1 junk2 fuel x charset alpha :
  selects charset alpha -> bytes x -> zlen x < 2 ^ 62 -> (length x <= fuel)%nat ->
  exists e, base64_encode junk1 fuel x charset tt = Ok e tt /\ base64_decode junk2 fuel e (zlen e) charset tt = Ok x tt.
Proof.
  intros S B L Hf. exists (enc64 alpha x). change (2 ^ 62) with 4611686018427387904 in L. split.
  - apply encode_spec; auto; [apply selects_table; exact S|unfold W63; lia].
  - apply decode_encoded; auto. rewrite enc64_len. unfold W63. zl. lia.
Qed.
Lemma encode_injective junk1 junk2 fuel x y charset alpha e :
  selects charset alpha -> bytes x -> bytes y -> zlen x < 2 ^ 62 -> zlen y < 2 ^ 62 -> (length x <= fuel)%nat -> (length y <= fuel)%nat ->
  base64_encode junk1 fuel x charset tt = Ok e tt -> base64_encode junk2 fuel y charset tt = Ok e tt -> x = y.
Proof.
  intros S Bx By Lx Ly Fx Fy Ex Ey.
  destruct (roundtrip junk1 junk1 fuel x charset alpha S Bx Lx Fx) as (e1 & E1 & D1).
  destruct (roundtrip junk2 junk1 fuel y charset alpha S By Ly Fy) as (e2 & E2 & D2). congruence.
Qed.
Lemma decode_safe junk fuel mem len charset alpha :
  selects charset alpha -> bytes mem -> 0 <= len < W63 -> len mod 4 = 0 -> len <= zlen mem -> (Z.to_nat len <= fuel)%nat ->
  exists x, base64_decode junk fuel mem len charset tt = Ok x tt /\ zlen x <= len / 4 * 3.
Proof.
  intros S B Hl M4 Lm Hf. destruct (selects_table _ _ S) as (_ & _ & idx & I & [Li _]).
  assert (blocks_of len = len / 4) as Bl by (unfold blocks_of; rewrite M4; cbn; lia).
  pose proof (fresh_len junk (len / 4 * 3 + 1) ltac:(lia)) as Lb.
  destruct (dec_safe mem idx B Li fuel 0 (len / 4) 0 (fresh_buffer junk (len / 4 * 3 + 1))) as (n & d' & E & Q1 & Q2); try lia.
  exists (ztake n d'). split; [|rewrite zlen_ztake; lia].
  apply (decode_run junk fuel mem len charset idx n d' I); [lia|unfold b64dec_buf; rewrite Bl; exact E|rewrite Bl; lia|rewrite Bl; lia].
Qed.

(** Input whose length is not a multiple of four. *)
Lemma rdm_out (l : chars) i d : ~ (0 <= i < zlen l) -> rdm l i d = Undef UbBounds.
Proof. intros H. unfold rdm. destruct (znth i l) eqn:E; [|reflexivity]. apply znth_inv in E. lia. Qed.
Ltac rdo := unfold bind at 1; rewrite rdm_out by lia; reflexivity.
Definition short_result (padded : Prop) (lo hi n : Z) (o : res chars Z) : Prop :=
  (padded /\ exists k d', o = Ok k d' /\ lo <= k <= hi /\ zlen d' = n) \/ (~ padded /\ o = Undef UbBounds).
Lemma dec_short data idx : bytes data -> zlen idx = 256 ->
  forall fuel di blocks bi d r, 0 <= di -> 0 <= bi -> 0 < blocks -> (Z.to_nat blocks <= fuel)%nat -> 0 < r < 4 ->
  zlen data = di + 4 * (blocks - 1) + r -> bi + 3 * blocks <= zlen d ->
  short_result (r = 3 /\ znth (zlen data - 1) data = Some 61) bi (bi + 3 * blocks) (zlen d) (dec_loop fuel data idx di blocks bi d).
Proof.
  intros B Li. induction fuel as [|f IH]; intros di blocks bi d r Hdi Hbi Hb Hf Hr Hd Hn; cbn [dec_loop].
  - lia.
  - replace (blocks <=? 0) with false by lia.
    destruct (bytes_znth data di B) as (c0 & N0 & R0); [lia|]. destruct (znth_idx idx c0 Li R0) as (x0 & X0). rdt N0. rdt X0.
    destruct (Z.eq_dec blocks 1) as [->|Nb].
    + destruct (Z.eq_dec r 1) as [->|R1]. { right. split; [intros [X _]; lia|]. rdo. }
      destruct (bytes_znth data (di + 1) B) as (c1 & N1 & R1'); [lia|]. destruct (znth_idx idx c1 Li R1') as (x1 & X1). rdt N1. rdt X1. wrt.
      destruct (Z.eq_dec r 2) as [->|R2]. { right. split; [intros [X _]; lia|]. rdo. }
      destruct (bytes_znth data (di + 2) B) as (c2 & N2 & R2'); [lia|]. destruct (znth_idx idx c2 Li R2') as (x2 & X2). rdt N2.
      replace (zlen data - 1) with (di + 2) by lia. rewrite N2.
      destruct (Z.eqb_spec c2 61) as [->|C2]; cbn [negb].
      * left. split; [split; [lia|reflexivity]|]. exists (bi + 1), d0. split; [destruct f; reflexivity|]. lia.
      * right. split; [intros [_ X]; congruence|]. rdt X2. wrt. rdo.
    + destruct (bytes_znth data (di + 1) B) as (c1 & N1 & R1); [lia|].
      destruct (bytes_znth data (di + 2) B) as (c2 & N2 & R2); [lia|]. destruct (bytes_znth data (di + 3) B) as (c3 & N3 & R3); [lia|].
      destruct (znth_idx idx c1 Li R1) as (x1 & X1).
      destruct (znth_idx idx c2 Li R2) as (x2 & X2). destruct (znth_idx idx c3 Li R3) as (x3 & X3).
      rdt N1. rdt X1. wrt. rdt N2. destruct (negb (c2 =? 61)).
      * rdt X2. wrt. rdt N3. destruct (negb (c3 =? 61)).
        -- rdt X3. wrt. destruct (IH (di + 4) (blocks - 1) (bi + 3) d2 r) as [(Q & n & d' & E & Q1 & Q2)|Q]; try lia; [left|right; exact Q].
           split; [exact Q|]. exists n, d'. split; [exact E|]. lia.
        -- destruct (IH (di + 4) (blocks - 1) (bi + 2) d1 r) as [(Q & n & d' & E & Q1 & Q2)|Q]; try lia; [left|right; exact Q].
           split; [exact Q|]. exists n, d'. split; [exact E|]. lia.
      * destruct (IH (di + 4) (blocks - 1) (bi + 1) d0 r) as [(Q & n & d' & E & Q1 & Q2)|Q]; try lia; [left|right; exact Q].
        split; [exact Q|]. exists n, d'. split; [exact E|]. lia.
Qed.
(** Exactly which inputs are decoded without reading past their end, for a buffer that ends where the input does. *)
Lemma decode_exact junk fuel data charset alpha :
  selects charset alpha -> bytes data -> zlen data < W63 -> (length data <= fuel)%nat ->
  ((zlen data mod 4 = 0 \/ ends_padded data) /\
   exists x, base64_decode junk fuel data (zlen data) charset tt = Ok x tt /\ zlen x <= (zlen data + 3) / 4 * 3) \/
  (zlen data mod 4 <> 0 /\ ~ ends_padded data /\ base64_decode junk fuel data (zlen data) charset tt = Undef UbBounds).
Proof.
  intros S B Hl Hf. zl. assert (Z.of_nat (length data) = zlen data) as Ln by reflexivity. destruct (Z.eq_dec (zlen data mod 4) 0) as [M|M].
  - left. split; [auto|]. destruct (decode_safe junk fuel data (zlen data) charset alpha) as (x & E & Lx); auto; try lia.
    exists x. split; [exact E|]. lia.
  - destruct (selects_table _ _ S) as (_ & _ & idx & I & [Li _]).
    assert (blocks_of (zlen data) = zlen data / 4 + 1) as Bl by (unfold blocks_of; destruct (Z.eqb_spec (zlen data mod 4) 0); lia).
    pose proof (fresh_len junk ((zlen data / 4 + 1) * 3 + 1) ltac:(lia)) as Lb.
    destruct (dec_short data idx B Li fuel 0 (zlen data / 4 + 1) 0 (fresh_buffer junk ((zlen data / 4 + 1) * 3 + 1)) (zlen data mod 4))
      as [([Q Q'] & n & d' & E & Q1 & Q2)|[Q E]]; try lia.
    + left. split; [right; split; assumption|]. exists (ztake n d'). split; [|rewrite zlen_ztake; lia].
      apply (decode_run junk fuel data (zlen data) charset idx n d' I); [lia|unfold b64dec_buf; rewrite Bl; exact E|rewrite Bl; lia|rewrite Bl; lia].
    + right. split; [exact M|]. split; [exact Q|]. unfold base64_decode, b64dec. cbv zeta. fold (index_of charset). unfold bind. rewrite I.
      rewrite Bl. rewrite (u64_id ((zlen data / 4 + 1) * 3)) by (unfold W63, W64 in *; lia). rewrite u64_id by (unfold W63, W64 in *; lia).
      unfold on_buffer. fold (fresh_buffer junk ((zlen data / 4 + 1) * 3 + 1)). unfold b64dec_buf. rewrite Bl, E. reflexivity.
Qed.
(** A custom charset with a character above 127 indexes the table at a negative position. *)
Lemma index_negative cs : bytes cs -> forall n i idx k c, 0 <= i <= k -> k < i + Z.of_nat n -> i + Z.of_nat n <= zlen cs -> zlen idx = 256 ->
  znth k cs = Some c -> 128 <= c -> index_loop n i cs idx tt = Undef UbBounds.
Proof.
  intros B. induction n as [|n IH]; intros i idx k c Hi Hk Hn L N C; [lia|]. cbn [index_loop].
  destruct (bytes_znth cs i B) as (c' & N' & R'); [lia|]. rewrite N'. unfold char_int. destruct (Z.ltb_spec c' 128).
  - replace (_ && _) with true by (symmetry; apply andb_true_intro; lia). assert (i <> k) as X by (intros ->; rewrite N in N'; injection N' as ->; lia).
    assert (zlen [i] = 1) as L1 by reflexivity.
    apply (IH (i + 1) _ k c); auto; try lia. rewrite zlen_zupd; lia.
  - replace (_ && _) with false by (symmetry; apply andb_false_intro1; lia). reflexivity.
Qed.
Lemma decode_high_charset junk fuel mem len cs k c :
  bytes cs -> 64 <= zlen cs -> 0 <= k < 64 -> znth k cs = Some c -> 128 <= c ->
  base64_decode junk fuel mem len (Some cs) tt = Undef UbBounds.
Proof.
  intros B L Hk N C. unfold base64_decode, b64dec. cbv zeta. unfold bind.
  rewrite (index_negative cs B 64 0 (zrep 256 (-1)) k c); auto; lia.
Qed.
