(** Proofs about writing Strings to an ostream. *)
From Coq Require Import ZifyBool.
From Verif Require Import RcaSpec RcaModel RcaExec RcaInv RcaOwn RcaRel RcaRel2 RcaMeet RcaReach RcaFacts AlgModel AlgMeet AlgRules HsProof OsSpec OsModel.
Open Scope Z_scope.

Section Stream.
Variable marks : bool.
Implicit Types (o : ostream).
Notation insert_char := (insert_char marks).
Notation insert_chars := (insert_chars marks).

Lemma takes_le o n m : takes o n -> m <= n -> takes o m.
Proof. intros T L k Hk. apply T. lia. Qed.
Lemma sputc_ok c o n : takes o n -> 0 < n -> sputc c o = with_out o (os_out o ++ [c]).
Proof. intros T L. unfold sputc. specialize (T 0 ltac:(lia)). rewrite Z.add_0_r in T. rewrite T. reflexivity. Qed.
Lemma with_out_same o : with_out o (os_out o) = o.
Proof. destruct o. reflexivity. Qed.
Lemma takes_more o l n : takes o (zlen l + n) -> takes (with_out o (os_out o ++ l)) n.
Proof. intros T k Hk. cbn. rewrite zlen_app, <- Z.add_assoc. apply T. pose proof (zlen_nonneg l). lia. Qed.
Lemma pad_ok n : forall o, os_good o = true -> takes o (Z.of_nat n) -> pad n o = with_out o (os_out o ++ zrep (Z.of_nat n) (os_fill o)).
Proof.
  induction n as [|n IH]; intros o G T.
  - cbn [pad]. change (Z.of_nat 0) with 0. unfold zrep. cbn. rewrite app_nil_r, with_out_same. reflexivity.
  - cbn [pad]. rewrite (sputc_ok _ o _ T) by lia. cbn [with_out os_good os_eof os_fail os_bad]. change (os_good (with_out o (os_out o ++ [os_fill o]))) with (os_good o).
    rewrite G, IH; [|exact G|apply takes_more; unfold zlen; cbn [length]; replace (Z.of_nat 1 + Z.of_nat n) with (Z.of_nat (S n)) by lia; exact T].
    unfold zrep. rewrite !Nat2Z.id. cbn [repeat with_out os_out os_fill os_eof os_fail os_bad os_width os_left os_takes]. rewrite <- app_assoc. reflexivity.
Qed.
Lemma insert_field c o : os_good o = true -> takes o (Z.max 1 (os_width o)) -> insert_char c o = wrote o (field o c).
Proof.
  intros G T. unfold OsModel.insert_char. rewrite G. cbn [negb]. set (n := Z.to_nat (os_width o - 1)).
  assert (zrep (Z.of_nat n) (os_fill o) = padding o) as Ep by (unfold zrep, padding, zrep, n; rewrite Nat2Z.id; reflexivity).
  unfold field. destruct (os_left o) eqn:L.
  - rewrite G, (sputc_ok _ o _ T) by lia. cbn [andb]. change (os_good (with_out o (os_out o ++ [c]))) with (os_good o). rewrite G.
    rewrite pad_ok; [|exact G|apply takes_more; unfold zlen; cbn [length]; eapply takes_le; [exact T|lia]].
    unfold wrote, with_out, set_width. cbn [os_out os_fill os_eof os_fail os_bad os_width os_left os_takes]. rewrite Ep, <- app_assoc. reflexivity.
  - rewrite pad_ok; [|exact G|eapply takes_le; [exact T|lia]]. rewrite Ep. change (os_good (with_out o (os_out o ++ padding o))) with (os_good o). rewrite G.
    rewrite (sputc_ok _ _ 1); [|apply takes_more; eapply takes_le; [exact T|unfold padding; rewrite zlen_zrep; lia]|lia].
    unfold wrote, with_out, set_width. cbn [andb os_out os_fill os_eof os_fail os_bad os_width os_left os_takes]. rewrite <- app_assoc. reflexivity.
Qed.
Lemma field_plain c o : os_width o <= 1 -> field o c = [c].
Proof. intros W. unfold field, padding, zrep. replace (Z.to_nat (os_width o - 1)) with 0%nat by lia. destruct (os_left o); reflexivity. Qed.
Lemma insert_plain c o : os_good o = true -> os_width o <= 1 -> takes o 1 -> insert_char c o = wrote o [c].
Proof. intros G W T. rewrite insert_field; [|exact G|replace (Z.max 1 (os_width o)) with 1 by lia; exact T]. rewrite field_plain by exact W. reflexivity. Qed.
Lemma wrote_wrote o l m : wrote (wrote o l) m = wrote o (l ++ m).
Proof. unfold wrote. cbn. rewrite app_assoc. reflexivity. Qed.
Lemma takes_wrote o l n : takes o (zlen l + n) -> takes (wrote o l) n.
Proof. exact (takes_more o l n). Qed.
Lemma chars_after l : forall o m, os_good o = true -> takes o (zlen m + zlen l) -> insert_chars l (wrote o m) = wrote o (m ++ l).
Proof.
  induction l as [|c l IH]; intros o m G T; cbn [OsModel.insert_chars]; [rewrite app_nil_r; reflexivity|]. rewrite zlen_cons in T. pose proof (zlen_nonneg l).
  rewrite insert_plain; [|exact G|cbn; lia|apply takes_wrote; eapply takes_le; [exact T|lia]]. rewrite wrote_wrote, IH; [rewrite <- app_assoc; reflexivity|exact G|].
  rewrite zlen_app. eapply takes_le; [exact T|unfold zlen at 2; cbn [length]; lia].
Qed.
Lemma chars_field c l o : os_good o = true -> takes o (Z.max 1 (os_width o) + zlen l) -> insert_chars (c :: l) o = wrote o (field o c ++ l).
Proof.
  intros G T. cbn [OsModel.insert_chars]. pose proof (zlen_nonneg l). rewrite insert_field; [|exact G|eapply takes_le; [exact T|lia]]. apply chars_after; [exact G|].
  eapply takes_le; [exact T|]. unfold field, padding. destruct (os_left o); rewrite ?zlen_cons, ?zlen_app, ?zlen_cons, zlen_zrep, ?zlen_nil; lia.
Qed.
Lemma chars_plain l o : os_good o = true -> os_width o <= 1 -> takes o (zlen l) -> insert_chars l o = match l with [] => o | _ => wrote o l end.
Proof.
  intros G W T. destruct l as [|c l]; [reflexivity|]. rewrite zlen_cons in T. rewrite chars_field; [|exact G|eapply takes_le; [exact T|lia]].
  rewrite field_plain by exact W. reflexivity.
Qed.
Lemma insert_bad c o : os_good o = false -> insert_char c o = if marks then set_fail o else o.
Proof. intros G. unfold OsModel.insert_char. rewrite G. reflexivity. Qed.
Lemma set_fail_bad o : os_good (set_fail o) = false.
Proof. unfold os_good. cbn. rewrite orb_true_r. reflexivity. Qed.
Lemma chars_bad l : forall o, os_good o = false -> insert_chars l o = match l with [] => o | _ => if marks then set_fail o else o end.
Proof.
  induction l as [|c l IH]; intros o G; cbn [OsModel.insert_chars]; [reflexivity|]. rewrite insert_bad by exact G. destruct marks.
  - rewrite IH by apply set_fail_bad. destruct l; reflexivity.
  - rewrite IH by exact G. destruct l; reflexivity.
Qed.
Lemma insert_refused c o : os_good o = true -> os_width o <= 1 -> os_takes o (zlen (os_out o)) = false -> insert_char c o = set_width (set_bad o) 0.
Proof.
  intros G W T. unfold OsModel.insert_char. rewrite G. cbn [negb]. replace (Z.to_nat (os_width o - 1)) with 0%nat by lia. cbn [pad].
  replace (if os_left o then o else o) with o by (destruct (os_left o); reflexivity). rewrite G. unfold sputc. rewrite T.
  assert (os_good (set_bad o) = false) as -> by (unfold os_good; cbn; rewrite orb_true_r; reflexivity). rewrite andb_false_r. reflexivity.
Qed.
Lemma chars_refused l1 c l2 o : os_good o = true -> os_width o <= 1 -> takes o (zlen l1) -> os_takes o (zlen (os_out o) + zlen l1) = false ->
  insert_chars (l1 ++ c :: l2) o = OS (os_out o ++ l1) (os_eof o) (match l2 with [] => false | _ => marks end) true 0 (os_fill o) (os_left o) (os_takes o).
Proof.
  intros G W T F.
  assert (forall a b o, insert_chars (a ++ b) o = insert_chars b (insert_chars a o)) as App.
  { clear. intros a. induction a as [|x a IH]; intros b o; [reflexivity|]. apply IH. }
  assert (os_fail o = false) as Hf by (unfold os_good in G; destruct (os_fail o); [rewrite orb_true_r in G; discriminate|reflexivity]).
  rewrite App, (chars_plain l1 o) by assumption. cbn [OsModel.insert_chars].
  assert (insert_char c (match l1 with [] => o | _ => wrote o l1 end) = OS (os_out o ++ l1) (os_eof o) false true 0 (os_fill o) (os_left o) (os_takes o)) as ->.
  { destruct l1 as [|b l1].
    - cbv iota. rewrite insert_refused; [|exact G|exact W|rewrite zlen_nil, Z.add_0_r in F; exact F]. unfold set_width, set_bad. cbn. rewrite app_nil_r, Hf. reflexivity.
    - rewrite insert_refused; [|exact G|cbn; lia|cbn [wrote os_takes os_out]; rewrite zlen_app; exact F]. unfold set_width, set_bad. cbn. rewrite Hf. reflexivity. }
  rewrite chars_bad by (unfold os_good; cbn; rewrite orb_true_r; reflexivity). destruct l2 as [|y l2]; [reflexivity|]. destruct marks; reflexivity.
Qed.

(** In any case what is written is a beginning of the text. *)
Lemma sputc_any c o : (sputc c o = with_out o (os_out o ++ [c])) \/ (sputc c o = set_bad o).
Proof. unfold sputc. destruct (os_takes _ _); auto. Qed.
Definition adds o o' (p : list Z) : Prop := os_out o' = os_out o ++ p /\ os_left o' = os_left o /\ os_fill o' = os_fill o.
Lemma set_bad_not o : os_good (set_bad o) = false.
Proof. unfold os_good. cbn. rewrite orb_true_r. reflexivity. Qed.
Lemma pad_any n : forall o, os_good o = true -> exists k, (k <= n)%nat /\ adds o (pad n o) (repeat (os_fill o) k) /\ (os_good (pad n o) = true -> k = n).
Proof.
  induction n as [|n IH]; intros o G; cbn [pad].
  - exists 0%nat. split; [lia|]. split; [|auto]. split; [cbn; rewrite app_nil_r; reflexivity|auto].
  - destruct (sputc_any (os_fill o) o) as [E|E]; rewrite E.
    + change (os_good (with_out o (os_out o ++ [os_fill o]))) with (os_good o). rewrite G. destruct (IH (with_out o (os_out o ++ [os_fill o])) G) as (k & Hk & (A1 & A2 & A3) & Hg).
      exists (S k). split; [lia|]. split; [|intros Q; rewrite (Hg Q); reflexivity]. split; [|split; assumption]. rewrite A1. cbn. rewrite <- app_assoc. reflexivity.
    + rewrite set_bad_not. exists 0%nat. split; [lia|]. split; [split; [cbn; rewrite app_nil_r; reflexivity|auto]|rewrite set_bad_not; discriminate].
Qed.
Lemma prefix_repeat (f : Z) k n m : (k <= n)%nat -> repeat f k `prefix_of` repeat f n ++ m.
Proof. intros L. exists (repeat f (n - k) ++ m). rewrite app_assoc, <- repeat_app. do 2 f_equal. lia. Qed.
Lemma insert_any c o : os_good o = true -> exists p, p `prefix_of` field o c /\ adds o (insert_char c o) p /\
  (os_good (insert_char c o) = true -> p = field o c /\ os_width (insert_char c o) = 0).
Proof.
  intros G. unfold OsModel.insert_char. rewrite G. cbn [negb]. set (n := Z.to_nat (os_width o - 1)). unfold field.
  assert (padding o = repeat (os_fill o) n) as -> by reflexivity.
  assert (forall o' w, os_good (set_width o' w) = os_good o') as Gw by reflexivity.
  destruct (os_left o) eqn:L.
  - rewrite G. destruct (sputc_any c o) as [E|E]; rewrite E.
    + change (os_good (with_out o (os_out o ++ [c]))) with (os_good o). rewrite G. cbn [andb].
      destruct (pad_any n (with_out o (os_out o ++ [c])) G) as (k & Hk & (A1 & A2 & A3) & Hg). exists (c :: repeat (os_fill o) k). split; [|split].
      * destruct (prefix_repeat (os_fill o) k n [] Hk) as (z & Hz). exists z. rewrite app_nil_r in Hz. cbn. rewrite Hz. reflexivity.
      * split; [|split; assumption]. cbn. rewrite A1. cbn. rewrite <- app_assoc. reflexivity.
      * rewrite Gw. intros Q. rewrite (Hg Q). split; reflexivity.
    + rewrite set_bad_not. cbn [andb]. exists []. split; [apply prefix_nil|]. split; [split; [cbn; rewrite app_nil_r; reflexivity|auto]|]. rewrite Gw, set_bad_not. discriminate.
  - cbn [andb]. destruct (pad_any n o G) as (k & Hk & (A1 & A2 & A3) & Hg). destruct (os_good (pad n o)) eqn:G1.
    + rewrite (Hg eq_refl) in *. destruct (sputc_any c (pad n o)) as [E|E]; rewrite E.
      * exists (repeat (os_fill o) n ++ [c]). split; [reflexivity|]. split; [split; [cbn; rewrite A1, <- app_assoc; reflexivity|auto]|auto].
      * exists (repeat (os_fill o) n). split; [exists [c]; reflexivity|]. split; [split; auto|]. rewrite Gw, set_bad_not. discriminate.
    + exists (repeat (os_fill o) k). split; [apply prefix_repeat, Hk|]. split; [split; auto|]. rewrite Gw, G1. discriminate.
Qed.
Lemma chars_any l : forall o, exists p, p `prefix_of` (match l with [] => [] | c :: l' => field o c ++ l' end) /\ os_out (insert_chars l o) = os_out o ++ p.
Proof.
  induction l as [|c l IH]; intros o; cbn [OsModel.insert_chars]; [exists []; split; [reflexivity|rewrite app_nil_r; reflexivity]|].
  destruct (os_good o) eqn:G.
  - destruct (insert_any c o G) as (p & Hp & (A1 & A2 & A3) & Hg). destruct (os_good (insert_char c o)) eqn:G1.
    + destruct (Hg eq_refl) as (-> & W). destruct (IH (insert_char c o)) as (q & Hq & Eq). exists (field o c ++ q). split.
      * apply prefix_app. destruct l as [|c1 l]; [exact Hq|]. rewrite field_plain in Hq by lia. exact Hq.
      * rewrite Eq, A1, <- app_assoc. reflexivity.
    + rewrite chars_bad by exact G1. exists p. split.
      * destruct Hp as (z & Hz). exists (z ++ l). rewrite Hz, <- app_assoc. reflexivity.
      * destruct l; [exact A1|]. destruct marks; exact A1.
  - rewrite insert_bad by exact G. exists []. split; [apply prefix_nil|]. rewrite app_nil_r. rewrite chars_bad by (destruct marks; [apply set_fail_bad|exact G]).
    destruct l; destruct marks; reflexivity.
Qed.
End Stream.

Section Heap.
Context (d : desc Z) (Hwf : wf_desc d).
Variable marks : bool.
Implicit Types (o : ostream) (s : state Z) (a : astate Z).
Notation reached := (reached d).

Lemma hput_is s a x l o : reached s a -> is_str a x l -> hput marks x (o, s) = Ok tt (insert_chars marks l o, s).
Proof. intros H Hx. unfold hput, bind, on_heap. cbn [fst snd]. rewrite (contents_str d Hwf s a x l H Hx). reflexivity. Qed.
Lemma shared_some s a x l : reached s a -> is_str a x l -> exists b, is_shared x s = Ok b s.
Proof.
  intros H (r & Hx). pose proof (reached_R d s a Hwf H) as HR. destruct (R_held d _ _ _ _ _ HR Hx) as (o & Hh).
  destruct (is_shared_eq d s x o (proj1 HR) (hd_env _ _ _ _ _ _ Hh)) as (b & E & _). eauto.
Qed.
Lemma hput_rv_is dbg s a x l o : reached s a -> is_str a x l -> (dbg = true -> is_shared x s = Ok false s) -> hput_rv marks dbg x (o, s) = hput marks x (o, s).
Proof.
  intros H Hx D. destruct (shared_some s a x l H Hx) as (b & E). unfold hput_rv, bind at 1, on_heap at 1. cbn [fst snd]. rewrite E.
  destruct dbg; [|reflexivity]. rewrite D in E by reflexivity. injection E as <-. reflexivity.
Qed.
Lemma hput_rv_aborts s x o : is_shared x s = Ok true s -> hput_rv marks true x (o, s) = Undef Asserted.
Proof. intros E. unfold hput_rv, bind at 1, on_heap at 1. cbn [fst snd]. rewrite E. reflexivity. Qed.

Lemma hput_all_is sep xs ws : forall s a, reached s a -> Forall2 (is_str a) xs ws -> forall o, os_good o = true -> os_width o <= 1 -> takes o (zlen (ended_by sep ws)) ->
  hput_all marks xs sep (o, s) = Ok tt (match ws with [] => o | _ => wrote o (ended_by sep ws) end, s).
Proof.
  intros s a H F. induction F as [|x w xs ws Hx F IH]; intros o G W T; cbn [hput_all]; [reflexivity|].
  cbn [ended_by] in T |- *. rewrite zlen_app, zlen_cons in T. pose proof (zlen_nonneg (ended_by sep ws)). pose proof (zlen_nonneg w).
  rewrite (bind_ok _ _ _ _ _ (hput_is s a x w o H Hx)). rewrite chars_plain; [|exact G|exact W|eapply takes_le; [exact T|lia]].
  unfold bind at 1, on_os at 1. cbn [fst snd].
  assert (insert_char marks sep (match w with [] => o | _ => wrote o w end) = wrote o (w ++ [sep])) as ->.
  { destruct w as [|b w]; [apply insert_plain; [exact G|exact W|eapply takes_le; [exact T|rewrite zlen_nil; lia]]|].
    rewrite insert_plain; [apply wrote_wrote|exact G|cbn; lia|apply takes_wrote; eapply takes_le; [exact T|lia]]. }
  rewrite IH; [|exact G|cbn; lia|apply takes_wrote; rewrite zlen_app; eapply takes_le; [exact T|unfold zlen at 2; cbn [length]; lia]].
  destruct ws as [|w2 ws]; [cbn [ended_by]; reflexivity|]. rewrite wrote_wrote, <- app_assoc. reflexivity.
Qed.
End Heap.
