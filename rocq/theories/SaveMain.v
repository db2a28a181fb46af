(** The statements about saving a Stream through an AtomicFile, from the invariants. *)
From stdpp Require Import gmap.
From Verif Require Import Base StrModel StrSpec SaveSpec AtomicModel SaveModel AtomicProof AtomicName AtomicMain SaveProof.
From Coq Require Import Lia.
Open Scope Z_scope.

Section Main.
Variable mdiff : Z -> Z -> Z.
Hypothesis Hm : memcmp_ok mdiff.
Variable y : sys.
Variable mm : bool.
Notation saves := (saves y mdiff mm).
Notation save_one := (save_one y mdiff mm).

Definition fit (q : path) (s : saving) : Prop := let '(fn, _, _) := s in usual_name fn /\ ~ temp_path fn q.
Lemma fit_not_temp q fn m b : fit q (fn, m, b) -> not_temp mdiff q fn.
Proof. intros [U X] p Tp _ E. apply X. rewrite <- E. exact (temp_name_path mdiff Hm fn p U Tp). Qed.
Lemma begin_inv f l q : on_disk f q -> inv q (saved_or_old f l q) None (start f).
Proof.
  intros D. split; [|split; [intros H; discriminate|left; reflexivity]]. split.
  - intros i [g [[<-|[]] N]]. cbn [start w_now] in *. destruct (D i N) as [n [Hn Hs]]. exists n. repeat split; auto.
    left. unfold visible. rewrite N, Hn. reflexivity.
  - intros g [<-|[]] N. cbn [start w_now] in *. left. unfold visible. rewrite N. reflexivity.
Qed.
Lemma last_saved_cons q s r l v : last_saved q ((s, r) :: l) v = last_saved q l (entry q s r v).
Proof. destruct s as [[fn m] b]. reflexivity. Qed.
Lemma saves_cons s l w : saves (s :: l) w =
  match save_one s w with
  | Done r w1 => match saves l w1 with Done rs w2 => Done (r :: rs) w2 | Threw w2 => Threw w2 | Stop w2 => Stop w2 | Bad u => Bad u end
  | Threw w1 => Threw w1 | Stop w1 => Stop w1 | Bad u => Bad u
  end.
Proof. cbn [SaveModel.saves]. unfold kbind. destruct (save_one s w) as [r w1|w1|w1|]; auto. Qed.

(** All calls, and where the machine stops in one of them. *)
Lemma saves_ok q V l : forall w, inv q V None w -> Forall (fit q) l ->
  (forall fn m b, In (fn, m, b) l -> resolve fn = q -> V (Some b)) ->
  wp (saves l) (fun rs w' => length rs = length l /\ inv q V None w' /\ seen q w' = last_saved q (combine l rs) (seen q w))
    (fun _ => False)
    (fun w' => safe q V w' /\ exists l1 s l2 rs w1, l = l1 ++ s :: l2 /\ saves l1 w = Done rs w1 /\ save_one s w1 = Stop w' /\
       seen q w' = last_saved q (combine l1 rs) (seen q w)) w.
Proof.
  induction l as [|[[fn m] b] l IH]; intros w Hi F HV; unfold wp.
  { cbn. auto. }
  inversion F as [|x l0 F1 F2]; subst x l0.
  assert (Ec : cstr fn = fn) by (apply usual_cstr; apply F1).
  pose proof (save_ok y mdiff mm q V fn m b w Hi (fit_not_temp _ _ _ _ F1) Ec (HV fn m b (or_introl eq_refl))) as S. unfold wp in S.
  rewrite saves_cons. destruct (save_one (fn, m, b) w) as [r w1|w1|w1|] eqn:E; auto.
  2: { destruct S as [S1 S2]. split; [exact S1|]. exists [], (fn, m, b), l, [], w. auto. }
  destruct S as (S1 & S2 & _).
  pose proof (IH w1 S1 F2 (fun fn' m' b' I => HV fn' m' b' (or_intror I))) as R. unfold wp in R.
  destruct (saves l w1) as [rs w2|w2|w2|] eqn:E2; auto.
  - destruct R as (R1 & R2 & R3). split; [cbn; congruence|]. split; [exact R2|].
    cbn [combine]. rewrite last_saved_cons, <- S2. exact R3.
  - destruct R as (R0 & l1 & s & l2 & rs & w3 & -> & X1 & X2 & X3). split; [exact R0|].
    exists ((fn, m, b) :: l1), s, l2, (r :: rs), w3. rewrite saves_cons, E, X1.
    repeat (split; [reflexivity || assumption|]). cbn [combine]. rewrite last_saved_cons, <- S2. exact X3.
Qed.
Lemma saved_safe f l q w : safe q (saved_or_old f l q) w ->
  saved_or_old f l q (visible (w_now w) q) /\ forall r, survives (w_now w) (w_past w) q r -> saved_or_old f l q r.
Proof.
  intros [A B]. split.
  - unfold visible. destruct (f_names (w_now w) !! q) as [i|] eqn:N.
    + destruct (A i) as (n & Hn & _ & HV); [exists (w_now w); split; [left; reflexivity|exact N]|]. rewrite Hn. exact HV.
    + apply (B (w_now w)); [left; reflexivity|exact N].
  - intros r (g & I & H). destruct (f_names g !! q) as [i|] eqn:N.
    + destruct H as (b & -> & H). destruct (A i) as (n & Hn & Hs & HV); [exists g; auto|]. rewrite (H n Hn Hs). exact HV.
    + subst r. exact (B g I N).
Qed.
Lemma saves_stop f l q w : on_disk f q -> Forall (fit q) l -> ended (saves l (start f)) w ->
  saved_or_old f l q (visible (w_now w) q) /\ forall r, survives (w_now w) (w_past w) q r -> saved_or_old f l q r.
Proof.
  intros D F E. apply saved_safe.
  assert (HV : forall fn m b, In (fn, m, b) l -> resolve fn = q -> saved_or_old f l q (Some b)) by (intros fn m b I R; right; exists fn, m, b; auto).
  pose proof (saves_ok q (saved_or_old f l q) l (start f) (begin_inv f l q D) F HV) as R.
  unfold wp in R. destruct E as [E|[a E]]; rewrite E in R; [apply R|apply R].
Qed.
Lemma saves_end f l q rs w : on_disk f q -> Forall (fit q) l -> saves l (start f) = Done rs w ->
  visible (w_now w) q = last_saved q (combine l rs) (visible f q).
Proof.
  intros D F E. pose proof (saves_ok q (saved_or_old f l q) l (start f) (begin_inv f l q D) F) as R. unfold wp in R. rewrite E in R.
  apply R. intros fn m b I X. right. exists fn, m, b. auto.
Qed.
Lemma saves_middle f l q w : on_disk f q -> Forall (fit q) l -> saves l (start f) = Stop w ->
  exists l1 s l2 rs w1, l = l1 ++ s :: l2 /\ saves l1 (start f) = Done rs w1 /\ save_one s w1 = Stop w /\
    visible (w_now w) q = last_saved q (combine l1 rs) (visible f q).
Proof.
  intros D F E. pose proof (saves_ok q (saved_or_old f l q) l (start f) (begin_inv f l q D) F) as R. unfold wp in R. rewrite E in R.
  apply R. intros fn m b I X. right. exists fn, m, b. auto.
Qed.
Lemma saves_app l l' : forall w, saves (l ++ l') w =
  match saves l w with
  | Done rs w1 => match saves l' w1 with Done rs' w2 => Done (rs ++ rs') w2 | Threw w2 => Threw w2 | Stop w2 => Stop w2 | Bad u => Bad u end
  | Threw w1 => Threw w1 | Stop w1 => Stop w1 | Bad u => Bad u
  end.
Proof.
  induction l as [|s l IH]; intros w.
  - cbn [app SaveModel.saves]. unfold kret. destruct (saves l' w); reflexivity.
  - cbn [app]. rewrite !saves_cons. destruct (save_one s w) as [r w1|w1|w1|]; auto. rewrite IH.
    destruct (saves l w1) as [rs w2|w2|w2|]; auto. destruct (saves l' w2); reflexivity.
Qed.
(** A call that reported success, whatever was there before. *)
Lemma saved f l fn m b rs w : Forall (fun s => usual_name (fst (fst s))) (l ++ [(fn, m, b)]) ->
  saves (l ++ [(fn, m, b)]) (start f) = Done (rs ++ [Some true]) w ->
  visible (w_now w) (resolve fn) = Some b /\ (m <> no_mode -> mode_at (w_now w) (resolve fn) = Some m).
Proof.
  intros F E. destruct (idle_path f) as (q & Q1 & Q2).
  assert (F' : Forall (fit q) (l ++ [(fn, m, b)])).
  { eapply List.Forall_impl; [|exact F]. intros [[fn' m'] b'] U. split; [exact U|apply Q2]. }
  assert (D : on_disk f q) by (intros i X; congruence).
  rewrite saves_app in E.
  pose proof (saves_ok q (fun _ => True) l (start f)) as R. unfold wp in R.
  destruct (saves l (start f)) as [rs1 w1|w1|w1|] eqn:E1; try discriminate.
  apply Forall_app in F' as [F1 F2]. inversion F2 as [|x l0 F3 _]; subst.
  assert (I0 : inv q (fun _ => True) None (start f)).
  { destruct (begin_inv f [] q D) as ([X1 X2] & X3 & X4). split; [|split; assumption]. split; [|auto].
    intros i Hi. destruct (X1 i Hi) as (n & A & B & _). exists n; auto. }
  destruct (R I0 F1 (fun _ _ _ _ _ => I)) as (_ & I1 & _).
  rewrite saves_cons in E.
  assert (Ec : cstr fn = fn) by (apply usual_cstr; apply F3).
  pose proof (save_ok y mdiff mm q (fun _ => True) fn m b w1 I1 (fit_not_temp _ _ _ _ F3) Ec (fun _ => I)) as S. unfold wp in S.
  destruct (save_one (fn, m, b) w1) as [r w2|w2|w2|] eqn:E2; try discriminate. cbn [SaveModel.saves] in E. unfold kret in E.
  injection E as E3 E4. subst w2. apply app_inj_tail in E3 as [_ ->].
  destruct S as (_ & _ & S). destruct (S eq_refl) as [S1 S2]. rewrite Ec in S1, S2. auto.
Qed.

(** What writeFile leaves as it is. *)
Definition mild (w w' : world) : Prop :=
  f_names (w_now w') = f_names (w_now w) /\ w_obj w' = w_obj w /\ f_fds (w_now w') = f_fds (w_now w) /\ exists l, w_log w' = l ++ w_log w.
Definition mildly {A} (m : K A) : Prop := forall w a w', m w = Done a w' -> mild w w'.
Lemma mild_trans w1 w2 w3 : mild w1 w2 -> mild w2 w3 -> mild w1 w3.
Proof. intros (A & B & C & l & D) (A' & B' & C' & l' & D'). repeat split; try congruence. exists (l' ++ l). rewrite D', D, app_assoc. reflexivity. Qed.
Lemma mildly_bind {A B} (m : K A) (k : A -> K B) : mildly m -> (forall a, mildly (k a)) -> mildly (kbind m k).
Proof.
  intros H1 H2 w b w' E. unfold kbind in E. destruct (m w) as [a w1|w1|w1|] eqn:E1; try discriminate.
  eapply mild_trans; [exact (H1 _ _ _ E1)|exact (H2 _ _ _ _ E)].
Qed.
Lemma mildly_ret {A} (a : A) : mildly (kret a).
Proof. intros w b w' E. injection E as _ <-. repeat split. exists []. reflexivity. Qed.
Lemma mildly_if {A} (b : bool) (m n : K A) : mildly m -> mildly n -> mildly (if b then m else n). Proof. destruct b; auto. Qed.
Lemma mildly_upd c d g (h : bool -> bool) : mildly (kernel y c (fun fail => upd_inode d g (h fail))).
Proof.
  intros w r w' E. unfold kernel in E. destruct (y_stop y (w_tick w)); [discriminate|].
  destruct (upd_inode d g _ (w_now w)) as [r' f] eqn:U. injection E as -> <-. unfold mild. cbn [w_now w_obj w_log].
  unfold upd_inode in U. destruct (open_fd (w_now w) d) as [i|]; [|injection U as _ <-; repeat split; exists [(c, r)]; reflexivity].
  destruct (h _); [injection U as _ <-; repeat split; exists [(c, r)]; reflexivity|].
  destruct (f_inodes (w_now w) !! i); injection U as _ <-; repeat split; exists [(c, r)]; reflexivity.
Qed.
Lemma mildly_plain c : mildly (plain y c).
Proof.
  intros w r w' E. unfold plain, kernel in E. destruct (y_stop y (w_tick w)); [discriminate|]. injection E as E <-.
  repeat split. eexists [_]. reflexivity.
Qed.
Lemma mildly_memcpy d b : forall i, mildly (memcpy y d i b).
Proof.
  induction b as [|c b IH]; intros i; cbn [memcpy]; [apply mildly_ret|]. apply mildly_bind; [exact (mildly_upd CWrite d _ (fun _ => false))|intros r; apply IH].
Qed.
Lemma mildly_mmap d b : mildly (write_mmap y d b).
Proof.
  unfold write_mmap. apply mildly_bind; [exact (mildly_upd CTruncate d _ (fun f => f))|intros r]. apply mildly_if; [apply mildly_ret|].
  apply mildly_if; [apply mildly_ret|]. apply mildly_bind; [apply mildly_plain|intros r']. apply mildly_if; [apply mildly_ret|].
  apply mildly_bind; [apply mildly_memcpy|intros u]. apply mildly_plain.
Qed.
Lemma mildly_fwrite d b : mildly (fwrite y d b).
Proof.
  induction b as [|c b IH]; cbn [fwrite]; [apply mildly_ret|]. apply mildly_bind; [exact (mildly_upd CWrite d _ (fun f => f))|intros r].
  apply mildly_if; [apply mildly_ret|exact IH].
Qed.
(** The descriptors are the same, unless closing one failed. *)
Definition clean (w w' : world) : Prop :=
  f_names (w_now w') = f_names (w_now w) /\ w_obj w' = w_obj w /\
  exists l, w_log w' = l ++ w_log w /\ ((forall d, is_Some (f_fds (w_now w') !! d) -> is_Some (f_fds (w_now w) !! d)) \/ lost l).
Lemma mild_clean w w' : mild w w' -> clean w w'.
Proof. intros (A & B & C & l & D). split; [exact A|]. split; [exact B|]. exists l. split; [exact D|]. left. rewrite C. auto. Qed.
Lemma dup_exact d w k w1 : dup y d w = Done k w1 ->
  f_names (w_now w1) = f_names (w_now w) /\ w_obj w1 = w_obj w /\ (exists l, w_log w1 = l ++ w_log w) /\
  (k = -1 /\ f_fds (w_now w1) = f_fds (w_now w) \/ 0 <= k /\ exists i, f_fds (w_now w1) = <[k := i]> (f_fds (w_now w))).
Proof.
  unfold dup. destruct (y_pick y (w_tick w)) as [[suf k'] i0]. unfold kbind, kernel, kret.
  destruct (y_stop y (w_tick w)); [discriminate|]. destruct (open_fd (w_now w) d) as [i|].
  - destruct (open_fd (w_now w) k').
    + intros E. injection E as <- <-. cbn. repeat split; eauto. eexists [_]; reflexivity.
    + destruct (_ || _) eqn:F; intros E; injection E as <- <-; cbn; (split; [reflexivity|]; split; [reflexivity|]; split; [eexists [_]; reflexivity|]); [auto|].
      apply orb_false_elim in F as [_ F]. apply Z.ltb_ge in F. eauto.
  - intros E. injection E as <- <-. cbn. repeat split; eauto. eexists [_]; reflexivity.
Qed.
Lemma close_clean d k i w w1 w2 r : f_names (w_now w1) = f_names (w_now w) -> w_obj w1 = w_obj w -> (exists l, w_log w1 = l ++ w_log w) ->
  f_fds (w_now w1) = <[k := i]> (f_fds (w_now w)) -> d = k -> close y d w1 = Done r w2 -> clean w w2.
Proof.
  intros A B [l C] D -> E. destruct (close_quiet y _ _ _ _ E) as ((Q1 & Q2 & Q3 & _) & L & F).
  split; [congruence|]. split; [congruence|]. exists ((CClose, r) :: l). rewrite L, C. split; [reflexivity|].
  destruct F as [F|[-> F]]; [left|right; right; right; left; reflexivity].
  intros d Hd. rewrite F, D in Hd. destruct (decide (d = k)) as [->|Ne]; [rewrite lookup_delete in Hd; destruct Hd; discriminate|].
  rewrite lookup_delete_ne, lookup_insert_ne in Hd by congruence. exact Hd.
Qed.
Lemma stdio_clean d b w r w' : write_stdio y d b w = Done r w' -> clean w w'.
Proof.
  unfold write_stdio. unfold kbind at 1. destruct (dup y d w) as [k w1|w1|w1|] eqn:E1; try discriminate.
  destruct (dup_exact _ _ _ _ E1) as (A & B & C & D). destruct (k =? -1) eqn:Ek.
  { intros X. injection X as _ <-. split; [exact A|]. split; [exact B|]. destruct C as [l C]. exists l. split; [exact C|].
    apply Z.eqb_eq in Ek. destruct D as [[_ D]|[D _]]; [left; rewrite D; auto|lia]. }
  apply Z.eqb_neq in Ek. destruct D as [[D _]|[_ [i D]]]; [congruence|].
  assert (CL : forall w2 r2 w3, mild w1 w2 -> close y k w2 = Done r2 w3 -> clean w w3).
  { intros w2 r2 w3 (M1 & M2 & M3 & l2 & M4) X. destruct C as [l C].
    apply (close_clean k k i w w2 w3 r2); auto; try congruence. exists (l2 ++ l). rewrite M4, C, app_assoc. reflexivity. }
  unfold kbind at 1. destruct (plain y CFdopen w1) as [ok w2|w2|w2|] eqn:E2; try discriminate.
  pose proof (mildly_plain _ _ _ _ E2) as M2. destruct ok; cbn [negb].
  2: { unfold kbind. destruct (close y k w2) as [r2 w3|w3|w3|] eqn:E3; try discriminate. intros X. injection X as _ <-. exact (CL _ _ _ M2 E3). }
  unfold kbind at 1. destruct (fwrite y k b w2) as [rest w3|w3|w3|] eqn:E3; try discriminate.
  pose proof (mild_trans _ _ _ M2 (mildly_fwrite _ _ _ _ _ E3)) as M3.
  unfold fclose, kbind. destruct (fwrite y k rest w3) as [rest' w4|w4|w4|] eqn:E4; try discriminate.
  pose proof (mild_trans _ _ _ M3 (mildly_fwrite _ _ _ _ _ E4)) as M4.
  destruct (close y k w4) as [r5 w5|w5|w5|] eqn:E5; try discriminate. intros X. injection X as _ <-. exact (CL _ _ _ M4 E5).
Qed.
Lemma write_clean d b w r w' : write_file y mm d b w = Done r w' -> clean w w'.
Proof. unfold write_file. destruct mm; [intros E; apply mild_clean; exact (mildly_mmap _ _ _ _ _ E)|apply stdio_clean]. Qed.

Section Left.
Variable f0 : fs.
Variable SES : list (chars * chars).
Notation tidy := (tidy f0 SES).
Lemma clean_tidy cur w w' : tidy cur w -> clean w w' -> tidy cur w'.
Proof.
  intros (T1 & T2 & T3) (A & B & l & C & D). split; [|split].
  - intros p Hp. rewrite A in Hp. rewrite B. destruct (T1 p Hp) as [X|X]; [left|right; exact X]. exact (left_names_log f0 SES _ _ _ l C X).
  - intros d Hd. rewrite B. destruct D as [D|D].
    + destruct (T2 d (D d Hd)) as [X|X]; [left|right; exact X]. exact (left_fds_log f0 _ _ _ l C X).
    + left. right. rewrite C. unfold lost in *. rewrite !in_app_iff. tauto.
  - rewrite B. exact T3.
Qed.
Lemma tidy_name cur cur' w : tidy cur w -> (forall fn b, cur = Some (fn, b) -> exists b', cur' = Some (fn, b')) -> tidy cur' w.
Proof. intros (T1 & T2 & T3) H. split; [exact T1|]. split; [exact T2|]. intros O. destruct (T3 O) as [b E]. exact (H _ _ E). Qed.
Lemma body_quiet fn m b w w' : save_body y mdiff mm fn m b w = Threw w' -> aopen y mdiff fn m w = Threw w'.
Proof.
  unfold save_body. unfold kbind at 1. destruct (aopen y mdiff fn m w) as [r w1|w1|w1|]; try discriminate; [|intros X; exact X].
  intros X. exfalso. revert X. destruct r; cbn [negb]; [|discriminate]. unfold kbind at 1, obj.
  assert (Q : quietly (let! ok := write_file y mm (fd (w_obj w1)) b in if negb ok then kret false else commit y)).
  { apply quietly_bind.
    - unfold write_file. destruct mm.
      + unfold write_mmap, ftruncate, plain. apply quietly_bind; [apply quietly_kernel|intros r]. apply quietly_if; [apply quietly_ret|]. apply quietly_if; [apply quietly_ret|].
        apply quietly_bind; [apply quietly_kernel|intros r']. apply quietly_if; [apply quietly_ret|]. apply quietly_bind; [|intros u; apply quietly_kernel].
        generalize 0. induction b as [|c b IH]; intros i; cbn [memcpy]; [apply quietly_ret|]. apply quietly_bind; [apply quietly_kernel|intros ?; apply IH].
      + assert (W : forall k b', quietly (fwrite y k b')).
        { intros k b'. induction b' as [|c b' IH]; cbn [fwrite]; [apply quietly_ret|]. apply quietly_bind; [apply quietly_kernel|intros ?]. apply quietly_if; [apply quietly_ret|exact IH]. }
        unfold write_stdio, fclose, plain. apply quietly_bind.
        { intros u u2. unfold dup. destruct (y_pick y (w_tick u)) as [[? ?] ?]. apply quietly_bind; [apply quietly_kernel|intros ?; apply quietly_ret]. }
        intros k. apply quietly_if; [apply quietly_ret|]. apply quietly_bind; [apply quietly_kernel|intros r]. apply quietly_if.
        { apply quietly_bind; [apply quietly_close|intros ?; apply quietly_ret]. }
        apply quietly_bind; [apply W|intros rest]. apply quietly_bind; [apply quietly_bind; [apply W|intros ?; apply quietly_close]|intros ?; apply quietly_ret].
    - intros r. apply quietly_if; [apply quietly_ret|apply quietly_commit]. }
  apply Q.
Qed.
Lemma save_tidy fn m b w r w' : tidy None w -> In (fn, b) SES -> save_one (fn, m, b) w = Done r w' -> tidy None w'.
Proof.
  intros T HS H. unfold SaveModel.save_one in H.
  assert (D : forall cur w1 (x : option bool), tidy cur w1 -> (let! _ := adestroy y in kret x) w1 = Done r w' -> tidy None w').
  { intros cur w1 x T1 X. unfold kbind, kret in X. destruct (adestroy y w1) as [z w2|w2|w2|] eqn:E; try discriminate. injection X as _ <-.
    exact (destroy_tidy y f0 SES _ _ _ _ T1 E). }
  destruct (save_body y mdiff mm fn m b w) as [r1 w1|w1|w1|] eqn:E; try discriminate.
  2: { apply (D (Some (fn, [])) w1 None); [|exact H]. apply body_quiet in E. apply (open_tidy mdiff y f0 SES fn m w w1 T). rewrite E. reflexivity. }
  unfold save_body in E. unfold kbind at 1 in E.
  destruct (aopen y mdiff fn m w) as [ok w2|w2|w2|] eqn:E2; try discriminate.
  assert (T2 : tidy (Some (fn, [])) w2) by (apply (open_tidy mdiff y f0 SES fn m w w2 T); rewrite E2; reflexivity).
  destruct ok; cbn [negb] in E; [|injection E as <- <-; exact (D _ _ _ T2 H)].
  unfold kbind at 1, obj in E. unfold kbind at 1 in E.
  destruct (write_file y mm (fd (w_obj w2)) b w2) as [ok w3|w3|w3|] eqn:E3; try discriminate.
  pose proof (clean_tidy _ _ _ T2 (write_clean _ _ _ _ _ E3)) as T3.
  destruct ok; cbn [negb] in E; [|injection E as <- <-; exact (D _ _ _ T3 H)].
  assert (T4 : tidy (Some (fn, b)) w3) by (apply (tidy_name _ _ _ T3); intros fn' b' X; injection X as <- _; eauto).
  apply (D None w1 (Some r1)); [|exact H].
  apply (commit_tidy y f0 SES (Some (fn, b)) w3 r1 w1 T4); [|exact (commit_needs_fd y _ _ _ E)|exact E].
  intros fn' b' X. injection X as <- <-. exact HS.
Qed.
Lemma saves_tidy l : forall w rs w', tidy None w -> (forall fn m b, In (fn, m, b) l -> In (fn, b) SES) -> saves l w = Done rs w' -> tidy None w'.
Proof.
  induction l as [|[[fn m] b] l IH]; intros w rs w' T HS H.
  { cbn in H. injection H as _ <-. exact T. }
  rewrite saves_cons in H. destruct (save_one (fn, m, b) w) as [r w1|w1|w1|] eqn:E; try discriminate.
  destruct (saves l w1) as [rs1 w2|w2|w2|] eqn:E2; try discriminate. injection H as _ <-.
  apply (IH w1 rs1 w2); [|intros fn' m' b' I'; apply (HS fn' m' b'); right; exact I'|exact E2].
  apply (save_tidy fn m b w r w1 T); [apply (HS fn m b); left; reflexivity|exact E].
Qed.
End Left.
Lemma saves_left f l rs w : saves l (start f) = Done rs w ->
  (forall p, is_Some (f_names (w_now w) !! p) -> is_Some (f_names f !! p) \/ (exists fn m b, In (fn, m, b) l /\ p = resolve (cstr fn)) \/
     (exists t, In (CUnlink t, false) (w_log w) /\ resolve t = p)) /\
  (forall d, is_Some (f_fds (w_now w) !! d) -> is_Some (f_fds f !! d) \/
     In (CFchmod, false) (w_log w) \/ In (CFsync, false) (w_log w) \/ In (CClose, false) (w_log w)).
Proof.
  intros H. pose proof (saves_tidy f (map (fun s => (fst (fst s), snd s)) l) l (start f) rs w) as R.
  destruct R as (T1 & T2 & T3); auto.
  { split; [|split]; cbn; auto; [intros p I; left; left; exact I|intros d I; left; left; exact I|discriminate]. }
  { intros fn m b I. apply in_map_iff. exists (fn, m, b). auto. }
  assert (O : is_open (w_obj w) = false).
  { destruct (is_open (w_obj w)); [|reflexivity]. destruct (T3 eq_refl) as [b X]; discriminate. }
  split.
  - intros p I. destruct (T1 p I) as [[X|[(fn & b & X1 & X2)|X]]|[X _]]; [auto| |auto|congruence].
    apply in_map_iff in X1 as ([[fn' m'] b'] & X & I'). injection X as <- <-. right; left. eauto 6.
  - intros d I. destruct (T2 d I) as [X|[X _]]; [exact X|congruence].
Qed.
End Main.
