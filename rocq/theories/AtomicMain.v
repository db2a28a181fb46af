(** The statements about AtomicFile, from the invariants. *)
From stdpp Require Import gmap.
From Verif Require Import Base StrModel StrSpec AtomicSpec AtomicModel AtomicProof AtomicName.
From Coq Require Import Lia.
Open Scope Z_scope.

Section Main.
Variable mdiff : Z -> Z -> Z.
Hypothesis Hm : memcmp_ok mdiff.
Variable y : sys.

Lemma usual_cstr fn : usual_name fn -> cstr fn = fn.
Proof. intros (F & _). apply cstr_plain. exact (proj2 (usual_bytes fn F)). Qed.
Definition conditions (f : fs) (ops : list aop) (q : path) : Prop :=
  on_disk f q /\ (bracketed false ops = true \/ forall n, y_oom y n = false) /\
  (forall fn m, In (AOpen fn m) ops -> usual_name fn /\ ~ temp_path fn q).

Lemma start_inv f ops q : on_disk f q -> inv q (old_or_new f ops q) None (start f).
Proof.
  intros D. split; [|split; [intros H; discriminate|left; reflexivity]].
  split.
  - intros i [g [[<-|[]] N]]. cbn [start w_now] in *. destruct (D i N) as [n [Hn Hs]]. exists n. repeat split; auto.
    left. unfold visible. rewrite N, Hn. reflexivity.
  - intros g [<-|[]] N. cbn [start w_now] in *. left. unfold visible. rewrite N. reflexivity.
Qed.
Lemma run_facts f ops q : conditions f ops q ->
  wp (arun y mdiff ops) (fun _ => inv q (old_or_new f ops q) (cur_after None ops)) (fun _ => False) (safe q (old_or_new f ops q)) (start f).
Proof.
  intros (D & B & N). apply run_inv.
  - apply start_inv; exact D.
  - exact B.
  - intros fn m I p Tp _ E. destruct (N fn m I) as [U X]. apply X. rewrite <- E. exact (temp_name_path mdiff Hm fn p U Tp).
  - intros fn b I E. right. exists fn, b. auto.
Qed.
Lemma safe_now f ops q w : safe q (old_or_new f ops q) w ->
  old_or_new f ops q (visible (w_now w) q) /\ forall r, survives (w_now w) (w_past w) q r -> old_or_new f ops q r.
Proof.
  intros [A B]. split.
  - unfold visible. destruct (f_names (w_now w) !! q) as [i|] eqn:N.
    + destruct (A i) as (n & Hn & _ & HV); [exists (w_now w); split; [left; reflexivity|exact N]|]. rewrite Hn. exact HV.
    + apply (B (w_now w)); [left; reflexivity|exact N].
  - intros r (g & I & H). destruct (f_names g !! q) as [i|] eqn:N.
    + destruct H as (b & -> & H). destruct (A i) as (n & Hn & Hs & HV); [exists g; auto|]. rewrite (H n Hn Hs). exact HV.
    + subst r. exact (B g I N).
Qed.
Lemma crash_safe f ops q w : conditions f ops q -> ended (arun y mdiff ops (start f)) w ->
  old_or_new f ops q (visible (w_now w) q) /\ forall r, survives (w_now w) (w_past w) q r -> old_or_new f ops q r.
Proof.
  intros C E. apply safe_now. pose proof (run_facts f ops q C) as R. unfold wp in R.
  destruct E as [E|[a E]]; rewrite E in R; [exact R|apply R].
Qed.
Lemma one_target fn : usual_name fn -> ~ temp_path fn (resolve (cstr fn)).
Proof. intros U. rewrite (usual_cstr fn U). apply temp_path_other. Qed.

Lemma arun_snoc ops o : forall w, arun y mdiff (ops ++ [o]) w =
  match arun y mdiff ops w with
  | Done l w' => match astep y mdiff o w' with
    | Done b w'' => Done (l ++ [Some b]) w'' | Threw w'' => Done (l ++ [None]) w'' | Stop w'' => Stop w'' | Bad u => Bad u end
  | x => x end.
Proof.
  induction ops as [|o' ops IH]; intros w; cbn [app arun].
  - destruct (astep y mdiff o w); reflexivity.
  - destruct (astep y mdiff o' w) as [b w'|w'|w'|]; auto; rewrite IH; destruct (arun y mdiff ops w') as [l w2|w2|w2|]; auto;
      destruct (astep y mdiff o w2); reflexivity.
Qed.
Lemma bracketed_app ops ops' : forall b, bracketed b (ops ++ ops') = true -> bracketed b ops = true.
Proof.
  induction ops as [|[fn m|c| | |] ops IH]; intros b H; cbn [app bracketed] in *; auto; try (apply (IH _ H)).
  apply andb_prop in H as [H1 H2]. rewrite H1. exact (IH _ H2).
Qed.
(** Some path is neither in use nor a temporary file. *)
Lemma length_bound (l : list path) : exists K, forall p, In p l -> (length (snd p) < K)%nat.
Proof.
  induction l as [|p l [K IH]]; [exists O; intros p []|]. exists (S (K + length (snd p)))%nat.
  intros p' [->|I]; [lia|]. specialize (IH p' I). lia.
Qed.
Lemma repeat_last (k : nat) (dir : list (list Z)) x : repeat [] k = dir ++ [x] -> x = [].
Proof.
  revert k; induction dir as [|d dir IH]; intros [|k] H; cbn in H; try discriminate.
  - injection H as H1 _. auto.
  - injection H as _ H. exact (IH k H).
Qed.
Lemma idle_path (f : fs) : exists q, f_names f !! q = None /\ forall fn, ~ temp_path fn q.
Proof.
  destruct (length_bound (map fst (map_to_list (f_names f)))) as [K HK].
  exists (true, repeat [] K). split.
  - destruct (f_names f !! (true, repeat [] K)) as [i|] eqn:E; [|exact E]. exfalso.
    assert (I : In (true, repeat ([] : list Z) K) (map fst (map_to_list (f_names f)))).
    { apply in_map_iff. exists ((true, repeat [] K), i). split; [reflexivity|]. apply elem_of_list_In, elem_of_map_to_list. exact E. }
    specialize (HK _ I). cbn [snd] in HK. rewrite repeat_length in HK. lia.
  - intros fn (dir & base & suf & _ & _ & [X|X]); injection X as _ X; apply repeat_last in X; [destruct base|]; discriminate.
Qed.
(** A commit that returned true has put the new contents in place. *)
Lemma commit_done f ops rs w :
  (bracketed false (ops ++ [ACommit]) = true \/ forall n, y_oom y n = false) ->
  (forall fn m, In (AOpen fn m) ops -> usual_name fn) ->
  arun y mdiff (ops ++ [ACommit]) (start f) = Done (rs ++ [Some true]) w ->
  exists fn b, sessions None (ops ++ [ACommit]) = sessions None ops ++ [(fn, b)] /\ visible (w_now w) (resolve (cstr fn)) = Some b.
Proof.
  intros B N E. rewrite arun_snoc in E. destruct (idle_path f) as (q & Q1 & Q2).
  assert (C' : conditions f ops q).
  { split; [intros i X; congruence|]. split; [destruct B as [B|B]; [left; exact (bracketed_app _ _ _ B)|right; exact B]|].
    intros fn m I. split; [exact (N fn m I)|apply Q2]. }
  pose proof (run_facts f ops q C') as R. unfold wp in R.
  destruct (arun y mdiff ops (start f)) as [l w1|w1|w1|]; try discriminate.
  cbn [astep] in E.
  pose proof (commit_inv y q (fun _ => True) (cur_after None ops) w1) as K.
  assert (I' : inv q (fun _ => True) (cur_after None ops) w1).
  { destruct R as ([R1 R2] & R3 & R4). split; [|split; assumption]. split; [|auto].
    intros i Hi. destruct (R1 i Hi) as (n & X & Y & Z). exists n; auto. }
  specialize (K I' (fun _ _ _ _ => Logic.I)). unfold wp in K.
  destruct (commit y w1) as [r w2|w2|w2|]; try discriminate; [|contradiction].
  injection E as E1 E2. apply app_inj_tail in E1 as [_ E1]. injection E1 as ->. subst w2.
  destruct K as (_ & _ & K). destruct (K eq_refl) as (b & Ec & i & n & P1 & P2 & P3 & P4 & P5).
  exists (a_fname (w_obj w1)), b. rewrite sessions_app, Ec. split; [reflexivity|].
  unfold visible. rewrite P1, P2, P3. reflexivity.
Qed.

(** The effect of single calls, whatever happened before. *)
Definition same_but (p : path) (f f' : fs) : Prop :=
  forall q, q <> p -> f_names f' !! q = f_names f !! q /\ visible f' q = visible f q.
Definition gone (w w' : world) (t : chars) : Prop :=
  f_names (w_now w') !! resolve t = None \/ exists l, w_log w' = l ++ w_log w /\ In (CUnlink t, false) l.

(** A call that touches no name and no contents. *)
Definition quiet (w w' : world) : Prop :=
  f_names (w_now w') = f_names (w_now w) /\
  (forall i, option_map i_bytes (f_inodes (w_now w') !! i) = option_map i_bytes (f_inodes (w_now w) !! i)) /\
  w_obj w' = w_obj w /\ exists l, w_log w' = l ++ w_log w.
Lemma quiet_trans w1 w2 w3 : quiet w1 w2 -> quiet w2 w3 -> quiet w1 w3.
Proof.
  intros (A & B & C & l & D) (A' & B' & C' & l' & D'). split; [congruence|]. split; [intros i; rewrite B'; apply B|].
  split; [congruence|]. exists (l' ++ l). rewrite D', D, app_assoc. reflexivity.
Qed.
Lemma quiet_refl w : quiet w w.
Proof. repeat split. exists []. reflexivity. Qed.
Lemma quiet_visible w w' q : quiet w w' -> visible (w_now w') q = visible (w_now w) q.
Proof.
  intros (A & B & _). unfold visible. rewrite A. destruct (f_names (w_now w) !! q) as [i|]; [|reflexivity].
  specialize (B i). destruct (f_inodes (w_now w') !! i), (f_inodes (w_now w) !! i); cbn in B; congruence.
Qed.
Lemma upd_quiet c d g (h : bool -> bool) w r w' : (forall n, i_bytes (g n) = i_bytes n) ->
  kernel y c (fun fail => upd_inode d g (h fail)) w = Done r w' -> quiet w w' /\ w_log w' = (c, r) :: w_log w /\ f_fds (w_now w') = f_fds (w_now w).
Proof.
  intros G. unfold kernel. destruct (y_stop y (w_tick w)); [discriminate|].
  destruct (upd_inode d g (h (y_fail y (w_tick w))) (w_now w)) as [r' f] eqn:E. intros X; injection X as -> <-. cbn [w_now w_log w_obj].
  split; [|split; [reflexivity|]].
  - unfold quiet; cbn [w_now w_log w_obj]. unfold upd_inode in E.
    destruct (open_fd (w_now w) d) as [i|]; [|injection E as _ <-; repeat split; exists [(c, r)]; reflexivity].
    destruct (h _); [injection E as _ <-; repeat split; exists [(c, r)]; reflexivity|].
    destruct (f_inodes (w_now w) !! i) as [n|] eqn:Ei; injection E as _ <-; [|repeat split; exists [(c, r)]; reflexivity].
    split; [reflexivity|]. split; [|split; [reflexivity|exists [(c, r)]; reflexivity]].
    intros j. cbn [f_inodes]. destruct (decide (i = j)) as [<-|Ne].
    + rewrite lookup_insert, Ei. cbn. rewrite G. reflexivity.
    + rewrite lookup_insert_ne by exact Ne. reflexivity.
  - unfold upd_inode in E. destruct (open_fd (w_now w) d) as [i|]; [|congruence].
    destruct (h _); [congruence|]. destruct (f_inodes (w_now w) !! i); injection E as _ <-; reflexivity.
Qed.
Lemma close_quiet d w r w' : close y d w = Done r w' -> quiet w w' /\ w_log w' = (CClose, r) :: w_log w /\
  (f_fds (w_now w') = delete d (f_fds (w_now w)) \/ (r = false /\ f_fds (w_now w') = f_fds (w_now w))).
Proof.
  unfold close, kernel. destruct (y_stop y (w_tick w)); [discriminate|].
  destruct (close_fd d _ _ (w_now w)) as [r' f] eqn:E. intros X; injection X as -> <-. unfold quiet. cbn [w_now w_log w_obj].
  unfold close_fd in E. destruct (open_fd (w_now w) d) as [i|].
  - destruct (y_fail y (w_tick w)), (y_keep y (w_tick w)); cbn in E; injection E as <- <-; cbn [f_names f_inodes f_fds];
      (split; [repeat split; eexists [_]; reflexivity|]); (split; [reflexivity|]); auto.
  - injection E as <- <-. split; [repeat split; eexists [_]; reflexivity|]. split; [reflexivity|]. auto.
Qed.
Lemma unlink_exact t w r w' : unlink y t w = Done r w' ->
  w_obj w' = w_obj w /\ w_log w' = (CUnlink t, r) :: w_log w /\ f_inodes (w_now w') = f_inodes (w_now w) /\ f_fds (w_now w') = f_fds (w_now w) /\
  ((r = true /\ f_names (w_now w') = delete (resolve t) (f_names (w_now w))) \/ (r = false /\ f_names (w_now w') = f_names (w_now w))).
Proof.
  unfold unlink, kernel. destruct (y_stop y (w_tick w)); [discriminate|].
  destruct (f_names (w_now w) !! resolve t) as [i|] eqn:E.
  - destruct (_ || _) eqn:F; intros X; injection X as <- <-; cbn [w_obj w_log w_now f_names f_inodes f_fds]; auto 10.
  - intros X; injection X as <- <-; cbn [w_obj w_log w_now f_names f_inodes f_fds]. auto 10.
Qed.
Lemma rename_exact p t w r w' : rename y p t w = Done r w' ->
  w_obj w' = w_obj w /\ w_log w' = (CRename, r) :: w_log w /\ f_inodes (w_now w') = f_inodes (w_now w) /\ f_fds (w_now w') = f_fds (w_now w) /\
  ((exists i, r = true /\ f_names (w_now w) !! resolve p = Some i /\ file_path t = true /\
      f_names (w_now w') = <[resolve t := i]> (delete (resolve p) (f_names (w_now w)))) \/
   (r = false /\ f_names (w_now w') = f_names (w_now w))).
Proof.
  unfold rename, kernel. destruct (y_stop y (w_tick w)); [discriminate|].
  destruct (f_names (w_now w) !! resolve p) as [i|] eqn:E.
  - destruct (_ || _) eqn:F; intros X; injection X as <- <-; cbn [w_obj w_log w_now f_names f_inodes f_fds]; auto 10.
    apply orb_false_elim in F as [_ F]. apply negb_false_iff in F. repeat split. left. exists i. auto.
  - intros X; injection X as <- <-; cbn [w_obj w_log w_now f_names f_inodes f_fds]. auto 10.
Qed.
Lemma unlink_same t w r w' : unlink y t w = Done r w' -> same_but (resolve t) (w_now w) (w_now w') /\ gone w w' t.
Proof.
  intros H. destruct (unlink_exact _ _ _ _ H) as (A & B & C & D & E). split.
  - intros q Nq. assert (X : f_names (w_now w') !! q = f_names (w_now w) !! q).
    { destruct E as [[_ ->]|[_ ->]]; [apply lookup_delete_ne; congruence|reflexivity]. }
    split; [exact X|]. unfold visible. rewrite X, C. reflexivity.
  - unfold gone. destruct E as [[_ ->]|[-> _]]; [left; apply lookup_delete|right].
    exists [(CUnlink t, false)]. split; [exact B|left; reflexivity].
Qed.
Lemma same_quiet p w1 w2 w3 : quiet w1 w2 -> same_but p (w_now w2) (w_now w3) -> same_but p (w_now w1) (w_now w3).
Proof.
  intros Q H q Nq. destruct (H q Nq) as [H1 H2]. split; [rewrite H1; f_equal; apply Q|rewrite H2; apply quiet_visible; exact Q].
Qed.
Lemma gone_log w1 w2 w3 t : (exists l, w_log w2 = l ++ w_log w1) -> gone w2 w3 t -> gone w1 w3 t.
Proof.
  intros [l E] [H|(l' & E' & I)]; [left; exact H|right]. exists (l' ++ l). rewrite E', E, app_assoc. split; [reflexivity|].
  apply in_or_app; auto.
Qed.

Lemma cleanup_true_exact w r w' : cleanup y true false w = Done r w' ->
  r = false /\ w_obj w' = AFile (a_fname (w_obj w)) (a_tmp (w_obj w)) (-1) (a_mode (w_obj w)) /\
  same_but (resolve (cstr (a_tmp (w_obj w)))) (w_now w) (w_now w') /\ gone w w' (cstr (a_tmp (w_obj w))) /\
  f_fds (w_now w') = f_fds (w_now w) /\ exists l, w_log w' = l ++ w_log w.
Proof.
  unfold cleanup, kbind, obj, set_obj, kret. destruct (unlink y (cstr (a_tmp (w_obj w))) w) as [b w1|w1|w1|] eqn:E; try discriminate.
  intros X; injection X as <- <-. cbn [w_obj w_now w_log].
  destruct (unlink_same _ _ _ _ E) as [S G]. destruct (unlink_exact _ _ _ _ E) as (A & B & C & D & _).
  repeat (split; [first [reflexivity|assumption]|]). eexists [_]. exact B.
Qed.
(** commit, AtomicFile.cpp:77-105. *)
Lemma commit_exact w r w' : commit y w = Done r w' ->
  w_obj w' = AFile (a_fname (w_obj w)) (a_tmp (w_obj w)) (-1) (a_mode (w_obj w)) /\
  (r = false -> same_but (resolve (cstr (a_tmp (w_obj w)))) (w_now w) (w_now w') /\ gone w w' (cstr (a_tmp (w_obj w)))) /\
  (r = true -> exists i, f_names (w_now w) !! resolve (cstr (a_tmp (w_obj w))) = Some i /\
     f_names (w_now w') = <[resolve (cstr (a_fname (w_obj w))) := i]> (delete (resolve (cstr (a_tmp (w_obj w)))) (f_names (w_now w))) /\
     (forall j, option_map i_bytes (f_inodes (w_now w') !! j) = option_map i_bytes (f_inodes (w_now w) !! j))) /\
  (exists l, w_log w' = l ++ w_log w /\
    (f_fds (w_now w') = delete (a_fd (w_obj w)) (f_fds (w_now w)) \/
     (f_fds (w_now w') = f_fds (w_now w) /\ (In (CFchmod, false) l \/ In (CFsync, false) l \/ In (CClose, false) l)))).
Proof.
  intros H. unfold commit in H. unfold kbind at 1, obj in H.
  set (o := w_obj w) in *.
  assert (CU : forall w1, quiet w w1 -> (f_fds (w_now w1) = delete (a_fd o) (f_fds (w_now w)) \/
      (f_fds (w_now w1) = f_fds (w_now w) /\ exists l, w_log w1 = l ++ w_log w /\ (In (CFchmod, false) l \/ In (CFsync, false) l \/ In (CClose, false) l))) ->
    cleanup y true false w1 = Done r w' ->
    w_obj w' = AFile (a_fname o) (a_tmp o) (-1) (a_mode o) /\
    (r = false -> same_but (resolve (cstr (a_tmp o))) (w_now w) (w_now w') /\ gone w w' (cstr (a_tmp o))) /\
    (r = true -> exists i, f_names (w_now w) !! resolve (cstr (a_tmp o)) = Some i /\
     f_names (w_now w') = <[resolve (cstr (a_fname o)) := i]> (delete (resolve (cstr (a_tmp o))) (f_names (w_now w))) /\
     (forall j, option_map i_bytes (f_inodes (w_now w') !! j) = option_map i_bytes (f_inodes (w_now w) !! j))) /\
    (exists l, w_log w' = l ++ w_log w /\
     (f_fds (w_now w') = delete (a_fd o) (f_fds (w_now w)) \/
     (f_fds (w_now w') = f_fds (w_now w) /\ (In (CFchmod, false) l \/ In (CFsync, false) l \/ In (CClose, false) l))))).
  { intros w1 Q F X. destruct (cleanup_true_exact _ _ _ X) as (-> & Eo & S & G & Ef & l & El).
    pose proof Q as (Qn & Qi & Qo & l1 & Ql). rewrite Qo in *. fold o in Eo, S, G.
    split; [exact Eo|]. split.
    { intros _. split; [exact (same_quiet _ _ _ _ Q S)|]. eapply gone_log; [|exact G]. eauto. }
    split; [discriminate|].
    destruct F as [F|(F & l2 & El2 & I)].
    - exists (l ++ l1). rewrite El, Ql, app_assoc. split; [reflexivity|]. left. rewrite Ef. exact F.
    - exists (l ++ l2). rewrite El, El2, app_assoc. split; [reflexivity|]. right. rewrite Ef. split; [exact F|].
      rewrite !in_app_iff. tauto. }
  (* fchmod *)
  assert (C1 : exists ok1 w1, (if a_mode o =? no_mode then kret true else fchmod y (a_fd o) (a_mode o)) w = Done ok1 w1).
  { unfold kbind at 1 in H. destruct ((if a_mode o =? no_mode then kret true else fchmod y (a_fd o) (a_mode o)) w) as [ok1 w1|w1|w1|]; try discriminate. eauto. }
  destruct C1 as (ok1 & w1 & E1). unfold kbind at 1 in H. rewrite E1 in H.
  assert (Q1 : quiet w w1 /\ f_fds (w_now w1) = f_fds (w_now w) /\ (ok1 = false -> exists l, w_log w1 = l ++ w_log w /\ In (CFchmod, false) l)).
  { destruct (a_mode o =? no_mode).
    - injection E1 as <- <-. split; [apply quiet_refl|]. split; [reflexivity|discriminate].
    - destruct (upd_quiet CFchmod (a_fd o) (fun n => Inode (i_bytes n) (a_mode o) (i_synced n)) (fun f => f) w ok1 w1 (fun _ => eq_refl) E1) as (A & B & C).
      split; [exact A|]. split; [exact C|]. intros ->. eexists [_]. split; [exact B|left; reflexivity]. }
  destruct Q1 as (Q1 & F1 & L1).
  destruct ok1; cbn [negb] in H.
  2: { apply (CU w1 Q1); [|exact H]. right. split; [exact F1|]. destruct (L1 eq_refl) as (l & El & I). exists l; auto. }
  (* fsync *)
  unfold kbind at 1 in H. destruct (fsync y (a_fd o) w1) as [ok2 w2|w2|w2|] eqn:E2; try discriminate.
  destruct (upd_quiet CFsync (a_fd o) (fun n => Inode (i_bytes n) (i_mode n) true) (fun f => f) w1 ok2 w2 (fun _ => eq_refl) E2) as (Q2 & L2 & F2).
  pose proof (quiet_trans _ _ _ Q1 Q2) as Q12.
  destruct ok2; cbn [negb] in H.
  2: { apply (CU w2 Q12); [|exact H]. right. split; [congruence|]. destruct Q1 as (_ & _ & _ & l & El).
       exists ((CFsync, false) :: l). rewrite L2, El. split; [reflexivity|]. right; left; left; reflexivity. }
  (* close *)
  unfold kbind at 1 in H. destruct (close y (a_fd o) w2) as [ok3 w3|w3|w3|] eqn:E3; try discriminate.
  destruct (close_quiet _ _ _ _ E3) as (Q3 & L3 & F3).
  pose proof (quiet_trans _ _ _ Q12 Q3) as Q13.
  assert (F13 : f_fds (w_now w3) = delete (a_fd o) (f_fds (w_now w)) \/ (ok3 = false /\ f_fds (w_now w3) = f_fds (w_now w))).
  { destruct F3 as [F3|[-> F3]]; [left|right]; rewrite F3, F2, F1; auto. }
  destruct ok3; cbn [negb] in H.
  2: { apply (CU w3 Q13); [|exact H]. destruct F13 as [F13|[_ F13]]; [left; exact F13|right]. split; [exact F13|].
       destruct Q12 as (_ & _ & _ & l & El). exists ((CClose, false) :: l). rewrite L3, El. split; [reflexivity|]. right; right; left; reflexivity. }
  destruct F13 as [F13|[X _]]; [|discriminate].
  (* rename *)
  unfold kbind at 1 in H. destruct (rename y (cstr (a_tmp o)) (cstr (a_fname o)) w3) as [ok4 w4|w4|w4|] eqn:E4; try discriminate.
  destruct (rename_exact _ _ _ _ _ E4) as (O4 & L4 & I4 & F4 & N4).
  destruct ok4; cbn [negb] in H.
  2: { destruct N4 as [(i & X & _)|[_ N4]]; [discriminate|]. apply (CU w4); [|left; congruence|exact H].
       apply (quiet_trans _ _ _ Q13). split; [exact N4|]. split; [intros j; rewrite I4; reflexivity|]. split; [exact O4|]. eexists [_]; exact L4. }
  destruct N4 as [(i & _ & N4 & P4 & N4')|[X _]]; [|discriminate].
  pose proof Q13 as (A & B & C & l & D).
  unfold cleanup, kbind, obj, set_obj, kret in H. injection H as <- <-. cbn [w_obj w_now w_log].
  rewrite O4, C. fold o. split; [reflexivity|]. split; [discriminate|]. split.
  { intros _. exists i. rewrite <- A. split; [exact N4|]. split; [exact N4'|]. intros j. rewrite I4. apply B. }
  exists ((CRename, true) :: l). rewrite L4, D. split; [reflexivity|]. left. rewrite F4. exact F13.
Qed.
(** abort, AtomicFile.cpp:67-75. *)
Lemma abort_exact w r w' : aabort y w = Done r w' ->
  r = is_open (w_obj w) /\ a_fd (w_obj w') = -1 /\
  (r = false -> w' = w) /\
  (r = true -> w_obj w' = AFile (a_fname (w_obj w)) (a_tmp (w_obj w)) (-1) (a_mode (w_obj w)) /\
     same_but (resolve (cstr (a_tmp (w_obj w)))) (w_now w) (w_now w') /\ gone w w' (cstr (a_tmp (w_obj w))) /\
     (f_fds (w_now w') = delete (a_fd (w_obj w)) (f_fds (w_now w)) \/ exists l, w_log w' = l ++ w_log w /\ In (CClose, false) l /\ f_fds (w_now w') = f_fds (w_now w)) /\
     exists l, w_log w' = l ++ w_log w).
Proof.
  unfold aabort, kbind, obj. destruct (is_open (w_obj w)) eqn:O; cbn [negb].
  - destruct (unlink y _ w) as [b w1|w1|w1|] eqn:E; try discriminate.
    destruct (close y (a_fd (w_obj w)) w1) as [b' w2|w2|w2|] eqn:E2; try discriminate.
    unfold set_obj, kret. intros X; injection X as <- <-. cbn [w_obj w_now w_log a_fd].
    destruct (unlink_same _ _ _ _ E) as [S G]. destruct (unlink_exact _ _ _ _ E) as (A & B & C & D & _).
    destruct (close_quiet _ _ _ _ E2) as (Q & L & F). pose proof Q as (Q1 & Q2 & Q3 & l & Q4).
    split; [reflexivity|]. split; [reflexivity|]. split; [discriminate|]. intros _.
    split; [reflexivity|]. split.
    { intros q Nq. destruct (S q Nq) as [S1 S2]. split; [rewrite Q1; exact S1|rewrite (quiet_visible _ _ q Q); exact S2]. }
    split.
    { destruct G as [G|(l' & El' & I)]; [left; cbn [w_now]; rewrite Q1; exact G|right]. cbn [w_log].
      exists (l ++ l'). rewrite Q4, El', app_assoc. split; [reflexivity|]. apply in_or_app; auto. }
    split.
    + destruct F as [F|[-> F]]; [left; congruence|right]. exists [(CClose, false); (CUnlink (cstr (a_tmp (w_obj w))), b)].
      rewrite L, B. split; [reflexivity|]. split; [left; reflexivity|congruence].
    + exists (l ++ [(CUnlink (cstr (a_tmp (w_obj w))), b)]). rewrite Q4, B, <- app_assoc. reflexivity.
  - unfold kret. intros X; injection X as <- <-. split; [reflexivity|]. unfold is_open in O. apply negb_false_iff, Z.eqb_eq in O.
    split; [exact O|]. split; [reflexivity|discriminate].
Qed.

(** Only open throws. *)
Definition quietly {A} (m : K A) : Prop := forall w w2, m w <> Threw w2.
Lemma quietly_bind {A B} (m : K A) (k : A -> K B) : quietly m -> (forall a, quietly (k a)) -> quietly (kbind m k).
Proof. intros Hx Hk w w2. unfold kbind. specialize (Hx w). destruct (m w); try discriminate; [apply Hk|]. exfalso. exact (Hx w0 eq_refl). Qed.
Lemma quietly_kernel c e : quietly (kernel y c e).
Proof. intros w w2. unfold kernel. destruct (y_stop y (w_tick w)); [discriminate|]. destruct (e _ _). discriminate. Qed.
Lemma quietly_ret {A} (a : A) : quietly (kret a). Proof. intros w w2; discriminate. Qed.
Lemma quietly_obj : quietly obj. Proof. intros w w2; discriminate. Qed.
Lemma quietly_set o : quietly (set_obj o). Proof. intros w w2; discriminate. Qed.
Lemma quietly_close d : quietly (close y d). Proof. intros w w2. apply quietly_kernel. Qed.
Lemma quietly_if {A} (b : bool) (m n : K A) : quietly m -> quietly n -> quietly (if b then m else n). Proof. destruct b; auto. Qed.
Ltac quietly := repeat first [apply quietly_ret|apply quietly_obj|apply quietly_set|apply quietly_close|apply quietly_kernel
  |apply quietly_if|apply quietly_bind; [|intros ?]].
Lemma quietly_write b : quietly (awrite y b).
Proof. induction b as [|c b IH]; cbn [awrite]; [quietly|]. apply quietly_bind; [quietly|intros o]. apply quietly_bind; [quietly|intros r; exact IH]. Qed.
Lemma quietly_commit : quietly (commit y). Proof. unfold commit, cleanup. quietly. Qed.
Lemma quietly_abort : quietly (aabort y). Proof. unfold aabort. quietly. Qed.
Lemma quietly_destroy : quietly (adestroy y). Proof. unfold adestroy. apply quietly_bind; [quietly|intros o]. apply quietly_bind; [apply quietly_if; [apply quietly_abort|quietly]|intros r]. quietly. Qed.

(** What a program leaves behind. *)
Section Left.
Variable f0 : fs.
Variable SES : list (chars * chars).
Definition lost (l : list (call * bool)) : Prop := In (CFchmod, false) l \/ In (CFsync, false) l \/ In (CClose, false) l.
Definition left_names (w : world) (p : path) : Prop :=
  is_Some (f_names f0 !! p) \/ (exists fn b, In (fn, b) SES /\ p = resolve (cstr fn)) \/
  (exists t, In (CUnlink t, false) (w_log w) /\ resolve t = p).
Definition left_fds (w : world) (d : Z) : Prop := is_Some (f_fds f0 !! d) \/ lost (w_log w).
Definition tidy (cur : option (chars * chars)) (w : world) : Prop :=
  (forall p, is_Some (f_names (w_now w) !! p) -> left_names w p \/ (is_open (w_obj w) = true /\ p = resolve (cstr (a_tmp (w_obj w))))) /\
  (forall d, is_Some (f_fds (w_now w) !! d) -> left_fds w d \/ (is_open (w_obj w) = true /\ d = a_fd (w_obj w))) /\
  (is_open (w_obj w) = true -> exists b, cur = Some (a_fname (w_obj w), b)).
Lemma left_names_log w w' p l : w_log w' = l ++ w_log w -> left_names w p -> left_names w' p.
Proof.
  intros E [H|[H|(t & I & R)]]; [left; exact H|right; left; exact H|right; right]. exists t. rewrite E. split; [apply in_or_app; auto|exact R].
Qed.
Lemma lost_log l' l : lost l -> lost (l' ++ l).
Proof. unfold lost. rewrite !in_app_iff. tauto. Qed.
Lemma left_fds_log w w' d l : w_log w' = l ++ w_log w -> left_fds w d -> left_fds w' d.
Proof. intros E [H|H]; [left; exact H|right; rewrite E; apply lost_log; exact H]. Qed.
Lemma closed_not_open o : a_fd o = -1 -> is_open o = false.
Proof. intros H. unfold is_open. rewrite H. reflexivity. Qed.

Lemma write_tidy b : forall cur w r w', tidy cur w -> awrite y b w = Done r w' -> tidy (cur_write cur b) w'.
Proof.
  induction b as [|c b IH]; intros cur w r w' T H; cbn [awrite] in H.
  - injection H as _ <-. rewrite cur_write_nil. exact T.
  - unfold kbind at 1, obj in H. unfold kbind at 1 in H.
    destruct (write_byte y (fd (w_obj w)) c w) as [r1 w1|w1|w1|] eqn:E; try discriminate.
    change (c :: b) with ([c] ++ b). rewrite <- cur_write_app. apply (IH _ w1 r w'); [|exact H].
    unfold write_byte, kernel in E. destruct (y_stop y (w_tick w)); [discriminate|].
    destruct (upd_inode _ _ false (w_now w)) as [r2 f] eqn:U. injection E as _ <-.
    assert (X : f_names f = f_names (w_now w) /\ f_fds f = f_fds (w_now w)).
    { unfold upd_inode in U. destruct (open_fd _ _); [|injection U as _ <-; auto]. destruct (f_inodes _ !! _); injection U as _ <-; auto. }
    destruct X as [X1 X2]. destruct T as (T1 & T2 & T3). unfold tidy. cbn [w_now w_obj w_log]. rewrite X1, X2. split; [|split].
    + intros p I. destruct (T1 p I) as [L|L]; [left|right; exact L]. eapply left_names_log; [|exact L]. cbn [w_log]. instantiate (1 := [_]). reflexivity.
    + intros p I. destruct (T2 p I) as [L|L]; [left|right; exact L]. eapply left_fds_log; [|exact L]. cbn [w_log]. instantiate (1 := [_]). reflexivity.
    + intros O. destruct (T3 O) as [b' ->]. exists (b' ++ [c]). reflexivity.
Qed.
Lemma tidy_shut cur w w' t l : tidy cur w -> t = cstr (a_tmp (w_obj w)) -> is_open (w_obj w') = false ->
  same_but (resolve t) (w_now w) (w_now w') -> gone w w' t -> w_log w' = l ++ w_log w ->
  (f_fds (w_now w') = delete (a_fd (w_obj w)) (f_fds (w_now w)) \/ (f_fds (w_now w') = f_fds (w_now w) /\ lost l)) -> tidy None w'.
Proof.
  intros (T1 & T2 & T3) -> O S G L F. split; [|split; [|rewrite O; discriminate]].
  - intros p I. left. destruct (decide (p = resolve (cstr (a_tmp (w_obj w))))) as [->|Ne].
    + destruct G as [G|(l' & El & Il)]; [rewrite G in I; destruct I as [? X]; discriminate|].
      right; right. exists (cstr (a_tmp (w_obj w))). split; [rewrite El; apply in_or_app; auto|reflexivity].
    + destruct (S p Ne) as [S1 _]. rewrite S1 in I. destruct (T1 p I) as [X|[_ X]]; [|contradiction]. exact (left_names_log _ _ _ _ L X).
  - intros d I. left. destruct F as [F|[F Z]].
    + rewrite F in I. destruct (decide (d = a_fd (w_obj w))) as [->|Ne]; [rewrite lookup_delete in I; destruct I as [? X]; discriminate|].
      rewrite lookup_delete_ne in I by congruence. destruct (T2 d I) as [X|[_ X]]; [|contradiction]. exact (left_fds_log _ _ _ _ L X).
    + right. rewrite L. unfold lost in *. rewrite !in_app_iff. tauto.
Qed.
Lemma commit_tidy cur w r w' : tidy cur w -> (forall fn b, cur = Some (fn, b) -> In (fn, b) SES) ->
  (r = true -> is_open (w_obj w) = true) -> commit y w = Done r w' -> tidy None w'.
Proof.
  intros T HS HO H. destruct (commit_exact _ _ _ H) as (Eo & Hf & Ht & l & El & Fd).
  assert (O : is_open (w_obj w') = false) by (rewrite Eo; reflexivity).
  destruct r.
  - destruct (Ht eq_refl) as (i & N1 & N2 & _). destruct T as (T1 & T2 & T3). destruct (T3 (HO eq_refl)) as [b Ec].
    specialize (HS _ _ Ec). split; [|split; [|rewrite O; discriminate]].
    + intros p I. left. rewrite N2 in I.
      destruct (decide (p = resolve (cstr (a_fname (w_obj w))))) as [->|Ne]; [right; left; eauto|].
      rewrite lookup_insert_ne in I by congruence.
      destruct (decide (p = resolve (cstr (a_tmp (w_obj w))))) as [->|Ne']; [rewrite lookup_delete in I; destruct I as [? X]; discriminate|].
      rewrite lookup_delete_ne in I by congruence. destruct (T1 p I) as [X|[_ X]]; [|contradiction]. exact (left_names_log _ _ _ _ El X).
    + intros d I. left. destruct Fd as [F|[F Z]].
      * rewrite F in I. destruct (decide (d = a_fd (w_obj w))) as [->|Ne]; [rewrite lookup_delete in I; destruct I as [? X]; discriminate|].
        rewrite lookup_delete_ne in I by congruence. destruct (T2 d I) as [X|[_ X]]; [|contradiction]. exact (left_fds_log _ _ _ _ El X).
      * right. rewrite El. unfold lost in *. rewrite !in_app_iff. tauto.
  - destruct (Hf eq_refl) as [S G]. exact (tidy_shut _ _ _ _ l T eq_refl O S G El Fd).
Qed.
Lemma commit_needs_fd w r w' : commit y w = Done r w' -> r = true -> is_open (w_obj w) = true.
Proof.
  intros H ->. unfold is_open. destruct (Z.eqb_spec (a_fd (w_obj w)) (-1)) as [E|]; [|reflexivity]. exfalso.
  unfold commit, kbind at 1, obj in H. rewrite E in H.
  assert (CU : forall w1, cleanup y true false w1 = Done true w' -> False).
  { intros w1 X. destruct (cleanup_true_exact _ _ _ X) as [X' _]. discriminate. }
  destruct (a_mode (w_obj w) =? no_mode).
  - unfold kbind at 1, kret at 1 in H. cbn [negb] in H. unfold kbind at 1, fsync, kernel in H.
    destruct (y_stop y (w_tick w)); [discriminate|]. unfold upd_inode, open_fd in H. cbn [Z.ltb Z.compare negb] in H. exact (CU _ H).
  - unfold kbind at 1, fchmod, kernel in H.
    destruct (y_stop y (w_tick w)); [discriminate|]. unfold upd_inode, open_fd in H. cbn [Z.ltb Z.compare negb] in H. exact (CU _ H).
Qed.
Lemma abort_tidy cur w r w' : tidy cur w -> aabort y w = Done r w' -> tidy None w'.
Proof.
  intros T H. destruct (abort_exact _ _ _ H) as (Er & Ef & H0 & H1). destruct r.
  - destruct (H1 eq_refl) as (Eo & S & G & F & l & El).
    destruct F as [F|(l' & El' & Il & F)].
    + apply (tidy_shut _ _ _ _ l T eq_refl); auto. rewrite Eo; reflexivity.
    + apply (tidy_shut _ _ _ _ l' T eq_refl); auto; [rewrite Eo; reflexivity|]. right. split; [exact F|]. right; right; exact Il.
  - rewrite (H0 eq_refl) in *. destruct T as (T1 & T2 & T3). split; [exact T1|]. split; [exact T2|]. intros X; congruence.
Qed.
Lemma destroy_tidy cur w r w' : tidy cur w -> adestroy y w = Done r w' -> tidy None w'.
Proof.
  intros T H. unfold adestroy, kbind at 1, obj in H. unfold kbind at 1 in H.
  assert (X : exists r1 w1, (if is_open (w_obj w) then aabort y else kret true) w = Done r1 w1).
  { destruct ((if is_open (w_obj w) then aabort y else kret true) w); try discriminate; eauto. }
  destruct X as (r1 & w1 & E). rewrite E in H. unfold kbind, set_obj, kret in H. injection H as _ <-.
  assert (T' : tidy None w1 /\ is_open (w_obj w1) = false).
  { destruct (is_open (w_obj w)) eqn:O.
    - split; [exact (abort_tidy _ _ _ _ T E)|]. destruct (abort_exact _ _ _ E) as (_ & Ef & _). apply closed_not_open; exact Ef.
    - injection E as _ <-. split; [|exact O]. destruct T as (T1 & T2 & T3). split; [exact T1|]. split; [exact T2|]. intros X; congruence. }
  destruct T' as [(T1 & T2 & T3) O]. split; [|split; [|discriminate]].
  - intros p I. destruct (T1 p I) as [X|[X _]]; [left; exact X|congruence].
  - intros d I. destruct (T2 d I) as [X|[X _]]; [left; exact X|congruence].
Qed.
(** open on a closed object. *)
Definition outw {A} (r : out A) (w : world) : Prop := match r with Done _ w' => w' = w | Threw w' => w' = w | _ => False end.
Lemma open_tidy fn m w w' : tidy None w -> outw (aopen y mdiff fn m w) w' -> tidy (Some (fn, [])) w'.
Proof.
  intros T H. assert (O : is_open (w_obj w) = false).
  { destruct (is_open (w_obj w)) eqn:O; [|reflexivity]. destruct T as (_ & _ & T3). destruct (T3 O) as [b X]; discriminate. }
  assert (Ofd : a_fd (w_obj w) = -1) by (unfold is_open in O; apply negb_false_iff, Z.eqb_eq in O; exact O).
  assert (SAME : forall w1, w_now w1 = w_now w -> w_log w1 = w_log w -> is_open (w_obj w1) = false -> tidy (Some (fn, [])) w1).
  { intros w1 E1 E2 O1. destruct T as (T1 & T2 & T3). split; [|split; [|congruence]].
    - intros p I. rewrite E1 in I. destruct (T1 p I) as [X|[X _]]; [left|congruence]. exact (left_names_log w w1 p [] E2 X).
    - intros d I. rewrite E1 in I. destruct (T2 d I) as [X|[X _]]; [left|congruence]. exact (left_fds_log w w1 d [] E2 X). }
  unfold aopen, kbind at 1, obj in H. unfold kbind at 1, set_obj at 1 in H. unfold kbind at 1, memory at 1 in H. cbn [w_tick w_now w_past w_log w_obj] in H.
  destruct (y_oom y (w_tick w)); [cbn in H; subst w'; apply SAME; auto|].
  unfold kbind at 1, pure in H. destruct (template mdiff fn tt) as [t []|e s'| | |] eqn:Et; try contradiction.
  2: { cbn in H; subst w'; apply SAME; auto. }
  unfold kbind at 1, set_obj at 1 in H. cbn [w_tick w_now w_past w_log w_obj] in H.
  unfold kbind at 1, memory at 1 in H. cbn [w_tick w_now w_past w_log w_obj] in H.
  destruct (y_oom y (S (w_tick w))); [cbn in H; subst w'; apply SAME; auto|].
  set (w1 := World _ _ _ _ _) in H. unfold kbind at 1 in H.
  destruct (mkstemp_cases y t w1) as (suf & d & i & [E|(L & N & E)]); rewrite E in H; clear E.
  - unfold kbind at 1, kernel in H. destruct (y_stop y (w_tick w1)); [contradiction|]. cbn in H. subst w'.
    destruct T as (T1 & T2 & T3). split; [|split; [|discriminate]]; cbn [w_now w_obj w_log].
    + intros p I. destruct (T1 p I) as [X|[X _]]; [left|congruence]. eapply left_names_log; [|exact X]. instantiate (1 := [_]). reflexivity.
    + intros e I. destruct (T2 e I) as [X|[X _]]; [left|congruence]. eapply left_fds_log; [|exact X]. instantiate (1 := [_]). reflexivity.
  - unfold kbind at 1, kernel in H. destruct (y_stop y (w_tick w1)); [contradiction|].
    set (p := with_suffix (cstr t) suf) in *. pose proof (cstr_suffix t suf N) as Ec. fold p in Ec.
    destruct (mk_effect p d i (y_fail y (w_tick w1)) (w_now w1)) as [r f] eqn:F. cbn in H. subst w'.
    change (w_now w1) with (w_now w) in F.
    assert (X : (r = false /\ f = w_now w) \/ (r = true /\ 0 <= d /\ f_names f = <[resolve p := i]> (f_names (w_now w)) /\ f_fds f = <[d := i]> (f_fds (w_now w)))).
    { unfold mk_effect in F. destruct (f_names (w_now w) !! resolve p); [injection F as <- <-; auto|].
      destruct (f_inodes (w_now w) !! i); [injection F as <- <-; auto|]. destruct (open_fd (w_now w) d); [injection F as <- <-; auto|].
      destruct (_ || _) eqn:G; injection F as <- <-; [auto|right]. apply orb_false_elim in G as [G _]. apply orb_false_elim in G as [_ G]. apply Z.ltb_ge in G. auto. }
    destruct T as (T1 & T2 & T3). destruct X as [[-> ->]|(-> & Hd & N1 & N2)].
    + split; [|split; [|discriminate]]; cbn [w_now w_obj w_log].
      * intros q I. destruct (T1 q I) as [X|[X _]]; [left|congruence]. eapply left_names_log; [|exact X]. instantiate (1 := [_]). reflexivity.
      * intros e I. destruct (T2 e I) as [X|[X _]]; [left|congruence]. eapply left_fds_log; [|exact X]. instantiate (1 := [_]). reflexivity.
    + assert (Op : is_open (AFile fn (p ++ zdrop (zlen (cstr t)) t) d m) = true).
      { unfold is_open. cbn [a_fd]. apply negb_true_iff, Z.eqb_neq. lia. }
      split; [|split]; cbn [w_now w_obj w_log a_tmp a_fd a_fname].
      * intros q I. rewrite N1 in I. destruct (decide (q = resolve p)) as [->|Ne]; [right; rewrite Ec; auto|].
        rewrite lookup_insert_ne in I by congruence. destruct (T1 q I) as [X|[X _]]; [left|congruence].
        eapply left_names_log; [|exact X]. instantiate (1 := [_]). reflexivity.
      * intros e I. rewrite N2 in I. destruct (decide (e = d)) as [->|Ne]; [right; auto|].
        rewrite lookup_insert_ne in I by congruence. destruct (T2 e I) as [X|[X _]]; [left|congruence].
        eapply left_fds_log; [|exact X]. instantiate (1 := [_]). reflexivity.
      * intros _. exists []. reflexivity.
Qed.
Lemma run_tidy : forall ops cur w l w', tidy cur w -> bracketed (is_some cur) ops = true ->
  (forall s, In s (sessions cur ops) -> In s SES) -> arun y mdiff ops w = Done l w' -> tidy (cur_after cur ops) w'.
Proof.
  induction ops as [|o ops IH]; intros cur w l w' T B HS H; cbn [arun cur_after] in *.
  { injection H as _ <-. exact T. }
  assert (ST : exists w1 l1, outw (astep y mdiff o w) w1 /\ arun y mdiff ops w1 = Done l1 w').
  { destruct (astep y mdiff o w) as [b w1|w1|w1|]; try discriminate; exists w1;
      destruct (arun y mdiff ops w1) as [l1 w2|w2|w2|]; try discriminate; injection H as _ <-; exists l1; split; reflexivity. }
  destruct ST as (w1 & l1 & E & R). clear H.
  assert (DN : forall (x : out bool), outw x w1 -> (exists b, x = Done b w1) \/ x = Threw w1).
  { intros [b w2|w2|w2|] X; cbn in X; try contradiction; subst; eauto. }
  assert (NT : forall {A} (m : K A), (forall w2, m w <> Threw w2) -> outw (m w) w1 -> exists b, m w = Done b w1).
  { intros A m X Y. destruct (m w) as [b w2|w2|w2|]; cbn in Y; try contradiction; subst; eauto. exfalso. exact (X w1 eq_refl). }
  destruct o as [fn m|b| | |]; cbn [sessions bracketed astep] in *.
  - apply andb_prop in B as [B1 B2]. destruct cur; [discriminate|]. apply (IH _ w1 l1); auto. exact (open_tidy fn m w w1 T E).
  - destruct (NT _ (awrite y b)) as [r Er]; [apply quietly_write|exact E|].
    apply (IH _ w1 l1); auto; [exact (write_tidy _ _ _ _ _ T Er)|]. destruct cur as [[]|]; exact B.
  - destruct (NT _ (commit y)) as [r Er]; [apply quietly_commit|exact E|].
    apply (IH _ w1 l1); auto.
    + apply (commit_tidy cur w r); auto.
      * intros fn b ->. apply HS. left; reflexivity.
      * exact (commit_needs_fd _ _ _ Er).
    + intros s I. apply HS. destruct cur; [right|]; exact I.
  - destruct (NT _ (aabort y)) as [r Er]; [apply quietly_abort|exact E|].
    apply (IH _ w1 l1); auto. exact (abort_tidy _ _ _ _ T Er).
  - destruct (NT _ (adestroy y)) as [r Er]; [apply quietly_destroy|exact E|].
    apply (IH _ w1 l1); auto. exact (destroy_tidy _ _ _ _ T Er).
Qed.
End Left.
Lemma closed_cur ops : forall cur, closed_at_end (is_some cur) ops = true -> cur_after cur ops = None.
Proof.
  induction ops as [|[fn m|b| | |] ops IH]; intros cur H; cbn [closed_at_end cur_after] in *; try (apply IH; exact H).
  - destruct cur; [discriminate|reflexivity].
  - apply IH. destruct cur as [[]|]; exact H.
Qed.
Lemma left_behind f ops l w : bracketed false ops = true -> closed_at_end false ops = true -> arun y mdiff ops (start f) = Done l w ->
  is_open (w_obj w) = false /\
  (forall p, is_Some (f_names (w_now w) !! p) -> is_Some (f_names f !! p) \/ (exists fn b, In (fn, b) (sessions None ops) /\ p = resolve (cstr fn)) \/
     (exists t, In (CUnlink t, false) (w_log w) /\ resolve t = p)) /\
  (forall d, is_Some (f_fds (w_now w) !! d) -> is_Some (f_fds f !! d) \/
     In (CFchmod, false) (w_log w) \/ In (CFsync, false) (w_log w) \/ In (CClose, false) (w_log w)).
Proof.
  intros B C H. pose proof (run_tidy f (sessions None ops) ops None (start f) l w) as R.
  destruct R as (T1 & T2 & T3); auto.
  { split; [|split]; cbn; auto; [intros p I; left; left; exact I|intros d I; left; left; exact I|discriminate]. }
  rewrite (closed_cur ops None C) in T3.
  assert (O : is_open (w_obj w) = false).
  { destruct (is_open (w_obj w)); [|reflexivity]. destruct (T3 eq_refl) as [b X]; discriminate. }
  split; [exact O|]. split.
  - intros p I. destruct (T1 p I) as [X|[X _]]; [exact X|congruence].
  - intros d I. destruct (T2 d I) as [X|[X _]]; [exact X|congruence].
Qed.

(** An open that returned true has created a new empty file beside the target. *)
Lemma open_true fn m w w' : usual_name fn -> aopen y mdiff fn m w = Done true w' ->
  let t := resolve (cstr (a_tmp (w_obj w'))) in
  is_open (w_obj w') = true /\ parent t = parent (resolve fn) /\ t <> resolve fn /\
  f_names (w_now w) !! t = None /\ visible (w_now w') t = Some [] /\
  (forall q, q <> t -> f_names (w_now w') !! q = f_names (w_now w) !! q).
Proof.
  intros U H. unfold aopen, kbind at 1, obj in H. unfold kbind at 1, set_obj at 1 in H. unfold kbind at 1, memory at 1 in H. cbn [w_tick w_now w_past w_log w_obj] in H.
  destruct (y_oom y (w_tick w)); [discriminate|].
  destruct (template_path mdiff Hm fn U) as (t & Et & Ec & Hp).
  unfold kbind at 1, pure in H. rewrite Et in H.
  unfold kbind at 1, set_obj at 1 in H. cbn [w_tick w_now w_past w_log w_obj] in H.
  unfold kbind at 1, memory at 1 in H. cbn [w_tick w_now w_past w_log w_obj] in H.
  destruct (y_oom y (S (w_tick w))); [discriminate|].
  set (w1 := World _ _ _ _ _) in H. unfold kbind at 1 in H.
  destruct (mkstemp_cases y t w1) as (suf & d & i & [E|(L & N & E)]); rewrite E in H; clear E;
    unfold kbind at 1, kernel in H; (destruct (y_stop y (w_tick w1)); [discriminate|]); [discriminate|].
  rewrite Ec in H. rewrite (zdrop_all (zlen t) t) in H by lia. rewrite app_nil_r in H.
  set (p := with_suffix t suf) in *.
  destruct (mk_effect p d i (y_fail y (w_tick w1)) (w_now w1)) as [r f] eqn:F. change (w_now w1) with (w_now w) in F.
  destruct r; [|discriminate]. cbn [fst snd kbind set_obj kret] in H. unfold kbind, set_obj, kret in H. injection H as O <-.
  cbn [w_obj w_now a_tmp]. cbn [fst snd].
  assert (Cp : cstr p = p). { pose proof (cstr_suffix t suf N) as X. rewrite Ec in X. fold p in X. rewrite zdrop_all, app_nil_r in X by lia. exact X. }
  rewrite Cp. destruct (Hp suf L N) as [Tp _]. fold p in Tp.
  unfold mk_effect in F. destruct (f_names (w_now w) !! resolve p) eqn:E1; [discriminate|].
  destruct (f_inodes (w_now w) !! i) eqn:E2; [discriminate|]. destruct (open_fd (w_now w) d); [discriminate|].
  destruct (_ || _); [discriminate|]. injection F as <-.
  split; [exact O|]. split.
  { destruct Tp as (dir & base & s & R & _ & [X|X]); rewrite X, R; unfold parent; cbn [fst snd]; rewrite !removelast_last; reflexivity. }
  split; [intros X; apply (temp_path_other fn); rewrite <- X; exact Tp|].
  split; [reflexivity|]. split.
  - unfold visible. cbn [f_names f_inodes]. rewrite !lookup_insert. reflexivity.
  - intros q Nq. cbn [f_names]. rewrite lookup_insert_ne by congruence. reflexivity.
Qed.

Lemma crash_safe_one f ops fn w : on_disk f (resolve fn) -> usual_name fn -> bracketed false ops = true ->
  (forall fn' m, In (AOpen fn' m) ops -> fn' = fn) -> ended (arun y mdiff ops (start f)) w ->
  old_or_new f ops (resolve fn) (visible (w_now w) (resolve fn)) /\
  forall r, survives (w_now w) (w_past w) (resolve fn) r -> old_or_new f ops (resolve fn) r.
Proof.
  intros D U B N. apply crash_safe. split; [exact D|]. split; [left; exact B|]. intros fn' m I. rewrite (N fn' m I). split; [exact U|apply temp_path_other].
Qed.
Lemma none_visible f q : f_names f !! q = None -> visible f q = None.
Proof. intros H. unfold visible. rewrite H. reflexivity. Qed.
Lemma commit_failed w w' : commit y w = Done false w' ->
  is_open (w_obj w') = false /\
  (forall q, q <> resolve (cstr (a_tmp (w_obj w))) -> visible (w_now w') q = visible (w_now w) q) /\
  (visible (w_now w') (resolve (cstr (a_tmp (w_obj w)))) = None \/ exists l, w_log w' = l ++ w_log w /\ In (CUnlink (cstr (a_tmp (w_obj w))), false) l).
Proof.
  intros H. destruct (commit_exact _ _ _ H) as (Eo & Hf & _). destruct (Hf eq_refl) as [S G].
  split; [rewrite Eo; reflexivity|]. split; [intros q Nq; apply S; exact Nq|].
  destruct G as [G|G]; [left; apply none_visible; exact G|right; exact G].
Qed.
Lemma commit_succeeded w w' : commit y w = Done true w' ->
  resolve (cstr (a_tmp (w_obj w))) <> resolve (cstr (a_fname (w_obj w))) ->
  is_open (w_obj w') = false /\ visible (w_now w') (resolve (cstr (a_tmp (w_obj w)))) = None /\
  visible (w_now w') (resolve (cstr (a_fname (w_obj w)))) = visible (w_now w) (resolve (cstr (a_tmp (w_obj w)))) /\
  forall q, q <> resolve (cstr (a_tmp (w_obj w))) -> q <> resolve (cstr (a_fname (w_obj w))) -> visible (w_now w') q = visible (w_now w) q.
Proof.
  intros H Ne. destruct (commit_exact _ _ _ H) as (Eo & _ & Ht & _). destruct (Ht eq_refl) as (i & N1 & N2 & Hi).
  assert (V : forall q q', f_names (w_now w') !! q = f_names (w_now w) !! q' -> visible (w_now w') q = visible (w_now w) q').
  { intros q q' E. unfold visible. rewrite E. destruct (f_names (w_now w) !! q') as [k|]; [|reflexivity].
    specialize (Hi k). destruct (f_inodes (w_now w') !! k), (f_inodes (w_now w) !! k); cbn in Hi; congruence. }
  split; [rewrite Eo; reflexivity|]. split; [|split].
  - apply none_visible. rewrite N2, lookup_insert_ne by congruence. apply lookup_delete.
  - apply V. rewrite N2, lookup_insert. symmetry; exact N1.
  - intros q Q1 Q2. apply V. rewrite N2, lookup_insert_ne, lookup_delete_ne by congruence. reflexivity.
Qed.
Lemma abort_effect w w' r : aabort y w = Done r w' ->
  r = is_open (w_obj w) /\ is_open (w_obj w') = false /\ (r = false -> w' = w) /\
  (forall q, q <> resolve (cstr (a_tmp (w_obj w))) -> visible (w_now w') q = visible (w_now w) q) /\
  (r = true -> visible (w_now w') (resolve (cstr (a_tmp (w_obj w)))) = None \/ exists l, w_log w' = l ++ w_log w /\ In (CUnlink (cstr (a_tmp (w_obj w))), false) l).
Proof.
  intros H. destruct (abort_exact _ _ _ H) as (Er & Ef & H0 & H1). split; [exact Er|]. split; [apply closed_not_open; exact Ef|]. split; [exact H0|].
  destruct r.
  - destruct (H1 eq_refl) as (_ & S & G & _). split; [intros q Nq; apply S; exact Nq|]. intros _.
    destruct G as [G|G]; [left; apply none_visible; exact G|right; exact G].
  - rewrite (H0 eq_refl). split; [reflexivity|discriminate].
Qed.
Lemma destroy_effect w w' r : adestroy y w = Done r w' ->
  (forall q, q <> resolve (cstr (a_tmp (w_obj w))) -> visible (w_now w') q = visible (w_now w) q) /\
  (is_open (w_obj w) = true -> visible (w_now w') (resolve (cstr (a_tmp (w_obj w)))) = None \/ exists l, w_log w' = l ++ w_log w /\ In (CUnlink (cstr (a_tmp (w_obj w))), false) l).
Proof.
  unfold adestroy, kbind at 1, obj. unfold kbind at 1. destruct (is_open (w_obj w)) eqn:O.
  - destruct (aabort y w) as [r1 w1|w1|w1|] eqn:E; try discriminate. unfold kbind, set_obj, kret. intros X; injection X as _ <-. cbn [w_now w_log].
    destruct (abort_effect _ _ _ E) as (Er & _ & _ & S & G). split; [exact S|]. intros _. apply G. congruence.
  - unfold kbind, set_obj, kret. intros X; injection X as _ <-. cbn [w_now]. split; [reflexivity|discriminate].
Qed.
End Main.
