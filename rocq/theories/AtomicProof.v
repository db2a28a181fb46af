(** Proofs about AtomicFile: what every stop leaves behind, and the exact effect of each call. *)
From stdpp Require Import gmap.
From Verif Require Import Base StrModel AtomicSpec AtomicModel.
From Coq Require Import Lia.
Open Scope Z_scope.

(** Names a temporary file may get. *)
Definition temp_name mdiff (fn p : chars) : Prop :=
  exists t, template mdiff fn tt = Ok t tt /\
    (p = cstr t \/ exists suf, zlen suf = 6 /\ forallb name_char suf = true /\ p = with_suffix (cstr t) suf).

Lemma cstr_app_stop l k : forallb (fun c => negb (c =? 0)) l = true -> (k = [] \/ exists r, k = 0 :: r) -> cstr (l ++ k) = l.
Proof.
  induction l as [|c l IH]; cbn; intros H K.
  - destruct K as [-> |[r ->]]; reflexivity.
  - apply andb_prop in H as [H1 H2]. destruct (c =? 0); [discriminate|]. f_equal. exact (IH H2 K).
Qed.
Lemma cstr_nonul l : forallb (fun c => negb (c =? 0)) (cstr l) = true.
Proof. induction l as [|c l IH]; cbn; [reflexivity|]. destruct (c =? 0) eqn:E; cbn; [reflexivity|]. rewrite E. exact IH. Qed.
Lemma cstr_rest l : zdrop (zlen (cstr l)) l = [] \/ exists r, zdrop (zlen (cstr l)) l = 0 :: r.
Proof.
  induction l as [|c l IH]; cbn [cstr].
  - left; reflexivity.
  - destruct (c =? 0) eqn:E.
    + right. exists l. change (zlen (@nil Z)) with 0. rewrite zdrop_0 by lia. apply Z.eqb_eq in E. subst; reflexivity.
    + assert (X : zdrop (zlen (c :: cstr l)) (c :: l) = zdrop (zlen (cstr l)) l).
      { unfold zdrop, zlen. cbn [length]. replace (Z.to_nat (Z.of_nat (S (length (cstr l))))) with (S (length (cstr l))) by lia.
        replace (Z.to_nat (Z.of_nat (length (cstr l)))) with (length (cstr l)) by lia. reflexivity. }
      rewrite X. exact IH.
Qed.
Lemma forallb_ztake {A} (f : A -> bool) n l : forallb f l = true -> forallb f (ztake n l) = true.
Proof.
  unfold ztake. generalize (Z.to_nat n). intros k; revert l; induction k as [|k IH]; intros [|x l] H; cbn in *; try reflexivity.
  apply andb_prop in H as [H1 H2]. rewrite H1. exact (IH l H2).
Qed.
Lemma cstr_suffix t suf : forallb name_char suf = true ->
  cstr (with_suffix (cstr t) suf ++ zdrop (zlen (cstr t)) t) = with_suffix (cstr t) suf.
Proof.
  intros H. apply cstr_app_stop; [|apply cstr_rest].
  unfold with_suffix. rewrite forallb_app. apply andb_true_intro; split.
  - apply forallb_ztake, cstr_nonul.
  - apply forallb_forall. intros x I. apply (proj1 (forallb_forall _ _) H) in I. unfold name_char in I. apply andb_prop in I. tauto.
Qed.

(** The template never throws. *)
Definition nothrow {A} (m : Mv A) : Prop := forall e s, m tt <> Exn e s.
Lemma nothrow_ret {A} (a : A) : nothrow (ret a). Proof. intros e s H; discriminate. Qed.
Lemma nothrow_undef {A} u : nothrow (undef u : Mv A). Proof. intros e s H; discriminate. Qed.
Lemma nothrow_bind {A B} (m : Mv A) (k : A -> Mv B) : nothrow m -> (forall a, nothrow (k a)) -> nothrow (bind m k).
Proof.
  intros Hm Hk e s. unfold bind. destruct (m tt) as [a []|e' s'| | |] eqn:E; try discriminate; [apply Hk|].
  intros X. exact (Hm _ _ E).
Qed.
Lemma nothrow_if {A} (b : bool) (m n : Mv A) : nothrow m -> nothrow n -> nothrow (if b then m else n).
Proof. destruct b; auto. Qed.
Lemma rfind_loop_nothrow mdiff fuel s w lo pos : nothrow (rfind_loop mdiff fuel s w lo pos).
Proof.
  revert pos; induction fuel as [|f IH]; intros pos; cbn [rfind_loop].
  - apply nothrow_if; [apply nothrow_ret|intros e' s' H'; discriminate].
  - apply nothrow_if; [apply nothrow_ret|].
    apply nothrow_bind; [unfold rd; destruct (znth 0 w); [apply nothrow_ret|apply nothrow_undef]|intros c0].
    apply nothrow_bind; [unfold rd; destruct (znth pos s); [apply nothrow_ret|apply nothrow_undef]|intros cp].
    apply nothrow_bind; [|intros hit; apply nothrow_if; [apply nothrow_ret|apply IH]].
    apply nothrow_if; [|apply nothrow_ret].
    apply nothrow_bind; [unfold memcmp; apply nothrow_if; [apply nothrow_ret|apply nothrow_undef]|intros v; apply nothrow_ret].
Qed.
Lemma substr_nothrow s a n : nothrow (substr s a n).
Proof. unfold substr. apply nothrow_if; [apply nothrow_ret|apply nothrow_undef]. Qed.
Lemma template_nothrow mdiff fn : nothrow (template mdiff fn).
Proof.
  unfold template. apply nothrow_bind; [|intros p].
  { unfold rfind. apply nothrow_if; [apply nothrow_ret|]. apply nothrow_if; [apply rfind_loop_nothrow|apply nothrow_ret]. }
  apply nothrow_bind; [apply nothrow_if; [apply nothrow_ret|apply substr_nothrow]|intros dir].
  apply nothrow_bind; [apply substr_nothrow|intros rest].
  unfold printf. apply nothrow_if; [apply nothrow_ret|apply nothrow_undef].
Qed.

Section Safe.
Variable y : sys.
Variable mdiff : Z -> Z -> Z.
Variable q : path.
Variable V : option chars -> Prop.

(** Outcomes: [Q] after a return, [T] after an exception, [S] when the machine stops. *)
Definition wp {A} (m : K A) (Q : A -> world -> Prop) (T S : world -> Prop) (w : world) : Prop :=
  match m w with Done a w' => Q a w' | Threw w' => T w' | Stop w' => S w' | Bad _ => True end.
Lemma wp_bind {A B} (m : K A) (k : A -> K B) Q T S w :
  wp m (fun a w' => wp (k a) Q T S w') T S w -> wp (kbind m k) Q T S w.
Proof. unfold wp, kbind. destruct (m w); auto. Qed.
Lemma wp_mono {A} (m : K A) (Q Q' : A -> world -> Prop) T S w :
  wp m Q T S w -> (forall a w', Q a w' -> Q' a w') -> wp m Q' T S w.
Proof. unfold wp. destruct (m w); auto. Qed.

(** Files ever named [q]. *)
Definition hist (w : world) (i : N) : Prop := exists g, In g (w_now w :: w_past w) /\ f_names g !! q = Some i.
Definition good (f : fs) (i : N) : Prop := exists n, f_inodes f !! i = Some n /\ i_synced n = true /\ V (Some (i_bytes n)).
Definition safe (w : world) : Prop :=
  (forall i, hist w i -> good (w_now w) i) /\
  (forall g, In g (w_now w :: w_past w) -> f_names g !! q = None -> V None).

Lemma safe_kernel c eff w : safe w ->
  (forall r f, eff (y_fail y (w_tick w)) (w_now w) = (r, f) ->
     (forall i, hist w i -> f_inodes f !! i = f_inodes (w_now w) !! i) /\
     (f_names f !! q = f_names (w_now w) !! q \/ exists i, f_names f !! q = Some i /\ good f i)) ->
  wp (kernel y c eff) (fun r w' => safe w' /\ w_obj w' = w_obj w /\ eff (y_fail y (w_tick w)) (w_now w) = (r, w_now w') /\
     w_past w' = w_now w :: w_past w) (fun _ => False) safe w.
Proof.
  intros [Hg Hn] He. unfold wp, kernel. destruct (y_stop y (w_tick w)); [split; assumption|].
  destruct (eff _ _) as [r f] eqn:E. destruct (He r f eq_refl) as [Hi Hq].
  repeat split; cbn [w_now w_past].
  - intros i [g [I N]]. cbn [w_now w_past] in I. destruct I as [<-|I].
    + destruct Hq as [Hq|[j [Hj G]]].
      * assert (X : hist w i) by (exists (w_now w); split; [left; reflexivity|congruence]).
        destruct (Hg i X) as [n Hn']. exists n. rewrite (Hi i X). exact Hn'.
      * replace i with j by congruence. exact G.
    + assert (X : hist w i) by (exists g; auto). destruct (Hg i X) as [n Hn']. exists n. rewrite (Hi i X). exact Hn'.
  - intros g [<-|I] N.
    + destruct Hq as [Hq|[j [Hj G]]]; [|congruence]. apply (Hn (w_now w)); [left; reflexivity|congruence].
    + exact (Hn g I N).
Qed.
Lemma hist_kernel w w' i : w_past w' = w_now w :: w_past w -> hist w' i -> hist w i \/ f_names (w_now w') !! q = Some i.
Proof.
  intros E [g [I N]]. rewrite E in I. destruct I as [<-|I]; [right; exact N|left]. exists g; auto.
Qed.

(** The temporary file of the object: open with contents [b], never named [q]. *)
Definition temp_ok (w : world) (tmp : chars) : Prop := file_path (cstr tmp) = true -> resolve (cstr tmp) <> q.
Definition has_temp (w : world) (fd : Z) (tmp b : chars) : Prop :=
  0 <= fd /\ exists i n, f_fds (w_now w) !! fd = Some i /\ f_names (w_now w) !! resolve (cstr tmp) = Some i /\
    f_inodes (w_now w) !! i = Some n /\ i_bytes n = b /\ ~ hist w i.
Definition inv (cur : option (chars * chars)) (w : world) : Prop :=
  safe w /\ temp_ok w (a_tmp (w_obj w)) /\
  (a_fd (w_obj w) = -1 \/
   exists b, cur = Some (a_fname (w_obj w), b) /\ has_temp w (a_fd (w_obj w)) (a_tmp (w_obj w)) b).

Lemma safe_obj w o : safe (World (w_now w) (w_past w) (w_tick w) (w_log w) o) <-> safe w.
Proof. reflexivity. Qed.
Lemma safe_any w w' : w_now w' = w_now w -> w_past w' = w_past w -> safe w -> safe w'.
Proof. intros E1 E2 [A B]. unfold safe, hist. rewrite E1, E2. split; assumption. Qed.

Lemma unlink_safe p w : safe w -> (file_path p = true -> resolve p <> q) ->
  wp (unlink y p) (fun r w' => safe w' /\ w_obj w' = w_obj w) (fun _ => False) safe w.
Proof.
  intros Hs Hp. eapply wp_mono; [apply safe_kernel; [exact Hs|]|cbn; tauto].
  intros r f. destruct (f_names (w_now w) !! resolve p) as [i|]; [|intros E; inversion E; subst; auto].
  destruct (y_fail y (w_tick w) || negb (file_path p)) eqn:F; intros E; inversion E; subst; [auto|].
  split; [reflexivity|left]. cbn [f_names]. rewrite lookup_delete_ne; [reflexivity|].
  apply Hp. destruct (file_path p); [reflexivity|]. rewrite orb_true_r in F; discriminate.
Qed.
Lemma close_safe fd w : safe w ->
  wp (close y fd) (fun r w' => safe w' /\ w_obj w' = w_obj w /\ f_names (w_now w') = f_names (w_now w) /\
    f_inodes (w_now w') = f_inodes (w_now w) /\ w_past w' = w_now w :: w_past w) (fun _ => False) safe w.
Proof.
  intros Hs. unfold close.
  assert (X : forall k fail r f, close_fd fd k fail (w_now w) = (r, f) -> f_names f = f_names (w_now w) /\ f_inodes f = f_inodes (w_now w)).
  { intros k fail r f. unfold close_fd. destruct (open_fd _ _); [|intros E; inversion E; auto].
    destruct (_ && _); intros E; inversion E; auto. }
  eapply wp_mono; [apply safe_kernel; [exact Hs|]|].
  - intros r f E. destruct (X _ _ _ _ E) as [-> ->]. auto.
  - intros r w' (A & B & C & D). destruct (X _ _ _ _ C). auto.
Qed.
(** Changing the file behind a descriptor. *)
Lemma upd_safe c fd tmp b g (h : bool -> bool) w : safe w -> has_temp w fd tmp b ->
  wp (kernel y c (fun fail => upd_inode fd g (h fail)))
    (fun r w' => safe w' /\ w_obj w' = w_obj w /\ f_names (w_now w') = f_names (w_now w) /\ f_fds (w_now w') = f_fds (w_now w) /\
       w_past w' = w_now w :: w_past w /\
       exists i n, f_fds (w_now w) !! fd = Some i /\ f_inodes (w_now w) !! i = Some n /\ i_bytes n = b /\
         f_names (w_now w) !! resolve (cstr tmp) = Some i /\ ~ hist w' i /\
         r = negb (h (y_fail y (w_tick w))) /\
         f_inodes (w_now w') !! i = Some (if r then g n else n) /\
         forall j, j <> i -> f_inodes (w_now w') !! j = f_inodes (w_now w) !! j)
    (fun _ => False) safe w.
Proof.
  intros Hs [Hfd (i & n & Hf & Hnm & Hi & Hb & Hh)].
  assert (Ho : open_fd (w_now w) fd = Some i).
  { unfold open_fd. replace (fd <? 0) with false by (symmetry; apply Z.ltb_ge; exact Hfd). exact Hf. }
  eapply wp_mono; [apply safe_kernel; [exact Hs|]|].
  - intros r f. unfold upd_inode. rewrite Ho, Hi. destruct (h (y_fail y (w_tick w))); intros E; inversion E; subst; [auto|].
    cbn [f_inodes f_names]. split; [|auto]. intros j Hj. rewrite lookup_insert_ne; [reflexivity|]. intros ->. exact (Hh Hj).
  - intros r w' (A & B & C & D).
    assert (Hh' : f_names (w_now w') = f_names (w_now w) -> ~ hist w' i).
    { intros En X. destruct (hist_kernel _ _ _ D X) as [X'|X']; [exact (Hh X')|]. apply Hh.
      exists (w_now w). split; [left; reflexivity|]. rewrite <- En. exact X'. }
    unfold upd_inode in C. rewrite Ho, Hi in C. destruct (h (y_fail y (w_tick w))) eqn:F; inversion C; subst.
    + rewrite <- H1 in *. split; [assumption|]. repeat split; auto. exists i, n. repeat split; auto.
    + rewrite <- H1 in *. cbn [f_names f_fds f_inodes] in *. repeat split; auto; try apply A.
      exists i, n. repeat split; auto.
      * rewrite lookup_insert. reflexivity.
      * intros j Hj. rewrite lookup_insert_ne by congruence. reflexivity.
Qed.
Lemma wp_obj {B} (k : afile -> K B) Q T S w : wp (k (w_obj w)) Q T S w -> wp (kbind obj k) Q T S w.
Proof. intros H. exact H. Qed.
Lemma wp_set {B} o (k : unit -> K B) Q T S w :
  wp (k tt) Q T S (World (w_now w) (w_past w) (w_tick w) (w_log w) o) -> wp (kbind (set_obj o) k) Q T S w.
Proof. intros H. exact H. Qed.
Lemma wp_ret {A} (a : A) (Q : A -> world -> Prop) T S w : Q a w -> wp (kret a) Q T S w.
Proof. intros H. exact H. Qed.

(** Calls with no descriptor do nothing. *)
Lemma nofd_safe c g (h : bool -> bool) w : safe w ->
  wp (kernel y c (fun fail => upd_inode (-1) g (h fail)))
    (fun r w' => safe w' /\ w_obj w' = w_obj w /\ w_now w' = w_now w /\ r = false /\ w_past w' = w_now w :: w_past w)
    (fun _ => False) safe w.
Proof.
  intros Hs. eapply wp_mono; [apply safe_kernel; [exact Hs|]|].
  - intros r f E. unfold upd_inode, open_fd in E. cbn in E. inversion E; subst; auto.
  - intros r w' (A & B & C & D). unfold upd_inode, open_fd in C. cbn in C. inversion C; subst. auto.
Qed.

Definition cur_write (cur : option (chars * chars)) (b : chars) : option (chars * chars) :=
  match cur with Some (fn, w) => Some (fn, w ++ b) | None => None end.
Lemma cur_write_app cur b c : cur_write (cur_write cur b) c = cur_write cur (b ++ c).
Proof. destruct cur as [[fn w]|]; cbn; [rewrite app_assoc|]; reflexivity. Qed.
Lemma cur_write_nil cur : cur_write cur [] = cur.
Proof. destruct cur as [[fn w]|]; cbn; [rewrite app_nil_r|]; reflexivity. Qed.

Lemma write_inv b : forall cur w, inv cur w ->
  wp (awrite y b) (fun _ w' => inv (cur_write cur b) w') (fun _ => False) safe w.
Proof.
  induction b as [|c b IH]; intros cur w Hi; cbn [awrite].
  - apply wp_ret. rewrite cur_write_nil. exact Hi.
  - apply wp_obj. apply wp_bind. change (c :: b) with ([c] ++ b). 
    destruct Hi as (Hs & Ht & Hf). unfold fd, is_open.
    destruct Hf as [Hf|(b0 & Hc & Hh)].
    + rewrite Hf. cbn [negb Z.eqb]. eapply wp_mono; [exact (nofd_safe CWrite _ (fun _ => false) w Hs)|].
      intros r w' (A & B & C & D & E). rewrite <- cur_write_app. apply IH.
      split; [exact A|]. unfold temp_ok in *. rewrite B. split; [exact Ht|]. left; exact Hf.
    + pose proof (proj1 Hh) as Hpos.
      replace (a_fd (w_obj w) =? -1) with false by (symmetry; apply Z.eqb_neq; lia). cbn [negb].
      eapply wp_mono; [exact (upd_safe CWrite _ _ _ _ (fun _ => false) w Hs Hh)|].
      intros r w' (A & B & C & D & E & i & n & F1 & F2 & F3 & F4 & F5 & F6 & F7 & F8). rewrite <- cur_write_app. apply IH.
      split; [exact A|]. unfold temp_ok in *. rewrite B. split; [exact Ht|]. right.
      exists (b0 ++ [c]). split; [rewrite Hc; reflexivity|]. split; [exact Hpos|].
      exists i, (Inode (i_bytes n ++ [c]) (i_mode n) false). rewrite D, C. subst r. cbn [negb] in F7.
      repeat split; auto. cbn [i_bytes]. rewrite F3. reflexivity.
Qed.

(** After commit: closed, and the file in place if it says so. *)
Definition placed (w w' : world) (b : chars) (m : Z) : Prop :=
  exists i n, f_names (w_now w') !! resolve (cstr (a_fname (w_obj w))) = Some i /\ f_inodes (w_now w') !! i = Some n /\
    i_bytes n = b /\ i_synced n = true /\ (m <> no_mode -> i_mode n = m).
Lemma cleanup_inv rm r w : safe w -> temp_ok w (a_tmp (w_obj w)) ->
  wp (cleanup y rm r) (fun r' w' => inv None w' /\ r' = r /\ (rm = false -> w_now w' = w_now w) /\ a_fd (w_obj w') = -1) (fun _ => False) safe w.
Proof.
  intros Hs Ht. unfold cleanup. apply wp_obj. apply wp_bind.
  destruct rm.
  - eapply wp_mono; [apply unlink_safe; [exact Hs|exact Ht]|]. intros r' w' (A & B).
    apply wp_set. apply wp_ret. repeat split; cbn [w_obj a_fd a_tmp w_now]; try apply A; try discriminate; auto.
  - apply wp_ret. apply wp_set. apply wp_ret. repeat split; cbn [w_obj a_fd a_tmp w_now]; try apply Hs; auto.
Qed.
Lemma rename_safe p t i b n w : safe w -> (file_path p = true -> resolve p <> q) ->
  f_names (w_now w) !! resolve p = Some i -> f_inodes (w_now w) !! i = Some n -> i_synced n = true -> i_bytes n = b ->
  (resolve t = q -> V (Some b)) ->
  wp (rename y p t) (fun r w' => safe w' /\ w_obj w' = w_obj w /\
    (r = true -> f_names (w_now w') !! resolve t = Some i /\ f_inodes (w_now w') = f_inodes (w_now w))) (fun _ => False) safe w.
Proof.
  intros Hs Hp Hi Hn Hy Hb HV. eapply wp_mono; [apply safe_kernel; [exact Hs|]|].
  - intros r f. rewrite Hi.
    destruct (y_fail y (w_tick w) || negb (file_path p) || negb (file_path t)) eqn:F; intros E; inversion E; subst; [auto|].
    cbn [f_inodes f_names]. split; [reflexivity|].
    destruct (decide (resolve t = q)) as [Eq|Ne].
    + right. exists i. rewrite Eq, lookup_insert. split; [reflexivity|]. exists n. cbn [f_inodes]. auto.
    + left. rewrite lookup_insert_ne by congruence. rewrite lookup_delete_ne; [reflexivity|]. apply Hp.
      destruct (file_path p); [reflexivity|]. cbn in F. rewrite orb_true_r in F. discriminate.
  - intros r w' (A & B & C & D). split; [exact A|]. split; [exact B|]. intros ->. rewrite Hi in C.
    destruct (_ || _); injection C as C; [discriminate|]. rewrite <- C. cbn [f_names f_inodes]. split; [apply lookup_insert|reflexivity].
Qed.
Lemma commit_inv cur w : inv cur w ->
  (forall fn b, cur = Some (fn, b) -> resolve (cstr fn) = q -> V (Some b)) ->
  wp (commit y) (fun r w' => inv None w' /\ a_fd (w_obj w') = -1 /\
     (r = true -> exists b, cur = Some (a_fname (w_obj w), b) /\ placed w w' b (a_mode (w_obj w)))) (fun _ => False) safe w.
Proof.
  intros (Hs & Ht & Hf) HV. match goal with |- wp _ ?X _ _ _ => set (Q := X) end.
  unfold commit. apply wp_obj. apply wp_bind.
  assert (CU : forall w', safe w' -> w_obj w' = w_obj w -> wp (cleanup y true false) Q (fun _ => False) safe w').
  { intros w' A B. eapply wp_mono; [apply cleanup_inv; [exact A|rewrite B; exact Ht]|].
    intros r w'' (X1 & X2 & X3 & X4). split; [exact X1|]. split; [exact X4|]. intros X; congruence. }
  destruct Hf as [Hf|(b & Hc & Hh)].
  - (* no descriptor *)
    rewrite Hf. destruct (a_mode (w_obj w) =? no_mode) eqn:M.
    + apply wp_ret. cbn [negb]. apply wp_bind. eapply wp_mono; [exact (nofd_safe CFsync (fun n => Inode (i_bytes n) (i_mode n) true) (fun f => f) w Hs)|].
      intros r w' (A & B & C & D & E). subst r. cbn [negb]. exact (CU w' A B).
    + eapply wp_mono; [exact (nofd_safe CFchmod (fun n => Inode (i_bytes n) (a_mode (w_obj w)) (i_synced n)) (fun f => f) w Hs)|].
      intros r w' (A & B & C & D & E). subst r. cbn [negb]. exact (CU w' A B).
  - assert (REST : forall w', safe w' -> w_obj w' = w_obj w -> has_temp w' (a_fd (w_obj w)) (a_tmp (w_obj w)) b ->
      (a_mode (w_obj w) <> no_mode -> forall i n, f_fds (w_now w') !! a_fd (w_obj w) = Some i -> f_inodes (w_now w') !! i = Some n -> i_mode n = a_mode (w_obj w)) ->
      wp (let! ok := fsync y (a_fd (w_obj w)) in
          if negb ok then cleanup y true false else
          let! ok := close y (a_fd (w_obj w)) in
          if negb ok then cleanup y true false else
          let! ok := rename y (cstr (a_tmp (w_obj w))) (cstr (a_fname (w_obj w))) in
          if negb ok then cleanup y true false else cleanup y false true) Q (fun _ => False) safe w').
    { intros w1 S1 O1 T1 M1. apply wp_bind. eapply wp_mono; [exact (upd_safe CFsync _ _ _ (fun n => Inode (i_bytes n) (i_mode n) true) (fun f => f) w1 S1 T1)|].
      intros r w2 (A & B & C & D & E & i & n & F1 & F2 & F3 & F4 & F5 & F6 & F7 & F8).
      destruct r; cbn [negb]; [|apply CU; [exact A|congruence]].
      apply wp_bind. eapply wp_mono; [apply close_safe; exact A|].
      intros r w3 (A3 & B3 & C3 & D3 & E3). destruct r; cbn [negb]; [|apply CU; [exact A3|congruence]].
      apply wp_bind. eapply wp_mono.
      { apply (rename_safe _ _ i b (Inode (i_bytes n) (i_mode n) true)); [exact A3|exact Ht| | |reflexivity|exact F3|exact (HV _ _ Hc)].
        - rewrite C3, C. exact F4.
        - rewrite D3. exact F7. }
      intros r w4 (A4 & B4 & C4). destruct r; cbn [negb]; [|apply CU; [exact A4|congruence]].
      destruct (C4 eq_refl) as [N4 I4].
      eapply wp_mono; [apply cleanup_inv; [exact A4|rewrite B4, B3, B, O1; exact Ht]|].
      intros r w5 (A5 & -> & C5 & D5). split; [exact A5|]. split; [exact D5|]. intros _. exists b. split; [exact Hc|].
      exists i, (Inode (i_bytes n) (i_mode n) true). rewrite (C5 eq_refl). repeat split.
      - exact N4.
      - rewrite I4, D3. exact F7.
      - exact F3.
      - intros Hm. cbn [i_mode]. exact (M1 Hm i n F1 F2). }
    destruct (a_mode (w_obj w) =? no_mode) eqn:M.
    + apply wp_ret. cbn [negb]. apply REST; auto. intros Hm. apply Z.eqb_eq in M. contradiction.
    + eapply wp_mono; [exact (upd_safe CFchmod _ _ _ (fun n => Inode (i_bytes n) (a_mode (w_obj w)) (i_synced n)) (fun f => f) w Hs Hh)|].
      intros r w2 (A & B & C & D & E & i & n & F1 & F2 & F3 & F4 & F5 & F6 & F7 & F8).
      destruct r; cbn [negb]; [|apply CU; [exact A|exact B]].
      apply REST; auto.
      * split; [exact (proj1 Hh)|]. exists i, (Inode (i_bytes n) (a_mode (w_obj w)) (i_synced n)). rewrite C, D. repeat split; auto.
      * intros _ i' n' X1 X2. rewrite D in X1. replace i' with i in X2 by congruence. rewrite F7 in X2. inversion X2; reflexivity.
Qed.
Lemma abort_inv cur w : inv cur w ->
  wp (aabort y) (fun r w' => inv None w' /\ a_fd (w_obj w') = -1) (fun _ => False) safe w.
Proof.
  intros (Hs & Ht & Hf). unfold aabort. apply wp_obj. unfold is_open. destruct (a_fd (w_obj w) =? -1) eqn:E; cbn [negb].
  - apply wp_ret. apply Z.eqb_eq in E. repeat split; auto; apply Hs.
  - apply wp_bind. eapply wp_mono; [apply unlink_safe; [exact Hs|exact Ht]|]. intros r w' (A & B).
    apply wp_bind. eapply wp_mono; [apply close_safe; exact A|]. intros r' w'' (A' & B' & C' & D' & E').
    apply wp_set. apply wp_ret. repeat split; cbn [w_obj a_fd a_tmp]; auto; apply A'.
Qed.
Lemma destroy_inv cur w : inv cur w ->
  wp (adestroy y) (fun r w' => inv None w' /\ a_fd (w_obj w') = -1) (fun _ => False) safe w.
Proof.
  intros Hi. unfold adestroy. apply wp_obj. apply wp_bind. destruct (is_open (w_obj w)).
  - eapply wp_mono; [apply (abort_inv _ _ Hi)|]. intros r w' ((A & B & C) & D). apply wp_set. apply wp_ret.
    repeat split; auto; try apply A. cbn. discriminate.
  - apply wp_ret. apply wp_set. apply wp_ret. repeat split; auto; try apply Hi. cbn. discriminate.
Qed.
Definition not_temp (fn : chars) : Prop := forall p, temp_name mdiff fn p -> file_path p = true -> resolve p <> q.
Definition mk_effect (p : chars) (d : Z) (i : N) (fail : bool) (f : fs) : bool * fs :=
  match f_names f !! resolve p, f_inodes f !! i, open_fd f d with
  | None, None, None =>
    if fail || (d <? 0) || negb (file_path p) then (false, f)
    else (true, Fs (<[resolve p := i]> (f_names f)) (<[i := Inode [] 384 false]> (f_inodes f)) (<[d := i]> (f_fds f)))
  | _, _, _ => (false, f)
  end.
Lemma mkstemp_cases t w : exists suf d i,
  (mkstemp y t w = kbind (kernel y CMkstemp (fun _ f => (false, f))) (fun _ => kret (-1, t)) w) \/
  (zlen suf = 6 /\ forallb name_char suf = true /\
   mkstemp y t w = kbind (kernel y CMkstemp (mk_effect (with_suffix (cstr t) suf) d i))
     (fun r => kret (if (r : bool) then d else -1, with_suffix (cstr t) suf ++ zdrop (zlen (cstr t)) t)) w).
Proof.
  unfold mkstemp. destruct (y_pick y (w_tick w)) as [[suf d] i]. exists suf, d, i.
  destruct (_ || _) eqn:G; [left; reflexivity|right].
  apply orb_false_elim in G as [_ G]. apply negb_false_iff in G. apply andb_prop in G as [G1 G2]. apply Z.eqb_eq in G1. auto.
Qed.
Lemma mkstemp_inv fn m t w : safe w -> not_temp fn -> template mdiff fn tt = Ok t tt ->
  wp (mkstemp y t) (fun r w' => inv (Some (fn, [])) (World (w_now w') (w_past w') (w_tick w') (w_log w') (AFile fn (snd r) (fst r) m)))
    (fun _ => False) safe w.
Proof.
  intros Hs Hq Et. destruct (mkstemp_cases t w) as (suf & d & i & [E|(L & N & E)]).
  - unfold wp. rewrite E. match goal with |- match ?X w with _ => _ end => change (wp X
      (fun r w' => inv (Some (fn, [])) (World (w_now w') (w_past w') (w_tick w') (w_log w') (AFile fn (snd r) (fst r) m))) (fun _ => False) safe w) end.
    apply wp_bind. eapply wp_mono; [apply safe_kernel; [exact Hs|]|].
    + intros r f X; inversion X; auto.
    + intros r w' (A & B & C & D). apply wp_ret. cbn [fst snd]. split; [exact A|]. split; [|left; reflexivity].
      unfold temp_ok. cbn [w_obj a_tmp]. apply Hq. exists t. auto.
  - unfold wp. rewrite E. match goal with |- match ?X w with _ => _ end => change (wp X
      (fun r w' => inv (Some (fn, [])) (World (w_now w') (w_past w') (w_tick w') (w_log w') (AFile fn (snd r) (fst r) m))) (fun _ => False) safe w) end.
    set (p := with_suffix (cstr t) suf). fold p in E.
    assert (Hp : file_path p = true -> resolve p <> q) by (apply Hq; exists t; split; [exact Et|right; exists suf; auto]).
    apply wp_bind. eapply wp_mono; [apply safe_kernel; [exact Hs|]|].
    + intros r f. unfold mk_effect.
      destruct (f_names (w_now w) !! resolve p); [intros X; inversion X; auto|].
      destruct (f_inodes (w_now w) !! i) eqn:Ei; [intros X; inversion X; auto|].
      destruct (open_fd (w_now w) d); [intros X; inversion X; auto|].
      destruct (_ || _) eqn:F; intros X; inversion X; auto. cbn [f_inodes f_names].
      apply orb_false_elim in F as [_ F]. apply negb_false_iff in F.
      split; [|left; rewrite lookup_insert_ne by auto; reflexivity].
      intros j Hj. rewrite lookup_insert_ne; [reflexivity|]. intros ->. destruct (proj1 Hs _ Hj) as [n [Hn _]]. congruence.
    + intros r w' (A & B & C & D). apply wp_ret. cbn [fst snd]. split; [exact A|].
      unfold temp_ok. cbn [w_obj a_tmp a_fd a_fname].
      pose proof (cstr_suffix t suf N) as Ec. fold p in Ec. rewrite Ec. split; [exact Hp|].
      destruct r; [right|left; reflexivity].
      exists []. split; [reflexivity|]. unfold mk_effect in C.
      destruct (f_names (w_now w) !! resolve p); [discriminate|].
      destruct (f_inodes (w_now w) !! i) eqn:Ei; [discriminate|].
      destruct (open_fd (w_now w) d); [discriminate|].
      destruct (_ || _) eqn:F; injection C as C; [discriminate|].
      apply orb_false_elim in F as [F1 F]. apply orb_false_elim in F1 as [_ F1]. apply negb_false_iff in F. apply Z.ltb_ge in F1.
      split; [exact F1|]. exists i, (Inode [] 384 false). cbn [w_now]. rewrite Ec.
      split; [rewrite <- C; cbn [f_fds]; apply lookup_insert|].
      split; [rewrite <- C; cbn [f_names]; apply lookup_insert|].
      split; [rewrite <- C; cbn [f_inodes]; apply lookup_insert|].
      split; [reflexivity|].
      intros X. change (hist w' i) in X. destruct (hist_kernel _ _ _ D X) as [Y|Y].
      * destruct (proj1 Hs _ Y) as [n [Hn _]]. congruence.
      * rewrite <- C in Y. cbn [f_names] in Y. rewrite lookup_insert_ne in Y by auto.
        destruct (proj1 Hs i) as [n [Hn _]]; [|congruence]. exists (w_now w). split; [left; reflexivity|exact Y].
Qed.

Definition no_oom : Prop := forall n, y_oom y n = false.
Lemma open_inv cur fn m w : inv cur w -> (cur = None \/ no_oom) -> not_temp fn ->
  wp (aopen y mdiff fn m) (fun _ => inv (Some (fn, []))) (inv (Some (fn, []))) safe w.
Proof.
  intros (Hs & Ht & Hf) Ho Hq. unfold aopen. apply wp_obj. apply wp_set.
  assert (Hfd : a_fd (w_obj w) = -1 \/ no_oom).
  { destruct Ho as [-> |Ho]; [|right; exact Ho]. left. destruct Hf as [Hf|(b & X & _)]; [exact Hf|discriminate]. }
  clear Ho Hf.
  unfold wp, kbind at 1, memory at 1. cbn [w_tick w_now w_past w_log w_obj].
  destruct (y_oom y (w_tick w)) eqn:O1.
  { destruct Hfd as [Hfd|Hno]; [|rewrite Hno in O1; discriminate].
    split; [exact Hs|]. split; [exact Ht|]. left. exact Hfd. }
  unfold kbind at 1, pure. destruct (template mdiff fn tt) as [t []|e s'| | |] eqn:Et; try exact I.
  2: { exfalso. exact (template_nothrow _ _ _ _ Et). }
  unfold kbind at 1, set_obj at 1. cbn [w_tick w_now w_past w_log w_obj].
  unfold kbind at 1, memory at 1. cbn [w_tick w_now w_past w_log w_obj].
  destruct (y_oom y (S (w_tick w))) eqn:O2.
  { destruct Hfd as [Hfd|Hno]; [|rewrite Hno in O2; discriminate].
    split; [exact Hs|]. split; [|left; exact Hfd]. unfold temp_ok. cbn [w_obj a_tmp]. apply Hq. exists t. auto. }
  set (w1 := World _ _ _ _ _).
  match goal with |- match ?X w1 with _ => _ end => change (wp X (fun _ => inv (Some (fn, []))) (inv (Some (fn, []))) safe w1) end.
  apply wp_bind. pose proof (mkstemp_inv fn m t w1 Hs Hq Et) as K. unfold wp in K |- *.
  destruct (mkstemp y t w1) as [r w'|w'|w'|]; auto. contradiction.
Qed.

(** What the object is writing after some calls. *)
Fixpoint cur_after (cur : option (chars * chars)) (ops : list aop) : option (chars * chars) :=
  match ops with
  | [] => cur
  | AOpen fn _ :: r => cur_after (Some (fn, [])) r
  | AWrite b :: r => cur_after (cur_write cur b) r
  | _ :: r => cur_after None r
  end.
Lemma sessions_app ops ops' : forall cur, sessions cur (ops ++ ops') = sessions cur ops ++ sessions (cur_after cur ops) ops'.
Proof.
  induction ops as [|[fn m|b| | |] ops IH]; intros cur; cbn [app sessions cur_after]; try apply IH; [reflexivity|].
  destruct cur; cbn [app]; rewrite IH; reflexivity.
Qed.
Definition is_some {A} (o : option A) : bool := match o with Some _ => true | None => false end.
Lemma run_inv : forall ops cur w, inv cur w -> (bracketed (is_some cur) ops = true \/ no_oom) ->
  (forall fn m, In (AOpen fn m) ops -> not_temp fn) ->
  (forall fn b, In (fn, b) (sessions cur ops) -> resolve (cstr fn) = q -> V (Some b)) ->
  wp (arun y mdiff ops) (fun _ => inv (cur_after cur ops)) (fun _ => False) safe w.
Proof.
  induction ops as [|o ops IH]; intros cur w Hi Hb Hq HV; cbn [arun cur_after].
  { exact Hi. }
  assert (Hq' : forall fn m, In (AOpen fn m) ops -> not_temp fn) by (intros fn m I; apply (Hq fn m); right; exact I).
  assert (GO : forall cur' w', inv cur' w' -> (bracketed (is_some cur') ops = true \/ no_oom) ->
     (forall fn b, In (fn, b) (sessions cur' ops) -> resolve (cstr fn) = q -> V (Some b)) ->
     match arun y mdiff ops w' with Done _ w'' => inv (cur_after cur' ops) w'' | Threw _ => False | Stop w'' => safe w'' | Bad _ => True end).
  { intros cur' w' A B C. exact (IH cur' w' A B Hq' C). }
  assert (ST : forall cur', wp (astep y mdiff o) (fun _ => inv cur') (inv cur') safe w ->
     (bracketed (is_some cur') ops = true \/ no_oom) ->
     (forall fn b, In (fn, b) (sessions cur' ops) -> resolve (cstr fn) = q -> V (Some b)) ->
     wp (fun w => match astep y mdiff o w with
       | Done b w' => match arun y mdiff ops w' with Done l w'' => Done (Some b :: l) w'' | x => x end
       | Threw w' => match arun y mdiff ops w' with Done l w'' => Done (None :: l) w'' | x => x end
       | Stop w' => Stop w' | Bad u => Bad u end) (fun _ => inv (cur_after cur' ops)) (fun _ => False) safe w).
  { intros cur' A B C. unfold wp in A |- *. destruct (astep y mdiff o w) as [b w'|w'|w'|]; auto.
    - specialize (GO cur' w' A B C). destruct (arun y mdiff ops w'); auto.
    - specialize (GO cur' w' A B C). destruct (arun y mdiff ops w'); auto. }
  assert (F2W : forall {A} (m : K A) Q (T : world -> Prop) S w, wp m Q (fun _ => False) S w -> wp m Q T S w).
  { intros A m Q T S w0. unfold wp. destruct (m w0); auto; contradiction. }
  destruct o as [fn m|b| | |]; cbn [sessions bracketed astep] in *.
  - apply ST.
    + apply (open_inv cur); [exact Hi| |exact (Hq fn m (or_introl eq_refl))].
      destruct Hb as [Hb|Hb]; [left|right; exact Hb]. apply andb_prop in Hb as [Hb _]. destruct cur; [discriminate|reflexivity].
    + destruct Hb as [Hb|Hb]; [left|right; exact Hb]. apply andb_prop in Hb as [_ Hb]. exact Hb.
    + exact HV.
  - apply ST; [apply F2W; apply write_inv; exact Hi| |exact HV].
    destruct cur as [[]|]; exact Hb.
  - apply ST; [|exact Hb|].
    + apply F2W. eapply wp_mono; [apply (commit_inv cur); [exact Hi|]|].
      * intros fn b -> E. apply (HV fn b); [left; reflexivity|exact E].
      * intros r w' (A & B & C). exact A.
    + intros fn b I E. apply (HV fn b); [|exact E]. destruct cur; [right|]; exact I.
  - apply ST; [|exact Hb|exact HV]. apply F2W. eapply wp_mono; [apply (abort_inv cur); exact Hi|]. intros r w' (A & B). exact A.
  - apply ST; [|exact Hb|exact HV]. apply F2W. eapply wp_mono; [apply (destroy_inv cur); exact Hi|]. intros r w' (A & B). exact A.
Qed.
End Safe.
