(** Constructors, assignments from values, reserve, shift/pop and c_str. *)
From Verif Require Import RcaSpec RcaModel RcaExec RcaInv RcaOwn RcaRel RcaRel2 RcaMod ZListMod.
From Coq Require Import ZifyBool.
Open Scope Z_scope.

Section Ctor.
Context {T : Type} (d : desc T).
Notation St := (state T).
Implicit Types (s : St) (x y : var) (o : obj) (a : astate T) (v w b : list (option T)).
Notation R := (R d).
Notation held := (held d).
Notation owns := (owns d).
Notation bd := (base_desc d).

Lemma R_base s a : R s a -> RcaRel.R bd s a.
Proof.
  intros [HI H]. split; [exact HI|]. intros x. specialize (H x).
  destruct (a !! x) as [[r v|]|], (st_env s !! x) as [o|]; try exact H.
  destruct H as (H1 & H2 & H3). split; [exact H1|]. split; [exact H2|]. intros Hn; cbn in Hn; congruence.
Qed.

(** A constructor that fails part way leaves no trace. *)
Definition undone s a (sc : Z -> Z) n (e : exn) s' : Prop :=
  e = BadAlloc /\ R s' a /\ starves d sc n.
Lemma guard_R (d' : desc T) s a s1 x m (P : unit -> St -> Prop) (E : exn -> St -> Prop) (C : Prop) :
  (forall q, Inv d q -> Inv d' q) -> (forall q, Inv d' q -> Inv d q) ->
  R s a -> a !! x = None -> Frame (eq x) s s1 -> runs m s1 P E ->
  (forall e s', E e s' -> e = BadAlloc /\ Inv d s' /\ Frame (eq x) s1 s' /\ (exists o, st_env s' !! x = Some o) /\ C) ->
  runs (ctor_guard x (destroy d' x) m) s1 P (fun e s' => e = BadAlloc /\ R s' a /\ C).
Proof.
  intros Hd1 Hd2 HR Ha HF Hm HE. unfold runs, ctor_guard in *.
  destruct (m s1) as [u s'|e s'| | |u]; try exact Hm.
  destruct (HE e s' Hm) as (-> & HI & HF' & (o & Ho) & HC).
  destruct (destroy_inv d' s' x o (Hd1 _ HI) Ho) as (s'' & Hs & HI'' & HF'' & He). rewrite Hs.
  split; [reflexivity|]. split; [|exact HC].
  rewrite <- (delete_notin a x Ha). eapply (R_delete d); [exact HR|apply Hd2, HI''| |].
  - eapply frame_trans; [exact HF|]. eapply frame_trans; [exact HF'|exact HF''].
  - rewrite He. apply lookup_delete.
Qed.
Lemma same_value_facts d' s x o s' : same_value d' s x o s' ->
  Inv d' s' /\ Frame (eq x) s s' /\ exists o', st_env s' !! x = Some o'.
Proof. intros (H1 & H2 & o' & H3 & _). eauto. Qed.
Lemma fails_facts d' s a x n e s' : fails d' s a x n e s' -> (exists av, a !! x = Some av) ->
  e = BadAlloc /\ Inv d' s' /\ Frame (eq x) s s' /\ (exists o', st_env s' !! x = Some o') /\
  starves d' (d_grow d') (room d' n).
Proof.
  intros (-> & Hf & HF & Hs) (av & Ha). splits; try assumption; destruct Hf as [H|[_ H]]; try apply H.
  - destruct (R_lookup _ _ _ _ _ H Ha) as (o & Ho & _); eauto.
  - destruct (R_lookup _ _ _ x _ H (lookup_insert _ _ _)) as (o & Ho & _); eauto.
Qed.
Lemma nul_room off n b : d_nul d = None \/ off + n < zlen b -> d_nul d <> None -> true = true -> n = 0 \/ off + n < zlen b.
Proof. intros [H|H] H1 _; [contradiction|right; exact H]. Qed.

Definition sized s a x (n : Z) s' : Prop :=
  R s' (<[x:=AVal true []]> a) /\ Frame (eq x) s s' /\
  (n = 0 -> st_env s' !! x = Some obj_empty) /\
  (n <> 0 -> exists off b, owns s s' x off 0 b /\ off + n <= zlen b).
Lemma ctor_sized_R s a x n :
  R s a -> a !! x = None -> 0 <= n ->
  runs (ctor_sized d x n) s (fun _ s' => sized s a x n s') (undone s a (fun z => z) n).
Proof.
  intros HR Ha Hn. destruct (ctor_default_R d s a x HR Ha) as (s1 & E1 & HR1 & HI1 & HF1 & Hx1).
  unfold ctor_sized. eapply runs_step; [exact E1|].
  eapply (guard_R bd); [intros q H; exact H|intros q H; exact H|exact HR|exact Ha|exact HF1| |].
  - instantiate (1 := fun e s' => e = BadAlloc /\ same_value bd s1 x obj_empty s' /\ starves d (fun z => z) n).
    destruct (Z.eqb_spec n 0) as [->|Hn0].
    { apply runs_ret. split; [exact HR1|]. split; [exact HF1|]. split; [intros _; exact Hx1|congruence]. }
    eapply runs_conseq; [apply (base_reserve_spec bd s1 x n _ obj_empty HI1 Hx1); try (cbn; lia)| |].
    + apply good_empty.
    + intros l c; discriminate.
    + intros ? s' Hres.
      destruct (reserved_owns bd s s1 x obj_empty s' n HF1 eq_refl Hres) as (off & b & HO & Hfit & _ & _).
      change (owns s s' x off 0 b) in HO. split; [|split; [apply HO|split; [congruence|]]].
      * eapply owns_R; [exact HR|exact HO|rewrite zsub_0 by lia; constructor|intros; left; reflexivity].
      * intros _. exists off, b; auto.
    + intros e s' (H1 & H2 & _ & H3); auto.
  - intros e s' (-> & Hsv & Hst). destruct (same_value_facts _ _ _ _ _ Hsv) as (H1 & H2 & H3). auto.
Qed.

(** Storing a whole list into an own buffer and setting the length. *)
Lemma fill_from s a s1 x off b w r (P : unit -> St -> Prop) E :
  R s a -> owns s s1 x off 0 b -> off + zlen w <= zlen b ->
  (d_nul d <> None -> r = true -> zlen w = 0 \/ off + zlen w < zlen b) ->
  (forall s', R s' (<[x:=AVal r w]> a) -> owns s s' x off (zlen w) (zupd off w b) -> P tt s') ->
  runs (store x 0 w ;;; set_len x (zlen w)) s1 P E.
Proof.
  intros HR HO Hfit Hr HP. pose proof (owns_facts d _ _ _ _ _ _ HO) as (Q1 & Q2 & Q3 & Q4).
  pose proof (zlen_nonneg w).
  eapply (step_store d); [exact HO|lia|lia|]. rewrite Z.add_0_r. intros s2 HO2.
  eapply (end_set_len d); [exact HO2|lia|rewrite zlen_zupd; lia|]. intros s3 HO3. apply HP; [|exact HO3].
  eapply owns_R; [exact HR|exact HO3| |].
  - rewrite zsub_zupd_same by lia. apply vle_refl.
  - rewrite zlen_zupd by lia. exact Hr.
Qed.

Lemma ctor_list_R s a x vs :
  R s a -> a !! x = None ->
  runs (ctor_list d x vs) s (fun _ s' => R s' (<[x:=AVal (exact_room (d_nul d)) (map Some vs)]> a))
    (undone s a (fun z => z) (zlen vs)).
Proof.
  intros HR Ha. unfold ctor_list. pose proof (zlen_nonneg vs).
  eapply runs_bind; [apply ctor_sized_R; [exact HR|exact Ha|lia]|]. cbn beta. intros _ s1 (HR1 & HF1 & H0 & H1).
  destruct (Z.eq_dec (zlen vs) 0) as [E|E].
  - specialize (H0 E). apply zlen_0_nil in E as ->. eapply runs_step; [reflexivity|]. rewrite zlen_nil.
    unfold runs, set_len, bind. rewrite (get_obj_ok _ _ _ H0). cbn. unfold with_env.
    rewrite insert_id by exact H0. assert (s1 = State (st_heap s1) (st_env s1) (st_next s1) (st_tick s1) (st_freed s1)) as <- by (destruct s1; reflexivity).
    eapply (R_put d s a s1 x obj_empty); [exact HR|apply HR1|exact HF1|exact H0|].
    split; [apply good_empty|]. split; [constructor|]. intros _ _; left; reflexivity.
  - destruct (H1 E) as (off & b & HO & Hfit). replace (set_len (T:=T) x (zlen vs)) with (set_len (T:=T) x (zlen (map (@Some T) vs))) by (rewrite zlen_map; reflexivity).
    eapply (fill_from s a s1 x off b (map Some vs) (exact_room (d_nul d))); [exact HR|exact HO|rewrite zlen_map; exact Hfit| |].
    + unfold exact_room, is_string. destruct (d_nul d); [discriminate|congruence].
    + intros s' HR' _. exact HR'.
Qed.
Lemma exact_vacuous (Q : Prop) : d_nul d <> None -> exact_room (d_nul d) = true -> Q.
Proof. unfold exact_room, is_string. destruct (d_nul d); [discriminate|congruence]. Qed.

Lemma undone_of_fails s a s1 x n e s' :
  R s a -> a !! x = None -> Frame (eq x) s s1 -> fails bd s1 (<[x:=AVal true []]> a) x n e s' ->
  e = BadAlloc /\ Inv d s' /\ Frame (eq x) s1 s' /\ (exists o, st_env s' !! x = Some o) /\ starves d (d_grow d) n.
Proof.
  intros HR Ha HF Hf. destruct (fails_facts _ _ _ _ _ _ _ Hf) as (H1 & H2 & H3 & H4 & H5).
  { rewrite lookup_insert; eauto. }
  splits; assumption.
Qed.
Lemma ctor_fill_R s a x n e :
  R s a -> a !! x = None -> 0 <= n < W64 ->
  runs (ctor_fill d x n e) s (fun _ s' => R s' (<[x:=AVal (exact_room (d_nul d)) (zrep n (Some e))]> a))
    (undone s a (d_grow d) n).
Proof.
  intros HR Ha Hn. destruct (ctor_default_R d s a x HR Ha) as (s1 & E1 & HR1 & HI1 & HF1 & Hx1).
  unfold ctor_fill. eapply runs_step; [exact E1|].
  eapply (guard_R bd); [intros q H; exact H|intros q H; exact H|exact HR|exact Ha|exact HF1| |].
  2:{ intros e' s'. apply (undone_of_fails s a s1 x n); assumption. }
  pose proof (R_base _ _ HR1) as HRb.
  assert (Hax : <[x:=AVal true []]> a !! x = Some (AVal true [])) by apply lookup_insert.
  destruct (R_held bd _ _ _ _ _ HRb Hax) as (o & Hh).
  unfold resize_fill. eapply runs_step; [eapply held_len; exact Hh|]. rewrite zlen_nil.
  destruct (Z.ltb_spec n 0); [lia|].
  eapply runs_bind; [eapply (atm_R bd); [exact HRb|exact Hax|rewrite zlen_nil; lia|lia|intros Hb; cbn in Hb; congruence]|].
  cbn beta. intros _ s2 (off & b & HO & Hroom & Hv). rewrite zlen_nil in HO. unfold room in Hroom; cbn in Hroom.
  pose proof (owns_facts bd _ _ _ _ _ _ HO) as (Q1 & Q2 & Q3 & Q4).
  eapply (resize_fill_owned bd); [exact HO|lia|lia|]. intros s' HO'.
  pose proof (owns_trans bd _ _ _ _ _ _ _ HF1 HO') as HO2. change (owns s s' x off n (zupd (off + 0) (zrep (n - 0) (Some e)) b)) in HO2.
  eapply owns_R; [exact HR|exact HO2| |intros; exfalso; eapply exact_vacuous; eassumption].
  rewrite Z.sub_0_r, Z.add_0_r, zsub_zupd_same by (rewrite ?zlen_zrep; lia). apply vle_refl.
Qed.

Lemma ctor_range_R s a x vs :
  R s a -> a !! x = None ->
  runs (ctor_range d x vs) s (fun _ s' => R s' (<[x:=AVal (exact_room (d_nul d)) (map Some vs)]> a))
    (undone s a (d_grow d) (zlen vs)).
Proof.
  intros HR Ha. unfold ctor_range. pose proof (zlen_nonneg vs).
  eapply runs_bind.
  { eapply runs_conseq; [apply ctor_sized_R; [exact HR|exact Ha|lia]|intros ? ? H'; exact H'|].
    intros e s' (H1 & H2 & H3). split; [exact H1|]. split; [exact H2|]. apply starves_id, H3. }
  cbn beta. intros _ s1 (HR1 & HF1 & H0 & H1). pose proof (R_base _ _ HR1) as HRb.
  assert (Hsz : zlen vs <= max_alloc).
  { destruct (Z.eq_dec (zlen vs) 0); [unfold max_alloc; lia|]. destruct (H1 n) as (off & b & HO & Hfit).
    pose proof (owns_facts d _ _ _ _ _ _ HO). lia. }
  eapply (guard_R bd); [intros q H'; exact H'|intros q H'; exact H'|exact HR|exact Ha|exact HF1| |].
  2:{ intros e' s' Hf. apply (undone_of_fails s a s1 x (zlen vs) e' s' HR Ha HF1 Hf). }
  eapply runs_conseq; [eapply (insert_range_R bd s1 _ x true [] 0 vs); [exact HRb|apply lookup_insert|rewrite zlen_nil; lia|]| |].
  - rewrite zlen_nil. unfold max_alloc, npos in *; lia.
  - cbn beta. intros _ s' (off & b & HO & Hroom & Hv). rewrite zlen_nil, Z.add_0_l in *.
    pose proof (owns_trans bd _ _ _ _ _ _ _ HF1 HO) as HO2. change (owns s s' x off (zlen vs) b) in HO2.
    eapply owns_R; [exact HR|exact HO2| |intros; exfalso; eapply exact_vacuous; eassumption].
    unfold sp_splice in Hv. rewrite ztake_0, zdrop_0, app_nil_r in Hv by lia. exact Hv.
  - cbn beta. intros e s' Hf. rewrite zlen_nil, Z.add_0_l in Hf. exact Hf.
Qed.

Lemma ctor_cstrlen_R z s a x mem n :
  R s a -> a !! x = None -> d_nul d = Some z -> 0 <= n < npos -> n <= zlen mem ->
  runs (ctor_cstrlen d z x mem n) s (fun _ s' => R s' (<[x:=AVal true (map Some (ztake n mem))]> a))
    (undone s a (fun z => z) (n + 1)).
Proof.
  intros HR Ha Hz Hn Hm. unfold ctor_cstrlen. rewrite u64_id by (unfold npos, W64 in *; lia).
  eapply runs_bind; [apply ctor_sized_R; [exact HR|exact Ha|lia]|]. cbn beta. intros _ s1 (HR1 & HF1 & _ & H1).
  destruct (H1 ltac:(lia)) as (off & b & HO & Hfit).
  pose proof (owns_facts d _ _ _ _ _ _ HO) as (Q1 & Q2 & Q3 & Q4).
  assert (Hw : zlen (map Some (ztake n mem)) = n) by (rewrite zlen_map; zlen_simpl; lia).
  eapply runs_step. { unfold mem_read. destruct (Z.leb_spec n (zlen mem)); [reflexivity|lia]. }
  set (w := map Some (ztake n mem)) in *.
  eapply (step_store d); [exact HO|lia|lia|]. rewrite Z.add_0_r. intros s2 HO2.
  assert (Hz2 : zlen (zupd off w b) = zlen b) by (apply zlen_zupd; lia).
  eapply (step_store d); [exact HO2|lia|rewrite zlen_cons, zlen_nil; lia|]. intros s3 HO3.
  assert (Hz3 : zlen (zupd (off + n) [Some z] (zupd off w b)) = zlen b).
  { rewrite zlen_zupd; [exact Hz2|lia|rewrite zlen_cons, zlen_nil; lia]. }
  eapply (end_set_len d); [exact HO3|lia|lia|]. intros s4 HO4.
  eapply owns_R; [exact HR|exact HO4| |intros; right; lia].
  rewrite zsub_zupd_out by (rewrite ?zlen_cons, ?zlen_nil; lia). rewrite zsub_zupd_same by lia. apply vle_refl.
Qed.

Lemma ctor_char_R z s a x e :
  R s a -> a !! x = None -> d_nul d = Some z ->
  runs (ctor_char d z x e) s (fun _ s' => R s' (<[x:=AVal true [Some e]]> a)) (undone s a (fun z => z) 2).
Proof.
  intros HR Ha Hz. destruct (ctor_default_R d s a x HR Ha) as (s1 & E1 & HR1 & HI1 & HF1 & Hx1).
  unfold ctor_char. eapply runs_step; [exact E1|].
  eapply runs_bind.
  { eapply (guard_R d); [intros q H; exact H|intros q H; exact H|exact HR|exact Ha|exact HF1| |].
    - apply (base_reserve_spec d s1 x 2 _ obj_empty HI1 Hx1); try (cbn; lia); [apply good_empty|intros l c; discriminate].
    - intros e' s' (-> & Hsv & _ & Hst). destruct (same_value_facts _ _ _ _ _ Hsv) as (H1 & H2 & H3).
      splits; assumption. }
  cbn beta. intros _ s2 Hres.
  destruct (reserved_owns d s s1 x obj_empty s2 2 HF1 eq_refl Hres) as (off & b & HO & Hfit & _ & _).
  cbn [o_len obj_empty] in HO. pose proof (owns_facts d _ _ _ _ _ _ HO) as (Q1 & Q2 & Q3 & Q4).
  assert (H1 : zlen [Some e] = 1) by reflexivity. assert (H1' : zlen [Some z] = 1) by reflexivity.
  eapply (step_store d); [exact HO|lia|lia|]. rewrite Z.add_0_r. intros s3 HO3.
  assert (Hz2 : zlen (zupd off [Some e] b) = zlen b) by (apply zlen_zupd; lia).
  eapply (step_store d); [exact HO3|lia|lia|]. intros s4 HO4.
  assert (Hz3 : zlen (zupd (off + 1) [Some z] (zupd off [Some e] b)) = zlen b) by (rewrite zlen_zupd; lia).
  eapply (end_set_len d); [exact HO4|lia|lia|]. intros s5 HO5.
  eapply owns_R; [exact HR|exact HO5| |intros; right; lia].
  rewrite zsub_zupd_out by lia. rewrite zsub_zupd_same by lia. apply vle_refl.
Qed.

(** String(const char* ) sets the length before reserving; the outcome is the same. *)
Definition relen x n s : St :=
  match st_env s !! x with
  | Some o => with_env s (<[x:=Obj (o_ref o) (o_off o) n (o_hash o)]> (st_env s))
  | None => s
  end.
Lemma breserve_len s x n :
  d_class d = false -> st_env s !! x = Some obj_empty -> 0 < n ->
  base_reserve d x (n + 1) (fun z => z) (with_env s (<[x:=Obj None 0 n 0]> (st_env s))) =
  match base_reserve d x (n + 1) (fun z => z) s with
  | Ok _ s' => Ok tt (relen x n s')
  | Exn e s' => Exn e (relen x n s')
  | r => r
  end.
Proof.
  intros Hc Hx Hn. unfold base_reserve, bind, get_obj, with_env; cbn [st_env].
  rewrite lookup_insert, Hx.
  cbn [o_ref o_off o_len o_hash obj_empty]. unfold new_cell, try_alloc, bind, ret, set_obj, with_env; cbn.
  destruct (d_oom d (st_tick s)) eqn:Ho; cbn.
  { unfold relen; cbn. rewrite Hx; reflexivity. }
  unfold aref_reserve, bind, get_cell; cbn. rewrite !lookup_insert. cbn [c_buf c_gen c_refs]. rewrite zlen_nil.
  destruct (Z.ltb_spec 0 (n + 1)); [|lia].
  unfold try_alloc; cbn. destruct (d_oom d (S (st_tick s)) || (max_alloc <? Z.max 0 (n + 1))) eqn:Ho2; cbn.
  { unfold relen; cbn. rewrite lookup_insert, !insert_insert. reflexivity. }
  destruct (Z.ltb_spec (Z.max 0 (n + 1)) n); [lia|]. destruct (Z.ltb_spec (Z.max 0 (n + 1)) 0); [lia|].
  rewrite Hc. cbn. unfold relen; cbn. rewrite lookup_insert, !insert_insert. cbn.
  assert (zrep n None ++ zrep (Z.max 0 (n + 1) - n) None = zrep 0 (@None T) ++ zrep (Z.max 0 (n + 1) - 0) None) as ->.
  { rewrite <- !zrep_app by lia. f_equal; lia. }
  unfold with_env; cbn. reflexivity.
Qed.
Lemma destroy_relen s x o n :
  st_env s !! x = Some o -> destroy d x (relen x n s) = destroy d x s.
Proof.
  intros Hx. unfold relen. rewrite Hx. set (s' := with_env s _).
  assert (Hx' : st_env s' !! x = Some (Obj (o_ref o) (o_off o) n (o_hash o))) by apply lookup_insert.
  unfold destroy, bind.
  assert (exists h, cleanse_if_last d x s = Ok tt (with_heap s h) /\ cleanse_if_last d x s' = Ok tt (with_heap s' h)
            \/ exists u, cleanse_if_last d x s = Undef u /\ cleanse_if_last d x s' = Undef u) as (h & [(H1 & H2)|(u & H1 & H2)]).
  { exists (match o_ref o with
            | Some l => match st_heap s !! l with
                        | Some c => if (c_refs c =? 1) && (match d_nul d with Some _ => true | None => false end)
                                    then <[l:=Cell (zrep (zlen (c_buf c)) None) (c_gen c) (c_refs c)]> (st_heap s)
                                    else st_heap s
                        | None => st_heap s end
            | None => st_heap s end).
    unfold cleanse_if_last, bind.
    assert (Hid : forall q : St, with_heap q (st_heap q) = q) by (intros []; reflexivity).
    destruct (d_nul d).
    - rewrite (get_obj_ok _ _ _ Hx), (get_obj_ok _ _ _ Hx'). cbn [o_ref].
      destruct (o_ref o) as [l|]; [|left; rewrite !Hid; auto].
      unfold get_cell. change (st_heap s') with (st_heap s).
      destruct (st_heap s !! l) as [c|]; [|right; eauto].
      left. rewrite andb_true_r. destruct (c_refs c =? 1); [auto|]. split; [rewrite Hid; reflexivity|].
      change (st_heap s) with (st_heap s'). rewrite Hid; reflexivity.
    - left. destruct (o_ref o) as [l|]; [|rewrite !Hid; auto]. destruct (st_heap s !! l); [|rewrite !Hid; auto].
      rewrite andb_false_r, !Hid. split; [reflexivity|]. change (st_heap s) with (st_heap s'). rewrite Hid; reflexivity. }
  - rewrite H1, H2. unfold check_dealloc, bind.
    rewrite (get_obj_ok (with_heap s h) x o Hx), (get_obj_ok (with_heap s' h) x _ Hx'). cbn [o_ref o_off o_len o_hash].
    unfold dec_ref, get_cell, set_cell, bind, delete_cell, set_obj, del_obj, ret, with_env, with_heap; cbn.
    destruct (o_ref o) as [l|].
    + cbn [st_heap]. destruct (h !! l) as [c|]; [|reflexivity]. cbn. destruct (c_refs c - 1 <? 1); cbn.
      * rewrite lookup_insert. cbn. rewrite insert_insert, !delete_insert_delete. reflexivity.
      * rewrite delete_insert_delete. reflexivity.
    + cbn. rewrite delete_insert_delete. reflexivity.
  - rewrite H1, H2. reflexivity.
Qed.

Lemma ctor_cstr_R z s a x mem (w : list T) :
  wf_desc d -> R s a -> a !! x = None -> d_nul d = Some z ->
  sp_carg (d_eqb d) (d_nul d) mem npos = Some w -> zlen w < npos ->
  runs (ctor_cstr d z x mem) s (fun _ s' => R s' (<[x:=AVal true (map Some w)]> a))
    (undone s a (fun z => z) (zlen w + 1)).
Proof.
  intros Hwf HR Ha Hz Hw Hwn. destruct (Hwf z Hz) as [Hcls _].
  destruct (ctor_default_R d s a x HR Ha) as (s1 & E1 & HR1 & HI1 & HF1 & Hx1).
  unfold sp_carg in Hw. rewrite Hz in Hw. cbn in Hw.
  destruct (strlen_cstr d z mem w 0 Hw) as (H1 & H2 & H3). pose proof (zlen_nonneg w).
  unfold ctor_cstr. eapply runs_step; [exact E1|].
  eapply runs_step. { unfold cstrlen. rewrite H1. reflexivity. }
  rewrite Z.add_0_l. destruct (Z.eqb_spec (zlen w) 0) as [E|E].
  { apply zlen_0_nil in E as ->. apply runs_ret. exact HR1. }
  set (n := zlen w) in *.
  eapply runs_step. { unfold set_len, bind. rewrite (get_obj_ok _ _ _ Hx1). reflexivity. }
  cbn [o_ref o_off o_len o_hash obj_empty].
  pose proof (base_reserve_spec d s1 x (n + 1) (fun z => z) obj_empty HI1 Hx1 (good_empty d)
    ltac:(intros l c; discriminate) ltac:(lia) ltac:(cbn; lia)) as Hb.
  rewrite u64_id by (unfold npos, W64 in *; lia).
  eapply runs_bind.
  { instantiate (1 := fun _ s' => exists off b, owns s s' x off n b /\ off + (n + 1) <= zlen b).
    unfold runs, ctor_guard in *. rewrite (breserve_len _ _ _ Hcls Hx1) by lia.
    destruct (base_reserve d x (n + 1) (fun z0 => z0) s1) as [u s'|e s'| | |u]; try contradiction.
    - destruct (reserved_owns d s s1 x obj_empty s' (n + 1) HF1 eq_refl Hb) as (off & b & HO & Hfit & _ & _).
      cbn [o_len obj_empty] in HO. pose proof (owns_facts d _ _ _ _ _ _ HO) as (Q1 & Q2 & Q3 & Q4).
      exists off, b. split; [|exact Hfit].
      destruct (owns_set_len d _ _ _ _ _ _ n HO) as (s2 & E2 & HO2); [lia|lia|].
      unfold set_len, bind in E2. pose proof HO as (_ & _ & l & g & Hx & _). rewrite (get_obj_ok _ _ _ Hx) in E2.
      unfold relen. rewrite Hx. unfold set_obj in E2. injection E2 as <-. exact HO2.
    - destruct Hb as (-> & Hsv & _ & Hst). destruct (same_value_facts _ _ _ _ _ Hsv) as (HI' & HF' & o' & Ho').
      rewrite (destroy_relen _ _ _ n Ho').
      destruct (destroy_inv d s' x o' HI' Ho') as (s'' & Hs & HI'' & HF'' & He). rewrite Hs.
      split; [reflexivity|]. split; [|exact Hst].
      rewrite <- (delete_notin a x Ha). eapply (R_delete d); [exact HR|exact HI''| |].
      + eapply frame_trans; [exact HF1|]. eapply frame_trans; [exact HF'|exact HF''].
      + rewrite He. apply lookup_delete. }
  cbn beta. intros _ s2 (off & b & HO & Hfit). pose proof (owns_facts d _ _ _ _ _ _ HO) as (Q1 & Q2 & Q3 & Q4).
  eapply runs_step. { unfold mem_read. destruct (Z.leb_spec (n + 1) (zlen mem)); [reflexivity|lia]. }
  assert (Hw1 : zlen (map Some (ztake (n + 1) mem)) = n + 1) by (rewrite zlen_map; zlen_simpl; lia).
  eapply (step_store d); [exact HO|lia|lia|]. rewrite Z.add_0_r. intros s3 HO3.
  destruct (strlen_end d z mem w Hw) as (ce & Hce & Hcz). fold n in Hce.
  unfold runs. erewrite (ends_ok d z _ _ _ _ _ _ n ce HO3); [|lia|rewrite zlen_zupd; lia| |exact Hcz].
  2:{ rewrite znth_zupd by lia. rewrite Hw1. destruct (Z.leb_spec off (off + n)); [|lia]. destruct (Z.ltb_spec (off + n) (off + (n + 1))); [|lia].
      cbn [andb]. replace (off + n - off) with n by lia. rewrite znth_map, znth_ztake. destruct (Z.ltb_spec n (n + 1)); [|lia]. rewrite Hce. reflexivity. }
  eapply owns_R; [exact HR|exact HO3| |intros; right; rewrite zlen_zupd; lia].
  assert (zsub off n (zupd off (map Some (ztake (n + 1) mem)) b) = map Some w) as ->; [|apply vle_refl].
  rewrite <- H2. fold n. rewrite <- !ztake_map.
  replace (zsub off n (zupd off (ztake (n + 1) (map Some mem)) b))
    with (zsub 0 n (zsub off (n + 1) (zupd off (ztake (n + 1) (map Some mem)) b))) by (rewrite zsub_zsub by lia; f_equal; lia).
  rewrite zsub_zupd_same by (rewrite ?ztake_map; lia).
  rewrite !ztake_zsub. rewrite zsub_zsub by lia. reflexivity.
Qed.
End Ctor.
