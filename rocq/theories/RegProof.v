(** The registry refines the map of RegSpec. *)
From Coq Require Import ZifyBool.
From Verif Require Import Base StrSpec StrModel ScriptModel ScriptProof RegModel RegSpec.
From stdpp Require Import gmap.
Open Scope Z_scope.

Section Ind.
Variable P : rop -> Prop.
Hypothesis Hnew : forall i, P (OpNew i).
Hypothesis Hdes : forall i, P (OpDestroy i).
Hypothesis Hcre : forall i n f mn mx, P (OpCreate i n f mn mx).
Hypothesis Hdel : forall i n, P (OpDelete i n).
Hypothesis Hcall : forall i n k body, List.Forall P body -> P (OpCall i n k body).
Hypothesis Hproc : forall i n, P (OpProc i n).
Hypothesis Hren : forall i n m, P (OpRename i n m).
Fixpoint rop_ind' (o : rop) : P o :=
  match o with
  | OpNew i => Hnew i
  | OpDestroy i => Hdes i
  | OpCreate i n f mn mx => Hcre i n f mn mx
  | OpDelete i n => Hdel i n
  | OpCall i n k body => Hcall i n k body
      ((fix go l : List.Forall P l := match l with [] => List.Forall_nil P | o :: l' => List.Forall_cons P o l' (rop_ind' o) (go l') end) body)
  | OpProc i n => Hproc i n
  | OpRename i n m => Hren i n m
  end.
End Ind.

Definition count (n : chars) (run : list chars) : Z := Z.of_nat (count_occ (List.list_eq_dec Z.eq_dec) run n).
Lemma count_nonneg n run : 0 <= count n run.
Proof. unfold count. lia. Qed.
Lemma count_out n run : ~ In n run -> count n run = 0.
Proof. intros H. unfold count. rewrite (proj1 (count_occ_not_In (List.list_eq_dec Z.eq_dec) run n) H). reflexivity. Qed.
Lemma count_same n run : count n (n :: run) = count n run + 1.
Proof. unfold count. rewrite count_occ_cons_eq by reflexivity. lia. Qed.
Lemma count_other n m run : n <> m -> count n (m :: run) = count n run.
Proof. intros H. unfold count. rewrite count_occ_cons_neq by congruence. reflexivity. Qed.
Lemma plain_name n : plain n -> tcl_name n = n.
Proof.
  intros [H0 H]. unfold tcl_name. rewrite upto_nul_id by exact H0. destruct n as [|[|c|c] n]; try reflexivity.
  repeat (destruct c; try reflexivity). destruct n as [|[|c|c] n]; try reflexivity. repeat (destruct c; try reflexivity). contradiction.
Qed.

Record R (run : list chars) (a : areg) (s : reg) : Prop := {
  R_some : forall n i f mn mx, a_map a !! n = Some (i, (f, mn, mx)) ->
    exists p, g_table s !! n = Some (Some p) /\ g_heap s !! p = Some (Ccd i n f mn mx true (1 + count n run));
  R_none : forall n, a_map a !! n = None -> g_table s !! n = None;
  R_heap : forall p c, g_heap s !! p = Some c -> g_table s !! c_name c = Some (Some p);
  R_tcl : forall i n, g_tcl s !! (i, n) = match a_map a !! n with Some (j, _) => if j =? i then Some Native else None | None => None end;
  R_plain : forall n v, a_map a !! n = Some v -> plain n /\ is_Some (g_live s !! v.1);
  R_fresh : forall p, g_next s <= p -> g_heap s !! p = None;
  R_live : g_live s = a_live a;
  R_log : g_log s = a_log a;
  R_run : forall n, In n run -> is_Some (a_map a !! n)
}.
Lemma R_init : R [] areg_init reg_init.
Proof.
  split; cbn; try reflexivity; try (intros; contradiction).
  - intros. rewrite lookup_empty in H. discriminate.
  - intros. rewrite lookup_empty in H. discriminate.
  - intros. rewrite lookup_empty in H. discriminate.
Qed.

Ltac lk := repeat first
  [ rewrite lookup_insert | rewrite lookup_delete | rewrite lookup_insert_ne by congruence | rewrite lookup_delete_ne by congruence ].
Ltac open := unfold release_entry, release, acquire, register_cmd, unregister_cmd, get_ccd, put_ccd, use_interp, gets, upd, emit, undef, ret, bind,
  set_heap, set_table, set_tcl, set_live, with_refs, with_registered.
Ltac sx := repeat first
  [ progress cbn [g_heap g_next g_table g_tcl g_live g_log c_si c_name c_fun c_min c_max c_registered c_refs negb]
  | rewrite lookup_insert | rewrite lookup_delete | rewrite lookup_insert_ne by congruence | rewrite lookup_delete_ne by congruence ].

Lemma create_ok run a s i n f mn mx : R run a s -> plain n -> ~ In n run -> is_Some (a_live a !! i) ->
  exists s', create_command i n f mn mx s = Ok tt s' /\
    R run (AReg (<[n := (i, (f, mn, mx))]> (a_map a)) (a_live a) (a_log a)) s' /\
    forall m, In m run -> g_table s' !! m = g_table s !! m.
Proof.
  intros H Pn Nr [[] Hl]. unfold create_command. rewrite <- (R_live _ _ _ H) in Hl.
  pose proof (R_fresh _ _ _ H (g_next s) ltac:(lia)) as Fr. set (p := g_next s) in *.
  destruct (a_map a !! n) as [[j [[f0 mn0] mx0]]|] eqn:Ea.
  - destruct (R_some _ _ _ H _ _ _ _ _ Ea) as (q & Tq & Hq). destruct (R_plain _ _ _ H _ _ Ea) as [_ [[] Hj]]. cbn in Hj.
    rewrite count_out in Hq by exact Nr. change (1 + 0) with 1 in Hq. assert (p <> q) as Npq by congruence.
    open. rewrite Hl. sx. fold p. sx. rewrite Tq. sx. rewrite Hq. sx. change (1 =? 1) with true. cbv iota. sx. rewrite Hj. sx. rewrite Hl. sx.
    change (1 + 1 =? 1) with false. cbv iota. sx.
    eexists. split; [reflexivity|]. rewrite !plain_name by exact Pn. split.
    + split; cbn [a_map a_live a_log g_heap g_next g_table g_tcl g_live g_log].
      * intros m j' f' mn' mx' E. destruct (decide (m = n)) as [->|Nm].
        -- rewrite lookup_insert in E. injection E as <- <- <- <-. exists p. lk. rewrite count_out by exact Nr. split; reflexivity.
        -- rewrite lookup_insert_ne in E by congruence. destruct (R_some _ _ _ H _ _ _ _ _ E) as (p' & T' & H'). exists p'.
           assert (p' <> p) by congruence. assert (p' <> q) by (intros ->; congruence). lk. split; assumption.
      * intros m E. destruct (decide (m = n)) as [->|Nm]; [rewrite lookup_insert in E; discriminate|]. rewrite lookup_insert_ne in E by congruence. lk. exact (R_none _ _ _ H _ E).
      * intros p' c E. destruct (decide (p' = p)) as [->|N1]; [rewrite lookup_insert in E; injection E as <-; cbn; lk; reflexivity|].
        repeat (rewrite lookup_insert_ne in E by congruence). destruct (decide (p' = q)) as [->|N2]; [rewrite lookup_delete in E; discriminate|].
        rewrite lookup_delete_ne in E by congruence. repeat (rewrite lookup_insert_ne in E by congruence). pose proof (R_heap _ _ _ H _ _ E) as T. rewrite lookup_insert_ne; [exact T|]. intros En. rewrite <- En in T. congruence.
      * intros i' m. destruct (decide (m = n)) as [->|Nm].
        -- rewrite lookup_insert. destruct (Z.eqb_spec i i') as [->|Ni]; [lk; reflexivity|]. rewrite lookup_insert_ne by congruence.
           destruct (decide (j = i')) as [->|Nj]; [lk; reflexivity|]. rewrite lookup_delete_ne by congruence. rewrite (R_tcl _ _ _ H), Ea. destruct (Z.eqb_spec j i'); [contradiction|reflexivity].
        -- lk. apply (R_tcl _ _ _ H).
      * intros m v E. destruct (decide (m = n)) as [->|Nm]; [rewrite lookup_insert in E; injection E as <-; cbn; rewrite Hl; split; [exact Pn|eauto]|].
        rewrite lookup_insert_ne in E by congruence. exact (R_plain _ _ _ H _ _ E).
      * intros p' L. assert (p' <> p) by lia. pose proof (R_fresh _ _ _ H p' ltac:(fold p; lia)). lk. assert (p' <> q) by congruence. lk. assumption.
      * apply (R_live _ _ _ H).
      * apply (R_log _ _ _ H).
      * intros m I. destruct (decide (m = n)) as [->|Nm]; [contradiction|]. lk. exact (R_run _ _ _ H _ I).
    + intros m I. cbn [g_table]. destruct (decide (m = n)) as [->|Nm]; [contradiction|]. lk. reflexivity.
  - pose proof (R_none _ _ _ H _ Ea) as Tn.
    open. rewrite Hl. sx. fold p. sx. rewrite Tn. sx. rewrite Hl. sx.
    change (1 + 1 =? 1) with false. cbv iota. sx.
    eexists. split; [reflexivity|]. rewrite !plain_name by exact Pn. split.
    + split; cbn [a_map a_live a_log g_heap g_next g_table g_tcl g_live g_log].
      * intros m j' f' mn' mx' E. destruct (decide (m = n)) as [->|Nm].
        -- rewrite lookup_insert in E. injection E as <- <- <- <-. exists p. lk. rewrite count_out by exact Nr. split; reflexivity.
        -- rewrite lookup_insert_ne in E by congruence. destruct (R_some _ _ _ H _ _ _ _ _ E) as (p' & T' & H'). exists p'.
           assert (p' <> p) by congruence. lk. split; assumption.
      * intros m E. destruct (decide (m = n)) as [->|Nm]; [rewrite lookup_insert in E; discriminate|]. rewrite lookup_insert_ne in E by congruence. lk. exact (R_none _ _ _ H _ E).
      * intros p' c E. destruct (decide (p' = p)) as [->|N1]; [rewrite lookup_insert in E; injection E as <-; cbn; lk; reflexivity|].
        repeat (rewrite lookup_insert_ne in E by congruence). pose proof (R_heap _ _ _ H _ _ E) as T. rewrite lookup_insert_ne; [exact T|]. intros En. rewrite <- En in T. congruence.
      * intros i' m. destruct (decide (m = n)) as [->|Nm].
        -- rewrite lookup_insert. destruct (Z.eqb_spec i i') as [->|Ni]; [lk; reflexivity|]. rewrite lookup_insert_ne by congruence.
           rewrite (R_tcl _ _ _ H), Ea. reflexivity.
        -- lk. apply (R_tcl _ _ _ H).
      * intros m v E. destruct (decide (m = n)) as [->|Nm]; [rewrite lookup_insert in E; injection E as <-; cbn; rewrite Hl; split; [exact Pn|eauto]|].
        rewrite lookup_insert_ne in E by congruence. exact (R_plain _ _ _ H _ _ E).
      * intros p' L. assert (p' <> p) by lia. pose proof (R_fresh _ _ _ H p' ltac:(fold p; lia)). lk. assumption.
      * apply (R_live _ _ _ H).
      * apply (R_log _ _ _ H).
      * intros m I. destruct (decide (m = n)) as [->|Nm]; [contradiction|]. lk. exact (R_run _ _ _ H _ I).
    + intros m I. cbn [g_table]. destruct (decide (m = n)) as [->|Nm]; [contradiction|]. lk. reflexivity.
Qed.

Lemma delete_ok run a s i n : R run a s -> plain n -> ~ In n run -> is_Some (a_live a !! i) ->
  exists s', delete_command i n s = Ok tt s' /\ R run (AReg (delete n (a_map a)) (a_live a) (a_log a)) s' /\
    forall m, In m run -> g_table s' !! m = g_table s !! m.
Proof.
  intros H Pn Nr [[] Hl]. unfold delete_command. rewrite <- (R_live _ _ _ H) in Hl.
  destruct (a_map a !! n) as [[j [[f0 mn0] mx0]]|] eqn:Ea.
  - destruct (R_some _ _ _ H _ _ _ _ _ Ea) as (q & Tq & Hq). destruct (R_plain _ _ _ H _ _ Ea) as [_ [[] Hj]]. cbn in Hj.
    rewrite count_out in Hq by exact Nr. change (1 + 0) with 1 in Hq.
    open. rewrite Hl. sx. rewrite Tq. sx. rewrite Hq. sx. change (1 =? 1) with true. cbv iota. sx. rewrite Hj. sx.
    eexists. split; [reflexivity|]. rewrite !plain_name by exact Pn. split.
    + split; cbn [a_map a_live a_log g_heap g_next g_table g_tcl g_live g_log].
      * intros m j' f' mn' mx' E. destruct (decide (m = n)) as [->|Nm]; [rewrite lookup_delete in E; discriminate|].
        rewrite lookup_delete_ne in E by congruence. destruct (R_some _ _ _ H _ _ _ _ _ E) as (p' & T' & H'). exists p'.
        assert (p' <> q) by (intros ->; congruence). lk. split; assumption.
      * intros m E. destruct (decide (m = n)) as [->|Nm]; [lk; reflexivity|]. rewrite lookup_delete_ne in E by congruence. lk. exact (R_none _ _ _ H _ E).
      * intros p' c E. destruct (decide (p' = q)) as [->|N2]; [rewrite lookup_delete in E; discriminate|].
        rewrite lookup_delete_ne in E by congruence. pose proof (R_heap _ _ _ H _ _ E) as T. rewrite lookup_delete_ne; [exact T|]. intros En. rewrite <- En in T. congruence.
      * intros i' m. destruct (decide (m = n)) as [->|Nm].
        -- rewrite lookup_delete. destruct (decide (j = i')) as [->|Nj]; [lk; reflexivity|]. rewrite lookup_delete_ne by congruence. rewrite (R_tcl _ _ _ H), Ea. destruct (Z.eqb_spec j i'); [contradiction|reflexivity].
        -- lk. apply (R_tcl _ _ _ H).
      * intros m v E. destruct (decide (m = n)) as [->|Nm]; [rewrite lookup_delete in E; discriminate|].
        rewrite lookup_delete_ne in E by congruence. exact (R_plain _ _ _ H _ _ E).
      * intros p' L. pose proof (R_fresh _ _ _ H p' L). assert (p' <> q) by congruence. lk. assumption.
      * apply (R_live _ _ _ H).
      * apply (R_log _ _ _ H).
      * intros m I. destruct (decide (m = n)) as [->|Nm]; [contradiction|]. lk. exact (R_run _ _ _ H _ I).
    + intros m I. cbn [g_table]. destruct (decide (m = n)) as [->|Nm]; [contradiction|]. lk. reflexivity.
  - pose proof (R_none _ _ _ H _ Ea) as Tn. open. rewrite Hl. sx. rewrite Tn. eexists. split; [reflexivity|]. cbn [g_table].
    rewrite (delete_notin (a_map a) n Ea), (delete_notin (g_table s) n Tn). split; [|reflexivity].
    destruct H. split; assumption.
Qed.

(** Releasing the whole table. *)
Lemma release_all_ok : forall l s,
  NoDup (l.*1) ->
  (forall n e, In (n, e) l -> exists p c, e = Some p /\ g_heap s !! p = Some c /\ c_name c = n /\ c_registered c = true /\ c_refs c = 1 /\ plain n /\ is_Some (g_live s !! c_si c)) ->
  (forall p c, g_heap s !! p = Some c -> In (c_name c, Some p) l) ->
  (forall i m, g_tcl s !! (i, m) <> None -> exists p c, g_heap s !! p = Some c /\ c_name c = m /\ c_si c = i) ->
  exists s', release_all l s = Ok tt s' /\ (forall p, g_heap s' !! p = None) /\ (forall k, g_tcl s' !! k = None) /\
    g_table s' = g_table s /\ g_live s' = g_live s /\ g_log s' = g_log s.
Proof.
  induction l as [|[n e] l IH]; intros s ND Hl Hh Ht.
  - exists s. split; [reflexivity|]. assert (forall p, g_heap s !! p = None) as He.
    { intros p. destruct (g_heap s !! p) as [c|] eqn:E; [destruct (Hh _ _ E)|reflexivity]. }
    split; [exact He|]. split; [|repeat split]. intros [i m]. destruct (g_tcl s !! (i, m)) eqn:E; [|reflexivity].
    destruct (Ht i m ltac:(congruence)) as (p & c & Hc & _). rewrite He in Hc. discriminate.
  - destruct (Hl n e (or_introl eq_refl)) as (p & c & -> & Hc & Cn & Cr & C1 & Pn & [[] Li]). cbn [release_all].
    apply NoDup_cons in ND as [Nn ND].
    assert (forall m e', In (m, e') l -> m <> n) as Dm by (intros m e' I ->; apply Nn; apply elem_of_list_fmap; exists (n, e'); split; [reflexivity|apply elem_of_list_In; exact I]).
    destruct (IH (set_heap (delete p (g_heap s)) (set_tcl (delete (c_si c, n) (g_tcl s)) s))) as (s' & E & Hs); clear IH.
    + exact ND.
    + intros m e' I. destruct (Hl m e' (or_intror I)) as (p' & c' & -> & Hc' & Cn' & Rest). exists p', c'. cbn.
      assert (p' <> p) by (intros ->; apply (Dm _ _ I); congruence). lk. tauto.
    + cbn. intros p' c' E. destruct (decide (p' = p)) as [->|Np]; [rewrite lookup_delete in E; discriminate|]. rewrite lookup_delete_ne in E by congruence.
      destruct (Hh _ _ E) as [E'|I]; [congruence|exact I].
    + cbn. intros i m E. destruct (decide ((i, m) = (c_si c, n))) as [Ek|Nk]; [rewrite Ek, lookup_delete in E; contradiction|]. rewrite lookup_delete_ne in E by congruence.
      destruct (Ht i m E) as (p' & c' & Hc' & Cn' & Ci'). exists p', c'. assert (p' <> p) by (intros ->; apply Nk; congruence). lk. tauto.
    + exists s'. cbn in Hs. split; [|exact Hs]. unfold bind at 1. unfold release_entry, release, get_ccd, unregister_cmd, use_interp, upd, bind. rewrite Hc, C1, Cr. cbn [negb].
      change (1 =? 1) with true. cbv iota beta. rewrite Li, Cn, plain_name by exact Pn. exact E.
Qed.
Lemma destroy_ok a s i : R [] a s -> is_Some (a_live a !! i) ->
  exists s', destroy_interp i s = Ok tt s' /\ R [] (AReg ∅ (delete i (a_live a)) (a_log a)) s'.
Proof.
  intros H [[] Hl]. rewrite <- (R_live _ _ _ H) in Hl.
  destruct (release_all_ok (map_to_list (g_table s)) (set_table ∅ s)) as (s' & E & Eh & Et & Etab & Eliv & Elog).
  - apply NoDup_fst_map_to_list.
  - intros n e I. apply elem_of_list_In, elem_of_map_to_list in I. cbn.
    destruct (a_map a !! n) as [[j [[f mn] mx]]|] eqn:Ea; [|rewrite (R_none _ _ _ H _ Ea) in I; discriminate].
    destruct (R_some _ _ _ H _ _ _ _ _ Ea) as (p & T & Hp). rewrite T in I. injection I as <-. destruct (R_plain _ _ _ H _ _ Ea) as [Pn Pl].
    exists p. eexists. split; [reflexivity|]. split; [exact Hp|]. cbn. repeat split; assumption || exact Pl || apply Pn.
  - cbn. intros p c E. apply elem_of_list_In, elem_of_map_to_list. exact (R_heap _ _ _ H _ _ E).
  - cbn. intros j m E. rewrite (R_tcl _ _ _ H) in E. destruct (a_map a !! m) as [[j' [[f mn] mx]]|] eqn:Ea; [|contradiction]. destruct (Z.eqb_spec j' j) as [->|]; [|contradiction].
    destruct (R_some _ _ _ H _ _ _ _ _ Ea) as (p & T & Hp). exists p. eexists. split; [exact Hp|]. split; reflexivity.
  - unfold destroy_interp, use_interp, gets, upd, bind. rewrite Hl. rewrite E. eexists. split; [reflexivity|]. cbn in Etab, Eliv, Elog.
    split; cbn [a_map a_live a_log g_heap g_next g_table g_tcl g_live g_log set_live set_tcl].
    + intros n j f mn mx En. rewrite lookup_empty in En. discriminate.
    + intros n _. rewrite Etab. apply lookup_empty.
    + intros p c Ec. rewrite Eh in Ec. discriminate.
    + intros j n. rewrite lookup_empty. apply map_filter_lookup_None. left. apply Et.
    + intros n v En. rewrite lookup_empty in En. discriminate.
    + intros p _. apply Eh.
    + rewrite Eliv, (R_live _ _ _ H). reflexivity.
    + rewrite Elog. apply (R_log _ _ _ H).
    + intros n [].
Qed.

Lemma emit_R run a s e : R run a s -> R run (alog e a) (Reg (g_heap s) (g_next s) (g_table s) (g_tcl s) (g_live s) (e :: g_log s)).
Proof. intros []. split; cbn; try assumption. congruence. Qed.
(** Starting and ending a call. *)
Lemma acquire_R run a s n p v : R run a s -> a_map a !! n = Some v -> g_table s !! n = Some (Some p) ->
  exists s1, acquire p s = Ok tt s1 /\ R (n :: run) a s1 /\ g_table s1 = g_table s.
Proof.
  intros H Ea T. destruct v as [i [[f mn] mx]]. destruct (R_some _ _ _ H _ _ _ _ _ Ea) as (p' & T' & Hp). assert (p' = p) as -> by congruence.
  open. rewrite Hp. sx. eexists. split; [reflexivity|]. split; [|reflexivity]. split; cbn [g_heap g_next g_table g_tcl g_live g_log].
  - intros m j f' mn' mx' E. destruct (R_some _ _ _ H _ _ _ _ _ E) as (q & Tq & Hq). exists q. split; [exact Tq|]. destruct (decide (m = n)) as [->|Nm].
    + assert (q = p) as -> by congruence. lk. rewrite count_same. rewrite Hp in Hq. injection Hq as <- <- <- <-. do 2 f_equal. lia.
    + assert (q <> p) by (intros ->; congruence). lk. rewrite count_other by congruence. exact Hq.
  - apply (R_none _ _ _ H).
  - intros q c E. destruct (decide (q = p)) as [->|]; [rewrite lookup_insert in E; injection E as <-; exact T|]. rewrite lookup_insert_ne in E by congruence. exact (R_heap _ _ _ H _ _ E).
  - apply (R_tcl _ _ _ H).
  - apply (R_plain _ _ _ H).
  - intros q L. pose proof (R_fresh _ _ _ H q L). assert (q <> p) by congruence. lk. assumption.
  - apply (R_live _ _ _ H).
  - apply (R_log _ _ _ H).
  - intros m [->|I]; [eauto|exact (R_run _ _ _ H _ I)].
Qed.
Lemma release_R run a s n p : R (n :: run) a s -> g_table s !! n = Some (Some p) ->
  exists s1, release p s = Ok tt s1 /\ R run a s1 /\ g_table s1 = g_table s.
Proof.
  intros H T. destruct (R_run _ _ _ H n (or_introl eq_refl)) as [[i [[f mn] mx]] Ea]. destruct (R_some _ _ _ H _ _ _ _ _ Ea) as (p' & T' & Hp). assert (p' = p) as -> by congruence.
  rewrite count_same in Hp. pose proof (count_nonneg n run).
  open. rewrite Hp. sx. destruct (Z.eqb_spec (1 + (count n run + 1)) 1) as [E1|_]; [lia|]. eexists. split; [reflexivity|]. split; [|reflexivity].
  split; cbn [g_heap g_next g_table g_tcl g_live g_log].
  - intros m j f' mn' mx' E. destruct (R_some _ _ _ H _ _ _ _ _ E) as (q & Tq & Hq). exists q. split; [exact Tq|]. destruct (decide (m = n)) as [->|Nm].
    + assert (q = p) as -> by congruence. lk. rewrite count_same in Hq. rewrite Hp in Hq. injection Hq as <- <- <- <-. do 2 f_equal. lia.
    + assert (q <> p) by (intros ->; congruence). lk. rewrite count_other in Hq by congruence. exact Hq.
  - apply (R_none _ _ _ H).
  - intros q c E. destruct (decide (q = p)) as [->|]; [rewrite lookup_insert in E; injection E as <-; exact T|]. rewrite lookup_insert_ne in E by congruence. exact (R_heap _ _ _ H _ _ E).
  - apply (R_tcl _ _ _ H).
  - apply (R_plain _ _ _ H).
  - intros q L. pose proof (R_fresh _ _ _ H q L). assert (q <> p) by congruence. lk. assumption.
  - apply (R_live _ _ _ H).
  - apply (R_log _ _ _ H).
  - intros m I. exact (R_run _ _ _ H _ (or_intror I)).
Qed.

Definition meets (run : list chars) (m : Mr unit) (a a' : areg) : Prop := forall s, R run a s ->
  exists s', m s = Ok tt s' /\ R run a' s' /\ forall n, In n run -> g_table s' !! n = g_table s !! n.
Lemma step_meets o : forall run a a', gentle run o -> astep o a = Some a' -> meets run (rstep o) a a'.
Proof.
  induction o as [i|i|i n f mn mx|i n|i n k body IH|i n|i n m] using rop_ind'; intros run a a' G E s H; cbn [gentle astep rstep] in *; unfold alive in E; try contradiction.
  - destruct (a_live a !! i) eqn:El; [discriminate|]. injection E as <-. eexists. split; [reflexivity|]. split; [|reflexivity]. destruct H as [H1 H2 H3 H4 H5 H6 H7 H8 H9].
    split; cbn; try assumption; [|congruence]. intros n v Ev. destruct (H5 n v Ev) as [Pn Pl]. split; [exact Pn|]. rewrite lookup_insert_is_Some. destruct (decide (i = v.1)); tauto.
  - subst run. destruct (a_live a !! i) eqn:El; [|discriminate]. injection E as <-. destruct (destroy_ok a s i H) as (s' & Es & Hs); [eauto|]. exists s'. split; [exact Es|]. split; [exact Hs|]. intros n [].
  - destruct (a_live a !! i) eqn:El; [|discriminate]. injection E as <-. destruct G. eapply create_ok; eauto.
  - destruct (a_live a !! i) eqn:El; [|discriminate]. injection E as <-. destruct G. eapply delete_ok; eauto.
  - destruct (a_live a !! i) as [[]|] eqn:El; [|discriminate]. destruct G as [Pn G]. unfold call_command.
    unfold use_interp, gets. unfold bind at 1 2. rewrite (R_live _ _ _ H), El. rewrite plain_name by exact Pn. rewrite (R_tcl _ _ _ H).
    destruct (a_map a !! n) as [[j [[f mn] mx]]|] eqn:Ea.
    2:{ injection E as <-. eexists. split; [reflexivity|]. split; [apply emit_R; exact H|reflexivity]. }
    destruct (Z.eqb_spec j i) as [->|Nj]; cbn [negb] in E.
    2:{ injection E as <-. eexists. split; [reflexivity|]. split; [apply emit_R; exact H|reflexivity]. }
    destruct (R_some _ _ _ H _ _ _ _ _ Ea) as (p & T & Hp). unfold bind at 1. rewrite T.
    destruct (acquire_R run a s n p _ H Ea T) as (s1 & A1 & H1 & T1). unfold bind at 1. rewrite A1.
    destruct (R_some _ _ _ H1 _ _ _ _ _ Ea) as (p1 & T1' & Hp1). assert (p1 = p) as -> by congruence.
    unfold bind at 1. unfold get_ccd. rewrite Hp1. cbn [c_min c_max c_fun].
    destruct ((k <? mn) || (mx <? k)) eqn:Ek.
    + injection E as <-. unfold bind at 1. unfold emit.
      destruct (release_R run (alog (Refused i n f) a) _ n p (emit_R _ _ _ (Refused i n f) H1)) as (s2 & E2 & H2 & T2); [cbn; congruence|].
      exists s2. split; [exact E2|]. split; [exact H2|]. intros m _. rewrite T2. cbn. rewrite T1. reflexivity.
    + assert (forall l (F : List.Forall (fun o => forall run a a', gentle run o -> astep o a = Some a' -> meets run (rstep o) a a') l) a a' s,
        (fix all l := match l with [] => True | o :: l' => gentle (n :: run) o /\ all l' end) l ->
        (fix go l a := match l with [] => Some a | o :: l' => match astep o a with Some a' => go l' a' | None => None end end) l a = Some a' ->
        R (n :: run) a s ->
        exists s', (fix go l := match l with [] => ret tt | o :: l' => rstep o ;;; go l' end) l s = Ok tt s' /\ R (n :: run) a' s' /\
          forall m, In m (n :: run) -> g_table s' !! m = g_table s !! m) as Body.
      { clear. induction l as [|o l IHl]; intros F a a' s Gl El Hs.
        - injection El as <-. exists s. split; [reflexivity|]. split; [exact Hs|reflexivity].
        - destruct Gl as [Go Gl]. destruct (astep o a) as [a1|] eqn:Eo; [|discriminate]. inversion F as [|? ? Fo Fl]; subst.
          destruct (Fo _ _ _ Go Eo s Hs) as (s1 & E1 & H1 & T1). destruct (IHl Fl _ _ s1 Gl El H1) as (s2 & E2 & H2 & T2).
          exists s2. unfold bind. rewrite E1. split; [exact E2|]. split; [exact H2|]. intros m I. rewrite T2, T1 by exact I. reflexivity. }
      destruct (Body body IH _ _ _ G E (emit_R _ _ _ (Ran i n f) H1)) as (s2 & E2 & H2 & T2). cbn [g_table] in T2.
      unfold bind at 1. unfold emit, bind at 1. rewrite E2.
      destruct (release_R run a' s2 n p H2) as (s3 & E3 & H3 & T3); [rewrite T2 by (left; reflexivity); congruence|].
      exists s3. split; [exact E3|]. split; [exact H3|]. intros m I. rewrite T3, T2, T1 by (right; exact I). reflexivity.
Qed.
Lemma exec_meets l : forall run a a', all_gentle run l -> aexec l a = Some a' -> meets run (rexec l) a a'.
Proof.
  induction l as [|o l IH]; intros run a a' G E s H; cbn in *.
  - injection E as <-. exists s. split; [reflexivity|]. split; [exact H|reflexivity].
  - destruct G as [Go Gl]. destruct (astep o a) as [a1|] eqn:Eo; [|discriminate]. destruct (step_meets o _ _ _ Go Eo s H) as (s1 & E1 & H1 & T1).
    destruct (IH _ _ _ Gl E s1 H1) as (s2 & E2 & H2 & T2). exists s2. unfold bind. rewrite E1. split; [exact E2|]. split; [exact H2|]. intros n I. rewrite T2, T1 by exact I. reflexivity.
Qed.
Lemma registry_refines l a : all_gentle [] l -> aexec l areg_init = Some a ->
  exists s, rexec l reg_init = Ok tt s /\ g_log s = a_log a /\
    (forall i n, g_tcl s !! (i, n) = Some Native <-> exists h, a_map a !! n = Some (i, h)) /\
    (forall i n, g_tcl s !! (i, n) <> Some Script) /\
    (forall p c, g_heap s !! p = Some c -> c_refs c = 1 /\ a_map a !! c_name c = Some (c_si c, (c_fun c, c_min c, c_max c)) /\
      forall q d, g_heap s !! q = Some d -> c_name d = c_name c -> q = p).
Proof.
  intros G E. destruct (exec_meets l [] _ _ G E _ R_init) as (s & Es & H & _). exists s. split; [exact Es|]. split; [apply (R_log _ _ _ H)|]. split; [|split].
  - intros i n. rewrite (R_tcl _ _ _ H). destruct (a_map a !! n) as [[j h]|]; [|split; [discriminate|intros [h Eh]; discriminate]].
    destruct (Z.eqb_spec j i) as [->|Nj]; split; try discriminate; eauto. intros [h' Eh]. congruence.
  - intros i n. rewrite (R_tcl _ _ _ H). destruct (a_map a !! n) as [[j h]|]; [|discriminate]. destruct (j =? i); discriminate.
  - intros p c Hc. pose proof (R_heap _ _ _ H _ _ Hc) as T. destruct (a_map a !! c_name c) as [[j [[f mn] mx]]|] eqn:Ea; [|rewrite (R_none _ _ _ H _ Ea) in T; discriminate].
    destruct (R_some _ _ _ H _ _ _ _ _ Ea) as (p' & T' & Hp). assert (p' = p) as -> by congruence. rewrite Hc in Hp. injection Hp as ->. cbn in *. repeat split.
    intros q d Hd Nd. pose proof (R_heap _ _ _ H _ _ Hd) as Td. rewrite Nd in Td. congruence.
Qed.

Lemma flat_exec i n l : forall a before, List.Forall (flat i) l -> a_live a = {[i := tt]} -> a_log a = [] ->
  a_map a !! n = option_map (pair i) before ->
  all_gentle [] l /\ exists a', aexec l a = Some a' /\ a_live a' = {[i := tt]} /\ a_log a' = [] /\ a_map a' !! n = option_map (pair i) (last_about n l before).
Proof.
  induction l as [|o l IH]; intros a before F El Eg Em.
  - split; [exact I|]. exists a. repeat split; assumption.
  - inversion F as [|? ? Fo Fl]; subst. destruct o; cbn in Fo; try contradiction; destruct Fo as [-> Pn]; cbn [aexec astep last_about all_gentle gentle]; unfold alive; rewrite El, lookup_singleton.
    + destruct (IH (AReg (<[n0 := (i, (f, mn, mx))]> (a_map a)) (a_live a) (a_log a)) (if decide (n0 = n) then Some (f, mn, mx) else before) Fl El Eg) as [G X].
      { cbn. destruct (decide (n0 = n)) as [->|]; lk; [reflexivity|assumption]. }
      split; [|rewrite El in X; exact X]. repeat split; try exact G; try apply Pn; intros [].
    + destruct (IH (AReg (delete n0 (a_map a)) (a_live a) (a_log a)) (if decide (n0 = n) then None else before) Fl El Eg) as [G X].
      { cbn. destruct (decide (n0 = n)) as [->|]; lk; [reflexivity|assumption]. }
      split; [|rewrite El in X; exact X]. repeat split; try exact G; try apply Pn; intros [].
Qed.
Lemma gentle_app run l k : all_gentle run l -> all_gentle run k -> all_gentle run (l ++ k).
Proof. induction l; cbn; tauto. Qed.
Lemma aexec_app l : forall k a a', aexec l a = Some a' -> aexec (l ++ k) a = aexec k a'.
Proof. induction l as [|o l IH]; intros k a a' E; cbn in *; [congruence|]. destruct (astep o a); [apply IH; exact E|discriminate]. Qed.
Lemma call_last i n l k : List.Forall (flat i) l -> plain n ->
  exists s, rexec (OpNew i :: l ++ [OpCall i n k []]) reg_init = Ok tt s /\
  g_log s = [match last_about n l None with Some (f, mn, mx) => if (k <? mn) || (mx <? k) then Refused i n f else Ran i n f | None => Unknown i n end].
Proof.
  intros F Pn. destruct (flat_exec i n l (AReg ∅ (<[i := tt]> ∅) []) None F) as (G & a & E & El & Eg & Em); [apply insert_empty|reflexivity|cbn; apply lookup_empty|].
  assert (exists a', aexec (OpNew i :: l ++ [OpCall i n k []]) areg_init = Some a' /\
    a_log a' = [match last_about n l None with Some (f, mn, mx) => if (k <? mn) || (mx <? k) then Refused i n f else Ran i n f | None => Unknown i n end]) as (a' & E' & L').
  { cbn [aexec astep a_live areg_init]. rewrite lookup_empty. cbn [a_map a_log areg_init].
    rewrite (aexec_app _ _ _ _ E). cbn [aexec astep]. unfold alive. rewrite El, lookup_singleton, Em.
    destruct (last_about n l None) as [[[f mn] mx]|]; cbn [option_map].
    - rewrite Z.eqb_refl. cbn [negb]. destruct (_ || _); eexists; (split; [reflexivity|]); cbn; rewrite Eg; reflexivity.
    - eexists. split; [reflexivity|]. cbn. rewrite Eg. reflexivity. }
  destruct (registry_refines (OpNew i :: l ++ [OpCall i n k []]) a') as (s & Es & Ls & _); [|exact E'|].
  - split; [exact I|]. apply gentle_app; [exact G|]. repeat split; apply Pn.
  - exists s. split; [exact Es|]. congruence.
Qed.
