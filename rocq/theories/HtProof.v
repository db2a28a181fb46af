(** Proofs about several HashTables of Strings on the heap. *)
From Coq Require Import ZifyBool.
From stdpp Require Import gmap.
From Verif Require Import Base ZList RcaSpec RcaModel RcaExec RcaInv RcaOwn RcaRel RcaMeet RcaReach RcaFacts StreamProof StrSpec StrModel StrCmp AlgModel AlgMeet AlgRules
  HashModel HashProof HsModel HsMeet HsProof HtModel HtMeet.
Open Scope Z_scope.

Section Proof.
Variable d : desc Z.
Hypothesis Hwf : wf_desc d.
Variable mdiff : Z -> Z -> Z.
Hypothesis Hm : memcmp_ok mdiff.
Variable grow : Z -> Z -> option Z.
Notation reached := (RcaMeet.reached d).
Notation tab := (tab d).
Notation thash := (text_hash d).

Lemma same_node a a' n : is_node a n -> a' !! fst n = a !! fst n -> a' !! snd n = a !! snd n -> is_node a' n /\ entry a' n = entry a n.
Proof.
  intros (X1 & (r1 & X2) & (r2 & X3)) Y1 Y2. unfold is_node, entry, text. rewrite Y1, Y2. split; [|reflexivity]. split; [exact X1|]. unfold is_str. rewrite Y1, Y2.
  split; [exists r1; exact X2|exists r2; exact X3].
Qed.
Lemma same_nodes a a' l : Forall (is_node a) l -> (forall x, x ∈ own l -> a' !! x = a !! x) -> Forall (is_node a') l /\ map (entry a') l = map (entry a) l.
Proof.
  intros F E. rewrite Forall_forall in F. assert (forall n, In n l -> is_node a' n /\ entry a' n = entry a n) as X.
  { intros n I. destruct (in_own _ _ I) as [O1 O2]. apply same_node; [apply F, I|apply E, O1|apply E, O2]. }
  split; [apply Forall_forall; intros n I; apply X, I|]. apply map_ext_in. intros n I. apply X, I.
Qed.
Lemma own_cons n l x : x ∈ own (n :: l) <-> x = fst n \/ x = snd n \/ x ∈ own l.
Proof. cbn. fold (own l). rewrite !elem_of_cons. reflexivity. Qed.
Lemma own_nodup n l : base.NoDup (own (n :: l)) <-> fst n <> snd n /\ fst n ∉ own l /\ snd n ∉ own l /\ base.NoDup (own l).
Proof. cbn. fold (own l). rewrite !list.NoDup_cons, not_elem_of_cons. tauto. Qed.

Lemma hreuse_ok fails src : forall k old s a, reached s a -> Forall (is_node a) src -> base.NoDup (own old) -> (forall x, x ∈ own old -> is_Some (a !! x)) ->
  (forall x, x ∈ own old -> x ∉ own src) ->
  (exists s' a', hreuse d fails k old src s = Exn BadAlloc s' /\ reached s' a' /\ (forall x, a' !! x = if decide (x ∈ own old) then None else a !! x) /\
    (exists c, fails c = true) /\ zlen old < zlen src) \/
  exists l' s' a', hreuse d fails k old src s = Ok l' s' /\ reached s' a' /\ base.NoDup (own l') /\ (forall x, x ∈ own l' -> x ∈ own old \/ a !! x = None) /\
    (forall x, x ∉ own l' -> a' !! x = if decide (x ∈ own old) then None else a !! x) /\ Forall (is_node a') l' /\ map (entry a') l' = map (entry a) src.
Proof.
  induction src as [|n src IH]; intros k old s a H F N L D.
  - right. cbn [hreuse]. destruct (hfree_ok d Hwf old s a H N L) as (s1 & a1 & E1 & H1 & X1). exists [], s1, a1.
    split; [rewrite (bind_ok _ _ _ _ _ E1); reflexivity|]. split; [exact H1|]. split; [constructor|]. split; [intros x X; inversion X|]. split; [intros x _; apply X1|]. split; [constructor|reflexivity].
  - destruct old as [|o old]; cbn [hreuse].
    + destruct (hcopy_nodes_ok d Hwf fails (n :: src) k s a H F) as [(s1 & E1 & H1 & Ff)|(l' & s1 & a' & E1 & H1 & N1 & D1 & X1 & F1 & M1)].
      * left. exists s1, a. split; [exact E1|]. split; [exact H1|]. split; [|split; [exact Ff|rewrite zlen_cons; pose proof (zlen_nonneg src); cbn [zlen]; unfold zlen at 1; cbn [length]; lia]].
        intros x. destruct (decide (x ∈ own [])) as [X|_]; [inversion X|reflexivity].
      * right. exists l', s1, a'. split; [exact E1|]. split; [exact H1|]. split; [exact N1|]. split; [intros x X; right; apply D1, X|]. split; [|split; assumption].
        intros x X. rewrite X1 by exact X. destruct (decide (x ∈ own [])) as [Y|_]; [inversion Y|reflexivity].
    + apply own_nodup in N as (No & N1 & N2 & N). inversion F as [|? ? (Bn & S1 & S2) Fl]; subst.
      assert (forall x, x = fst o \/ x = snd o -> x <> fst n /\ x <> snd n /\ x ∉ own src) as Dn.
      { intros x X. assert (x ∉ own (n :: src)) as Y by (apply D; rewrite own_cons; tauto). rewrite own_cons in Y. tauto. }
      destruct (destroy_ok d Hwf [snd o; fst o] s a H) as (s1 & E1 & H1).
      { apply list.NoDup_cons. split; [rewrite elem_of_list_singleton; congruence|apply NoDup_singleton]. }
      { intros x X. apply L. rewrite own_cons. rewrite elem_of_cons, elem_of_list_singleton in X. tauto. }
      rewrite (bind_ok _ _ _ _ _ E1). cbn [foldl] in H1. set (a1 := delete (fst o) (delete (snd o) a)) in *.
      assert (forall x, x <> fst o -> x <> snd o -> a1 !! x = a !! x) as Xa by (intros x X Y; unfold a1; rewrite !lookup_delete_ne by congruence; reflexivity).
      assert (is_str a1 (fst n) (text a (fst n))) as T1.
      { destruct S1 as (r & S1). exists r. rewrite Xa; [exact S1|..]; intros X; destruct (Dn (fst n)) as (Y & _); auto. }
      assert (a1 !! fst o = None) as Z1 by apply lookup_delete.
      pose proof (is_str_at _ _ _ T1) as A1. destruct (call_ok d Hwf (CtorCopy (fst o) (fst n)) s1 a1 _ _ H1 (copy_step d a1 (fst o) (fst n) _ _ A1 Z1) eq_refl) as (s2 & E2 & H2).
      rewrite (bind_ok _ _ _ _ _ E2). set (a2 := <[fst o := _]> a1) in *.
      assert (is_str a2 (snd n) (text a (snd n))) as T2.
      { destruct S2 as (r & S2). exists r. unfold a2. rewrite lookup_insert_ne by (intros X; destruct (Dn (snd n)) as (_ & Y & _); auto).
        rewrite Xa; [exact S2|..]; intros X; destruct (Dn (snd n)) as (_ & Y & _); auto. }
      assert (a2 !! snd o = None) as Z2. { unfold a2. rewrite lookup_insert_ne by congruence. unfold a1. rewrite lookup_delete_ne by congruence. apply lookup_delete. }
      pose proof (is_str_at _ _ _ T2) as A2. destruct (call_ok d Hwf (CtorCopy (snd o) (snd n)) s2 a2 _ _ H2 (copy_step d a2 (snd o) (snd n) _ _ A2 Z2) eq_refl) as (s3 & E3 & H3).
      rewrite (bind_ok _ _ _ _ _ E3). set (a3 := <[snd o := _]> a2) in *.
      assert (forall x, x <> fst o -> x <> snd o -> a3 !! x = a !! x) as Xb.
      { intros x X Y. unfold a3, a2. rewrite !lookup_insert_ne by congruence. apply Xa; assumption. }
      assert (a3 !! fst o = Some (AVal (room a1 (fst n)) (map Some (text a (fst n))))) as Ak by (unfold a3; rewrite lookup_insert_ne by congruence; unfold a2; apply lookup_insert).
      assert (a3 !! snd o = Some (AVal (room a2 (snd n)) (map Some (text a (snd n))))) as Av by (unfold a3; apply lookup_insert).
      assert (forall x, x ∈ own src -> a3 !! x = a !! x) as Xs by (intros x X; apply Xb; intros ->; destruct (Dn _ (or_introl eq_refl)) as (_ & _ & ?); destruct (Dn _ (or_intror eq_refl)) as (_ & _ & ?); contradiction).
      destruct (same_nodes a a3 src Fl Xs) as [Fs Ms].
      assert (forall x, x ∈ own old -> x <> fst o /\ x <> snd o) as Xo by (intros x X; split; intros ->; contradiction).
      destruct (IH k old s3 a3 H3 Fs N) as [(s4 & a4 & E4 & H4 & X4 & Ff & Lt)|(l' & s4 & a4 & E4 & H4 & N4 & D4 & X4 & F4 & M4)].
      { intros x X. destruct (Xo x X). rewrite Xb by assumption. apply L. rewrite own_cons. tauto. }
      { intros x X Y. apply (D x); rewrite own_cons; tauto. }
      * left. assert (a4 !! fst o = a3 !! fst o /\ a4 !! snd o = a3 !! snd o) as [Y1 Y2].
        { split; rewrite X4; destruct (decide _); [contradiction|reflexivity|contradiction|reflexivity]. }
        destruct (destroy_ok d Hwf [snd o; fst o] s4 a4 H4) as (s5 & E5 & H5).
        { apply list.NoDup_cons. split; [rewrite elem_of_list_singleton; congruence|apply NoDup_singleton]. }
        { intros x X. rewrite elem_of_cons, elem_of_list_singleton in X. destruct X as [->| ->]; rewrite ?Y1, ?Y2, ?Ak, ?Av; eauto. }
        eexists s5, _. split; [unfold unwind, bind; rewrite E4, E5; reflexivity|]. split; [exact H5|]. split; [|split; [exact Ff|rewrite !zlen_cons; lia]].
        intros x. cbn [foldl]. destruct (decide (x ∈ own (o :: old))) as [X|X].
        { rewrite own_cons in X. destruct X as [->|[->|X]]; [apply lookup_delete|rewrite lookup_delete_ne by congruence; apply lookup_delete|].
          destruct (Xo x X). rewrite !lookup_delete_ne by congruence. rewrite X4. destruct (decide _); [reflexivity|contradiction]. }
        { rewrite own_cons in X. rewrite !lookup_delete_ne by (intros Y; symmetry in Y; tauto). rewrite X4. destruct (decide _); [tauto|]. apply Xb; tauto. }
      * right. assert (fst o ∉ own l') as Q1 by (intros X; apply D4 in X as [X|X]; [contradiction|congruence]).
        assert (snd o ∉ own l') as Q2 by (intros X; apply D4 in X as [X|X]; [contradiction|congruence]).
        assert (a4 !! fst o = a3 !! fst o /\ a4 !! snd o = a3 !! snd o) as [Y1 Y2].
        { split; rewrite X4 by assumption; destruct (decide _); [contradiction|reflexivity|contradiction|reflexivity]. }
        assert (is_str a4 (fst o) (text a (fst n))) as Sk by (eexists; rewrite Y1; exact Ak).
        assert (is_str a4 (snd o) (text a (snd n))) as Sv by (eexists; rewrite Y2; exact Av).
        exists (o :: l'), s4, a4. split; [unfold unwind, bind; rewrite E4; reflexivity|]. split; [exact H4|].
        split; [apply own_nodup; auto|]. split; [|split; [|split]].
        { intros x X. rewrite own_cons in X |- *. destruct X as [X|[X|X]]; [tauto|tauto|]. destruct (decide (x = fst o)); [tauto|]. destruct (decide (x = snd o)); [tauto|].
          destruct (D4 x X) as [Y|Y]; [tauto|]. right. rewrite <- Xb by assumption. exact Y. }
        { intros x X. rewrite own_cons in X. rewrite X4 by tauto. destruct (decide (x ∈ own old)) as [Y|Y], (decide (x ∈ own (o :: old))) as [Z|Z]; rewrite own_cons in Z; try reflexivity; try tauto.
          apply Xb; tauto. }
        { constructor; [|exact F4]. unfold is_node. rewrite (text_str _ _ _ Sk), (text_str _ _ _ Sv). auto. }
        { cbn [map]. rewrite M4, Ms. f_equal. unfold entry. rewrite (text_str _ _ _ Sk), (text_str _ _ _ Sv). reflexivity. }
Qed.
Lemma relink s a l n : reached s a -> Forall (is_node a) l -> base.NoDup (own l) -> base.NoDup (map fst (map (entry a) l)) -> 0 < n ->
  exists u s', hpush_all d (empty_umap n) (rev l) s = Ok u s' /\ reached s' a /\ tab a u (list_to_map (map (entry a) l)) /\ Permutation (nodes u) l.
Proof.
  intros H F N K Hn. rewrite entry_keys in K.
  destruct (empty_good (V := positive) (text a) (thash a) grow n Hn) as [Ge Ee].
  destruct (push_all_ok (text a) (thash a) (keq a) grow (keq_ok a) (thash_ok d a) (rev l) (empty_umap n) Ge) as (u & E2 & G2 & P2).
  { rewrite Ee, app_nil_r. unfold ks. rewrite map_rev. rewrite <- Permutation_rev. exact K. }
  destruct (hpush_all_ok d Hwf a (rev l) s (empty_umap n) u H) as (s2 & E3 & H3); [apply Forall_rev; exact F|exact E2|].
  rewrite Ee, app_nil_r, <- Permutation_rev in P2. exists u, s2. split; [exact E3|]. split; [exact H3|]. split; [|exact P2].
  apply (tab_of d a u l); [exact G2|exact P2|exact N|exact F|reflexivity].
Qed.
Lemma hcopy_assign_ok fails s a u m v w : reached s a -> tab a u m -> tab a v w -> apart u v ->
  does d (hcopy_assign d false fails u v) s (fun r a' =>
    if fst r then tab a' (snd r) w /\ tab a' v w /\ others (snd r) a' = others u a
    else (exists c, fails c = true) /\ (u_n u <> u_n v \/ zlen (nodes u) < zlen (nodes v)) /\
      (snd r = u /\ a' = a \/ tab a' (snd r) ∅ /\ tab a' v w /\ nodes (snd r) = [] /\ a' = others u a)) (fun _ => False).
Proof.
  intros H T V Ap. unfold hcopy_assign.
  destruct (negb (u_n u =? u_n v) && fails O) eqn:Ef.
  { apply andb_prop in Ef as [Ef1 Ef2]. apply (does_ok d Hwf _ s s a (false, u)); [reflexivity|exact H|]. cbn [fst snd]. split; [exists O; exact Ef2|]. split; [left; lia|]. left. auto. }
  fold (nodes u) (nodes v).
  destruct (hreuse_ok fails (nodes v) 1%nat (nodes u) s a H (tab_node _ _ _ _ V) (tab_own _ _ _ _ T) (fun x => owned_live d a u m x T) Ap)
    as [(s1 & a1 & E1 & H1 & X1 & Ff & Lt)|(l & s1 & a1 & E1 & H1 & N1 & D1 & X1 & F1 & M1)].
  - assert (tab a1 v w) as V1. { apply (tab_same d a); [exact V|]. intros x X. rewrite X1. destruct (decide (x ∈ own (nodes u))) as [Y|]; [destruct (Ap x Y X)|reflexivity]. }
    destruct (empty_tab d grow a1 (u_n u) (tab_pos _ _ _ _ T)) as [T1 N1].
    apply (does_ok d Hwf _ s s1 a1 (false, empty_umap (u_n u))); [unfold bind, caught; rewrite E1; reflexivity|exact H1|]. cbn [fst snd]. split; [exact Ff|]. split; [right; exact Lt|].
    right. split; [exact T1|]. split; [exact V1|]. split; [exact N1|]. apply map_eq. intros x. rewrite X1, others_lookup. reflexivity.
  - destruct (relink s1 a1 l (u_n v) H1 F1 N1) as (u' & s2 & E2 & H2 & T2 & P2).
    { rewrite M1. rewrite entry_keys. apply V. }
    { apply V. }
    apply (does_ok d Hwf _ s s2 a1 (true, u')); [unfold bind, caught; rewrite E1, E2; reflexivity|exact H2|]. cbn [fst snd].
    assert (Permutation (owned u') (own l)) as PO by (apply own_perm; exact P2).
    split; [|split].
    + rewrite M1 in T2. rewrite (tab_map _ _ _ _ V). exact T2.
    + apply (tab_same d a); [exact V|]. intros x X. destruct (owned_live d a v w x V X) as (y & Y).
      rewrite X1; [destruct (decide (x ∈ own (nodes u))) as [Z|]; [destruct (Ap x Z X)|reflexivity]|]. intros Z. apply D1 in Z as [Z|Z]; [exact (Ap x Z X)|congruence].
    + apply map_eq. intros x. rewrite !others_lookup. destruct (decide (x ∈ owned u')) as [X|X]; rewrite PO in X; [|apply X1, X].
      apply D1 in X as [X|X]; destruct (decide (x ∈ owned u)) as [Y|Y]; try reflexivity; [contradiction|congruence].
Qed.
Lemma hput_ok e s a u m k l v w : reached s a -> tab a u m -> is_str a k l -> bytes l -> is_str a v w ->
  (exists s', hput d mdiff grow e u k v s = Exn BadAlloc s' /\ reached s' a /\ e <> LNone) \/
  exists u' s' a', hput d mdiff grow e u k v s = Ok u' s' /\ reached s' a' /\ tab a' u' (match m !! l with Some _ => m | None => <[l := w]> m end) /\
    others u' a' = others u a.
Proof.
  intros H T Hk Bl Hv. destruct (hfind_ok d Hwf mdiff Hm grow s a u m k l H T Hk Bl) as (r & s1 & E1 & H1 & P). unfold hput. rewrite (bind_ok _ _ _ _ _ E1).
  destruct r as [n|].
  { destruct P as (I & Ek & Ev). right. exists u, s1, a. rewrite Ev. auto. }
  rewrite P. assert (e = LNode \/ e <> LNode) as [->|Ne] by (destruct e; auto; right; discriminate).
  { left. exists s1. split; [reflexivity|]. split; [exact H1|discriminate]. }
  replace (match e with LNode => throw BadAlloc | _ => let* kn := new_var in call d (CtorCopy kn k) ;;; let* vn := new_var in call d (CtorCopy vn v) ;;;
    unwind d [vn; kn] (hlink d grow e u (kn, vn)) end) with (let* kn := new_var in call d (CtorCopy kn k) ;;; let* vn := new_var in call d (CtorCopy vn v) ;;;
    unwind d [vn; kn] (hlink d grow e u (kn, vn))) by (destruct e; [reflexivity|contradiction|reflexivity]).
  destruct (new_var_ok d Hwf s1 a H1) as (kn & E2 & F2). rewrite (bind_ok _ _ _ _ _ E2).
  pose proof (is_str_at _ _ _ Hk) as A1. destruct (call_ok d Hwf (CtorCopy kn k) s1 a _ _ H1 (copy_step d a kn k _ _ A1 F2) eq_refl) as (s3 & E3 & H3).
  rewrite (bind_ok _ _ _ _ _ E3). set (a1 := <[kn := _]> a) in *.
  destruct (new_var_ok d Hwf s3 a1 H3) as (vn & E4 & F4). rewrite (bind_ok _ _ _ _ _ E4).
  assert (a !! vn = None /\ kn <> vn) as [F5 Nv]. { pose proof F4 as F5. unfold a1 in F5. apply lookup_insert_None in F5 as [? ?]. auto. }
  assert (is_str a1 v w) as Hv1. { destruct Hv as (r & Hv). exists r. unfold a1. rewrite lookup_insert_ne by congruence. exact Hv. }
  pose proof (is_str_at _ _ _ Hv1) as A2. destruct (call_ok d Hwf (CtorCopy vn v) s3 a1 _ _ H3 (copy_step d a1 vn v _ _ A2 F4) eq_refl) as (s5 & E5 & H5).
  rewrite (bind_ok _ _ _ _ _ E5). set (a2 := <[vn := _]> a1) in *.
  assert (kn ∉ owned u) as O1 by (intros O; destruct (owned_live d a u m _ T O); congruence).
  assert (vn ∉ owned u) as O2 by (intros O; destruct (owned_live d a u m _ T O); congruence).
  assert (forall x, x <> kn -> x <> vn -> a2 !! x = a !! x) as Ex by (intros x X Y; unfold a2, a1; rewrite !lookup_insert_ne by congruence; reflexivity).
  assert (tab a2 u m) as T2 by (apply (tab_same d a); [exact T|]; intros x X; apply Ex; intros ->; contradiction).
  assert (is_str a2 kn l) as S1. { eexists. unfold a2. rewrite lookup_insert_ne by congruence. unfold a1. apply lookup_insert. }
  assert (is_str a2 vn w) as S2. { eexists. unfold a2. apply lookup_insert. }
  assert (is_node a2 (kn, vn)) as Nn. { unfold is_node. cbn [fst snd]. rewrite (text_str _ _ _ S1), (text_str _ _ _ S2). auto. }
  destruct (hlink_ok d Hwf grow e s5 a2 u m (kn, vn) H5 T2 Nn) as [[-> El]|(u' & s6 & El & H6 & T6 & P6)]; cbn [fst snd]; try assumption.
  { rewrite (text_str _ _ _ S1). exact P. }
  - left. destruct (destroy_ok d Hwf [vn; kn] s5 a2 H5) as (s6 & E6 & H6).
    { apply list.NoDup_cons. split; [rewrite elem_of_list_singleton; congruence|apply NoDup_singleton]. }
    { intros x X. rewrite elem_of_cons, elem_of_list_singleton in X. destruct S1 as (r1 & S1), S2 as (r2 & S2). destruct X as [->| ->]; eauto. }
    exists s6. unfold unwind. rewrite El, E6. split; [reflexivity|]. split; [|discriminate]. cbn in H6. unfold a2 in H6. rewrite delete_insert in H6 by exact F4.
    unfold a1 in H6. rewrite delete_insert in H6 by exact F2. exact H6.
  - right. exists u', s6, a2. unfold unwind. rewrite El. split; [reflexivity|]. split; [exact H6|]. cbn [fst snd] in T6. rewrite (text_str _ _ _ S1), (text_str _ _ _ S2) in T6.
    split; [exact T6|]. apply map_eq. intros x. rewrite !others_lookup.
    assert (x ∈ owned u' <-> x = kn \/ x = vn \/ x ∈ owned u) as Q by (unfold owned; rewrite (own_perm _ _ P6); apply own_cons).
    destruct (decide (x ∈ owned u')) as [X|X], (decide (x ∈ owned u)) as [Y|Y]; try reflexivity.
    + apply Q in X as [->|[->|X]]; [congruence|congruence|contradiction].
    + tauto.
    + apply Ex; tauto.
Qed.
Lemma others_text u a x l : is_str (others u a) x l -> text (others u a) x = text a x.
Proof. intros X. rewrite (text_str _ _ _ X). apply others_str in X as [X _]. symmetry. apply (text_str _ _ _ X). Qed.
Lemma union_put (m F : texts) l w : (match m !! l with Some _ => m | None => <[l := w]> m end) ∪ F = m ∪ <[l := w]> F.
Proof.
  apply map_eq. intros x. rewrite !lookup_union. destruct (decide (x = l)) as [->|N].
  - rewrite lookup_insert. destruct (m !! l) as [y|] eqn:E; [rewrite E|rewrite lookup_insert]; destruct (F !! l); reflexivity.
  - rewrite (lookup_insert_ne F) by congruence. destruct (m !! l); [reflexivity|]. rewrite lookup_insert_ne by congruence. reflexivity.
Qed.
Definition pairs (b : astate Z) (kvs : list (positive * positive)) : Prop :=
  Forall (fun kv => is_key b (fst kv) (text b (fst kv)) /\ is_str b (snd kv) (text b (snd kv))) kvs.
Lemma hputs_ok kvs : forall es s a u m, reached s a -> tab a u m -> pairs (others u a) kvs ->
  (exists s', hputs d mdiff grow es u kvs s = Exn BadAlloc s' /\ reached s' (others u a) /\ exists e, In e es /\ e <> LNone) \/
  exists u' s' a', hputs d mdiff grow es u kvs s = Ok u' s' /\ reached s' a' /\ tab a' u' (m ∪ firsts (others u a) kvs) /\ others u' a' = others u a.
Proof.
  induction kvs as [|[k v] kvs IH]; intros es s a u m H T F; cbn [hputs].
  - right. exists u, s, a. split; [reflexivity|]. split; [exact H|]. split; [|reflexivity]. unfold firsts. cbn [map list_to_map foldr]. rewrite right_id_L by apply _. exact T.
  - inversion F as [|? ? [[K1 K2] V] Fl]; subst. cbn [fst snd] in *. pose proof (others_text _ _ _ _ K1) as Tk. pose proof (others_text _ _ _ _ V) as Tv.
    pose proof (others_str _ _ _ _ K1) as [K1' _]. pose proof (others_str _ _ _ _ V) as [V' _].
    destruct (hput_ok (hd LNone es) s a u m k _ v _ H T K1' K2 V') as [(s1 & E1 & H1 & L1)|(u1 & s1 & a1 & E1 & H1 & T1 & O1)].
    + left. pose proof (hdestroy_ok d Hwf s1 a u m H1 T) as Dd. apply (does_elim d) in Dd as ([] & s2 & a2 & E2 & H2 & ->).
      exists s2. split; [unfold bind, hguard; rewrite E1, E2; reflexivity|]. split; [exact H2|]. destruct es as [|e es]; [destruct (L1 eq_refl)|]. exists e. split; [left; reflexivity|exact L1].
    + assert (hguard d u (hput d mdiff grow (hd LNone es) u k v) s = Ok u1 s1) as E1' by (unfold hguard; rewrite E1; reflexivity).
      rewrite (bind_ok _ _ _ _ _ E1'). destruct (IH (tl es) s1 a1 u1 _ H1 T1) as [(s2 & E2 & H2 & e & Ie & Le)|(u2 & s2 & a2 & E2 & H2 & T2 & O2)].
      { rewrite O1. exact Fl. }
      * left. exists s2. split; [exact E2|]. rewrite O1 in H2. split; [exact H2|]. exists e. split; [|exact Le]. destruct es; [destruct Ie|right; exact Ie].
      * right. exists u2, s2, a2. split; [exact E2|]. split; [exact H2|]. rewrite O1 in T2, O2. split; [|exact O2].
        rewrite union_put in T2. exact T2.
Qed.
Lemma hlist_ok e es n kvs s a : reached s a -> 0 < n -> pairs a kvs ->
  does d (hlist d mdiff grow e es n kvs) s (fun u a' => tab a' u (firsts a kvs) /\ others u a' = a)
    (fun a' => a' = a /\ exists e', In e' (e :: es) /\ e' <> LNone).
Proof.
  intros H Hn F. unfold hlist. assert (e = LNone \/ e <> LNone) as [->|Ne] by (destruct e; auto; right; discriminate).
  - destruct (empty_tab d grow a n Hn) as [T N]. assert (others (empty_umap n) a = a) as O.
    { apply map_eq. intros x. rewrite others_lookup. destruct (decide _) as [X|_]; [unfold owned in X; rewrite N in X; inversion X|reflexivity]. }
    destruct (hputs_ok kvs es s a (empty_umap n) ∅ H T) as [(s1 & E1 & H1 & e & I & L)|(u & s1 & a1 & E1 & H1 & T1 & O1)]; rewrite ?O in *.
    + exact F.
    + apply (does_oom d Hwf _ s s1 a); [exact E1|exact H1|]. split; [reflexivity|]. exists e. split; [right; exact I|exact L].
    + apply (does_ok d Hwf _ s s1 a1 u); [exact E1|exact H1|]. rewrite left_id_L in T1 by apply _. split; [exact T1|exact O1].
  - apply (does_oom d Hwf _ s s a); [destruct e; [contradiction|reflexivity|reflexivity]|exact H|]. split; [reflexivity|]. exists e. split; [left; reflexivity|exact Ne].
Qed.

(** Many tables. *)
Notation all := (HtMeet.all d).
Lemma hspec_frame c m b r m' b' (B : astate Z) : hspec c (m, b) r (m', b') -> (forall x y, b !! x = Some y -> B !! x = Some y) ->
  exists B', hspec c (m, B) r (m', B') /\ (forall x, b !! x = None -> B' !! x = B !! x /\ b' !! x = None) /\ (forall x, is_Some (b !! x) -> B' !! x = b' !! x).
Proof.
  intros Hs E. assert (forall x l, is_str b x l -> is_str B x l) as Es by (intros x l (q & X); exists q; apply E, X).
  assert (forall x l, is_key b x l -> is_key B x l) as Ek by (intros x l [X Y]; split; [apply Es, X|exact Y]).
  assert (forall x, is_Some (b !! x) -> B !! x = b !! x) as Eq by (intros x (y & X); rewrite X; apply E, X).
  assert (forall (p q : bool) k v l w, is_str b k l -> is_str b v w -> (forall x, b !! x = None -> taken p k (taken q v B) !! x = B !! x /\ taken p k (taken q v b) !! x = None) /\
    (forall x, is_Some (b !! x) -> taken p k (taken q v B) !! x = taken p k (taken q v b) !! x)) as Tk.
  { intros p q k v l w (r1 & K) (r2 & V). unfold taken. split; intros x X.
    - assert (k <> x /\ v <> x) as [N1 N2] by (split; congruence). destruct p, q; rewrite ?lookup_insert_ne by assumption; split; [reflexivity|exact X|reflexivity|exact X|reflexivity|exact X|reflexivity|exact X].
    - destruct (decide (k = x)) as [->|N1], (decide (v = x)) as [->|N2], p, q; repeat (rewrite lookup_insert || rewrite lookup_insert_ne by assumption); try reflexivity; apply Eq, X. }
  inversion Hs; subst.
  - destruct (Tk mk mv k v l w) as [T1 T2]; [apply H4|assumption|]. eexists. split; [apply hs_insert; eauto|]. split; assumption.
  - exists B. split; [eapply hs_there; eauto|]. split; [auto|exact Eq].
  - destruct (Tk mk mv k v l w) as [T1 T2]; [apply H4|assumption|]. eexists. split; [apply hs_new; eauto|]. split; assumption.
  - destruct (Tk false mv k v l w) as [T1 T2]; [apply H4|assumption|]. eexists. split; [apply hs_old; eauto|]. split; assumption.
  - exists B. split; [apply hs_remove; auto|]. split; [auto|exact Eq].
  - exists B. split; [apply hs_contains; auto|]. split; [auto|exact Eq].
  - exists B. split; [apply hs_clear|]. split; [auto|exact Eq].
Qed.
Lemma all_outside a ts ms b i u x : all a ts ms b -> ts !! i = Some u -> x ∈ owned u -> b !! x = None.
Proof. intros A I X. destruct (b !! x) as [y|] eqn:E; [|reflexivity]. apply (all_rest _ _ _ _ _ A) in E as [_ E]. destruct (E i u I X). Qed.
Lemma all_some a ts ms b i : all a ts ms b -> (is_Some (ts !! i) <-> is_Some (ms !! i)).
Proof. intros A. rewrite <- !not_eq_None_Some. rewrite (all_none _ _ _ _ _ A). reflexivity. Qed.
Lemma all_put a ts ms b i u a' u' m' b' : all a ts ms b -> match ts !! i with Some w => w = u | None => owned u = [] end -> tab a' u' m' ->
  (forall x, others u' a' !! x = match b !! x with Some _ => b' !! x | None => others u a !! x end) -> (forall x, b !! x = None -> b' !! x = None) ->
  all a' (<[i := u']> ts) (<[i := m']> ms) b'.
Proof.
  intros A Hi T O B. assert (forall j v m x, i <> j -> ts !! j = Some v -> ms !! j = Some m -> x ∈ owned v -> a' !! x = a !! x /\ x ∉ owned u') as X.
  { intros j v m x N J Mj X. pose proof (O x) as Ox. rewrite (all_outside a ts ms b j v x A J X) in Ox. rewrite !others_lookup in Ox.
    assert (x ∉ owned u) as Nu. { destruct (ts !! i) as [w|] eqn:I; [subst w; intros Y; apply (all_apart _ _ _ _ _ A i j u v I J N x Y X)|rewrite Hi; intros Y; inversion Y]. }
    destruct (owned_live d a v m x (all_tab _ _ _ _ _ A j v m J Mj) X) as (y & Y). destruct (decide (x ∈ owned u)); [contradiction|]. destruct (decide (x ∈ owned u')); [congruence|]. auto. }
  constructor.
  - intros j. destruct (decide (i = j)) as [->|N]; [rewrite !lookup_insert; split; discriminate|rewrite !lookup_insert_ne by exact N; apply A].
  - intros j v m. destruct (decide (i = j)) as [->|N]; [rewrite !lookup_insert; intros [= <-] [= <-]; exact T|rewrite !lookup_insert_ne by exact N; intros J Mj].
    apply (tab_same d a); [eapply all_tab; eassumption|]. intros x Hx. eapply X; eassumption.
  - intros j k v w J K N x Xv Xw. destruct (decide (i = j)) as [->|Nj].
    + rewrite lookup_insert in J. injection J as <-. rewrite lookup_insert_ne in K by exact N.
      assert (is_Some (ms !! k)) as (m & Mk) by (apply (all_some a ts ms b k A); eauto). destruct (X k w m x N K Mk Xw). contradiction.
    + rewrite lookup_insert_ne in J by exact Nj. destruct (decide (i = k)) as [->|Nk].
      * rewrite lookup_insert in K. injection K as <-. assert (is_Some (ms !! j)) as (m & Mj) by (apply (all_some a ts ms b j A); eauto). destruct (X j v m x Nj J Mj Xv). contradiction.
      * rewrite lookup_insert_ne in K by exact Nk. exact (all_apart _ _ _ _ _ A j k v w J K N x Xv Xw).
  - intros x y. split.
    + intros E. pose proof (O x) as Ox. destruct (b !! x) as [z|] eqn:Eb; [|rewrite B in E by exact Eb; discriminate]. rewrite E in Ox. rewrite others_lookup in Ox.
      destruct (decide (x ∈ owned u')) as [|N]; [discriminate|]. split; [exact Ox|]. intros j v J. destruct (decide (i = j)) as [->|Nj].
      * rewrite lookup_insert in J. injection J as <-. exact N.
      * rewrite lookup_insert_ne in J by exact Nj. apply (all_rest _ _ _ _ _ A) in Eb as [_ Eb]. exact (Eb j v J).
    + intros [E N]. pose proof (N i u' (lookup_insert _ _ _)) as N'. pose proof (O x) as Ox. rewrite others_lookup in Ox. destruct (decide (x ∈ owned u')); [contradiction|].
      destruct (b !! x) as [z|] eqn:Eb; [congruence|]. exfalso. rewrite others_lookup in Ox. destruct (decide (x ∈ owned u)) as [|Nu]; [congruence|].
      assert (b !! x = Some y) as F; [|congruence]. apply (all_rest _ _ _ _ _ A). split; [congruence|]. intros j v J. destruct (decide (i = j)) as [->|Nj].
      * rewrite J in Hi. subst v. exact Nu.
      * apply (N j v). rewrite lookup_insert_ne by exact Nj. exact J.
Qed.
Lemma all_put_same a ts ms b i u a' u' m' : all a ts ms b -> match ts !! i with Some w => w = u | None => owned u = [] end -> tab a' u' m' ->
  others u' a' = others u a -> all a' (<[i := u']> ts) (<[i := m']> ms) b.
Proof.
  intros A Hi T O. apply (all_put a ts ms b i u); [exact A|exact Hi|exact T| |auto]. intros x. rewrite O. destruct (b !! x) as [y|] eqn:E; [|reflexivity].
  apply (all_rest _ _ _ _ _ A) in E as [E N]. rewrite others_lookup. destruct (decide (x ∈ owned u)) as [X|]; [|exact E].
  destruct (ts !! i) as [w|] eqn:I; [subst w; destruct (N i u I X)|rewrite Hi in X; inversion X].
Qed.
Lemma all_delete a ts ms b i u : all a ts ms b -> ts !! i = Some u -> owned u = [] -> all a (delete i ts) (delete i ms) b.
Proof.
  intros A I N. constructor.
  - intros j. destruct (decide (i = j)) as [->|Nj]; [rewrite !lookup_delete; tauto|rewrite !lookup_delete_ne by exact Nj; apply A].
  - intros j v m J Mj. apply lookup_delete_Some in J as [_ J]. apply lookup_delete_Some in Mj as [_ Mj]. eapply all_tab; eassumption.
  - intros j k v w J K Njk. apply lookup_delete_Some in J as [_ J]. apply lookup_delete_Some in K as [_ K]. eapply all_apart; eassumption.
  - intros x y. rewrite (all_rest _ _ _ _ _ A). split; intros [E F]; (split; [exact E|]); intros j v J.
    + apply lookup_delete_Some in J as [_ J]. eapply F, J.
    + destruct (decide (i = j)) as [->|Nj]; [rewrite I in J; injection J as <-; rewrite N; intros X; inversion X|]. apply (F j v). rewrite lookup_delete_ne by exact Nj. exact J.
Qed.
Lemma all_rename (f : positive -> positive) a ts ms b ts' ms' : all a ts ms b -> (forall i, f (f i) = i) ->
  (forall i, ts' !! i = ts !! f i) -> (forall i, ms' !! i = ms !! f i) -> all a ts' ms' b.
Proof.
  intros A F Ht Hms. constructor.
  - intros i. rewrite Ht, Hms. apply A.
  - intros i u m. rewrite Ht, Hms. apply A.
  - intros i j u v. rewrite !Ht. intros I J N. apply (all_apart _ _ _ _ _ A (f i) (f j) u v I J). intros E. apply N. rewrite <- (F i), <- (F j), E. reflexivity.
  - intros x y. rewrite (all_rest _ _ _ _ _ A). split; intros [E G]; (split; [exact E|]); intros i u I.
    + rewrite Ht in I. exact (G _ _ I).
    + apply (G (f i) u). rewrite Ht, F. exact I.
Qed.
Definition trade (i j k : positive) : positive := if decide (k = j) then i else if decide (k = i) then j else k.
Lemma trade_twice i j k : trade i j (trade i j k) = k.
Proof. unfold trade. repeat destruct (decide _); congruence. Qed.
Lemma trade_at {A} (ts : gmap positive A) i j u v : ts !! i = Some u -> ts !! j = Some v -> forall k, (<[j := u]> (<[i := v]> ts) : gmap positive A) !! k = ts !! trade i j k.
Proof.
  intros I J k. unfold trade. destruct (decide (k = j)) as [->|Nj]; [rewrite lookup_insert; congruence|]. rewrite lookup_insert_ne by congruence.
  destruct (decide (k = i)) as [->|Ni]; [rewrite lookup_insert; congruence|]. apply lookup_insert_ne. congruence.
Qed.
Lemma all_swap a ts ms b i j u v m w : all a ts ms b -> ts !! i = Some u -> ts !! j = Some v -> ms !! i = Some m -> ms !! j = Some w ->
  all a (<[j := u]> (<[i := v]> ts)) (<[j := m]> (<[i := w]> ms)) b.
Proof. intros A I J Mi Mj. apply (all_rename (trade i j) a ts ms); [exact A|apply trade_twice|apply trade_at; assumption|apply trade_at; assumption]. Qed.
Lemma others_empty n a : others (empty_umap n) a = a.
Proof.
  apply map_eq. intros x. rewrite others_lookup. destruct (decide _) as [X|_]; [|reflexivity]. exfalso. unfold owned, nodes, empty_umap in X. cbn [u_buckets] in X.
  assert (List.concat (zrep n ([] : list (positive * positive))) = []) as E; [|rewrite E in X; inversion X].
  unfold zrep. induction (Z.to_nat n) as [|q IH]; [reflexivity|exact IH].
Qed.
Lemma get_ok ts i u (s : state Z) : ts !! i = Some u -> get ts i s = Ok u s.
Proof. unfold get. intros ->. reflexivity. Qed.
Lemma table_at a ts ms b i m : all a ts ms b -> ms !! i = Some m -> exists u, ts !! i = Some u /\ tab a u m.
Proof. intros A I. assert (is_Some (ts !! i)) as (u & U) by (apply (all_some a ts ms b i A); eauto). exists u. split; [exact U|]. eapply all_tab; eassumption. Qed.
Lemma firsts_same b a kvs : pairs b kvs -> (forall x l, is_str b x l -> is_str a x l) -> pairs a kvs /\ firsts a kvs = firsts b kvs.
Proof.
  intros F E. assert (Forall (fun kv => text a (fst kv) = text b (fst kv) /\ text a (snd kv) = text b (snd kv) /\ is_key a (fst kv) (text b (fst kv)) /\ is_str a (snd kv) (text b (snd kv))) kvs) as G.
  { eapply (list.Forall_impl _ _ _ F). intros kv [[K1 K2] V]. pose proof (E _ _ K1) as K. pose proof (E _ _ V) as W. split; [apply text_str, K|]. split; [apply text_str, W|]. split; [split; assumption|exact W]. }
  split.
  - eapply (list.Forall_impl _ _ _ G). intros kv (X & Y & K & V). cbv beta. rewrite X, Y. auto.
  - unfold firsts. f_equal. apply map_ext_in. intros kv I. rewrite Forall_forall in G. destruct (G kv I) as (X & Y & _). rewrite X, Y. reflexivity.
Qed.
Lemma no_lacks (a0 : astate Z -> Prop) a : ~ (a0 a /\ exists e', In e' [LNone] /\ e' <> LNone).
Proof. intros (_ & e & [<-|[]] & X). apply X. reflexivity. Qed.
Lemma no_fails (a0 : astate Z -> Prop) a : ~ (a0 a /\ exists c : nat, (fun _ => false) c = true).
Proof. intros (_ & c & X). discriminate. Qed.
Lemma empty_rest a ts ms b i n : all a ts ms b -> 0 < n -> ts !! i = None -> all a (<[i := empty_umap n]> ts) (<[i := ∅]> ms) b.
Proof.
  intros A Hn I. apply (all_put_same a ts ms b i (empty_umap n)); [exact A| |apply (empty_tab d grow), Hn|reflexivity]. rewrite I.
  unfold owned. rewrite (proj2 (empty_tab d grow a n Hn)). reflexivity.
Qed.
Lemma destroyed a ts ms b i u m n : all a ts ms b -> ts !! i = Some u -> tab a u m -> 0 < n -> all (others u a) (<[i := empty_umap n]> ts) (<[i := ∅]> ms) b.
Proof.
  intros A I T Hn. apply (all_put_same a ts ms b i u); [exact A|rewrite I; reflexivity|apply (empty_tab d grow), Hn|]. apply others_empty.
Qed.
Lemma tdo_ok c s ts x r y : hold d s ts (fst x) (snd x) -> tspec c x r y ->
  exists s' ts', tdo d mdiff grow c ts s = Ok (r, ts') s' /\ hold d s' ts' (fst y) (snd y).
Proof.
  intros (a & H & A) Hs. inversion Hs as [i c' ms m b r' m' b' I Hc|i n ms b I Hn|i n kvs ms b I Hn F|i j ms m b I J|i j ms m m' b I J|i j ms m b I J|i j ms m m' b I J N|i j ms m m' b I J|i ms m b I];
    subst; cbn [fst snd] in *; cbn [tdo].
  - destruct (table_at a ts ms b i m A I) as (u & U & T). rewrite (bind_ok _ _ _ _ _ (get_ok ts i u s U)).
    destruct (hspec_frame c' m b r m' b' (others u a) Hc) as (B & Hc' & B1 & B2).
    { intros x y E. apply (all_rest _ _ _ _ _ A) in E as [E N]. rewrite others_lookup. destruct (decide (x ∈ owned u)) as [X|]; [destruct (N i u U X)|exact E]. }
    destruct (hdo_ok d Hwf mdiff Hm grow c' s u (m, others u a) r (m', B)) as (s1 & u1 & E1 & a1 & H1 & T1 & O1); [exists a; auto|exact Hc'|]. cbn [fst snd] in *.
    rewrite (bind_ok _ _ _ _ _ E1). cbn [fst snd]. exists s1, (<[i := u1]> ts). split; [reflexivity|]. exists a1. split; [exact H1|].
    apply (all_put a ts ms b i u); [exact A|rewrite U; reflexivity|exact T1| |intros x X; apply B1, X]. intros x. rewrite O1.
    destruct (b !! x) as [y|] eqn:E; [apply B2; eauto|apply B1, E].
  - eexists s, _. split; [reflexivity|]. exists a. split; [exact H|]. apply empty_rest; [exact A|exact Hn|]. apply (all_none _ _ _ _ _ A), I.
  - assert (forall x l, is_str b x l -> is_str a x l) as Es by (intros x l (q & X); exists q; apply (all_rest _ _ _ _ _ A), X).
    destruct (firsts_same b a kvs F Es) as [Fa Ef].
    destruct (does_elim d _ _ _ (does_weak d _ _ _ _ (no_lacks _) (hlist_ok LNone [] n kvs s a H Hn Fa))) as (u & s1 & a1 & E1 & H1 & T1 & O1).
    rewrite (bind_ok _ _ _ _ _ E1). eexists s1, _. split; [reflexivity|]. exists a1. split; [exact H1|]. rewrite Ef in T1.
    apply (all_put_same a ts ms b i (empty_umap 1)); [exact A| |exact T1|rewrite others_empty; exact O1]. apply (all_none _ _ _ _ _ A) in I. rewrite I. reflexivity.
  - destruct (table_at a ts ms b j m A J) as (v & V & T). rewrite (bind_ok _ _ _ _ _ (get_ok ts j v s V)).
    destruct (does_elim d _ _ _ (does_weak d _ _ _ _ (no_fails _) (hcopy_ok d Hwf grow (fun _ => false) s a v m H T))) as (u & s1 & a1 & E1 & H1 & T1 & _ & O1).
    rewrite (bind_ok _ _ _ _ _ E1). eexists s1, _. split; [reflexivity|]. exists a1. split; [exact H1|].
    apply (all_put_same a ts ms b i (empty_umap 1)); [exact A| |exact T1|rewrite others_empty; exact O1]. apply (all_none _ _ _ _ _ A) in I. rewrite I. reflexivity.
  - destruct (table_at a ts ms b i m' A I) as (u & U & T). destruct (table_at a ts ms b j m A J) as (v & V & W).
    rewrite (bind_ok _ _ _ _ _ (get_ok ts i u s U)), (bind_ok _ _ _ _ _ (get_ok ts j v s V)). destruct (Pos.eqb_spec i j) as [->|N].
    + exists s, (<[j := u]> ts). split; [reflexivity|]. exists a. split; [exact H|]. rewrite insert_id by exact U. rewrite insert_id by exact J. exact A.
    + pose proof (hcopy_assign_ok (fun _ => false) s a u m' v m H T W (all_apart _ _ _ _ _ A i j u v U V N)) as D.
      apply (does_elim d) in D as ([[|] u1] & s1 & a1 & E1 & H1 & P); cbn [fst snd] in P; [|destruct P as ((c & X) & _); discriminate].
      destruct P as (T1 & _ & O1). rewrite (bind_ok _ _ _ _ _ E1). eexists s1, _. split; [reflexivity|]. exists a1. split; [exact H1|].
      apply (all_put_same a ts ms b i u); [exact A|rewrite U; reflexivity|exact T1|exact O1].
  - destruct (table_at a ts ms b j m A J) as (v & V & T). rewrite (bind_ok _ _ _ _ _ (get_ok ts j v s V)). assert (i <> j) as N by congruence.
    eexists s, _. split; [reflexivity|]. exists a. split; [exact H|]. cbn [fst snd].
    assert (all a (<[i := empty_umap 1]> ts) (<[i := ∅]> ms) b) as A1 by (apply empty_rest; [exact A|lia|apply (all_none _ _ _ _ _ A), I]).
    pose proof (all_swap a _ _ b i j (empty_umap 1) v ∅ m A1 (lookup_insert _ _ _) (eq_trans (lookup_insert_ne _ _ _ _ N) V) (lookup_insert _ _ _) (eq_trans (lookup_insert_ne _ _ _ _ N) J)) as A2.
    rewrite !insert_insert in A2. rewrite (insert_commute ts), (insert_commute ms) in A2 by congruence. exact A2.
  - destruct (table_at a ts ms b i m' A I) as (u & U & T). destruct (table_at a ts ms b j m A J) as (v & V & W).
    rewrite (bind_ok _ _ _ _ _ (get_ok ts i u s U)), (bind_ok _ _ _ _ _ (get_ok ts j v s V)).
    destruct (does_elim d _ _ _ (hdestroy_ok d Hwf s a u m' H T)) as ([] & s1 & a1 & E1 & H1 & ->).
    assert (hmove_assign d u v s = Ok (v, empty_umap 1) s1) as E2 by (unfold hmove_assign; rewrite (bind_ok _ _ _ _ _ E1); reflexivity).
    rewrite (bind_ok _ _ _ _ _ E2). eexists s1, _. split; [reflexivity|]. exists (others u a). split; [exact H1|]. cbn [fst snd].
    pose proof (destroyed a ts ms b i u m' 1 A U T ltac:(lia)) as A1.
    pose proof (all_swap _ _ _ b i j (empty_umap 1) v ∅ m A1 (lookup_insert _ _ _) (eq_trans (lookup_insert_ne _ _ _ _ N) V) (lookup_insert _ _ _) (eq_trans (lookup_insert_ne _ _ _ _ N) J)) as A2.
    rewrite !insert_insert in A2. rewrite (insert_commute ts), (insert_commute ms) in A2 by congruence. exact A2.
  - destruct (table_at a ts ms b i m' A I) as (u & U & T). destruct (table_at a ts ms b j m A J) as (v & V & W).
    rewrite (bind_ok _ _ _ _ _ (get_ok ts i u s U)), (bind_ok _ _ _ _ _ (get_ok ts j v s V)). eexists s, _. split; [reflexivity|]. exists a. split; [exact H|]. cbn [fst snd].
    apply all_swap; assumption.
  - destruct (table_at a ts ms b i m A I) as (u & U & T). rewrite (bind_ok _ _ _ _ _ (get_ok ts i u s U)).
    destruct (does_elim d _ _ _ (hdestroy_ok d Hwf s a u m H T)) as ([] & s1 & a1 & E1 & H1 & ->). rewrite (bind_ok _ _ _ _ _ E1).
    eexists s1, _. split; [reflexivity|]. exists (others u a). split; [exact H1|].
    pose proof (all_delete _ _ _ b i (empty_umap 1) (destroyed a ts ms b i u m 1 A U T ltac:(lia)) (lookup_insert _ _ _) eq_refl) as A1.
    rewrite !delete_insert_delete in A1. exact A1.
Qed.
Lemma trun_ok cs : forall s ts x rs y, hold d s ts (fst x) (snd x) -> tspecs cs x rs y ->
  exists s' ts', trun d mdiff grow cs ts s = Ok (rs, ts') s' /\ hold d s' ts' (fst y) (snd y).
Proof.
  induction cs as [|c cs IH]; intros s ts x rs y H Hs; inversion Hs as [|? ? ? r z rs' ? Hc Hcs]; subst; cbn [trun].
  - exists s, ts. split; [reflexivity|exact H].
  - destruct (tdo_ok c s ts x r z H Hc) as (s1 & ts1 & E1 & H1). destruct (IH s1 ts1 z rs' y H1 Hcs) as (s2 & ts2 & E2 & H2). exists s2, ts2. split; [|exact H2].
    rewrite (bind_ok _ _ _ _ _ E1). cbn [fst snd]. rewrite (bind_ok _ _ _ _ _ E2). reflexivity.
Qed.
(** When no table and no String is left, neither is memory. *)
Lemma hold_none s : hold d s ∅ ∅ ∅ -> st_heap s = ∅.
Proof.
  intros (a & H & A). assert (a = ∅) as ->; [|exact (no_leak d s Hwf H)]. apply map_empty. intros x. destruct (a !! x) as [y|] eqn:E; [|reflexivity].
  exfalso. assert ((∅ : astate Z) !! x = Some y) as F; [|rewrite lookup_empty in F; discriminate]. apply (all_rest _ _ _ _ _ A). split; [exact E|]. intros i u I. rewrite lookup_empty in I. discriminate.
Qed.
End Proof.
Lemma hcopy_assign_safe d : wf_desc d -> forall fails s a u m v w, reached d s a -> tab d a u m -> tab d a v w -> apart u v ->
  u_n u = u_n v -> u_count v <= u_count u ->
  does d (hcopy_assign d false fails u v) s (fun r a' => fst r = true /\ tab d a' (snd r) w /\ tab d a' v w /\ others (snd r) a' = others u a) (fun _ => False).
Proof.
  intros Hwf fails s a u m v w H T V Ap En Ec. pose proof (hcopy_assign_ok d Hwf (fun _ _ => None) fails s a u m v w H T V Ap) as D.
  apply (does_elim d) in D as (r & s1 & a1 & E1 & H1 & P). apply (does_ok d Hwf _ s s1 a1 r); [exact E1|exact H1|]. destruct (fst r) eqn:Er; [auto|].
  exfalso. destruct P as (_ & [X|X] & _); [contradiction|]. rewrite <- (tab_count _ _ _ _ T), <- (tab_count _ _ _ _ V) in X. lia.
Qed.
