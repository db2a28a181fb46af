(** Proofs about erasing. *)
From Coq Require Import ZifyBool.
From Verif Require Import Base RcaSpec RcaModel RcaExec RcaInv RcaOwn RcaRel RcaMeet RcaMain RcaReach CleanseSpec CleanseModel.
Open Scope Z_scope.

(** The bytes written depend on address, counter and size only. *)
Fixpoint pattern (n : nat) (addr i ctr : Z) : list Z * Z :=
  match n with
  | O => ([], ctr)
  | S n' => let r := pattern n' addr (i + 1) ((ctr + (17 + (addr + i + 1) mod 16)) mod 256) in (ctr :: fst r, snd r)
  end.
Lemma pattern_length n : forall addr i ctr, length (fst (pattern n addr i ctr)) = n.
Proof. induction n as [|n IH]; intros; [reflexivity|]. cbn. rewrite IH. reflexivity. Qed.
Lemma pattern_bytes n : forall addr i ctr, 0 <= ctr < 256 ->
  Forall (fun b => 0 <= b < 256) (fst (pattern n addr i ctr)) /\ 0 <= snd (pattern n addr i ctr) < 256.
Proof.
  induction n as [|n IH]; intros addr i ctr C; cbn [pattern fst snd]; [split; [constructor|exact C]|].
  destruct (IH addr (i + 1) ((ctr + (17 + (addr + i + 1) mod 16)) mod 256)) as [A B]; [apply Z.mod_pos_bound; reflexivity|].
  split; [constructor; [exact C|exact A]|exact B].
Qed.
Lemma wipe_eq n : forall addr done ctr rest, length rest = n ->
  wipe n addr (zlen done) ctr (done ++ rest) =
  (done ++ map Some (fst (pattern n addr (zlen done) ctr)), snd (pattern n addr (zlen done) ctr)).
Proof.
  induction n as [|n IH]; intros addr done ctr rest L; cbn [wipe pattern fst snd map].
  - destruct rest; [reflexivity|discriminate].
  - destruct rest as [|e rest]; [discriminate|]. cbn in L. injection L as L.
    assert (zupd (zlen done) [Some ctr] (done ++ e :: rest) = (done ++ [Some ctr]) ++ rest) as ->.
    { unfold zupd. rewrite ztake_app_exact, zdrop_app. rewrite (zdrop_all (zlen done + zlen [Some ctr]) done) by (change (zlen [Some ctr]) with 1; lia).
      change (zlen [Some ctr]) with 1. replace (zlen done + 1 - zlen done) with 1 by lia. rewrite <- app_assoc. reflexivity. }
    assert (zlen done + 1 = zlen (done ++ [Some ctr])) as Q by (rewrite zlen_app; reflexivity).
    rewrite Q. rewrite IH by exact L. rewrite <- Q, <- app_assoc. reflexivity.
Qed.
Definition final_ctr (addr ctr : Z) (n : nat) : Z :=
  let r := pattern n addr 0 ctr in if memchr (snd r) (map Some (fst r)) then (snd r + (63 + (addr + Z.of_nat n))) mod 256 else snd r.
Lemma cleanse_bytes {S} addr ctr buf (s : S) : buf <> [] ->
  cleanse addr ctr buf s = Ok (map Some (fst (pattern (length buf) addr 0 ctr)), final_ctr addr ctr (length buf)) s.
Proof.
  intros N. unfold cleanse. pose proof (wipe_eq (length buf) addr [] ctr buf eq_refl) as W. cbn [app] in W. change (zlen []) with 0 in W. rewrite W.
  destruct (zlen buf =? 0) eqn:E; [destruct N; apply zlen_0_nil; lia|]. reflexivity.
Qed.
Lemma cleanse_same {S} addr ctr buf1 buf2 (s : S) : buf1 <> [] -> zlen buf1 = zlen buf2 -> 0 <= ctr < 256 ->
  exists out ctr', cleanse addr ctr buf1 s = Ok (map Some out, ctr') s /\ cleanse addr ctr buf2 s = Ok (map Some out, ctr') s /\
  zlen out = zlen buf1 /\ Forall (fun b => 0 <= b < 256) out /\ 0 <= ctr' < 256.
Proof.
  intros N L C. assert (length buf1 = length buf2) as L' by (unfold zlen in L; lia).
  eexists _, _. split; [apply cleanse_bytes, N|]. split; [rewrite L'; apply cleanse_bytes; intros ->; destruct buf1; [contradiction|discriminate]|].
  split; [unfold zlen; rewrite pattern_length; reflexivity|]. destruct (pattern_bytes (length buf1) addr 0 ctr C) as [A B]. split; [exact A|].
  unfold final_ctr. destruct (memchr _ _); [apply Z.mod_pos_bound; reflexivity|exact B].
Qed.

Lemma memchr_in c l : memchr c (map Some l) = true <-> In c l.
Proof.
  induction l as [|b l IH]; cbn [map memchr In]; [split; [discriminate|tauto]|]. rewrite orb_true_iff, IH, Z.eqb_eq. reflexivity.
Qed.
Lemma strides_S p i : strides p (S i) = strides p i + (17 + (p + Z.of_nat (S i)) mod 16).
Proof.
  unfold strides. rewrite seq_S, map_app. generalize (map (fun j => 17 + (p + Z.of_nat j) mod 16) (seq 1 i)). intros l.
  induction l as [|z l IH]; cbn [app map fold_right] in *; [change (1 + i)%nat with (S i); lia|]. rewrite IH. lia.
Qed.
Lemma pattern_closed n : forall addr i ctr c0, ctr = (c0 + strides addr i) mod 256 ->
  pattern n addr (Z.of_nat i) ctr = (map (fun j => (c0 + strides addr j) mod 256) (seq i n), (c0 + strides addr (i + n)) mod 256).
Proof.
  induction n as [|n IH]; intros addr i ctr c0 C; cbn [pattern seq map].
  - rewrite Nat.add_0_r, C. reflexivity.
  - replace (Z.of_nat i + 1) with (Z.of_nat (S i)) by lia.
    rewrite (IH addr (S i) _ c0).
    + cbn [fst snd]. rewrite C. replace (S i + n)%nat with (i + S n)%nat by lia. reflexivity.
    + rewrite C, strides_S, Zplus_mod_idemp_l. f_equal. lia.
Qed.
Lemma cleanse_exact {S} addr ctr buf (s : S) : buf <> [] -> 0 <= ctr < 256 ->
  exists ctr', cleanse addr ctr buf s = Ok (map (fun i => Some ((ctr + strides addr i) mod 256)) (seq 0 (length buf)), ctr') s /\
  let c := (ctr + strides addr (length buf)) mod 256 in
  (In c (map (fun i => (ctr + strides addr i) mod 256) (seq 0 (length buf))) -> ctr' = (c + 63 + addr + zlen buf) mod 256) /\
  (~ In c (map (fun i => (ctr + strides addr i) mod 256) (seq 0 (length buf))) -> ctr' = c).
Proof.
  intros N C. exists (final_ctr addr ctr (length buf)). rewrite cleanse_bytes by exact N. unfold final_ctr.
  change 0 with (Z.of_nat 0). rewrite (pattern_closed (length buf) addr 0 ctr ctr); [|unfold strides; cbn; rewrite Z.add_0_r, Z.mod_small by exact C; reflexivity].
  cbn [fst snd]. split; [rewrite map_map; reflexivity|]. cbv zeta. change (0 + length buf)%nat with (length buf).
  rewrite <- memchr_in. destruct (memchr _ _).
  - split; [intros _; unfold zlen; f_equal; lia|intros X; destruct X; reflexivity].
  - split; [discriminate|reflexivity].
Qed.

Arguments cleanse : simpl never.
Arguments destroy : simpl never.
Arguments pattern : simpl never.
Arguments final_ctr : simpl never.
Ltac lk := repeat first [ rewrite lookup_insert | match goal with H : _ !! _ = Some _ |- _ => rewrite H | H : o_ref _ = _ |- _ => rewrite H | H : d_nul _ = _ |- _ => rewrite H end ].
Ltac sx := repeat first [ progress lk | progress change (1 - 1 <? 1) with true | progress change (1 =? 1) with true | progress cbn ].
Ltac open_all := unfold destroy_bytes, destroy, cleanse_if_last, check_dealloc, dec_ref, delete_cell, rcount, capacity, get_obj, get_cell, set_cell, set_obj,
  del_obj, with_heap, with_env, bind, ret in *.

Section Destroy.
Variable d : desc Z.
Variables (s : state Z) (a : astate Z) (x : var) (av : aval Z).
Hypothesis Hwf : wf_desc d.
Hypothesis Hre : reached d s a.
Hypothesis Hx : a !! x = Some av.

Lemma obj_of : exists o, st_env s !! x = Some o /\ (forall l, o_ref o = Some l -> exists c, st_heap s !! l = Some c /\ 0 < c_refs c).
Proof.
  pose proof (reached_R d s a Hwf Hre) as HR. destruct (R_lookup d s a x _ HR Hx) as (o & Ho & _).
  exists o. split; [exact Ho|]. intros l Hl. destruct HR as [[Hc Hob] _]. destruct (Hob x o Ho l Hl) as (c & Hcl & _).
  exists c. split; [exact Hcl|]. apply (Hc l c Hcl).
Qed.
End Destroy.
Lemma last_run addr ctr x (s : state Z) o l c : st_env s !! x = Some o -> o_ref o = Some l -> st_heap s !! l = Some c -> c_refs c = 1 -> c_buf c <> [] ->
  destroy_bytes addr ctr x s = Ok (final_ctr (addr l) ctr (length (c_buf c))) (State (delete l (st_heap s)) (delete x (st_env s)) (st_next s) (st_tick s)
    (map Some (fst (pattern (length (c_buf c)) (addr l) 0 ctr)) :: st_freed s)).
Proof.
  intros Ho El Hl Rc N. open_all. sx. rewrite Rc. sx. rewrite cleanse_bytes by exact N. sx. rewrite Rc. sx.
  rewrite ?insert_insert, ?delete_insert_delete. reflexivity.
Qed.
Lemma shared_run addr ctr x (s : state Z) o : st_env s !! x = Some o ->
  (forall l, o_ref o = Some l -> exists c, st_heap s !! l = Some c /\ 1 < c_refs c) ->
  destroy_bytes addr ctr x s = Ok ctr (State (match o_ref o with Some l => alter (fun c => Cell (c_buf c) (c_gen c) (c_refs c - 1)) l (st_heap s) | None => st_heap s end)
    (delete x (st_env s)) (st_next s) (st_tick s) (st_freed s)).
Proof.
  intros Ho Hc. destruct (o_ref o) as [l|] eqn:El.
  - destruct (Hc l eq_refl) as (c & Hl & Pc). open_all. sx. destruct (c_refs c =? 1) eqn:E1; [lia|]. sx.
    destruct (c_refs c - 1 <? 1) eqn:E2; [lia|]. cbn. do 2 f_equal. apply map_eq. intros l'.
    destruct (decide (l = l')) as [<-|Ne]; [rewrite lookup_insert, lookup_alter, Hl; reflexivity|rewrite lookup_insert_ne, lookup_alter_ne by exact Ne; reflexivity].
  - open_all. sx. reflexivity.
Qed.
(** The last owner: the released buffer holds the pattern. *)
Lemma destroy_last d s a x v addr ctr n : wf_desc d -> reached d s a -> a !! x = Some v ->
  rcount x s = Ok 1 s -> capacity x s = Ok (Z.of_nat n) s -> n <> O ->
  exists l s', destroy_bytes addr ctr x s = Ok (final_ctr (addr l) ctr n) s' /\
  st_freed s' = map Some (fst (pattern n (addr l) 0 ctr)) :: st_freed s /\
  (exists o, st_env s !! x = Some o /\ o_ref o = Some l) /\ st_heap s' = delete l (st_heap s) /\ st_env s' = delete x (st_env s).
Proof.
  intros Hwf Hre Hx Rc Cp N. destruct (obj_of d s a x v Hwf Hre Hx) as (o & Ho & Hc). unfold rcount, capacity, bind, get_obj in Rc, Cp. rewrite Ho in Rc, Cp.
  destruct (o_ref o) as [l|] eqn:El; [|discriminate]. destruct (Hc l eq_refl) as (c & Hl & _). unfold get_cell in Rc, Cp. rewrite Hl in Rc, Cp.
  injection Rc as Rc. injection Cp as Cp. assert (n = length (c_buf c)) as -> by (unfold zlen in Cp; lia).
  exists l. eexists. split; [apply (last_run addr ctr x s o l c Ho El Hl Rc); intros E; apply N; rewrite E; reflexivity|].
  cbn [st_freed st_heap st_env]. eauto 10.
Qed.
(** Another owner is left: nothing is released or overwritten. *)
Lemma destroy_shared d s a x v addr ctr : wf_desc d -> reached d s a -> a !! x = Some v -> rcount x s <> Ok 1 s ->
  exists s', destroy_bytes addr ctr x s = Ok ctr s' /\ st_freed s' = st_freed s /\ st_env s' = delete x (st_env s) /\
  forall l, option_map c_buf (st_heap s' !! l) = option_map c_buf (st_heap s !! l).
Proof.
  intros Hwf Hre Hx Rc. destruct (obj_of d s a x v Hwf Hre Hx) as (o & Ho & Hc). unfold rcount, bind, get_obj in Rc. rewrite Ho in Rc.
  eexists. split; [apply (shared_run addr ctr x s o Ho)|].
  - intros l El. destruct (Hc l El) as (c & Hl & Pc). exists c. split; [exact Hl|]. rewrite El in Rc. unfold get_cell in Rc. rewrite Hl in Rc.
    destruct (decide (c_refs c = 1)) as [E|E]; [destruct Rc; rewrite E; reflexivity|lia].
  - cbn. split; [reflexivity|]. split; [reflexivity|]. intros l. destruct (o_ref o) as [l'|]; [|reflexivity].
    destruct (decide (l' = l)) as [<-|Ne]; [rewrite lookup_alter; destruct (st_heap s !! l'); reflexivity|rewrite lookup_alter_ne by exact Ne; reflexivity].
Qed.
(** Two runs that differ only in the contents of the buffer being destroyed. *)
Lemma destroy_blind s1 s2 x l addr ctr : 
  differ_in l s1 s2 -> (exists o, st_env s1 !! x = Some o /\ o_ref o = Some l) -> rcount x s1 = Ok 1 s1 -> capacity x s1 <> Ok 0 s1 ->
  exists ctr' s', destroy_bytes addr ctr x s1 = Ok ctr' s' /\ destroy_bytes addr ctr x s2 = Ok ctr' s'.
Proof.
  intros D (o & Ho & El) Rc Cp. destruct D as (De & Dn & Dt & Df & Dh & b1 & b2 & g & n & L1 & L2 & Lb).
  assert (n = 1) as -> by (unfold rcount, bind, get_obj, get_cell in Rc; rewrite Ho, El, L1 in Rc; injection Rc as ->; reflexivity).
  assert (b1 <> []) as N1.
  { intros ->. apply Cp. unfold capacity, bind, get_obj, get_cell. rewrite Ho, El, L1. reflexivity. }
  assert (b2 <> []) as N2 by (intros ->; apply N1, zlen_0_nil; exact Lb).
  assert (length b1 = length b2) as Lb' by (unfold zlen in Lb; lia).
  destruct s1 as [h1 e1 n1 t1 f1], s2 as [h2 e2 n2 t2 f2]; cbn in *. subst e2 n2 t2 f2.
  assert (delete l h1 = delete l h2) as Hd.
  { apply map_eq. intros l'. destruct (decide (l = l')) as [<-|Ne]; [rewrite !lookup_delete; reflexivity|rewrite !lookup_delete_ne by exact Ne; apply Dh; congruence]. }
  eexists _, _. split; [apply (last_run addr ctr x (State h1 e1 n1 t1 f1) o l _ Ho El L1 eq_refl N1)|].
  rewrite (last_run addr ctr x (State h2 e1 n1 t1 f1) o l _ Ho El L2 eq_refl N2). cbn. rewrite Lb', Hd. reflexivity.
Qed.
(** The bytes are the only difference to the destructor of the heap model. *)
Lemma destroy_abstract d s a x v addr ctr : wf_desc d -> is_Some (d_nul d) -> reached d s a -> a !! x = Some v ->
  (rcount x s = Ok 1 s -> capacity x s <> Ok 0 s) ->
  exists ctr' s1 s2, destroy_bytes addr ctr x s = Ok ctr' s1 /\ destroy d x s = Ok tt s2 /\ st_heap s1 = st_heap s2 /\ st_env s1 = st_env s2 /\
  st_next s1 = st_next s2 /\ st_tick s1 = st_tick s2 /\ map zlen (st_freed s1) = map zlen (st_freed s2).
Proof.
  intros Hwf [z Hz] Hre Hx Hcap. destruct (obj_of d s a x v Hwf Hre Hx) as (o & Ho & Hc).
  destruct (o_ref o) as [l|] eqn:El.
  - destruct (Hc l eq_refl) as (c & Hl & Pc). destruct (c_refs c =? 1) eqn:E1.
    + eexists _, _, _. split; [apply (last_run addr ctr x s o l c Ho El Hl); [lia|]|].
      * intros E. unfold rcount, capacity, bind, get_obj, get_cell in Hcap. rewrite Ho, El, Hl in Hcap. apply Hcap; [unfold ret; f_equal; lia|rewrite E; reflexivity].
      * split; [open_all; rewrite Hz; sx; rewrite E1; sx; assert (c_refs c = 1) as -> by lia; sx; reflexivity|].
        cbn. split; [rewrite !insert_insert, !delete_insert_delete; reflexivity|]. split; [rewrite ?delete_insert_delete; reflexivity|]. do 2 (split; [reflexivity|]).
        f_equal. rewrite zlen_map, zlen_zrep by apply zlen_nonneg. unfold zlen. rewrite pattern_length. lia.
    + eexists _, _, _. split; [apply (shared_run addr ctr x s o Ho)|].
      * intros l' E'. rewrite El in E'. injection E' as <-. exists c. split; [exact Hl|lia].
      * rewrite El. split; [open_all; rewrite Hz; sx; rewrite E1; sx; destruct (c_refs c - 1 <? 1) eqn:E2; [lia|]; sx; reflexivity|].
        cbn. split; [|auto]. apply map_eq. intros l'.
        destruct (decide (l = l')) as [<-|Ne]; [rewrite lookup_insert, lookup_alter, Hl; reflexivity|rewrite lookup_insert_ne, lookup_alter_ne by exact Ne; reflexivity].
  - eexists _, _, _. split; [apply (shared_run addr ctr x s o Ho); intros l' E'; congruence|].
    rewrite El. split; [open_all; rewrite Hz; sx; reflexivity|]. auto 10.
Qed.

(** Programs of quiet calls. *)
Section Quiet.
Context {T : Type} (d : desc T).
Notation St := (state T).
Notation Mm := (M St).
Definition kp {A} (m : Mm A) (s : St) : Prop :=
  match m s with Ok _ s' | Exn _ s' => exists l, st_freed s' = l ++ st_freed s /\ Forall erased l | _ => True end.
Definition nf {A} (m : Mm A) : Prop := forall s, match m s with Ok _ s' | Exn _ s' => st_freed s' = st_freed s | _ => True end.
Lemma nf_kp {A} (m : Mm A) s : nf m -> kp m s.
Proof. intros H. specialize (H s). unfold kp. destruct (m s); try exact I; exists []; auto. Qed.
Lemma nf_bind {A B} (m : Mm A) (k : A -> Mm B) : nf m -> (forall v, nf (k v)) -> nf (let* v := m in k v).
Proof.
  intros Hm Hk s. unfold bind. specialize (Hm s). destruct (m s) as [v s'| | | |]; try exact I; [|exact Hm].
  specialize (Hk v s'). destruct (k v s'); try exact I; congruence.
Qed.
Lemma kp_bind {A B} (m : Mm A) (k : A -> Mm B) s : kp m s -> (forall v, nf (k v)) -> kp (let* v := m in k v) s.
Proof.
  intros Hm Hk. unfold kp, bind in *. destruct (m s) as [v s'| | | |]; try exact I; [|exact Hm].
  specialize (Hk v s'). destruct (k v s'); try exact I; rewrite Hk; exact Hm.
Qed.
Lemma nf_ret {A} (v : A) : nf (ret v). Proof. intros s. reflexivity. Qed.
Lemma nf_undef {A} u : nf (undef u : Mm A). Proof. intros s. exact I. Qed.
Lemma nf_throw {A} e : nf (throw e : Mm A). Proof. intros s. reflexivity. Qed.
Lemma nf_get_obj x : nf (get_obj (T:=T) x). Proof. intros s. unfold get_obj. destruct (_ !! _); reflexivity. Qed.
Lemma nf_set_obj x o : nf (set_obj (T:=T) x o). Proof. intros s. reflexivity. Qed.
Lemma nf_new_obj x o : nf (new_obj (T:=T) x o). Proof. intros s. unfold new_obj. destruct (_ !! _); reflexivity. Qed.
Lemma nf_del_obj x : nf (del_obj (T:=T) x). Proof. intros s. reflexivity. Qed.
Lemma nf_get_cell l : nf (get_cell (T:=T) l). Proof. intros s. unfold get_cell. destruct (_ !! _); reflexivity. Qed.
Lemma nf_set_cell l c : nf (set_cell (T:=T) l c). Proof. intros s. reflexivity. Qed.
Lemma nf_fuel {A} : nf (fun _ => Fuel : res St A). Proof. intros s. exact I. Qed.
Ltac nf := repeat first
  [ apply nf_ret | apply nf_undef | apply nf_throw | apply nf_get_obj | apply nf_set_obj | apply nf_new_obj | apply nf_del_obj
  | apply nf_get_cell | apply nf_set_cell | apply nf_fuel
  | match goal with
    | |- nf (let* v := _ in _) => apply nf_bind; [|intros ?]
    | |- nf (if ?b then _ else _) => destruct b
    | |- nf (match ?e with _ => _ end) => destruct e
    end ].
Lemma nf_length x : nf (length_of (T:=T) x). Proof. unfold length_of. nf. Qed.
Lemma nf_is_shared x : nf (is_shared (T:=T) x). Proof. unfold is_shared. nf. Qed.
Lemma nf_inc r : nf (inc_ref (T:=T) r). Proof. unfold inc_ref. nf. Qed.
Lemma nf_dec r : nf (dec_ref (T:=T) r). Proof. unfold dec_ref. nf. Qed.
Lemma nf_load x p n : nf (load (T:=T) x p n). Proof. unfold load. nf. Qed.
Lemma nf_load1 x p : nf (load1 (T:=T) x p). Proof. unfold load1. apply nf_bind; [apply nf_load|]. intros. nf. Qed.
Lemma nf_store x p es : nf (store (T:=T) x p es). Proof. unfold store. nf. Qed.
Lemma nf_set_len x n : nf (set_len (T:=T) x n). Proof. unfold set_len. nf. Qed.
Lemma nf_sub_length x n : nf (sub_length (T:=T) x n). Proof. unfold sub_length. nf. Qed.
Lemma nf_validate x p : nf (validate_index (T:=T) x p). Proof. unfold validate_index. apply nf_bind; [apply nf_length|]. intros. nf. Qed.
Lemma nf_check_pos x p : nf (check_pos (T:=T) x p). Proof. unfold check_pos. destruct (_ =? _); [nf|apply nf_validate]. Qed.
Lemma nf_rfind fuel : forall x v i, nf (rfind_loop d fuel x v i).
Proof.
  induction fuel as [|f IH]; intros x v i; cbn [rfind_loop]; destruct (_ <=? _); try apply nf_ret; try apply nf_fuel.
  apply nf_bind; [apply nf_load1|]. intros w. destruct (d_eqb d w v); [apply nf_ret|apply IH].
Qed.
Lemma nf_ltrim sp fuel : forall x, nf (ltrim_loop (T:=T) sp fuel x).
Proof.
  induction fuel as [|f IH]; intros x; cbn [ltrim_loop]; (apply nf_bind; [apply nf_length|]; intros n; destruct (n =? 0); [apply nf_ret|];
    apply nf_bind; [apply nf_load1|]; intros w; destruct (negb _); [apply nf_ret|]); [apply nf_fuel|].
  apply nf_bind; [nf|]. intros. apply IH.
Qed.
Lemma nf_rtrim sp fuel : forall x, nf (rtrim_loop (T:=T) sp fuel x).
Proof.
  induction fuel as [|f IH]; intros x; cbn [rtrim_loop]; (apply nf_bind; [apply nf_length|]; intros n; destruct (n =? 0); [apply nf_ret|];
    apply nf_bind; [apply nf_load1|]; intros w; destruct (negb _); [apply nf_ret|]); [apply nf_fuel|].
  apply nf_bind; [apply nf_sub_length|]. intros. apply IH.
Qed.
Lemma nf_check (m : M St bool) : nf m -> nf (check d m).
Proof. intros H. unfold check. destruct (d_debug d); [|apply nf_ret]. apply nf_bind; [exact H|]. intros []; [apply nf_ret|intros s; reflexivity]. Qed.
Lemma nf_not_empty x : nf (not_empty (T:=T) x). Proof. unfold not_empty. apply nf_bind; [apply nf_length|]. intros. apply nf_ret. Qed.
Lemma nf_ends z x n : nf (ends_nul d z x n). Proof. unfold ends_nul. apply nf_bind; [apply nf_load1|]. intros. apply nf_ret. Qed.
Lemma nf_pop_back x : nf (pop_back d x).
Proof. unfold pop_back. apply nf_bind; [apply nf_check, nf_not_empty|]. intros. apply nf_sub_length. Qed.
Lemma nf_chomp1 x c : nf (chomp1 d x c).
Proof.
  unfold chomp1. apply nf_bind; [apply nf_length|]. intros n. destruct (n =? 0); [apply nf_ret|].
  apply nf_bind; [apply nf_load1|]. intros w. destruct (d_eqb d w c); [apply nf_pop_back|apply nf_ret].
Qed.
(** The buffer of a new object. *)
Lemma fresh_destroy d' x (s : St) o l g : st_env s !! x = Some o -> o_ref o = Some l -> st_heap s !! l = Some (Cell [] g 1) ->
  exists s', destroy d' x s = Ok tt s' /\ st_freed s' = [] :: st_freed s.
Proof. intros Ho El Hl. open_all. destruct (d_nul d'); sx; eexists; (split; [reflexivity|reflexivity]). Qed.
Lemma fresh_destroy0 d' x (s : St) o : st_env s !! x = Some o -> o_ref o = None -> exists s', destroy d' x s = Ok tt s' /\ st_freed s' = st_freed s.
Proof. intros Ho El. open_all. destruct (d_nul d'); sx; eexists; (split; [reflexivity|reflexivity]). Qed.
Lemma fresh_guard d' x n sc s o : st_env s !! x = Some o -> o_ref o = None -> kp (ctor_guard x (destroy d' x) (base_reserve d' x n sc)) s.
Proof.
  intros Ho Er. unfold kp, ctor_guard, base_reserve, new_cell, try_alloc, aref_reserve, bind, get_obj, get_cell, set_obj, ret. cbv beta. rewrite Ho. cbn. rewrite Er. cbn.
  match goal with |- context [d_oom ?a ?b || ?c] => destruct (d_oom a b || c) eqn:E0 end.
  { match goal with |- context [destroy d' x ?s'] => destruct (fresh_destroy0 d' x s' o Ho Er) as (s2 & -> & ->) end. exists []. auto. }
  cbn. rewrite lookup_insert. cbn. change (zlen []) with 0.
  destruct (0 <? n) eqn:En.
  - unfold try_alloc. cbn. match goal with |- context [?a || ?b] => destruct (a || b) eqn:E1 end.
    + match goal with |- context [destroy d' x ?s'] => destruct (fresh_destroy d' x s' (Obj (Some (st_next s)) (o_off o) (o_len o) (o_hash o)) (st_next s) 0) as (s2 & -> & ->) end;
        [apply lookup_insert|reflexivity|apply lookup_insert|]. cbn. exists [[]]. split; [reflexivity|repeat constructor].
    + destruct (_ <? o_len o); [exact I|]. destruct (d_class d' && (0 <? o_len o)); [exact I|]. cbn. exists []. auto.
  - destruct (u64 (0 - o_off o) <? n) eqn:E2.
    + pose proof (u64_range (0 - o_off o)). lia.
    + cbn. exists []. auto.
Qed.
Lemma kp_sized x n s : kp (ctor_sized d x n) s.
Proof.
  unfold ctor_sized, kp, bind, ctor_default, new_obj. destruct (st_env s !! x); [exact I|]. cbn.
  destruct (n =? 0).
  - cbn. exists []. auto.
  - pose proof (fresh_guard (base_desc d) x n (fun z => z) (with_env s (<[x:=obj_empty]> (st_env s))) obj_empty (lookup_insert _ _ _) eq_refl) as H.
    unfold kp in H. cbn [st_freed with_env] in H. exact H.
Qed.
Lemma nf_clear x : nf (clear (T:=T) x).
Proof. unfold clear. apply nf_bind; [apply nf_is_shared|]. intros b. destruct b; [unfold do_detach; nf; apply nf_dec|nf]. Qed.
Lemma nf_slice x p n : nf (slice (T:=T) x p n).
Proof. unfold slice. apply nf_bind; [apply nf_get_obj|]. intros o. apply nf_bind; [nf|]. intros _. nf. Qed.

(** One quiet call. *)
Lemma quiet_step s o : is_Some (d_nul d) -> Inv d s -> quiet o -> kp (exec d o) s.
Proof.
  intros [z Hz] HI Q. destruct o; cbn in Q; try contradiction; cbn [exec]; unfold unit_, val_, int_, with_nul; rewrite ?Hz.
  - apply nf_kp, nf_bind; [|intros; apply nf_ret]. apply nf_new_obj.
  - apply nf_kp, nf_bind; [|intros; apply nf_ret]. unfold ctor_copy. nf. apply nf_inc.
  - apply nf_kp, nf_bind; [|intros; apply nf_ret]. unfold ctor_move. nf.
  - apply kp_bind; [apply kp_sized|intros; apply nf_ret].
  - apply kp_bind; [|intros; apply nf_ret]. unfold ctor_list. apply kp_bind; [apply kp_sized|]. intros _. apply nf_bind; [apply nf_store|]. intros; apply nf_set_len.
  - apply kp_bind; [|intros; apply nf_ret]. unfold ctor_cstr, kp, bind, ctor_default, new_obj. destruct (st_env s !! x); [exact I|].
    destruct (cstrlen d z mem (with_env s (<[x:=obj_empty]> (st_env s)))) as [n s1|e s1| | |u] eqn:E;
      unfold cstrlen in E; destruct (strlen_from d z mem 0); try discriminate; try exact I. injection E as <- <-.
    destruct (_ =? 0); [cbn; exists []; auto|]. unfold set_len, bind, get_obj. cbn [st_env with_env]. rewrite lookup_insert. cbn [set_obj].
    set (s2 := with_env _ _).
    assert (st_env s2 !! x = Some (Obj None 0 z0 0)) as H2 by apply lookup_insert.
    pose proof (fresh_guard d x (u64 (z0 + 1)) (fun z => z) s2 _ H2 eq_refl) as G. unfold kp in G. cbn [st_freed] in G.
    destruct (ctor_guard _ _ _ s2) as [v s3|e s3| | |u]; try exact I; [|exact G].
    unfold mem_read. destruct (_ <=? _); [|exact I]. cbn [ret].
    pose proof (nf_store x 0 (map Some (ztake (z0 + 1) mem)) s3) as N. destruct (store x 0 _ s3) as [u4 s4|? ?| | |?]; try exact I; [|rewrite N; exact G].
    pose proof (nf_check _ (nf_ends z x z0) s4) as N4. destruct (check d _ s4); try exact I; rewrite N4, N; exact G.
  - apply kp_bind; [|intros; apply nf_ret]. unfold ctor_cstrlen. apply kp_bind; [apply kp_sized|]. intros _.
    apply nf_bind; [unfold mem_read; nf|]. intros es. apply nf_bind; [apply nf_store|]. intros _. apply nf_bind; [apply nf_store|]. intros _. apply nf_set_len.
  - apply kp_bind; [|intros; apply nf_ret]. unfold ctor_char, kp, bind at 1, ctor_default, new_obj. destruct (st_env s !! x); [exact I|].
    pose proof (fresh_guard d x 2 (fun z => z) (with_env s (<[x:=obj_empty]> (st_env s))) obj_empty (lookup_insert _ _ _) eq_refl) as G.
    apply (kp_bind (ctor_guard x (destroy d x) (base_reserve d x 2 (fun z => z)))
      (fun _ => store x 0 [Some v] ;;; store x 1 [Some z] ;;; set_len x 1)) in G.
    + unfold kp in G. exact G.
    + intros _. apply nf_bind; [apply nf_store|]. intros _. apply nf_bind; [apply nf_store|]. intros _. apply nf_set_len.
  - apply kp_bind; [|intros; apply nf_ret].
    destruct (st_env s !! x) as [o|] eqn:Ho.
    2: { unfold kp, destroy, cleanse_if_last. rewrite Hz. unfold bind, get_obj. rewrite Ho. exact I. }
    destruct (o_ref o) as [l|] eqn:El.
    + destruct HI as [Hc Hob]. destruct (Hob x o Ho l El) as (c & Hl & _). pose proof (ck_pos _ _ _ _ (Hc l c Hl)) as Pc. clear Hc Hob.
      destruct (c_refs c =? 1) eqn:E1.
      * unfold kp. open_all. sx. rewrite E1. sx. assert (c_refs c = 1) as -> by lia. sx.
        exists [zrep (zlen (c_buf c)) None]. split; [reflexivity|]. constructor; [|constructor].
        unfold erased, zrep. apply Forall_forall. intros e I. apply repeat_spec in I. exact I.
      * unfold kp. open_all. sx. rewrite E1. sx. destruct (c_refs c - 1 <? 1) eqn:E2; [lia|]. cbn. exists []. auto.
    + unfold kp. open_all. sx. exists []. auto.
  - apply nf_kp, nf_bind; [|intros; apply nf_ret]. unfold swap. nf.
  - apply nf_kp, nf_bind; [|intros; apply nf_ret]. apply nf_clear.
  - apply nf_kp, nf_bind; [|intros; apply nf_ret]. apply nf_slice.
  - apply nf_kp, nf_bind; [|intros; apply nf_ret]. apply nf_load1.
  - apply nf_kp, nf_bind; [|intros; apply nf_ret]. unfold at_. apply nf_bind; [apply nf_validate|]. intros; apply nf_load1.
  - apply nf_kp, nf_bind; [|intros; apply nf_ret]. apply nf_length.
  - apply nf_kp, nf_bind; [|intros; apply nf_ret]. unfold hash. apply nf_bind; [apply nf_get_obj|]. intros o. destruct (negb _); [apply nf_ret|]. apply nf_bind; [apply nf_load|]. intros. nf.
  - apply nf_kp, nf_bind; [|intros; apply nf_ret]. unfold find_item. apply nf_bind; [apply nf_check_pos|]. intros _. apply nf_bind; [apply nf_length|]. intros. apply nf_bind; [apply nf_load|]. intros. nf.
  - apply nf_kp, nf_bind; [|intros; apply nf_ret]. unfold rfind_item. apply nf_bind; [apply nf_length|]. intros. apply nf_rfind.
  - apply nf_kp, nf_bind; [|intros; apply nf_ret]. apply nf_pop_back.
  - apply nf_kp, nf_bind; [|intros; apply nf_ret]. unfold str_drop_front. nf.
  - apply nf_kp, nf_bind; [|intros; apply nf_ret]. unfold str_drop_back. apply nf_bind; [apply nf_get_obj|]. intros. nf. apply nf_sub_length.
  - apply nf_kp, nf_bind; [|intros; apply nf_ret]. unfold trim. apply nf_bind; [apply nf_length|]. intros. apply nf_bind; [apply nf_ltrim|]. intros. apply nf_rtrim.
  - apply nf_kp, nf_bind; [|intros; apply nf_ret]. unfold chomp. apply nf_bind; [apply nf_chomp1|]. intros. apply nf_chomp1.
Qed.
Lemma track1_step o s a s' a' : track1 d o (s, a) = Some (s', a') -> match exec d o s with Ok _ s1 | Exn _ s1 => s1 = s' | _ => False end.
Proof.
  unfold track1. destruct (step d o a) as [[a1 v|]|]; [| |discriminate]; destruct (exec d o s) as [w s1|[] s1| | |]; try discriminate.
  - intros [= <- _]. reflexivity.
  - destruct (subject o); [|discriminate]. destruct (target o); [destruct (length_of _ s1); [destruct (_ =? 0)|..]|]; intros [= <- _]; reflexivity.
  - intros [= <- _]. reflexivity.
Qed.
Lemma quiet_program ops : forall s a s' a', wf_desc d -> is_Some (d_nul d) -> reached d s a -> Forall erased (st_freed s) -> Forall quiet ops ->
  track d ops (s, a) = Some (s', a') -> Forall erased (st_freed s').
Proof.
  induction ops as [|o ops IH]; intros s a s' a' Hwf Hn Hre Hf Hq Ht; cbn [track] in Ht; [injection Ht as <- <-; exact Hf|].
  destruct (track1 d o (s, a)) as [[s1 a1]|] eqn:E; [|discriminate]. inversion Hq as [|? ? Q1 Q2]; subst.
  assert (reached d s1 a1) as Hre1 by (eapply (track1_reached d); eassumption).
  apply (IH s1 a1 s' a' Hwf Hn Hre1); [|exact Q2|exact Ht].
  pose proof (track1_step o s a s1 a1 E) as X. pose proof (quiet_step s o Hn (proj1 (reached_R d s a Hwf Hre)) Q1) as K. unfold kp in K.
  destruct (exec d o s) as [w s2|e s2| | |]; try contradiction; subst s2; destruct K as (l & -> & Fl); apply Forall_app; auto.
Qed.
End Quiet.
