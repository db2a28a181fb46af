(** The calls of LifeModel one by one: each keeps the invariant, whether it returns or throws. *)
From Verif Require Import RcaInv LifeModel LifeSpec LifeInv LifeStep LifeOps.
From Coq Require Import ZifyBool.
Open Scope Z_scope.

Section LC.
Context {V : Type}.
Implicit Types (s : estate V) (x y : var) (l : loc) (c : ecell V) (h : gmap loc (ecell V)) (e : gmap var obj) (nx : loc).
Notation St := (estate V).

Lemma fine_transfer h e nx x y oy a b k : fine h e nx -> e !! x = None -> e !! y = Some oy ->
  fine h (<[y := Obj None a b k]> (<[x := oy]> e)) nx.
Proof.
  intros Hf Hx Hy. assert (x <> y) as Hxy by congruence. apply (fine_env h e); [exact Hf| |].
  - intros l. assert ((<[x := oy]> e) !! y = Some oy) as Hy' by (rewrite lookup_insert_ne by exact Hxy; exact Hy).
    rewrite (count_update l _ y oy _ Hy'), count_insert by exact Hx. rewrite (ind_other l (Obj None a b k)) by discriminate. lia.
  - intros z oz Hz. destruct (decide (z = y)) as [->|Hn].
    + rewrite lookup_insert in Hz. injection Hz as <-. intros l Hl; discriminate.
    + rewrite lookup_insert_ne in Hz by congruence. destruct (decide (z = x)) as [->|Hn'].
      * rewrite lookup_insert in Hz; injection Hz as <-. exact (proj2 Hf y oy Hy).
      * rewrite lookup_insert_ne in Hz by congruence. exact (proj2 Hf z oz Hz).
Qed.
Lemma fine_swap h e nx x y ox oy : fine h e nx -> e !! x = Some ox -> e !! y = Some oy -> fine h (<[y := ox]> (<[x := oy]> e)) nx.
Proof.
  intros Hf Hx Hy. apply (fine_env h e); [exact Hf| |].
  - intros l. destruct (decide (x = y)) as [<-|Hn].
    + assert (oy = ox) as -> by congruence. rewrite insert_insert, (insert_id e x ox Hx). reflexivity.
    + assert ((<[x := oy]> e) !! y = Some oy) as Hy' by (rewrite lookup_insert_ne by exact Hn; exact Hy).
      rewrite (count_update l _ y oy ox Hy'), (count_update l _ x ox oy Hx). lia.
  - intros z oz Hz. destruct (decide (z = y)) as [->|Hn].
    + rewrite lookup_insert in Hz. injection Hz as <-. exact (proj2 Hf x ox Hx).
    + rewrite lookup_insert_ne in Hz by congruence. destruct (decide (z = x)) as [->|Hn'].
      * rewrite lookup_insert in Hz; injection Hz as <-. exact (proj2 Hf y oy Hy).
      * rewrite lookup_insert_ne in Hz by congruence. exact (proj2 Hf z oz Hz).
Qed.

(** Dropping a reference; [E] says who holds references. *)
Lemma drop_ok s x o E o' d : fine (e_heap s) E (e_next s) -> bal d s -> e_env s !! x = Some o -> E !! x = Some o' -> o_ref o' = o_ref o ->
  exists s', drop_ref x s = Ok tt s' /\ fine (e_heap s') (delete x E) (e_next s') /\ bal d s' /\ e_lost s' = e_lost s /\ e_mem s' = e_mem s /\
    (exists o2, e_env s' = <[x := o2]> (e_env s) /\ o_off o2 = o_off o /\ o_len o2 = o_len o /\
       (forall z oz, z <> x -> E !! z = Some oz -> o_ref oz = o_ref o -> o_ref o2 = o_ref o)) /\
    (forall z oz l c, z <> x -> E !! z = Some oz -> o_ref oz = Some l -> e_heap s !! l = Some c ->
       exists c', e_heap s' !! l = Some c' /\ e_buf c' = e_buf c).
Proof.
  intros Hf Hb Hx HE Hr. unfold drop_ref, bind at 1. rewrite (obj_of_ok _ _ _ Hx). destruct (o_ref o) as [l|] eqn:Er.
  - destruct (proj2 Hf x o' HE l Hr) as (c & Hc & _). destruct (proj1 Hf l c Hc) as [A1 A2 A3 A4 A5].
    set (s1 := up_heap <[l := ECell (e_buf c) (e_refs c + -1)]> s).
    assert (add_ref (Some l) (-1) s = Ok (e_refs c + -1) s1) as Ea by (unfold add_ref, bind; rewrite (cell_of_ok _ _ _ Hc); reflexivity).
    unfold bind at 1. rewrite Ea. destruct (e_refs c + -1 <? 1) eqn:E1.
    + assert (e_heap s1 !! l = Some (ECell (e_buf c) (e_refs c + -1))) as Hc1 by (cbn; apply lookup_insert).
      unfold delete_ref, bind. rewrite (cell_of_ok _ _ _ Hc1). cbn [e_buf].
      destruct (destroy_all_ok (e_buf c) s1 A3) as (s2 & -> & (S1 & S2 & S3) & G1 & G2 & G3).
      eexists. split; [reflexivity|]. cbn. rewrite S1, S2, S3, G2, app_nil_r, G3. cbn. rewrite delete_insert_delete.
      split; [apply (fine_last _ _ _ x o' l c Hf HE Hr Hc); lia|]. split; [|split; [reflexivity|split; [lia|split]]].
      * unfold bal, net in *. cbn in *. rewrite S1, G2, app_nil_r. cbn. rewrite delete_insert_delete.
        rewrite (objects_delete _ _ _ Hc), live_slots_all by exact A3. lia.
      * eexists; split; [reflexivity|]. cbn. repeat split; auto. intros z oz Hz HEz Hrz. exfalso.
        pose proof (count_ge2 l E x o' z oz (not_eq_sym Hz) HE Hr HEz Hrz). lia.
      * intros z oz l' c' Hz HEz Hrz Hc'. exists c'. rewrite lookup_delete_ne; [auto|]. intros <-.
        pose proof (count_ge2 l E x o' z oz (not_eq_sym Hz) HE Hr HEz Hrz). lia.
    + eexists. split; [reflexivity|]. cbn.
      split; [apply (fine_drop _ _ _ x o' l c Hf HE Hr Hc); lia|]. split; [|split; [reflexivity|split; [lia|split]]].
      * unfold bal, net in *. cbn in *. rewrite (objects_update _ _ _ _ Hc). cbn. lia.
      * exists o. rewrite insert_id by exact Hx. rewrite Er. auto.
      * intros z oz l' c' Hz HEz Hrz Hc'. destruct (decide (l' = l)) as [->|Hn].
        -- eexists; rewrite lookup_insert. split; [reflexivity|]. cbn; congruence.
        -- exists c'. rewrite lookup_insert_ne by congruence. auto.
  - exists s. split; [reflexivity|]. split; [apply (fine_less _ _ _ x o' Hf HE Hr)|]. split; [exact Hb|]. split; [reflexivity|]. split; [reflexivity|].
    split; [|eauto]. exists o. rewrite insert_id by exact Hx. rewrite Er. auto.
Qed.

Section WithType.
Variable t : ety V.
Notation good := (good t).

Lemma good_after d X s1 s2 s3 : good false d X s1 s2 -> good true d X s2 s3 -> good false d X s1 s3.
Proof.
  intros (A & B & C & D & E) (A' & B' & C' & D' & E'). split; [exact A'|]. split; [exact B'|]. split; [eapply fr_trans; eauto|].
  split; [|discriminate]. intros H. rewrite D', D by auto. reflexivity.
Qed.

Definition gone s x : Prop := e_env s !! x = None.
Lemma end_obj_ok s x d : winv s -> bal d s -> alive s x -> exists s', end_obj x s = Ok tt s' /\ good true d (eq x) s s' /\ gone s' x.
Proof.
  intros Hw Hb [o Hx]. destruct (drop_ok s x o (e_env s) o d Hw Hb Hx Hx eq_refl) as (s1 & E1 & F1 & B1 & L1 & M1 & (o2 & Ev & _) & H1).
  unfold end_obj, bind. rewrite E1. eexists. split; [reflexivity|]. split; [|unfold gone; cbn; apply lookup_delete].
  split; [unfold winv; cbn; rewrite Ev, delete_insert_delete; exact F1|]. split; [exact B1|]. split; [|cbn; auto].
  intros y Hy. cbn. rewrite lookup_delete_ne by exact Hy. rewrite Ev, lookup_insert_ne by exact Hy. split; [reflexivity|].
  intros oy l c Hoy Hr Hc. apply (H1 y oy l c); auto.
Qed.

(** A call about [x] that leaves it with [len] elements. *)
Definition calls (d : Z) x (len : Z) (m : M St unit) s : Prop :=
  runs m s (fun _ s' => good true d (eq x) s s' /\ stays s' x len) (fun _ s' => good false d (eq x) s s' /\ usable s' x).
Lemma calls_after d x len m s s1 : good true d (eq x) s s1 -> calls d x len m s1 ->
  runs m s1 (fun _ s' => good true d (eq x) s s' /\ stays s' x len) (fun _ s' => good false d (eq x) s s' /\ usable s' x).
Proof.
  intros G H. eapply runs_conseq; [exact H| |]; cbn beta.
  - intros _ s' (G' & U). split; [eapply good_trans; eauto|exact U].
  - intros _ s' (G' & U). split; [eapply good_trans; eauto|exact U].
Qed.
Lemma calls_bind d x len1 len m k s : calls d x len1 m s ->
  (forall s', winv s' -> bal d s' -> good true d (eq x) s s' -> stays s' x len1 -> calls d x len k s') -> calls d x len (m ;;; k) s.
Proof.
  intros Hm Hk. unfold calls. eapply runs_bind; [exact Hm|]. cbn beta. intros _ s1 (G & U).
  apply (calls_after d x len k s s1 G). apply Hk; auto; apply G.
Qed.
Lemma calls_throw d x len ex s : winv s -> bal d s -> usable s x -> calls d x len (throw ex) s.
Proof. intros; apply runs_throw; split; [apply good_refl|]; assumption. Qed.
Lemma roomy_stays s x len n : roomy s x len n -> stays s x len.
Proof. intros (o & l & c & Hx & Hr & Hl & _). exists o. repeat split; auto; intros; congruence. Qed.
Lemma stays_fr s s' x y len : fr (eq x) s s' -> x <> y -> stays s y len -> stays s' y len.
Proof. intros F Hn (o & Hy & Ho). exists o. rewrite (proj1 (F y Hn)). auto. Qed.

Lemma calls_roomy d x len n (m k : M St unit) res s : winv s -> bal d s -> roomy s x len n ->
  (forall o l c, e_env s !! x = Some o -> o_ref o = Some l -> o_len o = len -> e_heap s !! l = Some c -> 0 <= o_off o -> 0 <= len ->
     o_off o + Z.max n len <= zlen (e_buf c) -> runs m s (fun _ s' => only l s s') (fun _ s' => only l s s')) ->
  (forall s', winv s' -> bal d s' -> roomy s' x len n -> e_env s' = e_env s -> calls d x res k s') ->
  calls d x res (m ;;; k) s.
Proof.
  intros Hw Hb HR Hm Hk. destruct (roomy_ok s x len n Hw HR) as (o & l & c & Hx & Hr & Hl & Hc & H0 & H0' & Hf & Hmine).
  unfold calls. eapply runs_bind with (P' := fun _ s' => only l s s').
  - eapply runs_conseq; [exact (Hm o l c Hx Hr Hl Hc H0 H0' Hf)| |]; cbn beta; [auto|].
    intros _ s' O. split; [exact (only_good t _ _ _ _ _ _ Hw Hb Hmine O)|].
    exact (roomy_usable _ _ _ _ (roomy_touch _ _ _ _ _ _ (proj1 O) HR)).
  - cbn beta. intros _ s1 O. pose proof (only_good t true d (eq x) l s s1 Hw Hb Hmine O) as G.
    apply (calls_after d x res k s s1 G). apply Hk; [apply G|apply G|exact (roomy_touch _ _ _ _ _ _ (proj1 O) HR)|]. apply O.
Qed.
Lemma calls_put_len d x len n m s : winv s -> bal d s -> roomy s x len n -> 0 <= m <= Z.max n len -> calls d x m (put_len x m) s.
Proof.
  intros Hw Hb HR Hm. destruct (put_len_runs t s x len n m d Hw Hb HR Hm) as (s' & E & G & R).
  unfold calls, runs. rewrite E. split; [exact G|]. exact (roomy_stays _ _ _ _ R).
Qed.
Lemma stays_nonneg s x len : winv s -> stays s x len -> 0 <= len.
Proof.
  intros Hw (o & Hx & Ho & Hl). destruct (o_ref o) as [l|] eqn:Er.
  - destruct (proj2 Hw x o Hx l Er) as (c & _ & H). lia.
  - destruct (Ho Er); lia.
Qed.
(** AboutToModify, then more. *)
Lemma calls_modify d x len n k res s : winv s -> bal d s -> stays s x len -> len <= n ->
  (forall s', winv s' -> bal d s' -> good true d (eq x) s s' -> roomy s' x len n -> calls d x res k s') ->
  calls d x res (modify t x n ;;; k) s.
Proof.
  intros Hw Hb Hs Hn Hk. pose proof (stays_nonneg _ _ _ Hw Hs) as H0. destruct Hs as (o & Hx & Ho & Hl).
  unfold calls. eapply runs_bind with (P' := fun _ s' => good true d (eq x) s s' /\ roomy s' x len n).
  - eapply runs_conseq; [apply (modify_runs t x n s d o Hw Hb Hx Ho); lia| |]; cbn beta.
    + intros _ s' (G & R & _). rewrite Hl in R. auto.
    + intros _ s' (G & R & _). auto.
  - cbn beta. intros _ s1 (G & R). apply (calls_after d x res k s s1 G), Hk; auto; apply G.
Qed.
Lemma calls_modify_only d x len n s : winv s -> bal d s -> stays s x len -> len <= n -> calls d x len (modify t x n) s.
Proof.
  intros Hw Hb Hs Hn. pose proof (stays_nonneg _ _ _ Hw Hs) as H0. destruct Hs as (o & Hx & Ho & Hl).
  eapply runs_conseq; [apply (modify_runs t x n s d o Hw Hb Hx Ho); lia| |]; cbn beta.
  - intros _ s' (G & R & _). rewrite Hl in R. split; [exact G|exact (roomy_stays _ _ _ _ R)].
  - intros _ s' (G & R & _). auto.
Qed.
Lemma calls_own_copy d x len s : winv s -> bal d s -> stays s x len -> calls d x len (own_copy t x) s.
Proof.
  intros Hw Hb Hs. pose proof Hs as (o & Hx & _ & Hl). unfold own_copy, calls. eapply runs_step; [apply obj_of_ok, Hx|].
  rewrite Hl. apply (calls_modify_only d x len len s Hw Hb Hs). lia.
Qed.
Lemma calls_obj_of d x y len s o k : e_env s !! y = Some o -> calls d x len (k o) s -> calls d x len (bind (obj_of y) k) s.
Proof. intros Hy H. eapply runs_step; [apply obj_of_ok, Hy|exact H]. Qed.
Lemma calls_check d x len res pos k s : winv s -> bal d s -> stays s x len -> (pos <= len -> calls d x res k s) -> calls d x res (check x pos ;;; k) s.
Proof.
  intros Hw Hb Hs Hk. pose proof Hs as (o & Hx & _ & Hl). unfold calls, check.
  destruct (len <? pos) eqn:E.
  - eapply runs_bind with (P' := fun _ _ => False); [|intros _ ? []]. eapply runs_step; [apply obj_of_ok, Hx|]. rewrite Hl, E.
    apply runs_throw. split; [apply good_refl; assumption|exact (stays_usable _ _ _ Hs)].
  - eapply runs_step; [unfold bind; rewrite (obj_of_ok _ _ _ Hx), Hl, E; reflexivity|]. apply Hk; lia.
Qed.

(** set_slot with its copy. *)
Lemma set_slot_runs s l c i v : winv s -> e_heap s !! l = Some c -> 0 <= i < zlen (e_buf c) ->
  runs (set_slot l i v) s (fun _ s' => only l s s') (fun _ s' => only l s s').
Proof. intros Hw Hc Hi. destruct (set_slot_ok s l c i v Hw Hc Hi) as (s1 & E & T & G & _). unfold runs. rewrite E. split; assumption. Qed.
Lemma nop_runs l s : runs (attempt t) s (fun _ s' => only l s s') (fun _ s' => only l s s').
Proof. apply attempt_runs; intros; apply nop_only; assumption. Qed.

Lemma einsert_calls d x len pos v s : winv s -> bal d s -> stays s x len -> 0 <= pos -> calls d x (len + 1) (einsert t x pos v) s.
Proof.
  intros Hw Hb Hs Hp. unfold einsert. apply (calls_check d x len); auto. intros Hpos.
  pose proof (stays_nonneg _ _ _ Hw Hs) as H0. pose proof Hs as (o & Hx & _ & Hl).
  apply (calls_obj_of d x x _ s o _ Hx). rewrite Hl. apply (calls_modify d x len); auto; [lia|].
  intros s1 Hw1 Hb1 _ R1. apply (calls_roomy d x len (len + 1)); auto.
  { intros o1 l1 c1 Hx1 Hr1 Hl1 Hc1 P1 P2 P3. eapply at_place_runs; [exact Hx1|exact Hr1| |intros; apply only_refl].
    intros _. apply (shift_up_runs t _ l1 (o_off o1 + pos) 1 s1 c1 Hw1 Hc1); lia. }
  intros s2 Hw2 Hb2 R2 _. pose proof R2 as (o2 & l2 & c2 & Hx2 & Hr2 & _).
  unfold calls. eapply runs_step; [unfold place, bind; rewrite (obj_of_ok _ _ _ Hx2), Hr2; reflexivity|]. cbn [fst snd].
  fold (calls d x (len + 1) (attempt t ;;; set_slot l2 (o_off o2 + pos) (Some v) ;;; put_len x (len + 1)) s2).
  apply (calls_roomy d x len (len + 1)); auto; [intros; apply nop_runs|].
  intros s3 Hw3 Hb3 R3 E3. apply (calls_roomy d x len (len + 1)); auto.
  { intros o1 l1 c1 Hx1 Hr1 Hl1 Hc1 P1 P2 P3. rewrite E3 in Hx1. assert (o1 = o2) as -> by congruence. assert (l1 = l2) as -> by congruence.
    apply (set_slot_runs s3 l2 c1); auto; lia. }
  intros s4 Hw4 Hb4 R4 _. apply (calls_put_len d x len (len + 1)); auto; lia.
Qed.
Lemma insert_each_calls d x vs : forall len pos s, winv s -> bal d s -> stays s x len -> 0 <= pos <= len ->
  calls d x (len + zlen vs) (insert_each t x pos vs) s.
Proof.
  induction vs as [|v vs IH]; intros len pos s Hw Hb Hs Hp; cbn [insert_each].
  - rewrite zlen_nil, Z.add_0_r. apply runs_ret. split; [apply good_refl; assumption|exact Hs].
  - apply (calls_bind d x len); [apply calls_own_copy; assumption|]. intros s1 Hw1 Hb1 _ S1.
    apply (calls_bind d x (len + 1)); [apply einsert_calls; auto; lia|]. intros s2 Hw2 Hb2 _ S2.
    apply (calls_bind d x (len + 1)); [apply calls_own_copy; assumption|]. intros s3 Hw3 Hb3 _ S3.
    rewrite zlen_cons. replace (len + (1 + zlen vs)) with (len + 1 + zlen vs) by lia. apply IH; auto; lia.
Qed.
Lemma einsert_range_calls d x len pos vs s : winv s -> bal d s -> stays s x len -> 0 <= pos <= len ->
  calls d x (len + zlen vs) (einsert_range t x pos vs) s.
Proof.
  intros Hw Hb Hs Hp. unfold einsert_range. pose proof Hs as (o & Hx & _ & Hl). apply (calls_obj_of d x x _ s o _ Hx). rewrite Hl.
  pose proof (zlen_nonneg vs). apply (calls_bind d x len); [apply calls_modify_only; auto; lia|]. intros s1 Hw1 Hb1 _ S1.
  apply (calls_bind d x (len + zlen vs)); [apply insert_each_calls; auto|]. intros s2 Hw2 Hb2 _ S2.
  apply calls_own_copy; assumption.
Qed.
Lemma ewrite_calls d x len pos v s : winv s -> bal d s -> stays s x len -> 0 <= pos < len -> calls d x len (ewrite t x pos v) s.
Proof.
  intros Hw Hb Hs Hp. unfold ewrite, own_copy.
  assert (calls d x len (bind (obj_of x) (fun o => modify t x (o_len o) ;;; (let* p := place x pos in attempt t ;;; set_slot (fst p) (snd p) (Some v)))) s) as H.
  { pose proof Hs as (o & Hx & _ & Hl). apply (calls_obj_of d x x _ s o _ Hx). rewrite Hl. apply (calls_modify d x len); auto; [lia|].
    intros s1 Hw1 Hb1 _ R1. destruct (roomy_ok _ _ _ _ Hw1 R1) as (o2 & l2 & c2 & Hx2 & Hr2 & _ & Hc2 & Q1 & Q2 & Q3 & Hm).
    unfold calls. eapply runs_step; [unfold place, bind; rewrite (obj_of_ok _ _ _ Hx2), Hr2; reflexivity|]. cbn [fst snd].
    fold (calls d x len (attempt t ;;; set_slot l2 (o_off o2 + pos) (Some v)) s1).
    apply (calls_roomy d x len len); auto; [intros; apply nop_runs|].
    intros s3 Hw3 Hb3 R3 E3. destruct (roomy_ok _ _ _ _ Hw3 R3) as (o3 & l3 & c3 & Hx3 & Hr3 & _ & Hc3 & W1 & W2 & W3 & Hm3).
    assert (o3 = o2) as -> by congruence. assert (l3 = l2) as -> by congruence.
    eapply runs_conseq; [apply (set_slot_runs s3 l2 c3 (o_off o2 + pos) (Some v)); auto; lia| |]; cbn beta.
    - intros _ s4 O. split; [exact (only_good t _ _ _ _ _ _ Hw3 Hb3 Hm3 O)|]. exact (roomy_stays _ _ _ _ (roomy_touch _ _ _ _ _ _ (proj1 O) R3)).
    - intros _ s4 O. split; [exact (only_good t _ _ _ _ _ _ Hw3 Hb3 Hm3 O)|]. exact (roomy_usable _ _ _ _ (roomy_touch _ _ _ _ _ _ (proj1 O) R3)). }
  unfold calls, runs, bind in *. destruct (obj_of x s); exact H.
Qed.
Lemma eresize_calls d x len n s : winv s -> bal d s -> stays s x len -> 0 <= n -> calls d x n (eresize t x n) s.
Proof.
  intros Hw Hb Hs Hn. unfold eresize. pose proof Hs as (o & Hx & Ho & Hl). apply (calls_obj_of d x x _ s o _ Hx). rewrite Hl.
  destruct (n <? len) eqn:E.
  - unfold calls. eapply runs_step; [apply obj_of_ok, Hx|]. unfold put_obj. apply runs_upd. split.
    + apply (put_good t) with o; auto. intros l Hr. cbn in Hr. destruct (proj2 Hw x o Hx l Hr) as (c & Hc & H). exists c. cbn. split; [exact Hc|lia].
    + eexists. cbn. rewrite lookup_insert. split; [reflexivity|]. split; [|reflexivity]. intros Hr. cbn in Hr. destruct (Ho Hr). lia.
  - apply (calls_modify d x len); auto; [lia|]. intros s1 Hw1 Hb1 _ R1. apply (calls_put_len d x len n); auto. lia.
Qed.

Lemma eassign_calls d x y len s : winv s -> bal d s -> alive s x -> stays s y len -> calls d x len (eassign x y) s.
Proof.
  intros Hw Hb [ox Hx] (oy & Hy & Hoy & Hl). unfold eassign. apply (calls_obj_of d x y _ s oy _ Hy).
  set (g := fresh (dom (<[x := ox]> (e_env s)))).
  assert (g ∉ dom (<[x := ox]> (e_env s))) as Hg by apply is_fresh.
  apply not_elem_of_dom in Hg. apply lookup_insert_None in Hg as [Hg Hgx].
  assert (exists s1 n, add_ref (o_ref oy) 1 s = Ok n s1 /\ fine (e_heap s1) (<[g := oy]> (e_env s)) (e_next s1) /\ bal d s1 /\ e_env s1 = e_env s /\
    e_lost s1 = e_lost s /\ e_mem s1 = e_mem s /\ forall l c, e_heap s !! l = Some c -> exists c', e_heap s1 !! l = Some c' /\ e_buf c' = e_buf c)
    as (s1 & n & E1 & F1 & B1 & V1 & L1 & M1 & H1).
  { unfold add_ref. destruct (o_ref oy) as [l|] eqn:Er.
    - destruct (proj2 Hw y oy Hy l Er) as (c & Hc & _). unfold bind. rewrite (cell_of_ok _ _ _ Hc). eexists; eexists. split; [reflexivity|].
      split; [exact (fine_add _ _ _ g oy l c Hw Hg (proj2 Hw y oy Hy) Er Hc)|]. split; [|split; [reflexivity|split; [reflexivity|split; [reflexivity|]]]].
      + unfold bal, net in *; cbn. rewrite (objects_update _ _ _ _ Hc). cbn. lia.
      + intros l' c' Hc'. cbn. destruct (decide (l' = l)) as [->|Hn].
        * eexists; rewrite lookup_insert. split; [reflexivity|]. cbn; congruence.
        * exists c'. rewrite lookup_insert_ne by congruence. auto.
    - exists s, 0. split; [reflexivity|]. split; [exact (fine_add_none _ _ _ _ _ Hw Hg Er)|]. repeat split; auto. eauto. }
  unfold calls. eapply runs_step; [exact E1|]. eapply runs_step; [apply obj_of_ok; rewrite V1; exact Hx|]. eapply runs_step; [reflexivity|].
  set (s2 := up_env _ s1). set (o2 := Obj (o_ref ox) (o_off oy) (o_len oy) 0) in *.
  assert (e_env s2 = <[x := o2]> (e_env s)) as V2 by (cbn; rewrite V1; reflexivity).
  assert (e_env s2 !! x = Some o2) as Hx2 by (rewrite V2; apply lookup_insert).
  assert ((<[g := oy]> (e_env s)) !! x = Some ox) as HEx by (rewrite lookup_insert_ne by exact (not_eq_sym Hgx); exact Hx).
  destruct (drop_ok s2 x o2 (<[g := oy]> (e_env s)) ox d F1 B1 Hx2 HEx eq_refl) as (s3 & E3 & F3 & B3 & L3 & M3 & (o3 & V3 & Q1 & Q2 & Q3) & H3).
  eapply runs_step; [exact E3|]. eapply runs_step; [apply obj_of_ok; rewrite V3; apply lookup_insert|].
  assert (exists oy', e_env s3 !! y = Some oy' /\ o_ref oy' = o_ref oy) as (oy' & Hy' & Hry').
  { rewrite V3. destruct (decide (x = y)) as [<-|Hn].
    - exists o3. rewrite lookup_insert. split; [reflexivity|]. assert (ox = oy) as -> by congruence.
      rewrite (Q3 g oy (not_eq_sym Hgx) (lookup_insert _ _ _) eq_refl). reflexivity.
    - exists oy. rewrite lookup_insert_ne by exact Hn. rewrite V2, lookup_insert_ne by exact Hn. auto. }
  eapply runs_step; [apply obj_of_ok, Hy'|]. unfold put_obj. apply runs_upd. rewrite Hry', Q1, Q2. cbn [o2 o_off o_len].
  assert (forall of, <[x := of]> (e_env s3) = <[x := of]> (delete x (e_env s))) as V4.
  { intros of. rewrite V3, insert_insert, V2, insert_insert, insert_delete_insert. reflexivity. }
  split.
  - split; [|split; [exact B3|split; [|split; [intros _; cbn in *; congruence|intros _; cbn in *; congruence]]]].
    + unfold winv. cbn. rewrite V4. rewrite delete_insert_ne in F3 by exact Hgx.
      apply (fine_rename _ _ _ g x oy); auto; [rewrite lookup_delete_None; auto|apply lookup_delete].
    + intros z Hz. cbn. rewrite lookup_insert_ne by exact Hz. rewrite V3, lookup_insert_ne by exact Hz. rewrite V2, lookup_insert_ne by exact Hz.
      split; [reflexivity|]. intros oz l c Hoz Hr Hc. destruct (H1 l c Hc) as (c1 & Hc1 & Eb1).
      assert (z <> g) as Hzg by congruence.
      destruct (H3 z oz l c1) as (c3 & Hc3 & Eb3); [congruence|rewrite lookup_insert_ne by congruence; exact Hoz|exact Hr|exact Hc1|].
      exists c3. split; [exact Hc3|congruence].
  - eexists. cbn. rewrite lookup_insert. split; [reflexivity|]. cbn. auto.
Qed.

Lemma eassign_move_good d x y s : winv s -> bal d s -> alive s x -> usable s y ->
  exists s', eassign_move x y s = Ok tt s' /\ good true d (fun z => z = x \/ z = y) s s' /\ usable s' x.
Proof.
  intros Hw Hb [ox Hx] (oy & Hy & Hoy). unfold eassign_move. destruct (Pos.eqb_spec x y) as [<-|Hn].
  { exists s. split; [reflexivity|]. split; [apply good_refl; assumption|]. exists oy; auto. }
  destruct (drop_ok s x ox (e_env s) ox d Hw Hb Hx Hx eq_refl) as (s1 & E1 & F1 & B1 & L1 & M1 & (o2 & V1 & _) & H1).
  assert (e_env s1 !! y = Some oy) as Hy1 by (rewrite V1, lookup_insert_ne by exact Hn; exact Hy).
  unfold bind. rewrite E1, (obj_of_ok _ _ _ Hy1). eexists. split; [reflexivity|]. split.
  - split; [|split; [exact B1|split; [|cbn; auto]]].
    + unfold winv; cbn. rewrite V1, insert_insert, <- (insert_delete_insert (e_env s)). apply fine_transfer; [exact F1|apply lookup_delete|].
      rewrite lookup_delete_ne by exact Hn. exact Hy.
    + intros z Hz. cbn. rewrite !lookup_insert_ne by (intros ->; tauto). rewrite V1, lookup_insert_ne by (intros ->; tauto).
      split; [reflexivity|]. intros oz l c Hoz Hr Hc. apply (H1 z oz l c); auto.
  - exists oy. cbn. rewrite lookup_insert_ne by congruence. rewrite lookup_insert. auto.
Qed.

Lemma einsert_array_calls d x y len k pos s : winv s -> bal d s -> stays s x len -> stays s y k -> 0 <= pos ->
  exists res, calls d x res (einsert_array t x pos y) s.
Proof.
  intros Hw Hb Hs Hy Hp. exists (if (pos =? 0) && (len <? k) then k else len + k).
  unfold einsert_array. apply (calls_check d x len); auto. intros Hpos.
  pose proof (stays_nonneg _ _ _ Hw Hs) as H0. pose proof (stays_nonneg _ _ _ Hw Hy) as H1.
  pose proof Hs as (o & Hx & _ & Hl). pose proof Hy as (oy & Hoy & _ & Hk).
  apply (calls_obj_of d x y _ s oy _ Hoy). apply (calls_obj_of d x x _ s o _ Hx). rewrite Hl, Hk.
  destruct ((pos =? 0) && (len <? k)); [apply eassign_calls; auto; exists o; exact Hx|].
  apply (calls_modify d x len); auto; [lia|]. intros s1 Hw1 Hb1 G1 R1.
  assert (forall s', fr (eq x) s s' -> (x = y -> stays s' x len) -> stays s' y k) as Hkeep.
  { intros s' F Hxy. destruct (decide (x = y)) as [<-|Hn]; [|exact (stays_fr _ _ _ _ _ F Hn Hy)].
    replace k with len; [auto|]. destruct Hs as (a & Ha & _ & <-), Hy as (b & Hb' & _ & <-). congruence. }
  assert (stays s1 y k) as Sy1 by (apply Hkeep; [apply G1|intros _; exact (roomy_stays _ _ _ _ R1)]).
  apply (calls_roomy d x len (len + k)); auto.
  { intros o1 l1 c1 Hx1 Hr1 Hl1 Hc1 P1 P2 P3. eapply at_place_runs; [exact Hx1|exact Hr1| |intros; apply only_refl].
    intros _. apply (shift_up_runs t _ l1 (o_off o1 + pos) k s1 c1 Hw1 Hc1); lia. }
  intros s2 Hw2 Hb2 R2 E2. apply (calls_roomy d x len (len + k)); auto.
  { intros o1 l1 c1 Hx1 Hr1 Hl1 Hc1 P1 P2 P3. eapply at_place_runs; [exact Hx1|exact Hr1| |intros; apply only_refl].
    intros Hkp. assert (stays s2 y k) as (oy2 & Hy2 & Hok2 & Hk2) by (destruct Sy1 as (a & Ha); exists a; rewrite E2; exact Ha).
    destruct (o_ref oy2) as [ly|] eqn:Ery; [|destruct (Hok2 Ery); lia].
    destruct (proj2 Hw2 y oy2 Hy2 ly Ery) as (cy & Hcy & W1 & W2 & W3).
    eapply at_place_runs; [exact Hy2|exact Ery| |intros; apply only_refl].
    intros _. apply (copy_up_runs t _ ly _ l1 _ s2 cy c1 Hw2 Hcy Hc1); lia. }
  intros s3 Hw3 Hb3 R3 _. apply (calls_put_len d x len (len + k)); auto; lia.
Qed.
Lemma ereplace_array_calls d x y len k pos s : winv s -> bal d s -> stays s x len -> stays s y k -> 0 <= pos ->
  exists res, calls d x res (ereplace_array t x pos y) s.
Proof.
  intros Hw Hb Hs Hy Hp. exists (if (pos =? 0) && (len <? k) then k else Z.max (pos + k) len).
  unfold ereplace_array. apply (calls_check d x len); auto. intros Hpos.
  pose proof (stays_nonneg _ _ _ Hw Hs) as H0. pose proof (stays_nonneg _ _ _ Hw Hy) as H1.
  pose proof Hs as (o & Hx & _ & Hl). pose proof Hy as (oy & Hoy & _ & Hk).
  apply (calls_obj_of d x y _ s oy _ Hoy). apply (calls_obj_of d x x _ s o _ Hx). rewrite Hl, Hk.
  destruct ((pos =? 0) && (len <? k)); [apply eassign_calls; auto; exists o; exact Hx|].
  apply (calls_modify d x len); auto; [lia|]. intros s1 Hw1 Hb1 G1 R1.
  assert (stays s1 y k) as Sy1.
  { destruct (decide (x = y)) as [<-|Hn]; [|exact (stays_fr _ _ _ _ _ (proj1 (proj2 (proj2 G1))) Hn Hy)].
    replace k with len; [exact (roomy_stays _ _ _ _ R1)|]. congruence. }
  apply (calls_roomy d x len (Z.max (pos + k) len)); auto.
  { intros o1 l1 c1 Hx1 Hr1 Hl1 Hc1 P1 P2 P3. eapply at_place_runs; [exact Hx1|exact Hr1| |intros; apply only_refl].
    intros Hkp. destruct Sy1 as (oy2 & Hy2 & Hok2 & Hk2).
    destruct (o_ref oy2) as [ly|] eqn:Ery; [|destruct (Hok2 Ery); lia].
    destruct (proj2 Hw1 y oy2 Hy2 ly Ery) as (cy & Hcy & W1 & W2 & W3).
    eapply at_place_runs; [exact Hy2|exact Ery| |intros; apply only_refl].
    intros _. apply (copy_up_runs t _ ly _ l1 _ s1 cy c1 Hw1 Hcy Hc1); lia. }
  intros s3 Hw3 Hb3 R3 _. apply (calls_put_len d x len (Z.max (pos + k) len)); auto; lia.
Qed.

Lemma eclear_ok d x s : winv s -> bal d s -> alive s x ->
  exists s' o, eclear x s = Ok tt s' /\ good true d (eq x) s s' /\ e_env s' !! x = Some o /\ okobj o /\ o_len o = 0 /\ unshared s' o.
Proof.
  intros Hw Hb [o Hx]. unfold eclear. destruct (shared_eq s x o Hw Hx) as (b & Es & Hf & Ht). unfold bind. rewrite Es. destruct b.
  - destruct (o_ref o) as [l|] eqn:Er; [|contradiction (Ht eq_refl); intros ? ? ?; congruence].
    destruct (proj2 Hw x o Hx l Er) as (c & Hc & _). pose proof (cf_pos _ _ _ _ (proj1 Hw l c Hc)).
    assert (1 < e_refs c) as H1.
    { destruct (decide (e_refs c = 1)); [|lia]. contradiction (Ht eq_refl). intros l' c' ? ?. assert (l' = l) as -> by congruence. congruence. }
    destruct (detach_step t s x o l c d Hw Hb Hx Er Hc H1) as (s1 & E1 & G1 & Hx1 & _). exists s1, obj_empty. split; [exact E1|].
    split; [exact G1|]. split; [exact Hx1|]. split; [intros _; auto|]. split; [reflexivity|]. intros ? ? H2; discriminate.
  - rewrite (obj_of_ok _ _ _ Hx). eexists; exists (Obj (o_ref o) 0 0 0). split; [reflexivity|]. cbn. rewrite lookup_insert. split; [|split; [reflexivity|]].
    + apply (put_good t) with o; auto. intros l Hr. cbn in Hr. destruct (proj2 Hw x o Hx l Hr) as (c & Hc & _). exists c. cbn. split; [exact Hc|].
      pose proof (zlen_nonneg (e_buf c)). lia.
    + split; [intros _; auto|]. split; [reflexivity|]. intros l c Hr Hc. exact (Hf eq_refl l c Hr Hc).
Qed.
Lemma fill_list_calls d x vs s : winv s -> bal d s -> roomy s x 0 (zlen vs) -> calls d x (zlen vs) (fill_list t x vs) s.
Proof.
  intros Hw Hb HR. unfold fill_list. pose proof (zlen_nonneg vs). apply (calls_roomy d x 0 (zlen vs)); auto.
  { intros o1 l1 c1 Hx1 Hr1 Hl1 Hc1 P1 P2 P3. eapply at_place_runs; [exact Hx1|exact Hr1| |intros; apply only_refl].
    intros _. apply (copy_in_runs t vs l1 _ s c1 Hw Hc1); lia. }
  intros s2 Hw2 Hb2 R2 _. apply (calls_put_len d x 0 (zlen vs)); auto; lia.
Qed.
Lemma calls_reserve d x n sc o k res s : winv s -> bal d s -> e_env s !! x = Some o -> okobj o -> unshared s o -> 0 <= n ->
  (forall s', winv s' -> bal d s' -> roomy s' x (o_len o) n -> calls d x res k s') -> calls d x res (reserve t x n sc ;;; k) s.
Proof.
  intros Hw Hb Hx Ho Hu Hn Hk. unfold calls. eapply runs_bind with (P' := fun _ s' => good true d (eq x) s s' /\ roomy s' x (o_len o) n).
  - eapply runs_conseq; [apply (reserve_runs t x n sc s d o Hw Hb Hx Ho Hu Hn)| |]; cbn beta.
    + intros _ s' (G & R & _). auto.
    + intros _ s' (G & R & _). split; [exact G|exact (stays_usable _ _ _ R)].
  - cbn beta. intros _ s1 (G & R). apply (calls_after d x res k s s1 G), Hk; auto; apply G.
Qed.
Lemma reserve_calls d x n sc o s : winv s -> bal d s -> e_env s !! x = Some o -> okobj o -> unshared s o -> 0 <= n ->
  calls d x (o_len o) (reserve t x n sc) s.
Proof.
  intros Hw Hb Hx Ho Hu Hn. eapply runs_conseq; [apply (reserve_runs t x n sc s d o Hw Hb Hx Ho Hu Hn)| |]; cbn beta.
  - intros _ s' (G & R & _). split; [exact G|exact (roomy_stays _ _ _ _ R)].
  - intros _ s' (G & R & _). split; [exact G|exact (stays_usable _ _ _ R)].
Qed.
Lemma eassign_list_calls d x vs s : winv s -> bal d s -> alive s x -> calls d x (zlen vs) (eassign_list t x vs) s.
Proof.
  intros Hw Hb Hx. unfold eassign_list. destruct (eclear_ok d x s Hw Hb Hx) as (s1 & o & E1 & G1 & Hx1 & Ho & Hl & Hu).
  unfold calls. eapply runs_step; [exact E1|]. apply (calls_after d x (zlen vs) _ s s1 G1).
  apply (calls_reserve d x _ _ o); auto; try apply G1; [apply zlen_nonneg|]. rewrite Hl. intros s2 Hw2 Hb2 R2. apply fill_list_calls; assumption.
Qed.
Lemma eslice_calls d x len a n s : winv s -> bal d s -> stays s x len -> 0 <= a -> 0 <= n -> exists res, calls d x res (eslice x a n) s.
Proof.
  intros Hw Hb Hs Ha Hn. pose proof (stays_nonneg _ _ _ Hw Hs) as H0. destruct Hs as (o & Hx & Ho & Hl).
  exists (if len <=? a then 0 else Z.min n (len - a)). unfold eslice. apply (calls_obj_of d x x _ s o _ Hx). rewrite Hl.
  destruct (len <=? a) eqn:E; unfold put_obj; apply runs_upd; (split; [apply (put_good t) with o; auto|]).
  - intros l Hr. cbn in Hr. destruct (proj2 Hw x o Hx l Hr) as (c & Hc & H). exists c. cbn. split; [exact Hc|lia].
  - eexists. cbn. rewrite lookup_insert. split; [reflexivity|]. split; [|reflexivity]. intros Hr. cbn in *. destruct (Ho Hr). lia.
  - intros l Hr. cbn in Hr. destruct (proj2 Hw x o Hx l Hr) as (c & Hc & H). exists c. cbn. split; [exact Hc|lia].
  - eexists. cbn. rewrite lookup_insert. split; [reflexivity|]. split; [|reflexivity]. intros Hr. cbn in *. destruct (Ho Hr). lia.
Qed.
Lemma take_runs d x len pos s : winv s -> bal d s -> stays s x len -> 0 <= pos < len ->
  runs (take t x pos) s (fun _ s' => good true d (eq x) s s' /\ e_env s' = e_env s) (fun _ s' => good false d (eq x) s s' /\ e_env s' = e_env s).
Proof.
  intros Hw Hb (o & Hx & Ho & Hl) Hp. unfold take. destruct (shared_eq s x o Hw Hx) as (b & Es & Hf & Ht). eapply runs_step; [exact Es|].
  destruct (o_ref o) as [l|] eqn:Er; [|destruct (Ho Er); lia].
  eapply runs_step; [unfold place, bind; rewrite (obj_of_ok _ _ _ Hx), Er; reflexivity|]. cbn [fst snd].
  destruct (proj2 Hw x o Hx l Er) as (c & Hc & P1 & P2 & P3).
  destruct (get_slot_ok s l c (o_off o + pos) Hw Hc) as (v & _ & Hg); [lia|]. eapply runs_step; [exact Hg|].
  eapply runs_bind with (P' := fun _ s' => good true d (eq x) s s' /\ e_env s' = e_env s).
  - destruct (b || negb (e_moves t)) eqn:E.
    + apply attempt_runs.
      * intros s' N. split; [apply nop_good; assumption|apply N].
      * intros _ s' N. split; [apply nop_good; assumption|apply N].
    + assert (b = false) as -> by (destruct b; [discriminate|reflexivity]).
      pose proof (sole_mine s x o l c Hw Hx Er Hc (Hf eq_refl l c Er Hc)) as Hm.
      eapply runs_conseq; [apply (set_slot_runs s l c (o_off o + pos) None Hw Hc); lia| |]; cbn beta.
      * intros _ s' O. split; [exact (only_good t _ _ _ _ _ _ Hw Hb Hm O)|apply O].
      * intros _ s' O. split; [exact (only_good t _ _ _ _ _ _ Hw Hb Hm O)|apply O].
  - cbn beta. intros _ s1 (G & E). eapply runs_step; [reflexivity|]. apply runs_ret. split; [|exact E].
    eapply good_trans; [exact G|]. replace d with (d + (1 - 1)) by lia.
    apply same_good; [apply G|apply G|apply count_up_same|apply count_up_ghost].
Qed.
Lemma eshift_calls d x len s : winv s -> bal d s -> stays s x len -> 0 < len -> calls d x (len - 1) (eshift t x) s.
Proof.
  intros Hw Hb Hs Hp. pose proof Hs as (o & Hx & Ho & Hl). unfold eshift, calls.
  eapply runs_bind; [eapply runs_conseq; [apply (take_runs d x len 0 s Hw Hb Hs); lia|intros a s' H; exact H|]|].
  - cbn beta. intros _ s' (G & E). split; [exact G|]. exists o. rewrite E. auto.
  - cbn beta. intros _ s1 (G & E). eapply runs_step; [apply obj_of_ok; rewrite E; exact Hx|]. unfold put_obj. apply runs_upd. split.
    + eapply good_trans; [exact G|]. apply (put_good t) with o; [apply G|apply G|rewrite E; exact Hx|reflexivity|].
      intros l Hr. cbn in Hr. destruct (proj2 (proj1 G) x o) with (l := l) as (c & Hc & H); [rewrite E; exact Hx|exact Hr|]. exists c. cbn. split; [exact Hc|lia].
    + eexists. cbn. rewrite lookup_insert. split; [reflexivity|]. cbn. split; [|lia]. intros Hr. cbn in *. destruct (Ho Hr). lia.
Qed.
Lemma epop_calls d x len s : winv s -> bal d s -> stays s x len -> 0 < len -> calls d x (len - 1) (epop t x) s.
Proof.
  intros Hw Hb Hs Hp. pose proof Hs as (o & Hx & Ho & Hl). unfold epop. apply (calls_obj_of d x x _ s o _ Hx). rewrite Hl. unfold calls.
  eapply runs_bind; [eapply runs_conseq; [apply (take_runs d x len (len - 1) s Hw Hb Hs); lia|intros a s' H; exact H|]|].
  - cbn beta. intros _ s' (G & E). split; [exact G|]. exists o. rewrite E. auto.
  - cbn beta. intros _ s1 (G & E). unfold put_len. eapply runs_step; [apply obj_of_ok; rewrite E; exact Hx|]. unfold put_obj. apply runs_upd. split.
    + eapply good_trans; [exact G|]. apply (put_good t) with o; [apply G|apply G|rewrite E; exact Hx|reflexivity|].
      intros l Hr. cbn in Hr. destruct (proj2 (proj1 G) x o) with (l := l) as (c & Hc & H); [rewrite E; exact Hx|exact Hr|]. exists c. cbn. split; [exact Hc|lia].
    + eexists. cbn. rewrite lookup_insert. split; [reflexivity|]. cbn. split; [|lia]. intros Hr. cbn in *. destruct (Ho Hr). lia.
Qed.

(** Constructors with a body. *)
Lemma start_good d x s : winv s -> bal d s -> unborn s x -> exists s', start_obj x obj_empty s = Ok tt s' /\ good true d (eq x) s s' /\
  e_env s' !! x = Some obj_empty.
Proof.
  intros Hw Hb Hx. unfold start_obj. unfold unborn in Hx. rewrite Hx. eexists. split; [reflexivity|]. split; [|cbn; apply lookup_insert].
  rewrite up_env_eq. apply env_good; [exact Hb|apply fine_add_none; [exact Hw|exact Hx|reflexivity]|].
  intros y Hy. rewrite lookup_insert_ne by exact Hy. reflexivity.
Qed.
Lemma body_runs d x m s len : calls d x len m s ->
  runs (body x m) s (fun _ s' => good true d (eq x) s s' /\ usable s' x) (fun _ s' => good false d (eq x) s s' /\ gone s' x).
Proof.
  intros H. unfold calls, runs, body in *. destruct (m s) as [[] s1|e1 s1| | |]; try contradiction.
  - destruct H as [G S]. split; [exact G|exact (stays_usable _ _ _ S)].
  - destruct H as (G & o & Hx & _). destruct (end_obj_ok s1 x d) as (s2 & E2 & G2 & U2); [apply G|apply G|exists o; exact Hx|].
    unfold bind. rewrite E2. cbn. split; [exact (good_after _ _ _ _ _ G G2)|exact U2].
Qed.
End WithType.
End LC.
