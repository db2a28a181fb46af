(** The arrays of NestModel.v seen as arrays of values, and the functions that manage buffers. *)
From stdpp Require Import gmap.
From Verif Require Import RcaSpec RcaModel RcaExec RcaInv RcaOwn RcaRel RcaMeet RcaMain NestModel NestMeet NestSim.
From Coq Require Import ZifyBool.
Open Scope Z_scope.

(** Lists by index. *)
Lemma znth_combine {A B} (u : list A) : forall (v : list B) i,
  znth i (combine u v) = match znth i u, znth i v with Some z, Some t => Some (z, t) | _, _ => None end.
Proof.
  induction u as [|z u IH]; intros v i; [cbn; rewrite !znth_nil; reflexivity|]. destruct v as [|t v].
  - cbn. rewrite !znth_nil. destruct (znth i (z :: u)); reflexivity.
  - cbn. rewrite !znth_cons. destruct (i =? 0); [reflexivity|apply IH].
Qed.
Lemma in_znth {A} (x : A) l : In x l <-> exists i, znth i l = Some x.
Proof.
  split.
  - intros H. apply In_nth_error in H as (n & H). exists (Z.of_nat n). unfold znth. destruct (Z.ltb_spec (Z.of_nat n) 0); [lia|].
    rewrite Nat2Z.id. exact H.
  - intros (i & H). unfold znth in H. destruct (i <? 0); [discriminate|]. apply nth_error_In in H. exact H.
Qed.
Lemma nodup_znth {A} (l : list A) i j x : List.NoDup l -> znth i l = Some x -> znth j l = Some x -> i = j.
Proof.
  intros ND Hi Hj. pose proof (znth_inv _ _ _ Hi). pose proof (znth_inv _ _ _ Hj). unfold znth in *.
  destruct (Z.ltb_spec i 0); [lia|]. destruct (Z.ltb_spec j 0); [lia|]. rewrite NoDup_nth_error in ND.
  assert (Z.to_nat i = Z.to_nat j); [|lia]. apply ND; [|congruence]. apply nth_error_Some. congruence.
Qed.
Lemma in_zsub {A} (x : A) a n l : In x (zsub a n l) -> In x l.
Proof.
  rewrite !in_znth. intros (i & H). rewrite znth_zsub in H. destruct ((0 <=? i) && (i <? n)); [eauto|discriminate].
Qed.
Lemma nodup_app {A} (l k : list A) : List.NoDup (l ++ k) -> List.NoDup l /\ List.NoDup k.
Proof. rewrite <- !NoDup_ListNoDup. intros H. apply list.NoDup_app in H. tauto. Qed.
Lemma nodup_zsub {A} a n (l : list A) : List.NoDup l -> List.NoDup (zsub a n l).
Proof.
  intros H. unfold zsub, ztake, zdrop. rewrite <- (firstn_skipn (Z.to_nat a) l) in H. apply nodup_app in H as [_ H].
  rewrite <- (firstn_skipn (Z.to_nat n) (skipn (Z.to_nat a) l)) in H. apply nodup_app in H as [H _]. exact H.
Qed.
Lemma ahead_idx (P : positive * positive -> positive * positive -> Prop) ps : (forall i j p q, i < j -> znth i ps = Some p -> znth j ps = Some q -> P p q) -> ahead P ps.
Proof.
  induction ps as [|p ps IH]; intros H; cbn; [exact I|]. split.
  - apply List.Forall_forall. intros q Hq. apply in_znth in Hq as (j & Hj). pose proof (znth_inv _ _ _ Hj).
    apply (H 0 (j + 1)); [lia|reflexivity|]. rewrite znth_cons. destruct (Z.eqb_spec (j + 1) 0); [lia|]. replace (j + 1 - 1) with j by lia. exact Hj.
  - apply IH. intros i j p' q Hij Hi Hj. apply (H (i + 1) (j + 1)); [lia| |]; rewrite znth_cons.
    + pose proof (znth_inv _ _ _ Hi). destruct (Z.eqb_spec (i + 1) 0); [lia|]. replace (i + 1 - 1) with i by lia. exact Hi.
    + pose proof (znth_inv _ _ _ Hj). destruct (Z.eqb_spec (j + 1) 0); [lia|]. replace (j + 1 - 1) with j by lia. exact Hj.
Qed.

Section Abs.
Variable d : desc Z.
Variable od : desc positive.
Hypothesis Hwf : wf_desc d.

(** Arrays of values with the same allocations. *)
Definition vd : desc sval := Desc true (true, []) None (fun _ => 0) (fun _ _ => false) (d_grow od) (d_oom od) (d_debug od).
Definition val (a : astate Z) (p : positive) : option sval := match a !! p with Some (AVal r v) => Some (r, v) | _ => None end.
Definition eval (a : astate Z) (e : option positive) : option sval := match e with Some p => val a p | None => None end.
Definition absc (a : astate Z) (c : cell positive) : cell sval := Cell (map (eval a) (c_buf c)) (c_gen c) (c_refs c).
Definition abs (f : list (list (option sval))) (a : astate Z) (o : state positive) : state sval :=
  State (absc a <$> st_heap o) (st_env o) (st_next o) (st_tick o) f.
Definition bufs (o : state positive) : gmap loc (list (option positive)) := c_buf <$> st_heap o.

(** Every slot is an element String of its own, and there are no others. *)
Record Wf (b : astate Z) (B : gmap loc (list (option positive))) (i : state Z) (a : astate Z) : Prop := {
  wf_R : RcaRel.R d i a;
  wf_b : forall y, a !! xO y = b !! y;
  wf_1 : a !! 1%positive = None;
  wf_slots : forall l bf, B !! l = Some bf -> exists ps, bf = map Some ps /\ List.NoDup ps /\ Forall (fun p => odd p /\ is_Some (a !! p)) ps;
  wf_disj : forall l l' bf bf' p, B !! l = Some bf -> B !! l' = Some bf' -> In (Some p) bf -> In (Some p) bf' -> l = l';
  wf_cover : forall q, is_Some (a !! xI q) -> exists l bf, B !! l = Some bf /\ In (Some (xI q)) bf
}.
Definition rel (b : astate Z) (s : nstate) (t : state sval) : Prop :=
  exists f a, Wf b (bufs (n_out s)) (n_in s) a /\ t = abs f a (n_out s).
(** A call on arrays of Strings and the one on arrays of values; nothing is claimed if the latter is undefined. *)
Definition sim {A} (b be : astate Z) (r : res nstate A) (r1 : res (state sval) A) : Prop :=
  match r1 with
  | Ok v t' => exists s', r = Ok v s' /\ rel b s' t'
  | Exn e t' => exists s', r = Exn e s' /\ rel be s' t'
  | _ => True
  end.
Lemma sim_bind {A B} b b' be (m : M nstate A) (m1 : M (state sval) A) (k : A -> M nstate B) (k1 : A -> M (state sval) B) s t :
  sim b be (m s) (m1 t) -> (forall v s' t', m s = Ok v s' -> m1 t = Ok v t' -> rel b s' t' -> sim b' be (k v s') (k1 v t')) ->
  sim b' be (bind m k s) (bind m1 k1 t).
Proof.
  unfold sim at 1, bind. destruct (m1 t) as [v t'|e t'| | |u].
  - intros (s' & E & Hr) H. rewrite E. apply H; [exact E|reflexivity|exact Hr].
  - intros (s' & E & Hr) _. rewrite E. exists s'. auto.
  - intros _ _; exact I.
  - intros _ _; exact I.
  - intros _ _; exact I.
Qed.
Lemma sim_ret {A} b be (v : A) s t : rel b s t -> sim b be (ret v s) (ret v t).
Proof. intros H. exists s. auto. Qed.

(** Functions that only touch handles and counters. *)
Definition absr {A} f a (r : res (state positive) A) : res (state sval) A :=
  match r with Ok v o => Ok v (abs f a o) | Exn e o => Exn e (abs f a o) | Term => Term | Fuel => Fuel | Undef u => Undef u end.
Definition same_bufs {A} o (r : res (state positive) A) : Prop := match r with Ok _ o' | Exn _ o' => bufs o' = bufs o | _ => True end.
Definition handles {A} (m : M (state positive) A) (m1 : M (state sval) A) : Prop :=
  forall f a o, m1 (abs f a o) = absr f a (m o) /\ same_bufs o (m o).
Lemma sim_handles {A} b (m : M (state positive) A) m1 s t : handles m m1 -> rel b s t -> sim b b (outer m s) (m1 t).
Proof.
  intros H (f & a & W & ->). destruct (H f a (n_out s)) as [E K]. rewrite E. unfold sim, outer, absr.
  destruct (m (n_out s)) as [v o'|e o'| | |u]; auto; cbn in K; (eexists; split; [reflexivity|]); exists f, a; cbn; rewrite K; auto.
Qed.
Lemma h_ret {A} (v : A) : handles (ret v) (ret v). Proof. intros f a o. split; reflexivity. Qed.
Lemma h_throw {A} e : handles (@throw _ A e) (throw e). Proof. intros f a o. split; reflexivity. Qed.
Lemma h_undef {A} u : handles (@undef _ A u) (undef u). Proof. intros f a o. split; reflexivity. Qed.
Lemma h_bind {A B} (m : M (state positive) A) m1 (k : A -> M (state positive) B) k1 :
  handles m m1 -> (forall v, handles (k v) (k1 v)) -> handles (bind m k) (bind m1 k1).
Proof.
  intros H Hk f a o. unfold bind. destruct (H f a o) as [-> S]. destruct (m o) as [v o'|e o'| | |u]; cbn in *; auto.
  destruct (Hk v f a o') as [-> S']. split; [reflexivity|]. unfold same_bufs in *. destruct (k v o'); auto; congruence.
Qed.
Lemma h_get x : handles (get_obj x) (get_obj x).
Proof. intros f a o. unfold get_obj. cbn. destruct (st_env o !! x); split; reflexivity. Qed.
Lemma h_set x ob : handles (set_obj x ob) (set_obj x ob).
Proof. intros f a o. split; reflexivity. Qed.
Lemma h_new x ob : handles (new_obj x ob) (new_obj x ob).
Proof. intros f a o. unfold new_obj. cbn. destruct (st_env o !! x); split; reflexivity. Qed.
Lemma h_del x : handles (del_obj x) (del_obj x).
Proof. intros f a o. split; reflexivity. Qed.
Lemma bufs_refs (h : gmap loc (cell positive)) l (c : cell positive) n : h !! l = Some c -> c_buf <$> <[l := Cell (c_buf c) (c_gen c) n]> h = c_buf <$> h.
Proof.
  intros E. rewrite fmap_insert. cbn. apply insert_id. rewrite lookup_fmap, E. reflexivity.
Qed.
Lemma h_inc r : handles (inc_ref r) (inc_ref r).
Proof.
  intros f a o. destruct r as [l|]; [|split; reflexivity]. unfold inc_ref, bind, get_cell. cbn. rewrite lookup_fmap.
  destruct (st_heap o !! l) as [c|] eqn:E; cbn; [|split; [reflexivity|exact I]]. split.
  - unfold set_cell, with_heap, abs; cbn. rewrite fmap_insert. reflexivity.
  - unfold bufs; cbn. apply bufs_refs, E.
Qed.
Lemma h_dec r : handles (dec_ref r) (dec_ref r).
Proof.
  intros f a o. destruct r as [l|]; [|split; reflexivity]. unfold dec_ref, bind, get_cell. cbn. rewrite lookup_fmap.
  destruct (st_heap o !! l) as [c|] eqn:E; cbn; [|split; [reflexivity|exact I]]. split.
  - unfold set_cell, with_heap, abs; cbn. rewrite fmap_insert. reflexivity.
  - unfold bufs; cbn. apply bufs_refs, E.
Qed.
Lemma h_shared x : handles (is_shared x) (is_shared x).
Proof.
  apply h_bind; [apply h_get|]. intros o f a s. destruct (o_ref o) as [l|]; [|split; reflexivity].
  unfold bind, get_cell. cbn. rewrite lookup_fmap. destruct (st_heap s !! l) as [c|]; cbn; split; auto.
Qed.
Lemma h_try n : handles (try_alloc od n) (try_alloc vd n).
Proof. intros f a o. unfold try_alloc. cbn. destruct (d_oom od (st_tick o) || (max_alloc <? n)); split; reflexivity. Qed.
Ltac handle := repeat first
  [ apply h_get | apply h_set | apply h_new | apply h_del | apply h_inc | apply h_dec | apply h_shared | apply h_ret | apply h_throw | apply h_undef
  | apply h_bind; [|intros] | match goal with |- handles (match ?e with _ => _ end) _ => destruct e end ].
Lemma h_length x : handles (length_of x) (length_of x). Proof. unfold length_of. handle. Qed.
Lemma h_detach x : handles (do_detach x) (do_detach x). Proof. unfold do_detach. handle. Qed.
Lemma h_clear x : handles (clear x) (clear x). Proof. unfold clear. handle; apply h_detach. Qed.
Lemma h_set_len x n : handles (set_len x n) (set_len x n). Proof. unfold set_len. handle. Qed.
Lemma h_set_length x n : handles (set_length x n) (set_length x n). Proof. unfold set_length. handle. Qed.
Lemma h_add_len x n : handles (add_len x n) (add_len x n). Proof. unfold add_len. apply h_bind; [apply h_length|intros; apply h_set_len]. Qed.
Lemma h_check x n : handles (check_pos x n) (check_pos x n).
Proof. unfold check_pos. destruct (n =? 0); [apply h_ret|]. unfold validate_index. apply h_bind; [apply h_length|intros]. handle. Qed.
Lemma h_default x : handles (ctor_default x) (ctor_default x). Proof. unfold ctor_default. handle. Qed.
Lemma h_copy x y : handles (ctor_copy x y) (ctor_copy x y). Proof. unfold ctor_copy. handle. Qed.
Lemma h_move x y : handles (ctor_move x y) (ctor_move x y). Proof. unfold ctor_move. handle. Qed.
Lemma h_swap x y : handles (swap x y) (swap x y). Proof. unfold swap. handle. Qed.
Lemma h_assert m m1 : handles m m1 -> handles (check od m) (check vd m1).
Proof. intros H. unfold check. change (d_debug vd) with (d_debug od). destruct (d_debug od); [|apply h_ret]. apply h_bind; [exact H|]. intros []; [apply h_ret|apply h_undef]. Qed.
Lemma h_not_empty x : handles (not_empty x) (not_empty x). Proof. unfold not_empty. apply h_bind; [apply h_length|intros; apply h_ret]. Qed.
Lemma h_pop x : handles (pop_back od x) (pop_back vd x).
Proof. unfold pop_back, sub_length. apply h_bind; [apply h_assert, h_not_empty|intros]. handle. Qed.
Lemma h_slice x st n : handles (slice x st n) (slice x st n).
Proof. unfold slice. apply h_bind; [apply h_get|intros]. apply h_bind; [handle|intros]. cbv zeta. handle. Qed.

(** Replacing the slots of one buffer. *)
Lemma Wf_set b b' B i i' a a' l ps ps' :
  Wf b B i a -> (B !! l = Some (map Some ps) \/ B !! l = None /\ ps = []) -> RcaRel.R d i' a' ->
  (forall y, a' !! xO y = b' !! y) -> a' !! 1%positive = None ->
  List.NoDup ps' -> Forall (fun p => odd p /\ is_Some (a' !! p)) ps' ->
  (forall q, ~ In (xI q) ps -> ~ In (xI q) ps' -> a' !! xI q = a !! xI q) ->
  (forall q, In (xI q) ps' -> In (xI q) ps \/ a !! xI q = None) ->
  (forall q, In (xI q) ps -> ~ In (xI q) ps' -> a' !! xI q = None) ->
  Wf b' (<[l := map Some ps']> B) i' a' /\
  (forall l2 bf, l2 <> l -> B !! l2 = Some bf -> map (eval a') bf = map (eval a) bf).
Proof.
  intros W HB HR Hb H1 ND F K N D.
  assert (Hother : forall l2 bf p, l2 <> l -> B !! l2 = Some bf -> In (Some p) bf -> odd p /\ is_Some (a !! p) /\ ~ In p ps /\ ~ In p ps').
  { intros l2 bf p Hl E Hin. destruct (wf_slots _ _ _ _ W l2 bf E) as (ps2 & -> & _ & F2).
    rewrite List.Forall_forall in F2. assert (Hp : In p ps2) by (apply in_map_iff in Hin as (? & [= ->] & ?); assumption).
    destruct (F2 p Hp) as [O S]. split; [exact O|]. split; [exact S|].
    assert (Hps : ~ In p ps).
    { intros Hq. destruct HB as [HB|[_ ->]]; [|contradiction]. apply Hl, (wf_disj _ _ _ _ W l2 l _ _ p E HB Hin). apply in_map, Hq. }
    split; [exact Hps|]. intros Hq. destruct O as [q ->]. destruct (N q Hq) as [X|X]; [contradiction|]. destruct S; congruence. }
  assert (Hsame : forall l2 bf p, l2 <> l -> B !! l2 = Some bf -> In (Some p) bf -> a' !! p = a !! p).
  { intros l2 bf p Hl E Hin. destruct (Hother l2 bf p Hl E Hin) as ([q ->] & _ & H2 & H3). apply K; assumption. }
  split.
  - constructor; try assumption.
    + intros l2 bf E. destruct (decide (l = l2)) as [<-|Hl].
      * rewrite lookup_insert in E. injection E as <-. eauto.
      * rewrite lookup_insert_ne in E by exact Hl. destruct (wf_slots _ _ _ _ W l2 bf E) as (ps2 & -> & ND2 & F2). exists ps2.
        split; [reflexivity|]. split; [exact ND2|]. rewrite List.Forall_forall in *. intros p Hp. destruct (F2 p Hp) as [O S]. split; [exact O|].
        rewrite (Hsame l2 _ p (not_eq_sym Hl) E); [exact S|]. apply in_map, Hp.
    + intros l1 l2 b1 b2 p E1 E2 I1 I2. destruct (decide (l = l1)) as [<-|N1], (decide (l = l2)) as [<-|N2]; [reflexivity| | |].
      * rewrite lookup_insert in E1. injection E1 as <-. rewrite lookup_insert_ne in E2 by exact N2.
        destruct (Hother l2 b2 p (not_eq_sym N2) E2 I2) as (_ & _ & _ & X). exfalso. apply X. apply in_map_iff in I1 as (? & [= ->] & ?). assumption.
      * rewrite lookup_insert in E2. injection E2 as <-. rewrite lookup_insert_ne in E1 by exact N1.
        destruct (Hother l1 b1 p (not_eq_sym N1) E1 I1) as (_ & _ & _ & X). exfalso. apply X. apply in_map_iff in I2 as (? & [= ->] & ?). assumption.
      * rewrite lookup_insert_ne in E1, E2 by assumption. apply (wf_disj _ _ _ _ W l1 l2 b1 b2 p); assumption.
    + intros q Hq. destruct (in_dec Pos.eq_dec (xI q) ps') as [Hin|Hin].
      * exists l, (map Some ps'). rewrite lookup_insert. split; [reflexivity|apply in_map, Hin].
      * destruct (in_dec Pos.eq_dec (xI q) ps) as [Hin'|Hin'].
        { rewrite (D q Hin' Hin) in Hq. destruct Hq; discriminate. }
        rewrite (K q Hin' Hin) in Hq. destruct (wf_cover _ _ _ _ W q Hq) as (l2 & bf & E & Hb2). exists l2, bf. split; [|exact Hb2].
        rewrite lookup_insert_ne; [exact E|]. intros <-. destruct HB as [HB|[HB _]]; [|congruence].
        rewrite HB in E. injection E as <-. apply Hin'. apply in_map_iff in Hb2 as (? & [= ->] & ?). assumption.
  - intros l2 bf Hl E. apply map_ext_in. intros [p|] Hp; [|reflexivity]. cbn. unfold val. rewrite (Hsame l2 bf p Hl E Hp). reflexivity.
Qed.
(** Changing values of Strings and of elements of one buffer. *)
Lemma Wf_vals b b' B i i' a a' l ps :
  Wf b B i a -> B !! l = Some (map Some ps) -> RcaRel.R d i' a' ->
  (forall y, a' !! xO y = b' !! y) -> a' !! 1%positive = None ->
  Forall (fun p => is_Some (a' !! p)) ps -> (forall q, ~ In (xI q) ps -> a' !! xI q = a !! xI q) ->
  Wf b' B i' a' /\ (forall l2 bf, l2 <> l -> B !! l2 = Some bf -> map (eval a') bf = map (eval a) bf).
Proof.
  intros W HB HR Hb H1 F K. destruct (wf_slots _ _ _ _ W l _ HB) as (ps2 & E & ND & F2).
  assert (ps2 = ps) as ->.
  { clear -E. revert ps E. induction ps2 as [|p ps2 IH]; intros [|q ps] E; try discriminate; [reflexivity|]. injection E as <- E. f_equal. apply IH, E. }
  rewrite <- (insert_id B l _ HB) at 1. apply (Wf_set b b' B i i' a a' l ps ps W (or_introl HB) HR Hb H1 ND).
  - rewrite List.Forall_forall in *. intros p Hp. split; [apply (F2 p Hp)|apply F, Hp].
  - auto.
  - auto.
  - intros q Hq Hq'; contradiction.
Qed.
Lemma Wf_inner b b' B i i' a a' : Wf b B i a -> RcaRel.R d i' a' -> (forall y, a' !! xO y = b' !! y) -> a' !! 1%positive = None ->
  (forall q, a' !! xI q = a !! xI q) -> Wf b' B i' a' /\ (forall l2 bf, B !! l2 = Some bf -> map (eval a') bf = map (eval a) bf).
Proof.
  intros W HR Hb H1 K. split.
  - constructor; try assumption.
    + intros l bf E. destruct (wf_slots _ _ _ _ W l bf E) as (ps & -> & ND & F). exists ps. split; [reflexivity|]. split; [exact ND|].
      rewrite List.Forall_forall in *. intros p Hp. destruct (F p Hp) as [[q ->] S]. split; [exists q; reflexivity|]. rewrite K. exact S.
    + apply (wf_disj _ _ _ _ W).
    + intros q Hq. rewrite K in Hq. apply (wf_cover _ _ _ _ W q Hq).
  - intros l2 bf E. destruct (wf_slots _ _ _ _ W l2 bf E) as (ps & -> & ND & F). apply map_ext_in. intros e He.
    apply in_map_iff in He as (p & <- & Hp). rewrite List.Forall_forall in F. destruct (F p Hp) as [[q ->] _]. cbn. unfold val. rewrite K. reflexivity.
Qed.
Lemma Wf_drop b B i a l : Wf b (<[l := []]> B) i a -> Wf b (delete l B) i a.
Proof.
  intros W. assert (L : forall l2 bf, delete l B !! l2 = Some bf -> <[l := []]> B !! l2 = Some bf).
  { intros l2 bf E. apply lookup_delete_Some in E as [N E]. rewrite lookup_insert_ne by exact N. exact E. }
  constructor; try apply W.
  - intros l2 bf E. apply (wf_slots _ _ _ _ W l2 bf), L, E.
  - intros l1 l2 b1 b2 p E1 E2. apply (wf_disj _ _ _ _ W); apply L; assumption.
  - intros q Hq. destruct (wf_cover _ _ _ _ W q Hq) as (l2 & bf & E & Hin). exists l2, bf. split; [|exact Hin].
    destruct (decide (l = l2)) as [<-|N]; [rewrite lookup_insert in E; injection E as <-; contradiction|].
    rewrite lookup_insert_ne in E by exact N. rewrite lookup_delete_ne by exact N. exact E.
Qed.

(** Consequences for the heap of values. *)
Lemma abs_set a a' o l c' :
  (forall l2 bf, l2 <> l -> bufs o !! l2 = Some bf -> map (eval a') bf = map (eval a) bf) ->
  absc a' <$> <[l := c']> (st_heap o) = <[l := absc a' c']> (absc a <$> st_heap o).
Proof.
  intros K. apply map_eq. intros l2. rewrite fmap_insert. destruct (decide (l = l2)) as [<-|N]; [rewrite !lookup_insert; reflexivity|].
  rewrite !lookup_insert_ne, !lookup_fmap by exact N. destruct (st_heap o !! l2) as [c|] eqn:E; [|reflexivity]. cbn. unfold absc.
  rewrite (K l2 (c_buf c)); [reflexivity|congruence|]. unfold bufs. rewrite lookup_fmap, E. reflexivity.
Qed.
Lemma abs_vals f a a' o l c :
  st_heap o !! l = Some c -> (forall l2 bf, l2 <> l -> bufs o !! l2 = Some bf -> map (eval a') bf = map (eval a) bf) ->
  abs f a' o = with_heap (abs f a o) (<[l := Cell (map (eval a') (c_buf c)) (c_gen c) (c_refs c)]> (st_heap (abs f a o))).
Proof.
  intros E K. unfold abs, with_heap; cbn. f_equal. rewrite <- (insert_id (st_heap o) l c E) at 1. rewrite (abs_set a a' o l c K). reflexivity.
Qed.
Lemma abs_inner f a a' o : (forall l2 bf, bufs o !! l2 = Some bf -> map (eval a') bf = map (eval a) bf) -> abs f a' o = abs f a o.
Proof.
  intros K. unfold abs. f_equal. apply map_eq. intros l. rewrite !lookup_fmap. destruct (st_heap o !! l) as [c|] eqn:E; [|reflexivity]. cbn. unfold absc.
  rewrite (K l (c_buf c)); [reflexivity|]. unfold bufs. rewrite lookup_fmap, E. reflexivity.
Qed.
Lemma bufs_lookup o l c : st_heap o !! l = Some c -> bufs o !! l = Some (c_buf c).
Proof. unfold bufs. rewrite lookup_fmap. intros ->. reflexivity. Qed.
Lemma names_map ps : names (map Some ps) = Some ps.
Proof. induction ps as [|p ps IH]; cbn; [reflexivity|]. rewrite IH. reflexivity. Qed.
Lemma slots_ok s l c ps i n : st_heap (n_out s) !! l = Some c -> c_buf c = map Some ps -> 0 <= i -> i + n <= zlen ps ->
  slots l i n s = Ok (zsub i n ps) s.
Proof.
  intros E Eb Hi Hn. unfold slots, bind, outer. rewrite (get_cell_ok _ _ _ E). rewrite Eb, zlen_map, zsub_map, names_map.
  destruct (Z.ltb_spec i 0); [lia|]. destruct (Z.ltb_spec (zlen ps) (i + n)); [lia|]. cbn. destruct s; reflexivity.
Qed.
Lemma slots_bad s l c i n : st_heap (n_out s) !! l = Some c -> i < 0 \/ zlen (c_buf c) < i + n -> slots l i n s = Undef UbBounds.
Proof.
  intros E H. unfold slots, bind, outer. rewrite (get_cell_ok _ _ _ E). destruct s; cbn in *.
  assert ((i <? 0) || (zlen (c_buf c) <? i + n) = true) as -> by lia. reflexivity.
Qed.
Lemma eval_map a ps : map (eval a) (map Some ps) = map (val a) ps.
Proof. rewrite map_map. reflexivity. Qed.
Lemma val_some a p : is_Some (val a p) -> exists v, a !! p = Some (sv v).
Proof. unfold val. destruct (a !! p) as [[r v|]|]; intros [w E]; try discriminate. exists (r, v). reflexivity. Qed.
Lemma val_eq a a' p q : a' !! p = a !! q -> val a' p = val a q.
Proof. unfold val. intros ->. reflexivity. Qed.
Lemma vals_upd (f g : positive -> option sval) ps j k (es : list (option sval)) :
  zlen es = k -> 0 <= j -> j + k <= zlen ps -> 
  (forall m p, znth m ps = Some p -> (j <= m < j + k -> Some (f p) = znth (m - j) es) /\ (m < j \/ j + k <= m -> f p = g p)) ->
  map f ps = zupd j es (map g ps).
Proof.
  intros Hk Hj Hjk H. pose proof (zlen_nonneg es). apply zlist_ext.
  - rewrite zlen_zupd; rewrite ?zlen_map; lia.
  - rewrite zlen_map. intros m Hm. rewrite znth_zupd by (rewrite zlen_map; lia). rewrite !znth_map.
    destruct (znth_some m ps Hm) as (p & Ep). rewrite Ep. cbn. destruct (H m p Ep) as [H1 H2].
    destruct (Z.leb_spec j m), (Z.ltb_spec m (j + zlen es)); cbn; try (rewrite H2 by lia; reflexivity). apply H1; lia.
Qed.
End Abs.
