(** Invariant of LifeModel and the loops over slots. *)
From Verif Require Import RcaInv LifeModel LifeSpec.
From Coq Require Import ZifyBool.
Open Scope Z_scope.

Section LI.
Context {V : Type}.
Implicit Types (s : estate V) (x y : var) (l : loc) (c : ecell V) (h : gmap loc (ecell V)).
Notation St := (estate V).

Definition islive (a : slot V) : Prop := a <> Raw.
Lemma islive_ex a : islive a -> exists v, a = Live v.
Proof. destruct a as [|v]; [intros H; contradiction H; reflexivity|eauto]. Qed.
Lemma islive_live v : islive (Live v). Proof. discriminate. Qed.

Lemma live_slots_all b : Forall islive b -> live_slots b = zlen b.
Proof.
  unfold live_slots; induction 1 as [|a b Ha Hb IH]; [reflexivity|].
  destruct (islive_ex a Ha) as (v & ->). cbn [map List.concat lost_of]. rewrite zlen_app, !zlen_cons, zlen_nil. lia.
Qed.
Lemma objects_new h l c : h !! l = None -> objects (<[l := c]> h) = live_slots (e_buf c) + objects h.
Proof. intros H; unfold objects; rewrite map_fold_insert_L; [reflexivity| |exact H]. intros; lia. Qed.
Lemma objects_delete h l c : h !! l = Some c -> objects (delete l h) = objects h - live_slots (e_buf c).
Proof.
  intros H. rewrite <- (insert_delete h l c H) at 2. rewrite objects_new by apply lookup_delete. lia.
Qed.
Lemma objects_update h l c c' : h !! l = Some c ->
  objects (<[l := c']> h) = objects h - live_slots (e_buf c) + live_slots (e_buf c').
Proof.
  intros H. rewrite <- (insert_delete_insert h l c'), objects_new by apply lookup_delete.
  rewrite (objects_delete h l c H). lia.
Qed.
Lemma objects_empty : objects (∅ : gmap loc (ecell V)) = 0.
Proof. reflexivity. Qed.

(** Structural invariant. *)
Record cell_fine (e : gmap var obj) (nx : loc) l c : Prop := {
  cf_refs : e_refs c = count l e;
  cf_pos : 1 <= e_refs c;
  cf_live : Forall islive (e_buf c);
  cf_size : zlen (e_buf c) <= max_alloc;
  cf_next : (l < nx)%positive }.
Definition obj_fine h (o : obj) : Prop :=
  forall l, o_ref o = Some l -> exists c, h !! l = Some c /\ 0 <= o_off o /\ 0 <= o_len o /\ o_off o + o_len o <= zlen (e_buf c).
Definition fine h (e : gmap var obj) nx : Prop :=
  (forall l c, h !! l = Some c -> cell_fine e nx l c) /\ (forall x o, e !! x = Some o -> obj_fine h o).
Definition winv s : Prop := fine (e_heap s) (e_env s) (e_next s).
Definition net s : Z := e_built s - e_killed s.
(** [d] objects exist outside the buffers: temporaries and elements of a buffer being made. *)
Definition bal (d : Z) s : Prop := net s = objects (e_heap s) + zlen (e_lost s) + d.
Lemma bal_balanced s : bal 0 s <-> balanced s.
Proof. unfold bal, balanced, net; lia. Qed.

(** What a function does to the ghosts. *)
Definition ghost s s' (k : Z) (L : list (option V)) (m : Z) : Prop :=
  net s' = net s + k /\ e_lost s' = e_lost s ++ L /\ e_mem s' = e_mem s + m.
Lemma ghost_refl s : ghost s s 0 [] 0.
Proof. unfold ghost; rewrite app_nil_r; repeat split; lia. Qed.
Lemma ghost_trans s1 s2 s3 k L m k' L' m' : ghost s1 s2 k L m -> ghost s2 s3 k' L' m' -> ghost s1 s3 (k + k') (L ++ L') (m + m').
Proof. intros (A & B & C) (A' & B' & C'); unfold ghost; rewrite B', B, app_assoc; repeat split; lia. Qed.
Lemma ghost_eq s s' k L m k' L' m' : ghost s s' k L m -> k = k' -> L = L' -> m = m' -> ghost s s' k' L' m'.
Proof. intros H -> -> ->; exact H. Qed.

(** Nothing but the ghosts and the tick changes. *)
Definition same s s' : Prop := e_heap s' = e_heap s /\ e_env s' = e_env s /\ e_next s' = e_next s.
Lemma same_refl s : same s s. Proof. repeat split. Qed.
Lemma same_trans s1 s2 s3 : same s1 s2 -> same s2 s3 -> same s1 s3.
Proof. intros (A & B & C) (A' & B' & C'); repeat split; congruence. Qed.
Lemma same_winv s s' : same s s' -> winv s -> winv s'.
Proof. intros (A & B & C) H; unfold winv; rewrite A, B, C; exact H. Qed.

(** Only the elements in cell [l] change. *)
Definition touch l s s' : Prop :=
  e_env s' = e_env s /\ e_next s' = e_next s /\ (forall l', l' <> l -> e_heap s' !! l' = e_heap s !! l') /\
  match e_heap s !! l with
  | None => e_heap s' !! l = None
  | Some c => exists b, e_heap s' !! l = Some (ECell b (e_refs c)) /\ zlen b = zlen (e_buf c) /\
      (Forall islive (e_buf c) -> Forall islive b)
  end.
Lemma same_touch l s s' : same s s' -> touch l s s'.
Proof.
  intros (A & B & C). split; [|split; [|split]]; try congruence. rewrite A.
  destruct (e_heap s !! l) as [c|]; [|reflexivity]. exists (e_buf c). destruct c; auto.
Qed.
Lemma touch_refl l s : touch l s s. Proof. apply same_touch, same_refl. Qed.
Lemma touch_trans l s1 s2 s3 : touch l s1 s2 -> touch l s2 s3 -> touch l s1 s3.
Proof.
  intros (A & B & C & D) (A' & B' & C' & D'). split; [|split; [|split]]; try congruence.
  - intros l' Hl; rewrite C', C by exact Hl; reflexivity.
  - destruct (e_heap s1 !! l) as [c|]; [|rewrite D in D'; exact D'].
    destruct D as (b & Hb & Hl & Hv). rewrite Hb in D'. destruct D' as (b' & Hb' & Hl' & Hv').
    exists b'; cbn in *. repeat split; [exact Hb'|congruence|auto].
Qed.
Lemma touch_cell l s s' c : touch l s s' -> e_heap s !! l = Some c ->
  exists b, e_heap s' !! l = Some (ECell b (e_refs c)) /\ zlen b = zlen (e_buf c) /\ (Forall islive (e_buf c) -> Forall islive b).
Proof. intros (_ & _ & _ & D) H; rewrite H in D; exact D. Qed.
Lemma touch_any l s s' l' c : touch l s s' -> e_heap s !! l' = Some c ->
  exists c', e_heap s' !! l' = Some c' /\ zlen (e_buf c') = zlen (e_buf c) /\ e_refs c' = e_refs c.
Proof.
  intros H Hl. destruct (decide (l' = l)) as [->|Hn].
  - destruct (touch_cell l s s' c H Hl) as (b & Hb & Hz & _). exists (ECell b (e_refs c)); auto.
  - destruct H as (_ & _ & C & _). exists c. rewrite C by exact Hn; auto.
Qed.
Lemma touch_winv l s s' : touch l s s' -> winv s -> winv s'.
Proof.
  intros (A & B & C & D) [Hc Ho]; unfold winv; rewrite A, B; split.
  - intros l' c' H. destruct (decide (l' = l)) as [->|Hn].
    + destruct (e_heap s !! l) as [c|] eqn:E; [|congruence].
      destruct D as (b & Hb & Hl & Hv). rewrite Hb in H; injection H as <-.
      destruct (Hc l c E) as [H1 H2 H3 H4 H5]. constructor; cbn; auto; lia.
    + rewrite C in H by exact Hn. exact (Hc l' c' H).
  - intros x o Hx l' Hr. destruct (Ho x o Hx l' Hr) as (c & Hl & H1 & H2 & H3).
    destruct (decide (l' = l)) as [->|Hn]; [|rewrite C by exact Hn; eauto].
    rewrite Hl in D. destruct D as (b & Hb & Hlen & _). exists (ECell b (e_refs c)); cbn. repeat split; auto; lia.
Qed.
Lemma objects_same_other h h' l : (forall l', l' <> l -> h' !! l' = h !! l') -> delete l h' = delete l h.
Proof.
  intros H; apply map_eq; intros l'. destruct (decide (l' = l)) as [->|Hn]; [rewrite !lookup_delete; reflexivity|].
  rewrite !lookup_delete_ne by congruence; apply H, Hn.
Qed.
Lemma touch_objects l s s' : touch l s s' -> winv s -> objects (e_heap s') = objects (e_heap s).
Proof.
  intros H Hw. pose proof (touch_winv l s s' H Hw) as Hw'. destruct H as (_ & _ & C & D).
  pose proof (objects_same_other _ _ _ C) as E.
  destruct (e_heap s !! l) as [c|] eqn:El.
  - destruct D as (b & Hb & Hlen & _).
    pose proof (objects_delete _ _ _ El) as E1. pose proof (objects_delete _ _ _ Hb) as E2. rewrite E in E2.
    rewrite live_slots_all in E1 by (eapply cf_live, (proj1 Hw); exact El).
    rewrite live_slots_all in E2 by (eapply cf_live, (proj1 Hw'); exact Hb). cbn in E2. lia.
  - rewrite !delete_notin in E by assumption. congruence.
Qed.
Lemma touch_bal l s s' d k L m : touch l s s' -> winv s -> bal d s -> ghost s s' k L m -> bal (d + k - zlen L) s'.
Proof.
  intros Ht Hw Hb (Hn & HL & _). unfold bal in *. rewrite (touch_objects l s s' Ht Hw), HL, zlen_app. lia.
Qed.

(** Frame: what the arrays outside [X] show stays. *)
Definition fr (X : var -> Prop) s s' : Prop := forall y, ~ X y ->
  e_env s' !! y = e_env s !! y /\
  forall o l c, e_env s !! y = Some o -> o_ref o = Some l -> e_heap s !! l = Some c ->
    exists c', e_heap s' !! l = Some c' /\ e_buf c' = e_buf c.
Lemma fr_refl X s : fr X s s. Proof. intros y _; split; [reflexivity|eauto]. Qed.
Lemma fr_trans X s1 s2 s3 : fr X s1 s2 -> fr X s2 s3 -> fr X s1 s3.
Proof.
  intros H H' y Hy. destruct (H y Hy) as [A B], (H' y Hy) as [A' B']. split; [congruence|].
  intros o l c Ho Hr Hc. destruct (B o l c Ho Hr Hc) as (c1 & Hc1 & E1).
  destruct (B' o l c1) as (c2 & Hc2 & E2); [congruence|exact Hr|exact Hc1|]. exists c2; split; congruence.
Qed.
Lemma fr_mono (X Y : var -> Prop) s s' : (forall y, X y -> Y y) -> fr X s s' -> fr Y s s'.
Proof. intros HXY H y Hy; apply H; auto. Qed.
Lemma fr_view X s s' y : winv s -> fr X s s' -> ~ X y -> view s' y = view s y.
Proof.
  intros [_ Ho] H Hy. destruct (H y Hy) as [A B]. unfold view; rewrite A.
  destruct (e_env s !! y) as [o|] eqn:E; [|reflexivity]. destruct (o_ref o) as [l|] eqn:Er; [|reflexivity].
  destruct (Ho y o E l Er) as (c & Hc & _). destruct (B o l c eq_refl Er Hc) as (c' & Hc' & Eb).
  rewrite Hc, Hc', Eb; reflexivity.
Qed.
Lemma same_fr X s s' : same s s' -> fr X s s'.
Proof. intros (A & B & C) y _; rewrite A, B; split; [reflexivity|eauto]. Qed.
(** Cell [l] belongs to [X] alone. *)
Definition mine (X : var -> Prop) s l : Prop := forall y o, e_env s !! y = Some o -> o_ref o = Some l -> X y.
Lemma touch_fr X l s s' : mine X s l -> touch l s s' -> fr X s s'.
Proof.
  intros Hm (A & B & C & D) y Hy; rewrite A; split; [reflexivity|]. intros o l' c Ho Hr Hc.
  exists c; rewrite C; [auto|]. intros ->. exact (Hy (Hm y o Ho Hr)).
Qed.
Lemma sole_mine s x o l c : winv s -> e_env s !! x = Some o -> o_ref o = Some l -> e_heap s !! l = Some c ->
  e_refs c = 1 -> mine (eq x) s l.
Proof.
  intros [Hc _] Hx Hr Hl H1 y oy Hy Hry. destruct (decide (x = y)) as [|Hn]; [assumption|].
  pose proof (count_ge2 l (e_env s) x o y oy Hn Hx Hr Hy Hry). pose proof (cf_refs _ _ _ _ (Hc l c Hl)). lia.
Qed.

(** Elementary steps. *)
Lemma cell_of_ok s l c : e_heap s !! l = Some c -> cell_of l s = Ok c s.
Proof. unfold cell_of; intros ->; reflexivity. Qed.
Lemma obj_of_ok s x o : e_env s !! x = Some o -> obj_of x s = Ok o s.
Proof. unfold obj_of; intros ->; reflexivity. Qed.
Lemma live_nth b i : Forall islive b -> 0 <= i < zlen b -> exists v, znth i b = Some (Live v).
Proof.
  intros Hb Hi. destruct (znth_some i b Hi) as (a & Ha).
  assert (islive a) as Hla.
  { unfold znth in Ha. destruct (i <? 0); [discriminate|]. apply nth_error_In in Ha. rewrite List.Forall_forall in Hb. auto. }
  destruct (islive_ex a Hla) as (v & ->); eauto.
Qed.
Lemma get_slot_ok s l c i : winv s -> e_heap s !! l = Some c -> 0 <= i < zlen (e_buf c) ->
  exists v, znth i (e_buf c) = Some (Live v) /\ get_slot l i s = Ok v s.
Proof.
  intros Hw Hl Hi. destruct (live_nth (e_buf c) i) as (v & Hv); [eapply cf_live, (proj1 Hw); exact Hl|exact Hi|].
  exists v; split; [exact Hv|]. unfold get_slot, bind. rewrite (cell_of_ok _ _ _ Hl).
  assert ((i <? 0) = false) as -> by lia. rewrite Hv; reflexivity.
Qed.
Lemma Forall_zupd (P : slot V -> Prop) i k b : Forall P k -> Forall P b -> Forall P (zupd i k b).
Proof.
  intros Hk Hb. unfold zupd, ztake, zdrop. apply Forall_app; split; [apply Forall_take, Hb|].
  apply Forall_app; split; [exact Hk|apply Forall_drop, Hb].
Qed.
Lemma set_slot_ok s l c i v : winv s -> e_heap s !! l = Some c -> 0 <= i < zlen (e_buf c) ->
  exists s', set_slot l i v s = Ok tt s' /\ touch l s s' /\ ghost s s' 0 [] 0 /\
    e_heap s' !! l = Some (ECell (zupd i [Live v] (e_buf c)) (e_refs c)).
Proof.
  intros Hw Hl Hi. destruct (live_nth (e_buf c) i) as (w & Hv); [eapply cf_live, (proj1 Hw); exact Hl|exact Hi|].
  eexists; split; [|split; [|split]].
  - unfold set_slot, bind. rewrite (cell_of_ok _ _ _ Hl). assert ((i <? 0) = false) as -> by lia. rewrite Hv; reflexivity.
  - split; [reflexivity|split; [reflexivity|split]].
    + intros l' Hn; cbn. rewrite lookup_insert_ne by congruence; reflexivity.
    + rewrite Hl. eexists; cbn; rewrite lookup_insert. split; [reflexivity|]. split.
      * apply zlen_zupd; [lia|]. rewrite zlen_cons, zlen_nil; lia.
      * intros Hb; apply Forall_zupd; [constructor; [discriminate|constructor]|exact Hb].
  - unfold ghost, net; cbn; rewrite app_nil_r; repeat split; lia.
  - cbn. rewrite lookup_insert. reflexivity.
Qed.
Lemma construct_ok s l c i v : winv s -> e_heap s !! l = Some c -> 0 <= i < zlen (e_buf c) ->
  exists s' w, znth i (e_buf c) = Some (Live w) /\ construct l i v s = Ok tt s' /\ touch l s s' /\ ghost s s' 1 [w] 0 /\
    e_heap s' !! l = Some (ECell (zupd i [Live v] (e_buf c)) (e_refs c)).
Proof.
  intros Hw Hl Hi. destruct (live_nth (e_buf c) i) as (w & Hv); [eapply cf_live, (proj1 Hw); exact Hl|exact Hi|].
  eexists; exists w; split; [exact Hv|split; [|split; [|split]]].
  - unfold construct, bind. rewrite (cell_of_ok _ _ _ Hl). assert ((i <? 0) = false) as -> by lia. rewrite Hv; reflexivity.
  - split; [reflexivity|split; [reflexivity|split]].
    + intros l' Hn; cbn. rewrite lookup_insert_ne by congruence; reflexivity.
    + rewrite Hl. eexists; cbn; rewrite lookup_insert. split; [reflexivity|]. split.
      * apply zlen_zupd; [lia|]. rewrite zlen_cons, zlen_nil; lia.
      * intros Hb; apply Forall_zupd; [constructor; [discriminate|constructor]|exact Hb].
  - unfold ghost, net; cbn. repeat split; lia.
  - cbn. rewrite lookup_insert. reflexivity.
Qed.
Lemma destroy_all_ok b s : Forall islive b ->
  exists s', destroy_all b s = Ok tt s' /\ same s s' /\ ghost s s' (- zlen b) [] 0.
Proof.
  revert s; induction b as [|a b IH]; intros s Hb.
  - exists s; split; [reflexivity|]. split; [apply same_refl|apply ghost_refl].
  - inversion Hb as [|? ? Ha Hb']; subst. destruct (islive_ex a Ha) as (v & ->). cbn [destroy_all]. unfold bind, upd.
    destruct (IH (count_up 0 1 [] 0 s) Hb') as (s' & -> & Hs & Hg). exists s'; split; [reflexivity|]. split.
    + eapply same_trans; [|exact Hs]. repeat split.
    + assert (ghost s (count_up 0 1 [] 0 s) (-1) [] 0) as G by (unfold ghost, net; cbn; rewrite ?app_nil_r; repeat split; lia).
      eapply ghost_eq; [exact (ghost_trans _ _ _ _ _ _ _ _ _ G Hg)| |reflexivity|reflexivity]. rewrite zlen_cons; lia.
Qed.

Section WithType.
Variable t : ety V.

Definition nop s s' : Prop := same s s' /\ ghost s s' 0 [] 0.
Lemma attempt_runs s (P : unit -> St -> Prop) (E : exn -> St -> Prop) :
  (forall s', nop s s' -> P tt s') -> (forall e s', nop s s' -> E e s') -> runs (attempt t) s P E.
Proof.
  intros HP HE. unfold runs, attempt.
  assert (nop s (EState (e_heap s) (e_env s) (e_next s) (S (e_tick s)) (e_built s) (e_killed s) (e_lost s) (e_mem s))) as Hn.
  { split; [repeat split|]. unfold ghost, net; cbn; rewrite app_nil_r; repeat split; lia. }
  destruct (e_fails t (e_tick s)); [apply HE|apply HP]; exact Hn.
Qed.

(** Copying loops: only the target cell changes. *)
Definition only l s (s' : St) : Prop := touch l s s' /\ ghost s s' 0 [] 0.
Lemma only_refl l s : only l s s. Proof. split; [apply touch_refl|apply ghost_refl]. Qed.
Lemma only_trans l s1 s2 s3 : only l s1 s2 -> only l s2 s3 -> only l s1 s3.
Proof. intros [A B] [A' B']; split; [eapply touch_trans; eauto|exact (ghost_trans _ _ _ _ _ _ _ _ _ B B')]. Qed.
Lemma nop_only l s s' : nop s s' -> only l s s'.
Proof. intros [A B]; split; [apply same_touch, A|exact B]. Qed.
Lemma only_winv l s s' : only l s s' -> winv s -> winv s'.
Proof. intros [A _]; apply touch_winv with l, A. Qed.

Lemma copy_up_runs n : forall ls i ld j s cs cd, winv s -> e_heap s !! ls = Some cs -> e_heap s !! ld = Some cd ->
  0 <= i -> i + Z.of_nat n <= zlen (e_buf cs) -> 0 <= j -> j + Z.of_nat n <= zlen (e_buf cd) ->
  runs (copy_up t n ls i ld j) s (fun _ s' => only ld s s') (fun _ s' => only ld s s').
Proof.
  induction n as [|n IH]; intros ls i ld j s cs cd Hw Hs Hd Hi Hi' Hj Hj'; cbn [copy_up].
  - apply runs_ret, only_refl.
  - destruct (get_slot_ok s ls cs i Hw Hs) as (v & _ & Hg); [lia|]. eapply runs_step; [exact Hg|].
    eapply runs_bind with (P' := fun _ s' => nop s s'); [apply attempt_runs; [auto|intros; apply nop_only; assumption]|].
    intros _ s1 Hn. pose proof (nop_only ld _ _ Hn) as H1. pose proof (only_winv _ _ _ H1 Hw) as Hw1.
    destruct (touch_any _ _ _ _ _ (proj1 H1) Hs) as (cs1 & Hs1 & Ls1 & _).
    destruct (touch_any _ _ _ _ _ (proj1 H1) Hd) as (cd1 & Hd1 & Ld1 & _).
    destruct (set_slot_ok s1 ld cd1 j v Hw1 Hd1) as (s2 & E2 & T2 & G2 & _); [lia|].
    eapply runs_step; [exact E2|]. assert (only ld s1 s2) as H2 by (split; assumption).
    pose proof (only_winv _ _ _ H2 Hw1) as Hw2. pose proof (only_trans _ _ _ _ H1 H2) as H12.
    destruct (touch_any _ _ _ _ _ T2 Hs1) as (cs2 & Hs2 & Ls2 & _).
    destruct (touch_any _ _ _ _ _ T2 Hd1) as (cd2 & Hd2 & Ld2 & _).
    eapply runs_conseq; [apply (IH ls (i + 1) ld (j + 1) s2 cs2 cd2 Hw2 Hs2 Hd2); lia| |];
      cbn beta; intros _ s3 H3; exact (only_trans _ _ _ _ H12 H3).
Qed.
Lemma copy_in_runs vs : forall ld j s cd, winv s -> e_heap s !! ld = Some cd ->
  0 <= j -> j + zlen vs <= zlen (e_buf cd) ->
  runs (copy_in t vs ld j) s (fun _ s' => only ld s s') (fun _ s' => only ld s s').
Proof.
  induction vs as [|v vs IH]; intros ld j s cd Hw Hd Hj Hj'; cbn [copy_in].
  - apply runs_ret, only_refl.
  - rewrite zlen_cons in Hj'. pose proof (zlen_nonneg vs).
    eapply runs_bind with (P' := fun _ s' => nop s s'); [apply attempt_runs; [auto|intros; apply nop_only; assumption]|].
    intros _ s1 Hn. pose proof (nop_only ld _ _ Hn) as H1. pose proof (only_winv _ _ _ H1 Hw) as Hw1.
    destruct (touch_any _ _ _ _ _ (proj1 H1) Hd) as (cd1 & Hd1 & Ld1 & _).
    destruct (set_slot_ok s1 ld cd1 j (Some v) Hw1 Hd1) as (s2 & E2 & T2 & G2 & _); [lia|].
    eapply runs_step; [exact E2|]. assert (only ld s1 s2) as H2 by (split; assumption).
    pose proof (only_winv _ _ _ H2 Hw1) as Hw2. pose proof (only_trans _ _ _ _ H1 H2) as H12.
    destruct (touch_any _ _ _ _ _ T2 Hd1) as (cd2 & Hd2 & Ld2 & _).
    eapply runs_conseq; [apply (IH ld (j + 1) s2 cd2 Hw2 Hd2); lia| |];
      cbn beta; intros _ s3 H3; exact (only_trans _ _ _ _ H12 H3).
Qed.
Lemma shift_up_runs n : forall l i k s c, winv s -> e_heap s !! l = Some c ->
  0 <= i -> 0 <= k -> i + Z.of_nat n + k <= zlen (e_buf c) ->
  runs (shift_up t n l i k) s (fun _ s' => only l s s') (fun _ s' => only l s s').
Proof.
  induction n as [|n IH]; intros l i k s c Hw Hc Hi Hk Hi'; cbn [shift_up].
  - apply runs_ret, only_refl.
  - destruct (get_slot_ok s l c (i + Z.of_nat n) Hw Hc) as (v & _ & Hg); [lia|]. eapply runs_step; [exact Hg|].
    eapply runs_bind with (P' := fun _ s' => nop s s'); [apply attempt_runs; [auto|intros; apply nop_only; assumption]|].
    intros _ s1 Hn. pose proof (nop_only l _ _ Hn) as H1. pose proof (only_winv _ _ _ H1 Hw) as Hw1.
    destruct (touch_any _ _ _ _ _ (proj1 H1) Hc) as (c1 & Hc1 & L1 & _).
    destruct (set_slot_ok s1 l c1 (i + Z.of_nat n + k) v Hw1 Hc1) as (s2 & E2 & T2 & G2 & _); [lia|].
    eapply runs_step; [exact E2|]. assert (only l s1 s2) as H2 by (split; assumption).
    pose proof (only_winv _ _ _ H2 Hw1) as Hw2. pose proof (only_trans _ _ _ _ H1 H2) as H12.
    destruct (touch_any _ _ _ _ _ T2 Hc1) as (c2 & Hc2 & L2 & _).
    eapply runs_conseq; [apply (IH l i k s2 c2 Hw2 Hc2); lia| |];
      cbn beta; intros _ s3 H3; exact (only_trans _ _ _ _ H12 H3).
Qed.
(** Moving to the front; when nothing throws the elements arrive unchanged. *)
Lemma move_down_runs n : forall l i j s c, winv s -> e_heap s !! l = Some c ->
  0 <= j < i -> i + Z.of_nat n <= zlen (e_buf c) ->
  runs (move_down t n l i j) s
    (fun _ s' => only l s s' /\ exists c', e_heap s' !! l = Some c' /\ zlen (e_buf c') = zlen (e_buf c) /\
       (forall p, p < j -> znth p (e_buf c') = znth p (e_buf c)) /\
       (forall p, 0 <= p < Z.of_nat n -> znth (j + p) (e_buf c') = znth (i + p) (e_buf c)))
    (fun _ s' => only l s s' /\ e_moves t = false).
Proof.
  induction n as [|n IH]; intros l i j s c Hw Hc Hj Hi; cbn [move_down].
  - apply runs_ret. split; [apply only_refl|]. exists c. repeat split; auto. intros; lia.
  - destruct (get_slot_ok s l c i Hw Hc) as (v & Hv & Hg); [lia|]. eapply runs_step; [exact Hg|].
    eapply runs_bind with (P' := fun _ s' => only l s s' /\ exists c', e_heap s' !! l = Some c' /\
      zlen (e_buf c') = zlen (e_buf c) /\ znth j (e_buf c') = Some (Live v) /\
      (forall p, p < j -> znth p (e_buf c') = znth p (e_buf c)) /\ (forall p, i < p -> znth p (e_buf c') = znth p (e_buf c))).
    + destruct (e_moves t) eqn:Em.
      * destruct (set_slot_ok s l c j v Hw Hc) as (s1 & E1 & T1 & G1 & H1); [lia|].
        eapply runs_step; [exact E1|].
        assert (zlen (zupd j [Live v] (e_buf c)) = zlen (e_buf c)) as Lz
          by (apply zlen_zupd; [lia|rewrite zlen_cons, zlen_nil; lia]).
        destruct (set_slot_ok s1 l _ i None (touch_winv _ _ _ T1 Hw) H1) as (s2 & E2 & T2 & G2 & H2); [cbn; lia|].
        unfold runs; rewrite E2. split; [split; [eapply touch_trans; eauto|exact (ghost_trans _ _ _ _ _ _ _ _ _ G1 G2)]|].
        eexists; split; [exact H2|]. cbn.
        assert (zlen (zupd i [Live None] (zupd j [Live v] (e_buf c))) = zlen (e_buf c)) as Lz2
          by (rewrite zlen_zupd; [exact Lz|lia|rewrite zlen_cons, zlen_nil; lia]).
        split; [exact Lz2|]. repeat split; intros; rewrite !znth_zupd, ?zlen_cons, ?zlen_nil, ?Lz;
          repeat match goal with |- context [if ?b then _ else _] => destruct b eqn:? end; try lia; try reflexivity.
        rewrite Z.sub_diag; reflexivity.
      * eapply runs_bind with (P' := fun _ s' => nop s s'); [apply attempt_runs; [auto|]|].
        { intros; split; [apply nop_only; assumption|reflexivity]. }
        intros _ s1 Hn. pose proof (nop_only l _ _ Hn) as H1.
        assert (e_heap s1 !! l = Some c) as Hc1 by (destruct Hn as [(A & _) _]; rewrite A; exact Hc).
        destruct (set_slot_ok s1 l c j v (only_winv _ _ _ H1 Hw) Hc1) as (s2 & E2 & T2 & G2 & H2); [lia|].
        unfold runs; rewrite E2. split; [eapply only_trans; [exact H1|split; assumption]|].
        eexists; split; [exact H2|]. cbn. split; [apply zlen_zupd; [lia|rewrite zlen_cons, zlen_nil; lia]|].
        repeat split; intros; rewrite !znth_zupd, ?zlen_cons, ?zlen_nil;
          repeat match goal with |- context [if ?b then _ else _] => destruct b eqn:? end; try lia; try reflexivity.
        rewrite Z.sub_diag; reflexivity.
    + cbn beta. intros _ s1 (H1 & c1 & Hc1 & L1 & Nj & Nlo & Nhi).
      eapply runs_conseq; [apply (IH l (i + 1) (j + 1) s1 c1 (only_winv _ _ _ H1 Hw) Hc1); lia| |]; cbn beta.
      * intros _ s2 (H2 & c2 & Hc2 & L2 & Mlo & Mhi). split; [exact (only_trans _ _ _ _ H1 H2)|].
        exists c2; split; [exact Hc2|]. split; [lia|]. split.
        -- intros p Hp. rewrite Mlo, Nlo by lia. reflexivity.
        -- intros p Hp. destruct (decide (p = 0)) as [->|Hp0].
           ++ rewrite !Z.add_0_r. rewrite Mlo by lia. congruence.
           ++ replace (j + p) with (j + 1 + (p - 1)) by lia. rewrite Mhi by lia.
              replace (i + 1 + (p - 1)) with (i + p) by lia. apply Nhi; lia.
      * intros _ s2 (H2 & Em). split; [exact (only_trans _ _ _ _ H1 H2)|exact Em].
Qed.
End WithType.
End LI.
