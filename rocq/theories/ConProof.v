(** Threads that do not modify copied objects: every interleaving is safe. *)
From Coq Require Import ZifyBool.
From Verif Require Import Base ZList ConModel ConSpec.
From stdpp Require Import gmap.
Open Scope Z_scope.

(** Counting. *)
Lemma sum_of_insert {A} (f : A -> Z) : forall l i t t', l !! i = Some t -> sum_of f (<[i := t']> l) = sum_of f l - f t + f t'.
Proof.
  induction l as [|a l IH]; intros [|i] t t' E; cbn in E; try discriminate; [injection E as <-; cbn; lia|].
  change (f a + sum_of f (<[i := t']> l) = f a + sum_of f l - f t + f t'). rewrite (IH _ _ t' E). lia.
Qed.
Lemma sum_of_nonneg {A} (f : A -> Z) l : (forall t, 0 <= f t) -> 0 <= sum_of f l.
Proof. intros N. induction l as [|a l IH]; cbn; [lia|]. pose proof (N a). lia. Qed.
Lemma sum_of_ge {A} (f : A -> Z) : forall l i t, (forall t, 0 <= f t) -> l !! i = Some t -> f t <= sum_of f l.
Proof.
  induction l as [|a l IH]; intros [|i] t N E; cbn in *; try discriminate; [injection E as <-; pose proof (sum_of_nonneg f l N); lia|].
  pose proof (IH _ _ N E). pose proof (N a). lia.
Qed.
Lemma sum_of_ge2 {A} (f : A -> Z) : forall l i j t u, (forall t, 0 <= f t) -> i <> j -> l !! i = Some t -> l !! j = Some u -> f t + f u <= sum_of f l.
Proof.
  induction l as [|a l IH]; intros [|i] [|j] t u N D E1 E2; cbn in *; try discriminate; try contradiction.
  - injection E1 as <-. pose proof (sum_of_ge f l j u N E2). lia.
  - injection E2 as <-. pose proof (sum_of_ge f l i t N E1). lia.
  - assert (i <> j) by congruence. pose proof (IH _ _ _ _ N H E1 E2). pose proof (N a). lia.
Qed.
Lemma sum_of_zero {A} (f : A -> Z) l : (forall t, t ∈ l -> f t = 0) -> sum_of f l = 0.
Proof. induction l as [|a l IH]; intros H; cbn; [reflexivity|]. rewrite (H a) by left. rewrite IH; [lia|]. intros t I. apply H. right. exact I. Qed.
Lemma sum_of_ext {A} (f g : A -> Z) l : (forall t, t ∈ l -> f t = g t) -> sum_of f l = sum_of g l.
Proof. induction l as [|a l IH]; intros H; cbn; [reflexivity|]. rewrite (H a) by left. rewrite IH; [reflexivity|]. intros t I. apply H. right. exact I. Qed.

Definition has (l : Z) (o : option handle) : Z := match o with Some (Some (l', _)) => if l' =? l then 1 else 0 | _ => 0 end.
Lemma has_range l o : 0 <= has l o <= 1.
Proof. destruct o as [[[l' n]|]|]; cbn; try lia. destruct (l' =? l); lia. Qed.
Lemma objects_nonneg l e : 0 <= objects l e.
Proof. unfold objects. lia. Qed.
Lemma objects_fresh l e x r : e !! x = None -> objects l (<[x := r]> e) = objects l e + has l (Some r).
Proof.
  intros E. unfold objects. destruct (decide (option_map fst r = Some l)) as [D|D].
  - rewrite map_filter_insert_True by exact D. rewrite map_size_insert_None by (apply map_filter_lookup_None; left; exact E).
    destruct r as [[l' n]|]; cbn in *; [|discriminate]. injection D as ->. rewrite Z.eqb_refl. lia.
  - rewrite map_filter_insert_False by exact D. rewrite delete_notin by exact E.
    destruct r as [[l' n]|]; cbn in *; [|lia]. destruct (Z.eqb_spec l' l) as [->|]; [contradiction|lia].
Qed.
Lemma objects_delete l e x : objects l (delete x e) = objects l e - has l (e !! x).
Proof.
  destruct (e !! x) as [r|] eqn:E; [|rewrite delete_notin by exact E; cbn; lia].
  rewrite <- (insert_delete e x r E) at 2. rewrite objects_fresh by apply lookup_delete. lia.
Qed.
Lemma objects_insert l e x r : objects l (<[x := r]> e) = objects l e - has l (e !! x) + has l (Some r).
Proof. rewrite <- insert_delete_insert, objects_fresh by apply lookup_delete. rewrite objects_delete. lia. Qed.
Lemma objects_has l e x : has l (e !! x) <= objects l e.
Proof. pose proof (objects_delete l e x). pose proof (objects_nonneg l (delete x e)). lia. Qed.
Lemma objects_has2 l e x y : x <> y -> has l (e !! x) + has l (e !! y) <= objects l e.
Proof. intros N. pose proof (objects_has l (delete x e) y) as H. rewrite lookup_delete_ne in H by congruence. rewrite objects_delete in H. lia. Qed.
Lemma objects_empty l : objects l ∅ = 0.
Proof. unfold objects. rewrite map_filter_empty, map_size_empty. reflexivity. Qed.

(** References held and releases due. *)
Definition mtok (l : Z) (m : micro) : Z := match m with DLoad l' | DCleanse l' | DDec l' => if l' =? l then 1 else 0 | _ => 0 end.
Definition tok (l : Z) (t : thread) : Z := objects l (t_env t) + mtok l (t_micro t).
Definition due (l : Z) (t : thread) : Z := match t_micro t with DFree l' => if l' =? l then 1 else 0 | _ => 0 end.
Lemma mtok_range l m : 0 <= mtok l m <= 1.
Proof. destruct m; cbn; try lia; destruct (_ =? _); lia. Qed.
Lemma tok_nonneg l t : 0 <= tok l t.
Proof. unfold tok. pose proof (objects_nonneg l (t_env t)). pose proof (mtok_range l (t_micro t)). lia. Qed.
Lemma due_range l t : 0 <= due l t <= 1.
Proof. unfold due. destruct (t_micro t); try lia; destruct (_ =? _); lia. Qed.

(** The value of an object once the write in progress is done. *)
Definition pend (m : micro) (x : Z) (w : list Z) : list Z := match m with MWrite y (Some (i, v)) => if x =? y then zupd i [v] w else w | _ => w end.
(** The object that a thread calls c_str() on, before its NUL is written. *)
Definition waiting (m : micro) : option Z := match m with NCheck x | NGrow x | MWrite x None => Some x | _ => None end.
Definition V (h : gmap Z cell) (m : micro) (x : Z) (eh : option handle) (pv : option pval) : Prop :=
  match eh, pv with
  | None, None => True
  | Some None, Some None => True
  | Some None, Some (Some (w, _)) => w = []
  | Some (Some (l, n)), Some (Some (w, b)) =>
    exists c, h !! l = Some c /\ inside n c /\ w = pend m x (text_in n c) /\ (fst b = true -> k_refs c = 1) /\ (snd b = true -> waiting m <> Some x -> ended n c)
  | _, _ => False
  end.
Definition MC (h : gmap Z cell) (t : thread) : Prop :=
  match t_micro t with
  | Idle | DLoad _ | DDec _ | DFree _ => True
  | DCleanse l => exists c, h !! l = Some c /\ k_refs c = 1
  | NCheck x | NGrow x => exists l n c, t_env t !! x = Some (Some (l, n)) /\ h !! l = Some c /\ k_refs c = 1
  | MWrite x o => exists l n c, t_env t !! x = Some (Some (l, n)) /\ h !! l = Some c /\ k_refs c = 1 /\ match o with Some (i, _) => 0 <= i < snd n | None => True end
  | _ => False
  end.
Record T (h : gmap Z cell) (t : thread) (p : private) : Prop := {
  T_log : match waiting (t_micro t) with
    | None => t_log t = p_log p
    | Some x => exists w b, p_vals p !! x = Some (Some (w, b)) /\ p_log p = (w ++ [0]) :: t_log t
    end;
  T_vals : forall x, V h (t_micro t) x (t_env t !! x) (p_vals p !! x);
  T_micro : MC h t
}.
Record G (strict : bool) (c : config) (ps fs : list private) : Prop := {
  G_threads : forall i t, g_threads c !! i = Some t -> exists p f, ps !! i = Some p /\ fs !! i = Some f /\
    T (m_heap (g_mem c)) t p /\ pexec strict (t_prog t) p = Some f;
  G_len : length ps = length (g_threads c);
  G_count : forall l, match m_heap (g_mem c) !! l with
    | Some k => k_refs k = sum_of (tok l) (g_threads c) /\ sum_of (due l) (g_threads c) = if k_refs k =? 0 then 1 else 0
    | None => sum_of (tok l) (g_threads c) = 0 /\ sum_of (due l) (g_threads c) = 0
    end;
  G_fresh : forall l, m_next (g_mem c) <= l -> m_heap (g_mem c) !! l = None
}.

(** What keeps the facts about one object. *)
Definition kept (h h' : gmap Z cell) (l : Z) : Prop := forall c, h !! l = Some c -> exists c', h' !! l = Some c' /\ k_elems c' = k_elems c /\ (k_refs c = 1 -> k_refs c' = 1).
Lemma V_kept h h' m x eh pv : V h m x eh pv -> (forall l len, eh = Some (Some (l, len)) -> kept h h' l) -> V h' m x eh pv.
Proof.
  unfold V. destruct eh as [[[l len]|]|]; destruct pv as [[[w b]|]|]; try tauto. intros (c & Hc & Hlen & Hw & Hb) K.
  destruct (K l len eq_refl c Hc) as (c' & Hc' & E & R). exists c'. unfold inside, text_in, ended in *. rewrite E. tauto.
Qed.
Lemma has_some l len o : o = Some (Some (l, len)) -> has l o = 1.
Proof. intros ->. cbn. rewrite Z.eqb_refl. reflexivity. Qed.
Lemma T_kept h h' t p : T h t p -> (forall l, 0 < tok l t -> kept h h' l) -> T h' t p.
Proof.
  intros [L Vs M] K. split; [exact L| |].
  - intros x. eapply V_kept; [apply Vs|]. intros l len E. apply K. unfold tok. pose proof (objects_has l (t_env t) x) as O. rewrite (has_some l len _ E) in O. pose proof (mtok_range l (t_micro t)). lia.
  - unfold MC in *. destruct (t_micro t) eqn:Em; try exact M.
    + destruct M as (c & Hc & R). destruct (K l) with (c := c) as (c' & Hc' & _ & R'); [|exact Hc|exists c'; tauto].
      unfold tok. rewrite Em. cbn. rewrite Z.eqb_refl. pose proof (objects_nonneg l (t_env t)). lia.
    + destruct M as (l & len & c & E & Hc & R); destruct (K l) with (c := c) as (c' & Hc' & _ & R'); [|exact Hc|exists l, len, c'; tauto];
      unfold tok; pose proof (objects_has l (t_env t) x) as O; pose proof (has_some l len _ E); pose proof (mtok_range l (t_micro t)); lia.
    + destruct M as (l & len & c & E & Hc & R); destruct (K l) with (c := c) as (c' & Hc' & _ & R'); [|exact Hc|exists l, len, c'; tauto];
      unfold tok; pose proof (objects_has l (t_env t) x) as O; pose proof (has_some l len _ E); pose proof (mtok_range l (t_micro t)); lia.
    + destruct M as (l & len & c & E & Hc & R & B). destruct (K l) with (c := c) as (c' & Hc' & _ & R'); [|exact Hc|exists l, len, c'; tauto].
      unfold tok. pose proof (objects_has l (t_env t) x) as O. pose proof (has_some l len _ E). pose proof (mtok_range l (t_micro t)). lia.
Qed.
Lemma G_update strict c ps fs i t p f m' t' p' : G strict c ps fs -> g_threads c !! i = Some t -> ps !! i = Some p -> fs !! i = Some f ->
  T (m_heap m') t' p' -> pexec strict (t_prog t') p' = Some f ->
  (forall j u l, j <> i -> g_threads c !! j = Some u -> 0 < tok l u -> kept (m_heap (g_mem c)) (m_heap m') l) ->
  (forall l, match m_heap m' !! l with
    | Some k => k_refs k = sum_of (tok l) (g_threads c) - tok l t + tok l t' /\
                sum_of (due l) (g_threads c) - due l t + due l t' = if k_refs k =? 0 then 1 else 0
    | None => sum_of (tok l) (g_threads c) - tok l t + tok l t' = 0 /\ sum_of (due l) (g_threads c) - due l t + due l t' = 0
    end) ->
  (forall l, m_next m' <= l -> m_heap m' !! l = None) ->
  G strict (Config m' (<[i := t']> (g_threads c))) (<[i := p']> ps) fs.
Proof.
  intros H Ht Hp Hf HT HP K C F. split; cbn [g_mem g_threads].
  - intros j u Hu. destruct (decide (j = i)) as [->|N].
    + rewrite list_lookup_insert in Hu by (eapply lookup_lt_Some; exact Ht). injection Hu as <-. exists p', f. rewrite list_lookup_insert by (eapply lookup_lt_Some; exact Hp). tauto.
    + rewrite list_lookup_insert_ne in Hu by congruence. destruct (G_threads _ _ _ _ H j u Hu) as (q & g & Hq & Hg & HTu & HPu). exists q, g. rewrite list_lookup_insert_ne by congruence.
      split; [exact Hq|]. split; [exact Hg|]. split; [|exact HPu]. eapply T_kept; [exact HTu|]. intros l Tl. eapply K; eassumption.
  - rewrite !insert_length. apply (G_len _ _ _ _ H).
  - intros l. specialize (C l). rewrite !(sum_of_insert _ _ _ _ _ Ht). destruct (m_heap m' !! l); exact C.
  - exact F.
Qed.

(** References of the moving thread and of another one. *)
Section Step.
Context (strict : bool) (c : config) (ps fs : list private) (i : nat) (t : thread) (p f : private).
Context (H : G strict c ps fs) (Ht : g_threads c !! i = Some t) (Hp : ps !! i = Some p) (Hf : fs !! i = Some f).
Context (HT : T (m_heap (g_mem c)) t p) (HP : pexec strict (t_prog t) p = Some f).
Let h := m_heap (g_mem c).
Lemma refs_of l k : h !! l = Some k -> k_refs k = sum_of (tok l) (g_threads c).
Proof. intros E. pose proof (G_count _ _ _ _ H l) as C. fold h in C. rewrite E in C. apply C. Qed.
Lemma tok_cell l : 0 < tok l t -> exists k, h !! l = Some k /\ tok l t <= k_refs k.
Proof.
  intros L. pose proof (G_count _ _ _ _ H l) as C. fold h in C. pose proof (sum_of_ge (tok l) _ i t (tok_nonneg l) Ht). destruct (h !! l) as [k|]; [|lia]. exists k. split; [reflexivity|lia].
Qed.
Lemma two_owners l k j u : h !! l = Some k -> j <> i -> g_threads c !! j = Some u -> tok l t + tok l u <= k_refs k.
Proof. intros E N Hu. rewrite (refs_of l k E). apply (sum_of_ge2 (tok l) _ i j); try assumption; [apply tok_nonneg|congruence]. Qed.
(** Changing the cell of a buffer. *)
Lemma kept_same l : kept h h l.
Proof. intros k E. exists k. tauto. Qed.
Lemma kept_other l0 k' l : l <> l0 -> kept h (<[l0 := k']> h) l.
Proof. intros N k E. exists k. rewrite lookup_insert_ne by congruence. tauto. Qed.
Lemma kept_cell l0 k k' l : h !! l0 = Some k -> (l = l0 -> k_elems k' = k_elems k /\ (k_refs k = 1 -> k_refs k' = 1)) -> kept h (<[l0 := k']> h) l.
Proof.
  intros E0 C. destruct (decide (l = l0)) as [->|N]; [|apply kept_other; exact N]. intros k0 E. assert (k0 = k) as -> by congruence. exists k'. rewrite lookup_insert. destruct (C eq_refl). tauto.
Qed.

Lemma count_cell m' t' l0 k k' : m_heap m' = <[l0 := k']> h -> h !! l0 = Some k ->
  (forall l, l <> l0 -> tok l t' = tok l t /\ due l t' = due l t) ->
  k_refs k' = k_refs k + tok l0 t' - tok l0 t ->
  sum_of (due l0) (g_threads c) - due l0 t + due l0 t' = (if k_refs k' =? 0 then 1 else 0) ->
  forall l, match m_heap m' !! l with
    | Some k => k_refs k = sum_of (tok l) (g_threads c) - tok l t + tok l t' /\
                sum_of (due l) (g_threads c) - due l t + due l t' = if k_refs k =? 0 then 1 else 0
    | None => sum_of (tok l) (g_threads c) - tok l t + tok l t' = 0 /\ sum_of (due l) (g_threads c) - due l t + due l t' = 0
    end.
Proof.
  intros E E0 O R D l. rewrite E. destruct (decide (l = l0)) as [->|N].
  - rewrite lookup_insert. split; [|exact D]. rewrite R, (refs_of l0 k E0). lia.
  - rewrite lookup_insert_ne by congruence. destruct (O l N) as [-> ->]. pose proof (G_count _ _ _ _ H l) as C. fold h in C. destruct (h !! l); [|lia].
    destruct C as [C1 C2]. split; [lia|]. rewrite <- C2. lia.
Qed.
Lemma count_same_heap t' : (forall l, tok l t' = tok l t /\ due l t' = due l t) ->
  forall l, match h !! l with
    | Some k => k_refs k = sum_of (tok l) (g_threads c) - tok l t + tok l t' /\
                sum_of (due l) (g_threads c) - due l t + due l t' = if k_refs k =? 0 then 1 else 0
    | None => sum_of (tok l) (g_threads c) - tok l t + tok l t' = 0 /\ sum_of (due l) (g_threads c) - due l t + due l t' = 0
    end.
Proof.
  intros O l. destruct (O l) as [-> ->]. pose proof (G_count _ _ _ _ H l) as C. fold h in C. destruct (h !! l); [|lia].
  destruct C as [C1 C2]. split; [lia|]. rewrite <- C2. lia.
Qed.
(** A step that leaves memory alone. *)
Lemma G_local t' p' : T h t' p' -> pexec strict (t_prog t') p' = Some f -> (forall l, tok l t' = tok l t /\ due l t' = due l t) ->
  G strict (Config (g_mem c) (<[i := t']> (g_threads c))) (<[i := p']> ps) fs.
Proof.
  intros A B O. eapply G_update; try eassumption.
  - intros j u l _ _ _. apply kept_same.
  - apply count_same_heap. exact O.
  - apply (G_fresh _ _ _ _ H).
Qed.
(** A step that changes a cell in which the thread has a share. *)
Lemma G_cell t' p' l0 k k' : h !! l0 = Some k -> 0 < tok l0 t ->
  (k_elems k' = k_elems k \/ k_refs k = 1) ->
  T (<[l0 := k']> h) t' p' -> pexec strict (t_prog t') p' = Some f ->
  (forall l, l <> l0 -> tok l t' = tok l t /\ due l t' = due l t) ->
  k_refs k' = k_refs k + tok l0 t' - tok l0 t -> due l0 t = 0 ->
  due l0 t' = (if k_refs k' =? 0 then 1 else 0) ->
  G strict (Config (set_cell (g_mem c) l0 k') (<[i := t']> (g_threads c))) (<[i := p']> ps) fs.
Proof.
  intros E0 P EL A B O R D D'. pose proof (G_count _ _ _ _ H l0) as C. fold h in C. rewrite E0 in C. destruct C as [C1 C2].
  assert (1 <= k_refs k) as R1 by (rewrite C1; pose proof (sum_of_ge (tok l0) _ i t (tok_nonneg l0) Ht); lia).
  eapply G_update; try eassumption; cbn [set_cell m_heap m_next].
  - intros j u l N Hu Tl. fold h. apply (kept_cell l0 k); [exact E0|]. intros ->. pose proof (two_owners l0 k j u E0 N Hu). split; [|lia]. destruct EL as [EL|EL]; [exact EL|lia].
  - apply (count_cell (set_cell (g_mem c) l0 k') t' l0 k k'); try assumption; [reflexivity|]. rewrite C2. destruct (k_refs k =? 0) eqn:Z0; [lia|]. lia.
  - intros l L. pose proof (G_fresh _ _ _ _ H l L) as Fr. fold h in Fr |- *. rewrite lookup_insert_ne; [exact Fr|]. congruence.
Qed.
End Step.

Lemma V_micro h m m' x eh pv : (forall w, pend m x w = pend m' x w) -> (waiting m = Some x -> waiting m' = Some x) -> V h m x eh pv -> V h m' x eh pv.
Proof.
  intros E N. unfold V. destruct eh as [[[l len]|]|]; destruct pv as [[[w b]|]|]; try tauto. intros (c & A & B & C & D). exists c. rewrite <- E. tauto.
Qed.
Lemma V_here h m x l n w b k : h !! l = Some k -> inside n k -> w = pend m x (text_in n k) -> (fst b = true -> k_refs k = 1) -> (snd b = true -> waiting m <> Some x -> ended n k) ->
  V h m x (Some (Some (l, n))) (Some (Some (w, b))).
Proof. intros. exists k. tauto. Qed.
Lemma V_idle h x y eh pv : V h Idle x eh pv -> V h Idle y eh pv.
Proof. unfold V. destruct eh as [[[l n]|]|]; destruct pv as [[[w b]|]|]; try tauto. intros (c & A & B & C & D & E). exists c. repeat split; try tauto; try apply B. intros Z1 _. apply E; [exact Z1|discriminate]. Qed.
Lemma zlen_text n k : inside n k -> zlen (text_in n k) = snd n.
Proof. intros (A & B & C). unfold text_in. rewrite zlen_zsub. lia. Qed.
Lemma inside_elems n k k' : k_elems k' = k_elems k -> inside n k -> inside n k'.
Proof. unfold inside. intros ->. tauto. Qed.
Lemma text_elems n k k' : k_elems k' = k_elems k -> text_in n k' = text_in n k.
Proof. unfold text_in. intros ->. reflexivity. Qed.
Lemma ended_elems n k k' : k_elems k' = k_elems k -> ended n k -> ended n k'.
Proof. unfold ended. intros ->. tauto. Qed.
Lemma V_none h m x pv : V h m x None pv -> pv = None.
Proof. destruct pv; [intros []|reflexivity]. Qed.

(** Modifying an object that shares its buffer. *)
Definition shared_change (h : gmap Z cell) (t : thread) : Prop :=
  t_micro t = Idle /\ exists x l len c, t_env t !! x = Some (Some (l, len)) /\ h !! l = Some c /\ 1 < k_refs c /\
    (t_prog t = CClear x :: tl (t_prog t) \/ (exists i v, t_prog t = CSet x i v :: tl (t_prog t)) \/
     (t_prog t = CCstr x :: tl (t_prog t) /\ snd len <> 0 /\ znth (fst len + snd len) (k_elems c) <> Some 0)).

Ltac lkh H := repeat first [ rewrite lookup_insert in H | rewrite lookup_delete in H | rewrite lookup_insert_ne in H by congruence | rewrite lookup_delete_ne in H by congruence ].
Ltac lk := repeat first [ rewrite lookup_insert | rewrite lookup_delete | rewrite lookup_insert_ne by congruence | rewrite lookup_delete_ne by congruence ].
Section Step2.
Context (strict : bool) (c : config) (ps fs : list private) (i : nat) (t : thread) (p f : private).
Context (H : G strict c ps fs) (Ht : g_threads c !! i = Some t) (Hp : ps !! i = Some p) (Hf : fs !! i = Some f).
Context (HT : T (m_heap (g_mem c)) t p) (HP : pexec strict (t_prog t) p = Some f).
Context (HS : ~ shared_change (m_heap (g_mem c)) t).
Let h := m_heap (g_mem c).
Definition stepped (r : sres) : Prop :=
  match r with
  | SOk m' t' => exists p', G strict (Config m' (<[i := t']> (g_threads c))) (<[i := p']> ps) fs
  | SDone => t_micro t = Idle /\ t_prog t = []
  | SBad _ => False
  end.
Lemma Hval x : V h (t_micro t) x (t_env t !! x) (p_vals p !! x).
Proof. apply (T_vals _ _ _ HT). Qed.
(** An object's cell, its share in it, and a second object on it. *)
Lemma obj_cell x l len : t_env t !! x = Some (Some (l, len)) -> exists k w b, h !! l = Some k /\ p_vals p !! x = Some (Some (w, b)) /\
  inside len k /\ w = pend (t_micro t) x (text_in len k) /\ (fst b = true -> k_refs k = 1) /\ (snd b = true -> waiting (t_micro t) <> Some x -> ended len k) /\ 1 <= tok l t <= k_refs k.
Proof.
  intros E. pose proof (Hval x) as W. rewrite E in W. cbn in W. destruct (p_vals p !! x) as [[[w b]|]|]; try contradiction. destruct W as (k & A & B & C & D & D').
  exists k, w, b. pose proof (objects_has l (t_env t) x) as O. pose proof (has_some l len _ E) as E1. pose proof (mtok_range l (t_micro t)).
  assert (1 <= tok l t) by (unfold tok; lia). pose proof (refs_of strict c ps fs H l k A). pose proof (sum_of_ge (tok l) _ i t (tok_nonneg l) Ht).
  split; [exact A|]. split; [reflexivity|]. split; [exact B|]. split; [exact C|]. split; [exact D|]. split; [exact D'|lia].
Qed.
Lemma obj_two x y l n m k : x <> y -> t_env t !! x = Some (Some (l, n)) -> t_env t !! y = Some (Some (l, m)) -> h !! l = Some k -> 2 <= k_refs k.
Proof.
  intros N E1 E2 Ek. pose proof (objects_has2 l (t_env t) x y N). pose proof (has_some l n _ E1). pose proof (has_some l m _ E2). pose proof (mtok_range l (t_micro t)).
  pose proof (refs_of strict c ps fs H l k Ek). pose proof (sum_of_ge (tok l) _ i t (tok_nonneg l) Ht). unfold tok in *. lia.
Qed.
Lemma log_idle : waiting (t_micro t) = None -> t_log t = p_log p.
Proof. intros E. pose proof (T_log _ _ _ HT) as L. rewrite E in L. exact L. Qed.
Ltac lg Em := cbn [goto t_log t_micro p_log waiting]; repeat match goal with |- context [waiting (match ?b with _ => _ end)] => destruct b end; cbn [waiting]; apply log_idle; rewrite Em; reflexivity.
Lemma idle_due l : t_micro t = Idle -> due l t = 0.
Proof. intros E. unfold due. rewrite E. reflexivity. Qed.

Lemma step_new x v q : t_micro t = Idle -> t_prog t = CNew x v :: q -> stepped (tstep (g_mem c) t).
Proof.
  intros Em Eq. unfold tstep. rewrite Em, Eq. cbn [tl]. pose proof HP as HP'. rewrite Eq in HP'. cbn [pexec pstep] in HP'.
  pose proof (Hval x) as W. destruct (p_vals p !! x) as [pv|] eqn:Ep; [discriminate|]. destruct (t_env t !! x) as [[[]|]|] eqn:Ee; cbn in W; try contradiction.
  set (l0 := m_next (g_mem c)). pose proof (G_fresh _ _ _ _ H l0 ltac:(lia)) as Fr. fold h in Fr.
  pose proof (G_count _ _ _ _ H l0) as C0. fold h in C0. rewrite Fr in C0. destruct C0 as [C0 C0'].
  assert (tok l0 t = 0) as T0 by (pose proof (sum_of_ge (tok l0) _ i t (tok_nonneg l0) Ht); pose proof (tok_nonneg l0 t); lia).
  cbn [stepped]. exists (Private (<[x := Some (v, (true, true))]> (p_vals p)) (p_log p)).
  assert (forall l, tok l (goto t (<[x := Some (l0, (0, zlen v))]> (t_env t)) Idle q) = tok l t + (if l0 =? l then 1 else 0)) as Tk.
  { intros l. unfold tok, goto. cbn [t_env t_micro]. rewrite Em, objects_fresh by exact Ee. cbn. lia. }
  eapply G_update; try eassumption; cbn [m_heap m_next].
  - split; cbn [goto t_log t_micro t_env p_log p_vals]; [lg Em| |exact I]. intros z. destruct (decide (z = x)) as [->|N].
    + lk. pose proof (zlen_nonneg v). eapply V_here; [apply lookup_insert| | | |].
      * unfold inside. cbn. rewrite zlen_app. change (zlen [0]) with 1. lia.
      * unfold text_in. cbn. zlist.
      * reflexivity.
      * intros _ _. unfold ended. cbn [fst snd k_elems]. rewrite Z.add_0_l, znth_app, Z.ltb_irrefl, Z.sub_diag. reflexivity.
    + lk. pose proof (Hval z) as Wz. rewrite Em in Wz. eapply V_kept; [exact Wz|]. intros l len E. fold h. apply kept_other. intros ->.
      destruct (obj_cell z l0 len E) as (k & _ & _ & Ek & _). congruence.
  - intros j u l N Hu Tl. fold h. apply kept_other. intros ->. pose proof (sum_of_ge (tok l0) _ j u (tok_nonneg l0) Hu). lia.
  - intros l. fold h. rewrite Tk, (idle_due l Em). change (due l (goto t (<[x := Some (l0, (0, zlen v))]> (t_env t)) Idle q)) with 0. destruct (Z.eqb_spec l0 l) as [->|N].
    + rewrite lookup_insert. cbn. lia.
    + rewrite lookup_insert_ne by congruence. pose proof (G_count _ _ _ _ H l) as C. fold h in C. destruct (h !! l); rewrite ?Z.add_0_r, ?Z.sub_0_r; [split; [lia|apply C]|lia].
  - intros l L. fold h. rewrite lookup_insert_ne by lia. apply (G_fresh _ _ _ _ H). fold l0 in L. lia.
Qed.

Ltac start Em Eq := unfold tstep; rewrite Em; try rewrite Eq; cbn [tl]; pose proof HP as HP'; try rewrite Eq in HP'; cbn [pexec pstep] in HP'.
Ltac local := eapply G_local; [exact H|exact Ht|exact Hp|exact Hf| | |].
Ltac atcell l0 k := eapply (G_cell strict c ps fs i t p f H Ht Hp Hf _ _ l0 k); [ | | | | | | | | ].
Lemma V_at_cell m x l0 k k' : V h m x (t_env t !! x) (p_vals p !! x) -> h !! l0 = Some k ->
  (forall len, t_env t !! x = Some (Some (l0, len)) -> k_elems k' = k_elems k /\ (k_refs k = 1 -> k_refs k' = 1)) ->
  V (<[l0 := k']> h) m x (t_env t !! x) (p_vals p !! x).
Proof.
  intros W Ek K. eapply V_kept; [exact W|]. intros l len E. apply (kept_cell c l0 k); [exact Ek|]. intros ->. exact (K len E).
Qed.
Lemma if_eqb_other l0 l : l <> l0 -> (if l0 =? l then 1 else 0) = 0.
Proof. intros N. destruct (Z.eqb_spec l0 l); [congruence|reflexivity]. Qed.

Lemma step_copy x y q : t_micro t = Idle -> t_prog t = CCopy x y :: q -> stepped (tstep (g_mem c) t).
Proof.
  intros Em Eq. start Em Eq. pose proof (Hval x) as Wx. destruct (p_vals p !! x) as [pv|] eqn:Epx; [discriminate|].
  destruct (t_env t !! x) as [[[]|]|] eqn:Ex; cbn in Wx; try contradiction. clear Wx.
  pose proof (Hval y) as Wy. destruct (t_env t !! y) as [[[l0 len]|]|] eqn:Ey.
  - destruct (obj_cell y l0 len Ey) as (k & w & b & Ek & Ep & B & W & Hb & Hz & Tr). rewrite Em in W. cbn in W. rewrite Ep in HP'. unfold inc, with_cell. fold h. rewrite Ek. cbn [stepped].
    eexists. assert (x <> y) as Nxy by congruence.
    assert (forall l, tok l (goto t (<[x := Some (l0, len)]> (t_env t)) Idle q) = tok l t + (if l0 =? l then 1 else 0)) as Tk.
    { intros l. unfold tok, goto. cbn [t_env t_micro]. rewrite Em, objects_fresh by exact Ex. cbn. lia. }
    atcell l0 k.
    + exact Ek.
    + lia.
    + left. reflexivity.
    + split; [| |exact I]. 2:{ cbn [goto t_env t_micro]. instantiate (1 := Private (<[x := Some (w, (false, snd b))]> (<[y := Some (w, (false, snd b))]> (p_vals p))) (p_log p)). cbn [p_vals]. intros z.
        destruct (decide (z = x)) as [->|Nx]; [lk; apply V_here with (k := CCell (k_refs k + 1) (k_elems k)); [apply lookup_insert|exact B|exact W|discriminate|intros Z1 _; apply (Hz Z1); rewrite Em; discriminate]|].
        destruct (decide (z = y)) as [->|Ny]; [lk; rewrite Ey; apply V_here with (k := CCell (k_refs k + 1) (k_elems k)); [apply lookup_insert|exact B|exact W|discriminate|intros Z1 _; apply (Hz Z1); rewrite Em; discriminate]|].
        lk. apply (V_at_cell Idle z l0 k); [rewrite <- Em; apply Hval|exact Ek|]. intros len' E. cbn. split; [reflexivity|]. pose proof (obj_two z y l0 _ _ k Ny E Ey Ek). lia. }
      lg Em.
    + exact HP'.
    + intros l N. rewrite Tk, if_eqb_other by exact N. split; [lia|]. rewrite idle_due by exact Em. reflexivity.
    + rewrite Tk, Z.eqb_refl. cbn. lia.
    + apply idle_due. exact Em.
    + cbn. destruct (Z.eqb_spec (k_refs k + 1) 0); [lia|reflexivity].
  - cbn [inc stepped]. cbn in Wy. destruct (p_vals p !! y) as [[[w b]|]|] eqn:Ep; try contradiction.
    + subst w. eexists. local.
      * split; [| |exact I]. 2:{ cbn [goto t_env t_micro]. instantiate (1 := Private (<[x := Some ([], (false, snd b))]> (<[y := Some ([], (false, snd b))]> (p_vals p))) (p_log p)). cbn [p_vals]. intros z.
          destruct (decide (z = x)) as [->|Nx]; [lk; cbn; reflexivity|]. destruct (decide (z = y)) as [->|Ny]; [lk; rewrite Ey; cbn; reflexivity|]. lk. rewrite <- Em. apply Hval. }
        lg Em.
      * exact HP'.
      * intros l. unfold tok, due. cbn [goto t_env t_micro]. rewrite Em, objects_fresh by exact Ex. cbn. split; lia.
    + eexists. local.
      * split; [| |exact I]. 2:{ cbn [goto t_env t_micro]. instantiate (1 := Private (<[x := None]> (p_vals p)) (p_log p)). cbn [p_vals]. intros z.
          destruct (decide (z = x)) as [->|Nx]; [lk; cbn; exact I|]. lk. rewrite <- Em. apply Hval. }
        lg Em.
      * exact HP'.
      * intros l. unfold tok, due. cbn [goto t_env t_micro]. rewrite Em, objects_fresh by exact Ex. cbn. split; lia.
  - apply V_none in Wy. rewrite Wy in HP'. discriminate.
Qed.
Lemma step_move x y q : t_micro t = Idle -> t_prog t = CMove x y :: q -> stepped (tstep (g_mem c) t).
Proof.
  intros Em Eq. start Em Eq. pose proof (Hval x) as Wx. destruct (p_vals p !! x) as [pv|] eqn:Epx; [discriminate|].
  destruct (t_env t !! x) as [[[]|]|] eqn:Ex; cbn in Wx; try contradiction. clear Wx.
  pose proof (Hval y) as Wy. destruct (t_env t !! y) as [r|] eqn:Ey; [|apply V_none in Wy; rewrite Wy in HP'; discriminate].
  destruct (p_vals p !! y) as [pv|] eqn:Epy; [|discriminate]. assert (x <> y) as Nxy by congruence. cbn [stepped]. eexists. local.
  - split; [| |exact I]. 2:{ cbn [goto t_env t_micro]. instantiate (1 := Private (<[x := pv]> (<[y := None]> (p_vals p))) (p_log p)). cbn [p_vals]. intros z.
      destruct (decide (z = x)) as [->|Nx]; [lk; rewrite Em in Wy; exact (V_idle _ _ _ _ _ Wy)|]. destruct (decide (z = y)) as [->|Ny]; [lk; exact I|]. lk. rewrite <- Em. apply Hval. }
    lg Em.
  - exact HP'.
  - intros l. unfold tok, due. cbn [goto t_env t_micro]. rewrite Em. rewrite objects_insert, lookup_insert_ne, Ex, objects_insert, Ey by congruence. cbn. split; lia.
Qed.
Lemma step_assign x y q : t_micro t = Idle -> t_prog t = CAssign x y :: q -> stepped (tstep (g_mem c) t).
Proof.
  intros Em Eq. start Em Eq. pose proof (Hval x) as Wx. destruct (t_env t !! x) as [old|] eqn:Ex; [|apply V_none in Wx; rewrite Wx in HP'; discriminate].
  destruct (p_vals p !! x) as [pv|] eqn:Epx; [|discriminate]. set (mi := match old with Some (l, _) => DDec l | None => Idle end).
  assert (forall l, mtok l mi = has l (Some old)) as Mt by (intros l; unfold mi; destruct old as [[]|]; reflexivity).
  assert (forall l e, due l (goto t e mi q) = 0) as Du by (intros; unfold due, mi; cbn [goto t_micro]; destruct old as [[]|]; reflexivity).
  assert (forall z w, pend mi z w = w) as Pn by (intros; unfold mi; destruct old as [[]|]; reflexivity).
  assert (waiting mi = None) as Wn by (unfold mi; destruct old as [[]|]; reflexivity).
  assert (forall h e, MC h (goto t e mi q)) as Mc by (intros; unfold MC, mi; cbn [goto t_micro]; destruct old as [[]|]; exact I).
  assert (forall z, V h mi z (t_env t !! z) (p_vals p !! z)) as Hv by (intros z; eapply V_micro; [| |apply Hval]; [intros w; rewrite Em, Pn; reflexivity|rewrite Em; discriminate]).
  pose proof (Hval y) as Wy. destruct (t_env t !! y) as [[[l0 len]|]|] eqn:Ey.
  - destruct (obj_cell y l0 len Ey) as (k & w & b & Ek & Ep & B & W & Hb & Hz & Tr). rewrite Em in W. cbn in W. rewrite Ep in HP'. unfold inc, with_cell. fold h. rewrite Ek. cbn [stepped].
    eexists.
    assert (forall l, tok l (goto t (<[x := Some (l0, len)]> (t_env t)) mi q) = tok l t + (if l0 =? l then 1 else 0)) as Tk.
    { intros l. unfold tok, goto. cbn [t_env t_micro]. rewrite Em, objects_insert, Ex, Mt. cbn [mtok]. change (has l (Some (Some (l0, len)))) with (if l0 =? l then 1 else 0). lia. }
    atcell l0 k.
    + exact Ek.
    + lia.
    + left. reflexivity.
    + split; [| |apply Mc]. 2:{ cbn [goto t_env t_micro]. instantiate (1 := Private (<[x := Some (w, (false, snd b))]> (<[y := Some (w, (false, snd b))]> (p_vals p))) (p_log p)). cbn [p_vals]. intros z.
        destruct (decide (z = x)) as [->|Nx]; [lk; apply V_here with (k := CCell (k_refs k + 1) (k_elems k)); [apply lookup_insert|exact B|rewrite Pn; exact W|discriminate|intros Z1 _; apply (Hz Z1); rewrite Em; discriminate]|].
        destruct (decide (z = y)) as [->|Ny]; [lk; rewrite Ey; apply V_here with (k := CCell (k_refs k + 1) (k_elems k)); [apply lookup_insert|exact B|rewrite Pn; exact W|discriminate|intros Z1 _; apply (Hz Z1); rewrite Em; discriminate]|].
        lk. apply (V_at_cell mi z l0 k); [apply Hv|exact Ek|]. intros len' E. cbn. split; [reflexivity|]. pose proof (obj_two z y l0 _ _ k Ny E Ey Ek). lia. }
      cbn [goto t_log t_micro p_log]; rewrite Wn; apply log_idle; rewrite Em; reflexivity.
    + exact HP'.
    + intros l N. rewrite Tk, if_eqb_other by exact N. split; [lia|]. rewrite idle_due by exact Em. apply Du.
    + rewrite Tk, Z.eqb_refl. cbn. lia.
    + apply idle_due. exact Em.
    + cbn. destruct (Z.eqb_spec (k_refs k + 1) 0); [lia|apply Du].
  - cbn [inc stepped]. cbn in Wy.
    assert (forall l, tok l (goto t (<[x := None]> (t_env t)) mi q) = tok l t /\ due l (goto t (<[x := None]> (t_env t)) mi q) = due l t) as Tk.
    { intros l. rewrite (idle_due l Em). split; [|apply Du]. unfold tok, goto. cbn [t_env t_micro]. rewrite Em, objects_insert, Ex, Mt. cbn [mtok]. change (has l (Some None)) with 0. lia. }
    destruct (p_vals p !! y) as [[[w b]|]|] eqn:Ep; try contradiction.
    + subst w. eexists. local; [|exact HP'|exact Tk]. split; [| |apply Mc]. 2:{ cbn [goto t_env t_micro]. cbn [p_vals]. intros z.
        destruct (decide (z = x)) as [->|Nx]; [lk; cbn; reflexivity|]. destruct (decide (z = y)) as [->|Ny]; [lk; rewrite Ey; cbn; reflexivity|]. lk. apply Hv. }
      cbn [goto t_log t_micro p_log]; rewrite Wn; apply log_idle; rewrite Em; reflexivity.
    + eexists. local; [|exact HP'|exact Tk]. split; [| |apply Mc]. 2:{ cbn [goto t_env t_micro]. cbn [p_vals]. intros z.
        destruct (decide (z = x)) as [->|Nx]; [lk; cbn; exact I|]. lk. apply Hv. }
      cbn [goto t_log t_micro p_log]; rewrite Wn; apply log_idle; rewrite Em; reflexivity.
  - apply V_none in Wy. rewrite Wy in HP'. discriminate.
Qed.
Lemma step_read x q : t_micro t = Idle -> t_prog t = CRead x :: q -> stepped (tstep (g_mem c) t).
Proof.
  intros Em Eq. start Em Eq. pose proof (Hval x) as Wx. destruct (t_env t !! x) as [[[l0 len]|]|] eqn:Ex; [| |apply V_none in Wx; rewrite Wx in HP'; discriminate].
  - destruct (obj_cell x l0 len Ex) as (k & w & b & Ek & Ep & B & W & Hb & Hz & Tr). rewrite Em in W. cbn in W. rewrite Ep in HP'. unfold with_cell. fold h. rewrite Ek. cbn [stepped]. eexists. local; [|exact HP'|].
    + split; cbn [t_log t_micro t_env p_log p_vals]; [rewrite W; f_equal; lg Em|intros z; rewrite <- Em; apply Hval|exact I].
    + intros l. unfold tok, due. cbn. rewrite Em. split; reflexivity.
  - cbn in Wx. destruct (p_vals p !! x) as [[[w b]|]|] eqn:Ep; try contradiction; [|discriminate]. subst w. cbn [stepped]. eexists. local; [|exact HP'|].
    + split; cbn [t_log t_micro t_env p_log p_vals]; [f_equal; lg Em|intros z; rewrite <- Em; apply Hval|exact I].
    + intros l. unfold tok, due. cbn. rewrite Em. split; reflexivity.
Qed.
Lemma step_destroy x q : t_micro t = Idle -> t_prog t = CDestroy x :: q -> stepped (tstep (g_mem c) t).
Proof.
  intros Em Eq. start Em Eq. pose proof (Hval x) as Wx. destruct (t_env t !! x) as [r|] eqn:Ex; [|apply V_none in Wx; rewrite Wx in HP'; discriminate].
  destruct (p_vals p !! x) as [pv|] eqn:Epx; [|discriminate]. cbn [stepped]. eexists. local; [|exact HP'|].
  - split; cbn [goto t_log t_micro t_env p_log p_vals]; [lg Em| |unfold MC; cbn; destruct r as [[]|]; exact I].
    intros z. eapply (V_micro _ Idle); [intros w; destruct r as [[]|]; reflexivity|discriminate|]. destruct (decide (z = x)) as [->|N]; [lk; exact I|]. lk. rewrite <- Em. apply Hval.
  - intros l. unfold tok, due. cbn [goto t_env t_micro]. rewrite Em, objects_delete, Ex. destruct r as [[l' n]|]; cbn; split; lia.
Qed.
Lemma step_set x j v q : t_micro t = Idle -> t_prog t = CSet x j v :: q -> stepped (tstep (g_mem c) t).
Proof.
  intros Em Eq. start Em Eq. pose proof (Hval x) as Wx. destruct (t_env t !! x) as [[[l0 len]|]|] eqn:Ex; [| |apply V_none in Wx; rewrite Wx in HP'; discriminate].
  2:{ cbn in Wx. destruct (p_vals p !! x) as [[[w b]|]|] eqn:Ep; try contradiction; [|discriminate]. subst w. change (zlen []) with 0 in HP'. destruct (_ && _ && _) eqn:E in HP'; [lia|discriminate]. }
  destruct (obj_cell x l0 len Ex) as (k & w & b & Ek & Ep & B & W & Hb & Hz & Tr). rewrite Em in W. cbn in W. rewrite Ep in HP'.
  assert (zlen w = snd len) as Lw by (rewrite W; apply zlen_text; exact B). destruct ((0 <=? j) && (j <? zlen w) && (fst b || negb strict)) eqn:E in HP'; [|discriminate].
  destruct ((0 <=? j) && (j <? snd len)) eqn:E2; [|lia]. unfold with_cell. fold h. rewrite Ek. destruct (1 <? k_refs k) eqn:E1.
  { exfalso. apply HS. split; [exact Em|]. exists x, l0, len, k. repeat split; try assumption; [lia|]. right. left. exists j, v. rewrite Eq. reflexivity. }
  cbn [stepped]. eexists. local; [|exact HP'|].
  - split; cbn [goto t_log t_micro t_env p_log p_vals]; [lg Em| |].
    + intros z. destruct (decide (z = x)) as [->|N].
      * lk. rewrite Ex. apply V_here with (k := k); [exact Ek|exact B| | |].
        -- cbn. rewrite Z.eqb_refl, W. reflexivity.
        -- intros _. lia.
        -- intros Z1 _. apply (Hz Z1). rewrite Em. discriminate.
      * lk. eapply V_micro; [| |apply Hval]; [|rewrite Em; discriminate]. intros w0. rewrite Em. cbn. destruct (Z.eqb_spec z x); [contradiction|reflexivity].
    + unfold MC. cbn. exists l0, len, k. repeat split; try assumption; lia.
  - intros l. unfold tok, due. cbn. rewrite Em. split; reflexivity.
Qed.
Lemma step_clear x q : t_micro t = Idle -> t_prog t = CClear x :: q -> stepped (tstep (g_mem c) t).
Proof.
  intros Em Eq. start Em Eq. pose proof (Hval x) as Wx. destruct (t_env t !! x) as [[[l0 len]|]|] eqn:Ex; [| |apply V_none in Wx; rewrite Wx in HP'; discriminate].
  - destruct (obj_cell x l0 len Ex) as (k & w & b & Ek & Ep & B & W & Hb & Hz & Tr). rewrite Ep in HP'. destruct (fst b || negb strict) eqn:E in HP'; [|discriminate].
    unfold with_cell. fold h. rewrite Ek. destruct (1 <? k_refs k) eqn:E1.
    { exfalso. apply HS. split; [exact Em|]. exists x, l0, len, k. repeat split; try assumption; [lia|]. left. rewrite Eq. reflexivity. }
    cbn [stepped]. eexists. local; [|exact HP'|].
    + split; cbn [goto t_log t_micro t_env p_log p_vals]; [lg Em| |exact I].
      intros z. destruct (decide (z = x)) as [->|N]; [|lk; rewrite <- Em; apply Hval]. lk. apply V_here with (k := k); [exact Ek|unfold inside in *; cbn; lia|cbn; unfold text_in; rewrite zsub_0 by (cbn; lia); reflexivity|intros _; lia|discriminate].
    + intros l. unfold tok, due. cbn [goto t_env t_micro]. rewrite Em, objects_insert, Ex. cbn. split; lia.
  - cbn in Wx. destruct (p_vals p !! x) as [[[w b]|]|] eqn:Ep; try contradiction; [|discriminate]. destruct (fst b || negb strict) in HP'; [|discriminate]. cbn [stepped]. eexists. local; [|exact HP'|].
    + split; cbn [goto t_log t_micro t_env p_log p_vals]; [lg Em| |exact I].
      intros z. destruct (decide (z = x)) as [->|N]; [|lk; rewrite <- Em; apply Hval]. lk. rewrite Ex. reflexivity.
    + intros l. unfold tok, due. cbn. rewrite Em. split; reflexivity.
Qed.
(** Inside an operation. *)
Lemma mtok_cell l : mtok l (t_micro t) = 1 -> exists k, h !! l = Some k /\ objects l (t_env t) + 1 <= k_refs k /\ due l t = 0.
Proof.
  intros E. destruct (tok_cell strict c ps fs i t H Ht l) as (k & Ek & R); [unfold tok; pose proof (objects_nonneg l (t_env t)); lia|]. exists k. split; [exact Ek|]. unfold tok in R. split; [lia|].
  unfold due. destruct (t_micro t); try reflexivity. discriminate.
Qed.
Lemma obj_none z l n : objects l (t_env t) = 0 -> t_env t !! z = Some (Some (l, n)) -> False.
Proof. intros O E. pose proof (objects_has l (t_env t) z). pose proof (has_some l n _ E). lia. Qed.
Lemma step_dload l : t_micro t = DLoad l -> stepped (tstep (g_mem c) t).
Proof.
  intros Em. unfold tstep. rewrite Em. destruct (mtok_cell l) as (k & Ek & R & D); [rewrite Em; cbn; rewrite Z.eqb_refl; reflexivity|]. unfold with_cell. fold h. rewrite Ek. cbn [stepped]. eexists. local; [|exact HP|].
  - split; cbn [goto t_log t_micro t_env p_log p_vals]; [lg Em| |].
    + intros z. eapply V_micro; [| |apply Hval]; rewrite Em; [|discriminate]. intros w. destruct (_ =? 1); reflexivity.
    + unfold MC. cbn. destruct (k_refs k =? 1) eqn:E1; [|exact I]. exists k. split; [exact Ek|lia].
  - intros l'. unfold tok, due. cbn. rewrite Em. destruct (_ =? 1); split; reflexivity.
Qed.
Lemma step_dcleanse l : t_micro t = DCleanse l -> stepped (tstep (g_mem c) t).
Proof.
  intros Em. unfold tstep. rewrite Em. destruct (mtok_cell l) as (k & Ek & R & D); [rewrite Em; cbn; rewrite Z.eqb_refl; reflexivity|]. unfold with_cell. fold h. rewrite Ek. cbn [stepped]. eexists.
  pose proof (T_micro _ _ _ HT) as M. unfold MC in M. rewrite Em in M. destruct M as (k1 & Ek1 & R1). fold h in Ek1. assert (k1 = k) as -> by congruence.
  assert (objects l (t_env t) = 0) as O by (pose proof (objects_nonneg l (t_env t)); lia).
  atcell l k.
  - exact Ek.
  - unfold tok. rewrite Em. cbn. rewrite Z.eqb_refl. lia.
  - right. exact R1.
  - split; cbn [goto t_log t_micro t_env]; [lg Em| |exact I]. intros z. eapply V_micro; [| |apply (V_at_cell (t_micro t) z l k); [apply Hval|exact Ek|]].
    + intros w. rewrite Em. reflexivity.
    + rewrite Em. discriminate.
    + intros len E. destruct (obj_none z l len O E).
  - exact HP.
  - intros l' N. unfold tok, due. cbn. rewrite Em. split; reflexivity.
  - unfold tok. cbn. rewrite Em. cbn. lia.
  - exact D.
  - cbn. rewrite R1. reflexivity.
Qed.
Lemma step_ddec l : t_micro t = DDec l -> stepped (tstep (g_mem c) t).
Proof.
  intros Em. unfold tstep. rewrite Em. destruct (mtok_cell l) as (k & Ek & R & D); [rewrite Em; cbn; rewrite Z.eqb_refl; reflexivity|]. unfold dec, with_cell. fold h. rewrite Ek. cbn [stepped]. eexists.
  pose proof (objects_nonneg l (t_env t)) as On.
  atcell l k.
  - exact Ek.
  - unfold tok. rewrite Em. cbn. rewrite Z.eqb_refl. lia.
  - left. reflexivity.
  - split; cbn [goto t_log t_micro t_env]; [lg Em| |unfold MC; cbn; destruct (_ <? 1); exact I]. intros z. eapply V_micro; [| |apply (V_at_cell (t_micro t) z l k); [apply Hval|exact Ek|]].
    + intros w. rewrite Em. destruct (_ <? 1); reflexivity.
    + rewrite Em. discriminate.
    + intros len E. cbn. split; [reflexivity|]. pose proof (objects_has l (t_env t) z). pose proof (has_some l len _ E). lia.
  - exact HP.
  - intros l' N. unfold tok, due. cbn [goto t_env t_micro]. rewrite Em. cbn. rewrite if_eqb_other by exact N. destruct (_ <? 1); cbn; rewrite ?if_eqb_other by exact N; split; lia.
  - unfold tok. cbn [goto t_env t_micro]. rewrite Em. cbn. rewrite Z.eqb_refl. destruct (_ <? 1); cbn; lia.
  - exact D.
  - unfold due. cbn. destruct (k_refs k - 1 <? 1) eqn:E1; destruct (Z.eqb_spec (k_refs k - 1) 0); try lia; rewrite Z.eqb_refl; reflexivity.
Qed.
Lemma step_dfree l : t_micro t = DFree l -> stepped (tstep (g_mem c) t).
Proof.
  intros Em. unfold tstep. rewrite Em. assert (due l t = 1) as D by (unfold due; rewrite Em, Z.eqb_refl; reflexivity).
  pose proof (sum_of_ge (due l) _ i t (fun u => proj1 (due_range l u)) Ht) as S. pose proof (G_count _ _ _ _ H l) as C. fold h in C. unfold with_cell. fold h. destruct (h !! l) as [k|] eqn:Ek; [|lia].
  destruct C as [C1 C2]. destruct (Z.eqb_spec (k_refs k) 0) as [R0|]; [|lia]. rewrite R0 in C1. cbn [stepped]. eexists.
  assert (forall j u, g_threads c !! j = Some u -> tok l u = 0) as No by (intros j u Hu; pose proof (sum_of_ge (tok l) _ j u (tok_nonneg l) Hu); pose proof (tok_nonneg l u); lia).
  assert (forall l', l' <> l -> kept h (delete l h) l') as Kp by (intros l' N k' E'; exists k'; rewrite lookup_delete_ne by congruence; tauto).
  eapply (G_update strict c ps fs i t p f); [exact H|exact Ht|exact Hp|exact Hf| |exact HP| | |]; cbn [m_heap m_next].
  - split; cbn [goto t_log t_micro t_env]; [lg Em| |exact I]. intros z. eapply V_micro; [| |eapply V_kept; [apply Hval|]].
    + intros w. rewrite Em. reflexivity.
    + rewrite Em. discriminate.
    + intros l' len E. apply Kp. intros ->. apply (obj_none z l len); [|exact E]. pose proof (No i t Ht). unfold tok in *. pose proof (objects_nonneg l (t_env t)). pose proof (mtok_range l (t_micro t)). lia.
  - intros j u l' N Hu Tl. apply Kp. intros ->. rewrite (No j u Hu) in Tl. lia.
  - intros l'. fold h. replace (tok l' (goto t (t_env t) Idle (t_prog t))) with (tok l' t) by (unfold tok; cbn [goto t_env t_micro]; rewrite Em; reflexivity).
    change (due l' (goto t (t_env t) Idle (t_prog t))) with 0. replace (due l' t) with (if l =? l' then 1 else 0) by (unfold due; rewrite Em; reflexivity). destruct (decide (l' = l)) as [->|N].
    + rewrite lookup_delete, Z.eqb_refl. lia.
    + rewrite lookup_delete_ne by congruence. rewrite if_eqb_other by exact N. pose proof (G_count _ _ _ _ H l') as C'. fold h in C'. destruct (h !! l'); [|lia]. destruct C' as [C3 C4]. split; [lia|]. rewrite <- C4. lia.
  - intros l' L. fold h. rewrite lookup_delete_None. right. apply (G_fresh _ _ _ _ H). exact L.
Qed.
Lemma text_zupd n k r j v : inside n k -> 0 <= j < snd n -> text_in n (CCell r (zupd (fst n + j) [v] (k_elems k))) = zupd j [v] (text_in n k).
Proof. destruct n as [a n]. intros (A & B & C) J. unfold text_in. cbn in *. zlist. Qed.
Lemma V_others z x l n k k' mi : z <> x -> t_env t !! x = Some (Some (l, n)) -> h !! l = Some k -> k_refs k = 1 -> (forall w, pend (t_micro t) z w = pend mi z w) ->
  (waiting (t_micro t) = Some z -> waiting mi = Some z) -> V (<[l := k']> h) mi z (t_env t !! z) (p_vals p !! z).
Proof.
  intros N Ex Ek R Pn Wt. eapply V_micro; [exact Pn|exact Wt|]. apply (V_at_cell (t_micro t) z l k); [apply Hval|exact Ek|]. intros n' E. pose proof (obj_two z x l _ _ k N E Ex Ek). lia.
Qed.
Lemma step_mwrite x o : t_micro t = MWrite x o -> stepped (tstep (g_mem c) t).
Proof.
  intros Em. unfold tstep. rewrite Em. pose proof (T_micro _ _ _ HT) as M. unfold MC in M. rewrite Em in M. destruct M as (l & n & k & Ex & Ek & R1 & J). fold h in Ek.
  destruct (obj_cell x l n Ex) as (k1 & w & b & Ek1 & Ep & B & W & Hb & Hz & Tr). assert (k1 = k) as -> by congruence. rewrite Em in W.
  rewrite Ex. unfold with_cell. fold h. rewrite Ek. pose proof B as (B1 & B2 & B3). destruct o as [[j v]|]; cbn [stepped]; eexists; atcell l k.
  - exact Ek.
  - lia.
  - right. exact R1.
  - split; [lg Em| |exact I]. intros z. cbn [goto t_micro t_env]. destruct (decide (z = x)) as [->|N].
    + rewrite Ex, Ep. eapply V_here; [apply lookup_insert| | | |].
      * unfold inside. cbn [k_elems]. rewrite zlen_zupd by (change (zlen [v]) with 1; lia). exact B.
      * rewrite text_zupd by assumption. cbn in W |- *. rewrite Z.eqb_refl in W. exact W.
      * exact Hb.
      * intros Z1 _. assert (ended n k) as E by (apply (Hz Z1); rewrite Em; discriminate). unfold ended in *. cbn [k_elems]. rewrite znth_zupd by (change (zlen [v]) with 1; lia). change (zlen [v]) with 1. destruct (Z.leb_spec (fst n + j) (fst n + snd n)); destruct (Z.ltb_spec (fst n + snd n) (fst n + j + 1)); try lia; exact E.
    + apply (V_others z x l n k); try assumption; rewrite Em; [|discriminate]. intros w0. cbn. destruct (Z.eqb_spec z x); [contradiction|reflexivity].
  - exact HP.
  - intros l' N. unfold tok, due. cbn. rewrite Em. split; reflexivity.
  - unfold tok. cbn. rewrite Em. cbn. lia.
  - unfold due. rewrite Em. reflexivity.
  - cbn. rewrite R1. reflexivity.
  - exact Ek.
  - lia.
  - right. exact R1.
  - split; [| |exact I].
    + cbn [goto t_log t_micro waiting]. pose proof (T_log _ _ _ HT) as L. rewrite Em in L. cbn in L. destruct L as (w' & b' & Ep' & L). assert (w' = w) as -> by congruence. rewrite L. f_equal.
      cbn in W. rewrite W. unfold text_in. zlist.
    + intros z. cbn [t_micro t_env]. destruct (decide (z = x)) as [->|N].
      * rewrite Ex, Ep. eapply V_here; [apply lookup_insert| | | |].
        -- unfold inside. cbn [k_elems]. rewrite zlen_zupd by (change (zlen [0]) with 1; lia). exact B.
        -- cbn in W |- *. rewrite W. unfold text_in. cbn [k_elems]. rewrite zsub_zupd_out; [reflexivity|..]; change (zlen [0]) with 1; lia.
        -- exact Hb.
        -- intros _ _. unfold ended. cbn [k_elems]. rewrite znth_zupd by (change (zlen [0]) with 1; lia). change (zlen [0]) with 1. destruct (Z.leb_spec (fst n + snd n) (fst n + snd n)); destruct (Z.ltb_spec (fst n + snd n) (fst n + snd n + 1)); try lia. rewrite Z.sub_diag. reflexivity.
      * apply (V_others z x l n k); try assumption; rewrite Em; [reflexivity|]. cbn. congruence.
  - exact HP.
  - intros l' N. unfold tok, due. cbn. rewrite Em. split; reflexivity.
  - unfold tok. cbn. rewrite Em. cbn. lia.
  - unfold due. rewrite Em. reflexivity.
  - cbn. rewrite R1. reflexivity.
Qed.
Lemma step_ncheck x : t_micro t = NCheck x -> stepped (tstep (g_mem c) t).
Proof.
  intros Em. unfold tstep. rewrite Em. pose proof (T_micro _ _ _ HT) as M. unfold MC in M. rewrite Em in M. destruct M as (l & n & k & Ex & Ek & R1).
  rewrite Ex. unfold with_cell. rewrite Ek, R1. change (1 <? 1) with false. cbn iota. cbn [stepped]. eexists. local; [|exact HP|].
  - split.
    + pose proof (T_log _ _ _ HT) as L. rewrite Em in L. exact L.
    + intros z. cbn [goto t_micro t_env]. eapply V_micro; [| |apply Hval]; rewrite Em; [reflexivity|cbn; tauto].
    + unfold MC. cbn. eauto 8.
  - intros l'. unfold tok, due. cbn. rewrite Em. split; reflexivity.
Qed.
Lemma step_ngrow x : t_micro t = NGrow x -> stepped (tstep (g_mem c) t).
Proof.
  intros Em. unfold tstep. rewrite Em. pose proof (T_micro _ _ _ HT) as M. unfold MC in M. rewrite Em in M. destruct M as (l & n & k & Ex & Ek & R1). fold h in Ek.
  destruct (obj_cell x l n Ex) as (k1 & w & b & Ek1 & Ep & B & W & Hb & Hz & Tr). assert (k1 = k) as -> by congruence. rewrite Em in W.
  rewrite Ex. unfold with_cell. fold h. rewrite Ek. pose proof B as (B1 & B2 & B3). pose proof (T_log _ _ _ HT) as L. rewrite Em in L. cbn in L.
  pose proof (zlen_text n k B) as Lt. destruct (zlen (k_elems k) - fst n <? snd n + 2); cbn [stepped]; eexists; [atcell l k|local; [|exact HP|]].
  - exact Ek.
  - lia.
  - right. exact R1.
  - split; [exact L| |].
    + intros z. cbn [goto t_micro t_env]. destruct (decide (z = x)) as [->|N].
      * rewrite lookup_insert, Ep. eapply V_here; [apply lookup_insert| | | |].
        -- unfold inside. cbn [fst snd k_elems]. fold (text_in n k). rewrite zlen_app, Lt, zlen_zrep. lia.
        -- cbn in W |- *. rewrite W. unfold text_in at 2. cbn [fst snd k_elems]. fold (text_in n k). rewrite <- Lt, zsub_app_l, zsub_all by lia. reflexivity.
        -- exact Hb.
        -- intros _ []. reflexivity.
      * rewrite lookup_insert_ne by congruence. apply (V_others z x l n k); try assumption; rewrite Em; [reflexivity|]. cbn. congruence.
    + unfold MC. cbn [goto t_micro t_env]. eexists l, _, _. rewrite !lookup_insert. repeat split. exact R1.
  - exact HP.
  - intros l' N. unfold tok, due. cbn [goto t_env t_micro]. rewrite Em, objects_insert, Ex. cbn. split; lia.
  - unfold tok. cbn [goto t_env t_micro k_refs]. rewrite Em, objects_insert, Ex. cbn. lia.
  - unfold due. rewrite Em. reflexivity.
  - cbn. rewrite R1. reflexivity.
  - split; [exact L| |].
    + intros z. cbn [goto t_micro t_env]. eapply V_micro; [| |apply Hval]; rewrite Em; [reflexivity|cbn; tauto].
    + unfold MC. cbn. exists l, n, k. tauto.
  - intros l'. unfold tok, due. cbn. rewrite Em. split; reflexivity.
Qed.
Lemma step_slice x y s n q : t_micro t = Idle -> t_prog t = CSlice x y s n :: q -> stepped (tstep (g_mem c) t).
Proof.
  intros Em Eq. start Em Eq. pose proof (Hval x) as Wx. destruct (p_vals p !! x) as [pv|] eqn:Epx; [discriminate|].
  destruct (t_env t !! x) as [[[]|]|] eqn:Ex; cbn in Wx; try contradiction. clear Wx.
  pose proof (Hval y) as Wy. destruct (t_env t !! y) as [[[l0 len]|]|] eqn:Ey; [| |apply V_none in Wy; rewrite Wy in HP'; discriminate].
  2:{ cbn in Wy. destruct (p_vals p !! y) as [[[w b]|]|] eqn:Ep; try contradiction; [|discriminate]. subst w. change (zlen []) with 0 in HP'. destruct (_ && _ && _ && _) eqn:E in HP'; [lia|discriminate]. }
  destruct (obj_cell y l0 len Ey) as (k & w & b & Ek & Ep & B & W & Hb & Hz & Tr). rewrite Em in W. cbn in W. rewrite Ep in HP'. pose proof (zlen_text len k B) as Lt. rewrite <- W in Lt.
  destruct ((0 <=? s) && (s <? zlen w) && (0 <=? n) && (s + n <=? zlen w)) eqn:E in HP'; [|discriminate]. rewrite Lt in E. rewrite E.
  unfold inc, with_cell. fold h. rewrite Ek. cbn [stepped]. eexists. assert (x <> y) as Nxy by congruence. pose proof B as (B1 & B2 & B3).
  assert (forall l, tok l (goto t (<[x := Some (l0, (fst len + s, n))]> (t_env t)) Idle q) = tok l t + (if l0 =? l then 1 else 0)) as Tk.
  { intros l. unfold tok, goto. cbn [t_env t_micro]. rewrite Em, objects_fresh by exact Ex. cbn. lia. }
  atcell l0 k.
  - exact Ek.
  - lia.
  - left. reflexivity.
  - split; [| |exact I]. 2:{ cbn [goto t_env t_micro]. instantiate (1 := Private (<[x := Some (zsub s n w, (false, snd b && (s + n =? zlen w)))]> (<[y := Some (w, (false, snd b))]> (p_vals p))) (p_log p)). cbn [p_vals]. intros z.
      destruct (decide (z = x)) as [->|Nx].
      { lk. apply V_here with (k := CCell (k_refs k + 1) (k_elems k)); [apply lookup_insert| | |discriminate|].
        - unfold inside. cbn. lia.
        - cbn. rewrite W. unfold text_in. cbn. rewrite zsub_zsub by lia. reflexivity.
        - cbn. intros Z1 _. apply andb_prop in Z1 as [Z1 Z2]. assert (ended len k) as En by (apply (Hz Z1); rewrite Em; discriminate). unfold ended in *. cbn. rewrite <- En. f_equal. lia. }
      destruct (decide (z = y)) as [->|Ny]; [lk; rewrite Ey; apply V_here with (k := CCell (k_refs k + 1) (k_elems k)); [apply lookup_insert|exact B|exact W|discriminate|intros Z1 _; apply (Hz Z1); rewrite Em; discriminate]|].
      lk. apply (V_at_cell Idle z l0 k); [rewrite <- Em; apply Hval|exact Ek|]. intros len' E'. cbn. split; [reflexivity|]. pose proof (obj_two z y l0 _ _ k Ny E' Ey Ek). lia. }
    lg Em.
  - exact HP'.
  - intros l N. rewrite Tk, if_eqb_other by exact N. split; [lia|]. rewrite idle_due by exact Em. reflexivity.
  - rewrite Tk, Z.eqb_refl. cbn. lia.
  - apply idle_due. exact Em.
  - cbn. destruct (Z.eqb_spec (k_refs k + 1) 0); [lia|reflexivity].
Qed.
Lemma step_shorten x n q : t_micro t = Idle -> t_prog t = CShorten x n :: q -> stepped (tstep (g_mem c) t).
Proof.
  intros Em Eq. start Em Eq. pose proof (Hval x) as Wx. destruct (t_env t !! x) as [[[l0 len]|]|] eqn:Ex; [| |apply V_none in Wx; rewrite Wx in HP'; discriminate].
  2:{ cbn in Wx. destruct (p_vals p !! x) as [[[w b]|]|] eqn:Ep; try contradiction; [|discriminate]. subst w. change (zlen []) with 0 in HP'. destruct (_ && _) eqn:E in HP'; [lia|discriminate]. }
  destruct (obj_cell x l0 len Ex) as (k & w & b & Ek & Ep & B & W & Hb & Hz & Tr). rewrite Em in W. cbn in W. rewrite Ep in HP'. pose proof (zlen_text len k B) as Lt. rewrite <- W in Lt.
  destruct ((0 <=? n) && (n <? zlen w)) eqn:E in HP'; [|discriminate]. rewrite Lt in E. rewrite E. pose proof B as (B1 & B2 & B3). cbn [stepped]. eexists. local; [|exact HP'|].
  - split; [lg Em| |exact I]. intros z. cbn [goto t_micro t_env p_vals]. destruct (decide (z = x)) as [->|N]; [|lk; rewrite <- Em; apply Hval].
    lk. apply V_here with (k := k); [exact Ek|unfold inside; cbn; lia| |exact Hb|discriminate]. cbn. rewrite W. unfold text_in. cbn [fst snd]. rewrite ztake_zsub, zsub_zsub by lia. f_equal. lia.
  - intros l. unfold tok, due. cbn [goto t_env t_micro]. rewrite Em, objects_insert, Ex. cbn. split; lia.
Qed.
Lemma text_nul n k : inside n k -> ended n k -> zsub (fst n) (snd n + 1) (k_elems k) = text_in n k ++ [0].
Proof.
  destruct n as [a n]. unfold ended, text_in. cbn. intros (A & B & C) E. cbn in *. rewrite zsub_split by lia. f_equal. apply zlist_ext_opt. intros i'. rewrite znth_zsub, znth_cons, znth_nil.
  destruct (Z.eqb_spec i' 0) as [->|N]; [change ((0 <=? 0) && (0 <? 1)) with true; cbn iota; replace (0 + Z.max 0 (a + n)) with (a + n) by lia; exact E|]. destruct ((0 <=? i') && (i' <? 1)) eqn:E2; [lia|reflexivity].
Qed.
Lemma step_cstr x q : t_micro t = Idle -> t_prog t = CCstr x :: q -> stepped (tstep (g_mem c) t).
Proof.
  intros Em Eq. start Em Eq. pose proof (Hval x) as Wx. destruct (t_env t !! x) as [[[l0 len]|]|] eqn:Ex; [| |apply V_none in Wx; rewrite Wx in HP'; discriminate].
  2:{ cbn in Wx. destruct (p_vals p !! x) as [[[w b]|]|] eqn:Ep; try contradiction; [|discriminate]. subst w. change (zlen [] =? 0) with true in HP'. cbn iota in HP'. cbn [stepped]. eexists. local; [|exact HP'|].
    - split; cbn [t_log t_micro t_env p_log p_vals waiting]; [f_equal; lg Em|intros z; rewrite <- Em; apply Hval|exact I].
    - intros l. unfold tok, due. cbn. rewrite Em. split; reflexivity. }
  destruct (obj_cell x l0 len Ex) as (k & w & b & Ek & Ep & B & W & Hb & Hz & Tr). rewrite Em in W. cbn in W. rewrite Ep in HP'. pose proof (zlen_text len k B) as Lt. rewrite <- W in Lt. rewrite Lt in HP'.
  destruct (snd len =? 0) eqn:E0.
  { cbn [stepped]. eexists. local; [|exact HP'|].
    - split; cbn [t_log t_micro t_env p_log p_vals waiting]; [f_equal; lg Em|intros z; rewrite <- Em; apply Hval|exact I].
    - intros l. unfold tok, due. cbn. rewrite Em. split; reflexivity. }
  unfold with_cell. fold h. rewrite Ek. pose proof B as (B1 & B2 & B3). destruct (znth_some (fst len + snd len) (k_elems k) ltac:(lia)) as (d & Ed). rewrite Ed.
  destruct (fst b || snd b || negb strict) eqn:Eb in HP'; [|discriminate]. destruct (Z.eqb_spec d 0) as [->|Nd]; cbn [stepped]; eexists; (local; [|exact HP'|]).
  - split; cbn [t_log t_micro t_env p_log p_vals waiting]; [|intros z|exact I].
    + rewrite text_nul, W by assumption. f_equal. lg Em.
    + destruct (decide (z = x)) as [->|N]; [|lk; rewrite <- Em; apply Hval]. lk. rewrite Ex. apply V_here with (k := k); [exact Ek|exact B|exact W|exact Hb|]. intros _ _. exact Ed.
  - intros l. unfold tok, due. cbn. rewrite Em. split; reflexivity.
  - assert (k_refs k = 1) as R1.
    { destruct (Z_lt_dec 1 (k_refs k)) as [L|L]; [|lia]. exfalso. apply HS. split; [exact Em|]. exists x, l0, len, k. split; [exact Ex|]. split; [exact Ek|]. split; [exact L|]. right. right. rewrite Eq. split; [reflexivity|]. split; [lia|]. congruence. }
    split; cbn [goto t_log t_micro t_env p_log p_vals waiting].
    + exists w, (fst b, true). rewrite lookup_insert. split; [reflexivity|]. do 2 f_equal. symmetry. lg Em.
    + intros z. destruct (decide (z = x)) as [->|N].
      * lk. rewrite Ex. apply V_here with (k := k); [exact Ek|exact B|exact W|exact Hb|]. intros _ []. reflexivity.
      * lk. eapply V_micro; [| |apply Hval]; rewrite Em; [reflexivity|discriminate].
    + unfold MC. cbn. eauto 8.
  - intros l. unfold tok, due. cbn. rewrite Em. split; reflexivity.
Qed.
Lemma step_ok : stepped (tstep (g_mem c) t).
Proof.
  destruct (t_micro t) eqn:Em; try (pose proof (T_micro _ _ _ HT) as M; unfold MC in M; rewrite Em in M; contradiction).
  - assert (t_prog t = [] \/ exists o q, t_prog t = o :: q) as [Eq|(o & q & Eq)] by (destruct (t_prog t); eauto).
    + unfold tstep. rewrite Em, Eq. split; assumption.
    + destruct o; eauto using step_new, step_copy, step_move, step_assign, step_read, step_destroy, step_set, step_clear, step_slice, step_shorten, step_cstr.
  - eapply step_dload; exact Em.
  - eapply step_dcleanse; exact Em.
  - eapply step_ddec; exact Em.
  - eapply step_dfree; exact Em.
  - eapply step_ncheck; exact Em.
  - eapply step_ngrow; exact Em.
  - eapply step_mwrite; exact Em.
Qed.
End Step2.

(** Only objects never copied are modified: no modification of a shared buffer. *)
Lemma strict_change h t p f : T h t p -> pexec true (t_prog t) p = Some f -> ~ shared_change h t.
Proof.
  intros HT HP (Em & x & l & len & k & Ex & Ek & R & O). pose proof (T_vals _ _ _ HT x) as W. rewrite Ex in W. cbn in W.
  destruct (p_vals p !! x) as [[[w b]|]|] eqn:Ep; try contradiction. destruct W as (k' & Ek' & B & W & Hb & Hz). assert (k' = k) as -> by congruence.
  destruct b as [[] z]; [specialize (Hb eq_refl); lia|]. cbn [fst snd] in *. destruct O as [O|[(i & v & O)|(O & N0 & Nz)]]; rewrite O in HP; cbn [pexec pstep fst snd] in HP; rewrite Ep in HP.
  - discriminate.
  - rewrite andb_false_r in HP. discriminate.
  - rewrite Em in W. cbn in W. rewrite W, zlen_text in HP by exact B. destruct (Z.eqb_spec (snd len) 0); [contradiction|]. destruct z; [|discriminate]. apply Nz. apply Hz; [reflexivity|]. rewrite Em. discriminate.
Qed.
Lemma move_strict i c ps fs : G true c ps fs -> exists c' ps', move i c = COk c' /\ G true c' ps' fs.
Proof.
  intros H. unfold move. destruct (g_threads c !! i) as [t|] eqn:Et; [|exists c, ps; tauto].
  destruct (G_threads _ _ _ _ H i t Et) as (p & f & Hp & Hf & HT & HP). pose proof (step_ok true c ps fs i t p f H Et Hp Hf HT HP (strict_change _ _ _ _ HT HP)) as S.
  destruct (tstep (g_mem c) t) as [m' t'| |e]; cbn in S; [|exists c, ps; tauto|contradiction]. destruct S as (p' & S). eexists _, _. split; [reflexivity|exact S].
Qed.
Lemma run_strict sched : forall c ps fs, G true c ps fs -> exists c' ps', run sched c = COk c' /\ G true c' ps' fs.
Proof.
  induction sched as [|i sched IH]; intros c ps fs H; [exists c, ps; tauto|]. cbn [run]. destruct (move_strict i c ps fs H) as (c1 & ps1 & -> & H1). apply (IH _ _ _ H1).
Qed.

(** No two threads are about to touch the same memory. *)
Lemma access_share strict c ps fs i t p f l a : G strict c ps fs -> g_threads c !! i = Some t -> ps !! i = Some p -> T (m_heap (g_mem c)) t p -> pexec strict (t_prog t) p = Some f ->
  next_access t = Some (l, a) ->
  match a with
  | Frees => due l t = 1
  | Writes => 1 <= tok l t /\ exists k, m_heap (g_mem c) !! l = Some k /\ k_refs k = 1
  | _ => 1 <= tok l t
  end.
Proof.
  intros H Ht Hp HT HP N.
  assert (forall x n, t_env t !! x = Some (Some (l, n)) -> 1 <= tok l t) as Ob.
  { intros x n E. pose proof (objects_has l (t_env t) x). pose proof (has_some l n _ E). pose proof (mtok_range l (t_micro t)). unfold tok. lia. }
  assert (mtok l (t_micro t) = 1 -> 1 <= tok l t) as Mt by (intros E; pose proof (objects_nonneg l (t_env t)); unfold tok; lia).
  assert (forall x b, at_handle (t_env t !! x) b = Some (l, a) -> b = a /\ 1 <= tok l t) as At.
  { intros x b E. unfold at_handle in E. destruct (t_env t !! x) as [[[l' n]|]|] eqn:Ex; try discriminate. injection E as -> ->. split; [reflexivity|]. apply (Ob x n Ex). }
  pose proof (T_micro _ _ _ HT) as M. unfold MC in M. unfold next_access in N. destruct (t_micro t) eqn:Em; try contradiction.
  - destruct (t_prog t) as [|[] q]; try discriminate; try (apply At in N as [<- N]; exact N).
    destruct (t_env t !! x) as [[[l' n]|]|] eqn:Ex; try discriminate. destruct (snd n =? 0); [discriminate|]. injection N as -> <-. exact (Ob x n Ex).
  - injection N as -> <-. apply Mt. cbn. rewrite Z.eqb_refl. reflexivity.
  - injection N as -> <-. split; [|exact M]. apply Mt. cbn. rewrite Z.eqb_refl. reflexivity.
  - injection N as -> <-. apply Mt. cbn. rewrite Z.eqb_refl. reflexivity.
  - injection N as -> <-. unfold due. rewrite Em, Z.eqb_refl. reflexivity.
  - apply At in N as [<- N]. exact N.
  - destruct M as (l' & len & k & Ex & Ek & R). pose proof (At _ _ N) as [<- A]. split; [exact A|]. rewrite Ex in N. injection N as ->. exists k. split; [exact Ek|exact R].
  - destruct M as (l' & len & k & Ex & Ek & R & _). pose proof (At _ _ N) as [<- A]. split; [exact A|]. rewrite Ex in N. injection N as ->. exists k. split; [exact Ek|exact R].
Qed.
Lemma no_conflict strict c ps fs : G strict c ps fs -> ~ conflict c.
Proof.
  intros H (i & j & t & u & l & a & b & N & Ht & Hu & At & Au & C).
  destruct (G_threads _ _ _ _ H i t Ht) as (p & f & Hp & Hf & HT & HP). destruct (G_threads _ _ _ _ H j u Hu) as (q & g & Hq & Hg & HU & HQ).
  pose proof (access_share _ _ _ _ _ _ _ _ _ _ H Ht Hp HT HP At) as Sa. pose proof (access_share _ _ _ _ _ _ _ _ _ _ H Hu Hq HU HQ Au) as Sb.
  pose proof (G_count _ _ _ _ H l) as K. pose proof (sum_of_ge2 (tok l) _ i j t u (tok_nonneg l) N Ht Hu) as S2. pose proof (sum_of_ge2 (due l) _ i j t u (fun v => proj1 (due_range l v)) N Ht Hu) as D2.
  pose proof (tok_nonneg l t). pose proof (tok_nonneg l u). pose proof (due_range l t). pose proof (due_range l u).
  destruct (m_heap (g_mem c) !! l) as [k|] eqn:Ek.
  - destruct K as [K1 K2]. destruct (Z.eqb_spec (k_refs k) 0) as [R0|R0]; destruct a; destruct b; try discriminate C; cbn in Sa, Sb;
      repeat match goal with X : _ /\ _ |- _ => destruct X | X : exists _, _ |- _ => destruct X end;
      repeat match goal with X : Some _ = Some _ |- _ => injection X as <- end; lia.
  - destruct a; destruct b; try discriminate C; cbn in Sa, Sb; lia.
Qed.
(** Every object's buffer is there. *)
Lemma G_alive strict c ps fs i t x l n : G strict c ps fs -> g_threads c !! i = Some t -> t_env t !! x = Some (Some (l, n)) ->
  exists k, m_heap (g_mem c) !! l = Some k /\ 1 <= k_refs k /\ inside n k.
Proof.
  intros H Ht Ex. destruct (G_threads _ _ _ _ H i t Ht) as (p & f & Hp & Hf & HT & HP). destruct (obj_cell strict c ps fs i t p H Ht HT x l n Ex) as (k & w & b & Ek & _ & B & _ & _ & _ & Tr).
  exists k. split; [exact Ek|]. split; [lia|exact B].
Qed.

(** From and to configurations at rest. *)
Definition idle (c : config) : Prop := forall i t, g_threads c !! i = Some t -> t_micro t = Idle.
Lemma shows_V h t p : shows h (t_env t) p <-> forall x, V h Idle x (t_env t !! x) (p !! x).
Proof.
  unfold shows. split; intros A x; specialize (A x); unfold V in *; destruct (t_env t !! x) as [[[l n]|]|]; destruct (p !! x) as [[[w b]|]|]; try exact A; destruct A as (k & A1 & A2 & A3 & A4 & A5); exists k.
  - tauto.
  - split; [exact A1|]. split; [exact A2|]. split; [exact A3|]. split; [exact A4|]. intros Z1. apply A5; [exact Z1|discriminate].
Qed.
Lemma sum_of_none {A} (f : A -> Z) l : (forall i t, l !! i = Some t -> f t = 0) -> sum_of f l = 0.
Proof.
  induction l as [|a l IH]; intros N; [reflexivity|]. cbn. rewrite (N 0%nat a eq_refl), IH; [reflexivity|]. intros i t E. exact (N (S i) t E).
Qed.
Lemma objects_zero l e : (forall x n, e !! x = Some (Some (l, n)) -> False) -> objects l e = 0.
Proof.
  intros N. unfold objects. rewrite (proj2 (map_size_empty_iff _)); [reflexivity|]. apply map_filter_empty_iff. intros x r E. cbn. destruct r as [[l' n]|]; [|discriminate]. cbn. intros E'. injection E' as ->. exact (N x n E).
Qed.
Lemma rest_G strict c ps fs : at_rest c ps -> legal strict c ps fs -> G strict c ps fs /\ idle c.
Proof.
  intros [A R F] L. assert (idle c) as Id by (intros i t Ht; destruct (Forall2_lookup_l _ _ _ _ _ A Ht) as (p & _ & Em & _); exact Em).
  pose proof (Forall2_length _ _ _ A) as Ln. split; [|exact Id]. split.
  - intros i t Ht. destruct (Forall2_lookup_l _ _ _ _ _ A Ht) as (p & Hp & Em & El & Sh).
    assert (zip (g_threads c) ps !! i = Some (t, p)) as Hz by (apply lookup_zip_with_Some; exists t, p; tauto).
    destruct (Forall2_lookup_l _ _ _ _ _ L Hz) as (f & Hf & HP). exists p, f. split; [exact Hp|]. split; [exact Hf|]. split; [|exact HP].
    split; [rewrite Em; exact El| |unfold MC; rewrite Em; exact I]. rewrite Em. apply shows_V. exact Sh.
  - symmetry. exact Ln.
  - intros l. assert (sum_of (due l) (g_threads c) = 0) as D by (apply sum_of_none; intros i t Ht; unfold due; rewrite (Id i t Ht); reflexivity). rewrite D.
    assert (sum_of (tok l) (g_threads c) = sum_of (fun t => objects l (t_env t)) (g_threads c)) as E.
    { apply sum_of_ext. intros t Ht'. apply elem_of_list_lookup in Ht' as (i & Ht). unfold tok. rewrite (Id i t Ht). cbn. lia. }
    rewrite E. destruct (m_heap (g_mem c) !! l) as [k|] eqn:Ek.
    + destruct (R l k Ek) as [R1 R2]. split; [exact R1|]. destruct (Z.eqb_spec (k_refs k) 0); lia.
    + split; [|reflexivity]. apply sum_of_none. intros i t Ht. destruct (Forall2_lookup_l _ _ _ _ _ A Ht) as (p & Hp & Em & El & Sh). apply objects_zero. intros x n Ex.
      specialize (Sh x). rewrite Ex in Sh. destruct (p_vals p !! x) as [[[w b]|]|]; try contradiction. destruct Sh as (k & Ek' & _). congruence.
  - exact F.
Qed.
Lemma G_rest strict c ps fs : G strict c ps fs -> idle c -> at_rest c ps.
Proof.
  intros H Id. split.
  - apply Forall2_same_length_lookup_2; [symmetry; apply (G_len _ _ _ _ H)|]. intros i t p Ht Hp. destruct (G_threads _ _ _ _ H i t Ht) as (p' & f & Hp' & _ & HT & _).
    assert (p' = p) as -> by congruence. pose proof (Id i t Ht) as Em. split; [exact Em|]. split; [pose proof (T_log _ _ _ HT) as L; rewrite Em in L; exact L|]. apply shows_V. intros x. rewrite <- Em. apply (T_vals _ _ _ HT).
  - intros l k Ek. pose proof (G_count _ _ _ _ H l) as C. rewrite Ek in C. destruct C as [C1 C2].
    assert (sum_of (due l) (g_threads c) = 0) as D by (apply sum_of_none; intros i t Ht; unfold due; rewrite (Id i t Ht); reflexivity).
    assert (sum_of (tok l) (g_threads c) = sum_of (fun t => objects l (t_env t)) (g_threads c)) as E.
    { apply sum_of_ext. intros t Ht'. apply elem_of_list_lookup in Ht' as (i & Ht). unfold tok. rewrite (Id i t Ht). cbn. lia. }
    pose proof (sum_of_nonneg (tok l) (g_threads c) (tok_nonneg l)). split; [lia|]. rewrite D in C2. destruct (Z.eqb_spec (k_refs k) 0); lia.
  - apply (G_fresh _ _ _ _ H).
Qed.
Lemma G_legal strict c ps fs : G strict c ps fs -> length fs = length ps -> legal strict c ps fs.
Proof.
  intros H Lf. apply Forall2_same_length_lookup_2.
  - rewrite zip_with_length, (G_len _ _ _ _ H), Nat.min_id. rewrite Lf. symmetry. apply (G_len _ _ _ _ H).
  - intros i [t p] f Hz Hf. apply lookup_zip_with_Some in Hz as (t' & p' & E & Ht & Hp). injection E as <- <-. destruct (G_threads _ _ _ _ H i t Ht) as (p' & f' & Hp' & Hf' & _ & HP). cbn. congruence.
Qed.
Lemma legal_len strict c ps fs : at_rest c ps -> legal strict c ps fs -> length fs = length ps.
Proof.
  intros A L. apply Forall2_length in L. pose proof (Forall2_length _ _ _ (ar_threads _ _ A)) as Ln. rewrite zip_with_length, Ln, Nat.min_id in L. symmetry. exact L.
Qed.
(** At the end. *)
Lemma G_done strict c ps fs : G strict c ps fs -> length fs = length ps -> done c -> at_rest c fs.
Proof.
  intros H Lf D. assert (idle c) as Id by (intros i t Ht; exact (proj1 (Forall_lookup_1 _ _ _ _ D Ht))). replace fs with ps; [exact (G_rest _ _ _ _ H Id)|].
  apply (list_eq_same_length _ _ (length ps)); [lia|reflexivity|]. intros i p f _ Hp Hf.
  destruct (lookup_lt_is_Some_2 (g_threads c) i) as (t & Ht); [rewrite <- (G_len _ _ _ _ H); eapply lookup_lt_Some; exact Hp|].
  destruct (G_threads _ _ _ _ H i t Ht) as (p' & f' & Hp' & Hf' & _ & HP). rewrite (proj2 (Forall_lookup_1 _ _ _ _ D Ht)) in HP. cbn in HP. congruence.
Qed.
Lemma rest_empty c ps : at_rest c ps -> no_objects c -> m_heap (g_mem c) = ∅.
Proof.
  intros A N. apply map_empty. intros l. destruct (m_heap (g_mem c) !! l) as [k|] eqn:Ek; [|reflexivity]. destruct (ar_refs _ _ A l k Ek) as [R R1].
  rewrite sum_of_none in R; [lia|]. intros i t Ht. apply objects_zero. intros x n Ex. pose proof (Forall_lookup_1 _ _ _ _ N Ht) as E. cbn in E. rewrite E in Ex. discriminate Ex.
Qed.
