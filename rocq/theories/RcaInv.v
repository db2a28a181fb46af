(** Invariant of the heap model and the elementary state transformations that keep it. *)
From Verif Require Import RcaModel.
From Coq Require Import ZifyBool.
Open Scope Z_scope.

(** Running a modelled function: it must end normally in [P] or throw into [E]; nothing else. *)
Definition runs {S A} (m : M S A) (s : S) (P : A -> S -> Prop) (E : exn -> S -> Prop) : Prop :=
  match m s with Ok a s' => P a s' | Exn e s' => E e s' | _ => False end.

Section Runs.
Context {S : Type}.
Lemma runs_ret {A} (a : A) (s : S) (P : A -> S -> Prop) (E : exn -> S -> Prop) : P a s -> runs (ret a) s P E.
Proof. intros H; exact H. Qed.
Lemma runs_throw {A} e (s : S) (P : A -> S -> Prop) (E : exn -> S -> Prop) :
  E e s -> runs (throw e) s P E.
Proof. intros H; exact H. Qed.
Lemma runs_bind {A B} (m : M S A) (k : A -> M S B) s (P' : A -> S -> Prop) (P : B -> S -> Prop) (E : exn -> S -> Prop) :
  runs m s P' E -> (forall a s', P' a s' -> runs (k a) s' P E) -> runs (bind m k) s P E.
Proof. unfold runs, bind; intros H Hk; destruct (m s); try exact H. apply Hk, H. Qed.
Lemma runs_conseq {A} (m : M S A) s (P P' : A -> S -> Prop) (E E' : exn -> S -> Prop) :
  runs m s P E -> (forall a s', P a s' -> P' a s') -> (forall e s', E e s' -> E' e s') ->
  runs m s P' E'.
Proof. unfold runs; intros H HP HE; destruct (m s); auto. Qed.
(** Stepping through a computation that is known to return. *)
Lemma runs_step {A B} (m : M S A) (k : A -> M S B) s a s' (P : B -> S -> Prop) (E : exn -> S -> Prop) :
  m s = Ok a s' -> runs (k a) s' P E -> runs (bind m k) s P E.
Proof. unfold runs, bind; intros ->; trivial. Qed.
End Runs.

Lemma max_alloc_lt : max_alloc < W63.
Proof. reflexivity. Qed.

Section Inv.
Context {T : Type}.
Notation heap := (gmap loc (cell T)).
Notation env := (gmap var obj).
Implicit Types (h : heap) (e : env) (x y : var) (l n : loc) (o : obj) (c : cell T).

(** [vle v w]: [w] agrees with [v] wherever [v] is specified. *)
Definition ele (a b : option T) : Prop := a = None \/ a = b.
Definition vle : list (option T) -> list (option T) -> Prop := Forall2 ele.

Lemma ele_refl a : ele a a. Proof. right; reflexivity. Qed.
Lemma ele_trans (a b c : option T) : ele a b -> ele b c -> ele a c.
Proof. intros [-> | ->]; [left; reflexivity|]. trivial. Qed.
Lemma vle_refl v : vle v v.
Proof. induction v; constructor; [apply ele_refl|assumption]. Qed.
Lemma vle_trans u v w : vle u v -> vle v w -> vle u w.
Proof.
  intros H; revert w; induction H as [|a b u v Hab H IH]; intros w Hw; [exact Hw|].
  inversion Hw; subst; constructor; [eapply ele_trans; eassumption|apply IH; assumption].
Qed.
Lemma vle_len v w : vle v w -> zlen v = zlen w.
Proof. intros H; unfold zlen; f_equal; eapply Forall2_length; exact H. Qed.
Lemma vle_app v w v' w' : vle v w -> vle v' w' -> vle (v ++ v') (w ++ w').
Proof. apply Forall2_app. Qed.
Lemma vle_ztake k v w : vle v w -> vle (ztake k v) (ztake k w).
Proof.
  unfold ztake; generalize (Z.to_nat k); intros m H; revert m.
  induction H; intros [|m]; cbn; try constructor; auto; apply IHForall2.
Qed.
Lemma vle_zdrop k v w : vle v w -> vle (zdrop k v) (zdrop k w).
Proof.
  unfold zdrop; generalize (Z.to_nat k); intros m H; revert m.
  induction H; intros [|m]; cbn; try constructor; auto; apply IHForall2.
Qed.
Lemma vle_zsub a k v w : vle v w -> vle (zsub a k v) (zsub a k w).
Proof. intros; apply vle_ztake, vle_zdrop; assumption. Qed.
Lemma vle_nth v w i : vle v w -> forall t, znth i v = Some (Some t) -> znth i w = Some (Some t).
Proof.
  intros H t; revert i; induction H as [|a b v w Hab H IH]; intros i; [rewrite znth_nil; discriminate|].
  rewrite !znth_cons; destruct (i =? 0); [|apply IH].
  destruct Hab as [-> | ->]; [discriminate|trivial].
Qed.
Lemma vle_nones k v : zlen v = Z.max 0 k -> vle (zrep k None) v.
Proof.
  intros Hl; unfold zrep. assert (Z.to_nat k = length v) as -> by (unfold zlen in Hl; lia).
  clear; induction v; constructor; [left; reflexivity|assumption].
Qed.
Lemma vle_zupd a k k' v w : vle k k' -> vle v w -> vle (zupd a k v) (zupd a k' w).
Proof.
  intros Hk Hv; unfold zupd. rewrite (vle_len _ _ Hk).
  apply vle_app; [apply vle_ztake, Hv|]. apply vle_app; [exact Hk|apply vle_zdrop, Hv].
Qed.
Lemma vle_somes vs w : vle (map Some vs) w -> w = map Some vs.
Proof.
  revert w; induction vs as [|a vs IH]; intros w H; inversion H; subst; [reflexivity|].
  destruct H2 as [ | <-]; [discriminate|]. cbn; f_equal; auto.
Qed.

(** Number of live objects that refer to the cell [l]. *)
Definition ind l o : Z := if decide (o_ref o = Some l) then 1 else 0.
Definition count l e : Z := Z.of_nat (size (base.filter (fun kv : var * obj => o_ref kv.2 = Some l) e)).

Lemma ind_bounds l o : 0 <= ind l o <= 1.
Proof. unfold ind; destruct (decide _); lia. Qed.
Lemma ind_some l o : o_ref o = Some l -> ind l o = 1.
Proof. intros H; unfold ind; rewrite decide_True by exact H; reflexivity. Qed.
Lemma ind_other l o : o_ref o <> Some l -> ind l o = 0.
Proof. intros H; unfold ind; rewrite decide_False by exact H; reflexivity. Qed.
Lemma count_nonneg l e : 0 <= count l e.
Proof. unfold count; lia. Qed.
Lemma count_empty l : count l ∅ = 0.
Proof. unfold count; rewrite map_filter_empty, map_size_empty; reflexivity. Qed.
Lemma count_insert l e x o : e !! x = None -> count l (<[x:=o]> e) = count l e + ind l o.
Proof.
  intros Hx; unfold count, ind. rewrite map_filter_insert; cbn.
  destruct (decide (o_ref o = Some l)).
  - rewrite map_size_insert_None; [lia|].
    apply map_filter_lookup_None; left; exact Hx.
  - rewrite delete_notin by exact Hx; lia.
Qed.
Lemma count_delete l e x o : e !! x = Some o -> count l (delete x e) = count l e - ind l o.
Proof.
  intros Hx. rewrite <- (insert_delete e x o Hx) at 2.
  rewrite count_insert by apply lookup_delete. lia.
Qed.
Lemma count_update l e x o o' :
  e !! x = Some o -> count l (<[x:=o']> e) = count l e - ind l o + ind l o'.
Proof.
  intros Hx. rewrite <- (insert_delete_insert e x o'), count_insert by apply lookup_delete.
  rewrite (count_delete _ _ _ _ Hx); lia.
Qed.
Lemma count_ge1 l e x o : e !! x = Some o -> o_ref o = Some l -> 1 <= count l e.
Proof.
  intros Hx Hr. pose proof (count_delete l e x o Hx) as H. rewrite (ind_some _ _ Hr) in H.
  pose proof (count_nonneg l (delete x e)); lia.
Qed.
Lemma count_ge2 l e x o y o' : x <> y ->
  e !! x = Some o -> o_ref o = Some l -> e !! y = Some o' -> o_ref o' = Some l -> 2 <= count l e.
Proof.
  intros Hxy Hx Hr Hy Hr'. pose proof (count_delete l e x o Hx) as H. rewrite (ind_some _ _ Hr) in H.
  assert (1 <= count l (delete x e)); [|lia].
  apply (count_ge1 l _ y o'); [rewrite lookup_delete_ne by exact Hxy; exact Hy|exact Hr'].
Qed.
Lemma count_witness l e : 0 < count l e -> exists x o, e !! x = Some o /\ o_ref o = Some l.
Proof.
  unfold count; intros H.
  destruct (decide (base.filter (fun kv : var * obj => o_ref kv.2 = Some l) e = ∅)) as [E|E].
  - rewrite E, map_size_empty in H; lia.
  - apply map_choose in E. destruct E as (x & o & Hx).
    apply map_filter_lookup_Some in Hx; exists x, o; exact Hx.
Qed.

(** The value an object stands for. *)
Definition view h o : list (option T) :=
  match o_ref o with
  | None => []
  | Some l => match h !! l with Some c => zsub (o_off o) (o_len o) (c_buf c) | None => [] end
  end.

Variable d : desc T.

Definition hash_ok (v : list (option T)) (k : Z) : Prop :=
  k = 0 \/ exists r, djb d 5381 v = Some r /\ k = Z.land r 2147483647.

Record cell_ok e n l c : Prop := CellOk {
  ck_refs : c_refs c = count l e;
  ck_pos : 0 < c_refs c;
  ck_size : zlen (c_buf c) <= max_alloc;
  ck_next : (l < n)%positive
}.
(** An object with a buffer designates a part of it and its cached hash is right. *)
Definition obj_ok h o : Prop := forall l, o_ref o = Some l ->
  exists c, h !! l = Some c /\ 0 <= o_off o /\ 0 <= o_len o /\
    o_off o + o_len o <= zlen (c_buf c) /\ hash_ok (zsub (o_off o) (o_len o) (c_buf c)) (o_hash o).
Definition InvH h e n : Prop :=
  (forall l c, h !! l = Some c -> cell_ok e n l c) /\ (forall x o, e !! x = Some o -> obj_ok h o).
Definition Inv (s : state T) : Prop := InvH (st_heap s) (st_env s) (st_next s).

(** An object that has not been moved from. *)
Definition good o : Prop :=
  o_ref o = None -> o_off o = 0 /\ o_len o = 0 /\ hash_ok [] (o_hash o).

Lemma Inv_init : Inv st_init.
Proof. split; cbn; intros ? ?; rewrite lookup_empty; discriminate. Qed.

(** Nothing is leaked: without live objects there are no buffers. *)
Lemma Inv_no_leak s : Inv s -> st_env s = ∅ -> st_heap s = ∅.
Proof.
  intros [Hc _] He. apply map_eq; intros l; rewrite lookup_empty.
  destruct (st_heap s !! l) as [c|] eqn:E; [|reflexivity].
  destruct (Hc l c E) as [Hr Hp _ _]. rewrite He, count_empty in Hr; lia.
Qed.

Lemma obj_ok_null h o : o_ref o = None -> obj_ok h o.
Proof. intros H l Hl; congruence. Qed.

Lemma obj_ok_len h o l : obj_ok h o -> o_ref o = Some l -> 0 <= o_off o /\ 0 <= o_len o.
Proof. intros H Hl; destruct (H l Hl) as (c & _ & ? & ? & _); auto. Qed.

(** Pure state transformations. *)
Lemma inv_same_ref h e n x o o' :
  InvH h e n -> e !! x = Some o -> o_ref o' = o_ref o -> obj_ok h o' -> InvH h (<[x:=o']> e) n.
Proof.
  intros [Hc Ho] Hx Hr Hok; split.
  - intros l c Hl. destruct (Hc l c Hl) as [H1 H2 H3 H4]; constructor; try assumption.
    rewrite (count_update l e x o o' Hx). unfold ind; rewrite Hr; lia.
  - intros y oy Hy. destruct (decide (x = y)) as [<-|Hn].
    + rewrite lookup_insert in Hy; injection Hy as <-; exact Hok.
    + rewrite lookup_insert_ne in Hy by exact Hn. eauto.
Qed.

Lemma inv_unique h e n x o l c y o' :
  InvH h e n -> e !! x = Some o -> o_ref o = Some l -> h !! l = Some c -> c_refs c = 1 ->
  x <> y -> e !! y = Some o' -> o_ref o' <> Some l.
Proof.
  intros [Hc _] Hx Hr Hl H1 Hxy Hy Hr'. destruct (Hc l c Hl) as [H2 _ _ _].
  pose proof (count_ge2 l e x o y o' Hxy Hx Hr Hy Hr'); lia.
Qed.

Lemma inv_own_cell h e n x o o' l c c' :
  InvH h e n -> e !! x = Some o -> o_ref o = Some l -> h !! l = Some c -> c_refs c = 1 ->
  o_ref o' = Some l -> c_refs c' = 1 -> zlen (c_buf c') <= max_alloc ->
  obj_ok (<[l:=c']> h) o' -> InvH (<[l:=c']> h) (<[x:=o']> e) n.
Proof.
  intros HI Hx Hr Hl H1 Hr' H1' Hm Hok. pose proof HI as [Hc Ho]; split.
  - intros l2 c2 Hl2. destruct (decide (l = l2)) as [<-|Hn].
    + rewrite lookup_insert in Hl2; injection Hl2 as <-.
      destruct (Hc l c Hl) as [E1 E2 E3 E4]; constructor; try assumption; [|lia].
      rewrite (count_update l e x o o' Hx), (ind_some l o Hr), (ind_some l o' Hr'); lia.
    + rewrite lookup_insert_ne in Hl2 by exact Hn.
      destruct (Hc l2 c2 Hl2) as [E1 E2 E3 E4]; constructor; try assumption.
      rewrite (count_update l2 e x o o' Hx), !ind_other by congruence; lia.
  - intros y oy Hy. destruct (decide (x = y)) as [<-|Hn].
    + rewrite lookup_insert in Hy; injection Hy as <-; exact Hok.
    + rewrite lookup_insert_ne in Hy by exact Hn.
      pose proof (inv_unique h e n x o l c y oy HI Hx Hr Hl H1 Hn Hy) as Hne.
      intros l2 Hl2. destruct (Ho y oy Hy l2 Hl2) as (c2 & Hc2 & Hrest).
      exists c2; split; [|exact Hrest]. rewrite lookup_insert_ne by congruence; exact Hc2.
Qed.

Definition null_at e x : Prop := forall o, e !! x = Some o -> o_ref o = None.

Lemma inv_null h e n x o' :
  InvH h e n -> null_at e x -> o_ref o' = None -> InvH h (<[x:=o']> e) n.
Proof.
  intros [Hc Ho] Hx Hr; split.
  - intros l c Hl. destruct (Hc l c Hl) as [H1 H2 H3 H4]; constructor; try assumption.
    destruct (e !! x) as [o|] eqn:E.
    + rewrite (count_update l e x o o' E), !ind_other; [lia|congruence|].
      rewrite (Hx o E); discriminate.
    + rewrite (count_insert l e x o' E), ind_other by congruence; lia.
  - intros y oy Hy. destruct (decide (x = y)) as [<-|Hn].
    + rewrite lookup_insert in Hy; injection Hy as <-; apply obj_ok_null, Hr.
    + rewrite lookup_insert_ne in Hy by exact Hn; eauto.
Qed.

Lemma inv_fresh_loc h e n : InvH h e n -> h !! n = None.
Proof.
  intros [Hc _]. destruct (h !! n) as [c|] eqn:E; [|reflexivity].
  destruct (Hc n c E) as [_ _ _ H]; lia.
Qed.
Lemma inv_fresh_count h e n : InvH h e n -> count n e = 0.
Proof.
  intros HI. pose proof (count_nonneg n e). destruct (Z.eq_dec (count n e) 0); [assumption|].
  destruct (count_witness n e) as (x & o & Hx & Hr); [lia|].
  destruct HI as [Hc Ho]. destruct (Ho x o Hx n Hr) as (c & Hcl & _).
  destruct (Hc n c Hcl) as [_ _ _ H']; lia.
Qed.

Lemma inv_new_cell h e n x c' o' :
  InvH h e n -> null_at e x -> o_ref o' = Some n -> c_refs c' = 1 -> zlen (c_buf c') <= max_alloc ->
  obj_ok (<[n:=c']> h) o' -> InvH (<[n:=c']> h) (<[x:=o']> e) (Pos.succ n).
Proof.
  intros HI Hx Hr H1 Hm Hok. pose proof (inv_fresh_loc _ _ _ HI) as Hfr.
  pose proof (inv_fresh_count _ _ _ HI) as Hfc. destruct HI as [Hc Ho]. split.
  - intros l2 c2 Hl2. destruct (decide (n = l2)) as [<-|Hn].
    + rewrite lookup_insert in Hl2; injection Hl2 as <-. constructor; try assumption; try lia.
      destruct (e !! x) as [o|] eqn:E.
      * rewrite (count_update n e x o o' E), (ind_some n o' Hr), ind_other; [lia|].
        rewrite (Hx o E); discriminate.
      * rewrite (count_insert n e x o' E), (ind_some n o' Hr); lia.
    + rewrite lookup_insert_ne in Hl2 by exact Hn.
      destruct (Hc l2 c2 Hl2) as [E1 E2 E3 E4]; constructor; try assumption; [|lia].
      destruct (e !! x) as [o|] eqn:E.
      * rewrite (count_update l2 e x o o' E), !ind_other; [lia|congruence|].
        rewrite (Hx o E); discriminate.
      * rewrite (count_insert l2 e x o' E), ind_other by congruence; lia.
  - intros y oy Hy. destruct (decide (x = y)) as [<-|Hn].
    + rewrite lookup_insert in Hy; injection Hy as <-; exact Hok.
    + rewrite lookup_insert_ne in Hy by exact Hn.
      intros l2 Hl2. destruct (Ho y oy Hy l2 Hl2) as (c2 & Hc2 & Hrest).
      exists c2; split; [|exact Hrest].
      rewrite lookup_insert_ne; [exact Hc2|]. intros ->; congruence.
Qed.

(** One more / one fewer reference to a cell; the last reference removes it. *)
Definition bump (r : option loc) h : heap :=
  match r with
  | None => h
  | Some l => match h !! l with
              | Some c => <[l := Cell (c_buf c) (c_gen c) (c_refs c + 1)]> h
              | None => h
              end
  end.
Definition drop (r : option loc) h : heap :=
  match r with
  | None => h
  | Some l => match h !! l with
              | Some c => if c_refs c - 1 <? 1 then delete l h
                          else <[l := Cell (c_buf c) (c_gen c) (c_refs c - 1)]> h
              | None => h
              end
  end.

Lemma obj_ok_buf h h' o :
  (forall l c, o_ref o = Some l -> h !! l = Some c ->
     exists c', h' !! l = Some c' /\ c_buf c' = c_buf c) ->
  obj_ok h o -> obj_ok h' o.
Proof.
  intros Hh Hok l Hl. destruct (Hok l Hl) as (c & Hc & Hrest).
  destruct (Hh l c Hl Hc) as (c' & Hc' & Hb). exists c'; rewrite Hb; auto.
Qed.

Lemma inv_copy h e n y o t :
  InvH h e n -> e !! y = Some o -> e !! t = None -> InvH (bump (o_ref o) h) (<[t:=o]> e) n.
Proof.
  intros HI Hy Ht. pose proof HI as [Hc Ho]. unfold bump.
  destruct (o_ref o) as [l|] eqn:Hr.
  2:{ apply inv_null; [exact HI| |exact Hr]. intros o2 H2; congruence. }
  destruct (Ho y o Hy l Hr) as (c & Hcl & _). rewrite Hcl.
  assert (Hbuf : forall o2, obj_ok h o2 -> obj_ok (<[l:=Cell (c_buf c) (c_gen c) (c_refs c + 1)]> h) o2).
  { intros o2. apply obj_ok_buf. intros l2 c2 _ Hl2. destruct (decide (l = l2)) as [<-|Hn].
    - rewrite lookup_insert. eexists; split; [reflexivity|]. cbn; congruence.
    - rewrite lookup_insert_ne by exact Hn; eauto. }
  split.
  - intros l2 c2 Hl2. destruct (decide (l = l2)) as [<-|Hn].
    + rewrite lookup_insert in Hl2; injection Hl2 as <-.
      destruct (Hc l c Hcl) as [E1 E2 E3 E4]; constructor; cbn; try assumption; [|lia].
      rewrite (count_insert l e t o Ht), (ind_some l o Hr); lia.
    + rewrite lookup_insert_ne in Hl2 by exact Hn.
      destruct (Hc l2 c2 Hl2) as [E1 E2 E3 E4]; constructor; try assumption.
      rewrite (count_insert l2 e t o Ht), ind_other by congruence; lia.
  - intros z oz Hz. apply Hbuf. destruct (decide (t = z)) as [<-|Hn].
    + rewrite lookup_insert in Hz; injection Hz as <-. eapply Ho, Hy.
    + rewrite lookup_insert_ne in Hz by exact Hn; eauto.
Qed.

Lemma inv_release h e n x o :
  InvH h e n -> e !! x = Some o -> InvH (drop (o_ref o) h) (delete x e) n.
Proof.
  intros HI Hx. pose proof HI as [Hc Ho]. unfold drop.
  destruct (o_ref o) as [l|] eqn:Hr.
  2:{ split.
      - intros l c Hl; destruct (Hc l c Hl) as [E1 E2 E3 E4]; constructor; try assumption.
        rewrite (count_delete l e x o Hx), ind_other by congruence; lia.
      - intros z oz Hz. apply lookup_delete_Some in Hz as [_ Hz]; eauto. }
  destruct (Ho x o Hx l Hr) as (c & Hcl & _). rewrite Hcl.
  destruct (Hc l c Hcl) as [D1 D2 D3 D4].
  pose proof (count_delete l e x o Hx) as Hcd. rewrite (ind_some l o Hr) in Hcd.
  destruct (Z.ltb_spec (c_refs c - 1) 1) as [Hlast|Hmore].
  - split.
    + intros l2 c2 Hl2. apply lookup_delete_Some in Hl2 as [Hn Hl2].
      destruct (Hc l2 c2 Hl2) as [E1 E2 E3 E4]; constructor; try assumption.
      rewrite (count_delete l2 e x o Hx), ind_other by congruence; lia.
    + intros z oz Hz. apply lookup_delete_Some in Hz as [Hzx Hz].
      pose proof (inv_unique h e n x o l c z oz HI Hx Hr Hcl) as Hu.
      apply (obj_ok_buf h); [|eauto]. intros l2 c2 Hl2 Hc2.
      exists c2; split; [|reflexivity]. rewrite lookup_delete_ne; [exact Hc2|].
      intros <-; apply Hu; auto; lia.
  - split.
    + intros l2 c2 Hl2. destruct (decide (l = l2)) as [<-|Hn].
      * rewrite lookup_insert in Hl2; injection Hl2 as <-. constructor; cbn; try assumption; lia.
      * rewrite lookup_insert_ne in Hl2 by exact Hn.
        destruct (Hc l2 c2 Hl2) as [E1 E2 E3 E4]; constructor; try assumption.
        rewrite (count_delete l2 e x o Hx), ind_other by congruence; lia.
    + intros z oz Hz. apply lookup_delete_Some in Hz as [Hzx Hz].
      apply (obj_ok_buf h); [|eauto]. intros l2 c2 _ Hl2. destruct (decide (l = l2)) as [<-|Hn].
      * rewrite lookup_insert. eexists; split; [reflexivity|]. cbn; congruence.
      * rewrite lookup_insert_ne by exact Hn; eauto.
Qed.

(** Handing the reference of [t] over to [x] (possibly with different bookkeeping fields). *)
Lemma inv_rename h e n t o x :
  InvH h e n -> e !! t = Some o -> e !! x = None -> InvH h (<[x:=o]> (delete t e)) n.
Proof.
  intros [Hc Ho] Ht Hx. assert (Hx' : delete t e !! x = None).
  { apply lookup_delete_None; right; exact Hx. }
  split.
  - intros l c Hl. destruct (Hc l c Hl) as [E1 E2 E3 E4]; constructor; try assumption.
    rewrite (count_insert l _ x o Hx'), (count_delete l e t o Ht); lia.
  - intros z oz Hz. destruct (decide (x = z)) as [<-|Hn].
    + rewrite lookup_insert in Hz; injection Hz as <-; eauto.
    + rewrite lookup_insert_ne in Hz by exact Hn. apply lookup_delete_Some in Hz as [_ Hz]; eauto.
Qed.

(** Frames: variables outside [X] and the buffers they see are as before (unspecified elements may
    have become specified). *)
Definition buf_of h o : option (list (option T)) :=
  match o_ref o with Some l => c_buf <$> h !! l | None => None end.
Definition ble (a b : option (list (option T))) : Prop :=
  match a, b with Some u, Some v => vle u v | None, None => True | _, _ => False end.
Definition FrameH (X : var -> Prop) h e h' e' : Prop := forall y, ~ X y ->
  e' !! y = e !! y /\ forall o, e !! y = Some o -> ble (buf_of h o) (buf_of h' o).
Definition Frame (X : var -> Prop) (s s' : state T) : Prop :=
  FrameH X (st_heap s) (st_env s) (st_heap s') (st_env s').

Lemma ble_refl a : ble a a.
Proof. destruct a; [apply vle_refl|exact I]. Qed.
Lemma ble_trans (a b c : option (list (option T))) : ble a b -> ble b c -> ble a c.
Proof. destruct a, b, c; cbn; try tauto; apply vle_trans. Qed.
Lemma frame_refl X h e : FrameH X h e h e.
Proof. intros y _; split; [reflexivity|]; intros; apply ble_refl. Qed.
Lemma frame_trans X h e h' e' h'' e'' :
  FrameH X h e h' e' -> FrameH X h' e' h'' e'' -> FrameH X h e h'' e''.
Proof.
  intros H1 H2 y Hy. destruct (H1 y Hy) as [E1 B1], (H2 y Hy) as [E2 B2]. split; [congruence|].
  intros o Ho. eapply ble_trans; [apply B1, Ho|]. apply B2; congruence.
Qed.
Lemma frame_mono (X Y : var -> Prop) h e h' e' :
  (forall y, X y -> Y y) -> FrameH X h e h' e' -> FrameH Y h e h' e'.
Proof. intros HXY H y Hy; apply H; auto. Qed.
Lemma frame_env (X : var -> Prop) h e x o : X x -> FrameH X h e h (<[x:=o]> e).
Proof.
  intros HX y Hy. split; [apply lookup_insert_ne; congruence|]. intros; apply ble_refl.
Qed.
Lemma frame_env_delete (X : var -> Prop) h e x : X x -> FrameH X h e h (delete x e).
Proof.
  intros HX y Hy. split; [apply lookup_delete_ne; congruence|]. intros; apply ble_refl.
Qed.
Lemma frame_own (X : var -> Prop) h e n x o l c c' :
  X x -> InvH h e n -> e !! x = Some o -> o_ref o = Some l -> h !! l = Some c -> c_refs c = 1 ->
  FrameH X h e (<[l:=c']> h) e.
Proof.
  intros HX HI Hx Hr Hl H1 y Hy. split; [reflexivity|]. intros oy Hoy.
  pose proof (inv_unique h e n x o l c y oy HI Hx Hr Hl H1) as Hu.
  unfold buf_of. destruct (o_ref oy) as [l2|] eqn:E; [|exact I].
  rewrite lookup_insert_ne; [apply ble_refl|]. intros ->. apply Hu; auto; congruence.
Qed.
Lemma frame_new X h e n c' : InvH h e n -> FrameH X h e (<[n:=c']> h) e.
Proof.
  intros HI y Hy. split; [reflexivity|]. intros oy Hoy.
  unfold buf_of. destruct (o_ref oy) as [l2|] eqn:E; [|exact I].
  rewrite lookup_insert_ne; [apply ble_refl|]. intros <-.
  destruct HI as [Hc Ho]. destruct (Ho y oy Hoy n E) as (c & Hcl & _).
  destruct (Hc n c Hcl) as [_ _ _ H]; lia.
Qed.
Lemma frame_samebuf X h e h' :
  (forall l c, h !! l = Some c -> exists c', h' !! l = Some c' /\ c_buf c' = c_buf c) ->
  (forall l, h !! l = None -> h' !! l = None) -> FrameH X h e h' e.
Proof.
  intros H HN y _; split; [reflexivity|]. intros o _. unfold buf_of.
  destruct (o_ref o) as [l|]; [|exact I]. destruct (h !! l) as [c|] eqn:E; cbn.
  - destruct (H l c E) as (c' & -> & Hb); cbn. rewrite Hb. apply vle_refl.
  - rewrite (HN l E); exact I.
Qed.
Lemma frame_bump X h e r : FrameH X h e (bump r h) e.
Proof.
  unfold bump; destruct r as [l|]; [|apply frame_refl].
  destruct (h !! l) as [c|] eqn:E; [|apply frame_refl].
  apply frame_samebuf; intros l2.
  - intros c2 H2; destruct (decide (l = l2)) as [<-|Hn].
    + rewrite lookup_insert; eexists; split; [reflexivity|]. cbn; congruence.
    + rewrite lookup_insert_ne by exact Hn; eauto.
  - intros H2; rewrite lookup_insert_ne; [exact H2|congruence].
Qed.
Lemma frame_drop (X : var -> Prop) h e n x o :
  X x -> InvH h e n -> e !! x = Some o -> FrameH X h e (drop (o_ref o) h) e.
Proof.
  intros HX HI Hx. unfold drop. destruct (o_ref o) as [l|] eqn:Hr; [|apply frame_refl].
  destruct (h !! l) as [c|] eqn:E; [|apply frame_refl].
  destruct (Z.ltb_spec (c_refs c - 1) 1) as [Hlast|Hmore].
  - intros y Hy; split; [reflexivity|]. intros oy Hoy.
    unfold buf_of. destruct (o_ref oy) as [l2|] eqn:E2; [|exact I].
    rewrite lookup_delete_ne; [apply ble_refl|]. intros <-.
    pose proof (inv_unique h e n x o l c y oy HI Hx Hr E) as Hu.
    apply Hu; auto; [|congruence]. destruct HI as [Hc _]; destruct (Hc l c E); lia.
  - apply frame_samebuf; intros l2.
    + intros c2 H2; destruct (decide (l = l2)) as [<-|Hn].
      * rewrite lookup_insert; eexists; split; [reflexivity|]. cbn; congruence.
      * rewrite lookup_insert_ne by exact Hn; eauto.
    + intros H2; rewrite lookup_insert_ne; [exact H2|congruence].
Qed.

Lemma frame_view X h e h' e' y o :
  FrameH X h e h' e' -> ~ X y -> e !! y = Some o -> vle (view h o) (view h' o).
Proof.
  intros HF Hy Ho. destruct (HF y Hy) as [_ Hb]. specialize (Hb o Ho).
  unfold buf_of in Hb; unfold view. destruct (o_ref o) as [l|]; [|constructor].
  destruct (h !! l) as [c|], (h' !! l) as [c'|]; cbn in Hb; try contradiction; [|constructor].
  apply vle_zsub, Hb.
Qed.
Lemma frame_lookup X h e h' e' y : FrameH X h e h' e' -> ~ X y -> e' !! y = e !! y.
Proof. intros HF Hy; apply HF, Hy. Qed.
End Inv.
