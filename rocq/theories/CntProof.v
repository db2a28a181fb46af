(** Proofs about CntModel.v. *)
From Coq Require Import ZifyBool.
From stdpp Require Import gmap.
From Verif Require Import RcaSpec RcaModel RcaInv RcaOwn RcaExec RcaRel RcaMeet RcaRel2 RcaReach CntModel CntMeet.
Open Scope Z_scope.

Lemma g_exec_is {T} (d : desc T) o : g_exec inc_ref dec_ref d o = exec d o.
Proof. destruct o; reflexivity. Qed.

Section Sim.
Context {T : Type}.
Implicit Types (x y : var) (l : loc).
Notation St := (state T).
Notation Mm := (M St).
(** Counters between 1 and [k]. *)
Definition counts (k : Z) (s : St) : Prop := forall l c, st_heap s !! l = Some c -> 1 <= c_refs c <= k.
(** Both do the same from such a state, and leave counters up to [k']. *)
Definition sim {A} (k k' : Z) (m n : Mm A) : Prop := forall s, counts k s ->
  m s = n s /\ match n s with Ok _ s' | Exn _ s' => counts k' s' | _ => True end.
Lemma sim_bind {A B} k k' k'' (m n : Mm A) (f g : A -> Mm B) : sim k k' m n -> (forall v, sim k' k'' (f v) (g v)) -> k' <= k'' ->
  sim k k'' (let* v := m in f v) (let* v := n in g v).
Proof.
  intros H Hf Hk s Hs. unfold bind. destruct (H s Hs) as [-> Hn]. destruct (n s) as [v s'|e s'| | |]; try (split; [reflexivity|exact I]).
  - apply Hf, Hn.
  - split; [reflexivity|]. intros l c Hl. specialize (Hn l c Hl). lia.
Qed.
Lemma sim_cell {B} k k'' l (f g : cell T -> Mm B) : (forall c, 1 <= c_refs c <= k -> sim k k'' (f c) (g c)) -> sim k k'' (let* c := get_cell l in f c) (let* c := get_cell l in g c).
Proof. intros H s Hs. unfold bind, get_cell. destruct (st_heap s !! l) as [c|] eqn:E; [apply H; [exact (Hs l c E)|exact Hs]|split; [reflexivity|exact I]]. Qed.
Lemma sim_set k l c : 1 <= c_refs c <= k -> sim k k (set_cell l c) (set_cell l c).
Proof.
  intros Hc s Hs. split; [reflexivity|]. cbn. intros l' c' E. cbn in E. destruct (decide (l = l')) as [<-|N].
  - rewrite lookup_insert in E. injection E as <-. exact Hc.
  - rewrite lookup_insert_ne in E by exact N. exact (Hs l' c' E).
Qed.
Lemma sim_le {A} k k' (m n : Mm A) : k <= k' -> sim k k m n -> sim k k' m n.
Proof. intros H Hs s C. destruct (Hs s C) as [E F]. split; [exact E|]. destruct (n s); try exact I; intros l c Hl; specialize (F l c Hl); lia. Qed.
Lemma sim_ret {A} k (v : A) : sim k k (ret v) (ret v). Proof. intros s C. split; [reflexivity|exact C]. Qed.
Lemma sim_undef {A} k u : sim k k (undef u : Mm A) (undef u). Proof. intros s C. split; [reflexivity|exact I]. Qed.
Lemma sim_throw {A} k e : sim k k (throw e : Mm A) (throw e). Proof. intros s C. split; [reflexivity|exact C]. Qed.
Lemma sim_get_obj k x : sim k k (get_obj (T:=T) x) (get_obj x). Proof. intros s C. split; [reflexivity|]. unfold get_obj. destruct (_ !! _); [exact C|exact I]. Qed.
Lemma sim_set_obj k x o : sim k k (set_obj (T:=T) x o) (set_obj x o). Proof. intros s C. split; [reflexivity|exact C]. Qed.
Lemma sim_new_obj k x o : sim k k (new_obj (T:=T) x o) (new_obj x o). Proof. intros s C. split; [reflexivity|]. unfold new_obj. destruct (_ !! _); [exact I|exact C]. Qed.
Lemma sim_del_obj k x : sim k k (del_obj (T:=T) x) (del_obj x). Proof. intros s C. split; [reflexivity|exact C]. Qed.
Lemma sim_log k b : sim k k (log_freed (T:=T) b) (log_freed b). Proof. intros s C. split; [reflexivity|exact C]. Qed.
Lemma sim_delete k l : sim k k (delete_cell (T:=T) l) (delete_cell l).
Proof.
  intros s C. split; [reflexivity|]. unfold delete_cell. destruct (st_heap s !! l); [|exact I]. intros l' c' E. cbn in E. apply lookup_delete_Some in E. exact (C l' c' (proj2 E)).
Qed.
Lemma sim_fuel {A} k : sim k k (fun _ => Fuel : res St A) (fun _ => Fuel). Proof. intros s C. split; [reflexivity|exact I]. Qed.
Lemma sim_alloc k d n : sim k k (try_alloc (T:=T) d n) (try_alloc d n).
Proof. intros s C. split; [reflexivity|]. unfold try_alloc. destruct (_ || _); exact C. Qed.
Lemma sim_new_cell k d : 1 <= k -> sim k k (new_cell (T:=T) d) (new_cell d).
Proof.
  intros Hk. unfold new_cell. apply sim_bind with k; [apply sim_alloc| |lia]. intros _ s C. split; [reflexivity|]. intros l c E. cbn in E.
  destruct (decide (st_next s = l)) as [<-|N]; [rewrite lookup_insert in E; injection E as <-; cbn; lia|rewrite lookup_insert_ne in E by exact N; exact (C l c E)].
Qed.
Lemma sim_noexcept {A} k (m n : Mm A) : sim k k m n -> sim k k (noexcept m) (noexcept n).
Proof. intros H s C. unfold noexcept. destruct (H s C) as [-> F]. split; [reflexivity|]. destruct (n s); try exact I; exact F. Qed.
Lemma sim_guard k x (d1 d2 m n : Mm unit) : sim k k d1 d2 -> sim k k m n -> sim k k (ctor_guard x d1 m) (ctor_guard x d2 n).
Proof.
  intros Hd H s C. unfold ctor_guard. destruct (H s C) as [-> F]. destruct (n s) as [v s'|e s'| | |]; try (split; [reflexivity|exact F]).
  destruct (Hd s' F) as [-> G]. split; [reflexivity|]. destruct (d2 s'); try exact I; exact G.
Qed.
Lemma sim_assert k d (m : Mm bool) : sim k k m m -> sim k k (check d m) (check d m).
Proof.
  intros H. unfold check. destruct (d_debug d); [|apply sim_ret]. apply (sim_bind k k); [exact H| |lia]. intros []; [apply sim_ret|apply sim_undef].
Qed.
Ltac step := first
  [ apply sim_ret | apply sim_undef | apply sim_throw | apply sim_get_obj | apply sim_set_obj | apply sim_new_obj | apply sim_del_obj | apply sim_log | apply sim_delete
  | apply sim_fuel | apply sim_alloc | apply sim_new_cell; lia | apply sim_set; cbn; lia | eassumption | solve [auto with sim]
  | match goal with
    | |- sim _ _ (let* c := get_cell _ in _) _ => apply sim_cell; intros ? ?
    | |- sim ?k _ (let* v := _ in _) _ => apply (sim_bind k k); [|intros ?|lia]
    | |- sim _ _ (check _ _) _ => apply sim_assert
    | |- sim _ _ (noexcept _) _ => apply sim_noexcept
    | |- sim _ _ (ctor_guard _ _ _) _ => apply sim_guard
    | |- sim _ _ (let _ := _ in _) _ => cbv zeta
    | |- sim _ _ (if ?b then _ else _) _ => destruct b
    | |- sim _ _ (match ?e with _ => _ end) _ => destruct e
    end ].
Ltac go := repeat step.

Section Fixed.
Variable k : Z.
Hypothesis Hk : 1 <= k < W31.
Notation same m := (sim k k m m).
Lemma s_aref d l n sc o q : same (aref_reserve (T:=T) d l n sc o q). Proof. unfold aref_reserve. go. Qed.
Hint Resolve s_aref : sim.
Lemma s_base d x n sc : same (base_reserve (T:=T) d x n sc). Proof. unfold base_reserve. go. Qed.
Hint Resolve s_base : sim.
Lemma s_vres d x n sc : same (v_reserve (T:=T) d x n sc). Proof. unfold v_reserve. go. Qed.
Hint Resolve s_vres : sim.
Lemma s_shared x : same (is_shared (T:=T) x). Proof. unfold is_shared. go. Qed.
Lemma s_length x : same (length_of (T:=T) x). Proof. unfold length_of. go. Qed.
Lemma s_load x p n : same (load (T:=T) x p n). Proof. unfold load. go. Qed.
Lemma s_store x p es : same (store (T:=T) x p es). Proof. unfold store. go. Qed.
Lemma s_setlen x n : same (set_len (T:=T) x n). Proof. unfold set_len. go. Qed.
Lemma s_setlength x n : same (set_length (T:=T) x n). Proof. unfold set_length. go. Qed.
Hint Resolve s_shared s_length s_load s_store s_setlen s_setlength : sim.
Lemma s_load1 x p : same (load1 (T:=T) x p). Proof. unfold load1. go. Qed.
Lemma s_validate x p : same (validate_index (T:=T) x p). Proof. unfold validate_index. go. Qed.
Hint Resolve s_load1 s_validate : sim.
Lemma s_check x p : same (check_pos (T:=T) x p). Proof. unfold check_pos. go. Qed.
Lemma s_cleanse d x : same (cleanse_if_last (T:=T) d x). Proof. unfold cleanse_if_last. go. Qed.
Lemma s_swap x y : same (swap (T:=T) x y). Proof. unfold swap. go. Qed.
Lemma s_default x : same (ctor_default (T:=T) x). Proof. unfold ctor_default. go. Qed.
Lemma s_move x y : same (ctor_move (T:=T) x y). Proof. unfold ctor_move. go. Qed.
Lemma s_right x p n : same (shift_right (T:=T) x p n). Proof. unfold shift_right. go. Qed.
Lemma s_addlen x n : same (add_len (T:=T) x n). Proof. unfold add_len. go. Qed.
Hint Resolve s_check s_cleanse s_swap s_default s_move s_right s_addlen : sim.
Lemma s_fwd n : forall x y a b, same (copy_fwd (T:=T) n x y a b). Proof. induction n; intros; cbn [copy_fwd]; go. Qed.
Hint Resolve s_fwd : sim.
Lemma s_elems d x y n p : same (copy_elems (T:=T) d x y n p). Proof. unfold copy_elems. go. Qed.
Lemma s_slice x p n : same (slice (T:=T) x p n). Proof. unfold slice. go. Qed.
Lemma s_sublen x n : same (sub_length (T:=T) x n). Proof. unfold sub_length. go. Qed.
Lemma s_hash d x : same (hash (T:=T) d x). Proof. unfold hash. go. Qed.
Hint Resolve s_elems s_slice s_sublen s_hash : sim.
Lemma s_find d x v p : same (find_item (T:=T) d x v p). Proof. unfold find_item. go. Qed.
Lemma s_rloop d n : forall x v i, same (rfind_loop (T:=T) d n x v i). Proof. induction n; intros; cbn [rfind_loop]; go. Qed.
Hint Resolve s_find s_rloop : sim.
Lemma s_rfind d x v : same (rfind_item (T:=T) d x v). Proof. unfold rfind_item. go. Qed.
Lemma s_out d x p : same (move_out (T:=T) d x p). Proof. unfold move_out. go. Qed.
Hint Resolve s_rfind s_out : sim.
Lemma s_not_empty x : same (not_empty (T:=T) x). Proof. unfold not_empty. go. Qed.
Lemma s_ends d z x n : same (ends_nul (T:=T) d z x n). Proof. unfold ends_nul. go. Qed.
Hint Resolve s_not_empty s_ends : sim.
Lemma s_popb d x : same (pop_back (T:=T) d x). Proof. unfold pop_back. go. Qed.
Hint Resolve s_popb : sim.
Lemma s_shift d x : same (shift (T:=T) d x). Proof. unfold shift. go. Qed.
Lemma s_pop d x : same (pop (T:=T) d x). Proof. unfold pop. go. Qed.
Lemma s_adf x n : same (arr_drop_front (T:=T) x n). Proof. unfold arr_drop_front. go. Qed.
Lemma s_adb x n : same (arr_drop_back (T:=T) x n). Proof. unfold arr_drop_back. go. Qed.
Lemma s_sdf x n : same (str_drop_front (T:=T) x n). Proof. unfold str_drop_front. go. Qed.
Lemma s_sdb x n : same (str_drop_back (T:=T) x n). Proof. unfold str_drop_back. go. Qed.
Lemma s_strlen d z m : same (cstrlen (T:=T) d z m). Proof. unfold cstrlen. go. Qed.
Lemma s_mem m n : same (mem_read (T:=T) m n). Proof. unfold mem_read. go. Qed.
Lemma s_lloop sp n : forall x, same (ltrim_loop (T:=T) sp n x). Proof. induction n; intros; cbn [ltrim_loop]; go. Qed.
Lemma s_rtloop sp n : forall x, same (rtrim_loop (T:=T) sp n x). Proof. induction n; intros; cbn [rtrim_loop]; go. Qed.
Hint Resolve s_shift s_pop s_adf s_adb s_sdf s_sdb s_strlen s_mem s_lloop s_rtloop : sim.
Lemma s_trim sp x : same (trim (T:=T) sp x). Proof. unfold trim. go. Qed.
Lemma s_chomp1 d x c : same (chomp1 (T:=T) d x c). Proof. unfold chomp1. go. Qed.
Hint Resolve s_trim s_chomp1 : sim.
Lemma s_chomp d x a b : same (chomp (T:=T) d x a b). Proof. unfold chomp. go. Qed.
Lemma s_own d x n : same (reserve_if_own (T:=T) d x n). Proof. unfold reserve_if_own. go. Qed.
Hint Resolve s_chomp s_own : sim.

(** The functions that use the counter. *)
Lemma i32_small z : 0 <= z < W31 -> i32 z = z. Proof. intros H. apply i32_id. unfold W31 in *. lia. Qed.
Lemma s_dealloc x : sim k k (g_check_dealloc (T:=T) dec32 x) (check_dealloc x).
Proof.
  unfold g_check_dealloc, check_dealloc. step; [step|]. destruct (o_ref v) as [l|]; [|step].
  intros s C. unfold dec32, dec_ref, bind, get_cell, set_cell, ret. destruct (st_heap s !! l) as [c|] eqn:E; [|split; [reflexivity|exact I]].
  pose proof (C l c E) as Hc. rewrite !i32_small by lia. cbn [st_heap with_heap]. destruct (c_refs c - 1 <? 1) eqn:En.
  - split; [reflexivity|]. unfold delete_cell, set_obj. cbn. rewrite lookup_insert. intros l' c' E'. cbn in E'.
    apply lookup_delete_Some in E' as [N E']. rewrite lookup_insert_ne in E' by congruence. exact (C l' c' E').
  - split; [reflexivity|]. intros l' c' E'. cbn in E'. destruct (decide (l = l')) as [<-|N]; [rewrite lookup_insert in E'; injection E' as <-; cbn; lia|].
    rewrite lookup_insert_ne in E' by congruence. exact (C l' c' E').
Qed.
(** A shared one detaches. *)
Lemma bindk {A B} (m : Mm A) (f : A -> Mm B) s v s' : m s = Ok v s' -> (let* v := m in f v) s = f v s'.
Proof. intros E. unfold bind. rewrite E. reflexivity. Qed.
Definition is_sh x (s : St) : Prop := exists o l c, st_env s !! x = Some o /\ o_ref o = Some l /\ st_heap s !! l = Some c /\ 1 < c_refs c.
Lemma s_if_shared {B} x (f g p q : Mm B) :
  (forall s, counts k s -> is_sh x s -> f s = g s /\ match g s with Ok _ s' | Exn _ s' => counts k s' | _ => True end) -> sim k k p q ->
  sim k k (let* sh := is_shared x in if (sh : bool) then f else p) (let* sh := is_shared x in if (sh : bool) then g else q).
Proof.
  intros Hf Hp s C. unfold is_shared, bind, get_obj, get_cell, ret. destruct (st_env s !! x) as [o|] eqn:Eo; [|split; [reflexivity|exact I]].
  destruct (o_ref o) as [l|] eqn:Er; [|apply Hp, C]. destruct (st_heap s !! l) as [c|] eqn:El; [|split; [reflexivity|exact I]].
  destruct (1 <? c_refs c) eqn:E1; [|apply Hp, C]. apply Hf; [exact C|]. exists o, l, c. split_and!; auto. lia.
Qed.
Lemma s_detach x s : counts k s -> is_sh x s -> exists s', g_do_detach (T:=T) dec32 x s = Ok tt s' /\ do_detach x s = Ok tt s' /\ counts k s'.
Proof.
  intros C (o & l & c & Eo & Er & El & H1). pose proof (C l c El). unfold g_do_detach, do_detach, dec32, dec_ref, bind, get_obj, get_cell, set_cell, set_obj, ret. rewrite Eo, Er. cbn [st_heap].
  rewrite El, !i32_small by lia. eexists. split; [reflexivity|]. split; [reflexivity|]. intros l' c' E'. cbn in E'.
  destruct (decide (l = l')) as [<-|N]; [rewrite lookup_insert in E'; injection E' as <-; cbn; lia|]. rewrite lookup_insert_ne in E' by congruence. exact (C l' c' E').
Qed.
Lemma s_clear x : sim k k (g_clear (T:=T) dec32 x) (clear x).
Proof.
  unfold g_clear, clear. apply s_if_shared; [|go]. intros s C Hs. destruct (s_detach x s C Hs) as (s' & -> & -> & C'). auto.
Qed.
Lemma s_modify d x n : sim k k (g_about_to_modify (T:=T) dec32 d x n) (about_to_modify d x n).
Proof.
  unfold g_about_to_modify, about_to_modify. step; [go|]. apply s_if_shared; [|go]. intros s C Hs. unfold g_cow, cow.
  destruct (s_detach x s C Hs) as (s' & E1 & E2 & C'). destruct Hs as (o & l & c & Eo & Er & El & H1).
  assert (get_obj (T:=T) x s = Ok o s) as Eg by (unfold get_obj; rewrite Eo; reflexivity).
  assert (check d (is_shared (T:=T) x) s = Ok tt s) as Ec by (eapply check_ok, shared_ok; eassumption).
  rewrite !(bindk _ _ _ _ _ Eg), !(bindk _ _ _ _ _ Ec), (bindk _ _ _ _ _ E1), (bindk _ _ _ _ _ E2).
  match goal with |- ?m s' = ?n s' /\ _ => assert (sim k k m n) as HH by go; exact (HH s' C') end.
Qed.
Hint Resolve s_dealloc s_clear s_modify : sim.
Lemma s_getown d x : sim k k (g_get_own_copy (T:=T) dec32 d x) (get_own_copy d x). Proof. unfold g_get_own_copy, get_own_copy. go. Qed.
Lemma s_amove x y : sim k k (g_assign_move (T:=T) dec32 x y) (assign_move x y). Proof. unfold g_assign_move, assign_move. go. Qed.
Lemma s_destroy d x : sim k k (g_destroy (T:=T) dec32 d x) (destroy d x). Proof. unfold g_destroy, destroy. go. Qed.
Hint Resolve s_getown s_amove s_destroy : sim.
Lemma s_sized d x n : sim k k (g_ctor_sized (T:=T) dec32 d x n) (ctor_sized d x n). Proof. unfold g_ctor_sized, ctor_sized. go. Qed.
Lemma s_resize d x n : sim k k (g_resize (T:=T) dec32 d x n) (resize d x n). Proof. unfold g_resize, resize. go. Qed.
Lemma s_rfill d x n v : sim k k (g_resize_fill (T:=T) dec32 d x n v) (resize_fill d x n v). Proof. unfold g_resize_fill, resize_fill. go. Qed.
Hint Resolve s_sized s_resize s_rfill : sim.
Lemma s_fill d x n v : sim k k (g_ctor_fill (T:=T) dec32 d x n v) (ctor_fill d x n v). Proof. unfold g_ctor_fill, ctor_fill. go. Qed.
Lemma s_list d x vs : sim k k (g_ctor_list (T:=T) dec32 d x vs) (ctor_list d x vs). Proof. unfold g_ctor_list, ctor_list. go. Qed.
Lemma s_item d x p v : sim k k (g_insert_item (T:=T) dec32 d x p v) (insert_item d x p v). Proof. unfold g_insert_item, insert_item. go. Qed.
Hint Resolve s_fill s_list s_item : sim.
Lemma s_append d x v : sim k k (g_append_item (T:=T) dec32 d x v) (append_item d x v). Proof. unfold g_append_item, append_item. go. Qed.
Lemma s_iloop d vs : forall x p, sim k k (g_insert_loop (T:=T) dec32 d x p vs) (insert_loop d x p vs).
Proof. induction vs; intros; cbn [g_insert_loop insert_loop]; go. Qed.
Hint Resolve s_append s_iloop : sim.
Lemma s_range d x p vs : sim k k (g_insert_range (T:=T) dec32 d x p vs) (insert_range d x p vs). Proof. unfold g_insert_range, insert_range. go. Qed.
Hint Resolve s_range : sim.
Lemma s_crange d x vs : sim k k (g_ctor_range (T:=T) dec32 d x vs) (ctor_range d x vs). Proof. unfold g_ctor_range, ctor_range. go. Qed.
Lemma s_splice d x p y n : sim k k (g_splice (T:=T) dec32 d x p y n) (splice d x p y n). Proof. unfold g_splice, splice. go. Qed.
Lemma s_ritem d x p v : sim k k (g_replace_item (T:=T) dec32 d x p v) (replace_item d x p v). Proof. unfold g_replace_item, replace_item. go. Qed.
Lemma s_write d x p v : sim k k (g_write (T:=T) dec32 d x p v) (write d x p v). Proof. unfold g_write, write. go. Qed.
Lemma s_alist d x vs : sim k k (g_assign_list (T:=T) dec32 d x vs) (assign_list d x vs). Proof. unfold g_assign_list, assign_list. go. Qed.
Lemma s_cstr d z x m : sim k k (g_ctor_cstr (T:=T) dec32 d z x m) (ctor_cstr d z x m). Proof. unfold g_ctor_cstr, ctor_cstr. go. Qed.
Lemma s_cstrlen d z x m n : sim k k (g_ctor_cstrlen (T:=T) dec32 d z x m n) (ctor_cstrlen d z x m n). Proof. unfold g_ctor_cstrlen, ctor_cstrlen. go. Qed.
Lemma s_char d z x v : sim k k (g_ctor_char (T:=T) dec32 d z x v) (ctor_char d z x v). Proof. unfold g_ctor_char, ctor_char. go. Qed.
Lemma s_astd d z x vs : sim k k (g_assign_std (T:=T) dec32 d z x vs) (assign_std d z x vs). Proof. unfold g_assign_std, assign_std. go. Qed.
Lemma s_icstr d z x p m n : sim k k (g_insert_cstr (T:=T) dec32 d z x p m n) (insert_cstr d z x p m n). Proof. unfold g_insert_cstr, insert_cstr. go. Qed.
Lemma s_rcstr d z x p m n : sim k k (g_replace_cstr (T:=T) dec32 d z x p m n) (replace_cstr d z x p m n). Proof. unfold g_replace_cstr, replace_cstr. go. Qed.
Lemma s_c_str d z g x : sim k k (g_c_str (T:=T) dec32 d z g x) (c_str d z g x). Proof. unfold g_c_str, c_str. go. Qed.
End Fixed.

Lemma s_inc k r : 1 <= k -> k + 1 < W31 -> sim k (k + 1) (inc32 (T:=T) r) (inc_ref r).
Proof.
  intros Hk Hw. unfold inc32, inc_ref. destruct r as [l|]; [|apply sim_le; [lia|apply sim_ret]].
  intros s C. unfold bind, get_cell, set_cell. destruct (st_heap s !! l) as [c|] eqn:E; [|split; [reflexivity|exact I]].
  pose proof (C l c E) as Hc. rewrite i32_small by lia. split; [reflexivity|]. intros l' c' E'. cbn in E'.
  destruct (decide (l = l')) as [<-|N]; [rewrite lookup_insert in E'; injection E' as <-; cbn; lia|]. rewrite lookup_insert_ne in E' by congruence. specialize (C l' c' E'). lia.
Qed.
Lemma s_ccopy k x y : 1 <= k -> k + 1 < W31 -> sim k (k + 1) (g_ctor_copy (T:=T) inc32 x y) (ctor_copy x y).
Proof.
  intros Hk Hw. unfold g_ctor_copy, ctor_copy. apply sim_bind with k; [apply sim_get_obj| |lia]. intros o. apply sim_bind with k; [apply sim_new_obj| |lia]. intros _. apply s_inc; assumption.
Qed.
Lemma s_acopy k x y : 1 <= k -> k + 1 < W31 -> sim k (k + 1) (g_assign_copy (T:=T) inc32 dec32 x y) (assign_copy x y).
Proof.
  intros Hk Hw. unfold g_assign_copy, assign_copy. apply sim_bind with k; [apply sim_get_obj| |lia]. intros o. apply sim_bind with (k + 1); [apply s_inc; assumption| |lia]. intros _.
  repeat (first [apply s_dealloc; lia|step]).
Qed.
Lemma s_exec k d o : 1 <= k -> k + 1 < W31 -> sim k (k + 1) (exec32 (T:=T) d o) (exec d o).
Proof.
  intros Hk Hw. assert (1 <= k < W31) as Hk' by lia. unfold exec32.
  assert (forall mv x y, sim k (k + 1) (if mv : bool then g_assign_move (T:=T) dec32 x y else g_assign_copy inc32 dec32 x y) (if mv then assign_move x y else assign_copy x y)) as Ha.
  { intros [] x y; [apply sim_le; [lia|]; apply s_amove; assumption|apply s_acopy; assumption]. }
  assert (forall {A} (m n : Mm A), sim k k m n -> sim k (k + 1) m n) as Hl by (intros; apply sim_le; [lia|assumption]).
  assert (forall mv x pos y n, sim k (k + 1) (g_insert_n (T:=T) inc32 dec32 d mv x pos y n) (insert_n d mv x pos y n)) as Hi.
  { intros. unfold g_insert_n, insert_n. destruct (_ =? 0); [apply Hl; apply sim_ret|]. apply sim_bind with k; [apply s_check| |lia]. intros _.
    apply sim_bind with k; [apply s_length| |lia]. intros p. apply sim_bind with k; [apply s_length| |lia]. intros q. destruct (_ && _ && _); [apply Ha|apply Hl, s_splice; assumption]. }
  destruct o; cbn [g_exec exec]; unfold unit_, val_, int_, mem_, with_nul;
    try match goal with |- context [match d_nul d with _ => _ end] => destruct (d_nul d); [|apply Hl; go] end.
  all: try (apply sim_bind with (k + 1); [|intros ?; apply sim_ret|lia]).
  all: try (apply Hl; solve [apply s_default|apply s_move|apply s_sized; assumption|apply s_fill; assumption|apply s_list; assumption|apply s_crange; assumption|apply s_cstr; assumption|apply s_cstrlen; assumption|apply s_char; assumption|apply s_destroy; assumption|apply s_amove; assumption|apply s_swap|apply s_alist; assumption|apply s_astd; assumption|apply s_clear; assumption|apply s_resize; assumption|apply s_rfill; assumption|apply s_own; assumption|apply s_slice|apply s_append; assumption|apply s_item; assumption|apply s_range; assumption|apply s_icstr; assumption|apply s_ritem; assumption|apply s_rcstr; assumption|apply s_write; assumption|apply s_load1|apply s_length|apply s_hash|apply s_find|apply s_rfind|apply s_getown; assumption|apply s_popb|apply s_shift|apply s_pop|apply s_adf|apply s_adb|apply s_sdf|apply s_sdb|apply s_c_str; assumption|apply s_trim|apply s_chomp]).
  all: try (apply s_ccopy; assumption). all: try (apply s_acopy; assumption). all: try apply Hi.
  - unfold g_insert_all, insert_all. apply sim_bind with k; [apply s_check| |lia]. intros _.
    apply sim_bind with k; [apply s_length| |lia]. intros p. apply sim_bind with k; [apply s_length| |lia]. intros q. destruct (_ && _); [apply Ha|apply Hl, s_splice; assumption].
  - unfold g_append_n, append_n. apply sim_bind with k; [apply s_length| |lia]. intros q. apply Hi.
  - unfold g_replace_n, replace_n. destruct (_ =? 0); [apply Hl; apply sim_ret|]. apply sim_bind with k; [apply s_check| |lia]. intros _.
    apply sim_bind with k; [apply s_length| |lia]. intros p. apply sim_bind with k; [apply s_length| |lia]. intros q. destruct (_ && _ && _); [apply Ha|]. apply Hl. cbv zeta.
    apply sim_bind with k; [apply s_modify; assumption| |lia]. intros _. apply sim_bind with k; [apply s_elems| |lia]. intros _. apply s_setlen.
  - apply Hl. unfold at_. apply sim_bind with k; [apply s_validate| |lia]. intros _. apply s_load1.
Qed.
(** Programs. *)
Lemma s_run d ops : forall k, 1 <= k -> k + zlen ops < W31 -> sim k (k + zlen ops) (run32 (T:=T) d ops) (run_inf d ops).
Proof.
  induction ops as [|o ops IH]; intros k Hk Hw; cbn [run32 run_inf]; rewrite ?zlen_nil, ?zlen_cons in *; [rewrite Z.add_0_r; apply sim_ret|].
  pose proof (zlen_nonneg ops). apply sim_bind with (k + 1); [apply s_exec; lia| |lia]. intros v. apply sim_bind with (k + 1 + zlen ops); [apply IH; lia| |lia]. intros vs.
  replace (k + 1 + zlen ops) with (k + (1 + zlen ops)) by lia. apply sim_ret.
Qed.

Lemma run_same (d : desc T) ops : zlen ops <= 2147483646 -> run32 d ops st_init = run_inf d ops st_init.
Proof.
  intros H. assert (C : counts 1 (st_init : St)) by (intros l c Hl; cbn in Hl; rewrite lookup_empty in Hl; discriminate).
  assert (W : 1 + zlen ops < W31) by (unfold W31; lia). assert (K : 1 <= 1) by lia. exact (proj1 (s_run d ops 1 K W st_init C)).
Qed.
Lemma reached_counts d s a : wf_desc d -> reached d s a -> few_sharers s -> counts 2147483646 s.
Proof.
  intros Hw Hr Hf l c Hc. pose proof (reached_R d s a Hw Hr) as HR. destruct HR as [[Hck Hob] HR]. pose proof (Hck l c Hc) as K.
  pose proof (ck_pos _ _ _ _ K) as Hp. split; [lia|]. pose proof Hp as Hp'. rewrite (ck_refs _ _ _ _ K) in Hp'. destruct (count_witness _ _ Hp') as (x & o & Hx & Ho).
  specialize (Hf x (c_refs c)). assert (rcount x s = Ok (c_refs c) s) as E; [|specialize (Hf E); lia].
  unfold rcount, bind. rewrite (get_obj_ok _ _ _ Hx), Ho, (get_cell_ok _ _ _ Hc). reflexivity.
Qed.
Lemma step_same d s a o : wf_desc d -> reached d s a -> few_sharers s -> exec32 (T:=T) d o s = exec d o s.
Proof. intros Hw Hr Hf. destruct (s_exec 2147483646 d o) with (s := s) as [E _]; [lia|reflexivity|exact (reached_counts d s a Hw Hr Hf)|exact E]. Qed.
Lemma few_alive d s a : wf_desc d -> reached d s a -> Z.of_nat (size a) < 2147483647 -> few_sharers (T:=T) s.
Proof.
  intros Hw Hr Hs x n E. pose proof (reached_R d s a Hw Hr) as HR. unfold rcount, bind, get_obj in E. destruct (st_env s !! x) as [o|] eqn:Hx; [|discriminate].
  assert (count_le : forall l, count l (st_env s) <= Z.of_nat (size a)).
  { intros l. unfold count. assert (size (base.filter (fun kv : var * obj => o_ref kv.2 = Some l) (st_env s)) <= size a)%nat; [|lia].
    rewrite <- !size_dom. apply subseteq_size. intros y Hy. apply elem_of_dom in Hy. destruct Hy as (oy & Hy). apply map_filter_lookup_Some in Hy. destruct Hy as [Hy _].
    apply elem_of_dom. pose proof (proj1 (live_iff d s a y Hw Hr) (ex_intro _ oy Hy)) as Hl. destruct (live_some _ _ Hl) as (w & Hv). eauto. }
  destruct (o_ref o) as [l|] eqn:Ho.
  - destruct (inv_ref_live d s x o l (proj1 HR) Hx Ho) as (c & Hc). unfold get_cell in E. rewrite Hc in E. injection E as <-. destruct HR as [[Hck _] _].
    rewrite (ck_refs _ _ _ _ (Hck l c Hc)). specialize (count_le l). lia.
  - injection E as <-. lia.
Qed.

(** Copies of one object. *)
Lemma i32_add a b : i32 (i32 a + b) = i32 (a + b).
Proof. unfold i32. replace ((a + W31) mod W32 - W31 + b + W31) with ((a + W31) mod W32 + b) by lia. rewrite Zplus_mod_idemp_l. f_equal. f_equal. lia. Qed.
Lemma copies_run d o l n : forall i s c, st_env s !! 1%positive = Some o -> o_ref o = Some l -> st_heap s !! l = Some c -> (1 < i)%positive ->
  (forall j, (i <= j)%positive -> st_env s !! j = None) -> i32 (c_refs c) = c_refs c ->
  exists vs s', run32 (T:=T) d (copies i n) s = Ok vs s' /\ st_heap s' = <[l := Cell (c_buf c) (c_gen c) (i32 (c_refs c + Z.of_nat n))]> (st_heap s) /\
    (forall j, st_env s' !! j = if decide (i <= j)%positive then (if decide (Z.pos j < Z.pos i + Z.of_nat n) then Some o else None) else st_env s !! j).
Proof.
  induction n as [|n IH]; intros i s c H1 Ho Hc Hi Hn Hw.
  - exists [], s. split; [reflexivity|]. split.
    + replace (c_refs c + Z.of_nat 0) with (c_refs c) by lia. rewrite Hw. destruct c as [b g r]. cbn. symmetry. apply insert_id. exact Hc.
    + intros j. destruct (decide _) as [L|L]; [|reflexivity]. destruct (decide _) as [L'|L']; [lia|]. apply Hn. exact L.
  - cbn [copies run32]. set (s1 := with_heap (with_env s (<[i := o]> (st_env s))) (<[l := Cell (c_buf c) (c_gen c) (i32 (c_refs c + 1))]> (st_heap s))).
    assert (E : exec32 d (CtorCopy i 1) s = Ok ONone s1).
    { unfold exec32. cbn. unfold unit_, g_ctor_copy, bind. unfold get_obj. rewrite H1. unfold new_obj. rewrite (Hn i) by lia. unfold inc32. rewrite Ho. unfold bind, get_cell. cbn. rewrite Hc. reflexivity. }
    destruct (IH (Pos.succ i) s1 (Cell (c_buf c) (c_gen c) (i32 (c_refs c + 1)))) as (vs & s' & R1 & R2 & R3).
    + cbn. rewrite lookup_insert_ne by lia. exact H1.
    + exact Ho.
    + cbn. apply lookup_insert.
    + lia.
    + intros j Hj. cbn. rewrite lookup_insert_ne by lia. apply Hn. lia.
    + cbn. pose proof (i32_add (c_refs c + 1) 0) as Q. rewrite !Z.add_0_r in Q. exact Q.
    + exists (ONone :: vs), s'. split; [unfold bind; rewrite E, R1; reflexivity|]. split.
      * rewrite R2. cbn. rewrite insert_insert, i32_add. f_equal. f_equal. f_equal. lia.
      * intros j. rewrite R3. cbn. destruct (decide (i <= j)%positive) as [L|L].
        -- destruct (decide (i = j)) as [<-|N].
           ++ rewrite decide_False by lia. rewrite lookup_insert, decide_True by lia. reflexivity.
           ++ rewrite decide_True by lia. destruct (decide _) as [L'|L'], (decide (Z.pos j < Z.pos i + _)) as [L''|L'']; try reflexivity; lia.
        -- rewrite decide_False by lia. apply lookup_insert_ne. lia.
Qed.
End Sim.
