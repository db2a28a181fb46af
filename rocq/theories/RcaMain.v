(** Every API call implements its specification; lifted to programs. *)
From Verif Require Import RcaSpec RcaModel RcaExec RcaInv RcaOwn RcaRel RcaRel2 RcaMod RcaCtor RcaMisc RcaMeet ZListMod.
From Coq Require Import ZifyBool.
Open Scope Z_scope.

Section Main.
Context {T : Type} (d : desc T).
Notation St := (state T).
Implicit Types (s : St) (x y : var) (a : astate T) (v w : list (option T)) (o : op T) (mv : bool).
Notation R := (R d).
Notation step := (step d).
Notation meets := (meets d).

Lemma meets_ok o s a a' (v : out T) r (v' : out T) s' : step o a = Some (SRet a' v) -> r = Ok v' s' -> R s' a' -> out_le v v' -> meets o s a r.
Proof. unfold RcaMeet.meets. intros -> -> H1 H2. split; assumption. Qed.
Lemma meets_unit o s a a' m : step o a = Some (SRet a' ONone) ->
  (exists s', m s = Ok tt s' /\ R s' a') -> meets o s a (unit_ m s).
Proof.
  intros Hs (s' & E & HR). eapply meets_ok; [exact Hs| |exact HR|reflexivity]. unfold unit_, bind, ret. rewrite E. reflexivity.
Qed.
Lemma shared_is s a x : R s a -> shared_var s x -> is_shared x s = Ok true s.
Proof.
  intros HR (o & Hx & Hs). destruct (is_shared_eq d s x o (proj1 HR) Hx) as (b & E & Hb). rewrite E.
  destruct b; [reflexivity|]. destruct Hs as (l & c & H1 & H2 & H3). specialize (Hb l c H1 H2). lia.
Qed.
Lemma meets_fails o s a a' m x n : step o a = Some (SRet a' ONone) -> R s a -> target o = Some x -> subject o = Some x -> discards o = false ->
  room d n <= asks o a' x -> runs m s (fun _ s' => R s' a') (fails d s a x n) -> meets o s a (unit_ m s).
Proof.
  intros Hs HR Ht Hsub Hdis Hn Hr. unfold runs in Hr. unfold RcaMeet.meets, unit_, bind, ret. rewrite Hs.
  destruct (m s) as [[] s'|e s'| | |u]; try contradiction; [split; [exact Hr|reflexivity]|].
  destruct Hr as (-> & Hf & _ & Hst). split; [reflexivity|]. exists x. split; [exact Hsub|].
  split; [eapply starves_mono; [exact Hn|exact Hst]|]. destruct Hf as [Hf|[Hsh Hf]]; [left; split; [exact Hdis|exact Hf]|right].
  split; [exact Ht|]. split; [right; eapply shared_is; eassumption|exact Hf].
Qed.
Lemma meets_undone o s a a' m x sc n : step o a = Some (SRet a' ONone) -> subject o = Some x -> discards o = false ->
  (starves d sc n -> no_memory d (asks o a' x)) -> runs m s (fun _ s' => R s' a') (undone d s a sc n) -> meets o s a (unit_ m s).
Proof.
  intros Hs Hsub Hdis Hn Hr. unfold runs in Hr. unfold RcaMeet.meets, unit_, bind, ret. rewrite Hs.
  destruct (m s) as [[] s'|e s'| | |u]; try contradiction; [split; [exact Hr|reflexivity]|].
  destruct Hr as (-> & Hf & Hst). split; [reflexivity|]. exists x. split; [exact Hsub|]. split; [apply Hn, Hst|left; split; [exact Hdis|exact Hf]].
Qed.
Lemma meets_emptied o s a a' m x n : step o a = Some (SRet a' ONone) -> target o = Some x -> subject o = Some x -> discards o = true ->
  n <= asks o a' x -> runs m s (fun _ s' => R s' a') (emptied d s a x n) -> meets o s a (unit_ m s).
Proof.
  intros Hs Ht Hsub Hd Hn Hr. unfold runs in Hr. unfold RcaMeet.meets, unit_, bind, ret. rewrite Hs.
  destruct (m s) as [[] s'|e s'| | |u]; try contradiction; [split; [exact Hr|reflexivity]|].
  destruct Hr as (-> & Hf & Hst). split; [reflexivity|]. exists x. split; [exact Hsub|].
  split; [eapply starves_mono; [exact Hn|apply starves_id, Hst]|right]. split; [exact Ht|]. split; [left; exact Hd|exact Hf].
Qed.
Lemma meets_range o s a r : step o a = Some SRange -> r = Exn OutOfRange s -> meets o s a r.
Proof. unfold RcaMeet.meets. intros -> ->. reflexivity. Qed.
Lemma meets_none o s a r : step o a = None -> meets o s a r.
Proof. unfold RcaMeet.meets. intros ->. exact I. Qed.

Lemma room_le n : 0 <= n -> room d n <= n + 1.
Proof. unfold room. destruct (d_nul d); [destruct (Z.ltb_spec 0 n)|]; lia. Qed.
Lemma vlen_put a x r v : vlen (<[x:=AVal r v]> a) x = zlen v.
Proof. unfold vlen. rewrite lookup_insert. reflexivity. Qed.
Lemma undone_memory sc n o a' x : sc = (fun z => z) \/ sc = d_grow d -> n <= asks o a' x -> starves d sc n -> no_memory d (asks o a' x).
Proof.
  intros Hsc Hn Hst. eapply starves_mono; [exact Hn|]. destruct Hsc as [->| ->]; [apply starves_id, Hst|exact Hst].
Qed.
Lemma splice_zlen v pos w : 0 <= pos <= zlen v -> zlen (sp_splice v pos w) = zlen v + zlen w.
Proof. apply splice_len. Qed.
Lemma over_zlen v pos w : 0 <= pos <= zlen v -> zlen (sp_over v pos w) = Z.max (zlen v) (pos + zlen w).
Proof. intros H. pose proof (zlen_nonneg w). unfold sp_over. zlen_simpl. lia. Qed.
Lemma throws_pos {A} s a x r v pos (k : unit -> M St A) :
  R s a -> a !! x = Some (AVal r v) -> in_u64 pos = true -> zlen v < pos -> bind (check_pos x pos) k s = Exn OutOfRange s.
Proof.
  intros HR Ha Hp Hlt. unfold in_u64 in Hp. unfold bind. rewrite (check_pos_eq d s a x r v pos HR Ha) by lia.
  destruct (Z.ltb_spec (zlen v) pos); [reflexivity|lia].
Qed.
Lemma pos_ok {A} s a x r v pos (k : unit -> M St A) P E :
  R s a -> a !! x = Some (AVal r v) -> 0 <= pos <= zlen v -> runs (k tt) s P E -> runs (bind (check_pos x pos) k) s P E.
Proof.
  intros HR Ha Hp Hk. destruct (R_held d _ _ _ _ _ HR Ha) as (o & Hh). pose proof (held_bounds d _ _ _ _ _ Hh).
  eapply runs_step; [|exact Hk]. rewrite (check_pos_eq d s a x r v pos HR Ha) by (unfold max_alloc, W64 in *; lia).
  destruct (Z.ltb_spec (zlen v) pos); [lia|reflexivity].
Qed.
Lemma len_step {A} s a x r v (k : Z -> M St A) P E :
  R s a -> a !! x = Some (AVal r v) -> runs (k (zlen v)) s P E -> runs (bind (length_of x) k) s P E.
Proof.
  intros HR Ha Hk. destruct (R_held d _ _ _ _ _ HR Ha) as (o & Hh). eapply runs_step; [eapply held_len; exact Hh|exact Hk].
Qed.
Lemma val_len s a x r v : R s a -> a !! x = Some (AVal r v) -> 0 <= zlen v <= max_alloc.
Proof. intros HR Ha. destruct (R_held d _ _ _ _ _ HR Ha) as (o & Hh). apply (held_bounds d _ _ _ _ _ Hh). Qed.
Lemma holds_some a x p : holds a x = Some p -> a !! x = Some (AVal (fst p) (snd p)).
Proof. destruct p. apply holds_eq. Qed.
Lemma holds_none_or a x : holds a x = None \/ exists r v, holds a x = Some (r, v) /\ a !! x = Some (AVal r v).
Proof.
  destruct (holds a x) as [[r v]|] eqn:E; [right|left; reflexivity]. exists r, v. split; [reflexivity|apply holds_eq, E].
Qed.

(** Taking over a value by assignment. *)
Lemma take_R mv s a x y rx v ry w :
  R s a -> a !! x = Some (AVal rx v) -> a !! y = Some (AVal ry w) -> x <> y ->
  exists s', (if mv then assign_move x y else assign_copy x y) s = Ok tt s' /\
    R s' (<[x := AVal ry w]> (if mv then <[y := AMoved]> a else a)).
Proof.
  intros HR Hx Hy Hn. assert (Hl : live a x = true) by (unfold live, fresh_var; rewrite Hx; reflexivity).
  destruct mv; [eapply assign_move_R|eapply assign_copy_R]; eassumption.
Qed.
Lemma runs_ok {A} (m : M St A) s (v : A) s' (P : A -> St -> Prop) E : m s = Ok v s' -> P v s' -> runs m s P E.
Proof. unfold runs. intros ->. trivial. Qed.
Lemma ne_of_len a x y rx v ry w : a !! x = Some (AVal rx v) -> a !! y = Some (AVal ry w) -> zlen v < zlen w -> x <> y.
Proof. intros H1 H2 H ->. rewrite H1 in H2. injection H2 as -> ->. lia. Qed.
Lemma ztake_k v k : 0 <= k <= zlen v -> zlen (ztake k v) = k.
Proof. intros. zlen_simpl. lia. Qed.

(** Insertion of part of an array, once position and sources are fixed. *)
Lemma insert_body mv s a x y rx v ry w pos (k : Z) (full : bool) o :
  R s a -> a !! x = Some (AVal rx v) -> a !! y = Some (AVal ry w) -> target o = Some x -> subject o = Some x -> discards o = false ->
  (forall a', asks o a' x = vlen a' x + 2) ->
  0 <= k <= zlen w ->
  step o a = need (in_u64 pos)
     (if zlen v <? pos then Some SRange
      else if (pos =? 0) && (zlen v <? zlen w) && full then sp_take a mv x y ry w
      else need (alias_ok (d_class d) x y pos k) (put a x true (sp_splice v pos (ztake k w)))) ->
  meets o s a (unit_ (check_pos x pos ;;;
     let* slen := length_of y in let* len := length_of x in
     if (pos =? 0) && (len <? slen) && full then (if mv then assign_move x y else assign_copy x y)
     else splice d x pos y k) s).
Proof.
  intros HR Hx Hy Ht Hsub Hdis Hask Hk Hs.
  pose proof (val_len s a x rx v HR Hx) as Hlv. pose proof (val_len s a y ry w HR Hy) as Hlw.
  destruct (in_u64 pos) eqn:Hp; [|apply meets_none; exact Hs]. cbn [need] in Hs.
  destruct (Z.ltb_spec (zlen v) pos) as [Hlt|Hge].
  { eapply meets_range; [exact Hs|]. unfold unit_. unfold bind at 1. rewrite (throws_pos s a x rx v pos _ HR Hx Hp Hlt). reflexivity. }
  assert (Hpos : 0 <= pos) by (unfold in_u64 in Hp; lia).
  destruct ((pos =? 0) && (zlen v <? zlen w) && full) eqn:Hc.
  { assert (Hlen : zlen v < zlen w) by lia.
    eapply meets_fails with (n := 0); [exact Hs|exact HR|exact Ht|exact Hsub|exact Hdis|rewrite Hask; pose proof (room_le 0 ltac:(lia)); rewrite vlen_put; lia|].
    eapply (pos_ok s a x rx v pos); [exact HR|exact Hx|lia|].
    eapply (len_step s a y ry w); [exact HR|exact Hy|]. eapply (len_step s a x rx v); [exact HR|exact Hx|]. rewrite Hc.
    destruct (take_R mv s a x y rx v ry w HR Hx Hy (ne_of_len _ _ _ _ _ _ _ Hx Hy Hlen)) as (s' & E & HR').
    eapply runs_ok; [exact E|exact HR']. }
  destruct (alias_ok (d_class d) x y pos k) eqn:Hal; [|apply meets_none; exact Hs]. cbn [need] in Hs.
  eapply meets_fails with (n := zlen v + k); [exact Hs|exact HR|exact Ht|exact Hsub|exact Hdis| |].
  { rewrite Hask, vlen_put, splice_zlen, ztake_k by lia. pose proof (room_le (zlen v + k) ltac:(lia)). lia. }
  eapply (pos_ok s a x rx v pos); [exact HR|exact Hx|lia|].
  eapply (len_step s a y ry w); [exact HR|exact Hy|]. eapply (len_step s a x rx v); [exact HR|exact Hx|]. rewrite Hc.
  eapply splice_R; try eassumption; [lia|]. apply alias_ok_prop, Hal.
Qed.

Lemma unit_cong (m m' : M St unit) s : m s = m' s -> unit_ m s = unit_ m' s.
Proof. unfold unit_, bind. intros ->. reflexivity. Qed.
Lemma check_cong {A} s x ob r v pos (k k' : unit -> M St A) :
  held d s x ob r v -> k tt s = k' tt s -> bind (check_pos x pos) k s = bind (check_pos x pos) k' s.
Proof.
  intros Hob Hk. unfold bind, check_pos. destruct (pos =? 0); [exact Hk|].
  unfold validate_index, bind. rewrite (held_len d _ _ _ _ _ Hob). destruct (_ <=? _); [reflexivity|exact Hk].
Qed.
Lemma bind_len {A} s x ob r v (k : Z -> M St A) : held d s x ob r v -> bind (length_of x) k s = k (zlen v) s.
Proof. intros Hob. unfold bind. rewrite (held_len d _ _ _ _ _ Hob). reflexivity. Qed.

Ltac mnone := apply meets_none; unfold RcaMeet.step; cbn [spec_step]; unfold sp_insert; repeat match goal with H : holds _ _ = _ |- _ => rewrite H end; reflexivity.
(** Find the value of a variable, or the step is undefined. *)
Ltac hold x r v Hh Hx :=
  let N := fresh in
  match goal with a : astate T |- _ =>
  destruct (holds_none_or a x) as [N|(r & v & Hh & Hx)]; [try mnone|] end.
Ltac sstep := unfold RcaMeet.step; cbn [spec_step]; repeat match goal with H : holds _ _ = _ |- _ => rewrite H end.

Lemma insert_n_meets mv s a x pos y n o :
  R s a -> target o = Some x -> subject o = Some x -> discards o = false -> (forall a', asks o a' x = vlen a' x + 2) ->
  step o a = sp_insert_n (d_class d) a mv x pos y n -> meets o s a (unit_ (insert_n d mv x pos y n) s).
Proof.
  intros HR Ht Hsub Hdis Hask Hs. unfold sp_insert_n in Hs.
  destruct (in_u64 n && live a x && live a y) eqn:Hn; [|apply meets_none; exact Hs]. cbn [need] in Hs.
  unfold insert_n. destruct (n =? 0) eqn:E0.
  { eapply meets_ok; [exact Hs|reflexivity|exact HR|reflexivity]. }
  unfold sp_insert in Hs.
  destruct (holds_none_or a x) as [N|(rx & v & Hh & Hx)]; [apply meets_none; rewrite Hs, N; reflexivity|].
  destruct (holds_none_or a y) as [N|(ry & w & Hh' & Hy)]; [apply meets_none; rewrite Hs, Hh, N; reflexivity|].
  rewrite Hh, Hh' in Hs. unfold in_u64 in Hn. pose proof (zlen_nonneg w).
  pose proof (insert_body mv s a x y rx v ry w pos (Z.min n (zlen w)) (n =? zlen w) o HR Hx Hy Ht Hsub Hdis Hask ltac:(lia) Hs) as HB.
  refine (eq_ind _ (meets o s a) HB _ _).
  destruct (R_held d _ _ _ _ _ HR Hx) as (ox & Hox). destruct (R_held d _ _ _ _ _ HR Hy) as (oy & Hoy).
  apply unit_cong. eapply check_cong; [exact Hox|].
  rewrite !(bind_len s y _ _ _ _ Hoy), !(bind_len s x _ _ _ _ Hox).
  replace (if zlen w <? n then zlen w else n) with (Z.min n (zlen w)) by (destruct (Z.ltb_spec (zlen w) n); lia).
  reflexivity.
Qed.
Lemma asks_len n m : 0 <= n <= m -> room d n <= m + 2.
Proof. intros. pose proof (room_le n). lia. Qed.
Ltac mfails n := eapply meets_fails with (n := n); [sstep; reflexivity|eassumption|reflexivity|reflexivity| |].
Ltac asksl := cbn [asks]; rewrite vlen_put; apply asks_len; zlen_simpl; try lia.

Lemma insert_all_meets mv s a x pos y : R s a -> meets (InsertAll mv x pos y) s a (exec d (InsertAll mv x pos y) s).
Proof.
  intros HR. cbn [exec]. hold x rx v Hh Hx. hold y ry w Hh' Hy.
  pose proof (zlen_nonneg w).
  pose proof (insert_body mv s a x y rx v ry w pos (zlen w) true (InsertAll mv x pos y) HR Hx Hy eq_refl eq_refl eq_refl (fun _ => eq_refl) ltac:(lia)) as HB.
  assert (Hs : step (InsertAll mv x pos y) a = need (in_u64 pos)
     (if zlen v <? pos then Some SRange
      else if (pos =? 0) && (zlen v <? zlen w) && true then sp_take a mv x y ry w
      else need (alias_ok (d_class d) x y pos (zlen w)) (put a x true (sp_splice v pos (ztake (zlen w) w))))).
  { unfold RcaMeet.step; cbn [spec_step]. unfold sp_insert. rewrite Hh, Hh'. reflexivity. }
  specialize (HB Hs). refine (eq_ind _ (meets (InsertAll mv x pos y) s a) HB _ _).
  destruct (R_held d _ _ _ _ _ HR Hx) as (ox & Hox). destruct (R_held d _ _ _ _ _ HR Hy) as (oy & Hoy).
  apply unit_cong. eapply check_cong; [exact Hox|].
  rewrite !(bind_len s y _ _ _ _ Hoy), !(bind_len s x _ _ _ _ Hox), andb_true_r. reflexivity.
Qed.
Lemma replace_n_meets mv s a x pos y n : R s a -> meets (ReplaceN mv x pos y n) s a (exec d (ReplaceN mv x pos y n) s).
Proof.
  intros HR. cbn [exec]. hold x rx v Hh Hx. hold y ry w Hh' Hy.
  pose proof (val_len s a x rx v HR Hx) as Hlv. pose proof (val_len s a y ry w HR Hy) as Hlw.
  destruct (in_u64 pos && in_u64 n) eqn:Hp; [|apply meets_none; sstep; rewrite Hp; reflexivity].
  unfold in_u64 in Hp.
  unfold replace_n. destruct (n =? 0) eqn:E0.
  { eapply meets_ok; [sstep; unfold in_u64; rewrite Hp; cbn [need]; rewrite E0; reflexivity|reflexivity|exact HR|reflexivity]. }
  destruct (zlen v <? pos) eqn:Hlt.
  { eapply meets_range; [sstep; unfold in_u64; rewrite Hp; cbn [need]; rewrite E0, Hlt; reflexivity|].
    unfold unit_. unfold bind at 1. rewrite (throws_pos s a x rx v pos _ HR Hx); [reflexivity|unfold in_u64; lia|lia]. }
  destruct ((pos =? 0) && (zlen v <? zlen w) && ((n =? npos) || (n =? zlen w))) eqn:Hc.
  { eapply meets_fails with (x := x) (n := 0);
      [sstep; unfold in_u64; rewrite Hp; cbn [need]; rewrite E0, Hlt|exact HR|reflexivity|reflexivity|reflexivity| |].
    { replace ((pos =? 0) && (zlen v <? zlen w) && (zlen w <=? n) && ((n =? npos) || (n =? zlen w))) with true
        by (unfold npos, max_alloc in *; lia). reflexivity. }
    { asksl. }
    eapply (pos_ok s a x rx v pos); [exact HR|exact Hx|lia|].
    eapply (len_step s a y ry w); [exact HR|exact Hy|]. eapply (len_step s a x rx v); [exact HR|exact Hx|]. rewrite Hc.
    destruct (take_R mv s a x y rx v ry w HR Hx Hy (ne_of_len _ _ _ _ _ _ _ Hx Hy ltac:(lia))) as (s' & E & HR').
    eapply runs_ok; [exact E|exact HR']. }
  assert (Hc' : (pos =? 0) && (zlen v <? zlen w) && (zlen w <=? n) && ((n =? npos) || (n =? zlen w)) = false) by lia.
  destruct (alias_ok (d_class d) x y pos (Z.min n (zlen w))) eqn:Hal.
  2:{ apply meets_none; sstep; unfold in_u64; rewrite Hp; cbn [need]; rewrite E0, Hlt; cbv zeta; rewrite Hc', Hal; reflexivity. }
  set (k := Z.min n (zlen w)) in *.
  eapply meets_fails with (x := x) (n := Z.max (zlen v) (pos + k)).
  { sstep; unfold in_u64; rewrite Hp; cbn [need]; rewrite E0, Hlt; cbv zeta. rewrite Hc'. fold k. rewrite Hal. reflexivity. }
  { exact HR. } { reflexivity. } { reflexivity. } { reflexivity. }
  { cbn [asks]. rewrite vlen_put, over_zlen, ztake_k by lia. apply asks_len. lia. }
  eapply (pos_ok s a x rx v pos); [exact HR|exact Hx|lia|].
  eapply (len_step s a y ry w); [exact HR|exact Hy|]. eapply (len_step s a x rx v); [exact HR|exact Hx|]. rewrite Hc.
  assert (Hk : (if (n =? npos) || (zlen w <? n) then zlen w else n) = k).
  { unfold k. destruct ((n =? npos) || (zlen w <? n)) eqn:E; unfold npos, max_alloc in *; lia. }
  cbv zeta. rewrite Hk. rewrite (u64_id (pos + k)) by (unfold max_alloc, W64 in *; lia).
  replace (if pos + k <? zlen v then zlen v else pos + k) with (Z.max (zlen v) (pos + k)) by (destruct (Z.ltb_spec (pos + k) (zlen v)); lia).
  eapply over_all_R; try eassumption; [lia|lia|]. apply alias_ok_prop, Hal.
Qed.

Lemma meets_val o s a a' (v : T) m : step o a = Some (SRet a' (OVal v)) ->
  (exists s', m s = Ok v s' /\ R s' a') -> meets o s a (val_ m s).
Proof.
  intros Hs (s' & E & HR). eapply meets_ok; [exact Hs| |exact HR|reflexivity]. unfold val_, bind, ret. rewrite E. reflexivity.
Qed.
Lemma meets_int o s a a' z m : step o a = Some (SRet a' (OInt z)) ->
  (exists s', m s = Ok z s' /\ R s' a') -> meets o s a (int_ m s).
Proof.
  intros Hs (s' & E & HR). eapply meets_ok; [exact Hs| |exact HR|reflexivity]. unfold int_, bind, ret. rewrite E. reflexivity.
Qed.
Lemma runs_pos_throw o s a (m : M St unit) : step o a = Some SRange -> m s = Exn OutOfRange s -> meets o s a (unit_ m s).
Proof. intros Hs E. eapply meets_range; [exact Hs|]. unfold unit_, bind. rewrite E. reflexivity. Qed.

Ltac guard_if := match goal with |- context [need ?b _] => let E := fresh "G" in destruct b eqn:E; cbn [need] end.
(** Case on a specification guard. *)
Ltac gcase G b := destruct b eqn:G; [|apply meets_none; sstep; rewrite G; reflexivity].
Ltac und := eapply meets_undone; [sstep| | |].

Theorem exec_meets o s a : wf_desc d -> R s a -> meets o s a (exec d o s).
Proof.
  intros Hwf HR. destruct o; cbn [exec].
  - gcase G (fresh_var a x). apply fresh_none in G as Hn.
    eapply meets_unit; [sstep; rewrite G; reflexivity|]. destruct (ctor_default_R d s a x HR Hn) as (s' & E & HR' & _). eauto.
  - hold y r v Hh Hy. gcase G (fresh_var a x).
    eapply meets_unit; [sstep; rewrite G; reflexivity|]. eapply ctor_copy_R; [exact HR|exact Hy|apply fresh_none, G].
  - hold y r v Hh Hy. gcase G (fresh_var a x).
    eapply meets_unit; [sstep; rewrite G; reflexivity|]. eapply ctor_move_R; [exact HR|exact Hy|apply fresh_none, G].
  - gcase G (fresh_var a x && in_u64 n). apply andb_true_iff in G as G'. destruct G' as [G1 G2]. unfold in_u64 in G2.
    eapply meets_undone with (x := x) (n := n) (sc := fun z => z); [sstep; rewrite G; reflexivity|reflexivity|reflexivity| |].
    + apply undone_memory; [left; reflexivity|cbn; lia].
    + eapply runs_conseq; [apply (ctor_sized_R d s a x n HR (fresh_none _ _ G1)); lia| |intros e s' H; exact H].
      intros ? s' Hsz. unfold sized in Hsz. tauto.
  - gcase G (fresh_var a x && in_u64 n). apply andb_true_iff in G as G'. destruct G' as [G1 G2]. unfold in_u64 in G2.
    eapply meets_undone with (x := x) (n := n) (sc := d_grow d); [sstep; rewrite G; reflexivity|reflexivity|reflexivity| |].
    + apply undone_memory; [right; reflexivity|cbn [asks]; rewrite vlen_put; zlen_simpl; lia].
    + apply ctor_fill_R; [exact HR|apply fresh_none, G1|lia].
  - gcase G (fresh_var a x).
    eapply meets_undone with (x := x) (n := zlen vs) (sc := fun z => z); [sstep; rewrite G; reflexivity|reflexivity|reflexivity| |].
    + apply undone_memory; [left; reflexivity|cbn [asks]; rewrite vlen_put, zlen_map; lia].
    + apply ctor_list_R; [exact HR|apply fresh_none, G].
  - gcase G (fresh_var a x).
    eapply meets_undone with (x := x) (n := zlen vs) (sc := d_grow d); [sstep; rewrite G; reflexivity|reflexivity|reflexivity| |].
    + apply undone_memory; [right; reflexivity|cbn [asks]; rewrite vlen_put, zlen_map; lia].
    + apply ctor_range_R; [exact HR|apply fresh_none, G].
  - destruct (sp_carg (d_eqb d) (d_nul d) mem npos) as [w|] eqn:Hc; [|apply meets_none; sstep; rewrite Hc; reflexivity].
    destruct (fresh_var a x && (zlen w <? npos)) eqn:G; [|apply meets_none; sstep; rewrite Hc, G; reflexivity].
    apply andb_true_iff in G as G'. destruct G' as [G1 G2].
    destruct (d_nul d) as [z|] eqn:Hz; [|discriminate]. unfold with_nul. rewrite Hz.
    eapply meets_undone with (x := x) (n := zlen w + 1) (sc := fun z => z); [sstep; rewrite Hz, Hc, G; reflexivity|reflexivity|reflexivity| |].
    + apply undone_memory; [left; reflexivity|cbn [asks]; rewrite vlen_put, zlen_map; lia].
    + apply ctor_cstr_R; [exact Hwf|exact HR|apply fresh_none, G1|exact Hz|rewrite Hz; exact Hc|lia].
  - gcase G (fresh_var a x && is_string (d_nul d) && (0 <=? n) && (n <? npos) && (n <=? zlen mem)).
    destruct (d_nul d) as [z|] eqn:Hz; [|cbn in G; rewrite andb_false_r in G; discriminate]. unfold with_nul. rewrite Hz.
    eapply meets_undone with (x := x) (n := n + 1) (sc := fun z => z); [sstep; rewrite Hz, G; reflexivity|reflexivity|reflexivity| |].
    + apply undone_memory; [left; reflexivity|cbn [asks]; rewrite vlen_put, zlen_map; zlen_simpl; lia].
    + apply ctor_cstrlen_R; [exact HR|apply fresh_none; lia|exact Hz|lia|lia].
  - gcase G (fresh_var a x && is_string (d_nul d)).
    destruct (d_nul d) as [z|] eqn:Hz; [|cbn in G; rewrite andb_false_r in G; discriminate]. unfold with_nul. rewrite Hz.
    eapply meets_undone with (x := x) (n := 2) (sc := fun z => z); [sstep; rewrite Hz, G; reflexivity|reflexivity|reflexivity| |].
    + apply undone_memory; [left; reflexivity|cbn [asks]; rewrite vlen_put; zlen_simpl; lia].
    + apply ctor_char_R; [exact HR|apply fresh_none; lia|exact Hz].
  - gcase G (live a x). eapply meets_unit; [sstep; rewrite G; reflexivity|]. apply destroy_R; assumption.
  - hold y r v Hh Hy. gcase G (live a x).
    eapply meets_unit; [sstep; rewrite G; reflexivity|]. eapply assign_copy_R; eassumption.
  - destruct (Pos.eqb x y) eqn:Exy.
    { destruct (live a x) eqn:G; [|apply meets_none; sstep; rewrite Exy, G; reflexivity].
      eapply meets_unit; [sstep; rewrite Exy, G; reflexivity|]. exists s. unfold assign_move. rewrite Exy. split; [reflexivity|exact HR]. }
    hold y r v Hh Hy. { apply meets_none; sstep; rewrite Exy. reflexivity. }
    destruct (live a x) eqn:G; [|apply meets_none; sstep; rewrite Exy, G; reflexivity].
    eapply meets_unit; [sstep; rewrite Exy, G; reflexivity|]. cbn. eapply assign_move_R; try eassumption.
    apply Pos.eqb_neq, Exy.
  - destruct (a !! x) as [ax|] eqn:Hx; [|apply meets_none; sstep; rewrite Hx; reflexivity].
    destruct (a !! y) as [ay|] eqn:Hy; [|apply meets_none; sstep; rewrite Hx, Hy; reflexivity].
    eapply meets_unit; [sstep; rewrite Hx, Hy; reflexivity|]. apply swap_R; assumption.
  - gcase G (live a x && size_ok (d_nul d) (zlen vs)). apply andb_true_iff in G as G'. destruct G' as [G1 G2].
    eapply meets_emptied with (x := x) (n := room d (zlen vs)); [sstep; rewrite G; reflexivity|reflexivity|reflexivity|reflexivity| |].
    + cbn [asks]. rewrite vlen_put, zlen_map. apply asks_len. pose proof (zlen_nonneg vs). lia.
    + apply assign_list_R; assumption.
  - gcase G (live a x && is_string (d_nul d) && (zlen vs <? npos)).
    destruct (d_nul d) as [z|] eqn:Hz; [|cbn in G; rewrite andb_false_r in G; discriminate]. unfold with_nul. rewrite Hz.
    eapply meets_emptied with (x := x) (n := zlen vs + 1); [sstep; rewrite Hz, G; reflexivity|reflexivity|reflexivity|reflexivity| |].
    + cbn [asks]. rewrite vlen_put, zlen_map. lia.
    + apply assign_std_R; try assumption; lia.
  - gcase G (live a x). eapply meets_unit; [sstep; rewrite G; reflexivity|]. apply clear_R; assumption.
  - hold x r v Hh Hx. gcase G (size_ok (d_nul d) n). unfold resize.
    destruct (R_held d _ _ _ _ _ HR Hx) as (ob & Hob).
    destruct (n <? zlen v) eqn:E.
    + eapply meets_unit; [sstep; rewrite G; cbn [need]; rewrite E; reflexivity|]. unfold bind. rewrite (held_len d _ _ _ _ _ Hob), E.
      unfold size_ok, in_u64 in G. apply truncate_R; [exact HR|exact Hx|lia].
    + eapply meets_fails with (x := x) (n := n); [sstep; rewrite G; cbn [need]; rewrite E; reflexivity|exact HR|reflexivity|reflexivity|reflexivity| |].
      * asksl. pose proof (zlen_nonneg v). lia.
      * eapply len_step; [exact HR|exact Hx|]. rewrite E. eapply resize_R; try eassumption; lia.
  - hold x r v0 Hh Hx. gcase G (size_ok (d_nul d) n).
    destruct (R_held d _ _ _ _ _ HR Hx) as (ob & Hob).
    destruct (n <? zlen v0) eqn:E.
    + unfold resize_fill. eapply meets_unit; [sstep; rewrite G; cbn [need]; rewrite E; reflexivity|]. unfold bind. rewrite (held_len d _ _ _ _ _ Hob), E.
      unfold size_ok, in_u64 in G. apply truncate_R; [exact HR|exact Hx|lia].
    + eapply meets_fails with (x := x) (n := n); [sstep; rewrite G; cbn [need]; rewrite E; reflexivity|exact HR|reflexivity|reflexivity|reflexivity| |].
      * asksl. pose proof (zlen_nonneg v0). lia.
      * eapply resize_fill_R; try eassumption; lia.
  - hold x r v Hh Hx. gcase G (size_ok (d_nul d) n && (zlen v <=? n)).
    pose proof (val_len s a x r v HR Hx) as Hlv.
    unfold RcaMeet.meets. sstep. rewrite G. cbn [need same].
    pose proof (reserve_R d s a x r v n HR Hx ltac:(lia) ltac:(lia)) as Hr. unfold runs in Hr. unfold unit_, bind, ret.
    destruct (reserve_if_own d x n s) as [[] s'|e s'| | |u]; try contradiction; [split; [exact Hr|reflexivity]|].
    destruct Hr as (-> & Hf & Hst). split; [reflexivity|]. exists x. split; [reflexivity|].
    split; [|left; split; [reflexivity|exact Hf]]. eapply starves_mono; [|apply starves_id, Hst]. cbn. apply room_le. lia.
  - hold x r v Hh Hx. gcase G (sp_slice_ok (zlen v) start len). eapply meets_unit; [sstep; rewrite G; reflexivity|].
    apply slice_R; assumption.
  - hold x r v0 Hh Hx. pose proof (val_len s a x r v0 HR Hx) as Hlv.
    assert (Hsp : sp_splice v0 (zlen v0) [Some v] = v0 ++ [Some v]).
    { unfold sp_splice. rewrite ztake_all, zdrop_all by lia. rewrite app_nil_r. reflexivity. }
    eapply meets_fails with (x := x) (n := zlen v0 + 1); [sstep; reflexivity|exact HR|reflexivity|reflexivity|reflexivity| |].
    + asksl.
    + unfold append_item. eapply len_step; [exact HR|exact Hx|]. rewrite <- Hsp. eapply insert_item_R; try eassumption. lia.
  - hold x r v0 Hh Hx. gcase G (in_u64 pos). destruct (zlen v0 <? pos) eqn:E.
    + eapply runs_pos_throw; [sstep; rewrite G; cbn [need]; rewrite E; reflexivity|].
      unfold insert_item. eapply throws_pos; try eassumption. lia.
    + unfold in_u64 in G. eapply meets_fails with (x := x) (n := zlen v0 + 1); [sstep; unfold in_u64; rewrite G; cbn [need]; rewrite E; reflexivity|exact HR|reflexivity|reflexivity|reflexivity| |].
      * cbn [asks]. rewrite vlen_put, splice_zlen by lia. apply asks_len. zlen_simpl. pose proof (zlen_nonneg v0). lia.
      * eapply insert_item_R; try eassumption. lia.
  - eapply insert_n_meets; try eassumption; reflexivity.
  - exact (insert_all_meets mv s a x pos y HR).
  - hold x r v Hh Hx. pose proof (insert_n_meets mv s a x (zlen v) y n (AppendN mv x y n) HR eq_refl eq_refl eq_refl (fun _ => eq_refl)) as HB.
    assert (Hs : step (AppendN mv x y n) a = sp_insert_n (d_class d) a mv x (zlen v) y n) by (sstep; reflexivity).
    specialize (HB Hs). refine (eq_ind _ (meets (AppendN mv x y n) s a) HB _ _).
    destruct (R_held d _ _ _ _ _ HR Hx) as (ob & Hob).
    apply unit_cong. unfold append_n. rewrite (bind_len s x _ _ _ _ Hob). reflexivity.
  - hold x r v Hh Hx. gcase G (in_u64 pos && (pos <=? zlen v) && (zlen v + zlen vs <? W64 - 1)). unfold in_u64 in G.
    pose proof (zlen_nonneg vs). pose proof (zlen_nonneg v).
    eapply meets_fails with (x := x) (n := zlen v + zlen vs); [sstep; unfold in_u64; rewrite G; reflexivity|exact HR|reflexivity|reflexivity|reflexivity| |].
    + cbn [asks]. rewrite vlen_put, splice_zlen, zlen_map by lia. apply asks_len. lia.
    + eapply runs_conseq; [eapply insert_range_R; try eassumption; unfold npos, W64 in *; lia| |intros e s' H'; exact H'].
      intros _ s' (off & b & HO & Hrm & Hv). eapply owns_R; [exact HR|exact HO|exact Hv|].
      intros Hn _. eapply room_room; [lia|exact Hrm|exact Hn].
  - hold x r v Hh Hx. gcase G (is_string (d_nul d) && in_u64 pos && in_u64 n).
    destruct (n =? 0) eqn:E0.
    { destruct (d_nul d) as [z|] eqn:Hz; [|discriminate].
      unfold with_nul. rewrite Hz. unfold insert_cstr. rewrite E0.
      eapply meets_ok; [sstep; rewrite Hz, G; cbn [need]; rewrite E0; reflexivity|reflexivity|exact HR|reflexivity]. }
    destruct (d_nul d) as [z|] eqn:Hz; [|discriminate].
    unfold with_nul. rewrite Hz. destruct (zlen v <? pos) eqn:E.
    { eapply runs_pos_throw; [sstep; rewrite Hz, G; cbn [need]; rewrite E0, E; reflexivity|].
      unfold insert_cstr. rewrite E0. eapply throws_pos; try eassumption; lia. }
    destruct (sp_carg (d_eqb d) (Some z) mem n) as [w|] eqn:Hc; [|apply meets_none; sstep; rewrite Hz, G; cbn [need]; rewrite E0, E, Hc; reflexivity].
    destruct (zlen v + zlen w <? npos) eqn:Hn; [|apply meets_none; sstep; rewrite Hz, G; cbn [need]; rewrite E0, E, Hc, Hn; reflexivity].
    pose proof (zlen_nonneg w). pose proof (zlen_nonneg v). pose proof G as G'. unfold in_u64 in G'.
    eapply meets_fails with (x := x) (n := zlen v + zlen w); [sstep; rewrite Hz, G; cbn [need]; rewrite E0, E, Hc, Hn; reflexivity|exact HR|reflexivity|reflexivity|reflexivity| |].
    + cbn [asks]. rewrite vlen_put, splice_zlen, zlen_map by lia. apply asks_len. lia.
    + eapply insert_cstr_R; try eassumption; try lia. rewrite Hz. exact Hc.
  - hold x r v0 Hh Hx. gcase G (in_u64 pos && negb (pos =? zlen v0)). destruct (zlen v0 <? pos) eqn:E.
    + eapply runs_pos_throw; [sstep; rewrite G; cbn [need]; rewrite E; reflexivity|].
      unfold replace_item. eapply throws_pos; try eassumption; lia.
    + pose proof G as G'. unfold in_u64 in G'. pose proof (zlen_nonneg v0).
      eapply meets_fails with (x := x) (n := zlen v0); [sstep; rewrite G; cbn [need]; rewrite E; reflexivity|exact HR|reflexivity|reflexivity|reflexivity| |].
      * cbn [asks]. rewrite vlen_put, over_zlen by lia. apply asks_len. zlen_simpl. lia.
      * unfold replace_item. eapply pos_ok; [exact HR|exact Hx|lia|]. eapply own_store_R; try eassumption; lia.
  - exact (replace_n_meets mv s a x pos y n HR).
  - hold x r v Hh Hx. gcase G (is_string (d_nul d) && in_u64 pos && in_u64 n).
    destruct (n =? 0) eqn:E0.
    { destruct (d_nul d) as [z|] eqn:Hz; [|discriminate].
      unfold with_nul. rewrite Hz. unfold replace_cstr. rewrite E0.
      eapply meets_ok; [sstep; rewrite Hz, G; cbn [need]; rewrite E0; reflexivity|reflexivity|exact HR|reflexivity]. }
    destruct (d_nul d) as [z|] eqn:Hz; [|discriminate].
    unfold with_nul. rewrite Hz. destruct (zlen v <? pos) eqn:E.
    { eapply runs_pos_throw; [sstep; rewrite Hz, G; cbn [need]; rewrite E0, E; reflexivity|].
      unfold replace_cstr. rewrite E0. eapply throws_pos; try eassumption; lia. }
    destruct (sp_carg (d_eqb d) (Some z) mem n) as [w|] eqn:Hc; [|apply meets_none; sstep; rewrite Hz, G; cbn [need]; rewrite E0, E, Hc; reflexivity].
    destruct (pos + zlen w <? npos) eqn:Hn; [|apply meets_none; sstep; rewrite Hz, G; cbn [need]; rewrite E0, E, Hc, Hn; reflexivity].
    pose proof (zlen_nonneg w). pose proof (zlen_nonneg v). pose proof G as G'. unfold in_u64 in G'.
    eapply meets_fails with (x := x) (n := Z.max (zlen v) (pos + zlen w)); [sstep; rewrite Hz, G; cbn [need]; rewrite E0, E, Hc, Hn; reflexivity|exact HR|reflexivity|reflexivity|reflexivity| |].
    + cbn [asks]. rewrite vlen_put, over_zlen, zlen_map by lia. apply asks_len. lia.
    + eapply replace_cstr_R; try eassumption; try lia. rewrite Hz. exact Hc.
  - hold x r v0 Hh Hx. gcase G ((0 <=? pos) && (pos <? zlen v0)).
    eapply meets_fails with (x := x) (n := zlen v0); [sstep; rewrite G; reflexivity|exact HR|reflexivity|reflexivity|reflexivity| |].
    + cbn [asks]. rewrite vlen_put, over_zlen by lia. apply asks_len. zlen_simpl. lia.
    + unfold write. eapply own_store_R; try eassumption; lia.
  - hold x r v0 Hh Hx. destruct (znth pos v0) as [[e|]|] eqn:E; try (apply meets_none; sstep; rewrite E; reflexivity).
    destruct (R_held d _ _ _ _ _ HR Hx) as (ob & Hob).
    eapply meets_val; [sstep; rewrite E; reflexivity|]. exists s. split; [|exact HR].
    eapply held_load1; [apply HR|exact Hob|exact E].
  - hold x r v0 Hh Hx. gcase G (in_u64 pos). destruct (R_held d _ _ _ _ _ HR Hx) as (ob & Hob).
    unfold at_. destruct (zlen v0 <=? pos) eqn:El.
    + eapply meets_range; [sstep; rewrite G; cbn [need]; rewrite El; reflexivity|].
      unfold val_, validate_index. unfold bind at 1 2. rewrite (bind_len s x _ _ _ _ Hob), El. reflexivity.
    + destruct (znth pos v0) as [[e|]|] eqn:E; try (apply meets_none; sstep; rewrite G; cbn [need]; rewrite El, E; reflexivity).
      eapply meets_val; [sstep; rewrite G; cbn [need]; rewrite El, E; reflexivity|]. exists s. split; [|exact HR].
      unfold bind at 1. unfold validate_index. rewrite (bind_len s x _ _ _ _ Hob), El. cbn.
      eapply held_load1; [apply HR|exact Hob|exact E].
  - hold x r v0 Hh Hx. destruct (R_held d _ _ _ _ _ HR Hx) as (ob & Hob).
    eapply meets_int; [sstep; reflexivity|]. exists s. split; [eapply held_len; exact Hob|exact HR].
  - hold x r v0 Hh Hx. destruct (vals v0) as [es|] eqn:Ev; [|apply meets_none; sstep; rewrite Ev; reflexivity].
    eapply meets_int; [sstep; rewrite Ev; reflexivity|]. eapply hash_R; eassumption.
  - hold x r v0 Hh Hx. gcase G (in_u64 pos). destruct (zlen v0 <? pos) eqn:El.
    + eapply meets_range; [sstep; rewrite G; cbn [need]; rewrite El; reflexivity|].
      unfold int_. unfold bind at 1. unfold find_item. rewrite (throws_pos s a x r v0 pos _ HR Hx G) by lia. reflexivity.
    + destruct (vals v0) as [es|] eqn:Ev; [|apply meets_none; sstep; rewrite G; cbn [need]; rewrite El, Ev; reflexivity].
      pose proof G as G'. unfold in_u64 in G'.
      eapply meets_int; [sstep; rewrite G; cbn [need]; rewrite El, Ev; reflexivity|]. exists s. split; [|exact HR].
      eapply find_R; try eassumption; lia.
  - hold x r v0 Hh Hx. destruct (vals v0) as [es|] eqn:Ev; [|apply meets_none; sstep; rewrite Ev; reflexivity].
    eapply meets_int; [sstep; rewrite Ev; reflexivity|]. exists s. split; [|exact HR]. eapply rfind_R; eassumption.
  - hold x r v0 Hh Hx. pose proof (zlen_nonneg v0).
    eapply meets_fails with (x := x) (n := zlen v0); [sstep; reflexivity|exact HR|reflexivity|reflexivity|reflexivity| |].
    + asksl.
    + eapply runs_conseq; [eapply own_copy_R; eassumption| |intros e s' H'; exact H'].
      intros ? s' (off & b & HO & Hrm & Hv). eapply owns_R; [exact HR|exact HO|exact Hv|].
      intros Hn _. eapply room_room; [lia|exact Hrm|exact Hn].
  - hold x r v0 Hh Hx. gcase G (0 <? zlen v0). eapply meets_unit; [sstep; rewrite G; reflexivity|].
    eapply pop_back_R; try eassumption. lia.
  - hold x r v0 Hh Hx. destruct v0 as [|[e|] v0]; try (apply meets_none; sstep; reflexivity).
    eapply meets_val; [sstep; reflexivity|]. eapply shift_R; eassumption.
  - hold x r v0 Hh Hx. destruct (znth (zlen v0 - 1) v0) as [[e|]|] eqn:E; try (apply meets_none; sstep; rewrite E; reflexivity).
    eapply meets_val; [sstep; rewrite E; reflexivity|]. eapply pop_R; eassumption.
  - hold x r v0 Hh Hx. gcase G ((0 <=? n) && (n <? W31) && (zlen v0 <? W31)). eapply meets_unit; [sstep; rewrite G; reflexivity|].
    eapply arr_drop_front_R; try eassumption; lia.
  - hold x r v0 Hh Hx. gcase G ((0 <=? n) && (n <? W31) && (zlen v0 <? W31)). eapply meets_unit; [sstep; rewrite G; reflexivity|].
    eapply arr_drop_back_R; try eassumption; lia.
  - hold x r v0 Hh Hx. gcase G (in_u64 n). unfold in_u64 in G. eapply meets_unit; [sstep; unfold in_u64; rewrite G; reflexivity|].
    eapply drop_front_R; try eassumption; lia.
  - hold x r v0 Hh Hx. gcase G (in_u64 n). unfold in_u64 in G. eapply meets_unit; [sstep; unfold in_u64; rewrite G; reflexivity|].
    eapply drop_back_R; try eassumption; lia.
  - destruct (d_nul d) as [z|] eqn:Hz; [|apply meets_none; sstep; rewrite Hz; reflexivity].
    destruct (holds_none_or a x) as [N|(r & v & Hh & Hx)]; [apply meets_none; sstep; rewrite Hz; reflexivity|].
    destruct r; [|apply meets_none; sstep; rewrite Hz; reflexivity].
    unfold with_nul. rewrite Hz. unfold RcaMeet.meets. sstep. rewrite Hz. cbn [same].
    pose proof (c_str_R d z guess s a x v Hwf HR Hx Hz) as Hc. unfold mem_, bind, ret.
    destruct (c_str d z guess x s) as [m s'|e s'| | |u]; try contradiction.
    + destruct Hc as [H1 H2]. split; [exact H1|exact H2].
    + exists guess, x. split; [reflexivity|]. unfold asks, vlen. rewrite Hx. exact Hc.
  - hold x r v0 Hh Hx. destruct (vals v0) as [es|] eqn:Ev; [|apply meets_none; sstep; rewrite Ev; reflexivity].
    eapply meets_unit; [sstep; rewrite Ev; reflexivity|]. eapply trim_R; eassumption.
  - hold x r v0 Hh Hx. destruct (vals v0) as [es|] eqn:Ev; [|apply meets_none; sstep; rewrite Ev; reflexivity].
    eapply meets_unit; [sstep; rewrite Ev; reflexivity|]. eapply chomp_R; eassumption.
Qed.

(** Whole programs. *)
Lemma observe_allows ops : wf_desc d -> forall s a, R s a -> allows d a ops (observe d ops s).
Proof.
  intros Hwf. induction ops as [|o ops IH]; intros s a HR; [constructor|]. cbn [observe].
  pose proof (exec_meets o s a Hwf HR) as Hm. unfold RcaMeet.meets in Hm.
  destruct (step o a) as [[a' v|]|] eqn:Es.
  - destruct (exec d o s) as [v' s'|e s'| | |u]; try contradiction.
    + destruct Hm as [HR' Ho]. eapply al_ret; [exact Es|exact Ho|apply IH, HR'].
    + destruct Hm as (-> & x & Hsub & Hst & [[_ HR']|(Ht & _ & HR')]).
      * eapply al_oom_keep; [exact Es|exact Hsub|exact Hst|apply IH, HR'].
      * eapply al_oom_empty; [exact Es|exact Ht|exact Hst|apply IH, HR'].
    + destruct Hm as (g & x & -> & Hst). eapply al_term; [exact Es|exact Hst].
  - rewrite Hm. apply al_range; [exact Es|apply IH, HR].
  - apply al_misuse, Es.
Qed.
Theorem programs_refine ops : wf_desc d -> allows d ∅ ops (observe d ops st_init).
Proof. intros Hwf. apply observe_allows; [exact Hwf|apply R_init]. Qed.
End Main.
