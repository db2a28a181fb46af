(** Cost of using an array as a stack or as a queue. *)
From Coq Require Import ZifyBool.
From Verif Require Import Base RcaSpec RcaModel RcaExec RcaInv RcaOwn RcaRel RcaMeet RcaMain RcaReach GrowModel GrowProof QueueModel.
Open Scope Z_scope.

Section Queue.
Context {T : Type} (d : desc T).
Notation St := (state T).
Hypothesis Hnul : d_nul d = None.
Ltac bi H a s1 E := apply bind_inv in H as (a & s1 & E & H).

Lemma check_meter (m : M St bool) s s' u : (forall b s0, m s = Ok b s0 -> s0 = s) -> check d m s = Ok u s' -> s' = s.
Proof.
  intros P H. unfold check in H. destruct (d_debug d); [|injection H as _ <-; reflexivity]. bi H b s1 E. apply P in E. subst s1.
  destruct b; [|discriminate]. injection H as _ <-. reflexivity.
Qed.
Lemma not_empty_meter x (s s0 : St) b : not_empty x s = Ok b s0 -> s0 = s.
Proof. unfold not_empty, length_of, bind, get_obj. destruct (st_env s !! x); [|discriminate]. intros [= _ <-]. reflexivity. Qed.
Lemma load1_meter x p (s : St) v s' : load1 x p s = Ok v s' -> s' = s.
Proof.
  unfold load1. intros H. bi H es s1 E. assert (s1 = s) as ->.
  { unfold load in E. change (1 <=? 0) with false in E. bi E o s2 E1. unfold get_obj in E1. destruct (st_env s !! x); [injection E1 as <- <-|discriminate].
    destruct (o_ref _); [|discriminate]. bi E c s2 E1. unfold get_cell in E1. destruct (st_heap s !! _); [injection E1 as <- <-|discriminate].
    destruct (_ <=? _); [|discriminate]. injection E as _ <-. reflexivity. }
  destruct es as [|[e|] [|]]; try discriminate. injection H as _ <-. reflexivity.
Qed.
Lemma move_out_meter x p (s : St) v s' cap off len : own x s cap off len -> move_out d x p s = Ok v s' -> own x s' cap off len /\ st_tick s' = st_tick s /\ st_freed s' = st_freed s.
Proof.
  intros Hw H. unfold move_out in H. bi H v0 s1 E. apply load1_meter in E. subst s1. bi H sh s1 E.
  assert (s1 = s) as ->. { unfold is_shared, bind, get_obj, get_cell in E. destruct Hw as (l & h & c & Hx & Hl & _). rewrite Hx in E. cbn [o_ref] in E. rewrite Hl in E. injection E as _ <-. reflexivity. }
  clear E. bi H u s1 E. injection H as _ <-. destruct (d_class d && negb sh).
  - destruct u. exact (store_meter _ _ _ _ _ _ _ _ Hw E).
  - injection E as _ <-. auto.
Qed.
Lemma shift_meter x (s : St) w s' cap off len : own x s cap off len -> 1 <= len -> exec d (Shift x) s = Ok w s' ->
  own x s' cap (off + 1) (len - 1) /\ st_tick s' = st_tick s /\ st_freed s' = st_freed s.
Proof.
  intros Hw Hl H. cbn [exec] in H. unfold val_ in H. bi H v0 s0 E. injection H as _ <-. rename E into H. unfold shift in H.
  bi H u s1 E. apply check_meter in E; [|intros b s2; apply not_empty_meter]. subst s1. bi H v s1 E. apply (move_out_meter _ _ _ _ _ _ _ _ Hw) in E as (Hw1 & Et & Ef).
  destruct Hw1 as (l & h & c & Hx & Hc & Hr & Hz & Ho & Hn & Hfit & Hm). bi H o s2 E. unfold get_obj in E. rewrite Hx in E. injection E as <- <-.
  cbn [o_ref o_off o_len] in H. bi H u2 s2 E. injection H as _ <-. unfold set_obj in E. injection E as _ <-. split; [|auto].
  exists l, 0, c. cbn [st_env st_heap with_env]. rewrite lookup_insert, !u64_id by (unfold max_alloc, W64, W63 in *; lia). repeat match goal with |- _ /\ _ => split end; auto; lia.
Qed.
Lemma pop_meter x (s : St) w s' cap off len : own x s cap off len -> 1 <= len -> exec d (Pop x) s = Ok w s' ->
  own x s' cap off (len - 1) /\ st_tick s' = st_tick s /\ st_freed s' = st_freed s.
Proof.
  intros Hw Hl H. cbn [exec] in H. unfold val_ in H. bi H v0 s0 E. injection H as _ <-. rename E into H. unfold pop in H.
  bi H u s1 E. apply check_meter in E; [|intros b s2; apply not_empty_meter]. subst s1. bi H n s1 E. rewrite (length_meter _ _ _ _ _ Hw) in E. injection E as <- <-.
  bi H v s1 E. apply (move_out_meter _ _ _ _ _ _ _ _ Hw) in E as (Hw1 & Et & Ef).
  bi H u1 s2 E. injection H as _ <-. unfold pop_back in E. bi E u2 s3 E2. apply check_meter in E2; [|intros b s4; apply not_empty_meter]. subst s3.
  destruct Hw1 as (l & h & c & Hx & Hc & Hr & Hz & Ho & Hn & Hfit & Hm). unfold sub_length in E. bi E o s3 E3. unfold get_obj in E3. rewrite Hx in E3. injection E3 as <- <-.
  cbn [o_ref o_off o_len o_hash] in E. unfold set_obj in E. injection E as _ <-. split; [|auto].
  eexists l, _, c. cbn [st_env st_heap with_env]. rewrite lookup_insert, !u64_id by (unfold max_alloc, W64, W63 in *; lia). repeat match goal with |- _ /\ _ => split end; auto; lia.
Qed.
Lemma own_bounds x (s : St) cap off len : own x s cap off len -> 0 <= off /\ 0 <= len /\ off + len <= cap /\ cap <= max_alloc.
Proof. intros (l & h & c & _ & _ & _ & _ & A & B & C & D). auto. Qed.
(** push_back after an element was taken. *)
Lemma put_meter x v (s : St) w s' cap off len : own x s cap off len -> len + 1 <= cap -> cap < max_alloc -> exec d (AppendItem x v) s = Ok w s' ->
  own x s' cap (if cap - off <? len + 1 then 0 else off) (len + 1) /\ st_tick s' = st_tick s /\ st_freed s' = st_freed s /\ append_moves d x s = (if cap - off <? len + 1 then len else 0).
Proof.
  intros Hw Hc Hm H. pose proof (own_bounds _ _ _ _ _ Hw). apply (append_own d x v s s' w cap off len Hw) in H as (cap' & off' & Hw' & K); [|lia].
  unfold need in K. rewrite Hnul in K. destruct (cap <? len + 1) eqn:E; [lia|]. destruct K as (-> & -> & Et & Ef & Em). auto.
Qed.
Theorem queue_meter x vs : forall (s : St) s' m cap off n, own x s cap off n -> 1 <= n -> cap < max_alloc -> rounds d Shift x vs s = Some (s', m) ->
  m = (n - 1) * ((off + zlen vs) / (cap - n + 1)) /\ st_tick s' = st_tick s /\ st_freed s' = st_freed s /\ own x s' cap ((off + zlen vs) mod (cap - n + 1)) n.
Proof.
  induction vs as [|v vs IH]; intros s s' m cap off n Hw Hn Hm H; pose proof (own_bounds _ _ _ _ _ Hw) as B; cbn [rounds] in H.
  - injection H as <- <-. change (zlen []) with 0. rewrite Z.add_0_r, Z.div_small, Z.mod_small by lia. rewrite Z.mul_0_r. auto.
  - destruct (exec d (Shift x) s) as [w s1| | | |] eqn:E1; try discriminate. destruct (exec d (AppendItem x v) s1) as [w2 s2| | | |] eqn:E2; try discriminate.
    destruct (rounds d Shift x vs s2) as [[s3 m']|] eqn:E3; [|discriminate]. injection H as <- <-.
    apply (shift_meter _ _ _ _ _ _ _ Hw Hn) in E1 as (Hw1 & Et1 & Ef1). apply (put_meter _ _ _ _ _ _ _ _ Hw1) in E2 as (Hw2 & Et2 & Ef2 & Em); [|lia|lia].
    replace (n - 1 + 1) with n in * by lia. rewrite zlen_cons. pose proof (zlen_nonneg vs) as Hz.
    destruct (cap - (off + 1) <? n) eqn:Eo; apply (IH _ _ _ _ _ _ Hw2 Hn Hm) in E3 as (-> & Et & Ef & Hw3); rewrite Em.
    + replace (off + (1 + zlen vs)) with (0 + zlen vs + 1 * (cap - n + 1)) by lia. rewrite Z.div_add, Z.mod_add by lia. split; [lia|]. split; [congruence|]. split; [congruence|exact Hw3].
    + replace (off + (1 + zlen vs)) with (off + 1 + zlen vs) by lia. split; [lia|]. split; [congruence|]. split; [congruence|exact Hw3].
Qed.
Theorem stack_meter x vs : forall (s : St) s' m cap off n, own x s cap off n -> 1 <= n -> cap < max_alloc -> rounds d Pop x vs s = Some (s', m) ->
  m = 0 /\ st_tick s' = st_tick s /\ st_freed s' = st_freed s /\ own x s' cap off n.
Proof.
  induction vs as [|v vs IH]; intros s s' m cap off n Hw Hn Hm H; pose proof (own_bounds _ _ _ _ _ Hw) as B; cbn [rounds] in H.
  - injection H as <- <-. auto.
  - destruct (exec d (Pop x) s) as [w s1| | | |] eqn:E1; try discriminate. destruct (exec d (AppendItem x v) s1) as [w2 s2| | | |] eqn:E2; try discriminate.
    destruct (rounds d Pop x vs s2) as [[s3 m']|] eqn:E3; [|discriminate]. injection H as <- <-.
    apply (pop_meter _ _ _ _ _ _ _ Hw Hn) in E1 as (Hw1 & Et1 & Ef1). apply (put_meter _ _ _ _ _ _ _ _ Hw1) in E2 as (Hw2 & Et2 & Ef2 & Em); [|lia|lia].
    replace (n - 1 + 1) with n in * by lia. destruct (cap - off <? n) eqn:Eo; [lia|].
    apply (IH _ _ _ _ _ _ Hw2 Hn Hm) in E3 as (-> & Et & Ef & Hw3). rewrite Em. split; [reflexivity|]. split; [congruence|]. split; [congruence|exact Hw3].
Qed.

(** An array that is not shared owns its buffer. *)
Lemma alone x v (s : St) a r cap : wf_desc d -> reached d s a -> a !! x = Some (AVal r v) -> v <> [] -> rcount x s = Ok 1 s -> capacity x s = Ok cap s ->
  exists off, own x s cap off (zlen v) /\ 1 <= zlen v.
Proof.
  intros Hwf Hre Ha Hv Hc Hk. pose proof (reached_R d s a Hwf Hre) as HR. destruct (R_held d _ _ _ _ _ HR Ha) as (o & Hh).
  pose proof (held_len d _ _ _ _ _ Hh) as Hlen. pose proof (hd_env _ _ _ _ _ _ Hh) as Hx.
  assert (o_len o = zlen v) as Ho by (unfold length_of, bind, get_obj in Hlen; rewrite Hx in Hlen; injection Hlen as ->; reflexivity).
  destruct HR as [[Hce Hob] _]. unfold rcount, bind, get_obj in Hc. unfold capacity, bind, get_obj in Hk. rewrite Hx in Hc, Hk. destruct (o_ref o) as [l|] eqn:Er; [|discriminate].
  destruct (Hob x o Hx l Er) as (c & Hcl & P1 & P2 & P3 & _). destruct (Hce l c Hcl) as [_ Hp Hsz _]. unfold get_cell in Hc, Hk. rewrite Hcl in Hc, Hk. injection Hc as Hr. injection Hk as <-.
  exists (o_off o). split; [|destruct v; [contradiction|rewrite zlen_cons; pose proof (zlen_nonneg v); lia]].
  exists l, (o_hash o), c. rewrite <- Er, <- Ho. destruct o; cbn in *. repeat match goal with |- _ /\ _ => split end; auto; lia.
Qed.
(** A queue. *)
Theorem queue_cost x v (s : St) a r cap vs s' m : wf_desc d -> reached d s a -> a !! x = Some (AVal r v) -> v <> [] -> rcount x s = Ok 1 s -> capacity x s = Ok cap s -> cap < max_alloc ->
  rounds d Shift x vs s = Some (s', m) ->
  exists off, 0 <= off <= cap - zlen v /\ m = (zlen v - 1) * ((off + zlen vs) / (cap - zlen v + 1)) /\ st_tick s' = st_tick s /\ st_freed s' = st_freed s /\ capacity x s' = Ok cap s'.
Proof.
  intros Hwf Hre Ha Hv Hc Hk Hm H. destruct (alone x v s a r cap Hwf Hre Ha Hv Hc Hk) as (off & Hw & Hn). pose proof (own_bounds _ _ _ _ _ Hw).
  destruct (queue_meter x vs s s' m cap off (zlen v) Hw Hn Hm H) as (E & Et & Ef & (l & h & c & Hx & Hl & _ & Hz & _)). exists off. split; [lia|]. split; [exact E|]. split; [exact Et|]. split; [exact Ef|].
  unfold capacity, bind, get_obj, get_cell. rewrite Hx. cbn [o_ref]. rewrite Hl, Hz. reflexivity.
Qed.
Theorem queue_full x v (s : St) a r vs s' m : wf_desc d -> reached d s a -> a !! x = Some (AVal r v) -> v <> [] -> rcount x s = Ok 1 s -> capacity x s = Ok (zlen v) s -> zlen v < max_alloc ->
  rounds d Shift x vs s = Some (s', m) -> m = zlen vs * (zlen v - 1).
Proof.
  intros Hwf Hre Ha Hv Hc Hk Hm H. destruct (queue_cost x v s a r _ vs s' m Hwf Hre Ha Hv Hc Hk Hm H) as (off & B & -> & _). assert (off = 0) as -> by lia.
  replace (zlen v - zlen v + 1) with 1 by lia. rewrite Z.div_1_r. lia.
Qed.
Theorem queue_roomy x v (s : St) a r cap vs s' m : wf_desc d -> reached d s a -> a !! x = Some (AVal r v) -> v <> [] -> rcount x s = Ok 1 s -> capacity x s = Ok cap s -> cap < max_alloc -> 2 * zlen v <= cap ->
  rounds d Shift x vs s = Some (s', m) -> m <= zlen v + zlen vs.
Proof.
  intros Hwf Hre Ha Hv Hc Hk Hm Hr H. destruct (queue_cost x v s a r _ vs s' m Hwf Hre Ha Hv Hc Hk Hm H) as (off & B & -> & _). pose proof (zlen_nonneg vs). pose proof (zlen_nonneg v).
  assert (1 <= zlen v) by (destruct v; [contradiction|rewrite zlen_cons; pose proof (zlen_nonneg v); lia]).
  set (k := cap - zlen v + 1) in *. pose proof (Z.mul_div_le (off + zlen vs) k ltac:(lia)). pose proof (Z.div_pos (off + zlen vs) k ltac:(lia) ltac:(lia)).
  assert (off <= k - 1) by lia. nia.
Qed.
Theorem stack_cost x v (s : St) a r cap vs s' m : wf_desc d -> reached d s a -> a !! x = Some (AVal r v) -> v <> [] -> rcount x s = Ok 1 s -> capacity x s = Ok cap s -> cap < max_alloc ->
  rounds d Pop x vs s = Some (s', m) -> m = 0 /\ st_tick s' = st_tick s /\ st_freed s' = st_freed s.
Proof.
  intros Hwf Hre Ha Hv Hc Hk Hm H. destruct (alone x v s a r cap Hwf Hre Ha Hv Hc Hk) as (off & Hw & Hn).
  destruct (stack_meter x vs s s' m cap off (zlen v) Hw Hn Hm H) as (E & Et & Ef & _). auto.
Qed.
End Queue.
