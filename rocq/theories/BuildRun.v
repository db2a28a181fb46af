(** Putting a text together from pieces: the calls return if memory is to be had; what a whole text appended to an empty one does. *)
From Coq Require Import ZifyBool.
From Verif Require Import Base RcaSpec RcaModel RcaExec RcaInv RcaOwn RcaRel RcaMeet RcaMain RcaReach RcaFacts2 GrowModel GrowProof BuildModel BuildSpec BuildProof.
Open Scope Z_scope.

Section Run.
Context {T : Type} (d : desc T).
Notation St := (state T).
Ltac bi H a s1 E := apply bind_inv in H as (a & s1 & E & H).
Hypothesis Hwf : wf_desc d.
Lemma len_val x (s : St) a r v : reached d s a -> a !! x = Some (AVal r v) -> len_of x s = zlen v.
Proof.
  intros Hre Ha. pose proof (reached_R d s a Hwf Hre) as HR. destruct (R_held d _ _ _ _ _ HR Ha) as (o & Hh).
  pose proof (held_len d _ _ _ _ _ Hh) as Hl. pose proof (hd_env _ _ _ _ _ _ Hh) as Hx. unfold len_of. rewrite Hx.
  unfold length_of, bind, get_obj in Hl. rewrite Hx in Hl. injection Hl as ->. reflexivity.
Qed.
Lemma subject_add x p (s : St) : subject (add_op x p s) = Some x.
Proof. destruct p; reflexivity. Qed.
Lemma asks_add x p (s : St) a : asks (add_op x p s) a x = vlen a x + 2.
Proof. destruct p; reflexivity. Qed.
Theorem build_returns lim x : (forall k, d_oom d k = false) -> lim <= max_alloc -> (forall z, 0 <= z < lim -> d_grow d z <= max_alloc) ->
  forall ps ts (s : St) a r v, reached d s a -> a !! x = Some (AVal r v) -> Forall (joins a v) ps -> Forall2 (piece_text d a x) ps ts ->
  zlen v + zlen (concat ts) + 2 <= lim -> exists s' m, build d x ps s = Some (s', m).
Proof.
  intros Hm Hl Hg. induction ps as [|p ps IH]; intros ts s a r v Hre Ha Hv Hts Hz; cbn [build]; [eauto|].
  inversion Hts as [|? t ? ts' Ht Hts']; subst. inversion Hv as [|? ? Hv1 Hv2]; subst. cbn [concat] in *. rewrite zlen_app in *.
  pose proof (zlen_nonneg t). pose proof (zlen_nonneg (concat ts')). pose proof (zlen_nonneg v).
  destruct (piece_spec d x p t s a r v Ha (len_val _ _ _ _ _ Hre Ha) Hv1 Ht ltac:(lia)) as (a1 & r1 & Hs & Ha1 & Hoth).
  destruct (no_failure d _ s a a1 ONone Hwf Hre Hs Hm) as (s1 & w & E & _ & Hre1 & _).
  { intros x0 Q. rewrite subject_add in Q. injection Q as <-. rewrite asks_add. unfold vlen. rewrite Ha1, zlen_app.
    split; [lia|]. intros z Hz2. apply Hg. lia. }
  rewrite E. destruct (IH ts' s1 a1 r1 (v ++ t) Hre1 Ha1) as (s2 & m & ->); [|eapply Forall2_impl; [exact Hts'|]; intros ? ? Q; exact (text_other d _ _ _ _ _ Hoth Q)|rewrite zlen_app; lia|eauto].
  exact (joins_next d a a1 x v t ps ts' Hoth Hts' Hv2).
Qed.

Theorem build_log lim x ps ts (s s' : St) a r v m : (forall z, 0 <= z <= lim -> z + z / 2 <= d_grow d z) -> lim <= max_alloc ->
  reached d s a -> a !! x = Some (AVal r v) -> Forall (joins a v) ps -> Forall2 (piece_text d a x) ps ts -> zlen v + zlen (concat ts) + 2 <= lim ->
  build d x ps s = Some (s', m) ->
  exists a' r' R, reached d s' a' /\ a' !! x = Some (AVal r' (v ++ concat ts)) /\ (forall y, y <> x -> a' !! y = a !! y) /\
    Z.of_nat (st_tick s') <= Z.of_nat (st_tick s) + 2 * Z.log2 (4 * (zlen (v ++ concat ts) + 1)) + 3 /\
    st_freed s' = R ++ st_freed s /\ total R <= 4 * zlen (v ++ concat ts) /\ m <= 5 * zlen (v ++ concat ts).
Proof.
  intros Hg Hm Hre Ha Hv Hts Hl H. destruct (build_cost d Hwf lim Hg Hm x ps ts s s' a r v m Hre Ha Hv Hts Hl H) as (k & R & a' & r' & Q1 & Q2 & Q3 & Q4 & Q5 & Q6 & Q7 & Q8).
  exists a', r', R. pose proof (zlen_nonneg (v ++ concat ts)). apply log_bound in Q8; [|lia].
  split; [exact Q1|]. split; [exact Q2|]. split; [exact Q3|]. split; [lia|auto].
Qed.

(** A whole text appended to an empty one. *)
Lemma assign_tick x y (s s' : St) : assign_copy x y s = Ok tt s' -> st_tick s' = st_tick s.
Proof.
  intros H. unfold assign_copy in H. bi H oy s1 E. unfold get_obj in E. destruct (st_env s !! y) as [oy'|]; [|discriminate]. injection E as <- <-.
  bi H u s1 E. assert (st_tick s1 = st_tick s) as T1.
  { unfold inc_ref in E. destruct (o_ref oy') as [l|]; [|injection E as _ <-; reflexivity]. bi E c s2 E2. unfold get_cell in E2. destruct (st_heap s !! l); [|discriminate]. injection E2 as _ <-.
    unfold set_cell in E. injection E as _ <-. reflexivity. }
  bi H ox s2 E1. unfold get_obj in E1. destruct (st_env s1 !! x) as [o|]; [|discriminate]. injection E1 as <- <-.
  bi H u1 s2 E1. unfold set_obj in E1. injection E1 as _ <-. bi H u4 s3 E1. assert (st_tick s3 = st_tick s1) as T3.
  { unfold check_dealloc in E1. bi E1 o2 s4 E2. unfold get_obj in E2. cbn [st_env with_env] in E2. rewrite lookup_insert in E2. injection E2 as <- <-. cbn [o_ref o_off o_len o_hash] in E1.
    destruct (o_ref o) as [l|]; [|injection E1 as _ <-; reflexivity]. bi E1 n s4 E2. unfold dec_ref in E2. bi E2 c s5 E3. unfold get_cell in E3. destruct (_ !! l) in E3; [|discriminate]. injection E3 as _ <-.
    bi E2 u2 s5 E3. unfold set_cell in E3. injection E3 as _ <-. injection E2 as _ <-. destruct (n <? 1); [|injection E1 as _ <-; reflexivity].
    bi E1 u3 s4 E3. unfold delete_cell in E3. destruct (_ !! l) in E3; [|discriminate]. injection E3 as _ <-. unfold set_obj in E1. injection E1 as _ <-. reflexivity. }
  bi H o3 s4 E2. unfold get_obj in E2. destruct (st_env s3 !! x); [|discriminate]. injection E2 as _ <-.
  bi H o4 s4 E2. unfold get_obj in E2. destruct (st_env s3 !! y); [|discriminate]. injection E2 as _ <-. unfold set_obj in H. injection H as <-. cbn. congruence.
Qed.
Theorem first_shared x y (s : St) a r ry u : reached d s a -> a !! x = Some (AVal r []) -> a !! y = Some (AVal ry u) -> u <> [] -> zlen u < npos ->
  exists s', exec d (AppendN false x y (zlen u)) s = Ok ONone s' /\ reached d s' (<[x := AVal ry u]> a) /\ st_tick s' = st_tick s.
Proof.
  intros Hre Ha Hy Hu Hn. assert (0 < zlen u) as Hz by (destruct u; [congruence|]; rewrite zlen_cons; pose proof (zlen_nonneg u); lia).
  pose proof (reached_R d s a Hwf Hre) as HR.
  destruct (R_held d _ _ _ _ _ HR Ha) as (o & Hh). pose proof (held_len d _ _ _ _ _ Hh) as Hlen. change (zlen []) with 0 in Hlen.
  destruct (R_held d _ _ _ _ _ HR Hy) as (oy & Hhy). pose proof (held_len d _ _ _ _ _ Hhy) as Hly.
  destruct (assign_copy_R d s a x y (AVal ry u) HR Hy ltac:(unfold live, fresh_var; rewrite Ha; reflexivity)) as (s' & E & _).
  assert (exec d (AppendN false x y (zlen u)) s = Ok ONone s') as Ee.
  { cbn [exec]. unfold unit_, append_n, insert_n. unfold bind at 1. unfold bind at 1. rewrite Hlen. destruct (zlen u =? 0) eqn:E0; [lia|].
    unfold bind at 1. unfold check_pos. cbn [Z.eqb]. unfold ret at 1. unfold bind at 1. rewrite Hly. unfold bind at 1. rewrite Hlen.
    rewrite Z.eqb_refl. destruct (0 <? zlen u) eqn:E1; [|lia]. cbn [andb Z.eqb]. rewrite E. reflexivity. }
  exists s'. split; [exact Ee|]. split; [|exact (assign_tick _ _ _ _ E)]. eapply re_ret; [exact Hre| |exact Ee].
  unfold RcaMeet.step. cbn [spec_step]. unfold holds. rewrite Ha. unfold sp_insert_n, live, fresh_var. rewrite Ha, Hy.
  assert (in_u64 (zlen u) = true) as -> by (unfold in_u64, npos, W64 in *; lia). cbn [negb andb need]. destruct (zlen u =? 0) eqn:E0; [lia|].
  unfold sp_insert, holds. rewrite Ha, Hy. change (zlen (@nil (option T))) with 0. destruct (0 <? zlen u) eqn:E1; [|lia]. change (in_u64 0) with true. change (0 <? 0) with false. cbn [need andb Z.eqb]. rewrite Z.eqb_refl. reflexivity.
Qed.
End Run.
