(** C14, cost of appending one by one. [st_tick] counts the allocations, [st_freed] has the released buffers; [append_all] also gives the
    number of elements moved or copied. *)
From Coq Require Import Lia.
From Verif Require Import Base RcaSpec RcaModel RcaExec RcaOwn RcaMeet RcaReach RcaEx GrowModel GrowProof GrowFloat.
Open Scope Z_scope.
Ltac run := vm_compute; reflexivity.
Definition count (n : nat) : list Z := map Z.of_nat (seq 0 n).

(** C14: logarithmically many allocations, linearly many elements moved and released. *)
Theorem C14_append : forall {T} (d : desc T) lim x v s a vs s' m r,
  (forall z, 0 <= z <= lim -> z + z / 2 <= d_grow d z) -> lim <= max_alloc ->
  wf_desc d -> reached d s a -> a !! x = Some (AVal r v) -> zlen v + zlen vs + 2 <= lim ->
  append_all d x vs s = Some (s', m) ->
  exists R, Z.of_nat (st_tick s') <= Z.of_nat (st_tick s) + 2 * Z.log2 (4 * (zlen v + zlen vs + 1)) + 3 /\
    st_freed s' = R ++ st_freed s /\ total R <= 4 * (zlen v + zlen vs) /\ m <= 5 * (zlen v + zlen vs).
Proof.
  intros T d lim x v s a vs s' m r Hg Hm Hwf Hre Ha Hl H.
  destruct (append_cost d lim Hg Hm x v s a vs s' m r Hwf Hre Ha Hl H) as (k & R & Ht & Hk & Hf & HR & HM). exists R.
  pose proof (zlen_nonneg v). pose proof (zlen_nonneg vs). apply log_bound in Hk; [|lia]. split; [lia|auto].
Qed.
Print Assumptions C14_append.
Lemma sdesc_grow z : 0 <= z <= 2 ^ 51 -> z + z / 2 <= d_grow sdesc z.
Proof. intros _. reflexivity. Qed.
Example C14_append_ex : wf_desc sdesc /\ reached sdesc (st sdesc prog_s) (av sdesc prog_s) /\
  av sdesc prog_s !! 1%positive = Some (AVal true (map Some hello)) /\
  option_map snd (append_all sdesc 1 (count 200) (st sdesc prog_s)) = Some 477 /\
  option_map (fun p => (st_tick (fst p) - st_tick (st sdesc prog_s))%nat) (append_all sdesc 1 (count 200) (st sdesc prog_s)) = Some 11%nat /\
  option_map (fun p => total (st_freed (fst p))) (append_all sdesc 1 (count 200) (st sdesc prog_s)) = Some 481.
Proof. split; [apply sdesc_wf|]. split; [apply run_reached|]. repeat match goal with |- _ /\ _ => split end; run. Qed.

(** C14: the factor used by the code, a double, is large enough up to 2^51 elements. *)
Theorem C14_factor : forall size, 0 <= size -> 3 * size < 2 ^ 53 -> scaled size = size + size / 2.
Proof. exact scaled_exact. Qed.
Print Assumptions C14_factor.
Example C14_factor_ex : 3 * 1000000007 < 2 ^ 53 /\ 1000000007 + 1000000007 / 2 = 1500000010.
Proof. split; run. Qed.
Theorem C14_append_double : forall {T} (d : desc T) x v s a vs s' m r,
  (forall z, d_grow d z = scaled z) -> wf_desc d -> reached d s a -> a !! x = Some (AVal r v) -> zlen v + zlen vs + 2 <= 2 ^ 51 ->
  append_all d x vs s = Some (s', m) ->
  exists R, Z.of_nat (st_tick s') <= Z.of_nat (st_tick s) + 2 * Z.log2 (4 * (zlen v + zlen vs + 1)) + 3 /\
    st_freed s' = R ++ st_freed s /\ total R <= 4 * (zlen v + zlen vs) /\ m <= 5 * (zlen v + zlen vs).
Proof.
  intros T d x v s a vs s' m r Hg. apply (C14_append d (2 ^ 51)); [|unfold max_alloc, W63; lia].
  intros z Hz. rewrite Hg, scaled_exact by lia. reflexivity.
Qed.
Print Assumptions C14_append_double.
Definition fdesc : desc Z := Desc false 0 None (fun z => z) Z.eqb scaled never false.
Example C14_append_double_ex : wf_desc fdesc /\ (forall z, d_grow fdesc z = scaled z) /\
  let s := st fdesc [CtorSized 1 8] in reached fdesc s (av fdesc [CtorSized 1 8]) /\ av fdesc [CtorSized 1 8] !! 1%positive = Some (AVal true []) /\
  option_map snd (append_all fdesc 1 (count 8) s) = Some 0.
Proof. split; [intros z; discriminate|]. split; [reflexivity|]. split; [apply run_reached|]. split; run. Qed.
