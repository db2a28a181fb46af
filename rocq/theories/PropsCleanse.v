(** C28, erasing the bytes of a String. [st_freed s] lists the contents of the released buffers at the moment of their release,
    the most recent first. [addr] gives the addresses of buffers, [ctr] is the static counter. *)
From Coq Require Import Lia.
From Verif Require Import Base RcaSpec RcaModel RcaExec RcaOwn RcaMeet RcaReach RcaEx CleanseSpec CleanseModel CleanseProof.
Open Scope Z_scope.
Ltac run := vm_compute; reflexivity.
Definition addr64 (l : positive) : Z := 4096 + 64 * Zpos l.
(** A released buffer starts with [v]. *)
Definition leaks (s : state Z) (v : list Z) : Prop := exists b, In b (st_freed s) /\ ztake (zlen v) b = map Some v.

(** C28: cleanse overwrites every byte, and what it writes does not depend on what was there. *)
Theorem C28_cleanse : forall {S} addr ctr buf1 buf2 (s : S), buf1 <> [] -> zlen buf1 = zlen buf2 -> 0 <= ctr < 256 ->
  exists out ctr', cleanse addr ctr buf1 s = Ok (map Some out, ctr') s /\ cleanse addr ctr buf2 s = Ok (map Some out, ctr') s /\
  zlen out = zlen buf1 /\ Forall (fun b => 0 <= b < 256) out /\ 0 <= ctr' < 256.
Proof. exact @cleanse_same. Qed.
Print Assumptions C28_cleanse.
Example C28_cleanse_ex : cleanse 4096 5 [Some 104; Some 105; None] tt = Ok ([Some 5; Some 23; Some 42], 62) tt /\
  cleanse 4096 5 [Some 1; None; Some 3] tt = Ok ([Some 5; Some 23; Some 42], 62) tt.
Proof. split; run. Qed.

(** C28: the bytes written, and the counter that the next String to be erased starts with. *)
Theorem C28_bytes : forall {S} addr ctr buf (s : S), buf <> [] -> 0 <= ctr < 256 ->
  exists ctr', cleanse addr ctr buf s = Ok (map (fun i => Some ((ctr + strides addr i) mod 256)) (seq 0 (length buf)), ctr') s /\
  let c := (ctr + strides addr (length buf)) mod 256 in
  (In c (map (fun i => (ctr + strides addr i) mod 256) (seq 0 (length buf))) -> ctr' = (c + 63 + addr + zlen buf) mod 256) /\
  (~ In c (map (fun i => (ctr + strides addr i) mod 256) (seq 0 (length buf))) -> ctr' = c).
Proof. exact @cleanse_exact. Qed.
Print Assumptions C28_bytes.
Example C28_bytes_ex : map (fun i => (5 + strides 4096 i) mod 256) (seq 0 4) = [5; 23; 42; 62] /\ In ((0 + strides 4096 25) mod 256) (map (fun i => (0 + strides 4096 i) mod 256) (seq 0 25)).
Proof. split; [run|]. vm_compute. tauto. Qed.

(** C28: what the last owner leaves behind is a function of the address, the counter and the capacity. *)
Theorem C28_destroy_last : exists (bytes : Z -> Z -> nat -> list Z) (after : Z -> Z -> nat -> Z),
  (forall p ctr n, length (bytes p ctr n) = n) /\
  forall d s a x v addr ctr n, wf_desc d -> reached d s a -> a !! x = Some v -> rcount x s = Ok 1 s -> capacity x s = Ok (Z.of_nat n) s -> n <> O ->
  exists l s', destroy_bytes addr ctr x s = Ok (after (addr l) ctr n) s' /\
  st_freed s' = map Some (bytes (addr l) ctr n) :: st_freed s /\
  (exists o, st_env s !! x = Some o /\ o_ref o = Some l) /\ st_heap s' = delete l (st_heap s) /\ st_env s' = delete x (st_env s).
Proof.
  exists (fun p ctr n => fst (pattern n p 0 ctr)), final_ctr. split; [intros; apply pattern_length|].
  intros d s a x v addr ctr n. exact (destroy_last d s a x v addr ctr n).
Qed.
Print Assumptions C28_destroy_last.
Example C28_destroy_last_ex : reached sdesc (st sdesc prog_s) (av sdesc prog_s) /\ rcount 4 (st sdesc prog_s) = Ok 1 (st sdesc prog_s) /\
  capacity 4 (st sdesc prog_s) = Ok (Z.of_nat 8) (st sdesc prog_s) /\
  st_freed (ok_state (destroy_bytes addr64 0 4 (st sdesc prog_s)) st_init) = [map Some [0; 18; 37; 57; 78; 100; 123; 147]].
Proof. repeat match goal with |- _ /\ _ => split end; [apply run_reached|run|run|run]. Qed.

(** C28: two executions that differ only in the contents of the buffer end in the same state. *)
Theorem C28_blind : forall s1 s2 x l addr ctr, differ_in l s1 s2 -> (exists o, st_env s1 !! x = Some o /\ o_ref o = Some l) ->
  rcount x s1 = Ok 1 s1 -> capacity x s1 <> Ok 0 s1 ->
  exists ctr' s', destroy_bytes addr ctr x s1 = Ok ctr' s' /\ destroy_bytes addr ctr x s2 = Ok ctr' s'.
Proof. exact destroy_blind. Qed.
Print Assumptions C28_blind.
Example C28_blind_ex : let s1 := st sdesc [CtorCstrLen 1 [1; 2; 3] 3] in let s2 := st sdesc [CtorCstrLen 1 [7; 8; 9] 3] in
  differ_in 1 s1 s2 /\ st_heap s1 !! 1%positive <> st_heap s2 !! 1%positive /\
  (exists o, st_env s1 !! 1%positive = Some o /\ o_ref o = Some 1%positive) /\ rcount 1 s1 = Ok 1 s1 /\ capacity 1 s1 = Ok 4 s1.
Proof.
  cbv zeta. split.
  - unfold differ_in. repeat match goal with |- _ /\ _ => split end; try run.
    + intros l N. vm_compute. destruct l; try reflexivity. contradiction.
    + eexists _, _, _, _. split; [run|]. split; [run|run].
  - split; [vm_compute; discriminate|]. split; [eexists; split; [run|run]|split; run].
Qed.

(** C28: while another object uses the buffer it is neither erased nor released. *)
Theorem C28_destroy_shared : forall d s a x v addr ctr, wf_desc d -> reached d s a -> a !! x = Some v -> rcount x s <> Ok 1 s ->
  exists s', destroy_bytes addr ctr x s = Ok ctr s' /\ st_freed s' = st_freed s /\ st_env s' = delete x (st_env s) /\
  forall l, option_map c_buf (st_heap s' !! l) = option_map c_buf (st_heap s !! l).
Proof. exact destroy_shared. Qed.
Print Assumptions C28_destroy_shared.
Example C28_destroy_shared_ex : reached sdesc (st sdesc prog_s) (av sdesc prog_s) /\ rcount 1 (st sdesc prog_s) = Ok 3 (st sdesc prog_s) /\
  st_freed (ok_state (destroy_bytes addr64 0 1 (st sdesc prog_s)) st_init) = [] /\
  content_is 3 (ok_state (destroy_bytes addr64 0 1 (st sdesc prog_s)) st_init) [101; 108; 108].
Proof. repeat match goal with |- _ /\ _ => split end; [apply run_reached|run|run|run]. Qed.

(** C28: apart from the bytes in released buffers this is the destructor of the heap model, so all its theorems apply. *)
Theorem C28_same_destructor : forall d s a x v addr ctr, wf_desc d -> is_Some (d_nul d) -> reached d s a -> a !! x = Some v ->
  (rcount x s = Ok 1 s -> capacity x s <> Ok 0 s) ->
  exists ctr' s1 s2, destroy_bytes addr ctr x s = Ok ctr' s1 /\ destroy d x s = Ok tt s2 /\ st_heap s1 = st_heap s2 /\ st_env s1 = st_env s2 /\
  st_next s1 = st_next s2 /\ st_tick s1 = st_tick s2 /\ map zlen (st_freed s1) = map zlen (st_freed s2).
Proof. exact destroy_abstract. Qed.
Print Assumptions C28_same_destructor.
Example C28_same_destructor_ex : wf_desc sdesc /\ is_Some (d_nul sdesc) /\ capacity 4 (st sdesc prog_s) <> Ok 0 (st sdesc prog_s).
Proof. split; [apply sdesc_wf|]. split; [eexists; reflexivity|vm_compute; discriminate]. Qed.

(** C28: a program that only constructs, copies, moves into new objects, reads, shrinks and destroys Strings leaves no contents
    in released memory; also when it runs out of memory on the way. *)
Theorem C28_quiet_program : forall {T} (d : desc T) ops s a, wf_desc d -> is_Some (d_nul d) -> Forall quiet ops ->
  track d ops (st_init, ∅) = Some (s, a) -> Forall erased (st_freed s).
Proof.
  intros T d ops s a Hwf Hn Hq Ht. exact (quiet_program d ops st_init ∅ s a Hwf Hn (re_init d) (Forall_nil _) Hq Ht).
Qed.
Print Assumptions C28_quiet_program.
Example C28_quiet_program_ex : Forall quiet (prog_s ++ [Trim (Z.eqb 33) 4; Destroy 1; Destroy 3; CtorMove 5 2; Destroy 5; Destroy 4]) /\
  st_freed (st sdesc (prog_s ++ [Trim (Z.eqb 33) 4; Destroy 1; Destroy 3; CtorMove 5 2; Destroy 5; Destroy 4])) =
  [zrep 8 None; zrep 6 None].
Proof. split; [repeat constructor|run]. Qed.

(** C28: assignment and growth release the old buffer as it is. *)
Theorem C28_assign_refuted : exists ops, ops = [CtorCstrLen 1 hello 5; CtorDefault 2; AssignCopy 1 2] /\
  reached sdesc (st sdesc ops) (av sdesc ops) /\ leaks (st sdesc ops) hello.
Proof. eexists. split; [reflexivity|]. split; [apply run_reached|]. eexists. split; [vm_compute; left; reflexivity|run]. Qed.
Print Assumptions C28_assign_refuted.
Theorem C28_move_assign_refuted : exists ops, ops = [CtorCstrLen 1 hello 5; CtorDefault 2; AssignMove 1 2] /\
  reached sdesc (st sdesc ops) (av sdesc ops) /\ leaks (st sdesc ops) hello.
Proof. eexists. split; [reflexivity|]. split; [apply run_reached|]. eexists. split; [vm_compute; left; reflexivity|run]. Qed.
Print Assumptions C28_move_assign_refuted.
Theorem C28_growth_refuted : exists ops, ops = [CtorCstrLen 1 hello 5; AppendItem 1 33; Destroy 1] /\
  reached sdesc (st sdesc ops) (av sdesc ops) /\ leaks (st sdesc ops) hello.
Proof. eexists. split; [reflexivity|]. split; [apply run_reached|]. eexists. split; [vm_compute; right; left; reflexivity|run]. Qed.
Print Assumptions C28_growth_refuted.
(** C28: a String owning a buffer of no bytes hands a null pointer to memchr. *)
Theorem C28_null_refuted : exists ops, ops = [CtorDefault 1; ReserveIfOwn 1 0] /\
  reached sdesc (st sdesc ops) (av sdesc ops) /\ rcount 1 (st sdesc ops) = Ok 1 (st sdesc ops) /\
  forall addr ctr, destroy_bytes addr ctr 1 (st sdesc ops) = Undef UbNull.
Proof. eexists. split; [reflexivity|]. split; [apply run_reached|]. split; [run|]. intros. run. Qed.
Print Assumptions C28_null_refuted.
