(** C65, the reference counter is a 32-bit int. [exec32]: a call with such a counter; [exec]: with a counter that never
    wraps, as in C01-C10 and everything built on them. *)
From Coq Require Import Lia String.
From stdpp Require Import gmap.
From Verif Require Import RcaSpec RcaModel RcaExec RcaOwn RcaMeet RcaEx AlgEx CntModel CntMeet CntProof CntEx.
Open Scope Z_scope.
Ltac run := vm_compute; reflexivity.

(** C65: the two models are the same functions, over the two counters. *)
Theorem C65_model : forall T (d : desc T) o, g_exec inc_ref dec_ref d o = exec d o /\ g_exec inc32 dec32 d o = exec32 d o.
Proof. intros T d o. split; [exact (g_exec_is d o)|reflexivity]. Qed.
Print Assumptions C65_model.
Example C65_model_ex : exists s, exec32 sdesc (CtorCstrLen 1 [97; 98] 2) st_init = Ok ONone s /\ rcount 1 s = Ok 1 s.
Proof. exists s_ab. split; run. Qed.

(** C65: as long as fewer than 2^31 - 1 objects share any one buffer, a call does the same with the int. *)
Theorem C65_step : forall T (d : desc T) s a o, wf_desc d -> reached d s a -> few_sharers s -> exec32 d o s = exec d o s.
Proof. intros T d s a o. exact (step_same d s a o). Qed.
Print Assumptions C65_step.
(** C65: and that is so while fewer than 2^31 - 1 objects are alive. *)
Theorem C65_few : forall T (d : desc T) s a, wf_desc d -> reached d s a -> Z.of_nat (size a) < 2147483647 -> few_sharers s.
Proof. intros T d s a. exact (few_alive d s a). Qed.
Print Assumptions C65_few.
Example C65_step_ex : reached sdesc sa va /\ Z.of_nat (size va) < 2147483647 /\ few_sharers sa /\
  exec32 sdesc (CtorCopy 9 1) sa = exec sdesc (CtorCopy 9 1) sa /\ rcount 9 (end_state (exec32 sdesc (CtorCopy 9 1) sa)) = Ok 3 (end_state (exec32 sdesc (CtorCopy 9 1) sa)).
Proof.
  assert (R : reached sdesc sa va) by (apply run_reached; run). assert (Q : Z.of_nat (size va) < 2147483647) by run.
  pose proof (C65_few _ sdesc sa va sdesc_wf R Q) as F. split; [exact R|]. split; [exact Q|]. split; [exact F|]. split; [exact (C65_step _ sdesc sa va _ sdesc_wf R F)|run].
Qed.

(** C65: so programs of up to 2^31 - 2 calls give the same answers and end in the same state. *)
Theorem C65_programs : forall T (d : desc T) ops, zlen ops <= 2147483646 -> run32 d ops st_init = run_inf d ops st_init.
Proof. intros T d ops. exact (run_same d ops). Qed.
Print Assumptions C65_programs.
Example C65_programs_ex : zlen (ab :: copies 2 3 ++ [Write 1 0 88; Read 1 0; Read 2 0]) <= 2147483646 /\
  match run32 sdesc (ab :: copies 2 3 ++ [Write 1 0 88; Read 1 0; Read 2 0]) st_init with Ok vs _ => vs = [ONone; ONone; ONone; ONone; ONone; OVal 88; OVal 97] | _ => False end.
Proof. split; [vm_compute; intros Q; discriminate|run]. Qed.

(** C65 fails beyond: with 2^31 Strings on one buffer the counter is negative, no longer "shared", and writing to one
    changes another. *)
Theorem C65_shared_refuted : exists vs s s', run32 sdesc (CtorCstrLen 1 [97; 98] 2 :: copies 2 (Z.to_nat 2147483647)) st_init = Ok vs s /\
  exec32 sdesc (Read 2 0) s = Ok (OVal 97) s /\ exec32 sdesc (Write 1 0 88) s = Ok ONone s' /\ exec32 sdesc (Read 2 0) s' = Ok (OVal 88) s'.
Proof. exact crowd_write. Qed.
Print Assumptions C65_shared_refuted.
(** C65: with one more, destroying one frees the buffer; the others are left with a dangling pointer. *)
Theorem C65_freed_refuted : exists vs s s', run32 sdesc (CtorCstrLen 1 [97; 98] 2 :: copies 2 (Z.to_nat 2147483648)) st_init = Ok vs s /\
  exec32 sdesc (Read 2 0) s = Ok (OVal 97) s /\ exec32 sdesc (Destroy 1) s = Ok ONone s' /\ exec32 sdesc (Read 2 0) s' = Undef UbFreed.
Proof. exact crowd_destroy. Qed.
Print Assumptions C65_freed_refuted.
