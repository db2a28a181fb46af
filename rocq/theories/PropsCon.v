(** C47, C48: threads whose objects share buffers. A schedule says which thread makes the next step; a step is at most one access to a counter or to
    the elements of a buffer. [own2 v]: two threads, each with an object 0 of value [v], in [shared2 v q1 q2] on the same buffer; in [parts2] the
    objects are substrings of [v]. *)
From Coq Require Import Lia.
From Verif Require Import Base ZList ConModel ConSpec ConSerial ConEx.
From stdpp Require Import gmap.
Open Scope Z_scope.
Ltac crun := vm_compute; reflexivity.
Definition config_of (r : cres) : option config := match r with COk c => Some c | CBad _ => None end.

(** C47: when objects are created, copied, moved, assigned, read, destroyed, shortened and made from substrings, c_str() is called where a NUL ends
    the object or on objects never copied, and only these are modified ([legal true]), then under every schedule nothing is accessed that is freed, no two threads touch the same memory with one of them writing or freeing it, the buffer of
    every object is there, and at the end every thread has seen and has what it would have alone; when no objects are left, no buffer is. *)
Theorem C47_safe : forall c ps fs, at_rest c ps -> legal true c ps fs -> forall sched, exists c', run sched c = COk c' /\ (conflict c' -> False) /\
  (forall i t x l n, g_threads c' !! i = Some t -> t_env t !! x = Some (Some (l, n)) -> exists k, m_heap (g_mem c') !! l = Some k /\ 1 <= k_refs k /\ inside n k) /\
  (done c' -> at_rest c' fs /\ (no_objects c' -> m_heap (g_mem c') = ∅)).
Proof. exact c47_safe. Qed.
Print Assumptions C47_safe.
Definition copier : list cop := [CCopy 1 0; CRead 1; CNew 2 [7; 8]; CSet 2 0 9; CAssign 0 2; CRead 0; CDestroy 1; CMove 3 2; CDestroy 3; CDestroy 0; CDestroy 2].
Definition reader : list cop := [CRead 0; CCopy 1 0; CDestroy 0; CRead 1; CDestroy 1].
Definition slicer : list cop := [CSlice 1 0 1 2; CCstr 1; CSlice 2 0 0 2; CRead 2; CDestroy 0; CCstr 1; CNew 3 [7; 8; 9]; CShorten 3 2; CCstr 3; CDestroy 1; CDestroy 2; CDestroy 3].
Example C47_safe_ex : exists fs, at_rest (shared2 [1; 2] copier reader) (own2 [1; 2]) /\ legal true (shared2 [1; 2] copier reader) (own2 [1; 2]) fs /\
  map p_log fs = [[[9; 8]; [1; 2]]; [[1; 2]; [1; 2]]].
Proof. eexists. split; [apply shared2_rest|]. split; [constructor; [crun|constructor; [crun|constructor]]|reflexivity]. Qed.
Example C47_safe_slices_ex : exists fs, at_rest (shared2 [1; 2; 3] slicer reader) (own2 [1; 2; 3]) /\ legal true (shared2 [1; 2; 3] slicer reader) (own2 [1; 2; 3]) fs /\
  map p_log fs = [[[7; 8; 0]; [2; 3; 0]; [1; 2]; [2; 3; 0]]; [[1; 2; 3]; [1; 2; 3]]].
Proof. eexists. split; [apply shared2_rest|]. split; [constructor; [crun|constructor; [crun|constructor]]|reflexivity]. Qed.

(** C47: a program is finished once its thread was scheduled five times per operation. *)
Theorem C47_finishes : forall c ps fs, at_rest c ps -> legal true c ps fs ->
  forall sched, (forall i t, g_threads c !! i = Some t -> (5 * length (t_prog t) <= turns i sched)%nat) -> exists c', run sched c = COk c' /\ done c' /\ at_rest c' fs.
Proof. exact c47_finishes. Qed.
Print Assumptions C47_finishes.
Example C47_finishes_ex : let sched := concat (replicate 55 [0%nat; 1%nat]) in
  (forall i t, g_threads (shared2 [1; 2] copier reader) !! i = Some t -> (5 * length (t_prog t) <= turns i sched)%nat) /\
  option_map (fun c => (map t_log (g_threads c), map_to_list (m_heap (g_mem c)))) (config_of (run sched (shared2 [1; 2] copier reader))) = Some ([[[9; 8]; [1; 2]]; [[1; 2]; [1; 2]]], []).
Proof. split; [|crun]. intros [|[|i]] t E; try discriminate; injection E as <-; vm_compute; lia. Qed.

(** C47, erasure is not safe: of two destructors of the last two objects on a buffer each may find the other object still there, and the buffer is
    freed with its contents. *)
Theorem C47_erased_refuted : exists v fs sched c', at_rest (shared2 v [CDestroy 0] [CDestroy 0]) (own2 v) /\ legal true (shared2 v [CDestroy 0] [CDestroy 0]) (own2 v) fs /\
  run sched (shared2 v [CDestroy 0] [CDestroy 0]) = COk c' /\ done c' /\ m_freed (g_mem c') = [v ++ [0]] /\ v = [115; 101; 99].
Proof.
  exists [115; 101; 99]. eexists. exists [0; 1; 0; 1; 0; 1; 1]%nat. eexists.
  split; [apply shared2_rest|]. split; [constructor; [crun|constructor; [crun|constructor]]|]. split; [vm_compute; reflexivity|]. split; [repeat constructor|]. split; reflexivity.
Qed.
Print Assumptions C47_erased_refuted.
(** One after the other they leave it erased. *)
Example C47_erased_serial : option_map (fun c => m_freed (g_mem c)) (config_of (serial [0; 1]%nat (shared2 [115; 101; 99] [CDestroy 0] [CDestroy 0]))) = Some [[0; 0; 0; 0]].
Proof. crun. Qed.

(** C48: programs that also modify objects sharing a buffer ([legal false]) are safe when no thread is interrupted inside an operation: every thread
    sees and has what it would have alone, all along, and when no objects are left, no buffer is. *)
Theorem C48_serial : forall c ps fs, at_rest c ps -> legal false c ps fs -> forall sched, exists c' ps', serial sched c = COk c' /\ at_rest c' ps' /\ legal false c' ps' fs /\
  (done c' -> at_rest c' fs /\ (no_objects c' -> m_heap (g_mem c') = ∅)) /\
  ((forall i t, g_threads c !! i = Some t -> (length (t_prog t) <= turns i sched)%nat) -> done c').
Proof. exact c48_serial. Qed.
Print Assumptions C48_serial.
Definition writer (i v : Z) : list cop := [CSet 0 i v; CRead 0; CDestroy 0].
Example C48_serial_ex : exists fs, at_rest (shared2 [1; 2] (writer 0 9) (writer 1 8)) (own2 [1; 2]) /\ legal false (shared2 [1; 2] (writer 0 9) (writer 1 8)) (own2 [1; 2]) fs /\
  map p_log fs = [[[9; 2]]; [[1; 8]]] /\
  option_map (fun c => (map t_log (g_threads c), map_to_list (m_heap (g_mem c)))) (config_of (serial [0; 1; 0; 1; 1; 0]%nat (shared2 [1; 2] (writer 0 9) (writer 1 8)))) = Some ([[[9; 2]]; [[1; 8]]], []).
Proof. eexists. split; [apply shared2_rest|]. split; [constructor; [crun|constructor; [crun|constructor]]|]. split; [reflexivity|crun]. Qed.

(** C48, interrupted: one thread modifies its object, the other destroys its own on the same buffer; the buffer is copied after it was freed. *)
Theorem C48_freed_refuted : exists v q fs sched, at_rest (shared2 v q [CDestroy 0]) (own2 v) /\ legal false (shared2 v q [CDestroy 0]) (own2 v) fs /\
  run sched (shared2 v q [CDestroy 0]) = CBad UbFreed.
Proof.
  exists [1; 2], [CSet 0 0 9]. eexists. exists [0; 0; 1; 1; 1; 1; 1; 0]%nat.
  split; [apply shared2_rest|]. split; [constructor; [crun|constructor; [crun|constructor]]|]. crun.
Qed.
Print Assumptions C48_freed_refuted.
(** C48, interrupted: both modify; the write of one shows up in the object of the other, *)
Theorem C48_torn_refuted : exists v fs sched c', at_rest (shared2 v (writer 0 9) (writer 1 8)) (own2 v) /\ legal false (shared2 v (writer 0 9) (writer 1 8)) (own2 v) fs /\
  run sched (shared2 v (writer 0 9) (writer 1 8)) = COk c' /\ done c' /\ map t_log (g_threads c') = [[[9; 8]]; [[1; 8]]] /\ map p_log fs = [[[9; 2]]; [[1; 8]]].
Proof.
  exists [1; 2]. eexists. exists [0; 0; 1; 1; 0; 0; 0; 1; 0; 1; 0; 1; 0; 1; 0; 1; 0; 1; 1; 0; 1; 1]%nat. eexists.
  split; [apply shared2_rest|]. split; [constructor; [crun|constructor; [crun|constructor]]|]. split; [vm_compute; reflexivity|]. split; [repeat constructor|]. split; reflexivity.
Qed.
Print Assumptions C48_torn_refuted.
(** with one reading the buffer as the other writes it; *)
Theorem C48_race_refuted : exists v fs sched c', at_rest (shared2 v (writer 0 9) (writer 1 8)) (own2 v) /\ legal false (shared2 v (writer 0 9) (writer 1 8)) (own2 v) fs /\
  run sched (shared2 v (writer 0 9) (writer 1 8)) = COk c' /\ conflict c'.
Proof.
  exists [1; 2]. eexists. exists [0; 0; 1]%nat. eexists.
  split; [apply shared2_rest|]. split; [constructor; [crun|constructor; [crun|constructor]]|]. split; [vm_compute; reflexivity|].
  exists 0%nat, 1%nat. do 2 eexists. exists 0, Reads, Writes. repeat split; discriminate.
Qed.
Print Assumptions C48_race_refuted.
(** or the buffer is never freed. *)
Theorem C48_leak_refuted : exists v fs sched c', at_rest (shared2 v (writer 0 9) (writer 1 8)) (own2 v) /\ legal false (shared2 v (writer 0 9) (writer 1 8)) (own2 v) fs /\
  run sched (shared2 v (writer 0 9) (writer 1 8)) = COk c' /\ done c' /\ no_objects c' /\ m_heap (g_mem c') !! 0 = Some (CCell 0 (v ++ [0])).
Proof.
  exists [1; 2]. eexists. exists (concat (replicate 15 [0; 1]%nat)). eexists.
  split; [apply shared2_rest|]. split; [constructor; [crun|constructor; [crun|constructor]]|]. split; [vm_compute; reflexivity|]. split; [repeat constructor|]. split; [repeat constructor; apply map_size_empty_iff; reflexivity|]. reflexivity.
Qed.
Print Assumptions C48_leak_refuted.
(** Clearing leaks likewise. *)
Theorem C48_clear_leak_refuted : exists v fs sched c', let c := shared2 v [CClear 0; CDestroy 0] [CClear 0; CDestroy 0] in at_rest c (own2 v) /\ legal false c (own2 v) fs /\
  run sched c = COk c' /\ done c' /\ no_objects c' /\ m_heap (g_mem c') !! 0 = Some (CCell 0 (v ++ [0])).
Proof.
  exists [1; 2]. eexists. exists (concat (replicate 10 [0; 1]%nat)). eexists. cbv zeta.
  split; [apply shared2_rest|]. split; [constructor; [crun|constructor; [crun|constructor]]|]. split; [vm_compute; reflexivity|]. split; [repeat constructor|]. split; [repeat constructor; apply map_size_empty_iff; reflexivity|]. reflexivity.
Qed.
Print Assumptions C48_clear_leak_refuted.
(** C48, c_str() is const, but it modifies an object that no NUL ends: a thread that only calls it on its substring reads the buffer after another
    thread, destroying its own object, has freed it; *)
Theorem C48_cstr_freed_refuted : exists v n fs sched, let c := parts2 v n (0, zlen v) [CCstr 0] [CDestroy 0] in
  at_rest c [part v n; part v (0, zlen v)] /\ legal false c [part v n; part v (0, zlen v)] fs /\ run sched c = CBad UbFreed.
Proof.
  exists [97; 98; 99; 100], (0, 3). eexists. exists [0; 0; 0; 1; 1; 1; 1; 1; 0]%nat. cbv zeta.
  split; [apply parts2_rest; repeat split; discriminate|]. split; [constructor; [crun|constructor; [crun|constructor]]|]. crun.
Qed.
Print Assumptions C48_cstr_freed_refuted.
(** of two threads that only call it, one gets the NUL of the other in the middle of its text, *)
Theorem C48_cstr_torn_refuted : exists v n1 n2 fs sched c', let c := parts2 v n1 n2 [CCstr 0] [CCstr 0] in
  at_rest c [part v n1; part v n2] /\ legal false c [part v n1; part v n2] fs /\ run sched c = COk c' /\ done c' /\
  map t_log (g_threads c') = [[[97; 98; 0; 100; 0]]; [[97; 98; 0]]] /\ map p_log fs = [[[97; 98; 99; 100; 0]]; [[97; 98; 0]]].
Proof.
  exists [97; 98; 99; 100; 101], (0, 4), (0, 2). eexists. exists [0; 0; 0; 1; 1; 1; 1; 0; 0]%nat. eexists. cbv zeta.
  split; [apply parts2_rest; repeat split; discriminate|]. split; [constructor; [crun|constructor; [crun|constructor]]|]. split; [vm_compute; reflexivity|]. split; [repeat constructor|]. split; reflexivity.
Qed.
Print Assumptions C48_cstr_torn_refuted.
(** reading the buffer as the other writes it. *)
Theorem C48_cstr_race_refuted : exists v n1 n2 fs sched c', let c := parts2 v n1 n2 [CCstr 0] [CCstr 0] in
  at_rest c [part v n1; part v n2] /\ legal false c [part v n1; part v n2] fs /\ run sched c = COk c' /\ conflict c'.
Proof.
  exists [97; 98; 99; 100; 101], (0, 4), (0, 2). eexists. exists [0; 0; 0; 1; 1; 1]%nat. eexists. cbv zeta.
  split; [apply parts2_rest; repeat split; discriminate|]. split; [constructor; [crun|constructor; [crun|constructor]]|]. split; [vm_compute; reflexivity|].
  exists 0%nat, 1%nat. do 2 eexists. exists 0, Reads, Writes. repeat split; discriminate.
Qed.
Print Assumptions C48_cstr_race_refuted.
(** One after the other they get their texts. *)
Example C48_cstr_serial : option_map (fun c => map t_log (g_threads c)) (config_of (serial [0; 1]%nat (parts2 [97; 98; 99; 100; 101] (0, 4) (0, 2) [CCstr 0] [CCstr 0]))) =
  Some [[[97; 98; 99; 100; 0]]; [[97; 98; 0]]].
Proof. crun. Qed.
