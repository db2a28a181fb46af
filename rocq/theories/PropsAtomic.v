(** AtomicFile properties C41-C42. [y] decides, for every system call, whether it fails, whether the machine stops before
    it and what mkstemp picks; [mdiff] is any memcmp. *)
From stdpp Require Import gmap.
From Coq Require Import String.
From Verif Require Import Base StrModel StrSpec StrEx AtomicSpec AtomicModel AtomicMain AtomicEx.
Open Scope Z_scope.
Ltac run := vm_compute; reflexivity.
Ltac runs := repeat match goal with |- _ /\ _ => split end; run.

(** C41: wherever the machine stops, and also at the end, what is seen at [q] and what a machine coming up again may find
    there is what was there before or the complete contents of one commit to it. The program opens usual names, does not
    open an open file (or does not run out of memory), and no temporary file it makes can be called [q]. *)
Theorem C41_stop : forall (mdiff : Z -> Z -> Z), memcmp_ok mdiff -> forall (y : sys) (f : fs) (ops : list aop) (q : path) (w : world),
  on_disk f q -> (bracketed false ops = true \/ forall n, y_oom y n = false) ->
  (forall fn m, In (AOpen fn m) ops -> usual_name fn /\ ~ temp_path fn q) ->
  ended (arun y mdiff ops (start f)) w ->
  old_or_new f ops q (visible (w_now w) q) /\ forall r, survives (w_now w) (w_past w) q r -> old_or_new f ops q r.
Proof. intros mdiff Hm y f ops q w D B N. exact (crash_safe mdiff Hm y f ops q w (conj D (conj B N))). Qed.
Print Assumptions C41_stop.
(** Stopped in the middle of the second write, before the rename, and not at all. *)
Example C41_stop_ex : sees (resolve conf) (arun (stopping 9) Z.sub save (start disk)) = Some (Some (bs "old")) /\
  sees (resolve conf) (arun (stopping 14) Z.sub save (start disk)) = Some (Some (bs "old")) /\
  sees (resolve conf) (arun calm Z.sub save (start disk)) = Some (Some (bs "new1new2")) /\
  sessions None save = [(conf, bs "new1new2")] /\ on_disk disk (resolve conf) /\ usual_name conf.
Proof. repeat (split; [run|]). split; [exact disk_on_disk|exact conf_usual]. Qed.

(** C41: for a program that writes only [fn], nothing about temporary names needs to be assumed. *)
Theorem C41_one_file : forall (mdiff : Z -> Z -> Z), memcmp_ok mdiff -> forall (y : sys) (f : fs) (ops : list aop) (fn : list Z) (w : world),
  on_disk f (resolve fn) -> usual_name fn -> bracketed false ops = true ->
  (forall fn' m, In (AOpen fn' m) ops -> fn' = fn) ->
  ended (arun y mdiff ops (start f)) w ->
  old_or_new f ops (resolve fn) (visible (w_now w) (resolve fn)) /\
  forall r, survives (w_now w) (w_past w) (resolve fn) r -> old_or_new f ops (resolve fn) r.
Proof. exact crash_safe_one. Qed.
Print Assumptions C41_one_file.
Example C41_one_file_ex : exists w, arun (stopping 20) Z.sub (save ++ save) (start disk) = Stop w /\
  visible (w_now w) (resolve conf) = Some (bs "new1new2") /\ bracketed false (save ++ save) = true.
Proof. eexists. split; [apply stop_eq; run|]. runs. Qed.

(** C41: when the last commit returned true, its contents are in place. *)
Theorem C41_committed : forall (mdiff : Z -> Z -> Z), memcmp_ok mdiff -> forall (y : sys) (f : fs) (ops : list aop) rs (w : world),
  (bracketed false (ops ++ [ACommit]) = true \/ forall n, y_oom y n = false) ->
  (forall fn m, In (AOpen fn m) ops -> usual_name fn) ->
  arun y mdiff (ops ++ [ACommit]) (start f) = Done (rs ++ [Some true]) w ->
  exists fn b, sessions None (ops ++ [ACommit]) = sessions None ops ++ [(fn, b)] /\ visible (w_now w) (resolve (cstr fn)) = Some b.
Proof. exact commit_done. Qed.
Print Assumptions C41_committed.
Example C41_committed_ex : results (arun calm Z.sub save (start disk)) = Some [Some true; Some true; Some true; Some true] /\
  sees (resolve conf) (arun calm Z.sub save (start disk)) = Some (Some (bs "new1new2")).
Proof. split; run. Qed.

(** C41: a returned commit is not yet durable: the directory is never synced, so a machine going down afterwards may come
    up with the previous contents. *)
Theorem C41_durable_refuted : exists y f w rs, arun y Z.sub save (start f) = Done (rs ++ [Some true]) w /\
  visible (w_now w) (resolve conf) = Some (bs "new1new2") /\ survives (w_now w) (w_past w) (resolve conf) (Some (bs "old")).
Proof.
  exists calm, disk. eexists. exists [Some true; Some true; Some true]. split; [apply done_eq; run|]. split; [run|].
  exists disk. split; [right; apply in_past; run|]. exists (bs "old"). split; [reflexivity|]. intros n H _. vm_compute in H. injection H as <-. reflexivity.
Qed.
Print Assumptions C41_durable_refuted.

(** C41: opening another file while one is open, and running out of memory there, makes commit put the first file's
    contents in the second one's place. *)
Theorem C41_reopen_refuted : exists y f w rs b,
  arun y Z.sub [AOpen conf 420; AWrite (bs "one"); AOpen (bs "etc/other") 420; ACommit] (start f) = Done (rs ++ [Some true]) w /\
  visible (w_now w) (resolve (bs "etc/other")) = Some b /\ b = bs "one" /\
  sessions None [AOpen conf 420; AWrite (bs "one"); AOpen (bs "etc/other") 420; ACommit] = [(bs "etc/other", [])].
Proof.
  exists (throwing 6), disk. eexists. exists [Some true; Some true; None], (bs "one"). split; [apply done_eq; run|]. runs.
Qed.
Print Assumptions C41_reopen_refuted.

(** C42: a commit that returned false leaves the object closed, everything but the temporary file as it was, and the
    temporary file gone unless its removal failed; whatever happened before. *)
Theorem C42_commit_failed : forall (y : sys) (w w' : world), commit y w = Done false w' ->
  is_open (w_obj w') = false /\
  (forall q, q <> resolve (cstr (a_tmp (w_obj w))) -> visible (w_now w') q = visible (w_now w) q) /\
  (visible (w_now w') (resolve (cstr (a_tmp (w_obj w)))) = None \/ exists l, w_log w' = l ++ w_log w /\ In (CUnlink (cstr (a_tmp (w_obj w))), false) l).
Proof. exact commit_failed. Qed.
Print Assumptions C42_commit_failed.
(** The rename fails. *)
Example C42_commit_failed_ex : results (arun (failing 14) Z.sub save (start disk)) = Some [Some true; Some true; Some true; Some false] /\
  names_of (arun (failing 14) Z.sub save (start disk)) = Some [resolve conf] /\ fds_of (arun (failing 14) Z.sub save (start disk)) = Some [] /\
  sees (resolve conf) (arun (failing 14) Z.sub save (start disk)) = Some (Some (bs "old")).
Proof. runs. Qed.

(** C42: a commit that returned true leaves the object closed, the temporary file under the target's name only and
    everything else as it was. *)
Theorem C42_commit_done : forall (y : sys) (w w' : world), commit y w = Done true w' ->
  resolve (cstr (a_tmp (w_obj w))) <> resolve (cstr (a_fname (w_obj w))) ->
  is_open (w_obj w') = false /\ visible (w_now w') (resolve (cstr (a_tmp (w_obj w)))) = None /\
  visible (w_now w') (resolve (cstr (a_fname (w_obj w)))) = visible (w_now w) (resolve (cstr (a_tmp (w_obj w)))) /\
  forall q, q <> resolve (cstr (a_tmp (w_obj w))) -> q <> resolve (cstr (a_fname (w_obj w))) -> visible (w_now w') q = visible (w_now w) q.
Proof. exact commit_succeeded. Qed.
Print Assumptions C42_commit_done.
Example C42_commit_done_ex : names_of (arun calm Z.sub save (start disk)) = Some [resolve conf] /\ fds_of (arun calm Z.sub save (start disk)) = Some [].
Proof. runs. Qed.

(** C42: abort and destruction of an open object. *)
Theorem C42_abort : forall (y : sys) (w w' : world) r, aabort y w = Done r w' ->
  r = is_open (w_obj w) /\ is_open (w_obj w') = false /\ (r = false -> w' = w) /\
  (forall q, q <> resolve (cstr (a_tmp (w_obj w))) -> visible (w_now w') q = visible (w_now w) q) /\
  (r = true -> visible (w_now w') (resolve (cstr (a_tmp (w_obj w)))) = None \/ exists l, w_log w' = l ++ w_log w /\ In (CUnlink (cstr (a_tmp (w_obj w))), false) l).
Proof. exact abort_effect. Qed.
Print Assumptions C42_abort.
Example C42_abort_ex : names_of (arun calm Z.sub [AOpen conf 420; AWrite (bs "x"); AAbort] (start disk)) = Some [resolve conf] /\
  results (arun calm Z.sub [AOpen conf 420; AAbort; AAbort] (start disk)) = Some [Some true; Some true; Some false].
Proof. split; run. Qed.
Theorem C42_destroy : forall (y : sys) (w w' : world) r, adestroy y w = Done r w' ->
  (forall q, q <> resolve (cstr (a_tmp (w_obj w))) -> visible (w_now w') q = visible (w_now w) q) /\
  (is_open (w_obj w) = true -> visible (w_now w') (resolve (cstr (a_tmp (w_obj w)))) = None \/ exists l, w_log w' = l ++ w_log w /\ In (CUnlink (cstr (a_tmp (w_obj w))), false) l).
Proof. exact destroy_effect. Qed.
Print Assumptions C42_destroy.
Example C42_destroy_ex : names_of (arun calm Z.sub [AOpen conf 420; AWrite (bs "x")] (start disk)) <> Some [resolve conf] /\
  names_of (arun calm Z.sub [AOpen conf 420; AWrite (bs "x"); ADestroy] (start disk)) = Some [resolve conf].
Proof. split; [vm_compute; discriminate|run]. Qed.

(** C42: a program that closes what it opens leaves no file besides those that were there and the targets of its commits,
    unless removing one failed, and no descriptor unless fchmod, fsync or close failed. *)
Theorem C42_left_behind : forall (mdiff : Z -> Z -> Z) (y : sys) (f : fs) (ops : list aop) l (w : world),
  bracketed false ops = true -> closed_at_end false ops = true -> arun y mdiff ops (start f) = Done l w ->
  is_open (w_obj w) = false /\
  (forall p, is_Some (f_names (w_now w) !! p) -> is_Some (f_names f !! p) \/ (exists fn b, In (fn, b) (sessions None ops) /\ p = resolve (cstr fn)) \/
     (exists t, In (CUnlink t, false) (w_log w) /\ resolve t = p)) /\
  (forall d, is_Some (f_fds (w_now w) !! d) -> is_Some (f_fds f !! d) \/
     In (CFchmod, false) (w_log w) \/ In (CFsync, false) (w_log w) \/ In (CClose, false) (w_log w)).
Proof. exact left_behind. Qed.
Print Assumptions C42_left_behind.
Example C42_left_behind_ex : let ops := save ++ [AOpen (bs "x") 4294967295; AAbort; AOpen (bs "new") 420; AWrite (bs "n"); ACommit] in
  bracketed false ops = true /\ closed_at_end false ops = true /\
  names_of (arun calm Z.sub ops (start disk)) = Some [resolve (bs "new"); resolve conf] /\ fds_of (arun calm Z.sub ops (start disk)) = Some [].
Proof. cbv zeta; runs. Qed.

(** C42: an open that returned true has created one new empty file, in the directory of the target and not called like it. *)
Theorem C42_same_directory : forall (mdiff : Z -> Z -> Z), memcmp_ok mdiff -> forall (y : sys) fn m (w w' : world),
  usual_name fn -> aopen y mdiff fn m w = Done true w' ->
  let t := resolve (cstr (a_tmp (w_obj w'))) in
  is_open (w_obj w') = true /\ parent t = parent (resolve fn) /\ t <> resolve fn /\
  f_names (w_now w) !! t = None /\ visible (w_now w') t = Some [] /\
  (forall q, q <> t -> f_names (w_now w') !! q = f_names (w_now w) !! q).
Proof. exact open_true. Qed.
Print Assumptions C42_same_directory.
Example C42_same_directory_ex : exists w, aopen calm Z.sub (bs "/a/b/c") 420 (start disk) = Done true w /\
  a_tmp (w_obj w) = bs "/a/b/./c.abcde2" /\ exists w, aopen calm Z.sub (bs "c") 420 (start disk) = Done true w /\ a_tmp (w_obj w) = bs "./.c.abcde2".
Proof. eexists. split; [apply done_eq; run|]. split; [run|]. eexists. split; [apply done_eq; run|run]. Qed.

(** C42: a failing fchmod or fsync loses the descriptor. *)
Theorem C42_descriptor_refuted :
  fds_of (arun (failing 11) Z.sub save (start disk)) = Some [5] /\ fds_of (arun (failing 12) Z.sub save (start disk)) = Some [5] /\
  (exists w l, arun (failing 11) Z.sub save (start disk) = Done l w /\ is_open (w_obj w) = false) /\
  (exists w l, arun (failing 12) Z.sub save (start disk) = Done l w /\ is_open (w_obj w) = false).
Proof. split; [run|]. split; [run|]. split; do 2 eexists; (split; [apply done_eq; run|run]). Qed.
Print Assumptions C42_descriptor_refuted.

(** C42: opening an open object leaves the first temporary file and its descriptor behind for good. *)
Theorem C42_reopen_refuted : exists y f w l p,
  arun y Z.sub [AOpen conf 420; AOpen conf 420; ACommit; ADestroy] (start f) = Done l w /\ l = [Some true; Some true; Some true; Some true] /\
  f_names f !! p = None /\ is_Some (f_names (w_now w) !! p) /\ p <> resolve conf /\ is_Some (f_fds (w_now w) !! 5) /\ f_fds f !! 5 = None.
Proof.
  exists calm, disk. do 2 eexists. exists (resolve (bs "etc/conf.abcde2")). split; [apply done_eq; run|]. split; [run|]. split; [run|].
  split; [eexists; run|]. split; [vm_compute; discriminate|]. split; [eexists; run|run].
Qed.
Print Assumptions C42_reopen_refuted.

(** C42: with a NUL in the name the temporary file is made in another directory than the target. *)
Theorem C42_nul_refuted : exists y f w fn, aopen y Z.sub fn 420 (start f) = Done true w /\
  parent (resolve (cstr (a_tmp (w_obj w)))) <> parent (resolve (cstr fn)).
Proof. exists calm, disk. eexists. exists (bs "a" ++ [0] ++ bs "/b"). split; [apply done_eq; run|]. vm_compute. discriminate. Qed.
Print Assumptions C42_nul_refuted.

(** C42: a name of 4090 bytes makes open read beyond the buffer of printf. *)
Theorem C42_long_name_refuted : exists y f fn, zlen fn = 4090 /\ aopen y Z.sub fn 420 (start f) = Bad UbBounds.
Proof. exists calm, disk, (zrep 4090 97). split; run. Qed.
Print Assumptions C42_long_name_refuted.

(** C42: commit on an object whose open did not succeed removes whatever file has the name of the template. *)
Theorem C42_stale_refuted : exists y f w l, arun y Z.sub [AOpen conf 420; ACommit] (start f) = Done l w /\ l = [None; Some false] /\
  visible f (resolve (bs "etc/conf.XXXXXX")) = Some (bs "precious") /\ visible (w_now w) (resolve (bs "etc/conf.XXXXXX")) = None.
Proof.
  exists (throwing 1), (Fs {[resolve (bs "etc/conf.XXXXXX") := 1%N]} {[1%N := Inode (bs "precious") 420 true]} ∅).
  do 2 eexists. split; [apply done_eq; run|]. runs.
Qed.
Print Assumptions C42_stale_refuted.
