(** C72: saving a Stream through an AtomicFile. [y] decides, for every system call, whether it fails, whether the machine
    stops before it and what mkstemp and dup pick; [mm] tells whether the library was built with mmap. Every theorem is
    closed by a lemma of SaveMain or SaveLoad; examples beside them. *)
From stdpp Require Import gmap.
From Coq Require Import String.
From Verif Require RcaSpec RcaModel RcaOwn RcaEx StreamModel StreamMeet SaveLoad.
From Verif Require Import Base StrModel StrSpec StrEx SaveSpec AtomicModel SaveModel AtomicEx SaveMain.
Open Scope Z_scope.
Ltac run := vm_compute; reflexivity.
Ltac runs := repeat match goal with |- _ /\ _ => split end; run.

(** Two files are saved, the first of them twice. *)
Definition job : list saving := [(conf, 420, bs "one"); (bs "log", 384, bs "a line"); (conf, 416, bs "three")].
Lemma job_usual : Forall (fun s => usual_name (fst (fst s))) job.
Proof. repeat constructor. Qed.

(** C72: wherever the machine stops, and also at the end, what is seen at [q] and what a machine coming up again may find
    there is what was there before or all the data of one stream that was to be saved there. *)
Theorem C72_stop : forall (mdiff : Z -> Z -> Z), memcmp_ok mdiff -> forall (y : sys) (mm : bool) (f : fs) (l : list saving) (q : path) (w : world),
  on_disk f q -> Forall (fun '(fn, _, _) => usual_name fn /\ ~ temp_path fn q) l -> ended (saves y mdiff mm l (start f)) w ->
  saved_or_old f l q (visible (w_now w) q) /\ forall r, survives (w_now w) (w_past w) q r -> saved_or_old f l q r.
Proof. exact saves_stop. Qed.
Print Assumptions C72_stop.
(** Stopped while data is copied into the mapping of the third file, and while it is written without mmap. *)
Example C72_stop_ex : exists w, saves (stopping 36) Z.sub true job (start disk) = Stop w /\ visible (w_now w) (resolve conf) = Some (bs "one") /\
  visible (w_now w) (resolve (bs "etc/conf.abcdeO")) = Some (bs "th" ++ [0; 0; 0]) /\
  exists w, saves (stopping 36) Z.sub false job (start disk) = Stop w /\ visible (w_now w) (resolve conf) = Some (bs "one") /\
  on_disk disk (resolve conf) /\ usual_name conf.
Proof.
  eexists. split; [apply stop_eq; run|]. split; [run|]. split; [run|]. eexists. split; [apply stop_eq; run|]. split; [run|].
  split; [exact disk_on_disk|exact conf_usual].
Qed.

(** C72: when the machine stops in one of the calls, a process that goes on looking (or the next one, if only this one was
    killed) sees at [q] exactly what the calls that had returned put there. *)
Theorem C72_killed : forall (mdiff : Z -> Z -> Z), memcmp_ok mdiff -> forall (y : sys) (mm : bool) (f : fs) (l : list saving) (q : path) (w : world),
  on_disk f q -> Forall (fun '(fn, _, _) => usual_name fn /\ ~ temp_path fn q) l -> saves y mdiff mm l (start f) = Stop w ->
  exists l1 s l2 rs w1, l = l1 ++ s :: l2 /\ saves y mdiff mm l1 (start f) = Done rs w1 /\ save_one y mdiff mm s w1 = Stop w /\
    visible (w_now w) q = last_saved q (combine l1 rs) (visible f q).
Proof. exact saves_middle. Qed.
Print Assumptions C72_killed.
(** Before the last rename. *)
Example C72_killed_ex : exists w, saves (stopping 43) Z.sub true job (start disk) = Stop w /\ visible (w_now w) (resolve conf) = Some (bs "one") /\
  hd_error (w_log w) = Some (CClose, true) /\
  last_saved (resolve conf) (combine (ztake 2 job) [Some true; Some true]) (visible disk (resolve conf)) = Some (bs "one").
Proof. eexists. split; [apply stop_eq; run|]. runs. Qed.

(** C72: after the calls each file is what the last of them for it that reported success was given, or what it was. A call
    that did not report success changes nothing, whichever system call failed. *)
Theorem C72_result : forall (mdiff : Z -> Z -> Z), memcmp_ok mdiff -> forall (y : sys) (mm : bool) (f : fs) (l : list saving) (q : path) rs (w : world),
  on_disk f q -> Forall (fun '(fn, _, _) => usual_name fn /\ ~ temp_path fn q) l -> saves y mdiff mm l (start f) = Done rs w ->
  visible (w_now w) q = last_saved q (combine l rs) (visible f q).
Proof. exact saves_end. Qed.
Print Assumptions C72_result.
(** mmap fails in the third call; a write fails in the first; memory runs out in the second. *)
Example C72_result_ex : results (saves (failing 33) Z.sub true job (start disk)) = Some [Some true; Some true; Some false] /\
  sees (resolve conf) (saves (failing 33) Z.sub true job (start disk)) = Some (Some (bs "one")) /\
  results (saves (failing 6) Z.sub false job (start disk)) = Some [Some false; Some true; Some true] /\
  sees (resolve conf) (saves (failing 6) Z.sub false job (start disk)) = Some (Some (bs "three")) /\
  results (saves (throwing 14) Z.sub true job (start disk)) = Some [Some true; None; Some true] /\
  sees (resolve (bs "log")) (saves (throwing 14) Z.sub true job (start disk)) = Some None.
Proof. runs. Qed.

(** C72: a call that reported success has put the data in place, with the permissions asked for; nothing is assumed about
    the file system or about the names used by the calls before it but that they are usual. *)
Theorem C72_saved : forall (mdiff : Z -> Z -> Z), memcmp_ok mdiff -> forall (y : sys) (mm : bool) (f : fs) (l : list saving) fn m b rs (w : world),
  Forall (fun s => usual_name (fst (fst s))) (l ++ [(fn, m, b)]) ->
  saves y mdiff mm (l ++ [(fn, m, b)]) (start f) = Done (rs ++ [Some true]) w ->
  visible (w_now w) (resolve fn) = Some b /\ (m <> no_mode -> mode_at (w_now w) (resolve fn) = Some m).
Proof. exact saved. Qed.
Print Assumptions C72_saved.
Example C72_saved_ex : exists w, saves calm Z.sub false job (start disk) = Done [Some true; Some true; Some true] w /\
  visible (w_now w) (resolve conf) = Some (bs "three") /\ mode_at (w_now w) (resolve conf) = Some 416 /\ mode_at (w_now w) (resolve (bs "log")) = Some 384.
Proof. eexists. split; [apply done_eq; run|]. runs. Qed.

(** C72: the calls leave no file besides those that were there and the targets, unless removing one failed, and no
    descriptor, duplicated or not, unless fchmod, fsync or close failed. *)
Theorem C72_left_behind : forall (mdiff : Z -> Z -> Z) (y : sys) (mm : bool) (f : fs) (l : list saving) rs (w : world),
  saves y mdiff mm l (start f) = Done rs w ->
  (forall p, is_Some (f_names (w_now w) !! p) -> is_Some (f_names f !! p) \/ (exists fn m b, In (fn, m, b) l /\ p = resolve (cstr fn)) \/
     (exists t, In (CUnlink t, false) (w_log w) /\ resolve t = p)) /\
  (forall d, is_Some (f_fds (w_now w) !! d) -> is_Some (f_fds f !! d) \/
     In (CFchmod, false) (w_log w) \/ In (CFsync, false) (w_log w) \/ In (CClose, false) (w_log w)).
Proof. exact saves_left. Qed.
Print Assumptions C72_left_behind.
(** With nothing failing; a write fails; fdopen fails. *)
Example C72_left_behind_ex : names_of (saves calm Z.sub true job (start disk)) = Some [resolve (bs "log"); resolve conf] /\ fds_of (saves calm Z.sub true job (start disk)) = Some [] /\
  names_of (saves (failing 6) Z.sub false [(conf, 420, bs "one")] (start disk)) = Some [resolve conf] /\ fds_of (saves (failing 6) Z.sub false job (start disk)) = Some [] /\
  results (saves (failing 4) Z.sub false [(conf, 420, bs "one")] (start disk)) = Some [Some false] /\ fds_of (saves (failing 4) Z.sub false job (start disk)) = Some [].
Proof. runs. Qed.

(** C72: whatever happened while saving, a stream that is loaded from what is found afterwards holds what was in the file
    before or all the data of one stream that was to be saved there, if loadFile returns 0. *)
Theorem C72_reload : forall (mdiff : Z -> Z -> Z), memcmp_ok mdiff -> forall (y : sys) (mm : bool) (f : fs) (l : list saving) (q : path) (w : world) r,
  on_disk f q -> Forall (fun '(fn, _, _) => usual_name fn /\ ~ temp_path fn q) l -> ended (saves y mdiff mm l (start f)) w ->
  r = visible (w_now w) q \/ survives (w_now w) (w_past w) q r ->
  (forall c, saved_or_old f l q (Some c) -> zlen c < W63) ->
  forall d, RcaOwn.wf_desc d -> RcaModel.d_nul d = Some 0 -> forall x t, t <> x -> forall fails s z a v p, StreamMeet.SR d x t s z v p a ->
  StreamMeet.wp (StreamModel.load_name d fails t r)
    (fun ret '(s', z') => ret = 0 -> exists c a', saved_or_old f l q (Some c) /\ StreamMeet.SR d x t s' z' c 0 a')
    (fun e _ => e = BadAlloc) (s, z).
Proof. exact SaveLoad.reload. Qed.
Print Assumptions C72_reload.

(** A stream over "hello" in variable 1; variable 9 is free. *)
Definition greet : list (RcaSpec.op Z) := [RcaSpec.CtorCstrLen 1 RcaEx.hello 5].
Lemma greet_SR : StreamMeet.SR RcaEx.sdesc 1 9 (RcaEx.st RcaEx.sdesc greet) (StreamModel.Stream 1 2 false) RcaEx.hello 2 (RcaEx.av RcaEx.sdesc greet).
Proof. split; [reflexivity|reflexivity|unfold W64; lia|apply RcaEx.run_reached|exists true; vm_compute; reflexivity|vm_compute; reflexivity]. Qed.
Definition loaded (r : option (list Z)) : option (Z * list (option Z)) :=
  match StreamModel.load_name RcaEx.sdesc (fun _ => false) 9 r (RcaEx.st RcaEx.sdesc greet, StreamModel.Stream 1 2 false) with
  | Ok ret (s, _) => match RcaModel.length_of 1 s with Ok n _ => match RcaModel.load 1 0 n s with Ok v _ => Some (ret, v) | _ => None end | _ => None end
  | _ => None
  end.
(** Stopped in the third call, loaded by the next process. *)
Example C72_reload_ex : exists w, saves (stopping 36) Z.sub true job (start disk) = Stop w /\
  loaded (visible (w_now w) (resolve conf)) = Some (0, map Some (bs "one")).
Proof. eexists. split; [apply stop_eq; run|run]. Qed.

(** C72: a stream saved with success is loaded as it was, into any stream. *)
Theorem C72_roundtrip : forall (mdiff : Z -> Z -> Z), memcmp_ok mdiff -> forall (y : sys) (mm : bool) (f : fs) (l : list saving) fn m rs (w : world),
  forall d, RcaOwn.wf_desc d -> RcaModel.d_nul d = Some 0 -> forall x t x' t', t' <> x' ->
  forall s z a v p s2 z2 a2 v2 p2, StreamMeet.SR d x t s z v p a -> v <> [] -> StreamMeet.SR d x' t' s2 z2 v2 p2 a2 ->
  Forall (fun s => usual_name (fst (fst s))) (l ++ [(fn, m, v)]) ->
  saves y mdiff mm (l ++ [(fn, m, v)]) (start f) = Done (rs ++ [Some true]) w ->
  StreamMeet.wp (StreamModel.load_name d (fun _ => false) t' (visible (w_now w) (resolve fn)))
    (fun r '(s', z') => r = 0 /\ exists a', StreamMeet.SR d x' t' s' z' v 0 a' /\ StreamMeet.keeps x' a2 a')
    (fun e '(s', z') => e = BadAlloc /\ StreamMeet.memlow d (2 * zlen v + 2048)) (s2, z2).
Proof. exact SaveLoad.save_load. Qed.
Print Assumptions C72_roundtrip.
Example C72_roundtrip_ex : exists w, saves calm Z.sub true (job ++ [(conf, 420, RcaEx.hello)]) (start disk) = Done ([Some true; Some true; Some true] ++ [Some true]) w /\
  loaded (visible (w_now w) (resolve conf)) = Some (0, map Some RcaEx.hello) /\
  StreamMeet.SR RcaEx.sdesc 1 9 (RcaEx.st RcaEx.sdesc greet) (StreamModel.Stream 1 2 false) RcaEx.hello 2 (RcaEx.av RcaEx.sdesc greet).
Proof. eexists. split; [apply done_eq; run|]. split; [run|exact greet_SR]. Qed.

(** No room for more than one byte. *)
Definition full : sys := Sys never (fun n => Nat.leb 6 n && Nat.leb n 7) never never pick.
(** C72: a caller who commits without looking at what writeFile returned replaces the file by zero bytes when mmap fails,
    by part of the data when a write fails, and commit returns true. *)
Theorem C72_unchecked_refuted : exists f w1 w2,
  save_unchecked (failing 4) Z.sub true conf 420 (bs "new") (start f) = Done true w1 /\ visible (w_now w1) (resolve conf) = Some [0; 0; 0] /\
  save_unchecked full Z.sub false conf 420 (bs "new") (start f) = Done true w2 /\ visible (w_now w2) (resolve conf) = Some (bs "n") /\
  visible f (resolve conf) = Some (bs "old").
Proof. exists disk. do 2 eexists. split; [apply done_eq; run|]. split; [run|]. split; [apply done_eq; run|]. runs. Qed.
Print Assumptions C72_unchecked_refuted.

(** C72: writeFile with a name instead of an AtomicFile leaves, when the machine stops in it, neither what was there nor
    the data; with mmap it has the length of the data already. *)
Theorem C72_by_name_refuted : exists f w1 w2,
  write_name (stopping 4) true conf 420 (bs "new") (start f) = Stop w1 /\ visible (w_now w1) (resolve conf) = Some (bs "n" ++ [0; 0]) /\
  write_name (stopping 4) false conf 420 (bs "new") (start f) = Stop w2 /\ visible (w_now w2) (resolve conf) = Some (bs "n") /\
  visible f (resolve conf) = Some (bs "old").
Proof. exists disk. do 2 eexists. split; [apply stop_eq; run|]. split; [run|]. split; [apply stop_eq; run|]. runs. Qed.
Print Assumptions C72_by_name_refuted.
