(** Model of AtomicFile (AtomicFile.h, AtomicFile.cpp) and of the system calls it makes. Every call may fail, and the
    machine may stop before every call. Simplified: the String members are their bytes (heap properties of String are
    C01-C17), running out of memory in open is an exception at one of two points, other processes do not touch the files,
    directories are not represented (calls failing because of them are failing calls), the caller writes to fd() byte by
    byte and appends. *)
From stdpp Require Import gmap.
From Verif Require Import Base StrModel AtomicSpec.
Open Scope Z_scope.

(** AtomicFile.h:41-44. *)
Record afile := AFile { a_fname : chars; a_tmp : chars; a_fd : Z; a_mode : Z }.
Definition no_mode : Z := 4294967295. (* mode_t(-1) *)
Definition new_afile : afile := AFile [] [] (-1) no_mode.

Record world := World { w_now : fs; w_past : list fs; w_tick : nat; w_log : list (call * bool); w_obj : afile }.
Definition start (f : fs) : world := World f [] O [] new_afile.

(** What the kernel does at each call: stop the machine, fail, keep the descriptor when close fails, run out of memory,
    and what mkstemp picks: six characters, a descriptor and an inode. *)
Record sys := Sys {
  y_stop : nat -> bool; y_fail : nat -> bool; y_keep : nat -> bool; y_oom : nat -> bool;
  y_pick : nat -> chars * Z * N }.

Inductive out A := Done (a : A) (w : world) | Threw (w : world) | Stop (w : world) | Bad (u : ub).
Arguments Done {A}. Arguments Threw {A}. Arguments Stop {A}. Arguments Bad {A}.
Definition K A := world -> out A.
Definition kret {A} (a : A) : K A := fun w => Done a w.
Definition kbind {A B} (m : K A) (k : A -> K B) : K B := fun w =>
  match m w with Done a w' => k a w' | Threw w' => Threw w' | Stop w' => Stop w' | Bad u => Bad u end.
Notation "'let!' x ':=' m 'in' k" := (kbind m (fun x => k)) (at level 200, x name, right associativity).

Section Atomic.
Variable y : sys.
Variable mdiff : Z -> Z -> Z.

(** A system call. [eff] is its effect, given whether it is to fail. *)
Definition kernel (c : call) (eff : bool -> fs -> bool * fs) : K bool := fun w =>
  let n := w_tick w in
  if y_stop y n then Stop w else
  let '(r, f) := eff (y_fail y n) (w_now w) in
  Done r (World f (w_now w :: w_past w) (S n) ((c, r) :: w_log w) (w_obj w)).

Definition obj : K afile := fun w => Done (w_obj w) w.
Definition set_obj (o : afile) : K unit := fun w => Done tt (World (w_now w) (w_past w) (w_tick w) (w_log w) o).
(** A String function; what it throws leaves the object as it is. *)
Definition pure {A} (m : Mv A) : K A := fun w =>
  match m tt with Ok a _ => Done a w | Exn _ _ => Threw w | Undef u => Bad u | Term | Fuel => Bad UbRaw end.
Definition memory : K unit := fun w =>
  let w' := World (w_now w) (w_past w) (S (w_tick w)) (w_log w) (w_obj w) in
  if y_oom y (w_tick w) then Threw w' else Done tt w'.

(** Descriptors: negative ones never exist. *)
Definition open_fd (f : fs) (fd : Z) : option N := if fd <? 0 then None else f_fds f !! fd.
Definition upd_inode (fd : Z) (g : inode -> inode) (fail : bool) (f : fs) : bool * fs :=
  match open_fd f fd with
  | None => (false, f)
  | Some i =>
    if fail then (false, f) else
    match f_inodes f !! i with
    | Some n => (true, Fs (f_names f) (<[i := g n]> (f_inodes f)) (f_fds f))
    | None => (false, f)
    end
  end.
Definition write_byte (fd c : Z) : K bool :=
  kernel CWrite (fun _ => upd_inode fd (fun n => Inode (i_bytes n ++ [c]) (i_mode n) false) false).
Definition fchmod (fd mode : Z) : K bool :=
  kernel CFchmod (upd_inode fd (fun n => Inode (i_bytes n) mode (i_synced n))).
Definition fsync (fd : Z) : K bool :=
  kernel CFsync (upd_inode fd (fun n => Inode (i_bytes n) (i_mode n) true)).
Definition close_fd (fd : Z) (keep fail : bool) (f : fs) : bool * fs :=
  match open_fd f fd with
  | None => (false, f)
  | Some _ => (negb fail, if fail && keep then f else Fs (f_names f) (f_inodes f) (delete fd (f_fds f)))
  end.
Definition close (fd : Z) : K bool := fun w => kernel CClose (close_fd fd (y_keep y (w_tick w))) w.
Definition unlink (p : chars) : K bool :=
  kernel (CUnlink p) (fun fail f =>
    match f_names f !! resolve p with
    | Some _ => if fail || negb (file_path p) then (false, f)
                else (true, Fs (delete (resolve p) (f_names f)) (f_inodes f) (f_fds f))
    | None => (false, f)
    end).
Definition rename (p q : chars) : K bool :=
  kernel CRename (fun fail f =>
    match f_names f !! resolve p with
    | Some i => if fail || negb (file_path p) || negb (file_path q) then (false, f)
                else (true, Fs (<[resolve q := i]> (delete (resolve p) (f_names f))) (f_inodes f) (f_fds f))
    | None => (false, f)
    end).
(** mkstemp(3) on a template: the last six characters must be X and are replaced, whether or not a file is created. *)
Definition xs : chars := [88; 88; 88; 88; 88; 88].
Definition name_char (c : Z) : bool := negb (c =? 0) && negb (c =? slash).
Definition with_suffix (t suf : chars) : chars := ztake (zlen t - 6) t ++ suf.
Definition mkstemp (t : chars) : K (Z * chars) := fun w =>
  let '(suf, fd, i) := y_pick y (w_tick w) in
  let c := cstr t in
  if negb (bool_decide (zdrop (zlen c - 6) c = xs)) || negb ((zlen suf =? 6) && forallb name_char suf)
  then (let! r := kernel CMkstemp (fun _ f => (false, f)) in kret (-1, t)) w
  else
  let p := with_suffix c suf in
  (let! r := kernel CMkstemp (fun fail f =>
    match f_names f !! resolve p, f_inodes f !! i, open_fd f fd with
    | None, None, None =>
      if fail || (fd <? 0) || negb (file_path p) then (false, f)
      else (true, Fs (<[resolve p := i]> (f_names f)) (<[i := Inode [] 384 false]> (f_inodes f)) (<[fd := i]> (f_fds f)))
    | _, _, _ => (false, f)
    end) in
  kret (if (r : bool) then fd else -1, p ++ zdrop (zlen c) t)) w.

(** The template made by open, AtomicFile.cpp:44-56. *)
Definition template (fname : chars) : Mv chars :=
  let* p := rfind mdiff fname [slash] 0 in
  let none := p =? npos in
  let slash_pos := if none then 0 else p in
  let* dir := if none then ret [dot; slash] else substr fname 0 (slash_pos + 1) in
  let* rest := substr fname slash_pos (-1) in
  printf (cstr dir ++ [dot] ++ cstr rest ++ [dot] ++ xs).
(** is_open, AtomicFile.h:69-71. *)
Definition is_open (o : afile) : bool := negb (a_fd o =? -1).
(** fd, AtomicFile.h:77-79. *)
Definition fd (o : afile) : Z := if is_open o then a_fd o else -1.
(** AtomicFile::open, AtomicFile.cpp:37-64. *)
Definition aopen (fname : chars) (mode : Z) : K bool :=
  let! o := obj in
  let! _ := set_obj (AFile fname (a_tmp o) (a_fd o) mode) in
  let! _ := memory in
  let! t := pure (template fname) in
  let! _ := set_obj (AFile fname t (a_fd o) mode) in
  let! _ := memory in
  let! r := mkstemp t in
  let! _ := set_obj (AFile fname (snd r) (fst r) mode) in
  kret (is_open (AFile fname (snd r) (fst r) mode)).
(** AtomicFile::abort, AtomicFile.cpp:66-74. *)
Definition aabort : K bool :=
  let! o := obj in
  if negb (is_open o) then kret false else
  let! _ := unlink (cstr (a_tmp o)) in
  let! _ := close (a_fd o) in
  let! _ := set_obj (AFile (a_fname o) (a_tmp o) (-1) (a_mode o)) in
  kret true.
(** AtomicFile::commit, AtomicFile.cpp:76-103; [cleanup] is its label. *)
Definition cleanup (remove_temp result : bool) : K bool :=
  let! o := obj in
  let! _ := (if remove_temp then unlink (cstr (a_tmp o)) else kret true) in
  let! _ := set_obj (AFile (a_fname o) (a_tmp o) (-1) (a_mode o)) in
  kret result.
Definition commit : K bool :=
  let! o := obj in
  let! ok := (if a_mode o =? no_mode then kret true else fchmod (a_fd o) (a_mode o)) in
  if negb ok then cleanup true false else
  let! ok := fsync (a_fd o) in
  if negb ok then cleanup true false else
  let! ok := close (a_fd o) in
  if negb ok then cleanup true false else
  let! ok := rename (cstr (a_tmp o)) (cstr (a_fname o)) in
  if negb ok then cleanup true false else
  cleanup false true.
(** ~AtomicFile, AtomicFile.h:50-54. *)
Definition adestroy : K bool :=
  let! o := obj in
  let! r := (if is_open o then aabort else kret true) in
  let! _ := set_obj new_afile in
  kret r.

(** The caller writing to fd(). *)
Fixpoint awrite (b : chars) : K bool :=
  match b with
  | [] => kret true
  | c :: b' => let! o := obj in let! _ := write_byte (fd o) c in awrite b'
  end.
Definition astep (o : aop) : K bool :=
  match o with
  | AOpen fn m => aopen fn m
  | AWrite b => awrite b
  | ACommit => commit
  | AAbort => aabort
  | ADestroy => adestroy
  end.
(** A program; the caller goes on after an exception. The results of the calls are returned, None for an exception. *)
Fixpoint arun (ops : list aop) : K (list (option bool)) := fun w =>
  match ops with
  | [] => Done [] w
  | o :: r =>
    match astep o w with
    | Done b w' => match arun r w' with Done l w'' => Done (Some b :: l) w'' | x => x end
    | Threw w' => match arun r w' with Done l w'' => Done (None :: l) w'' | x => x end
    | Stop w' => Stop w'
    | Bad u => Bad u
    end
  end.
End Atomic.

(** The files after a run, whether it came to its end or the machine stopped. *)
Definition ended {A} (r : out A) (w : world) : Prop := r = Stop w \/ exists a, r = Done a w.
