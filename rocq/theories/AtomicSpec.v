(** What a user of AtomicFile relies on: files with contents, what a stop of the process or of the machine leaves behind,
    and the contents a program asks to be put in place. Nothing here refers to the model of AtomicFile. *)
From stdpp Require Import gmap.
From Verif Require Export Base.
Open Scope Z_scope.

(** A path as the kernel sees it: absolute or not, and its components. Empty and "." components mean nothing.
    ".." and symbolic links are taken as ordinary names. *)
Definition slash : Z := 47.
Definition dot : Z := 46.
Fixpoint segments (p : list Z) : list (list Z) :=
  match p with
  | [] => [[]]
  | c :: p' => if c =? slash then [] :: segments p'
               else match segments p' with s :: r => (c :: s) :: r | [] => [[c]] end
  end.
Definition is_name (s : list Z) : bool := match s with [] => false | [c] => negb (c =? dot) | _ => true end.
Definition path := (bool * list (list Z))%type.
Definition absolute (p : list Z) : bool := match p with c :: _ => c =? slash | [] => false end.
Definition resolve (p : list Z) : path := (absolute p, List.filter is_name (segments p)).
(** The directory a path names something in. *)
Definition parent (p : path) : path := (fst p, removelast (snd p)).
(** The bytes of a C string: up to the first NUL. *)
Fixpoint cstr (p : list Z) : list Z := match p with [] => [] | c :: p' => if c =? 0 then [] else c :: cstr p' end.
(** A path that can name a file: what follows the last slash is not empty, "." or "..". *)
Definition last_segment (p : list Z) : list Z := List.last (segments p) [].
Definition file_path (p : list Z) : bool :=
  is_name (last_segment p) && negb (bool_decide (last_segment p = [dot; dot])).

(** Files. [i_synced] tells that the contents are on the disk. *)
Record inode := Inode { i_bytes : list Z; i_mode : Z; i_synced : bool }.
Record fs := Fs { f_names : gmap path N; f_inodes : gmap N inode; f_fds : gmap Z N }.

(** What a process sees at a path. *)
Definition visible (f : fs) (q : path) : option (list Z) :=
  match f_names f !! q with
  | None => None
  | Some i => match f_inodes f !! i with Some n => Some (i_bytes n) | None => None end
  end.
(** What may be found at a path after the machine stopped when the files had gone through [past] to [f]: the name as it
    was at any time, as directories are never synced; a file not synced may have any contents. *)
Definition survives (f : fs) (past : list fs) (q : path) (r : option (list Z)) : Prop :=
  exists g, In g (f :: past) /\
    match f_names g !! q with
    | None => r = None
    | Some i => exists b, r = Some b /\ (forall n, f_inodes f !! i = Some n -> i_synced n = true -> b = i_bytes n)
    end.
(** A file known to be on the disk, or none. *)
Definition on_disk (f : fs) (q : path) : Prop :=
  forall i, f_names f !! q = Some i -> exists n, f_inodes f !! i = Some n /\ i_synced n = true.

(** Programs using one AtomicFile after another. *)
Inductive aop :=
| AOpen (fname : list Z) (mode : Z)
| AWrite (b : list Z)        (* the caller writes to fd() *)
| ACommit
| AAbort
| ADestroy.                  (* the destructor; a new object follows *)
(** The contents each commit of a program is to put in place, with the name given to open. *)
Fixpoint sessions (cur : option (list Z * list Z)) (ops : list aop) : list (list Z * list Z) :=
  match ops with
  | [] => []
  | AOpen fn _ :: r => sessions (Some (fn, [])) r
  | AWrite b :: r => sessions (match cur with Some (fn, w) => Some (fn, w ++ b) | None => None end) r
  | ACommit :: r => match cur with Some s => s :: sessions None r | None => sessions None r end
  | AAbort :: r | ADestroy :: r => sessions None r
  end.
(** The file is not opened again before commit, abort or destruction. *)
Fixpoint bracketed (opened : bool) (ops : list aop) : bool :=
  match ops with
  | [] => true
  | AOpen _ _ :: r => negb opened && bracketed true r
  | AWrite _ :: r => bracketed opened r
  | _ :: r => bracketed false r
  end.
(** The file is closed at the end. *)
Fixpoint closed_at_end (opened : bool) (ops : list aop) : bool :=
  match ops with
  | [] => negb opened
  | AOpen _ _ :: r => closed_at_end true r
  | AWrite _ :: r => closed_at_end opened r
  | _ :: r => closed_at_end false r
  end.

(** System calls made. *)
Inductive call := CMkstemp | CWrite | CFchmod | CFsync | CClose | CRename | CUnlink (p : list Z)
  | CTruncate | CMmap | CMunmap | CDup | CFdopen | COpen.

(** A name AtomicFile is meant to be used with: bytes without NUL, short enough, naming a file. *)
Definition usual_name (fn : list Z) : Prop :=
  Forall (fun c => 0 < c < 256) fn /\ zlen fn < 4086 /\ file_path fn = true.
(** The paths a temporary file for [fn] may have: in the same directory, six characters appended to the name. *)
Definition temp_path (fn : list Z) (p : path) : Prop :=
  exists dir base suf, resolve fn = (absolute fn, dir ++ [base]) /\ zlen suf = 6 /\
    (p = (absolute fn, dir ++ [base ++ dot :: suf]) \/ p = (absolute fn, dir ++ [dot :: base ++ dot :: suf])).
(** What may be at [q]: what was there before, or the complete contents of a commit to it. *)
Definition old_or_new (f : fs) (ops : list aop) (q : path) (r : option (list Z)) : Prop :=
  r = visible f q \/ exists fn b, In (fn, b) (sessions None ops) /\ resolve (cstr fn) = q /\ r = Some b.
