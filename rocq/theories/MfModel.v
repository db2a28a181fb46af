(** Model of programs with several Streams, Strings and files: Stream::loadFile and Stream::writeFile by name, on top of
    MstModel and of the file functions in StreamModel (with mmap) and StdioModel (without). The name of the file is what
    open(2) reads at file.c_str(). Simplified: two names are the same file only if they are the same bytes; files are regular;
    what system calls do is in [world], chosen anew for every call; a file is smaller than 2^63 bytes. *)
From stdpp Require Import gmap.
From Verif Require Import RcaSpec RcaModel RcaExec StreamSpec StreamModel StdioModel MstSpec MstModel MfSpec.
Open Scope Z_scope.

(** Which system calls fail; after how many bytes reading fails; how much room there is on the device. *)
Record world := World { x_mmap : scall -> bool; x_stdio : kcall -> bool; x_err : option Z; x_room : option Z }.
Section Mf.
Variable d : desc Z.
Variable t : positive.
(** HAVE_MMAP. *)
Variable mm : bool.
Notation streams := (gmap positive stream).
Notation fstate := ((state Z * streams) * (files * Z))%type.
Notation MF := (M fstate).

(** A call that is not about files. *)
Definition below {A} (f : M (state Z * streams) A) : MF A := fun '(st, w) =>
  match f st with
  | Ok v st' => Ok v (st', w)
  | Exn e st' => Exn e (st', w)
  | Term => Term
  | Fuel => Fuel
  | Undef u => Undef u
  end.
(** A member function of Stream [k] that opens and closes descriptors. *)
Definition at_desc {A} (k : positive) (f : MK A) : MF A := fun '((s, zs), (fs, n)) =>
  match zs !! k with
  | None => Undef UbDeadVar
  | Some z =>
    match f ((s, z), n) with
    | Ok v ((s', z'), n') => Ok v ((s', <[k := z']> zs), (fs, n'))
    | Exn e ((s', z'), n') => Exn e ((s', <[k := z']> zs), (fs, n'))
    | Term => Term
    | Fuel => Fuel
    | Undef u => Undef u
    end
  end.
Definition look (p : list Z) : MF (option (list Z)) := fun '(st, (fs, n)) => Ok (fs !! p) (st, (fs, n)).
Definition put_file (p : list Z) (c : option (list Z)) : MF unit := fun '(st, (fs, n)) =>
  Ok tt (st, (match c with Some l => <[p := l]> fs | None => delete p fs end, n)).

(** The bytes at the pointer up to the first NUL. *)
Fixpoint path_at (b : list (option Z)) : option (list Z) :=
  match b with
  | Some c :: b' => if c =? 0 then Some [] else match path_at b' with Some p => Some (c :: p) | None => None end
  | _ => None
  end.
(** file.c_str(), Stream.cpp:100 and 158. *)
Definition path_of (guess : bool) (y : positive) : MF (list Z) :=
  let* r := below (ucall d (CStr guess y)) in
  match r with
  | OMem b => match path_at b with Some p => ret p | None => undef UbIndet end
  | _ => undef UbIndet
  end.
(** loadFile(file) with HAVE_MMAP on a file that is there, Stream.cpp:98-106: open, loadFile(fd), close. *)
Definition load_mm (x : world) (f : list Z) : MK Z :=
  if x_mmap x OpenRead then ret 1 else
  opened ;;;
  let* r := StdioModel.on (load_fd d (x_mmap x) t f) in
  closed ;;;
  ret r.
(** loadFile(file), Stream.cpp:98-106. *)
Definition load_file (x : world) (guess : bool) (k y : positive) : MF Z :=
  let* p := path_of guess y in
  let* f := look p in
  match f with
  | None => ret 1
  | Some f => at_desc k (if mm then load_mm x f else load_stdio_name d (x_stdio x) t (Some (Source f true (x_err x))))
  end.
(** writeFile(file, mode) const with HAVE_MMAP, Stream.cpp:156-164. *)
Definition write_mm (x : world) (f : option (list Z)) : MK (Z * option (list Z)) :=
  if x_mmap x OpenWrite then ret (1, f) else
  opened ;;;
  let* r := StdioModel.on (write_fd (x_mmap x) []) in
  closed ;;;
  ret (fst r, Some (snd r)).
(** writeFile(file, mode) const, Stream.cpp:156-164. *)
Definition write_file (x : world) (guess : bool) (k y : positive) : MF Z :=
  let* p := path_of guess y in
  let* f := look p in
  let* r := at_desc k (if mm then write_mm x f else write_stdio_name (x_stdio x) f (x_room x)) in
  put_file p (snd r) ;;;
  ret (fst r).

Definition fexec (x : world) (o : fop) : MF mout :=
  match o with
  | FDo o => below (mexec d t o)
  | FLoad g k y => let* r := load_file x g k y in ret (MInt r)
  | FSave g k y => let* r := write_file x g k y in ret (MInt r)
  | FOutside p c => put_file p c ;;; ret MNone
  end.
(** A program: calls in order, exceptions being caught; it asks for the capacity before each seek. *)
Definition fsaw (o : fop) (st : fstate) : list mobs := match o with FDo o => msaw o (fst st) | _ => [] end.
Fixpoint fobserve (ops : list (world * fop)) (st : fstate) : list mobs :=
  match ops with
  | [] => []
  | (x, o) :: ops' =>
    fsaw o st ++ match fexec x o st with
    | Ok r st' => BRet r :: fobserve ops' st'
    | Exn e st' => BThrow e :: fobserve ops' st'
    | Term => [BTerm]
    | Fuel => [BFuel]
    | Undef u => [BUndef u]
    end
  end.
End Mf.
