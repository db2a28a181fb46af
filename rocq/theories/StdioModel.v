(** Model of Stream::loadFile and Stream::writeFile as compiled without HAVE_MMAP (Stream.cpp:126-150 and
    182-198): a duplicated descriptor wrapped in a FILE, read in blocks and written at once. On top of
    the model of Stream; the state additionally counts the descriptors the process has open.
    Simplified: a descriptor open for appending is not modelled; of a FILE only what reaches the file is
    modelled; what fclose returns is ignored, as in the code. *)
From Verif Require Import RcaSpec RcaModel RcaExec StreamSpec StreamModel.
Open Scope Z_scope.

(** What a descriptor being read refers to: the bytes, whether it can be repositioned (a pipe cannot; its
    bytes are those still to come), and after how many bytes reading fails, if it does. *)
Record source := Source { src_data : list Z; src_seekable : bool; src_error : option Z }.
(** What a descriptor being written refers to: the bytes, the position, and how many bytes the device
    still takes, if that is limited. *)
Record sink := Sink { snk_data : list Z; snk_pos : Z; snk_room : option Z }.

Notation MK := (M ((state Z * stream) * Z)).

Section Stdio.
Variable d : desc Z.
Inductive kcall := Dup | Fdopen | KOpenRead | KOpenWrite.
Variable fails : kcall -> bool.

(** A call on the stream. *)
Definition on {A} (m : M (state Z * stream) A) : MK A := fun '(s, n) =>
  match m s with
  | Ok v s' => Ok v (s', n)
  | Exn e s' => Exn e (s', n)
  | Term => Term
  | Fuel => Fuel
  | Undef u => Undef u
  end.
(** One descriptor more or less. *)
Definition opened : MK unit := fun '(s, n) => Ok tt (s, n + 1).
Definition closed : MK unit := fun '(s, n) => Ok tt (s, n - 1).

(** The bytes fread can still deliver; fread does not come back with less than asked for unless the end
    or an error is reached. *)
Definition readable (f : source) : list Z :=
  match src_error f with None => src_data f | Some k => ztake k (src_data f) end.
(** The loop, Stream.cpp:144-149: buf has STREAM_BLOCKSIZE + 1 bytes of which the last is not used. *)
Fixpoint fread_loop (fuel : nat) (t : positive) (rest : list Z) : M (state Z * stream) unit :=
  match fuel with
  | O => fun _ => Fuel
  | S fuel' =>
    let buf := ztake 1024 rest in
    let len := zlen buf in
    if len =? 0 then ret tt else
    call d (CtorCstrLen t buf len) ;;;
    with_local d t (puts d true t) ;;; call d (Destroy t) ;;;
    fread_loop fuel' t (zdrop 1024 rest)
  end.
(** ftell, Stream.cpp:140: -1 if the descriptor cannot be repositioned, converted to size_t. *)
Definition ftell_end (f : source) : Z := u64 (if src_seekable f then zlen (src_data f) else -1).

(** loadFile(fd), Stream.cpp:108-110, 126-154. *)
Definition load_stdio (t : positive) (f : source) : MK Z :=
  on (sclear d) ;;;
  if fails Dup then ret 1 else
  opened ;;;
  if fails Fdopen then closed ;;; ret 1 else
  on (set_loading true) ;;;
  on (sreserve d (ftell_end f)) ;;;
  on (fread_loop (S (length (readable f))) t (readable f)) ;;;
  closed ;;;
  let* _ := on (seek 0 0) in
  on (set_loading false) ;;;
  ret 0.
(** loadFile(name), Stream.cpp:98-106. *)
Definition load_stdio_name (t : positive) (f : option source) : MK Z :=
  match f with
  | None => ret 1
  | Some f =>
    if fails KOpenRead then ret 1 else
    opened ;;;
    let* r := load_stdio t f in
    closed ;;;
    ret r
  end.

(** What the file holds after [w] was written at the position; a gap is filled with zero bytes. *)
Definition written (f : sink) (w : list Z) : list Z :=
  if zlen w =? 0 then snk_data f else
  ztake (snk_pos f) (snk_data f) ++ zrep (snk_pos f - zlen (snk_data f)) 0 ++ w ++ zdrop (snk_pos f + zlen w) (snk_data f).
Definition taken (f : sink) (w : list Z) : list Z :=
  match snk_room f with None => w | Some k => ztake k w end.

(** writeFile(fd) const, Stream.cpp:166-167, 182-200: the result and the new contents. Whether it is
    fwrite or fflush that notices a full device makes no difference. *)
Definition write_stdio (f : sink) : MK (Z * list Z) :=
  if fails Dup then ret (1, snk_data f) else
  opened ;;;
  if fails Fdopen then closed ;;; ret (1, snk_data f) else
  let* n := on slength in
  let* x := on str in
  let* v := on (str_call (load x 0 n)) in
  match bytes v with
  | None => undef UbIndet
  | Some l =>
    closed ;;;
    ret (if zlen (taken f l) =? n then 0 else 1, written f (taken f l))
  end.
(** writeFile(name, mode) const, Stream.cpp:156-164: O_CREAT|O_RDWR|O_TRUNC. *)
Definition write_stdio_name (file : option (list Z)) (room : option Z) : MK (Z * option (list Z)) :=
  if fails KOpenWrite then ret (1, file) else
  opened ;;;
  let* r := write_stdio (Sink [] 0 room) in
  closed ;;;
  ret (fst r, Some (snd r)).
End Stdio.
