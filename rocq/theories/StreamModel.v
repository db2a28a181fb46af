(** Model of Stream (Stream.h, Stream.cpp) on top of the heap model of String. A Stream is a String
    variable and a cursor. Calls on the String member are the modelled String functions ([exec]).
    Simplified: virtual dispatch (a plain Stream, no derived class), operator>> does not exist, the
    stdio branch used without mmap is in StdioModel. Results of type String are constructed in a
    variable chosen by the caller; temporaries in a variable [t] not otherwise in use. *)
From Verif Require Import RcaSpec RcaModel RcaExec StreamSpec.
Open Scope Z_scope.

(** Stream.h:49-53. *)
Record stream := Stream { s_str : positive; s_pos : Z; s_load : bool }.

Section Stream.
Variable d : desc Z.
Notation MS := (M (state Z * stream)).
Notation Mm := (M (state Z)).

(** A String call made by Stream. *)
Definition str_call {A} (m : Mm A) : MS A := fun '(s, z) =>
  match m s with
  | Ok v s' => Ok v (s', z)
  | Exn e s' => Exn e (s', z)
  | Term => Term
  | Fuel => Fuel
  | Undef u => Undef u
  end.
Definition call (o : op Z) : MS unit := str_call (exec d o) ;;; ret tt.
Definition str : MS positive := fun '(s, z) => Ok (s_str z) (s, z).
(** tell(), Stream.h:88-90. *)
Definition tell : MS Z := fun '(s, z) => Ok (s_pos z) (s, z).
Definition set_pos (p : Z) : MS unit := fun '(s, z) => Ok tt (s, Stream (s_str z) p (s_load z)).
Definition set_loading (b : bool) : MS unit := fun '(s, z) => Ok tt (s, Stream (s_str z) (s_pos z) b).
(** length() and capacity(), Stream.h:182-187. *)
Definition slength : MS Z := let* x := str in str_call (length_of x).
Definition scapacity : MS Z := let* x := str in str_call (capacity x).
(** A local String [z] is destroyed when an exception leaves its scope. *)
Definition with_local {A} (z : positive) (m : MS A) : MS A := fun s =>
  match m s with
  | Exn e s' => match call (Destroy z) s' with
                | Ok _ s'' => Exn e s''
                | Exn _ _ => Term
                | Term => Term | Fuel => Fuel | Undef u => Undef u
                end
  | r => r
  end.

(** reserve(n), Stream.cpp:43-47. *)
Definition sreserve (n : Z) : MS unit :=
  let* c := scapacity in
  if n <? c then ret tt else
  let* x := str in
  str_call (v_reserve d x (u64 (1024 * (u64 (n + 1024 - 1) / 1024))) (fun z => z)).

(** truncate(), Stream.h:95: str(0, pos) makes a Slice, converted to a String (a copy that is then
    sliced, ReferenceCountedArray.h:173-177), which is move-assigned. *)
Definition truncate (t : positive) : MS unit :=
  let* x := str in
  let* p := tell in
  call (CtorCopy t x) ;;;
  call (SliceTo t 0 (s64 p)) ;;;
  call (AssignMove x t) ;;;
  call (Destroy t).
(** peek(), Stream.h:97. *)
Definition peek (z : positive) : MS unit :=
  let* x := str in
  let* p := tell in
  call (CtorCopy z x) ;;; call (SliceTo z (s64 p) (-1)).

(** seek(offset, whence), Stream.cpp:49-72; SEEK_SET 0, SEEK_CUR 1, SEEK_END 2. *)
Definition seek (offset whence : Z) : MS Z :=
  let* p := tell in
  let* c := scapacity in
  let newpos := if whence =? 0 then offset
                else if whence =? 1 then i32 (u64 (p + u64 offset))
                else if whence =? 2 then i32 (u64 (c - u64 offset))
                else i32 p in
  let newpos := if newpos <? 0 then 0
                else if c <? newpos then i32 c
                else newpos in
  set_pos (u64 newpos) ;;; ret newpos.

(** clear(), Stream.h:102. *)
Definition sclear : MS unit := let* x := str in call (Clear x) ;;; set_pos 0.

(** puts(const String&) and puts(String&&), Stream.h:108-111 and 117-121; the String passed is variable [y]. *)
Definition puts (mv : bool) (y : positive) : MS unit :=
  let* x := str in
  let* p := tell in
  if mv then
    let* n := str_call (length_of y) in
    call (ReplaceN true x p y npos) ;;;
    set_pos (u64 (p + n))
  else
    call (ReplaceN false x p y npos) ;;;
    let* n := str_call (length_of y) in
    set_pos (u64 (p + n)).

(** read(maxSize, delim), Stream.cpp:74-96, the result being constructed in [z]. *)
Fixpoint read_loop (fuel : nat) (z : positive) (toRead delim : Z) : MS unit :=
  match fuel with
  | O => fun _ => Fuel
  | S fuel' =>
    let* n := str_call (length_of z) in
    if n <? toRead then
      let* x := str in
      let* p := tell in
      let* c := str_call (read x p) in
      if c =? delim then ret tt
      else
        set_pos (u64 (p + 1)) ;;;           (* str[pos++] *)
        call (AppendItem z c) ;;;
        read_loop fuel' z toRead delim
    else ret tt
  end.
Definition sread (z : positive) (maxSize delim : Z) : MS unit :=
  let* x := str in
  let* p := tell in
  let* len := slength in
  let toRead := Z.min maxSize (u64 (len - p)) in                         (* 75 *)
  if delim =? 0 then
    call (CtorCopy z x) ;;; call (SliceTo z (s64 p) (s64 toRead)) ;;;    (* 79 *)
    set_pos (u64 (p + toRead))
  else
    call (CtorSized z toRead) ;;;                                        (* 85 *)
    with_local z
      (read_loop (S (Z.to_nat toRead)) z toRead delim ;;;
       let* p := tell in
       let* n := slength in
       if p <? n then                                                    (* 90-93 *)
         let* c := str_call (read x p) in
         if c =? delim then call (AppendItem z delim) ;;; set_pos (u64 (p + 1))
         else ret tt
       else ret tt).
(** getline(maxSize = 99999999), Stream.h:129-131; newline is 10. *)
Definition getline (z : positive) (maxSize : Z) : MS unit :=
  let* len := slength in
  let* p := tell in
  sread z (if maxSize =? 99999999 then u64 (len - p) else maxSize) 10.

(** operator String, Stream.h:179-181. *)
Definition to_string (z : positive) : MS unit := let* x := str in call (CtorCopy z x).
End Stream.

(** Files. A file is its bytes; each system call that can fail does so as an oracle says. *)
Section File.
Variable d : desc Z.
Notation MS := (M (state Z * stream)).

Inductive scall := Lseek | MmapRead | Ftruncate | MmapWrite | Munmap | OpenRead | OpenWrite.
Variable fails : scall -> bool.

(** loadFile(fd), Stream.cpp:108-154 with HAVE_MMAP; [file] is what the descriptor refers to. mmap of
    length 0 fails (EINVAL). The mapping is read-only memory holding the file. *)
Definition load_fd (t : positive) (file : list Z) : MS Z :=
  sclear d ;;;
  if fails Lseek then ret 1 else
  let size := zlen file in
  sreserve d size ;;;
  if fails MmapRead || (size =? 0) then ret 1 else
  set_loading true ;;;
  call d (CtorCstrLen t file size) ;;;
  with_local d t (puts d true t) ;;; call d (Destroy t) ;;;
  let* _ := seek 0 0 in
  set_loading false ;;;
  ret 0.
(** loadFile(name), Stream.cpp:98-106; [None] is a file that does not exist. *)
Definition load_name (t : positive) (file : option (list Z)) : MS Z :=
  match file with
  | None => ret 1
  | Some f => if fails OpenRead then ret 1 else load_fd t f
  end.

(** writeFile(fd) const, Stream.cpp:166-200 with HAVE_MMAP: returns the result and the new contents of
    the file. ftruncate sets the length, extending with zero bytes; the stores go to a shared mapping. *)
Definition ftrunc (n : Z) (f : list Z) : list Z := ztake n f ++ zrep (n - zlen f) 0.
Fixpoint bytes (v : list (option Z)) : option (list Z) :=
  match v with
  | [] => Some []
  | Some c :: v' => match bytes v' with Some l => Some (c :: l) | None => None end
  | None :: _ => None
  end.
Definition write_fd (file : list Z) : MS (Z * list Z) :=
  let* n := slength in
  if fails Ftruncate then ret (1, file) else
  let file := ftrunc n file in
  if n =? 0 then ret (0, file) else
  if fails MmapWrite then ret (1, file) else
  let* x := str in
  let* v := str_call (load x 0 n) in
  match bytes v with
  | None => undef UbIndet        (* copies bytes nobody has written *)
  | Some l => ret (if fails Munmap then 1 else 0, l)
  end.
(** writeFile(name, mode) const, Stream.cpp:156-164: O_CREAT|O_RDWR|O_TRUNC. *)
Definition write_name (file : option (list Z)) : MS (Z * option (list Z)) :=
  if fails OpenWrite then ret (1, file) else
  let* r := write_fd [] in ret (fst r, Some (snd r)).
End File.

(** A caller working through a list of calls, catching exceptions. Strings it passes live in [t] for the
    duration of the call, as do Strings it gets back. *)
Section Caller.
Variable d : desc Z.
Variable t : positive.
Notation MS := (M (state Z * stream)).
Definition take_bytes : MS sout :=
  let* n := str_call (length_of t) in
  let* v := str_call (load t 0 n) in
  call d (Destroy t) ;;;
  match bytes v with Some l => ret (RBytes l) | None => undef UbIndet end.
Definition srun (o : sop) : MS sout :=
  match o with
  | SPuts mv w =>
    call d (CtorCstrLen t w (zlen w)) ;;;
    with_local d t (puts d mv t) ;;; call d (Destroy t) ;;; ret RNone
  | SSeek off wh => let* r := seek off wh in ret (RInt r)
  | STell => let* r := tell in ret (RInt r)
  | SLength => let* r := slength in ret (RInt r)
  | STruncate => truncate d t ;;; ret RNone
  | SPeek => peek d t ;;; take_bytes
  | SRead n delim => sread d t n delim ;;; take_bytes
  | SGetline n => getline d t n ;;; take_bytes
  | SString => to_string d t ;;; take_bytes
  | SClear => sclear d ;;; ret RNone
  end.
(** Stream::capacity() before a seek. *)
Definition saw (o : sop) (st : state Z * stream) : list sobs :=
  match o with
  | SSeek _ _ => match scapacity st with Ok c _ => [SoCap c] | _ => [SoCrash] end
  | _ => []
  end.
Fixpoint sobserve (ops : list sop) (st : state Z * stream) : list sobs :=
  match ops with
  | [] => []
  | o :: ops' =>
    saw o st ++ match srun o st with
    | Ok r st' => SoRet r :: sobserve ops' st'
    | Exn e st' => SoThrow e :: sobserve ops' st'
    | _ => [SoCrash]
    end
  end.
(** while (stream.tell() < stream.length()) ls.push_back(stream.get()); *)
Fixpoint read_all (fuel : nat) (get : sop) : MS (list (list Z)) :=
  match fuel with
  | O => fun _ => Fuel
  | S fuel' =>
    let* p := tell in
    let* n := slength in
    if p <? n then
      let* r := srun get in
      match r with
      | RBytes l => let* ls := read_all fuel' get in ret (l :: ls)
      | _ => undef UbIndet
      end
    else ret []
  end.
End Caller.
