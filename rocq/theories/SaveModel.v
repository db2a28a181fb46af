(** Model of saving a Stream through an AtomicFile: Stream::writeFile on the descriptor of an AtomicFile, on top of the
    model of AtomicFile and its system calls. Every call may fail and the machine may stop before every call and before
    every byte that memcpy stores in the mapping; a store the device has no room for kills the process, which is a stop.
    Simplified: the Stream is its data (C40 and C59 show on the heap model that it is what the String member holds and
    that writing leaves it alone), memcpy stores in ascending order, the descriptor is at the end of the file when the
    variant without mmap writes, as it is after open. *)
From stdpp Require Import gmap.
From Verif Require StreamModel.
From Verif Require Import Base StrModel SaveSpec AtomicModel.
Open Scope Z_scope.

Section Save.
Variable y : sys.
Variable mdiff : Z -> Z -> Z.
Variable have_mmap : bool.

(** Changing the contents behind a descriptor. *)
Definition new_bytes (g : chars -> chars) (n : inode) : inode := Inode (g (i_bytes n)) (i_mode n) false.
(** ftruncate(2): the length is set, zero bytes fill a gap. *)
Definition ftruncate (fd n : Z) : K bool := kernel y CTruncate (upd_inode fd (new_bytes (StreamModel.ftrunc n))).
(** A call without an effect on files, mmap(2), munmap(2) and fdopen(3). *)
Definition plain (c : call) : K bool := kernel y c (fun fail f => (negb fail, f)).
(** A store of one byte into a shared mapping. *)
Definition poke (fd i c : Z) : K bool := kernel y CWrite (fun _ => upd_inode fd (new_bytes (zupd i [c])) false).
Fixpoint memcpy (fd i : Z) (b : chars) : K unit :=
  match b with
  | [] => kret tt
  | c :: b' => let! _ := poke fd i c in memcpy fd (i + 1) b'
  end.
(** writeFile(fd) const with HAVE_MMAP, Stream.cpp:166-181. True is the return value 0. *)
Definition write_mmap (fd : Z) (b : chars) : K bool :=
  let! ok := ftruncate fd (zlen b) in
  if negb ok then kret false else
  if zlen b =? 0 then kret true else
  let! ok := plain CMmap in
  if negb ok then kret false else
  let! _ := memcpy fd 0 b in
  plain CMunmap.

(** dup(2). *)
Definition dup (fd : Z) : K Z := fun w =>
  let '(_, k, _) := y_pick y (w_tick w) in
  (let! r := kernel y CDup (fun fail f =>
    match open_fd f fd, open_fd f k with
    | Some i, None => if fail || (k <? 0) then (false, f) else (true, Fs (f_names f) (f_inodes f) (<[k := i]> (f_fds f)))
    | _, _ => (false, f)
    end) in
  kret (if (r : bool) then k else -1)) w.
(** What fwrite(3) and fflush(3) give to the kernel, up to the first error; the rest is returned. *)
Fixpoint fwrite (fd : Z) (b : chars) : K chars :=
  match b with
  | [] => kret []
  | c :: b' =>
    let! ok := kernel y CWrite (upd_inode fd (new_bytes (fun l => l ++ [c]))) in
    if negb ok then kret b else fwrite fd b'
  end.
(** fclose(3) tries to write what is left, and closes the descriptor. *)
Definition fclose (fd : Z) (rest : chars) : K bool := let! _ := fwrite fd rest in close y fd.
(** writeFile(fd) const without HAVE_MMAP, Stream.cpp:166-167, 182-200. *)
Definition write_stdio (fd : Z) (b : chars) : K bool :=
  let! k := dup fd in
  if k =? -1 then kret false else
  let! ok := plain CFdopen in
  if negb ok then let! _ := close y k in kret false else
  let! rest := fwrite k b in
  let! _ := fclose k rest in
  kret (zlen rest =? 0).
Definition write_file (fd : Z) (b : chars) : K bool := if have_mmap then write_mmap fd b else write_stdio fd b.

(** The caller: AtomicFile f; return f.open(fn, mode) && s.writeFile(f.fd()) == 0 && f.commit(); *)
Definition save_body (fn : chars) (mode : Z) (b : chars) : K bool :=
  let! ok := aopen y mdiff fn mode in
  if negb ok then kret false else
  let! o := obj in
  let! ok := write_file (fd o) b in
  if negb ok then kret false else commit y.
(** The destructor runs at the end and when open throws. None is an exception. *)
Definition save_one (s : saving) : K (option bool) := fun w =>
  let '(fn, mode, b) := s in
  match save_body fn mode b w with
  | Done r w' => (let! _ := adestroy y in kret (Some r)) w'
  | Threw w' => (let! _ := adestroy y in kret None) w'
  | Stop w' => Stop w'
  | Bad u => Bad u
  end.
Fixpoint saves (l : list saving) : K (list (option bool)) :=
  match l with
  | [] => kret []
  | s :: l' => let! r := save_one s in let! rs := saves l' in kret (r :: rs)
  end.

(** Callers who do it in another way, for the witnesses. One commits whatever writeFile returned. *)
Definition save_unchecked (fn : chars) (mode : Z) (b : chars) : K bool :=
  let! ok := aopen y mdiff fn mode in
  if negb ok then kret false else
  let! o := obj in
  let! _ := write_file (fd o) b in
  commit y.
(** open(2) with O_CREAT|O_RDWR|O_TRUNC. *)
Definition open_trunc (p : chars) (mode : Z) : K Z := fun w =>
  let '(_, k, i) := y_pick y (w_tick w) in
  (let! r := kernel y COpen (fun fail f =>
    match f_names f !! resolve p, f_inodes f !! i, open_fd f k with
    | Some j, _, None =>
      match f_inodes f !! j with
      | Some n => if fail || (k <? 0) then (false, f)
                  else (true, Fs (f_names f) (<[j := new_bytes (fun _ => []) n]> (f_inodes f)) (<[k := j]> (f_fds f)))
      | None => (false, f)
      end
    | None, None, None =>
      if fail || (k <? 0) || negb (file_path p) then (false, f)
      else (true, Fs (<[resolve p := i]> (f_names f)) (<[i := Inode [] mode false]> (f_inodes f)) (<[k := i]> (f_fds f)))
    | _, _, _ => (false, f)
    end) in
  kret (if (r : bool) then k else -1)) w.
(** writeFile(name, mode) const, Stream.cpp:156-164, without an AtomicFile. *)
Definition write_name (p : chars) (mode : Z) (b : chars) : K bool :=
  let! k := open_trunc (cstr p) mode in
  if k =? -1 then kret false else
  let! r := write_file k b in
  let! _ := close y k in
  kret r.
End Save.
