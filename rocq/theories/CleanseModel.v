(** Model of String::cleanse and ~String (String.h:68-84 and 148-153, String.cpp:39) down to the bytes written. Addresses are
    numbers; the static counter is a byte. Below, [destroy] of RcaModel writes [None] instead of these bytes. Simplified: the
    compiler keeps the stores (nothing reads the memory afterwards except the memchr in the code). *)
From Verif Require Import Base RcaModel.
Open Scope Z_scope.

(** while (loop--), String.h:77-81: [i] bytes of [buf] are behind, [p] is its address. *)
Fixpoint wipe (n : nat) (addr i ctr : Z) (buf : list (option Z)) : list (option Z) * Z :=
  match n with
  | O => (buf, ctr)
  | S n' =>
    let buf := zupd i [Some ctr] buf in                                     (* 79 *)
    let p := addr + i + 1 in
    wipe n' addr (i + 1) ((ctr + (17 + p mod 16)) mod 256) buf              (* 80 *)
  end.
(** memchr *)
Fixpoint memchr (c : Z) (buf : list (option Z)) : bool :=
  match buf with [] => false | Some b :: buf' => (b =? c) || memchr c buf' | None :: buf' => memchr c buf' end.
(** cleanse(), String.h:71-84. memchr must not be given a null pointer. *)
Definition cleanse {S} (addr ctr : Z) (buf : list (option Z)) : M S (list (option Z) * Z) :=
  let len := zlen buf in
  let (buf, ctr) := wipe (length buf) addr 0 ctr buf in
  if len =? 0 then undef UbNull else
  ret (buf, if memchr ctr buf then (ctr + (63 + (addr + len))) mod 256 else ctr).      (* 82-83 *)

(** ~String, String.h:148-153, then ~ReferenceCountedArray; gives the counter. [addr] are the addresses of the buffers. *)
Definition destroy_bytes (addr : positive -> Z) (ctr : Z) (x : positive) : M (state Z) Z :=
  let* n := rcount x in
  let* ctr' :=
    (if n =? 1 then
       let* o := get_obj x in
       match o_ref o with
       | None => ret ctr
       | Some l =>
         let* c := get_cell l in
         let* r := cleanse (addr l) ctr (c_buf c) in
         set_cell l (Cell (fst r) (c_gen c) (c_refs c)) ;;; ret (snd r)
       end
     else ret ctr) in
  check_dealloc x ;;; del_obj x ;;; ret ctr'.
