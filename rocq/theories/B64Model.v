(** base64 (src/base64.cpp, base64.h). Bytes are numbers 0..255; the charset and its index table are arrays of (signed)
    char. The state is the destination buffer: every write is checked against its size, every read against the memory
    given. malloc succeeds and returns arbitrary bytes. *)
From Verif Require Import Base StrSpec.
Open Scope Z_scope.

(** base64.h:38 (65 bytes with the NUL) and base64.h:39-56. *)
Definition b64_charset : chars :=
  [65; 66; 67; 68; 69; 70; 71; 72; 73; 74; 75; 76; 77; 78; 79; 80; 81; 82; 83; 84; 85; 86; 87; 88; 89; 90; 97; 98; 99; 100; 101; 102; 103; 104; 105; 106; 107; 108; 109; 110; 111; 112; 113; 114; 115; 116; 117; 118; 119; 120; 121; 122; 48; 49; 50; 51; 52; 53; 54; 55; 56; 57; 43; 47; 0].
Definition b64_indexes : chars :=
  [-1;-1;-1;-1;-1;-1;-1;-1;-1;-1;-1;-1;-1;-1;-1;-1;
   -1;-1;-1;-1;-1;-1;-1;-1;-1;-1;-1;-1;-1;-1;-1;-1;
   -1;-1;-1;-1;-1;-1;-1;-1;-1;-1;-1;62;-1;-1;-1;63;
   52;53;54;55;56;57;58;59;60;61;-1;-1;-1;-1;-1;-1;
   -1;0;1;2;3;4;5;6;7;8;9;10;11;12;13;14;
   15;16;17;18;19;20;21;22;23;24;25;-1;-1;-1;-1;-1;
   -1;26;27;28;29;30;31;32;33;34;35;36;37;38;39;40;
   41;42;43;44;45;46;47;48;49;50;51;-1;-1;-1;-1;-1;
   -1;-1;-1;-1;-1;-1;-1;-1;-1;-1;-1;-1;-1;-1;-1;-1;
   -1;-1;-1;-1;-1;-1;-1;-1;-1;-1;-1;-1;-1;-1;-1;-1;
   -1;-1;-1;-1;-1;-1;-1;-1;-1;-1;-1;-1;-1;-1;-1;-1;
   -1;-1;-1;-1;-1;-1;-1;-1;-1;-1;-1;-1;-1;-1;-1;-1;
   -1;-1;-1;-1;-1;-1;-1;-1;-1;-1;-1;-1;-1;-1;-1;-1;
   -1;-1;-1;-1;-1;-1;-1;-1;-1;-1;-1;-1;-1;-1;-1;-1;
   -1;-1;-1;-1;-1;-1;-1;-1;-1;-1;-1;-1;-1;-1;-1;-1;
   -1;-1;-1;-1;-1;-1;-1;-1;-1;-1;-1;-1;-1;-1;-1;-1].

Notation Mb := (M chars).
Definition rdm (l : chars) (i : Z) : Mb Z := match znth i l with Some c => ret c | None => undef UbBounds end.
Definition wr (i c : Z) : Mb unit := fun d =>
  if (0 <=? i) && (i <? zlen d) then Ok tt (zupd i [c] d) else Undef UbBounds.
(** Conversion to char, kept as a byte; a char as int. *)
Definition to_char (z : Z) : Z := z mod 256.
Definition char_int (c : Z) : Z := if c <? 128 then c else c - 256.

(** b64enc_buf, base64.cpp:39-101: main loop, then the remaining one or two bytes. *)
Fixpoint enc_loop (fuel : nat) (data cs : chars) (di len bi : Z) : Mb (Z * Z * Z) :=
  if len <? 3 then ret (di, len, bi) else
  match fuel with
  | O => fun _ => Fuel
  | S f =>
    let* d0 := rdm data di in let* d1 := rdm data (di + 1) in let* d2 := rdm data (di + 2) in
    let* c0 := rdm cs (Z.shiftr (Z.land d0 252) 2) in wr bi c0 ;;;
    let* c1 := rdm cs (Z.lor (Z.shiftl (Z.land d0 3) 4) (Z.shiftr (Z.land d1 240) 4)) in wr (bi + 1) c1 ;;;
    let* c2 := rdm cs (Z.lor (Z.shiftl (Z.land d1 15) 2) (Z.shiftr (Z.land d2 192) 6)) in wr (bi + 2) c2 ;;;
    let* c3 := rdm cs (Z.land d2 63) in wr (bi + 3) c3 ;;;
    enc_loop f data cs (di + 3) (len - 3) (bi + 4)
  end.
Definition b64enc_buf (fuel : nat) (data : chars) (len : Z) (charset : option chars) : Mb Z :=
  let cs := match charset with Some c => c | None => b64_charset end in
  let* r := enc_loop fuel data cs 0 len 0 in
  let '(di, len, bi) := r in
  if 0 <? len then
    let* d0 := rdm data di in
    let* c0 := rdm cs (Z.shiftr (Z.land d0 252) 2) in wr bi c0 ;;;
    (if len =? 1 then
       let* c1 := rdm cs (Z.shiftl (Z.land d0 3) 4) in wr (bi + 1) c1 ;;;
       wr (bi + 2) 61
     else
       let* d1 := rdm data (di + 1) in
       let* c1 := rdm cs (Z.lor (Z.shiftl (Z.land d0 3) 4) (Z.shiftr (Z.land d1 240) 4)) in wr (bi + 1) c1 ;;;
       let* c2 := rdm cs (Z.shiftl (Z.land d1 15) 2) in wr (bi + 2) c2) ;;;
    wr (bi + 3) 61 ;;;
    ret (bi + 4)
  else ret bi.

(** Running a function on a fresh buffer of n bytes with contents [junk], giving back its final contents. *)
Definition on_buffer {A} (junk : Z -> Z) (n : Z) (m : Mb A) : M unit (A * chars) := fun _ =>
  match m (map (fun i => junk (Z.of_nat i)) (seq 0 (Z.to_nat n))) with
  | Ok a d => Ok (a, d) tt | Exn e _ => Exn e tt | Term => Term | Fuel => Fuel | Undef u => Undef u
  end.
(** b64enc, base64.cpp:111-120, and base64Encode, base64.cpp:103-109 (String(p, len) copies len bytes from p). *)
Definition b64enc junk (fuel : nat) (src : chars) (len : Z) (charset : option chars) : M unit (Z * chars) :=
  let dlen := u64 (u64 (len + 2) / 3 * 4) in
  on_buffer junk (u64 (dlen + 1))
    (let* n := b64enc_buf fuel src len charset in wr n 0 ;;; ret n).
Definition base64_encode junk fuel (s : chars) (charset : option chars) : M unit chars :=
  let* r := b64enc junk fuel s (zlen s) charset in
  if fst r <=? zlen (snd r) then ret (ztake (fst r) (snd r)) else undef UbBounds.

(** b64dec_buf, base64.cpp:122-148. *)
Fixpoint dec_loop (fuel : nat) (data idx : chars) (di blocks bi : Z) : Mb Z :=
  if blocks <=? 0 then ret bi else
  match fuel with
  | O => fun _ => Fuel
  | S f =>
    let* d0 := rdm data di in let* x0 := rdm idx d0 in
    let* d1 := rdm data (di + 1) in let* x1 := rdm idx d1 in
    wr bi (to_char (Z.shiftl x0 2 + Z.shiftr (Z.land x1 48) 4)) ;;;
    let* d2 := rdm data (di + 2) in
    (if negb (d2 =? 61) then
       let* x2 := rdm idx d2 in
       wr (bi + 1) (to_char (Z.shiftl (Z.land x1 15) 4 + Z.shiftr (Z.land x2 60) 2)) ;;;
       let* d3 := rdm data (di + 3) in
       if negb (d3 =? 61) then
         let* x3 := rdm idx d3 in
         wr (bi + 2) (to_char (Z.shiftl (Z.land x2 3) 6 + x3)) ;;;
         dec_loop f data idx (di + 4) (blocks - 1) (bi + 3)
       else dec_loop f data idx (di + 4) (blocks - 1) (bi + 2)
     else dec_loop f data idx (di + 4) (blocks - 1) (bi + 1))
  end.
Definition blocks_of (len : Z) : Z := len / 4 + (if len mod 4 =? 0 then 0 else 1).
Definition b64dec_buf (fuel : nat) (data : chars) (len : Z) (idx : chars) : Mb Z := dec_loop fuel data idx 0 (blocks_of len) 0.
(** The table b64dec builds for a custom charset, base64.cpp:156-159. *)
Fixpoint index_loop (n : nat) (i : Z) (cs idx : chars) : M unit chars :=
  match n with
  | O => ret idx
  | S n' =>
    match znth i cs with
    | None => undef UbBounds
    | Some c =>
      if (0 <=? char_int c) && (char_int c <? zlen idx) then index_loop n' (i + 1) cs (zupd (char_int c) [i] idx) else undef UbBounds
    end
  end.
(** b64dec, base64.cpp:150-165, and base64Decode, base64.cpp:167-173. [mem] is the readable memory at the data pointer. *)
Definition b64dec junk (fuel : nat) (mem : chars) (len : Z) (charset : option chars) : M unit (Z * chars) :=
  let dlen := u64 (blocks_of len * 3) in
  let* idx := (match charset with Some cs => index_loop 64 0 cs (zrep 256 (-1)) | None => ret b64_indexes end) in
  on_buffer junk (u64 (dlen + 1))
    (let* n := b64dec_buf fuel mem len idx in wr n 0 ;;; ret n).
Definition base64_decode junk fuel (mem : chars) (len : Z) (charset : option chars) : M unit chars :=
  let* r := b64dec junk fuel mem len charset in
  if fst r <=? zlen (snd r) then ret (ztake (fst r) (snd r)) else undef UbBounds.
