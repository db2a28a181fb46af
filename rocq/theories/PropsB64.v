(** base64 properties C32-C34. [junk] is the arbitrary initial content of malloc'ed memory, [mem] the memory readable at
    the input pointer. Every access outside of it or outside the allocated output is the outcome [Undef]. *)
From Coq Require Import Lia String.
From Verif Require Import Base StrSpec StrEx B64Model B64Spec B64Proof.
Open Scope Z_scope.
Ltac run := vm_compute; reflexivity.
Definition nojunk (i : Z) : Z := 170.
(** The URL-safe alphabet, as a custom charset. *)
Definition url_charset : chars := bs "ABCDEFGHIJKLMNOPQRSTUVWXYZabcdefghijklmnopqrstuvwxyz0123456789-_".
Definition url_alpha (v : Z) : Z := match znth v url_charset with Some c => c | None => 0 end.
Example url_selects : selects (Some url_charset) url_alpha.
Proof.
  split.
  - intros v Hv. unfold url_alpha. destruct (znth_some v url_charset) as (c & E); [exact Hv|]. rewrite E. reflexivity.
  - split.
    + assert (forall a, 0 <= a < 64 -> (0 <=? url_alpha a) && (url_alpha a <? 128) && negb (url_alpha a =? 61) = true) as H
        by (apply all1; vm_compute; reflexivity).
      intros v Hv. specialize (H v Hv). lia.
    + assert (forall a b, 0 <= a < 64 -> 0 <= b < 64 -> negb (url_alpha a =? url_alpha b) || (a =? b) = true) as H
        by (apply all2; vm_compute; reflexivity).
      intros v w Hv Hw E. specialize (H v w Hv Hw). lia.
Qed.

(** C32: decoding the encoding gives the input back, for the standard and for custom alphabets. *)
Theorem C32_roundtrip : forall junk1 junk2 fuel x charset alpha,
  selects charset alpha -> bytes x -> zlen x < 2 ^ 62 -> (length x <= fuel)%nat ->
  exists e, base64_encode junk1 fuel x charset tt = Ok e tt /\ base64_decode junk2 fuel e (zlen e) charset tt = Ok x tt.
Proof. exact roundtrip. Qed.
Print Assumptions C32_roundtrip.
Example C32_roundtrip_ex :
  base64_encode nojunk 9 [0; 255; 250; 128; 7] None tt = Ok (bs "AP/6gAc=") tt /\
  base64_decode nojunk 9 (bs "AP/6gAc=") 8 None tt = Ok [0; 255; 250; 128; 7] tt /\
  base64_encode nojunk 9 [0; 255; 250; 128; 7] (Some url_charset) tt = Ok (bs "AP_6gAc=") tt /\
  base64_decode nojunk 9 (bs "AP_6gAc=") 8 (Some url_charset) tt = Ok [0; 255; 250; 128; 7] tt.
Proof. repeat split; run. Qed.

(** C32: hence different inputs have different encodings. *)
Theorem C32_injective : forall junk1 junk2 fuel x y charset alpha e,
  selects charset alpha -> bytes x -> bytes y -> zlen x < 2 ^ 62 -> zlen y < 2 ^ 62 -> (length x <= fuel)%nat -> (length y <= fuel)%nat ->
  base64_encode junk1 fuel x charset tt = Ok e tt -> base64_encode junk2 fuel y charset tt = Ok e tt -> x = y.
Proof. exact encode_injective. Qed.
Print Assumptions C32_injective.
Example C32_injective_ex :
  base64_encode nojunk 9 (bs "ab") None tt = Ok (bs "YWI=") tt /\ base64_encode nojunk 9 [97; 98; 0] None tt = Ok (bs "YWIA") tt.
Proof. split; run. Qed.

(** C33: the encoding is the one of RFC 4648, written inside the allocated buffer. *)
Theorem C33_rfc4648 : forall junk fuel s charset alpha,
  lists (match charset with Some c => c | None => b64_charset end) alpha -> bytes s -> zlen s < W63 -> (length s <= fuel)%nat ->
  base64_encode junk fuel s charset tt = Ok (enc64 alpha s) tt.
Proof. exact encode_spec. Qed.
Print Assumptions C33_rfc4648.
Example C33_rfc4648_ex : enc64 std_alpha (bs "foobar") = bs "Zm9vYmFy" /\ enc64 std_alpha (bs "fooba") = bs "Zm9vYmE=" /\
  enc64 std_alpha (bs "foob") = bs "Zm9vYg==" /\ base64_encode nojunk 6 (bs "foob") None tt = Ok (bs "Zm9vYg==") tt.
Proof. repeat split; run. Qed.

(** C33: the default charset is the standard alphabet. *)
Theorem C33_default_alphabet : lists b64_charset std_alpha /\ alphabet std_alpha.
Proof. exact (conj std_lists std_alphabet). Qed.
Print Assumptions C33_default_alphabet.

(** C33: n bytes become 4*ceil(n/3) characters. *)
Theorem C33_length : forall alpha x, zlen (enc64 alpha x) = (zlen x + 2) / 3 * 4.
Proof. exact enc64_len. Qed.
Print Assumptions C33_length.
Example C33_length_ex : zlen (enc64 std_alpha (bs "abcd")) = 8.
Proof. run. Qed.

(** C33: alphabet characters, then at most two '='. *)
Theorem C33_characters : forall alpha x, exists body pad, enc64 alpha x = body ++ pad /\
  Forall (fun c => exists v, 0 <= v < 64 /\ c = alpha v) body /\ (pad = [] \/ pad = [61] \/ pad = [61; 61]).
Proof. exact enc64_shape. Qed.
Print Assumptions C33_characters.
Example C33_characters_ex : enc64 std_alpha [255] = [47; 119] ++ [61; 61] /\ 47 = std_alpha 63 /\ 119 = std_alpha 48.
Proof. repeat split; run. Qed.

(** C34: input of a length that is a multiple of 4 is decoded inside its buffers, whatever it contains. *)
Theorem C34_safe : forall junk fuel mem len charset alpha,
  selects charset alpha -> bytes mem -> 0 <= len < W63 -> len mod 4 = 0 -> len <= zlen mem -> (Z.to_nat len <= fuel)%nat ->
  exists x, base64_decode junk fuel mem len charset tt = Ok x tt /\ zlen x <= len / 4 * 3.
Proof. exact decode_safe. Qed.
Print Assumptions C34_safe.
Example C34_safe_ex : base64_decode nojunk 9 [0; 61; 61; 200; 33; 255; 65; 61] 8 None tt = Ok [255; 255; 240] tt.
Proof. run. Qed.

(** C34: an input in memory that ends with it is decoded without reading past the end exactly when its length is a
    multiple of 4, or 4k+3 with a final '='. *)
Theorem C34_exactly : forall junk fuel data charset alpha,
  selects charset alpha -> bytes data -> zlen data < W63 -> (length data <= fuel)%nat ->
  ((zlen data mod 4 = 0 \/ ends_padded data) /\
   exists x, base64_decode junk fuel data (zlen data) charset tt = Ok x tt /\ zlen x <= (zlen data + 3) / 4 * 3) \/
  (zlen data mod 4 <> 0 /\ ~ ends_padded data /\ base64_decode junk fuel data (zlen data) charset tt = Undef UbBounds).
Proof. exact decode_exact. Qed.
Print Assumptions C34_exactly.
Example C34_exactly_ex : base64_decode nojunk 9 (bs "YW=") 3 None tt = Ok (bs "a") tt.
Proof. run. Qed.

(** C34: memory safety for all inputs is false: unpadded base64 reads past the end. *)
Theorem C34_unpadded_refuted : exists data, bytes data /\
  forall junk, base64_decode junk 10 data (zlen data) None tt = Undef UbBounds.
Proof. exists (bs "YWI"). split; [apply bs_bytes|intros junk; reflexivity]. Qed.
Print Assumptions C34_unpadded_refuted.

(** C34: a custom charset with a byte above 127 makes the decoder write before its table. *)
Theorem C34_high_charset : forall junk fuel mem len cs k c,
  bytes cs -> 64 <= zlen cs -> 0 <= k < 64 -> znth k cs = Some c -> 128 <= c ->
  base64_decode junk fuel mem len (Some cs) tt = Undef UbBounds.
Proof. exact decode_high_charset. Qed.
Print Assumptions C34_high_charset.
Example C34_high_charset_ex : base64_decode nojunk 4 (bs "YWI=") 4 (Some (zupd 5 [200] url_charset)) tt = Undef UbBounds.
Proof. run. Qed.
