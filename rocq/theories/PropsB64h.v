(** C66, base64Encode and base64Decode on Strings that share buffers. A state is the number of malloc'ed blocks not freed
    and the heap of Strings; [junk] is what malloc'ed memory contains. *)
From Coq Require Import Lia String.
From Verif Require Import RcaSpec RcaModel RcaExec RcaOwn RcaMeet RcaEx StrSpec StrEx AlgModel AlgMeet AlgEx B64Model B64Spec B64Proof B64hModel B64hMeet B64hProof.
Open Scope Z_scope.
Ltac run := vm_compute; reflexivity.
Definition nojunk (i : Z) : Z := 170.
Definition text_of (r : res (Z * state Z) unit) (x : positive) : option (list (option Z)) * Z :=
  match r with Ok _ (n, s) | Exn _ (n, s) => (content x s, n) | _ => (None, -1) end.
Definition ended (r : res (Z * state Z) unit) : Z * state Z := match r with Ok _ p | Exn _ p => p | _ => (-1, st_init) end.
(** "foob" in 1, a copy in 2, its slice "oo" in 3. *)
Definition prog_f : list (op Z) := [CtorCstrLen 1 (bs "foob") 4; CtorCopy 2 1; CtorCopy 3 1; SliceTo 3 1 2].
Definition sf := st sdesc prog_f.
Definition vf := av sdesc prog_f.

(** C66: base64Encode gives a String with the encoding of RFC 4648, for each way the argument shares its buffer, and
    changes no other String. *)
Theorem C66_encode : forall d junk charset alpha n s a r x l, wf_desc d -> d_nul d = Some 0 -> reached d s a -> is_str a x l -> a !! r = None ->
  lists (match charset with Some c => c | None => b64_charset end) alpha -> bytes l ->
  recodes d (no_memory d (zlen (enc64 alpha l) + 2)) (hencode d junk charset false r x) n s a r (enc64 alpha l).
Proof. intros d junk cs alpha n s a r x l Hw Hz. exact (encode_recodes d Hw Hz junk cs alpha n s a r x l). Qed.
Print Assumptions C66_encode.
Example C66_encode_ex : reached sdesc sf vf /\ is_str vf 3 (bs "oo") /\ lists b64_charset std_alpha /\ bytes (bs "oo") /\ enc64 std_alpha (bs "oo") = bs "b28=" /\
  text_of (hencode sdesc nojunk None false 9 3 (0, sf)) 9 = (str "b28=", 0) /\ text_of (hencode sdesc nojunk None false 9 3 (0, sf)) 1 = (str "foob", 0).
Proof. split; [apply run_reached; run|]. split; [apply holds_str_ok; run|]. split; [exact std_lists|]. split; [apply bs_bytes|]. split_and!; run. Qed.

(** C66: decoding the result gives the text of the argument back, as another String. *)
Theorem C66_roundtrip : forall d junk1 junk2 charset alpha n s a r r' x l n' s' v, wf_desc d -> d_nul d = Some 0 -> reached d s a -> is_str a x l ->
  a !! r = None -> a !! r' = None -> r <> r' -> selects charset alpha -> bytes l ->
  hencode d junk1 charset false r x (n, s) = Ok v (n', s') ->
  recodes d (no_memory d (zlen l + 2)) (hdecode d junk2 charset false r' r) n' s' (<[r := AVal true (map Some (enc64 alpha l))]> a) r' l.
Proof. intros d junk1 junk2 cs alpha n s a r r' x l n' s' v Hw Hz. exact (roundtrip_recodes d Hw Hz junk1 junk2 cs alpha n s a r r' x l n' s' v). Qed.
Print Assumptions C66_roundtrip.
Example C66_roundtrip_ex : reached sdesc sf vf /\ is_str vf 1 (bs "foob") /\ selects None std_alpha /\
  (let p := ended (hencode sdesc nojunk None false 9 1 (0, sf)) in
   hencode sdesc nojunk None false 9 1 (0, sf) = Ok tt p /\ text_of (hdecode sdesc nojunk None false 8 9 p) 8 = (str "foob", 0) /\
   text_of (hdecode sdesc nojunk None false 8 9 p) 9 = (str "Zm9vYg==", 0)).
Proof. split; [apply run_reached; run|]. split; [apply holds_str_ok; run|]. split; [reflexivity|]. cbv zeta. split_and!; run. Qed.

(** C66: text of 4k characters, or 4k+3 with a '=' at the end, is decoded to something that depends on the text only: not on
    the state, the sharing or the memory malloc gives. *)
Theorem C66_decode : forall d charset alpha l, wf_desc d -> d_nul d = Some 0 -> selects charset alpha -> bytes l -> zlen l <= max_alloc ->
  zlen l mod 4 = 0 \/ ends_padded l ->
  exists w, zlen w <= (zlen l + 3) / 4 * 3 /\ forall junk n s a r x, reached d s a -> is_str a x l -> a !! r = None ->
    recodes d (no_memory d (zlen w + 2)) (hdecode d junk charset false r x) n s a r w.
Proof. intros d cs alpha l Hw Hz. exact (decode_whole d Hw Hz cs alpha l). Qed.
Print Assumptions C66_decode.
(** "YWJjZA" and its slice "YWJj". *)
Definition prog_w (l : list Z) : list (op Z) := [CtorCstrLen 1 l (zlen l); CtorCopy 2 1; SliceTo 2 0 4; CtorCopy 3 1; SliceTo 3 0 3].
Definition sw l := st sdesc (prog_w l).
Definition vw l := av sdesc (prog_w l).
Example C66_decode_ex : reached sdesc (sw (bs "YWJjZA")) (vw (bs "YWJjZA")) /\ is_str (vw (bs "YWJjZA")) 2 (bs "YWJj") /\ zlen (bs "YWJj") mod 4 = 0 /\
  text_of (hdecode sdesc nojunk None false 9 2 (0, sw (bs "YWJjZA"))) 9 = (str "abc", 0).
Proof. split; [apply run_reached; run|]. split; [apply holds_str_ok; run|]. split; run. Qed.

(** C66: decoding is not a function of the text otherwise: the decoder reads on past the end of a slice. *)
Theorem C66_slice_refuted : exists s1 a1 s2 a2 x r, reached sdesc s1 a1 /\ reached sdesc s2 a2 /\ is_str a1 x (bs "YWJ") /\ is_str a2 x (bs "YWJ") /\
  a1 !! r = None /\ a2 !! r = None /\
  text_of (hdecode sdesc nojunk None false r x (0, s1)) r = (str "abc", 0) /\ text_of (hdecode sdesc nojunk None false r x (0, s2)) r = (str "abd", 0).
Proof.
  exists (sw (bs "YWJj")), (vw (bs "YWJj")), (sw (bs "YWJk")), (vw (bs "YWJk")), 3%positive, 9%positive.
  split; [apply run_reached; run|]. split; [apply run_reached; run|]. split; [apply holds_str_ok; run|]. split; [apply holds_str_ok; run|]. split_and!; run.
Qed.
Print Assumptions C66_slice_refuted.

(** C66: when malloc gives null, both write through it. *)
Theorem C66_malloc : forall d junk charset n s a r x l, wf_desc d -> reached d s a -> is_str a x l ->
  hencode d junk charset true r x (n, s) = Undef UbNull /\ hdecode d junk charset true r x (n, s) = Undef UbNull.
Proof. intros d junk cs n s a r x l Hw H Hx. exact (conj (refused_null d Hw _ n s a r x l H Hx) (refused_null d Hw _ n s a r x l H Hx)). Qed.
Print Assumptions C66_malloc.
Example C66_malloc_ex : hencode sdesc nojunk None true 9 1 (0, sf) = Undef UbNull.
Proof. run. Qed.

(** C66: when there is no memory for the String, the malloc'ed block is lost. *)
Theorem C66_leak_refuted : exists d s a x s', wf_desc d /\ reached d s a /\ is_str a x (bs "a-b--c") /\ a !! 9%positive = None /\
  hencode d nojunk None false 9 x (0, s) = Exn BadAlloc (1, s') /\ reached d s' a.
Proof.
  pose proof (C66_encode (sdesc_oom 8) nojunk None std_alpha 0 (so 8) (vo 8) 9%positive 1%positive (bs "a-b--c") (sdesc_oom_wf 8) eq_refl
    ltac:(apply run_reached; run) ltac:(apply holds_str_ok; run) ltac:(run) std_lists (bs_bytes _)) as C.
  exists (sdesc_oom 8), (so 8), (vo 8), 1%positive, (snd (ended (hencode (sdesc_oom 8) nojunk None false 9 1 (0, so 8)))).
  split; [apply sdesc_oom_wf|]. split; [apply run_reached; run|]. split; [apply holds_str_ok; run|]. split; [run|].
  assert (E : hencode (sdesc_oom 8) nojunk None false 9 1 (0, so 8) = Exn BadAlloc (1, snd (ended (hencode (sdesc_oom 8) nojunk None false 9 1 (0, so 8))))) by run.
  split; [exact E|]. unfold recodes in C. rewrite E in C. apply C.
Qed.
Print Assumptions C66_leak_refuted.
