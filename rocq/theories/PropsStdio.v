(** C59: Stream's files where there is no mmap. Every theorem is closed by a lemma of StdioProof; examples
    beside them. *)
From Verif Require Import RcaSpec RcaModel RcaExec RcaOwn RcaRel RcaMeet RcaReach RcaEx StreamSpec StreamModel StreamMeet StdioSpec StdioModel StdioMeet StdioProof.
Open Scope Z_scope.

(** A stream over "hello", made from a String that is still shared with variable 2; variable 9 is free. *)
Definition ex_prog : list (op Z) := [CtorCstrLen 2 hello 5; CtorCopy 1 2].
Definition ex_st : state Z * stream := (st sdesc ex_prog, Stream 1 0 false).
Lemma ex_SR : SR sdesc 1 9 (st sdesc ex_prog) (Stream 1 0 false) hello 0 (av sdesc ex_prog).
Proof. split; [reflexivity|reflexivity|unfold W64; lia|apply run_reached|exists true; vm_compute; reflexivity|vm_compute; reflexivity]. Qed.
Lemma ex_SR_oom k : (av (sdesc_oom k) ex_prog) !! 1%positive = Some (AVal true (map Some hello)) -> (av (sdesc_oom k) ex_prog) !! 9%positive = None ->
  SR (sdesc_oom k) 1 9 (st (sdesc_oom k) ex_prog) (Stream 1 0 false) hello 0 (av (sdesc_oom k) ex_prog).
Proof. intros H1 H2. split; [reflexivity|reflexivity|unfold W64; lia|apply run_reached|exists true; exact H1|exact H2]. Qed.
(** 1500 bytes: two blocks. *)
Definition big : list Z := map Z.of_nat (map (fun n => Nat.modulo n 251) (seq 0 1500)).

(** C59: loading returns 0 unless the descriptor cannot be duplicated or wrapped; then the data is all
    that could be read, be it from a file or from a pipe, and the cursor is 0. Otherwise the stream is
    empty. Every other String is untouched and no descriptor stays open, except when memory runs out. *)
Theorem C59_load : forall d, wf_desc d -> d_nul d = Some 0 -> forall x t, t <> x ->
  forall fails s z a v p f n, SR d x t s z v p a -> zlen (src_data f) < W63 ->
  kwp (load_stdio d fails t f)
    (fun r st' n' => n' = n /\
       if fails Dup || fails Fdopen then r = 1 /\ s_load (snd st') = s_load z /\ holds_now d x t a [] 0 st'
       else r = 0 /\ s_load (snd st') = false /\ holds_now d x t a (arrive (src_data f) (src_error f)) 0 st')
    (fun e st' n' => e = BadAlloc /\ memlow d (2 * zlen (src_data f) + 2048) /\ n' = n + 1 /\
       exists v' p', some_blocks (arrive (src_data f) (src_error f)) v' /\ holds_now d x t a v' p' st') (s, z) n.
Proof. exact load_ok. Qed.
Print Assumptions C59_load.
Example C59_load_ex :
  match load_stdio sdesc (fun _ => false) 9 (Source big true None) (ex_st, 3) with Ok r (s, z, n) => r = 0 /\ n = 3 /\ content_is 1 s big /\ s_pos z = 0 | _ => False end /\
  match load_stdio sdesc (fun _ => false) 9 (Source big false None) (ex_st, 3) with Ok r (s, z, n) => r = 0 /\ n = 3 /\ content_is 1 s big /\ s_pos z = 0 | _ => False end /\
  match load_stdio sdesc (fun _ => false) 9 (Source [] true None) (ex_st, 3) with Ok r (s, z, n) => r = 0 /\ content_is 1 s [] | _ => False end /\
  SR sdesc 1 9 (fst ex_st) (snd ex_st) hello 0 (av sdesc ex_prog).
Proof. split; [vm_compute; repeat split|]. split; [vm_compute; repeat split|]. split; [vm_compute; repeat split|]. apply ex_SR. Qed.

(** C59: writing leaves the stream and the open descriptors alone, and returns 0 exactly when everything
    was written; the file is then what it was with the data put at the position of the descriptor. *)
Theorem C59_write : forall d, wf_desc d -> forall x t fails s z a v p f n, SR d x t s z v p a ->
  0 <= snk_pos f -> 0 <= match snk_room f with Some k => k | None => 0 end ->
  exists r data, write_stdio fails f (s, z, n) = Ok (r, data) (s, z, n) /\
    if fails Dup || fails Fdopen then r = 1 /\ data = snk_data f
    else exists w, patched (snk_data f) (snk_pos f) w data /\
         match snk_room f with
         | Some k => if k <? zlen v then r = 1 /\ w = ztake k v else r = 0 /\ w = v
         | None => r = 0 /\ w = v
         end.
Proof. exact write_ok. Qed.
Print Assumptions C59_write.
Example C59_write_ex :
  write_stdio (fun _ => false) (Sink [1; 2; 3] 5 None) (ex_st, 3) = Ok (0, [1; 2; 3; 0; 0; 104; 101; 108; 108; 111]) (ex_st, 3) /\
  write_stdio (fun _ => false) (Sink [1; 2; 3] 0 (Some 2)) (ex_st, 3) = Ok (1, [104; 101; 3]) (ex_st, 3) /\
  SR sdesc 1 9 (fst ex_st) (snd ex_st) hello 0 (av sdesc ex_prog).
Proof. split; [vm_compute; reflexivity|]. split; [vm_compute; reflexivity|]. apply ex_SR. Qed.

(** C59: by name: a file that cannot be opened leaves the stream, or the file, as it was and 1 is returned; else as above,
    the file having been emptied before it is written. Unless memory runs out every descriptor is closed. *)
Theorem C59_load_name : forall d, wf_desc d -> d_nul d = Some 0 -> forall x t, t <> x ->
  forall fails s z a v p file n, SR d x t s z v p a -> match file with Some f => zlen (src_data f) < W63 | None => True end ->
  kwp (load_stdio_name d fails t file)
    (fun r st' n' => n' = n /\
       match file with
       | Some f =>
         if fails KOpenRead then r = 1 /\ st' = (s, z)
         else if fails Dup || fails Fdopen then r = 1 /\ s_load (snd st') = s_load z /\ holds_now d x t a [] 0 st'
         else r = 0 /\ s_load (snd st') = false /\ holds_now d x t a (arrive (src_data f) (src_error f)) 0 st'
       | None => r = 1 /\ st' = (s, z)
       end)
    (fun e st' n' => e = BadAlloc /\ n' = n + 2 /\ exists f v' p', file = Some f /\ memlow d (2 * zlen (src_data f) + 2048) /\
       some_blocks (arrive (src_data f) (src_error f)) v' /\ holds_now d x t a v' p' st') (s, z) n.
Proof. exact load_name_ok. Qed.
Print Assumptions C59_load_name.
Theorem C59_write_name : forall d, wf_desc d -> forall x t fails s z a v p file room n, SR d x t s z v p a -> 0 <= match room with Some k => k | None => 0 end ->
  exists r file', write_stdio_name fails file room (s, z, n) = Ok (r, file') (s, z, n) /\
    if fails KOpenWrite then r = 1 /\ file' = file
    else if fails Dup || fails Fdopen then r = 1 /\ file' = Some []
    else match room with
         | Some k => if k <? zlen v then r = 1 /\ file' = Some (ztake k v) else r = 0 /\ file' = Some v
         | None => r = 0 /\ file' = Some v
         end.
Proof. exact write_name_ok'. Qed.
Print Assumptions C59_write_name.
Example C59_name_ex :
  match load_stdio_name sdesc (fun _ => false) 9 (Some (Source big true None)) (ex_st, 3) with Ok r (s, z, n) => r = 0 /\ n = 3 /\ content_is 1 s big | _ => False end /\
  load_stdio_name sdesc (fun _ => false) 9 None (ex_st, 3) = Ok 1 (ex_st, 3) /\
  match load_stdio_name sdesc (fun c => match c with Fdopen => true | _ => false end) 9 (Some (Source big true None)) (ex_st, 3) with Ok r (s, z, n) => r = 1 /\ n = 3 /\ content_is 1 s [] | _ => False end /\
  write_stdio_name (fun _ => false) (Some [9]) (Some 2) (ex_st, 3) = Ok (1, Some [104; 101]) (ex_st, 3) /\
  SR sdesc 1 9 (fst ex_st) (snd ex_st) hello 0 (av sdesc ex_prog).
Proof. split; [vm_compute; repeat split|]. split; [vm_compute; reflexivity|]. split; [vm_compute; repeat split|]. split; [vm_compute; reflexivity|]. apply ex_SR. Qed.

(** C59: round trip through a named file, into any stream; unlike with mmap also when there is no data. *)
Theorem C59_roundtrip : forall d, wf_desc d -> d_nul d = Some 0 -> forall x t x' t', t' <> x' ->
  forall s z a v p old n s2 z2 a2 v2 p2 m, SR d x t s z v p a -> SR d x' t' s2 z2 v2 p2 a2 ->
  exists f, write_stdio_name (fun _ => false) old None (s, z, n) = Ok (0, Some f) (s, z, n) /\
  kwp (load_stdio_name d (fun _ => false) t' (Some (Source f true None)))
    (fun r st' m' => r = 0 /\ m' = m /\ holds_now d x' t' a2 v 0 st')
    (fun e st' m' => e = BadAlloc /\ memlow d (2 * zlen v + 2048)) (s2, z2) m.
Proof. exact roundtrip. Qed.
Print Assumptions C59_roundtrip.
Example C59_roundtrip_ex : exists f, write_stdio_name (fun _ => false) (Some [9; 9; 9; 9; 9; 9; 9; 9]) None (ex_st, 3) = Ok (0, Some f) (ex_st, 3) /\
  match load_stdio_name sdesc (fun _ => false) 9 (Some (Source f true None)) (ex_st, 3) with Ok r (s, z, n) => r = 0 /\ n = 3 /\ content_is 1 s hello | _ => False end /\
  SR sdesc 1 9 (fst ex_st) (snd ex_st) hello 0 (av sdesc ex_prog).
Proof. eexists. split; [vm_compute; reflexivity|]. split; [vm_compute; repeat split|]. apply ex_SR. Qed.

(** C59: a file that is not empty and can be read is loaded the same with and without mmap. *)
Theorem C59_same : forall d, wf_desc d -> d_nul d = Some 0 -> forall x t, t <> x ->
  forall s z a v p f n r1 st1 r2 st2 n2, SR d x t s z v p a -> f <> [] -> zlen f < W63 ->
  load_fd d (fun _ => false) t f (s, z) = Ok r1 st1 ->
  load_stdio d (fun _ => false) t (Source f true None) (s, z, n) = Ok r2 (st2, n2) ->
  r1 = 0 /\ r2 = 0 /\ holds_now d x t a f 0 st1 /\ holds_now d x t a f 0 st2 /\ s_load (snd st1) = s_load (snd st2).
Proof. exact same_load. Qed.
Print Assumptions C59_same.
Example C59_same_ex :
  match load_fd sdesc (fun _ => false) 9 [65; 0; 66] ex_st with Ok r _ => r = 0 | _ => False end /\
  match load_stdio sdesc (fun _ => false) 9 (Source [65; 0; 66] true None) (ex_st, 3) with Ok r _ => r = 0 | _ => False end /\
  SR sdesc 1 9 (fst ex_st) (snd ex_st) hello 0 (av sdesc ex_prog).
Proof. split; [vm_compute; reflexivity|]. split; [vm_compute; reflexivity|]. apply ex_SR. Qed.

(** C59: a read error is not reported: loadFile returns 0 with the part of the file that came before it. *)
Theorem C59_read_error_refuted : exists d s z v a f, SR d 1 9 s z v 0 a /\ src_data f = hello /\
  match load_stdio d (fun _ => false) 9 f (s, z, 3) with Ok r (s', _, _) => r = 0 /\ content_is 1 s' [104; 101] | _ => False end.
Proof.
  exists sdesc, (st sdesc ex_prog), (Stream 1 0 false), hello, (av sdesc ex_prog), (Source hello true (Some 2)).
  split; [apply ex_SR|]. split; [reflexivity|]. vm_compute. repeat split.
Qed.
Print Assumptions C59_read_error_refuted.
(** C59: when memory runs out while loading, the duplicated descriptor stays open, and "loading" stays
    set; by name, both descriptors stay open. *)
Theorem C59_leak_refuted : exists d s z v a, SR d 1 9 s z v 0 a /\ s_load z = false /\
  match load_stdio d (fun _ => false) 9 (Source [1; 2; 3] true None) (s, z, 3) with Exn BadAlloc (_, z', n) => n = 4 /\ s_load z' = true | _ => False end /\
  match load_stdio_name d (fun _ => false) 9 (Some (Source [1; 2; 3] true None)) (s, z, 3) with Exn BadAlloc (_, _, n) => n = 5 | _ => False end.
Proof.
  exists (sdesc_oom 4), (st (sdesc_oom 4) ex_prog), (Stream 1 0 false), hello, (av (sdesc_oom 4) ex_prog).
  split; [apply ex_SR_oom; vm_compute; reflexivity|]. split; [reflexivity|]. split; vm_compute; repeat split.
Qed.
Print Assumptions C59_leak_refuted.
(** C59: writing to an open descriptor does not cut off a longer file: writeFile returns 0, yet loading
    from the descriptor gives something else than was written. With mmap the file is the data (C40). *)
Theorem C59_stale_refuted : exists d s z v a f data, SR d 1 9 s z v 0 a /\ snk_pos f = 0 /\
  write_stdio (fun _ => false) f (s, z, 3) = Ok (0, data) (s, z, 3) /\ data <> v /\
  write_fd (fun _ => false) (snk_data f) (s, z) = Ok (0, v) (s, z) /\
  match load_stdio d (fun _ => false) 9 (Source data true None) (s, z, 3) with Ok r (s', _, _) => r = 0 /\ content_is 1 s' [104; 101; 108; 108; 111; 6; 7] | _ => False end.
Proof.
  exists sdesc, (st sdesc ex_prog), (Stream 1 0 false), hello, (av sdesc ex_prog), (Sink [1; 2; 3; 4; 5; 6; 7] 0 None), [104; 101; 108; 108; 111; 6; 7].
  split; [apply ex_SR|]. split; [reflexivity|]. split; [vm_compute; reflexivity|]. split; [discriminate|]. split; [vm_compute; reflexivity|]. vm_compute. repeat split.
Qed.
Print Assumptions C59_stale_refuted.
