(** C38-C40: Stream. Every theorem is closed by a lemma of StreamProof; examples beside them. *)
From Verif Require Import RcaSpec RcaModel RcaExec RcaOwn RcaRel RcaMeet RcaReach RcaEx StreamSpec StreamModel StreamMeet StreamProof.
Open Scope Z_scope.

(** A stream over "hello", made from a String that is still shared with variable 2; variable 9 is free. *)
Definition ex_prog : list (op Z) := [CtorCstrLen 2 hello 5; CtorCopy 1 2].
Definition ex_st : state Z * stream := (st sdesc ex_prog, Stream 1 0 false).
Lemma ex_SR p : 0 <= p < W64 -> SR sdesc 1 9 (st sdesc ex_prog) (Stream 1 p false) hello p (av sdesc ex_prog).
Proof. intros Hp. split; [reflexivity|reflexivity|exact Hp|apply run_reached|exists true; vm_compute; reflexivity|vm_compute; reflexivity]. Qed.

(** C38: whatever calls are made on a stream whose String holds [v] and whose cursor is [p], the results
    and exceptions are those of a byte list with a cursor; bad_alloc only if memory can be refused at a size the
    call may ask for. *)
Theorem C38_sequences : forall d, wf_desc d -> d_nul d = Some 0 -> forall x t, t <> x ->
  forall ops s z v p a, SR d x t s z v p a -> sallows (fun o v => memlow d (extent o v)) v p ops (sobserve d t ops (s, z)).
Proof. exact sobserve_ok. Qed.
Print Assumptions C38_sequences.
Example C38_sequences_ex : sobserve sdesc 9 [SPuts true [1; 2]; STell; SString; SSeek 3 0; SPuts false [7; 8; 9; 10; 11]; STell; SSeek (-3) 1; STruncate; SString; SPeek; SLength] ex_st =
  [SoRet RNone; SoRet (RInt 2); SoRet (RBytes [1; 2; 108; 108; 111]); SoCap 6; SoRet (RInt 3); SoRet RNone; SoRet (RInt 8); SoCap 9; SoRet (RInt 5); SoRet RNone;
   SoRet (RBytes [1; 2; 108; 7; 8]); SoRet (RBytes []); SoRet (RInt 5)] /\ SR sdesc 1 9 (fst ex_st) (snd ex_st) hello 0 (av sdesc ex_prog).
Proof. split; [vm_compute; reflexivity|apply ex_SR; unfold W64; lia]. Qed.

(** C38: one call in detail: result, data and cursor as specified, every other String untouched; failure
    only by exhausted memory, or by out_of_range when writing behind the end. *)
Theorem C38_step : forall d, wf_desc d -> d_nul d = Some 0 -> forall x t, t <> x ->
  forall o s z a v p c, SR d x t s z v p a -> capacity x s = Ok c s -> zlen v <= c ->
  match pstep c o v p with
  | None => True
  | Some PRange => wp (srun d t o) (fun _ _ => False)
      (fun e st' => range_post d x t a (s_load z) v p e st' \/ fail_post d x t o a (s_load z) v p e st') (s, z)
  | Some (PRet v' p' r) => wp (srun d t o) (done_ok d x t a (s_load z) v' p' r) (fail_post d x t o a (s_load z) v p) (s, z)
  end.
Proof. exact srun_ok. Qed.
Print Assumptions C38_step.
Example C38_step_ex : capacity 1 (st sdesc ex_prog) = Ok 6 (st sdesc ex_prog) /\
  pstep 6 (SPuts true [1; 2]) hello 4 = Some (PRet [104; 101; 108; 108; 1; 2] 6 RNone).
Proof. split; vm_compute; reflexivity. Qed.

(** C38: streams start out that way. *)
Theorem C38_new : forall d, wf_desc d -> forall x t, t <> x ->
  forall s a, reached d s a -> a !! x = None -> a !! t = None ->
  (exists s', exec d (CtorDefault x) s = Ok ONone s' /\ SR d x t s' (Stream x 0 false) [] 0 (<[x := AVal true []]> a)) /\
  (forall y r w, a !! y = Some (AVal r (map Some w)) ->
     exists s', exec d (CtorCopy x y) s = Ok ONone s' /\ SR d x t s' (Stream x 0 false) w 0 (<[x := AVal r (map Some w)]> a)).
Proof. exact stream_new. Qed.
Print Assumptions C38_new.
Example C38_new_ex : reached sdesc (st sdesc ex_prog) (av sdesc ex_prog) /\ av sdesc ex_prog !! 5%positive = None /\ av sdesc ex_prog !! 2%positive = Some (AVal true (map Some hello)).
Proof. split; [apply run_reached|split; vm_compute; reflexivity]. Qed.

(** C38: while the cursor is within the data, nothing is thrown unless memory runs out. *)
Theorem C38_no_throw : forall d, wf_desc d -> d_nul d = Some 0 -> forall x t, t <> x ->
  forall o s z a v p e st', SR d x t s z v p a -> p <= zlen v -> zlen v < W31 ->
  (match o with SPuts _ w => zlen w < npos | SSeek _ _ => False | SRead n _ | SGetline n => 0 <= n | _ => True end) ->
  srun d t o (s, z) = Exn e st' -> e = BadAlloc /\ memlow d (extent o v).
Proof. exact no_throw. Qed.
Print Assumptions C38_no_throw.
Example C38_no_throw_ex :
  let s := st (sdesc_oom 4) ex_prog in
  exists st', srun (sdesc_oom 4) 9 (SPuts false [1; 2; 3; 4; 5; 6; 7; 8]) (s, Stream 1 2 false) = Exn BadAlloc st' /\
  SR (sdesc_oom 4) 1 9 s (Stream 1 2 false) hello 2 (av (sdesc_oom 4) ex_prog).
Proof. eexists. split; [vm_compute; reflexivity|]. split; [reflexivity|reflexivity|unfold W64; lia|apply run_reached|exists true; vm_compute; reflexivity|vm_compute; reflexivity]. Qed.

(** C38: the cursor is bounded by the capacity and not by the length. seek(0, SEEK_END) does not go to the
    end of the data; the next puts then throws although the stream is intact. *)
Theorem C38_seek_end_refuted : exists d s z v a, SR d 1 9 s z v 0 a /\
  sobserve d 9 [SSeek 0 2; SLength; SPuts false [33]] (s, z) = [SoCap 6; SoRet (RInt 6); SoRet (RInt 5); SoThrow OutOfRange].
Proof.
  exists sdesc, (st sdesc ex_prog), (Stream 1 0 false), hello, (av sdesc ex_prog).
  split; [apply ex_SR; unfold W64; lia|vm_compute; reflexivity].
Qed.
Print Assumptions C38_seek_end_refuted.
(** C38: with the cursor behind the data, read moves it further away, and reading a line touches memory
    outside the String. *)
Theorem C38_read_behind_refuted : exists d s z v a, SR d 1 9 s z v 0 a /\
  sobserve d 9 [SSeek 6 0; SRead 4 0; STell; SRead 100 0; STell] (s, z) = [SoCap 6; SoRet (RInt 6); SoRet (RBytes []); SoRet (RInt 10); SoRet (RBytes []); SoRet (RInt 110)] /\
  srun d 9 (SGetline 4) (s, Stream 1 6 false) = Undef UbBounds.
Proof.
  exists sdesc, (st sdesc ex_prog), (Stream 1 0 false), hello, (av sdesc ex_prog).
  split; [apply ex_SR; unfold W64; lia|split; vm_compute; reflexivity].
Qed.
Print Assumptions C38_read_behind_refuted.

(** C39: reading lines until the end gives exactly the lines of the data from the cursor on. *)
Theorem C39_lines : forall d, wf_desc d -> d_nul d = Some 0 -> forall x t, t <> x ->
  forall s z a v p, SR d x t s z v p a -> zlen v < W31 -> p <= zlen v ->
  wp (read_all d t (S (length v)) (SGetline 99999999))
    (fun ls '(s', z') => ls = split_lines (zdrop p v) /\ exists a', SR d x t s' z' v (zlen v) a' /\ keeps x a a')
    (fun e '(s', z') => e = BadAlloc /\ memlow d (zlen v + 3) /\ exists p' a', SR d x t s' z' v p' a' /\ keeps x a a' /\ p <= p' <= zlen v) (s, z).
Proof. exact read_lines. Qed.
Print Assumptions C39_lines.
(** C39: what lines are: nothing is lost, each is a run without newline ended by one newline, save the last. *)
Theorem C39_lines_are : forall l, concat (split_lines l) = l /\
  forall ls1 m ls2, split_lines l = ls1 ++ m :: ls2 -> m <> [] /\ (exists b, (m = b \/ m = b ++ [10]) /\ ~ In 10 b) /\ (ls2 <> [] -> exists b, m = b ++ [10]).
Proof. exact split_lines_are. Qed.
Print Assumptions C39_lines_are.
Definition two_lines : list Z := [104; 105; 10; 10; 121; 111].
Example C39_lines_ex :
  let s := st sdesc [CtorCstrLen 1 two_lines 6] in
  match read_all sdesc 9 7 (SGetline 99999999) (s, Stream 1 0 false) with Ok ls (_, z) => ls = [[104; 105; 10]; [10]; [121; 111]] /\ s_pos z = 6 | _ => False end /\
  SR sdesc 1 9 s (Stream 1 0 false) two_lines 0 (av sdesc [CtorCstrLen 1 two_lines 6]).
Proof. split; [vm_compute; split; reflexivity|]. split; [reflexivity|reflexivity|unfold W64; lia|apply run_reached|exists true; vm_compute; reflexivity|vm_compute; reflexivity]. Qed.

(** C39: the same for any size and delimiter: the pieces are as specified and together are the data; the
    loop ends after at most one call per byte. *)
Theorem C39_partition : forall d, wf_desc d -> d_nul d = Some 0 -> forall x t, t <> x ->
  forall g, reads g -> forall s z a v p, SR d x t s z v p a -> zlen v < W31 -> p <= zlen v ->
  wp (read_all d t (S (length v)) g)
    (fun ls '(s', z') => concat ls = zdrop p v /\ pieces (get_size g) (get_delim g) (zdrop p v) ls /\ exists a', SR d x t s' z' v (zlen v) a' /\ keeps x a a')
    (fun e '(s', z') => e = BadAlloc /\ memlow d (zlen v + 3) /\ exists p' a', SR d x t s' z' v p' a' /\ keeps x a a' /\ p <= p' <= zlen v) (s, z).
Proof. exact read_partition. Qed.
Print Assumptions C39_partition.
Example C39_partition_ex :
  match read_all sdesc 9 6 (SRead 2 0) ex_st with Ok ls _ => ls = [[104; 101]; [108; 108]; [111]] | _ => False end /\ reads (SRead 2 0).
Proof. split; [vm_compute; reflexivity|reflexivity]. Qed.
(** C39: each piece is a non-empty prefix of what is left, of at most the requested size plus one byte for
    the delimiter, and the delimiter occurs in it only at the end. *)
Theorem C39_piece : forall n c rest, 0 < n -> rest <> [] ->
  let l := piece n c rest in
  l <> [] /\ (exists rest', rest = l ++ rest') /\ zlen l <= n + 1 /\ (c = 0 -> zlen l = Z.min n (zlen rest)) /\
  (c <> 0 -> exists b, ~ In c b /\ zlen b <= n /\ (l = b \/ l = b ++ [c]) /\ (l = b -> zlen b = Z.min n (zlen rest))).
Proof. exact piece_is. Qed.
Print Assumptions C39_piece.
Example C39_piece_ex : piece 3 44 [65; 66; 44; 67; 44] = [65; 66; 44] /\ piece 1 44 [65; 66; 44; 67; 44] = [65].
Proof. split; reflexivity. Qed.
(** C39: read(2, ',') returns three bytes. *)
Theorem C39_max_refuted : exists d s z v a l, SR d 1 9 s z v 0 a /\ sobserve d 9 [SRead 2 44] (s, z) = [SoRet (RBytes l)] /\ zlen l = 3.
Proof.
  exists sdesc, (st sdesc [CtorCstrLen 1 [65; 66; 44; 67] 4]), (Stream 1 0 false), [65; 66; 44; 67], (av sdesc [CtorCstrLen 1 [65; 66; 44; 67] 4]), [65; 66; 44].
  split; [|split; vm_compute; reflexivity]. split; [reflexivity|reflexivity|unfold W64; lia|apply run_reached|exists true; vm_compute; reflexivity|vm_compute; reflexivity].
Qed.
Print Assumptions C39_max_refuted.

(** C40: writing leaves the stream alone and returns 0 exactly when no system call fails; then the file is
    the data, whatever was in it before. *)
Theorem C40_write : forall d, wf_desc d -> forall x t fails s z a v p f, SR d x t s z v p a ->
  exists f', write_fd fails f (s, z) = Ok (if write_fails fails v then 1 else 0, f') (s, z) /\ (write_fails fails v = false -> f' = v).
Proof. exact write_ok. Qed.
Print Assumptions C40_write.
Example C40_write_ex : write_fd (fun _ => false) [1; 2; 3; 4; 5; 6; 7; 8] ex_st = Ok (0, hello) ex_st.
Proof. vm_compute. reflexivity. Qed.
(** C40: loading returns 0 exactly when no system call fails and the file is not empty; then the data is
    the file and the cursor is 0. Otherwise the stream is empty. *)
Theorem C40_load : forall d, wf_desc d -> d_nul d = Some 0 -> forall x t, t <> x ->
  forall fails s z a v p f, SR d x t s z v p a -> zlen f < W63 ->
  wp (load_fd d fails t f)
    (fun r '(s', z') => if load_fails fails f then r = 1 /\ s_load z' = s_load z /\ exists a', SR d x t s' z' [] 0 a' /\ keeps x a a'
                        else r = 0 /\ s_load z' = false /\ exists a', SR d x t s' z' f 0 a' /\ keeps x a a')
    (fun e '(s', z') => e = BadAlloc /\ memlow d (2 * zlen f + 2048) /\ exists a', SR d x t s' z' [] 0 a' /\ keeps x a a') (s, z).
Proof. exact load_ok. Qed.
Print Assumptions C40_load.
Example C40_load_ex : match load_fd sdesc (fun _ => false) 9 [65; 0; 66] ex_st with Ok r (s, z) => r = 0 /\ content_is 1 s [65; 0; 66] /\ s_pos z = 0 | _ => False end.
Proof. vm_compute. repeat split. Qed.
(** C40: by name: a file that cannot be opened leaves the stream, or the file, as it was and 1 is returned; else as above. *)
Theorem C40_load_name : forall d, wf_desc d -> d_nul d = Some 0 -> forall x t, t <> x ->
  forall fails s z a v p file, SR d x t s z v p a -> match file with Some f => zlen f < W63 | None => True end ->
  wp (load_name d fails t file)
    (fun r '(s', z') =>
       match file with
       | Some f =>
         if fails OpenRead then r = 1 /\ s' = s /\ z' = z
         else if load_fails fails f then r = 1 /\ s_load z' = s_load z /\ exists a', SR d x t s' z' [] 0 a' /\ keeps x a a'
         else r = 0 /\ s_load z' = false /\ exists a', SR d x t s' z' f 0 a' /\ keeps x a a'
       | None => r = 1 /\ s' = s /\ z' = z
       end)
    (fun e '(s', z') => e = BadAlloc /\ (exists f, file = Some f /\ memlow d (2 * zlen f + 2048)) /\ exists a', SR d x t s' z' [] 0 a' /\ keeps x a a') (s, z).
Proof. exact load_name_ok. Qed.
Print Assumptions C40_load_name.
Theorem C40_write_name : forall d, wf_desc d -> forall x t fails s z a v p file, SR d x t s z v p a ->
  exists file', write_name fails file (s, z) = Ok (if fails OpenWrite || write_fails fails v then 1 else 0, file') (s, z) /\
    if fails OpenWrite then file' = file else exists f, file' = Some f /\ (write_fails fails v = false -> f = v).
Proof. exact write_name_ok. Qed.
Print Assumptions C40_write_name.
Example C40_name_ex :
  match load_name sdesc (fun _ => false) 9 (Some [65; 0; 66]) ex_st with Ok r (s, z) => r = 0 /\ content_is 1 s [65; 0; 66] /\ s_pos z = 0 | _ => False end /\
  load_name sdesc (fun _ => false) 9 None ex_st = Ok 1 ex_st /\
  write_name (fun _ => false) (Some [1; 2; 3; 4; 5; 6; 7; 8]) ex_st = Ok (0, Some hello) ex_st /\
  write_name (fun _ => true) (Some [1; 2]) ex_st = Ok (1, Some [1; 2]) ex_st.
Proof. split; [vm_compute; repeat split|]. split; [reflexivity|]. split; vm_compute; reflexivity. Qed.
(** C40: round trip through a named file, into any stream. *)
Theorem C40_roundtrip : forall d, wf_desc d -> d_nul d = Some 0 -> forall x t x' t', t' <> x' ->
  forall s z a v p old s2 z2 a2 v2 p2, SR d x t s z v p a -> v <> [] -> SR d x' t' s2 z2 v2 p2 a2 ->
  exists f, write_name (fun _ => false) old (s, z) = Ok (0, f) (s, z) /\
  wp (load_name d (fun _ => false) t' f)
    (fun r '(s', z') => r = 0 /\ exists a', SR d x' t' s' z' v 0 a' /\ keeps x' a2 a')
    (fun e '(s', z') => e = BadAlloc /\ memlow d (2 * zlen v + 2048)) (s2, z2).
Proof. exact roundtrip. Qed.
Print Assumptions C40_roundtrip.
Example C40_roundtrip_ex : exists f, write_name (fun _ => false) (Some [9]) ex_st = Ok (0, f) ex_st /\
  match load_name sdesc (fun _ => false) 9 f (fst ex_st, Stream 1 3 false) with Ok r (s, z) => r = 0 /\ content_is 1 s hello /\ s_pos z = 0 | _ => False end.
Proof. eexists. split; [vm_compute; reflexivity|vm_compute; repeat split]. Qed.
(** C40: an empty stream can be written but not read back: loading the file reports an error and discards
    what the stream held. *)
Theorem C40_empty_refuted : exists d s z v a, SR d 1 9 s z v 0 a /\ v <> [] /\
  write_name (fun _ => false) None (st d [CtorDefault 1], Stream 1 0 false) = Ok (0, Some []) (st d [CtorDefault 1], Stream 1 0 false) /\
  match load_name d (fun _ => false) 9 (Some []) (s, z) with Ok r (s', _) => r = 1 /\ content_is 1 s' [] | _ => False end.
Proof.
  exists sdesc, (st sdesc ex_prog), (Stream 1 0 false), hello, (av sdesc ex_prog).
  split; [apply ex_SR; unfold W64; lia|]. split; [discriminate|]. split; [vm_compute; reflexivity|vm_compute; repeat split].
Qed.
Print Assumptions C40_empty_refuted.
(** C40: when memory runs out while loading, "loading" stays set. *)
Theorem C40_loading_refuted : exists d s z v a, SR d 1 9 s z v 0 a /\ s_load z = false /\
  match load_fd d (fun _ => false) 9 [1; 2; 3] (s, z) with Exn BadAlloc (_, z') => s_load z' = true | _ => False end.
Proof.
  exists (sdesc_oom 4), (st (sdesc_oom 4) ex_prog), (Stream 1 0 false), hello, (av (sdesc_oom 4) ex_prog).
  split; [split; [reflexivity|reflexivity|unfold W64; lia|apply run_reached|exists true; vm_compute; reflexivity|vm_compute; reflexivity]|]. split; [reflexivity|]. vm_compute. reflexivity.
Qed.
Print Assumptions C40_loading_refuted.
