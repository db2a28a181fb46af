(** C79: programs that use the whole library at once: Strings and their algorithms, tables, arrays, base64, Streams and files. Every
    theorem is closed by a lemma of AppProof or AppStore; examples beside them. [arel d q w]: the memory [q] holds the tables, arrays,
    Strings, Streams and files of [w]. [el j k] is the name of the k-th element of array [j]; [mm] says whether files are read through mmap. *)
From stdpp Require Import gmap.
From Verif Require Import Base RcaSpec RcaModel RcaExec RcaOwn RcaRel RcaMeet RcaEx StrSpec StrEx B64Spec PtSpec PtModel PtMeet PtEx LibSpec LibModel LibMeet LibProof LibEx AppSpec AppModel AppMeet AppProof AppStore AppEx.
From Verif Require MstSpec MstModel MfSpec MfModel MfMeet MfEx.
Open Scope Z_scope.

(** C79: every program, from nothing, with memory running out and system calls failing anywhere and exceptions caught, is observed as if every
    String were a text, every Stream a text and a cursor, every table a map and every array a list of its own, and the files a map from names to bytes. *)
Theorem C79_history : forall d, wf_desc d -> d_nul d = Some 0 -> (forall b c, d_eqb d b c = (b =? c)) -> forall mdiff, memcmp_ok mdiff ->
  forall grow el, (forall j k k', el j k = el j k' -> k = k') -> forall upper junk mm prog n, Forall (fun c => MfMeet.sane (e_sys (snd c))) prog ->
  aallows d el upper mm (Total (World ∅ ∅ ∅ 0) ∅ ∅) prog (aobserve d mdiff grow el upper junk mm prog (Amem (Lmem (st_init, ∅) ∅ 0) ∅ ∅ n)).
Proof. exact (fun d Hw Hz He mdiff Hm grow el Hel upper junk mm prog n => aobserve_ok d Hw Hz He mdiff Hm grow el Hel upper junk mm prog _ _ (arel_init d n)). Qed.
Print Assumptions C79_history.
Notation OVoid := (SRet (XLib (LOut (POut ONone)))) (only parsing).
Notation OLen z := (SRet (XLib (LOut (POut (OInt z))))) (only parsing).
Notation OTable := (SRet (XLib (LOut PNone))) (only parsing).
Notation OLib v := (SRet (XLib v)) (only parsing).
Notation OFile := (SRet (XFile MstSpec.MNone)) (only parsing).
Notation ONum z := (SRet (XFile (MstSpec.MInt z))) (only parsing).
Example C79_history_ex : wf_desc sdesc /\ d_nul sdesc = Some 0 /\ (forall b c, d_eqb sdesc b c = (b =? c)) /\ memcmp_ok Z.sub /\ (forall j k k', ex_el j k = ex_el j k' -> k = k') /\
  Forall (fun c => MfMeet.sane (e_sys (snd c))) (app_prog ++ app_end) /\ Forall (fun c => MfMeet.sane (e_sys (snd c))) app_fail /\ forall mm,
  aobserve sdesc Z.sub ex_grow ex_el upper ex_junk mm (app_prog ++ app_end) a_init =
    [OVoid; OVoid; OVoid; OVoid; OLib LVoid; OLib LVoid; OLib LVoid; OFile; ONum 0; OFile; OFile; ONum 0;
     OFile; OLib LVoid; OLib (LBool true); OLen 11; OTable; OTable; OLib LVoid; OLib (LBool true); OLen 8;
     SSaw (MstModel.BCap 17); ONum 12; OFile; OLen 2; ONum 14; OLib (LNum 12); OFile; ONum 1; ONum 16] ++
    OLib LVoid :: OTable :: OFile :: OFile :: repeat OVoid 10 /\
  aobserve (sdesc_oom 4) Z.sub ex_grow ex_el upper ex_junk mm app_fail a_init =
    [OVoid; OVoid; OFile; ONum 1; SThrow BadAlloc; ONum 0; OLib LVoid; OLen 8; ONum 4].
Proof.
  split; [exact sdesc_wf|]. split; [reflexivity|]. split; [reflexivity|]. split; [exact StrEx.sub_ok|]. split; [exact ex_el_inj|].
  split; [repeat (constructor; [exact I|]); constructor|]. split; [repeat (constructor; [cbn; first [exact I|lia]|]); constructor|].
  intros mm. split; destruct mm; vm_compute; reflexivity.
Qed.

(** C79: one call, in any memory that holds a world in which the call has what it needs: the result and everything else are as specified, and
    the descriptors that were open are open; bad_alloc comes only where memory can be refused, and leaves what [afail] says. *)
Theorem C79_step : forall d, wf_desc d -> d_nul d = Some 0 -> (forall b c, d_eqb d b c = (b =? c)) -> forall mdiff, memcmp_ok mdiff ->
  forall grow el, (forall j k k', el j k = el j k' -> k = k') -> forall upper junk mm c e q w cap,
  arel d q w -> MfMeet.sane (e_sys e) -> acap c q cap -> apre (step d) el upper mm (lucky mm c e w) cap c w -> adoes d mdiff grow el upper junk mm cap c e q w.
Proof. exact aexec_ok. Qed.
Print Assumptions C79_step.
(** String 1, "hello", is turned by table 1 (hello: World!!, k: hello) while Stream 4 holds the same text; Stream 4 is loaded from the file "k". *)
Example C79_step_ex : forall mm, arel sdesc (ex_a mm) (ex_t mm) /\ MfMeet.sane (e_sys a_fine) /\
  apre (step sdesc) ex_el upper mm (lucky mm (ALib (LSubst 9 1 1)) a_fine (ex_t mm)) 0 (ALib (LSubst 9 1 1)) (ex_t mm) /\
  apre (step sdesc) ex_el upper mm (lucky mm ex_load a_fine (ex_t mm)) 0 ex_load (ex_t mm) /\
  content_is (NestModel.str 9) (heap_of (ex_run mm (ALib (LSubst 9 1 1)) (ex_a mm))) RcaEx.world /\ content_is (NestModel.str 4) (heap_of (ex_run mm (ALib (LSubst 9 1 1)) (ex_a mm))) hello /\
  content_is (NestModel.str 4) (heap_of (ex_run mm ex_load (ex_a mm))) [66; 119; 103; 74] /\ content_is (NestModel.str 1) (heap_of (ex_run mm ex_load (ex_a mm))) hello.
Proof. intros mm. split; [apply ex_arel|]. split; [exact I|]. split; [apply ex_lib|]. split; [apply ex_file|]. destruct mm; vm_compute; repeat split. Qed.

(** C79: whether it returns or throws, what a call does not mention is as it was: tables, arrays, Strings, Streams with their cursors, and files. *)
Theorem C79_apart : forall d, wf_desc d -> d_nul d = Some 0 -> (forall b c, d_eqb d b c = (b =? c)) -> forall mdiff, memcmp_ok mdiff ->
  forall grow el, (forall j k k', el j k = el j k' -> k = k') -> forall upper junk mm c e q w cap,
  arel d q w -> MfMeet.sane (e_sys e) -> acap c q cap -> apre (step d) el upper mm (lucky mm c e w) cap c w ->
  match aexec d mdiff grow el upper junk mm c e q with
  | Ok _ q' | Exn _ q' => exists w', arel d q' w' /\ a_apart el c w w'
  | Term => aends d c w
  | _ => False
  end.
Proof. exact aexec_apart. Qed.
Print Assumptions C79_apart.
(** Loading Stream 4 from the file "k" leaves Stream 5 and its cursor, Strings 1 and 3, table 1 and the file. *)
Example C79_apart_ex : forall mm, arel sdesc (ex_a mm) (ex_t mm) /\ apre (step sdesc) ex_el upper mm (lucky mm ex_load a_fine (ex_t mm)) 0 ex_load (ex_t mm) /\
  (let q := ex_run mm ex_load (ex_a mm) in content_is (NestModel.str 1) (heap_of q) hello /\ content_is (NestModel.str 3) (heap_of q) [107] /\ content_is (NestModel.str 5) (heap_of q) [] /\
    a_disk q !! [107] = Some (enc64 std_alpha [7; 8; 9]) /\ got_of (aexec sdesc Z.sub ex_grow ex_el upper ex_junk mm (ALib (LPt (PSize 1))) a_fine q) = Some (XLib (LOut (PInt 2)))).
Proof. intros mm. split; [apply ex_arel|]. split; [apply ex_file|]. destruct mm; vm_compute; repeat split. Qed.

(** C79: when all tables, Strings and Streams are gone, all memory is, but for one block per failed base64 call. *)
Theorem C79_no_leak : forall d, wf_desc d -> forall q w, arel d q w -> w_maps (w_lib w) = ∅ -> w_strs (w_lib w) = ∅ ->
  st_heap (heap_of q) = ∅ /\ m_blocks (a_lib q) = w_lost (w_lib w) /\ a_streams q = ∅.
Proof. exact arel_none. Qed.
Print Assumptions C79_no_leak.
Example C79_no_leak_ex : forall mm, arel sdesc a_init (Total (World ∅ ∅ ∅ 0) ∅ ∅) /\
  (let q := a_last sdesc mm (app_prog ++ app_end) in map_to_list (st_heap (heap_of q)) = [] /\ m_blocks (a_lib q) = 0 /\ map_to_list (a_streams q) = [] /\ a_fds q = 3) /\
  m_blocks (a_lib (a_last (sdesc_oom 4) mm app_fail)) = 1.
Proof. intros mm. split; [apply arel_init|]. destruct mm; vm_compute; repeat split. Qed.

(** C79: a String that is encoded, put into a Stream and saved is in the file, encoded. *)
Theorem C79_keep : forall d, wf_desc d -> d_nul d = Some 0 -> (forall b c, d_eqb d b c = (b =? c)) -> forall mdiff, memcmp_ok mdiff ->
  forall grow el, (forall j k k', el j k = el j k' -> k = k') -> forall upper junk mm q w x r k y l n e1 e2 e3 g q1 q2 q3,
  arel d q w -> MfMeet.sane (e_sys e1) -> MfMeet.sane (e_sys e2) -> MfMeet.sane (e_sys e3) ->
  full (w_strs (w_lib w)) x = Some l -> bytes l -> MstSpec.text (w_strs (w_lib w)) y = Some (true, n) -> w_cur w !! x = None -> w_cur w !! y = None ->
  w_strs (w_lib w) !! r = None -> w_strs (w_lib w) !! k = None -> r <> k ->
  aexec d mdiff grow el upper junk mm (ALib (LEncode r x)) e1 q = Ok (XLib LVoid) q1 ->
  aexec d mdiff grow el upper junk mm (AFile (MfSpec.FDo (MstSpec.MFrom false k r))) e2 q1 = Ok (XFile MstSpec.MNone) q2 ->
  aexec d mdiff grow el upper junk mm (AFile (MfSpec.FSave g k y)) e3 q2 = Ok (XFile (MstSpec.MInt 0)) q3 ->
  a_disk q3 !! MfSpec.file_name n = Some (enc64 std_alpha l).
Proof. exact encoded_saved. Qed.
Print Assumptions C79_keep.
Example C79_keep_ex : forall mm, let w := ex_t mm in let q := ex_a mm in arel sdesc q w /\ full (w_strs (w_lib w)) 1 = Some hello /\ bytes hello /\
  MstSpec.text (w_strs (w_lib w)) 3 = Some (true, [107]) /\ w_cur w !! 1%positive = None /\ w_cur w !! 3%positive = None /\ w_strs (w_lib w) !! 9%positive = None /\ w_strs (w_lib w) !! 10%positive = None /\
  exists q1 q2 q3, let run := aexec sdesc Z.sub ex_grow ex_el upper ex_junk mm in
    run (ALib (LEncode 9 1)) a_fine q = Ok (XLib LVoid) q1 /\ run (AFile (MfSpec.FDo (MstSpec.MFrom false 10 9))) a_fine q1 = Ok (XFile MstSpec.MNone) q2 /\
    run (AFile (MfSpec.FSave false 10 3)) a_fine q2 = Ok (XFile (MstSpec.MInt 0)) q3 /\ a_disk q3 !! [107] = Some [97; 71; 86; 115; 98; 71; 56; 61].
Proof.
  intros mm w q. split; [apply ex_arel|]. split; [destruct mm; vm_compute; reflexivity|]. split; [repeat (apply List.Forall_cons; [lia|]); apply List.Forall_nil|].
  split; [destruct mm; vm_compute; reflexivity|]. split; [destruct mm; vm_compute; reflexivity|]. split; [destruct mm; vm_compute; reflexivity|]. split; [destruct mm; vm_compute; reflexivity|]. split; [destruct mm; vm_compute; reflexivity|].
  set (q1 := ex_run mm (ALib (LEncode 9 1)) q). set (q2 := ex_run mm (AFile (MfSpec.FDo (MstSpec.MFrom false 10 9))) q1). set (q3 := ex_run mm (AFile (MfSpec.FSave false 10 3)) q2).
  exists q1, q2, q3. cbv zeta. split; [apply got_mem; destruct mm; vm_compute; reflexivity|]. split; [apply got_mem; destruct mm; vm_compute; reflexivity|].
  split; [apply got_mem; destruct mm; vm_compute; reflexivity|destruct mm; vm_compute; reflexivity].
Qed.

(** C79: whenever a file holds an encoding, a String loaded from it through a Stream and decoded is what was encoded; no other text is different. *)
Theorem C79_fetch : forall d, wf_desc d -> d_nul d = Some 0 -> (forall b c, d_eqb d b c = (b =? c)) -> forall mdiff, memcmp_ok mdiff ->
  forall grow el, (forall j k k', el j k = el j k' -> k = k') -> forall upper junk mm q w y j z u l n e1 e2 e3 e4 g q1 q2 q3 q4,
  arel d q w -> MfMeet.sane (e_sys e1) -> MfMeet.sane (e_sys e2) -> MfMeet.sane (e_sys e3) -> MfMeet.sane (e_sys e4) -> (mm = true \/ MfModel.x_err (e_sys e2) = None) ->
  a_disk q !! MfSpec.file_name n = Some (enc64 std_alpha l) -> bytes l -> MstSpec.text (w_strs (w_lib w)) y = Some (true, n) -> w_cur w !! y = None ->
  w_strs (w_lib w) !! j = None -> w_strs (w_lib w) !! z = None -> w_strs (w_lib w) !! u = None -> NoDup [j; z; u] ->
  aexec d mdiff grow el upper junk mm (AFile (MfSpec.FDo (MstSpec.MNew j))) e1 q = Ok (XFile MstSpec.MNone) q1 ->
  aexec d mdiff grow el upper junk mm (AFile (MfSpec.FLoad g j y)) e2 q1 = Ok (XFile (MstSpec.MInt 0)) q2 ->
  aexec d mdiff grow el upper junk mm (AFile (MfSpec.FDo (MstSpec.MTake MstSpec.GString z j))) e3 q2 = Ok (XFile MstSpec.MNone) q3 ->
  aexec d mdiff grow el upper junk mm (ALib (LDecode u z)) e4 q3 = Ok (XLib LVoid) q4 ->
  exists w4, arel d q4 w4 /\ full (w_strs (w_lib w4)) u = Some l /\ forall x, x <> j -> x <> z -> x <> u -> w_strs (w_lib w4) !! x = w_strs (w_lib w) !! x.
Proof. exact loaded_decoded. Qed.
Print Assumptions C79_fetch.
Example C79_fetch_ex : forall mm, let w := ex_t mm in let q := ex_a mm in arel sdesc q w /\ (mm = true \/ MfModel.x_err (e_sys a_fine) = None) /\
  a_disk q !! MfSpec.file_name [107] = Some (enc64 std_alpha [7; 8; 9]) /\ bytes [7; 8; 9] /\
  MstSpec.text (w_strs (w_lib w)) 3 = Some (true, [107]) /\ w_cur w !! 3%positive = None /\ w_strs (w_lib w) !! 9%positive = None /\ w_strs (w_lib w) !! 10%positive = None /\ w_strs (w_lib w) !! 11%positive = None /\
  exists q1 q2 q3 q4, let run := aexec sdesc Z.sub ex_grow ex_el upper ex_junk mm in
    run (AFile (MfSpec.FDo (MstSpec.MNew 9))) a_fine q = Ok (XFile MstSpec.MNone) q1 /\ run (AFile (MfSpec.FLoad false 9 3)) a_fine q1 = Ok (XFile (MstSpec.MInt 0)) q2 /\
    run (AFile (MfSpec.FDo (MstSpec.MTake MstSpec.GString 10 9))) a_fine q2 = Ok (XFile MstSpec.MNone) q3 /\ run (ALib (LDecode 11 10)) a_fine q3 = Ok (XLib LVoid) q4 /\
    content_is (NestModel.str 11) (heap_of q4) [7; 8; 9].
Proof.
  intros mm w q. split; [apply ex_arel|]. split; [right; reflexivity|]. split; [destruct mm; vm_compute; reflexivity|]. split; [repeat (apply List.Forall_cons; [lia|]); apply List.Forall_nil|].
  split; [destruct mm; vm_compute; reflexivity|]. split; [destruct mm; vm_compute; reflexivity|]. split; [destruct mm; vm_compute; reflexivity|]. split; [destruct mm; vm_compute; reflexivity|]. split; [destruct mm; vm_compute; reflexivity|].
  set (q1 := ex_run mm (AFile (MfSpec.FDo (MstSpec.MNew 9))) q). set (q2 := ex_run mm (AFile (MfSpec.FLoad false 9 3)) q1). set (q3 := ex_run mm (AFile (MfSpec.FDo (MstSpec.MTake MstSpec.GString 10 9))) q2). set (q4 := ex_run mm (ALib (LDecode 11 10)) q3).
  exists q1, q2, q3, q4. cbv zeta. split; [apply got_mem; destruct mm; vm_compute; reflexivity|]. split; [apply got_mem; destruct mm; vm_compute; reflexivity|].
  split; [apply got_mem; destruct mm; vm_compute; reflexivity|]. split; [apply got_mem; destruct mm; vm_compute; reflexivity|destruct mm; vm_compute; repeat split].
Qed.
