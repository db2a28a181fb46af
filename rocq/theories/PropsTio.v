(** C80: programs that read text from istreams and write it to ostreams besides using the whole library, each call depending on what was seen before.
    Every theorem is closed by a lemma of TioProof or TioBack; examples beside them. [trel d q w]: the memory [q] holds the library's objects,
    files and text streams of [w]. [high b] is what isspace says of a byte from 128 to 254; [marks] says whether a skipped ostream failure is marked. *)
From stdpp Require Import gmap.
From Verif Require Import Base RcaSpec RcaModel RcaExec RcaOwn RcaRel RcaMeet RcaEx StrSpec StrEx PtSpec PtModel PtMeet PtEx LibSpec LibModel LibMeet LibProof LibEx AppSpec AppModel AppMeet AppProof AppEx
  IsSpec OsSpec TioSpec TioModel TioMeet TioProof TioBack TioEx.
From Verif Require MstSpec MstModel MfSpec MfModel MfMeet MfEx.
Open Scope Z_scope.

(** C80: every program, from nothing, its next call chosen by what it saw, with memory running out and system calls failing anywhere and exceptions
    caught, is observed as if every String were a text of its own, every istream the text still to be read and every ostream the text written. *)
Theorem C80_history : forall d, wf_desc d -> d_nul d = Some 0 -> (forall b c, d_eqb d b c = (b =? c)) -> forall mdiff, memcmp_ok mdiff ->
  forall grow el, (forall j k k', el j k = el j k' -> k = k') -> forall upper junk mm high marks p n, all_sane p ->
  tallows d el upper mm high (Scene (Total (World ∅ ∅ ∅ 0) ∅ ∅) ∅ ∅) p (tobserve d mdiff grow el upper junk mm high marks p (Tmem (Amem (Lmem (st_init, ∅) ∅ 0) ∅ ∅ n) ∅ ∅)).
Proof. exact (fun d Hw Hz He mdiff Hm grow el Hel upper junk mm high marks p n => tobserve_ok d Hw Hz He mdiff Hm grow el Hel upper junk mm high marks p _ _ (trel_init d n)). Qed.
Print Assumptions C80_history.
Notation TLib v := (TRet (ZApp (XLib v))) (only parsing).
Notation TDone := (TLib (LOut (POut ONone))) (only parsing).
Notation TLen z := (TLib (LOut (POut (OInt z)))) (only parsing).
(** "  to be\nor not " is read word by word until the istream fails, into an array; joined with "+" it is written, and read again as a line; another line there is not.
    With a memory that allows no more than so much, reading "lengthiest" gives up and loses a letter. *)
Example C80_history_ex : wf_desc sdesc /\ d_nul sdesc = Some 0 /\ (forall b c, d_eqb sdesc b c = (b =? c)) /\ memcmp_ok Z.sub /\ (forall j k k', ex_el j k = ex_el j k' -> k = k') /\
  all_sane t_words /\ all_sane t_short /\ forall mm,
  tobserve sdesc Z.sub ex_grow ex_el upper ex_junk mm ex_high false t_words t_start =
    [TDone; TDone; TLib LVoid; TRet ZVoid; TRet ZVoid; TRet (ZBool true); TLib LVoid; TRet ZVoid; TRet (ZBool true); TLib LVoid; TRet ZVoid; TRet (ZBool true); TLib LVoid;
     TRet ZVoid; TRet (ZBool true); TLib LVoid; TRet ZVoid; TRet (ZBool false); TLib (LNum 4); TLib LVoid; TRet ZVoid; TRet ZVoid; TRet ZVoid;
     TRet (ZText [116; 111; 43; 98; 101; 43; 111; 114; 43; 110; 111; 116; 10]); TRet ZVoid; TRet ZVoid; TLib (LBool true); TRet (ZBool true); TRet ZVoid; TRet (ZBool false); TLen 0;
     TLib LVoid; TDone; TDone; TDone] /\
  tobserve (sdesc_oom 5) Z.sub ex_grow ex_el upper ex_junk mm ex_high false t_short t_start =
    [TDone; TRet ZVoid; TThrow BadAlloc; TLen 1; TRet (ZBool true); TRet ZVoid; TLen 8].
Proof.
  split; [exact sdesc_wf|]. split; [reflexivity|]. split; [reflexivity|]. split; [exact StrEx.sub_ok|]. split; [exact ex_el_inj|].
  split; [apply ex_sane_words|]. split; [apply ex_sane_short|]. intros mm. split; destruct mm; vm_compute; reflexivity.
Qed.

(** C80: one call, in any memory that holds a scene in which the call has what it needs: the result and everything else are as specified, and the
    descriptors that were open are open; bad_alloc comes only where memory can be refused, and leaves what [tfail] says. *)
Theorem C80_step : forall d, wf_desc d -> d_nul d = Some 0 -> (forall b c, d_eqb d b c = (b =? c)) -> forall mdiff, memcmp_ok mdiff ->
  forall grow el, (forall j k k', el j k = el j k' -> k = k') -> forall upper junk mm high marks c e q w cap,
  trel d q w -> MfMeet.sane (e_sys e) -> tcap c q cap -> tpre (step d) el upper mm high (tlucky mm c e w) cap c w -> tdoes d mdiff grow el upper junk mm high marks cap c e q w.
Proof. exact texec_ok. Qed.
Print Assumptions C80_step.
(** A word of " one two" is read into String 2, which shares its text with a value of table 1; String 1 is as it was. *)
Example C80_step_ex : forall mm, trel sdesc (ex_tq mm) (ex_tw mm) /\ MfMeet.sane (e_sys a_fine) /\ tcap (TRead false 1 2) (ex_tq mm) 0 /\
  tpre (step sdesc) ex_el upper mm ex_high (tlucky mm (TRead false 1 2) a_fine (ex_tw mm)) 0 (TRead false 1 2) (ex_tw mm) /\
  (let q := ex_next mm (TRead false 1 2) (ex_tq mm) in content_is (NestModel.str 2) (heap_of (t_app q)) [111; 110; 101] /\ content_is (NestModel.str 1) (heap_of (t_app q)) hello /\
    t_ins q !! 1%positive = Some (IS [32; 116; 119; 111] false false false true)).
Proof. intros mm. split; [apply ex_trel|]. split; [exact I|]. split; [exact I|]. split; [apply ex_tread|]. destruct mm; vm_compute; repeat split. Qed.

(** C80: whether it returns or throws, what a call does not mention is as it was, text streams included. *)
Theorem C80_apart : forall d, wf_desc d -> d_nul d = Some 0 -> (forall b c, d_eqb d b c = (b =? c)) -> forall mdiff, memcmp_ok mdiff ->
  forall grow el, (forall j k k', el j k = el j k' -> k = k') -> forall upper junk mm high marks c e q w cap,
  trel d q w -> MfMeet.sane (e_sys e) -> tcap c q cap -> tpre (step d) el upper mm high (tlucky mm c e w) cap c w ->
  match texec d mdiff grow el upper junk mm high marks c e q with
  | Ok _ q' | Exn _ q' => exists w', trel d q' w' /\ t_apart el c w w'
  | Term => tends d c w
  | _ => False
  end.
Proof. exact texec_apart. Qed.
Print Assumptions C80_apart.
(** Reading into String 2 leaves the table's value, Strings 1 and 3, Stream 5 and the file "k". *)
Example C80_apart_ex : forall mm, trel sdesc (ex_tq mm) (ex_tw mm) /\
  tpre (step sdesc) ex_el upper mm ex_high (tlucky mm (TRead false 1 2) a_fine (ex_tw mm)) 0 (TRead false 1 2) (ex_tw mm) /\
  (let q := ex_next mm (TRead false 1 2) (ex_tq mm) in let s := heap_of (t_app q) in content_is (NestModel.str 1) s hello /\ content_is (NestModel.str 3) s [107] /\ content_is (NestModel.str 5) s [] /\
    a_disk (t_app q) !! [107] = Some (B64Spec.enc64 B64Spec.std_alpha [7; 8; 9]) /\
    got_of (aexec sdesc Z.sub ex_grow ex_el upper ex_junk mm (ALib (LPt (PSize 1))) a_fine (t_app q)) = Some (XLib (LOut (PInt 2))) /\
    content_is (NestModel.str 9) (heap_of (ex_run mm (ALib (LSubst 9 1 1)) (t_app q))) RcaEx.world).
Proof. intros mm. split; [apply ex_trel|]. split; [apply ex_tread|]. destruct mm; vm_compute; repeat split. Qed.

(** C80: what is read from an istream, and what is left of it, is determined, whatever the istream holds. *)
Theorem C80_reads : forall line v, (exists l v' f, reads line v l v' f) /\
  forall l1 v1 f1 l2 v2 f2, reads line v l1 v1 f1 -> reads line v l2 v2 f2 -> l1 = l2 /\ v1 = v2.
Proof. exact (fun line v => conj (reads_some line v) (reads_one line v)). Qed.
Print Assumptions C80_reads.
Example C80_reads_ex : (exists f, reads false (Open ex_text) [111; 110; 101] (Open [32; 116; 119; 111]) f) /\ (exists f, reads true (Open ex_text) ex_text Failed f) /\
  (exists f, reads true (Open [97; 10; 10; 98]) [97] (Open [10; 98]) f).
Proof.
  split; [eexists; exact (reads_word _ _ _ _ ex_word)|]. split; eexists; [apply reads_last|exact (reads_line [97] [10; 98] ltac:(cbn; lia))].
  intros H. vm_compute in H. intuition discriminate.
Qed.

(** C80: two Strings without newlines, written to an ostream as two lines, come back from an istream by getline; no other String changes. *)
Theorem C80_back : forall d, wf_desc d -> d_nul d = Some 0 -> (forall b c, d_eqb d b c = (b =? c)) -> forall mdiff, memcmp_ok mdiff ->
  forall grow el, (forall j k k', el j k = el j k' -> k = k') -> forall upper junk mm high marks q w o i x y u v lx ly e q1 q2 q3 q4 q5 q6 q7, trel d q w -> MfMeet.sane (e_sys e) ->
  s_out w !! o = None -> s_in w !! i = None -> full (texts w) x = Some lx -> full (texts w) y = Some ly -> w_cur (s_app w) !! x = None -> w_cur (s_app w) !! y = None ->
  is_Some (texts w !! u) -> is_Some (texts w !! v) -> w_cur (s_app w) !! u = None -> w_cur (s_app w) !! v = None -> u <> v -> ~ In 10 lx -> ~ In 10 ly ->
  let run := texec d mdiff grow el upper junk mm high marks in
  run (TOut o) e q = Ok ZVoid q1 -> run (TWrite o x) e q1 = Ok ZVoid q2 -> run (TPut o 10) e q2 = Ok ZVoid q3 -> run (TWrite o y) e q3 = Ok ZVoid q4 ->
  run (TBack i o) e q4 = Ok ZVoid q5 -> run (TRead true i u) e q5 = Ok ZVoid q6 -> run (TRead true i v) e q6 = Ok ZVoid q7 ->
  exists w', trel d q7 w' /\ full (texts w') u = Some lx /\ full (texts w') v = Some ly /\ s_in w' !! i = Some Failed /\ s_out w' !! o = Some (lx ++ 10 :: ly) /\
    forall z, z <> u -> z <> v -> texts w' !! z = texts w !! z.
Proof. exact lines_back. Qed.
Print Assumptions C80_back.
(** Strings 1, "hello", and 3, "k", come back in Strings 2 and 1. *)
Example C80_back_ex : forall mm, trel sdesc (ex_tq mm) (ex_tw mm) /\ s_out (ex_tw mm) !! 1%positive = None /\ s_in (ex_tw mm) !! 2%positive = None /\
  full (texts (ex_tw mm)) 1%positive = Some hello /\ full (texts (ex_tw mm)) 3%positive = Some [107] /\ w_cur (s_app (ex_tw mm)) !! 1%positive = None /\ w_cur (s_app (ex_tw mm)) !! 2%positive = None /\
  w_cur (s_app (ex_tw mm)) !! 3%positive = None /\ is_Some (full (texts (ex_tw mm)) 2%positive) /\ ~ In 10 hello /\ ~ In 10 [107] /\
  t_run mm (TOut 1) a_fine (ex_tq mm) = Ok ZVoid (ex_q1 mm) /\ t_run mm (TWrite 1 1) a_fine (ex_q1 mm) = Ok ZVoid (ex_q2 mm) /\ t_run mm (TPut 1 10) a_fine (ex_q2 mm) = Ok ZVoid (ex_q3 mm) /\
  t_run mm (TWrite 1 3) a_fine (ex_q3 mm) = Ok ZVoid (ex_q4 mm) /\ t_run mm (TBack 2 1) a_fine (ex_q4 mm) = Ok ZVoid (ex_q5 mm) /\ t_run mm (TRead true 2 2) a_fine (ex_q5 mm) = Ok ZVoid (ex_q6 mm) /\
  t_run mm (TRead true 2 1) a_fine (ex_q6 mm) = Ok ZVoid (ex_q7 mm) /\
  content_is (NestModel.str 2) (heap_of (t_app (ex_q7 mm))) hello /\ content_is (NestModel.str 1) (heap_of (t_app (ex_q7 mm))) [107].
Proof.
  intros mm. split; [apply ex_trel|]. split; [apply lookup_empty|]. split; [apply lookup_singleton_ne; discriminate|].
  split; [destruct mm; vm_compute; reflexivity|]. split; [destruct mm; vm_compute; reflexivity|]. split; [destruct mm; vm_compute; reflexivity|]. split; [destruct mm; vm_compute; reflexivity|].
  split; [destruct mm; vm_compute; reflexivity|]. split; [destruct mm; vm_compute; eauto|]. split; [intros H; vm_compute in H; intuition discriminate|].
  split; [intros H; vm_compute in H; intuition discriminate|].
  do 7 (split; [apply t_got_mem; destruct mm; vm_compute; reflexivity|]). destruct mm; vm_compute; repeat split.
Qed.

(** C80: when all tables, Strings and Streams are gone, all memory is, but for one block per failed base64 call. *)
Theorem C80_no_leak : forall d, wf_desc d -> forall q w, trel d q w -> w_maps (w_lib (s_app w)) = ∅ -> w_strs (w_lib (s_app w)) = ∅ ->
  st_heap (heap_of (t_app q)) = ∅ /\ m_blocks (a_lib (t_app q)) = w_lost (w_lib (s_app w)) /\ a_streams (t_app q) = ∅.
Proof. exact (fun d Hw q w H => arel_none d Hw (t_app q) (s_app w) (tr_app d q w H)). Qed.
Print Assumptions C80_no_leak.
Example C80_no_leak_ex : forall mm, trel sdesc t_start (Scene (Total (World ∅ ∅ ∅ 0) ∅ ∅) ∅ ∅) /\
  (let q := t_last sdesc mm t_words in map_to_list (st_heap (heap_of (t_app q))) = [] /\ m_blocks (a_lib (t_app q)) = 0 /\ map_to_list (a_streams (t_app q)) = [] /\ a_fds (t_app q) = 3).
Proof. intros mm. split; [apply (trel_init sdesc 3)|]. destruct mm; vm_compute; repeat split. Qed.
