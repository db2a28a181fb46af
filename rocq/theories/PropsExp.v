(** C64, Strings going out to C and C++ strings and coming back. [refuses]: the memory for the C or C++ string is refused. *)
From Coq Require Import Lia String.
From Verif Require Import RcaSpec RcaModel RcaExec RcaOwn RcaMeet RcaEx StrSpec StrModel StrEx AlgModel AlgMeet AlgFacts AlgEx ExpModel ExpMeet ExpProof.
Open Scope Z_scope.
Ltac run := vm_compute; reflexivity.
(** "a", NUL, "b" in 1, and "abc" in 2. *)
Definition prog_n : list (op Z) := [CtorCstrLen 1 [97; 0; 98] 3; CtorCstrLen 2 (bs "abc") 3].
Definition sn := st sdesc prog_n.
Definition vn := av sdesc prog_n.

(** C64: dup() gives memory of its own holding all the characters and a NUL after them; the String stays as it is. *)
Theorem C64_dup : forall d refuses s a x l, wf_desc d -> reached d s a -> is_str a x l ->
  hdup refuses x s = if refuses then Exn BadAlloc s else Ok (l ++ [0]) s.
Proof. intros d refuses s a x l Hw. exact (dup_is d Hw refuses s a x l). Qed.
Print Assumptions C64_dup.
Example C64_dup_ex : reached sdesc sn vn /\ is_str vn 1 [97; 0; 98] /\ hdup false 1 sn = Ok [97; 0; 98; 0] sn.
Proof. split; [apply run_reached; run|]. split; [apply holds_str_ok; run|run]. Qed.

(** C64: copy(dst, n) writes the first n characters, or all if there are fewer, and nothing after them. *)
Theorem C64_copy : forall d s a x l dst n, wf_desc d -> reached d s a -> is_str a x l -> 0 <= n -> Z.min n (zlen l) <= zlen dst ->
  hcopy x dst n s = Ok (Z.min n (zlen l), map Some (ztake n l) ++ zdrop (Z.min n (zlen l)) dst) s.
Proof. intros d s a x l dst n Hw. exact (copy_is d Hw s a x l dst n). Qed.
Print Assumptions C64_copy.
Example C64_copy_ex : reached sdesc sn vn /\ is_str vn 2 (bs "abc") /\
  hcopy 2 [None; None; Some 1; Some 2] 2 sn = Ok (2, [Some 97; Some 98; Some 1; Some 2]) sn /\
  hcopy 2 [None; None; Some 1; Some 2] 9 sn = Ok (3, [Some 97; Some 98; Some 99; Some 2]) sn.
Proof. split; [apply run_reached; run|]. split; [apply holds_str_ok; run|split; run]. Qed.
(** A room that is too small for that is overrun. *)
Theorem C64_copy_overruns : forall d s a x l dst n, wf_desc d -> reached d s a -> is_str a x l -> 0 <= n -> zlen dst < Z.min n (zlen l) ->
  hcopy x dst n s = Undef UbBounds.
Proof. intros d s a x l dst n Hw. exact (copy_short d Hw s a x l dst n). Qed.
Print Assumptions C64_copy_overruns.
Example C64_copy_overruns_ex : is_str vn 2 (bs "abc") /\ hcopy 2 [None; None] 9 sn = Undef UbBounds.
Proof. split; [apply holds_str_ok; run|run]. Qed.
(** What copy leaves is no C string: after copying 9 characters at most of "abc" there is no NUL. *)
Theorem C64_copy_ends_refuted : exists s a x l dst, reached sdesc s a /\ is_str a x l /\ zlen l < zlen dst /\
  hcopy x dst 9 s = Ok (zlen l, map Some l ++ [Some 120]) s.
Proof.
  exists sn, vn, 2%positive, (bs "abc"), (map Some (bs "xxxx")). split; [apply run_reached; run|]. split; [apply holds_str_ok; run|split; run].
Qed.
Print Assumptions C64_copy_ends_refuted.

(** C64: a String turned into a std::string and back is the same text, NULs and all; if memory is lacking nothing changes. *)
Theorem C64_std : forall d refuses s a r x l, wf_desc d -> d_nul d = Some 0 -> reached d s a -> is_str a x l -> a !! r = None ->
  to_std refuses x s = (if refuses then Exn BadAlloc s else Ok l s) /\
  makes d (refuses = true \/ no_memory d (zlen l + 2)) (via_std d refuses r x) s a (<[r := AVal true (map Some l)]> a) tt.
Proof. intros d refuses s a r x l Hw Hz H Hx Hr. exact (conj (std_is d Hw refuses s a x l H Hx) (via_std_makes d Hw Hz refuses s a r x l H Hx Hr)). Qed.
Print Assumptions C64_std.
Example C64_std_ex : reached sdesc sn vn /\ is_str vn 1 [97; 0; 98] /\ vn !! 9%positive = None /\ to_std false 1 sn = Ok [97; 0; 98] sn /\
  after (via_std sdesc false 9 1) sn [1; 2; 9]%positive = (Returned, [Some [Some 97; Some 0; Some 98]; str "abc"; Some [Some 97; Some 0; Some 98]]) /\
  after (via_std sdesc true 9 1) sn [1; 2; 9]%positive = (Threw BadAlloc, [Some [Some 97; Some 0; Some 98]; str "abc"; None]).
Proof. split; [apply run_reached; run|]. split; [apply holds_str_ok; run|]. split; [run|]. split; [run|]. split; run. Qed.
(** C64: so does assigning the std::string to a String that exists, be it the same one. *)
Theorem C64_std_assign : forall d refuses s a y x l old, wf_desc d -> d_nul d = Some 0 -> reached d s a -> is_str a x l -> is_str a y old ->
  writes d (refuses = true \/ no_memory d (zlen l + 2)) (assign_via_std d refuses y x) s a y old l None.
Proof. intros d refuses s a y x l old Hw Hz. exact (assign_via_writes d Hw Hz refuses s a y x l old). Qed.
Print Assumptions C64_std_assign.
Example C64_std_assign_ex : reached sdesc sn vn /\ is_str vn 1 [97; 0; 98] /\ is_str vn 2 (bs "abc") /\
  after (assign_via_std sdesc false 1 2) sn [1; 2]%positive = (Returned, [str "abc"; str "abc"]) /\
  after (assign_via_std sdesc false 2 2) sn [1; 2]%positive = (Returned, [Some [Some 97; Some 0; Some 98]; str "abc"]).
Proof. split; [apply run_reached; run|]. split; [apply holds_str_ok; run|]. split; [apply holds_str_ok; run|]. split; run. Qed.

(** C64: String(x.c_str()) and String(x.dup()) hold the characters up to the first NUL, all of them if there is none. *)
Theorem C64_cstr : forall d guess s a r x l w, wf_desc d -> d_nul d = Some 0 -> reached d s a -> a !! x = Some (AVal true (map Some l)) -> a !! r = None ->
  cstring (l ++ [0]) w ->
  makes_or_ends d (no_memory d (zlen w + 2)) (no_memory d (zlen l + 2)) (via_cstr d guess r x) s a r w.
Proof. intros d guess s a r x l w Hw Hz. exact (via_cstr_makes d Hw Hz guess s a r x l w). Qed.
Print Assumptions C64_cstr.
Theorem C64_dup_back : forall d refuses s a r x l w, wf_desc d -> d_nul d = Some 0 -> reached d s a -> is_str a x l -> a !! r = None -> cstring (l ++ [0]) w ->
  makes d (refuses = true \/ no_memory d (zlen w + 2)) (via_dup d refuses r x) s a (<[r := AVal true (map Some w)]> a) tt.
Proof. intros d refuses s a r x l w Hw Hz. exact (via_dup_makes d Hw Hz refuses s a r x l w). Qed.
Print Assumptions C64_dup_back.
Theorem C64_no_nul : forall l, ~ In 0 l -> cstring (l ++ [0]) l.
Proof. intros l H. split; [exact H|exists []; reflexivity]. Qed.
Print Assumptions C64_no_nul.
Example C64_cstr_ex : reached sdesc sn vn /\ vn !! 2%positive = Some (AVal true (map Some (bs "abc"))) /\ vn !! 9%positive = None /\ ~ In 0 (bs "abc") /\
  after (via_cstr sdesc true 9 2) sn [1; 2; 9]%positive = (Returned, [Some [Some 97; Some 0; Some 98]; str "abc"; str "abc"]) /\
  after (via_dup sdesc false 9 2) sn [1; 2; 9]%positive = (Returned, [Some [Some 97; Some 0; Some 98]; str "abc"; str "abc"]) /\
  after (via_dup (sdesc_oom 8) false 9 1) (so 8) [1; 9]%positive = (Threw BadAlloc, [str "a-b--c"; None]).
Proof.
  split; [apply run_reached; run|]. split; [run|]. split; [run|]. split; [|split; [run|split; run]].
  cbn. intros Q. repeat (destruct Q as [Q|Q]; [discriminate|]). exact Q.
Qed.
(** So a NUL inside is lost on that way, though not through a std::string. *)
Theorem C64_cstr_refuted : exists s a x r l, reached sdesc s a /\ is_str a x l /\ a !! r = None /\
  (exists s', via_std sdesc false r x s = Ok tt s' /\ content r s' = Some (map Some l)) /\
  (exists s', via_cstr sdesc true r x s = Ok tt s' /\ content r s' = Some (map Some (ztake 1 l)) /\ 1 < zlen l) /\
  (exists s', via_dup sdesc false r x s = Ok tt s' /\ content r s' = Some (map Some (ztake 1 l))).
Proof.
  exists sn, vn, 1%positive, 9%positive, [97; 0; 98]. split; [apply run_reached; run|]. split; [apply holds_str_ok; run|]. split; [run|].
  split; [exists (end_state (via_std sdesc false 9 1 sn)); split; run|]. split; [exists (end_state (via_cstr sdesc true 9 1 sn)); split; [run|split; run]|].
  exists (end_state (via_dup sdesc false 9 1 sn)). split; run.
Qed.
Print Assumptions C64_cstr_refuted.

(** C64: s <= "..." is the order of the characters; the temporary String it makes is gone when it returns. If there is no
    memory for that one, the program is ended. s < "..." takes no memory. *)
Theorem C64_le : forall d mdiff s a t x l mem w, wf_desc d -> d_nul d = Some 0 -> memcmp_ok mdiff -> reached d s a -> is_str a x l -> a !! t = None ->
  cstring mem w -> bytes l -> bytes w -> zlen w < npos -> Z.abs (zlen l - zlen w) < W31 ->
  (exists s', hle_c d mdiff t x mem s = Ok (match lexcmp l w with Gt => false | _ => true end) s' /\ reached d s' a) \/
  (hle_c d mdiff t x mem s = Term /\ no_memory d (zlen w + 2)).
Proof. intros d mdiff s a t x l mem w Hw Hz. exact (le_cases d Hw Hz mdiff s a t x l mem w). Qed.
Print Assumptions C64_le.
Theorem C64_lt : forall d s a x l mem w, wf_desc d -> reached d s a -> is_str a x l -> cstring mem w -> bytes l -> bytes w ->
  ~ prefix_of (w ++ [0]) l -> hlt_c x mem s = Ok (match lexcmp l w with Lt => true | _ => false end) s.
Proof. intros d s a x l mem w Hw. exact (lt_is d Hw s a x l mem w). Qed.
Print Assumptions C64_lt.
Definition answer {A} (r : res (state Z) A) : option A := match r with Ok v _ => Some v | _ => None end.
Example C64_le_ex : cstring (bs "abd" ++ [0]) (bs "abd") /\ bytes (bs "abc") /\ bytes (bs "abd") /\ ~ prefix_of (bs "abd" ++ [0]) (bs "abc") /\
  answer (hle_c sdesc Z.sub 9 2 (bs "abd" ++ [0]) sn) = Some true /\ answer (hle_c sdesc Z.sub 9 2 (bs "abb" ++ [0]) sn) = Some false /\
  answer (hle_c sdesc Z.sub 9 2 (bs "abc" ++ [0]) sn) = Some true /\ answer (hlt_c 2 (bs "abc" ++ [0]) sn) = Some false /\
  snd (after (hle_c sdesc Z.sub 9 2 (bs "abd" ++ [0])) sn [1; 2; 9]%positive) = [Some [Some 97; Some 0; Some 98]; str "abc"; None].
Proof.
  split; [apply C64_no_nul; cbn; intros Q; repeat (destruct Q as [Q|Q]; [discriminate|]); exact Q|].
  split; [apply bs_bytes|]. split; [apply bs_bytes|]. split; [intros (r & E); cbn in E; discriminate|]. split_and!; run.
Qed.
(** "noexcept" is kept only so: with no memory left, <= ends the program where < answers. *)
Theorem C64_le_refuted : exists d s a t x mem w, wf_desc d /\ reached d s a /\ is_str a x (bs "a-b--c") /\ a !! t = None /\ cstring mem w /\
  hle_c d Z.sub t x mem s = Term /\ hlt_c x mem s = Ok false s.
Proof.
  exists (sdesc_oom 8), (so 8), (vo 8), 9%positive, 1%positive, [97; 0], [97]. split; [apply sdesc_oom_wf|]. split; [apply run_reached; run|].
  split; [apply holds_str_ok; run|]. split; [run|]. split; [apply (C64_no_nul [97]); cbn; lia|]. split; run.
Qed.
Print Assumptions C64_le_refuted.
