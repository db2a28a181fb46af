(** C63, writing Strings to an ostream. [marks] is whether a stream that is not good gets failbit when written to. *)
From Coq Require Import Lia String.
From Verif Require Import RcaSpec RcaModel RcaExec RcaOwn RcaMeet RcaEx StrEx AlgModel AlgMeet AlgFacts AlgEx OsSpec OsModel OsProof IsSpec IsModel IsProof IshModel IshMeet OsBack.
Open Scope Z_scope.
Ltac run := vm_compute; reflexivity.
(** How a run ended, what is written, the flags, the width, and what the variables [xs] hold. *)
Definition outcome {A} (r : res (ostream * state Z) A) (xs : list positive) : ending * list Z * (bool * bool * bool) * Z * list (option (list (option Z))) :=
  match r with
  | Ok _ (o, s) => (Returned, os_out o, (os_eof o, os_fail o, os_bad o), os_width o, map (fun x => content x s) xs)
  | Exn e (o, s) => (Threw e, os_out o, (os_eof o, os_fail o, os_bad o), os_width o, map (fun x => content x s) xs)
  | _ => (Other, [], (false, false, false), 0, [])
  end.
Definition good : bool * bool * bool := (false, false, false).
(** A stream with a width, and one whose device takes [n] characters. *)
Definition wide (w : Z) (left : bool) : ostream := OS (bs "> ") false false false w 42 left (fun _ => true).
Definition short (n : Z) : ostream := OS (bs "> ") false false false 0 42 false (fun k => k <? n).

(** C63: os << s writes exactly the characters of s, NUL and all, and leaves every String as it is; it cannot throw. *)
Theorem C63_put : forall d marks s a x l o, wf_desc d -> reached d s a -> is_str a x l ->
  os_good o = true -> os_width o <= 1 -> takes o (zlen l) ->
  hput marks x (o, s) = Ok tt (match l with [] => o | _ => wrote o l end, s).
Proof. intros d marks s a x l o Hw H Hx G W T. rewrite (hput_is d Hw marks s a x l o H Hx), (chars_plain marks l o G W T). reflexivity. Qed.
Print Assumptions C63_put.
Example C63_put_ex : is_str va 1 (bs "a-b--c") /\ os_good (short 8) = true /\ takes (short 8) 6 /\
  outcome (hput false 1 (short 8, sa)) [1; 2]%positive = (Returned, bs "> a-b--c", good, 0, [str "a-b--c"; str "a-b--c"]).
Proof.
  split; [apply holds_str_ok; run|]. split; [run|]. split; [|run]. intros k Hk. apply Z.ltb_lt. unfold zlen. cbn [List.length os_out short bs]. cbn. lia.
Qed.
(** C63: with a width set, it is the first character that is padded, and the width is used up. *)
Theorem C63_width : forall d marks s a x c l o, wf_desc d -> reached d s a -> is_str a x (c :: l) ->
  os_good o = true -> takes o (Z.max 1 (os_width o) + zlen l) ->
  hput marks x (o, s) = Ok tt (wrote o (field o c ++ l), s).
Proof. intros d marks s a x c l o Hw H Hx G T. rewrite (hput_is d Hw marks s a x (c :: l) o H Hx), (chars_field marks c l o G T). reflexivity. Qed.
Print Assumptions C63_width.
Example C63_width_ex : takes (wide 4 false) 100 /\
  outcome (hput false 1 (wide 4 false, sa)) [] = (Returned, bs "> ***a-b--c", good, 0, []) /\
  outcome (hput false 1 (wide 4 true, sa)) [] = (Returned, bs "> a***-b--c", good, 0, []).
Proof. split; [intros k Hk; reflexivity|]. split; run. Qed.
(** So a String does not fill a field as a std::string does, and an empty one leaves the width to what is printed next. *)
Theorem C63_setw_refuted : exists s a x y o, reached sdesc s a /\ is_str a x (bs "ab") /\ is_str a y [] /\ os_good o = true /\ os_width o = 4 /\
  hput false x (o, s) = Ok tt (wrote o (bs "***ab"), s) /\ hput false y (o, s) = Ok tt (o, s).
Proof.
  exists (st sdesc [CtorCstrLen 1 (bs "ab") 2; CtorDefault 2]), (av sdesc [CtorCstrLen 1 (bs "ab") 2; CtorDefault 2]), 1%positive, 2%positive, (wide 4 false).
  split; [apply run_reached; run|]. split; [apply holds_str_ok; run|]. split; [apply holds_str_ok; run|]. split; [run|]. split; [run|]. split; run.
Qed.
Print Assumptions C63_setw_refuted.
(** C63: a device that takes no more: the beginning is written and badbit is set. *)
Theorem C63_device_full : forall d marks s a x l1 c l2 o, wf_desc d -> reached d s a -> is_str a x (l1 ++ c :: l2) ->
  os_good o = true -> os_width o <= 1 -> takes o (zlen l1) -> os_takes o (zlen (os_out o) + zlen l1) = false ->
  hput marks x (o, s) = Ok tt (OS (os_out o ++ l1) (os_eof o) (match l2 with [] => false | _ => marks end) true 0 (os_fill o) (os_left o) (os_takes o), s).
Proof. intros d marks s a x l1 c l2 o Hw H Hx G W T F. rewrite (hput_is d Hw marks s a x _ o H Hx), (chars_refused marks l1 c l2 o G W T F). reflexivity. Qed.
Print Assumptions C63_device_full.
Example C63_device_full_ex : os_takes (short 5) (zlen (os_out (short 5)) + 3) = false /\
  outcome (hput true 1 (short 5, sa)) [1; 2]%positive = (Returned, bs "> a-b", (false, true, true), 0, [str "a-b--c"; str "a-b--c"]).
Proof. split; run. Qed.
(** C63: a stream that is not good takes nothing. *)
Theorem C63_not_good : forall d marks s a x l o, wf_desc d -> reached d s a -> is_str a x l -> os_good o = false ->
  exists o', hput marks x (o, s) = Ok tt (o', s) /\ os_out o' = os_out o /\ os_good o' = false /\ os_width o' = os_width o.
Proof.
  intros d marks s a x l o Hw H Hx G. eexists. split; [rewrite (hput_is d Hw marks s a x l o H Hx), (chars_bad marks l o G); reflexivity|].
  destruct l as [|c l]; [auto|]. destruct marks; [|auto]. split; [reflexivity|]. split; [apply set_fail_bad|reflexivity].
Qed.
Print Assumptions C63_not_good.
Example C63_not_good_ex : os_good (set_bad (wide 4 false)) = false /\
  outcome (hput false 1 (set_bad (wide 4 false), sa)) [1]%positive = (Returned, bs "> ", (false, false, true), 4, [str "a-b--c"]).
Proof. split; run. Qed.
(** C63: whatever the stream, what is added is a beginning of the text, nothing is thrown and no String is touched. *)
Theorem C63_prefix : forall d marks s a x l o, wf_desc d -> reached d s a -> is_str a x l ->
  exists o' p, hput marks x (o, s) = Ok tt (o', s) /\ os_out o' = os_out o ++ p /\ p `prefix_of` (match l with [] => [] | c :: l' => field o c ++ l' end).
Proof.
  intros d marks s a x l o Hw H Hx. destruct (chars_any marks l o) as (p & Hp & E). eexists _, p. split; [apply (hput_is d Hw marks s a x l o H Hx)|]. auto.
Qed.
Print Assumptions C63_prefix.
Example C63_prefix_ex : outcome (hput false 1 (OS [] false false false 9 42 false (fun k => k <? 5), sa)) [] = (Returned, bs "*****", (false, false, true), 0, []).
Proof. run. Qed.

(** C63: an rvalue is printed like an lvalue, if its buffer is not shared or assertions are off. *)
Theorem C63_rvalue : forall d marks dbg s a x l o, wf_desc d -> reached d s a -> is_str a x l -> (dbg = true -> is_shared x s = Ok false s) ->
  hput_rv marks dbg x (o, s) = hput marks x (o, s).
Proof. intros d marks dbg s a x l o Hw. exact (hput_rv_is d Hw marks dbg s a x l o). Qed.
Print Assumptions C63_rvalue.
Example C63_rvalue_ex : is_str va 4 (bs "+=") /\ is_shared 4 sa = Ok false sa /\ outcome (hput_rv false true 4 (wide 0 false, sa)) [4]%positive = (Returned, bs "> +=", good, 0, [str "+="]).
Proof. split; [apply holds_str_ok; run|]. split; run. Qed.
(** With assertions on, printing the result of substring() aborts: the temporary shares its buffer with the String. *)
Theorem C63_rvalue_refuted : exists s a, reached sdesc s a /\ is_str a 1 (bs "text") /\ is_shared 1 s = Ok false s /\
  hput_substring false sdesc true 2 1 0 2 (blank_os, s) = Undef Asserted /\
  outcome (hput_substring false sdesc false 2 1 0 2 (blank_os, s)) [1; 2]%positive = (Returned, bs "te", good, 0, [str "text"; None]).
Proof.
  exists (st sdesc [CtorCstrLen 1 (bs "text") 4]), (av sdesc [CtorCstrLen 1 (bs "text") 4]).
  split; [apply run_reached; run|]. split; [apply holds_str_ok; run|]. split; [run|]. split; run.
Qed.
Print Assumptions C63_rvalue_refuted.
(** In general: an rvalue whose buffer is shared. *)
Theorem C63_rvalue_shared : forall marks s x o, is_shared x s = Ok true s -> hput_rv marks true x (o, s) = Undef Asserted.
Proof. exact hput_rv_aborts. Qed.
Print Assumptions C63_rvalue_shared.
Example C63_rvalue_shared_ex : is_shared 1 sa = Ok true sa.
Proof. run. Qed.

(** C63: words written with a blank after each, and lines with a newline, are read back by the loops of C62. *)
Theorem C63_words_back : forall d marks high gf el s a xs ws sep x t fuel, wf_desc d -> d_nul d = Some 0 -> reached d s a ->
  List.Forall2 (is_str a) xs ws -> space sep -> List.Forall (fun w => w <> [] /\ List.Forall (fun b => ~ space b) w /\ usable high w) ws ->
  is_Some (a !! x) -> a !! t = None -> elements_unused el a [t] -> (List.length ws <= fuel)%nat ->
  exists o, hput_all marks xs sep (blank_os, s) = Ok tt (o, s) /\
    gathers d gf el (hcollect d gf el fuel (hread_word d high x t) x 0) (fresh (os_out o)) s a x ws [] (ended []).
Proof. intros d marks high gf el s a xs ws sep x t fuel Hw Hn. exact (words_back d Hw Hn marks high gf el s a xs ws sep x t fuel). Qed.
Print Assumptions C63_words_back.
Theorem C63_lines_back : forall d marks gf el s a xs ls x t fuel, wf_desc d -> d_nul d = Some 0 -> reached d s a ->
  List.Forall2 (is_str a) xs ls -> List.Forall (fun l => ~ In 10 l) ls ->
  is_Some (a !! x) -> a !! t = None -> elements_unused el a [t] -> (List.length ls <= fuel)%nat ->
  exists o, hput_all marks xs 10 (blank_os, s) = Ok tt (o, s) /\
    gathers d gf el (hcollect d gf el fuel (hread_line d x t) x 0) (fresh (os_out o)) s a x ls [] (ended []).
Proof. intros d marks gf el s a xs ls x t fuel Hw Hn. exact (lines_back d Hw Hn marks (fun _ => None) gf el s a xs ls x t fuel). Qed.
Print Assumptions C63_lines_back.
Example C63_back_ex : List.Forall2 (is_str va) [1; 4; 2]%positive [bs "a-b--c"; bs "+="; bs "a-b--c"] /\
  outcome (hput_all false [1; 4; 2]%positive 32 (blank_os, sa)) [] = (Returned, bs "a-b--c += a-b--c ", good, 0, []) /\
  match hcollect sdesc (fun _ => false) el100 9 (hread_word sdesc (fun _ => None) 3 9) 3 0 (fresh (bs "a-b--c += a-b--c "), sa) with
  | Ok n (i, s) => n = 3%nat /\ i = ended [] /\ map (fun x => content x s) [101; 102; 103; 1; 3]%positive = [str "a-b--c"; str "+="; str "a-b--c"; str "a-b--c"; str ""]
  | _ => False
  end.
Proof.
  split; [repeat (constructor; [apply holds_str_ok; run|]); constructor|]. split; [run|]. vm_compute. auto.
Qed.
