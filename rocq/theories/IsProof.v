(** Proofs about reading from an istream. *)
From Coq Require Import ZifyBool.
From Verif Require Import Base IsSpec IsModel.
Open Scope Z_scope.

Definition fresh (l : list Z) : istream := IS l false false false true.
Definition ended (l : list Z) : istream := IS l true true false true.
(** isspace is usable on these bytes. *)
Definition usable (high : Z -> option bool) (w : list Z) : Prop := forall b, In b w -> 128 <= b < 255 -> high b = Some false.

Lemma blank_space b : blank b = true <-> space b.
Proof. unfold blank, space. lia. Qed.
Lemma blank_not b : ~ space b -> blank b = false.
Proof. unfold blank, space. lia. Qed.
Lemma skip_all l rest : Forall space l -> skip_blanks (l ++ rest) = skip_blanks rest.
Proof.
  induction 1 as [|b l Hb _ IH]; [reflexivity|]. cbn. rewrite (proj2 (blank_space b) Hb). exact IH.
Qed.

Section Proof.
Variable high : Z -> option bool.
Variable full : Z -> bool.

Lemma isspace_no b s : ~ space b -> (128 <= b < 255 -> high b = Some false) -> isspace high (Some b) s = Ok false s.
Proof.
  intros N U. unfold isspace. destruct ((128 <=? b) && (b <? 255)) eqn:E; [rewrite U by lia; reflexivity|].
  rewrite (blank_not b N). reflexivity.
Qed.
Lemma isspace_yes b s : space b -> isspace high (Some b) s = Ok true s.
Proof.
  intros N. unfold isspace. destruct ((128 <=? b) && (b <? 255)) eqn:E; [unfold space in N; lia|].
  rewrite (proj2 (blank_space b) N). reflexivity.
Qed.
Lemma get_some ch b l acc : extract true ch (IST (fresh (b :: l)) acc) = Ok (Some b) (IST (fresh l) acc).
Proof. clear high. reflexivity. Qed.
Lemma get_none ch acc : extract true ch (IST (fresh []) acc) = Ok ch (IST (ended []) acc).
Proof. clear high. reflexivity. Qed.

Lemma word_loop_ok rest : match rest with [] => True | c :: _ => space c end -> forall w b acc fuel,
  ~ space b -> Forall (fun b => ~ space b) w -> usable high (b :: w) ->
  (forall k, 0 <= k <= zlen w -> full (zlen acc + k) = false) -> (length w < fuel)%nat ->
  exists ch, word_loop full high fuel (Some b) (IST (fresh (w ++ rest)) acc) =
    Ok (Some ch) (IST (match rest with [] => ended [] | _ :: r => fresh r end) (acc ++ b :: w)) /\
    match rest with [] => ~ space ch /\ (128 <= ch < 255 -> high ch = Some false) | c :: _ => ch = c end.
Proof.
  intros Hr. induction w as [|c w IH]; intros b acc fuel Nb Nw U F Fu; (destruct fuel as [|fuel]; [cbn in Fu; lia|]); cbn [word_loop].
  - unfold bind at 1, append_char. cbn [i_str i_is]. rewrite <- (Z.add_0_r (zlen acc)), F by (unfold zlen; cbn; lia). cbn [app].
    destruct rest as [|c rest].
    + unfold bind. rewrite get_none. cbn. exists b. split; [reflexivity|]. split; [exact Nb|]. apply U. left. reflexivity.
    + unfold bind. rewrite get_some. cbn [get_is i_is fresh is_fail is_bad orb]. rewrite (isspace_yes c) by exact Hr.
      exists c. split; reflexivity.
  - inversion Nw as [|x y Nc Nw' Q]; subst. unfold bind at 1, append_char. cbn [i_str i_is].
    rewrite <- (Z.add_0_r (zlen acc)), F by (rewrite zlen_cons; pose proof (zlen_nonneg w); lia). cbn [app].
    unfold bind. rewrite get_some. cbn [get_is i_is fresh is_fail is_bad orb].
    rewrite (isspace_no c) by (try exact Nc; apply U; right; left; reflexivity).
    destruct (IH c (acc ++ [b]) fuel Nc Nw') as (ch & E & H).
    + intros x Ix. apply U. right. exact Ix.
    + intros k K. rewrite zlen_app. change (zlen [b]) with 1. replace (zlen acc + 1 + k) with (zlen acc + (k + 1)) by lia. apply F. rewrite zlen_cons. lia.
    + cbn in Fu. lia.
    + exists ch. split; [|exact H]. fold (fresh (w ++ rest)). rewrite E, <- app_assoc. reflexivity.
Qed.
Lemma first_char blanks b w acc : Forall space blanks -> ~ space b ->
  extract false None (IST (fresh (blanks ++ b :: w)) acc) = Ok (Some b) (IST (fresh w) acc).
Proof.
  intros Hb Nb. unfold extract, bind, get_is, sentry. cbn [i_is fresh is_good is_eof is_fail is_bad is_skipws negb andb orb is_data].
  rewrite skip_all by exact Hb. cbn [skip_blanks]. rewrite (blank_not b Nb). reflexivity.
Qed.
(** One word. *)
Lemma read_word_ok text blanks word rest old : word_first text blanks word rest -> usable high word ->
  (forall k, 0 <= k < zlen word -> full k = false) ->
  read_word full high (IST (fresh text) old) = Ok tt (IST (match rest with [] => ended [] | _ => fresh rest end) word).
Proof.
  intros (-> & Hb & Hw & Ne & Hr) U F. destruct word as [|b w]; [contradiction|]. inversion Hw as [|x y Nb Nw Q]; subst.
  unfold read_word, bind, set_str, get_is. cbn [i_is]. cbn [app]. rewrite (first_char blanks b (w ++ rest) [] Hb Nb).
  cbn [i_is fresh is_fail is_bad orb is_data].
  destruct (word_loop_ok rest Hr w b [] (S (length (w ++ rest))) Nb Nw U) as (ch & E & H).
  - intros k K. change (zlen (@nil Z)) with 0. rewrite Z.add_0_l. apply F. rewrite zlen_cons. lia.
  - rewrite app_length. lia.
  - fold (fresh (w ++ rest)). rewrite E. destruct rest as [|c rest].
    + destruct H as [H1 H2]. rewrite (isspace_no ch) by assumption. reflexivity.
    + subst ch. rewrite (isspace_yes c) by exact Hr. reflexivity.
Qed.
(** Only blanks left. *)
Lemma read_word_none blanks old : Forall space blanks -> read_word full high (IST (fresh blanks) old) = Ok tt (IST (ended []) []).
Proof.
  intros Hb. unfold read_word, bind, set_str, get_is, extract, sentry. cbn [i_is fresh is_good is_eof is_fail is_bad is_skipws negb andb orb is_data].
  unfold bind, get_is. cbn. rewrite <- (app_nil_r blanks), skip_all by exact Hb. reflexivity.
Qed.
Lemma extract_bad noskip ch i acc : is_good i = false -> extract noskip ch (IST i acc) = Ok ch (IST (setstate false true i) acc).
Proof. clear high. intros B. unfold extract, bind, get_is, sentry. cbn [i_is]. rewrite B. reflexivity. Qed.
Lemma read_word_bad i old : is_good i = false -> read_word full high (IST i old) = Ok tt (IST (setstate false true i) []).
Proof.
  intros B. unfold read_word, bind, set_str, get_is. cbn [i_is]. rewrite (extract_bad false None i [] B). cbn.
  rewrite orb_true_r. reflexivity.
Qed.
(** Memory runs out in a word: what was appended stays, one character more is gone from the stream. *)
Lemma word_loop_oom rest : forall w1 b c w2 acc fuel,
  ~ space b -> Forall (fun b => ~ space b) (w1 ++ [c]) -> usable high (b :: w1 ++ [c]) ->
  (forall k, 0 <= k <= zlen w1 -> full (zlen acc + k) = false) -> full (zlen acc + zlen w1 + 1) = true -> (length w1 + 1 < fuel)%nat ->
  word_loop full high fuel (Some b) (IST (fresh (w1 ++ c :: w2 ++ rest)) acc) = Exn BadAlloc (IST (fresh (w2 ++ rest)) (acc ++ b :: w1)).
Proof.
  induction w1 as [|c1 w1 IH]; intros b c w2 acc fuel Nb Nw U F F1 Fu; (destruct fuel as [|fuel]; [cbn in Fu; lia|]); cbn [word_loop].
  - unfold bind at 1, append_char. cbn [i_str i_is]. rewrite <- (Z.add_0_r (zlen acc)), F by (unfold zlen; cbn; lia). cbn [app].
    unfold bind. rewrite get_some. cbn [get_is i_is fresh is_fail is_bad orb].
    inversion Nw as [|x y Nc _ Q]; subst. rewrite (isspace_no c) by (try exact Nc; apply U; right; left; reflexivity).
    destruct fuel as [|fuel]; [cbn in Fu; lia|]. cbn [word_loop]. unfold bind, append_char. cbn [i_str i_is].
    rewrite zlen_app. change (zlen [b]) with 1. change (zlen (@nil Z)) with 0 in F1. rewrite Z.add_0_r in F1. rewrite F1. reflexivity.
  - cbn in Nw. inversion Nw as [|x y Nc Nw' Q]; subst. unfold bind at 1, append_char. cbn [i_str i_is].
    rewrite <- (Z.add_0_r (zlen acc)), F by (rewrite zlen_cons; pose proof (zlen_nonneg w1); lia). cbn [app].
    unfold bind. rewrite get_some. cbn [get_is i_is fresh is_fail is_bad orb].
    rewrite (isspace_no c1) by (try exact Nc; apply U; right; left; reflexivity).
    fold (fresh (w1 ++ c :: w2 ++ rest)). rewrite IH.
    + rewrite <- app_assoc. reflexivity.
    + exact Nc.
    + exact Nw'.
    + intros x Ix. apply U. right. exact Ix.
    + intros k K. rewrite zlen_app. change (zlen [b]) with 1. replace (zlen acc + 1 + k) with (zlen acc + (k + 1)) by lia. apply F. rewrite zlen_cons. lia.
    + rewrite zlen_app. change (zlen [b]) with 1. rewrite zlen_cons in F1. rewrite <- F1. f_equal. lia.
    + cbn in Fu. lia.
Qed.
Lemma read_word_oom blanks b w1 c w2 rest old : Forall space blanks -> Forall (fun b => ~ space b) (b :: w1 ++ [c]) -> usable high (b :: w1 ++ [c]) ->
  (forall k, 0 <= k <= zlen w1 -> full k = false) -> full (zlen w1 + 1) = true ->
  read_word full high (IST (fresh (blanks ++ b :: w1 ++ c :: w2 ++ rest)) old) = Exn BadAlloc (IST (fresh (w2 ++ rest)) (b :: w1)).
Proof.
  intros Hb Hw U F F1. inversion Hw as [|x y Nb Nw Q]; subst.
  unfold read_word, bind, set_str, get_is. cbn [i_is]. rewrite (first_char blanks b _ [] Hb Nb).
  cbn [i_is fresh is_fail is_bad orb is_data]. fold (fresh (w1 ++ c :: w2 ++ rest)). rewrite (word_loop_oom rest w1 b c w2 []); [reflexivity|..].
  - exact Nb.
  - exact Nw.
  - exact U.
  - exact F.
  - exact F1.
  - rewrite app_length. cbn. lia.
Qed.

(** Lines. *)
Lemma line_loop_ok rest l : forall ch acc fuel, ~ In 10 l -> (forall k, 0 <= k < zlen l -> full (zlen acc + k) = false) -> (length l <= fuel)%nat ->
  line_loop full fuel ch (IST (fresh (l ++ rest)) acc) =
  line_loop full (fuel - length l) (match rev l with [] => ch | b :: _ => Some b end) (IST (fresh rest) (acc ++ l)).
Proof. clear high.
  induction l as [|b l IH]; intros ch acc fuel N F Fu; cbn [length app].
  - cbn. rewrite app_nil_r, Nat.sub_0_r. reflexivity.
  - cbn in Fu. destruct fuel as [|fuel]; [lia|]. cbn [line_loop]. unfold bind at 1. rewrite get_some.
    unfold bind at 1, get_is. cbn [i_is fresh is_fail is_bad orb].
    destruct (b =? 10) eqn:E; [exfalso; apply N; left; lia|].
    unfold bind at 1, append_char. cbn [i_str i_is]. rewrite <- (Z.add_0_r (zlen acc)), F by (rewrite zlen_cons; pose proof (zlen_nonneg l); lia).
    fold (fresh (l ++ rest)). rewrite IH.
    + cbn [Nat.sub]. rewrite <- app_assoc. cbn [app]. f_equal. cbn [rev]. destruct (rev l); reflexivity.
    + intros I. apply N. right. exact I.
    + intros k K. rewrite zlen_app. change (zlen [b]) with 1. replace (zlen acc + 1 + k) with (zlen acc + (k + 1)) by lia. apply F. rewrite zlen_cons. lia.
    + lia.
Qed.
Lemma line_loop_nl f ch rest acc : line_loop full f ch (IST (fresh (10 :: rest)) acc) = Ok tt (IST (fresh rest) acc).
Proof. clear high. destruct f; reflexivity. Qed.
Lemma line_loop_end f ch acc : line_loop full f ch (IST (fresh []) acc) = Ok tt (IST (ended []) acc).
Proof. clear high. destruct f; reflexivity. Qed.
Lemma read_line_ok line rest old : ~ In 10 line -> (forall k, 0 <= k < zlen line -> full k = false) ->
  read_line full (IST (fresh (line ++ 10 :: rest)) old) = Ok tt (IST (fresh rest) line).
Proof. clear high.
  intros N F. unfold read_line, bind, set_str, get_is. cbn [i_is fresh is_data].
  fold (fresh (line ++ 10 :: rest)). rewrite line_loop_ok; [|exact N|exact F|rewrite app_length; lia]. apply line_loop_nl.
Qed.
Lemma read_line_last line old : ~ In 10 line -> (forall k, 0 <= k < zlen line -> full k = false) ->
  read_line full (IST (fresh line) old) = Ok tt (IST (ended []) line).
Proof. clear high.
  intros N F. unfold read_line, bind, set_str, get_is. cbn [i_is fresh is_data].
  fold (fresh line). rewrite <- (app_nil_r line) at 2. rewrite line_loop_ok; [|exact N|exact F|lia]. apply line_loop_end.
Qed.
Lemma read_line_bad i old : is_good i = false -> read_line full (IST i old) = Ok tt (IST (setstate false true i) []).
Proof. clear high.
  intros B. unfold read_line, bind, set_str, get_is. cbn [i_is].
  destruct (length (is_data i)); cbn [line_loop]; unfold bind; rewrite (extract_bad true (Some 0) i [] B); cbn; rewrite orb_true_r; reflexivity.
Qed.
Lemma read_line_oom l1 c rest old : ~ In 10 l1 -> c <> 10 -> (forall k, 0 <= k < zlen l1 -> full k = false) -> full (zlen l1) = true ->
  read_line full (IST (fresh (l1 ++ c :: rest)) old) = Exn BadAlloc (IST (fresh rest) l1).
Proof. clear high.
  intros N C F F1. unfold read_line, bind, set_str, get_is. cbn [i_is fresh is_data].
  fold (fresh (l1 ++ c :: rest)). rewrite line_loop_ok; [|exact N|exact F|rewrite app_length; lia].
  rewrite app_length. cbn [length]. replace (length l1 + S (length rest) - length l1)%nat with (S (length rest)) by lia. cbn [line_loop].
  unfold bind at 1. rewrite get_some. unfold bind at 1, get_is. cbn [i_is fresh is_fail is_bad orb].
  destruct (c =? 10) eqn:E; [lia|]. unfold bind, append_char. cbn [i_str app]. rewrite F1. reflexivity.
Qed.

(** Reading everything in a loop. *)
Definition longest (ls : list (list Z)) : Prop := forall l k, In l ls -> 0 <= k < zlen l -> full k = false.
Lemma collect_words ws : forall fuel first tail old,
  words_ok first ws -> Forall space tail -> tail <> [] -> Forall (fun w => usable high (snd w)) ws ->
  longest (map snd ws) -> (length ws <= fuel)%nat ->
  collect fuel (read_word full high) (IST (fresh (words_text ws ++ tail)) old) = Ok (map snd ws) (IST (ended []) []).
Proof.
  induction ws as [|[bl w] ws IH]; intros fuel first tail old W T Tn U F Fu.
  - cbn [words_text app map]. destruct fuel; cbn [collect]; unfold bind at 1; rewrite (read_word_none tail) by exact T; reflexivity.
  - cbn in Fu. destruct fuel as [|fuel]; [lia|]. cbn [words_text map snd]. destruct W as (B & _ & Nw & Ne & W).
    inversion U as [|x y U1 U2 Q]; subst. cbn [snd] in U1. cbn [collect]. unfold bind at 1. rewrite <- !app_assoc.
    assert (exists c r, words_text ws ++ tail = c :: r /\ space c) as (c & r & Er & Sc).
    { destruct ws as [|[b2 w2] ws].
      - destruct tail as [|c r]; [contradiction|]. exists c, r. split; [reflexivity|]. inversion T; assumption.
      - destruct W as (B2 & N2 & _). destruct b2 as [|c r]; [destruct (N2 eq_refl eq_refl)|]. cbn [words_text app]. eexists _, _.
        split; [reflexivity|]. inversion B2; assumption. }
    rewrite (read_word_ok _ bl w (words_text ws ++ tail)).
    + rewrite Er. rewrite <- Er. cbn [i_is fresh is_fail is_bad orb i_str]. unfold bind. fold (fresh (words_text ws ++ tail)).
      rewrite (IH fuel false tail); [reflexivity|exact W|exact T|exact Tn|exact U2| |lia]. intros l k I. apply F. right. exact I.
    + split; [reflexivity|]. split; [exact B|]. split; [exact Nw|]. split; [exact Ne|]. rewrite Er. exact Sc.
    + exact U1.
    + intros k. apply F. left. reflexivity.
Qed.
Lemma words_ok_app first ws bl w : words_ok first (ws ++ [(bl, w)]) -> words_ok first ws /\ Forall space bl /\ Forall (fun b => ~ space b) w /\ w <> [] /\
  (ws <> [] -> bl <> []).
Proof.
  revert first. induction ws as [|[b2 w2] ws IH]; intros first W; cbn in W |- *.
  - destruct W as (? & ? & ? & ? & _). auto 10.
  - destruct W as (B & N & Nw & Ne & W). destruct (IH false W) as (A1 & A2 & A3 & A4 & A5).
    split; [auto|]. split; [exact A2|]. split; [exact A3|]. split; [exact A4|]. intros _.
    destruct ws as [|q ws]; [|apply A5; discriminate]. cbn in W. apply W. reflexivity.
Qed.
(** The last word is lost when nothing follows it. *)
Lemma collect_words_last ws : forall fuel first bl w old,
  words_ok first (ws ++ [(bl, w)]) -> Forall (fun w => usable high (snd w)) (ws ++ [(bl, w)]) ->
  longest (map snd (ws ++ [(bl, w)])) -> (length ws <= fuel)%nat ->
  collect fuel (read_word full high) (IST (fresh (words_text (ws ++ [(bl, w)]))) old) = Ok (map snd ws) (IST (ended []) w).
Proof.
  induction ws as [|[b1 w1] ws IH]; intros fuel first bl w old W U F Fu.
  - cbn [words_text app map]. cbn in W. destruct W as (B & _ & Nw & Ne & _). inversion U as [|x y U1 U2 Q]; subst. cbn [snd] in U1.
    rewrite app_nil_r. assert (read_word full high (IST (fresh (bl ++ w)) old) = Ok tt (IST (ended []) w)) as E.
    { rewrite (read_word_ok (bl ++ w) bl w []); [reflexivity| |exact U1|intros k; apply F; left; reflexivity].
      split; [rewrite app_nil_r; reflexivity|]. auto. }
    destruct fuel; cbn [collect]; unfold bind at 1; rewrite E; reflexivity.
  - cbn in Fu. destruct fuel as [|fuel]; [lia|]. cbn [words_text map snd app]. cbn in W. destruct W as (B & _ & Nw & Ne & W).
    inversion U as [|x y U1 U2 Q]; subst. cbn [snd] in U1. cbn [collect]. unfold bind at 1.
    assert (exists c r, words_text (ws ++ [(bl, w)]) = c :: r /\ space c) as (c & r & Er & Sc).
    { destruct ws as [|[b2 w2] ws]; cbn [app] in W |- *; cbn [words_ok] in W; destruct W as (B2 & N2 & _); cbn [words_text].
      - destruct bl as [|c r]; [destruct (N2 eq_refl eq_refl)|]. eexists _, _. split; [reflexivity|]. inversion B2; assumption.
      - destruct b2 as [|c r]; [destruct (N2 eq_refl eq_refl)|]. eexists _, _. split; [reflexivity|]. inversion B2; assumption. }
    rewrite (read_word_ok _ b1 w1 (words_text (ws ++ [(bl, w)]))).
    + rewrite Er. rewrite <- Er. cbn [i_is fresh is_fail is_bad orb i_str]. unfold bind. fold (fresh (words_text (ws ++ [(bl, w)]))).
      rewrite (IH fuel false bl w); [reflexivity|exact W|exact U2| |lia]. intros l k I. apply F. right. exact I.
    + split; [reflexivity|]. split; [exact B|]. split; [exact Nw|]. split; [exact Ne|]. rewrite Er. exact Sc.
    + exact U1.
    + intros k. apply F. left. reflexivity.
Qed.
Lemma collect_lines ls : forall fuel tail old, Forall (fun l => ~ In 10 l) ls -> ~ In 10 tail -> longest (ls ++ [tail]) -> (length ls <= fuel)%nat ->
  collect fuel (read_line full) (IST (fresh (lines_text ls ++ tail)) old) = Ok ls (IST (ended []) tail).
Proof. clear high.
  induction ls as [|l ls IH]; intros fuel tail old N T F Fu.
  - cbn [lines_text app]. destruct fuel; cbn [collect]; unfold bind at 1; (rewrite read_line_last; [reflexivity|exact T|]); intros k; apply F; left; reflexivity.
  - cbn in Fu. destruct fuel as [|fuel]; [lia|]. inversion N as [|x y N1 N2 Q]; subst. cbn [lines_text]. cbn [collect]. unfold bind at 1.
    rewrite <- app_assoc. cbn [app]. rewrite read_line_ok; [|exact N1|intros k; apply F; left; reflexivity].
    cbn [i_is fresh is_fail is_bad orb i_str]. unfold bind. fold (fresh (lines_text ls ++ tail)).
    rewrite (IH fuel tail); [reflexivity|exact N2|exact T| |lia]. intros l' k I. apply F. right. exact I.
Qed.
End Proof.
