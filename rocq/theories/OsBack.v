(** Reading back what was written: OsProof.v and IshProof.v together. *)
From Coq Require Import ZifyBool.
From Verif Require Import RcaSpec RcaModel RcaExec RcaOwn RcaMeet AlgModel AlgMeet AlgFacts OsSpec OsModel OsProof IsSpec IsModel IsProof IshModel IshMeet IshProof.
Open Scope Z_scope.

Fixpoint spaced (sep : Z) (first : bool) (ws : list (list Z)) : list (list Z * list Z) :=
  match ws with [] => [] | w :: ws' => ((if first then [] else [sep]), w) :: spaced sep false ws' end.
Lemma spaced_text sep ws : forall first, words_text (spaced sep first ws) ++ [sep] = (if first then [] else [sep]) ++ match ws with [] => if first then [sep] else [] | _ => ended_by sep ws end.
Proof.
  induction ws as [|w ws IH]; intros first; cbn [spaced words_text ended_by]; [destruct first; reflexivity|].
  rewrite <- !app_assoc. f_equal. f_equal. rewrite (IH false). destruct ws; reflexivity.
Qed.
Lemma spaced_words sep ws : forall first, map snd (spaced sep first ws) = ws.
Proof. induction ws as [|w ws IH]; intros first; cbn [spaced map snd]; [reflexivity|]. rewrite IH. reflexivity. Qed.
Lemma spaced_ok sep ws : space sep -> Forall (fun w => w <> [] /\ Forall (fun b => ~ space b) w) ws -> forall first, words_ok first (spaced sep first ws).
Proof.
  intros S F. induction F as [|w ws [N W] _ IH]; intros first; cbn [spaced words_ok]; [exact I|]. split; [destruct first; [constructor|constructor; [exact S|constructor]]|].
  split; [intros ->; discriminate|]. auto.
Qed.
Lemma lines_ended ls : lines_text ls = ended_by 10 ls.
Proof. induction ls as [|l ls IH]; cbn [lines_text ended_by]; [reflexivity|]. rewrite IH. reflexivity. Qed.

Section Back.
Context (d : desc Z) (Hwf : wf_desc d) (Hnul : d_nul d = Some 0).
Variables (marks : bool) (high : Z -> option bool) (gf : nat -> bool) (el : nat -> positive).

Lemma takes_blank n : takes blank_os n.
Proof. intros k Hk. reflexivity. Qed.
Lemma words_back s a xs ws sep x t fuel : reached d s a -> Forall2 (is_str a) xs ws -> space sep ->
  Forall (fun w => w <> [] /\ Forall (fun b => ~ space b) w /\ usable high w) ws ->
  is_Some (a !! x) -> a !! t = None -> elements_unused el a [t] -> (length ws <= fuel)%nat ->
  exists o, hput_all marks xs sep (blank_os, s) = Ok tt (o, s) /\
    gathers d gf el (hcollect d gf el fuel (hread_word d high x t) x 0) (IsProof.fresh (os_out o)) s a x ws [] (ended []).
Proof.
  intros H F S W Hx Ht [Ei Eu] Hf. eexists. split; [eapply (hput_all_is d Hwf marks sep xs ws s a H F blank_os); [reflexivity|cbn; lia|apply takes_blank]|].
  eapply (feed_gathers d Hwf high gf el Ei); try eassumption. destruct ws as [|w ws].
  - apply feed_end; [|reflexivity]. intros s1 a1 H1 (vx & Hx1) Ht1. exists IsProof.fresh. eapply (none_delivers d Hwf Hnul high); try eassumption. constructor.
  - cbn [wrote os_out blank_os app].
    replace (ended_by sep (w :: ws)) with (words_text (spaced sep true (w :: ws)) ++ [sep]) by (rewrite spaced_text; reflexivity).
    rewrite <- (spaced_words sep (w :: ws) true) at 2. apply (words_feed d Hwf Hnul high x t _ true).
    + apply spaced_ok; [exact S|]. refine (List.Forall_impl _ _ W). cbn. tauto.
    + constructor; [exact S|constructor].
    + discriminate.
    + assert (Forall (fun w => usable high w) (map snd (spaced sep true (w :: ws)))) as Q by (rewrite spaced_words; refine (List.Forall_impl _ _ W); cbn; tauto).
      rewrite Forall_map in Q. exact Q.
Qed.
Lemma lines_back s a xs ls x t fuel : reached d s a -> Forall2 (is_str a) xs ls -> Forall (fun l => ~ In 10 l) ls ->
  is_Some (a !! x) -> a !! t = None -> elements_unused el a [t] -> (length ls <= fuel)%nat ->
  exists o, hput_all marks xs 10 (blank_os, s) = Ok tt (o, s) /\
    gathers d gf el (hcollect d gf el fuel (hread_line d x t) x 0) (IsProof.fresh (os_out o)) s a x ls [] (ended []).
Proof.
  intros H F W Hx Ht [Ei Eu] Hf. eexists. split; [eapply (hput_all_is d Hwf marks 10 xs ls s a H F blank_os); [reflexivity|cbn; lia|apply takes_blank]|].
  eapply (feed_gathers d Hwf high gf el Ei); try eassumption.
  replace (os_out _) with (lines_text ls ++ []) by (rewrite app_nil_r, lines_ended; destruct ls; reflexivity).
  apply (lines_feed d Hwf Hnul high); [exact W|intros []].
Qed.
End Back.
