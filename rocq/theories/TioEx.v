(** Concrete programs with text input and output, for the examples of PropsTio. *)
From Coq Require Import String.
From stdpp Require Import gmap.
From Verif Require Import Base ZList RcaSpec RcaModel RcaExec RcaOwn RcaRel RcaMeet RcaReach RcaEx StrSpec StrEx PtSpec PtModel PtMeet PtEx LibSpec LibModel LibMeet LibProof LibEx AppSpec AppModel AppMeet AppProof AppEx
  IsSpec OsSpec TioSpec TioModel TioMeet TioProof.
From Verif Require MstSpec MfSpec MfModel MfMeet MfEx.
Open Scope Z_scope.

(** isspace is not asked about bytes from 128 to 254. *)
Definition ex_high (b : Z) : option bool := None.
Definition t_run (mm : bool) := texec sdesc Z.sub ex_grow ex_el upper ex_junk mm ex_high false.
Definition t_do (c : tcall) (p : prog) : prog := Do c a_fine (fun _ => p).
Definition t_all (l : list tcall) (p : prog) : prog := List.fold_right t_do p l.
Definition t_lib (c : lcall) : tcall := TApp (ALib c).
(** while (is >> s) a << s; as long as there is memory. *)
Fixpoint gather (n : nat) (p : prog) : prog :=
  match n with
  | O => p
  | S n => Do (TRead false 1 1) a_fine (fun r => match r with inr _ => p | inl _ =>
      Do (TOk 1) a_fine (fun r => match r with inl (ZBool true) => t_do (t_lib (LPush false 1 1)) (gather n p) | _ => p end) end)
  end.
(** The words of a text are read into an array and written with "+" between them; what was written is read again. *)
Definition t_words : prog :=
  t_all [t_lib (new_str 1 "x"); t_lib (new_str 2 "+"); t_lib (LArr 1); TIn 1 (bs "  to be
or not ")] (gather 9 (t_all
  [t_lib (LCount 1); t_lib (LJoin 3 1 2 false); TOut 1; TWrite 1 3; TPut 1 10; TShow 1; TBack 2 1; TRead true 2 2; t_lib (LAsk QEq 2 3); TOk 2;
   TRead true 2 2; TOk 2; t_lib (LPt (PString (Length 2))); t_lib (LFree 1);
   t_lib (LPt (PString (Destroy 1))); t_lib (LPt (PString (Destroy 2))); t_lib (LPt (PString (Destroy 3)))] Stop)).
(** Memory is refused while a word is read. *)
Definition t_short : prog :=
  t_all [t_lib (new_str 1 "x"); TIn 1 (bs "lengthiest word"); TRead false 1 1; t_lib (LPt (PString (Length 1))); TOk 1; TRead false 1 1; t_lib (LPt (PString (Length 1)))] Stop.
Definition t_start : tmem := Tmem a_init ∅ ∅.
Fixpoint t_after (d : desc Z) (mm : bool) (p : prog) (q : tmem) : option tmem :=
  match p with
  | Stop => Some q
  | Do c e k => match texec d Z.sub ex_grow ex_el upper ex_junk mm ex_high false c e q with Ok v q' => t_after d mm (k (inl v)) q' | Exn x q' => t_after d mm (k (inr x)) q' | _ => None end
  end.
Definition t_last (d : desc Z) (mm : bool) (p : prog) : tmem := match t_after d mm p t_start with Some q => q | None => t_start end.

(** The memory of AppEx with an istream on " one two". *)
Definition ex_text : list Z := bs " one two".
Definition ex_tq (mm : bool) : tmem := Tmem (ex_a mm) {[ 1%positive := IS ex_text false false false true ]} ∅.
Definition ex_tw (mm : bool) : scene := Scene (ex_t mm) {[ 1%positive := Open ex_text ]} ∅.
Lemma ex_trel mm : trel sdesc (ex_tq mm) (ex_tw mm).
Proof.
  constructor; cbn [ex_tq ex_tw t_app t_ins t_outs s_app s_in s_out]; [apply ex_arel| |intros o; rewrite !lookup_empty; reflexivity].
  intros i. destruct (decide (1%positive = i)) as [<-|N]; [rewrite !lookup_singleton; reflexivity|rewrite !lookup_singleton_ne by exact N; exact I].
Qed.
Lemma ex_word : word_first ex_text (bs " ") (bs "one") (bs " two").
Proof.
  change (bs " ") with [32]. change (bs "one") with [111; 110; 101]. split; [reflexivity|]. split; [repeat constructor; unfold space; lia|].
  split; [repeat constructor; unfold space; lia|]. split; [discriminate|]. right. reflexivity.
Qed.
Lemma ex_tread mm lk : tpre (step sdesc) ex_el upper mm ex_high lk 0 (TRead false 1 2) (ex_tw mm).
Proof.
  split; [|split].
  - destruct (texts (ex_tw mm) !! 2%positive) eqn:E; [eauto|]. exfalso. assert (match texts (ex_tw mm) !! 2%positive with Some _ => true | None => false end = true) as F by (destruct mm; vm_compute; reflexivity). rewrite E in F. discriminate.
  - destruct mm; vm_compute; reflexivity.
  - exists (Open ex_text). split; [apply lookup_singleton|]. intros _ l v f R. destruct (reads_one _ _ _ _ _ _ _ _ R (reads_word _ _ _ _ ex_word)) as [-> _].
    intros b I B. exfalso. assert (A : forallb (fun b => b <? 128) (bs "one") = true) by (vm_compute; reflexivity). rewrite forallb_forall in A. specialize (A b I). lia.
Qed.
(** What a call returned and left. *)
Definition t_got (r : Base.res tmem tout) : option tout := match r with Ok v _ => Some v | _ => None end.
Definition t_mem (r : Base.res tmem tout) : tmem := match r with Ok _ q | Exn _ q => q | _ => t_start end.
Lemma t_got_mem r v : t_got r = Some v -> r = Ok v (t_mem r).
Proof. destruct r; try discriminate. intros [= <-]. reflexivity. Qed.
Definition ex_next (mm : bool) (c : tcall) (q : tmem) : tmem := t_mem (t_run mm c a_fine q).
Definition ex_q1 mm := ex_next mm (TOut 1) (ex_tq mm).
Definition ex_q2 mm := ex_next mm (TWrite 1 1) (ex_q1 mm).
Definition ex_q3 mm := ex_next mm (TPut 1 10) (ex_q2 mm).
Definition ex_q4 mm := ex_next mm (TWrite 1 3) (ex_q3 mm).
Definition ex_q5 mm := ex_next mm (TBack 2 1) (ex_q4 mm).
Definition ex_q6 mm := ex_next mm (TRead true 2 2) (ex_q5 mm).
Definition ex_q7 mm := ex_next mm (TRead true 2 1) (ex_q6 mm).
Lemma sane_do c p : all_sane p -> all_sane (t_do c p).
Proof. intros H. split; [exact I|]. intros _. exact H. Qed.
Lemma sane_all l p : all_sane p -> all_sane (t_all l p).
Proof. intros H. induction l as [|c l IH]; [exact H|]. apply sane_do. exact IH. Qed.
Lemma sane_gather n p : all_sane p -> all_sane (gather n p).
Proof.
  intros H. induction n as [|n IH]; [exact H|]. split; [exact I|]. intros [r|x]; [|exact H]. split; [exact I|].
  intros [[| |[|]|]|]; try exact H. apply sane_do. exact IH.
Qed.
Lemma ex_sane_words : all_sane t_words.
Proof. apply sane_all, sane_gather, sane_all. exact I. Qed.
Lemma ex_sane_short : all_sane t_short.
Proof. apply sane_all. exact I. Qed.
