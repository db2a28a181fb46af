(** Calls of MfSpec under other names, for AppProof. *)
From stdpp Require Import gmap.
From Verif Require Import Base RcaSpec RcaModel RcaExec RcaMeet StreamMeet NestModel MstSpec MfSpec MfModel MfMeet AppModel.
From Verif Require MstMeet MstProof NestSim.
Open Scope Z_scope.

Ltac fin := eexists; (split; [reflexivity|]); split; auto 6.
Section Sim.
Variable d : desc Z.
Variable f : positive -> positive.
Hypothesis f_inj : Inj (=) (=) f.
Variable mm : bool.
(** The temporary of the model, which is no name of the program's; that of the specification. *)
Variable t t' : positive.
Hypothesis Ht : forall y, t' <> f y.
Notation step := (RcaMeet.step d).
Notation pulls := (NestSim.pulls f).
Notation keeps := (NestSim.keeps f).
Notation up := (kmap (M1 := gmap positive) (M2 := gmap positive) f).
Implicit Types (a b : astate Z) (m : gmap positive Z) (fs : files).

Lemma inj' x y : f x = f y -> x = y. Proof. apply f_inj. Qed.
Lemma up_at m y : up m !! f y = m !! y.
Proof. apply lookup_kmap. apply _. Qed.
Lemma eq_fresh a b x : pulls a b -> fresh_var a (f x) = fresh_var b x.
Proof. intros P. unfold fresh_var. rewrite P. reflexivity. Qed.
Lemma eq_unused a b x : pulls a b -> x <> t -> unused t' a (f x) = unused t b x.
Proof.
  intros P N. unfold unused. rewrite (eq_fresh a b x P). f_equal. f_equal.
  destruct (Pos.eqb_spec (f x) t') as [E|_]; [exfalso; apply (Ht x); congruence|]. destruct (Pos.eqb_spec x t); [contradiction|reflexivity].
Qed.
Lemma eq_plain m x : x <> t -> plain t' (up m) (f x) = plain t m x.
Proof.
  intros N. unfold plain. rewrite up_at. destruct (m !! x); [reflexivity|].
  destruct (Pos.eqb_spec (f x) t') as [E|_]; [exfalso; apply (Ht x); congruence|]. destruct (Pos.eqb_spec x t); [contradiction|reflexivity].
Qed.
Lemma eq_text a b x : pulls a b -> text a (f x) = text b x.
Proof. intros P. unfold text. rewrite P. reflexivity. Qed.
Lemma eq_strm a b m x : pulls a b -> strm a (up m) (f x) = strm b m x.
Proof. intros P. unfold strm. rewrite (eq_text a b x P), up_at. reflexivity. Qed.
Lemma eq_holds a b x : pulls a b -> holds a (f x) = holds b x.
Proof. intros P. unfold holds. rewrite P. reflexivity. Qed.
Lemma eq_vlen a b x : pulls a b -> vlen a (f x) = vlen b x.
Proof. intros P. unfold vlen. rewrite P. reflexivity. Qed.
Lemma ren_mentions o : mentions (ren f o) = map f (mentions o).
Proof. destruct o; reflexivity. Qed.
Lemma eq_plains m l : t ∉ l -> forallb (plain t' (up m)) (map f l) = forallb (plain t m) l.
Proof.
  induction l as [|x l IH]; intros N; [reflexivity|]. apply not_elem_of_cons in N as [N1 N2]. cbn [map forallb]. rewrite eq_plain by congruence. rewrite IH by exact N2. reflexivity.
Qed.
Lemma up_insert m k p : up (<[k := p]> m) = <[f k := p]> (up m).
Proof. apply kmap_insert. apply _. Qed.
Lemma up_delete m k : up (delete k m) = delete (f k) (up m).
Proof. apply kmap_delete. apply _. Qed.

(** Specified calls. *)
Lemma m_sim cap o a b m r : pulls a b -> t ∉ involved o -> mstep step t cap o b m = Some r ->
  match r with
  | MRet b' m' v => exists a', mstep step t' cap (mren f o) a (up m) = Some (MRet a' (up m') v) /\ pulls a' b' /\ keeps a a'
  | MRange => mstep step t' cap (mren f o) a (up m) = Some MRange
  end.
Proof.
  intros P N E. pose proof inj' as Hi.
  assert (Hpi : forall a b x v, pulls a b -> pulls (<[f x := v]> a) (<[x := v]> b)) by (intros; apply NestSim.pulls_insert; assumption).
  assert (Hki : forall a' x v, keeps a a' -> keeps a (<[f x := v]> a')) by (intros; apply NestSim.keeps_insert; assumption).
  pose proof (NestSim.keeps_refl f a) as Hk.
  destruct o; cbn [involved] in N; cbn [mstep mren] in E |- *;
    repeat match goal with H : _ ∉ _ :: _ |- _ => apply not_elem_of_cons in H; destruct H as [? H] end.
  - rewrite ren_mentions, eq_plains by exact N. destruct (forallb (plain t m) (mentions o)); [|discriminate]. cbn [need] in *.
    pose proof (NestSim.ren_step d f inj' o a b P) as F. unfold NestSim.follows in F. destruct (step o b) as [[b' v|]|]; [| |discriminate]; injection E as <-.
    + destruct F as (a' & -> & P' & K'). fin.
    + rewrite F. reflexivity.
  - rewrite (eq_unused a b) by congruence. destruct (unused t b k); [|discriminate]. injection E as <-. cbn [need]. rewrite up_insert. fin.
  - rewrite (eq_unused a b) by congruence. destruct (_ && _); [|discriminate]. injection E as <-. cbn [need]. rewrite up_insert. fin.
  - rewrite (eq_holds a b) by exact P. destruct (holds b y) as [[r0 v]|]; [|discriminate]. rewrite (eq_unused a b), eq_plain by congruence.
    destruct (_ && _); [|discriminate]. injection E as <-. cbn [need]. rewrite up_insert. destruct mv; fin.
  - rewrite (eq_holds a b), up_at by exact P. destruct (holds b j) as [[r0 v]|]; [|discriminate]. destruct (m !! j) as [p|]; [|discriminate]. rewrite (eq_unused a b) by congruence.
    destruct (unused t b k); [|discriminate]. injection E as <-. cbn [need]. rewrite up_insert. fin.
  - rewrite (eq_holds a b), up_at by exact P. destruct (holds b j) as [[r0 v]|]; [|discriminate]. destruct (m !! j) as [p|]; [|discriminate]. rewrite (eq_unused a b) by congruence.
    destruct (unused t b k); [|discriminate]. injection E as <-. cbn [need]. rewrite up_insert. fin.
  - rewrite (eq_holds a b), !up_at by exact P. destruct (holds b j) as [[r0 v]|]; [|discriminate]. destruct (m !! j) as [p|]; [|discriminate]. destruct (m !! k) as [q|]; [|discriminate].
    injection E as <-. rewrite up_insert. fin.
  - rewrite !P, !up_at. destruct (b !! k) as [x|]; [|discriminate]. destruct (b !! j) as [y|]; [|discriminate]. destruct (m !! k) as [p|]; [|discriminate]. destruct (m !! j) as [q|]; [|discriminate].
    injection E as <-. rewrite !up_insert. fin.
  - rewrite up_at. destruct (m !! k) as [p|]; [|discriminate]. injection E as <-. rewrite up_delete. eexists; (split; [reflexivity|]). split; [apply NestSim.pulls_delete; assumption|apply NestSim.keeps_delete; assumption].
  - rewrite (eq_strm a b), (eq_text a b) by exact P. destruct (strm b m k) as [[[r0 v] p]|]; [|discriminate]. destruct (text b y) as [[ry w]|]; [|discriminate]. rewrite eq_plain by congruence.
    destruct (plain t m y); [|discriminate]. cbn [need] in *. destruct (zlen v <? p); [injection E as <-; reflexivity|].
    destruct (_ && _); injection E as <-; rewrite up_insert; [destruct mv|]; fin.
  - rewrite (eq_strm a b) by exact P. destruct (strm b m k) as [[[r0 v] p]|]; [|discriminate]. destruct (taken g r0 v p) as [[[rz l] p']|]; [|discriminate]. rewrite (eq_unused a b) by congruence.
    destruct (unused t b z); [|discriminate]. injection E as <-. cbn [need]. rewrite up_insert. fin.
  - rewrite (eq_strm a b) by exact P. destruct (strm b m k) as [[[r0 v] p]|]; [|discriminate]. destruct (StreamSpec.pstep cap _ v p) as [[? q ?|]|]; try discriminate. injection E as <-. rewrite up_insert. fin.
  - rewrite up_at. destruct (m !! k) as [p|]; [|discriminate]. injection E as <-. fin.
  - rewrite (eq_holds a b), up_at by exact P. destruct (holds b k) as [[r0 v]|]; [|discriminate]. destruct (m !! k) as [p|]; [|discriminate]. injection E as <-. fin.
  - rewrite (eq_holds a b), up_at by exact P. destruct (holds b k) as [[r0 v]|]; [|discriminate]. destruct (m !! k) as [p|]; [|discriminate]. injection E as <-. fin.
  - rewrite (eq_strm a b) by exact P. destruct (strm b m k) as [[[r0 v] p]|]; [|discriminate]. destruct (_ && _); [|discriminate]. injection E as <-. cbn [need]. fin.
  - rewrite up_at. destruct (m !! k) as [p|]; [|discriminate]. injection E as <-. rewrite up_insert. fin.
Qed.
Lemma f_sim lk cap o a b m fs r : pulls a b -> t ∉ finvolved o -> fstep step t mm lk cap o b m fs = Some r ->
  match r with
  | FRet b' m' F v => exists a', fstep step t' mm lk cap (fren f o) a (up m) fs = Some (FRet a' (up m') F v) /\ pulls a' b' /\ keeps a a'
  | FRange => fstep step t' mm lk cap (fren f o) a (up m) fs = Some FRange
  end.
Proof.
  intros P N E. pose proof inj' as Hi. pose proof (NestSim.keeps_refl f a) as Hk. destruct o as [o|g k y|g k y|p c]; cbn [finvolved] in N; cbn [fstep fren] in E |- *;
    repeat match goal with H : _ ∉ _ :: _ |- _ => apply not_elem_of_cons in H; destruct H as [? H] end.
  - destruct (mstep step t cap o b m) as [r0|] eqn:E0; [|discriminate]. pose proof (m_sim cap o a b m r0 P N E0) as S. destruct r0 as [b' m' v|]; injection E as <-.
    + destruct S as (a' & -> & P' & K'). fin.
    + rewrite S. reflexivity.
  - rewrite (eq_strm a b), (eq_text a b) by exact P. destruct (strm b m k) as [s0|]; [|discriminate]. destruct (text b y) as [[[] w]|]; try discriminate. rewrite eq_plain by congruence.
    destruct (plain t m y); [|discriminate]. cbn [need] in *.
    assert (Hput : forall v, pulls (<[f k := v]> a) (<[k := v]> b) /\ keeps a (<[f k := v]> a)) by (intros v; split; [apply NestSim.pulls_insert; assumption|apply NestSim.keeps_insert; assumption]).
    destruct (fs !! file_name w) as [l|]; [|injection E as <-; fin].
    destruct lk; try (injection E as <-; rewrite ?up_insert; fin; fail); cbn [andb] in *;
      try (destruct (mm && (zlen l =? 0))); injection E as <-; rewrite up_insert; eexists; (split; [reflexivity|]); apply Hput.
  - rewrite (eq_strm a b), (eq_text a b) by exact P. destruct (strm b m k) as [[[rk v] p]|]; [|discriminate]. destruct (text b y) as [[[] w]|]; try discriminate. rewrite eq_plain by congruence.
    destruct (plain t m y); [|discriminate]. cbn [need] in *. destruct lk; injection E as <-; fin.
  - destruct c as [l|]; [destruct (zlen l <? W63); [|discriminate]|]; injection E as <-; cbn [need]; fin.
Qed.

(** What bad_alloc leaves behind. *)
Lemma mfail_sim o a b m a' m0 : pulls a b -> mfail a (up m) (mren f o) a' m0 -> exists b' m', mfail b m o b' m' /\ m0 = up m' /\ pulls a' b' /\ keeps a a'.
Proof.
  intros P F. pose proof inj' as Hi. pose proof (NestSim.keeps_refl f a) as Hk. destruct o; cbn [mren] in F; inversion F; subst; clear F.
  - exists b, m. split; [constructor|auto].
  - rewrite NestSim.ren_target in *. destruct (target o) as [y|] eqn:T; [|discriminate]. cbn [option_map] in *; match goal with H : Some _ = Some _ |- _ => injection H as <- end.
    exists (<[y := AVal true []]> b), m. split; [constructor; exact T|]. split; [reflexivity|]. split; [apply NestSim.pulls_insert; assumption|apply NestSim.keeps_insert; assumption].
  - exists b, m. split; [constructor|auto].
  - exists b, m. split; [constructor|auto].
  - exists (<[k := AVal true []]> b), m. split; [constructor|]. split; [reflexivity|]. split; [apply NestSim.pulls_insert; assumption|apply NestSim.keeps_insert; assumption].
  - match goal with H : strm _ _ _ = Some _ |- _ => rewrite (eq_strm _ b _ _ P) in H end. exists b, (<[k := p'']> m). split; [econstructor; eassumption|]. split; [rewrite up_insert; reflexivity|auto].
Qed.
Lemma ffail_sim lk o a b m fs a' m0 : pulls a b -> ffail mm lk a (up m) fs (fren f o) a' m0 ->
  exists b' m', ffail mm lk b m fs o b' m' /\ m0 = up m' /\ pulls a' b' /\ keeps a a'.
Proof.
  intros P F. pose proof inj' as Hi. pose proof (NestSim.keeps_refl f a) as Hk. destruct o; cbn [fren] in F; inversion F; subst; clear F.
  - edestruct mfail_sim as (b' & m' & K & R); [exact P|eassumption|]. exists b', m'. split; [constructor; exact K|exact R].
  - rewrite (eq_text a b) in * by exact P. eexists (<[k := str_ true v]> b), (<[k := zlen (ztake (1024 * j) (readable lk f0))]> m). split; [econstructor; eassumption|]. rewrite up_insert. split; [reflexivity|].
    split; [apply NestSim.pulls_insert; assumption|apply NestSim.keeps_insert; assumption].
Qed.

(** How calls fare and when memory runs out. *)
Lemma eq_luck x o a b m : pulls a b -> luck_of mm x (fren f o) a (up m) = luck_of mm x o b m.
Proof. intros P. destruct o; cbn [fren luck_of]; rewrite ?(eq_strm a b) by exact P; reflexivity. Qed.
Lemma short_string o a b : pulls a b -> (exists r, step o b = Some r) -> MstMeet.short d (MString (ren f o)) a -> MstMeet.short d (MString o) b.
Proof.
  intros P (r & Er) (a' & v & x & E & S & M). pose proof (NestSim.ren_step d f inj' o a b P) as F. unfold NestSim.follows in F. rewrite Er in F. destruct r as [b' v'|]; [|congruence].
  destruct F as (a1 & E1 & P1 & _). rewrite E in E1. injection E1 as <- <-. rewrite NestSim.ren_subject in S. destruct (subject o) as [y|] eqn:Sy; [|discriminate]. injection S as <-.
  rewrite (NestSim.ren_asks f o a' b' y P1) in M. exists b', v, y. auto.
Qed.
Lemma short_sim lk cap o a b m fs r : pulls a b -> fstep step t mm lk cap o b m fs = Some r -> fshort d (fren f o) a fs -> fshort d o b fs.
Proof.
  intros P E S. destruct o as [o|g k y|g k y|p c]; cbn [fren fshort] in *; try contradiction.
  - destruct o; cbn [mren MstMeet.short] in *; try contradiction; rewrite ?(eq_vlen a b) in S by exact P; try exact S.
    cbn [fstep mstep] in E. destruct (forallb (plain t m) (mentions o)); [|discriminate]. cbn [need] in E.
    apply (short_string o a b P); [|exact S]. destruct (step o b) as [r0|]; [eauto|discriminate].
  - rewrite (eq_text a b) in S by exact P. exact S.
Qed.
Lemma ends_sim lk cap o a b m fs r : pulls a b -> fstep step t mm lk cap o b m fs = Some r -> fends d (fren f o) a -> fends d o b.
Proof.
  intros P E S.
  assert (C : forall g y, MstMeet.short d (MString (CStr g (f y))) a -> MstMeet.short d (MString (CStr g y)) b).
  { intros g y K. destruct (step (CStr g y) b) as [r0|] eqn:Ec; [eapply (short_string (CStr g y) a b P); [eauto|exact K]|]. exfalso.
    destruct K as (a' & v & x & K & _). unfold RcaMeet.step in K, Ec. cbn [spec_step] in K, Ec. rewrite (eq_holds a b) in K by exact P. destruct (d_nul d); [|discriminate]. destruct (holds b y) as [[[] ?]|]; discriminate. }
  destruct o as [o|g k y|g k y|p c]; cbn [fren fends] in *; try contradiction; try (apply C, S).
  destruct o; cbn [mren] in *; try contradiction. destruct o; cbn [ren] in *; try contradiction. apply C, S.
Qed.
End Sim.
