(** How long programs take, and programs run one operation at a time. *)
From Verif Require Import Base ZList ConModel ConSpec ConProof.
From stdpp Require Import gmap.
Open Scope Z_scope.

Definition rank (m : micro) : nat :=
  match m with Idle => 0 | DFree _ | KDec _ _ | MWrite _ _ => 1 | DDec _ | MCopy _ _ _ _ | NGrow _ => 2 | DCleanse _ | MDec _ _ _ _ => 3 | DLoad _ | NCheck _ => 4 end%nat.
Global Instance idle_dec m : Decision (m = Idle).
Proof. destruct m; first [left; reflexivity | right; discriminate]. Defined.
Lemma tstep_rank m t m' t' : tstep m t = SOk m' t' ->
  (t_micro t = Idle /\ (exists o, t_prog t = o :: t_prog t') /\ (rank (t_micro t') <= 4)%nat) \/
  (t_micro t <> Idle /\ t_prog t' = t_prog t /\ (rank (t_micro t') < rank (t_micro t))%nat).
Proof.
  unfold tstep, inc, dec, with_cell. intros H.
  destruct (t_micro t) eqn:Em;
    [left; split; [reflexivity|]; destruct (t_prog t) as [|[] q] eqn:Eq; cbn [tl] in H | right; split; [discriminate|] ..];
    repeat match type of H with
    | context [match ?e with _ => _ end] => destruct e
    end; try discriminate H; injection H as <- <-; cbn [goto t_prog t_micro rank tl]; (split; [eauto|lia]).
Qed.
Definition work (t : thread) : nat := (5 * length (t_prog t) + rank (t_micro t))%nat.
Lemma tstep_work m t m' t' : tstep m t = SOk m' t' -> (work t' < work t)%nat.
Proof.
  intros H. unfold work. destruct (tstep_rank _ _ _ _ H) as [(E & (o & Eo) & R)|(E & Eo & R)]; rewrite Eo; [rewrite E; cbn [length rank]; lia|lia].
Qed.
Lemma run_finishes sched : forall c c', run sched c = COk c' ->
  length (g_threads c') = length (g_threads c) /\
  forall i t, g_threads c !! i = Some t -> exists t', g_threads c' !! i = Some t' /\ ((t_micro t' = Idle /\ t_prog t' = []) \/ (work t' + turns i sched <= work t)%nat).
Proof.
  induction sched as [|j sched IH]; intros c c' H; cbn [run turns] in *.
  - injection H as <-. split; [reflexivity|]. intros i t Ht. exists t. split; [exact Ht|right; lia].
  - unfold move in H. destruct (g_threads c !! j) as [u|] eqn:Eu.
    + destruct (tstep (g_mem c) u) as [m' u'| |e] eqn:Es; [| |discriminate].
      * destruct (IH _ _ H) as [L W]. cbn [g_threads] in L, W. rewrite insert_length in L. split; [exact L|]. intros i t Ht. destruct (decide (i = j)) as [->|N].
        -- destruct (W j u') as (t' & Ht' & D); [apply list_lookup_insert; eapply lookup_lt_Some; exact Eu|]. exists t'. split; [exact Ht'|]. destruct D as [D|D]; [left; exact D|right].
           assert (u = t) as -> by congruence. pose proof (tstep_work _ _ _ _ Es). lia.
        -- destruct (W i t) as (t' & Ht' & D); [rewrite list_lookup_insert_ne by congruence; exact Ht|]. exists t'. split; [exact Ht'|]. destruct D as [D|D]; [left; exact D|right; lia].
      * destruct (IH _ _ H) as [L W]. split; [exact L|]. intros i t Ht. destruct (W i t Ht) as (t' & Ht' & D). exists t'. split; [exact Ht'|]. destruct (decide (i = j)) as [->|N]; [|destruct D as [D|D]; [left; exact D|right; lia]].
        left. assert (u = t) as -> by congruence. assert (t_micro t = Idle /\ t_prog t = []) as [E1 E2].
        { unfold tstep, inc, dec, with_cell in Es. destruct (t_micro t); [destruct (t_prog t) as [|[] q]; [split; reflexivity|..]|..]; exfalso; repeat match type of Es with context [match ?e with _ => _ end] => destruct e end; discriminate. }
        destruct D as [D|D]; [exact D|]. unfold work in D. rewrite E1, E2 in D. cbn in D. destruct (t_prog t'); cbn in D; [|lia]. destruct (t_micro t'); cbn in D; try lia. split; reflexivity.
    + destruct (IH _ _ H) as [L W]. split; [exact L|]. intros i t Ht. destruct (decide (i = j)) as [->|N]; [congruence|]. exact (W i t Ht).
Qed.
Lemma run_done sched c c' : run sched c = COk c' -> idle c ->
  (forall i t, g_threads c !! i = Some t -> (5 * length (t_prog t) <= turns i sched)%nat) -> done c'.
Proof.
  intros H Id Tn. destruct (run_finishes _ _ _ H) as [L W]. apply Forall_lookup_2. intros i t' Ht'.
  destruct (lookup_lt_is_Some_2 (g_threads c) i) as (t & Ht); [rewrite <- L; eapply lookup_lt_Some; exact Ht'|]. destruct (W i t Ht) as (t2 & Ht2 & D). assert (t2 = t') as -> by congruence.
  destruct D as [D|D]; [exact D|]. specialize (Tn i t Ht). unfold work in D. rewrite (Id i t Ht) in D. cbn [rank] in D.
  destruct (t_prog t'); cbn [length] in D; [|lia]. destruct (t_micro t'); cbn in D; try lia. split; reflexivity.
Qed.

(** One operation after the other. *)
Lemma move_inside strict i c ps fs t : G strict c ps fs -> g_threads c !! i = Some t -> ~ shared_change (m_heap (g_mem c)) t ->
  (move i c = COk c /\ t_micro t = Idle /\ t_prog t = []) \/
  exists c' ps' t', move i c = COk c' /\ G strict c' ps' fs /\ g_threads c' = <[i := t']> (g_threads c) /\ length ps' = length ps /\
    (if decide (t_micro t = Idle) then (rank (t_micro t') <= 4)%nat else (rank (t_micro t') < rank (t_micro t))%nat).
Proof.
  intros H Ht HS. destruct (G_threads _ _ _ _ H i t Ht) as (p & f & Hp & Hf & HT & HP). pose proof (step_ok strict c ps fs i t p f H Ht Hp Hf HT HP HS) as S.
  unfold move. rewrite Ht. destruct (tstep (g_mem c) t) as [m' t'| |e] eqn:Es; cbn in S; [|left; tauto|contradiction].
  destruct S as (p' & S). right. eexists _, _, t'. split; [reflexivity|]. split; [exact S|]. split; [reflexivity|]. split; [apply insert_length|].
  destruct (tstep_rank _ _ _ _ Es) as [(E & _ & R)|(E & _ & R)]; rewrite ?decide_True, ?decide_False by assumption; exact R.
Qed.
Definition others (i : nat) (c c' : config) : Prop := forall j, j <> i -> g_threads c' !! j = g_threads c !! j.
Lemma finish_G strict i fs : forall n c ps t, G strict c ps fs -> g_threads c !! i = Some t -> (rank (t_micro t) <= n)%nat ->
  exists c' ps' t', finish n i c = COk c' /\ G strict c' ps' fs /\ g_threads c' !! i = Some t' /\ t_micro t' = Idle /\ others i c c'.
Proof.
  intros n. induction n as [|n IH]; intros c ps t H Ht R.
  - exists c, ps, t. cbn [finish]. rewrite Ht. assert (t_micro t = Idle) as E by (destruct (t_micro t); cbn in R; try lia; reflexivity). rewrite E. split; [reflexivity|]. split; [exact H|]. split; [first [exact Ht|reflexivity]|]. split; [first [exact E|reflexivity]|]. intros j _. reflexivity.
  - cbn [finish]. rewrite Ht. destruct (decide (t_micro t = Idle)) as [E|E].
    + rewrite E. exists c, ps, t. split; [reflexivity|]. split; [exact H|]. split; [first [exact Ht|reflexivity]|]. split; [first [exact E|reflexivity]|]. intros j _. reflexivity.
    + assert (~ shared_change (m_heap (g_mem c)) t) as HS by (intros [E' _]; exact (E E')).
      destruct (move_inside strict i c ps fs t H Ht HS) as [(_ & E' & _)|(c1 & ps1 & t1 & Em & H1 & Et & _ & R1)]; [contradiction|]. rewrite decide_False in R1 by exact E.
      assert (g_threads c1 !! i = Some t1) as Ht1 by (rewrite Et; apply list_lookup_insert; eapply lookup_lt_Some; exact Ht).
      destruct (IH c1 ps1 t1 H1 Ht1 ltac:(lia)) as (c' & ps' & t' & F & H' & Ht' & Id & O).
      exists c', ps', t'. rewrite Em, F. assert (others i c c') as O' by (intros j N; rewrite (O j N), Et; apply list_lookup_insert_ne; congruence).
      destruct (t_micro t); try contradiction; (split; [reflexivity|]; split; [exact H'|]; split; [exact Ht'|]; split; [exact Id|exact O']).
Qed.
Lemma idle_others i c c' t' : idle c -> g_threads c' !! i = Some t' -> t_micro t' = Idle -> others i c c' -> idle c'.
Proof.
  intros Id E M O j u Hu. destruct (decide (j = i)) as [->|N]; [congruence|]. rewrite (O j N) in Hu. exact (Id j u Hu).
Qed.

(** Modifying a shared buffer without interruption. *)
Section Shared.
Context (strict : bool) (c : config) (ps fs : list private) (i : nat) (t : thread) (p f : private).
Context (H : G strict c ps fs) (Ht : g_threads c !! i = Some t) (Hp : ps !! i = Some p) (Hf : fs !! i = Some f).
Context (HT : T (m_heap (g_mem c)) t p) (HP : pexec strict (t_prog t) p = Some f) (Em : t_micro t = Idle).
Let h := m_heap (g_mem c).
Context (x l : Z) (len : Z * Z) (k : cell) (Ex : t_env t !! x = Some (Some (l, len))) (Ek : m_heap (g_mem c) !! l = Some k) (R : 1 < k_refs k).

Let k1 := CCell (k_refs k - 1) (k_elems k).
Lemma sum_insert2 (g : thread -> Z) t1 t2 : sum_of g (<[i := t2]> (<[i := t1]> (g_threads c))) = sum_of g (g_threads c) - g t + g t2.
Proof. rewrite list_insert_insert. apply sum_of_insert. exact Ht. Qed.
Lemma kept_dec l' : kept h (<[l := k1]> h) l'.
Proof. apply (kept_cell c l k); [exact Ek|]. intros _. cbn. split; [reflexivity|lia]. Qed.
Lemma G_clear q w b : t_prog t = CClear x :: q -> p_vals p !! x = Some (Some (w, b)) -> fst b || negb strict = true ->
  G strict (Config (set_cell (g_mem c) l k1) (<[i := goto t (<[x := None]> (t_env t)) Idle q]> (g_threads c))) (<[i := Private (<[x := Some ([], (true, false))]> (p_vals p)) (p_log p)]> ps) fs.
Proof.
  intros Eq Ep Eb. rewrite Eq in HP. cbn [pexec pstep] in HP. rewrite Ep, Eb in HP.
  assert (forall l', tok l' (goto t (<[x := None]> (t_env t)) Idle q) = tok l' t - (if l =? l' then 1 else 0)) as Tk.
  { intros l'. unfold tok. cbn [goto t_env t_micro]. rewrite Em, objects_insert, Ex. cbn. lia. }
  assert (forall l', due l' t = 0) as Du by (intros l'; unfold due; rewrite Em; reflexivity).
  eapply (G_update strict c ps fs i t p f); [exact H|exact Ht|exact Hp|exact Hf| |exact HP| | |]; cbn [set_cell m_heap m_next]; fold h.
  - split; cbn [goto t_log t_micro t_env p_log p_vals waiting]; [exact (log_idle c t p HT ltac:(rewrite Em; reflexivity))| |exact I]. intros z. destruct (decide (z = x)) as [->|N].
    + rewrite !lookup_insert. reflexivity.
    + rewrite !lookup_insert_ne by congruence. eapply V_kept; [rewrite <- Em; apply (T_vals _ _ _ HT)|]. intros l' n _. apply kept_dec.
  - intros j u l' _ _ _. apply kept_dec.
  - eapply (count_cell strict c ps fs t H (set_cell (g_mem c) l k1) _ l k k1); [reflexivity|exact Ek| | |].
    + intros l' N. rewrite Tk, Du. destruct (Z.eqb_spec l l'); [congruence|]. split; [lia|reflexivity].
    + rewrite Tk, Z.eqb_refl. cbn. lia.
    + rewrite Du. change (due l (goto t (<[x := None]> (t_env t)) Idle q)) with 0. pose proof (G_count _ _ _ _ H l) as C. rewrite Ek in C. destruct C as [_ C]. cbn [k_refs k1].
      destruct (Z.eqb_spec (k_refs k) 0); destruct (Z.eqb_spec (k_refs k - 1) 0); lia.
  - intros l' L. pose proof (G_fresh _ _ _ _ H l' L) as Fr. fold h in Fr |- *. rewrite lookup_insert_ne; [exact Fr|]. intros ->. unfold h in Fr. congruence.
Qed.
Let l' := m_next (g_mem c).
Let n' := (0, snd len).
Let k' (o : option (Z * Z)) := CCell 1 (text_in len k ++ zrep (match o with Some _ => 1 | None => 2 end) 0).
Lemma G_cow o q w b w' b' log' : p_vals p !! x = Some (Some (w, b)) ->
  match o with Some (j, v) => 0 <= j < zlen w /\ w' = zupd j [v] w /\ log' = p_log p | None => w' = w /\ log' = (w ++ [0]) :: p_log p end ->
  pexec strict q (Private (<[x := Some (w', b')]> (p_vals p)) log') = Some f ->
  G strict (Config (Mem (<[l' := k' o]> (<[l := k1]> h)) (l' + 1) (m_freed (g_mem c)))
    (<[i := goto t (<[x := Some (l', n')]> (t_env t)) (MWrite x o) q]> (g_threads c))) (<[i := Private (<[x := Some (w', b')]> (p_vals p)) log']> ps) fs.
Proof.
  intros Ep Eo HP'.
  destruct (obj_cell strict c ps fs i t p H Ht HT x l len Ex) as (k0 & w0 & b0 & Ek0 & Ep0 & B & W & _ & _ & Tr).
  assert (k0 = k) as -> by congruence. assert (w0 = w) as -> by congruence. rewrite Em in W. cbn in W. pose proof (zlen_text len k B) as Lw. pose proof B as (B1 & B2 & B3).
  assert (h !! l' = None) as Fr by (apply (G_fresh _ _ _ _ H); unfold l'; lia). assert (l <> l') as Nl by (intros E; fold h in Ek; congruence).
  pose proof (G_count _ _ _ _ H l') as C0. fold h in C0. rewrite Fr in C0. destruct C0 as [C0 C0'].
  assert (tok l' t = 0) as T0 by (pose proof (sum_of_ge (tok l') _ i t (tok_nonneg l') Ht); pose proof (tok_nonneg l' t); lia).
  assert (forall m, kept h (<[l' := k' o]> (<[l := k1]> h)) m) as Kp.
  { intros m km Em'. destruct (kept_dec m km Em') as (kk & E1 & E2). exists kk. split; [|exact E2]. rewrite lookup_insert_ne; [exact E1|]. intros <-. congruence. }
  assert (forall m, tok m (goto t (<[x := Some (l', n')]> (t_env t)) (MWrite x o) q) = tok m t - (if l =? m then 1 else 0) + (if l' =? m then 1 else 0)) as Tk.
  { intros m. unfold tok. cbn [goto t_env t_micro]. rewrite Em, objects_insert, Ex. cbn. lia. }
  assert (forall m, due m t = 0) as Du by (intros m; unfold due; rewrite Em; reflexivity).
  eapply (G_update strict c ps fs i t p f); [exact H|exact Ht|exact Hp|exact Hf| |exact HP'| | |]; cbn [m_heap m_next].
  - split; cbn [goto t_log t_micro t_env p_log p_vals].
    + pose proof (log_idle c t p HT ltac:(rewrite Em; reflexivity)) as L. destruct o as [[j v]|]; cbn [waiting]; [destruct Eo as (_ & _ & ->); exact L|]. destruct Eo as (-> & ->). exists w, b'. rewrite lookup_insert, L. tauto.
    + intros z. destruct (decide (z = x)) as [->|N].
      * rewrite !lookup_insert. apply V_here with (k := k' o); [apply lookup_insert| | |reflexivity|].
        -- unfold inside, k', n'. cbn [fst snd k_elems]. rewrite zlen_app, Lw, zlen_zrep. destruct o; lia.
        -- assert (text_in n' (k' o) = w) as -> by (unfold text_in at 1, k', n'; cbn [fst snd k_elems]; rewrite <- Lw, zsub_app_l, zsub_all by lia; symmetry; exact W).
           destruct o as [[j v]|]; cbn [pend]; [rewrite Z.eqb_refl; apply Eo|apply Eo].
        -- intros _ Nw. destruct o as [[j v]|]; [|destruct Nw; reflexivity]. unfold ended, k', n'. cbn [fst snd k_elems]. rewrite Z.add_0_l, <- Lw, znth_app, Z.ltb_irrefl, Z.sub_diag. reflexivity.
      * rewrite !lookup_insert_ne by congruence. eapply V_micro; [| |eapply V_kept; [apply (T_vals _ _ _ HT)|]; intros m n _; apply Kp].
        -- intros w1. rewrite Em. destruct o as [[j v]|]; [|reflexivity]. cbn. destruct (Z.eqb_spec z x); [contradiction|reflexivity].
        -- rewrite Em. discriminate.
    + unfold MC. cbn [goto t_micro t_env]. eexists l', n', _. rewrite !lookup_insert. split; [reflexivity|]. split; [reflexivity|]. split; [reflexivity|]. destruct o as [[j v]|]; [|exact I]. unfold n'. cbn [snd]. rewrite <- Lw, <- W. apply Eo.
  - intros j' u m _ _ _. apply Kp.
  - intros m. rewrite Tk, Du. change (due m (goto t (<[x := Some (l', n')]> (t_env t)) (MWrite x o) q)) with 0. pose proof (G_count _ _ _ _ H m) as C. fold h in C.
    destruct (Z.eqb_spec l' m) as [<-|N1].
    + rewrite lookup_insert. destruct (Z.eqb_spec l l'); [contradiction|]. unfold k'. cbn [k_refs]. change (1 =? 0) with false. cbn iota. lia.
    + rewrite lookup_insert_ne by exact N1. destruct (Z.eqb_spec l m) as [<-|N2].
      * rewrite lookup_insert. fold h in Ek. rewrite Ek in C. destruct C as [C1 C2]. cbn [k_refs k1]. destruct (Z.eqb_spec (k_refs k) 0); [lia|]. destruct (Z.eqb_spec (k_refs k - 1) 0); [lia|]. lia.
      * rewrite lookup_insert_ne by exact N2. destruct (h !! m); [|lia]. destruct C as [C1 C2]. split; [lia|]. rewrite <- C2. lia.
  - intros m L. rewrite lookup_insert_ne by lia. assert (h !! m = None) as Fm by (apply (G_fresh _ _ _ _ H); unfold l' in L; lia). rewrite lookup_insert_ne; [exact Fm|]. intros <-. fold h in Ek. congruence.
Qed.
End Shared.

Lemma move_eq i c t m t' : g_threads c !! i = Some t -> tstep (g_mem c) t = SOk m t' -> move i c = COk (Config m (<[i := t']> (g_threads c))).
Proof. intros E S. unfold move. rewrite E, S. reflexivity. Qed.
Lemma decide_shared h t : shared_change h t \/ ~ shared_change h t.
Proof.
  unfold shared_change. destruct (decide (t_micro t = Idle)) as [E|E]; [|right; tauto].
  assert (forall x (P : Z * Z -> cell -> Prop), (forall n c, P n c \/ ~ P n c) -> (exists l n c, t_env t !! x = Some (Some (l, n)) /\ h !! l = Some c /\ 1 < k_refs c /\ P n c) \/
    ~ (exists l n c, t_env t !! x = Some (Some (l, n)) /\ h !! l = Some c /\ 1 < k_refs c /\ P n c)) as D.
  { intros x P Dp. destruct (t_env t !! x) as [[[l n]|]|] eqn:Ex; try (right; intros (? & ? & ? & ? & _); discriminate). destruct (h !! l) as [k|] eqn:Ek; [|right; intros (? & ? & ? & E1 & E2 & _); congruence].
    destruct (Z_lt_dec 1 (k_refs k)) as [L|L]; [|right; intros (l1 & n1 & k1 & E1 & E2 & L' & _); assert (k1 = k) as -> by congruence; lia].
    destruct (Dp n k) as [Y|Y]; [left; exists l, n, k; tauto|right]. intros (l1 & n1 & k1 & E1 & E2 & _ & Y'). assert (k1 = k) as -> by congruence. assert (n1 = n) as -> by congruence. exact (Y Y'). }
  destruct (t_prog t) as [|o q]; [right; intros (_ & x0 & l0 & n0 & c0 & _ & _ & _ & [A|[(i & v0 & A)|(A & _)]]); discriminate A|].
  destruct o as [x v|x y|x y|x y|x|x|x j v|x|x y s n|x n|x]; try (right; intros (_ & x0 & l0 & n0 & c0 & _ & _ & _ & [A|[(i & v0 & A)|(A & _)]]); discriminate A).
  - destruct (D x (fun _ _ => True)) as [(l & n & k & A1 & A2 & A3 & _)|A]; [left; exact I|left|right].
    + split; [exact E|]. exists x, l, n, k. repeat split; try assumption. right. left. eauto.
    + intros (_ & x0 & l0 & n0 & c0 & B1 & B2 & B3 & [B|[(i' & v0 & B)|(B & _)]]); [discriminate| |discriminate]. injection B as -> -> ->. apply A. exists l0, n0, c0. tauto.
  - destruct (D x (fun _ _ => True)) as [(l & n & k & A1 & A2 & A3 & _)|A]; [left; exact I|left|right].
    + split; [exact E|]. exists x, l, n, k. repeat split; try assumption. left. reflexivity.
    + intros (_ & x0 & l0 & n0 & c0 & B1 & B2 & B3 & [B|[(i' & v0 & B)|(B & _)]]); [|discriminate|discriminate]. injection B as ->. apply A. exists l0, n0, c0. tauto.
  - destruct (D x (fun n k => snd n <> 0 /\ znth (fst n + snd n) (k_elems k) <> Some 0)) as [(l & n & k & A1 & A2 & A3 & A4)|A]; [|left|right].
    + intros n k. destruct (Z.eq_dec (snd n) 0); [right; tauto|]. destruct (decide (znth (fst n + snd n) (k_elems k) = Some 0)); [right|left]; tauto.
    + split; [exact E|]. exists x, l, n, k. repeat split; try assumption. right. right. tauto.
    + intros (_ & x0 & l0 & n0 & c0 & B1 & B2 & B3 & [B|[(i' & v0 & B)|(B & B4)]]); [discriminate|discriminate|]. injection B as ->. apply A. exists l0, n0, c0. tauto.
Qed.
Lemma whole_G strict i c ps fs : G strict c ps fs -> idle c -> exists c' ps', whole i c = COk c' /\ G strict c' ps' fs /\ idle c'.
Proof.
  intros H Id. destruct (g_threads c !! i) as [t|] eqn:Ht; [|exists c, ps; unfold whole, move; rewrite Ht; cbn; rewrite Ht; tauto].
  pose proof (Id i t Ht) as Em. destruct (decide_shared (m_heap (g_mem c)) t) as [(_ & x & l & len & k & Ex & Ek & R & O)|HS].
  - destruct (G_threads _ _ _ _ H i t Ht) as (p & f & Hp & Hf & HT & HP). destruct (obj_cell strict c ps fs i t p H Ht HT x l len Ex) as (k0 & w & b & Ek0 & Ep & B & W & _ & _ & Tr). assert (k0 = k) as -> by congruence.
    rewrite Em in W. cbn in W. assert (zlen w = snd len) as Lw by (rewrite W; apply zlen_text; exact B).
    assert (forall t', <[i := t']> (g_threads c) !! i = Some t') as Li by (intros t'; apply list_lookup_insert; eapply lookup_lt_Some; exact Ht).
    assert (forall m t', others i c (Config m (<[i := t']> (g_threads c)))) as Oi by (intros m t' j N; cbn [g_threads]; apply list_lookup_insert_ne; congruence).
    destruct O as [O|[(j & v & O)|(O & N0 & Nz)]].
    + remember (tl (t_prog t)) as q eqn:Eq. clear Eq. assert (fst b || negb strict = true) as Eb by (rewrite O in HP; cbn [pexec pstep] in HP; rewrite Ep in HP; destruct (fst b || negb strict); [reflexivity|discriminate]).
      pose proof (G_clear strict c ps fs i t p f H Ht Hp Hf HT HP Em x l len k Ex Ek R q w b O Ep Eb) as HG. eexists _, _. split; [|split; [exact HG|eapply idle_others; [exact Id|apply Li|reflexivity|apply Oi]]].
      unfold whole. rewrite (move_eq i c t (g_mem c) (goto t (t_env t) (KDec x l) q)); [|exact Ht|unfold tstep; rewrite Em, O; cbn [tl]; rewrite Ex; unfold with_cell; rewrite Ek; destruct (Z.ltb_spec 1 (k_refs k)); [reflexivity|lia]].
      cbn [finish g_threads]. rewrite Li. cbn [goto t_micro]. erewrite move_eq; [|cbn [g_threads]; apply Li|unfold tstep; cbn [goto t_micro g_mem t_env t_prog]; unfold dec, with_cell; rewrite Ek; reflexivity].
      cbn [g_threads]. rewrite !list_insert_insert. cbn [finish g_threads]. rewrite Li. reflexivity.
    + remember (tl (t_prog t)) as q eqn:Eq. clear Eq. pose proof HP as HP'. rewrite O in HP'. cbn [pexec pstep] in HP'. rewrite Ep in HP'. destruct ((0 <=? j) && (j <? zlen w) && (fst b || negb strict)) eqn:Eb in HP'; [|discriminate].
      assert (0 <= j < zlen w) as Ij by lia. pose proof (G_cow strict c ps fs i t p f H Ht Hp Hf HT Em x l len k Ex Ek R (Some (j, v)) q w b _ _ _ Ep (conj Ij (conj eq_refl eq_refl)) HP') as HG.
      destruct (finish_G strict i fs 2 _ _ _ HG (Li _)) as (c' & ps' & t' & F & H' & Ht' & Idt & Oc); [cbn; lia|].
      exists c', ps'. split; [|split; [exact H'|eapply idle_others; [exact Id|exact Ht'|exact Idt|]; intros j' N; rewrite (Oc j' N); cbn [g_threads]; apply list_lookup_insert_ne; congruence]].
      rewrite <- F. unfold whole. rewrite (move_eq i c t (g_mem c) (goto t (t_env t) (MDec x l len (Some (j, v))) q)); [|exact Ht|unfold tstep; rewrite Em, O; cbn [tl]; rewrite Ex; destruct ((0 <=? j) && (j <? snd len)) eqn:E2; [|lia]; unfold with_cell; rewrite Ek; destruct (Z.ltb_spec 1 (k_refs k)); [reflexivity|lia]].
      cbn [finish g_threads]. rewrite Li. cbn [goto t_micro]. erewrite move_eq; [|cbn [g_threads]; apply Li|unfold tstep; cbn [goto t_micro g_mem t_env t_prog]; unfold dec, with_cell; rewrite Ek; reflexivity].
      cbn [g_threads]. rewrite !list_insert_insert. rewrite Li. cbn [goto t_micro].
      erewrite move_eq; [|cbn [g_threads]; apply Li|unfold tstep; cbn [goto t_micro g_mem t_env t_prog set_cell]; unfold with_cell; cbn [set_cell m_heap]; rewrite lookup_insert; reflexivity].
      cbn [g_threads set_cell m_heap m_next m_freed k_elems]. rewrite !list_insert_insert, insert_insert, !Li. reflexivity.
    + remember (tl (t_prog t)) as q eqn:Eq. clear Eq. pose proof HP as HP'. rewrite O in HP'. cbn [pexec pstep] in HP'. rewrite Ep, Lw in HP'. destruct (Z.eqb_spec (snd len) 0) as [|_]; [contradiction|]. destruct (fst b || snd b || negb strict) in HP'; [|discriminate].
      pose proof (G_cow strict c ps fs i t p f H Ht Hp Hf HT Em x l len k Ex Ek R None q w b _ _ _ Ep (conj eq_refl eq_refl) HP') as HG. pose proof B as (B1 & B2 & B3). destruct (znth_some (fst len + snd len) (k_elems k) ltac:(lia)) as (d & Ed).
      destruct (finish_G strict i fs 1 _ _ _ HG (Li _)) as (c' & ps' & t' & F & H' & Ht' & Idt & Oc); [cbn; lia|].
      exists c', ps'. split; [|split; [exact H'|eapply idle_others; [exact Id|exact Ht'|exact Idt|]; intros j' N; rewrite (Oc j' N); cbn [g_threads]; apply list_lookup_insert_ne; congruence]].
      rewrite <- F. unfold whole. rewrite (move_eq i c t (g_mem c) (goto t (t_env t) (NCheck x) q)); [|exact Ht|unfold tstep; rewrite Em, O; cbn [tl]; rewrite Ex; destruct (Z.eqb_spec (snd len) 0); [contradiction|]; unfold with_cell; rewrite Ek, Ed; destruct (Z.eqb_spec d 0); [congruence|reflexivity]].
      cbn [finish g_threads]. rewrite Li. cbn [goto t_micro]. erewrite move_eq; [|cbn [g_threads]; apply Li|unfold tstep; cbn [goto t_micro g_mem t_env t_prog]; rewrite Ex; unfold with_cell; rewrite Ek; destruct (Z.ltb_spec 1 (k_refs k)); [reflexivity|lia]].
      cbn [g_threads]. rewrite !list_insert_insert. rewrite Li. cbn [goto t_micro]. erewrite move_eq; [|cbn [g_threads]; apply Li|unfold tstep; cbn [goto t_micro g_mem t_env t_prog]; unfold dec, with_cell; rewrite Ek; reflexivity].
      cbn [g_threads]. rewrite !list_insert_insert. rewrite Li. cbn [goto t_micro].
      erewrite move_eq; [|cbn [g_threads]; apply Li|unfold tstep; cbn [goto t_micro g_mem t_env t_prog set_cell]; unfold with_cell; cbn [set_cell m_heap]; rewrite lookup_insert; reflexivity].
      cbn [g_threads set_cell m_heap m_next m_freed k_elems]. rewrite !list_insert_insert, insert_insert, !Li. reflexivity.
  - destruct (move_inside strict i c ps fs t H Ht HS) as [(E & _)|(c1 & ps1 & t1 & E & H1 & Et & _ & R1)].
    + exists c, ps. unfold whole. rewrite E. cbn [finish]. rewrite Ht, Em. tauto.
    + rewrite decide_True in R1 by exact Em. assert (g_threads c1 !! i = Some t1) as Ht1 by (rewrite Et; apply list_lookup_insert; eapply lookup_lt_Some; exact Ht).
      destruct (finish_G strict i fs 4 c1 ps1 t1 H1 Ht1 R1) as (c' & ps' & t' & F & H' & Ht' & Idt & O). exists c', ps'. unfold whole. rewrite E, F. split; [reflexivity|]. split; [exact H'|].
      eapply idle_others; [exact Id|exact Ht'|exact Idt|]. intros j N. rewrite (O j N), Et. apply list_lookup_insert_ne. congruence.
Qed.
Lemma serial_G strict sched : forall c ps fs, G strict c ps fs -> idle c -> exists c' ps', serial sched c = COk c' /\ G strict c' ps' fs /\ idle c'.
Proof.
  induction sched as [|i sched IH]; intros c ps fs H Id; [exists c, ps; tauto|]. cbn [serial]. destruct (whole_G strict i c ps fs H Id) as (c1 & ps1 & -> & H1 & Id1). exact (IH _ _ _ H1 Id1).
Qed.

(** How long it takes. *)
Definition prog_of (c : config) (j : nat) : option (list cop) := option_map t_prog (g_threads c !! j).
Lemma move_prog i c c' t : move i c = COk c' -> g_threads c !! i = Some t -> forall j, prog_of c' j = if decide (j = i) then Some (if decide (t_micro t = Idle) then tl (t_prog t) else t_prog t) else prog_of c j.
Proof.
  unfold move. intros M Ht j. rewrite Ht in M. destruct (tstep (g_mem c) t) as [m' t'| |e] eqn:Es; [| |discriminate]; injection M as <-.
  - unfold prog_of. cbn [g_threads]. destruct (decide (j = i)) as [->|N]; [|rewrite list_lookup_insert_ne by congruence; reflexivity]. rewrite list_lookup_insert by (eapply lookup_lt_Some; exact Ht). cbn.
    destruct (tstep_rank _ _ _ _ Es) as [(E & (o & Eo) & _)|(E & Eo & _)]; rewrite ?decide_True, ?decide_False by assumption; rewrite Eo; reflexivity.
  - destruct (decide (j = i)) as [->|N]; [|reflexivity]. unfold prog_of. rewrite Ht. cbn. unfold tstep, inc, dec, with_cell in Es.
    destruct (t_micro t) eqn:Em; [destruct (t_prog t) as [|[] q]; [rewrite decide_True by reflexivity; reflexivity|..]|..]; exfalso; repeat match type of Es with context [match ?e with _ => _ end] => destruct e end; discriminate.
Qed.
Lemma finish_prog i : forall n c c' j, finish n i c = COk c' -> prog_of c' j = prog_of c j.
Proof.
  intros n. induction n as [|n IH]; intros c c' j F; cbn [finish] in F; destruct (g_threads c !! i) as [t|] eqn:Ht; try (injection F as <-; reflexivity).
  - destruct (t_micro t); injection F as <-; reflexivity.
  - destruct (decide (t_micro t = Idle)) as [E|E]; [rewrite E in F; injection F as <-; reflexivity|]. destruct (move i c) as [c1|e] eqn:Em; [|destruct (t_micro t); try contradiction; discriminate].
    assert (finish n i c1 = COk c') as F1 by (destruct (t_micro t); try contradiction; exact F). rewrite (IH _ _ _ F1), (move_prog i c c1 t Em Ht j). destruct (decide (j = i)) as [->|]; [|reflexivity].
    rewrite decide_False by exact E. unfold prog_of. rewrite Ht. reflexivity.
Qed.
Lemma serial_prog strict sched : forall c ps fs c', G strict c ps fs -> idle c -> serial sched c = COk c' -> forall j, option_map (@length cop) (prog_of c' j) = option_map (fun q => (length q - turns j sched)%nat) (prog_of c j).
Proof.
  induction sched as [|i sched IH]; intros c ps fs c' H Id S j; cbn [serial turns] in *.
  - injection S as <-. destruct (prog_of c j); cbn; [|reflexivity]. f_equal. lia.
  - destruct (whole_G strict i c ps fs H Id) as (c1 & ps1 & W & H1 & Id1). rewrite W in S. rewrite (IH _ _ _ _ H1 Id1 S j). unfold whole in W. destruct (move i c) as [c0|e] eqn:Em; [|discriminate]. rewrite (finish_prog i 4 _ _ j W).
    destruct (g_threads c !! i) as [t|] eqn:Ht.
    + rewrite (move_prog i c c0 t Em Ht j). rewrite (decide_True (P := t_micro t = Idle)) by exact (Id i t Ht). destruct (decide (j = i)) as [->|N]; [|reflexivity]. unfold prog_of. rewrite Ht. cbn. f_equal. destruct (t_prog t); cbn; lia.
    + unfold move in Em. rewrite Ht in Em. injection Em as <-. unfold prog_of. destruct (decide (j = i)) as [->|N]; [rewrite Ht; reflexivity|reflexivity].
Qed.
Lemma serial_done strict sched c ps fs c' : G strict c ps fs -> idle c -> serial sched c = COk c' ->
  (forall i t, g_threads c !! i = Some t -> (length (t_prog t) <= turns i sched)%nat) -> done c'.
Proof.
  intros H Id S Tn. destruct (serial_G strict sched c ps fs H Id) as (c1 & ps1 & S1 & _ & Id1). rewrite S in S1. injection S1 as <-. apply Forall_lookup_2. intros i t' Ht'. split; [exact (Id1 i t' Ht')|].
  pose proof (serial_prog strict sched c ps fs c' H Id S i) as P. unfold prog_of in P. rewrite Ht' in P. destruct (g_threads c !! i) as [t|] eqn:Ht; [|discriminate]. cbn in P. injection P as P. specialize (Tn i t Ht). destruct (t_prog t'); [reflexivity|]. cbn in P. lia.
Qed.

(** The properties. *)
Lemma c47_safe c ps fs : at_rest c ps -> legal true c ps fs -> forall sched, exists c', run sched c = COk c' /\ (conflict c' -> False) /\
  (forall i t x l n, g_threads c' !! i = Some t -> t_env t !! x = Some (Some (l, n)) -> exists k, m_heap (g_mem c') !! l = Some k /\ 1 <= k_refs k /\ inside n k) /\
  (done c' -> at_rest c' fs /\ (no_objects c' -> m_heap (g_mem c') = ∅)).
Proof.
  intros A L sched. destruct (rest_G true c ps fs A L) as [H Id]. destruct (run_strict sched c ps fs H) as (c' & ps' & E & H'). exists c'. split; [exact E|]. split; [exact (no_conflict _ _ _ _ H')|].
  split; [intros i t x l n; exact (G_alive _ _ _ _ i t x l n H')|]. intros D. assert (at_rest c' fs) as A'; [|split; [exact A'|exact (rest_empty _ _ A')]].
  eapply G_done; [exact H'| |exact D]. rewrite (legal_len _ _ _ _ A L). rewrite (G_len _ _ _ _ H'), (G_len _ _ _ _ H). symmetry. exact (proj1 (run_finishes _ _ _ E)).
Qed.
Lemma c47_finishes c ps fs : at_rest c ps -> legal true c ps fs -> forall sched, (forall i t, g_threads c !! i = Some t -> (5 * length (t_prog t) <= turns i sched)%nat) ->
  exists c', run sched c = COk c' /\ done c' /\ at_rest c' fs.
Proof.
  intros A L sched Tn. destruct (c47_safe c ps fs A L sched) as (c' & E & _ & _ & D). destruct (rest_G true c ps fs A L) as [H Id]. pose proof (run_done _ _ _ E Id Tn) as Dn. exists c'. split; [exact E|]. split; [exact Dn|]. exact (proj1 (D Dn)).
Qed.
Lemma serial_length sched : forall c c', serial sched c = COk c' -> length (g_threads c') = length (g_threads c).
Proof.
  assert (forall i c c', move i c = COk c' -> length (g_threads c') = length (g_threads c)) as Mv.
  { intros i c c' M. unfold move in M. destruct (g_threads c !! i); [|congruence]. destruct (tstep _ _); try congruence. injection M as <-. apply insert_length. }
  assert (forall n i c c', finish n i c = COk c' -> length (g_threads c') = length (g_threads c)) as Fn.
  { intros n. induction n as [|n IH]; intros i c c' F; cbn [finish] in F; destruct (g_threads c !! i) as [t|]; try congruence; destruct (t_micro t); try congruence; destruct (move i c) eqn:M; try discriminate; rewrite (IH _ _ _ F); exact (Mv _ _ _ M). }
  induction sched as [|i sched IH]; intros c c' S; cbn [serial] in S; [congruence|]. destruct (whole i c) as [c1|] eqn:W; [|discriminate]. rewrite (IH _ _ S). unfold whole in W. destruct (move i c) eqn:M; [|discriminate]. rewrite (Fn _ _ _ _ W). exact (Mv _ _ _ M).
Qed.
Lemma c48_serial c ps fs : at_rest c ps -> legal false c ps fs -> forall sched, exists c' ps', serial sched c = COk c' /\ at_rest c' ps' /\ legal false c' ps' fs /\
  (done c' -> at_rest c' fs /\ (no_objects c' -> m_heap (g_mem c') = ∅)) /\
  ((forall i t, g_threads c !! i = Some t -> (length (t_prog t) <= turns i sched)%nat) -> done c').
Proof.
  intros A L sched. destruct (rest_G false c ps fs A L) as [H Id]. destruct (serial_G false sched c ps fs H Id) as (c' & ps' & E & H' & Id'). exists c', ps'.
  assert (length fs = length ps') as Lf by (rewrite (legal_len _ _ _ _ A L), (G_len _ _ _ _ H'), (G_len _ _ _ _ H); symmetry; exact (serial_length _ _ _ E)).
  split; [exact E|]. split; [exact (G_rest _ _ _ _ H' Id')|]. split; [exact (G_legal _ _ _ _ H' Lf)|]. split.
  - intros D. assert (at_rest c' fs) as A' by exact (G_done _ _ _ _ H' Lf D). split; [exact A'|exact (rest_empty _ _ A')].
  - exact (serial_done false sched c ps fs c' H Id E).
Qed.
