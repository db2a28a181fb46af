(** Proofs for PtMeet. *)
From stdpp Require Import gmap.
From Verif Require Import Base RcaSpec RcaModel RcaExec RcaOwn RcaRel RcaMeet RcaReach StrSpec AlgMeet NestModel HashModel HsModel HsMeet HtModel HtMeet PtSpec PtModel PtMeet PtQuiet.
From Verif Require RcaFacts RcaRel2 NestSim NestProof HsProof HtProof PtFlags.
Open Scope Z_scope.

Global Instance str_inj : Inj (=) (=) str. Proof. intros x y E. injection E as E. exact E. Qed.
Notation up := (kmap (M1 := gmap positive) (M2 := gmap positive) str).

Section Proof.
Variable d : desc Z.
Hypothesis Hwf : wf_desc d.
Variable mdiff : Z -> Z -> Z.
Hypothesis Hm : memcmp_ok mdiff.
Variable grow : Z -> Z -> option Z.
Implicit Types (s : state Z) (a b : astate Z) (ts : tables) (ms : maps).

(** Calls on Strings under other names. *)
Lemma call_ren f o s a b : (forall x y, f x = f y -> x = y) -> reached d s a -> NestSim.pulls f a b -> no_cstr o = true ->
  match step d o b with
  | Some (SRet b' v) =>
    (exists v' s' a', exec d (ren f o) s = Ok v' s' /\ out_le v v' /\ reached d s' a' /\ NestSim.pulls f a' b' /\ NestSim.keeps f a a') \/
    (exists s' a', exec d (ren f o) s = Exn BadAlloc s' /\ ushort d o b /\ reached d s' a' /\
       (a' = a \/ exists x, target o = Some x /\ a' = <[f x := AVal true []]> a))
  | Some SRange => exists s', exec d (ren f o) s = Exn OutOfRange s' /\ reached d s' a
  | None => True
  end.
Proof.
  intros Hf H Hp Hc. pose proof (NestSim.ren_step d f Hf o a b Hp) as F. unfold NestSim.follows in F.
  destruct (step d o b) as [[b' v|]|] eqn:E; [| |exact I].
  - destruct F as (a' & E' & P' & K').
    destruct (step_yields d (ren f o) s a a' v Hwf H E') as [(s' & v' & X & L & H' & _)|(s' & x & X & S' & N & a1 & H' & _ & C)].
    + intros g x Eq. destruct o; try discriminate.
    + left. exists v', s', a'. auto.
    + right. exists s', a1. split; [exact X|]. rewrite NestSim.ren_subject in S'. destruct (subject o) as [t|] eqn:Es; [|discriminate]. injection S' as <-.
      rewrite (NestSim.ren_asks f o a' b' t P') in N. split; [exists b', v, t; auto|]. split; [exact H'|].
      destruct C as [->|(T & _ & ->)]; [left; reflexivity|]. right. rewrite NestSim.ren_target in T. destruct (target o) as [w|]; [|discriminate]. injection T as T.
      apply Hf in T as ->. eauto.
  - exists s. split; [exact (step_range d (ren f o) s a Hwf H F)|exact H].
Qed.

(** Names. *)
Definition pr (a : astate Z) (s : state Z) (ts : tables) (ms : maps) (b : astate Z) : Prop :=
  reached d s a /\ all d a ts ms (up b) /\ forall i u x, ts !! i = Some u -> x ∈ owned u -> odd x.
Lemma pr_prel a s ts ms b : pr a s ts ms b -> prel d (s, ts) ms b.
Proof. intros (H & A & O). exists a. auto. Qed.
Lemma up_at b y : up b !! str y = b !! y.
Proof. apply lookup_kmap. apply _. Qed.
Lemma up_only b x y : up b !! x = Some y -> exists z, x = str z /\ b !! z = Some y.
Proof. intros E. apply lookup_kmap_Some in E; [exact E|apply _]. Qed.
Lemma pr_pulls a s ts ms b : pr a s ts ms b -> NestSim.pulls str a b.
Proof.
  intros (H & A & O) y. destruct (a !! str y) as [v|] eqn:E.
  - symmetry. rewrite <- up_at. apply (all_rest _ _ _ _ _ A). split; [exact E|]. intros i u I X. destruct (O i u _ I X) as [q Q]. discriminate.
  - destruct (b !! y) as [v|] eqn:F; [|reflexivity]. rewrite <- up_at in F. apply (all_rest _ _ _ _ _ A) in F as [F _]. congruence.
Qed.
Lemma pr_dom a s ts ms b x : pr a s ts ms b -> is_Some (a !! x) -> odd x \/ exists y, x = str y /\ is_Some (b !! y).
Proof.
  intros (H & A & O) (v & E). destruct (up b !! x) as [w|] eqn:F; [right; apply up_only in F as (z & -> & F); eauto|]. left.
  destruct (decide (map_Exists (fun (_ : positive) u => x ∈ owned u) ts)) as [(i & u & I & X)|N]; [eapply O; eassumption|].
  assert (up b !! x = Some v) as G; [|congruence]. apply (all_rest _ _ _ _ _ A). split; [exact E|]. intros i u I X. apply N. exists i, u. auto.
Qed.
(** Only the program's Strings have changed. *)
Lemma pr_user a s ts ms b s' a' b' : pr a s ts ms b -> reached d s' a' -> NestSim.pulls str a' b' -> NestSim.keeps str a a' -> pr a' s' ts ms b'.
Proof.
  intros P H' P' K. pose proof P as (H & A & O). split; [exact H'|]. split; [|exact O].
  assert (forall i u x, ts !! i = Some u -> x ∈ owned u -> a' !! x = a !! x) as Same.
  { intros i u x I X. apply K. intros y ->. destruct (O i u _ I X) as [q Q]. discriminate. }
  constructor.
  - apply A.
  - intros i u m I J. apply (HsProof.tab_same d a); [eapply all_tab; eassumption|]. intros x X. eapply Same; eassumption.
  - apply A.
  - intros x y. split.
    + intros E. apply up_only in E as (z & -> & E). rewrite <- P' in E. split; [exact E|]. intros i u I X. destruct (O i u _ I X) as [q Q]. discriminate.
    + intros [E N]. destruct x as [q|q|].
      * rewrite K in E by discriminate. exfalso.
        assert (up b !! xI q = Some y) as F by (apply (all_rest _ _ _ _ _ A); auto). apply up_only in F as (z & Z & _). discriminate.
      * change (q~0)%positive with (str q) in *. rewrite up_at, <- P'. exact E.
      * rewrite K in E by discriminate. exfalso. assert (up b !! xH = Some y) as F by (apply (all_rest _ _ _ _ _ A); auto). apply up_only in F as (z & Z & _). discriminate.
Qed.
Lemma env_iff s a x : reached d s a -> (is_Some (st_env s !! x) <-> is_Some (a !! x)).
Proof. intros H. rewrite <- !not_eq_None_Some. rewrite (NestSim.R_env_none d s a x (reached_R d s a Hwf H)). reflexivity. Qed.
(** A table operation, which makes no Strings for the program. *)
Lemma pr_again a s ts ms b s' a' ts' ms' b' : pr a s ts ms b -> reached d s' a' -> all d a' ts' ms' (up b') -> sub s s' ->
  (forall y, is_Some (b !! y) -> is_Some (b' !! y)) -> pr a' s' ts' ms' b'.
Proof.
  intros P H' A' Hs Hb. split; [exact H'|]. split; [exact A'|]. intros i u x I X.
  assert (is_Some (ms' !! i)) as (m & J) by (apply (HtProof.all_some d a' ts' ms' _ i A'); eauto).
  pose proof (HsProof.owned_live d a' u m x (all_tab _ _ _ _ _ A' i u m I J) X) as L.
  destruct x as [q|y|]; [eexists; reflexivity| |]; exfalso.
  - assert (is_Some (a !! str y)) as L0 by (apply (env_iff s a), Hs; [apply P|intros [q Q]; discriminate|apply (env_iff s' a'); assumption]).
    rewrite (pr_pulls a s ts ms b P) in L0. destruct (Hb y L0) as (w & W). rewrite <- up_at in W.
    apply (all_rest _ _ _ _ _ A') in W as [_ W]. exact (W i u I X).
  - assert (is_Some (a !! xH)) as L0 by (apply (env_iff s a), Hs; [apply P|intros [q Q]; discriminate|apply (env_iff s' a'); assumption]).
    destruct (pr_dom a s ts ms b xH P L0) as [[q Q]|(y & Q & _)]; discriminate.
Qed.

(** Running. *)
Lemma lift_ok {A} (m : M (state Z) A) s ts v s' : m s = Ok v s' -> lift m (s, ts) = Ok v (s', ts).
Proof. unfold lift. intros ->. reflexivity. Qed.
Lemma lift_exn {A} (m : M (state Z) A) s ts e s' : m s = Exn e s' -> lift m (s, ts) = Exn e (s', ts).
Proof. unfold lift. intros ->. reflexivity. Qed.
Lemma does_cases {A} (m : M (state Z) A) s P E : does d m s P E -> quiet m ->
  (exists v s' a', m s = Ok v s' /\ sub s s' /\ reached d s' a' /\ P v a') \/
  (exists s' a', m s = Exn BadAlloc s' /\ sub s s' /\ reached d s' a' /\ E a').
Proof.
  unfold does. intros D Q. specialize (Q s). destruct (m s) as [v s'|e s'| | |]; try contradiction.
  - destruct D as (a' & H & _ & X). left. eauto 8.
  - destruct D as (-> & a' & H & _ & X). right. eauto 8.
Qed.
Lemma table_ok s ts i u : ts !! i = Some u -> table_of i (s, ts) = Ok u (s, ts).
Proof. unfold table_of. intros ->. reflexivity. Qed.
Ltac run E := rewrite (HsProof.bind_ok _ _ _ _ _ E).
Ltac fail_run E := rewrite (HsProof.bind_exn _ _ _ _ _ E).

(** Texts. *)
Lemma full_str b x l : full b x = Some l -> is_str b x l.
Proof. unfold full, is_str. destruct (b !! x) as [[r v|]|]; try discriminate. intros E. apply RcaRel2.vals_some in E as ->. eauto. Qed.
Lemma str_full b x l : is_str b x l -> full b x = Some l.
Proof. unfold full. intros (r & ->). apply RcaFacts.vals_map. Qed.
Lemma key_str b x l : key b x = Some l -> is_str b x l /\ bytes l.
Proof.
  clear grow.
  unfold key. destruct (full b x) as [w|] eqn:F; [|discriminate]. destruct (forallb byte w) eqn:B; [|discriminate]. intros [= ->].
  split; [apply full_str, F|]. apply Forall_forall. intros c C. rewrite forallb_forall in B. specialize (B c C). unfold byte in B. lia.
Qed.
Lemma up_str a s ts ms b x l : pr a s ts ms b -> is_str b x l -> is_str a (str x) l.
Proof. intros P (r & E). exists r. rewrite <- E. apply (pr_pulls _ _ _ _ _ P). Qed.
Lemma not_owned a s ts ms b i u x : pr a s ts ms b -> ts !! i = Some u -> str x ∉ owned u.
Proof. intros (_ & _ & O) I X. destruct (O i u _ I X) as [q Q]. discriminate. Qed.
Lemma up_robbed p x b : up (robbed p x b) = taken p (str x) (up b).
Proof. destruct p; [|reflexivity]. cbn [robbed taken]. apply kmap_insert. apply _. Qed.
Lemma inj_str x y : str x = str y -> x = y. Proof. intros E. injection E as E. exact E. Qed.
Lemma pr_robbed p k a s ts ms b s' : pr a s ts ms b -> reached d s' (taken p (str k) a) -> pr (taken p (str k) a) s' ts ms (robbed p k b).
Proof.
  intros P H'. apply (pr_user a s ts ms b); [exact P|exact H'| |].
  - destruct p; [apply NestSim.pulls_insert; [exact inj_str|]|]; exact (pr_pulls _ _ _ _ _ P).
  - destruct p; [apply NestSim.keeps_insert|]; apply NestSim.keeps_refl.
Qed.
Lemma pr_same a s ts ms b s' : pr a s ts ms b -> reached d s' a -> pr a s' ts ms b.
Proof. intros P H'. exact (pr_robbed false 1 a s ts ms b s' P H'). Qed.
Lemma robbed_live p k b y : is_Some (b !! y) -> is_Some (robbed p k b !! y).
Proof. destruct p; [|auto]. cbn. intros H. destruct (decide (k = y)) as [->|N]; [rewrite lookup_insert; eauto|rewrite lookup_insert_ne by exact N; exact H]. Qed.
(** A new table in the place of one. *)
Lemma pr_put p q k v a s ts ms b i u s' a' u' m' : pr a s ts ms b -> ts !! i = Some u -> reached d s' a' -> sub s s' -> tab d a' u' m' ->
  others u' a' = others u (taken p (str k) (taken q (str v) a)) -> is_Some (b !! k) -> is_Some (b !! v) ->
  pr a' s' (<[i := u']> ts) (<[i := m']> ms) (robbed p k (robbed q v b)).
Proof.
  intros P I H' Hs T O K V. pose proof P as (H & A & Od). apply (pr_again a s ts ms b); [exact P|exact H'| |exact Hs|intros y Y; apply robbed_live, robbed_live, Y].
  rewrite !up_robbed. apply (HtProof.all_put d a ts ms (up b) i u); [exact A|rewrite I; reflexivity|exact T| |].
  - intros x. rewrite O, HsProof.others_taken by (eapply not_owned; eassumption).
    assert (forall y, is_Some (up b !! y) -> others u a !! y = up b !! y) as Y.
    { intros y (w & W). rewrite W. apply (all_rest _ _ _ _ _ A) in W as [W N]. rewrite HsProof.others_lookup. destruct (decide (y ∈ owned u)) as [X|]; [destruct (N i u I X)|exact W]. }
    unfold taken. destruct (up b !! x) as [w|] eqn:E.
    + destruct p, q; repeat match goal with |- <[?z := _]> _ !! ?x = _ => destruct (decide (z = x)) as [->|?]; [rewrite !lookup_insert; reflexivity|rewrite !(lookup_insert_ne _ z x) by assumption] end; apply Y; eauto.
    + assert (str k <> x) by (intros <-; rewrite up_at in E; rewrite E in K; destruct K; discriminate).
      assert (str v <> x) by (intros <-; rewrite up_at in E; rewrite E in V; destruct V; discriminate).
      destruct p, q; rewrite ?lookup_insert_ne by assumption; reflexivity.
  - intros x E. assert (str k <> x) by (intros <-; rewrite up_at in E; rewrite E in K; destruct K; discriminate).
    assert (str v <> x) by (intros <-; rewrite up_at in E; rewrite E in V; destruct V; discriminate).
    unfold taken. destruct p, q; rewrite ?lookup_insert_ne by assumption; exact E.
Qed.
Lemma pr_put_same a s ts ms b i u s' a' u' m' : pr a s ts ms b -> match ts !! i with Some w => w = u | None => owned u = [] end -> reached d s' a' -> sub s s' ->
  tab d a' u' m' -> others u' a' = others u a -> pr a' s' (<[i := u']> ts) (<[i := m']> ms) b.
Proof.
  intros P I H' Hs T O. apply (pr_again a s ts ms b); [exact P|exact H'| |exact Hs|auto].
  apply (HtProof.all_put_same d a ts ms (up b) i u); [apply P|exact I|exact T|exact O].
Qed.
Lemma table_at a s ts ms b i m : pr a s ts ms b -> ms !! i = Some m -> exists u, ts !! i = Some u /\ tab d a u m.
Proof. intros (_ & A & _) I. exact (HtProof.table_at d a ts ms (up b) i m A I). Qed.
Lemma no_table a s ts ms b i : pr a s ts ms b -> ms !! i = None -> ts !! i = None.
Proof. intros (_ & A & _) I. apply (all_none _ _ _ _ _ A), I. Qed.

(** The value of an entry. *)
Lemma pr_value a s ts ms b i u m n w s' a' b' : pr a s ts ms b -> ts !! i = Some u -> ms !! i = Some m -> In n (nodes u) -> reached d s' a' ->
  is_str a' (snd n) w -> NestSim.pulls str a' b' -> (forall z, z <> snd n -> (forall y, z <> str y) -> a' !! z = a !! z) ->
  pr a' s' ts (<[i := <[text a (fst n) := w]> m]> ms) b'.
Proof.
  intros P U J N H' W P' K. pose proof P as (H & A & O). split; [exact H'|]. split; [|exact O].
  pose proof (HsProof.in_own n (nodes u) N) as [_ No]. fold (owned u) in No.
  assert (forall j v x, ts !! j = Some v -> x ∈ owned v -> x <> snd n -> a' !! x = a !! x) as Same.
  { intros j v x V X Ne. apply K; [exact Ne|]. intros y ->. destruct (O j v _ V X) as [q Q]. discriminate. }
  constructor.
  - intros j. destruct (decide (i = j)) as [<-|Ne]; [rewrite lookup_insert, U; split; discriminate|rewrite lookup_insert_ne by exact Ne; apply A].
  - intros j v m' V J'. destruct (decide (i = j)) as [<-|Ne].
    + rewrite lookup_insert in J'. injection J' as <-. rewrite U in V. injection V as <-.
      apply HsProof.tab_set; [eapply all_tab; eassumption|exact N| |exact W]. intros x X Ne. eapply Same; eassumption.
    + rewrite lookup_insert_ne in J' by exact Ne. apply (HsProof.tab_same d a); [eapply all_tab; eassumption|]. intros x X. eapply Same; [exact V|exact X|].
      intros ->. exact (all_apart _ _ _ _ _ A i j u v U V Ne _ No X).
  - apply A.
  - intros x y. split.
    + intros E. apply up_only in E as (z & -> & E). rewrite <- P' in E. split; [exact E|]. intros j v V X. destruct (O j v _ V X) as [q Q]. discriminate.
    + intros [E Out]. destruct (decide (x = snd n)) as [->|Ne]; [destruct (Out i u U No)|]. destruct x as [q|q|].
      * rewrite K in E by (assumption || discriminate). exfalso.
        assert (up b !! xI q = Some y) as F by (apply (all_rest _ _ _ _ _ A); auto). apply up_only in F as (z & Z & _). discriminate.
      * change (q~0)%positive with (str q) in *. rewrite up_at, <- P'. exact E.
      * rewrite K in E by (assumption || discriminate). exfalso. assert (up b !! xH = Some y) as F by (apply (all_rest _ _ _ _ _ A); auto). apply up_only in F as (z & Z & _). discriminate.
Qed.
Lemma elem_other z y : y <> 1%positive -> elem_name z y = str y.
Proof. unfold elem_name. intros N. destruct y; [reflexivity|reflexivity|contradiction]. Qed.
Lemma value_run o rm i l w m ms b a s ts u n r : pr a s ts (<[i := <[l := w]> m]> ms) b -> ts !! i = Some u -> In n (nodes u) -> text a (fst n) = l ->
  on_value (step d) rm o i l w m ms b = Some r ->
  match exec d (ren (elem_name (snd n)) o) s with
  | Ok v s' => exists rm ms' b' v', on_value (step d) rm o i l w m ms b = Some (PRet ms' b' (POut v')) /\ out_le v' v /\ prel d (s', ts) ms' b'
  | Exn OutOfRange s' => exists rm ms' b', on_value (step d) rm o i l w m ms b = Some (PRange ms' b') /\ prel d (s', ts) ms' b'
  | Exn BadAlloc s' => (exists rm, ushort d o (<[1%positive := AVal rm (map Some w)]> b)) /\
      exists ms' b', vfail (<[i := <[l := w]> m]> ms) b i l o ms' b' /\ prel d (s', ts) ms' b'
  | _ => False
  end.
Proof.
  intros P U N L Hr. pose proof P as (H & A & O). pose proof (all_tab _ _ _ _ _ A i u _ U (lookup_insert _ _ _)) as T.
  pose proof (HsProof.tab_in d a u _ n T N) as W. rewrite L, lookup_insert in W. injection W as W.
  destruct (HsProof.tab_is_node d a u _ n T N) as (_ & _ & (rm0 & Z)). rewrite <- W in Z.
  pose proof (HsProof.in_own n (nodes u) N) as [_ No]. pose proof (O i u _ U No) as Od.
  assert (forall x y, elem_name (snd n) x = elem_name (snd n) y -> x = y) as Inj by (apply NestProof.inj_elem, Od).
  assert (on_value (step d) rm0 o i l w m ms b <> None) as Hr0 by (intros E; rewrite (PtFlags.value_none d rm0 rm) in Hr by exact E; discriminate).
  assert (NestSim.pulls (elem_name (snd n)) a (<[1%positive := AVal rm0 (map Some w)]> b)) as Pl
    by (apply (NestProof.elem_pulls (snd n) a b (rm0, map Some w)); [exact Od|intros y; apply (pr_pulls _ _ _ _ _ P)|exact Z]).
  destruct (no_cstr o) eqn:C; [|unfold on_value in Hr; rewrite C in Hr; discriminate].
  pose proof (call_ren (elem_name (snd n)) o s a _ Inj H Pl C) as X. unfold on_value in Hr0 |- *. rewrite C in Hr0 |- *. cbn [need] in *.
  destruct (step d o (<[1%positive := AVal rm0 (map Some w)]> b)) as [[b' v|]|] eqn:E; [| |contradiction].
  - destruct X as [(v' & s' & a' & -> & Lv & H' & P' & K')|(s' & a' & -> & Sh & H' & F)].
    + destruct (full b' 1) as [w'|] eqn:Fw; [|contradiction]. exists rm0. rewrite E, Fw. eexists _, _, v. split; [reflexivity|]. split; [exact Lv|].
      eapply pr_prel. apply (NestProof.elem_keeps (snd n)) in K' as (K1 & K2 & K3); [|exact Od].
      pose proof (pr_value a s ts _ b i u _ n w' s' a' (partial_alter (fun _ => b !! 1%positive) 1%positive b') P U (lookup_insert _ _ _) N H') as V.
      rewrite !insert_insert, L, insert_insert in V. apply V.
      * apply full_str in Fw as (q & Fw). exists q. rewrite <- P' in Fw. exact Fw.
      * intros y. destruct (decide (y = 1%positive)) as [->|Ny].
        -- rewrite lookup_partial_alter. change (str 1) with 2%positive. rewrite K3. change 2%positive with (str 1). apply (pr_pulls _ _ _ _ _ P).
        -- rewrite lookup_partial_alter_ne by congruence. rewrite <- P', elem_other by exact Ny. reflexivity.
      * intros [q|q|] Nz Ny; [apply K2, Nz|destruct (Ny q eq_refl)|exact K1].
    + split; [exists rm0; exact Sh|]. destruct F as [->|(x & Tx & ->)]; [eexists _, _; split; [apply vf_same|eapply pr_prel, pr_same; eassumption]|].
      destruct (decide (x = 1%positive)) as [->|Nx].
      * exists (<[i := <[l := []]> m]> ms), b. split.
        { pose proof (vf_value (<[i := <[l := w]> m]> ms) b i l o (<[l := w]> m) Tx (lookup_insert _ _ _)) as V. rewrite !insert_insert in V. exact V. }
        change (elem_name (snd n) 1) with (snd n) in *.
        pose proof (pr_value a s ts _ b i u _ n [] s' (<[snd n := AVal true []]> a) b P U (lookup_insert _ _ _) N H') as V. rewrite !insert_insert, L, insert_insert in V.
        eapply pr_prel, V.
        -- exists true. apply lookup_insert.
        -- intros y. rewrite lookup_insert_ne; [apply (pr_pulls _ _ _ _ _ P)|]. intros Q. destruct Od as [q Q']. rewrite Q' in Q. discriminate.
        -- intros z Nz _. apply lookup_insert_ne. congruence.
      * rewrite elem_other in H' by exact Nx. eexists _, (<[x := AVal true []]> b). split; [exact (vf_other _ _ i l o x Tx Nx)|].
        eapply pr_prel, (pr_user a s ts _ b); [exact P|exact H'| |].
        -- apply NestSim.pulls_insert; [exact inj_str|exact (pr_pulls _ _ _ _ _ P)].
        -- apply NestSim.keeps_insert, NestSim.keeps_refl.
  - destruct X as (s' & -> & H'). exists rm0. rewrite E. eexists _, _. split; [reflexivity|]. eapply pr_prel, pr_same; eassumption.
Qed.
End Proof.
