(** What a call without c_str does to the texts does not depend on the memory behind them. *)
From stdpp Require Import gmap.
From Verif Require Import Base RcaSpec RcaExec RcaMeet PtSpec.
Open Scope Z_scope.

(** The same, but for what is said of the memory. *)
Definition alike_val (x y : option (aval Z)) : Prop :=
  match x, y with
  | Some (AVal _ v), Some (AVal _ w) => v = w
  | Some AMoved, Some AMoved | None, None => True
  | _, _ => False
  end.
Definition alike (a b : astate Z) : Prop := forall x, alike_val (a !! x) (b !! x).
Definition alike_res (p q : option (sres Z)) : Prop :=
  match p, q with
  | Some (SRet a r), Some (SRet b r') => alike a b /\ r = r'
  | Some SRange, Some SRange | None, None => True
  | _, _ => False
  end.
Lemma alike_refl a : alike a a.
Proof. intros x. unfold alike_val. destruct (a !! x) as [[]|]; auto. Qed.
Lemma alike_insert a b x r r' v : alike a b -> alike (<[x := AVal r v]> a) (<[x := AVal r' v]> b).
Proof. intros H y. destruct (decide (x = y)) as [->|N]; [rewrite !lookup_insert; reflexivity|rewrite !lookup_insert_ne by exact N; apply H]. Qed.
Lemma alike_moved a b x : alike a b -> alike (<[x := AMoved]> a) (<[x := AMoved]> b).
Proof. intros H y. destruct (decide (x = y)) as [->|N]; [rewrite !lookup_insert; exact I|rewrite !lookup_insert_ne by exact N; apply H]. Qed.
Lemma alike_delete a b x : alike a b -> alike (delete x a) (delete x b).
Proof. intros H y. destruct (decide (x = y)) as [->|N]; [rewrite !lookup_delete; exact I|rewrite !lookup_delete_ne by exact N; apply H]. Qed.
Lemma alike_put a b x v w : alike a b -> alike_val (Some v) (Some w) -> alike (<[x := v]> a) (<[x := w]> b).
Proof. intros H V y. destruct (decide (x = y)) as [->|N]; [rewrite !lookup_insert; exact V|rewrite !lookup_insert_ne by exact N; apply H]. Qed.
Lemma alike_holds a b x : alike a b ->
  holds a x = None /\ holds b x = None \/ exists r r' v, holds a x = Some (r, v) /\ holds b x = Some (r', v).
Proof.
  intros H. specialize (H x). unfold holds, alike_val in *. destruct (a !! x) as [[r v|]|], (b !! x) as [[r' v'|]|]; try contradiction; auto.
  subst v'. right. eauto.
Qed.
Lemma alike_fresh a b x : alike a b -> fresh_var b x = fresh_var a x.
Proof. intros H. specialize (H x). unfold fresh_var, alike_val in *. destruct (a !! x) as [[]|], (b !! x) as [[]|]; auto; contradiction. Qed.
Lemma alike_live a b x : alike a b -> live b x = live a x.
Proof. intros H. unfold live. rewrite (alike_fresh a b x H). reflexivity. Qed.

Ltac both H a b := repeat match goal with
  | |- context [holds a ?x] => let E := fresh in destruct (alike_holds a b x H) as [[E ?]|(? & ? & ? & E & ?)]; rewrite E;
      repeat match goal with G : holds b x = _ |- _ => rewrite G; clear G end; clear E
  end; rewrite ?(alike_fresh a b) by exact H; rewrite ?(alike_live a b) by exact H.
Ltac close := cbn; first [exact I | split; [|reflexivity]; repeat first [assumption | apply alike_refl | apply alike_insert | apply alike_moved | apply alike_delete] ].
Ltac cut := repeat first
  [ match goal with |- alike_res (need ?c _) (need ?c _) => destruct c; cbn [need] end
  | match goal with |- alike_res (if ?c then _ else _) (if ?c then _ else _) => destruct c end
  | match goal with |- alike_res (match ?c with _ => _ end) (match ?c with _ => _ end) => destruct c end ].

Lemma step_alike d o a b : no_cstr o = true -> alike a b -> alike_res (step d o a) (step d o b).
Proof.
  intros Hc H. unfold step. destruct o; try discriminate Hc; cbn [spec_step]; unfold sp_insert_n, sp_insert; both H a b; cut;
    unfold put, RcaSpec.same, sp_take; cut; try solve [close].
  all: try match goal with |- context [if ?mv then _ else _] => destruct mv; solve [close] end.
  pose proof (H x) as X. pose proof (H y) as Y.
  destruct (a !! x) as [vx|], (b !! x) as [vx'|]; try (destruct vx as [? ?|]; contradiction); try contradiction; [|exact I].
  destruct (a !! y) as [vy|], (b !! y) as [vy'|]; try (destruct vy as [? ?|]; contradiction); try contradiction; [|exact I].
  split; [|reflexivity]. apply alike_put; [apply alike_put|]; assumption.
Qed.

Lemma alike_full a b x : alike a b -> full a x = full b x.
Proof. intros H. specialize (H x). unfold full, alike_val in *. destruct (a !! x) as [[]|], (b !! x) as [[]|]; try contradiction; [subst|..]; reflexivity. Qed.
(** Whether a call is specified does not depend on what is not. *)
Lemma value_none d rm rm' o i l w m ms b : on_value (step d) rm o i l w m ms b = None -> on_value (step d) rm' o i l w m ms b = None.
Proof.
  unfold on_value. destruct (no_cstr o) eqn:C; [|reflexivity]. cbn [need].
  pose proof (step_alike d o _ _ C (alike_insert b b 1%positive rm rm' (map Some w) (alike_refl b))) as A. unfold alike_res in A.
  destruct (step d o (<[1%positive := AVal rm (map Some w)]> b)) as [[b1 r1|]|], (step d o (<[1%positive := AVal rm' (map Some w)]> b)) as [[b2 r2|]|];
    try contradiction; try discriminate; try reflexivity.
  destruct A as [A _]. rewrite (alike_full b1 b2 1 A). destruct (full b2 1); [discriminate|reflexivity].
Qed.
Lemma step_none d rm rm' c ms b : pstep (step d) rm c ms b = None -> pstep (step d) rm' c ms b = None.
Proof.
  destruct c; cbn [pstep]; try (intros E; exact E).
  - destruct (ms !! i), (key b k), (b !! r); try discriminate; reflexivity.
  - destruct (ms !! i), (key b k); try reflexivity. apply value_none.
  - destruct (ms !! i) as [m|], (key b k) as [l|]; try reflexivity. destruct (m !! l); [apply value_none|discriminate].
Qed.
