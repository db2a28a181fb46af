(** Deciding that the calls of a concrete program are proper, for the examples. *)
From Verif Require Import LifeModel LifeSpec.
From Coq Require Import ZifyBool.
Open Scope Z_scope.

Section Ex.
Context {V : Type}.
Implicit Types (s : estate V) (x y : var) (o : eop (V := V)) (t : ety V).

Definition usableb s x : bool :=
  match e_env s !! x with
  | None => false
  | Some a => match o_ref a with Some _ => true | None => (o_off a =? 0) && (o_len a =? 0) end
  end.
Definition aliveb s x : bool := match e_env s !! x with None => false | Some _ => true end.
Definition len_isb s x (p : Z -> bool) : bool := match e_env s !! x with None => true | Some a => p (o_len a) end.

(** [q]: the type never throws. *)
Definition properb (q : bool) o s : bool :=
  match o with
  | ECtor x => negb (aliveb s x)
  | ECtorSized x n => negb (aliveb s x) && (0 <=? n)
  | ECtorFill x n _ => negb (aliveb s x) && ((0 <=? n) && q)
  | ECtorList x _ => negb (aliveb s x)
  | ECtorCopy x y | ECtorMove x y => negb (aliveb s x) && usableb s y
  | EDestroy x | EClear x | EAssignList x _ => aliveb s x
  | EAssign x y | EAssignMove x y => aliveb s x && usableb s y
  | ESwap x y => aliveb s x && aliveb s y
  | EReserve x n | EResize x n => usableb s x && (0 <=? n)
  | EResizeFill x n _ => usableb s x && ((0 <=? n) && q)
  | ESlice x a n => usableb s x && ((0 <=? a) && (0 <=? n))
  | EInsert x pos _ => usableb s x && (0 <=? pos)
  | EInsertRange x pos _ => usableb s x && ((0 <=? pos) && len_isb s x (fun n => pos <=? n))
  | EInsertArray x pos y | EReplaceArray x pos y => usableb s x && (usableb s y && (0 <=? pos))
  | EWrite x pos _ | EReplace x pos _ => usableb s x && ((0 <=? pos) && len_isb s x (fun n => pos <? n))
  | EShift x | EPop x => usableb s x && len_isb s x (fun n => 0 <? n)
  end.
Fixpoint proper_allb (q : bool) t (ops : list eop) s : bool :=
  match ops with
  | [] => true
  | o :: ops' => properb q o s &&
      match eexec t o s with Ok _ s' => proper_allb q t ops' s' | Exn _ s' => proper_allb q t ops' s' | _ => true end
  end.

Lemma usableb_ok s x : usableb s x = true -> usable s x.
Proof.
  unfold usableb, usable. destruct (e_env s !! x) as [a|]; [|discriminate]. intros H; exists a. split; [reflexivity|].
  destruct (o_ref a); [discriminate|]. intros _; lia.
Qed.
Lemma aliveb_ok s x : aliveb s x = true -> alive s x.
Proof. unfold aliveb, alive. destruct (e_env s !! x); [eauto|discriminate]. Qed.
Lemma unbornb_ok s x : negb (aliveb s x) = true -> unborn s x.
Proof. unfold aliveb, unborn. destruct (e_env s !! x); [discriminate|reflexivity]. Qed.
Lemma len_isb_ok s x p (P : Z -> Prop) : (forall n, p n = true -> P n) -> len_isb s x p = true -> len_is s x P.
Proof. unfold len_isb, len_is. intros HP H a Ha. rewrite Ha in H. auto. Qed.
Lemma properb_ok q t o s : (q = true -> t = never t) -> properb q o s = true -> proper t o s.
Proof.
  intros Hq H. assert (q = true -> undisturbed t o s) as Hu by (intros H0; unfold undisturbed; rewrite <- (Hq H0); reflexivity).
  destruct o; cbn [properb proper] in *; repeat (apply andb_prop in H as [? H]); repeat split;
    auto using usableb_ok, aliveb_ok, unbornb_ok; try lia; try (eapply len_isb_ok; [|eassumption]; cbn beta; intros; lia).
Qed.
Lemma proper_allb_ok q t ops : (q = true -> t = never t) -> forall s, proper_allb q t ops s = true -> proper_all t ops s.
Proof.
  intros Hq. induction ops as [|o ops IH]; intros s H; cbn [proper_allb proper_all] in *; [exact I|].
  apply andb_prop in H as [H1 H2]. split; [exact (properb_ok q t o s Hq H1)|]. destruct (eexec t o s); auto.
Qed.

(** Looking at the outcome. *)
Definition final (r : res (estate V) unit) : option (estate V) := match r with Ok _ s => Some s | _ => None end.
Definition thrown (r : res (estate V) unit) : option (estate V) := match r with Exn _ s => Some s | _ => None end.
End Ex.

(** An element type: integers in a class, with or without move operations; [f] says which attempts throw. *)
Definition tz (moves : bool) (f : nat -> bool) : ety Z := Ety 0 moves (fun z => z * 3 / 2) f.
Definition tq : ety Z := tz true (fun _ => false).
Definition at_tick (k : nat) : nat -> bool := Nat.eqb k.
Definition va : var := 1%positive.
Definition vb : var := 2%positive.
