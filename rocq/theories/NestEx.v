(** Running programs with arrays of Strings, for the examples. *)
From stdpp Require Import gmap.
From Verif Require Import Base ZList RcaSpec RcaModel RcaExec RcaOwn RcaMeet RcaEx NestModel NestMeet NestReach.
Open Scope Z_scope.

(** Running a program next to its specification. *)
Fixpoint follow d od (ops : list nop) (s : nstate) (A : arrs) (b : astate Z) : option (nstate * arrs * astate Z) :=
  match ops with
  | [] => Some (s, A, b)
  | o :: ops' =>
    match nstep d o A b with
    | None => None
    | Some r =>
      match nexec d od o s, r with
      | Ok _ s', NRet A' b' _ => follow d od ops' s' A' b'
      | Exn OutOfRange s', NRange => follow d od ops' s' A b
      | Exn BadAlloc s', _ => follow d od ops' s' (fst (noom o s' A b)) (snd (noom o s' A b))
      | _, _ => None
      end
    end
  end.
Lemma follow_reached d od ops : forall s A b s' A' b', nreached d od s A b -> follow d od ops s A b = Some (s', A', b') -> nreached d od s' A' b'.
Proof.
  induction ops as [|o ops IH]; intros s A b s' A' b' H E; cbn [follow] in E; [injection E as <- <- <-; exact H|].
  destruct (nstep d o A b) as [r|] eqn:Hs; [|discriminate]. destruct (nexec d od o s) as [v s1|e s1| | |u] eqn:Ex; [| |discriminate|discriminate|discriminate].
  - destruct r; [|discriminate]. eapply IH; [|exact E]. eapply nre_ret; eassumption.
  - destruct e; [destruct r; [discriminate|]|]; (eapply IH; [|exact E]).
    + eapply nre_range; eassumption.
    + eapply nre_oom; eassumption.
Qed.
(** The texts of an array as the program reads them. *)
Definition text (s : nstate) (z : positive) : option (list Z) :=
  match slen z s with Some n => mapM (fun i => match read z i (n_in s) with Ok e _ => Some e | _ => None end) (map Z.of_nat (seq 0 (Z.to_nat n))) | None => None end.
Definition texts (s : nstate) (x : positive) : option (list (list Z)) :=
  match alen x s with
  | Some n => mapM (fun i => match nslot x i s with Ok z _ => text s z | _ => None end) (map Z.of_nat (seq 0 (Z.to_nat n)))
  | None => None
  end.
Definition adesc : desc positive := Desc true 1%positive None (fun _ => 0) Pos.eqb grow15 never false.
Definition adesc_oom (k : nat) : desc positive := Desc true 1%positive None (fun _ => 0) Pos.eqb grow15 (Nat.eqb k) false.
