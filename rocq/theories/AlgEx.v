(** Concrete strings for the algorithms on the heap. *)
From Coq Require Import Lia String.
From Verif Require Import RcaSpec RcaModel RcaExec RcaMeet RcaEx StrSpec StrEx AlgModel AlgMeet AlgFacts.
Open Scope Z_scope.

(** "a-b--c" in 1 and a copy in 2; "-" in 3, "+=" in 4, "B" in 5. *)
Definition prog_a : list (op Z) :=
  [CtorCstrLen 1 (bs "a-b--c") 6; CtorCopy 2 1; CtorCstrLen 3 (bs "-") 1; CtorCstrLen 4 (bs "+=") 2; CtorCstrLen 5 (bs "B") 1].
Definition sa := st sdesc prog_a.
Definition va := av sdesc prog_a.
Definition so k := st (sdesc_oom k) prog_a.
Definition vo k := av (sdesc_oom k) prog_a.
(** Elements are 101, 102, ... *)
Definition el100 (i : nat) : positive := Pos.of_succ_nat (100 + i).
Definition holds_str (a : astate Z) (x : positive) (l : chars) : bool :=
  match a !! x with Some (AVal _ v) => bool_decide (v = map Some l) | _ => false end.
Lemma holds_str_ok a x l : holds_str a x l = true -> is_str a x l.
Proof.
  unfold holds_str, is_str. destruct (a !! x) as [[r v|]|]; try discriminate. intros H. apply bool_decide_eq_true in H. subst v. exists r. reflexivity.
Qed.
Definition small (a : astate Z) : bool := forallb (fun kv => Pos.leb (fst kv) 100) (map_to_list a).
Lemma small_ok a x : small a = true -> (100 < x)%positive -> a !! x = None.
Proof.
  unfold small. intros H Hx. destruct (a !! x) as [v|] eqn:E; [|reflexivity]. exfalso.
  apply elem_of_map_to_list in E. rewrite forallb_forall in H. specialize (H (x, v)). cbn [fst] in H.
  rewrite <- elem_of_list_In in H. specialize (H E). apply Pos.leb_le in H. lia.
Qed.
Definition none_of (a : astate Z) (xs : list positive) : bool := forallb (fun x => match a !! x with None => true | _ => false end) xs.
Lemma none_of_ok a xs : none_of a xs = true -> bool_decide (base.NoDup xs) = true -> unused a xs.
Proof.
  intros H Hn. split.
  - apply bool_decide_eq_true in Hn. apply NoDup_ListNoDup in Hn. exact Hn.
  - apply List.Forall_forall. intros x Hx. unfold none_of in H. rewrite forallb_forall in H. specialize (H x Hx). destruct (a !! x); [discriminate|reflexivity].
Qed.
Lemma el100_unused a xs : small a = true -> forallb (fun x => Pos.leb x 100) xs = true -> elements_unused el100 a xs.
Proof.
  intros H Hx. assert (forall i, (100 < el100 i)%positive) as Hi by (intros i; unfold el100; lia). split.
  - intros i j E. unfold el100 in E. lia.
  - intros i. split; [apply small_ok; [exact H|apply Hi]|]. intros Hin. rewrite forallb_forall in Hx. apply Hx, Pos.leb_le in Hin. specialize (Hi i). lia.
Qed.
(** What is in the variables after a run, and how it ended. *)
Inductive ending := Returned | Threw (e : exn) | Other.
Definition ending_of {A} (r : res (state Z) A) : ending := match r with Ok _ _ => Returned | Exn e _ => Threw e | _ => Other end.
Definition end_state {A} (r : res (state Z) A) : state Z := match r with Ok _ s => s | Exn _ s => s | _ => st_init end.
Definition after {A} (m : M (state Z) A) (s : state Z) (xs : list positive) : ending * list (option (list (option Z))) :=
  (ending_of (m s), map (fun x => content x (end_state (m s))) xs).
Definition str (l : string) : option (list (option Z)) := Some (map Some (bs l)).
Lemma grow15_small z : 0 <= z < 1000 -> d_grow sdesc z <= max_alloc.
Proof. intros H. cbn. unfold grow15, max_alloc. assert (z / 2 <= z) by (apply Z.div_le_upper_bound; lia). lia. Qed.
