(** Concrete element types and programs, used in examples and counterexamples. *)
From Verif Require Import RcaSpec RcaModel RcaExec RcaOwn RcaMeet RcaReach.
Open Scope Z_scope.

Definition grow15 (z : Z) : Z := z + z / 2.
Definition never (_ : nat) : bool := false.
(** String (characters as numbers, NUL is 0), Array of a plain type, Array of a class type. *)
Definition sdesc : desc Z := Desc false 0 (Some 0) (fun z => z) Z.eqb grow15 never true.
Definition pdesc : desc Z := Desc false 0 None (fun z => z) Z.eqb grow15 never true.
Definition kdesc : desc Z := Desc true 0 None (fun z => z) Z.eqb grow15 never true.
(** String with an allocator that refuses the [k]-th request. *)
Definition sdesc_oom (k : nat) : desc Z := Desc false 0 (Some 0) (fun z => z) Z.eqb grow15 (Nat.eqb k) true.
Lemma sdesc_wf : wf_desc sdesc.
Proof. intros z [= <-]. split; [reflexivity|]. intros v. apply Z.eqb_eq. Qed.
Lemma pdesc_wf : wf_desc pdesc.
Proof. intros z. discriminate. Qed.
Lemma kdesc_wf : wf_desc kdesc.
Proof. intros z. discriminate. Qed.
Lemma sdesc_oom_wf k : wf_desc (sdesc_oom k).
Proof. intros z [= <-]. split; [reflexivity|]. intros v. apply Z.eqb_eq. Qed.

(** The state and values after a program. *)
Definition run (d : desc Z) (ops : list (op Z)) : state Z * astate Z :=
  match track d ops (st_init, ∅) with Some p => p | None => (st_init, ∅) end.
Definition runs_ok (d : desc Z) (ops : list (op Z)) : bool := match track d ops (st_init, ∅) with Some _ => true | None => false end.
Definition st (d : desc Z) ops := fst (run d ops).
Definition av (d : desc Z) ops := snd (run d ops).
Lemma run_reached d ops : reached d (st d ops) (av d ops).
Proof.
  unfold st, av, run. destruct (track d ops (st_init, ∅)) as [[s a]|] eqn:E; [|apply re_init]. eapply track_init, E.
Qed.

(** What can be read out of an object. *)
Definition content {T} (x : positive) (s : state T) : option (list (option T)) :=
  match (let* n := length_of x in load x 0 n) s with Ok v _ => Some v | _ => None end.
Definition content_is {T} (x : positive) (s : state T) (v : list T) : Prop := content x s = Some (map Some v).
Definition ok_state {S A} (r : res S A) (dflt : S) : S := match r with Ok _ s => s | _ => dflt end.

(** "hello" in 1, a copy in 2, a slice of it ("ell") in 3; an unrelated longer string in 4. *)
Definition hello : list Z := [104; 101; 108; 108; 111].
Definition world : list Z := [87; 111; 114; 108; 100; 33; 33].
Definition prog_s : list (op Z) :=
  [CtorCstrLen 1 hello 5; CtorCopy 2 1; CtorCopy 3 1; SliceTo 3 1 3; CtorCstrLen 4 world 7].
Definition prog_p : list (op Z) :=
  [CtorList 1 hello; CtorCopy 2 1; CtorCopy 3 1; SliceTo 3 1 3; CtorList 4 world].
(** An array of class type, unshared. *)
Definition prog_k : list (op Z) := [CtorList 1 hello; CtorList 2 [1; 2]].
