(** C30, comparing Arrays. [coin] stands for addresses of empty arrays being equal by chance. *)
From Verif Require Import Base RcaSpec RcaModel RcaExec RcaOwn RcaMeet RcaReach RcaEx ArrSpec ArrModel ArrProof.
Open Scope Z_scope.
Ltac run := vm_compute; reflexivity.
(** hello, a copy, the slices "ell" and "ell" of copies, and the same contents built separately. *)
Definition prog : list (op Z) :=
  [CtorList 1 hello; CtorCopy 2 1; CtorCopy 3 1; SliceTo 3 1 3; CtorCopy 4 2; SliceTo 4 1 3; CtorList 5 [101; 108; 108]; CtorList 6 [101; 108; 109]].
Definition is_ok (r : res (state Z) bool) : option bool := match r with Ok b _ => Some b | _ => None end.
Lemma refl_p : forall v, selfeq (d_eqb pdesc) v. Proof. intros v i e _. apply Z.eqb_refl. Qed.

(** C30: == says whether length and elements are equal. *)
Theorem C30_equal : forall (T : Type) (d : desc T) (s : state T) (a : astate T) (x y : var) r r' es fs,
  wf_desc d -> reached d s a -> a !! x = Some (AVal r (map Some es)) -> a !! y = Some (AVal r' (map Some fs)) ->
  forall coin, selfeq (d_eqb d) es -> exists b, arr_eq d coin x y s = Ok b s /\ (b = true <-> equal_all (d_eqb d) es fs).
Proof. exact @eq_ok. Qed.
Print Assumptions C30_equal.
Example C30_equal_ex : wf_desc pdesc /\ reached pdesc (st pdesc prog) (av pdesc prog) /\
  av pdesc prog !! 3%positive = Some (AVal true (map Some [101; 108; 108])) /\ av pdesc prog !! 5%positive = Some (AVal true (map Some [101; 108; 108])) /\
  selfeq (d_eqb pdesc) [101; 108; 108] /\
  map (fun p => is_ok (arr_eq pdesc true (fst p) (snd p) (st pdesc prog))) [(1, 2); (3, 4); (3, 5); (5, 6); (1, 3)]%positive =
  [Some true; Some true; Some true; Some false; Some false].
Proof.
  split; [apply pdesc_wf|]. split; [apply run_reached|]. split; [run|]. split; [run|]. split; [apply refl_p|]. run.
Qed.

(** C30: != is its negation. *)
Theorem C30_different : forall (T : Type) (d : desc T) (s : state T) (a : astate T) (x y : var) r r' es fs,
  wf_desc d -> reached d s a -> a !! x = Some (AVal r (map Some es)) -> a !! y = Some (AVal r' (map Some fs)) ->
  forall coin, selfeq (d_eqb d) es -> exists b, arr_ne d coin x y s = Ok b s /\ (b = false <-> equal_all (d_eqb d) es fs).
Proof. exact @ne_ok. Qed.
Print Assumptions C30_different.
Example C30_different_ex :
  map (fun p => is_ok (arr_ne pdesc true (fst p) (snd p) (st pdesc prog))) [(1, 2); (3, 5); (5, 6); (1, 3)]%positive =
  [Some false; Some false; Some true; Some true].
Proof. run. Qed.

(** C30: equals without and with a limit. *)
Theorem C30_equals : forall (T : Type) (d : desc T) (s : state T) (a : astate T) (x y : var) r r' es fs,
  wf_desc d -> reached d s a -> a !! x = Some (AVal r (map Some es)) -> a !! y = Some (AVal r' (map Some fs)) ->
  forall coin, selfeq (d_eqb d) es -> exists b, arr_equals d coin x y s = Ok b s /\ (b = true <-> equal_all (d_eqb d) es fs).
Proof. exact @equals_all. Qed.
Print Assumptions C30_equals.
Example C30_equals_ex : is_ok (arr_equals pdesc false 3 5 (st pdesc prog)) = Some true /\ is_ok (arr_equals pdesc false 5 6 (st pdesc prog)) = Some false.
Proof. split; run. Qed.

Theorem C30_equals_limit : forall (T : Type) (d : desc T) (s : state T) (a : astate T) (x y : var) r r' es fs,
  wf_desc d -> reached d s a -> a !! x = Some (AVal r (map Some es)) -> a !! y = Some (AVal r' (map Some fs)) ->
  forall coin n, 0 <= n -> selfeq (d_eqb d) es ->
  exists b, arr_equals_n d coin x y n s = Ok b s /\ (b = true <-> equal_upto (d_eqb d) n es fs).
Proof. exact @equals_n. Qed.
Print Assumptions C30_equals_limit.
Example C30_equals_limit_ex : map (fun n => is_ok (arr_equals_n pdesc false 5 6 n (st pdesc prog))) [0; 2; 3; npos] = [Some true; Some true; Some false; Some false] /\
  is_ok (arr_equals_n pdesc false 1 5 2 (st pdesc prog)) = Some false.
Proof. split; run. Qed.

(** C30: when elements need not equal themselves, the shortcut is the only difference, and needs equal contents. *)
Theorem C30_shortcut : forall (T : Type) (d : desc T) (s : state T) (a : astate T) (x y : var) r r' es fs,
  wf_desc d -> reached d s a -> a !! x = Some (AVal r (map Some es)) -> a !! y = Some (AVal r' (map Some fs)) ->
  forall coin n, 0 <= n ->
  exists b, arr_equals_n d coin x y n s = Ok b s /\ ((b = true <-> equal_upto (d_eqb d) n es fs) \/ (b = true /\ es = fs)).
Proof. exact @shortcut. Qed.
Print Assumptions C30_shortcut.
(** double: 0 stands for NaN. *)
Definition float_eqb (a b : Z) : bool := negb (a =? 0) && (a =? b).
Definition fdesc : desc Z := Desc false 0 None (fun z => z) float_eqb grow15 never false.
Definition prog_f : list (op Z) := [CtorList 1 [0; 5]; CtorCopy 2 1; CtorList 3 [0; 5]].
Example C30_shortcut_ex : wf_desc fdesc /\ reached fdesc (st fdesc prog_f) (av fdesc prog_f) /\
  av fdesc prog_f !! 1%positive = Some (AVal true (map Some [0; 5])) /\ is_ok (arr_eq fdesc false 1 3 (st fdesc prog_f)) = Some false.
Proof. split; [intros z; discriminate|]. split; [apply run_reached|]. split; run. Qed.

(** C30: an Array holding a NaN equals its own copy although its elements do not. *)
Theorem C30_nan_refuted : exists (d : desc Z) p, wf_desc d /\ reached d (st d p) (av d p) /\
  av d p !! 1%positive = Some (AVal true (map Some [0; 5])) /\ av d p !! 2%positive = Some (AVal true (map Some [0; 5])) /\
  ~ equal_all (d_eqb d) [0; 5] [0; 5] /\ is_ok (arr_eq d false 1 2 (st d p)) = Some true /\ is_ok (arr_eq d false 1 1 (st d p)) = Some true.
Proof.
  exists fdesc, prog_f. split; [intros z; discriminate|]. split; [apply run_reached|]. split; [run|]. split; [run|].
  split; [|split; run]. intros [_ A]. specialize (A 0 0 0 eq_refl eq_refl). discriminate.
Qed.
Print Assumptions C30_nan_refuted.
