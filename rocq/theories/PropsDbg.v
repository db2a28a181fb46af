(** C76: assertions. *)
From stdpp Require Import gmap.
From Verif Require Import RcaSpec RcaModel RcaExec RcaOwn RcaMeet RcaReach RcaEx DbgMeet DbgProof DbgEx.
Open Scope Z_scope.

(** From every state a program reaches while it keeps to the contract, each specified call does the same in both
    builds: same result, same state. *)
Theorem C76_call_same : forall (T : Type) (d : desc T) o s a, wf_desc d -> reached (build true d) s a -> step d o a <> None ->
  exec (build true d) o s = exec (build false d) o s.
Proof. intros T d o s a Hwf. apply exec_same, Hwf. Qed.
Print Assumptions C76_call_same.
(** Both builds reach the same states. *)
Theorem C76_states_same : forall (T : Type) (d : desc T) s a, wf_desc d -> reached (build true d) s a <-> reached (build false d) s a.
Proof. intros T d s a Hwf. split; [apply reached_off, Hwf|apply reached_on, Hwf]. Qed.
Print Assumptions C76_states_same.
(** Whole programs that keep to the contract: both builds show the same, and neither stops at an assertion or runs into
    undefined behaviour. *)
Theorem C76_program_same : forall (T : Type) (d : desc T) ops, wf_desc d -> keeps d ops ∅ ->
  observe (build true d) ops st_init = observe (build false d) ops st_init /\ forall u, ~ In (OUndef u) (observe (build false d) ops st_init).
Proof. intros T d ops Hwf. apply observe_same, Hwf. Qed.
Print Assumptions C76_program_same.
(** Programs that do not: up to the point where the checking build stops it shows what the other one shows. *)
Theorem C76_program_prefix : forall (T : Type) (d : desc T) ops s,
  observe (build true d) ops s = observe (build false d) ops s \/
  exists pre post u, observe (build false d) ops s = pre ++ post /\ observe (build true d) ops s = pre ++ [OUndef u].
Proof. exact @observe_prefix. Qed.
Print Assumptions C76_program_prefix.
(** What the assertions catch: taking an element from an empty array. Without them pop_back() leaves an array that
    claims 2^64 - 1 elements. *)
Theorem C76_empty_stops : forall (T : Type) (d : desc T) s a x r, wf_desc d -> reached (build true d) s a -> a !! x = Some (AVal r []) ->
  exec (build true d) (PopBack x) s = Undef Asserted /\ exec (build true d) (Shift x) s = Undef Asserted /\ exec (build true d) (Pop x) s = Undef Asserted /\
  exists s', exec (build false d) (PopBack x) s = Ok ONone s' /\ length_of x s' = Ok 18446744073709551615 s'.
Proof. intros T d s a x r Hwf. exact (empty_fires d Hwf s a x r). Qed.
Print Assumptions C76_empty_stops.

Example C76_ex : keeps sdesc talk ∅ /\ wf_desc sdesc /\
  observe (build true sdesc) talk st_init =
    [ORet ONone; ORet ONone; ORet ONone; ORet (OMem [Some 104; Some 105; Some 0]); ORet ONone; ORet ONone; ORet ONone; ORet (OMem [Some 111; Some 107; Some 0]);
     OThrow OutOfRange; ORet (OInt 3); ORet ONone; ORet ONone].
Proof.
  split; [|split; [apply sdesc_wf|vm_compute; reflexivity]].
  apply fine_keeps. vm_compute. reflexivity.
Qed.
(** Misuse, in both builds. *)
Example C76_misuse_ex : observe (build true pdesc) [CtorList 1 [5]; PopBack 1; PopBack 1; Length 1] st_init = [ORet ONone; ORet ONone; OUndef Asserted] /\
  observe (build false pdesc) [CtorList 1 [5]; PopBack 1; PopBack 1; Length 1] st_init = [ORet ONone; ORet ONone; ORet ONone; ORet (OInt 18446744073709551615)].
Proof. split; vm_compute; reflexivity. Qed.
