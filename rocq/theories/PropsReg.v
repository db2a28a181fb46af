(** C45: the registry of script commands. Programs ([rop]) create and destroy interpreters, create and delete commands and call commands from scripts, with
    functions that run programs themselves; the log shows what the scripts saw, the most recent call first. *)
From Coq Require Import Lia String.
From Verif Require Import Base StrSpec StrModel StrEx ScriptModel RegModel RegSpec RegProof.
From stdpp Require Import gmap.
Open Scope Z_scope.
Ltac run := vm_compute; reflexivity.
Definition log_of (r : res reg unit) : option (list event) := match r with Ok _ s => Some (g_log s) | _ => None end.
Definition ub_of (r : res reg unit) : option ub := match r with Undef e => Some e | _ => None end.
Definition foo := bs "foo". Definition bar := bs "bar".

(** C45: any program whose functions leave the commands being run alone behaves as a map from names to the interpreter and function registered last:
    scripts see what the map says, the Tcl commands of an interpreter are the names the map gives it, and no command object is kept longer or twice. *)
Theorem C45_refines : forall l a, all_gentle [] l -> aexec l areg_init = Some a ->
  exists s, rexec l reg_init = Ok tt s /\ g_log s = a_log a /\
    (forall i n, g_tcl s !! (i, n) = Some Native <-> exists h, a_map a !! n = Some (i, h)) /\
    (forall i n, g_tcl s !! (i, n) <> Some Script) /\
    (forall p c, g_heap s !! p = Some c -> c_refs c = 1 /\ a_map a !! c_name c = Some (c_si c, (c_fun c, c_min c, c_max c)) /\
      forall q d, g_heap s !! q = Some d -> c_name d = c_name c -> q = p).
Proof. exact registry_refines. Qed.
Print Assumptions C45_refines.
Definition prog45 : list rop :=
  [OpNew 1; OpNew 2; OpCreate 1 foo 10 0 2; OpCreate 2 bar 20 1 1;
   OpCall 1 foo 1 [OpCreate 1 (bs "sub") 11 0 0; OpCall 1 foo 2 [OpCall 2 bar 1 []; OpDelete 1 (bs "sub")]; OpCall 1 (bs "sub") 0 []];
   OpCall 2 bar 0 []; OpDelete 1 foo; OpCall 1 foo 0 []; OpDestroy 1; OpCall 2 bar 1 []].
Example C45_refines_ex : all_gentle [] prog45 /\ option_map a_log (aexec prog45 areg_init) =
  Some [Unknown 2 bar; Unknown 1 foo; Refused 2 bar 20; Unknown 1 (bs "sub"); Ran 2 bar 20; Ran 1 foo 10; Ran 1 foo 10].
Proof. split; [|run]. cbn. unfold plain. repeat match goal with |- _ /\ _ => split end; try exact I; try reflexivity; intros H; vm_compute in H; intuition discriminate. Qed.

(** C45: with one interpreter a name runs the function created for it last, and nothing after deletion. *)
Theorem C45_last : forall i n l k, List.Forall (flat i) l -> plain n ->
  exists s, rexec (OpNew i :: l ++ [OpCall i n k []]) reg_init = Ok tt s /\
  g_log s = [match last_about n l None with Some (f, mn, mx) => if (k <? mn) || (mx <? k) then Refused i n f else Ran i n f | None => Unknown i n end].
Proof. exact call_last. Qed.
Print Assumptions C45_last.
Example C45_last_ex : let l := [OpCreate 1 foo 10 0 0; OpCreate 1 bar 20 0 0; OpDelete 1 foo; OpCreate 1 foo 11 0 3; OpDelete 1 bar] in
  List.Forall (flat 1) l /\ last_about foo l None = Some (11, 0, 3) /\ last_about bar l None = None.
Proof. cbn. split; [|split; run]. unfold plain. repeat constructor; intros H; vm_compute in H; intuition discriminate. Qed.

(** C45, interpreters are not independent: a second one creating the same name takes the command of the first away, *)
Theorem C45_same_name_refuted : exists l, log_of (rexec l reg_init) = Some [Unknown 1 foo] /\
  l = [OpNew 1; OpNew 2; OpCreate 1 foo 10 0 0; OpCreate 2 foo 20 0 0; OpCall 1 foo 0 []].
Proof. eexists. split; [|reflexivity]. run. Qed.
Print Assumptions C45_same_name_refuted.
(** deleting a name through one deletes it in the other, *)
Theorem C45_delete_other_refuted : exists l, log_of (rexec l reg_init) = Some [Unknown 1 foo] /\
  l = [OpNew 1; OpNew 2; OpCreate 1 foo 10 0 0; OpDelete 2 foo; OpCall 1 foo 0 []].
Proof. eexists. split; [|reflexivity]. run. Qed.
Print Assumptions C45_delete_other_refuted.
(** and destroying one removes the commands of all. *)
Theorem C45_destroy_other_refuted : exists l, log_of (rexec l reg_init) = Some [Unknown 1 foo; Ran 1 foo 10] /\
  l = [OpNew 1; OpNew 2; OpCreate 1 foo 10 0 0; OpCall 1 foo 0 []; OpDestroy 2; OpCall 1 foo 0 []].
Proof. eexists. split; [|reflexivity]. run. Qed.
Print Assumptions C45_destroy_other_refuted.
(** C45, names: a script that calls a command by another spelling, renames it, or a command created with a NUL in its name, ends in a null pointer. *)
Theorem C45_spelling_refuted : exists l, ub_of (rexec l reg_init) = Some UbNull /\ l = [OpNew 1; OpCreate 1 foo 10 0 0; OpCall 1 (bs "::foo") 0 []].
Proof. eexists. split; [|reflexivity]. run. Qed.
Print Assumptions C45_spelling_refuted.
Theorem C45_rename_refuted : exists l, ub_of (rexec l reg_init) = Some UbNull /\ l = [OpNew 1; OpCreate 1 foo 10 0 0; OpRename 1 foo bar; OpCall 1 bar 0 []].
Proof. eexists. split; [|reflexivity]. run. Qed.
Print Assumptions C45_rename_refuted.
Theorem C45_nul_refuted : exists l, ub_of (rexec l reg_init) = Some UbNull /\ l = [OpNew 1; OpCreate 1 (foo ++ [0] ++ bar)%list 10 0 0; OpCall 1 foo 0 []].
Proof. eexists. split; [|reflexivity]. run. Qed.
Print Assumptions C45_nul_refuted.
(** C45, functions: one that creates its own command anew loses it on return; one that deletes its own command and calls it, or destroys its interpreter, is undefined. *)
Theorem C45_recreate_refuted : exists l, log_of (rexec l reg_init) = Some [Unknown 1 foo; Ran 1 foo 10] /\
  l = [OpNew 1; OpCreate 1 foo 10 0 0; OpCall 1 foo 0 [OpCreate 1 foo 11 0 0]; OpCall 1 foo 0 []].
Proof. eexists. split; [|reflexivity]. run. Qed.
Print Assumptions C45_recreate_refuted.
Theorem C45_self_delete_refuted : exists l, ub_of (rexec l reg_init) = Some UbNull /\
  l = [OpNew 1; OpCreate 1 foo 10 0 0; OpCall 1 foo 0 [OpDelete 1 foo; OpCall 1 foo 0 []]].
Proof. eexists. split; [|reflexivity]. run. Qed.
Print Assumptions C45_self_delete_refuted.
Theorem C45_self_destroy_refuted : exists l, ub_of (rexec l reg_init) = Some UbFreed /\
  l = [OpNew 1; OpCreate 1 foo 10 0 0; OpCall 1 foo 0 [OpDestroy 1]].
Proof. eexists. split; [|reflexivity]. run. Qed.
Print Assumptions C45_self_destroy_refuted.
(** C45: a script's own procedure of the same name is removed by deleteCommand. *)
Theorem C45_proc_refuted : exists l, log_of (rexec l reg_init) = Some [Unknown 1 foo; RanScript 1 foo] /\
  l = [OpNew 1; OpCreate 1 foo 10 0 0; OpProc 1 foo; OpCall 1 foo 0 []; OpDelete 1 foo; OpCall 1 foo 0 []].
Proof. eexists. split; [|reflexivity]. run. Qed.
Print Assumptions C45_proc_refuted.
