(** C49: C++ variables linked to script variables. *)
From Coq Require Import Lia String.
From Verif Require Import Base StrSpec StrModel StrEx ScriptModel ScriptSpec PropsScript RegModel VarModel VarSpec VarProof.
From stdpp Require Import gmap.
Open Scope Z_scope.
Ltac run := vm_compute; reflexivity.

(** C49: reading shows the object, setting stores the converted value and calls the hook with old and new value, constants refuse, unlinking
    ends it: programs do what [VarSpec] says, as long as a name is linked once at a time. *)
Theorem C49_refines : forall tc l mem b, tcl_ok tc -> avruns tc l (avars_init mem) b ->
  exists s, vexec tc l (vst_init mem) = Ok tt s /\ v_mem s = av_mem b /\ v_log s = av_log b.
Proof. intros tc l mem b H. exact (exec_refines tc H l mem b). Qed.
Print Assumptions C49_refines.
Definition mem0 : gmap Z cobj := <[10 := OVal CString (VString (bs "old"))]> (<[20 := OVal (CInt U8) (VInt 7)]> (<[30 := OBuf [97; 98; 0]]> ∅)).
Definition prog0 : list vop :=
  [VNew 1; VNew 2; VLink 1 (bs "a") 10 (Some 5); VLink 2 (bs "b") 20 None; VLinkConst 2 (bs "c") 10 None; VLinkBuf 1 (bs "d") 30 3 (Some 6);
   SGet 1 (bs "a"); SSet 1 (bs "a") (TText (bs "new")); SSet 2 (bs "b") (TInt 300); SSet 2 (bs "c") (TText (bs "x")); SGet 2 (bs "c");
   SSet 1 (bs "d") (TText (bs "hello")); SGet 1 (bs "d"); CPut 10 (OVal CString (VString (bs "newer"))); SGet 1 (bs "a");
   VUnlink 1 (bs "a"); SGet 1 (bs "a"); VLink 1 (bs "a") 20 None; SSet 1 (bs "a") (TInt 9); VUnlink 1 (bs "d"); VDestroy 2; SSet 1 (bs "a") (TInt 10)].
Example C49_refines_ex : tcl_ok tcl0 /\ (exists b, avruns tcl0 prog0 (avars_init mem0) b) /\
  option_map (fun b => (av_log b, map_to_list (av_mem b))) (avexec tcl0 prog0 (avars_init mem0)) =
  Some ([ESet 1 (bs "a") true; ESet 1 (bs "a") true; EGet 1 (bs "a") None; EGet 1 (bs "a") (Some (TText (bs "newer"))); EGet 1 (bs "d") (Some (TText (bs "he")));
         ESet 1 (bs "d") true; EHook 6 (OBuf [97; 98; 0]) (OBuf [104; 101; 0]); EGet 2 (bs "c") (Some (TText (bs "new"))); ESet 2 (bs "c") false;
         ESet 2 (bs "b") true; ESet 1 (bs "a") true; EHook 5 (OVal CString (VString (bs "old"))) (OVal CString (VString (bs "new")));
         EGet 1 (bs "a") (Some (TText (bs "old")))],
        [(20, OVal (CInt U8) (VInt 10)); (10, OVal CString (VString (bs "newer"))); (30, OBuf [104; 101; 0])]).
Proof.
  split; [exact tcl0_ok|]. split; [apply avtidy_ok; run|run].
Qed.

(** C49: programs [VarSpec] gives a meaning but that are not tidy, and what happens instead. *)
Definition log_of (r : res vst unit) : option (list vevent) := match r with Ok _ s => Some (v_log s) | _ => None end.
Definition object_in (x : Z) (r : res vst unit) : option cobj := match r with Ok _ s => v_mem s !! x | _ => None end.
Definition differs (l : list vop) (mem : gmap Z cobj) : Prop :=
  exists log log', option_map av_log (avexec tcl0 l (avars_init mem)) = Some log /\ log_of (vexec tcl0 l (vst_init mem)) = Some log' /\ log' <> log.
Ltac log_differs := unfold differs; eexists; eexists; split; [run|]; split; [run|]; discriminate.
Definition mem1 : gmap Z cobj := <[10 := OVal CString (VString (bs "old"))]> (<[20 := OVal CString (VString (bs "new"))]> (<[30 := OBuf [97; 0]]> (<[40 := OBuf [98; 0]]> ∅))).

(** C49: linking a name again empties the variable linked before, and scripts go on reading that one. *)
Theorem C49_relink_refuted : exists l mem,
  l = [VNew 1; VLink 1 (bs "a") 10 None; VLink 1 (bs "a") 20 None; SGet 1 (bs "a")] /\
  mem !! 10 = Some (OVal CString (VString (bs "old"))) /\ mem !! 20 = Some (OVal CString (VString (bs "new"))) /\
  object_in 10 (vexec tcl0 l (vst_init mem)) = Some (OVal CString (VString [])) /\
  log_of (vexec tcl0 l (vst_init mem)) = Some [EGet 1 (bs "a") (Some (TText []))] /\
  option_map av_log (avexec tcl0 l (avars_init mem)) = Some [EGet 1 (bs "a") (Some (TText (bs "new")))].
Proof. eexists. exists mem1. split; [reflexivity|]. repeat split; run. Qed.
Print Assumptions C49_relink_refuted.

(** C49: linking a buffer again under its name leaves traces that use freed memory. *)
Theorem C49_relink_freed_refuted : exists l mem, l = [VNew 1; VLinkBuf 1 (bs "a") 30 1 None; VLinkBuf 1 (bs "a") 40 1 None; SGet 1 (bs "a")] /\
  (exists log, option_map av_log (avexec tcl0 l (avars_init mem)) = Some log) /\ vexec tcl0 l (vst_init mem) = Undef UbFreed.
Proof. eexists. exists mem1. split; [reflexivity|]. split; [eexists; run|run]. Qed.
Print Assumptions C49_relink_freed_refuted.

(** C49: a text shorter than a linked buffer is read past its end. *)
Theorem C49_short_refuted : exists l mem, l = [VNew 1; VLinkBuf 1 (bs "d") 30 3 None; SSet 1 (bs "d") (TText (bs "x"))] /\
  mem !! 30 = Some (OBuf [97; 98; 0]) /\ vexec tcl0 l (vst_init mem) = Undef UbBounds.
Proof. eexists. exists mem0. split; [reflexivity|]. split; run. Qed.
Print Assumptions C49_short_refuted.

(** C49: destroying an interpreter silences the hooks of the others. *)
Theorem C49_destroy_refuted : exists mem, differs [VNew 1; VNew 2; VLink 1 (bs "a") 10 (Some 5); VDestroy 2; SSet 1 (bs "a") (TText [])] mem.
Proof. exists mem0. log_differs. Qed.
Print Assumptions C49_destroy_refuted.

(** C49: interpreters that link the same name share its hook. *)
Theorem C49_shared_hook_refuted : exists mem,
  differs [VNew 1; VNew 2; VLink 1 (bs "a") 10 None; VLink 2 (bs "a") 20 (Some 5); SSet 1 (bs "a") (TText [])] mem.
Proof. exists mem0. log_differs. Qed.
Print Assumptions C49_shared_hook_refuted.

(** C49: a hook outlives the variable a script unset. *)
Theorem C49_stale_hook_refuted : exists mem,
  differs [VNew 1; VLink 1 (bs "a") 10 (Some 5); SUnset 1 (bs "a"); VLink 1 (bs "a") 20 None; SSet 1 (bs "a") (TInt 3)] mem.
Proof. exists mem0. log_differs. Qed.
Print Assumptions C49_stale_hook_refuted.

(** C49: a script that names the variable ::a changes it unnoticed by the hook. *)
Theorem C49_qualified_refuted : exists l mem, l = [VNew 1; VLink 1 (bs "a") 10 (Some 5); SSet 1 (bs "::a") (TText (bs "x"))] /\
  object_in 10 (vexec tcl0 l (vst_init mem)) = Some (OVal CString (VString (bs "x"))) /\
  log_of (vexec tcl0 l (vst_init mem)) = Some [ESet 1 (bs "::a") true].
Proof. eexists. exists mem0. split; [reflexivity|]. split; run. Qed.
Print Assumptions C49_qualified_refuted.

(** C49: setting a linked Array<String> uses a null pointer; setting a linked uint64 stores 0. *)
Theorem C49_types_refuted : exists n,
  vexec tcl0 [VNew 1; VLink 1 n 10 None; SSet 1 n (TText [])] (vst_init (<[10 := OVal CStrings (VStrings [])]> ∅)) = Undef UbNull /\
  object_in 10 (vexec tcl0 [VNew 1; VLink 1 n 10 None; SSet 1 n (TInt 5)] (vst_init (<[10 := OVal (CInt U64) (VInt 7)]> ∅))) = Some (OVal (CInt U64) (VInt 0)).
Proof. exists (bs "a"). split; run. Qed.
Print Assumptions C49_types_refuted.
