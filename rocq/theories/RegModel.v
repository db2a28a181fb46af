(** Model of the command registry: CmdHandlerData shared by all interpreters, ScriptCmdTCL objects behind shared pointers, and the commands of
    each Tcl interpreter (src/ScriptInterpTCL.h:142-188, 291-314; src/ScriptInterpTCL.cpp:30-39, 65-96; src/ScriptInterp.h:72-102).
    Simplified: functions are numbers; of the arguments only their number counts; Tcl namespaces other than the global one are left out, a name is
    looked up without its leading "::"; a Tcl command is known by name and kind; the interpreter of a command that is running goes away at once
    when destroyed. *)
From Verif Require Import Base StrSpec StrModel ScriptModel.
From stdpp Require Import gmap.
Open Scope Z_scope.

(** ScriptCmd, ScriptInterp.h:72-102, with the count of its shared pointers. *)
Record ccd := Ccd { c_si : Z; c_name : chars; c_fun : Z; c_min : Z; c_max : Z; c_registered : bool; c_refs : Z }.
(** [Native]: made by Tcl_CreateObjCommand with _createCommand_callback; [Script]: a proc of the script. *)
Inductive tkind := Native | Script.
(** What a script sees of calling a command. *)
Inductive event := Ran (i : Z) (n : chars) (f : Z) | Refused (i : Z) (n : chars) (f : Z) | RanScript (i : Z) (n : chars) | Unknown (i : Z) (n : chars).
Record reg := Reg {
  g_heap : gmap Z ccd;
  g_next : Z;
  g_table : gmap chars (option Z);         (* CmdHandlerData; None is a null pointer *)
  g_tcl : gmap (Z * chars) tkind;
  g_live : gmap Z unit;                    (* ScriptInterpTCL objects *)
  g_log : list event                       (* the most recent first *)
}.
Definition reg_init : reg := Reg ∅ 0 ∅ ∅ ∅ [].
Notation Mr := (M reg).
Definition set_heap h s := Reg h (g_next s) (g_table s) (g_tcl s) (g_live s) (g_log s).
Definition set_table t s := Reg (g_heap s) (g_next s) t (g_tcl s) (g_live s) (g_log s).
Definition set_tcl t s := Reg (g_heap s) (g_next s) (g_table s) t (g_live s) (g_log s).
Definition set_live l s := Reg (g_heap s) (g_next s) (g_table s) (g_tcl s) l (g_log s).
Definition emit (e : event) : Mr unit := fun s => Ok tt (Reg (g_heap s) (g_next s) (g_table s) (g_tcl s) (g_live s) (e :: g_log s)).
Definition gets {A} (f : reg -> A) : Mr A := fun s => Ok (f s) s.
Definition upd (f : reg -> reg) : Mr unit := fun s => Ok tt (f s).

(** The name Tcl makes of a C string. *)
Fixpoint skip_colons (n : chars) : chars := match n with 58 :: n' => skip_colons n' | _ => n end.
Definition tcl_name (n : chars) : chars :=
  match upto_nul n with 58 :: 58 :: n' => skip_colons n' | n' => n' end.

Definition get_ccd (p : Z) : Mr ccd := fun s => match g_heap s !! p with Some c => Ok c s | None => Undef UbFreed end.
Definition put_ccd (p : Z) (c : ccd) : Mr unit := upd (fun s => set_heap (<[p := c]> (g_heap s)) s).
(** si->interp of a ScriptCmdTCL *)
Definition use_interp (i : Z) (e : ub) : Mr unit := fun s => match g_live s !! i with Some _ => Ok tt s | None => Undef e end.
Definition with_refs (c : ccd) (r : Z) : ccd := Ccd (c_si c) (c_name c) (c_fun c) (c_min c) (c_max c) (c_registered c) r.
Definition with_registered (c : ccd) (b : bool) : ccd := Ccd (c_si c) (c_name c) (c_fun c) (c_min c) (c_max c) b (c_refs c).
(** unregisterCmd, ScriptInterpTCL.h:170-176, as called by ~ScriptCmdTCL, 160-162 *)
Definition unregister_cmd (c : ccd) : Mr unit :=
  if negb (c_registered c) then ret tt
  else use_interp (c_si c) UbFreed ;;; upd (fun s => set_tcl (delete (c_si c, tcl_name (c_name c)) (g_tcl s)) s).
(** registerCmd, 163-169 *)
Definition register_cmd (p : Z) : Mr unit :=
  let* c := get_ccd p in
  if c_registered c then ret tt
  else
    use_interp (c_si c) UbFreed ;;;
    upd (fun s => set_tcl (<[(c_si c, tcl_name (c_name c)) := Native]> (g_tcl s)) s) ;;;
    put_ccd p (with_registered c true).
(** Copying and dropping a shared pointer. *)
Definition acquire (p : Z) : Mr unit := let* c := get_ccd p in put_ccd p (with_refs c (c_refs c + 1)).
Definition release (p : Z) : Mr unit :=
  let* c := get_ccd p in
  if c_refs c =? 1
  then unregister_cmd c ;;; upd (fun s => set_heap (delete p (g_heap s)) s)
  else put_ccd p (with_refs c (c_refs c - 1)).
Definition release_entry (e : option (option Z)) : Mr unit := match e with Some (Some q) => release q | _ => ret tt end.

(** _createCommand, 179-188: the local pointer, the assignment to the table (the old pointer goes last), registerCmd, the local pointer goes. *)
Definition create_command (i : Z) (n : chars) (f mn mx : Z) : Mr unit :=
  use_interp i UbDeadVar ;;;
  let* p := gets g_next in
  upd (fun s => Reg (<[p := Ccd i n f mn mx false 1]> (g_heap s)) (p + 1) (g_table s) (g_tcl s) (g_live s) (g_log s)) ;;;
  let* old := gets (fun s => g_table s !! n) in
  acquire p ;;;
  upd (fun s => set_table (<[n := Some p]> (g_table s)) s) ;;;
  release_entry old ;;;
  register_cmd p ;;;
  release p.
(** deleteCommand, 312-314 *)
Definition delete_command (i : Z) (n : chars) : Mr unit :=
  use_interp i UbDeadVar ;;;
  let* old := gets (fun s => g_table s !! n) in
  upd (fun s => set_table (delete n (g_table s)) s) ;;;
  release_entry old.
(** ~ScriptInterpTCL, 291-296, and destroy, ScriptInterpTCL.cpp:30-39 *)
Fixpoint release_all (l : list (chars * option Z)) : Mr unit :=
  match l with [] => ret tt | (_, e) :: l' => release_entry (Some e) ;;; release_all l' end.
Definition destroy_interp (i : Z) : Mr unit :=
  use_interp i UbDeadVar ;;;
  let* t := gets g_table in
  upd (set_table ∅) ;;;
  release_all (map_to_list t) ;;;
  upd (fun s => set_tcl (filter (fun kv => kv.1.1 <> i) (g_tcl s)) s) ;;;
  upd (fun s => set_live (delete i (g_live s)) s).
Definition new_interp (i : Z) : Mr unit := upd (fun s => set_live (<[i := tt]> (g_live s)) s).
(** A script calls a command; _createCommand_callback, ScriptInterpTCL.cpp:65-96. [body] is what the function does. *)
Definition call_command (i : Z) (n : chars) (nargs : Z) (body : Mr unit) : Mr unit :=
  use_interp i UbDeadVar ;;;
  let* k := gets (fun s => g_tcl s !! (i, tcl_name n)) in
  match k with
  | None => emit (Unknown i n)
  | Some Script => emit (RanScript i n)
  | Some Native =>
    let* e := gets (fun s => g_table s !! n) in
    match e with
    | Some (Some p) =>
      acquire p ;;;
      let* c := get_ccd p in
      (if (nargs <? c_min c) || (c_max c <? nargs) then emit (Refused i n (c_fun c)) else emit (Ran i n (c_fun c)) ;;; body) ;;;
      release p
    | _ => upd (fun s => set_table (<[n := None]> (g_table s)) s) ;;; undef UbNull
    end
  end.
(** The script's own [proc] and [rename]. *)
Definition script_proc (i : Z) (n : chars) : Mr unit :=
  use_interp i UbDeadVar ;;; upd (fun s => set_tcl (<[(i, tcl_name n) := Script]> (g_tcl s)) s).
Definition script_rename (i : Z) (n m : chars) : Mr unit :=
  use_interp i UbDeadVar ;;;
  upd (fun s => match g_tcl s !! (i, tcl_name n), g_tcl s !! (i, tcl_name m) with
                | Some k, None => set_tcl (<[(i, tcl_name m) := k]> (delete (i, tcl_name n) (g_tcl s))) s
                | _, _ => s
                end).

(** Programs. *)
Inductive rop :=
  | OpNew (i : Z)
  | OpDestroy (i : Z)
  | OpCreate (i : Z) (n : chars) (f mn mx : Z)
  | OpDelete (i : Z) (n : chars)
  | OpCall (i : Z) (n : chars) (nargs : Z) (body : list rop)
  | OpProc (i : Z) (n : chars)
  | OpRename (i : Z) (n m : chars).
Fixpoint rstep (o : rop) : Mr unit :=
  match o with
  | OpNew i => new_interp i
  | OpDestroy i => destroy_interp i
  | OpCreate i n f mn mx => create_command i n f mn mx
  | OpDelete i n => delete_command i n
  | OpCall i n k body => call_command i n k ((fix go l := match l with [] => ret tt | o :: l' => rstep o ;;; go l' end) body)
  | OpProc i n => script_proc i n
  | OpRename i n m => script_rename i n m
  end.
Fixpoint rexec (l : list rop) : Mr unit := match l with [] => ret tt | o :: l' => rstep o ;;; rexec l' end.
