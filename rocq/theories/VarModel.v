(** Model of C++ variables linked to Tcl variables (src/ScriptInterpTCL.h:190-285, 291-296, 318-382; src/ScriptInterpTCL.cpp:98-129) and of the part of
    Tcl they rest on: a global variable has a value and traces, the most recent first; reading runs the read traces, setting stores the value and
    runs the write traces until one fails; while they run, the variable is accessed without traces. Simplified: only global scalar variables, found
    without a leading "::" of the name; hooks only look at the values they are given; memory does not run out; a buffer linked with its size is an
    array of char. *)
From Verif Require Import Base StrSpec StrModel ScriptModel RegModel.
From stdpp Require Import gmap.
Open Scope Z_scope.

(** C++ objects: a variable of some type, or an array of char. *)
Inductive cobj := OVal (t : cty) (v : cval) | OBuf (b : chars).
(** tcl_traceGet, tcl_traceGetPtrData, tcl_traceGetPtr, tcl_traceSet, tcl_traceSetPtr and TraceSetRO with their client data: the address of an
    object, or of a trace_ptr_data. *)
Inductive trace := GetVal (a : Z) | GetData (p : Z) | GetPtr (a : Z) | SetVal (a : Z) | SetData (p : Z) | SetRO.
Record tvar := Tvar { tv_val : tobj; tv_traces : list trace }.
(** What can be seen: a script reading (None: no such variable) and setting (false: an error), a hook being called with old and new value. *)
Inductive vevent := EGet (i : Z) (n : chars) (o : option tobj) | ESet (i : Z) (n : chars) (ok : bool) | EHook (h : Z) (old new : cobj).
Record vst := Vst {
  v_mem : gmap Z cobj;
  v_vars : gmap (Z * chars) tvar;             (* by interpreter and name *)
  v_data : gmap Z (Z * Z);                    (* trace_ptr_data, ScriptInterpTCL.h:190-196 *)
  v_next : Z;
  v_ptrs : gmap (Z * chars) Z;                (* trace_ptrs of each interpreter, 197 *)
  v_hooks : gmap chars Z;                     (* link_var_hooks, static, 285 *)
  v_live : gmap Z unit;                       (* ScriptInterpTCL objects *)
  v_log : list vevent                         (* the most recent first *)
}.
Definition vst_init (mem : gmap Z cobj) : vst := Vst mem ∅ ∅ 0 ∅ ∅ ∅ [].
Notation Ml := (M vst).
Definition vlift {A} (m : Mv A) : Ml A := fun s =>
  match m tt with Ok a _ => Ok a s | Exn e _ => Exn e s | Term => Term | Fuel => Fuel | Undef e => Undef e end.
Definition vgets {A} (f : vst -> A) : Ml A := fun s => Ok (f s) s.
Definition vupd (f : vst -> vst) : Ml unit := fun s => Ok tt (f s).
Definition up_mem m s := Vst m (v_vars s) (v_data s) (v_next s) (v_ptrs s) (v_hooks s) (v_live s) (v_log s).
Definition up_vars m s := Vst (v_mem s) m (v_data s) (v_next s) (v_ptrs s) (v_hooks s) (v_live s) (v_log s).
Definition up_data m s := Vst (v_mem s) (v_vars s) m (v_next s) (v_ptrs s) (v_hooks s) (v_live s) (v_log s).
Definition up_ptrs m s := Vst (v_mem s) (v_vars s) (v_data s) (v_next s) m (v_hooks s) (v_live s) (v_log s).
Definition up_hooks m s := Vst (v_mem s) (v_vars s) (v_data s) (v_next s) (v_ptrs s) m (v_live s) (v_log s).
Definition up_live m s := Vst (v_mem s) (v_vars s) (v_data s) (v_next s) (v_ptrs s) (v_hooks s) m (v_log s).
Definition vemit (e : vevent) : Ml unit := vupd (fun s => Vst (v_mem s) (v_vars s) (v_data s) (v_next s) (v_ptrs s) (v_hooks s) (v_live s) (e :: v_log s)).
Definition need {A} (e : ub) (o : option A) : Ml A := match o with Some a => ret a | None => undef e end.
Definition object (a : Z) : Ml cobj := fun s => match v_mem s !! a with Some o => Ok o s | None => Undef UbFreed end.
Definition data (p : Z) : Ml (Z * Z) := fun s => match v_data s !! p with Some d => Ok d s | None => Undef UbFreed end.

Definition int_type (t : cty) : ity := match t with CInt i => i | _ => I32 end.
Section WithTcl.
Variable tc : tcl.

(** String(value) of a char pointer: the bytes up to a NUL, which must be there. *)
Definition c_string (b : chars) : Ml chars := if existsb (Z.eqb 0) b then ret (upto_nul b) else undef UbBounds.
(** The object a read trace makes, 206-227; None is a null pointer. *)
Definition get_object (t : trace) : Ml (option tobj) :=
  match t with
  | GetVal a =>
    let* o := object a in
    match o with OVal ty v => vlift (to_tcl (int_type ty) v) | OBuf _ => undef UbNull end
  | GetData p =>
    let* d := data p in let* o := object (fst d) in
    match o with OBuf b => let* t := c_string b in ret (string_to_tcl t) | OVal _ _ => undef UbNull end
  | GetPtr a =>
    let* o := object a in
    match o with OBuf b => let* t := c_string b in ret (string_to_tcl t) | OVal _ _ => undef UbNull end
  | _ => ret None
  end.
Definition get_var (i : Z) (n : chars) : Ml (option tvar) := vgets (fun s => v_vars s !! (i, tcl_name n)).
(** Setting the value of a variable, leaving its traces. *)
Definition set_value (i : Z) (n : chars) (o : tobj) : Ml unit :=
  vupd (fun s => up_vars (<[(i, tcl_name n) := Tvar o (match v_vars s !! (i, tcl_name n) with Some v => tv_traces v | None => [] end)]> (v_vars s)) s).
(** A read trace, with TraceGet, ScriptInterpTCL.cpp:113-121: the variable gets the text of the object as a C string. *)
Definition run_read (i : Z) (n : chars) (t : trace) : Ml unit :=
  let* o := get_object t in
  match o with None => ret tt | Some o => set_value i n (TText (cstr_from_tcl tc o)) end.
Fixpoint run_reads (i : Z) (n : chars) (l : list trace) : Ml unit :=
  match l with
  | [] => ret tt
  | (GetVal _ | GetData _ | GetPtr _) as t :: l' => run_read i n t ;;; run_reads i n l'
  | _ :: l' => run_reads i n l'
  end.
(** link_var_hooks.find(name1): [n] is the name the script used. *)
Definition call_hook (n : chars) (old new : cobj) : Ml unit :=
  let* h := vgets (fun s => v_hooks s !! upto_nul n) in
  match h with None => ret tt | Some h => vemit (EHook h old new) end.
(** A write trace; false: it returned an error. TraceSet, ScriptInterpTCL.cpp:123-129, fetches the value [v] of the variable. *)
Definition run_write (i : Z) (n : chars) (t : trace) (v : tobj) : Ml bool :=
  match t with
  | SetVal a =>                                                       (* tcl_traceSet, ScriptInterpTCL.h:229-245 *)
    let* o := object a in
    match o with
    | OVal ty old =>
      match ty with
      | CStrings | CTable => undef UbNull                             (* the cast takes the interpreter of a null pointer, ScriptInterpTCL.cpp:316-322 *)
      | CCstr => undef UbFreed                                        (* the pointer stored does not outlive the Tcl value *)
      | CCallback => undef UbNull                                     (* reading it would not compile *)
      | _ =>
        let new := OVal ty (from_tcl tc 0 ty v) in
        vupd (fun s => up_mem (<[a := new]> (v_mem s)) s) ;;;
        call_hook n o new ;;; ret true
      end
    | OBuf _ => undef UbNull
    end
  | SetData p =>                                                      (* tcl_traceSetPtr, 247-273 *)
    let* d := data p in
    let a := fst d in let size := snd d in
    let* o := object a in
    match o with
    | OBuf b =>
      if (zlen b <? size) || (size <? 1) then undef UbBounds else
      let mem := match get_string tc v with Some t => t | None => [] end ++ [0] in
      if zlen mem <? size then undef UbBounds else                    (* memmove of data->size bytes, 264-265 *)
      let new := OBuf (zupd (size - 1) [0] (zupd 0 (ztake size mem) b)) in
      vupd (fun s => up_mem (<[a := new]> (v_mem s)) s) ;;;
      call_hook n (OBuf (ztake size b)) new ;;; ret true
    | OVal _ _ => undef UbNull
    end
  | SetRO => ret false                                                (* ScriptInterpTCL.cpp:107-111 *)
  | _ => ret true
  end.
Fixpoint run_writes (i : Z) (n : chars) (l : list trace) (v : tobj) : Ml bool :=
  match l with
  | [] => ret true
  | t :: l' => let* ok := run_write i n t v in if (ok : bool) then run_writes i n l' v else ret false
  end.

(** Tcl reading and setting a global variable. *)
Definition live (i : Z) : Ml unit := fun s => match v_live s !! i with Some _ => Ok tt s | None => Undef UbDeadVar end.
Definition tcl_get (i : Z) (n : chars) : Ml (option tobj) :=
  let* v := get_var i n in
  match v with
  | None => ret None
  | Some v =>
    run_reads i n (tv_traces v) ;;;
    let* v' := get_var i n in ret (option_map tv_val v')
  end.
Definition tcl_set (i : Z) (n : chars) (o : tobj) : Ml bool :=
  let* v := get_var i n in
  set_value i n o ;;;
  run_writes i n (match v with Some v => tv_traces v | None => [] end) o.
Definition tcl_unset (i : Z) (n : chars) : Ml unit := vupd (fun s => up_vars (delete (i, tcl_name n) (v_vars s)) s).
Definition tcl_trace (i : Z) (n : chars) (t : trace) : Ml unit :=
  vupd (fun s => match v_vars s !! (i, tcl_name n) with
                 | Some v => up_vars (<[(i, tcl_name n) := Tvar (tv_val v) (t :: tv_traces v)]> (v_vars s)) s
                 | None => up_vars (<[(i, tcl_name n) := Tvar (TText []) [t]]> (v_vars s)) s
                 end).

(** setupTraces, ScriptInterpTCL.cpp:98-105 *)
Definition setup_traces (i : Z) (n : chars) (get set : trace) (hook : option Z) : Ml unit :=
  tcl_set i n (TText []) ;;;
  tcl_trace i n get ;;;
  tcl_trace i n set ;;;
  match hook with None => ret tt | Some h => vupd (fun s => up_hooks (<[n := h]> (v_hooks s)) s) end.
(** The four linkVar, ScriptInterpTCL.h:323-372. *)
Definition link_var (i : Z) (n : chars) (a : Z) (hook : option Z) : Ml unit := live i ;;; setup_traces i n (GetVal a) (SetVal a) hook.           (* 323-329 *)
Definition link_const (i : Z) (n : chars) (a : Z) (hook : option Z) : Ml unit := live i ;;; setup_traces i n (GetVal a) SetRO hook.              (* 366-372 *)
Definition link_ptr (i : Z) (n : chars) (a : Z) (hook : option Z) : Ml unit := live i ;;; setup_traces i n (GetPtr a) SetRO hook.                (* 352-358 *)
Definition drop_data (o : option Z) : Ml unit := match o with None => ret tt | Some p => vupd (fun s => up_data (delete p (v_data s)) s) end.
Definition link_buf (i : Z) (n : chars) (a size : Z) (hook : option Z) : Ml unit :=                                                              (* 336-344 *)
  live i ;;;
  let* p := vgets v_next in
  vupd (fun s => Vst (v_mem s) (v_vars s) (<[p := (a, size)]> (v_data s)) (p + 1) (v_ptrs s) (v_hooks s) (v_live s) (v_log s)) ;;;
  setup_traces i n (GetData p) (SetData p) hook ;;;
  let* old := vgets (fun s => v_ptrs s !! (i, n)) in
  vupd (fun s => up_ptrs (<[(i, n) := p]> (v_ptrs s)) s) ;;;
  drop_data old.
(** unlinkVar, 378-382 *)
Definition unlink_var (i : Z) (n : chars) : Ml unit :=
  live i ;;;
  tcl_unset i n ;;;
  vupd (fun s => up_hooks (delete n (v_hooks s)) s) ;;;
  let* old := vgets (fun s => v_ptrs s !! (i, n)) in
  vupd (fun s => up_ptrs (delete (i, n) (v_ptrs s)) s) ;;;
  drop_data old.
(** ~ScriptInterpTCL, 291-296: the hooks of all interpreters go. *)
Fixpoint drop_ptrs (l : list ((Z * chars) * Z)) : Ml unit := match l with [] => ret tt | (_, p) :: l' => drop_data (Some p) ;;; drop_ptrs l' end.
Definition destroy_vars (i : Z) : Ml unit :=
  live i ;;;
  vupd (up_hooks ∅) ;;;
  let* mine := vgets (fun s => map_to_list (filter (fun kv => kv.1.1 = i) (v_ptrs s))) in
  drop_ptrs mine ;;;
  vupd (fun s => up_ptrs (filter (fun kv => kv.1.1 <> i) (v_ptrs s)) s) ;;;
  vupd (fun s => up_vars (filter (fun kv => kv.1.1 <> i) (v_vars s)) s) ;;;
  vupd (fun s => up_live (delete i (v_live s)) s).

(** Programs: what the application does, what scripts do, and what happens to the C++ objects. *)
Inductive vop :=
  | VNew (i : Z) | VDestroy (i : Z)
  | VLink (i : Z) (n : chars) (a : Z) (hook : option Z)
  | VLinkConst (i : Z) (n : chars) (a : Z) (hook : option Z)
  | VLinkPtr (i : Z) (n : chars) (a : Z) (hook : option Z)
  | VLinkBuf (i : Z) (n : chars) (a size : Z) (hook : option Z)
  | VUnlink (i : Z) (n : chars)
  | SGet (i : Z) (n : chars)                 (* $n *)
  | SSet (i : Z) (n : chars) (o : tobj)      (* set n o *)
  | SUnset (i : Z) (n : chars)               (* unset n *)
  | CPut (a : Z) (o : cobj)                  (* the object begins to exist or is assigned *)
  | CGone (a : Z).                           (* its lifetime ends *)
Definition vstep (o : vop) : Ml unit :=
  match o with
  | VNew i => vupd (fun s => up_live (<[i := tt]> (v_live s)) s)
  | VDestroy i => destroy_vars i
  | VLink i n a h => link_var i n a h
  | VLinkConst i n a h => link_const i n a h
  | VLinkPtr i n a h => link_ptr i n a h
  | VLinkBuf i n a size h => link_buf i n a size h
  | VUnlink i n => unlink_var i n
  | SGet i n => live i ;;; let* r := tcl_get i n in vemit (EGet i n r)
  | SSet i n v => live i ;;; let* ok := tcl_set i n v in vemit (ESet i n ok)
  | SUnset i n => live i ;;; tcl_unset i n
  | CPut a v => vupd (fun s => up_mem (<[a := v]> (v_mem s)) s)
  | CGone a => vupd (fun s => up_mem (delete a (v_mem s)) s)
  end.
Fixpoint vexec (l : list vop) : Ml unit := match l with [] => ret tt | o :: l' => vstep o ;;; vexec l' end.
End WithTcl.
