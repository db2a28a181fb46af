(** Model of the Tcl glue (src/ScriptInterpTCL.h, ScriptInterpTCL.cpp, ScriptInterpTCLCallbacks.h, indices.h): conversions between
    C++ values and Tcl objects, dispatch of a command, loading of a file. The Tcl library itself is a record of functions;
    what is assumed of it is [tcl_ok] in ScriptSpec. Simplified: doubles are opaque numbers (their 64 bits); a text is a list of
    bytes; reference counts of Tcl objects are left out; long is 64 and int 32 bits wide; conversions to a narrower type wrap. *)
From Verif Require Import Base StrSpec StrModel.
Open Scope Z_scope.

(** Tcl objects by the call that made them; [TText] is Tcl_NewStringObj. *)
Inductive tobj := TInt (z : Z) | TDouble (bits : Z) | TBool (b : bool) | TText (t : chars) | TList (l : list tobj).
(** Tcl_Get...FromObj; None is TCL_ERROR (a null pointer for the string). *)
Record tcl := Tcl {
  get_long : tobj -> option Z;
  get_double : tobj -> option Z;
  get_bool : tobj -> option Z;
  get_string : tobj -> option chars;
  get_list : tobj -> option (list tobj)
}.

Inductive ity := I8 | U8 | I16 | U16 | I32 | U32 | I64 | U64.
(** Conversion to a signed type of [n] bits. *)
Definition wrap_s (n z : Z) : Z := (z + 2 ^ (n - 1)) mod 2 ^ n - 2 ^ (n - 1).
(** c_to_tcl_cast of the integers, ScriptInterpTCL.h:389-427. *)
Definition i32_to_tcl (v : Z) : tobj := TInt v.                       (* 409-412, Tcl_NewIntObj *)
Definition i16_to_tcl (v : Z) : tobj := i32_to_tcl v.                 (* 399-402 *)
Definition i8_to_tcl (v : Z) : tobj := i16_to_tcl v.                  (* 389-392 *)
Definition i64_to_tcl (v : Z) : tobj := TInt v.                       (* 419-422, Tcl_NewLongObj *)
Definition int_to_tcl (t : ity) (v : Z) : tobj :=
  match t with
  | I8 => i8_to_tcl v
  | U8 => i8_to_tcl (wrap_s 8 v)                                      (* 394-397 *)
  | I16 => i16_to_tcl v
  | U16 => i16_to_tcl (wrap_s 16 v)                                   (* 404-407 *)
  | I32 => i32_to_tcl v
  | U32 => i32_to_tcl (wrap_s 32 v)                                   (* 414-417 *)
  | I64 => i64_to_tcl v
  | U64 => i64_to_tcl (wrap_s 64 v)                                   (* 424-427 *)
  end.

(** C++ types and values of command parameters and results. *)
Inductive cty := CInt (t : ity) | CDouble | CBool | CString | CCstr | CStrings | CTable | CCallback.
Inductive cval :=
  | VInt (z : Z) | VDouble (bits : Z) | VBool (b : bool) | VString (t : chars)
  | VCstr (t : option chars)                    (* char const *; None is null *)
  | VStrings (l : list chars) | VTable (l : list (list chars))
  | VCallback (c : option (Z * chars)).         (* ScriptCallbackerPtr: interpreter and command; None is null *)
(** Params(), ScriptInterpTCLCallbacks.h:52 *)
Definition default_of (t : cty) : cval :=
  match t with
  | CInt _ => VInt 0 | CDouble => VDouble 0 | CBool => VBool false | CString => VString [] | CCstr => VCstr None
  | CStrings => VStrings [] | CTable => VTable [] | CCallback => VCallback None
  end.

Section WithTcl.
Variable tc : tcl.

(** tcl_to_c_cast of the integers, ScriptInterpTCL.cpp:182-282. *)
Definition checked (lo hi : Z) (o : tobj) : Z :=
  match get_long tc o with
  | Some v => if (v <? lo) || (hi <? v) then 0 else v
  | None => 0
  end.
Definition int_from_tcl (t : ity) (o : tobj) : Z :=
  match t with
  | I8 => checked (-128) 127 o                                        (* 182-194 *)
  | U8 => checked 0 255 o                                             (* 196-208 *)
  | I16 => checked (-32768) 32767 o                                   (* 210-222 *)
  | U16 => checked 0 65535 o                                          (* 224-236 *)
  | I32 => checked (-2147483648) 2147483647 o                         (* 238-250 *)
  | U32 => checked 0 4294967295 o                                     (* 252-264 *)
  | I64 => match get_long tc o with Some v => v | None => 0 end       (* 266-273 *)
  | U64 => match get_long tc o with Some _ => 0 | None => 0 end       (* 275-282: the test is inverted *)
  end.
(** ScriptInterpTCL.cpp: String 156-166, C strings 168-180 (a C function sees the text up to its first NUL), Array<String> 316-332,
    Array<Array<String>> 334-350; Array<String> ret(objc) has room but no elements. *)
Fixpoint upto_nul (t : chars) : chars := match t with [] => [] | c :: t' => if c =? 0 then [] else c :: upto_nul t' end.
Definition string_from_tcl (o : tobj) : chars := match get_string tc o with Some t => t | None => [] end.
Definition cstr_from_tcl (o : tobj) : chars := match get_string tc o with Some t => upto_nul t | None => [] end.
Fixpoint collect {A} (f : tobj -> A) (l : list tobj) (acc : list A) : list A :=
  match l with [] => acc | o :: l' => collect f l' (acc ++ [f o]) end.
Definition strings_from_tcl (o : tobj) : list chars :=
  match get_list tc o with None => [] | Some l => collect string_from_tcl l [] end.
Definition table_from_tcl (o : tobj) : list (list chars) :=
  match get_list tc o with None => [] | Some l => collect strings_from_tcl l [] end.
Definition from_tcl (si : Z) (t : cty) (o : tobj) : cval :=
  match t with
  | CInt i => VInt (int_from_tcl i o)
  | CDouble => VDouble (match get_double tc o with Some v => v | None => 0 end)          (* 284-291 *)
  | CBool => VBool (match get_bool tc o with Some v => negb (v =? 0) | None => false end)   (* 293-300 *)
  | CString => VString (string_from_tcl o)
  | CCstr => VCstr (Some (cstr_from_tcl o))
  | CStrings => VStrings (strings_from_tcl o)
  | CTable => VTable (table_from_tcl o)
  | CCallback => VCallback (match get_string tc o with Some t => Some (si, t) | None => None end)   (* 302-314 *)
  end.

(** c_to_tcl_cast of the other types, ScriptInterpTCL.h:429-448 and ScriptInterpTCL.cpp:131-153; None is a null pointer. *)
Definition string_to_tcl (t : chars) : option tobj := if zlen t <? 2147483647 then Some (TText t) else None.
Fixpoint append_objs {A} (f : A -> Mv (option tobj)) (l : list A) (acc : list tobj) : Mv tobj :=
  match l with
  | [] => ret (TList acc)
  | e :: l' =>
    let* o := f e in
    match o with None => undef UbNull | Some o => append_objs f l' (acc ++ [o]) end
  end.
Definition strings_to_tcl (l : list chars) : Mv tobj := append_objs (fun t => ret (string_to_tcl t)) l [].
Definition table_to_tcl (l : list (list chars)) : Mv tobj := append_objs (fun r => let* o := strings_to_tcl r in ret (Some o)) l [].
(** The text of a C string, up to its NUL, becomes a String first (ScriptInterpTCL.h:440-443); used for linked variables, as a command cannot return one
    (no cast for char const * const &). *)
Definition to_tcl (ty : ity) (v : cval) : Mv (option tobj) :=
  match v with
  | VInt z => ret (Some (int_to_tcl ty z))
  | VDouble b => ret (Some (TDouble b))
  | VBool b => ret (Some (TBool b))
  | VString t => ret (string_to_tcl t)
  | VCstr None => undef UbNull
  | VCstr (Some t) => ret (string_to_tcl (upto_nul t))
  | VStrings l => let* o := strings_to_tcl l in ret (Some o)
  | VTable l => let* o := table_to_tcl l in ret (Some o)
  | VCallback _ => undef UbNull    (* does not compile *)
  end.

(** make_indices<n>, indices.h:8-35. *)
Fixpoint indices_impl (n : nat) (acc : list nat) : list nat :=
  match n with O => acc | S m => indices_impl m (m :: acc) end.
Definition make_indices (n : nat) : list nat := indices_impl n [].

(** A registered function: parameter types, the integer type of its result (if it is an integer), least number of arguments, usage text,
    and what the function does with its arguments. *)
Inductive answer := Returns (v : option cval) | ThrowsString (e : chars) | ThrowsOther.
Record handler := Handler { h_types : list cty; h_result : ity; h_min : Z; h_usage : option chars; h_fun : list cval -> answer }.
(** createCommand(cmdName, callback, usage, min_params), ScriptInterpTCL.h:301-310; None is the default argument size_t(-1). *)
Definition make_handler (types : list cty) (res : ity) (min : option Z) (usage : option chars) (f : list cval -> answer) : handler :=
  Handler types res
    (match min with None => zlen types | Some m => if m =? npos then zlen types else m end) usage f.
(** What the interpreter sees: TCL_OK or TCL_ERROR, the result object (None: left alone), and the arguments the function was called with. *)
Inductive result := RObj (o : tobj) | RWrongArgs (expected got : Z) (usage : option chars) | RUnhandled | RNone.
Record outcome := Outcome { oc_ok : bool; oc_result : result; oc_called : option (list cval) }.

(** real_call, ScriptInterpTCLCallbacks.h:38-55. *)
Definition nth_obj (l : list tobj) (i : Z) : Mv tobj :=
  match znth i l with Some o => ret o | None => undef UbBounds end.
Fixpoint real_args (types : list cty) (idx : list nat) (argc : Z) (objv : list tobj) (si : Z) : Mv (list cval) :=
  match types, idx with
  | t :: types', i :: idx' =>
    let* v := (if Z.of_nat i + 1 <=? u64 (argc - 1)
               then let* o := nth_obj objv (Z.of_nat i + 1) in ret (from_tcl si t o) else ret (default_of t)) in
    let* vs := real_args types' idx' argc objv si in
    ret (v :: vs)
  | _, _ => ret []
  end.
Definition set_result (ok : bool) (called : option (list cval)) (o : option tobj) : Mv outcome :=
  match o with None => undef UbNull | Some o => ret (Outcome ok (RObj o) called) end.   (* Tcl_SetObjResult *)
(** _createCommand_callback from the argument check on, ScriptInterpTCL.cpp:71-96, with dispatch,
    ScriptInterpTCLCallbacks.h:9-29. [objv] starts with the command's name. *)
Definition invoke (h : handler) (si : Z) (objv : list tobj) : Mv outcome :=
  let objc := zlen objv in
  let n := u64 (objc - 1) in
  if (n <? h_min h) || (zlen (h_types h) <? n)
  then ret (Outcome false (RWrongArgs (h_min h) (objc - 1) (h_usage h)) None)
  else
    let* args := real_args (h_types h) (make_indices (length (h_types h))) objc objv si in
    match h_fun h args with
    | Returns None => ret (Outcome true RNone (Some args))
    | Returns (Some v) => let* o := to_tcl (h_result h) v in set_result true (Some args) o
    | ThrowsString e => set_result false (Some args) (string_to_tcl e)
    | ThrowsOther => ret (Outcome false RUnhandled (Some args))
    end.
End WithTcl.

(** loadScript, ScriptInterpTCL.cpp:50-60. [eval] tells for a file name whether evaluating the file fails, and with which text; the evaluated
    file, if any, is part of the result. Tcl takes the name up to the first NUL. *)
Inductive load_error := LoadOk | LoadError | LoadWrongInterp.
Definition dot_tcl : chars := [46; 116; 99; 108].
Definition load_script (mdiff : Z -> Z -> Z) (eval : chars -> option chars) (file result : chars) : Mv (load_error * chars * option chars) :=
  let* p := rfind mdiff file dot_tcl (u64 (zlen file - 4)) in
  if p =? npos then ret (LoadWrongInterp, result, None)
  else
    let f := upto_nul file in
    match eval f with
    | Some e => ret (LoadError, e, Some f)
    | None => ret (LoadOk, result, Some f)
    end.
