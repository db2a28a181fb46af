(** Model of ScriptInterpTCL::eval (src/ScriptInterpTCL.cpp:41-48) and of calling back into a script (src/ScriptInterpTCL.h:120-133). Tcl is a
    function from the bytes of a script and the state of the interpreter to success, result and new state. Simplified: the interpreter
    still exists when it is called back. *)
From Verif Require Import Base StrSpec StrModel ScriptModel.
Open Scope Z_scope.

Section WithTcl.
Context {E : Type}.
Variable tc : tcl.
Variable run : chars -> E -> bool * tobj * E.

(** Tcl_EvalEx(interp, script.c_str(), script.length(), ...): the length becomes an int; a negative one stands for the bytes up to a NUL. *)
Definition evaluated (script : chars) : chars :=
  let n := i32 (zlen script) in if n <? 0 then upto_nul script else ztake n script.
Definition set_error_info : chars := [115; 101; 116; 32; 101; 114; 114; 111; 114; 73; 110; 102; 111].   (* set errorInfo *)
(** eval; it calls itself when the script fails. *)
Fixpoint eval (fuel : nat) (script : chars) : M E chars :=
  match fuel with
  | O => fun _ => Fuel
  | S f => fun e =>
    match run (evaluated script) e with
    | (true, o, e') => Ok (string_from_tcl tc o) e'
    | (false, _, e') => eval f set_error_info e'
    end
  end.
Definition clift {A} (m : Mv A) : M E A := fun e =>
  match m tt with Ok a _ => Ok a e | Exn x _ => Exn x e | Term => Term | Fuel => Fuel | Undef u => Undef u end.
(** ScriptCallbackerTCL::call, ScriptInterpTCL.h:128-131: printf sees C strings. *)
Definition callback_call (fuel : nat) (cmd : chars) (params : list chars) : M E chars :=
  let* p := clift (join params [32] true) in
  let* script := clift (printf (upto_nul cmd ++ [32] ++ upto_nul p)) in
  eval fuel script.
End WithTcl.
