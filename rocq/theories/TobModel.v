(** The Tcl objects that the library makes and refers to, with their reference counts: conversions of values to objects,
    results of commands, traces of linked variables (src/ScriptInterpTCL.cpp:64-152, ScriptInterpTCL.h:203-262, 389-448,
    ScriptInterpTCLCallbacks.h:8-30), and the part of Tcl they rest on: an object made has count 0; the result of an
    interpreter, a variable, a list and a running script count their references; an object is freed when the last goes.
    Simplified: an object is a text or a list; the text of a list is an arbitrary function of those of its elements; a name in use is a global
    scalar; addresses are never used again, so that access to a freed object is seen; memory does not run out. *)
From stdpp Require Import gmap.
From Verif Require Import Base ZList StrSpec.
From Verif Require ScriptModel.
Open Scope Z_scope.

Inductive tval := TText (t : chars) | TList (l : list positive).
Definition elems (v : tval) : list positive := match v with TText _ => [] | TList l => l end.
Record tob := Tob { t_rc : Z; t_val : tval }.
(** What holds one reference: the result of an interpreter, or a variable of it. *)
Notation slot := (Z * option chars)%type.
Record tst := Tst {
  t_heap : gmap positive tob;
  t_next : positive;
  t_slots : gmap slot positive;
  t_held : list positive        (* by running scripts: words of commands, temporary values *)
}.
Notation Mt := (M tst).
Definition up_heap h s := Tst h (t_next s) (t_slots s) (t_held s).
Definition up_slots m s := Tst (t_heap s) (t_next s) m (t_held s).
Definition up_held l s := Tst (t_heap s) (t_next s) (t_slots s) l.
Definition tput (f : tst -> tst) : Mt unit := fun s => Ok tt (f s).
Definition tget {A} (f : tst -> A) : Mt A := fun s => Ok (f s) s.

(** Tcl. *)
Definition look (o : positive) : Mt tob := fun s => match t_heap s !! o with Some ob => Ok ob s | None => Undef UbFreed end.
Definition set_ob (o : positive) (ob : tob) : Mt unit := tput (fun s => up_heap (<[o := ob]> (t_heap s)) s).
(** Tcl_NewStringObj, Tcl_NewIntObj, ..., Tcl_NewListObj. *)
Definition tnew (v : tval) : Mt positive := fun s =>
  Ok (t_next s) (Tst (<[t_next s := Tob 0 v]> (t_heap s)) (Pos.succ (t_next s)) (t_slots s) (t_held s)).
Definition tincr (o : positive) : Mt unit := let* ob := look o in set_ob o (Tob (t_rc ob + 1) (t_val ob)).
(** Tcl_DecrRefCount of each: an object that is freed gives up its references. *)
Fixpoint tdrop (fuel : nat) (ws : list positive) : Mt unit :=
  match ws with
  | [] => ret tt
  | o :: ws' =>
    match fuel with
    | O => fun _ => Fuel
    | S fuel' =>
      let* ob := look o in
      if t_rc ob <=? 1 then
        tput (fun s => up_heap (delete o (t_heap s)) s) ;;; tdrop fuel' (elems (t_val ob) ++ ws')
      else set_ob o (Tob (t_rc ob - 1) (t_val ob)) ;;; tdrop fuel' ws'
    end
  end.
Definition cells (h : gmap positive tob) : list positive := flat_map (fun p => elems (t_val (snd p))) (map_to_list h).
Definition tdecr (ws : list positive) : Mt unit := fun s => tdrop (length ws + length (cells (t_heap s))) ws s.
(** Tcl_ListObjAppendElement to an object that is not shared. *)
Definition tappend (l : positive) (e : option positive) : Mt unit :=
  match e with
  | None => undef UbNull
  | Some e =>
    tincr e ;;;
    let* ob := look l in
    match t_val ob with
    | TText _ => undef UbBounds
    | TList es => set_ob l (Tob (t_rc ob) (TList (es ++ [e])))
    end
  end.
Definition tslot (k : slot) : Mt (option positive) := tget (fun s => t_slots s !! k).
Definition opt_list (o : option positive) : list positive := match o with Some o => [o] | None => [] end.
(** A new reference in a slot; the old one goes. Tcl_SetObjResult is this. *)
Definition tstore (k : slot) (o : option positive) : Mt unit :=
  match o with
  | None => undef UbNull
  | Some o =>
    tincr o ;;;
    let* old := tslot k in
    tput (fun s => up_slots (<[k := o]> (t_slots s)) s) ;;;
    tdecr (opt_list old)
  end.
(** Tcl_SetVar2: the variable gets an object of its own. *)
Definition tset_var (i : Z) (n t : chars) : Mt unit := let* o := tnew (TText t) in tstore (i, Some n) (Some o).

Section Lib.
Variable rep : list chars -> chars.   (* the text of a list, of those of its elements *)
(** Tcl_GetStringFromObj. *)
Fixpoint texts (g : positive -> Mt chars) (es : list positive) : Mt (list chars) :=
  match es with [] => ret [] | e :: es' => let* t := g e in let* ts := texts g es' in ret (t :: ts) end.
Fixpoint text_of (fuel : nat) (o : positive) : Mt chars :=
  match fuel with
  | O => fun _ => Fuel
  | S fuel' =>
    let* ob := look o in
    match t_val ob with TText t => ret t | TList es => let* ts := texts (text_of fuel') es in ret (rep ts) end
  end.
Definition string_of (o : positive) : Mt chars := fun s => text_of (S (length (map_to_list (t_heap s)))) o s.

(** C++ values: numbers and truth values by their text; Strings; arrays of them. *)
Inductive cvalue := CText (t : chars) | CString (t : chars) | CStrings (l : list chars) | CStringss (l : list (list chars)).
(** c_to_tcl_cast<const String&>, ScriptInterpTCL.h:434-438. *)
Definition string_to_tcl (t : chars) : Mt (option positive) :=
  if zlen t <? 2147483647 then let* o := tnew (TText t) in ret (Some o) else ret None.
(** c_to_tcl_cast<const Array<String>&> and its loop, ScriptInterpTCL.cpp:131-141. *)
Fixpoint append_all (o : positive) (l : list chars) : Mt unit :=
  match l with [] => ret tt | t :: l' => let* e := string_to_tcl t in tappend o e ;;; append_all o l' end.
Definition strings_to_tcl (l : list chars) : Mt (option positive) := let* o := tnew (TList []) in append_all o l ;;; ret (Some o).
(** c_to_tcl_cast<const Array<Array<String>>&>, ScriptInterpTCL.cpp:143-153. *)
Fixpoint append_alls (o : positive) (l : list (list chars)) : Mt unit :=
  match l with [] => ret tt | t :: l' => let* e := strings_to_tcl t in tappend o e ;;; append_alls o l' end.
Definition to_tcl (v : cvalue) : Mt (option positive) :=
  match v with
  | CText t => let* o := tnew (TText t) in ret (Some o)    (* ScriptInterpTCL.h:389-432, 445-448 *)
  | CString t => string_to_tcl t
  | CStrings l => strings_to_tcl l
  | CStringss l => let* o := tnew (TList []) in append_alls o l ;;; ret (Some o)
  end.
(** The end of a command: the value returned (ScriptInterpTCLCallbacks.h:12-18), a message (ScriptInterpTCL.cpp:78-80, 87-93),
    or nothing for void (ScriptInterpTCLCallbacks.h:25-28). *)
Definition finish (i : Z) (v : option cvalue) : Mt unit :=
  match v with Some v => let* o := to_tcl v in tstore (i, None) o | None => ret tt end.
(** tcl_traceGet and the others with TraceGet, ScriptInterpTCL.h:206-227, ScriptInterpTCL.cpp:113-121. *)
Definition trace_get (i : Z) (n : chars) (v : cvalue) : Mt unit :=
  let* o := to_tcl v in
  match o with
  | Some o => let* t := string_of o in tset_var i n (ScriptModel.upto_nul t) ;;; tdecr [o]
  | None => ret tt
  end.
(** TraceSet, ScriptInterpTCL.cpp:123-129, and the conversion of what it returns, ScriptInterpTCL.h:229-239. *)
Definition trace_set (i : Z) (n : chars) : Mt (option chars) :=
  let* no := string_to_tcl n in
  match no with
  | None => undef UbNull
  | Some no =>
    let* value := tslot (i, Some n) in
    tdecr [no] ;;;
    match value with Some o => let* t := string_of o in ret (Some t) | None => ret None end
  end.
(** An argument of a command, ScriptInterpTCLCallbacks.h:49-52, and the result after eval, ScriptInterpTCL.cpp:41-48. *)
Definition argument (o : positive) : Mt chars := string_of o.
Definition result (i : Z) : Mt (option chars) :=
  let* o := tslot (i, None) in
  match o with Some o => let* t := string_of o in ret (Some t) | None => ret None end.

(** What scripts do: make an object, take and drop references, set and unset variables and results; an interpreter ends. *)
Fixpoint append_held (o : positive) (es : list positive) : Mt unit :=
  match es with [] => ret tt | e :: es' => tappend o (Some e) ;;; append_held o es' end.
Definition hold_again (o : positive) : Mt unit := tincr o ;;; tput (fun s => up_held (o :: t_held s) s).
Definition hold_new (v : tval) : Mt positive :=
  let* o := match v with TText _ => tnew v | TList es => let* o := tnew (TList []) in append_held o es ;;; ret o end in
  hold_again o ;;; ret o.
Fixpoint remove1 (o : positive) (l : list positive) : list positive :=
  match l with [] => [] | x :: l' => if Pos.eqb x o then l' else x :: remove1 o l' end.
Definition release (o : positive) : Mt unit := tput (fun s => up_held (remove1 o (t_held s)) s) ;;; tdecr [o].
Definition clear_slot (k : slot) : Mt unit :=
  let* o := tslot k in tput (fun s => up_slots (delete k (t_slots s)) s) ;;; tdecr (opt_list o).
End Lib.
