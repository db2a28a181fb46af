(** The registry as a map from names to the interpreter and function registered last. *)
From Verif Require Import Base StrSpec StrModel RegModel.
From stdpp Require Import gmap.
Open Scope Z_scope.

Record areg := AReg { a_map : gmap chars (Z * (Z * Z * Z)); a_live : gmap Z unit; a_log : list event }.
Definition areg_init : areg := AReg ∅ ∅ [].
Definition alog (e : event) (a : areg) : areg := AReg (a_map a) (a_live a) (e :: a_log a).
(** None: an operation on an interpreter that does not exist, or creation of one that does. *)
Definition alive {A} (i : Z) (a : areg) (r : option A) : option A := match a_live a !! i with Some _ => r | None => None end.
Fixpoint astep (o : rop) (a : areg) : option areg :=
  match o with
  | OpNew i => match a_live a !! i with Some _ => None | None => Some (AReg (a_map a) (<[i := tt]> (a_live a)) (a_log a)) end
  | OpDestroy i => alive i a (Some (AReg ∅ (delete i (a_live a)) (a_log a)))
  | OpCreate i n f mn mx => alive i a (Some (AReg (<[n := (i, (f, mn, mx))]> (a_map a)) (a_live a) (a_log a)))
  | OpDelete i n => alive i a (Some (AReg (delete n (a_map a)) (a_live a) (a_log a)))
  | OpCall i n k body =>
    alive i a
      match a_map a !! n with
      | Some (j, (f, mn, mx)) =>
        if negb (j =? i) then Some (alog (Unknown i n) a)
        else if (k <? mn) || (mx <? k) then Some (alog (Refused i n f) a)
        else (fix go l a := match l with [] => Some a | o :: l' => match astep o a with Some a' => go l' a' | None => None end end) body (alog (Ran i n f) a)
      | None => Some (alog (Unknown i n) a)
      end
  | OpProc _ _ | OpRename _ _ _ => None
  end.
Fixpoint aexec (l : list rop) (a : areg) : option areg :=
  match l with [] => Some a | o :: l' => match astep o a with Some a' => aexec l' a' | None => None end end.

(** Names Tcl and the table agree on. *)
Definition plain (n : chars) : Prop := ~ In 0 n /\ match n with 58 :: 58 :: _ => False | _ => True end.
(** A function does not create or delete a command that is running, nor destroy an interpreter. [run]: the commands running. *)
Fixpoint gentle (run : list chars) (o : rop) : Prop :=
  match o with
  | OpNew _ => True
  | OpDestroy _ => run = []
  | OpCreate _ n _ _ _ => plain n /\ ~ In n run
  | OpDelete _ n => plain n /\ ~ In n run
  | OpCall _ n _ body => plain n /\ (fix all l := match l with [] => True | o :: l' => gentle (n :: run) o /\ all l' end) body
  | OpProc _ _ | OpRename _ _ _ => False
  end.
Fixpoint all_gentle (run : list chars) (l : list rop) : Prop := match l with [] => True | o :: l' => gentle run o /\ all_gentle run l' end.

(** One interpreter, commands created and deleted: what was done last about a name. *)
Definition flat (i : Z) (o : rop) : Prop :=
  match o with OpCreate j n _ _ _ => j = i /\ plain n | OpDelete j n => j = i /\ plain n | _ => False end.
Fixpoint last_about (n : chars) (l : list rop) (before : option (Z * Z * Z)) : option (Z * Z * Z) :=
  match l with
  | [] => before
  | OpCreate _ m f mn mx :: l' => last_about n l' (if decide (m = n) then Some (f, mn, mx) else before)
  | OpDelete _ m :: l' => last_about n l' (if decide (m = n) then None else before)
  | _ :: l' => last_about n l' before
  end.
