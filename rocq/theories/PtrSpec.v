(** Pointers into a buffer while a program runs: which calls a pointer obtained from [x] survives. *)
From Verif Require Import RcaSpec RcaModel RcaExec.
Open Scope Z_scope.

Section Ptr.
Context {T : Type} (d : desc T).
(** A program that catches exceptions; None: it was terminated, or its behaviour is undefined. *)
Fixpoint goes (ops : list (op T)) (s : state T) : option (state T) :=
  match ops with
  | [] => Some s
  | o :: ops' => match exec d o s with Ok _ s' | Exn _ s' => goes ops' s' | _ => None end
  end.
(** Calls that may change [x] other than by taking elements off its ends, or that call for a buffer of its own. *)
Definition disturbs (o : op T) (x : positive) : Prop :=
  match o with
  | CtorMove _ y => x = y
  | Destroy y | AssignCopy y _ | AssignList y _ | AssignStd y _ | Clear y | Resize y _ | ResizeFill y _ _ | ReserveIfOwn y _
  | AppendItem y _ | InsertItem y _ _ | InsertRange y _ _ | InsertCstr y _ _ _ | ReplaceItem y _ _ | ReplaceCstr y _ _ _
  | Write y _ _ | BeginMut y | Shift y | Pop y | CStr _ y => x = y
  | AssignMove y z | Swap y z => x = y \/ x = z
  | InsertN mv y _ z _ | InsertAll mv y _ z | AppendN mv y z _ | ReplaceN mv y _ z _ => x = y \/ (mv = true /\ x = z)
  | _ => False
  end.
End Ptr.
