(** An array used as a stack or as a queue: which elements its calls move (src/ReferenceCountedArray.h, src/Array.h:107-133). *)
From Verif Require Import Base RcaSpec RcaModel RcaExec GrowModel.
Open Scope Z_scope.

(** Rounds of [take] (shift(), Array.h:107-116, or pop(), Array.h:128-133) followed by push_back(v); gives the number of elements that push_back moved inside the
    array when every call returns. shift() and pop() move no element but the one they return. *)
Fixpoint rounds {T} (d : desc T) (take : var -> op T) (x : var) (vs : list T) (s : state T) : option (state T * Z) :=
  match vs with
  | [] => Some (s, 0)
  | v :: vs' =>
    match exec d (take x) s with
    | Ok _ s1 =>
      match exec d (AppendItem x v) s1 with
      | Ok _ s2 => match rounds d take x vs' s2 with Some (s3, m) => Some (s3, append_moves d x s1 + m) | None => None end
      | _ => None
      end
    | _ => None
    end
  end.
