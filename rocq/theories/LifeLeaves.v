(** What is said about the elements an array shows after a call on it that returned. *)
From Verif Require Import LifeModel.
Open Scope Z_scope.

Section Leaves.
Context {V : Type}.
(** [x] showed [w] before the call and shows [w'] after it. No claim is made about the calls not listed. *)
Definition leaves (o : eop (V := V)) (x : var) (w w' : list (slot V)) : Prop :=
  match o with
  | EInsert y pos v => x = y /\ w' = ztake pos w ++ [Live (Some v)] ++ zdrop pos w
  | EInsertRange y pos vs => x = y /\ w' = ztake pos w ++ map (fun v => Live (Some v)) vs ++ zdrop pos w
  | EWrite y pos v | EReplace y pos v => x = y /\ w' = ztake pos w ++ [Live (Some v)] ++ zdrop (pos + 1) w
  | EShift y => x = y /\ w' = zdrop 1 w
  | EPop y => x = y /\ w' = ztake (zlen w - 1) w
  | ESlice y a n => x = y /\ w' = zsub a n w
  | EResize y n => x = y /\ zlen w' = n /\ ztake (Z.min n (zlen w)) w' = ztake n w
  | _ => False
  end.
(** The array a listed call is made on. *)
Definition edits (o : eop (V := V)) : option var :=
  match o with
  | EInsert x _ _ | EInsertRange x _ _ | EWrite x _ _ | EReplace x _ _ | EShift x | EPop x | ESlice x _ _ | EResize x _ => Some x
  | _ => None
  end.

(** What [x] shows after it was given the elements of a list or of another array; [shows] tells what arrays show before the call.
    Inserting at the start of a shorter array loses its elements (C06_insert_refuted). *)
Definition gives (shows : var -> option (list (slot V))) (o : eop (V := V)) : option (var * list (slot V)) :=
  match o with
  | ECtorList x vs | EAssignList x vs => Some (x, map (fun v => Live (Some v)) vs)
  | ECtorCopy x y | ECtorMove x y | EAssign x y | EAssignMove x y => match shows y with Some w => Some (x, w) | None => None end
  | EInsertArray x pos y =>
      if Pos.eqb x y then None else
      match shows x, shows y with
      | Some w, Some u => Some (x, if (pos =? 0) && (zlen w <? zlen u) then u else ztake pos w ++ u ++ zdrop pos w)
      | _, _ => None
      end
  | EReplaceArray x pos y =>
      if Pos.eqb x y then None else
      match shows x, shows y with
      | Some w, Some u => Some (x, ztake pos w ++ u ++ zdrop (pos + zlen u) w)
      | _, _ => None
      end
  | _ => None
  end.
End Leaves.
