(** Cost of appending: which elements are moved by the calls of RcaModel (src/ReferenceCountedArray.h). *)
From Verif Require Import Base RcaSpec RcaModel RcaExec.
Open Scope Z_scope.

(** Elements moved by append(item) when called in [s]: COW copies all of them (390-391), growth moves them to the new buffer (93-104), a lack of
    room behind a full offset moves them to the front (111-116); the String override asks for one more (String.h:139). *)
Definition append_moves {T} (d : desc T) (x : var) (s : state T) : Z :=
  match st_env s !! x with
  | None => 0
  | Some o =>
    match o_ref o with
    | None => 0
    | Some l =>
      match st_heap s !! l with
      | None => 0
      | Some c =>
        let need := match d_nul d with None => o_len o + 1 | Some _ => o_len o + 2 end in
        if 1 <? c_refs c then o_len o
        else if zlen (c_buf c) <? need then (if zlen (c_buf c) =? 0 then 0 else o_len o)
        else if zlen (c_buf c) - o_off o <? need then o_len o
        else 0
      end
    end
  end.
(** Appending one by one; gives the number of elements moved when every call returns. *)
Fixpoint append_all {T} (d : desc T) (x : var) (vs : list T) (s : state T) : option (state T * Z) :=
  match vs with
  | [] => Some (s, 0)
  | v :: vs' =>
    match exec d (AppendItem x v) s with
    | Ok _ s1 => match append_all d x vs' s1 with Some (s2, m) => Some (s2, append_moves d x s + m) | None => None end
    | _ => None
    end
  end.
Definition total {T} (l : list (list T)) : Z := fold_right (fun b n => zlen b + n) 0 l.
