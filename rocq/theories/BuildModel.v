(** A text or an array put together from pieces: what append(rca, n) and append(const char*, n) move (src/ReferenceCountedArray.h, src/String.h). *)
From Verif Require Import Base RcaSpec RcaModel RcaExec.
Open Scope Z_scope.

(** A piece: append(y, n), ReferenceCountedArray.h:1022-1024 (`x += y`, String.h:444-447: n = npos), or append(mem, n), String.h:384-386
    (`x += mem`, 436-439: n = npos). *)
Inductive piece (T : Type) :=
| Copied (y : var) (n : Z)
| Chars (mem : list T) (n : Z).
Arguments Copied {T}. Arguments Chars {T}.

Definition piece_n {T} (p : piece T) : Z := match p with Copied _ n | Chars _ n => n end.
(** length(), ReferenceCountedArray.h:667-669. *)
Definition len_of {T} (x : var) (s : state T) : Z := match st_env s !! x with Some o => o_len o | None => 0 end.
Definition add_op {T} (x : var) (p : piece T) (s : state T) : op T :=
  match p with Copied y n => AppendN false x y n | Chars mem n => InsertCstr x (len_of x s) mem n end.

(** Elements of [x] moved by AboutToModify(want) when called in [s]: COW copies all of them (ReferenceCountedArray.h:390-391), growth moves them to the new
    buffer (93-104), a lack of room behind the offset moves them to the front (111-116); the String override asks for one more unless want is 0 (String.h:139). *)
Definition grow_moves {T} (d : desc T) (x : var) (want : Z) (s : state T) : Z :=
  match st_env s !! x with
  | None => 0
  | Some o =>
    match o_ref o with
    | None => 0
    | Some l =>
      match st_heap s !! l with
      | None => 0
      | Some c =>
        let need := match d_nul d with None => want | Some _ => if 0 <? want then want + 1 else want end in
        if 1 <? c_refs c then o_len o
        else if zlen (c_buf c) <? need then (if zlen (c_buf c) =? 0 then 0 else o_len o)
        else if zlen (c_buf c) - o_off o <? need then o_len o
        else 0
      end
    end
  end.
(** Appending the pieces; gives the number of elements of [x] moved, besides those appended, when every call returns. A call with n = 0 returns
    at once (1062, String.cpp:119). *)
Fixpoint build {T} (d : desc T) (x : var) (ps : list (piece T)) (s : state T) : option (state T * Z) :=
  match ps with
  | [] => Some (s, 0)
  | p :: ps' =>
    match exec d (add_op x p s) s with
    | Ok _ s1 =>
      match build d x ps' s1 with
      | Some (s2, m) => Some (s2, (if piece_n p =? 0 then 0 else grow_moves d x (len_of x s1) s) + m)
      | None => None
      end
    | _ => None
    end
  end.
