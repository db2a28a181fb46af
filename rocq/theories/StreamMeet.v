(** What it means for the Stream model to implement the byte list with a cursor. *)
From Verif Require Import RcaSpec RcaModel RcaExec RcaRel RcaMeet StreamSpec StreamModel.
Open Scope Z_scope.

Notation MS := (M (state Z * stream)).

(** Outcome predicates. *)
Definition wp {A} (m : MS A) (P : A -> state Z * stream -> Prop) (Q : exn -> state Z * stream -> Prop) (st : state Z * stream) : Prop :=
  match m st with
  | Ok v st' => P v st'
  | Exn e st' => Q e st'
  | _ => False
  end.
Section Meet.
Variable d : desc Z.
Variables x t : positive.
(** What is known while a stream is in use: its String is variable [x] with bytes [v], the cursor is
    [p], variable [t] is free for temporaries. *)
Record SR (s : state Z) (z : stream) (v : list Z) (p : Z) (a : astate Z) : Prop := {
  sr_str : s_str z = x;
  sr_pos : s_pos z = p;
  sr_range : 0 <= p < W64;
  sr_reached : RcaMeet.reached d s a;
  sr_val : exists r, a !! x = Some (AVal r (map Some v));
  sr_tmp : a !! t = None }.
(** Only the stream's own String differs. *)
Definition keeps (a a' : astate Z) : Prop := forall y, y <> x -> a' !! y = a !! y.
(** Memory for at most [k] bytes can be refused. *)
Definition memlow (k : Z) : Prop := exists n, n <= k /\ no_memory d n.
(** Bound for what a call asks for. *)
Definition extent (o : sop) (v : list Z) : Z := zlen v + (match o with SPuts _ w => zlen w | _ => 0 end) + 3.
(** What a call has to do. *)
Definition done_ok (a : astate Z) (b : bool) (v' : list Z) (p' : Z) (r : sout) : sout -> state Z * stream -> Prop :=
  fun r' '(s', z') => r' = r /\ s_load z' = b /\ exists a', SR s' z' v' p' a' /\ keeps a a'.
Definition fail_post (o : sop) (a : astate Z) (b : bool) (v : list Z) (p : Z) : exn -> state Z * stream -> Prop :=
  fun e '(s', z') => e = BadAlloc /\ memlow (extent o v) /\ s_load z' = b /\ exists v' p' a', fail_ok o v p v' p' /\ SR s' z' v' p' a' /\ keeps a a'.
Definition range_post (a : astate Z) (b : bool) (v : list Z) (p : Z) : exn -> state Z * stream -> Prop :=
  fun e '(s', z') => e = OutOfRange /\ s_load z' = b /\ exists a', SR s' z' v p a' /\ keeps a a'.


(** What the pieces are. *)
Inductive pieces (f : Z -> Z) (c : Z) : list Z -> list (list Z) -> Prop :=
| pc_nil : pieces f c [] []
| pc_cons rest ls : rest <> [] -> pieces f c (zdrop (zlen (piece (f (zlen rest)) c rest)) rest) ls -> pieces f c rest (piece (f (zlen rest)) c rest :: ls).
Definition get_size (g : sop) : Z -> Z := match g with SRead n _ => fun _ => n | SGetline n => fun k => if n =? 99999999 then k else n | _ => fun _ => 0 end.
Definition get_delim (g : sop) : Z := match g with SRead _ c => c | _ => 10 end.
Definition reads (g : sop) : Prop := match g with SRead n _ | SGetline n => 0 < n | _ => False end.

Variable fails : scall -> bool.
(** A system call that fails, or an empty file. *)
Definition load_fails (f : list Z) : bool := fails Lseek || fails MmapRead || (zlen f =? 0).
Definition write_fails (v : list Z) : bool := fails Ftruncate || (negb (zlen v =? 0) && (fails MmapWrite || fails Munmap)).
End Meet.
