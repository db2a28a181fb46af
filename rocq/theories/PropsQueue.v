(** C81: what it costs to use an array as a stack or as a queue. Every theorem is closed by a lemma of QueueRun; examples beside them. [rounds d take x vs s]: for each
    [v] of [vs] in turn, [take] (shift or pop) and push_back(v); gives the memory afterwards and the number of elements moved inside the array, if every call
    returns. [st_tick] counts the allocations asked for, [st_freed] lists the buffers released. [rcount] and [capacity] are what the array answers. *)
From Verif Require Import Base RcaSpec RcaModel RcaExec RcaOwn RcaMeet RcaReach RcaEx GrowModel QueueModel QueueRun.
Open Scope Z_scope.
Ltac run := vm_compute; reflexivity.
(** Elements of a class; memory is refused from the third request on. *)
Definition qdesc : desc Z := Desc true 0 None (fun z => z) Z.eqb grow15 (fun k => Nat.leb 2 k) true.
Definition q_nums (n : nat) : list Z := map Z.of_nat (seq 5 n).
(** Four elements with no room, and four with room for ten. *)
Definition q_tight : list (op Z) := [CtorList 1 [1; 2; 3; 4]].
Definition q_roomy : list (op Z) := [CtorSized 1 10; AppendItem 1 1; AppendItem 1 2; AppendItem 1 3; AppendItem 1 4].
Definition q_at (d : desc Z) (x : var) (r : option (state Z * Z)) : option (list (option Z)) :=
  match r with Some (s, _) => match length_of x s with Ok n s => match load x 0 n s with Ok l _ => Some l | _ => None end | _ => None end | None => None end.

(** C81: a queue: the calls return though memory is refused, no buffer is asked for or released; the array holds what was put in last, in order; no other
    object changes; and the number of elements moved is exactly this, where [off] is the number of slots free in front. *)
Theorem C81_queue : forall T (d : desc T), wf_desc d -> d_nul d = None -> forall x l s a r cap vs,
  reached d s a -> a !! x = Some (AVal r (map Some l)) -> l <> [] -> rcount x s = Ok 1 s -> capacity x s = Ok cap s -> cap < max_alloc ->
  exists s' m a' r' off, rounds d Shift x vs s = Some (s', m) /\ reached d s' a' /\ a' !! x = Some (AVal r' (map Some (zdrop (zlen vs) (l ++ vs)))) /\ (forall y, y <> x -> a' !! y = a !! y) /\
    0 <= off <= cap - zlen l /\ m = (zlen l - 1) * ((off + zlen vs) / (cap - zlen l + 1)) /\ st_tick s' = st_tick s /\ st_freed s' = st_freed s /\ capacity x s' = Ok cap s'.
Proof. exact @queue_all. Qed.
Print Assumptions C81_queue.
Example C81_queue_ex : wf_desc qdesc /\ d_nul qdesc = None /\ reached qdesc (st qdesc q_roomy) (av qdesc q_roomy) /\ av qdesc q_roomy !! 1%positive = Some (AVal true (map Some [1; 2; 3; 4])) /\
  rcount 1 (st qdesc q_roomy) = Ok 1 (st qdesc q_roomy) /\ capacity 1 (st qdesc q_roomy) = Ok 10 (st qdesc q_roomy) /\
  option_map snd (rounds qdesc Shift 1 (q_nums 100) (st qdesc q_roomy)) = Some 42 /\ (4 - 1) * ((0 + 100) / (10 - 4 + 1)) = 42 /\
  q_at qdesc 1 (rounds qdesc Shift 1 (q_nums 100) (st qdesc q_roomy)) = Some (map Some [101; 102; 103; 104]).
Proof. split; [discriminate|]. split; [reflexivity|]. split; [apply run_reached|]. repeat match goal with |- _ /\ _ => split end; run. Qed.

(** C81: a queue in an array that is exactly full moves all elements but one in every round. *)
Theorem C81_queue_full : forall T (d : desc T), wf_desc d -> d_nul d = None -> forall x l s a r vs,
  reached d s a -> a !! x = Some (AVal r (map Some l)) -> l <> [] -> rcount x s = Ok 1 s -> capacity x s = Ok (zlen l) s -> zlen l < max_alloc ->
  exists s', rounds d Shift x vs s = Some (s', zlen vs * (zlen l - 1)).
Proof. exact @queue_full_all. Qed.
Print Assumptions C81_queue_full.
Example C81_queue_full_ex : reached qdesc (st qdesc q_tight) (av qdesc q_tight) /\ av qdesc q_tight !! 1%positive = Some (AVal true (map Some [1; 2; 3; 4])) /\
  rcount 1 (st qdesc q_tight) = Ok 1 (st qdesc q_tight) /\ capacity 1 (st qdesc q_tight) = Ok 4 (st qdesc q_tight) /\
  option_map snd (rounds qdesc Shift 1 (q_nums 100) (st qdesc q_tight)) = Some 300 /\ q_at qdesc 1 (rounds qdesc Shift 1 (q_nums 100) (st qdesc q_tight)) = Some (map Some [101; 102; 103; 104]).
Proof. split; [apply run_reached|]. repeat match goal with |- _ /\ _ => split end; run. Qed.

(** C81: a queue in an array with twice the room moves at most one element for each one put in, and those it had. *)
Theorem C81_queue_roomy : forall T (d : desc T), wf_desc d -> d_nul d = None -> forall x l s a r cap vs,
  reached d s a -> a !! x = Some (AVal r (map Some l)) -> l <> [] -> rcount x s = Ok 1 s -> capacity x s = Ok cap s -> cap < max_alloc -> 2 * zlen l <= cap ->
  exists s' m, rounds d Shift x vs s = Some (s', m) /\ m <= zlen l + zlen vs.
Proof. exact @queue_roomy_all. Qed.
Print Assumptions C81_queue_roomy.
Example C81_queue_roomy_ex : reached qdesc (st qdesc q_roomy) (av qdesc q_roomy) /\ capacity 1 (st qdesc q_roomy) = Ok 10 (st qdesc q_roomy) /\ 2 * zlen [1; 2; 3; 4] <= 10 /\
  option_map snd (rounds qdesc Shift 1 (q_nums 1000) (st qdesc q_roomy)) = Some 426.
Proof. split; [apply run_reached|]. split; [run|]. split; [discriminate|]. run. Qed.

(** C81: a stack: the calls return though memory is refused, and no element is moved but those taken and put. *)
Theorem C81_stack : forall T (d : desc T), wf_desc d -> d_nul d = None -> forall x l e s a r cap vs,
  reached d s a -> a !! x = Some (AVal r (map Some (l ++ [e]))) -> rcount x s = Ok 1 s -> capacity x s = Ok cap s -> cap < max_alloc ->
  exists s' a' r', rounds d Pop x vs s = Some (s', 0) /\ reached d s' a' /\ a' !! x = Some (AVal r' (map Some (l ++ [List.last vs e]))) /\ (forall y, y <> x -> a' !! y = a !! y) /\
    st_tick s' = st_tick s /\ st_freed s' = st_freed s.
Proof. exact @stack_all. Qed.
Print Assumptions C81_stack.
Example C81_stack_ex : reached qdesc (st qdesc q_tight) (av qdesc q_tight) /\ av qdesc q_tight !! 1%positive = Some (AVal true (map Some ([1; 2; 3] ++ [4]))) /\
  option_map snd (rounds qdesc Pop 1 (q_nums 100) (st qdesc q_tight)) = Some 0 /\ q_at qdesc 1 (rounds qdesc Pop 1 (q_nums 100) (st qdesc q_tight)) = Some (map Some [1; 2; 3; 104]).
Proof. split; [apply run_reached|]. repeat match goal with |- _ /\ _ => split end; run. Qed.
