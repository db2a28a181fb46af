(** C77: algorithms over iterators. *)
From stdpp Require Import gmap.
From Verif Require Import RcaSpec RcaModel RcaExec RcaOwn RcaMeet RcaEx IterSpec IterModel IterMeet IterProof IterMove.
Open Scope Z_scope.
Ltac run_ := vm_compute; first [reflexivity|split; reflexivity].
Ltac here := lazymatch goal with
  | |- _ /\ _ => split; here
  | |- reached _ _ _ => apply run_reached
  | |- wf_desc sdesc => apply sdesc_wf
  | |- wf_desc kdesc => apply kdesc_wf
  | _ => run_
  end.
(** String 1 and its copies 2 and 3, [3] a slice of it; 4 another. *)
Definition s0 := st sdesc prog_s. Definition a0 := av sdesc prog_s.

(** Any algorithm that reads the ranges of some arrays, forwards or backwards, computes what it computes on the lists of
    their elements; nothing is copied, nothing changes and nothing is thrown. *)
Theorem C77_reads : forall (T A : Type) (d : desc T) s a ys ws (p : list Z -> alg T A) res v', wf_desc d -> reached d s a -> shown a ys ws ->
  on_lists ws [] (p (map zlen ws)) = Some (res, v') -> call_const ys p s = Ok res s.
Proof. exact @call_const_ok. Qed.
Print Assumptions C77_reads.
(** One that writes the range of [x], forwards or backwards, while reading ranges of other arrays - copies and slices of [x]
    included: [x] ends up with the elements the algorithm leaves in a list, and no other array is touched. *)
Theorem C77_writes : forall (T A : Type) (d : desc T) s a ys ws x r v back (p : list Z -> Z -> alg T A) res v', wf_desc d -> reached d s a -> shown a ys ws ->
  a !! x = Some (AVal r v) -> (forall y b, In (y, b) ys -> y <> x) -> on_lists ws (turn back v) (p (map zlen ws) (zlen v)) = Some (res, v') ->
  ends d s a x v (call_own d ys x back p) res (turn back v').
Proof. exact @call_own_ok. Qed.
Print Assumptions C77_writes.
(** One that also moves elements out, as std::sort and std::rotate do, reads none while it is moved from, and in the end has
    put a value back everywhere. *)
Theorem C77_moves : forall (T A : Type) (d : desc T) s a ys ws x r v back (p : list Z -> Z -> malg T A) res v', wf_desc d -> reached d s a -> shown a ys ws ->
  a !! x = Some (AVal r v) -> (forall y b, In (y, b) ys -> y <> x) -> on_mlists ws (turn back v) (p (map zlen ws) (zlen v)) = Some (res, v') -> ~ In None v' ->
  ends d s a x v (call_move d ys x back p) res (turn back v').
Proof. exact @call_move_ok. Qed.
Print Assumptions C77_moves.
(** Walking a range gives the elements in order, walking it backwards the reverse. *)
Theorem C77_traverse : forall (T : Type) (d : desc T) s a y r es back, wf_desc d -> reached d s a -> a !! y = Some (AVal r (map Some es)) ->
  call_const [(y, back)] (fun ns => collect (Z.to_nat (hd 0 ns)) 0 []) s = Ok (if back then rev es else es) s.
Proof. exact @traverse_ok. Qed.
Print Assumptions C77_traverse.
(** Applying a function to every element in place, in either direction. *)
Theorem C77_transform : forall (T : Type) (d : desc T) s a x r es f back, wf_desc d -> reached d s a -> a !! x = Some (AVal r (map Some es)) ->
  ends d s a x (map Some es) (call_own d [] x back (fun _ n => transform f (Z.to_nat n) 0)) tt (map Some (map f es)).
Proof. exact @transform_call. Qed.
Print Assumptions C77_transform.
(** Copying one array over another of the same length; with one of the two walked backwards it arrives reversed. *)
Theorem C77_copy : forall (T : Type) (d : desc T) s a x y r es r' vs back back', wf_desc d -> reached d s a -> a !! x = Some (AVal r (map Some vs)) ->
  a !! y = Some (AVal r' (map Some es)) -> x <> y -> length vs = length es ->
  ends d s a x (map Some vs) (call_own d [(y, back')] x back (fun _ n => copy (Z.to_nat n) 0)) tt (map Some (if xorb back back' then rev es else es)).
Proof. exact @copy_xor. Qed.
Print Assumptions C77_copy.

(** Sorting "hello", whose buffer is shared, in place and backwards; the copies keep their text. *)
Example C77_ex : wf_desc sdesc /\ reached sdesc s0 a0 /\ a0 !! 1%positive = Some (AVal true (map Some hello)) /\ is_shared 1 s0 = Ok true s0 /\
  on_lists [] (map Some hello) (sort_from Z.leb (Z.to_nat (zlen hello) - 1) 1) = Some (tt, map Some [101; 104; 108; 108; 111]) /\
  match call_own sdesc [] 1 false (fun _ n => sort_from Z.leb (Z.to_nat n - 1) 1) s0 with Ok _ s => content_is 1 s [101; 104; 108; 108; 111] /\ content_is 2 s hello | _ => False end /\
  match call_own sdesc [] 1 true (fun _ n => sort_from Z.leb (Z.to_nat n - 1) 1) s0 with Ok _ s => content_is 1 s [111; 108; 108; 104; 101] /\ content_is 2 s hello | _ => False end.
Proof. here. Qed.
(** "hello" reversed through a copy that shares its buffer. *)
Example C77_copy_ex : a0 !! 2%positive = Some (AVal true (map Some hello)) /\
  match call_own sdesc [(2%positive, true)] 1 false (fun _ n => copy (Z.to_nat n) 0) s0 with Ok _ s => content_is 1 s (rev hello) /\ content_is 2 s hello | _ => False end /\
  call_const [(1%positive, true)] (fun ns => collect (Z.to_nat (hd 0 ns)) 0 []) s0 = Ok (rev hello) s0.
Proof. here. Qed.

(** An array of class type, sorted by moving its elements. *)
Example C77_moves_ex : wf_desc kdesc /\ reached kdesc (st kdesc prog_k) (av kdesc prog_k) /\ av kdesc prog_k !! 1%positive = Some (AVal true (map Some hello)) /\
  on_mlists [] (map Some hello) (msort_from Z.leb (Z.to_nat (zlen hello) - 1) 1) = Some (tt, map Some [101; 104; 108; 108; 111]) /\
  match call_move kdesc [] 1 false (fun _ n => msort_from Z.leb (Z.to_nat n - 1) 1) (st kdesc prog_k) with Ok _ s => content_is 1 s [101; 104; 108; 108; 111] | _ => False end /\
  match call_move kdesc [] 1 false (fun _ n => MTake 0 (fun e => MOwn 0 (fun e' => MDone e'))) (st kdesc prog_k) with Undef UbIndet => True | _ => False end.
Proof. here. Qed.

(** [x] itself must not be among the ranges read: const iterators taken before begin() keep reading the old buffer. If it is
    shared they miss what is written; if it is replaced they dangle. *)
Definition tight : list (op Z) := [CtorList 1 hello].
Definition echo : list Z -> Z -> alg Z Z := fun _ _ => Put 0 120 (Get 0 0 (fun e => Done e)).
Theorem C77_self_refuted : exists s1 a1 s2 a2 s3 a3,
  reached sdesc s1 a1 /\ match call_own sdesc [(4%positive, false)] 4 false echo s1 with Ok e _ => e = 120 | _ => False end /\
  reached sdesc s2 a2 /\ match call_own sdesc [(1%positive, false)] 1 false echo s2 with Ok e _ => e = 104 | _ => False end /\
  reached sdesc s3 a3 /\ call_own sdesc [(1%positive, false)] 1 false echo s3 = Undef UbFreed.
Proof. exists s0, a0, s0, a0, (st sdesc tight), (av sdesc tight). here. Qed.
Print Assumptions C77_self_refuted.
