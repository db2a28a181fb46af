(** C52, C53: the lifetimes of elements that are objects, and what exceptions leave behind. *)
From Coq Require Import Lia.
From Verif Require Import LifeModel LifeSpec LifeLeaves LifeThm LifeFill LifeKeep LifeShow LifeEx.
From stdpp Require Import gmap.
Open Scope Z_scope.
Ltac run := vm_compute; reflexivity.

(** Examples: a program of proper calls whose type never throws, or throws at given attempts. *)
Ltac proper_quiet := apply (proper_allb_ok true); [reflexivity|run].
Ltac proper_throwing := apply (proper_allb_ok false); [discriminate|run].
(** The state a program ends in; [e_init] if it does not. *)
Definition ends (t : ety Z) (ops : list eop) : estate Z := match erun t ops e_init with Ok _ s => s | _ => e_init end.
Definition okb (r : res (estate Z) unit) : bool := match r with Ok _ _ => true | _ => false end.
Definition exnb (r : res (estate Z) unit) : bool := match r with Exn _ _ => true | _ => false end.
Definition lives (l : list Z) : option (list (slot Z)) := Some (map (fun v => Live (Some v)) l).
Lemma ends_reached q t ops : (q = true -> t = never t) -> proper_allb q t ops e_init = true -> okb (erun t ops e_init) = true -> reached t (ends t ops).
Proof.
  intros Hq Hp Hk. exists ops. split; [exact (proper_allb_ok q t ops Hq _ Hp)|]. unfold ends.
  destruct (erun t ops e_init) as [[]| | | |]; [reflexivity|discriminate..].
Qed.

Lemma eruns_ends t ops : okb (eruns t ops e_init) = true -> eruns t ops e_init = Ok tt (ends t ops).
Proof.
  unfold ends. generalize (@e_init Z) at 1 2 3 as s. induction ops as [|o ops IH]; intros s; cbn [eruns erun]; [reflexivity|].
  destruct (eexec t o s) as [[]| | | |]; [auto|discriminate..].
Qed.
Lemma alone_only (s : estate Z) x : forallb (fun p => Pos.eqb (fst p) x) (map_to_list (e_env s)) = true -> alone s x.
Proof.
  intros H y a b _ Hb _ _. rewrite forallb_forall in H. specialize (H (y, b)). apply Pos.eqb_eq, H.
  apply elem_of_list_In, elem_of_map_to_list, Hb.
Qed.
Ltac no_arrays := apply map_to_list_empty_iff; run.

(** C52: whatever a program does with Arrays of objects and whatever throws meanwhile, no element is constructed over another, used or
    destroyed when it does not exist, or destroyed twice; constructions match destructions but for the elements in buffers and those lost. *)
Theorem C52_safe : forall {V} (t : ety V) ops, proper_all t ops e_init -> exists s, erun t ops e_init = Ok tt s /\ balanced s.
Proof. intros V. exact program_safe. Qed.
Print Assumptions C52_safe.
Definition life0 : list eop :=
  [ECtorList va [5; 6; 7]; ECtorCopy vb va; EInsert va 1 9; EShift vb; EInsert vb 2 4; EInsertArray va 0 vb; EResize va 8;
   ESlice vb 1 1; EReplaceArray va 2 vb; EAssign vb va; EPop va; EWrite va 0 3; EClear vb; EDestroy va; EDestroy vb].
Definition throws2 (k : nat) : bool := Nat.eqb k 17 || Nat.eqb k 45.
Definition tallies (s : estate Z) := (e_built s, e_killed s, e_lost s).
Example C52_safe_ex : proper_all tq life0 e_init /\ proper_all (tz true throws2) life0 e_init /\ proper_all (tz false throws2) life0 e_init /\
  tallies (ends tq life0) = (38, 38, []) /\ tallies (ends (tz true throws2) life0) = (34, 34, []) /\ tallies (ends (tz false throws2) life0) = (32, 29, [Some 0; Some 0; Some 0]).
Proof. split; [proper_quiet|]. split; [proper_throwing|]. split; [proper_throwing|]. repeat split; run. Qed.

(** C52: every element an array shows exists. *)
Theorem C52_window : forall {V} (t : ety V) s y, reached t s -> usable s y ->
  exists a w, e_env s !! y = Some a /\ view s y = Some w /\ zlen w = o_len a /\ forall p, In p w -> p <> Raw.
Proof. intros V. exact window_live. Qed.
Print Assumptions C52_window.
Example C52_window_ex : let s := ends (tz false throws2) (firstn 13 life0) in
  reached (tz false throws2) s /\ usable s va /\ view s va = lives [3; 7; 7; 5; 0].
Proof. split; [apply (ends_reached false); [discriminate|run|run]|]. split; [apply usableb_ok; run|run]. Qed.

(** C52: after insert, a write, replace, shift, pop, slicing or resize returns, the array shows the elements it showed with the edit made,
    whether or not its buffer was shared, copied or enlarged on the way. *)
Theorem C52_returned : forall {V} (t : ety V) o x s s' w, reached t s -> proper t o s -> edits o = Some x -> view s x = Some w ->
  eexec t o s = Ok tt s' -> exists w', view s' x = Some w' /\ leaves o x w w'.
Proof. intros V. exact returned. Qed.
Print Assumptions C52_returned.
Example C52_returned_ex : let s := ends tq [ECtorList va [5; 6; 7]; ECtorCopy vb va] in
  reached tq s /\ proper tq (EInsert va 1 9) s /\ edits (V := Z) (EInsert va 1 9) = Some va /\ view s va = lives [5; 6; 7] /\
  okb (eexec tq (EInsert va 1 9) s) = true /\ view (ends tq [ECtorList va [5; 6; 7]; ECtorCopy vb va; EInsert va 1 9]) va = lives [5; 9; 6; 7].
Proof. split; [apply (ends_reached true); [reflexivity|run|run]|]. split; [apply (properb_ok true); [reflexivity|run]|]. repeat split; run. Qed.

(** C52: after construction or assignment from a list or another array, and after inserting another array or replacing with one, returns,
    the array shows the elements it was given, at the position they were given for. *)
Theorem C52_given : forall {V} (t : ety V) o x s s' w, reached t s -> proper t o s -> gives (view s) o = Some (x, w) ->
  eexec t o s = Ok tt s' -> view s' x = Some w.
Proof. intros V. exact given. Qed.
Print Assumptions C52_given.
Example C52_given_ex : let s := ends tq [ECtorList va [5; 6; 7]; ECtorList vb [8; 9]] in
  reached tq s /\ proper tq (EInsertArray va 1 vb) s /\ gives (view s) (EInsertArray va 1 vb) = Some (va, map (fun v => Live (Some v)) [5; 8; 9; 6; 7]) /\
  gives (view s) (EReplaceArray va 2 vb) = Some (va, map (fun v => Live (Some v)) [5; 6; 8; 9]) /\ gives (view s) (EAssign va vb) = Some (va, map (fun v => Live (Some v)) [8; 9]) /\
  okb (eexec tq (EInsertArray va 1 vb) s) = true.
Proof. split; [apply (ends_reached true); [reflexivity|run|run]|]. split; [apply (properb_ok true); [reflexivity|run]|]. repeat split; run. Qed.

(** C52: when all arrays are destroyed, so are their elements, each once, but for the lost ones. *)
Theorem C52_all_destroyed : forall {V} (t : ety V) s, reached t s -> e_env s = ∅ -> e_heap s = ∅ /\ e_built s = e_killed s + zlen (e_lost s).
Proof. intros V. exact all_destroyed. Qed.
Print Assumptions C52_all_destroyed.
Definition throws1 (k : nat) : bool := Nat.eqb k 31.
Example C52_all_destroyed_ex : let s := ends (tz false throws1) life0 in
  reached (tz false throws1) s /\ e_env s = ∅ /\ tallies s = (32, 29, [Some 0; Some 0; Some 0]).
Proof. split; [apply (ends_reached false); [discriminate|run|run]|]. split; [no_arrays|run]. Qed.

(** C52: no element is lost as long as elements can be moved and neither signature (n, value) is called. *)
Theorem C52_nothing_lost : forall {V} (t : ety V) ops s, e_moves t = true -> forallb (fun o => negb (fills o)) ops = true ->
  proper_all t ops e_init -> erun t ops e_init = Ok tt s -> e_lost s = [].
Proof. intros V. exact nothing_lost. Qed.
Print Assumptions C52_nothing_lost.
Example C52_nothing_lost_ex : forallb (fun o => negb (fills o)) life0 = true /\ proper_all (tz true throws2) life0 e_init /\
  okb (erun (tz true throws2) life0 e_init) = true /\ tallies (ends (tz true throws2) life0) = (34, 34, []).
Proof. split; [run|]. split; [proper_throwing|]. split; run. Qed.

(** C52: without exceptions neither elements nor buffers are lost, whatever the type, as long as neither signature (n, value) is called. *)
Theorem C52_no_exceptions : forall {V} (t : ety V) ops s, forallb (fun o => negb (fills o)) ops = true -> proper_all t ops e_init ->
  eruns t ops e_init = Ok tt s -> e_lost s = [] /\ e_mem s = 0.
Proof. intros V. exact calm_nothing_lost. Qed.
Print Assumptions C52_no_exceptions.
Example C52_no_exceptions_ex : proper_all (tz false (fun _ => false)) life0 e_init /\ okb (eruns (tz false (fun _ => false)) life0 e_init) = true /\
  tallies (ends (tz false (fun _ => false)) life0) = (38, 38, []).
Proof. split; [proper_quiet|]. split; run. Qed.

(** C52: the constructor (n, value) loses n elements: those it constructed over. *)
Theorem C52_fill_ctor : forall {V} (t : ety V) s s' x n v, reached t s -> proper t (ECtorFill x n v) s -> eexec t (ECtorFill x n v) s = Ok tt s' ->
  exists L, e_lost s' = e_lost s ++ L /\ zlen L = n.
Proof. intros V. exact ctor_loses. Qed.
Print Assumptions C52_fill_ctor.
Example C52_fill_ctor_ex : let s := ends tq [ECtorList va [5]] in
  reached tq s /\ proper tq (ECtorFill vb 2 7) s /\ okb (eexec tq (ECtorFill vb 2 7) s) = true /\
  e_lost (ends tq [ECtorList va [5]; ECtorFill vb 2 7]) = [Some 0; Some 0].
Proof. split; [apply (ends_reached true); [reflexivity|run|run]|]. split; [apply (properb_ok true); [reflexivity|run]|]. split; run. Qed.

(** C52: resize(n, value) loses one element for each it adds. *)
Theorem C52_fill_resize : forall {V} (t : ety V) s s' x n v len, reached t s -> proper t (EResizeFill x n v) s -> len_is s x (eq len) ->
  eexec t (EResizeFill x n v) s = Ok tt s' -> exists L, e_lost s' = e_lost s ++ L /\ zlen L = Z.max 0 (n - len).
Proof. intros V. exact resize_loses. Qed.
Print Assumptions C52_fill_resize.
Example C52_fill_resize_ex : let s := ends tq [ECtorList va [5; 6; 8]; EResize va 1] in
  reached tq s /\ proper tq (EResizeFill va 3 9) s /\ len_is s va (eq 1) /\ okb (eexec tq (EResizeFill va 3 9) s) = true /\
  e_lost (ends tq [ECtorList va [5; 6; 8]; EResize va 1; EResizeFill va 3 9]) = [Some 6; Some 8].
Proof.
  split; [apply (ends_reached true); [reflexivity|run|run]|]. split; [apply (properb_ok true); [reflexivity|run]|].
  split; [intros a Ha; vm_compute in Ha; inversion Ha; reflexivity|]. split; run.
Qed.

(** C52: one would expect every element constructed to be destroyed with the arrays; the signatures (n, value) break that without any exception. *)
Theorem C52_fill_refuted : exists (t : ety Z) ops s, proper_all t ops e_init /\ eruns t ops e_init = Ok tt s /\ e_env s = ∅ /\ e_built s <> e_killed s.
Proof.
  exists tq, [ECtorFill va 2 7; EDestroy va], (ends tq [ECtorFill va 2 7; EDestroy va]). split; [proper_quiet|].
  split; [apply eruns_ends; run|]. split; [no_arrays|]. vm_compute. discriminate.
Qed.
Print Assumptions C52_fill_refuted.
(** C52: the lost element can be one the user put in the array: its destructor never runs. *)
Theorem C52_resize_refuted : exists (t : ety Z) ops, proper_all t ops e_init /\ ops = [ECtorList va [5; 6]; EResize va 1; EResizeFill va 2 9; EDestroy va] /\
  view (ends t (firstn 1 ops)) va = lives [5; 6] /\ e_env (ends t ops) = ∅ /\ In (Some 6) (e_lost (ends t ops)).
Proof. exists tq. eexists. split; [|split; [reflexivity|]]; [proper_quiet|]. split; [run|]. split; [no_arrays|]. vm_compute. auto. Qed.
Print Assumptions C52_resize_refuted.
(** C52: clear() and pop() end no lifetime: the elements stay until the buffer goes. *)
Theorem C52_retained_refuted : exists (t : ety Z) ops, proper_all t ops e_init /\ ops = [ECtorList va [5; 6]; EPop va; EClear va] /\
  view (ends t ops) va = Some [] /\ objects (e_heap (ends t ops)) = 2.
Proof. exists tq. eexists. split; [|split; [reflexivity|]]; [proper_quiet|]. split; run. Qed.
Print Assumptions C52_retained_refuted.

(** C53: a call that throws leaves the array it was called on usable (a constructor leaves none) and all others as they were. *)
Theorem C53_safe : forall {V} (t : ety V) s o, reached t s -> proper t o s ->
  match eexec t o s with
  | Ok _ s' => reached t s' /\ settles true o s' /\ (forall y, ~ In y (touches o) -> e_env s' !! y = e_env s !! y /\ view s' y = view s y)
  | Exn _ s' => reached t s' /\ settles false o s' /\ (forall y, ~ In y (touches o) -> e_env s' !! y = e_env s !! y /\ view s' y = view s y)
  | _ => False
  end.
Proof. intros V. exact call_safe. Qed.
Print Assumptions C53_safe.
Definition shared0 : list eop := [ECtorList va [5; 6]; ECtorCopy vb va].
Example C53_safe_ex : let t := tz true (at_tick 11) in let s := ends t shared0 in let o := EInsert va 2 9 in
  reached t s /\ proper t o s /\ exnb (eexec t o s) = true /\
  view (ends t (shared0 ++ [o])) va = Some [] /\ view (ends t (shared0 ++ [o])) vb = lives [5; 6] /\
  view (ends t (shared0 ++ [o; o; EInsert va 0 9])) va = lives [9].
Proof.
  split; [apply (ends_reached false); [discriminate|run|run]|]. split; [apply (properb_ok false); [discriminate|run]|]. repeat split; run.
Qed.

(** C53: constructors, assignment of arrays, swap, clear, reserve and slicing, appending one element or resizing when the buffer is not shared, show
    no change at all when they throw, if elements can be moved. *)
Theorem C53_strong : forall {V} (t : ety V) s o e s', reached t s -> proper t o s -> atomic o s -> e_moves t = true -> eexec t o s = Exn e s' ->
  forall y, view s' y = view s y.
Proof. intros V. exact atomic_view. Qed.
Print Assumptions C53_strong.
Example C53_strong_ex : let t := tz true (at_tick 10) in let s := ends t [ECtorList va [5; 6]] in let o := EInsert va 2 9 in
  reached t s /\ proper t o s /\ atomic o s /\ exnb (eexec t o s) = true /\ view (ends t [ECtorList va [5; 6]; o]) va = lives [5; 6] /\
  view (ends t [ECtorList va [5; 6]; o; o]) va = lives [5; 6; 9].
Proof.
  split; [apply (ends_reached false); [discriminate|run|run]|]. split; [apply (properb_ok false); [discriminate|run]|].
  split; [split|]; [| |repeat split; run].
  - apply alone_only; run.
  - intros a Ha; vm_compute in Ha; inversion Ha; reflexivity.
Qed.

(** C53: inserting in the middle is not undone. *)
Theorem C53_insert_refuted : exists (t : ety Z) ops o, e_moves t = true /\ proper_all t (ops ++ [o]) e_init /\ o = EInsert va 0 9 /\
  view (ends t ops) va = lives [5; 6] /\ exnb (eexec t o (ends t ops)) = true /\ view (ends t (ops ++ [o])) va = lives [5; 5].
Proof.
  exists (tz true (at_tick 12)), [ECtorList va [5; 6]; EReserve va 3]. eexists. split; [reflexivity|]. split; [|split; [reflexivity|]]; [proper_throwing|].
  repeat split; run.
Qed.
Print Assumptions C53_insert_refuted.
(** C53: a write to a shared array that throws while copying the buffer leaves the array empty, or holding other values. *)
Theorem C53_cow_refuted : exists (t t' : ety Z) ops o, e_moves t = true /\ e_moves t' = true /\ ops = shared0 /\ o = EWrite va 0 9 /\
  proper_all t (ops ++ [o]) e_init /\ proper_all t' (ops ++ [o]) e_init /\
  view (ends t ops) va = lives [5; 6] /\ exnb (eexec t o (ends t ops)) = true /\ view (ends t (ops ++ [o])) va = Some [] /\
  view (ends t' ops) va = lives [5; 6] /\ exnb (eexec t' o (ends t' ops)) = true /\ view (ends t' (ops ++ [o])) va = lives [5; 0].
Proof.
  exists (tz true (at_tick 8)), (tz true (at_tick 13)), shared0, (EWrite va 0 9). do 4 (split; [reflexivity|]). split; [proper_throwing|].
  split; [proper_throwing|]. repeat split; run.
Qed.
Print Assumptions C53_cow_refuted.
(** C53: a type without move operations can be garbled even by an append. *)
Theorem C53_append_refuted : exists (t : ety Z) ops o, ops = [ECtorList va [5; 6; 7; 8]; EShift va] /\ o = EInsert va 3 9 /\ atomic o (ends t ops) /\
  proper_all t (ops ++ [o]) e_init /\ view (ends t ops) va = lives [6; 7; 8] /\ exnb (eexec t o (ends t ops)) = true /\
  view (ends t (ops ++ [o])) va = lives [7; 7; 8].
Proof.
  exists (tz false (at_tick 14)). do 2 eexists. split; [reflexivity|]. split; [reflexivity|]. split; [split|].
  - apply alone_only; run.
  - intros a Ha; vm_compute in Ha; inversion Ha; reflexivity.
  - split; [proper_throwing|]. repeat split; run.
Qed.
Print Assumptions C53_append_refuted.
(** C53: an exception while a buffer grows leaks the new buffer, with elements in it if the type has no move operations. *)
Theorem C53_leak_refuted : exists (t t' : ety Z) ops, e_moves t = true /\ ops = [ECtorList va [5; 6]; EInsert va 2 9; EDestroy va] /\
  proper_all t ops e_init /\ e_env (ends t ops) = ∅ /\ e_mem (ends t ops) = 1 /\
  proper_all t' ops e_init /\ e_env (ends t' ops) = ∅ /\ e_mem (ends t' ops) = 1 /\ e_lost (ends t' ops) = [Some 0].
Proof.
  exists (tz true (at_tick 9)), (tz false (at_tick 10)). eexists. split; [reflexivity|]. split; [reflexivity|]. split; [proper_throwing|].
  split; [no_arrays|]. split; [run|]. split; [proper_throwing|]. split; [no_arrays|]. split; run.
Qed.
Print Assumptions C53_leak_refuted.
(** C53: resize(n, value) whose copy may throw anywhere: every element constructed is destroyed, in a buffer or lost, the other arrays
    are as they were, and the elements the array counts can still be read. *)
Theorem C53_fill_interrupted : forall {V} (t : ety V) s x n v, reached t s -> usable s x -> 0 <= n ->
  match eexec t (EResizeFill x n v) s with
  | Ok _ s' => balanced s' /\ usable s' x /\ len_is s' x (eq n)
  | Exn _ s' => balanced s' /\ (exists a w, e_env s' !! x = Some a /\ view s' x = Some w /\ zlen w = o_len a /\ forall p, In p w -> p <> Raw) /\
      forall y, y <> x -> e_env s' !! y = e_env s !! y /\ view s' y = view s y
  | _ => False
  end.
Proof. intros V. exact fill_interrupted. Qed.
Print Assumptions C53_fill_interrupted.
Example C53_fill_interrupted_ex : let t := tz true (at_tick 11) in let s := ends t [ECtorList va [5; 6; 7]; EResize va 1] in
  reached t s /\ usable s va /\ exnb (eexec t (EResizeFill va 3 9) s) = true /\
  match eexec t (EResizeFill va 3 9) s with Exn _ s' => tallies s = (4, 1, []) /\ tallies s' = (6, 3, [Some 6]) /\ view s' va = lives [5] | _ => False end.
Proof. split; [apply (ends_reached false); [discriminate|run|run]|]. split; [apply usableb_ok; run|]. split; [run|]. vm_compute. auto. Qed.
(** C53: a copy that throws in resize(n, value) leaves memory without objects in the buffer; destroying the array then destroys what does not exist. *)
Theorem C53_fill_refuted : exists (t : ety Z) ops o, ops = [ECtorList va [5; 6]; EResize va 0] /\ o = EResizeFill va 2 9 /\
  proper_all t ops e_init /\ exnb (eexec t o (ends t ops)) = true /\ erun t (ops ++ [o; EDestroy va]) e_init = Undef UbRaw.
Proof. exists (tz true (at_tick 9)). do 2 eexists. split; [reflexivity|]. split; [reflexivity|]. split; [proper_throwing|]. split; run. Qed.
Print Assumptions C53_fill_refuted.
(** C53: the constructor (n, value) does that by itself. *)
Theorem C53_fill_ctor_refuted : exists (t : ety Z), erun t [ECtorFill va 2 9] e_init = Undef UbRaw.
Proof. exists (tz true (at_tick 8)). run. Qed.
Print Assumptions C53_fill_ctor_refuted.
