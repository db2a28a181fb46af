(** Threads that own String objects sharing buffers: the steps of the operations at the granularity of the atomic counter (src/ReferenceCountedArray.h,
    src/String.h). Simplified: sequentially consistent interleaving (std::atomic with its default order); copying or erasing a buffer is one step, and
    two threads about to touch the same memory are told apart by [conflict]; a buffer is made with the elements and a NUL, as String::reserve() does
    (String.h:137-144), and memory that is not initialized holds 0; growing and shifting a buffer that is not shared is one step, and the NUL that
    reserve() puts at the end of such a buffer when an element is assigned is left out; substring() gets a position and a number of elements that are there; an object
    belongs to one thread. Line numbers without a file name are of ReferenceCountedArray.h. *)
From Verif Require Import Base ZList.
From stdpp Require Import gmap.
Open Scope Z_scope.

(** ArrayRef, ReferenceCountedArray.h:50-65 *)
Record cell := CCell { k_refs : Z; k_elems : list Z }.
(** Ref, and offset and sublen of an object, 317, 329 and 333; None is a null Ref. *)
Notation handle := (option (Z * (Z * Z))).
Inductive cop :=
  | CNew (x : Z) (v : list Z)        (* String x(v) *)
  | CCopy (x y : Z)                  (* String x(y) *)
  | CMove (x y : Z)                  (* String x(std::move(y)) *)
  | CAssign (x y : Z)                (* x = y *)
  | CRead (x : Z)                    (* reading all elements *)
  | CDestroy (x : Z)                 (* ~String *)
  | CSet (x i v : Z)                 (* x[i] = v *)
  | CClear (x : Z)                   (* x.clear() *)
  | CSlice (x y s n : Z)             (* String x(y.substring(s, n)) *)
  | CShorten (x n : Z)               (* x.resize(n) with n less than the length *)
  | CCstr (x : Z).                   (* reading x.c_str() up to its NUL *)
(** Where a thread is inside an operation. *)
Inductive micro :=
  | Idle
  | DLoad (l : Z) | DCleanse (l : Z) | DDec (l : Z) | DFree (l : Z)     (* ~String, CheckDeallocRef *)
  | KDec (x l : Z)                                                    (* Detach, having seen a shared buffer *)
  | NCheck (x : Z) | NGrow (x : Z)                                      (* c_str, having seen no NUL *)
  | MDec (x l : Z) (n : Z * Z) (o : option (Z * Z)) | MCopy (x l : Z) (n : Z * Z) (o : option (Z * Z))   (* COW; what will be written, None for the NUL of c_str *)
  | MWrite (x : Z) (o : option (Z * Z)).                               (* the element or the NUL is written *)
Record thread := Thread { t_env : gmap Z handle; t_micro : micro; t_prog : list cop; t_log : list (list Z) }.
(** [m_freed]: contents of released buffers at the time of release, the most recent first. *)
Record mem := Mem { m_heap : gmap Z cell; m_next : Z; m_freed : list (list Z) }.
Inductive sres := SOk (m : mem) (t : thread) | SDone | SBad (e : ub).

Definition goto (t : thread) (e : gmap Z handle) (mi : micro) (p : list cop) : thread := Thread e mi p (t_log t).
Definition set_cell (m : mem) (l : Z) (c : cell) : mem := Mem (<[l := c]> (m_heap m)) (m_next m) (m_freed m).
Definition with_cell (m : mem) (l : Z) (k : cell -> sres) : sres := match m_heap m !! l with Some c => k c | None => SBad UbFreed end.
Definition inc (m : mem) (r : handle) (k : mem -> sres) : sres :=       (* incRef, 269 *)
  match r with
  | None => k m
  | Some (l, _) => with_cell m l (fun c => k (set_cell m l (CCell (k_refs c + 1) (k_elems c))))
  end.
Definition dec (m : mem) (l : Z) (k : mem -> Z -> sres) : sres :=       (* decRef, 274 *)
  with_cell m l (fun c => k (set_cell m l (CCell (k_refs c - 1) (k_elems c))) (k_refs c - 1)).
Definition tstep (m : mem) (t : thread) : sres :=
  let e := t_env t in let p' := tl (t_prog t) in
  match t_micro t with
  | Idle =>
    match t_prog t with
    | [] => SDone
    | CNew x v :: _ =>
      match e !! x with
      | Some _ => SBad UbDeadVar
      | None => let l := m_next m in
        SOk (Mem (<[l := CCell 1 (v ++ [0])]> (m_heap m)) (l + 1) (m_freed m)) (goto t (<[x := Some (l, (0, zlen v))]> e) Idle p')
      end
    | CCopy x y :: _ =>                                               (* 434-440 *)
      match e !! x, e !! y with
      | None, Some r => inc m r (fun m' => SOk m' (goto t (<[x := r]> e) Idle p'))
      | _, _ => SBad UbDeadVar
      end
    | CMove x y :: _ =>                                               (* 441-451 *)
      match e !! x, e !! y with
      | None, Some r => SOk m (goto t (<[x := r]> (<[y := None]> e)) Idle p')
      | _, _ => SBad UbDeadVar
      end
    | CAssign x y :: _ =>                                             (* 527-536: the new reference is taken before the old one is dropped *)
      match e !! x, e !! y with
      | Some old, Some r =>
        inc m r (fun m' => SOk m' (goto t (<[x := r]> e) (match old with Some (l, _) => DDec l | None => Idle end) p'))
      | _, _ => SBad UbDeadVar
      end
    | CRead x :: _ =>
      match e !! x with
      | Some (Some (l, n)) => with_cell m l (fun c => SOk m (Thread e Idle p' (zsub (fst n) (snd n) (k_elems c) :: t_log t)))
      | Some None => SOk m (Thread e Idle p' ([] :: t_log t))
      | None => SBad UbDeadVar
      end
    | CDestroy x :: _ =>                                              (* String.h:148-153, rcount() of a null Ref is 0 *)
      match e !! x with
      | Some r => SOk m (goto t (delete x e) (match r with Some (l, _) => DLoad l | None => Idle end) p')
      | None => SBad UbDeadVar
      end
    | CSet x i v :: _ =>                                              (* AboutToModify, 405-413: isShared() is read *)
      match e !! x with
      | Some (Some (l, n)) =>
        if (0 <=? i) && (i <? snd n)
        then with_cell m l (fun c => SOk m (goto t e (if 1 <? k_refs c then MDec x l n (Some (i, v)) else MWrite x (Some (i, v))) p'))
        else SBad UbBounds
      | Some None => SBad UbBounds
      | None => SBad UbDeadVar
      end
    | CClear x :: _ =>                                                (* Detach, 346-354: isShared() is read *)
      match e !! x with
      | Some (Some (l, _)) =>
        with_cell m l (fun c => SOk m (if 1 <? k_refs c then goto t e (KDec x l) p' else goto t (<[x := Some (l, (0, 0))]> e) Idle p'))
      | Some None => SOk m (goto t e Idle p')
      | None => SBad UbDeadVar
      end
    | CSlice x y s n :: _ =>                                          (* 956-981: copied, then offset and sublen are set *)
      match e !! x, e !! y with
      | None, Some (Some (l, b)) =>
        if (0 <=? s) && (s <? snd b) && (0 <=? n) && (s + n <=? snd b)
        then inc m (Some (l, b)) (fun m' => SOk m' (goto t (<[x := Some (l, (fst b + s, n))]> e) Idle p'))
        else SBad UbBounds
      | None, Some None => SBad UbBounds
      | _, _ => SBad UbDeadVar
      end
    | CShorten x n :: _ =>                                            (* 631-634 *)
      match e !! x with
      | Some (Some (l, b)) => if (0 <=? n) && (n <? snd b) then SOk m (goto t (<[x := Some (l, (fst b, n))]> e) Idle p') else SBad UbBounds
      | Some None => SBad UbBounds
      | None => SBad UbDeadVar
      end
    | CCstr x :: _ =>                                                 (* String.h:232-237: the element behind the last one is read *)
      match e !! x with
      | Some (Some (l, n)) =>
        if snd n =? 0 then SOk m (Thread e Idle p' ([0] :: t_log t))
        else with_cell m l (fun c =>
          match znth (fst n + snd n) (k_elems c) with
          | None => SBad UbBounds
          | Some b => SOk m (if b =? 0 then Thread e Idle p' (zsub (fst n) (snd n + 1) (k_elems c) :: t_log t) else goto t e (NCheck x) p')
          end)
      | Some None => SOk m (Thread e Idle p' ([0] :: t_log t))
      | None => SBad UbDeadVar
      end
    end
  | DLoad l => with_cell m l (fun c => SOk m (goto t e (if k_refs c =? 1 then DCleanse l else DDec l) (t_prog t)))    (* String.h:150 *)
  | DCleanse l => with_cell m l (fun c => SOk (set_cell m l (CCell (k_refs c) (zrep (zlen (k_elems c)) 0))) (goto t e (DDec l) (t_prog t)))
  | DDec l => dec m l (fun m' r => SOk m' (goto t e (if r <? 1 then DFree l else Idle) (t_prog t)))                    (* 363-368 *)
  | DFree l => with_cell m l (fun c => SOk (Mem (delete l (m_heap m)) (m_next m) (k_elems c :: m_freed m)) (goto t e Idle (t_prog t)))
  | KDec x l => dec m l (fun m' _ => SOk m' (goto t (<[x := None]> e) Idle (t_prog t)))                               (* doDetach, 259-265 *)
  | NCheck x =>                                                                                                     (* AboutToModify(length() + 1), 405-411 *)
    match e !! x with
    | Some (Some (l, n)) => with_cell m l (fun c => SOk m (goto t e (if 1 <? k_refs c then MDec x l n None else NGrow x) (t_prog t)))
    | _ => SBad UbNull
    end
  | NGrow x =>                                                                                                      (* reserve, 76-118: room for the NUL and one more *)
    match e !! x with
    | Some (Some (l, n)) => with_cell m l (fun c => let size := zlen (k_elems c) in
      if size - fst n <? snd n + 2
      then SOk (set_cell m l (CCell (k_refs c) (zsub (fst n) (snd n) (k_elems c) ++ zrep (Z.max size (snd n + 2) - snd n) 0)))
             (goto t (<[x := Some (l, (0, snd n))]> e) (MWrite x None) (t_prog t))
      else SOk m (goto t e (MWrite x None) (t_prog t)))
    | _ => SBad UbNull
    end
  | MDec x l n o => dec m l (fun m' _ => SOk m' (goto t (<[x := None]> e) (MCopy x l n o) (t_prog t)))                  (* 388 *)
  | MCopy x l n o =>                                                                                                (* 389-391 *)
    with_cell m l (fun c => let l' := m_next m in
      SOk (Mem (<[l' := CCell 1 (zsub (fst n) (snd n) (k_elems c) ++ zrep (match o with Some _ => 1 | None => 2 end) 0)]> (m_heap m)) (l' + 1) (m_freed m))
        (goto t (<[x := Some (l', (0, snd n))]> e) (MWrite x o) (t_prog t)))
  | MWrite x o =>
    match e !! x with
    | Some (Some (l, n)) => with_cell m l (fun c =>
      match o with
      | Some (i, v) => SOk (set_cell m l (CCell (k_refs c) (zupd (fst n + i) [v] (k_elems c)))) (goto t e Idle (t_prog t))
      | None => let k := zupd (fst n + snd n) [0] (k_elems c) in
        SOk (set_cell m l (CCell (k_refs c) k)) (Thread e Idle (t_prog t) (zsub (fst n) (snd n + 1) k :: t_log t))
      end)
    | _ => SBad UbNull
    end
  end.

(** A configuration and a schedule: the threads to move, in order. A thread that is done stays. *)
Record config := Config { g_mem : mem; g_threads : list thread }.
Inductive cres := COk (c : config) | CBad (e : ub).
Definition move (i : nat) (c : config) : cres :=
  match g_threads c !! i with
  | None => COk c
  | Some t =>
    match tstep (g_mem c) t with
    | SOk m t' => COk (Config m (<[i := t']> (g_threads c)))
    | SDone => COk c
    | SBad e => CBad e
    end
  end.
Fixpoint run (sched : list nat) (c : config) : cres :=
  match sched with
  | [] => COk c
  | i :: sched' => match move i c with COk c' => run sched' c' | CBad e => CBad e end
  end.
(** A serial schedule: a thread finishes the operation it has begun. At most five steps make an operation. *)
Fixpoint finish (fuel : nat) (i : nat) (c : config) : cres :=
  match g_threads c !! i with
  | None => COk c
  | Some t =>
    match t_micro t, fuel with
    | Idle, _ => COk c
    | _, O => COk c
    | _, S f => match move i c with COk c' => finish f i c' | CBad e => CBad e end
    end
  end.
Definition whole (i : nat) (c : config) : cres := match move i c with COk c' => finish 4 i c' | CBad e => CBad e end.
Fixpoint serial (sched : list nat) (c : config) : cres :=
  match sched with
  | [] => COk c
  | i :: sched' => match whole i c with COk c' => serial sched' c' | CBad e => CBad e end
  end.

(** The memory the next step of a thread touches: the counter, the elements read or written, or everything. *)
Inductive access := Counter | Reads | Writes | Frees.
Definition at_handle (r : option handle) (a : access) : option (Z * access) := match r with Some (Some (l, _)) => Some (l, a) | _ => None end.
Definition next_access (t : thread) : option (Z * access) :=
  match t_micro t with
  | Idle =>
    match t_prog t with
    | CCopy _ y :: _ | CAssign _ y :: _ | CSlice _ y _ _ :: _ => at_handle (t_env t !! y) Counter
    | CSet x _ _ :: _ | CClear x :: _ => at_handle (t_env t !! x) Counter
    | CRead x :: _ => at_handle (t_env t !! x) Reads
    | CCstr x :: _ => match t_env t !! x with Some (Some (l, n)) => if snd n =? 0 then None else Some (l, Reads) | _ => None end
    | _ => None
    end
  | DLoad l | DDec l | KDec _ l | MDec _ l _ _ => Some (l, Counter)
  | NCheck x => at_handle (t_env t !! x) Counter
  | NGrow x => at_handle (t_env t !! x) Writes
  | DCleanse l => Some (l, Writes)
  | DFree l => Some (l, Frees)
  | MCopy _ l _ _ => Some (l, Reads)
  | MWrite x _ => at_handle (t_env t !! x) Writes
  end.
Definition clash (a b : access) : bool :=
  match a, b with
  | Frees, _ | _, Frees => true
  | Writes, Writes | Writes, Reads | Reads, Writes => true
  | _, _ => false
  end.
(** Two threads about to touch the same memory, one of them destructively, with nothing ordering them. *)
Definition conflict (c : config) : Prop :=
  exists i j t u l a b, i <> j /\ g_threads c !! i = Some t /\ g_threads c !! j = Some u /\
    next_access t = Some (l, a) /\ next_access u = Some (l, b) /\ clash a b = true.
