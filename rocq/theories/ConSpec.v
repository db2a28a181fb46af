(** What a thread may rely on: its objects behave as if no one else had any. *)
From Verif Require Import Base ZList ConModel.
From stdpp Require Import gmap.
Open Scope Z_scope.

(** The values of a thread's objects: None for one that was moved from; the flags say that the object was never copied since it got its buffer, and
    that it ends where a NUL is. *)
Notation pval := (option (list Z * (bool * bool))).
Record private := Private { p_vals : gmap Z pval; p_log : list (list Z) }.
(** [strict]: only objects never copied may be modified, and c_str() is called on these and on objects that end where a NUL is. None: not a legal program. *)
Definition pstep (strict : bool) (o : cop) (p : private) : option private :=
  let e := p_vals p in
  let put e' := Some (Private e' (p_log p)) in
  match o with
  | CNew x v => match e !! x with None => put (<[x := Some (v, (true, true))]> e) | _ => None end
  | CCopy x y =>
    match e !! x, e !! y with
    | None, Some None => put (<[x := None]> e)
    | None, Some (Some (v, b)) => put (<[x := Some (v, (false, snd b))]> (<[y := Some (v, (false, snd b))]> e))
    | _, _ => None
    end
  | CMove x y => match e !! x, e !! y with None, Some r => put (<[x := r]> (<[y := None]> e)) | _, _ => None end
  | CAssign x y =>
    match e !! x, e !! y with
    | Some _, Some None => put (<[x := None]> e)
    | Some _, Some (Some (v, b)) => put (<[x := Some (v, (false, snd b))]> (<[y := Some (v, (false, snd b))]> e))
    | _, _ => None
    end
  | CRead x => match e !! x with Some (Some (v, _)) => Some (Private e (v :: p_log p)) | _ => None end
  | CDestroy x => match e !! x with Some _ => put (delete x e) | None => None end
  | CSet x i v =>
    match e !! x with
    | Some (Some (w, b)) => if (0 <=? i) && (i <? zlen w) && (fst b || negb strict) then put (<[x := Some (zupd i [v] w, (true, snd b))]> e) else None
    | _ => None
    end
  | CClear x =>
    match e !! x with
    | Some (Some (w, b)) => if fst b || negb strict then put (<[x := Some ([], (true, false))]> e) else None
    | _ => None
    end
  | CSlice x y s n =>
    match e !! x, e !! y with
    | None, Some (Some (v, b)) =>
      if (0 <=? s) && (s <? zlen v) && (0 <=? n) && (s + n <=? zlen v)
      then put (<[x := Some (zsub s n v, (false, snd b && (s + n =? zlen v)))]> (<[y := Some (v, (false, snd b))]> e)) else None
    | _, _ => None
    end
  | CShorten x n =>
    match e !! x with
    | Some (Some (w, b)) => if (0 <=? n) && (n <? zlen w) then put (<[x := Some (ztake n w, (fst b, false))]> e) else None
    | _ => None
    end
  | CCstr x =>
    match e !! x with
    | Some (Some (w, b)) =>
      if zlen w =? 0 then Some (Private e ([0] :: p_log p))
      else if fst b || snd b || negb strict then Some (Private (<[x := Some (w, (fst b, true))]> e) ((w ++ [0]) :: p_log p)) else None
    | _ => None
    end
  end.
Fixpoint pexec (strict : bool) (l : list cop) (p : private) : option private :=
  match l with [] => Some p | o :: l' => match pstep strict o p with Some p' => pexec strict l' p' | None => None end end.

(** Number of a thread's objects on buffer [l], and of all. *)
Definition objects (l : Z) (e : gmap Z handle) : Z := Z.of_nat (size (filter (fun kv : Z * handle => option_map fst kv.2 = Some l) e)).
Fixpoint sum_of {A} (f : A -> Z) (l : list A) : Z := match l with [] => 0 | t :: l' => f t + sum_of f l' end.
(** The part of a buffer that an object has, with room for a NUL. *)
Definition inside (n : Z * Z) (c : cell) : Prop := 0 <= fst n /\ 0 <= snd n /\ fst n + snd n < zlen (k_elems c).
Definition text_in (n : Z * Z) (c : cell) : list Z := zsub (fst n) (snd n) (k_elems c).
Definition ended (n : Z * Z) (c : cell) : Prop := znth (fst n + snd n) (k_elems c) = Some 0.
(** The private values that the objects of a thread show. *)
Definition shows (h : gmap Z cell) (e : gmap Z handle) (p : gmap Z pval) : Prop := forall x,
  match e !! x, p !! x with
  | None, None => True
  | Some None, Some None => True
  | Some None, Some (Some (w, _)) => w = []
  | Some (Some (l, n)), Some (Some (w, b)) =>
    exists c, h !! l = Some c /\ inside n c /\ w = text_in n c /\ (fst b = true -> k_refs c = 1) /\ (snd b = true -> ended n c)
  | _, _ => False
  end.
(** Threads between operations: every buffer is counted right. [ps] are the private values. *)
Record at_rest (c : config) (ps : list private) : Prop := {
  ar_threads : Forall2 (fun t p => t_micro t = Idle /\ t_log t = p_log p /\ shows (m_heap (g_mem c)) (t_env t) (p_vals p)) (g_threads c) ps;
  ar_refs : forall l k, m_heap (g_mem c) !! l = Some k -> k_refs k = sum_of (fun t => objects l (t_env t)) (g_threads c) /\ 1 <= k_refs k;
  ar_fresh : forall l, m_next (g_mem c) <= l -> m_heap (g_mem c) !! l = None
}.
(** Every thread has a legal program. *)
Definition legal (strict : bool) (c : config) (ps fs : list private) : Prop :=
  Forall2 (fun tp f => pexec strict (t_prog tp.1) tp.2 = Some f) (zip (g_threads c) ps) fs.
Definition done (c : config) : Prop := Forall (fun t => t_micro t = Idle /\ t_prog t = []) (g_threads c).
Definition no_objects (c : config) : Prop := Forall (fun t => t_env t = ∅) (g_threads c).
(** How often a thread is scheduled. *)
Fixpoint turns (i : nat) (sched : list nat) : nat := match sched with [] => O | j :: s => ((if decide (i = j) then 1 else 0) + turns i s)%nat end.
