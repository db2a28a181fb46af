(** What is said about the lifetimes of elements: programs, which calls are proper, what an array shows, bookkeeping. *)
From Verif Require Import LifeModel.
Open Scope Z_scope.

Section Spec.
Context {V : Type}.
Implicit Types (s : estate V) (x y : var) (o : eop (V := V)).

(** A program: a list of calls. The caller catches what a call throws and goes on. *)
Fixpoint erun (t : ety V) (ops : list eop) (s : estate V) : res (estate V) unit :=
  match ops with
  | [] => Ok tt s
  | o :: ops' => match eexec t o s with Ok _ s' => erun t ops' s' | Exn _ s' => erun t ops' s' | r => r end
  end.

(** The same, without exceptions. *)
Fixpoint eruns (t : ety V) (ops : list eop) (s : estate V) : res (estate V) unit :=
  match ops with
  | [] => Ok tt s
  | o :: ops' => match eexec t o s with Ok _ s' => eruns t ops' s' | r => r end
  end.

(** The objects in the window of an array, and its length. *)
Definition view s x : option (list (slot V)) :=
  match e_env s !! x with
  | None => None
  | Some a => match o_ref a with
              | None => Some []
              | Some l => match e_heap s !! l with None => None | Some c => Some (zsub (o_off a) (o_len a) (e_buf c)) end
              end
  end.
(** An array that was constructed, not destroyed, and not moved from. *)
Definition usable s x : Prop :=
  exists a, e_env s !! x = Some a /\ (o_ref a = None -> o_off a = 0 /\ o_len a = 0).
Definition alive s x : Prop := is_Some (e_env s !! x).
Definition unborn s x : Prop := e_env s !! x = None.
Definition len_is s x (P : Z -> Prop) : Prop := forall a, e_env s !! x = Some a -> P (o_len a).

(** Nothing throws during the call: it does what it would do if nothing could. *)
Definition never (t : ety V) : ety V := Ety (e_def t) (e_moves t) (e_grow t) (fun _ => false).
Definition undisturbed (t : ety V) o s : Prop := eexec t o s = eexec (never t) o s.

(** The calls with the signature (n, value) fill memory that holds objects already. *)
Definition fills o : bool := match o with ECtorFill _ _ _ | EResizeFill _ _ _ => true | _ => false end.

(** A proper call: objects are used within their lifetime and not after they were moved from, positions written without
    a check exist, and filling is not interrupted by an exception. *)
Definition proper (t : ety V) o s : Prop :=
  match o with
  | ECtor x => unborn s x
  | ECtorSized x n => unborn s x /\ 0 <= n
  | ECtorFill x n _ => unborn s x /\ 0 <= n /\ undisturbed t o s
  | ECtorList x _ => unborn s x
  | ECtorCopy x y | ECtorMove x y => unborn s x /\ usable s y
  | EDestroy x | EClear x | EAssignList x _ => alive s x
  | EAssign x y | EAssignMove x y => alive s x /\ usable s y
  | ESwap x y => alive s x /\ alive s y
  | EReserve x n | EResize x n => usable s x /\ 0 <= n
  | EResizeFill x n _ => usable s x /\ 0 <= n /\ undisturbed t o s
  | ESlice x a n => usable s x /\ 0 <= a /\ 0 <= n
  | EInsert x pos _ => usable s x /\ 0 <= pos
  | EInsertRange x pos _ => usable s x /\ 0 <= pos /\ len_is s x (fun n => pos <= n)
  | EInsertArray x pos y | EReplaceArray x pos y => usable s x /\ usable s y /\ 0 <= pos
  | EWrite x pos _ | EReplace x pos _ => usable s x /\ 0 <= pos /\ len_is s x (fun n => pos < n)
  | EShift x | EPop x => usable s x /\ len_is s x (fun n => 0 < n)
  end.
Fixpoint proper_all (t : ety V) (ops : list eop) s : Prop :=
  match ops with
  | [] => True
  | o :: ops' => proper t o s /\
      match eexec t o s with Ok _ s' => proper_all t ops' s' | Exn _ s' => proper_all t ops' s' | _ => True end
  end.

(** The states a program of proper calls can get to. *)
Definition reached (t : ety V) s : Prop := exists ops, proper_all t ops e_init /\ erun t ops e_init = Ok tt s.

(** The arrays a call can change. *)
Definition touches o : list var :=
  match o with
  | ECtor x | ECtorSized x _ | ECtorFill x _ _ | ECtorList x _ | ECtorCopy x _ | EDestroy x | EAssign x _
  | EAssignList x _ | EClear x | EReserve x _ | EResize x _ | EResizeFill x _ _ | ESlice x _ _ | EInsert x _ _
  | EInsertArray x _ _ | EInsertRange x _ _ | EWrite x _ _ | EReplace x _ _ | EReplaceArray x _ _ | EShift x
  | EPop x => [x]
  | ECtorMove x y | EAssignMove x y | ESwap x y => [x; y]
  end.

(** How a call leaves its target: [b] tells whether it returned. A constructor that throws leaves no object. *)
Definition settles (b : bool) o s' : Prop :=
  match o with
  | ECtor x | ECtorSized x _ | ECtorFill x _ _ | ECtorList x _ | ECtorCopy x _ | ECtorMove x _ =>
      if b then usable s' x else unborn s' x
  | EDestroy x => unborn s' x
  | ESwap x y => alive s' x /\ alive s' y
  | EAssign x _ | EAssignMove x _ | EAssignList x _ | EClear x | EReserve x _ | EResize x _ | EResizeFill x _ _
  | ESlice x _ _ | EInsert x _ _ | EInsertArray x _ _ | EInsertRange x _ _ | EWrite x _ _ | EReplace x _ _
  | EReplaceArray x _ _ | EShift x | EPop x => usable s' x
  end.

(** No other array refers to the same buffer. *)
Definition alone s x : Prop :=
  forall y a b, e_env s !! x = Some a -> e_env s !! y = Some b -> o_ref a <> None -> o_ref b = o_ref a -> y = x.
(** The calls that change nothing when they throw. *)
Definition atomic o s : Prop :=
  match o with
  | EInsert x pos _ => alone s x /\ len_is s x (eq pos)
  | EResize x _ => alone s x
  | EInsertArray _ _ _ | EInsertRange _ _ _ | EWrite _ _ _ | EReplace _ _ _ | EReplaceArray _ _ _ | EAssignList _ _
  | EResizeFill _ _ _ => False
  | _ => True
  end.

(** Bookkeeping: the elements constructed and not destroyed are those in the buffers and those lost. *)
Definition live_slots (b : list (slot V)) : Z := zlen (List.concat (map lost_of b)).
Definition objects (h : gmap loc (ecell V)) : Z := map_fold (fun _ c n => live_slots (e_buf c) + n) 0 h.
Definition balanced s : Prop := e_built s = e_killed s + objects (e_heap s) + zlen (e_lost s).
End Spec.
