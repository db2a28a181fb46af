(** Model of several Streams at work, on top of StreamModel: construction, copying, moving, assignment, swapping and
    destruction of Streams, and Strings of the program passed in and handed out. The Stream named [k] has its String
    member in variable [k]. Simplified: as StreamModel; the String that holds the old text during an assignment, and
    the temporary of truncate(), are in variable [t]. Assignment from an rvalue (Stream.h:75 and 80) is ambiguous and does not
    compile; files are in StreamModel and StdioModel. *)
From Verif Require Import RcaSpec RcaModel RcaExec StreamSpec StreamModel MstSpec.
Open Scope Z_scope.

Section Mst.
Variable d : desc Z.
Variable t : positive.
Notation streams := (gmap positive stream).
Notation MM := (M (state Z * streams)).
Notation MS := (M (state Z * stream)).

(** A member function of Stream [k]. *)
Definition on {A} (k : positive) (f : MS A) : MM A := fun '(s, zs) =>
  match zs !! k with
  | None => Undef UbDeadVar
  | Some z =>
    match f (s, z) with
    | Ok v (s', z') => Ok v (s', <[k := z']> zs)
    | Exn e (s', z') => Exn e (s', <[k := z']> zs)
    | Term => Term
    | Fuel => Fuel
    | Undef u => Undef u
    end
  end.
(** A call on Strings. *)
Definition ucall (o : op Z) : MM (out Z) := fun '(s, zs) =>
  match exec d o s with
  | Ok v s' => Ok v (s', zs)
  | Exn e s' => Exn e (s', zs)
  | Term => Term
  | Fuel => Fuel
  | Undef u => Undef u
  end.
(** The members pos and loading. *)
Definition cursor (k : positive) : MM (Z * bool) := fun '(s, zs) =>
  match zs !! k with Some z => Ok (s_pos z, s_load z) (s, zs) | None => Undef UbDeadVar end.
Definition set_cursor (k : positive) (c : Z * bool) : MM unit := fun '(s, zs) => Ok tt (s, <[k := Stream k (fst c) (snd c)]> zs).
Definition gone (k : positive) : MM unit := fun '(s, zs) => Ok tt (s, delete k zs).

(** Stream(), Stream.h:51-53 and 56. *)
Definition new (k : positive) : MM unit := ucall (CtorDefault k) ;;; set_cursor k (0, false).
(** Stream(int), Stream.h:59-61: the members are destroyed if reserve() throws. *)
Definition new_sized (k : positive) (n : Z) : MM unit :=
  new k ;;;
  if 0 <? n then fun st =>
    match on k (with_local d k (sreserve d n)) st with
    | Exn e (s', zs') => Exn e (s', delete k zs')
    | r => r
    end
  else ret tt.
(** Stream(const String&) and Stream(String&&), Stream.h:64-65. *)
Definition new_from (mv : bool) (k y : positive) : MM unit :=
  ucall (if mv then CtorMove k y else CtorCopy k y) ;;; set_cursor k (0, false).
(** Stream(const Stream&) and Stream(Stream&&), Stream.h:57-58, member by member. *)
Definition new_copy (mv : bool) (k j : positive) : MM unit :=
  let* c := cursor j in
  ucall (if mv then CtorMove k j else CtorCopy k j) ;;; set_cursor k c.
(** ~Stream(), Stream.h:62. *)
Definition kill (k : positive) : MM unit := ucall (Destroy k) ;;; gone k.
(** swap(Stream&, Stream&), Stream.h:67-73. *)
Definition swap_streams (k j : positive) : MM unit :=
  ucall (Swap k j) ;;;
  let* c := cursor k in
  let* c' := cursor j in
  set_cursor k c' ;;; set_cursor j c.
(** operator=(Stream), Stream.h:75-78; the parameter is Stream [t], destroyed by the caller. *)
Definition assign (k j : positive) : MM unit := new_copy false t j ;;; swap_streams k t ;;; kill t.
(** operator!, Stream.h:188-190. *)
Definition s_not : MS bool := let* n := slength in ret (n =? 0).

Definition take (g : get) (z : positive) : MS unit :=
  match g with
  | GPeek => peek d z
  | GRead n c => sread d z n c
  | GLine n => getline d z n
  | GString => to_string d z
  end.
Definition mexec (o : mop) : MM mout :=
  match o with
  | MString o => let* r := ucall o in ret (MOut r)
  | MNew k => new k ;;; ret MNone
  | MSized k n => new_sized k n ;;; ret MNone
  | MFrom mv k y => new_from mv k y ;;; ret MNone
  | MCopy k j => new_copy false k j ;;; ret MNone
  | MMove k j => new_copy true k j ;;; ret MNone
  | MAssign k j => assign k j ;;; ret MNone
  | MSwap k j => swap_streams k j ;;; ret MNone
  | MDestroy k => kill k ;;; ret MNone
  | MPuts mv k y => on k (puts d mv y) ;;; ret MNone
  | MTake g z k => on k (take g z) ;;; ret MNone
  | MSeek k off wh => let* r := on k (seek off wh) in ret (MInt r)
  | MTell k => let* r := on k tell in ret (MInt r)
  | MLength k => let* r := on k slength in ret (MInt r)
  | MNot k => let* r := on k s_not in ret (MBool r)
  | MTruncate k => on k (truncate d t) ;;; ret MNone
  | MClear k => on k (sclear d) ;;; ret MNone
  end.
(** A program: calls in order, exceptions being caught; it asks for the capacity before each seek. *)
Inductive mobs := BCap (c : Z) | BRet (o : mout) | BThrow (e : exn) | BTerm | BFuel | BUndef (u : ub).
Definition msaw (o : mop) (st : state Z * streams) : list mobs :=
  match o with
  | MSeek k _ _ => match on k scapacity st with
                   | Ok c _ => [BCap c] | Exn e _ => [BThrow e] | Term => [BTerm] | Fuel => [BFuel] | Undef u => [BUndef u]
                   end
  | _ => []
  end.
Fixpoint mobserve (ops : list mop) (st : state Z * streams) : list mobs :=
  match ops with
  | [] => []
  | o :: ops' =>
    msaw o st ++ match mexec o st with
    | Ok r st' => BRet r :: mobserve ops' st'
    | Exn e st' => BThrow e :: mobserve ops' st'
    | Term => [BTerm]
    | Fuel => [BFuel]
    | Undef u => [BUndef u]
    end
  end.
End Mst.
