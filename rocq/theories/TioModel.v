(** Model of programs that read from istreams and write to ostreams besides using the library as in AppModel.v, over one heap: String.cpp:154-184
    and String.h:603-608 as in IshModel.v and OsModel.v. Simplified: the streams are string streams, which always have memory; width() is 0,
    exceptions() is not in use. The temporary of operator>> and getline has a name of its own. *)
From stdpp Require Import gmap.
From Verif Require Import RcaSpec RcaModel RcaExec StreamModel NestModel HsModel PtModel LibSpec LibModel AppSpec AppModel IsSpec IshModel OsSpec OsModel TioSpec.
From Verif Require MstSpec MstModel MfSpec MfModel.
Open Scope Z_scope.

Record tmem := Tmem { t_app : amem; t_ins : gmap positive istream; t_outs : gmap positive ostream }.

Section Tio.
Variable d : desc Z.
Variable mdiff : Z -> Z -> Z.
Variable grow : Z -> Z -> option Z.
Variable el : positive -> nat -> positive.
Variable upper : Z -> Z.
Variable junk : Z -> Z.
Variable mm : bool.
Variable high : Z -> option bool.
Variable marks : bool.

Definition with_heap (q : amem) (s : state Z) : amem := put_back q ((s, a_streams q), (a_disk q, a_fds q)).
(** A string stream on a text, and one for writing, as they are constructed. *)
Definition istringstream (text : list Z) : istream := IS text false false false true.
Definition ostringstream : ostream := OS [] false false false 0 32 false (fun _ => true).
Definition get_in (i : positive) : M tmem istream := fun q => match t_ins q !! i with Some st => Ok st q | None => Undef UbFreed end.
Definition get_out (o : positive) : M tmem ostream := fun q => match t_outs q !! o with Some st => Ok st q | None => Undef UbFreed end.
Definition set_in (i : positive) (st : istream) : M tmem unit := fun q => Ok tt (Tmem (t_app q) (<[i := st]> (t_ins q)) (t_outs q)).
Definition set_out (o : positive) (st : ostream) : M tmem unit := fun q => Ok tt (Tmem (t_app q) (t_ins q) (<[o := st]> (t_outs q))).

Definition texec (c : tcall) (e : env) : M tmem tout :=
  match c with
  | TApp c => fun q =>
    match aexec d mdiff grow el upper junk mm c e (t_app q) with
    | Ok v a => Ok (ZApp v) (Tmem a (t_ins q) (t_outs q))
    | Exn x a => Exn x (Tmem a (t_ins q) (t_outs q))
    | Term => Term
    | Fuel => Fuel
    | Undef u => Undef u
    end
  | TIn i text => set_in i (istringstream text) ;;; ret ZVoid
  | TRead line i x =>                                                                          (* String.cpp:154-184 *)
    let* st := get_in i in
    fun q =>
    let t := spare_var (heap_of (t_app q)) in
    match (if line then hread_line d (str x) t else hread_word d high (str x) t) (st, heap_of (t_app q)) with
    | Ok _ (st', s) => Ok ZVoid (Tmem (with_heap (t_app q) s) (<[i := st']> (t_ins q)) (t_outs q))
    | Exn x (st', s) => Exn x (Tmem (with_heap (t_app q) s) (<[i := st']> (t_ins q)) (t_outs q))
    | Term => Term
    | Fuel => Fuel
    | Undef u => Undef u
    end
  | TOk i => let* st := get_in i in ret (ZBool (negb (is_fail st || is_bad st)))
  | TOut o => set_out o ostringstream ;;; ret ZVoid
  | TWrite o x =>                                                                              (* String.h:603-608 *)
    let* st := get_out o in
    fun q =>
    match hput marks (str x) (st, heap_of (t_app q)) with
    | Ok _ (st', s) => Ok ZVoid (Tmem (with_heap (t_app q) s) (t_ins q) (<[o := st']> (t_outs q)))
    | Exn x (st', s) => Exn x (Tmem (with_heap (t_app q) s) (t_ins q) (<[o := st']> (t_outs q)))
    | Term => Term
    | Fuel => Fuel
    | Undef u => Undef u
    end
  | TPut o c => let* st := get_out o in set_out o (insert_char marks c st) ;;; ret ZVoid
  | TShow o => let* st := get_out o in ret (ZText (os_out st))
  | TBack i o => let* st := get_out o in set_in i (istringstream (os_out st)) ;;; ret ZVoid
  end.

(** A program: the next call depends on what the last one returned or threw, and so on all that went before; exceptions are caught; it asks for
    the capacity before each seek. *)
Inductive prog := Stop | Do (c : tcall) (e : env) (k : tout + exn -> prog).
Inductive tobs := TSaw (o : aobs) | TRet (o : tout) | TThrow (e : exn) | TTerm | TFuel | TUndef (u : ub).
Definition tsaw (c : tcall) (q : tmem) : list tobs := match c with TApp c => map TSaw (asaw c (t_app q)) | _ => [] end.
Fixpoint tobserve (p : prog) (q : tmem) : list tobs :=
  match p with
  | Stop => []
  | Do c e k =>
    tsaw c q ++ match texec c e q with
    | Ok v q' => TRet v :: tobserve (k (inl v)) q'
    | Exn x q' => TThrow x :: tobserve (k (inr x)) q'
    | Term => [TTerm]
    | Fuel => [TFuel]
    | Undef u => [TUndef u]
    end
  end.
End Tio.
