(** Model of programs that use the whole library at once: LibModel.v and MfModel.v over one heap. The Strings and Streams of the
    program have names [str x], as in PtModel.v; the variable for temporaries of a call on Streams is a new one. Simplified: as there. *)
From stdpp Require Import gmap.
From Verif Require Import RcaSpec RcaModel RcaExec StreamModel NestModel HsModel PtModel LibSpec LibModel AppSpec.
From Verif Require MstSpec MstModel MfSpec MfModel.
Open Scope Z_scope.

(** What is refused to a call; what the system calls do. *)
Record env := Env { e_need : need_of; e_sys : MfModel.world }.
Record amem := Amem { a_lib : lmem; a_streams : gmap positive stream; a_disk : MfSpec.files; a_fds : Z }.

(** Calls under other names. *)
Definition mren (f : positive -> positive) (o : MstSpec.mop) : MstSpec.mop :=
  match o with
  | MstSpec.MString o => MstSpec.MString (ren f o)
  | MstSpec.MNew k => MstSpec.MNew (f k)
  | MstSpec.MSized k n => MstSpec.MSized (f k) n
  | MstSpec.MFrom mv k y => MstSpec.MFrom mv (f k) (f y)
  | MstSpec.MCopy k j => MstSpec.MCopy (f k) (f j)
  | MstSpec.MMove k j => MstSpec.MMove (f k) (f j)
  | MstSpec.MAssign k j => MstSpec.MAssign (f k) (f j)
  | MstSpec.MSwap k j => MstSpec.MSwap (f k) (f j)
  | MstSpec.MDestroy k => MstSpec.MDestroy (f k)
  | MstSpec.MPuts mv k y => MstSpec.MPuts mv (f k) (f y)
  | MstSpec.MTake g z k => MstSpec.MTake g (f z) (f k)
  | MstSpec.MSeek k off wh => MstSpec.MSeek (f k) off wh
  | MstSpec.MTell k => MstSpec.MTell (f k)
  | MstSpec.MLength k => MstSpec.MLength (f k)
  | MstSpec.MNot k => MstSpec.MNot (f k)
  | MstSpec.MTruncate k => MstSpec.MTruncate (f k)
  | MstSpec.MClear k => MstSpec.MClear (f k)
  end.
Definition fren (f : positive -> positive) (o : MfSpec.fop) : MfSpec.fop :=
  match o with
  | MfSpec.FDo o => MfSpec.FDo (mren f o)
  | MfSpec.FLoad g k y => MfSpec.FLoad g (f k) (f y)
  | MfSpec.FSave g k y => MfSpec.FSave g (f k) (f y)
  | MfSpec.FOutside n c => MfSpec.FOutside n c
  end.

Section App.
Variable d : desc Z.
Variable mdiff : Z -> Z -> Z.
Variable grow : Z -> Z -> option Z.
Variable el : positive -> nat -> positive.
Variable upper : Z -> Z.
Variable junk : Z -> Z.
(** HAVE_MMAP. *)
Variable mm : bool.

Definition heap_of (q : amem) : state Z := fst (m_pt (a_lib q)).
Definition files_of (q : amem) : (state Z * gmap positive stream) * (MfSpec.files * Z) := ((heap_of q, a_streams q), (a_disk q, a_fds q)).
Definition put_back (q : amem) (st : (state Z * gmap positive stream) * (MfSpec.files * Z)) : amem :=
  let '((s, zs), (fs, n)) := st in Amem (Lmem (s, snd (m_pt (a_lib q))) (m_lists (a_lib q)) (m_blocks (a_lib q))) zs fs n.
(** A name not in use that is not the program's. *)
Definition spare_var (s : state Z) : positive := xI (above (st_env s) + 1).

(** The calls of LibModel (String.cpp:42-369, Array.h:153-176, base64.cpp:103-173; PtModel for HashTable.h) and of MfModel
    (Stream.cpp:59-164; MstModel for Stream.h:45-190), over one heap. *)
Definition aexec (c : acall) (e : env) : M amem aout := fun q =>
  match c with
  | ALib c =>
    match lexec d mdiff grow el upper junk c (e_need e) (a_lib q) with
    | Ok v l => Ok (XLib v) (Amem l (a_streams q) (a_disk q) (a_fds q))
    | Exn x l => Exn x (Amem l (a_streams q) (a_disk q) (a_fds q))
    | Term => Term
    | Fuel => Fuel
    | Undef u => Undef u
    end
  | AFile o =>
    match MfModel.fexec d (spare_var (heap_of q)) mm (e_sys e) (fren str o) (files_of q) with
    | Ok v st => Ok (XFile v) (put_back q st)
    | Exn x st => Exn x (put_back q st)
    | Term => Term
    | Fuel => Fuel
    | Undef u => Undef u
    end
  end.
(** A program: calls in order, exceptions being caught; it asks for the capacity before each seek. *)
Inductive aobs := SSaw (o : MstModel.mobs) | SRet (o : aout) | SThrow (e : exn) | STerm | SFuel | SUndef (u : ub).
Definition asaw (c : acall) (q : amem) : list aobs := match c with ALib _ => [] | AFile o => map SSaw (MfModel.fsaw (fren str o) (files_of q)) end.
Fixpoint aobserve (prog : list (acall * env)) (q : amem) : list aobs :=
  match prog with
  | [] => []
  | (c, e) :: prog' =>
    asaw c q ++ match aexec c e q with
    | Ok v q' => SRet v :: aobserve prog' q'
    | Exn x q' => SThrow x :: aobserve prog' q'
    | Term => [STerm]
    | Fuel => [SFuel]
    | Undef u => [SUndef u]
    end
  end.
End App.
