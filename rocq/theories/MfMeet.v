(** What it means for the model with files to implement MfSpec. *)
From stdpp Require Import gmap.
From Verif Require Import RcaSpec RcaModel RcaExec RcaRel RcaMeet StreamSpec StreamModel StreamMeet StdioModel MstSpec MstModel MstMeet MfSpec MfModel.
Open Scope Z_scope.

Section Meet.
Variable d : desc Z.
Variable t : positive.
Variable mm : bool.
Notation streams := (gmap positive stream).
Notation fstate := ((state Z * streams) * (files * Z))%type.
Implicit Types (st : fstate) (a : astate Z) (m : gmap positive Z) (fs : files).

Record frel st a m fs : Prop := {
  fr_mem : mrel d t (fst st) a m;
  fr_files : fst (snd st) = fs;
  fr_small : forall p f, fs !! p = Some f -> zlen f < W63 }.
(** How a call fares, from which system calls fail. *)
Definition luck_load (x : world) : luck :=
  if mm then if x_mmap x OpenRead then Shut else if x_mmap x Lseek || x_mmap x MmapRead then Lost else Good
  else if x_stdio x KOpenRead then Shut else if x_stdio x Dup || x_stdio x Fdopen then Lost
       else match x_err x with Some k => Part k | None => Good end.
Definition luck_save (x : world) (v : list Z) : luck :=
  if mm then if x_mmap x OpenWrite then Shut
             else if x_mmap x Ftruncate || (negb (zlen v =? 0) && (x_mmap x MmapWrite || x_mmap x Munmap)) then Lost else Good
  else if x_stdio x KOpenWrite then Shut else if x_stdio x Dup || x_stdio x Fdopen then Lost
       else match x_room x with Some k => if k <? zlen v then Lost else Good | None => Good end.
Definition luck_of (x : world) (o : fop) a m : luck :=
  match o with
  | FLoad _ _ _ => luck_load x
  | FSave _ k _ => match strm a m k with Some (_, v, _) => luck_save x v | None => Good end
  | _ => Good
  end.
(** The device does not owe room. *)
Definition sane (x : world) : Prop := match x_room x with Some k => 0 <= k | None => True end.

(** Memory can be refused at a size the call may ask for. *)
Definition fshort (o : fop) a fs : Prop :=
  match o with
  | FDo o => short d o a
  | FLoad _ _ y => exists r w f, text a y = Some (r, w) /\ fs !! file_name w = Some f /\ memlow d (2 * zlen f + 2048)
  | _ => False
  end.
(** The c_str() in a call can end the program: it is noexcept. *)
Definition fends (o : fop) a : Prop :=
  match o with
  | FDo (MString (CStr g y)) | FLoad g _ y | FSave g _ y => short d (MString (CStr g y)) a
  | _ => False
  end.
(** Descriptors that a failed load leaves open. *)
Definition leaked (o : fop) : Z := match o with FLoad _ _ _ => if mm then 1 else 2 | _ => 0 end.
(** What a call has to do. *)
Definition fdoes (x : world) (o : fop) st a m fs (r : fres) : Prop :=
  match fexec d t mm x o st with
  | Ok v st' => snd (snd st') = snd (snd st) /\ exists a' m' (F : files -> Prop) fs' v', r = FRet a' m' F v' /\ F fs' /\ mout_le v' v /\ frel st' a' m' fs'
  | Exn OutOfRange st' => snd (snd st') = snd (snd st) /\ r = FRange /\ frel st' a m fs
  | Exn BadAlloc st' => snd (snd st') = snd (snd st) + leaked o /\ (exists a' m' F v', r = FRet a' m' F v') /\ fshort o a fs /\
      exists a' m', ffail mm (luck_of x o a m) a m fs o a' m' /\ frel st' a' m' fs
  | Term => fends o a
  | Fuel | Undef _ => False
  end.
(** The capacity of the Stream a call is about. *)
Definition fcap (o : fop) st (cap : Z) : Prop := match o with FDo o => cap_of o (fst st) cap | _ => True end.
Definition fseen (o : fop) (cap : Z) : list mobs := match o with FDo o => mseen o cap | _ => [] end.
(** Calls that are specified, return or throw, and do not write the file named [p]. *)
Definition outcome (x : world) (o : fop) st st' : Prop := (exists v, fexec d t mm x o st = Ok v st') \/ (exists e, fexec d t mm x o st = Exn e st').
Inductive elsewhere (p : list Z) : fstate -> list (world * fop) -> fstate -> Prop :=
| ew_nil st : elsewhere p st [] st
| ew_cons st a m fs x o cap r ops st1 st2 : frel st a m fs -> sane x -> fcap o st cap -> fstep (step d) t mm (luck_of x o a m) cap o a m fs = Some r ->
    ftouches o a <> Some p -> outcome x o st st1 -> elsewhere p st1 ops st2 -> elsewhere p st ((x, o) :: ops) st2.
(** Observations allowed for a program. *)
Inductive fallows : astate Z -> gmap positive Z -> files -> list (world * fop) -> list mobs -> Prop :=
| fl_nil a m fs : fallows a m fs [] []
| fl_misuse a m fs x cap o ops tr : fstep (step d) t mm (luck_of x o a m) cap o a m fs = None -> fallows a m fs ((x, o) :: ops) (fseen o cap ++ tr)
| fl_nowhere a m fs x k off wh ops tr : strm a m k = None -> fallows a m fs ((x, FDo (MSeek k off wh)) :: ops) tr
| fl_ret a m fs x cap o ops a' m' (F : files -> Prop) fs' v v' tr :
    fstep (step d) t mm (luck_of x o a m) cap o a m fs = Some (FRet a' m' F v) -> F fs' -> mout_le v v' ->
    fallows a' m' fs' ops tr -> fallows a m fs ((x, o) :: ops) (fseen o cap ++ BRet v' :: tr)
| fl_range a m fs x cap o ops tr : fstep (step d) t mm (luck_of x o a m) cap o a m fs = Some FRange -> fallows a m fs ops tr ->
    fallows a m fs ((x, o) :: ops) (fseen o cap ++ BThrow OutOfRange :: tr)
| fl_oom a m fs x o ops a' m' tr : fshort o a fs -> ffail mm (luck_of x o a m) a m fs o a' m' -> fallows a' m' fs ops tr ->
    fallows a m fs ((x, o) :: ops) (BThrow BadAlloc :: tr)
| fl_term a m fs x o ops : fends o a -> fallows a m fs ((x, o) :: ops) [BTerm].
End Meet.
