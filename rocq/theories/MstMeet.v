(** What it means for the model of several Streams to implement MstSpec. *)
From Verif Require Import RcaSpec RcaModel RcaExec RcaRel RcaMeet StreamSpec StreamModel StreamMeet MstSpec MstModel.
Open Scope Z_scope.

Section Meet.
Variable d : desc Z.
Variable t : positive.
Notation streams := (gmap positive stream).
Implicit Types (s : state Z) (zs : streams) (a : astate Z) (m : gmap positive Z).

(** The heap holds the texts [a], the Streams are those of [m] with their cursors, and [t] is free for temporaries. *)
Record mrel (st : state Z * streams) a m : Prop := {
  mr_reached : reached d (fst st) a;
  mr_tmp : a !! t = None;
  mr_live : forall k p, m !! k = Some p -> is_Some (a !! k) /\ 0 <= p < W64 /\ exists b, snd st !! k = Some (Stream k p b);
  mr_none : forall k, m !! k = None -> snd st !! k = None }.

(** Results agree; unspecified elements may have any value. *)
Definition mout_le (o o' : mout) : Prop :=
  match o, o' with MOut r, MOut r' => out_le r r' | _, _ => o = o' end.
(** Memory can be refused at a size the call may ask for. *)
Definition short (o : mop) a : Prop :=
  match o with
  | MString o => exists a' v x, step d o a = Some (SRet a' v) /\ subject o = Some x /\ no_memory d (asks o a' x)
  | MSized _ n => memlow d (n + 1024)
  | MPuts _ k y => memlow d (vlen a k + vlen a y + 3)
  | MTake _ _ k => memlow d (vlen a k + 3)
  | _ => False
  end.
(** What a call has to do. *)
Definition mdoes (o : mop) st a m (r : mres) : Prop :=
  match mexec d t o st with
  | Ok v st' => exists a' m' v', r = MRet a' m' v' /\ mout_le v' v /\ mrel st' a' m'
  | Exn OutOfRange st' => r = MRange /\ mrel st' a m
  | Exn BadAlloc st' => (exists a' m' v', r = MRet a' m' v') /\ short o a /\ exists a' m', mfail a m o a' m' /\ mrel st' a' m'
  | Term => exists g x, o = MString (CStr g x) /\ short o a
  | Fuel | Undef _ => False
  end.
(** The capacity of the Stream a call is about. *)
Definition cap_of (o : mop) (st : state Z * streams) (cap : Z) : Prop :=
  match o with MSeek k _ _ => capacity k (fst st) = Ok cap (fst st) | _ => True end.

Definition mseen (o : mop) (cap : Z) : list mobs := match o with MSeek _ _ _ => [BCap cap] | _ => [] end.
(** Observations allowed for a program. *)
Inductive mallows : astate Z -> gmap positive Z -> list mop -> list mobs -> Prop :=
| ml_nil a m : mallows a m [] []
| ml_misuse a m cap o ops tr : mstep (step d) t cap o a m = None -> mallows a m (o :: ops) (mseen o cap ++ tr)
| ml_nowhere a m k off wh ops tr : strm a m k = None -> mallows a m (MSeek k off wh :: ops) tr
| ml_ret a m cap o ops a' m' v v' tr : mstep (step d) t cap o a m = Some (MRet a' m' v) -> mout_le v v' ->
    mallows a' m' ops tr -> mallows a m (o :: ops) (mseen o cap ++ BRet v' :: tr)
| ml_range a m cap o ops tr : mstep (step d) t cap o a m = Some MRange -> mallows a m ops tr ->
    mallows a m (o :: ops) (mseen o cap ++ BThrow OutOfRange :: tr)
| ml_oom a m o ops a' m' tr : short o a -> mfail a m o a' m' -> mallows a' m' ops tr ->
    mallows a m (o :: ops) (BThrow BadAlloc :: tr)
| ml_term a m g x ops : short (MString (CStr g x)) a -> mallows a m (MString (CStr g x) :: ops) [BTerm].
End Meet.
