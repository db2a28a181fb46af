(** What it means for the model of tables and Strings to implement PtSpec. *)
From Verif Require Import RcaSpec RcaModel RcaExec RcaRel RcaMeet NestModel HashModel HsModel HsMeet HtMeet PtSpec PtModel.
From stdpp Require Import gmap.
Open Scope Z_scope.

Section Meet.
Variable d : desc Z.
Variable mdiff : Z -> Z -> Z.
Variable grow : Z -> Z -> option Z.
Notation tables := (gmap positive (umap positive positive)).

(** The tables hold [ms], each in Strings of its own under names that are not the program's, whose Strings are [b]. *)
Definition prel (st : state Z * tables) (ms : maps) (b : astate Z) : Prop :=
  exists a, reached d (fst st) a /\ all d a (snd st) ms (kmap str b) /\
    forall i u x, snd st !! i = Some u -> x ∈ owned u -> exists q, x = xI q.

(** Results agree; unspecified elements may have any value. *)
Definition pout_le (o o' : pout) : Prop := match o, o' with POut r, POut r' => out_le r r' | _, _ => o = o' end.
(** Memory can be refused to a call on Strings. *)
Definition ushort (o : op Z) (b : astate Z) : Prop :=
  exists b' v x, step d o b = Some (SRet b' v) /\ subject o = Some x /\ no_memory d (asks o b' x).
(** It is refused to this call, or can be. *)
Definition short (c : pcall) (tr : trouble) (ms : maps) (b : astate Z) : Prop :=
  match c with
  | PString o => ushort o b
  | PMake _ n => t_lack tr <> LNone /\ 1 < n
  | PList _ _ _ => exists e, In e (t_lack tr :: t_lacks tr) /\ e <> LNone
  | PCopy _ _ => exists n, t_fails tr n = true
  | PAssign i j => i <> j /\ exists n, t_fails tr n = true
  | PInsert _ _ _ _ _ | PPut _ _ _ _ _ => t_lack tr <> LNone
  | PValue mk i k o =>
    t_lack tr <> LNone \/
    exists m l rm, ms !! i = Some m /\ key b k = Some l /\
      ushort o (<[1%positive := AVal rm (map Some (default [] (m !! l)))]> (match m !! l with Some _ => b | None => robbed mk k b end))
  | PFind i k o => exists m l w rm, ms !! i = Some m /\ key b k = Some l /\ m !! l = Some w /\ ushort o (<[1%positive := AVal rm (map Some w)]> b)
  | _ => False
  end.
(** What a call has to do. *)
Definition pdoes (c : pcall) (tr : trouble) (st : state Z * tables) (ms : maps) (b : astate Z) : Prop :=
  match pexec d mdiff grow c tr st with
  | Ok v st' => exists rm ms' b' v', pstep (step d) rm c ms b = Some (PRet ms' b' v') /\ pout_le v' v /\ prel st' ms' b'
  | Exn OutOfRange st' => exists rm ms' b', pstep (step d) rm c ms b = Some (PRange ms' b') /\ prel st' ms' b'
  | Exn BadAlloc st' => short c tr ms b /\ exists ms' b', pfail ms b c ms' b' /\ prel st' ms' b'
  | _ => False
  end.

(** Observations allowed for a program. *)
Inductive pallows : maps -> astate Z -> list (pcall * trouble) -> list pobs -> Prop :=
| pl_nil ms b : pallows ms b [] []
| pl_misuse ms b c tr prog os : (forall rm, pstep (step d) rm c ms b = None) -> pallows ms b ((c, tr) :: prog) os
| pl_ret ms b c tr prog rm ms' b' v v' os : pstep (step d) rm c ms b = Some (PRet ms' b' v) -> pout_le v v' ->
    pallows ms' b' prog os -> pallows ms b ((c, tr) :: prog) (QRet v' :: os)
| pl_range ms b c tr prog rm ms' b' os : pstep (step d) rm c ms b = Some (PRange ms' b') ->
    pallows ms' b' prog os -> pallows ms b ((c, tr) :: prog) (QThrow OutOfRange :: os)
| pl_oom ms b c tr prog ms' b' os : short c tr ms b -> pfail ms b c ms' b' ->
    pallows ms' b' prog os -> pallows ms b ((c, tr) :: prog) (QThrow BadAlloc :: os).
End Meet.
