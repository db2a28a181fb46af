(** What a user of Stream relies on: a list of bytes and a cursor. Nothing here refers to the model. *)
From Verif Require Export Base.
Open Scope Z_scope.

(** Calls. A String argument or result is its bytes. *)
Inductive sop :=
| SPuts (mv : bool) (w : list Z)
| SSeek (offset whence : Z)
| STell
| SLength
| STruncate
| SPeek
| SRead (n delim : Z)
| SGetline (n : Z)
| SString
| SClear.
Inductive sout := RNone | RInt (z : Z) | RBytes (l : list Z).
Inductive spres := PRet (v : list Z) (p : Z) (o : sout) | PRange.

(** Writing [w] over [v] from position [p] on. *)
Definition over (v : list Z) (p : Z) (w : list Z) : list Z := ztake p v ++ w ++ zdrop (p + zlen w) v.
Definition clamp (lo hi z : Z) : Z := Z.max lo (Z.min hi z).
(** Where the first byte [c] is. *)
Fixpoint first_at (c : Z) (l : list Z) : option Z :=
  match l with
  | [] => None
  | b :: l' => if b =? c then Some 0 else option_map Z.succ (first_at c l')
  end.
(** What a read takes from the remaining bytes. With a delimiter, at most [n] bytes and additionally
    the delimiter if it comes next. *)
Definition piece (n delim : Z) (rest : list Z) : list Z :=
  if delim =? 0 then ztake n rest
  else match first_at delim rest with
       | Some i => if i <=? n then ztake (i + 1) rest else ztake n rest
       | None => ztake n rest
       end.
Definition small (z : Z) : bool := (0 <=? z) && (z <? W31).

(** The call on data [v] with cursor [p]; [cap] is the capacity, which bounds the cursor. [None] is a
    call whose effect is not specified: the data has 2 GB or more, or the cursor is behind the data and
    the call reads. *)
Definition pstep (cap : Z) (o : sop) (v : list Z) (p : Z) : option spres :=
  match o with
  | SPuts _ w => if zlen w <? npos then Some (if zlen v <? p then PRange else PRet (over v p w) (p + zlen w) RNone) else None
  | SSeek off wh =>
    if small cap && small p && (- W31 <=? off) && (off <? W31) then
      let go q := let q' := clamp 0 cap q in Some (PRet v q' (RInt q')) in
      if wh =? 0 then go off
      else if wh =? 1 then if p + off <? W31 then go (p + off) else None
      else if wh =? 2 then if cap - off <? W31 then go (cap - off) else None
      else go p
    else None
  | STell => Some (PRet v p (RInt p))
  | SLength => Some (PRet v p (RInt (zlen v)))
  | STruncate => if small (zlen v) && (p <? W63 - W31) then Some (PRet (ztake p v) p RNone) else None
  | SPeek => if small (zlen v) && (p <? W63 - W31) then Some (PRet v p (RBytes (zdrop p v))) else None
  | SRead n delim =>
    if small (zlen v) && (p <=? zlen v) && (0 <=? n) then
      let l := piece n delim (zdrop p v) in Some (PRet v (p + zlen l) (RBytes l))
    else None
  | SGetline n =>
    if small (zlen v) && (p <=? zlen v) && (0 <=? n) then
      let l := piece (if n =? 99999999 then zlen v - p else n) 10 (zdrop p v) in
      Some (PRet v (p + zlen l) (RBytes l))
    else None
  | SString => Some (PRet v p (RBytes v))
  | SClear => Some (PRet [] 0 RNone)
  end.

(** After a failed allocation: the data is what it was, or, for puts, may be gone; the cursor may have
    moved over bytes that had already been taken by the read that failed. *)
Definition fail_ok (o : sop) (v : list Z) (p : Z) (v' : list Z) (p' : Z) : Prop :=
  match o with
  | SPuts _ _ => p' = p /\ (v' = v \/ v' = [])
  | SRead n c => v' = v /\ p <= p' <= p + zlen (piece n c (zdrop p v))
  | SGetline n => v' = v /\ p <= p' <= p + zlen (piece (if n =? 99999999 then zlen v - p else n) 10 (zdrop p v))
  | _ => False
  end.

(** The program asks for the capacity before each seek. *)
Inductive sobs := SoCap (c : Z) | SoRet (o : sout) | SoThrow (e : exn) | SoCrash.
Definition seen (o : sop) (cap : Z) : list sobs := match o with SSeek _ _ => [SoCap cap] | _ => [] end.
(** Observations allowed for a sequence of calls; [low o v]: memory can be refused at a size that call [o] on data [v]
    may ask for. *)
Inductive sallows (low : sop -> list Z -> Prop) : list Z -> Z -> list sop -> list sobs -> Prop :=
| sa_nil v p : sallows low v p [] []
| sa_misuse v p o ops tr cap : zlen v <= cap -> pstep cap o v p = None -> sallows low v p (o :: ops) (seen o cap ++ tr)
| sa_ret v p o ops tr cap v' p' r :
    zlen v <= cap -> pstep cap o v p = Some (PRet v' p' r) -> sallows low v' p' ops tr -> sallows low v p (o :: ops) (seen o cap ++ SoRet r :: tr)
| sa_range v p o ops tr cap :
    zlen v <= cap -> pstep cap o v p = Some PRange -> sallows low v p ops tr -> sallows low v p (o :: ops) (seen o cap ++ SoThrow OutOfRange :: tr)
| sa_oom v p o ops tr v' p' :
    low o v -> fail_ok o v p v' p' -> sallows low v' p' ops tr -> sallows low v p (o :: ops) (SoThrow BadAlloc :: tr).

(** The lines of a byte sequence, each with its newline. *)
Fixpoint split_lines (l : list Z) : list (list Z) :=
  match l with
  | [] => []
  | c :: l' => if c =? 10 then [c] :: split_lines l'
               else match split_lines l' with
                    | [] => [[c]]
                    | m :: ms => (c :: m) :: ms
                    end
  end.
