(** What a program with several Streams and Strings relies on: every Stream is a text and a cursor of its own, every
    String a text of its own. Nothing here refers to the model. *)
From Verif Require Export RcaSpec StreamSpec.
Open Scope Z_scope.

(** Calls that hand out a String. *)
Inductive get := GPeek | GRead (n delim : Z) | GLine (n : Z) | GString.
(** Streams are [k], [j]; Strings [y], [z]; [mv] selects the rvalue overload. *)
Inductive mop :=
| MString (o : op Z)                      (* a call on Strings *)
| MNew (k : positive)                     (* Stream k; *)
| MSized (k : positive) (n : Z)           (* Stream k(n); *)
| MFrom (mv : bool) (k y : positive)      (* Stream k(y); *)
| MCopy (k j : positive)                  (* Stream k(j); *)
| MMove (k j : positive)                  (* Stream k(std::move(j)); *)
| MAssign (k j : positive)                (* k = j; *)
| MSwap (k j : positive)
| MDestroy (k : positive)
| MPuts (mv : bool) (k y : positive)      (* k.puts(y), k << y *)
| MTake (g : get) (z k : positive)        (* String z(k.peek()) and so on *)
| MSeek (k : positive) (off wh : Z)
| MTell (k : positive)
| MLength (k : positive)
| MNot (k : positive)                     (* !k *)
| MTruncate (k : positive)
| MClear (k : positive).
Inductive mout := MNone | MInt (z : Z) | MBool (b : bool) | MOut (o : out Z).
Inductive mres := MRet (a : astate Z) (m : gmap positive Z) (o : mout) | MRange.

(** The Strings a call mentions. *)
Definition mentions (o : op Z) : list positive :=
  match o with
  | CtorCopy x y | CtorMove x y | AssignCopy x y | AssignMove x y | Swap x y | InsertN _ x _ y _ | InsertAll _ x _ y
  | AppendN _ x y _ | ReplaceN _ x _ y _ => [x; y]
  | CtorDefault x | CtorSized x _ | CtorFill x _ _ | CtorList x _ | CtorRange x _ | CtorCstr x _ | CtorCstrLen x _ _
  | CtorChar x _ | Destroy x | AssignList x _ | AssignStd x _ | Clear x | Resize x _ | ResizeFill x _ _
  | ReserveIfOwn x _ | SliceTo x _ _ | AppendItem x _ | InsertItem x _ _ | InsertRange x _ _ | InsertCstr x _ _ _
  | ReplaceItem x _ _ | ReplaceCstr x _ _ _ | Write x _ _ | Read x _ | At x _ | Length x | HashOf x | FindItem x _ _
  | RFindItem x _ | BeginMut x | PopBack x | Shift x | Pop x | ArrDropFront x _ | ArrDropBack x _ | StrDropFront x _
  | StrDropBack x _ | CStr _ x | Trim _ x | Chomp x _ _ => [x]
  end.
(** The names a call mentions. *)
Definition involved (o : mop) : list positive :=
  match o with
  | MString o => mentions o
  | MNew k | MSized k _ | MDestroy k | MSeek k _ _ | MTell k | MLength k | MNot k | MTruncate k | MClear k => [k]
  | MFrom _ k y | MPuts _ k y => [k; y]
  | MCopy k j | MMove k j | MAssign k j | MSwap k j => [k; j]
  | MTake _ z k => [z; k]
  end.

Section Spec.
(** What a call on Strings does (RcaSpec). *)
Variable ustep : op Z -> astate Z -> option (sres Z).
(** A name the program does not use. *)
Variable t : positive.

(** A name without Stream or String. *)
Definition unused (a : astate Z) (x : positive) : bool := fresh_var a x && negb (Pos.eqb x t).
(** A String of the program's: not a Stream. *)
Definition plain (m : gmap positive Z) (x : positive) : bool :=
  match m !! x with Some _ => false | None => negb (Pos.eqb x t) end.
(** The text under a name, if it is all specified, and whether c_str() is part of the contract. *)
Definition text (a : astate Z) (x : positive) : option (bool * list Z) :=
  match a !! x with
  | Some (AVal r v) => match vals v with Some l => Some (r, l) | None => None end
  | _ => None
  end.
(** The text and the cursor of a Stream. *)
Definition strm (a : astate Z) (m : gmap positive Z) (k : positive) : option (bool * list Z * Z) :=
  match text a k, m !! k with Some (r, v), Some p => Some (r, v, p) | _, _ => None end.

(** What a call takes from text [v] at cursor [p]: the String and the new cursor. *)
Definition taken (g : get) (r : bool) (v : list Z) (p : Z) : option (bool * list Z * Z) :=
  let read n c := need (small (zlen v) && (p <=? zlen v) && (0 <=? n))
                    (let l := piece n c (zdrop p v) in Some (r || negb (c =? 0), l, p + zlen l)) in
  match g with
  | GPeek => need (small (zlen v) && (p <? W63 - W31)) (Some (r, zdrop p v, p))
  | GRead n c => read n c
  | GLine n => if 0 <=? n then read (if n =? 99999999 then zlen v - p else n) 10 else None
  | GString => Some (r, v, p)
  end.
Definition str_ (r : bool) (l : list Z) : aval Z := AVal r (map Some l).

(** [cap] is the capacity of the Stream, which bounds what seek() does. [None]: not specified. *)
Definition mstep (cap : Z) (o : mop) (a : astate Z) (m : gmap positive Z) : option mres :=
  match o with
  | MString o =>
    need (forallb (plain m) (mentions o))
      match ustep o a with
      | Some (SRet a' r) => Some (MRet a' m (MOut r))
      | Some SRange => Some MRange
      | None => None
      end
  | MNew k => need (unused a k) (Some (MRet (<[k := AVal true []]> a) (<[k := 0]> m) MNone))
  | MSized k n => need (unused a k && (- W31 <=? n) && (n <? W31)) (Some (MRet (<[k := AVal true []]> a) (<[k := 0]> m) MNone))
  | MFrom mv k y =>
    match holds a y with
    | Some (r, v) => need (unused a k && plain m y)
        (Some (MRet (<[k := AVal r v]> (if mv then <[y := AMoved]> a else a)) (<[k := 0]> m) MNone))
    | None => None
    end
  | MCopy k j =>
    match holds a j, m !! j with
    | Some (r, v), Some p => need (unused a k) (Some (MRet (<[k := AVal r v]> a) (<[k := p]> m) MNone))
    | _, _ => None
    end
  | MMove k j =>                                   (* the moved-from Stream keeps its cursor *)
    match holds a j, m !! j with
    | Some (r, v), Some p => need (unused a k) (Some (MRet (<[k := AVal r v]> (<[j := AMoved]> a)) (<[k := p]> m) MNone))
    | _, _ => None
    end
  | MAssign k j =>
    match holds a j, m !! j, m !! k with
    | Some (r, v), Some p, Some _ => Some (MRet (<[k := AVal r v]> a) (<[k := p]> m) MNone)
    | _, _, _ => None
    end
  | MSwap k j =>
    match a !! k, a !! j, m !! k, m !! j with
    | Some x, Some y, Some p, Some q => Some (MRet (<[j := x]> (<[k := y]> a)) (<[j := p]> (<[k := q]> m)) MNone)
    | _, _, _, _ => None
    end
  | MDestroy k => match m !! k with Some _ => Some (MRet (delete k a) (delete k m) MNone) | None => None end
  | MPuts mv k y =>
    match strm a m k, text a y with
    | Some (r, v, p), Some (ry, w) =>
      need (plain m y)
        (if zlen v <? p then Some MRange
         else if (p =? 0) && (zlen v <? zlen w)    (* the whole text is replaced, an rvalue is left moved-from *)
         then Some (MRet (<[k := str_ ry w]> (if mv then <[y := AMoved]> a else a)) (<[k := zlen w]> m) MNone)
         else Some (MRet (<[k := str_ true (over v p w)]> a) (<[k := p + zlen w]> m) MNone))
    | _, _ => None
    end
  | MTake g z k =>
    match strm a m k with
    | Some (r, v, p) =>
      match taken g r v p with
      | Some (rz, l, p') => need (unused a z) (Some (MRet (<[z := str_ rz l]> a) (<[k := p']> m) MNone))
      | None => None
      end
    | None => None
    end
  | MSeek k off wh =>
    match strm a m k with
    | Some (r, v, p) =>
      match pstep cap (SSeek off wh) v p with
      | Some (PRet _ q _) => Some (MRet a (<[k := q]> m) (MInt q))
      | _ => None
      end
    | None => None
    end
  | MTell k => match m !! k with Some p => Some (MRet a m (MInt p)) | None => None end
  | MLength k => match holds a k, m !! k with Some (_, v), Some _ => Some (MRet a m (MInt (zlen v))) | _, _ => None end
  | MNot k => match holds a k, m !! k with Some (_, v), Some _ => Some (MRet a m (MBool (zlen v =? 0))) | _, _ => None end
  | MTruncate k =>
    match strm a m k with
    | Some (r, v, p) => need (small (zlen v) && (p <? W63 - W31)) (Some (MRet (<[k := str_ r (ztake p v)]> a) m MNone))
    | None => None
    end
  | MClear k => match m !! k with Some _ => Some (MRet (<[k := AVal true []]> a) (<[k := 0]> m) MNone) | None => None end
  end.

(** What bad_alloc may leave behind: all is as it was; or the text that was being written to is gone; or a read has
    moved the cursor over bytes that are lost to it. *)
Inductive mfail (a : astate Z) (m : gmap positive Z) : mop -> astate Z -> gmap positive Z -> Prop :=
| mf_string o : mfail a m (MString o) a m
| mf_emptied o x : target o = Some x -> mfail a m (MString o) (<[x := AVal true []]> a) m
| mf_sized k n : mfail a m (MSized k n) a m
| mf_puts mv k y : mfail a m (MPuts mv k y) a m
| mf_puts_gone mv k y : mfail a m (MPuts mv k y) (<[k := AVal true []]> a) m
| mf_take g z k r v p rz l p' p'' : strm a m k = Some (r, v, p) -> taken g r v p = Some (rz, l, p') -> p <= p'' <= p' ->
    mfail a m (MTake g z k) a (<[k := p'']> m).
End Spec.
