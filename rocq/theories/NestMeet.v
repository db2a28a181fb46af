(** What a program with arrays of Strings relies on. Arrays and Strings are values: an array is a list of texts, and
    nothing is shared. *)
From Verif Require Import RcaSpec RcaModel RcaInv RcaOwn RcaMeet NestModel.
Open Scope Z_scope.

(** The value of an element (with the flag of RcaSpec.v about room for a terminator), and of an array. *)
Definition sval : Type := bool * list (option Z).
Definition sv (v : sval) : aval Z := AVal (fst v) (snd v).
Inductive aarr := NVal (vs : list sval) | NMoved.
Notation arrs := (gmap positive aarr).
Definition elems (A : arrs) (x : positive) : option (list sval) := match A !! x with Some (NVal vs) => Some vs | _ => None end.
(** A String that can be copied. *)
Definition item (b : astate Z) (v : positive) : option sval := match b !! v with Some (AVal r w) => Some (r, w) | _ => None end.
Definition elem (A : arrs) (y : positive) (i : Z) : option sval := match elems A y with Some ws => znth i ws | None => None end.
(** An rvalue that was moved from. *)
Definition given (mv : bool) (v : positive) (b : astate Z) : astate Z := if mv then <[v := AMoved]> b else b.
Definition is_cstr (o : op Z) : bool := match o with CStr _ _ => true | _ => false end.
(** The String a call makes longer has not been moved from. *)
Definition settled (o : op Z) (b : astate Z) : bool :=
  match target o with Some t => match b !! t with Some AMoved => false | _ => true end | None => true end.

Inductive nres := NRet (A : arrs) (b : astate Z) (v : out Z) | NRange.
Section Spec.
Variable d : desc Z.
Definition nput (A : arrs) (b : astate Z) (x : positive) (vs : list sval) : option nres := Some (NRet (<[x := NVal vs]> A) b ONone).
(** What calls do to arrays [A] and Strings [b]; [None]: the call is not allowed. *)
Definition nstep (o : nop) (A : arrs) (b : astate Z) : option nres :=
  match o with
  | NStr o => if is_cstr o then None else
    match step d o b with
    | Some (SRet b' v) => Some (NRet A b' v)
    | Some SRange => Some NRange
    | None => None
    end
  | NNew x => match A !! x with None => nput A b x [] | _ => None end
  | NCopy x y => match A !! x, elems A y with None, Some vs => nput A b x vs | _, _ => None end
  | NMove x y => match A !! x, elems A y with None, Some vs => nput (<[y := NMoved]> A) b x vs | _, _ => None end
  | NKill x => match A !! x with Some _ => Some (NRet (delete x A) b ONone) | None => None end
  | NAssign x y => match A !! x, elems A y with Some _, Some vs => nput A b x vs | _, _ => None end
  | NAssignMove x y =>
    if Pos.eqb x y then match A !! x with Some _ => Some (NRet A b ONone) | None => None end else
    match A !! x, elems A y with Some _, Some vs => nput (<[y := NMoved]> A) b x vs | _, _ => None end
  | NSwap x y => match A !! x, A !! y with Some vx, Some vy => Some (NRet (<[y := vx]> (<[x := vy]> A)) b ONone) | _, _ => None end
  | NClear x => match A !! x with Some _ => nput A b x [] | None => None end
  | NReserve x n =>
    match elems A x with Some vs => if in_u64 n && (zlen vs <=? n) then Some (NRet A b ONone) else None | None => None end
  | NResize x n =>
    match elems A x with Some vs => if (0 <=? n) && (n <=? zlen vs) then nput A b x (ztake n vs) else None | None => None end
  | NSlice x start len =>
    match elems A x with Some vs => if sp_slice_ok (zlen vs) start len then nput A b x (sp_slice vs start len) else None | None => None end
  | NInsert mv x pos v =>
    match elems A x, item b v with
    | Some vs, Some w =>
      if in_u64 pos then
        if zlen vs <? pos then Some NRange else nput A (given mv v b) x (ztake pos vs ++ w :: zdrop pos vs)
      else None
    | _, _ => None
    end
  | NAppend mv x v =>
    match elems A x, item b v with Some vs, Some w => nput A (given mv v b) x (vs ++ [w]) | _, _ => None end
  | NInsertArray x pos y =>
    if Pos.eqb x y then None else
    match elems A x, elems A y with
    | Some vs, Some ws =>
      if in_u64 pos then
        if zlen vs <? pos then Some NRange
        else if (pos =? 0) && (zlen vs <? zlen ws) then nput A b x ws      (* replaces the old value, see C06 *)
        else nput A b x (ztake pos vs ++ ws ++ zdrop pos vs)
      else None
    | _, _ => None
    end
  | NWrite mv x pos v =>
    match elems A x, item b v with
    | Some vs, Some w => if (0 <=? pos) && (pos <? zlen vs) then nput A (given mv v b) x (zupd pos [w] vs) else None
    | _, _ => None
    end
  | NReplace mv x pos v =>
    match elems A x, item b v with
    | Some vs, Some w =>
      if in_u64 pos && negb (pos =? zlen vs) then
        if zlen vs <? pos then Some NRange else nput A (given mv v b) x (zupd pos [w] vs)
      else None
    | _, _ => None
    end
  (* The item is an element of another array; to write or to replace it may be one of the same array. *)
  | NInsertEl x pos y i =>
    if Pos.eqb x y then None else
    match elems A x, elem A y i with
    | Some vs, Some w =>
      if in_u64 pos then if zlen vs <? pos then Some NRange else nput A b x (ztake pos vs ++ w :: zdrop pos vs) else None
    | _, _ => None
    end
  | NAppendEl x y i =>
    if Pos.eqb x y then None else
    match elems A x, elem A y i with Some vs, Some w => nput A b x (vs ++ [w]) | _, _ => None end
  | NWriteEl x pos y i =>
    match elems A x, elem A y i with
    | Some vs, Some w => if (0 <=? pos) && (pos <? zlen vs) then nput A b x (zupd pos [w] vs) else None
    | _, _ => None
    end
  | NReplaceEl x pos y i =>
    match elems A x, elem A y i with
    | Some vs, Some w =>
      if in_u64 pos && negb (pos =? zlen vs) then if zlen vs <? pos then Some NRange else nput A b x (zupd pos [w] vs) else None
    | _, _ => None
    end
  | NElem x pos o => if is_cstr o || negb (settled o (delete 1%positive b)) then None else
    match elems A x with
    | Some vs =>
      match znth pos vs with
      | Some v =>
        match step d o (<[1%positive := sv v]> b) with
        | Some (SRet b' w) =>
          match item b' 1 with
          | Some v' => Some (NRet (<[x := NVal (zupd pos [v'] vs)]> A) (partial_alter (fun _ => b !! 1%positive) 1%positive b') w)
          | None => None
          end
        | Some SRange => Some NRange
        | None => None
        end
      | None => None
      end
    | None => None
    end
  | NPeek x pos o => if is_cstr o || bool_decide (target o = Some 1%positive) then None else
    match elems A x with
    | Some vs =>
      match znth pos vs with
      | Some v =>
        match step d o (<[1%positive := sv v]> b) with
        | Some (SRet b' w) =>
          if bool_decide (item b' 1 = Some v) then Some (NRet A (partial_alter (fun _ => b !! 1%positive) 1%positive b') w) else None
        | Some SRange => Some NRange
        | None => None
        end
      | None => None
      end
    | None => None
    end
  | NGet r x pos =>
    match elems A x, b !! r with
    | Some vs, None => match znth pos vs with Some v => Some (NRet A (<[r := sv v]> b) ONone) | None => None end
    | _, _ => None
    end
  | NShift r x =>
    match elems A x, b !! r with Some (v :: vs), None => nput A (<[r := sv v]> b) x vs | _, _ => None end
  | NPop r x =>
    match elems A x, b !! r with
    | Some vs, None =>
      match znth (zlen vs - 1) vs with Some v => nput A (<[r := sv v]> b) x (ztake (zlen vs - 1) vs) | None => None end
    | _, _ => None
    end
  end.
End Spec.

(** The array whose buffer a call may replace. *)
Definition ntarget (o : nop) : option positive :=
  match o with
  | NReserve x _ | NResize x _ | NInsert _ x _ _ | NAppend _ x _ | NInsertArray x _ _ | NWrite _ x _ _ | NReplace _ x _ _
  | NInsertEl x _ _ _ | NAppendEl x _ _ | NWriteEl x _ _ _ | NReplaceEl x _ _ _ | NElem x _ _ => Some x
  | _ => None
  end.
(** Arrays and Strings a call may change. *)
Definition nchanges (o : nop) : list positive :=
  match o with
  | NStr _ | NPeek _ _ _ | NGet _ _ _ | NReserve _ _ => []
  | NNew x | NCopy x _ | NKill x | NAssign x _ | NClear x | NResize x _ | NSlice x _ _ | NInsert _ x _ _ | NAppend _ x _
  | NInsertArray x _ _ | NWrite _ x _ _ | NReplace _ x _ _ | NInsertEl x _ _ _ | NAppendEl x _ _ | NWriteEl x _ _ _ | NReplaceEl x _ _ _
  | NElem x _ _ | NShift _ x | NPop _ x => [x]
  | NMove x y | NAssignMove x y | NSwap x y => [x; y]
  end.
(** The program can see how long an array, one of its Strings, or an element is. *)
Definition alen (x : positive) (s : nstate) : option Z := match length_of x (n_out s) with Ok n _ => Some n | _ => None end.
Definition slen (z : positive) (s : nstate) : option Z := match length_of z (n_in s) with Ok n _ => Some n | _ => None end.
Definition elen (x : positive) (pos : Z) (s : nstate) : option Z := match nslot x pos s with Ok z _ => slen z s | _ => None end.
(** After bad_alloc: what the call works on has kept its value, or is empty, which shows. *)
Definition fell (n : option Z) (t : positive) (b : astate Z) : astate Z := if bool_decide (n = Some 0) then <[t := AVal true []]> b else b.
Definition noom (o : nop) (s' : nstate) (A : arrs) (b : astate Z) : arrs * astate Z :=
  match o with
  | NStr o' | NPeek _ _ o' => match target o' with Some t => (A, fell (slen (str t) s') t b) | None => (A, b) end
  | NElem x pos o' =>
    if bool_decide (alen x s' = Some 0) then (<[x := NVal []]> A, b) else
    match elems A x, target o' with
    | Some vs, Some 1%positive =>
      (if bool_decide (elen x pos s' = Some 0 /\ option_map snd (znth pos vs) <> Some []) then <[x := NVal (zupd pos [(true, [])] vs)]> A else A, b)
    | _, Some t => (A, fell (slen (str t) s') t b)
    | _, None => (A, b)
    end
  | NReserve _ _ => (A, b)
  | _ =>
    match ntarget o with
    | Some x => (if bool_decide (alen x s' = Some 0) then <[x := NVal []]> A else A, b)
    | None => (A, b)
    end
  end.

Section Meet.
Variable d : desc Z.
Variable od : desc positive.
(** Reading everything. *)
Definition shows_str (s : nstate) (z : positive) (v : list (option Z)) : Prop :=
  length_of z (n_in s) = Ok (zlen v) (n_in s) /\ forall i e, znth i v = Some (Some e) -> read z i (n_in s) = Ok e (n_in s).
Definition nshows (s : nstate) (A : arrs) (b : astate Z) : Prop :=
  (forall x vs, A !! x = Some (NVal vs) -> length_of x (n_out s) = Ok (zlen vs) (n_out s) /\
     forall i v, znth i vs = Some v -> exists z, nslot x i s = Ok z s /\ shows_str s z (snd v)) /\
  forall y r v, b !! y = Some (AVal r v) -> shows_str s (str y) v.
(** States a program can reach when it respects the preconditions, with the values predicted for them. *)
Inductive nreached : nstate -> arrs -> astate Z -> Prop :=
| nre_init : nreached n_init ∅ ∅
| nre_ret s A b o A' b' v v' s' :
    nreached s A b -> nstep d o A b = Some (NRet A' b' v) -> nexec d od o s = Ok v' s' -> nreached s' A' b'
| nre_range s A b o s' :
    nreached s A b -> nstep d o A b = Some NRange -> nexec d od o s = Exn OutOfRange s' -> nreached s' A b
| nre_oom s A b o r s' :
    nreached s A b -> nstep d o A b = Some r -> nexec d od o s = Exn BadAlloc s' ->
    nreached s' (fst (noom o s' A b)) (snd (noom o s' A b)).
(** Memory can run out: an allocation of the array, or one of the String the call is about, is refused, or the size is
    absurd. *)
Definition after (r : nres) (A : arrs) : arrs := match r with NRet A' _ _ => A' | NRange => A end.
Definition nasks (o : nop) (A' : arrs) (x : positive) : Z :=
  match o with NReserve _ n => n + 1 | _ => match elems A' x with Some vs => zlen vs + 2 | None => 2 end end.
Definition inner_call (o : nop) (A : arrs) (b : astate Z) : option (op Z * astate Z) :=
  match o with
  | NStr o' => Some (o', b)
  | NElem x pos o' | NPeek x pos o' =>
    match elems A x with
    | Some vs => match znth pos vs with Some v => Some (o', <[1%positive := sv v]> b) | None => None end
    | None => None
    end
  | _ => None
  end.
Definition nstarves (o : nop) (A : arrs) (b : astate Z) (r : nres) : Prop :=
  (exists x, ntarget o = Some x /\ no_memory od (nasks o (after r A) x)) \/
  exists o' b0 b1 v t, inner_call o A b = Some (o', b0) /\ step d o' b0 = Some (SRet b1 v) /\ subject o' = Some t /\
    no_memory d (asks o' b1 t).
(** The call does what the specification says, or runs out of memory. *)
Definition nyields (o : nop) (s : nstate) (A : arrs) (b : astate Z) (r : nres) : Prop :=
  match r with
  | NRet A' b' v => exists s' v', nexec d od o s = Ok v' s' /\ out_le v v' /\ nreached s' A' b' /\ nshows s' A' b'
  | NRange => exists s', nexec d od o s = Exn OutOfRange s' /\ nreached s' A b /\ nshows s' A b
  end \/
  (nstarves o A b r /\ exists s' A' b', nexec d od o s = Exn BadAlloc s' /\ (A', b') = noom o s' A b /\ nreached s' A' b' /\ nshows s' A' b').
End Meet.
