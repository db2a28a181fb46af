(** Specification of the container API: what a user of String / Array relies on.
    Nothing here refers to the heap model. A program state is a finite map from variables to values; a
    value is a plain list. [None] inside a list is an element whose value is unspecified. *)
From stdpp Require Export gmap.
From Verif Require Export Base.
Open Scope Z_scope.

Section Spec.
Context {T : Type}.

(** API calls. [mv] selects the rvalue overload. *)
Inductive op :=
| CtorDefault (x : positive)
| CtorCopy (x y : positive)
| CtorMove (x y : positive)
| CtorSized (x : positive) (n : Z)
| CtorFill (x : positive) (n : Z) (v : T)
| CtorList (x : positive) (vs : list T)
| CtorRange (x : positive) (vs : list T)
| CtorCstr (x : positive) (mem : list T)
| CtorCstrLen (x : positive) (mem : list T) (n : Z)
| CtorChar (x : positive) (v : T)
| Destroy (x : positive)
| AssignCopy (x y : positive)
| AssignMove (x y : positive)
| Swap (x y : positive)
| AssignList (x : positive) (vs : list T)
| AssignStd (x : positive) (vs : list T)
| Clear (x : positive)
| Resize (x : positive) (n : Z)
| ResizeFill (x : positive) (n : Z) (v : T)
| ReserveIfOwn (x : positive) (n : Z)     (* if (!x.isShared()) x.reserve(n) *)
| SliceTo (x : positive) (start len : Z)
| AppendItem (x : positive) (v : T)
| InsertItem (x : positive) (pos : Z) (v : T)
| InsertN (mv : bool) (x : positive) (pos : Z) (y : positive) (n : Z)
| InsertAll (mv : bool) (x : positive) (pos : Z) (y : positive)
| AppendN (mv : bool) (x y : positive) (n : Z)
| InsertRange (x : positive) (pos : Z) (vs : list T)
| InsertCstr (x : positive) (pos : Z) (mem : list T) (n : Z)
| ReplaceItem (x : positive) (pos : Z) (v : T)
| ReplaceN (mv : bool) (x : positive) (pos : Z) (y : positive) (n : Z)
| ReplaceCstr (x : positive) (pos : Z) (mem : list T) (n : Z)
| Write (x : positive) (pos : Z) (v : T)
| Read (x : positive) (pos : Z)
| At (x : positive) (pos : Z)
| Length (x : positive)
| HashOf (x : positive)
| FindItem (x : positive) (v : T) (pos : Z)
| RFindItem (x : positive) (v : T)
| BeginMut (x : positive)
| PopBack (x : positive)
| Shift (x : positive)
| Pop (x : positive)
| ArrDropFront (x : positive) (n : Z)
| ArrDropBack (x : positive) (n : Z)
| StrDropFront (x : positive) (n : Z)
| StrDropBack (x : positive) (n : Z)
| CStr (guess : bool) (x : positive)
| Trim (sp : T -> bool) (x : positive)
| Chomp (x : positive) (nl cr : T).

Inductive out := ONone | OVal (v : T) | OInt (z : Z) | OMem (m : list (option T)).

(** A live variable holds a value or is moved-from. [room] is false only for Strings that come
    straight from a fill, initializer-list or range constructor (or are copies or slices of one):
    for these c_str() is not part of the contract. *)
Inductive aval := AVal (room : bool) (v : list (option T)) | AMoved.
Notation astate := (gmap positive aval).

(** What the call does: returns, or throws std::out_of_range leaving everything as it was. *)
Inductive sres := SRet (a : astate) (o : out) | SRange.

Definition in_u64 (z : Z) : bool := (0 <=? z) && (z <? W64).
Definition in_s64 (z : Z) : bool := (- W63 <=? z) && (z <? W63).

(** Contents of a C string in memory: everything before the first NUL. *)
Fixpoint cstr_of (isnul : T -> bool) (mem : list T) : option (list T) :=
  match mem with
  | [] => None
  | c :: m => if isnul c then Some [] else option_map (cons c) (cstr_of isnul m)
  end.

(** All elements specified. *)
Fixpoint vals (v : list (option T)) : option (list T) :=
  match v with
  | [] => Some []
  | Some e :: v' => option_map (cons e) (vals v')
  | None :: _ => None
  end.

Definition sp_splice (v : list (option T)) (pos : Z) (w : list (option T)) : list (option T) :=
  ztake pos v ++ w ++ zdrop pos v.
Definition sp_over (v : list (option T)) (pos : Z) (w : list (option T)) : list (option T) :=
  ztake pos v ++ w ++ zdrop (pos + zlen w) v.

(** Slicing: start position after counting from the end and clamping; then the end position. *)
Definition sp_slice_start (n start : Z) : Z := if start <? 0 then Z.max 0 (n + start) else start.
Definition sp_slice {A} (v : list A) (start len : Z) : list A :=
  let n := zlen v in
  let st := sp_slice_start n start in
  if n <=? st then []
  else
    let en := if len =? -1 then n else if len <? 0 then n + len else Z.min n (st + len) in
    ztake (en - st) (zdrop st v).
(** Arguments for which slicing is specified. *)
Definition sp_slice_ok (n start len : Z) : bool :=
  (n <? W31) && in_s64 start && in_s64 len &&
  in_s64 (len + n) && (- W63 + W31 <=? start) &&
  ((-1 <=? len) || (n <=? start) || (sp_slice_start n start <=? n + len)).

Definition sp_hash (h : T -> Z) (v : list T) : Z :=
  fold_left (fun acc c => (33 * acc + h c) mod W64) v 5381 mod W31.

(** Least index [>= i0] (counted from the list start) of an element satisfying [p]. *)
Fixpoint sp_index (p : T -> bool) (v : list T) : option Z :=
  match v with
  | [] => None
  | c :: v' => if p c then Some 0 else option_map Z.succ (sp_index p v')
  end.
Definition sp_last_index (p : T -> bool) (v : list T) : option Z :=
  option_map (fun i => zlen v - 1 - i) (sp_index p (rev v)).
Definition or_npos (o : option Z) : Z := match o with Some i => i | None => npos end.

Fixpoint sp_drop_while (p : T -> bool) (v : list T) : list T :=
  match v with
  | [] => []
  | c :: v' => if p c then sp_drop_while p v' else v
  end.
Definition sp_trim (p : T -> bool) (v : list T) : list T :=
  rev (sp_drop_while p (rev (sp_drop_while p v))).
Definition sp_chomp1 (p : T -> bool) (v : list T) : list T :=
  match rev v with c :: r => if p c then rev r else v | [] => v end.

Section Step.
(** Element type: is it a class, its operator==, its hash; [nul] is the terminator for String. *)
Variable (cls : bool) (eqb : T -> T -> bool) (hashf : T -> Z) (nul : option T).

Definition is_string : bool := match nul with Some _ => true | None => false end.
(** A String cannot be asked for SIZE_MAX elements (the size computation would wrap). *)
Definition size_ok (n : Z) : bool := in_u64 n && negb (is_string && (n =? npos)).
Definition exact_room : bool := negb is_string.

(** [x] holds value [v]. *)
Definition holds (a : astate) (x : positive) : option (bool * list (option T)) :=
  match a !! x with Some (AVal r v) => Some (r, v) | _ => None end.
Definition fresh_var (a : astate) (x : positive) : bool :=
  match a !! x with None => true | Some _ => false end.
Definition live (a : astate) (x : positive) : bool := negb (fresh_var a x).

Definition need {A} (b : bool) (r : option A) : option A := if b then r else None.
Definition same (a : astate) (o : out) : option sres := Some (SRet a o).
Definition put (a : astate) (x : positive) (r : bool) (v : list (option T)) : option sres :=
  Some (SRet (<[x := AVal r v]> a) ONone).

(** Self-insertion in arrays of class type is specified only when source and target do not overlap. *)
Definition alias_ok (x y : positive) (pos k : Z) : bool :=
  negb (cls && Pos.eqb x y) || (pos =? 0) || (k <=? pos).

(** Taking over the whole value of [y]; an rvalue [y] is left moved-from. *)
Definition sp_take (a : astate) (mv : bool) (x y : positive) (ry : bool) (w : list (option T)) :=
  Some (SRet (<[x := AVal ry w]> (if mv then <[y := AMoved]> a else a)) ONone).

(** Insertion of the first [k] elements of [y] at [pos]. Deviation from the documentation, kept here
    because the code does it: inserting at 0 a longer array in full ([full]) does not insert, it
    replaces the old value, so the old elements are lost (see C06 refutation). *)
Definition sp_insert (a : astate) (mv : bool) (x : positive) (pos : Z) (y : positive)
    (k : Z -> Z) (full : Z -> bool) : option sres :=
  match holds a x, holds a y with
  | Some (_, v), Some (ry, w) =>
    need (in_u64 pos)
     (if zlen v <? pos then Some SRange
      else if (pos =? 0) && (zlen v <? zlen w) && full (zlen w) then sp_take a mv x y ry w
      else need (alias_ok x y pos (k (zlen w)))
             (put a x true (sp_splice v pos (ztake (k (zlen w)) w))))
  | _, _ => None
  end.
Definition sp_insert_n (a : astate) (mv : bool) (x : positive) (pos : Z) (y : positive) (n : Z) :=
  need (in_u64 n && live a x && live a y)
    (if n =? 0 then same a ONone else sp_insert a mv x pos y (Z.min n) (Z.eqb n)).

(** Bytes designated by a C string argument with an optional count ([npos]: up to the NUL). *)
Definition sp_carg (mem : list T) (n : Z) : option (list T) :=
  match nul with
  | None => None
  | Some z => if n =? npos then cstr_of (fun c => eqb c z) mem
              else if n <=? zlen mem then Some (ztake n mem) else None
  end.

Definition spec_step (o : op) (a : astate) : option sres :=
  match o with
  | CtorDefault x => need (fresh_var a x) (put a x true [])
  | CtorCopy x y =>
    match holds a y with
    | Some (r, v) => need (fresh_var a x) (put a x r v)
    | None => None
    end
  | CtorMove x y =>
    match holds a y with
    | Some (r, v) => need (fresh_var a x) (Some (SRet (<[x := AVal r v]> (<[y := AMoved]> a)) ONone))
    | None => None
    end
  | CtorSized x n => need (fresh_var a x && in_u64 n) (put a x true [])
  | CtorFill x n v => need (fresh_var a x && in_u64 n) (put a x exact_room (zrep n (Some v)))
  | CtorList x vs => need (fresh_var a x) (put a x exact_room (map Some vs))
  | CtorRange x vs => need (fresh_var a x) (put a x exact_room (map Some vs))
  | CtorCstr x mem =>
    match sp_carg mem npos with
    | Some vs => need (fresh_var a x && (zlen vs <? npos)) (put a x true (map Some vs))
    | None => None
    end
  | CtorCstrLen x mem n =>
    need (fresh_var a x && is_string && (0 <=? n) && (n <? npos) && (n <=? zlen mem))
      (put a x true (map Some (ztake n mem)))
  | CtorChar x v => need (fresh_var a x && is_string) (put a x true [Some v])
  | Destroy x => need (live a x) (Some (SRet (delete x a) ONone))
  | AssignCopy x y =>
    match holds a y with
    | Some (r, v) => need (live a x) (put a x r v)
    | None => None
    end
  | AssignMove x y =>
    if Pos.eqb x y then need (live a x) (same a ONone)
    else match holds a y with
         | Some (r, v) => need (live a x) (sp_take a true x y r v)
         | None => None
         end
  | Swap x y =>
    match a !! x, a !! y with
    | Some vx, Some vy => Some (SRet (<[y := vx]> (<[x := vy]> a)) ONone)
    | _, _ => None
    end
  | AssignList x vs => need (live a x && size_ok (zlen vs)) (put a x true (map Some vs))
  | AssignStd x vs => need (live a x && is_string && (zlen vs <? npos)) (put a x true (map Some vs))
  | Clear x => need (live a x) (put a x true [])
  | Resize x n =>
    match holds a x with
    | Some (r, v) =>
      need (size_ok n)
        (if n <? zlen v then put a x r (ztake n v)
         else put a x true (v ++ zrep (n - zlen v) None))
    | None => None
    end
  | ResizeFill x n e =>
    match holds a x with
    | Some (r, v) =>
      need (size_ok n)
        (if n <? zlen v then put a x r (ztake n v)
         else put a x true (v ++ zrep (n - zlen v) (Some e)))
    | None => None
    end
  | ReserveIfOwn x n =>
    match holds a x with
    | Some (_, v) => need (size_ok n && (zlen v <=? n)) (same a ONone)
    | None => None
    end
  | SliceTo x start len =>
    match holds a x with
    | Some (r, v) => need (sp_slice_ok (zlen v) start len) (put a x r (sp_slice v start len))
    | None => None
    end
  | AppendItem x e =>
    match holds a x with
    | Some (_, v) => put a x true (v ++ [Some e])
    | None => None
    end
  | InsertItem x pos e =>
    match holds a x with
    | Some (_, v) =>
      need (in_u64 pos)
        (if zlen v <? pos then Some SRange else put a x true (sp_splice v pos [Some e]))
    | None => None
    end
  | InsertN mv x pos y n => sp_insert_n a mv x pos y n
  | InsertAll mv x pos y => sp_insert a mv x pos y (fun m => m) (fun _ => true)
  | AppendN mv x y n =>
    match holds a x with
    | Some (_, v) => sp_insert_n a mv x (zlen v) y n
    | None => None
    end
  | InsertRange x pos vs =>
    match holds a x with
    | Some (_, v) =>
      need (in_u64 pos && (pos <=? zlen v) && (zlen v + zlen vs <? W64 - 1))
        (put a x true (sp_splice v pos (map Some vs)))
    | None => None
    end
  | InsertCstr x pos mem n =>
    match holds a x with
    | Some (_, v) =>
      need (is_string && in_u64 pos && in_u64 n)
       (if n =? 0 then same a ONone
        else if zlen v <? pos then Some SRange
        else match sp_carg mem n with
             | Some w => need (zlen v + zlen w <? npos)
                               (put a x true (sp_splice v pos (map Some w)))
             | None => None
             end)
    | None => None
    end
  | ReplaceItem x pos e =>
    match holds a x with
    | Some (_, v) =>
      need (in_u64 pos && negb (pos =? zlen v))
        (if zlen v <? pos then Some SRange else put a x true (sp_over v pos [Some e]))
    | None => None
    end
  | ReplaceN mv x pos y n =>
    match holds a x, holds a y with
    | Some (_, v), Some (ry, w) =>
      need (in_u64 pos && in_u64 n)
       (if n =? 0 then same a ONone
        else if zlen v <? pos then Some SRange
        else let k := Z.min n (zlen w) in
             if (pos =? 0) && (zlen v <? zlen w) && (zlen w <=? n) && ((n =? npos) || (n =? zlen w))
             then sp_take a mv x y ry w
             else need (alias_ok x y pos k) (put a x true (sp_over v pos (ztake k w))))
    | _, _ => None
    end
  | ReplaceCstr x pos mem n =>
    match holds a x with
    | Some (_, v) =>
      need (is_string && in_u64 pos && in_u64 n)
       (if n =? 0 then same a ONone
        else if zlen v <? pos then Some SRange
        else match sp_carg mem n with
             | Some w => need (pos + zlen w <? npos)
                               (put a x true (sp_over v pos (map Some w)))
             | None => None
             end)
    | None => None
    end
  | Write x pos e =>
    match holds a x with
    | Some (_, v) =>
      need ((0 <=? pos) && (pos <? zlen v)) (put a x true (sp_over v pos [Some e]))
    | None => None
    end
  | Read x pos =>
    match holds a x with
    | Some (_, v) =>
      match znth pos v with Some (Some e) => same a (OVal e) | _ => None end
    | None => None
    end
  | At x pos =>
    match holds a x with
    | Some (_, v) =>
      need (in_u64 pos)
        (if zlen v <=? pos then Some SRange
         else match znth pos v with Some (Some e) => same a (OVal e) | _ => None end)
    | None => None
    end
  | Length x =>
    match holds a x with Some (_, v) => same a (OInt (zlen v)) | None => None end
  | HashOf x =>
    match holds a x with
    | Some (_, v) =>
      match vals v with Some es => same a (OInt (sp_hash hashf es)) | None => None end
    | None => None
    end
  | FindItem x e pos =>
    match holds a x with
    | Some (_, v) =>
      need (in_u64 pos)
        (if zlen v <? pos then Some SRange
         else match vals v with
              | Some es => same a (OInt (or_npos (sp_index (fun c => eqb c e) (zdrop pos es))))
              | None => None
              end)
    | None => None
    end
  | RFindItem x e =>
    match holds a x with
    | Some (_, v) =>
      match vals v with
      | Some es => same a (OInt (or_npos (sp_last_index (fun c => eqb c e) es)))
      | None => None
      end
    | None => None
    end
  | BeginMut x =>
    match holds a x with Some (_, v) => put a x true v | None => None end
  | PopBack x =>
    match holds a x with
    | Some (r, v) => need (0 <? zlen v) (put a x r (ztake (zlen v - 1) v))
    | None => None
    end
  | Shift x =>
    match holds a x with
    | Some (r, Some e :: v) => Some (SRet (<[x := AVal r v]> a) (OVal e))
    | _ => None
    end
  | Pop x =>
    match holds a x with
    | Some (r, v) =>
      match znth (zlen v - 1) v with
      | Some (Some e) => Some (SRet (<[x := AVal r (ztake (zlen v - 1) v)]> a) (OVal e))
      | _ => None
      end
    | None => None
    end
  | ArrDropFront x n =>
    match holds a x with
    | Some (r, v) => need ((0 <=? n) && (n <? W31) && (zlen v <? W31)) (put a x r (zdrop n v))
    | None => None
    end
  | ArrDropBack x n =>
    match holds a x with
    | Some (r, v) =>
      need ((0 <=? n) && (n <? W31) && (zlen v <? W31)) (put a x r (ztake (zlen v - n) v))
    | None => None
    end
  | StrDropFront x n =>
    match holds a x with
    | Some (r, v) => need (in_u64 n) (put a x r (zdrop n v))
    | None => None
    end
  | StrDropBack x n =>
    match holds a x with
    | Some (r, v) => need (in_u64 n) (put a x r (ztake (zlen v - n) v))
    | None => None
    end
  | CStr _ x =>
    match nul, holds a x with
    | Some z, Some (true, v) => same a (OMem (v ++ [Some z]))
    | _, _ => None
    end
  | Trim sp x =>
    match holds a x with
    | Some (r, v) =>
      match vals v with Some es => put a x r (map Some (sp_trim sp es)) | None => None end
    | None => None
    end
  | Chomp x nl cr =>
    match holds a x with
    | Some (r, v) =>
      match vals v with
      | Some es =>
        put a x r (map Some (sp_chomp1 (fun c => eqb c cr) (sp_chomp1 (fun c => eqb c nl) es)))
      | None => None
      end
    | None => None
    end
  end.

(** Which variable an operation may leave empty when an allocation fails. *)
Definition target (o : op) : option positive :=
  match o with
  | AssignList x _ | AssignStd x _ | Resize x _ | ResizeFill x _ _ | AppendItem x _
  | InsertItem x _ _ | InsertN _ x _ _ _ | InsertAll _ x _ _ | AppendN _ x _ _
  | InsertRange x _ _ | InsertCstr x _ _ _ | ReplaceItem x _ _ | ReplaceN _ x _ _ _
  | ReplaceCstr x _ _ _ | Write x _ _ | BeginMut x => Some x
  | _ => None
  end.
(** Operations that discard the old value before allocating. *)
Definition discards (o : op) : bool :=
  match o with AssignList _ _ | AssignStd _ _ => true | _ => false end.
End Step.
End Spec.
Arguments op : clear implicits.
Arguments out : clear implicits.
Arguments aval : clear implicits.
Notation astate T := (gmap positive (aval T)).
Arguments sres : clear implicits.
