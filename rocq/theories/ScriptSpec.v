(** What users of the script interface rely on, and what is assumed of Tcl. *)
From Verif Require Import Base StrSpec StrModel ScriptModel.
Open Scope Z_scope.

(** Objects made by Tcl_New... give their value back; a long is in range. *)
Record tcl_ok (tc : tcl) : Prop := {
  ok_long : forall z, - W63 <= z < W63 -> get_long tc (TInt z) = Some z;
  ok_long_range : forall o z, get_long tc o = Some z -> - W63 <= z < W63;
  ok_double : forall b, get_double tc (TDouble b) = Some b;
  ok_bool : forall b, get_bool tc (TBool b) = Some (if b then 1 else 0);
  ok_text : forall t, get_string tc (TText t) = Some t;
  ok_list : forall l, get_list tc (TList l) = Some l
}.
(** Values of the integer types. *)
Definition in_type (t : ity) (z : Z) : Prop :=
  match t with
  | I8 => -128 <= z <= 127 | U8 => 0 <= z <= 255
  | I16 => -32768 <= z <= 32767 | U16 => 0 <= z <= 65535
  | I32 => -2147483648 <= z <= 2147483647 | U32 => 0 <= z <= 4294967295
  | I64 => - W63 <= z < W63 | U64 => 0 <= z < W64
  end.
Definition is_signed (t : ity) : bool := match t with I8 | I16 | I32 | I64 => true | _ => false end.
Definition width (t : ity) : Z := match t with I8 | U8 => 8 | I16 | U16 => 16 | I32 | U32 => 32 | I64 | U64 => 64 end.

(** Texts that fit a Tcl string. *)
Definition short (t : chars) : Prop := zlen t < 2147483647.
(** Values that come back. *)
Definition portable (ty : cty) (v : cval) : Prop :=
  match ty, v with
  | CInt t, VInt z => if is_signed t then in_type t z else t <> U64 /\ 0 <= z < 2 ^ (width t - 1)
  | CDouble, VDouble _ => True
  | CBool, VBool _ => True
  | CString, VString t => short t
  | CCstr, VCstr (Some t) => short t /\ ~ In 0 t
  | CStrings, VStrings l => Forall short l
  | CTable, VTable l => Forall (Forall short) l
  | _, _ => False
  end.

(** What stands for a missing argument: zero, false, the empty String, no pointer, an empty Array. *)
Definition missing (t : cty) : cval :=
  match t with
  | CInt _ => VInt 0
  | CDouble => VDouble 0
  | CBool => VBool false
  | CString => VString []
  | CCstr => VCstr None
  | CStrings => VStrings []
  | CTable => VTable []
  | CCallback => VCallback None
  end.
(** The value of a parameter of the type, for a Tcl object: a number if it fits, else 0 (uint64_t: always 0); the text, a C string up to its
    first NUL; the elements of a list. What Tcl cannot read as such counts as missing. *)
Definition least (t : ity) : Z := if is_signed t then - 2 ^ (width t - 1) else 0.
Definition most (t : ity) : Z := if is_signed t then 2 ^ (width t - 1) - 1 else 2 ^ width t - 1.
Definition number (t : ity) (z : Z) : Z := match t with I64 => z | U64 => 0 | _ => if (least t <=? z) && (z <=? most t) then z else 0 end.
Fixpoint to_nul (t : chars) : chars := match t with c :: t' => if c =? 0 then [] else c :: to_nul t' | [] => [] end.
Section Takes.
Variable tc : tcl.
Definition text_in (o : tobj) : chars := match get_string tc o with Some t => t | None => [] end.
Definition items_in (o : tobj) : list tobj := match get_list tc o with Some l => l | None => [] end.
Definition takes (si : Z) (t : cty) (o : tobj) : cval :=
  match t with
  | CInt i => match get_long tc o with Some z => VInt (number i z) | None => missing t end
  | CDouble => match get_double tc o with Some b => VDouble b | None => missing t end
  | CBool => match get_bool tc o with Some z => VBool (negb (z =? 0)) | None => missing t end
  | CString => VString (text_in o)
  | CCstr => VCstr (Some (to_nul (text_in o)))
  | CStrings => VStrings (map text_in (items_in o))
  | CTable => VTable (map (fun r => map text_in (items_in r)) (items_in o))
  | CCallback => match get_string tc o with Some t => VCallback (Some (si, t)) | None => missing t end
  end.
End Takes.
(** The Tcl object for a result; an unsigned number in the upper half comes out as the negative number of the same bits. None: not said. *)
Definition in_typeb (t : ity) (z : Z) : bool := (least t <=? z) && (z <=? most t).
Definition brief (t : chars) : bool := zlen t <? 2147483647.
Definition answers (t : ity) (v : cval) : option tobj :=
  match v with
  | VInt z => if in_typeb t z then Some (TInt (if is_signed t || (z <? 2 ^ (width t - 1)) then z else z - 2 ^ width t)) else None
  | VDouble b => Some (TDouble b)
  | VBool b => Some (TBool b)
  | VString s => if brief s then Some (TText s) else None
  | VStrings l => if forallb brief l then Some (TList (map TText l)) else None
  | VTable l => if forallb (forallb brief) l then Some (TList (map (fun r => TList (map TText r)) l)) else None
  | VCstr _ | VCallback _ => None
  end.
(** The arguments a function of these parameter types gets: given ones converted, missing ones default. *)
Fixpoint receives (tc : tcl) (si : Z) (types : list cty) (args : list tobj) : list cval :=
  match types, args with
  | [], _ => []
  | t :: types', [] => missing t :: receives tc si types' []
  | t :: types', a :: args' => takes tc si t a :: receives tc si types' args'
  end.
(** Enough arguments and not too many. *)
Definition accepts (h : handler) (args : list tobj) : Prop := h_min h <= zlen args <= zlen (h_types h).
(** How the answer of the function shows up in the interpreter. *)
Definition shows_answer (h : handler) (a : answer) (called : list cval) (r : res unit outcome) : Prop :=
  match a with
  | Returns None => r = Ok (Outcome true RNone (Some called)) tt
  | Returns (Some v) => forall o, answers (h_result h) v = Some o -> r = Ok (Outcome true (RObj o) (Some called)) tt
  | ThrowsString e => zlen e < 2147483647 -> r = Ok (Outcome false (RObj (TText e)) (Some called)) tt
  | ThrowsOther => r = Ok (Outcome false RUnhandled (Some called)) tt
  end.
