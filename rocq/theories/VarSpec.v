(** What linking a variable should mean: the script's variable is the C++ object. No traces, no table of hooks. *)
From Verif Require Import Base StrSpec StrModel ScriptModel RegModel ScriptSpec VarModel.
From stdpp Require Import gmap.
Open Scope Z_scope.

(** The four ways to link: an object, a constant one, a pointer to constant text, an array of char with its size. *)
Inductive how := Whole | Const | Pointer | Buffer (size : Z).
Record link := Link { l_obj : Z; l_how : how; l_hook : option Z }.
Record avars := AV {
  av_mem : gmap Z cobj;
  av_links : gmap (Z * chars) link;
  av_plain : gmap (Z * chars) tobj;          (* variables of scripts alone *)
  av_live : gmap Z unit;
  av_log : list vevent
}.
Definition avars_init (mem : gmap Z cobj) : avars := AV mem ∅ ∅ ∅ [].
(** Text up to the first NUL, if there is one. *)
Fixpoint before_nul (b : chars) : option chars :=
  match b with [] => None | c :: b' => if c =? 0 then Some [] else option_map (cons c) (before_nul b') end.
Definition cut (b : chars) : chars := match before_nul b with Some t => t | None => b end.
Definition shortb (t : chars) : bool := zlen t <? 2147483647.
(** Numbers that reach a script unchanged. *)
Definition showable (t : ity) (z : Z) : bool :=
  if is_signed t then (- 2 ^ (width t - 1) <=? z) && (z <? 2 ^ (width t - 1)) else (0 <=? z) && (z <? 2 ^ (width t - 1)).
(** The number a script's value gives a variable of the type: itself if it fits, else 0. *)
Definition fitted (t : ity) (z : Z) : Z :=
  let lo := if is_signed t then - 2 ^ (width t - 1) else 0 in
  let hi := if is_signed t then 2 ^ (width t - 1) else 2 ^ width t in
  if (lo <=? z) && (z <? hi) then z else 0.
Section WithTcl.
Variable tc : tcl.

(** What the script reads; None: left open. *)
Definition written (o : tobj) : option chars := option_map cut (get_string tc o).
Definition shown (k : how) (o : cobj) : option chars :=
  match k, o with
  | (Whole | Const), OVal (CInt t) (VInt z) => if showable t z then written (TInt z) else None
  | (Whole | Const), OVal CDouble (VDouble d) => written (TDouble d)
  | (Whole | Const), OVal CBool (VBool b) => written (TBool b)
  | (Whole | Const), OVal CString (VString s) => if shortb s then written (TText s) else None
  | (Whole | Const), OVal CStrings (VStrings l) => if forallb shortb l then written (TList (map TText l)) else None
  | (Pointer | Buffer _), OBuf b => match before_nul b with Some s => if shortb s then written (TText s) else None | None => None end
  | _, _ => None
  end.
(** What the object becomes when the script sets the variable, and the old value a hook is shown; None: left open. *)
Inductive effect := Refuse | Become (old new : cobj).
Definition stored (k : how) (o : cobj) (v : tobj) : option effect :=
  match k, o with
  | (Const | Pointer), _ => Some Refuse
  | Whole, OVal (CInt U64) _ => None
  | Whole, OVal (CInt t) _ => Some (Become o (OVal (CInt t) (VInt (match get_long tc v with Some z => fitted t z | None => 0 end))))
  | Whole, OVal CDouble _ => Some (Become o (OVal CDouble (VDouble (match get_double tc v with Some d => d | None => 0 end))))
  | Whole, OVal CBool _ => Some (Become o (OVal CBool (VBool (match get_bool tc v with Some b => negb (b =? 0) | None => false end))))
  | Whole, OVal CString _ => Some (Become o (OVal CString (VString (match get_string tc v with Some s => s | None => [] end))))
  | Buffer n, OBuf b =>
    match get_string tc v with
    | Some s => if (zlen b =? n) && (n - 1 <=? zlen s) && (0 <? n) then Some (Become o (OBuf (ztake (n - 1) s ++ [0]))) else None
    | None => None
    end
  | _, _ => None
  end.

Definition avlog (e : vevent) (a : avars) : avars := AV (av_mem a) (av_links a) (av_plain a) (av_live a) (e :: av_log a).
Definition link_step (i : Z) (n : chars) (l : link) (a : avars) : option avars :=
  Some (AV (av_mem a) (<[(i, n) := l]> (av_links a)) (delete (i, n) (av_plain a)) (av_live a) (av_log a)).
Definition avalive {A} (i : Z) (a : avars) (r : option A) : option A := match av_live a !! i with Some _ => r | None => None end.
Definition avstep (o : vop) (a : avars) : option avars :=
  match o with
  | VNew i => Some (AV (av_mem a) (av_links a) (av_plain a) (<[i := tt]> (av_live a)) (av_log a))
  | VDestroy i => avalive i a (Some (AV (av_mem a) (filter (fun kv => kv.1.1 <> i) (av_links a)) (filter (fun kv => kv.1.1 <> i) (av_plain a))
                                        (delete i (av_live a)) (av_log a)))
  | VLink i n x h => avalive i a (link_step i n (Link x Whole h) a)
  | VLinkConst i n x h => avalive i a (link_step i n (Link x Const h) a)
  | VLinkPtr i n x h => avalive i a (link_step i n (Link x Pointer h) a)
  | VLinkBuf i n x size h => avalive i a (link_step i n (Link x (Buffer size) h) a)
  | VUnlink i n | SUnset i n =>
    avalive i a (Some (AV (av_mem a) (delete (i, n) (av_links a)) (delete (i, n) (av_plain a)) (av_live a) (av_log a)))
  | SGet i n =>
    avalive i a
      match av_links a !! (i, n) with
      | Some l => match av_mem a !! l_obj l with
                  | Some o => match shown (l_how l) o with Some t => Some (avlog (EGet i n (Some (TText t))) a) | None => None end
                  | None => None
                  end
      | None => Some (avlog (EGet i n (av_plain a !! (i, n))) a)
      end
  | SSet i n v =>
    avalive i a
      match av_links a !! (i, n) with
      | Some l => match av_mem a !! l_obj l with
                  | Some o =>
                    match stored (l_how l) o v with
                    | Some Refuse => Some (avlog (ESet i n false) a)
                    | Some (Become old new) =>
                      let log := match l_hook l with Some h => EHook h old new :: av_log a | None => av_log a end in
                      Some (AV (<[l_obj l := new]> (av_mem a)) (av_links a) (av_plain a) (av_live a) (ESet i n true :: log))
                    | None => None
                    end
                  | None => None
                  end
      | None => Some (AV (av_mem a) (av_links a) (<[(i, n) := v]> (av_plain a)) (av_live a) (ESet i n true :: av_log a))
      end
  | CPut x v => Some (AV (<[x := v]> (av_mem a)) (av_links a) (av_plain a) (av_live a) (av_log a))
  | CGone x => Some (AV (delete x (av_mem a)) (av_links a) (av_plain a) (av_live a) (av_log a))
  end.
(** Names of global scalars, without NUL, '(' and ':'. *)
Definition simple (n : chars) : Prop := n <> [] /\ Forall (fun c => c <> 0 /\ c <> 40 /\ c <> 58) n.
(** A name is linked once at a time, in one interpreter at a time; scripts do not unset a hooked variable; an interpreter is not destroyed
    while another one has hooks. *)
Definition tidy (o : vop) (a : avars) : Prop :=
  match o with
  | VNew i => av_live a !! i = None
  | VDestroy i => map_Forall (fun k l => k.1 = i \/ l_hook l = None) (av_links a)
  | VLink _ n _ _ | VLinkConst _ n _ _ | VLinkPtr _ n _ _ | VLinkBuf _ n _ _ _ => simple n /\ map_Forall (fun k _ => k.2 <> n) (av_links a)
  | VUnlink i n => simple n /\ map_Forall (fun k _ => k.1 = i \/ k.2 <> n) (av_links a)
  | SGet _ n | SSet _ n _ => simple n
  | SUnset i n => simple n /\ map_Forall (fun k l => k <> (i, n) \/ l_hook l = None) (av_links a)
  | CPut _ _ | CGone _ => True
  end.
(** [l] is tidy all along and leads from [a] to [b]. *)
Fixpoint avruns (l : list vop) (a b : avars) : Prop :=
  match l with [] => a = b | o :: l' => tidy o a /\ exists a', avstep o a = Some a' /\ avruns l' a' b end.
(** The same without tidiness. *)
Fixpoint avexec (l : list vop) (a : avars) : option avars :=
  match l with [] => Some a | o :: l' => match avstep o a with Some a' => avexec l' a' | None => None end end.
End WithTcl.
