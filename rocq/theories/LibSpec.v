(** What a program relies on that uses Strings, their algorithms, HashTable<String, String>, Array<String>, and
    base64 together: every String is a text of its own, every table a map of its own, every array a list of its own.
    Nothing here refers to the model. *)
From Verif Require Export RcaSpec PtSpec StrSpec B64Spec.
Open Scope Z_scope.

(** Questions about two Strings: x.compare(y), x == y, ..., x.find(y), x.find(y, pos), x.rfind(y, lpos). *)
Inductive lquery := QCompare | QEq | QNe | QLt | QLe | QGt | QGe | QFind | QFindFrom (pos : Z) | QRfind (lpos : Z).
(** Texts made of one String: x.substring(start, len), x.trim() with [sp] for isspace, x.chomp(). *)
Inductive lmaker := KSubstring (start len : Z) | KTrim (sp : Z -> bool) | KChomp.
(** Strings are [r] (new), [x], [y], [z]; tables [i]; arrays [j]. *)
Inductive lcall :=
| LPt (c : pcall)                                          (* a call of PtSpec *)
| LPlus (r x y : positive)                                 (* String r(x + y); *)
| LTimes (r x : positive) (n : Z)                          (* String r(x * n); *)
| LSub (r x y z : positive) (limit : Z)                    (* String r(x.sub(y, z, limit)); *)
| LSubst (r x i : positive)                                (* String r(x.subst(i)); *)
| LNewsplit (r x : positive) (delim : Z)                   (* String r(newsplit(x, delim)); *)
| LIfind (x y : positive)                                  (* x.ifind(y) *)
| LRifind (x y : positive) (lpos : Z)                      (* x.rifind(y, lpos) *)
| LAsk (q : lquery) (x y : positive)                       (* one of the questions *)
| LMake (k : lmaker) (r x : positive)                      (* String r(...); *)
| LSlice (mv : bool) (x : positive) (start len : Z) (y : positive)    (* x(start, len) = y; or std::move(y) *)
| LSliceOf (x : positive) (start len : Z) (y : positive) (start' len' : Z)  (* x(start, len) = y(start', len'); *)
| LEncode (r x : positive)                                 (* String r(base64Encode(x)); *)
| LDecode (r x : positive)                                 (* String r(base64Decode(x)); *)
| LSplit (j x y : positive) (limit : Z)                    (* Array<String> j(x.split(y, limit)); *)
| LJoin (r j y : positive) (quoted : bool)                 (* String r(j.join(y, quoted)); *)
| LCount (j : positive)                                    (* j.length() *)
| LFree (j : positive)                                     (* the destructor of j *)
| LArr (j : positive)                                      (* Array<String> j; *)
| LPush (mv : bool) (j x : positive)                       (* j.push_back(x); or std::move(x); j << x *)
| LPop (r j : positive)                                    (* String r(j.pop()); *)
| LElem (r j : positive) (k : Z).                          (* String r(j.at(k)); *)
Inductive lout := LVoid | LNum (z : Z) | LBool (b : bool) | LOut (o : pout).
(** The tables, the lengths of the arrays, the Strings, and how many blocks of memory were lost. *)
Record world := World { w_maps : maps; w_lists : gmap positive nat; w_strs : astate Z; w_lost : Z }.

(** Where [y] is in [x]: the first, the last place. *)
Definition first_at (y x : chars) (r : Z) : Prop := (r = npos /\ no_occ y x) \/ first_occ y x r.
Definition last_at (y x : chars) (r : Z) : Prop := (r = npos /\ no_occ y x) \/ last_occ y x 0 r.
Definition last_from (lo : Z) (y x : chars) (r : Z) : Prop := (r = npos /\ forall j, occurs y x j -> j < lo) \/ last_occ y x lo r.
(** When a question has an answer, and which. *)
Definition ask_pre (q : lquery) (sx sy : chars) : Prop :=
  match q with
  | QEq | QNe => bytes sx /\ bytes sy
  | QCompare | QLt | QLe | QGt | QGe => bytes sx /\ bytes sy /\ Z.abs (zlen sx - zlen sy) < W31
  | QFind => sy <> []
  | QFindFrom pos => sy <> [] /\ 0 <= pos < W64
  | QRfind lo => bytes sx /\ bytes sy /\ sy <> [] /\ 0 <= lo < W64
  end.
Definition ask_post (q : lquery) (sx sy : chars) (o : lout) : Prop :=
  match q with
  | QCompare => exists c, has_sign c (lexcmp sx sy) /\ o = LNum c
  | QEq => exists e, (e = true <-> sx = sy) /\ o = LBool e
  | QNe => exists e, (e = true <-> sx <> sy) /\ o = LBool e
  | QLt => exists e, (e = true <-> lexcmp sx sy = Lt) /\ o = LBool e
  | QLe => exists e, (e = true <-> lexcmp sx sy <> Gt) /\ o = LBool e
  | QGt => exists e, (e = true <-> lexcmp sx sy = Gt) /\ o = LBool e
  | QGe => exists e, (e = true <-> lexcmp sx sy <> Lt) /\ o = LBool e
  | QFind => exists p, first_at sy sx p /\ o = LNum p
  | QFindFrom pos => pos <= zlen sx /\ exists p, first_at sy (zdrop pos sx) p /\ o = LNum p
  | QRfind lo => exists p, last_from lo sy sx p /\ o = LNum p
  end.
Definition make_pre (k : lmaker) (sx : chars) : Prop := match k with KSubstring start len => sp_slice_ok (zlen sx) start len = true | _ => True end.
Definition made (k : lmaker) (sx : chars) : chars :=
  match k with
  | KSubstring start len => sp_slice sx start len
  | KTrim sp => sp_trim sp sx
  | KChomp => sp_chomp1 (fun c => c =? 13) (sp_chomp1 (fun c => c =? 10) sx)
  end.
(** Replacements in turn; texts stay below 2^31. *)
Fixpoint in_turn (kvs : list (chars * chars)) (s w : chars) : Prop :=
  match kvs with
  | [] => w = s
  | (k, v) :: kvs' => exists t, zlen s < W31 /\ replaced k v None s t /\ in_turn kvs' t w
  end.
(** [w] written over [v] from [start] on. *)
Definition written (v : chars) (start : Z) (w : chars) : chars := ztake start v ++ w ++ zdrop (start + zlen w) v.
(** The token before the first [c], and what follows it. *)
Definition token (c : Z) (s tok rest : chars) : Prop :=
  (exists tl, s = tok ++ c :: tl /\ ~ In c tok /\ rest = skip (c =? 32) tl) \/ (s = tok /\ ~ In c s /\ rest = []).

Section Spec.
Variable ustep : op Z -> astate Z -> option (sres Z).
(** The elements of an array are Strings too: [el j k] names the [k]-th of [j]. *)
Variable el : positive -> nat -> positive.
(** toupper *)
Variable upper : Z -> Z.

Definition elems_of (j : positive) (n : nat) : list positive := map (el j) (seq 0 n).
Definition texts_of (b : astate Z) (xs : list positive) (ss : list chars) : Prop := Forall2 (fun x s => full b x = Some s) xs ss.
Fixpoint put_texts (rm : bool) (xs : list positive) (ss : list chars) (b : astate Z) : astate Z :=
  match xs, ss with x :: xs', s :: ss' => <[x := AVal rm (map Some s)]> (put_texts rm xs' ss' b) | _, _ => b end.
Definition drop_all (xs : list positive) (b : astate Z) : astate Z := fold_right delete b xs.
(** The text assigned to a slice: a negative length stands for all of it. *)
Definition upto (len : Z) (s : chars) : chars := if len <? 0 then s else ztake len s.
Definition joined (quoted : bool) (sy : chars) (ss : list chars) : chars := intercalate sy (map (fun s => if quoted then quote s else s) ss).

(** What a call needs. *)
Definition lpre (c : lcall) (w : world) : Prop :=
  let b := w_strs w in
  match c with
  | LPt c => exists rm r, pstep ustep rm c (w_maps w) b = Some r
  | LPlus r x y => (exists sx sy, full b x = Some sx /\ full b y = Some sy) /\ b !! r = None
  | LTimes r x n => (exists sx, full b x = Some sx) /\ b !! r = None /\ 0 <= n < W31
  | LSub r x y z limit =>
    (exists sx sy sz, full b x = Some sx /\ full b y = Some sy /\ full b z = Some sz /\ sy <> [] /\ zlen sx < W31) /\ b !! r = None /\ - W31 <= limit < W31
  | LSubst r x i =>
    (exists m sx, w_maps w !! i = Some m /\ full b x = Some sx /\ m !! [] = None /\
      forall l, Permutation l (map_to_list m) -> exists t, in_turn l sx t) /\ b !! r = None
  | LNewsplit r x c => (exists sx, full b x = Some sx /\ zlen sx < W31) /\ b !! r = None
  | LIfind x y => exists sx sy, full b x = Some sx /\ full b y = Some sy /\ sy <> []
  | LRifind x y _ => exists sx sy, full b x = Some sx /\ full b y = Some sy /\ sy <> [] /\ bytes (map upper sx) /\ bytes (map upper sy)
  | LAsk q x y => exists sx sy, full b x = Some sx /\ full b y = Some sy /\ ask_pre q sx sy
  | LMake k r x => (exists sx, full b x = Some sx /\ make_pre k sx) /\ b !! r = None
  | LSlice mv x start len y =>
    exists sx sy, full b x = Some sx /\ full b y = Some sy /\ - W63 <= start <= zlen sx /\ - W63 <= len < W63 /\ len <> 0
  | LSliceOf x start len y start' len' =>
    exists sx sy, full b x = Some sx /\ full b y = Some sy /\ 0 <= start <= zlen sx /\ - W63 <= len < W63 /\ len <> 0 /\ sp_slice_ok (zlen sy) start' len' = true
  | LEncode r x => (exists l, full b x = Some l /\ bytes l) /\ b !! r = None
  | LDecode r x => (exists l, full b x = Some (enc64 std_alpha l) /\ bytes l) /\ b !! r = None
  | LSplit j x y limit =>
    (exists sx sy, full b x = Some sx /\ full b y = Some sy /\ bytes sx /\ bytes sy /\ sy <> [] /\ zlen sx < W31 /\ zlen sy < W31 /\
      (limit = npos \/ sx <> [] /\ 2 <= limit < npos)) /\
    w_lists w !! j = None /\ forall k, b !! el j k = None
  | LJoin r j y quoted =>
    (exists n sy ss, w_lists w !! j = Some n /\ full b y = Some sy /\ texts_of b (elems_of j n) ss /\
      (ss = [] \/ 0 < zlen ss * zlen sy + (if quoted then zlen ss * 2 else 0) + total ss < W64)) /\ b !! r = None
  | LCount j => is_Some (w_lists w !! j)
  | LFree j => exists n, w_lists w !! j = Some n /\ forall x, In x (elems_of j n) -> is_Some (b !! x)
  | LArr j => w_lists w !! j = None /\ forall k, b !! el j k = None
  | LPush mv j x => (exists n sx, w_lists w !! j = Some n /\ full b x = Some sx /\ b !! el j n = None) /\ forall k, x <> el j k
  | LPop r j => (exists n s, w_lists w !! j = Some (S n) /\ full b (el j n) = Some s) /\ b !! r = None
  | LElem r j k => (exists n, w_lists w !! j = Some n /\ 0 <= k < W64 /\ (k < Z.of_nat n -> exists s, full b (el j (Z.to_nat k)) = Some s)) /\ b !! r = None
  end.
Definition with_strs (w : world) (b : astate Z) : world := World (w_maps w) (w_lists w) b (w_lost w).
(** [w'] is [w] with a new String. *)
Definition new_text (r : positive) (s : chars) (w w' : world) : Prop := exists rm, w' = with_strs w (<[r := AVal rm (map Some s)]> (w_strs w)).
(** What it returns and leaves. *)
Definition lpost (c : lcall) (w : world) (o : lout) (w' : world) : Prop :=
  let b := w_strs w in
  match c with
  | LPt c => exists rm ms' b' v, pstep ustep rm c (w_maps w) b = Some (PRet ms' b' v) /\ o = LOut v /\ w' = World ms' (w_lists w) b' (w_lost w)
  | LPlus r x y => o = LVoid /\ forall sx sy, full b x = Some sx -> full b y = Some sy -> new_text r (sx ++ sy) w w'
  | LTimes r x n => o = LVoid /\ forall sx, full b x = Some sx -> new_text r (repeat_str sx (Z.to_nat n)) w w'
  | LSub r x y z limit => o = LVoid /\ forall sx sy sz, full b x = Some sx -> full b y = Some sy -> full b z = Some sz ->
      exists t, replaced sy sz (if 0 <? limit then Some limit else None) sx t /\ new_text r t w w'
  | LSubst r x i => o = LVoid /\ forall m sx, w_maps w !! i = Some m -> full b x = Some sx ->
      exists l t, Permutation l (map_to_list m) /\ in_turn l sx t /\ new_text r t w w'
  | LNewsplit r x c => o = LVoid /\ forall sx, full b x = Some sx -> exists tok rest rm rm', token c sx tok rest /\
      w' = with_strs w (<[x := AVal rm (map Some rest)]> (<[r := AVal rm' (map Some tok)]> b))
  | LIfind x y => w' = w /\ forall sx sy, full b x = Some sx -> full b y = Some sy -> exists p, first_at (map upper sy) (map upper sx) p /\ o = LNum p
  | LRifind x y _ => w' = w /\ forall sx sy, full b x = Some sx -> full b y = Some sy -> exists p, last_at (map upper sy) (map upper sx) p /\ o = LNum p
  | LAsk q x y => w' = w /\ forall sx sy, full b x = Some sx -> full b y = Some sy -> ask_post q sx sy o
  | LMake k r x => o = LVoid /\ forall sx, full b x = Some sx -> new_text r (made k sx) w w'
  | LSlice mv x start len y => o = LVoid /\ 0 <= start /\ forall sx sy, full b x = Some sx -> full b y = Some sy -> exists b', w' = with_strs w b' /\
      full b' x = Some (written sx start (upto len sy)) /\ (forall z, z <> x -> mv && Pos.eqb z y = false -> b' !! z = b !! z) /\ is_Some (b' !! y)
  | LSliceOf x start len y start' len' => o = LVoid /\ forall sx sy, full b x = Some sx -> full b y = Some sy -> exists b', w' = with_strs w b' /\
      full b' x = Some (written sx start (upto len (sp_slice sy start' len'))) /\ (forall z, z <> x -> b' !! z = b !! z)
  | LEncode r x => o = LVoid /\ forall l, full b x = Some l -> new_text r (enc64 std_alpha l) w w'
  | LDecode r x => o = LVoid /\ forall l, full b x = Some (enc64 std_alpha l) -> bytes l -> new_text r l w w'
  | LSplit j x y limit => o = LVoid /\ forall sx sy, full b x = Some sx -> full b y = Some sy ->
      exists ps rm, (let sp := match sy with [c] => c =? 32 | _ => false end in
        if limit =? npos then pieces sp sy sx ps else pieces_upto sp sy (limit - 1) sx ps) /\
        w' = World (w_maps w) (<[j := length ps]> (w_lists w)) (put_texts rm (elems_of j (length ps)) ps b) (w_lost w)
  | LJoin r j y quoted => o = LVoid /\ forall n sy ss, w_lists w !! j = Some n -> full b y = Some sy -> texts_of b (elems_of j n) ss -> new_text r (joined quoted sy ss) w w'
  | LCount j => w' = w /\ forall n, w_lists w !! j = Some n -> o = LNum (Z.of_nat n)
  | LFree j => o = LVoid /\ forall n, w_lists w !! j = Some n -> w' = World (w_maps w) (delete j (w_lists w)) (drop_all (elems_of j n) b) (w_lost w)
  | LArr j => o = LVoid /\ w' = World (w_maps w) (<[j := O]> (w_lists w)) b (w_lost w)
  | LPush mv j x => o = LVoid /\ forall n sx, w_lists w !! j = Some n -> full b x = Some sx -> exists rm,
      w' = World (w_maps w) (<[j := S n]> (w_lists w)) (<[el j n := AVal rm (map Some sx)]> (if mv then <[x := AMoved]> b else b)) (w_lost w)
  | LPop r j => o = LVoid /\ forall n s, w_lists w !! j = Some (S n) -> full b (el j n) = Some s -> exists rm,
      w' = World (w_maps w) (<[j := n]> (w_lists w)) (delete (el j n) (<[r := AVal rm (map Some s)]> b)) (w_lost w)
  | LElem r j k => o = LVoid /\ forall n, w_lists w !! j = Some n -> k < Z.of_nat n /\ forall s, full b (el j (Z.to_nat k)) = Some s -> new_text r s w w'
  end.
(** What out_of_range leaves behind, and when it comes. *)
Definition lrange (c : lcall) (w w' : world) : Prop :=
  match c with
  | LPt c => exists rm ms' b', pstep ustep rm c (w_maps w) (w_strs w) = Some (PRange ms' b') /\ w' = World ms' (w_lists w) b' (w_lost w)
  | LAsk (QFindFrom pos) x _ => w' = w /\ forall sx, full (w_strs w) x = Some sx -> zlen sx < pos
  | LSlice _ _ start _ _ => start < 0 /\ w' = w
  | LElem _ j k => w' = w /\ forall n, w_lists w !! j = Some n -> Z.of_nat n <= k
  | _ => False
  end.
(** What bad_alloc may leave behind: everything as it was, except that the String assigned to can be empty and that the
    block used by base64 is lost. *)
Definition lfail (c : lcall) (w w' : world) : Prop :=
  match c with
  | LPt c => exists ms' b', pfail (w_maps w) (w_strs w) c ms' b' /\ w' = World ms' (w_lists w) b' (w_lost w)
  | LSlice _ x _ _ _ | LSliceOf x _ _ _ _ _ => exists b', w' = with_strs w b' /\ (full b' x = full (w_strs w) x \/ full b' x = Some []) /\
      forall z, z <> x -> b' !! z = w_strs w !! z
  | LEncode _ _ | LDecode _ _ => w' = World (w_maps w) (w_lists w) (w_strs w) (w_lost w + 1)
  | LNewsplit _ _ _ | LAsk _ _ _ | LMake _ _ _ | LCount _ | LFree _ | LArr _ | LPop _ _ | LElem _ _ _ => False
  | _ => w' = w
  end.
(** The tables, arrays and Strings that a call mentions; calls on an array mention its elements. *)
Definition l_tables (c : lcall) : list positive := match c with LPt c => tables_of c | LSubst _ _ i => [i] | _ => [] end.
Definition l_arrays (c : lcall) : list positive := match c with LSplit j _ _ _ | LJoin _ j _ _ | LCount j | LFree j
  | LArr j | LPush _ j _ | LPop _ j | LElem _ j _ => [j] | _ => [] end.
Definition l_strings (c : lcall) : list positive :=
  match c with
  | LPt c => strings_of c
  | LPlus r x y => [r; x; y]
  | LTimes r x _ | LMake _ r x | LSubst r x _ | LNewsplit r x _ | LEncode r x | LDecode r x => [r; x]
  | LSub r x y z _ => [r; x; y; z]
  | LIfind x y | LRifind x y _ | LAsk _ x y | LSlice _ x _ _ y | LSliceOf x _ _ y _ _ | LSplit _ x y _ => [x; y]
  | LJoin r _ y _ => [r; y]
  | LPush _ _ x => [x]
  | LPop r _ | LElem r _ _ => [r]
  | LCount _ | LFree _ | LArr _ => []
  end.
(** Nothing else is different in [w']. *)
Definition apart (c : lcall) (w w' : world) : Prop :=
  (forall i, i ∉ l_tables c -> w_maps w' !! i = w_maps w !! i) /\ (forall j, j ∉ l_arrays c -> w_lists w' !! j = w_lists w !! j) /\
  (forall x, x ∉ l_strings c -> (forall j k, j ∈ l_arrays c -> x <> el j k) -> w_strs w' !! x = w_strs w !! x).
End Spec.
