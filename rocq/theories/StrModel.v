(** String algorithms (src/String.cpp, String.h, Array.h) on string contents. Characters are numbers (the value
    as unsigned char), strings are lists. Lengths and positions are size_t with explicit wrapping. Substrings,
    appends and drops use the value specification proved for the heap model in C06, C08 and C15; running out of
    memory is not modelled here. Reads outside a buffer are undefined behaviour, loops take fuel. *)
From Verif Require Import Base RcaSpec.
Open Scope Z_scope.

Notation Mv := (M unit).
Notation chars := (list Z).
Definition fuel_out {A} : Mv A := fun _ => Fuel.

(** One byte at an index. *)
Definition rd (l : chars) (i : Z) : Mv Z := match znth i l with Some c => ret c | None => undef UbBounds end.

(** C library: memcmp(a, b, n). [mdiff] is the value it returns for the first differing pair. *)
Section Memcmp.
Variable mdiff : Z -> Z -> Z.
Fixpoint first_diff (a b : chars) : Z :=
  match a, b with
  | x :: a', y :: b' => if x =? y then first_diff a' b' else mdiff x y
  | _, _ => 0
  end.
Definition memcmp (a b : chars) (n : Z) : Mv Z :=
  if (n <=? zlen a) && (n <=? zlen b) then ret (first_diff (ztake n a) (ztake n b)) else undef UbBounds.

(** String::compare(const String&), String.cpp:42-56. [same]: the two buffers start at the same address. *)
Definition compare (same : bool) (a b : chars) : Mv Z :=
  if same && (zlen a =? zlen b) then ret 0 else
  let len := Z.min (zlen a) (zlen b) in
  let* diff := memcmp a b len in
  if negb (diff =? 0) then ret diff else ret (i32 (u64 (zlen a - zlen b))).
(** String::compare(const String&, size_t), String.cpp:58-76. *)
Definition compare_n (same : bool) (a b : chars) (n : Z) : Mv Z :=
  if n =? 0 then ret 0 else
  if same && (zlen a =? zlen b) then ret 0 else
  let slen := Z.min (zlen b) n in
  let len := Z.min (zlen a) slen in
  let* diff := memcmp a b len in
  if negb (diff =? 0) then ret diff else ret (i32 (u64 (Z.min (zlen a) n - slen))).
(** String::compare(const char* ), String.cpp:78-85; [mem] is the memory at the pointer. *)
Fixpoint compare_c (a mem : chars) : Mv Z :=
  match a with
  | [] => let* c := rd mem 0 in ret (0 - c)
  | x :: a' =>
    match mem with
    | [] => undef UbBounds
    | c :: mem' => if negb (x =? c) then ret (x - c) else compare_c a' mem'
    end
  end.
(** String::compare(const char*, size_t), String.cpp:87-96. *)
Fixpoint compare_cn_loop (a mem : chars) (n : Z) : Mv Z :=
  match a with
  | [] => let* c := rd mem 0 in ret (0 - c)
  | x :: a' =>
    match mem with
    | [] => undef UbBounds
    | c :: mem' =>
      if negb (x =? c) then ret (x - c)
      else if u64 (n - 1) =? 0 then ret (x - c)
      else compare_cn_loop a' mem' (u64 (n - 1))
    end
  end.
Definition compare_cn (a mem : chars) (n : Z) : Mv Z :=
  if n =? 0 then ret 0 else compare_cn_loop a mem n.

(** Comparison operators, String.h:542-601. Comparing a const char* on the left converts it to String. *)
Definition op_eq (same : bool) (a b : chars) : Mv bool :=
  if negb (zlen a =? zlen b) then ret false else let* c := compare same a b in ret (c =? 0).
Definition op_ne same a b : Mv bool := let* e := op_eq same a b in ret (negb e).
Definition op_lt same a b : Mv bool := let* c := compare same a b in ret (c <? 0).
Definition op_le same a b : Mv bool := let* c := op_lt same b a in ret (negb c).
Definition op_gt same a b : Mv bool := op_lt same b a.
Definition op_ge same a b : Mv bool := let* c := op_lt same a b in ret (negb c).
Definition op_eq_c a mem : Mv bool := let* c := compare_c a mem in ret (c =? 0).
Definition op_lt_c a mem : Mv bool := let* c := compare_c a mem in ret (c <? 0).
Definition op_gt_c a mem : Mv bool := let* c := compare_c a mem in ret (0 <? c).
Definition op_ge_c a mem : Mv bool := let* c := op_lt_c a mem in ret (negb c).
Definition op_le_c a mem : Mv bool :=
  match cstr_of (Z.eqb 0) mem with
  | Some t => let* c := op_lt false t a in ret (negb c)
  | None => undef UbBounds
  end.
End Memcmp.

(** C library: memmem, the first occurrence of a non-empty needle. *)
Fixpoint is_prefix (p l : chars) : bool :=
  match p, l with
  | [], _ => true
  | x :: p', y :: l' => (x =? y) && is_prefix p' l'
  | _, [] => false
  end.
Fixpoint memmem (hay needle : chars) : option Z :=
  if is_prefix needle hay then Some 0
  else match hay with [] => None | _ :: h => option_map Z.succ (memmem h needle) end.

(** String::_find, String.cpp:270-279 (with HAVE_MEMMEM). The range [constBuf(pos), +mylen) must lie in the string. *)
Definition find_ (s str : chars) (pos : Z) : Mv Z :=
  if zlen str =? 0 then ret 0 else
  let mylen := u64 (zlen s - pos) in
  if pos + mylen <=? zlen s
  then ret (or_npos (memmem (zdrop pos s) str)) else undef UbBounds.
(** String::find(str) and find(str, pos), String.h:181-196. *)
Definition find (s str : chars) : Mv Z := find_ s str 0.
Definition find_at (s str : chars) (pos : Z) : Mv Z :=
  (if pos =? 0 then ret tt else if zlen s <=? u64 (pos - 1) then throw OutOfRange else ret tt) ;;;
  find_ s str pos.
(** The version used without memmem, String.cpp:280-289. *)
Fixpoint find_fallback_loop (mdiff : Z -> Z -> Z) (fuel : nat) (s str : chars) (mylen last_pos i : Z) : Mv Z :=
  if last_pos <? i then ret npos else
  match fuel with
  | O => fuel_out
  | S f =>
    let* c0 := rd str 0 in
    let* ci := rd s i in
    let* hit := (if c0 =? ci then let* d := memcmp mdiff (zdrop i s) str (Z.min (zlen str) (u64 (mylen - i))) in ret (d =? 0)
                 else ret false) in
    if (hit : bool) then ret i else find_fallback_loop mdiff f s str mylen last_pos (u64 (i + 1))
  end.
Definition find_fallback mdiff (s str : chars) (pos : Z) : Mv Z :=
  if zlen str =? 0 then ret 0 else
  let mylen := u64 (zlen s - pos) in
  if zlen str <=? mylen
  then find_fallback_loop mdiff (S (length s)) s str mylen (mylen - zlen str) pos
  else ret npos.

(** String::rfind(str, lpos), String.cpp:306-317. *)
Fixpoint rfind_loop (mdiff : Z -> Z -> Z) (fuel : nat) (s str : chars) (lpos pos : Z) : Mv Z :=
  if negb (lpos <? u64 (pos + 1)) then ret npos else
  match fuel with
  | O => fuel_out
  | S f =>
    let* c0 := rd str 0 in
    let* cp := rd s pos in
    let* hit := (if c0 =? cp then let* d := memcmp mdiff (zdrop pos s) str (Z.min (zlen str) (u64 (zlen s - pos))) in ret (d =? 0)
                 else ret false) in
    if (hit : bool) then ret pos else rfind_loop mdiff f s str lpos (u64 (pos - 1))
  end.
Definition rfind mdiff (s str : chars) (lpos : Z) : Mv Z :=
  if zlen str =? 0 then ret (u64 (zlen s - 1)) else
  if zlen str <=? zlen s then rfind_loop mdiff (S (length s)) s str lpos (zlen s - zlen str) else ret npos.
(** String::ifind and rifind, String.cpp:292-304; [up] is toupper on a char. *)
Definition ifind (up : Z -> Z) (s str : chars) : Mv Z := find (map up s) (map up str).
Definition rifind (up : Z -> Z) mdiff (s str : chars) (lpos : Z) : Mv Z := rfind mdiff (map up s) (map up str) 0.

(** substring(start, len): by C08; arguments outside its bounds are not covered. *)
Definition substr (s : chars) (start len : Z) : Mv chars :=
  if sp_slice_ok (zlen s) start len then ret (sp_slice s start len) else undef UbOverflow.

(** String::split, String.cpp:192-236. [it] is counted from cbegin(). *)
Fixpoint spaces (l : chars) : Z := match l with 32 :: l' => 1 + spaces l' | _ => 0 end.
Definition is_space_delim (mdiff : Z -> Z -> Z) (delim : chars) : Mv bool := op_eq mdiff false delim [32].
Fixpoint split_loop mdiff (fuel : nat) (s delim : chars) (limit it : Z) (arr : list chars) : Mv (Z * list chars) :=
  if negb (zlen arr <? u64 (limit - 1)) then ret (it, arr) else
  match fuel with
  | O => fuel_out
  | S f =>
    let* sp := is_space_delim mdiff delim in
    let it := if (sp : bool) then it + spaces (zdrop it s) else it in
    if zlen s <=? it then ret (it, arr) else
    let* p := find_ s delim it in
    let pos := if p =? npos then zlen s - it else p in
    let* piece := substr s it pos in
    split_loop mdiff f s delim limit (it + (pos + zlen delim)) (arr ++ [piece])
  end.
Definition split mdiff (fuel : nat) (s delim : chars) (limit : Z) : Mv (list chars) :=
  if zlen s =? 0 then ret [] else
  if limit =? 1 then ret [s] else
  let* r := split_loop mdiff fuel s delim limit 0 [] in
  let '(it, arr) := r in
  if negb (limit =? npos) then
    let* sp := is_space_delim mdiff delim in
    let it := if (sp : bool) then it + spaces (zdrop it s) else it in
    let* piece := substr s it (-1) in
    ret (arr ++ [piece])
  else ret arr.

(** Array<String>::join, Array.h:153-176: the size computation, the allocation (which fails beyond PTRDIFF_MAX)
    and the concatenation loop. *)
Definition join_size (arr : list chars) (delim : chars) (quoted : bool) : Z :=
  let sz := u64 (u64 (zlen arr * zlen delim) - 1) in
  let sz := if quoted then u64 (sz + u64 (zlen arr * 2)) else sz in
  fold_left (fun sz e => u64 (sz + zlen e)) arr sz.
Fixpoint join_loop (first : bool) (arr : list chars) (delim : chars) (quoted : bool) (str : chars) : chars :=
  match arr with
  | [] => str
  | e :: arr' =>
    let str := if first then str else str ++ delim in
    let str := if quoted then str ++ ([34] ++ e ++ [34]) else str ++ e in
    join_loop false arr' delim quoted str
  end.
Definition join (arr : list chars) (delim : chars) (quoted : bool) : Mv chars :=
  if zlen arr =? 0 then ret [] else
  if max_alloc <? join_size arr delim quoted then throw BadAlloc else
  ret (join_loop true arr delim quoted []).

(** String::operator*(int), String.cpp:238-243. *)
Definition times (s : chars) (n : Z) : Mv chars :=
  if max_alloc <? u64 (zlen s * u64 n) then throw BadAlloc else
  ret (Nat.iter (Z.to_nat n) (fun acc => acc ++ s) []).

(** String::printf, String.cpp:245-254. [out] are the bytes vsnprintf produces without limit; at most 4095 of
    them and a NUL are stored in va_out, the rest of which is zero; the result is String(va_out, len). *)
Definition printf_buf (out : chars) : chars := ztake 4095 out ++ zrep (4096 - Z.min 4095 (zlen out)) 0.
Definition printf (out : chars) : Mv chars :=
  let len := zlen out in
  if len <=? zlen (printf_buf out) then ret (ztake len (printf_buf out)) else undef UbBounds.

(** String::sub, String.cpp:319-334. *)
Fixpoint sub_loop (fuel : nat) (search repl : chars) (limit cnt : Z) (new srch : chars) : Mv chars :=
  let* pos := find srch search in
  if pos =? npos then ret (new ++ srch) else
  match fuel with
  | O => fuel_out
  | S f =>
    let* head := substr srch 0 pos in
    let new := (new ++ head) ++ repl in
    let srch := zdrop (u64 (pos + zlen search)) srch in
    if limit =? -1 then sub_loop f search repl limit cnt new srch else
    if negb (fits_i32 (cnt + 1)) then undef UbOverflow else
    if cnt + 1 =? limit then ret (new ++ srch) else sub_loop f search repl limit (cnt + 1) new srch
  end.
Definition sub (fuel : nat) (s search repl : chars) (limit : Z) : Mv chars :=
  sub_loop fuel search repl limit 0 [] s.
(** String::subst, String.cpp:336-342; [kvs] are the pairs in the order the table iterates them. *)
Fixpoint subst (fuel : nat) (s : chars) (kvs : list (chars * chars)) : Mv chars :=
  match kvs with
  | [] => ret s
  | (k, v) :: kvs' => let* s' := sub fuel s k v (-1) in subst fuel s' kvs'
  end.

(** newsplit, String.cpp:351-369: returns the token and the string left. *)
Definition newsplit (s : chars) (delim : Z) : Mv (chars * chars) :=
  if zlen s =? 0 then ret ([], s) else
  let pos := or_npos (sp_index (fun c => c =? delim) s) in     (* find(char) by C11 *)
  let pos := if pos =? npos then zlen s else pos in
  let* first := substr s 0 pos in
  let pos := if delim =? 32 then pos + spaces (zdrop (pos + 1) s) else pos in
  ret (first, zdrop (u64 (pos + 1)) s).
