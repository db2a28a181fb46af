(** String properties C18-C23 and C25-C27. [same] tells whether both strings start at the same address; [mdiff] is any
    function a C library's memcmp may use for differing bytes. *)
From Coq Require Import Lia String.
From Verif Require Import Base RcaSpec StrModel StrSpec StrCmp StrFind StrAlg StrEx.
Open Scope Z_scope.
Ltac run := vm_compute; reflexivity.

(** C18: compare() has the sign of the unsigned lexicographic order, whether or not the buffers are shared, for lengths
    differing by less than 2^31. *)
Theorem C18_compare : forall (mdiff : Z -> Z -> Z), memcmp_ok mdiff -> forall same a b, bytes a -> bytes b -> (same = true -> zlen a = zlen b -> a = b) ->
  zlen a < W63 -> zlen b < W63 -> Z.abs (zlen a - zlen b) < W31 ->
  exists c, compare mdiff same a b tt = Ok c tt /\ has_sign c (lexcmp a b).
Proof. exact compare_spec. Qed.
Print Assumptions C18_compare.
Example C18_compare_ex :
  compare Z.sub false (bs "abc") (bs "abd") tt = Ok (-1) tt /\ lexcmp (bs "abc") (bs "abd") = Lt /\
  compare Z.sub false [97; 0; 200] [97; 0; 100] tt = Ok 100 tt /\ compare Z.sub true (bs "ab") (bs "abc") tt = Ok (-1) tt.
Proof. repeat split; run. Qed.

(** C18: all six operators are decided by that one order. *)
Theorem C18_operators : forall (mdiff : Z -> Z -> Z), memcmp_ok mdiff -> forall same a b, bytes a -> bytes b -> (same = true -> zlen a = zlen b -> a = b) ->
  zlen a < W63 -> zlen b < W63 -> Z.abs (zlen a - zlen b) < W31 ->
  op_lt mdiff same a b tt = Ok (match lexcmp a b with Lt => true | _ => false end) tt /\
  op_le mdiff same a b tt = Ok (match lexcmp a b with Gt => false | _ => true end) tt /\
  op_gt mdiff same a b tt = Ok (match lexcmp a b with Gt => true | _ => false end) tt /\
  op_ge mdiff same a b tt = Ok (match lexcmp a b with Lt => false | _ => true end) tt /\
  op_eq mdiff same a b tt = Ok (match lexcmp a b with Eq => true | _ => false end) tt /\
  op_ne mdiff same a b tt = Ok (match lexcmp a b with Eq => false | _ => true end) tt.
Proof. exact operators_spec. Qed.
Print Assumptions C18_operators.
Example C18_operators_ex : op_le Z.sub false (bs "ab") (bs "abc") tt = Ok true tt /\ op_ge Z.sub false (bs "b") (bs "abc") tt = Ok true tt.
Proof. split; run. Qed.

(** C18: the order is total, antisymmetric and transitive, and only equal strings compare equal. *)
Theorem C18_order_laws : forall a b c : list Z,
  (lexcmp a b = Eq <-> a = b) /\ lexcmp b a = CompOpp (lexcmp a b) /\ (lexcmp a b = Lt -> lexcmp b c = Lt -> lexcmp a c = Lt).
Proof. exact lexcmp_laws. Qed.
Print Assumptions C18_order_laws.
Example C18_order_laws_ex : lexcmp (bs "ab") (bs "abc") = Lt /\ lexcmp (bs "abc") (bs "b") = Lt /\ lexcmp (bs "ab") (bs "b") = Lt /\ lexcmp (bs "b") (bs "ab") = Gt.
Proof. repeat split; run. Qed.


(** C18: == holds exactly for equal contents, at any lengths. *)
Theorem C18_equality : forall (mdiff : Z -> Z -> Z), memcmp_ok mdiff -> forall same a b, bytes a -> bytes b -> (same = true -> zlen a = zlen b -> a = b) -> zlen a < W63 -> zlen b < W63 ->
  exists r, op_eq mdiff same a b tt = Ok r tt /\ (r = true <-> a = b).
Proof. exact op_eq_spec. Qed.
Print Assumptions C18_equality.
Example C18_equality_ex : op_eq Z.sub false [1; 0; 2] [1; 0; 2] tt = Ok true tt /\ op_eq Z.sub false [1; 0; 2] [1; 0; 3] tt = Ok false tt.
Proof. split; run. Qed.

(** C18 without the bound on the lengths is false: the difference is narrowed to int. *)
Theorem C18_length_difference_refuted : forall mdiff, exists a b : list Z,
  exists c, compare mdiff false a b tt = Ok c tt /\ c < 0 /\ lexcmp a b = Gt.
Proof. exact compare_narrows_ex. Qed.
Print Assumptions C18_length_difference_refuted.


(** C19: compare(str, n) compares the first n bytes. *)
Theorem C19_limit : forall (mdiff : Z -> Z -> Z), memcmp_ok mdiff -> forall same a b n, bytes a -> bytes b -> (same = true -> zlen a = zlen b -> a = b) ->
  zlen a < W63 -> zlen b < W63 -> 0 <= n < W64 -> Z.abs (Z.min n (zlen a) - Z.min n (zlen b)) < W31 ->
  exists c, compare_n mdiff same a b n tt = Ok c tt /\ has_sign c (lexcmp (ztake n a) (ztake n b)).
Proof. exact compare_n_spec. Qed.
Print Assumptions C19_limit.
Example C19_limit_ex : compare_n Z.sub false (bs "abcX") (bs "abcY") 3 tt = Ok 0 tt /\ compare_n Z.sub false (bs "ab") (bs "abcY") 3 tt = Ok (-1) tt.
Proof. split; run. Qed.

(** C19: comparison with a C string is comparison with its characters, unless this string continues with a NUL
    where the C string ends. *)
Theorem C19_cstring : forall a, forall mem t,
  bytes a -> bytes t -> cstring mem t -> ~ prefix_of (t ++ [0]) a ->
  exists c, compare_c a mem tt = Ok c tt /\ has_sign c (lexcmp a t).
Proof. exact compare_c_spec. Qed.
Print Assumptions C19_cstring.
Example C19_cstring_ex : cstring (bs "abd" ++ [0; 7]) (bs "abd") /\ compare_c (bs "abc") (bs "abd" ++ [0; 7]) tt = Ok (-1) tt.
Proof. split; [split; [intros I; vm_compute in I; intuition discriminate|exists [7]; reflexivity]|run]. Qed.

(** C19: the same with a limit. *)
Theorem C19_cstring_limit : forall a mem t n, bytes a -> bytes t -> cstring mem t -> 0 <= n < W64 -> ~ prefix_of (t ++ [0]) (ztake n a) ->
  exists c, compare_cn a mem n tt = Ok c tt /\ has_sign c (lexcmp (ztake n a) (ztake n t)).
Proof. exact compare_cn_spec. Qed.
Print Assumptions C19_cstring_limit.
Example C19_cstring_limit_ex : compare_cn (bs "abc") (bs "abd" ++ [0]) 2 tt = Ok 0 tt /\ compare_cn (bs "abc") (bs "abd" ++ [0]) 3 tt = Ok (-1) tt.
Proof. split; run. Qed.

(** C19: the operators against C strings. *)
Theorem C19_operators : forall (mdiff : Z -> Z -> Z), memcmp_ok mdiff -> forall a mem t, bytes a -> bytes t -> cstring mem t -> ~ prefix_of (t ++ [0]) a ->
  zlen a < W63 -> zlen t < W63 -> Z.abs (zlen a - zlen t) < W31 ->
  op_eq_c a mem tt = Ok (match lexcmp a t with Eq => true | _ => false end) tt /\
  op_lt_c a mem tt = Ok (match lexcmp a t with Lt => true | _ => false end) tt /\
  op_le_c mdiff a mem tt = Ok (match lexcmp a t with Gt => false | _ => true end) tt /\
  op_gt_c a mem tt = Ok (match lexcmp a t with Gt => true | _ => false end) tt /\
  op_ge_c a mem tt = Ok (match lexcmp a t with Lt => false | _ => true end) tt.
Proof. exact operators_c_spec. Qed.
Print Assumptions C19_operators.
Example C19_operators_ex : op_le_c Z.sub (bs "abc") (bs "abc" ++ [0]) tt = Ok true tt /\ op_gt_c (bs "abd") (bs "abc" ++ [0]) tt = Ok true tt.
Proof. split; run. Qed.

(** C19 without the NUL condition is false: the comparison reads past the terminator. *)
Theorem C19_embedded_nul_refuted : exists a mem t,
  cstring mem t /\ compare_c a mem tt = Undef UbBounds /\ compare_cn a mem 3 tt = Undef UbBounds.
Proof. exists [97; 0; 98], [97; 0], [97]. split; [split; [intros I; vm_compute in I; intuition discriminate|exists []; reflexivity]|split; run]. Qed.
Print Assumptions C19_embedded_nul_refuted.


(** C20: split without limit returns exactly the pieces between successive leftmost delimiters; [is_sp] tells that the
    delimiter is one space. The loop ends within length+1 rounds. *)
Theorem C20_split : forall (mdiff : Z -> Z -> Z), memcmp_ok mdiff -> forall s delim fuel, bytes s -> bytes delim -> delim <> [] -> zlen s < W31 -> zlen delim < W31 ->
  (length s < fuel)%nat ->
  exists ps, split mdiff fuel s delim npos tt = Ok ps tt /\ pieces (is_sp delim) delim s ps.
Proof. exact split_all. Qed.
Print Assumptions C20_split.
Example C20_split_ex : split Z.sub 20 (bs "a::b:::c") (bs "::") npos tt = Ok [bs "a"; bs "b"; bs ":c"] tt /\
  split Z.sub 20 (bs "  to  be ") (bs " ") npos tt = Ok [bs "to"; bs "be"] tt.
Proof. split; run. Qed.

(** C20: with a limit of at least two, at most limit-1 cuts are made and the rest is one more piece. *)
Theorem C20_split_limit : forall (mdiff : Z -> Z -> Z), memcmp_ok mdiff -> forall s delim limit fuel, bytes s -> bytes delim -> delim <> [] -> zlen s < W31 -> zlen delim < W31 ->
  (length s < fuel)%nat -> s <> [] -> 2 <= limit < npos ->
  exists ps, split mdiff fuel s delim limit tt = Ok ps tt /\ pieces_upto (is_sp delim) delim (limit - 1) s ps.
Proof. exact split_limit. Qed.
Print Assumptions C20_split_limit.
Example C20_split_limit_ex : split Z.sub 20 (bs "a,b,c,d") (bs ",") 3 tt = Ok [bs "a"; bs "b"; bs "c,d"] tt /\
  split Z.sub 20 (bs "a  b   c d") (bs " ") 3 tt = Ok [bs "a"; bs "b"; bs "c d"] tt.
Proof. split; run. Qed.

(** C20: the specification allows one result only. *)
Theorem C20_pieces_unique : forall sp delim s ps, delim <> [] -> pieces sp delim s ps -> forall qs, pieces sp delim s qs -> ps = qs.
Proof. exact pieces_det. Qed.
Print Assumptions C20_pieces_unique.
Ltac bytes_run := repeat (apply Forall_cons; [vm_compute; repeat split; discriminate|]); apply Forall_nil.
Example C20_pieces_unique_ex : bs "::" <> [] /\ pieces false (bs "::") (bs "a::b:::c") [bs "a"; bs "b"; bs ":c"] /\ pieces true (bs " ") (bs "  to  be ") [bs "to"; bs "be"].
Proof.
  split; [discriminate|]. split.
  - destruct (split_all Z.sub StrEx.sub_ok (bs "a::b:::c") (bs "::") 20) as (ps & E & P); try (vm_compute; reflexivity || discriminate); [bytes_run..|cbn; lia|]. injection E as <-. exact P.
  - destruct (split_all Z.sub StrEx.sub_ok (bs "  to  be ") (bs " ") 20) as (ps & E & P); try (vm_compute; reflexivity || discriminate); [bytes_run..|cbn; lia|]. injection E as <-. exact P.
Qed.


(** C20: likewise with a limit. *)
Theorem C20_upto_unique : forall sp delim k s ps, delim <> [] -> pieces_upto sp delim k s ps -> forall qs, pieces_upto sp delim k s qs -> ps = qs.
Proof. exact pieces_upto_det. Qed.
Print Assumptions C20_upto_unique.
Example C20_upto_unique_ex : bs "," <> [] /\ pieces_upto false (bs ",") 2 (bs "a,b,c,d") [bs "a"; bs "b"; bs "c,d"].
Proof.
  split; [discriminate|].
  destruct (split_limit Z.sub StrEx.sub_ok (bs "a,b,c,d") (bs ",") 3 20) as (ps & E & P); try (vm_compute; reflexivity || discriminate); [bytes_run..|cbn; lia|split; [vm_compute; discriminate|run]|]. injection E as <-. exact P.
Qed.


(** C20: no piece contains the delimiter. *)
Theorem C20_pieces_free : forall sp delim s ps, delim <> [] -> pieces sp delim s ps -> Forall (no_occ delim) ps.
Proof. exact pieces_free. Qed.
Print Assumptions C20_pieces_free.
Example C20_pieces_free_ex : bs "::" <> [] /\ pieces false (bs "::") (bs "a::b:::c") [bs "a"; bs "b"; bs ":c"].
Proof. split; apply C20_pieces_unique_ex. Qed.


(** C20: split by a space returns non-empty words. *)
Theorem C20_words : forall s ps, pieces true [32] s ps -> Forall (fun w => w <> [] /\ ~ In 32 w) ps.
Proof. exact pieces_words. Qed.
Print Assumptions C20_words.
Example C20_words_ex : pieces true [32] (bs " a") [bs "a"].
Proof. apply (pieces_last true [32] (bs " a")); [discriminate|]. apply single_free. intros I; vm_compute in I; intuition discriminate. Qed.

(** C20: never more pieces than the limit. *)
Theorem C20_count : forall sp delim k s ps, 0 <= k -> pieces_upto sp delim k s ps -> 1 <= zlen ps <= k + 1.
Proof. exact pieces_upto_count. Qed.
Print Assumptions C20_count.
Example C20_count_ex : pieces_upto false (bs ",") 2 (bs "a,b,c,d") [bs "a"; bs "b"; bs "c,d"] /\ zlen [bs "a"; bs "b"; bs "c,d"] = 2 + 1.
Proof. split; [apply C20_upto_unique_ex|run]. Qed.


(** C20: a limit of one returns the string. *)
Theorem C20_limit_one : forall (mdiff : Z -> Z -> Z) s delim fuel, s <> [] -> split mdiff fuel s delim 1 tt = Ok [s] tt.
Proof. exact split_one. Qed.
Print Assumptions C20_limit_one.
Example C20_limit_one_ex : split Z.sub 0 (bs "a b") (bs " ") 1 tt = Ok [bs "a b"] tt.
Proof. run. Qed.

(** C20: a limit of zero means no limit, but the (empty) rest is still appended. *)
Theorem C20_limit_zero : forall (mdiff : Z -> Z -> Z), memcmp_ok mdiff -> forall s delim fuel, bytes s -> bytes delim -> delim <> [] -> zlen s < W31 -> zlen delim < W31 ->
  (length s < fuel)%nat -> s <> [] ->
  exists ps, split mdiff fuel s delim 0 tt = Ok ps tt /\ pieces_upto (is_sp delim) delim npos s ps.
Proof. exact split_limit0. Qed.
Print Assumptions C20_limit_zero.
Example C20_limit_zero_ex : split Z.sub 9 (bs "a b") (bs " ") 0 tt = Ok [bs "a"; bs "b"; []] tt.
Proof. run. Qed.

(** C20: a limit larger than the number of pieces yields a spurious empty last piece. *)
Theorem C20_spurious_piece_refuted : exists s delim limit ps,
  split Z.sub 10 s delim npos tt = Ok ps tt /\ zlen ps < limit /\ split Z.sub 10 s delim limit tt = Ok (ps ++ [[]]) tt.
Proof. exists (bs "a b"), (bs " "), 5, [bs "a"; bs "b"]. repeat split; run. Qed.
Print Assumptions C20_spurious_piece_refuted.
(** C20: with an empty delimiter the loop never ends (for any number of rounds up to 2^63). *)
Theorem C20_empty_delimiter_refuted : forall mdiff s fuel, 0 < zlen s < W31 -> Z.of_nat fuel <= W63 -> split mdiff fuel s [] npos tt = Fuel.
Proof. exact split_empty_delim. Qed.
Print Assumptions C20_empty_delimiter_refuted.


(** C21: joining what split returned gives the string back. *)
Theorem C21_split_join : forall mdiff s delim fuel, memcmp_ok mdiff -> bytes s -> bytes delim -> delim <> [] -> delim <> [32] ->
  zlen s < W31 -> zlen delim < W31 -> (length s < fuel)%nat -> ~ suffix_of delim s ->
  exists ps, split mdiff fuel s delim npos tt = Ok ps tt /\ join ps delim false tt = Ok s tt.
Proof. exact split_join_roundtrip. Qed.
Print Assumptions C21_split_join.
Example C21_split_join_ex : split Z.sub 20 (bs "a--b---c") (bs "--") npos tt = Ok [bs "a"; bs "b"; bs "-c"] tt /\
  join [bs "a"; bs "b"; bs "-c"] (bs "--") false tt = Ok (bs "a--b---c") tt.
Proof. split; run. Qed.

(** C21: splitting a join gives the elements back, when in each element followed by the delimiter the delimiter
    occurs at the end only, and the last element is not empty. *)
Theorem C21_join_split : forall mdiff ps z delim fuel, memcmp_ok mdiff -> delim <> [] -> delim <> [32] ->
  Forall (fun a => first_occ delim (a ++ delim) (zlen a)) ps -> z <> [] -> no_occ delim z ->
  let s := intercalate delim (ps ++ [z]) in bytes s -> bytes delim -> zlen s < W31 -> zlen delim < W31 -> (length s < fuel)%nat ->
  split mdiff fuel s delim npos tt = Ok (ps ++ [z]) tt.
Proof. exact join_split_roundtrip. Qed.
Print Assumptions C21_join_split.
Example C21_join_split_ex : join [bs "x"; []; bs "y"] (bs ", ") false tt = Ok (bs "x, , y") tt /\
  split Z.sub 20 (bs "x, , y") (bs ", ") npos tt = Ok [bs "x"; []; bs "y"] tt.
Proof. split; run. Qed.

(** C21: for a one character delimiter it is enough that no element contains it. *)
Theorem C21_join_split_char : forall mdiff ps z d fuel, memcmp_ok mdiff -> d <> 32 ->
  Forall (fun a => ~ In d a) (ps ++ [z]) -> z <> [] ->
  let s := intercalate [d] (ps ++ [z]) in bytes s -> 0 <= d < 256 -> zlen s < W31 -> (length s < fuel)%nat ->
  split mdiff fuel s [d] npos tt = Ok (ps ++ [z]) tt.
Proof. exact join_split_single. Qed.
Print Assumptions C21_join_split_char.
Example C21_join_split_char_ex : Forall (fun a => ~ In 44 a) ([bs "x y"; []] ++ [bs "z"]) /\ intercalate [44] ([bs "x y"; []] ++ [bs "z"]) = bs "x y,,z" /\
  split Z.sub 20 (bs "x y,,z") [44] npos tt = Ok [bs "x y"; []; bs "z"] tt.
Proof. split; [|split; run]. repeat (apply Forall_cons; [intros I; vm_compute in I; intuition discriminate|]). apply Forall_nil. Qed.


(** C21: "does not contain the delimiter" is not enough for longer delimiters; a trailing delimiter is lost. *)
Theorem C21_overlap_refuted : exists ps delim s,
  Forall (no_occ delim) ps /\ join ps delim false tt = Ok s tt /\ split Z.sub 20 s delim npos tt <> Ok ps tt.
Proof. exact overlap_ex. Qed.
Print Assumptions C21_overlap_refuted.
Theorem C21_trailing_refuted : exists s delim ps t,
  split Z.sub 20 s delim npos tt = Ok ps tt /\ join ps delim false tt = Ok t tt /\ s <> t.
Proof. exists (bs "a,b,"), (bs ","), [bs "a"; bs "b"], (bs "a,b"). split; [run|split; [run|discriminate]]. Qed.
Print Assumptions C21_trailing_refuted.


(** C22: join concatenates the (quoted) elements with the delimiter between. *)
Theorem C22_join : forall arr delim (quoted : bool), (arr = [] \/ 0 < zlen arr * zlen delim + (if quoted then zlen arr * 2 else 0) + total arr <= W63) ->
  join arr delim quoted tt = Ok (intercalate delim (map (dress quoted) arr)) tt.
Proof. exact join_spec. Qed.
Print Assumptions C22_join.
Example C22_join_ex : join [bs "a"; bs "b"] (bs "; ") true tt = Ok (34 :: bs "a" ++ 34 :: bs "; " ++ 34 :: bs "b" ++ [34]) tt.
Proof. run. Qed.

(** C22: when there is nothing to copy the size computation wraps around and the call throws. *)
Theorem C22_join_empty_refuted : forall arr, arr <> [] -> total arr = 0 -> join arr [] false tt = Exn BadAlloc tt.
Proof. exact join_all_empty. Qed.
Print Assumptions C22_join_empty_refuted.
Example C22_join_empty_ex : join [[]; []] [] false tt = Exn BadAlloc tt.
Proof. run. Qed.


(** C23: sub replaces non-overlapping occurrences from left to right, at most limit times for a positive limit, all of
    them otherwise, and terminates. *)
Theorem C23_sub : forall s search repl limit fuel, search <> [] -> zlen s < W31 -> - W31 <= limit < W31 -> (length s < fuel)%nat ->
  exists t, sub fuel s search repl limit tt = Ok t tt /\ replaced search repl (budget limit) s t.
Proof. exact sub_spec. Qed.
Print Assumptions C23_sub.
Example C23_sub_ex : sub 20 (bs "aaaa-a") (bs "aa") (bs "aab") (-1) tt = Ok (bs "aabaab-a") tt /\
  sub 20 (bs "x.y.z") (bs ".") (bs "..") 1 tt = Ok (bs "x..y.z") tt.
Proof. split; run. Qed.

(** C23: the specification allows one result only. *)
Theorem C23_unique : forall search repl k s t, search <> [] -> replaced search repl k s t -> forall u, replaced search repl k s u -> t = u.
Proof. exact replaced_det. Qed.
Print Assumptions C23_unique.
Example C23_unique_ex : bs "aa" <> [] /\ replaced (bs "aa") (bs "aab") (budget (-1)) (bs "aaaa-a") (bs "aabaab-a") /\ replaced (bs ".") (bs "..") (budget 1) (bs "x.y.z") (bs "x..y.z").
Proof.
  split; [discriminate|]. split.
  - destruct (sub_spec (bs "aaaa-a") (bs "aa") (bs "aab") (-1) 20) as (t & E & P); try (vm_compute; reflexivity || discriminate); [split; [vm_compute; discriminate|run]|cbn; lia|]. injection E as <-. exact P.
  - destruct (sub_spec (bs "x.y.z") (bs ".") (bs "..") 1 20) as (t & E & P); try (vm_compute; reflexivity || discriminate); [split; [vm_compute; discriminate|run]|cbn; lia|]. injection E as <-. exact P.
Qed.


(** C23: subst applies the replacements one after the other in table order. *)
Theorem C23_subst : forall kvs s t, Forall (fun kv => fst kv <> []) kvs -> subst_chain kvs s t ->
  exists f0, forall fuel, (f0 <= fuel)%nat -> subst fuel s kvs tt = Ok t tt.
Proof. exact subst_spec. Qed.
Print Assumptions C23_subst.
Example C23_subst_ex : subst 20 (bs "a-b") [(bs "a", bs "b"); (bs "b", bs "c")] tt = Ok (bs "c-c") tt.
Proof. run. Qed.

(** C23: an empty search string loops forever. *)
Theorem C23_empty_search_refuted : forall s repl, zlen s < W31 -> forall fuel, sub fuel s [] repl (-1) tt = Fuel.
Proof. exact sub_empty_search. Qed.
Print Assumptions C23_empty_search_refuted.
(** C23: a limit of zero does not mean no replacement. *)
Theorem C23_limit_zero_refuted : exists s search repl, sub 9 s search repl 0 tt <> Ok s tt.
Proof. exists (bs "aa"), (bs "a"), (bs "b"). vm_compute. discriminate. Qed.
Print Assumptions C23_limit_zero_refuted.


(** C25: newsplit returns what precedes the first delimiter and leaves what follows it (after the run, for spaces). *)
Theorem C25_newsplit : forall s d a rest, zlen s < W31 -> s = a ++ d :: rest -> ~ In d a ->
  newsplit s d tt = Ok (a, skip (d =? 32) rest) tt.
Proof. exact newsplit_found. Qed.
Print Assumptions C25_newsplit.
Example C25_newsplit_ex : newsplit (bs "ab  cd e") 32 tt = Ok (bs "ab", bs "cd e") tt /\ newsplit (bs "a,,b") 44 tt = Ok (bs "a", bs ",b") tt.
Proof. split; run. Qed.

(** C25: without a delimiter the whole string is returned and nothing is left. *)
Theorem C25_newsplit_last : forall s d, zlen s < W31 -> ~ In d s -> newsplit s d tt = Ok (s, []) tt.
Proof. exact newsplit_last. Qed.
Print Assumptions C25_newsplit_last.
Example C25_newsplit_last_ex : newsplit (bs "abc") 44 tt = Ok (bs "abc", []) tt /\ newsplit [] 44 tt = Ok ([], []) tt.
Proof. split; run. Qed.

(** C25: calling newsplit until the string is empty terminates and returns the pieces in order. *)
Theorem C25_tokens : forall d, forall fuel s, zlen s < W31 -> (length s <= fuel)%nat -> (d = 32 -> skip_spaces s = s) ->
  exists ts, tokens fuel s d tt = Ok ts tt /\ pieces (d =? 32) [d] s ts.
Proof. exact tokens_spec. Qed.
Print Assumptions C25_tokens.
Example C25_tokens_ex : tokens 9 (bs "a b  c") 32 tt = Ok [bs "a"; bs "b"; bs "c"] tt.
Proof. run. Qed.

(** C25: a leading space gives one empty token first. *)
Theorem C25_tokens_leading : forall s fuel, zlen s + 1 < W31 -> (length s < fuel)%nat ->
  exists ts, tokens fuel (32 :: s) 32 tt = Ok ([] :: ts) tt /\ pieces true [32] s ts.
Proof. exact tokens_leading. Qed.
Print Assumptions C25_tokens_leading.
Example C25_tokens_leading_ex : tokens 9 (bs "  a b") 32 tt = Ok [[]; bs "a"; bs "b"] tt.
Proof. run. Qed.

(** C25: for other delimiters this is split. *)
Theorem C25_tokens_split : forall mdiff s d fuel, memcmp_ok mdiff -> d <> 32 -> bytes s -> 0 <= d < 256 -> zlen s < W31 -> (length s < fuel)%nat ->
  tokens fuel s d tt = split mdiff fuel s [d] npos tt.
Proof. exact tokens_split. Qed.
Print Assumptions C25_tokens_split.
Example C25_tokens_split_ex : tokens 9 (bs ",a,,b") 44 tt = split Z.sub 9 (bs ",a,,b") [44] npos tt.
Proof. run. Qed.

(** C26: find returns the first occurrence or npos. *)
Theorem C26_find : forall s w, zlen s < W63 -> w <> [] -> exists r, find s w tt = Ok r tt /\ found_first w s r.
Proof. exact find_spec. Qed.
Print Assumptions C26_find.
Example C26_find_ex : find (bs "hayneedle") (bs "ne") tt = Ok 3 tt /\ find (bs "hay") (bs "ne") tt = Ok npos tt.
Proof. split; run. Qed.

(** C26: find from a position searches the rest and counts from that position. *)
Theorem C26_find_from : forall s w pos, zlen s < W63 -> w <> [] -> 0 <= pos <= zlen s ->
  exists r, find_at s w pos tt = Ok r tt /\ found_first w (zdrop pos s) r.
Proof. exact find_at_spec. Qed.
Print Assumptions C26_find_from.
Example C26_find_from_ex : find_at (bs "abcabc") (bs "bc") 2 tt = Ok 2 tt.
Proof. run. Qed.

(** C26: positions behind the end are refused. *)
Theorem C26_find_from_throws : forall s w pos, zlen s < pos < W64 -> find_at s w pos tt = Exn OutOfRange tt.
Proof. exact find_at_throws. Qed.
Print Assumptions C26_find_from_throws.
Example C26_find_from_throws_ex : find_at (bs "abc") (bs "c") 4 tt = Exn OutOfRange tt.
Proof. run. Qed.

(** C26: rfind returns the last occurrence not before lpos, or npos. *)
Theorem C26_rfind : forall (mdiff : Z -> Z -> Z), memcmp_ok mdiff -> forall s w lo, bytes s -> bytes w -> w <> [] -> 0 <= lo < W64 -> zlen s < W63 ->
  exists r, rfind mdiff s w lo tt = Ok r tt /\ found_last w s lo r.
Proof. exact rfind_spec. Qed.
Print Assumptions C26_rfind.
Example C26_rfind_ex : rfind Z.sub (bs "abcabcab") (bs "bc") 0 tt = Ok 4 tt /\ rfind Z.sub (bs "abcabcab") (bs "bc") 5 tt = Ok npos tt /\
  rfind Z.sub (bs "ab") (bs "ab") 0 tt = Ok 0 tt.
Proof. repeat split; run. Qed.

(** C26: ifind is find after mapping both strings through toupper. *)
Theorem C26_ifind : forall (up : Z -> Z) s w, zlen s < W63 -> w <> [] ->
  exists r, ifind up s w tt = Ok r tt /\ found_first (map up w) (map up s) r.
Proof. exact ifind_spec. Qed.
Print Assumptions C26_ifind.
Example C26_ifind_ex : ifind upper (bs "heLLo") (bs "llO") tt = Ok 2 tt.
Proof. run. Qed.

(** C26: rifind is rfind after mapping, over the whole string: lpos is ignored. *)
Theorem C26_rifind : forall (mdiff : Z -> Z -> Z), memcmp_ok mdiff -> forall (up : Z -> Z) s w lo, bytes (map up s) -> bytes (map up w) -> zlen s < W63 -> w <> [] ->
  exists r, rifind up mdiff s w lo tt = Ok r tt /\ found_last (map up w) (map up s) 0 r.
Proof. exact rifind_spec. Qed.
Print Assumptions C26_rifind.
Example C26_rifind_ex : rifind upper Z.sub (bs "abAB") (bs "ab") 3 tt = Ok 2 tt.
Proof. run. Qed.

(** C26: the search used where the C library has no memmem, from position 0. *)
Theorem C26_fallback : forall (mdiff : Z -> Z -> Z), memcmp_ok mdiff -> forall s w, bytes s -> bytes w -> w <> [] -> zlen s < W63 ->
  exists r, find_fallback mdiff s w 0 tt = Ok r tt /\ found_first w s r.
Proof. exact find_fallback_spec. Qed.
Print Assumptions C26_fallback.
Example C26_fallback_ex : find_fallback Z.sub (bs "hayneedle") (bs "ne") 0 tt = Ok 3 tt.
Proof. run. Qed.

(** C26: rifind does not honour lpos. *)
Theorem C26_rifind_lpos_refuted : exists s w lo r, rifind upper Z.sub s w lo tt = Ok r tt /\ r < lo.
Proof. exists (bs "abxx"), (bs "ab"), 2, 0. split; run. Qed.
Print Assumptions C26_rifind_lpos_refuted.
(** C26: find(str, pos) is documented to return the position; it returns the distance from pos. *)
Theorem C26_position_refuted : exists s w pos r, find_at s w pos tt = Ok r tt /\ r <> npos /\ ~ occurs w s r.
Proof. exact position_ex. Qed.
Print Assumptions C26_position_refuted.
(** C26: from a position other than 0 the search without memmem misses occurrences and counts differently. *)
Theorem C26_fallback_refuted :
  (exists s w pos, find_at s w pos tt = Ok 0 tt /\ find_fallback Z.sub s w pos tt = Ok npos tt) /\
  (exists s w pos, find_at s w pos tt = Ok 0 tt /\ find_fallback Z.sub s w pos tt = Ok pos tt /\ pos <> 0).
Proof. split; [exists (bs "ab"), (bs "b"), 1|exists (bs "abxx"), (bs "b"), 1]; repeat split; try run. discriminate. Qed.
Print Assumptions C26_fallback_refuted.
(** C26: an empty needle is found at 0, from the end at length-1, which is npos in an empty string. *)
Theorem C26_empty_needle : forall mdiff s pos lo, find_ s [] pos tt = Ok 0 tt /\ rfind mdiff s [] lo tt = Ok (u64 (zlen s - 1)) tt.
Proof. exact empty_needle. Qed.
Print Assumptions C26_empty_needle.
Example C26_empty_needle_ex : rfind Z.sub [] [] 0 tt = Ok npos tt.
Proof. run. Qed.


(** C27: s * n is the n-fold concatenation. *)
Theorem C27_times : forall s n, 0 <= n < W31 -> zlen s * n < W63 -> times s n tt = Ok (repeat_str s (Z.to_nat n)) tt.
Proof. exact times_spec. Qed.
Print Assumptions C27_times.
Example C27_times_ex : times (bs "ab") 3 tt = Ok (bs "ababab") tt.
Proof. run. Qed.

(** C27: a negative count on a non-empty string throws. *)
Theorem C27_times_negative : forall s n, s <> [] -> zlen s < W31 -> - W31 <= n < 0 -> times s n tt = Exn BadAlloc tt.
Proof. exact times_negative. Qed.
Print Assumptions C27_times_negative.
Example C27_times_negative_ex : times (bs "ab") (-1) tt = Exn BadAlloc tt.
Proof. run. Qed.

(** C27: printf returns the formatted bytes when there are fewer than 4096. *)
Theorem C27_printf : forall out, zlen out < 4096 -> printf out tt = Ok out tt.
Proof. exact printf_ok. Qed.
Print Assumptions C27_printf.
Example C27_printf_ex : printf (bs "n=5") tt = Ok (bs "n=5") tt.
Proof. run. Qed.

(** C27: at 4096 bytes the last one is replaced by NUL, beyond that the buffer is overread. *)
Theorem C27_printf_long_refuted :
  (forall out, zlen out = 4096 -> printf out tt = Ok (ztake 4095 out ++ [0]) tt) /\
  (forall out, 4096 < zlen out -> printf out tt = Undef UbBounds).
Proof. exact printf_long. Qed.
Print Assumptions C27_printf_long_refuted.
Example C27_printf_long_ex : printf (zrep 5000 120) tt = Undef UbBounds.
Proof. run. Qed.

