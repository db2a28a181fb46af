(** Concrete programs over Strings, tables, arrays and base64, for the examples of PropsLib. *)
From Coq Require Import String.
From stdpp Require Import gmap.
From Verif Require Import Base ZList RcaSpec RcaModel RcaExec RcaOwn RcaRel RcaMeet RcaReach RcaEx StrSpec StrEx HashModel HsModel HtMeet PtSpec PtModel PtMeet PtCall PtEx LibSpec LibModel LibMeet LibProof.
Open Scope Z_scope.

(** Elements of arrays are 1001, 1002, ... of which each array has every 64th. *)
Definition ex_el (j : positive) (k : nat) : positive := (1000 + j + 64 * Pos.of_succ_nat k)%positive.
Lemma ex_el_inj j k k' : ex_el j k = ex_el j k' -> k = k'.
Proof. unfold ex_el. lia. Qed.
Definition ex_junk (i : Z) : Z := 170.
Definition l_fine : need_of := Need fine (fun _ => false).
Definition new_str (x : positive) (s : string) : lcall := LPt (PString (CtorCstrLen x (bs s) (zlen (bs s)))).
(** "a,b,,c d" is split at "," and joined with "; "; a table replaces in the result; all of it is encoded, decoded and looked at. *)
Definition lib_prog : list (lcall * need_of) := map (fun c => (c, l_fine))
  [new_str 1 "a,b,,c d"; new_str 2 ","; new_str 3 "; "; LSplit 1 1 2 npos; LCount 1; LJoin 4 1 3 false; LPt (PString (Length 4));
   LPt (PMake 1 1); LPt (PPut false false 1 3 2); LSubst 5 4 1; LPt (PString (Length 5)); LIfind 5 1;
   LPt (PString (AppendItem (ex_el 1 0) 33)); LJoin 6 1 3 true; LPt (PString (Length 6)); LFree 1;
   LEncode 7 5; LDecode 8 7; LPt (PString (Length 8)); LIfind 8 1; LPt (PString (Length 7));
   LPlus 9 1 8; LTimes 10 2 3; LSub 11 9 2 10 2; LPt (PString (Length 11)); new_str 12 "C D"; LIfind 9 12; LRifind 9 12 0;
   LSplit 2 1 2 2; LCount 2; LPt (PString (Length (ex_el 2 1))); LNewsplit 13 8 44; LPt (PString (Length 13)); LPt (PString (Length 8));
   LSlice false 8 (-1) 2 12; LSlice true 8 1 2 12; LSliceOf 8 4 (-1) 1 2 3; LPt (PString (Length 8)); LPt (PString (At 8 1)); LPt (PString (At 8 6)); LPt (PString (Length 1))].
(** Growing the array is refused at first. *)
Definition lib_fail : list (lcall * need_of) :=
  [(new_str 1 "a,b", l_fine); (new_str 2 ",", l_fine); (LSplit 1 1 2 npos, Need fine (fun k => Nat.eqb k 1)); (LSplit 1 1 2 npos, l_fine); (LCount 1, l_fine)].
(** Encoding is tried twice. *)
Definition lib_twice : list (lcall * need_of) := map (fun c => (c, l_fine)) [new_str 1 "foob"; LEncode 2 1; LPt (PString (Length 1)); LEncode 2 1; LPt (PString (Length 2))].
(** Questions, also about a String and its copy, and texts made of one: "abcabc" and "bc"; " hi\r\n", 32 being a space. *)
Definition lib_ask : list (lcall * need_of) := map (fun c => (c, l_fine))
  [new_str 1 "abcabc"; new_str 2 "bc"; LPt (PString (CtorCopy 3 1)); LAsk QEq 1 3; LAsk QNe 1 3; LAsk QCompare 1 3; LAsk QCompare 1 2; LAsk QCompare 2 1;
   LMake (KSubstring 1 (-1)) 4 3; LAsk QEq 3 4; LAsk QLt 3 4; LAsk QGt 3 4; LAsk QLe 3 1; LAsk QGe 3 4;
   LAsk QFind 1 2; LAsk (QFindFrom 2) 1 2; LAsk (QFindFrom 7) 1 2; LAsk (QRfind 0) 1 2; LAsk (QRfind 5) 1 2; LAsk QFind 2 1;
   LPt (PString (CtorList 5 [32; 104; 105; 13; 10])); LMake KChomp 6 5; LMake (KTrim (Z.eqb 32)) 7 6; LPt (PString (Length 6)); LPt (PString (Length 7)); LPt (PString (Length 5)); LAsk QLt 6 7].
(** An array filled by hand: growing it for the second element is refused once; elements are looked at, one is asked for past the end; it is joined, and emptied. *)
Definition lib_array : list (lcall * need_of) :=
  map (fun c => (c, l_fine)) [new_str 1 "ab"; new_str 2 "cde"; new_str 3 "-"; LArr 1; LPush false 1 1] ++
  [(LPush true 1 2, Need fine (fun k => Nat.eqb k 1)); (LPt (PString (Length 2)), l_fine)] ++
  map (fun c => (c, l_fine)) [LPush true 1 2; LCount 1; LElem 4 1 1; LPt (PString (Length 4)); LElem 5 1 2; LPt (PString (AppendItem 1 33)); LPt (PString (Length (ex_el 1 0)));
    LJoin 5 1 3 false; LPt (PString (Length 5)); LPop 6 1; LCount 1; LAsk QEq 6 4; LPop 7 1; LCount 1; LPush false 1 6; LPt (PString (Length (ex_el 1 0))); LPush false 1 3; LFree 1] ++
  map (fun x => (LPt (PString (Destroy x)), l_fine)) [1; 2; 3; 4; 5; 6; 7]%positive.
(** The end of [lib_prog]. *)
Definition lib_end : list (lcall * need_of) :=
  (LFree 2, l_fine) :: (LPt (PDestroy 1), l_fine) :: map (fun x => (LPt (PString (Destroy x)), l_fine)) [1; 2; 3; 4; 5; 6; 7; 8; 9; 10; 11; 12; 13]%positive.
(** The memory after a program. *)
Fixpoint l_after (d : desc Z) (prog : list (lcall * need_of)) (q : lmem) : option lmem :=
  match prog with
  | [] => Some q
  | (c, tr) :: prog' => match lexec d Z.sub ex_grow ex_el upper ex_junk c tr q with Ok _ q' | Exn _ q' => l_after d prog' q' | _ => None end
  end.
Definition l_start : lmem := Lmem (st_init, ∅) ∅ 0.
Definition l_last (d : desc Z) (prog : list (lcall * need_of)) : lmem := match l_after d prog l_start with Some q => q | None => l_start end.
(** The state of PtEx, with its world: 1, 2, 3 are "hello", "World!!" and "k"; table 1 maps "hello" to "World!!", "k" to "hello". *)
Definition ex_q : lmem := Lmem ex_st ∅ 0.
Definition ex_w : world := World (fst ex_mb) ∅ (snd ex_mb) 0.
Lemma ex_lrel : lrel sdesc ex_q ex_w.
Proof. split; [exact ex_rel|split; reflexivity]. Qed.
Lemma factor_perm l l' : Permutation l l' -> factor l = factor l'.
Proof. induction 1; cbn [factor]; lia. Qed.
Definition nonempty_keys (m : gmap chars chars) : bool := forallb (fun kv : chars * chars => match fst kv with [] => false | _ => true end) (map_to_list m).
Lemma subst_ready r x i w m s : w_maps w !! i = Some m -> full (w_strs w) x = Some s -> w_strs w !! r = None -> nonempty_keys m = true ->
  Z.of_nat (length s * factor (map_to_list m)) < W31 -> lpre (step sdesc) ex_el upper (LSubst r x i) w.
Proof.
  intros M X R N L. assert (forall kv, In kv (map_to_list m) -> fst kv <> []) as F.
  { intros kv H E. unfold nonempty_keys in N. rewrite forallb_forall in N. specialize (N kv H). rewrite E in N. discriminate. }
  split; [|exact R]. exists m, s. split; [exact M|]. split; [exact X|]. split.
  - destruct (m !! []) as [v|] eqn:E; [|reflexivity]. apply elem_of_map_to_list, elem_of_list_In, F in E. contradiction.
  - intros l P. apply turn_some; [|rewrite (factor_perm _ _ P); exact L]. apply List.Forall_forall. intros kv H. apply F. exact (Permutation_in _ P H).
Qed.
Lemma ex_subst : lpre (step sdesc) ex_el upper (LSubst 9 1 1) ex_w.
Proof.
  apply (subst_ready 9 1 1 ex_w (default ∅ (fst ex_mb !! 1%positive)) hello).
  - destruct (fst ex_mb !! 1%positive) eqn:E; [exact E|]. exfalso. assert (match fst ex_mb !! 1%positive with Some _ => true | None => false end = true) as F by (vm_compute; reflexivity). rewrite E in F. discriminate.
  - vm_compute. reflexivity.
  - vm_compute. reflexivity.
  - vm_compute. reflexivity.
  - apply Z.ltb_lt. vm_compute. reflexivity.
Qed.
Lemma ex_push : lpre (step sdesc) ex_el upper (LPush true 1 2) (World (w_maps ex_w) {[ 1%positive := 0%nat ]} (w_strs ex_w) 0).
Proof. split; [|intros k; unfold ex_el; lia]. exists 0%nat, RcaEx.world. split; [vm_compute; reflexivity|]. split; vm_compute; reflexivity. Qed.
Lemma ex_split : lpre (step sdesc) ex_el upper (LSplit 1 2 3 npos) ex_w.
Proof.
  split; [|split; [reflexivity|]].
  - exists RcaEx.world, [107]. split; [vm_compute; reflexivity|]. split; [vm_compute; reflexivity|].
    split; [repeat (apply List.Forall_cons; [lia|]); apply List.Forall_nil|]. split; [repeat (apply List.Forall_cons; [lia|]); apply List.Forall_nil|]. split; [discriminate|].
    split; [vm_compute; reflexivity|]. split; [vm_compute; reflexivity|]. left. reflexivity.
  - intros k. apply eq_None_not_Some. intros [v E]. assert (forallb (fun kv : positive * aval Z => Pos.leb (fst kv) 100) (map_to_list (snd ex_mb)) = true) as F by (vm_compute; reflexivity).
    rewrite forallb_forall in F. apply elem_of_map_to_list, elem_of_list_In, F in E. cbn [fst] in E. apply Pos.leb_le in E. unfold ex_el in E. lia.
Qed.
