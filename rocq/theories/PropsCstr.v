(** C string helper properties C35-C37. [stored m p l m'] says that [m'] is [m] with exactly the bytes [l] written at
    [p]; accesses to unmapped memory are the outcome [Undef], exit(5) after a failed allocation is [Term]. *)
From stdpp Require Import gmap.
From Coq Require Import Lia String.
From Verif Require Import Base StrSpec StrEx CstrModel CstrSpec CstrProof.
Open Scope Z_scope.
Ltac run := vm_compute; reflexivity.
(** A destination of 5 bytes at 100, the string "hello" at 200, an allocated "old" at 300. *)
Definition h0 : heap :=
  Heap (put 100 [1; 2; 3; 4; 5] (put 200 (bs "hello" ++ [0]) (put 300 (bs "old" ++ [0]) ∅))) {[ 300 := 4 ]}.
Definition peek (p : Z) (n : nat) {A} (r : res heap A) : option (A * list (option Z) * list (Z * Z)) :=
  match r with Ok a h => Some (a, map (fun i => mem h !! (p + Z.of_nat i)) (seq 0 n), map_to_list (live h)) | _ => None end.
Definition hello := put 200 (bs "hello" ++ [0]) ∅.

(** C35: strlcpy returns strlen(src) and writes the first siz-1 bytes of src and a NUL, nothing else. *)
Theorem C35_strlcpy : forall s fuel dst src siz h,
  cstr (mem h) src s -> 0 <= siz < W64 -> (length s < fuel)%nat ->
  mapped (mem h) dst (Z.min (zlen s + 1) siz) -> apart dst (Z.min (zlen s + 1) siz) src (zlen s + 1) ->
  exists m', strlcpy fuel dst src siz h = Ok (zlen s) (Heap m' (live h)) /\
    stored (mem h) dst (if siz =? 0 then [] else ztake (siz - 1) s ++ [0]) m'.
Proof. exact strlcpy_spec. Qed.
Print Assumptions C35_strlcpy.
Example C35_strlcpy_ex :
  peek 100 5 (strlcpy 10 100 200 4 h0) = Some (5, [Some 104; Some 101; Some 108; Some 0; Some 5], [(300, 4)]) /\
  peek 100 5 (strlcpy 10 100 300 5 h0) = Some (3, [Some 111; Some 108; Some 100; Some 0; Some 5], [(300, 4)]) /\
  peek 100 5 (strlcpy 10 100 200 1 h0) = Some (5, [Some 0; Some 2; Some 3; Some 4; Some 5], [(300, 4)]) /\
  peek 100 5 (strlcpy 10 100 200 0 h0) = Some (5, [Some 1; Some 2; Some 3; Some 4; Some 5], [(300, 4)]).
Proof. repeat split; run. Qed.

(** C36: strlcat appends what fits below siz and a NUL, and returns the length it tried to create. *)
Theorem C36_strlcat : forall t s fuel dst src siz h,
  cstr (mem h) dst t -> cstr (mem h) src s -> zlen t < siz < W64 -> (length t < fuel)%nat -> (length s < fuel)%nat ->
  mapped (mem h) (dst + zlen t) (Z.min (zlen s) (siz - zlen t - 1) + 1) ->
  apart (dst + zlen t) (Z.min (zlen s) (siz - zlen t - 1) + 1) src (zlen s + 1) ->
  exists m', strlcat fuel dst src siz h = Ok (zlen t + zlen s) (Heap m' (live h)) /\
    stored (mem h) (dst + zlen t) (ztake (siz - zlen t - 1) s ++ [0]) m'.
Proof. exact strlcat_spec. Qed.
Print Assumptions C36_strlcat.
Definition h1 : heap := Heap (put 100 [97; 0; 3; 4; 5] (mem h0)) ∅.
Example C36_strlcat_ex :
  peek 100 5 (strlcat 10 100 200 4 h1) = Some (6, [Some 97; Some 104; Some 101; Some 0; Some 5], []) /\
  peek 100 5 (strlcat 10 100 200 2 h1) = Some (6, [Some 97; Some 0; Some 3; Some 4; Some 5], []).
Proof. split; run. Qed.

(** C36: with no NUL among the first siz bytes nothing is written; the byte after them is read. *)
Theorem C36_unterminated : forall l c s fuel dst src h,
  stands (mem h) dst (l ++ [c]) -> ~ In 0 l -> cstr (mem h) src s -> zlen l < W64 -> (length l < fuel)%nat -> (length s < fuel)%nat ->
  strlcat fuel dst src (zlen l) h = Ok (zlen l + zlen s) h.
Proof. exact strlcat_full. Qed.
Print Assumptions C36_unterminated.
Example C36_unterminated_ex : peek 100 5 (strlcat 10 100 200 3 h0) = Some (8, [Some 1; Some 2; Some 3; Some 4; Some 5], [(300, 4)]).
Proof. run. Qed.

(** C36: that read is out of bounds when the buffer has exactly siz bytes. *)
Theorem C36_over_read : forall l fuel dst src h,
  stands (mem h) dst l -> ~ In 0 l -> mem h !! (dst + zlen l) = None -> zlen l < W64 -> (length l < fuel)%nat ->
  strlcat fuel dst src (zlen l) h = Undef UbBounds.
Proof. exact strlcat_over. Qed.
Print Assumptions C36_over_read.
(** C36: so strlcat(dst, src, sizeof dst) is not safe for every content of dst. *)
Theorem C36_bounds_refuted : exists h dst src siz, mapped (mem h) dst siz /\ cstr (mem h) src (bs "hello") /\
  forall fuel, (5 < fuel)%nat -> strlcat fuel dst src siz h = Undef UbBounds.
Proof.
  exists h0, 100, 200, 5. split; [|split].
  - intros a Ha. assert (a = 100 \/ a = 101 \/ a = 102 \/ a = 103 \/ a = 104) as C by lia.
    destruct C as [->|[->|[->|[->| ->]]]]; vm_compute; eauto.
  - split; [|intros I; vm_compute in I; intuition discriminate].
    intros i c E. pose proof (znth_inv _ _ _ E) as R. change (zlen (bs "hello" ++ [0])) with 6 in R.
    assert (i = 0 \/ i = 1 \/ i = 2 \/ i = 3 \/ i = 4 \/ i = 5) as C by lia.
    destruct C as [->|[->|[->|[->|[->| ->]]]]]; vm_compute in E; injection E as <-; run.
  - intros fuel Hf. apply (strlcat_over [1; 2; 3; 4; 5]).
    + intros i c E. pose proof (znth_inv _ _ _ E) as R. change (zlen [1; 2; 3; 4; 5]) with 5 in R.
      assert (i = 0 \/ i = 1 \/ i = 2 \/ i = 3 \/ i = 4) as C by lia.
      destruct C as [->|[->|[->|[->| ->]]]]; vm_compute in E; injection E as <-; run.
    + intros I. vm_compute in I. intuition discriminate.
    + run.
    + reflexivity.
    + exact Hf.
Qed.
Print Assumptions C36_bounds_refuted.

(** C37: strdup returns a NUL-terminated copy in memory that was not in use, and changes nothing else. *)
Theorem C37_strdup : forall alloc, allocator alloc -> forall s fuel p h, cstr (mem h) p s -> zlen s < W63 -> (length s < fuel)%nat ->
  match alloc (mem h) (zlen s + 1) with
  | None => strdup alloc fuel p h = Term
  | Some t => exists m', strdup alloc fuel p h = Ok t (Heap m' (<[t := zlen s + 1]> (live h))) /\
      stored (mem h) t (s ++ [0]) m' /\ forall b, t <= b < t + zlen s + 1 -> mem h !! b = None
  end.
Proof. exact (fun alloc => strdup_spec alloc (fun _ => 0)). Qed.
Print Assumptions C37_strdup.
Example C37_allocator_ex : allocator above.
Proof. exact above_allocator. Qed.
Example C37_strdup_ex :
  peek 1000 7 (strdup above 10 200 h0) = Some (1000, [Some 104; Some 101; Some 108; Some 108; Some 111; Some 0; None], [(1000, 6); (300, 4)]).
Proof. run. Qed.

(** C37: strldup copies at most maxlen bytes. *)
Theorem C37_strldup : forall alloc, allocator alloc -> forall s fuel p n h,
  cstr (mem h) p s -> zlen s < W63 -> 0 <= n < W64 -> (length s < fuel)%nat ->
  match alloc (mem h) (zlen (ztake n s) + 1) with
  | None => strldup alloc fuel p n h = Term
  | Some t => exists m', strldup alloc fuel p n h = Ok t (Heap m' (<[t := zlen (ztake n s) + 1]> (live h))) /\
      stored (mem h) t (ztake n s ++ [0]) m' /\ forall b, t <= b < t + zlen (ztake n s) + 1 -> mem h !! b = None
  end.
Proof. exact (fun alloc => strldup_spec alloc (fun _ => 0)). Qed.
Print Assumptions C37_strldup.
Example C37_strldup_ex :
  peek 1000 4 (strldup above 10 200 2 h0) = Some (1000, [Some 104; Some 101; Some 0; None], [(1000, 3); (300, 4)]).
Proof. run. Qed.

(** C37: calloc gives memory that was not in use, all zero; realloc keeps what fits and releases the old block. Both end
    the process if there is no memory. *)
Theorem C37_calloc : forall (alloc : gmap Z Z -> Z -> option Z) n h, 0 <= n ->
  match alloc (mem h) n with
  | None => bd_calloc alloc n h = Term
  | Some a => exists m', bd_calloc alloc n h = Ok a (Heap m' (<[a := n]> (live h))) /\ stored (mem h) a (zrep n 0) m'
  end.
Proof. exact calloc_spec. Qed.
Print Assumptions C37_calloc.
Theorem C37_realloc : forall alloc junk p k n l h, live h !! p = Some k -> stands (mem h) p l -> zlen l = k -> 0 <= n ->
  exists m0, unmapped (mem h) p k m0 /\
  match alloc m0 n with
  | None => bd_realloc alloc junk (Some p) n h = Term
  | Some a => exists m', bd_realloc alloc junk (Some p) n h = Ok a (Heap m' (<[a := n]> (delete p (live h)))) /\
      stands m' a (ztake n l) /\ mapped m' a n /\ forall b, ~ a <= b < a + n -> m' !! b = m0 !! b
  end.
Proof. exact realloc_spec. Qed.
Print Assumptions C37_realloc.
Example C37_realloc_ex : live h0 !! 300 = Some 4 /\
  peek 1000 4 (bd_calloc above 3 h0) = Some (1000, [Some 0; Some 0; Some 0; None], [(1000, 3); (300, 4)]) /\
  match bd_realloc above (fun _ => 9) (Some 300) 6 h0 with
  | Ok a h => a = 1000 /\ map (fun i => mem h !! (a + i)) [0; 1; 2; 3] = map (fun i => mem h0 !! (300 + i)) [0; 1; 2; 3] /\ mem h !! (a + 5) = Some 9 /\ mem h !! 300 = None
  | _ => False end.
Proof. split; [run|split; [run|]]. vm_compute. repeat split. Qed.

(** C37: str_redup into a null pointer. *)
Theorem C37_redup_first : forall alloc junk s fuel q h, allocator alloc -> cstr (mem h) q s -> zlen s < W63 -> (length s < fuel)%nat ->
  match alloc (mem h) (zlen s + 1) with
  | None => str_redup alloc junk fuel None (Some q) h = Term
  | Some a => exists m', str_redup alloc junk fuel None (Some q) h = Ok (Some a) (Heap m' (<[a := zlen s + 1]> (live h))) /\
      stored (mem h) a (s ++ [0]) m' /\ forall b, a <= b < a + zlen s + 1 -> mem h !! b = None
  end.
Proof. exact redup_first. Qed.
Print Assumptions C37_redup_first.
Example C37_redup_first_ex :
  peek 1000 7 (str_redup above (fun _ => 9) 10 None (Some 200) h0) =
  Some (Some 1000, [Some 104; Some 101; Some 108; Some 108; Some 111; Some 0; None], [(1000, 6); (300, 4)]).
Proof. run. Qed.

(** C37: str_redup over an old string releases its block once and installs the copy, wherever realloc puts it. *)
Theorem C37_redup_again : forall alloc junk s fuel p k q h, allocator alloc -> live h !! p = Some k -> 0 <= k -> apart p k q (zlen s + 1) ->
  cstr (mem h) q s -> zlen s < W63 -> (length s < fuel)%nat ->
  exists m0, unmapped (mem h) p k m0 /\
  match alloc m0 (zlen s + 1) with
  | None => str_redup alloc junk fuel (Some p) (Some q) h = Term
  | Some a => exists m', str_redup alloc junk fuel (Some p) (Some q) h = Ok (Some a) (Heap m' (<[a := zlen s + 1]> (delete p (live h)))) /\
      stored m0 a (s ++ [0]) m' /\ forall b, a <= b < a + zlen s + 1 -> m0 !! b = None
  end.
Proof. exact redup_again. Qed.
Print Assumptions C37_redup_again.
Example C37_redup_again_ex :
  peek 300 7 (str_redup (fun _ _ => Some 300) (fun _ => 9) 10 (Some 300) (Some 200) h0) =
  Some (Some 300, [Some 104; Some 101; Some 108; Some 108; Some 111; Some 0; None], [(300, 6)]) /\
  peek 300 2 (str_redup above (fun _ => 9) 10 (Some 300) (Some 200) h0) = Some (Some 1000, [None; None], [(1000, 6)]).
Proof. split; run. Qed.

(** C37: a null source releases the old string. *)
Theorem C37_redup_clear : forall alloc junk fuel p k h, live h !! p = Some k -> 0 <= k ->
  exists m0, unmapped (mem h) p k m0 /\ str_redup alloc junk fuel (Some p) None h = Ok None (Heap m0 (delete p (live h))).
Proof. exact redup_clear. Qed.
Print Assumptions C37_redup_clear.
Example C37_redup_clear_ex : peek 300 2 (str_redup above (fun _ => 9) 10 (Some 300) None h0) = Some (None, [None; None], []).
Proof. run. Qed.

(** C37: a source inside the old string is read after its release (or overlaps its own copy), for every allocator. *)
Theorem C37_redup_alias : forall alloc junk s fuel p k q h,
  live h !! p = Some k -> p <= q < p + k -> cstr (mem h) q s -> zlen s < W63 -> (length s < fuel)%nat ->
  str_redup alloc junk fuel (Some p) (Some q) h = Term \/ exists u, str_redup alloc junk fuel (Some p) (Some q) h = Undef u.
Proof. exact redup_alias. Qed.
Print Assumptions C37_redup_alias.
Example C37_redup_alias_ex : str_redup above (fun _ => 9) 10 (Some 300) (Some 301) h0 = Undef UbBounds /\
  str_redup (fun _ _ => Some 300) (fun _ => 9) 10 (Some 300) (Some 301) h0 = Undef UbOverlap.
Proof. split; run. Qed.
