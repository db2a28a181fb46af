(** C82: what it costs to put a text or an array together from pieces. Every theorem is closed by a lemma of BuildRun; examples beside them. [build d x ps s] appends the
    pieces to [x] in turn: the first n elements of another array ([Copied y n]) or of the memory at a pointer ([Chars mem n]), or all up to the end (n = npos);
    it gives the memory afterwards and the number of elements of [x] moved or copied besides the pieces themselves, if every call returns. [piece_text] is
    what a piece stands for. [st_tick] counts the allocations asked for, [st_freed] lists the buffers released, [total] adds up their sizes. *)
From Coq Require Import Lia.
From Verif Require Import Base RcaSpec RcaModel RcaExec RcaOwn RcaMeet RcaReach RcaEx GrowModel GrowProof GrowFloat BuildModel BuildSpec BuildRun.
Open Scope Z_scope.
Ltac run := vm_compute; reflexivity.

(** C82: whatever the pieces' sizes: logarithmically many allocations, linearly many elements moved and released; contents are the pieces in order; no other object
    changes. *)
Theorem C82_build : forall {T} (d : desc T), wf_desc d -> forall lim x ps ts s s' a r v m,
  (forall z, 0 <= z <= lim -> z + z / 2 <= d_grow d z) -> lim <= max_alloc ->
  reached d s a -> a !! x = Some (AVal r v) -> Forall (joins a v) ps -> Forall2 (piece_text d a x) ps ts -> zlen v + zlen (concat ts) + 2 <= lim ->
  build d x ps s = Some (s', m) ->
  exists a' r' R, reached d s' a' /\ a' !! x = Some (AVal r' (v ++ concat ts)) /\ (forall y, y <> x -> a' !! y = a !! y) /\
    Z.of_nat (st_tick s') <= Z.of_nat (st_tick s) + 2 * Z.log2 (4 * (zlen (v ++ concat ts) + 1)) + 3 /\
    st_freed s' = R ++ st_freed s /\ total R <= 4 * zlen (v ++ concat ts) /\ m <= 5 * zlen (v ++ concat ts).
Proof. exact @build_log. Qed.
Print Assumptions C82_build.
(** A copy of "hello" and an empty String; a hundred pieces each: "World!!", "ab" by pointer, "hel". *)
Definition b_prog : list (op Z) := prog_s ++ [CtorDefault 5].
Definition b_three : list (piece Z) := [Copied 4 npos; Chars [97; 98; 0; 99] npos; Copied 1 3].
Definition b_text : list (option Z) := map Some (world ++ [97; 98] ++ [104; 101; 108]).
Definition b_many (n : nat) : list (piece Z) := concat (repeat b_three n).
Definition b_texts (n : nat) : list (list (option Z)) := concat (repeat [map Some world; map Some [97; 98]; map Some [104; 101; 108]] n).
Lemma b_pieces x n : (x = 2 \/ x = 5)%positive -> Forall2 (piece_text sdesc (av sdesc b_prog) x) (b_many n) (b_texts n).
Proof.
  intros Hx. unfold b_many, b_texts. induction n as [|n IH]; [constructor|]. cbn [repeat concat]. apply Forall2_app; [|exact IH]. constructor; [|constructor; [|constructor; [|constructor]]].
  - split; [destruct Hx; subst; discriminate|]. split; [unfold npos, W64; lia|]. exists true, (map Some world). split; [run|]. symmetry. apply ztake_all. vm_compute. discriminate.
  - exists 0. split; [reflexivity|]. right. split; [reflexivity|]. exists [97; 98]. split; run.
  - split; [destruct Hx; subst; discriminate|]. split; [unfold npos, W64; lia|]. exists true, (map Some hello). split; run.
Qed.
Lemma b_joins v n : Forall (joins (av sdesc b_prog) v) (b_many n).
Proof.
  unfold b_many. induction n as [|n IH]; [constructor|]. cbn [repeat concat]. apply Forall_app; split; [|exact IH]. constructor; [|constructor; [|constructor; [|constructor]]]; right; unfold counted; [| |].
  - intros (_ & r & u & E & Hn). assert (av sdesc b_prog !! 4%positive = Some (AVal true (map Some world))) as Q by run. rewrite Q in E. injection E as _ <-. match type of Hn with _ = ?z => change z with 7 in Hn end. unfold npos, W64 in Hn. lia.
  - auto.
  - intros (_ & r & u & E & Hn). assert (av sdesc b_prog !! 1%positive = Some (AVal true (map Some hello))) as Q by run. rewrite Q in E. injection E as _ <-. match type of Hn with _ = ?z => change z with 5 in Hn end. lia.
Qed.
Lemma sdesc_grow z : 0 <= z <= 2 ^ 51 -> z + z / 2 <= d_grow sdesc z.
Proof. intros _. reflexivity. Qed.
Definition b_cost (x : var) (n : nat) : option (Z * nat * Z) :=
  let s := st sdesc b_prog in option_map (fun p => (snd p, (st_tick (fst p) - st_tick s)%nat, total (st_freed (fst p)) - total (st_freed s))) (build sdesc x (b_many n) s).
Example C82_build_ex : wf_desc sdesc /\ reached sdesc (st sdesc b_prog) (av sdesc b_prog) /\ av sdesc b_prog !! 2%positive = Some (AVal true (map Some hello)) /\
  (forall n, Forall (joins (av sdesc b_prog) (map Some hello)) (b_many n)) /\ (forall n, Forall2 (piece_text sdesc (av sdesc b_prog) 2) (b_many n) (b_texts n)) /\
  zlen (map Some hello ++ concat (b_texts 100)) = 1205 /\ b_cost 2 100 = Some (3156, 14%nat, 3178) /\ option_map (fun p => content 2 (fst p)) (build sdesc 2 (b_many 1) (st sdesc b_prog)) = Some (Some (map Some hello ++ b_text)).
Proof.
  split; [apply sdesc_wf|]. split; [apply run_reached|]. split; [run|]. split; [intros n; apply b_joins|]. split; [intros n; apply b_pieces; auto|].
  repeat match goal with |- _ /\ _ => split end; run.
Qed.
(** Also from an empty String, and with pieces sized like the text so far. *)
Example C82_build_empty_ex : av sdesc b_prog !! 5%positive = Some (AVal true []) /\ (forall n, Forall (joins (av sdesc b_prog) []) (b_many n)) /\ b_cost 5 100 = Some (3014, 15%nat, 3051).
Proof. split; [run|]. split; [intros n; apply b_joins|]. run. Qed.

(** C82: with the growth factor computed in doubles. *)
Theorem C82_build_double : forall {T} (d : desc T) x ps ts s s' a r v m, wf_desc d -> (forall z, d_grow d z = scaled z) ->
  reached d s a -> a !! x = Some (AVal r v) -> Forall (joins a v) ps -> Forall2 (piece_text d a x) ps ts -> zlen v + zlen (concat ts) + 2 <= 2 ^ 51 ->
  build d x ps s = Some (s', m) ->
  exists R, Z.of_nat (st_tick s') <= Z.of_nat (st_tick s) + 2 * Z.log2 (4 * (zlen (v ++ concat ts) + 1)) + 3 /\
    st_freed s' = R ++ st_freed s /\ total R <= 4 * zlen (v ++ concat ts) /\ m <= 5 * zlen (v ++ concat ts).
Proof.
  intros T d x ps ts s s' a r v m Hwf Hg Hre Ha Hv Hts Hl H.
  destruct (build_log d Hwf (2 ^ 51) x ps ts s s' a r v m) as (a' & r' & R & _ & _ & _ & Q); try assumption; [|unfold max_alloc, W63; lia|eauto].
  intros z Hz. rewrite Hg, scaled_exact by lia. reflexivity.
Qed.
Print Assumptions C82_build_double.
Definition bdesc : desc Z := Desc false 0 None (fun z => z) Z.eqb scaled never false.
Definition b_roomy : list (op Z) := [CtorSized 1 8; AppendItem 1 7; CtorSized 2 4; AppendItem 2 1; AppendItem 2 2; AppendItem 2 3].
Example C82_build_double_ex : wf_desc bdesc /\ (forall z, d_grow bdesc z = scaled z) /\ reached bdesc (st bdesc b_roomy) (av bdesc b_roomy) /\
  av bdesc b_roomy !! 1%positive = Some (AVal true (map Some [7])) /\ av bdesc b_roomy !! 2%positive = Some (AVal true (map Some [1; 2; 3])) /\
  option_map (fun p => (content 1 (fst p), snd p)) (build bdesc 1 [Copied 2 npos; Copied 2 2] (st bdesc b_roomy)) = Some (Some (map Some [7; 1; 2; 3; 1; 2]), 0).
Proof. split; [intros z; discriminate|]. split; [reflexivity|]. split; [apply run_reached|]. repeat match goal with |- _ /\ _ => split end; run. Qed.

(** C82: the calls return if memory is to be had. *)
Theorem C82_returns : forall {T} (d : desc T), wf_desc d -> forall lim x,
  (forall k, d_oom d k = false) -> lim <= max_alloc -> (forall z, 0 <= z < lim -> d_grow d z <= max_alloc) ->
  forall ps ts s a r v, reached d s a -> a !! x = Some (AVal r v) -> Forall (joins a v) ps -> Forall2 (piece_text d a x) ps ts ->
  zlen v + zlen (concat ts) + 2 <= lim -> exists s' m, build d x ps s = Some (s', m).
Proof. exact @build_returns. Qed.
Print Assumptions C82_returns.
Example C82_returns_ex : (forall k, d_oom sdesc k = false) /\ (forall z, 0 <= z < 2 ^ 40 -> d_grow sdesc z <= max_alloc) /\
  zlen (map Some hello) + zlen (concat (b_texts 100)) + 2 <= 2 ^ 40.
Proof. split; [reflexivity|]. split; [intros z Hz; change (z + z / 2 <= max_alloc); unfold max_alloc, W63; lia|]. vm_compute. discriminate. Qed.

(** C82: the pieces left out above: all of another array, its length given, appended to an empty one. It shares the other's buffer: nothing is asked for, nothing moved. *)
Theorem C82_first : forall {T} (d : desc T), wf_desc d -> forall x y s a r ry u,
  reached d s a -> a !! x = Some (AVal r []) -> a !! y = Some (AVal ry u) -> u <> [] -> zlen u < npos ->
  exists s', exec d (AppendN false x y (zlen u)) s = Ok ONone s' /\ reached d s' (<[x := AVal ry u]> a) /\ st_tick s' = st_tick s.
Proof. exact @first_shared. Qed.
Print Assumptions C82_first.
Example C82_first_ex : av sdesc b_prog !! 5%positive = Some (AVal true []) /\ av sdesc b_prog !! 4%positive = Some (AVal true (map Some world)) /\
  counted (av sdesc b_prog) (Copied 4 7 : piece Z) /\ (let s := st sdesc b_prog in content_is 5 (ok_state (exec sdesc (AppendN false 5 4 7) s) s) world).
Proof. split; [run|]. split; [run|]. split; [split; [reflexivity|]; exists true, (map Some world); split; run|]. run. Qed.
