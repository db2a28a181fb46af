(** Properties C01-C17 and C24 of strings and arrays, for every element type [T] and description [d] (element equality, hash,
    growth function, allocation-failure schedule) and every reachable state. Vocabulary: RcaSpec.v (calls and their
    specification), RcaMeet.v ([reached], [shows], [yields], [returns], [allows]), RcaExec.v ([exec], running a call on the model). *)
From Verif Require Import RcaSpec RcaModel RcaExec RcaInv RcaOwn RcaRel RcaMeet RcaMain RcaReach RcaFacts RcaFacts2 RcaEx.
Open Scope Z_scope.
Ltac ex := cbv zeta; split_and?; first [ apply run_reached | exact sdesc_wf | exact pdesc_wf | exact kdesc_wf | (vm_compute; reflexivity) | (vm_compute; lia) | (vm_compute; discriminate) ].

(** C01. Whatever program runs, the values and exceptions it observes are ones the value specification allows. *)
Theorem C01_programs : forall (T : Type) (d : desc T) ops,
  wf_desc d -> allows d ∅ ops (observe d ops st_init).
Proof. exact @programs_refine. Qed.
Print Assumptions C01_programs.

Example C01_programs_ex : observe sdesc (prog_s ++ [Write 2 0 74; Read 1 0; Read 2 0; HashOf 3; At 3 3]) st_init = [ORet ONone; ORet ONone; ORet ONone; ORet ONone; ORet ONone; ORet ONone; ORet (OVal 104); ORet (OVal 74); ORet (OInt (sp_hash (fun z => z) [101;108;108])); OThrow OutOfRange].
Proof. ex. Qed.

(** C01. In every reachable state every object shows exactly the value the specification predicts. *)
Theorem C01_values : forall (T : Type) (d : desc T) (s : state T) (a : astate T),
  wf_desc d -> reached d s a -> shows s a.
Proof. exact @reached_shows. Qed.
Print Assumptions C01_values.

Example C01_values_ex : wf_desc sdesc /\ reached sdesc (st sdesc prog_s) (av sdesc prog_s) /\ (av sdesc prog_s) !! 1%positive = Some (AVal true (map Some hello)) /\ (av sdesc prog_s) !! 3%positive = Some (AVal true (map Some [101;108;108])) /\ content_is 3 (st sdesc prog_s) [101;108;108].
Proof. ex. Qed.

(** C01. A call never changes the value of an object it was not asked to change, whether it returns or throws. *)
Theorem C01_isolation : forall (T : Type) (d : desc T) (s : state T) (a : astate T) (o : op T) (a' : astate T) (v : out T) (s' : state T) (y : var) (w : list (option T)),
  wf_desc d -> reached d s a -> step d o a = Some (SRet a' v) -> (exists r, exec d o s = Ok r s') \/ (exists e, exec d o s = Exn e s') ->
  y ∉ changes o -> target o <> Some y -> val_at a y = Some (Some w) ->
  length_of y s' = Ok (zlen w) s' /\ forall i e, znth i w = Some (Some e) -> read y i s' = Ok e s'.
Proof. exact @isolation. Qed.
Print Assumptions C01_isolation.

Example C01_isolation_ex : wf_desc sdesc /\ reached sdesc (st sdesc prog_s) (av sdesc prog_s) /\ val_at (av sdesc prog_s) 1 = Some (Some (map Some hello)) /\ changes (Write 2 0 74) = [2%positive] /\ content_is 1 (ok_state (exec sdesc (Write 2 0 74) (st sdesc prog_s)) st_init) hello /\ content_is 2 (ok_state (exec sdesc (Write 2 0 74) (st sdesc prog_s)) st_init) [74;101;108;108;111].
Proof. ex. Qed.

(** C02. rcount() is the number of live objects sharing the buffer. *)
Theorem C02_rcount : forall (T : Type) (d : desc T) (s : state T) (a : astate T) (x : var),
  wf_desc d -> reached d s a -> live a x = true -> rcount x s = Ok (sharers s x) s.
Proof. exact @rcount_exact. Qed.
Print Assumptions C02_rcount.

Example C02_rcount_ex : wf_desc sdesc /\ reached sdesc (st sdesc prog_s) (av sdesc prog_s) /\ live (av sdesc prog_s) 3 = true /\ sharers (st sdesc prog_s) 3 = 3 /\ sharers (st sdesc prog_s) 4 = 1.
Proof. ex. Qed.

(** C02. A buffer is allocated exactly while some live object uses it. *)
Theorem C02_buffers : forall (T : Type) (d : desc T) (s : state T) (a : astate T) l,
  wf_desc d -> reached d s a ->
  (exists c, st_heap s !! l = Some c) <-> (exists x (o : obj), st_env s !! x = Some o /\ o_ref o = Some l).
Proof. exact @buffer_iff_used. Qed.
Print Assumptions C02_buffers.

Example C02_buffers_ex : wf_desc sdesc /\ reached sdesc (st sdesc prog_s) (av sdesc prog_s) /\ size (st_heap (st sdesc prog_s)) = 2%nat.
Proof. ex. Qed.

(** C02. When all objects are destroyed nothing remains allocated. *)
Theorem C02_no_leak : forall (T : Type) (d : desc T) (s : state T),
  wf_desc d -> reached d s ∅ -> st_heap s = ∅.
Proof. exact @no_leak. Qed.
Print Assumptions C02_no_leak.

Example C02_no_leak_ex : let p := prog_s ++ [Destroy 1; AppendItem 2 33; Destroy 3; Destroy 2; Destroy 4] in runs_ok sdesc p = true /\ reached sdesc (st sdesc p) (av sdesc p) /\ size (av sdesc p) = 0%nat.
Proof. ex. Qed.

(** C03. A call that respects its precondition has no undefined behaviour and terminates. *)
Theorem C03_safe : forall (T : Type) (d : desc T) (o : op T) (s : state T) (a : astate T),
  wf_desc d -> reached d s a -> step d o a <> None ->
  match exec d o s with Undef _ | Fuel => False | _ => True end.
Proof. exact @step_safe. Qed.
Print Assumptions C03_safe.

Example C03_safe_ex : wf_desc sdesc /\ reached sdesc (st sdesc prog_s) (av sdesc prog_s) /\ (match step sdesc (InsertN false 3 1 4 5) (av sdesc prog_s) with Some _ => true | None => false end) = true.
Proof. ex. Qed.

(** C04. out_of_range is thrown exactly for a position outside the container, and then nothing has changed. *)
Theorem C04_index_errors : forall (T : Type) (d : desc T) (o : op T) (s : state T) (a : astate T) (s' : state T),
  wf_desc d -> reached d s a -> step d o a <> None ->
  exec d o s = Exn OutOfRange s' <-> bad_index o a = true /\ s' = s.
Proof. exact @index_errors. Qed.
Print Assumptions C04_index_errors.

Example C04_index_errors_ex : wf_desc sdesc /\ reached sdesc (st sdesc prog_s) (av sdesc prog_s) /\ bad_index (InsertItem 3 4 33) (av sdesc prog_s) = true /\ bad_index (InsertItem 3 3 33) (av sdesc prog_s) = false /\ bad_index (At 3 3) (av sdesc prog_s) = true.
Proof. ex. Qed.

(** C05. An exception from a call with valid arguments is bad_alloc; other objects keep their values and the target keeps its value or becomes empty. *)
Theorem C05_failure : forall (T : Type) (d : desc T) (o : op T) (s : state T) (a : astate T) (a' : astate T) (v : out T) e (s' : state T),
  wf_desc d -> reached d s a -> step d o a = Some (SRet a' v) -> exec d o s = Exn e s' ->
  e = BadAlloc /\ exists x a'', subject o = Some x /\ no_memory d (asks o a' x) /\ reached d s' a'' /\ shows s' a'' /\
    (forall z, z <> x -> a'' !! z = a !! z) /\
    (a'' !! x = a !! x \/ (a'' !! x = Some (AVal true []) /\ (discards o = true \/ is_shared x s = Ok true s))).
Proof. exact @alloc_failure. Qed.
Print Assumptions C05_failure.

Example C05_failure_ex : let d := sdesc_oom 4 in exists s', wf_desc d /\ reached d (st d prog_s) (av d prog_s) /\ exec d (AppendItem 1 33) (st d prog_s) = Exn BadAlloc s' /\ content_is 1 s' [] /\ content_is 2 s' hello.
Proof. eexists. split; [apply sdesc_oom_wf|]. ex. Qed.

(** C05. As long as the allocator serves every request and sizes stay representable, no valid call throws. *)
Theorem C05_no_failure : forall (T : Type) (d : desc T) (o : op T) (s : state T) (a : astate T) (a' : astate T) (v : out T),
  wf_desc d -> reached d s a -> step d o a = Some (SRet a' v) ->
  (forall k, d_oom d k = false) ->
  (forall x, subject o = Some x -> asks o a' x <= max_alloc /\ forall z, 0 <= z < asks o a' x -> d_grow d z <= max_alloc) ->
  exists s' (v' : out T), exec d o s = Ok v' s' /\ out_le v v' /\ reached d s' a' /\ shows s' a'.
Proof. exact @no_failure. Qed.
Print Assumptions C05_no_failure.

Example C05_no_failure_ex : wf_desc sdesc /\ reached sdesc (st sdesc prog_s) (av sdesc prog_s) /\ d_oom sdesc 17 = false /\ asks (AppendItem 1 33) (<[1%positive := AVal true (map Some (hello ++ [33]))]> (av sdesc prog_s)) 1 = 8 /\ grow15 8 <= max_alloc.
Proof. ex. Qed.

(** C06. insert(pos, ys, n) splices the first min(n, |ys|) elements of ys in at pos; the one exception is below. *)
Theorem C06_insert_n : forall (T : Type) (d : desc T) (s : state T) (a : astate T) (mv : bool) (x : var) pos (y : var) n rx (v : list (option T)) ry (w : list (option T)),
  wf_desc d -> reached d s a -> a !! x = Some (AVal rx v) -> a !! y = Some (AVal ry w) ->
  0 <= pos <= zlen v -> 0 < n < W64 -> self_ok d x y pos (Z.min n (zlen w)) ->
  ~ (pos = 0 /\ zlen v < zlen w /\ n = zlen w) ->
  yields d (InsertN mv x pos y n) s a
    (<[x := AVal true (ztake pos v ++ ztake (Z.min n (zlen w)) w ++ zdrop pos v)]> a) ONone.
Proof. exact @insert_n_yields. Qed.
Print Assumptions C06_insert_n.

Example C06_insert_n_ex : wf_desc sdesc /\ reached sdesc (st sdesc prog_s) (av sdesc prog_s) /\ (av sdesc prog_s) !! 3%positive = Some (AVal true (map Some [101;108;108])) /\ (av sdesc prog_s) !! 4%positive = Some (AVal true (map Some world)) /\ content_is 3 (ok_state (exec sdesc (InsertN false 3 1 4 2) (st sdesc prog_s)) st_init) [101;87;111;108;108] /\ content_is 1 (ok_state (exec sdesc (InsertN false 3 1 4 2) (st sdesc prog_s)) st_init) hello.
Proof. ex. Qed.

(** C06. insert(pos, ys). *)
Theorem C06_insert_all : forall (T : Type) (d : desc T) (s : state T) (a : astate T) (mv : bool) (x : var) pos (y : var) rx (v : list (option T)) ry (w : list (option T)),
  wf_desc d -> reached d s a -> a !! x = Some (AVal rx v) -> a !! y = Some (AVal ry w) ->
  0 <= pos <= zlen v -> self_ok d x y pos (zlen w) -> ~ (pos = 0 /\ zlen v < zlen w) ->
  yields d (InsertAll mv x pos y) s a (<[x := AVal true (ztake pos v ++ w ++ zdrop pos v)]> a) ONone.
Proof. exact @insert_all_yields. Qed.
Print Assumptions C06_insert_all.

Example C06_insert_all_ex : wf_desc sdesc /\ reached sdesc (st sdesc prog_s) (av sdesc prog_s) /\ (av sdesc prog_s) !! 1%positive = Some (AVal true (map Some hello)) /\ (av sdesc prog_s) !! 3%positive = Some (AVal true (map Some [101;108;108])) /\ content_is 1 (ok_state (exec sdesc (InsertAll false 1 2 3) (st sdesc prog_s)) st_init) [104;101;101;108;108;108;108;111] /\ content_is 1 (ok_state (exec sdesc (InsertAll false 1 2 1) (st sdesc prog_s)) st_init) [104;101;104;101;108;108;111;108;108;111].
Proof. ex. Qed.

(** C06. append(ys, n) puts the first n elements of ys at the end, also when ys is the same object. *)
Theorem C06_append : forall (T : Type) (d : desc T) (s : state T) (a : astate T) (mv : bool) (x : var) (y : var) n rx (v : list (option T)) ry (w : list (option T)),
  wf_desc d -> reached d s a -> a !! x = Some (AVal rx v) -> a !! y = Some (AVal ry w) -> 0 <= n < W64 ->
  exists a', yields d (AppendN mv x y n) s a a' ONone /\
    val_at a' x = Some (Some (v ++ ztake n w)) /\ forall z, z <> x -> (mv = true -> z <> y) -> a' !! z = a !! z.
Proof. exact @append_n_yields. Qed.
Print Assumptions C06_append.

Example C06_append_ex : wf_desc sdesc /\ reached sdesc (st sdesc prog_s) (av sdesc prog_s) /\ (av sdesc prog_s) !! 1%positive = Some (AVal true (map Some hello)) /\ content_is 1 (ok_state (exec sdesc (AppendN false 1 1 3) (st sdesc prog_s)) st_init) (hello ++ [104;101;108]).
Proof. ex. Qed.

(** C06. append(item), push_back. *)
Theorem C06_append_item : forall (T : Type) (d : desc T) (s : state T) (a : astate T) (x : var) r (v : list (option T)) e,
  wf_desc d -> reached d s a -> a !! x = Some (AVal r v) ->
  yields d (AppendItem x e) s a (<[x := AVal true (v ++ [Some e])]> a) ONone.
Proof. exact @append_item_yields. Qed.
Print Assumptions C06_append_item.

Example C06_append_item_ex : wf_desc sdesc /\ reached sdesc (st sdesc prog_s) (av sdesc prog_s) /\ (av sdesc prog_s) !! 3%positive = Some (AVal true (map Some [101;108;108])) /\ content_is 3 (ok_state (exec sdesc (AppendItem 3 33) (st sdesc prog_s)) st_init) [101;108;108;33] /\ content_is 1 (ok_state (exec sdesc (AppendItem 3 33) (st sdesc prog_s)) st_init) hello.
Proof. ex. Qed.

(** C06. insert(pos, item). *)
Theorem C06_insert_item : forall (T : Type) (d : desc T) (s : state T) (a : astate T) (x : var) pos r (v : list (option T)) e,
  wf_desc d -> reached d s a -> a !! x = Some (AVal r v) -> 0 <= pos <= zlen v ->
  yields d (InsertItem x pos e) s a (<[x := AVal true (ztake pos v ++ [Some e] ++ zdrop pos v)]> a) ONone.
Proof. exact @insert_item_yields. Qed.
Print Assumptions C06_insert_item.

Example C06_insert_item_ex : wf_desc sdesc /\ reached sdesc (st sdesc prog_s) (av sdesc prog_s) /\ (av sdesc prog_s) !! 3%positive = Some (AVal true (map Some [101;108;108])) /\ content_is 3 (ok_state (exec sdesc (InsertItem 3 1 33) (st sdesc prog_s)) st_init) [101;33;108;108].
Proof. ex. Qed.

(** C06. insert(iterator, first, last). *)
Theorem C06_insert_range : forall (T : Type) (d : desc T) (s : state T) (a : astate T) (x : var) pos r (v : list (option T)) es,
  wf_desc d -> reached d s a -> a !! x = Some (AVal r v) -> 0 <= pos <= zlen v -> zlen v + zlen es < npos ->
  yields d (InsertRange x pos es) s a (<[x := AVal true (ztake pos v ++ map Some es ++ zdrop pos v)]> a) ONone.
Proof. exact @insert_range_yields. Qed.
Print Assumptions C06_insert_range.

Example C06_insert_range_ex : wf_desc pdesc /\ reached pdesc (st pdesc prog_p) (av pdesc prog_p) /\ av pdesc prog_p !! 3%positive = Some (AVal true (map Some [101;108;108])) /\ content_is 3 (ok_state (exec pdesc (InsertRange 3 1 [7;8;9]) (st pdesc prog_p)) st_init) [101;7;8;9;108;108].
Proof. ex. Qed.

(** C06. String::insert(pos, const char*, n). *)
Theorem C06_insert_cstr : forall (T : Type) (d : desc T) (s : state T) (a : astate T) (x : var) pos r (v : list (option T)) mem n z,
  wf_desc d -> reached d s a -> a !! x = Some (AVal r v) -> d_nul d = Some z ->
  0 <= pos <= zlen v -> 0 < n -> n < npos -> n <= zlen mem -> zlen v + n < npos ->
  yields d (InsertCstr x pos mem n) s a (<[x := AVal true (ztake pos v ++ map Some (ztake n mem) ++ zdrop pos v)]> a) ONone.
Proof. exact @insert_cstr_yields. Qed.
Print Assumptions C06_insert_cstr.

Example C06_insert_cstr_ex : wf_desc sdesc /\ reached sdesc (st sdesc prog_s) (av sdesc prog_s) /\ d_nul sdesc = Some 0 /\ content_is 3 (ok_state (exec sdesc (InsertCstr 3 3 [7;8;9] 2) (st sdesc prog_s)) st_init) [101;108;108;7;8].
Proof. ex. Qed.

(** C06. The exception: a longer array inserted in full at the front does not insert but replaces the old value. *)
Theorem C06_insert_front_replaces : forall (T : Type) (d : desc T) (s : state T) (a : astate T) (mv : bool) (x : var) (y : var) n rx (v : list (option T)) ry (w : list (option T)),
  wf_desc d -> reached d s a -> a !! x = Some (AVal rx v) -> a !! y = Some (AVal ry w) ->
  zlen v < zlen w -> n = zlen w ->
  yields d (InsertN mv x 0 y n) s a (<[x := AVal ry w]> (if mv then <[y := AMoved]> a else a)) ONone.
Proof. exact @insert_front_replaces. Qed.
Print Assumptions C06_insert_front_replaces.

Example C06_insert_front_replaces_ex : wf_desc sdesc /\ reached sdesc (st sdesc prog_s) (av sdesc prog_s) /\ (av sdesc prog_s) !! 1%positive = Some (AVal true (map Some hello)) /\ (av sdesc prog_s) !! 4%positive = Some (AVal true (map Some world)) /\ content_is 1 (ok_state (exec sdesc (InsertN false 1 0 4 7) (st sdesc prog_s)) st_init) world.
Proof. ex. Qed.

(** C06 without that exception is false: s.insert(0, t) with |s| < |t| loses s. *)
Theorem C06_insert_refuted : exists s a x y v w s',
  reached sdesc s a /\ a !! x = Some (AVal true (map Some v)) /\ a !! y = Some (AVal true (map Some w)) /\
  exec sdesc (InsertAll false x 0 y) s = Ok ONone s' /\ ~ content_is x s' (w ++ v) /\ content_is x s' w /\ v <> [].
Proof. exists (st sdesc prog_s), (av sdesc prog_s), 1%positive, 4%positive, hello, world. eexists. ex. Qed.
Print Assumptions C06_insert_refuted.

(** C06 for arrays of class type fails when an unshared array is inserted into its own middle. *)
Theorem C06_self_insert_class_refuted : exists s a v s',
  reached kdesc s a /\ a !! 1%positive = Some (AVal true (map Some v)) /\
  exec kdesc (InsertAll false 1 2 1) s = Ok ONone s' /\ ~ content_is 1 s' (ztake 2 v ++ v ++ zdrop 2 v) /\ content_is 1 s' [1;2;1;2;1;2;3;4].
Proof. exists (st kdesc [CtorList 1 [1;2;3;4]]), (av kdesc [CtorList 1 [1;2;3;4]]), [1;2;3;4]. eexists. ex. Qed.
Print Assumptions C06_self_insert_class_refuted.

(** C06, C16: the item of push_back/insert is a reference. When it refers into the object itself the
    element read after the buffer was replaced is released memory; without reallocation it is the shifted element. *)
Theorem C06_own_element_refuted :
  (exists s a p s', reached pdesc s a /\ ptr_to 1 0 s = Ok p s' /\ insert_ref pdesc 1 3 p s' = Undef UbFreed) /\
  (exists s a p s' s'', reached pdesc s a /\ content_is 1 s [1;2;3] /\ ptr_to 1 2 s = Ok p s' /\ insert_ref pdesc 1 0 p s' = Ok tt s'' /\
     ~ content_is 1 s'' [3;1;2;3] /\ content_is 1 s'' [2;1;2;3]).
Proof.
  split.
  - exists (st pdesc [CtorList 1 [1;2;3]]), (av pdesc [CtorList 1 [1;2;3]]). do 2 eexists. ex.
  - exists (st pdesc [CtorList 1 [1;2;3]; ReserveIfOwn 1 8]), (av pdesc [CtorList 1 [1;2;3]; ReserveIfOwn 1 8]). do 3 eexists. ex.
Qed.
Print Assumptions C06_own_element_refuted.

(** C06: String::insert(pos, const char*, n) does not stop at the NUL and reads beyond a shorter argument. *)
Theorem C06_insert_cstr_bound_refuted : exists s a,
  reached sdesc s a /\ exec sdesc (InsertCstr 1 0 [65; 0] 5) s = Undef UbBounds.
Proof. exists (st sdesc prog_s), (av sdesc prog_s). ex. Qed.
Print Assumptions C06_insert_cstr_bound_refuted.

(** C07. replace(pos, ys, n). *)
Theorem C07_replace_n : forall (T : Type) (d : desc T) (s : state T) (a : astate T) (mv : bool) (x : var) pos (y : var) n rx (v : list (option T)) ry (w : list (option T)),
  wf_desc d -> reached d s a -> a !! x = Some (AVal rx v) -> a !! y = Some (AVal ry w) ->
  0 <= pos <= zlen v -> 0 < n < W64 -> self_ok d x y pos (Z.min n (zlen w)) ->
  exists a', yields d (ReplaceN mv x pos y n) s a a' ONone /\
    val_at a' x = Some (Some (ztake pos v ++ ztake (Z.min n (zlen w)) w ++ zdrop (pos + Z.min n (zlen w)) v)) /\
    forall z, z <> x -> (mv = true -> z <> y) -> a' !! z = a !! z.
Proof. exact @replace_n_yields. Qed.
Print Assumptions C07_replace_n.

Example C07_replace_n_ex : wf_desc sdesc /\ reached sdesc (st sdesc prog_s) (av sdesc prog_s) /\ (av sdesc prog_s) !! 1%positive = Some (AVal true (map Some hello)) /\ content_is 1 (ok_state (exec sdesc (ReplaceN false 1 3 4 4) (st sdesc prog_s)) st_init) [104;101;108;87;111;114;108] /\ content_is 2 (ok_state (exec sdesc (ReplaceN false 1 3 4 4) (st sdesc prog_s)) st_init) hello.
Proof. ex. Qed.

(** C07. replace(pos, item). *)
Theorem C07_replace_item : forall (T : Type) (d : desc T) (s : state T) (a : astate T) (x : var) pos r (v : list (option T)) e,
  wf_desc d -> reached d s a -> a !! x = Some (AVal r v) -> 0 <= pos < zlen v ->
  yields d (ReplaceItem x pos e) s a (<[x := AVal true (ztake pos v ++ [Some e] ++ zdrop (pos + 1) v)]> a) ONone.
Proof. exact @replace_item_yields. Qed.
Print Assumptions C07_replace_item.

Example C07_replace_item_ex : wf_desc sdesc /\ reached sdesc (st sdesc prog_s) (av sdesc prog_s) /\ (av sdesc prog_s) !! 1%positive = Some (AVal true (map Some hello)) /\ content_is 1 (ok_state (exec sdesc (ReplaceItem 1 3 33) (st sdesc prog_s)) st_init) [104;101;108;33;111] /\ content_is 3 (ok_state (exec sdesc (ReplaceItem 1 3 33) (st sdesc prog_s)) st_init) [101;108;108].
Proof. ex. Qed.

(** C07. String::replace(pos, const char*, n). *)
Theorem C07_replace_cstr : forall (T : Type) (d : desc T) (s : state T) (a : astate T) (x : var) pos r (v : list (option T)) mem n z,
  wf_desc d -> reached d s a -> a !! x = Some (AVal r v) -> d_nul d = Some z ->
  0 <= pos <= zlen v -> 0 < n -> n <= zlen mem -> pos + n < npos ->
  yields d (ReplaceCstr x pos mem n) s a (<[x := AVal true (ztake pos v ++ map Some (ztake n mem) ++ zdrop (pos + n) v)]> a) ONone.
Proof. exact @replace_cstr_yields. Qed.
Print Assumptions C07_replace_cstr.

Example C07_replace_cstr_ex : wf_desc sdesc /\ reached sdesc (st sdesc prog_s) (av sdesc prog_s) /\ (av sdesc prog_s) !! 1%positive = Some (AVal true (map Some hello)) /\ content_is 1 (ok_state (exec sdesc (ReplaceCstr 1 4 [7;8;9;0] 3) (st sdesc prog_s)) st_init) [104;101;108;108;7;8;9].
Proof. ex. Qed.

(** C07: replace(length(), item) passes the position check but writes behind the end: without effect on the
    value when the buffer has room, and outside the buffer when it is full. *)
Theorem C07_replace_at_end_refuted :
  (exists s a s', reached sdesc s a /\ content_is 1 s hello /\ exec sdesc (ReplaceItem 1 5 33) s = Ok ONone s' /\ content_is 1 s' hello) /\
  (exists s a, reached pdesc s a /\ content_is 1 s [1;2;3] /\ exec pdesc (ReplaceItem 1 3 33) s = Undef UbBounds).
Proof.
  split.
  - exists (st sdesc [CtorCstrLen 1 hello 5]), (av sdesc [CtorCstrLen 1 hello 5]). eexists. ex.
  - exists (st pdesc [CtorList 1 [1;2;3]]), (av pdesc [CtorList 1 [1;2;3]]). ex.
Qed.
Print Assumptions C07_replace_at_end_refuted.

(** C08. slice(start, len). *)
Theorem C08_slice : forall (T : Type) (d : desc T) (s : state T) (a : astate T) (x : var) r (v : list (option T)) start len,
  wf_desc d -> reached d s a -> a !! x = Some (AVal r v) -> zlen v < W31 ->
  - W63 + W31 <= start < W63 -> - W63 <= len -> len + zlen v < W63 ->
  let st := if start <? 0 then Z.max 0 (zlen v + start) else start in
  let en := if len =? -1 then zlen v else if len <? 0 then zlen v + len else Z.min (zlen v) (st + len) in
  (len < -1 -> start < zlen v -> st <= en) ->
  returns d (SliceTo x start len) s (<[x := AVal r (ztake (en - st) (zdrop st v))]> a) ONone.
Proof. exact @slice_returns. Qed.
Print Assumptions C08_slice.

Example C08_slice_ex : wf_desc sdesc /\ reached sdesc (st sdesc prog_s) (av sdesc prog_s) /\ (av sdesc prog_s) !! 1%positive = Some (AVal true (map Some hello)) /\ content_is 1 (ok_state (exec sdesc (SliceTo 1 (-3) (-1)) (st sdesc prog_s)) st_init) [108;108;111] /\ content_is 1 (ok_state (exec sdesc (SliceTo 1 1 (-2)) (st sdesc prog_s)) st_init) [101;108].
Proof. ex. Qed.

(** C08. substring(start, len): a copy that is sliced; the buffer is shared and the original unchanged. *)
Theorem C08_substring : forall (T : Type) (d : desc T) (s : state T) (a : astate T) t (x : var) r (v : list (option T)) start len,
  wf_desc d -> reached d s a -> a !! x = Some (AVal r v) -> a !! t = None -> zlen v < W31 ->
  - W63 + W31 <= start < W63 -> - W63 <= len -> len + zlen v < W63 ->
  let st := if start <? 0 then Z.max 0 (zlen v + start) else start in
  let en := if len =? -1 then zlen v else if len <? 0 then zlen v + len else Z.min (zlen v) (st + len) in
  (len < -1 -> start < zlen v -> st <= en) ->
  exists s1 s2, exec d (CtorCopy t x) s = Ok ONone s1 /\ exec d (SliceTo t start len) s1 = Ok ONone s2 /\
    st_heap s2 = st_heap s1 /\
    reached d s2 (<[t := AVal r (ztake (en - st) (zdrop st v))]> a) /\ shows s2 (<[t := AVal r (ztake (en - st) (zdrop st v))]> a).
Proof. exact @substring_returns. Qed.
Print Assumptions C08_substring.

Example C08_substring_ex : wf_desc sdesc /\ reached sdesc (st sdesc prog_s) (av sdesc prog_s) /\ (av sdesc prog_s) !! 1%positive = Some (AVal true (map Some hello)) /\ (av sdesc prog_s) !! 9%positive = None.
Proof. ex. Qed.

(** C08 fails when a negative length ends before the start: the slice then claims more elements than the buffer has. *)
Theorem C08_negative_length_refuted : exists s a s' n,
  reached sdesc s a /\ content_is 1 s [] /\ exec sdesc (SliceTo 1 (-1) (-2)) s = Ok ONone s' /\ length_of 1 s' = Ok n s' /\ n = 18446744073709551614.
Proof. exists (st sdesc [CtorDefault 1]), (av sdesc [CtorDefault 1]). do 2 eexists. ex. Qed.
Print Assumptions C08_negative_length_refuted.

(** C09. resize to fewer elements truncates. *)
Theorem C09_shrink : forall (T : Type) (d : desc T) (s : state T) (a : astate T) (x : var) r (v : list (option T)) n,
  wf_desc d -> reached d s a -> a !! x = Some (AVal r v) -> 0 <= n < zlen v ->
  yields d (Resize x n) s a (<[x := AVal r (ztake n v)]> a) ONone /\
  forall e, yields d (ResizeFill x n e) s a (<[x := AVal r (ztake n v)]> a) ONone.
Proof. exact @resize_shrinks. Qed.
Print Assumptions C09_shrink.

Example C09_shrink_ex : wf_desc sdesc /\ reached sdesc (st sdesc prog_s) (av sdesc prog_s) /\ (av sdesc prog_s) !! 1%positive = Some (AVal true (map Some hello)) /\ content_is 1 (ok_state (exec sdesc (Resize 1 2) (st sdesc prog_s)) st_init) [104;101] /\ content_is 2 (ok_state (exec sdesc (Resize 1 2) (st sdesc prog_s)) st_init) hello.
Proof. ex. Qed.

(** C09. resize to more elements keeps all and appends copies of the value (unspecified ones without a value). *)
Theorem C09_grow : forall (T : Type) (d : desc T) (s : state T) (a : astate T) (x : var) r (v : list (option T)) n,
  wf_desc d -> reached d s a -> a !! x = Some (AVal r v) -> zlen v <= n < npos ->
  yields d (Resize x n) s a (<[x := AVal true (v ++ zrep (n - zlen v) None)]> a) ONone /\
  forall e, yields d (ResizeFill x n e) s a (<[x := AVal true (v ++ zrep (n - zlen v) (Some e))]> a) ONone.
Proof. exact @resize_grows. Qed.
Print Assumptions C09_grow.

Example C09_grow_ex : wf_desc sdesc /\ reached sdesc (st sdesc prog_s) (av sdesc prog_s) /\ (av sdesc prog_s) !! 1%positive = Some (AVal true (map Some hello)) /\ content_is 1 (ok_state (exec sdesc (ResizeFill 1 7 33) (st sdesc prog_s)) st_init) (hello ++ [33;33]) /\ content_is 2 (ok_state (exec sdesc (ResizeFill 1 7 33) (st sdesc prog_s)) st_init) hello.
Proof. ex. Qed.

(** C10. hash() is the DJB hash of the current contents. *)
Theorem C10_hash : forall (T : Type) (d : desc T) (s : state T) (a : astate T) (x : var) r es,
  wf_desc d -> reached d s a -> a !! x = Some (AVal r (map Some es)) ->
  returns d (HashOf x) s a (OInt (fold_left (fun h c => (33 * h + d_hash d c) mod W64) es 5381 mod W31)).
Proof. exact @hash_returns. Qed.
Print Assumptions C10_hash.

Example C10_hash_ex : wf_desc sdesc /\ reached sdesc (st sdesc prog_s) (av sdesc prog_s) /\ (av sdesc prog_s) !! 3%positive = Some (AVal true (map Some [101;108;108])) /\ (let p := prog_s ++ [HashOf 1; Write 1 0 74; HashOf 1] in match exec sdesc (HashOf 1) (st sdesc p) with Ok (OInt h) _ => h | _ => 0 end) = fold_left (fun h c => (33 * h + c) mod W64) [74;101;108;108;111] 5381 mod W31.
Proof. ex. Qed.

(** C10. Equal contents have equal hashes, below 2^31, whatever the history. *)
Theorem C10_equal : forall (T : Type) (d : desc T) (s1 : state T) (a1 : astate T) (x1 : var) r1 (s2 : state T) (a2 : astate T) (x2 : var) r2 es,
  wf_desc d -> reached d s1 a1 -> reached d s2 a2 -> a1 !! x1 = Some (AVal r1 (map Some es)) -> a2 !! x2 = Some (AVal r2 (map Some es)) ->
  exists h s1' s2', 0 <= h < W31 /\ exec d (HashOf x1) s1 = Ok (OInt h) s1' /\ exec d (HashOf x2) s2 = Ok (OInt h) s2'.
Proof. exact @equal_contents_equal_hash. Qed.
Print Assumptions C10_equal.

Example C10_equal_ex : wf_desc sdesc /\ reached sdesc (st sdesc prog_s) (av sdesc prog_s) /\ (let p := [CtorCstrLen 7 [101;108] 2; AppendItem 7 108] in reached sdesc (st sdesc p) (av sdesc p) /\ av sdesc p !! 7%positive = Some (AVal true (map Some [101;108;108]))) /\ (av sdesc prog_s) !! 3%positive = Some (AVal true (map Some [101;108;108])).
Proof. ex. Qed.

(** C11. find(item, pos): the distance from pos to the first occurrence at or after pos. *)
Theorem C11_find : forall (T : Type) (d : desc T) (s : state T) (a : astate T) (x : var) r es e pos,
  wf_desc d -> reached d s a -> a !! x = Some (AVal r (map Some es)) -> 0 <= pos <= zlen es ->
  exists i, returns d (FindItem x e pos) s a (OInt i) /\
  ((i = npos /\ forall j c, pos <= j -> znth j es = Some c -> d_eqb d c e = false) \/
   (0 <= i /\ (exists c, znth (pos + i) es = Some c /\ d_eqb d c e = true) /\
    forall j c, pos <= j < pos + i -> znth j es = Some c -> d_eqb d c e = false)).
Proof. exact @find_returns. Qed.
Print Assumptions C11_find.

Example C11_find_ex : wf_desc sdesc /\ reached sdesc (st sdesc prog_s) (av sdesc prog_s) /\ (av sdesc prog_s) !! 1%positive = Some (AVal true (map Some hello)) /\ (match exec sdesc (FindItem 1 111 2) (st sdesc prog_s) with Ok (OInt i) _ => i | _ => -1 end) = 2.
Proof. ex. Qed.

(** C11. rfind(item): the last occurrence. *)
Theorem C11_rfind : forall (T : Type) (d : desc T) (s : state T) (a : astate T) (x : var) r es e,
  wf_desc d -> reached d s a -> a !! x = Some (AVal r (map Some es)) ->
  exists i, returns d (RFindItem x e) s a (OInt i) /\
  ((i = npos /\ forall j c, znth j es = Some c -> d_eqb d c e = false) \/
   (0 <= i /\ (exists c, znth i es = Some c /\ d_eqb d c e = true) /\
    forall j c, i < j -> znth j es = Some c -> d_eqb d c e = false)).
Proof. exact @rfind_returns. Qed.
Print Assumptions C11_rfind.

Example C11_rfind_ex : wf_desc sdesc /\ reached sdesc (st sdesc prog_s) (av sdesc prog_s) /\ (av sdesc prog_s) !! 1%positive = Some (AVal true (map Some hello)) /\ (match exec sdesc (RFindItem 1 108) (st sdesc prog_s) with Ok (OInt i) _ => i | _ => -1 end) = 3.
Proof. ex. Qed.

(** C11: the documentation of find(item, pos) promises an index into the container; the result is relative to pos. *)
Theorem C11_absolute_index_refuted : exists s a i s',
  reached sdesc s a /\ content_is 1 s hello /\ exec sdesc (FindItem 1 111 2) s = Ok (OInt i) s' /\ znth i hello <> Some 111.
Proof. exists (st sdesc prog_s), (av sdesc prog_s). do 2 eexists. ex. Qed.
Print Assumptions C11_absolute_index_refuted.

(** C12. reserve(n), n >= length(), on an unshared object changes no value. *)
Theorem C12_reserve : forall (T : Type) (d : desc T) (s : state T) (a : astate T) (x : var) r (v : list (option T)) n,
  wf_desc d -> reached d s a -> a !! x = Some (AVal r v) -> zlen v <= n < npos -> yields d (ReserveIfOwn x n) s a a ONone.
Proof. exact @reserve_yields. Qed.
Print Assumptions C12_reserve.

Example C12_reserve_ex : wf_desc sdesc /\ reached sdesc (st sdesc prog_s) (av sdesc prog_s) /\ (av sdesc prog_s) !! 4%positive = Some (AVal true (map Some world)) /\ content_is 4 (ok_state (exec sdesc (ReserveIfOwn 4 100) (st sdesc prog_s)) st_init) world.
Proof. ex. Qed.

(** C12. Afterwards there is room for n elements. *)
Theorem C12_room : forall (T : Type) (d : desc T) (s : state T) (a : astate T) (x : var) r (v : list (option T)) n (v' : out T) (s' : state T),
  wf_desc d -> reached d s a -> a !! x = Some (AVal r v) -> zlen v <= n < npos -> is_shared x s = Ok false s ->
  exec d (ReserveIfOwn x n) s = Ok v' s' ->
  exists (o : obj) l c, st_env s' !! x = Some o /\ o_ref o = Some l /\ st_heap s' !! l = Some c /\ o_off o + n <= zlen (c_buf c).
Proof. exact @reserve_gives_room. Qed.
Print Assumptions C12_room.

Example C12_room_ex : wf_desc sdesc /\ reached sdesc (st sdesc prog_s) (av sdesc prog_s) /\ is_shared 4 (st sdesc prog_s) = Ok false (st sdesc prog_s) /\ (match exec sdesc (ReserveIfOwn 4 100) (st sdesc prog_s) with Ok _ s => true | _ => false end) = true.
Proof. ex. Qed.

(** C12: reserve on a shared object that is not at the start of its buffer moves the shared elements. *)
Theorem C12_shared_reserve_refuted : exists s a s',
  reached pdesc s a /\ content_is 1 s hello /\ v_reserve pdesc 3 4 (fun z => z) s = Ok tt s' /\
  ~ content_is 1 s' hello /\ content_is 1 s' [108;108;111;108;111] /\ content_is 3 s' [108;108;111].
Proof. exists (st pdesc [CtorList 1 hello; CtorCopy 3 1; SliceTo 3 2 3]), (av pdesc [CtorList 1 hello; CtorCopy 3 1; SliceTo 3 2 3]). eexists. ex. Qed.
Print Assumptions C12_shared_reserve_refuted.
(** C12: String::reserve(n) with n < length() on an exactly full buffer overwrites the last character with NUL. *)
Theorem C12_small_reserve_refuted : exists s a s',
  reached sdesc s a /\ content_is 1 s hello /\ is_shared 1 s = Ok false s /\ v_reserve sdesc 1 1 (fun z => z) s = Ok tt s' /\
  content_is 1 s' [104;101;108;108;0].
Proof. exists (st sdesc [CtorList 1 hello]), (av sdesc [CtorList 1 hello]). eexists. ex. Qed.
Print Assumptions C12_small_reserve_refuted.
(** C05: the strong guarantee fails. A failed copy-on-write leaves the object empty instead of unchanged. *)
Theorem C05_strong_guarantee_refuted : exists k s a s',
  reached (sdesc_oom k) s a /\ content_is 1 s hello /\ exec (sdesc_oom k) (Write 1 0 33) s = Exn BadAlloc s' /\ content_is 1 s' [].
Proof. exists 4%nat, (st (sdesc_oom 4) prog_s), (av (sdesc_oom 4) prog_s). eexists. ex. Qed.
Print Assumptions C05_strong_guarantee_refuted.

(** C13. Move construction. *)
Theorem C13_move_ctor : forall (T : Type) (d : desc T) (s : state T) (a : astate T) (x : var) (y : var) r (v : list (option T)),
  wf_desc d -> reached d s a -> a !! y = Some (AVal r v) -> a !! x = None ->
  returns d (CtorMove x y) s (<[x := AVal r v]> (<[y := AMoved]> a)) ONone.
Proof. exact @ctor_move_returns. Qed.
Print Assumptions C13_move_ctor.

Example C13_move_ctor_ex : wf_desc sdesc /\ reached sdesc (st sdesc prog_s) (av sdesc prog_s) /\ (av sdesc prog_s) !! 3%positive = Some (AVal true (map Some [101;108;108])) /\ (av sdesc prog_s) !! 9%positive = None /\ content_is 9 (ok_state (exec sdesc (CtorMove 9 3) (st sdesc prog_s)) st_init) [101;108;108].
Proof. ex. Qed.

(** C13. Move assignment. *)
Theorem C13_move_assign : forall (T : Type) (d : desc T) (s : state T) (a : astate T) (x : var) (y : var) r (v : list (option T)),
  wf_desc d -> reached d s a -> a !! y = Some (AVal r v) -> live a x = true -> x <> y ->
  returns d (AssignMove x y) s (<[x := AVal r v]> (<[y := AMoved]> a)) ONone.
Proof. exact @assign_move_returns. Qed.
Print Assumptions C13_move_assign.

Example C13_move_assign_ex : wf_desc sdesc /\ reached sdesc (st sdesc prog_s) (av sdesc prog_s) /\ (av sdesc prog_s) !! 3%positive = Some (AVal true (map Some [101;108;108])) /\ live (av sdesc prog_s) 4 = true /\ content_is 4 (ok_state (exec sdesc (AssignMove 4 3) (st sdesc prog_s)) st_init) [101;108;108].
Proof. ex. Qed.

(** C13. Self-move changes nothing. *)
Theorem C13_self_move : forall (T : Type) (d : desc T) (s : state T) (a : astate T) (x : var),
  wf_desc d -> reached d s a -> live a x = true -> exec d (AssignMove x x) s = Ok ONone s.
Proof. exact @self_move_returns. Qed.
Print Assumptions C13_self_move.

Example C13_self_move_ex : wf_desc sdesc /\ reached sdesc (st sdesc prog_s) (av sdesc prog_s) /\ live (av sdesc prog_s) 3 = true.
Proof. ex. Qed.

(** C13. swap exchanges values (also of moved-from objects). *)
Theorem C13_swap : forall (T : Type) (d : desc T) (s : state T) (a : astate T) (x : var) (y : var) vx vy,
  wf_desc d -> reached d s a -> a !! x = Some vx -> a !! y = Some vy -> returns d (Swap x y) s (<[y := vx]> (<[x := vy]> a)) ONone.
Proof. exact @swap_returns. Qed.
Print Assumptions C13_swap.

Example C13_swap_ex : wf_desc sdesc /\ reached sdesc (st sdesc prog_s) (av sdesc prog_s) /\ (av sdesc prog_s) !! 3%positive = Some (AVal true (map Some [101;108;108])) /\ (av sdesc prog_s) !! 4%positive = Some (AVal true (map Some world)) /\ content_is 3 (ok_state (exec sdesc (Swap 3 4) (st sdesc prog_s)) st_init) world /\ content_is 4 (ok_state (exec sdesc (Swap 3 4) (st sdesc prog_s)) st_init) [101;108;108].
Proof. ex. Qed.

(** C13. A move copies no element: the destination takes over buffer, offset and length. *)
Theorem C13_buffer_handed_over : forall (T : Type) (d : desc T) (s : state T) (a : astate T) (x : var) (y : var) r (v : list (option T)) (o : op T) (s' : state T),
  o = CtorMove x y \/ (o = AssignMove x y /\ x <> y) ->
  wf_desc d -> reached d s a -> a !! y = Some (AVal r v) -> exec d o s = Ok ONone s' -> st_env s' !! x = st_env s !! y.
Proof. exact @move_takes_buffer. Qed.
Print Assumptions C13_buffer_handed_over.

Example C13_buffer_handed_over_ex : wf_desc sdesc /\ reached sdesc (st sdesc prog_s) (av sdesc prog_s) /\ (av sdesc prog_s) !! 3%positive = Some (AVal true (map Some [101;108;108])) /\ (match exec sdesc (CtorMove 9 3) (st sdesc prog_s) with Ok ONone _ => true | _ => false end) = true.
Proof. ex. Qed.

(** C08, C13, C24. Moves by constructor, swaps, slicing, trimming, dropping and all queries leave every buffer as it is. *)
Theorem C13_buffers_untouched : forall (T : Type) (d : desc T) (o : op T) (s : state T) (v : out T) (s' : state T),
  slicing o -> exec d o s = Ok v s' -> st_heap s' = st_heap s.
Proof. exact @slicing_keeps_buffers. Qed.
Print Assumptions C13_buffers_untouched.

Example C13_buffers_untouched_ex : slicing (SliceTo 1 1 (2)%Z : op Z) /\ (match exec sdesc (SliceTo 1 1 2) (st sdesc prog_s) with Ok _ s => Z.of_nat (size (st_heap s)) | _ => -1 end) = 2.
Proof. split; [exact I|vm_compute; reflexivity]. Qed.

(** C15. shift returns and removes the first element. *)
Theorem C15_shift : forall (T : Type) (d : desc T) (s : state T) (a : astate T) (x : var) r (v : list (option T)) e,
  wf_desc d -> reached d s a -> a !! x = Some (AVal r (Some e :: v)) -> returns d (Shift x) s (<[x := AVal r v]> a) (OVal e).
Proof. exact @shift_returns. Qed.
Print Assumptions C15_shift.

Example C15_shift_ex : wf_desc pdesc /\ reached pdesc (st pdesc prog_p) (av pdesc prog_p) /\ av pdesc prog_p !! 3%positive = Some (AVal true (map Some [101;108;108])) /\ content_is 3 (ok_state (exec pdesc (Shift 3) (st pdesc prog_p)) st_init) [108;108] /\ content_is 1 (ok_state (exec pdesc (Shift 3) (st pdesc prog_p)) st_init) hello.
Proof. ex. Qed.

(** C15. pop returns and removes the last element. *)
Theorem C15_pop : forall (T : Type) (d : desc T) (s : state T) (a : astate T) (x : var) r (v : list (option T)) e,
  wf_desc d -> reached d s a -> a !! x = Some (AVal r (v ++ [Some e])) -> returns d (Pop x) s (<[x := AVal r v]> a) (OVal e).
Proof. exact @pop_returns. Qed.
Print Assumptions C15_pop.

Example C15_pop_ex : wf_desc pdesc /\ reached pdesc (st pdesc prog_p) (av pdesc prog_p) /\ av pdesc prog_p !! 1%positive = Some (AVal true (map Some ([104;101;108;108] ++ [111]))) /\ content_is 1 (ok_state (exec pdesc (Pop 1) (st pdesc prog_p)) st_init) [104;101;108;108] /\ content_is 2 (ok_state (exec pdesc (Pop 1) (st pdesc prog_p)) st_init) hello.
Proof. ex. Qed.

(** C15. pop_back. *)
Theorem C15_pop_back : forall (T : Type) (d : desc T) (s : state T) (a : astate T) (x : var) r (v : list (option T)) e,
  wf_desc d -> reached d s a -> a !! x = Some (AVal r (v ++ [e])) -> returns d (PopBack x) s (<[x := AVal r v]> a) ONone.
Proof. exact @pop_back_returns. Qed.
Print Assumptions C15_pop_back.

Example C15_pop_back_ex : wf_desc pdesc /\ reached pdesc (st pdesc prog_p) (av pdesc prog_p) /\ av pdesc prog_p !! 1%positive = Some (AVal true (map Some ([104;101;108;108] ++ [111]))) /\ content_is 1 (ok_state (exec pdesc (PopBack 1) (st pdesc prog_p)) st_init) [104;101;108;108].
Proof. ex. Qed.

(** C15. push_front (insert at 0). *)
Theorem C15_push_front : forall (T : Type) (d : desc T) (s : state T) (a : astate T) (x : var) r (v : list (option T)) e,
  wf_desc d -> reached d s a -> a !! x = Some (AVal r v) -> yields d (InsertItem x 0 e) s a (<[x := AVal true (Some e :: v)]> a) ONone.
Proof. exact @push_front_yields. Qed.
Print Assumptions C15_push_front.

Example C15_push_front_ex : wf_desc pdesc /\ reached pdesc (st pdesc prog_p) (av pdesc prog_p) /\ av pdesc prog_p !! 3%positive = Some (AVal true (map Some [101;108;108])) /\ content_is 3 (ok_state (exec pdesc (InsertItem 3 0 7) (st pdesc prog_p)) st_init) [7;101;108;108].
Proof. ex. Qed.

(** C15. String ++/--/+= n/-= n drop min(n, length) characters. *)
Theorem C15_string_drop : forall (T : Type) (d : desc T) (s : state T) (a : astate T) (x : var) r (v : list (option T)) n,
  wf_desc d -> reached d s a -> a !! x = Some (AVal r v) -> 0 <= n < W64 ->
  returns d (StrDropFront x n) s (<[x := AVal r (zdrop n v)]> a) ONone /\
  returns d (StrDropBack x n) s (<[x := AVal r (ztake (zlen v - n) v)]> a) ONone.
Proof. exact @str_drop_returns. Qed.
Print Assumptions C15_string_drop.

Example C15_string_drop_ex : wf_desc sdesc /\ reached sdesc (st sdesc prog_s) (av sdesc prog_s) /\ (av sdesc prog_s) !! 1%positive = Some (AVal true (map Some hello)) /\ content_is 1 (ok_state (exec sdesc (StrDropFront 1 2) (st sdesc prog_s)) st_init) [108;108;111] /\ content_is 1 (ok_state (exec sdesc (StrDropBack 1 9) (st sdesc prog_s)) st_init) [] /\ content_is 2 (ok_state (exec sdesc (StrDropBack 1 2) (st sdesc prog_s)) st_init) hello.
Proof. ex. Qed.

(** C15. Array ++/--/+= n/-= n. *)
Theorem C15_array_drop : forall (T : Type) (d : desc T) (s : state T) (a : astate T) (x : var) r (v : list (option T)) n,
  wf_desc d -> reached d s a -> a !! x = Some (AVal r v) -> 0 <= n < W31 -> zlen v < W31 ->
  returns d (ArrDropFront x n) s (<[x := AVal r (zdrop n v)]> a) ONone /\
  returns d (ArrDropBack x n) s (<[x := AVal r (ztake (zlen v - n) v)]> a) ONone.
Proof. exact @arr_drop_returns. Qed.
Print Assumptions C15_array_drop.

Example C15_array_drop_ex : wf_desc pdesc /\ reached pdesc (st pdesc prog_p) (av pdesc prog_p) /\ av pdesc prog_p !! 1%positive = Some (AVal true (map Some hello)) /\ content_is 1 (ok_state (exec pdesc (ArrDropFront 1 2) (st pdesc prog_p)) st_init) [108;108;111] /\ content_is 1 (ok_state (exec pdesc (ArrDropBack 1 2) (st pdesc prog_p)) st_init) [104;101;108].
Proof. ex. Qed.

(** C15: Array += n with a negative n exposes elements outside the slice. *)
Theorem C15_negative_drop_refuted : exists s a s',
  reached pdesc s a /\ content_is 3 s [108;108;111] /\ exec pdesc (ArrDropFront 3 (-1)) s = Ok ONone s' /\ content_is 3 s' [101;108;108;111].
Proof. exists (st pdesc [CtorList 1 hello; CtorCopy 3 1; SliceTo 3 2 3]), (av pdesc [CtorList 1 hello; CtorCopy 3 1; SliceTo 3 2 3]). eexists. ex. Qed.
Print Assumptions C15_negative_drop_refuted.

(** C16. s[i] = v and write(i, v) change element i of s; with C01_isolation, of s only. *)
Theorem C16_write : forall (T : Type) (d : desc T) (s : state T) (a : astate T) (x : var) r (v : list (option T)) i e,
  wf_desc d -> reached d s a -> a !! x = Some (AVal r v) -> 0 <= i < zlen v ->
  yields d (Write x i e) s a (<[x := AVal true (ztake i v ++ [Some e] ++ zdrop (i + 1) v)]> a) ONone.
Proof. exact @write_yields. Qed.
Print Assumptions C16_write.

Example C16_write_ex : wf_desc sdesc /\ reached sdesc (st sdesc prog_s) (av sdesc prog_s) /\ (av sdesc prog_s) !! 3%positive = Some (AVal true (map Some [101;108;108])) /\ content_is 3 (ok_state (exec sdesc (Write 3 0 33) (st sdesc prog_s)) st_init) [33;108;108] /\ content_is 1 (ok_state (exec sdesc (Write 3 0 33) (st sdesc prog_s)) st_init) hello.
Proof. ex. Qed.

(** C16. Writing through a fresh begin()/mdata() pointer is the same as write(). *)
Theorem C16_begin_write : forall (T : Type) (d : desc T) (s : state T) (a : astate T) (x : var) r (v : list (option T)) i e (s1 : state T) p,
  wf_desc d -> reached d s a -> a !! x = Some (AVal r v) -> 0 <= i < zlen v -> begin_ptr d x s = Ok p s1 ->
  exec d (Write x i e) s = (let* _ := ptr_write (Ptr (p_loc p) (p_gen p) (u64 (p_idx p + i))) e in ret ONone) s1.
Proof. exact @begin_write_is_write. Qed.
Print Assumptions C16_begin_write.

Example C16_begin_write_ex : exists s1 p, wf_desc sdesc /\ reached sdesc (st sdesc prog_s) (av sdesc prog_s) /\ begin_ptr sdesc 3 (st sdesc prog_s) = Ok p s1.
Proof. do 2 eexists. ex. Qed.

(** C16: writes through non-const front(), back() or read() skip the copy-on-write and reach other objects. *)
Theorem C16_front_refuted : exists s a p s1 s2,
  reached sdesc s a /\ content_is 1 s hello /\ front_ptr 2 s = Ok p s1 /\ ptr_write p 74 s1 = Ok tt s2 /\ content_is 1 s2 [74;101;108;108;111].
Proof. exists (st sdesc prog_s), (av sdesc prog_s). do 3 eexists. ex. Qed.
Print Assumptions C16_front_refuted.
(** C16: so do writes through an iterator kept across a copy. *)
Theorem C16_kept_iterator_refuted : exists p s1 s2 s3 s4,
  exec sdesc (CtorCstrLen 1 hello 5) st_init = Ok ONone s1 /\ begin_ptr sdesc 1 s1 = Ok p s2 /\
  exec sdesc (CtorCopy 2 1) s2 = Ok ONone s3 /\ ptr_write p 74 s3 = Ok tt s4 /\ content_is 2 s4 [74;101;108;108;111].
Proof. do 5 eexists. ex. Qed.
Print Assumptions C16_kept_iterator_refuted.
(** C10: and the cached hash goes stale under such writes. *)
Theorem C10_stale_hash_refuted : exists p s1 s2 s3 s4 h h',
  exec sdesc (CtorCstrLen 1 hello 5) st_init = Ok ONone s1 /\ exec sdesc (HashOf 1) s1 = Ok (OInt h) s2 /\
  front_ptr 1 s2 = Ok p s3 /\ ptr_write p 74 s3 = Ok tt s4 /\ content_is 1 s4 [74;101;108;108;111] /\
  exec sdesc (HashOf 1) s4 = Ok (OInt h') s4 /\ h' = h /\ h' <> sp_hash (fun z => z) [74;101;108;108;111].
Proof. do 7 eexists. ex. Qed.
Print Assumptions C10_stale_hash_refuted.

(** C17. c_str() yields the bytes and a NUL and changes no value; if it needs memory that is not there the program is terminated. *)
Theorem C17_c_str : forall (T : Type) (d : desc T) (s : state T) (a : astate T) g (x : var) es z,
  wf_desc d -> reached d s a -> a !! x = Some (AVal true (map Some es)) -> d_nul d = Some z ->
  (exists s', exec d (CStr g x) s = Ok (OMem (map Some (es ++ [z]))) s' /\ reached d s' a /\ shows s' a) \/
  (exec d (CStr g x) s = Term /\ no_memory d (zlen es + 2)).
Proof. exact @c_str_spec. Qed.
Print Assumptions C17_c_str.

Example C17_c_str_ex : wf_desc sdesc /\ reached sdesc (st sdesc prog_s) (av sdesc prog_s) /\ (av sdesc prog_s) !! 3%positive = Some (AVal true (map Some [101;108;108])) /\ d_nul sdesc = Some 0 /\ (match exec sdesc (CStr false 3) (st sdesc prog_s) with Ok (OMem m) _ => m | _ => [] end) = map Some [101;108;108;0] /\ content_is 1 (ok_state (exec sdesc (CStr false 3) (st sdesc prog_s)) st_init) hello.
Proof. ex. Qed.

(** C17: Strings from the fill, list and range constructors have no room for the byte c_str() inspects. *)
Theorem C17_no_room_refuted :
  (exists s a, reached sdesc s a /\ content_is 1 s hello /\ exec sdesc (CStr false 1) s = Undef UbBounds) /\
  (exists s a, reached sdesc s a /\ content_is 1 s [33;33;33] /\ exec sdesc (CStr false 1) s = Undef UbBounds).
Proof.
  split.
  - exists (st sdesc [CtorList 1 hello]), (av sdesc [CtorList 1 hello]). ex.
  - exists (st sdesc [CtorFill 1 3 33]), (av sdesc [CtorFill 1 3 33]). ex.
Qed.
Print Assumptions C17_no_room_refuted.

(** C24. trim() leaves the middle part without whitespace at either end. *)
Theorem C24_trim : forall (T : Type) (d : desc T) (s : state T) (a : astate T) (x : var) r es p,
  wf_desc d -> reached d s a -> a !! x = Some (AVal r (map Some es)) ->
  exists l m r', es = l ++ m ++ r' /\ forallb p l = true /\ forallb p r' = true /\ ends_free p m /\
    returns d (Trim p x) s (<[x := AVal r (map Some m)]> a) ONone.
Proof. exact @trim_returns. Qed.
Print Assumptions C24_trim.

Example C24_trim_ex : let p := [CtorCstrLen 1 [32;9;65;32;66;32] 6; CtorCopy 2 1] in reached sdesc (st sdesc p) (av sdesc p) /\ av sdesc p !! 1%positive = Some (AVal true (map Some [32;9;65;32;66;32])) /\ (let s' := ok_state (exec sdesc (Trim (fun c => c <=? 32) 1) (st sdesc p)) st_init in content_is 1 s' [65;32;66] /\ content_is 2 s' [32;9;65;32;66;32]).
Proof. ex. Qed.

(** C24. Trimming again changes nothing. *)
Theorem C24_trim_idle : forall (T : Type) (d : desc T) (s : state T) (a : astate T) (x : var) r es p,
  wf_desc d -> reached d s a -> a !! x = Some (AVal r (map Some es)) -> ends_free p es -> returns d (Trim p x) s a ONone.
Proof. exact @trim_idle. Qed.
Print Assumptions C24_trim_idle.

Example C24_trim_idle_ex : wf_desc sdesc /\ reached sdesc (st sdesc prog_s) (av sdesc prog_s) /\ (av sdesc prog_s) !! 1%positive = Some (AVal true (map Some hello)).
Proof. ex. Qed.

(** C24. chomp() removes at most one newline and then at most one carriage return. *)
Theorem C24_chomp : forall (T : Type) (d : desc T) (s : state T) (a : astate T) (x : var) r es nl cr,
  wf_desc d -> reached d s a -> a !! x = Some (AVal r (map Some es)) ->
  exists es1 es2, chomped (d_eqb d) nl es es1 /\ chomped (d_eqb d) cr es1 es2 /\
    returns d (Chomp x nl cr) s (<[x := AVal r (map Some es2)]> a) ONone.
Proof. exact @chomp_returns. Qed.
Print Assumptions C24_chomp.

Example C24_chomp_ex : let p := [CtorCstrLen 1 [65;13;13;10] 4] in reached sdesc (st sdesc p) (av sdesc p) /\ av sdesc p !! 1%positive = Some (AVal true (map Some [65;13;13;10])) /\ (let s' := ok_state (exec sdesc (Chomp 1 10 13) (st sdesc p)) st_init in content_is 1 s' [65;13]).
Proof. ex. Qed.
