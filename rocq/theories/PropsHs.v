(** C61: HashTable<String, String> on the heap. Every theorem is closed by a lemma of HsProof; examples beside them.
    [tab d a u m]: the table [u] holds the map [m] in the Strings of [a]; [others u a]: every String that is not one of
    its keys and values. [does d f s P E]: [f] returns with [P] or throws bad_alloc with [E]; nothing else happens. *)
From Verif Require Import RcaSpec RcaModel RcaExec RcaOwn RcaRel RcaMeet RcaReach RcaFacts RcaEx AlgModel AlgMeet StrSpec StrModel HashModel HsModel HsMeet HsProof.
Open Scope Z_scope.

(** A table of one bucket with hello -> World!! and k -> hello; 1 is hello, 2 is World!!, 3 is k, 4 is kk; the keys and
    values share their buffers. *)
Definition ex_prog : list (op Z) :=
  [CtorCstrLen 1 hello 5; CtorCstrLen 2 world 7; CtorCstrLen 3 [107] 1; CtorCstrLen 4 [107; 107] 2; CtorCopy 10 1; CtorCopy 11 2; CtorCopy 12 3; CtorCopy 13 1].
Definition ex_s := st sdesc ex_prog.
Definition ex_a := av sdesc ex_prog.
Definition ex_u : table := UMap 1 [[(10, 11); (12, 13)]%positive] 2.
Definition ex_m : texts := {[hello := world; [107] := hello]}.
Definition ex_grow (n c : Z) : option Z := if n <=? c then Some (2 * n) else None.
Definition see {A} (m : M (state Z) A) (s : state Z) (xs : list positive) : option (A * list (option (list (option Z)))) :=
  match m s with Ok v s' => Some (v, map (fun x => content x s') xs) | _ => None end.
Definition threw {A} (m : M (state Z) A) (s : state Z) (xs : list positive) : option (list (option (list (option Z)))) :=
  match m s with Exn BadAlloc s' => Some (map (fun x => content x s') xs) | _ => None end.
Definition str (l : list Z) : option (list (option Z)) := Some (map Some l).
Lemma ex_tab : tab sdesc ex_a ex_u ex_m.
Proof.
  constructor.
  - reflexivity.
  - reflexivity.
  - intros i b n Z _. cbn [ex_u u_n u_buckets] in *. rewrite Z.mod_1_r. unfold znth in Z. destruct (i <? 0) eqn:E; [discriminate|].
    destruct (Z.to_nat i) as [|[|j]] eqn:F; [lia|discriminate|discriminate].
  - reflexivity.
  - apply (bool_decide_unpack _). vm_compute. reflexivity.
  - constructor; [|constructor; [|constructor]]; (split; [vm_compute; repeat constructor; discriminate|split; exists true; vm_compute; reflexivity]).
  - apply (bool_decide_unpack _). vm_compute. reflexivity.
  - vm_compute. reflexivity.
Qed.
Lemma ex_reached : reached sdesc ex_s ex_a.
Proof. apply run_reached. Qed.
Lemma sub_ok : memcmp_ok Z.sub.
Proof. intros x y _ _. lia. Qed.
Lemma ex_key x l : ex_a !! x = Some (AVal true (map Some l)) -> is_str ex_a x l.
Proof. intros E. exists true. exact E. Qed.
Ltac ex := cbv zeta; repeat match goal with |- _ /\ _ => split end;
  match goal with |- reached _ _ _ => exact ex_reached | |- tab _ _ _ _ => exact ex_tab | |- memcmp_ok _ => exact sub_ok | |- wf_desc _ => exact sdesc_wf
  | |- is_str _ _ _ => apply ex_key; vm_compute; reflexivity | |- _ ∈ _ => apply (bool_decide_unpack _); vm_compute; reflexivity | |- _ ∉ _ => apply (bool_decide_unpack _); vm_compute; reflexivity
  | |- bytes _ => repeat constructor; lia | |- _ => vm_compute; try reflexivity; try discriminate end.

(** C61: t[k] = v. The map gets the entry; the key and the value given are copies of their own, and rvalues are moved
    from; an rvalue key only if a node was made of it. No other String changes. Memory for the node or the buckets may
    be lacking: then the table and everything else are as before, but for an rvalue key, see below. *)
Theorem C61_assign : forall d, wf_desc d -> forall mdiff, memcmp_ok mdiff -> forall grow e (mk mv : bool) s a u m k l v w,
  reached d s a -> tab d a u m -> is_str a k l -> bytes l -> is_str a v w ->
  (mk = true -> k ∉ owned u /\ k <> v) -> (mv = true -> v ∉ owned u) ->
  does d (hassign d mdiff grow e mk mv u k v) s (assigned d mk mv a u m k v l w)
    (fun a' => e <> LNone /\ m !! l = None /\ a' = taken (lost e mk) k a).
Proof. exact hassign_ok. Qed.
Print Assumptions C61_assign.
Example C61_assign_ex : wf_desc sdesc /\ memcmp_ok Z.sub /\ reached sdesc ex_s ex_a /\ tab sdesc ex_a ex_u ex_m /\ is_str ex_a 1 hello /\ bytes hello /\ is_str ex_a 4 [107; 107] /\
  see (hassign sdesc Z.sub ex_grow LNone false false ex_u 1 4) ex_s [1; 4; 10; 11; 13]%positive = Some (ex_u, map str [hello; [107; 107]; hello; [107; 107]; hello]) /\
  see (hassign sdesc Z.sub ex_grow LNone true true ex_u 4 1) ex_s [4; 1; 15; 17; 13]%positive =
    Some (UMap 2 [[(12, 13)]; [(15, 17); (10, 11)]]%positive 3, [None; None; str [107; 107]; str hello; str hello]) /\
  threw (hassign sdesc Z.sub ex_grow LNode true true ex_u 4 1) ex_s [4; 1; 15]%positive = Some [str [107; 107]; str hello; None].
Proof. ex. Qed.

(** C61: insert. A key that is there is left with its value, and the arguments are untouched, rvalues too; otherwise as
    t[k] = v. *)
Theorem C61_insert : forall d, wf_desc d -> forall mdiff, memcmp_ok mdiff -> forall grow e (mk mv : bool) s a u m k l v w,
  reached d s a -> tab d a u m -> is_str a k l -> bytes l -> is_str a v w ->
  (mk = true -> k ∉ owned u /\ k <> v) -> (mv = true -> v ∉ owned u) ->
  does d (hinsert d mdiff grow e mk mv u k v) s
    (fun r a' => match m !! l with Some _ => r = (false, u) /\ a' = a | None => fst r = true /\ assigned d mk mv a u m k v l w (snd r) a' end)
    (fun a' => e <> LNone /\ m !! l = None /\ a' = taken (lost e mk) k a).
Proof. exact hinsert_ok. Qed.
Print Assumptions C61_insert.
Example C61_insert_ex : reached sdesc ex_s ex_a /\ tab sdesc ex_a ex_u ex_m /\ is_str ex_a 1 hello /\ is_str ex_a 3 [107] /\ is_str ex_a 4 [107; 107] /\ is_str ex_a 13 hello /\
  see (hinsert sdesc Z.sub ex_grow LNone true true ex_u 3 4) ex_s [3; 4; 13]%positive = Some (false, ex_u, map str [[107]; [107; 107]; hello]) /\
  see (hinsert sdesc Z.sub ex_grow LNone false false ex_u 4 13) ex_s [4; 13; 15; 17]%positive =
    Some (true, UMap 2 [[(12, 13)]; [(15, 17); (10, 11)]]%positive 3, map str [[107; 107]; hello; [107; 107]; hello]).
Proof. ex. Qed.

(** C61: contains and remove, by a key that may be one in the table itself; get makes a copy. *)
Theorem C61_contains : forall d, wf_desc d -> forall mdiff, memcmp_ok mdiff -> forall s a u m k l,
  reached d s a -> tab d a u m -> is_str a k l -> bytes l ->
  exists s', hcontains d mdiff u k s = Ok (bool_decide (is_Some (m !! l))) s' /\ reached d s' a.
Proof. exact (fun d Hwf mdiff Hm => hcontains_ok d Hwf mdiff Hm (fun _ _ => None)). Qed.
Print Assumptions C61_contains.
Theorem C61_remove : forall d, wf_desc d -> forall mdiff, memcmp_ok mdiff -> forall s a u m k l,
  reached d s a -> tab d a u m -> is_str a k l -> bytes l ->
  does d (hremove d mdiff u k) s
    (fun r a' => fst r = bool_decide (is_Some (m !! l)) /\ tab d a' (snd r) (delete l m) /\ others (snd r) a' = others u a) (fun _ => False).
Proof. exact (fun d Hwf mdiff Hm => hremove_ok d Hwf mdiff Hm (fun _ _ => None)). Qed.
Print Assumptions C61_remove.
Theorem C61_get : forall d, wf_desc d -> forall mdiff, memcmp_ok mdiff -> forall s a u m k l r,
  reached d s a -> tab d a u m -> is_str a k l -> bytes l -> a !! r = None ->
  does d (hget d mdiff r u k) s (fun _ a' => exists b, a' = <[r := AVal b (map Some (default [] (m !! l)))]> a /\ tab d a' u m) (fun _ => False).
Proof. exact (fun d Hwf mdiff Hm => hget_ok d Hwf mdiff Hm (fun _ _ => None)). Qed.
Print Assumptions C61_get.
Example C61_remove_ex : reached sdesc ex_s ex_a /\ tab sdesc ex_a ex_u ex_m /\ is_str ex_a 10 hello /\ bytes hello /\ is_str ex_a 4 [107; 107] /\ ex_a !! 20%positive = None /\
  see (hcontains sdesc Z.sub ex_u 10) ex_s [1]%positive = Some (true, [str hello]) /\ see (hcontains sdesc Z.sub ex_u 4) ex_s [1]%positive = Some (false, [str hello]) /\
  see (hremove sdesc Z.sub ex_u 10) ex_s [10; 11; 12; 13; 1]%positive = Some (true, UMap 1 [[(12, 13)]]%positive 1, [None; None; str [107]; str hello; str hello]) /\
  see (hremove sdesc Z.sub ex_u 4) ex_s [10; 11; 12]%positive = Some (false, ex_u, map str [hello; world; [107]]) /\
  see (hget sdesc Z.sub 20 ex_u 1) ex_s [20; 11]%positive = Some (tt, map str [world; world]) /\
  see (hget sdesc Z.sub 20 ex_u 4) ex_s [20; 11]%positive = Some (tt, map str [[]; world]).
Proof. ex. Qed.

(** C61: clear and the destructor destroy every key and value and nothing else, so nothing is left if the program has no
    other Strings. *)
Theorem C61_clear : forall d, wf_desc d -> forall s a u m,
  reached d s a -> tab d a u m -> does d (hclear d u) s (fun u' a' => tab d a' u' ∅ /\ nodes u' = [] /\ a' = others u a) (fun _ => False).
Proof. exact (fun d Hwf => hclear_ok d Hwf (fun _ _ => None)). Qed.
Print Assumptions C61_clear.
Theorem C61_destroy : forall d, wf_desc d -> forall s a u m,
  reached d s a -> tab d a u m ->
  does d (hdestroy d u) s (fun _ a' => a' = others u a) (fun _ => False) /\
  (others u a = ∅ -> exists s', hdestroy d u s = Ok tt s' /\ st_heap s' = ∅).
Proof. exact hdestroy_heap. Qed.
Print Assumptions C61_destroy.
Example C61_clear_ex : reached sdesc ex_s ex_a /\ tab sdesc ex_a ex_u ex_m /\
  see (hclear sdesc ex_u) ex_s [10; 11; 12; 13; 1; 2]%positive = Some (UMap 1 [[]] 0, [None; None; None; None; str hello; str world]) /\
  match (destroy_all sdesc [1; 2; 3; 4]%positive ;;; hdestroy sdesc ex_u) ex_s with Ok _ s' => size (st_heap s') = O | _ => False end.
Proof. ex. Qed.

(** C61: a copy of a table holds the same map in Strings of its own; nothing else changes, and if memory runs out half way
    nothing has changed. *)
Theorem C61_copy : forall d, wf_desc d -> forall fails s a u m,
  reached d s a -> tab d a u m ->
  does d (hcopy d fails u) s (fun u' a' => tab d a' u' m /\ tab d a' u m /\ others u' a' = a) (fun a' => a' = a /\ exists c, fails c = true).
Proof. exact (fun d Hwf => hcopy_ok d Hwf (fun _ _ => None)). Qed.
Print Assumptions C61_copy.
Example C61_copy_ex : reached sdesc ex_s ex_a /\ tab sdesc ex_a ex_u ex_m /\
  see (hcopy sdesc (fun _ => false) ex_u) ex_s [10; 15; 17; 19; 21]%positive = Some (UMap 1 [[(15, 17); (19, 21)]]%positive 2, map str [hello; hello; world; [107]; hello]) /\
  threw (hcopy sdesc (Nat.eqb 2) ex_u) ex_s [10; 15; 17]%positive = Some [str hello; None; None].
Proof. ex. Qed.

(** C61: what the program does to its own Strings, copies of keys and values among them, never changes the map. *)
Theorem C61_user : forall d, wf_desc d -> forall o s a u m a' v,
  reached d s a -> tab d a u m -> step d o a = Some (SRet a' v) -> (forall g x, o <> CStr g x) ->
  (forall x, x ∈ owned u -> x ∉ changes o /\ target o <> Some x) ->
  does d (exec d o) s (fun _ b => b = a' /\ tab d b u m) (fun b => tab d b u m).
Proof. exact user_ok. Qed.
Print Assumptions C61_user.
(** C61: through the reference that t[k] returns, one entry changes: to what the String was given, or to nothing if memory
    ran out. *)
Theorem C61_value : forall d, wf_desc d -> forall o s a u m a' v n w,
  reached d s a -> tab d a u m -> step d o a = Some (SRet a' v) -> (forall g x, o <> CStr g x) -> In n (nodes u) ->
  (forall x, x ∈ owned u -> x <> snd n -> x ∉ changes o /\ target o <> Some x) -> is_str a' (snd n) w ->
  does d (exec d o) s (fun _ b => b = a' /\ tab d b u (<[text a (fst n) := w]> m)) (fun b => tab d b u m \/ tab d b u (<[text a (fst n) := []]> m)).
Proof. exact value_ok. Qed.
Print Assumptions C61_value.
Example C61_user_ex : reached sdesc ex_s ex_a /\ tab sdesc ex_a ex_u ex_m /\ (10 ∈ owned ex_u)%positive /\
  see (exec sdesc (Write 1 0 88)) ex_s [1; 10; 13]%positive = Some (ONone, map str [88 :: tail hello; hello; hello]) /\
  see (exec sdesc (AppendItem 13 33)) ex_s [13; 1; 10]%positive = Some (ONone, map str [hello ++ [33]; hello; hello]).
Proof. ex. Qed.

(** C61: a call on one table leaves every other table alone. *)
Theorem C61_elsewhere : forall d u u' a b a' u2 m2,
  others u' a' = others u b -> tab d a u2 m2 -> (forall x, x ∈ owned u2 -> x ∉ owned u /\ b !! x = a !! x) ->
  tab d a' u2 m2 /\ forall x, x ∈ owned u2 -> x ∉ owned u'.
Proof. exact elsewhere_ok. Qed.
Print Assumptions C61_elsewhere.
Definition ex_u2 : table := UMap 1 [[(1, 2)]%positive] 1.
Example C61_elsewhere_ex : let u' : table := UMap 1 [[(12, 13)]%positive] 1 in let a' := delete 11%positive (delete 10%positive ex_a) in
  tab sdesc ex_a ex_u2 {[hello := world]} /\ others u' a' = others ex_u ex_a /\ Forall (fun x => x ∉ owned ex_u) (owned ex_u2) /\
  match hremove sdesc Z.sub ex_u 10 ex_s with Ok r _ => snd r = u' | _ => False end.
Proof.
  cbv zeta. split; [|split; [vm_compute; reflexivity|split; [apply (bool_decide_unpack _); vm_compute; reflexivity|vm_compute; reflexivity]]]. constructor.
  - reflexivity.
  - reflexivity.
  - intros i b n Z _. cbn [ex_u2 u_n u_buckets] in *. rewrite Z.mod_1_r. unfold znth in Z. destruct (i <? 0) eqn:E; [discriminate|].
    destruct (Z.to_nat i) as [|[|j]] eqn:F; [lia|discriminate|discriminate].
  - reflexivity.
  - apply (bool_decide_unpack _). vm_compute. reflexivity.
  - constructor; [|constructor]. split; [vm_compute; repeat constructor; discriminate|split; exists true; vm_compute; reflexivity].
  - apply (bool_decide_unpack _). vm_compute. reflexivity.
  - vm_compute. reflexivity.
Qed.

(** C61: any sequence of calls with memory to spare returns what a finite map would and leaves that map. *)
Theorem C61_history : forall d, wf_desc d -> forall mdiff, memcmp_ok mdiff -> forall grow cs s u x rs y,
  has d s u (fst x) (snd x) -> hspecs cs x rs y ->
  exists s' u', hrun d mdiff grow cs u s = Ok (rs, u') s' /\ has d s' u' (fst y) (snd y).
Proof. exact hrun_ok. Qed.
Print Assumptions C61_history.
Example C61_history_ex : has sdesc ex_s ex_u ex_m (others ex_u ex_a) /\
  hspecs [HRemove 3; HInsert false false 3 2; HContains 3; HInsert true true 3 2] (ex_m, others ex_u ex_a) [true; true; true; false]
    (<[[107] := world]> (delete [107] ex_m), others ex_u ex_a) /\
  see (hrun sdesc Z.sub ex_grow [HRemove 3; HInsert false false 3 2; HContains 3; HInsert true true 3 2] ex_u) ex_s [3; 2; 13; 15]%positive =
    Some ([true; true; true; false], UMap 2 [[(13, 15)]; [(10, 11)]]%positive 2, map str [[107]; world; [107]; world]).
Proof.
  assert (is_key (others ex_u ex_a) 3 [107]) as K by (split; [exists true; vm_compute; reflexivity|repeat constructor; lia]).
  assert (is_str (others ex_u ex_a) 2 world) as V by (exists true; vm_compute; reflexivity).
  split; [exists ex_a; split; [exact ex_reached|]; split; [exact ex_tab|reflexivity]|]. split; [|vm_compute; reflexivity].
  eapply hs_cons; [exact (hs_remove 3 [107] ex_m _ K)|]. eapply hs_cons.
  { apply (hs_insert false false 3 2 [107] world _ _ K V); [discriminate|]. apply lookup_delete. }
  eapply hs_cons; [exact (hs_contains 3 [107] _ _ K)|]. eapply hs_cons; [|apply hs_nil].
  apply (hs_there true true 3 2 [107] world _ _ K V); [discriminate|]. rewrite lookup_insert. eauto.
Qed.

(** C61 refuted: "an insert that throws has changed nothing". With memory for the node but not for more buckets an rvalue
    key is lost. *)
Theorem C61_lost_key_refuted : exists d mdiff grow s a u m k l v w s', wf_desc d /\ memcmp_ok mdiff /\
  reached d s a /\ tab d a u m /\ is_str a k l /\ bytes l /\ is_str a v w /\ k ∉ owned u /\ v ∉ owned u /\ k <> v /\ l <> [] /\
  hinsert d mdiff grow LBuckets true true u k v s = Exn BadAlloc s' /\ content k s = str l /\ content k s' = None /\ content v s' = str w.
Proof.
  exists sdesc, Z.sub, ex_grow, ex_s, ex_a, ex_u, ex_m, 4%positive, [107; 107], 1%positive, hello.
  exists (match hinsert sdesc Z.sub ex_grow LBuckets true true ex_u 4 1 ex_s with Exn _ s' => s' | _ => ex_s end).
  ex.
Qed.
Print Assumptions C61_lost_key_refuted.
