(** Proofs about HashTable<String, String> on the heap. *)
From Coq Require Import ZifyBool.
From Verif Require Import RcaSpec RcaModel RcaExec RcaInv RcaOwn RcaRel RcaMeet RcaReach RcaFacts StreamProof StrSpec StrModel StrCmp AlgModel AlgMeet AlgRules
  HashModel HashProof HsModel HsMeet.
From Verif Require NestSim.
Open Scope Z_scope.

Lemma bind_ok {S A B} (m : M S A) (k : A -> M S B) s v s' : m s = Ok v s' -> bind m k s = k v s'.
Proof. unfold bind. intros ->. reflexivity. Qed.
Lemma bind_exn {S A B} (m : M S A) (k : A -> M S B) s e s' : m s = Exn e s' -> bind m k s = Exn e s'.
Proof. unfold bind. intros ->. reflexivity. Qed.
Lemma znth_in {A} i (l : list A) x : znth i l = Some x -> In x l.
Proof. unfold znth. destruct (i <? 0); [discriminate|]. apply nth_error_In. Qed.

Section Proof.
Variable d : desc Z.
Hypothesis Hwf : wf_desc d.
Variable mdiff : Z -> Z -> Z.
Hypothesis Hm : memcmp_ok mdiff.
Variable grow : Z -> Z -> option Z.
Notation reached := (RcaMeet.reached d).
Notation step := (RcaMeet.step d).
Notation tab := (tab d).
Notation thash := (text_hash d).
Definition keq (a : astate Z) (x y : positive) : bool := bool_decide (text a x = text a y).
Notation good a := (HashProof.good (text a) (thash a)).

Lemma text_str a x l : is_str a x l -> text a x = l.
Proof. intros (r & E). unfold text. rewrite E, vals_map. reflexivity. Qed.
Lemma str_text a x l : is_str a x l -> is_str a x (text a x).
Proof. intros H. rewrite (text_str a x l H). exact H. Qed.
Lemma keq_ok a x y : keq a x y = true <-> text a x = text a y.
Proof. apply bool_decide_eq_true. Qed.
Lemma thash_ok a x y : text a x = text a y -> thash a x = thash a y.
Proof. unfold text_hash. intros ->. reflexivity. Qed.

Lemma key_hash_ok s a x l : reached s a -> is_str a x l -> exists s', key_hash d x s = Ok (thash a x) s' /\ reached s' a.
Proof.
  intros H Hx. unfold text_hash. rewrite (text_str a x l Hx). destruct Hx as (r & Hx).
  destruct (hash_returns d s a x r l Hwf H Hx) as (s' & E & Hr & _). exists s'. split; [|exact Hr].
  unfold key_hash, ask. rewrite (bind_ok _ _ _ _ _ E). reflexivity.
Qed.
Lemma same_contents s x y (o p : obj) (l w : list Z) : st_env s !! x = Some o -> st_env s !! y = Some p -> same_buf o p = true ->
  contents x s = Ok l s -> contents y s = Ok w s -> length_of x s = Ok (zlen l) s -> length_of y s = Ok (zlen w) s -> zlen l = zlen w -> l = w.
Proof.
  intros Ho Hp Hs Cx Cy Lx Ly Hl. unfold same_buf in Hs. apply andb_prop in Hs as [Hr Hf]. apply bool_decide_eq_true in Hr. apply Z.eqb_eq in Hf.
  assert (o_len o = o_len p) as Hn.
  { unfold length_of, bind, get_obj, ret in Lx, Ly. rewrite Ho in Lx. rewrite Hp in Ly. injection Lx as Lx. injection Ly as Ly. lia. }
  assert (contents x s = contents y s) as E.
  { unfold contents, length_of, load, bind, get_obj, ret. rewrite Ho, Hp, Hn. destruct (o_len p <=? 0); [reflexivity|]. rewrite Ho, Hp, Hr, Hf. reflexivity. }
  rewrite Cx, Cy in E. congruence.
Qed.
Lemma key_eq_ok s a x y (l w : list Z) : reached s a -> is_str a x l -> is_str a y w -> bytes l -> bytes w ->
  key_eq mdiff x y s = Ok (keq a x y) s.
Proof.
  intros H Hx Hy Bl Bw. unfold keq. rewrite (text_str a x l Hx), (text_str a y w Hy).
  pose proof (contents_str d Hwf s a x l H Hx) as Cx. pose proof (contents_str d Hwf s a y w H Hy) as Cy.
  pose proof (length_is d Hwf s a x l H Hx) as Lx. pose proof (length_is d Hwf s a y w H Hy) as Ly.
  pose proof (str_len d Hwf s a x l H Hx) as Zx. pose proof (str_len d Hwf s a y w H Hy) as Zy.
  destruct Hx as (rx & Ex), Hy as (ry & Ey).
  destruct (R_held d s a x rx _ (reached_R d s a Hwf H) Ex) as (o & Ho). destruct (R_held d s a y ry _ (reached_R d s a Hwf H) Ey) as (p & Hp).
  pose proof (hd_env _ _ _ _ _ _ Ho) as Eo. pose proof (hd_env _ _ _ _ _ _ Hp) as Ep.
  unfold key_eq. unfold bind at 1. rewrite (get_obj_ok _ _ _ Eo). unfold bind at 1. rewrite (get_obj_ok _ _ _ Ep).
  rewrite (bind_ok _ _ _ _ _ Cx), (bind_ok _ _ _ _ _ Cy).
  destruct (op_eq_spec mdiff Hm (same_buf o p) l w Bl Bw) as (r & Er & Hr); [|unfold max_alloc, W63 in *; lia|unfold max_alloc, W63 in *; lia|].
  - intros Hs Hl. exact (same_contents s x y o p l w Eo Ep Hs Cx Cy Lx Ly Hl).
  - rewrite (pure_ok _ _ s Er). f_equal. destruct r; case_bool_decide; try reflexivity; exfalso; intuition congruence.
Qed.
Lemma hscan_ok s a k l b : reached s a -> is_str a k l -> bytes l -> Forall (is_node a) b ->
  hscan mdiff b k s = Ok (scan (keq a) b k) s.
Proof.
  intros H Hk Bl. induction 1 as [|[kn vn] b (Bn & Hn & _) _ IH]; [reflexivity|]. cbn [hscan scan fst].
  rewrite (bind_ok _ _ _ _ _ (key_eq_ok s a kn k _ l H Hn Hk Bn Bl)). destruct (keq a kn k); [reflexivity|exact IH].
Qed.

(** A table as HashProof sees it. *)
Lemma tab_good a u m : tab a u m -> good a u.
Proof. intros [P L Pl C _ _ K _]. constructor; assumption. Qed.
Lemma own_perm l l' : Permutation l l' -> Permutation (own l) (own l').
Proof. apply Permutation_flat_map. Qed.
Lemma own_app l l' : own (l ++ l') = own l ++ own l'.
Proof. apply flat_map_app. Qed.
Lemma own_cons n l : own (n :: l) = fst n :: snd n :: own l.
Proof. reflexivity. Qed.
Lemma in_own n l : In n l -> fst n ∈ own l /\ snd n ∈ own l.
Proof. intros H. unfold own. rewrite !elem_of_list_In, !in_flat_map. split; exists n; cbn; auto. Qed.
Definition entry (a : astate Z) (n : positive * positive) : list Z * list Z := (text a (fst n), text a (snd n)).
Definition keys (a : astate Z) (l : list (positive * positive)) : list (list Z) := map (fun n => text a (fst n)) l.
Lemma entry_keys a l : (map (entry a) l).*1 = keys a l.
Proof. unfold keys. induction l as [|n l IH]; [reflexivity|]. cbn. f_equal. exact IH. Qed.
(** Entries may be listed in any order. *)
Lemma tab_of a u l m : good a u -> Permutation (nodes u) l -> base.NoDup (own l) -> Forall (is_node a) l -> m = list_to_map (map (entry a) l) -> tab a u m.
Proof.
  intros G P N F M. pose proof (g_dup _ _ _ G) as D. fold (nodes u) in D.
  constructor; try apply G.
  - unfold owned. rewrite (own_perm _ _ P). exact N.
  - rewrite P. exact F.
  - rewrite M. symmetry. apply (list_to_map_proper (M := gmap (list Z))).
    + fold (entry a). rewrite entry_keys. exact D.
    + fold (entry a). apply Permutation_map, P.
Qed.
(** The map in terms of HashProof. *)
Lemma tab_abs a u m : tab a u m -> m = text a <$> abs (text a) u.
Proof.
  intros T. rewrite (tab_map _ _ _ _ T). unfold abs, prs, ents. fold (nodes u). induction (nodes u) as [|n l IH]; [symmetry; apply fmap_empty|].
  cbn. rewrite fmap_insert. f_equal. exact IH.
Qed.
Lemma tab_in a u m n : tab a u m -> In n (nodes u) -> m !! text a (fst n) = Some (text a (snd n)).
Proof.
  intros T I. rewrite (tab_map _ _ _ _ T). apply elem_of_list_to_map_1.
  - fold (entry a). rewrite entry_keys. apply (tab_keys _ _ _ _ T).
  - apply elem_of_list_In. fold (entry a). change (text a n.1, text a n.2) with (entry a n). apply in_map, I.
Qed.
Lemma tab_is_node a u m n : tab a u m -> In n (nodes u) -> is_node a n.
Proof. intros T I. pose proof (tab_node _ _ _ _ T) as F. rewrite Forall_forall in F. apply F, I. Qed.

(** Finding a key. *)
Lemma bucket_znth (u : table) i b : bucket u i = ret b -> znth i (u_buckets u) = Some b.
Proof. unfold bucket. destruct (znth i (u_buckets u)) as [b'|]; intros E; apply (f_equal (fun f => f tt)) in E; [injection E as ->; reflexivity|discriminate]. Qed.
Lemma bucket_nodes (u : table) i b n : znth i (u_buckets u) = Some b -> In n b -> In n (nodes u).
Proof. intros Z I. unfold nodes. apply in_concat. exists b. split; [|exact I]. eapply znth_in, Z. Qed.
Lemma lookup_core s a u m k l : reached s a -> tab a u m -> is_str a k l -> bytes l -> exists s' b,
  key_hash d k s = Ok (thash a k) s' /\ reached s' a /\ znth (thash a k mod u_n u) (u_buckets u) = Some b /\
  hscan mdiff b k s' = Ok (scan (keq a) b k) s' /\
  match scan (keq a) b k with
  | Some n => In n b /\ text a (fst n) = l /\ m !! l = Some (text a (snd n))
  | None => m !! l = None
  end.
Proof.
  intros H T Hk Bl. pose proof (tab_good a u m T) as G. destruct (key_hash_ok s a k l H Hk) as (s' & E & H').
  destruct (home (text a) (thash a) (keq a) grow (keq_ok a) (thash_ok a) u k G) as (L & b & R & _ & _ & B & _). unfold bucket_of in B.
  apply bucket_znth in B. exists s', b. split; [exact E|]. split; [exact H'|]. split; [exact B|].
  assert (Forall (is_node a) b) as Fb.
  { apply Forall_forall. intros n I. eapply tab_is_node; [exact T|]. eapply bucket_nodes; [exact B|exact I]. }
  split; [apply (hscan_ok s' a k l b H' Hk Bl Fb)|].
  destruct (find_ok (text a) (thash a) (keq a) grow (keq_ok a) (thash_ok a) u k G) as (r & F & A & _).
  unfold u_find, bucket, bucket_of, bind in F. rewrite B in F. injection F as <-. rewrite (text_str a k l Hk) in A.
  destruct (scan (keq a) b k) as [[kn vn]|] eqn:Sc.
  - destruct (scan_some (text a) (keq a) (keq_ok a) _ _ _ Sc) as [C (b1 & b2 & -> & _)]. rewrite (text_str a k l Hk) in C.
    assert (In (kn, vn) (b1 ++ (kn, vn) :: b2)) as I by (apply in_app_iff; right; left; reflexivity).
    split; [exact I|]. split; [exact C|]. rewrite <- C. eapply tab_in; [exact T|]. eapply bucket_nodes; [exact B|exact I].
  - rewrite (tab_abs a u m T), lookup_fmap, <- A. reflexivity.
Qed.
Lemma hfind_ok s a u m k l : reached s a -> tab a u m -> is_str a k l -> bytes l -> exists r s', hfind d mdiff u k s = Ok r s' /\ reached s' a /\
  match r with
  | Some n => In n (nodes u) /\ text a (fst n) = l /\ m !! l = Some (text a (snd n))
  | None => m !! l = None
  end.
Proof.
  intros H T Hk Bl. destruct (lookup_core s a u m k l H T Hk Bl) as (s' & b & E & H' & B & S & P). exists (scan (keq a) b k), s'.
  split; [|split; [exact H'|]].
  - unfold hfind. rewrite (bind_ok _ _ _ _ _ E). unfold hbucket. rewrite B. exact S.
  - destruct (scan (keq a) b k); [|exact P]. destruct P as (I & P). split; [eapply bucket_nodes; eassumption|exact P].
Qed.
Lemma hcontains_ok s a u m k l : reached s a -> tab a u m -> is_str a k l -> bytes l -> exists s',
  hcontains d mdiff u k s = Ok (bool_decide (is_Some (m !! l))) s' /\ reached s' a.
Proof.
  intros H T Hk Bl. unfold hcontains. destruct (isEmpty u) eqn:Em.
  - exists s. split; [|exact H]. unfold isEmpty in Em. rewrite (tab_count _ _ _ _ T) in Em. apply Z.eqb_eq in Em. apply zlen_0_nil in Em.
    rewrite (tab_map _ _ _ _ T), Em. cbn. rewrite lookup_empty. reflexivity.
  - destruct (hfind_ok s a u m k l H T Hk Bl) as (r & s' & E & H' & P). exists s'. split; [|exact H'].
    rewrite (bind_ok _ _ _ _ _ E). unfold ret. destruct r as [n|].
    + destruct P as (_ & _ & ->). reflexivity.
    + rewrite P. reflexivity.
Qed.

(** Linking nodes. *)
Lemma hpush_ok s a (u : table) n (u' : table) : reached s a -> is_node a n -> push (thash a) u (fst n) (snd n) tt = Ok u' tt ->
  exists s', hpush d u n s = Ok u' s' /\ reached s' a.
Proof.
  intros H (_ & Hn & _) P. destruct (key_hash_ok s a (fst n) _ H Hn) as (s' & E & H'). exists s'. split; [|exact H'].
  unfold hpush. rewrite (bind_ok _ _ _ _ _ E). unfold push, bucket, bucket_of, bind in P. unfold hbucket, bind.
  destruct (znth (thash a (fst n) mod u_n u) (u_buckets u)) as [b|]; [|discriminate]. unfold ret in *. injection P as <-.
  destruct n. reflexivity.
Qed.
Lemma hpush_all_ok a l : forall s (u u' : table), reached s a -> Forall (is_node a) l -> push_all (thash a) u l tt = Ok u' tt ->
  exists s', hpush_all d u l s = Ok u' s' /\ reached s' a.
Proof.
  induction l as [|n l IH]; intros s u u' H F P; cbn [push_all] in P; cbn [hpush_all].
  - injection P as <-. exists s. split; [reflexivity|exact H].
  - destruct n as [kn vn]. inversion F as [|? ? Fn Fl]; subst. unfold bind at 1 in P.
    destruct (push (thash a) u kn vn tt) as [u1 []| | | |] eqn:E1; try discriminate.
    destruct (hpush_ok s a u (kn, vn) u1 H Fn E1) as (s1 & E & H1). destruct (IH s1 u1 u' H1 Fl P) as (s' & E' & H').
    exists s'. split; [|exact H']. rewrite (bind_ok _ _ _ _ _ E). exact E'.
Qed.
(** A node with a new key. *)
Lemma hlink_ok e s a u m n : reached s a -> tab a u m -> is_node a n -> m !! text a (fst n) = None ->
  fst n ∉ owned u -> snd n ∉ owned u -> fst n <> snd n ->
  (e = LBuckets /\ hlink d grow e u n s = Exn BadAlloc s) \/
  exists u' s', hlink d grow e u n s = Ok u' s' /\ reached s' a /\ tab a u' (<[text a (fst n) := text a (snd n)]> m) /\
    Permutation (nodes u') (n :: nodes u).
Proof.
  intros H T Fn A O1 O2 Ne. pose proof (tab_good a u m T) as G. unfold hlink.
  assert (abs (text a) u !! text a (fst n) = None) as A0.
  { rewrite (tab_abs a u m T), lookup_fmap in A. destruct (abs (text a) u !! text a (fst n)); [discriminate|reflexivity]. }
  assert (forall s u1, reached s a -> good a u1 -> Permutation (nodes u1) (nodes u) -> exists u' s', hpush d u1 n s = Ok u' s' /\ reached s' a /\
    tab a u' (<[text a (fst n) := text a (snd n)]> m) /\ Permutation (nodes u') (n :: nodes u)) as Go.
  { clear s H. intros s u1 H G1 P1. assert (abs (text a) u1 = abs (text a) u) as A1.
    { unfold abs. apply prs_perm; [exact P1|apply G1]. }
    destruct (push_ok (text a) (thash a) (keq a) grow (keq_ok a) (thash_ok a) u1 (fst n) (snd n) G1) as (u' & E & G' & _ & _ & PP); [rewrite A1; exact A0|].
    destruct (hpush_ok s a u1 n u' H Fn E) as (s' & E' & H'). exists u', s'. split; [exact E'|]. split; [exact H'|].
    assert (Permutation (nodes u') (n :: nodes u)) as PN. { unfold nodes at 1. destruct n as [kn vn]. unfold ents in PP. rewrite PP. constructor. exact P1. }
    split; [|exact PN]. eapply tab_of; [exact G'|exact PN| | |].
    - unfold own. cbn [flat_map app]. fold (own (nodes u)). fold (owned u). apply list.NoDup_cons. split; [|apply list.NoDup_cons; split; [exact O2|apply T]].
      rewrite elem_of_cons. intros [?|?]; contradiction.
    - constructor; [exact Fn|apply T].
    - cbn. unfold entry at 1. cbn. f_equal. apply T. }
  destruct (grow (u_n u) (u_count u)) as [c|]; [|right; apply (Go s u H G); reflexivity].
  destruct (0 <? c) eqn:Ec; [|right; apply (Go s u H G); reflexivity].
  assert (exists u1 s1, hpush_all d (empty_umap c) (List.concat (u_buckets u)) s = Ok u1 s1 /\ reached s1 a /\ good a u1 /\ Permutation (nodes u1) (nodes u)) as (u1 & s1 & E1 & H1 & G1 & P1).
  { destruct (empty_good (V := positive) (text a) (thash a) grow c) as [Ge Ee]; [lia|].
    destruct (push_all_ok (text a) (thash a) (keq a) grow (keq_ok a) (thash_ok a) (nodes u) (empty_umap c) Ge) as (u1 & E1 & G1 & PP); [rewrite Ee, app_nil_r; apply G|].
    destruct (hpush_all_ok a (nodes u) s (empty_umap c) u1 H (tab_node _ _ _ _ T) E1) as (s1 & Es & H1). exists u1, s1. split; [exact Es|].
    split; [exact H1|]. split; [exact G1|]. rewrite Ee, app_nil_r in PP. exact PP. }
  destruct e; [right|right|left; split; reflexivity]; rewrite (bind_ok _ _ _ _ _ E1); apply (Go s1 u1 H1 G1 P1).
Qed.

(** Calls that do not fail. *)
Lemma call_ok o s a a' v : reached s a -> step o a = Some (SRet a' v) -> subject o = None -> exists s', call d o s = Ok tt s' /\ reached s' a'.
Proof.
  intros H Hs Hn. assert (runs (call d o) s (fun _ s' => reached s' a') (fun _ _ => False)) as R
    by (eapply runs_call_safe; try eassumption; intros; assumption).
  unfold runs in R. destruct (call d o s) as [[] s'|? ?| | |]; try contradiction. exists s'. split; [reflexivity|exact R].
Qed.
Lemma new_var_ok s a : reached s a -> exists x, new_var s = Ok x s /\ a !! x = None.
Proof.
  intros H. unfold new_var. eexists. split; [reflexivity|]. set (x := NestModel.free_slot _).
  assert (st_env s !! x = None) as E by apply NestSim.free_slot_new.
  destruct (a !! x) eqn:F; [|reflexivity]. exfalso. assert (live a x = true) as L by (unfold live, fresh_var; rewrite F; reflexivity).
  apply (live_iff d s a x Hwf H) in L as (o & Eo). congruence.
Qed.
Definition room (a : astate Z) (x : positive) : bool := match a !! x with Some (AVal r _) => r | _ => true end.
Lemma is_str_at a x l : is_str a x l -> a !! x = Some (AVal (room a x) (map Some l)).
Proof. intros (r & E). unfold room. rewrite E. reflexivity. Qed.
Lemma hnode_ok e mv s a k l : reached s a -> is_str a k l -> e <> LNode -> exists n s',
  hnode d e mv k s = Ok n s' /\ reached s' (<[snd n := AVal true []]> (<[fst n := AVal (room a k) (map Some l)]> (taken mv k a))) /\
  a !! fst n = None /\ a !! snd n = None /\ fst n <> snd n /\ fst n <> k /\ snd n <> k.
Proof.
  intros H Hk He. apply is_str_at in Hk. unfold hnode.
  assert (match e with LNode => throw BadAlloc | _ => let* kn := new_var in call d (if mv then CtorMove kn k else CtorCopy kn k) ;;;
    let* vn := new_var in call d (CtorDefault vn) ;;; ret (kn, vn) end = (let* kn := new_var in call d (if mv then CtorMove kn k else CtorCopy kn k) ;;;
    let* vn := new_var in call d (CtorDefault vn) ;;; ret (kn, vn))) as -> by (destruct e; [reflexivity|contradiction|reflexivity]).
  destruct (new_var_ok s a H) as (kn & E1 & F1). rewrite (bind_ok _ _ _ _ _ E1).
  assert (kn <> k) as N1 by congruence.
  assert (exists s2, call d (if mv then CtorMove kn k else CtorCopy kn k) s = Ok tt s2 /\ reached s2 (<[kn := AVal (room a k) (map Some l)]> (taken mv k a))) as (s2 & E2 & H2).
  { destruct mv; cbn [taken]; (eapply call_ok; [exact H| |reflexivity]); [apply move_step|apply copy_step]; assumption. }
  rewrite (bind_ok _ _ _ _ _ E2). destruct (new_var_ok s2 _ H2) as (vn & E3 & F3). rewrite (bind_ok _ _ _ _ _ E3).
  pose proof F3 as F0. apply lookup_insert_None in F3 as [F3 N3].
  assert (a !! vn = None /\ vn <> k) as [F4 N4].
  { unfold taken in F3. destruct mv; [apply lookup_insert_None in F3 as [? ?]; split; congruence|split; congruence]. }
  destruct (call_ok (CtorDefault vn) s2 _ _ _ H2 (default_step d _ vn F0) eq_refl) as (s4 & E4 & H4).
  rewrite (bind_ok _ _ _ _ _ E4). exists (kn, vn), s4. split; [reflexivity|]. split; [exact H4|]. cbn. split_and!; assumption.
Qed.
Lemma destroy_ok xs : forall s a, reached s a -> base.NoDup xs -> (forall x, x ∈ xs -> is_Some (a !! x)) ->
  exists s', destroy_all d xs s = Ok tt s' /\ reached s' (foldl (fun a x => delete x a) a xs).
Proof.
  induction xs as [|x xs IH]; intros s a H N F; cbn [destroy_all foldl].
  - exists s. split; [reflexivity|exact H].
  - apply list.NoDup_cons in N as [Nx N]. destruct (call_ok (Destroy x) s a _ _ H (destroy_step d a x (F x ltac:(left))) eq_refl) as (s1 & E1 & H1).
    rewrite (bind_ok _ _ _ _ _ E1). apply (IH s1 _ H1 N). intros y Hy. rewrite lookup_delete_ne by (intros ->; contradiction). apply F. right. exact Hy.
Qed.

(** Which changes matter to a table. *)
Lemma good_text a a' (u : table) : good a u -> (forall n, In n (nodes u) -> text a' (fst n) = text a (fst n)) -> good a' u.
Proof.
  intros [P L Pl D C] E. constructor; try assumption.
  - intros i b n Z I. unfold text_hash. rewrite E by (eapply bucket_nodes; eassumption). exact (Pl i b n Z I).
  - replace (ks (text a') (ents u)) with (ks (text a) (ents u)); [exact D|]. unfold ks. apply map_ext_in. intros n I. symmetry. apply E, I.
Qed.
Lemma tab_frame a a' u m : tab a u m -> (forall x l, x ∈ owned u -> is_str a x l -> is_str a' x l) -> tab a' u m.
Proof.
  intros T E. assert (forall n, In n (nodes u) -> text a' (fst n) = text a (fst n) /\ text a' (snd n) = text a (snd n)) as X.
  { intros n I. destruct (tab_is_node a u m n T I) as (_ & A & B). destruct (in_own _ _ I) as [O1 O2].
    split; apply text_str; apply E; assumption. }
  apply (tab_of a' u (nodes u)).
  - apply (good_text a); [eapply tab_good, T|]. intros n I. apply X, I.
  - reflexivity.
  - apply T.
  - apply Forall_forall. intros n I. destruct (X n I) as [X1 X2]. destruct (tab_is_node a u m n T I) as (Bn & A & B). destruct (in_own _ _ I) as [O1 O2].
    unfold is_node. rewrite X1, X2. split; [exact Bn|]. split; apply E; assumption.
  - rewrite (tab_map _ _ _ _ T). f_equal. apply map_ext_in. intros n I. destruct (X n I) as [X1 X2]. unfold entry. rewrite X1, X2. reflexivity.
Qed.
Lemma tab_same a a' u m : tab a u m -> (forall x, x ∈ owned u -> a' !! x = a !! x) -> tab a' u m.
Proof. intros T E. apply (tab_frame a); [exact T|]. intros x l I (r & A). exists r. rewrite E by exact I. exact A. Qed.
Lemma own_split (u : table) n : In n (nodes u) -> exists l, Permutation (nodes u) (n :: l) .
Proof. intros I. apply in_split in I as (l1 & l2 & ->). exists (l1 ++ l2). symmetry. apply Permutation_middle. Qed.
Lemma tab_set a a' u m n w : tab a u m -> In n (nodes u) -> (forall x, x ∈ owned u -> x <> snd n -> a' !! x = a !! x) -> is_str a' (snd n) w ->
  tab a' u (<[text a (fst n) := w]> m).
Proof.
  intros T I E W. destruct (own_split u n I) as (l & P). pose proof (tab_own _ _ _ _ T) as O. unfold owned in O. rewrite (own_perm _ _ P) in O.
  cbn in O. apply list.NoDup_cons in O as [O1 O2]. apply list.NoDup_cons in O2 as [O2 O3]. fold (own l) in *.
  apply not_elem_of_cons in O1 as [Ne O1].
  assert (forall x, x ∈ own l -> a' !! x = a !! x) as El.
  { intros x X. apply E; [unfold owned; rewrite (own_perm _ _ P); right; right; exact X|intros ->; contradiction]. }
  assert (a' !! fst n = a !! fst n) as En by (apply E; [apply in_own, I|exact Ne]).
  assert (forall x, a' !! x = a !! x -> text a' x = text a x) as Et by (intros x X; unfold text; rewrite X; reflexivity).
  assert (forall x v, a' !! x = a !! x -> is_str a x v -> is_str a' x v) as Es by (intros x v X (r & Y); exists r; rewrite X; exact Y).
  assert (forall n', In n' (nodes u) -> text a' (fst n') = text a (fst n')) as Ek.
  { intros n' I'. rewrite P in I'. destruct I' as [<-|I']; [apply Et, En|]. apply Et, El, in_own, I'. }
  apply (tab_of a' u (n :: l)).
  - apply (good_text a); [eapply tab_good, T|exact Ek].
  - exact P.
  - cbn. apply list.NoDup_cons. split; [rewrite not_elem_of_cons; split; assumption|]. apply list.NoDup_cons. split; assumption.
  - pose proof (tab_node _ _ _ _ T) as F. rewrite P in F. inversion F as [|? ? (B1 & B2 & B3) Fl]; subst. constructor.
    + unfold is_node. rewrite (Et _ En), (text_str _ _ _ W). split; [exact B1|]. split; [apply Es; assumption|exact W].
    + apply Forall_forall. intros n' I'. rewrite Forall_forall in Fl. destruct (Fl n' I') as (C1 & C2 & C3). destruct (in_own _ _ I') as [X1 X2].
      unfold is_node. rewrite (Et _ (El _ X1)), (Et _ (El _ X2)). split; [exact C1|]. split; apply Es; try assumption; apply El; assumption.
  - cbn. unfold entry at 1. rewrite (Et _ En), (text_str _ _ _ W). rewrite (tab_map _ _ _ _ T).
    transitivity (<[text a (fst n) := w]> (list_to_map (map (entry a) (n :: l)) : texts)).
    + f_equal. apply (list_to_map_proper (M := gmap (list Z))); fold (entry a); [rewrite entry_keys; apply T|apply Permutation_map, P].
    + cbn. rewrite insert_insert. f_equal. f_equal. apply map_ext_in. intros n' I'. destruct (in_own _ _ I') as [X1 X2]. unfold entry.
      rewrite (Et _ (El _ X1)), (Et _ (El _ X2)). reflexivity.
Qed.
Lemma others_lookup u a x : others u a !! x = if decide (x ∈ owned u) then None else a !! x.
Proof.
  unfold others. destruct (decide (x ∈ owned u)) as [I|I].
  - apply map_filter_lookup_None. right. intros y _ F. apply F, I.
  - destruct (a !! x) as [y|] eqn:E; [apply map_filter_lookup_Some; split; [exact E|exact I]|]. apply map_filter_lookup_None. left. exact E.
Qed.

(** The operations. *)
Lemma does_ok {A} (m : M (state Z) A) s s' a' v (P : A -> astate Z -> Prop) E : m s = Ok v s' -> reached s' a' -> P v a' -> does d m s P E.
Proof. intros Hm' H HP. unfold does. rewrite Hm'. exists a'. split; [exact H|]. split; [apply (reached_shows d), H; exact Hwf|exact HP]. Qed.
Lemma does_oom {A} (m : M (state Z) A) s s' a' (P : A -> astate Z -> Prop) (E : astate Z -> Prop) : m s = Exn BadAlloc s' -> reached s' a' -> E a' -> does d m s P E.
Proof. intros Hm' H HP. unfold does. rewrite Hm'. split; [reflexivity|]. exists a'. split; [exact H|]. split; [apply (reached_shows d), H; exact Hwf|exact HP]. Qed.
Lemma owned_live a u m x : tab a u m -> x ∈ owned u -> is_Some (a !! x).
Proof.
  intros T I. unfold owned, own in I. apply elem_of_list_In, in_flat_map in I as (n & I & X). destruct (tab_is_node a u m n T I) as (_ & (r1 & A) & (r2 & B)).
  cbn in X. destruct X as [<-|[<-|[]]]; eauto.
Qed.
Lemma hindex_ok e mv s a u m k l : reached s a -> tab a u m -> is_str a k l -> bytes l -> (mv = true -> k ∉ owned u) ->
  (e <> LNone /\ m !! l = None /\ exists s', hindex d mdiff grow e mv u k s = Exn BadAlloc s' /\ reached s' (taken (lost e mv) k a)) \/
  (exists n s', m !! l = Some (text a (snd n)) /\ hindex d mdiff grow e mv u k s = Ok (n, u) s' /\ reached s' a /\ In n (nodes u) /\ text a (fst n) = l) \/
  (exists n u' s', let a' := <[snd n := AVal true []]> (<[fst n := AVal (room a k) (map Some l)]> (taken mv k a)) in
    m !! l = None /\ hindex d mdiff grow e mv u k s = Ok (n, u') s' /\ reached s' a' /\ tab a' u' (<[l := []]> m) /\
    Permutation (nodes u') (n :: nodes u) /\ text a' (fst n) = l /\
    a !! fst n = None /\ a !! snd n = None /\ fst n <> snd n).
Proof.
  intros H T Hk Bl Ho. destruct (hfind_ok s a u m k l H T Hk Bl) as (r & s1 & E1 & H1 & P). unfold hindex. rewrite (bind_ok _ _ _ _ _ E1).
  destruct r as [n|].
  { destruct P as (I & Ek & Ev). right. left. exists n, s1. split; [exact Ev|]. split; [reflexivity|]. split; [exact H1|]. split; [exact I|exact Ek]. }
  assert (e = LNode \/ e <> LNode) as [->|Ne] by (destruct e; auto; right; discriminate).
  { left. split; [discriminate|]. split; [exact P|]. exists s1. split; [reflexivity|exact H1]. }
  destruct (hnode_ok e mv s1 a k l H1 Hk Ne) as (n & s2 & E2 & H2 & F1 & F2 & N & K1 & K2). rewrite (bind_ok _ _ _ _ _ E2).
  set (a' := <[snd n := AVal true []]> (<[fst n := AVal (room a k) (map Some l)]> (taken mv k a))) in *.
  assert (fst n ∉ owned u) as O1 by (intros O; destruct (owned_live a u m _ T O); congruence).
  assert (snd n ∉ owned u) as O2 by (intros O; destruct (owned_live a u m _ T O); congruence).
  assert (tab a' u m) as T'.
  { apply (tab_same a); [exact T|]. intros x X. unfold a'. rewrite !lookup_insert_ne by (intros <-; contradiction).
    unfold taken. destruct mv; [|reflexivity]. apply lookup_insert_ne. intros <-. apply Ho; [reflexivity|exact X]. }
  assert (is_str a' (fst n) l) as S1. { exists (room a k). unfold a'. rewrite lookup_insert_ne by congruence. apply lookup_insert. }
  assert (is_str a' (snd n) []) as S2. { exists true. unfold a'. apply lookup_insert. }
  assert (is_node a' n) as Nn. { unfold is_node. rewrite (text_str _ _ _ S1), (text_str _ _ _ S2). auto. }
  destruct (hlink_ok e s2 a' u m n H2 T' Nn) as [[-> El]|(u' & s3 & El & H3 & T3 & P3)]; try assumption.
  { rewrite (text_str _ _ _ S1). exact P. }
  - left. split; [discriminate|]. split; [exact P|]. unfold unwind at 1.
    destruct (destroy_ok [snd n; fst n] s2 a' H2) as (s3 & E3 & H3).
    { apply list.NoDup_cons. split; [rewrite elem_of_list_singleton; congruence|apply NoDup_singleton]. }
    { intros x X. apply elem_of_list_In in X. cbn in X. destruct S1 as (r1 & S1), S2 as (r2 & S2). destruct X as [<-|[<-|[]]]; eauto. }
    exists s3. unfold bind. rewrite El. rewrite E3. split; [reflexivity|]. cbn in H3. unfold a' in H3.
    rewrite delete_insert in H3; [rewrite delete_insert in H3; [exact H3|]|].
    + unfold taken. destruct mv; [rewrite lookup_insert_ne by congruence|]; exact F1.
    + rewrite lookup_insert_ne by exact N. unfold taken. destruct mv; [rewrite lookup_insert_ne by congruence|]; exact F2.
  - right. right. exists n, u', s3. cbn zeta. fold a'. split; [exact P|]. split.
    { unfold unwind, bind. rewrite El. reflexivity. }
    split; [exact H3|]. rewrite (text_str _ _ _ S1), (text_str _ _ _ S2) in T3. split; [exact T3|]. split; [exact P3|]. split; [apply text_str, S1|].
    split; [exact F1|]. split; [exact F2|exact N].
Qed.
Lemma assign_ok s a x y w vx (mv : bool) : reached s a -> is_str a y w -> a !! x = Some vx -> x <> y ->
  exists s', call d (if mv then AssignMove x y else AssignCopy x y) s = Ok tt s' /\ reached s' (<[x := AVal (room a y) (map Some w)]> (taken mv y a)).
Proof.
  intros H Hy Hx N. apply is_str_at in Hy. destruct mv; cbn [taken]; (eapply call_ok; [exact H| |reflexivity]).
  - eapply assign_move_step; eassumption.
  - unfold RcaMeet.step. cbn [spec_step]. unfold holds. rewrite Hy. unfold live, fresh_var. rewrite Hx. reflexivity.
Qed.
Lemma assign_self s a x w : reached s a -> is_str a x w -> exists s', call d (AssignCopy x x) s = Ok tt s' /\ reached s' a.
Proof.
  intros H Hy. apply is_str_at in Hy. eapply call_ok; [exact H| |reflexivity].
  unfold RcaMeet.step. cbn [spec_step]. unfold holds. rewrite Hy. unfold live, fresh_var. rewrite Hy. cbn. unfold put. rewrite insert_id by exact Hy. reflexivity.
Qed.
Lemma hassign_ok e mk mv s a u m k l v w : reached s a -> tab a u m -> is_str a k l -> bytes l -> is_str a v w ->
  (mk = true -> k ∉ owned u /\ k <> v) -> (mv = true -> v ∉ owned u) ->
  does d (hassign d mdiff grow e mk mv u k v) s (assigned d mk mv a u m k v l w) (fun a' => e <> LNone /\ m !! l = None /\ a' = taken (lost e mk) k a).
Proof.
  intros H T Hk Bl Hv Ok Ov. assert (mk = true -> k ∉ owned u) as Ok1 by (intros X; apply Ok, X).
  unfold assigned. destruct (hindex_ok e mk s a u m k l H T Hk Bl Ok1) as [(Ne & A & s1 & E1 & H1)|[(n & s1 & A & E1 & H1 & I & Tk)|(n & u' & s1 & A & E1 & H1 & T1 & P & Tk & F1 & F2 & N)]].
  - apply (does_oom _ s s1 (taken (lost e mk) k a)); [unfold hassign; apply bind_exn, E1|exact H1|auto].
  - rewrite A. destruct (in_own _ _ I) as [_ Os]. destruct (tab_is_node a u m n T I) as (_ & _ & (rs & Sn)).
    destruct (decide (snd n = v)) as [<-|Nv].
    + destruct mv; [exfalso; apply (Ov eq_refl), Os|]. destruct (assign_self s1 a (snd n) w H1 Hv) as (s2 & E2 & H2).
      apply (does_ok _ s s2 a u); [|exact H2|].
      * unfold hassign. rewrite (bind_ok _ _ _ _ _ E1). cbn [fst snd]. rewrite (bind_ok _ _ _ _ _ E2). reflexivity.
      * cbn [taken]. split; [|reflexivity]. rewrite <- Tk. apply (tab_set a); [exact T|exact I|reflexivity|exact Hv].
    + destruct (assign_ok s1 a (snd n) v w _ mv H1 Hv Sn Nv) as (s2 & E2 & H2).
      apply (does_ok _ s s2 _ u) with (2 := H2).
      * unfold hassign. rewrite (bind_ok _ _ _ _ _ E1). cbn [fst snd]. rewrite (bind_ok _ _ _ _ _ E2). reflexivity.
      * split.
        -- rewrite <- Tk. apply (tab_set a); [exact T|exact I| |exists (room a v); apply lookup_insert].
           intros x X Nx. rewrite lookup_insert_ne by congruence. unfold taken. destruct mv; [|reflexivity]. apply lookup_insert_ne.
           intros <-. apply (Ov eq_refl), X.
        -- apply map_eq. intros x. rewrite !others_lookup. destruct (decide (x ∈ owned u)); [reflexivity|]. apply lookup_insert_ne. intros <-. contradiction.
  - rewrite A. cbn zeta in *. set (a1 := <[snd n := AVal true []]> (<[fst n := AVal (room a k) (map Some l)]> (taken mk k a))) in *.
    assert (v <> fst n /\ v <> snd n) as [V1 V2]. { destruct Hv as (rv & Hv). split; congruence. }
    assert (k <> fst n /\ k <> snd n) as [K1 K2]. { destruct Hk as (rk & Hk). split; congruence. }
    assert (a1 !! v = a !! v) as Ev.
    { unfold a1. rewrite !lookup_insert_ne by congruence. unfold taken. destruct mk; [|reflexivity]. apply lookup_insert_ne. apply Ok. reflexivity. }
    assert (is_str a1 v w) as Hv1. { destruct Hv as (rv & Hv). exists rv. rewrite Ev. exact Hv. }
    assert (a1 !! snd n = Some (AVal true [])) as Hs by (unfold a1; apply lookup_insert).
    destruct (assign_ok s1 a1 (snd n) v w _ mv H1 Hv1 Hs ltac:(congruence)) as (s2 & E2 & H2).
    apply (does_ok _ s s2 _ u') with (2 := H2).
    + unfold hassign. rewrite (bind_ok _ _ _ _ _ E1). cbn [fst snd]. rewrite (bind_ok _ _ _ _ _ E2). reflexivity.
    + assert (In n (nodes u')) as I by (rewrite P; left; reflexivity).
      assert (forall x, x ∈ owned u' <-> x = fst n \/ x = snd n \/ x ∈ owned u) as Ou.
      { intros x. unfold owned. rewrite (own_perm _ _ P). cbn. rewrite !elem_of_cons. reflexivity. }
      split.
      * replace (<[l := w]> m) with (<[text a1 (fst n) := w]> (<[l := []]> m)) by (rewrite Tk; apply insert_insert).
        apply (tab_set a1); [exact T1|exact I| |exists (room a1 v); apply lookup_insert].
        intros x X Nx. rewrite lookup_insert_ne by congruence. unfold taken at 1. destruct mv; [|reflexivity]. apply lookup_insert_ne.
        intros <-. apply Ou in X as [X|[X|X]]; try congruence. apply (Ov eq_refl), X.
      * apply map_eq. intros x. rewrite !others_lookup. destruct (decide (x ∈ owned u')) as [X|X].
        -- apply Ou in X. destruct (decide (x ∈ owned u)) as [Y|Y]; [reflexivity|].
           assert (x <> k /\ x <> v /\ a !! x = None) as (X1 & X2 & X3) by (destruct X as [->|[->|X]]; [split_and!; congruence|split_and!; congruence|contradiction]).
           unfold taken. destruct mk, mv; rewrite ?lookup_insert_ne by congruence; symmetry; exact X3.
        -- assert (x <> fst n /\ x <> snd n /\ x ∉ owned u) as (X1 & X2 & X3) by (split_and!; intros Y; apply X, Ou; auto).
           destruct (decide (x ∈ owned u)) as [Y|_]; [contradiction|]. rewrite lookup_insert_ne by congruence. unfold taken.
           destruct mk, mv; cbn [taken]; unfold a1; cbn [taken]; clear -X1 X2 k v; destruct (decide (x = k)), (decide (x = v)); subst; simplify_map_eq; reflexivity.
Qed.
Lemma hinsert_ok e mk mv s a u m k l v w : reached s a -> tab a u m -> is_str a k l -> bytes l -> is_str a v w ->
  (mk = true -> k ∉ owned u /\ k <> v) -> (mv = true -> v ∉ owned u) ->
  does d (hinsert d mdiff grow e mk mv u k v) s
    (fun r a' => match m !! l with Some _ => r = (false, u) /\ a' = a | None => fst r = true /\ assigned d mk mv a u m k v l w (snd r) a' end)
    (fun a' => e <> LNone /\ m !! l = None /\ a' = taken (lost e mk) k a).
Proof.
  intros H T Hk Bl Hv Ok Ov. destruct (hcontains_ok s a u m k l H T Hk Bl) as (s1 & E1 & H1).
  pose proof (hassign_ok e mk mv s1 a u m k l v w H1 T Hk Bl Hv Ok Ov) as D. unfold assigned in *.
  destruct (m !! l) as [w0|] eqn:A.
  - apply (does_ok _ s s1 a (false, u)); [|exact H1|auto]. unfold hinsert. rewrite (bind_ok _ _ _ _ _ E1). reflexivity.
  - assert (hinsert d mdiff grow e mk mv u k v s = (let* u' := hassign d mdiff grow e mk mv u k v in ret (true, u')) s1) as E.
    { unfold hinsert. rewrite (bind_ok _ _ _ _ _ E1). reflexivity. }
    unfold does in *. rewrite E. unfold bind. destruct (hassign d mdiff grow e mk mv u k v s1) as [u' s2|x s2| | |]; try contradiction; exact D || (destruct D as (a' & D1 & D2 & D3); exists a'; auto).
Qed.

Lemma hdrop_at b1 n b2 : (forall n', In n' b1 -> fst n' <> fst n) -> hdrop (b1 ++ n :: b2) n = b1 ++ b2.
Proof.
  induction b1 as [|n' b1 IH]; intros F; cbn [hdrop app].
  - rewrite Pos.eqb_refl. reflexivity.
  - destruct (Pos.eqb_spec (fst n') (fst n)) as [E|_]; [exfalso; exact (F n' (or_introl eq_refl) E)|]. f_equal. apply IH. intros x I. apply F. right. exact I.
Qed.
Lemma own_dup l : base.NoDup (own l) -> forall n n', In n l -> In n' l -> n <> n' -> fst n <> fst n' /\ fst n <> snd n' /\ snd n <> fst n' /\ snd n <> snd n'.
Proof.
  induction l as [|n0 l IH]; intros N n n' I I' D; [destruct I|]. cbn in N. apply list.NoDup_cons in N as [N1 N]. apply list.NoDup_cons in N as [N2 N].
  fold (own l) in *. apply not_elem_of_cons in N1 as [_ N1]. destruct I as [->|I], I' as [->|I']; [contradiction| | |exact (IH N n n' I I' D)].
  - destruct (in_own _ _ I'). split_and!; intros E; rewrite ?E in *; contradiction.
  - destruct (in_own _ _ I). split_and!; intros E; rewrite ?E in *; contradiction.
Qed.
Lemma hremove_ok s a u m k l : reached s a -> tab a u m -> is_str a k l -> bytes l ->
  does d (hremove d mdiff u k) s
    (fun r a' => fst r = bool_decide (is_Some (m !! l)) /\ tab a' (snd r) (delete l m) /\ others (snd r) a' = others u a) (fun _ => False).
Proof.
  intros H T Hk Bl. unfold hremove. destruct (isEmpty u) eqn:Em.
  - unfold isEmpty in Em. rewrite (tab_count _ _ _ _ T) in Em. apply Z.eqb_eq in Em. apply zlen_0_nil in Em.
    assert (m = ∅) as ->. { rewrite (tab_map _ _ _ _ T), Em. reflexivity. }
    apply (does_ok _ s s a (false, u)); [reflexivity|exact H|]. rewrite lookup_empty, delete_empty. auto.
  - destruct (lookup_core s a u m k l H T Hk Bl) as (s1 & b & E1 & H1 & B & Sc & P).
    assert (forall A (f : list (positive * positive) -> M (state Z) A), (let* h := key_hash d k in let* b := hbucket u h in f b) s = f b s1) as Hb.
    { intros A f. rewrite (bind_ok _ _ _ _ _ E1). unfold hbucket. rewrite B. reflexivity. }
    unfold does. rewrite (bind_ok _ _ _ _ _ E1). unfold hbucket. rewrite B. unfold ret at 1. unfold bind at 1. rewrite (bind_ok _ _ _ _ _ Sc).
    destruct (scan (keq a) b k) as [n|] eqn:En.
    2:{ exists a. split; [exact H1|]. split; [apply (reached_shows d), H1; exact Hwf|]. cbn. rewrite P. split; [reflexivity|]. split; [|reflexivity].
        rewrite delete_notin by exact P. exact T. }
    destruct P as (Ib & Tn & Mn). pose proof (bucket_nodes u _ b n B Ib) as In0. destruct (tab_is_node a u m n T In0) as (Bn & (r1 & S1) & (r2 & S2)).
    pose proof (tab_own _ _ _ _ T) as O. pose proof (tab_good a u m T) as G.
    destruct (scan_some (text a) (keq a) (keq_ok a) _ _ _ En) as [C (b1 & b2 & Eb & _ & Ed)].
    destruct (home (text a) (thash a) (keq a) grow (keq_ok a) (thash_ok a) u k G) as (L & b' & R & EL & ZL & B' & Pb & _ & PU).
    apply bucket_znth in B'. unfold bucket_of in B', Pb. rewrite B in B'. injection B' as <-.
    destruct (erase_ok (text a) (thash a) (keq a) grow (keq_ok a) (thash_ok a) u k G) as (r & Er & Gr & _).
    unfold u_erase, bucket, bucket_of in Er. unfold bind in Er. rewrite B in Er. unfold ret in Er. rewrite En in Er. injection Er as <-. cbn [snd] in Gr.
    rewrite Ed in Gr. set (u' := put_bucket u (thash a k mod u_n u) (b1 ++ b2) (u_count u - 1)) in *.
    assert (Permutation (nodes u) (n :: nodes u')) as PN.
    { unfold u'. rewrite Pb. unfold nodes. rewrite EL. cbn [u_buckets]. rewrite !concat_app. cbn [List.concat]. rewrite Eb, <- !app_assoc. cbn [app].
      rewrite (app_assoc _ b1). rewrite <- Permutation_middle, <- app_assoc. reflexivity. }
    assert (hdrop b n = b1 ++ b2) as Hd.
    { rewrite Eb. apply hdrop_at. intros n' I'. unfold owned in O.
      assert (base.NoDup (own (n :: nodes u'))) as O' by (rewrite <- (own_perm _ _ PN); exact O). rewrite own_cons in O'. apply list.NoDup_cons in O' as [O' _].
      intros E. apply O'. right. rewrite <- E. apply in_own.
      unfold u', nodes. rewrite Pb. cbn [u_buckets]. rewrite concat_app. cbn [List.concat].
      rewrite !in_app_iff. auto. }
    assert (fst n <> snd n) as Nn.
    { unfold owned in O. rewrite (own_perm _ _ PN), own_cons in O. apply list.NoDup_cons in O as [O _]. apply not_elem_of_cons in O. apply O. }
    destruct (destroy_ok [snd n; fst n] s1 a H1) as (s2 & E2 & H2).
    { apply list.NoDup_cons. split; [rewrite elem_of_list_singleton; congruence|apply NoDup_singleton]. }
    { intros x X. apply elem_of_list_In in X. cbn in X. destruct X as [<-|[<-|[]]]; eauto. }
    rewrite (bind_ok _ _ _ _ _ E2). cbn [foldl] in H2. set (a2 := delete (fst n) (delete (snd n) a)) in *. unfold ret. exists a2. split; [exact H2|].
    split; [apply (reached_shows d), H2; exact Hwf|]. cbn [fst snd]. rewrite Hd. fold u'. split; [rewrite Mn; reflexivity|].
    unfold owned in O. rewrite (own_perm _ _ PN), own_cons in O. apply list.NoDup_cons in O as [O1 O]. apply list.NoDup_cons in O as [O2 O3].
    fold (own (nodes u')) in *. apply not_elem_of_cons in O1 as [_ O1].
    assert (forall x, x ∈ owned u' -> a2 !! x = a !! x) as Ex.
    { intros x X. unfold a2. rewrite !lookup_delete_ne; [reflexivity| |]; intros <-; contradiction. }
    split.
    + assert (tab a u' (delete l m)) as T'; [|apply (tab_same a); assumption]. apply (tab_of a u' (nodes u')); [exact Gr|reflexivity|exact O3| |].
      * pose proof (tab_node _ _ _ _ T) as F. rewrite PN in F. inversion F; assumption.
      * assert (m = list_to_map (map (entry a) (n :: nodes u'))) as Em'.
        { rewrite (tab_map _ _ _ _ T). apply (list_to_map_proper (M := gmap (list Z))); fold (entry a); [rewrite entry_keys; apply T|apply Permutation_map, PN]. }
        rewrite Em'. cbn [map list_to_map]. unfold entry at 1. cbn. rewrite Tn. apply delete_insert.
        apply not_elem_of_list_to_map_1. rewrite entry_keys. pose proof (tab_keys _ _ _ _ T) as K. fold (keys a (nodes u)) in K. unfold keys in K.
        rewrite PN in K. cbn in K. apply list.NoDup_cons in K as [K _]. rewrite Tn in K. exact K.
    + apply map_eq. intros x. rewrite !others_lookup. assert (x ∈ owned u <-> x = fst n \/ x = snd n \/ x ∈ owned u') as Ou.
      { unfold owned. rewrite (own_perm _ _ PN), own_cons, !elem_of_cons. reflexivity. }
      destruct (decide (x ∈ owned u)) as [X|X], (decide (x ∈ owned u')) as [Y|Y]; try reflexivity.
      * unfold a2. apply Ou in X as [->|[->|X]]; [apply lookup_delete|rewrite lookup_delete_ne by exact Nn; apply lookup_delete|contradiction].
      * exfalso. apply X, Ou. auto.
      * unfold a2. rewrite !lookup_delete_ne; [reflexivity| |]; intros <-; apply X, Ou; auto.
Qed.
Lemma hget_ok s a u m k l r : reached s a -> tab a u m -> is_str a k l -> bytes l -> a !! r = None ->
  does d (hget d mdiff r u k) s (fun _ a' => exists b, a' = <[r := AVal b (map Some (default [] (m !! l)))]> a /\ tab a' u m) (fun _ => False).
Proof.
  intros H T Hk Bl Fr. destruct (hfind_ok s a u m k l H T Hk Bl) as (n & s1 & E1 & H1 & P).
  assert (forall v, tab (<[r := v]> a) u m) as Tr.
  { intros v. apply (tab_same a); [exact T|]. intros x X. apply lookup_insert_ne. intros <-. destruct (owned_live a u m r T X). congruence. }
  destruct n as [n|].
  - destruct P as (I & Tn & ->). destruct (tab_is_node a u m n T I) as (_ & _ & S). apply is_str_at in S.
    destruct (call_ok (CtorCopy r (snd n)) s1 a _ _ H1 (copy_step d a r (snd n) _ _ S Fr) eq_refl) as (s2 & E2 & H2).
    apply (does_ok _ s s2 _ tt) with (2 := H2); [unfold hget; rewrite (bind_ok _ _ _ _ _ E1); exact E2|]. eexists. split; [reflexivity|apply Tr].
  - rewrite P. destruct (call_ok (CtorDefault r) s1 a _ _ H1 (default_step d a r Fr) eq_refl) as (s2 & E2 & H2).
    apply (does_ok _ s s2 _ tt) with (2 := H2); [unfold hget; rewrite (bind_ok _ _ _ _ _ E1); exact E2|]. exists true. split; [reflexivity|apply Tr].
Qed.
Lemma hfree_ok l : forall s a, reached s a -> base.NoDup (own l) -> (forall x, x ∈ own l -> is_Some (a !! x)) ->
  exists s' a', hfree d l s = Ok tt s' /\ reached s' a' /\ forall x, a' !! x = if decide (x ∈ own l) then None else a !! x.
Proof.
  induction l as [|n l IH]; intros s a H N F; cbn [hfree].
  - exists s, a. split; [reflexivity|]. split; [exact H|]. intros x. destruct (decide (x ∈ own [])) as [X|_]; [inversion X|reflexivity].
  - cbn in N. apply list.NoDup_cons in N as [N1 N]. apply list.NoDup_cons in N as [N2 N]. fold (own l) in *.
    apply not_elem_of_cons in N1 as [Nn N1].
    destruct (destroy_ok [snd n; fst n] s a H) as (s1 & E1 & H1).
    { apply list.NoDup_cons. split; [rewrite elem_of_list_singleton; congruence|apply NoDup_singleton]. }
    { intros x X. apply F. cbn. apply elem_of_list_In in X. cbn in X. rewrite elem_of_cons, elem_of_cons. destruct X as [<-|[<-|[]]]; auto. }
    cbn [foldl] in H1. destruct (IH s1 _ H1 N) as (s2 & a2 & E2 & H2 & X2).
    { intros x X. rewrite !lookup_delete_ne; [|intros <-; contradiction|intros <-; contradiction]. apply F. cbn. rewrite !elem_of_cons. auto. }
    exists s2, a2. split; [rewrite (bind_ok _ _ _ _ _ E1); exact E2|]. split; [exact H2|]. intros x. rewrite X2.
    destruct (decide (x ∈ own l)) as [X|X], (decide (x ∈ own (n :: l))) as [Y|Y]; try reflexivity.
    + exfalso. apply Y. cbn. rewrite !elem_of_cons. auto.
    + cbn in Y. rewrite !elem_of_cons in Y. destruct Y as [->|[->|Y]]; [apply lookup_delete|rewrite lookup_delete_ne by exact Nn; apply lookup_delete|contradiction].
    + cbn in Y. rewrite !elem_of_cons in Y. rewrite !lookup_delete_ne; [reflexivity| |]; intros <-; apply Y; auto.
Qed.
Lemma hdestroy_ok s a u m : reached s a -> tab a u m -> does d (hdestroy d u) s (fun _ a' => a' = others u a) (fun _ => False).
Proof.
  intros H T. destruct (hfree_ok (nodes u) s a H (tab_own _ _ _ _ T)) as (s' & a' & E & H' & X).
  { intros x I. eapply owned_live; [exact T|exact I]. }
  apply (does_ok _ s s' a' tt); [exact E|exact H'|]. apply map_eq. intros x. rewrite X, others_lookup. reflexivity.
Qed.
Lemma hdestroy_heap s a u m : reached s a -> tab a u m -> does d (hdestroy d u) s (fun _ a' => a' = others u a) (fun _ => False) /\
  (others u a = ∅ -> exists s', hdestroy d u s = Ok tt s' /\ st_heap s' = ∅).
Proof.
  intros H T. pose proof (hdestroy_ok s a u m H T) as D. split; [exact D|]. intros E. unfold does in D.
  destruct (hdestroy d u s) as [[] s'|? ?| | |]; try contradiction; [|destruct D as (_ & ? & _ & _ & [])].
  destruct D as (a' & H' & _ & ->). exists s'. split; [reflexivity|]. rewrite E in H'. exact (no_leak d s' Hwf H').
Qed.
Lemma empty_tab a n : 0 < n -> tab a (empty_umap n) ∅ /\ nodes (empty_umap n) = [].
Proof.
  intros Hn. destruct (empty_good (V := positive) (text a) (thash a) grow n Hn) as [G E]. split; [|exact E].
  apply (tab_of a _ []); [exact G|fold (ents (empty_umap n : table)) in E; unfold nodes; unfold ents in E; rewrite E; reflexivity|constructor|constructor|reflexivity].
Qed.
Lemma hclear_ok s a u m : reached s a -> tab a u m -> does d (hclear d u) s (fun u' a' => tab a' u' ∅ /\ nodes u' = [] /\ a' = others u a) (fun _ => False).
Proof.
  intros H T. pose proof (hdestroy_ok s a u m H T) as D. unfold does in *. unfold hclear, bind. destruct (hdestroy d u s) as [[] s1|? ?| | |]; try contradiction.
  - destruct D as (a' & H1 & S1 & ->). unfold ret. exists (others u a). split; [exact H1|]. split; [exact S1|].
    destruct (empty_tab (others u a) (u_n u) (tab_pos _ _ _ _ T)) as [T' N']. auto.
  - destruct D as (_ & ? & _ & _ & []).
Qed.
Lemma hcopy_nodes_ok fails l : forall c s a, reached s a -> Forall (is_node a) l ->
  (exists s', hcopy_nodes d fails c l s = Exn BadAlloc s' /\ reached s' a /\ exists c', fails c' = true) \/
  exists l' s' a', hcopy_nodes d fails c l s = Ok l' s' /\ reached s' a' /\ base.NoDup (own l') /\ (forall x, x ∈ own l' -> a !! x = None) /\
    (forall x, x ∉ own l' -> a' !! x = a !! x) /\ Forall (is_node a') l' /\ map (entry a') l' = map (entry a) l.
Proof.
  induction l as [|n l IH]; intros c s a H F; cbn [hcopy_nodes].
  - right. exists [], s, a. split; [reflexivity|]. split; [exact H|]. split; [constructor|]. split; [intros x X; inversion X|]. split; [reflexivity|]. split; [constructor|reflexivity].
  - destruct (fails c) eqn:Ef; [left; exists s; split; [reflexivity|]; split; [exact H|]; exists c; exact Ef|].
    inversion F as [|? ? (Bn & S1 & S2) Fl]; subst.
    destruct (new_var_ok s a H) as (kn & E1 & F1). rewrite (bind_ok _ _ _ _ _ E1).
    pose proof (is_str_at _ _ _ S1) as A1. destruct (call_ok (CtorCopy kn (fst n)) s a _ _ H (copy_step d a kn (fst n) _ _ A1 F1) eq_refl) as (s2 & E2 & H2).
    rewrite (bind_ok _ _ _ _ _ E2). set (a1 := <[kn := AVal (room a (fst n)) (map Some (text a (fst n)))]> a) in *.
    destruct (new_var_ok s2 a1 H2) as (vn & E3 & F3). rewrite (bind_ok _ _ _ _ _ E3).
    assert (a !! vn = None /\ kn <> vn) as [F4 Nv]. { unfold a1 in F3. apply lookup_insert_None in F3 as [? ?]. auto. }
    assert (is_str a1 (snd n) (text a (snd n))) as S2'. { destruct S2 as (r & S2). exists r. unfold a1. rewrite lookup_insert_ne by congruence. exact S2. }
    pose proof (is_str_at _ _ _ S2') as A2. destruct (call_ok (CtorCopy vn (snd n)) s2 a1 _ _ H2 (copy_step d a1 vn (snd n) _ _ A2 F3) eq_refl) as (s4 & E4 & H4).
    rewrite (bind_ok _ _ _ _ _ E4). set (a2 := <[vn := AVal (room a1 (snd n)) (map Some (text a (snd n)))]> a1) in *.
    assert (forall x, is_Some (a !! x) -> a2 !! x = a !! x) as Ex. { intros x (v & X). unfold a2, a1. rewrite !lookup_insert_ne by congruence. reflexivity. }
    assert (forall n', is_node a n' -> is_node a2 n' /\ entry a2 n' = entry a n') as En.
    { intros n' (X1 & (r1 & X2) & (r2 & X3)). assert (a2 !! fst n' = a !! fst n') as Y1 by (apply Ex; eauto). assert (a2 !! snd n' = a !! snd n') as Y2 by (apply Ex; eauto).
      unfold is_node, entry, text. rewrite Y1, Y2. split; [|reflexivity]. split; [exact X1|]. unfold is_str. rewrite Y1, Y2. split; [exists r1; exact X2|exists r2; exact X3]. }
    destruct (IH (S c) s4 a2 H4) as [(s5 & E5 & H5 & Ff)|(l' & s5 & a5 & E5 & H5 & N5 & D5 & X5 & Fl5 & M5)].
    { apply Forall_forall. intros n' I'. apply En. rewrite Forall_forall in Fl. apply Fl, I'. }
    + left. destruct (destroy_ok [vn; kn] s5 a2 H5) as (s6 & E6 & H6).
      { apply list.NoDup_cons. split; [rewrite elem_of_list_singleton; congruence|apply NoDup_singleton]. }
      { intros x X. apply elem_of_list_In in X. cbn in X. destruct X as [<-|[<-|[]]]; [unfold a2; rewrite lookup_insert; eauto|unfold a2; rewrite lookup_insert_ne by congruence; unfold a1; rewrite lookup_insert; eauto]. }
      exists s6. split; [unfold unwind, bind; rewrite E5, E6; reflexivity|]. split; [|exact Ff]. cbn in H6. unfold a2 in H6. rewrite delete_insert in H6 by exact F3.
      unfold a1 in H6. rewrite delete_insert in H6 by exact F1. exact H6.
    + right. exists ((kn, vn) :: l'), s5, a5. split; [unfold unwind, bind; rewrite E5; reflexivity|]. split; [exact H5|].
      assert (a2 !! kn = Some (AVal (room a (fst n)) (map Some (text a (fst n))))) as Ak by (unfold a2; rewrite lookup_insert_ne by congruence; unfold a1; apply lookup_insert).
      assert (a2 !! vn = Some (AVal (room a1 (snd n)) (map Some (text a (snd n))))) as Av by (unfold a2; apply lookup_insert).
      assert (kn ∉ own l') as Ok by (intros X; apply D5 in X; congruence). assert (vn ∉ own l') as Ov by (intros X; apply D5 in X; congruence).
      assert (is_str a5 kn (text a (fst n))) as Sk by (eexists; rewrite X5 by exact Ok; exact Ak).
      assert (is_str a5 vn (text a (snd n))) as Sv by (eexists; rewrite X5 by exact Ov; exact Av).
      cbn [own flat_map app fst snd]. fold (own l').
      split; [apply list.NoDup_cons; split; [rewrite not_elem_of_cons; auto|]; apply list.NoDup_cons; auto|].
      split; [|split; [|split]].
      * intros x X. rewrite !elem_of_cons in X. destruct X as [->|[->|X]]; [exact F1|exact F4|]. apply D5 in X. unfold a2 in X. apply lookup_insert_None in X as [X _].
        unfold a1 in X. apply lookup_insert_None in X as [X _]. exact X.
      * intros x X. rewrite !elem_of_cons in X. rewrite X5 by tauto. unfold a2, a1. rewrite !lookup_insert_ne; [reflexivity|intros <-; tauto|intros <-; tauto].
      * constructor; [|exact Fl5]. unfold is_node. cbn [fst snd]. rewrite (text_str _ _ _ Sk), (text_str _ _ _ Sv). auto.
      * cbn [map]. rewrite M5. f_equal; [unfold entry; cbn [fst snd]; rewrite (text_str _ _ _ Sk), (text_str _ _ _ Sv); reflexivity|].
        apply map_ext_in. intros n' I'. apply En. rewrite Forall_forall in Fl. apply Fl, I'.
Qed.
Lemma hcopy_ok fails s a u m : reached s a -> tab a u m ->
  does d (hcopy d fails u) s (fun u' a' => tab a' u' m /\ tab a' u m /\ others u' a' = a) (fun a' => a' = a /\ exists c, fails c = true).
Proof.
  intros H T. unfold hcopy. destruct (fails O) eqn:Ef; [apply (does_oom _ s s a); [reflexivity|exact H|split; [reflexivity|exists O; exact Ef]]|].
  destruct (hcopy_nodes_ok fails (nodes u) 1%nat s a H (tab_node _ _ _ _ T)) as [(s1 & E1 & H1 & Ff)|(l' & s1 & a' & E1 & H1 & N1 & D1 & X1 & F1 & M1)].
  - apply (does_oom _ s s1 a); [apply bind_exn, E1|exact H1|auto].
  - assert (keys a' l' = keys a (nodes u)) as Ek by (rewrite <- !entry_keys, M1; reflexivity).
    destruct (empty_good (V := positive) (text a') (thash a') grow (u_n u) (tab_pos _ _ _ _ T)) as [Ge Ee].
    destruct (push_all_ok (text a') (thash a') (keq a') grow (keq_ok a') (thash_ok a') (rev l') (empty_umap (u_n u)) Ge) as (u' & E2 & G2 & P2).
    { rewrite Ee, app_nil_r. unfold ks. rewrite map_rev. rewrite <- Permutation_rev. fold (keys a' l'). rewrite Ek. apply T. }
    destruct (hpush_all_ok a' (rev l') s1 (empty_umap (u_n u)) u' H1) as (s2 & E3 & H3); [apply Forall_rev; exact F1|exact E2|].
    rewrite Ee, app_nil_r, <- Permutation_rev in P2.
    apply (does_ok _ s s2 a' u'); [rewrite (bind_ok _ _ _ _ _ E1); exact E3|exact H3|].
    assert (Permutation (owned u') (own l')) as PO by (apply own_perm; exact P2). split; [|split].
    + apply (tab_of a' u' l'); [exact G2|exact P2|exact N1|exact F1|]. rewrite M1. apply T.
    + apply (tab_same a); [exact T|]. intros x X. apply X1. intros Y. apply D1 in Y. destruct (owned_live a u m x T X). congruence.
    + apply map_eq. intros x. rewrite others_lookup. destruct (decide (x ∈ owned u')) as [X|X]; rewrite PO in X; [symmetry; apply D1, X|apply X1, X].
Qed.

(** The rest of the program. *)
Lemma val_str (a a' : astate Z) x l : val_at a' x = val_at a x -> is_str a x l -> is_str a' x l.
Proof.
  intros E (r & A). unfold val_at in E. rewrite A in E. unfold is_str. destruct (a' !! x) as [[r' v|]|]; try discriminate. injection E as ->. exists r'. reflexivity.
Qed.
Lemma user_ok o s a u m a' v : reached s a -> tab a u m -> step o a = Some (SRet a' v) -> (forall g x, o <> CStr g x) ->
  (forall x, x ∈ owned u -> x ∉ changes o /\ target o <> Some x) ->
  does d (exec d o) s (fun _ b => b = a' /\ tab b u m) (fun b => tab b u m).
Proof.
  intros H T Hs Nc Hc. destruct (step_yields d o s a a' v Hwf H Hs Nc) as [(s' & v' & E & _ & H' & S')|(s' & x & E & Sx & _ & b & H' & S' & C)].
  - apply (does_ok _ s s' a' v'); [exact E|exact H'|]. split; [reflexivity|]. apply (tab_frame a); [exact T|]. intros y l Y. apply val_str.
    eapply frame_step; [exact Hs|apply Hc, Y].
  - apply (does_oom _ s s' b); [exact E|exact H'|]. destruct C as [->|(Tx & _ & ->)]; [exact T|]. apply (tab_same a); [exact T|]. intros y Y.
    apply lookup_insert_ne. intros <-. apply (Hc _ Y), Tx.
Qed.
Lemma value_ok o s a u m a' v n w : reached s a -> tab a u m -> step o a = Some (SRet a' v) -> (forall g x, o <> CStr g x) -> In n (nodes u) ->
  (forall x, x ∈ owned u -> x <> snd n -> x ∉ changes o /\ target o <> Some x) -> is_str a' (snd n) w ->
  does d (exec d o) s (fun _ b => b = a' /\ tab b u (<[text a (fst n) := w]> m)) (fun b => tab b u m \/ tab b u (<[text a (fst n) := []]> m)).
Proof.
  intros H T Hs Nc I Hc W. destruct (step_yields d o s a a' v Hwf H Hs Nc) as [(s' & v' & E & _ & H' & S')|(s' & x & E & Sx & _ & b & H' & S' & C)].
  - apply (does_ok _ s s' a' v'); [exact E|exact H'|]. split; [reflexivity|].
    set (a1 := <[snd n := AVal true (map Some w)]> a).
    assert (tab a1 u (<[text a (fst n) := w]> m)) as T1.
    { apply (tab_set a); [exact T|exact I| |exists true; apply lookup_insert]. intros x X Nx. apply lookup_insert_ne. congruence. }
    apply (tab_frame a1); [exact T1|]. intros y l Y Hy. destruct (decide (y = snd n)) as [->|Ny].
    + destruct Hy as (r & Hy). unfold a1 in Hy. rewrite lookup_insert in Hy. injection Hy as _ Hy.
      assert (l = w) as ->; [|exact W]. assert (vals (map Some l) = vals (map Some w)) as Hv by (rewrite Hy; reflexivity). rewrite !vals_map in Hv. congruence.
    + assert (is_str a y l) as Hy'. { destruct Hy as (r & Hy). exists r. unfold a1 in Hy. rewrite lookup_insert_ne in Hy by congruence. exact Hy. }
      revert Hy'. apply val_str. eapply frame_step; [exact Hs|]. apply (Hc y Y Ny).
  - apply (does_oom _ s s' b); [exact E|exact H'|]. destruct C as [->|(Tx & _ & ->)]; [left; exact T|].
    destruct (decide (x = snd n)) as [->|Nx].
    + right. apply (tab_set a); [exact T|exact I| |exists true; apply lookup_insert]. intros y Y Ny. apply lookup_insert_ne. congruence.
    + left. apply (tab_same a); [exact T|]. intros y Y. apply lookup_insert_ne. intros <-. apply (Hc x Y Nx), Tx.
Qed.
Lemma elsewhere_ok u u' a b a' u2 m2 : others u' a' = others u b -> tab a u2 m2 -> (forall x, x ∈ owned u2 -> x ∉ owned u /\ b !! x = a !! x) ->
  tab a' u2 m2 /\ forall x, x ∈ owned u2 -> x ∉ owned u'.
Proof.
  intros E T F. assert (forall x, x ∈ owned u2 -> a' !! x = a !! x /\ x ∉ owned u') as X.
  { intros x X. destruct (F x X) as [N B]. destruct (owned_live a u2 m2 x T X) as (y & Y). apply (f_equal (fun c => c !! x)) in E.
    rewrite !others_lookup in E. destruct (decide (x ∈ owned u)); [contradiction|]. destruct (decide (x ∈ owned u')); [congruence|]. split; [congruence|assumption]. }
  split; [|intros x I; apply X, I]. apply (tab_same a); [exact T|]. intros x I. apply X, I.
Qed.

(** Histories. *)
Lemma others_insert u a y w : y ∉ owned u -> others u (<[y := w]> a) = <[y := w]> (others u a).
Proof.
  intros N. apply map_eq. intros x. rewrite others_lookup. destruct (decide (y = x)) as [<-|Ne].
  - rewrite !lookup_insert. destruct (decide (y ∈ owned u)); [contradiction|reflexivity].
  - rewrite !lookup_insert_ne by exact Ne. symmetry. apply others_lookup.
Qed.
Lemma others_taken (p q : bool) k v u a : k ∉ owned u -> v ∉ owned u -> others u (taken p k (taken q v a)) = taken p k (taken q v (others u a)).
Proof. intros Hk Hv. unfold taken. destruct p, q; rewrite ?others_insert by assumption; reflexivity. Qed.
Lemma others_str u a x l : is_str (others u a) x l -> is_str a x l /\ x ∉ owned u.
Proof. intros (r & E). rewrite others_lookup in E. destruct (decide (x ∈ owned u)) as [|N]; [discriminate|]. split; [exists r; exact E|exact N]. Qed.
Lemma does_elim {A} (m : M (state Z) A) s P : does d m s P (fun _ => False) -> exists v s' a, m s = Ok v s' /\ reached s' a /\ P v a.
Proof.
  unfold does. destruct (m s) as [v s'|e s'| | |]; try contradiction.
  - intros (a & H & _ & HP). exists v, s', a. auto.
  - intros (_ & a & _ & _ & []).
Qed.
Lemma does_weak {A} (m : M (state Z) A) s (P : A -> astate Z -> Prop) (E : astate Z -> Prop) : (forall a, ~ E a) -> does d m s P E -> does d m s P (fun _ => False).
Proof. intros N. unfold does. destruct (m s); try contradiction; [auto|]. intros (_ & a & _ & _ & HE). destruct (N a HE). Qed.
Lemma no_lack {a0 : astate Z -> Prop} a : ~ (LNone <> LNone /\ a0 a).
Proof. intros [X _]. apply X. reflexivity. Qed.
Lemma hdo_ok c s u x r y : has d s u (fst x) (snd x) -> hspec c x r y ->
  exists s' u', hdo d mdiff grow c u s = Ok (r, u') s' /\ has d s' u' (fst y) (snd y).
Proof.
  intros (a & H & T & Eb) Hs. inversion Hs as [mk mv k v l w m b [K1 K2] V N A|mk mv k v l w m b [K1 K2] V N A|mk mv k v l w m b [K1 K2] V N A|mk mv k v l w m b [K1 K2] V N A|k l m b [K1 K2]|k l m b [K1 K2]|m b];
    subst; cbn [fst snd] in *; subst; try (apply others_str in K1 as [K1 Ok]); try (apply others_str in V as [V Ov]); cbn [hdo].
  - destruct (does_elim _ _ _ (does_weak _ _ _ _ no_lack (hinsert_ok LNone mk mv s a u m k l v w H T K1 K2 V ltac:(intros X; split; [exact Ok|apply N, X]) ltac:(intros _; exact Ov))))
      as (r & s' & a' & E & H' & P). rewrite A in P. destruct P as (Er & T' & O'). rewrite A in O'. destruct r as [r u']. cbn in *. subst r. exists s', u'. split; [exact E|].
    exists a'. split; [exact H'|]. split; [exact T'|]. rewrite O'. apply others_taken; assumption.
  - destruct (does_elim _ _ _ (does_weak _ _ _ _ no_lack (hinsert_ok LNone mk mv s a u m k l v w H T K1 K2 V ltac:(intros X; split; [exact Ok|apply N, X]) ltac:(intros _; exact Ov))))
      as (r & s' & a' & E & H' & P). destruct A as (w0 & A). rewrite A in P. destruct P as (-> & ->). exists s', u. split; [exact E|]. exists a. auto.
  - destruct (does_elim _ _ _ (does_weak _ _ _ _ no_lack (hassign_ok LNone mk mv s a u m k l v w H T K1 K2 V ltac:(intros X; split; [exact Ok|apply N, X]) ltac:(intros _; exact Ov))))
      as (u' & s' & a' & E & H' & T' & O'). rewrite A in O'. exists s', u'. split; [rewrite (bind_ok _ _ _ _ _ E); reflexivity|].
    exists a'. split; [exact H'|]. split; [exact T'|]. rewrite O'. apply others_taken; assumption.
  - destruct (does_elim _ _ _ (does_weak _ _ _ _ no_lack (hassign_ok LNone mk mv s a u m k l v w H T K1 K2 V ltac:(intros X; split; [exact Ok|apply N, X]) ltac:(intros _; exact Ov))))
      as (u' & s' & a' & E & H' & T' & O'). destruct A as (w0 & A). rewrite A in O'. exists s', u'. split; [rewrite (bind_ok _ _ _ _ _ E); reflexivity|].
    exists a'. split; [exact H'|]. split; [exact T'|]. rewrite O'. apply (others_taken false mv k v); assumption.
  - destruct (does_elim _ _ _ (hremove_ok s a u m k l H T K1 K2)) as ([r u'] & s' & a' & E & H' & Er & T' & O'). cbn in *. subst r. exists s', u'. split; [exact E|].
    exists a'. auto.
  - destruct (hcontains_ok s a u m k l H T K1 K2) as (s' & E & H'). exists s', u. split; [rewrite (bind_ok _ _ _ _ _ E); reflexivity|]. exists a. auto.
  - destruct (does_elim _ _ _ (hclear_ok s a u m H T)) as (u' & s' & a' & E & H' & T' & N' & ->). exists s', u'. split; [rewrite (bind_ok _ _ _ _ _ E); reflexivity|].
    exists (others u a). split; [exact H'|]. split; [exact T'|]. apply map_eq. intros x. rewrite others_lookup.
    destruct (decide (x ∈ owned u')) as [X|_]; [unfold owned in X; rewrite N' in X; inversion X|reflexivity].
Qed.
Lemma hrun_ok cs : forall s u x rs y, has d s u (fst x) (snd x) -> hspecs cs x rs y ->
  exists s' u', hrun d mdiff grow cs u s = Ok (rs, u') s' /\ has d s' u' (fst y) (snd y).
Proof.
  induction cs as [|c cs IH]; intros s u x rs y H Hs; inversion Hs as [|? ? ? r z rs' ? Hc Hcs]; subst; cbn [hrun].
  - exists s, u. split; [reflexivity|exact H].
  - destruct (hdo_ok c s u x r z H Hc) as (s1 & u1 & E1 & H1). destruct (IH s1 u1 z rs' y H1 Hcs) as (s2 & u2 & E2 & H2). exists s2, u2. split; [|exact H2].
    rewrite (bind_ok _ _ _ _ _ E1). cbn [fst snd]. rewrite (bind_ok _ _ _ _ _ E2). reflexivity.
Qed.
End Proof.
