(** HashTable refines a finite map. *)
From Verif Require Import Base HashSpec HashModel.
From stdpp Require Import gmap.
Open Scope Z_scope.

Section Proof.
Context {K C V : Type} `{Countable C}.
Variable c : K -> C.
Variable hash : K -> Z.
Variable keq : K -> K -> bool.
Variable dflt : V.
Variable grow : Z -> Z -> option Z.
Hypothesis Hkeq : forall x y, keq x y = true <-> c x = c y.
Hypothesis Hhash : forall x y, c x = c y -> hash x = hash y.

Notation umap := (umap K V).
Notation scan := (scan keq). Notation set_value := (set_value keq). Notation drop_key := (drop_key keq).
Notation bucket_of := (bucket_of hash).

Definition pair1 (x : K * V) : C * V := (c (fst x), snd x).
Definition prs (l : list (K * V)) : list (C * V) := map pair1 l.
Definition ks (l : list (K * V)) : list C := map (fun x => c (fst x)) l.
Definition ents (u : umap) : list (K * V) := concat (u_buckets u).
Definition abs (u : umap) : gmap C V := list_to_map (prs (ents u)).
Record good (u : umap) : Prop := Good {
  g_pos : 0 < u_n u;
  g_len : zlen (u_buckets u) = u_n u;
  g_place : forall i b x, znth i (u_buckets u) = Some b -> In x b -> hash (fst x) mod u_n u = i;
  g_dup : NoDup (ks (ents u));
  g_count : u_count u = zlen (ents u) }.

Lemma keq_false x y : keq x y = false <-> c x <> c y.
Proof. rewrite <- Hkeq. destruct (keq x y); split; congruence. Qed.
Lemma prs_fst l : (prs l).*1 = ks l.
Proof. unfold prs, ks. rewrite <- list_fmap_compose. reflexivity. Qed.
Lemma ks_app l k : ks (l ++ k) = ks l ++ ks k.
Proof. unfold ks. apply map_app. Qed.
Lemma prs_perm l l' : Permutation l l' -> NoDup (ks l) -> (list_to_map (prs l) : gmap C V) = list_to_map (prs l').
Proof. intros P D. apply list_to_map_proper; [rewrite prs_fst; exact D|]. unfold prs. apply Permutation_map, P. Qed.
Lemma ks_perm l l' : Permutation l l' -> Permutation (ks l) (ks l').
Proof. apply Permutation_map. Qed.

Lemma scan_none (b : list (K * V)) k : scan b k = None -> c k ∉ ks b.
Proof.
  induction b as [|[k' v] b IH]; cbn; [intros _; apply not_elem_of_nil|].
  destruct (keq k' k) eqn:E; [discriminate|]. intros S. apply keq_false in E.
  apply not_elem_of_cons. split; [intros X; apply E; symmetry; exact X|exact (IH S)].
Qed.
Lemma scan_some (b : list (K * V)) k x : scan b k = Some x -> c (fst x) = c k /\ exists b1 b2 : list (K * V), b = b1 ++ x :: b2 /\
  (forall v, set_value b k v = b1 ++ (fst x, v) :: b2) /\ drop_key b k = b1 ++ b2.
Proof.
  induction b as [|[k' v] b IH]; cbn; [discriminate|].
  destruct (keq k' k) eqn:E.
  - intros [= <-]. apply Hkeq in E. split; [exact E|]. exists [], b. split; [reflexivity|]. split; reflexivity.
  - intros S. destruct (IH S) as [X (b1 & b2 & -> & Y & Z)]. split; [exact X|]. exists ((k', v) :: b1), b2.
    split; [reflexivity|]. split; [intros v0; rewrite Y; reflexivity|rewrite Z; reflexivity].
Qed.

Lemma znth_split {A} i (l : list A) x : znth i l = Some x -> l = ztake i l ++ x :: zdrop (i + 1) l /\ zlen (ztake i l) = i.
Proof.
  intros Z. pose proof (znth_inv _ _ _ Z) as R. split; [|rewrite zlen_ztake; lia].
  apply zlist_ext_opt. intros j. rewrite znth_app, zlen_ztake, znth_ztake.
  destruct (j <? Z.min (Z.max 0 i) (zlen l)) eqn:E.
  - apply Z.ltb_lt in E. destruct (j <? i) eqn:F; [reflexivity|lia].
  - apply Z.ltb_ge in E. rewrite znth_cons, znth_zdrop.
    destruct (j - _ =? 0) eqn:F; [assert (j = i) as -> by lia; exact Z|].
    destruct (j - _ - 1 <? 0) eqn:G; [lia|]. f_equal. lia.
Qed.
(** The bucket of a key, and the rest of the table. *)
Lemma home u k : good u -> exists L b R, u_buckets u = L ++ b :: R /\ zlen L = bucket_of u k /\
  bucket u (bucket_of u k) = ret b /\ (forall b', put_bucket u (bucket_of u k) b' = UMap (u_n u) (L ++ b' :: R)) /\
  c k ∉ ks (concat L ++ concat R) /\ Permutation (ents u) (b ++ concat L ++ concat R).
Proof.
  intros [P N Pl D Ct]. set (i := bucket_of u k).
  assert (0 <= i < zlen (u_buckets u)) as I by (rewrite N; unfold i, HashModel.bucket_of; apply Z.mod_pos_bound; exact P).
  destruct (znth_some _ _ I) as [b B]. destruct (znth_split _ _ _ B) as [S T].
  exists (ztake i (u_buckets u)), b, (zdrop (i + 1) (u_buckets u)).
  split; [exact S|]. split; [exact T|]. split; [unfold bucket; rewrite B; reflexivity|].
  split; [intros b'; unfold put_bucket, zupd; reflexivity|]. split.
  - intros X. unfold ks in X. apply elem_of_list_In, in_map_iff in X. destruct X as (x & X1 & X2).
    apply in_app_or in X2. rewrite !in_concat in X2.
    assert (exists j q, znth j (u_buckets u) = Some q /\ In x q /\ j <> i) as (j & q & J1 & J2 & J3).
    { destruct X2 as [(q & Q1 & Q2)|(q & Q1 & Q2)]; apply In_nth_error in Q1; destruct Q1 as [n Q1].
      - assert (znth (Z.of_nat n) (ztake i (u_buckets u)) = Some q) as Y
          by (unfold znth; destruct (Z.of_nat n <? 0) eqn:F; [lia|rewrite Nat2Z.id; exact Q1]).
        rewrite znth_ztake in Y. destruct (Z.of_nat n <? i) eqn:F; [|discriminate].
        exists (Z.of_nat n), q. split; [exact Y|]. split; [exact Q2|lia].
      - assert (znth (Z.of_nat n) (zdrop (i + 1) (u_buckets u)) = Some q) as Y
          by (unfold znth; destruct (Z.of_nat n <? 0) eqn:F; [lia|rewrite Nat2Z.id; exact Q1]).
        rewrite znth_zdrop in Y. destruct (Z.of_nat n <? 0) eqn:F; [discriminate|].
        eexists _, q. split; [exact Y|]. split; [exact Q2|lia]. }
    apply J3. rewrite <- (Pl _ _ _ J1 J2). unfold i, HashModel.bucket_of. f_equal. apply Hhash. exact X1.
  - unfold ents. rewrite S at 1. rewrite concat_app. cbn. rewrite Permutation_app_swap_app. reflexivity.
Qed.
(** Table with one bucket replaced. *)
Lemma place_put u k L b R b' n :
  good u -> u_buckets u = L ++ b :: R -> zlen L = bucket_of u k ->
  (forall x, In x b' -> In x b \/ hash (fst x) = hash k) ->
  NoDup (ks (b' ++ concat L ++ concat R)) -> n = zlen (b' ++ concat L ++ concat R) ->
  good (UMap (u_n u) (L ++ b' :: R) n) /\
  Permutation (ents (UMap (u_n u) (L ++ b' :: R) n)) (b' ++ concat L ++ concat R).
Proof.
  intros [P N Pl D Ct] S T B ND Hn.
  assert (Permutation (ents (UMap (u_n u) (L ++ b' :: R) n)) (b' ++ concat L ++ concat R)) as PE.
  { unfold ents. cbn [u_buckets]. rewrite concat_app. cbn. rewrite Permutation_app_swap_app. reflexivity. }
  split; [|exact PE]. constructor; cbn [u_n u_buckets u_count].
  - exact P.
  - rewrite <- N, S, !zlen_app, !zlen_cons. reflexivity.
  - intros i q x Q I. rewrite znth_app in Q. destruct (i <? zlen L) eqn:F.
    + apply (Pl i q x); [rewrite S, znth_app, F; exact Q|exact I].
    + rewrite znth_cons in Q. destruct (i - zlen L =? 0) eqn:G.
      * injection Q as <-. assert (i = bucket_of u k) as -> by lia. destruct (B _ I) as [J|J].
        -- apply (Pl _ b x); [|exact J]. rewrite S, znth_app, <- T, Z.ltb_irrefl, znth_cons, Z.sub_diag. reflexivity.
        -- rewrite J. reflexivity.
      * apply (Pl i q x); [rewrite S, znth_app, F, znth_cons, G; exact Q|exact I].
  - rewrite (ks_perm _ _ PE). exact ND.
  - rewrite Hn. unfold zlen. f_equal. symmetry. apply Permutation_length, PE.
Qed.

Lemma list_to_map_none (l : list (K * V)) k : c k ∉ ks l -> (list_to_map (prs l) : gmap C V) !! c k = None.
Proof. intros X. apply not_elem_of_list_to_map_1. rewrite prs_fst. exact X. Qed.

Lemma find_ok u k : good u -> exists r, u_find hash keq u k tt = Ok r tt /\
  option_map snd r = abs u !! c k /\ (forall x, r = Some x -> c (fst x) = c k).
Proof.
  intros G. destruct (home u k G) as (L & b & R & S & T & B & Pu & X & PE).
  exists (scan b k). unfold u_find, bind. rewrite B. split; [reflexivity|].
  assert (abs u = list_to_map (prs (b ++ concat L ++ concat R))) as -> by (apply prs_perm; [exact PE|apply g_dup, G]).
  destruct (scan b k) as [x|] eqn:Sc.
  - destruct (scan_some _ _ _ Sc) as [Cx (b1 & b2 & -> & _)]. split; [|intros y [= <-]; exact Cx].
    cbn. symmetry. rewrite <- Cx. apply elem_of_list_to_map_1.
    + rewrite prs_fst, <- (ks_perm _ _ PE). apply g_dup, G.
    + unfold prs. apply elem_of_list_In, in_map_iff. exists x. split; [reflexivity|].
      rewrite !in_app_iff. left. right. left. reflexivity.
  - split; [|discriminate]. cbn. symmetry. apply list_to_map_none. rewrite ks_app. apply not_elem_of_app. split; [apply scan_none, Sc|exact X].
Qed.

Lemma push_ok u k v : good u -> abs u !! c k = None -> exists u', push hash u k v tt = Ok u' tt /\ good u' /\
  abs u' = <[c k := v]> (abs u) /\ u_n u' = u_n u /\ Permutation (ents u') ((k, v) :: ents u).
Proof.
  intros G A. destruct (home u k G) as (L & b & R & S & T & B & Pu & X & PE).
  unfold push, bind. rewrite B. cbn [ret]. rewrite Pu.
  assert (c k ∉ ks (ents u)) as NI by (rewrite <- prs_fst; apply not_elem_of_list_to_map_2; exact A).
  destruct (place_put u k L b R ((k, v) :: b) (u_count u + 1) G S T) as [G' PE'].
  - intros x [<-|I]; [right; reflexivity|left; exact I].
  - cbn. apply NoDup_cons. split; [rewrite <- (ks_perm _ _ PE); exact NI|]. fold (ks (b ++ concat L ++ concat R)). rewrite <- (ks_perm _ _ PE). apply g_dup, G.
  - rewrite (g_count _ G). unfold zlen. rewrite (Permutation_length PE). cbn. lia.
  - eexists. split; [reflexivity|]. split; [exact G'|].
    assert (Permutation (ents (UMap (u_n u) (L ++ ((k, v) :: b) :: R) (u_count u + 1))) ((k, v) :: ents u)) as PP
      by (rewrite PE', PE; reflexivity).
    split; [|split; [reflexivity|exact PP]].
    unfold abs at 1. rewrite (prs_perm _ _ PP (g_dup _ G')). reflexivity.
Qed.
Lemma empty_good n : 0 < n -> good (empty_umap n) /\ ents (empty_umap n : umap) = [].
Proof.
  intros P. assert (ents (empty_umap n : umap) = []) as E.
  { unfold ents, empty_umap, zrep. cbn. generalize (Z.to_nat n) as j. induction j; [reflexivity|assumption]. }
  split; [|exact E]. constructor; cbn [u_n u_buckets u_count empty_umap].
  - exact P.
  - rewrite zlen_zrep. lia.
  - intros i b x Q I. rewrite znth_zrep in Q. destruct (_ && _); [injection Q as <-; destruct I|discriminate].
  - rewrite E. apply NoDup_nil_2.
  - rewrite E. reflexivity.
Qed.
Lemma push_all_ok l : forall u, good u -> NoDup (ks (l ++ ents u)) -> exists u', push_all hash u l tt = Ok u' tt /\ good u' /\
  Permutation (ents u') (l ++ ents u).
Proof.
  induction l as [|[k v] l IH]; intros u G D; [exists u; split; [reflexivity|]; split; [exact G|reflexivity]|].
  cbn in D. apply NoDup_cons in D. destruct D as [D1 D2]. fold (ks (l ++ ents u)) in D1, D2.
  destruct (push_ok u k v G) as (u' & E & G' & _ & _ & PP).
  { apply list_to_map_none. rewrite ks_app in D1. apply not_elem_of_app in D1. apply D1. }
  assert (Permutation (l ++ ents u') ((k, v) :: l ++ ents u)) as Q by (rewrite PP; symmetry; apply Permutation_middle).
  destruct (IH u' G') as (u'' & E'' & G'' & P'').
  { rewrite (ks_perm _ _ Q). cbn. apply NoDup_cons. split; [exact D1|exact D2]. }
  exists u''. cbn. unfold bind. rewrite E. split; [exact E''|]. split; [exact G''|]. rewrite P''. exact Q.
Qed.
Lemma rehash_ok u n : good u -> 0 < n -> exists u', rehash hash u n tt = Ok u' tt /\ good u' /\ abs u' = abs u /\ u_count u' = u_count u.
Proof.
  intros G P. destruct (empty_good n P) as [Ge Ee].
  destruct (push_all_ok (ents u) (empty_umap n) Ge) as (u' & E & G' & PP); [rewrite Ee, app_nil_r; apply g_dup, G|].
  rewrite Ee, app_nil_r in PP. exists u'. split; [exact E|]. split; [exact G'|]. split.
  - apply prs_perm; [exact PP|apply g_dup, G'].
  - rewrite (g_count _ G), (g_count _ G'). unfold zlen. rewrite (Permutation_length PP). reflexivity.
Qed.
Lemma insert_ok u k v : good u -> abs u !! c k = None -> exists u', u_insert hash grow u k v tt = Ok u' tt /\ good u' /\
  abs u' = <[c k := v]> (abs u).
Proof.
  intros G A. unfold u_insert, bind.
  assert (exists u1, (match grow (u_n u) (u_count u) with Some n => if 0 <? n then rehash hash u n else ret u | None => ret u end) tt = Ok u1 tt
    /\ good u1 /\ abs u1 = abs u) as (u1 & E & G1 & A1).
  { destruct (grow _ _) as [n|]; [|exists u; auto]. destruct (0 <? n) eqn:F; [|exists u; auto].
    destruct (rehash_ok u n G) as (u1 & E & G1 & A1 & _); [lia|]. exists u1. auto. }
  rewrite E. destruct (push_ok u1 k v G1) as (u' & E' & G' & A' & _); [rewrite A1; exact A|].
  exists u'. rewrite E', A', A1. auto.
Qed.
Lemma set_ok u k v x : good u -> abs u !! c k = Some x -> exists u', u_set hash keq u k v tt = Ok u' tt /\ good u' /\
  abs u' = <[c k := v]> (abs u).
Proof.
  intros G A. destruct (home u k G) as (L & b & R & S & T & B & Pu & X & PE).
  unfold u_set, bind. rewrite B. cbn [ret]. rewrite Pu.
  destruct (find_ok u k G) as (r & Fr & Fa & _). unfold u_find, bind in Fr. rewrite B in Fr. injection Fr as <-.
  destruct (scan b k) as [[k' v']|] eqn:Sc; [|rewrite A in Fa; discriminate].
  destruct (scan_some _ _ _ Sc) as [Cx (b1 & b2 & -> & Se & _)]. cbn [fst] in Cx, Se. rewrite Se.
  pose proof (g_dup _ G) as D. rewrite (ks_perm _ _ PE) in D.
  set (O := concat L ++ concat R) in *.
  assert (Permutation ((b1 ++ (k', v') :: b2) ++ O) ((k', v') :: b1 ++ b2 ++ O)) as P1
    by (rewrite <- app_assoc; cbn; symmetry; apply Permutation_middle).
  assert (Permutation ((b1 ++ (k', v) :: b2) ++ O) ((k', v) :: b1 ++ b2 ++ O)) as P2
    by (rewrite <- app_assoc; cbn; symmetry; apply Permutation_middle).
  assert (NoDup (ks ((b1 ++ (k', v) :: b2) ++ O))) as D'.
  { rewrite (ks_perm _ _ P2). rewrite (ks_perm _ _ P1) in D. exact D. }
  destruct (place_put u k L _ R (b1 ++ (k', v) :: b2) (u_count u) G S T) as [G' PE'].
  - intros y I. rewrite in_app_iff in I |- *. cbn in I |- *. destruct I as [I|[<-|I]]; auto.
  - exact D'.
  - rewrite (g_count _ G). unfold zlen. rewrite (Permutation_length PE). fold O. rewrite !app_length. reflexivity.
  - eexists. split; [reflexivity|]. split; [exact G'|]. unfold abs.
    rewrite (prs_perm _ _ PE' (g_dup _ G')). fold O. rewrite (prs_perm _ _ P2 D').
    rewrite (prs_perm _ _ PE (g_dup _ G)), (prs_perm _ _ P1 D). cbn. rewrite Cx. rewrite insert_insert. reflexivity.
Qed.
Lemma erase_ok u k : good u -> exists r, u_erase hash keq u k tt = Ok r tt /\ good (snd r) /\
  fst r = match abs u !! c k with Some _ => 1 | None => 0 end /\ abs (snd r) = delete (c k) (abs u).
Proof.
  intros G. destruct (home u k G) as (L & b & R & S & T & B & Pu & X & PE).
  unfold u_erase, bind. rewrite B. cbn [ret]. rewrite Pu.
  destruct (find_ok u k G) as (r & Fr & Fa & _). unfold u_find, bind in Fr. rewrite B in Fr. injection Fr as <-. rewrite <- Fa.
  destruct (scan b k) as [[k' v']|] eqn:Sc; cbn [option_map snd].
  2: { eexists. split; [reflexivity|]. split; [exact G|]. split; [reflexivity|]. cbn. symmetry. apply delete_notin. rewrite <- Fa. reflexivity. }
  destruct (scan_some _ _ _ Sc) as [Cx (b1 & b2 & -> & _ & Dr)]. cbn [fst] in Cx. rewrite Dr.
  pose proof (g_dup _ G) as D. rewrite (ks_perm _ _ PE) in D.
  set (O := concat L ++ concat R) in *.
  assert (Permutation ((b1 ++ (k', v') :: b2) ++ O) ((k', v') :: (b1 ++ b2) ++ O)) as P1
    by (rewrite <- !app_assoc; cbn; symmetry; apply Permutation_middle).
  pose proof D as D0. rewrite (ks_perm _ _ P1) in D. cbn in D. apply NoDup_cons in D. destruct D as [D1 D2].
  destruct (place_put u k L _ R (b1 ++ b2) (u_count u - 1) G S T) as [G' PE'].
  - intros y I. rewrite in_app_iff in I |- *. cbn. destruct I as [I|I]; auto.
  - exact D2.
  - rewrite (g_count _ G). unfold zlen. rewrite (Permutation_length PE). fold O. rewrite (Permutation_length P1). cbn. lia.
  - eexists. split; [reflexivity|]. split; [exact G'|]. split; [reflexivity|]. cbn [snd]. unfold abs.
    rewrite (prs_perm _ _ PE' (g_dup _ G')). fold O.
    rewrite (prs_perm _ _ PE (g_dup _ G)), (prs_perm _ _ P1 D0). cbn. rewrite Cx. symmetry. apply delete_insert.
    apply list_to_map_none. unfold ks. rewrite <- Cx. exact D1.
Qed.
Lemma count_ok u : good u -> u_count u = Z.of_nat (size (abs u)).
Proof.
  intros G. rewrite (g_count _ G). unfold zlen, abs. f_equal.
  assert (forall l, NoDup (ks l) -> size (list_to_map (prs l) : gmap C V) = length l) as Hs; [|symmetry; apply Hs, g_dup, G].
  induction l as [|[k v] l IH]; intros D; [apply map_size_empty|]. cbn in D. apply NoDup_cons in D. destruct D as [D1 D2].
  change (size (<[c k := v]> (list_to_map (prs l) : gmap C V)) = S (length l)). rewrite map_size_insert_None by (apply list_to_map_none; exact D1). rewrite (IH D2). reflexivity.
Qed.
Lemma items_ok u : good u -> Permutation (map (fun x => (c (fst x), snd x)) (ents u)) (map_to_list (abs u)).
Proof. intros G. unfold abs. rewrite map_to_list_to_map; [reflexivity|]. rewrite prs_fst. apply g_dup, G. Qed.
Lemma empty_abs n : 0 < n -> abs (empty_umap n) = ∅.
Proof. intros P. unfold abs. destruct (empty_good n P) as [_ ->]. reflexivity. Qed.
Lemma isEmpty_ok u : good u -> isEmpty u = bool_decide (size (abs u) = O).
Proof. intros G. unfold isEmpty. rewrite (count_ok u G). case_bool_decide as X; [rewrite X; reflexivity|lia]. Qed.
Lemma isEmpty_none u k : good u -> isEmpty u = true -> abs u !! k = None.
Proof.
  intros G E. rewrite (isEmpty_ok u G) in E. apply bool_decide_eq_true in E. apply map_size_empty_iff in E. rewrite E. apply lookup_empty.
Qed.
Lemma contains_ok u k : good u -> contains hash keq u k tt = Ok (match abs u !! c k with Some _ => true | None => false end) tt.
Proof.
  intros G. unfold contains. destruct (isEmpty u) eqn:E; [rewrite (isEmpty_none u _ G E); reflexivity|].
  destruct (find_ok u k G) as (r & F & A & _). unfold bind. rewrite F, <- A. destruct r; reflexivity.
Qed.
Lemma remove_ok u k : good u -> exists r, HashModel.remove hash keq u k tt = Ok r tt /\ good (snd r) /\
  fst r = (match abs u !! c k with Some _ => true | None => false end) /\ abs (snd r) = delete (c k) (abs u).
Proof.
  intros G. unfold HashModel.remove. destruct (isEmpty u) eqn:E.
  - exists (false, u). rewrite (isEmpty_none u _ G E). split; [reflexivity|]. split; [exact G|]. split; [reflexivity|].
    symmetry. apply delete_notin, (isEmpty_none u _ G E).
  - destruct (erase_ok u k G) as (r & F & G' & A & B). unfold bind. rewrite F. eexists. split; [reflexivity|].
    split; [exact G'|]. split; [|exact B]. cbn. rewrite A. destruct (abs u !! c k); reflexivity.
Qed.
Lemma getValue_ok u k : good u -> getValue hash keq dflt u k tt = Ok (default dflt (abs u !! c k)) tt.
Proof.
  intros G. destruct (find_ok u k G) as (r & F & A & _). unfold getValue, bind. rewrite F, <- A. destruct r as [[??]|]; reflexivity.
Qed.
Lemma index_ok e u k : good u -> exists r, u_index hash keq dflt grow e u k tt = Ok r tt /\
  match abs u !! c k with
  | Some v => r = Some (v, u)
  | None => match e with TAlloc => r = None | _ => exists u', r = Some (dflt, u') /\ good u' /\ abs u' = <[c k := dflt]> (abs u) end
  end.
Proof.
  intros G. destruct (find_ok u k G) as (r & F & A & _). unfold u_index, bind. rewrite F, <- A.
  destruct r as [[k' v]|]; cbn; [eexists; split; reflexivity|].
  destruct (insert_ok u k dflt G) as (u' & E & G' & A'); [rewrite <- A; reflexivity|].
  destruct e; [| eexists; split; reflexivity |]; rewrite E; eexists; (split; [reflexivity|]); exists u'; auto.
Qed.
Lemma assign_ok e u k v : good u -> exists r, u_assign hash keq dflt grow e u k v tt = Ok r tt /\ good (snd r) /\
  match abs u !! c k, e with
  | Some _, TAssign => fst r = false /\ abs (snd r) = abs u
  | None, TAssign => fst r = false /\ abs (snd r) = <[c k := dflt]> (abs u)
  | None, TAlloc => fst r = false /\ abs (snd r) = abs u
  | _, _ => fst r = true /\ abs (snd r) = <[c k := v]> (abs u)
  end.
Proof.
  intros G. destruct (index_ok e u k G) as (r & F & A). unfold u_assign, bind. rewrite F.
  destruct (abs u !! c k) as [x|] eqn:X.
  - subst r. destruct (set_ok u k v x G X) as (u' & E & G' & A').
    destruct e; try rewrite E; eexists; (split; [reflexivity|]); cbn; auto.
  - destruct e.
    + destruct A as (u' & -> & G1 & A1). destruct (set_ok u' k v dflt G1) as (u2 & E2 & G2 & A2); [rewrite A1; apply lookup_insert|].
      rewrite E2. eexists. split; [reflexivity|]. cbn. rewrite A2, A1, insert_insert. auto.
    + subst r. eexists. split; [reflexivity|]. cbn. auto.
    + destruct A as (u' & -> & G1 & A1). eexists. split; [reflexivity|]. cbn. auto.
Qed.
Lemma init_ok l : forall u, good u -> exists u', u_init hash keq grow u l tt = Ok u' tt /\ good u' /\ abs u' = add_all c (abs u) l.
Proof.
  induction l as [|[k v] l IH]; intros u G; [exists u; split; [reflexivity|]; split; [exact G|reflexivity]|].
  cbn [u_init add_all]. unfold bind. destruct (find_ok u k G) as (r & F & A & _). rewrite F, <- A.
  destruct r as [[k' v']|]; cbn [option_map snd].
  - apply IH, G.
  - destruct (insert_ok u k v G) as (u' & E & G' & A'); [rewrite <- A; reflexivity|]. rewrite E, <- A'. apply IH, G'.
Qed.

(** All tables at once. *)
Definition rel (s : gmap nat umap) (a : gmap nat (gmap C V)) : Prop :=
  forall t, match s !! t, a !! t with Some u, Some m => good u /\ abs u = m | None, None => True | _, _ => False end.
Lemma rel_get s a t : rel s a -> is_Some (a !! t) -> exists u, s !! t = Some u /\ good u /\ a !! t = Some (abs u).
Proof.
  intros R [m E]. specialize (R t). rewrite E in R. destruct (s !! t) as [u|]; [|contradiction]. destruct R as [G A].
  exists u. split; [reflexivity|]. split; [exact G|]. rewrite E, A. reflexivity.
Qed.
Lemma rel_put s a t u m : rel s a -> good u -> abs u = m -> rel (<[t := u]> s) (<[t := m]> a).
Proof.
  intros R G A t'. destruct (decide (t = t')) as [<-|N].
  - rewrite !lookup_insert. auto.
  - rewrite !lookup_insert_ne by exact N. apply R.
Qed.
Lemma rel_same s a t u m : rel s a -> a !! t = Some m -> good u -> abs u = m -> rel (<[t := u]> s) a.
Proof. intros R E G A. rewrite <- (insert_id a t m E). apply rel_put; assumption. Qed.

Definition lives (a : gmap nat (gmap C V)) (alive : gset nat) : Prop := forall t, t ∈ alive -> is_Some (a !! t).
Lemma lives_put a alive t m : lives a alive -> lives (<[t := m]> a) alive.
Proof. intros L t' I. apply lookup_insert_is_Some'. right. apply L, I. Qed.
Lemma lives_new a alive t m : lives a alive -> lives (<[t := m]> a) ({[t]} ∪ alive).
Proof.
  intros L t' I. apply lookup_insert_is_Some'. apply elem_of_union in I. destruct I as [I|I]; [left|right; apply L, I].
  apply elem_of_singleton in I. congruence.
Qed.

Notation hexec := (hexec hash keq dflt grow). Notation hrun := (hrun hash keq dflt grow).
Lemma step_ok e o l s a alive : rel s a -> lives a alive -> legal alive ((e, o) :: l) ->
  exists r s' a' alive', hexec e o s = Ok r s' /\ hstep c dflt e o a r a' /\ rel s' a' /\ lives a' alive' /\ legal alive' l.
Proof.
  intros R L Lg. destruct o as [t n|t q|t k v|t k|t k|t k|t k|t k|t k v|t|t|t|x t|x t|x t|x t|t]; cbn [legal] in Lg.
  - eexists _, _, _, _. split; [reflexivity|]. split; [constructor|]. split; [|split; [apply lives_new, L|exact Lg]].
    apply rel_put; [exact R|apply empty_good; lia|apply empty_abs; lia].
  - destruct (init_ok q (empty_umap 1)) as (u & E & G & A); [apply empty_good; lia|]. rewrite empty_abs in A by lia.
    eexists _, _, _, _. cbn [HashModel.hexec]. rewrite E. split; [reflexivity|]. split; [constructor|].
    split; [apply rel_put; assumption|]. split; [apply lives_new, L|exact Lg].
  - destruct Lg as [I Lg]. destruct (rel_get _ _ _ R (L _ I)) as (u & Su & G & Sa).
    cbn [HashModel.hexec]. unfold on, bind, HashModel.insert. rewrite Su. cbn. unfold bind at 1. rewrite (contains_ok u k G).
    destruct (abs u !! c k) as [y|] eqn:Y; cbn.
    + eexists _, _, _, _. split; [reflexivity|]. split; [eapply St_insert_old; eassumption|].
      split; [apply (rel_same _ _ _ _ _ R Sa G eq_refl)|]. split; [exact L|exact Lg].
    + destruct (assign_ok e u k v G) as ([ok u'] & E & G' & A). unfold bind. rewrite E. cbn in A, G' |- *. rewrite Y in A.
      destruct e; destruct A as [-> A]; eexists _, _, _, _; (split; [reflexivity|]).
      * split; [eapply St_insert; eassumption|]. split; [apply rel_put; assumption|]. split; [apply lives_put, L|exact Lg].
      * split; [eapply St_insert_alloc; eassumption|]. split; [apply (rel_same _ _ _ _ _ R Sa G' A)|]. split; [exact L|exact Lg].
      * split; [eapply St_insert_assign; eassumption|]. split; [apply rel_put; assumption|]. split; [apply lives_put, L|exact Lg].
  - destruct Lg as [I Lg]. destruct (rel_get _ _ _ R (L _ I)) as (u & Su & G & Sa).
    cbn [HashModel.hexec]. unfold look, bind. rewrite Su, (contains_ok u k G).
    eexists _, _, _, _. split; [reflexivity|]. split; [apply St_contains; exact Sa|]. split; [exact R|]. split; [exact L|exact Lg].
  - destruct Lg as [I Lg]. destruct (rel_get _ _ _ R (L _ I)) as (u & Su & G & Sa).
    cbn [HashModel.hexec]. unfold on, bind. rewrite Su. destruct (remove_ok u k G) as ([b u'] & E & G' & Eb & A). rewrite E. cbn in *. subst b.
    eexists _, _, _, _. split; [reflexivity|]. split; [apply St_remove; exact Sa|]. split; [apply rel_put; assumption|]. split; [apply lives_put, L|exact Lg].
  - destruct Lg as [I Lg]. destruct (rel_get _ _ _ R (L _ I)) as (u & Su & G & Sa).
    cbn [HashModel.hexec]. unfold look, bind. rewrite Su, (getValue_ok u k G).
    eexists _, _, _, _. split; [reflexivity|]. split; [apply St_get; exact Sa|]. split; [exact R|]. split; [exact L|exact Lg].
  - destruct Lg as [I Lg]. destruct (rel_get _ _ _ R (L _ I)) as (u & Su & G & Sa).
    cbn [HashModel.hexec]. unfold look, bind. rewrite Su. destruct (find_ok u k G) as (r & F & A & B). rewrite F.
    eexists _, _, _, _. split; [reflexivity|]. split; [eapply St_find; [exact Sa|exact B|exact A]|]. split; [exact R|]. split; [exact L|exact Lg].
  - destruct Lg as [I Lg]. destruct (rel_get _ _ _ R (L _ I)) as (u & Su & G & Sa).
    cbn [HashModel.hexec]. unfold on. unfold bind at 1. rewrite Su. unfold bind at 1. destruct (index_ok e u k G) as (r & F & A). rewrite F.
    destruct (abs u !! c k) as [y|] eqn:Y.
    + subst r. cbn. eexists _, _, _, _. split; [reflexivity|]. split; [eapply St_index_old; eassumption|].
      split; [apply (rel_same _ _ _ _ _ R Sa G eq_refl)|]. split; [exact L|exact Lg].
    + destruct e.
      * destruct A as (u' & -> & G' & A). cbn. eexists _, _, _, _. split; [reflexivity|]. split; [eapply St_index; [discriminate|eassumption..]|].
        split; [apply rel_put; assumption|]. split; [apply lives_put, L|exact Lg].
      * subst r. cbn. eexists _, _, _, _. split; [reflexivity|]. split; [eapply St_index_alloc; eassumption|].
        split; [apply (rel_same _ _ _ _ _ R Sa G eq_refl)|]. split; [exact L|exact Lg].
      * destruct A as (u' & -> & G' & A). cbn. eexists _, _, _, _. split; [reflexivity|]. split; [eapply St_index; [discriminate|eassumption..]|].
        split; [apply rel_put; assumption|]. split; [apply lives_put, L|exact Lg].
  - destruct Lg as [I Lg]. destruct (rel_get _ _ _ R (L _ I)) as (u & Su & G & Sa).
    cbn [HashModel.hexec]. unfold on, bind. rewrite Su. destruct (assign_ok e u k v G) as ([ok u'] & E & G' & A). rewrite E. cbn in A, G' |- *.
    destruct (abs u !! c k) as [y|] eqn:Y; destruct e; destruct A as [-> A]; eexists _, _, _, _; (split; [reflexivity|]).
    + split; [eapply St_assign_old; [discriminate|eassumption..]|]. split; [apply rel_put; assumption|]. split; [apply lives_put, L|exact Lg].
    + split; [eapply St_assign_old; [discriminate|eassumption..]|]. split; [apply rel_put; assumption|]. split; [apply lives_put, L|exact Lg].
    + split; [eapply St_assign_old_throw; eassumption|]. split; [apply (rel_same _ _ _ _ _ R Sa G' A)|]. split; [exact L|exact Lg].
    + split; [eapply St_assign; eassumption|]. split; [apply rel_put; assumption|]. split; [apply lives_put, L|exact Lg].
    + split; [eapply St_assign_alloc; eassumption|]. split; [apply (rel_same _ _ _ _ _ R Sa G' A)|]. split; [exact L|exact Lg].
    + split; [eapply St_assign_throw; eassumption|]. split; [apply rel_put; assumption|]. split; [apply lives_put, L|exact Lg].
  - destruct Lg as [I Lg]. destruct (rel_get _ _ _ R (L _ I)) as (u & Su & G & Sa).
    cbn [HashModel.hexec]. unfold on, bind. rewrite Su. cbn. eexists _, _, _, _. split; [reflexivity|]. split; [eapply St_clear; exact Sa|].
    split; [apply rel_put; [exact R|apply empty_good, g_pos, G|apply empty_abs, g_pos, G]|]. split; [apply lives_put, L|exact Lg].
  - destruct Lg as [I Lg]. destruct (rel_get _ _ _ R (L _ I)) as (u & Su & G & Sa).
    cbn [HashModel.hexec]. unfold look, bind. rewrite Su. cbn. rewrite (count_ok u G).
    eexists _, _, _, _. split; [reflexivity|]. split; [apply St_size; exact Sa|]. split; [exact R|]. split; [exact L|exact Lg].
  - destruct Lg as [I Lg]. destruct (rel_get _ _ _ R (L _ I)) as (u & Su & G & Sa).
    cbn [HashModel.hexec]. unfold look, bind. rewrite Su. cbn. rewrite (isEmpty_ok u G).
    eexists _, _, _, _. split; [reflexivity|]. split; [apply St_empty; exact Sa|]. split; [exact R|]. split; [exact L|exact Lg].
  - destruct Lg as [I Lg]. destruct (rel_get _ _ _ R (L _ I)) as (u & Su & G & Sa).
    cbn [HashModel.hexec]. unfold get_table, look, bind. rewrite Su. cbn.
    eexists _, _, _, _. split; [reflexivity|]. split; [eapply St_copynew; exact Sa|]. split; [apply rel_put; [exact R|exact G|reflexivity]|].
    split; [apply lives_new, L|exact Lg].
  - destruct Lg as (I & I' & Lg). destruct (rel_get _ _ _ R (L _ I)) as (u & Su & G & Sa). destruct (rel_get _ _ _ R (L _ I')) as (u' & Su' & G' & Sa').
    cbn [HashModel.hexec]. unfold get_table, look, bind. rewrite Su'. cbn. destruct (Nat.eqb x t) eqn:E.
    + apply Nat.eqb_eq in E. subst x. eexists _, _, _, _. split; [reflexivity|]. split; [eapply St_copy; [exact Sa|exact Sa']|].
      rewrite insert_id by exact Sa. split; [exact R|]. split; [exact L|exact Lg].
    + rewrite Su. cbn. eexists _, _, _, _. split; [reflexivity|]. split; [eapply St_copy; [exact Sa|exact Sa']|].
      split; [apply rel_put; [exact R|exact G|reflexivity]|]. split; [apply lives_put, L|exact Lg].
  - destruct Lg as (N & I & I' & Lg). destruct (rel_get _ _ _ R (L _ I)) as (u & Su & G & Sa). destruct (rel_get _ _ _ R (L _ I')) as (u' & Su' & G' & Sa').
    cbn [HashModel.hexec]. unfold get_table, look, bind. rewrite Su. cbn. rewrite Su'. cbn.
    eexists _, _, _, _. split; [reflexivity|]. split; [eapply St_move; [exact N|exact Sa|exact Sa']|].
    split; [apply rel_put; [apply rel_put; [exact R|apply empty_good; lia|apply empty_abs; lia]|exact G|reflexivity]|].
    split; [apply lives_put, lives_put, L|exact Lg].
  - destruct Lg as (I & I' & Lg). destruct (rel_get _ _ _ R (L _ I)) as (u & Su & G & Sa). destruct (rel_get _ _ _ R (L _ I')) as (u' & Su' & G' & Sa').
    cbn [HashModel.hexec]. unfold get_table, look, bind. rewrite Su. cbn. rewrite Su'. cbn.
    eexists _, _, _, _. split; [reflexivity|]. split; [eapply St_swap; [exact Sa|exact Sa']|].
    split; [apply rel_put; [apply rel_put; [exact R|exact G'|reflexivity]|exact G|reflexivity]|].
    split; [apply lives_put, lives_put, L|exact Lg].
  - destruct Lg as [I Lg]. destruct (rel_get _ _ _ R (L _ I)) as (u & Su & G & Sa).
    cbn [HashModel.hexec]. unfold get_table, look, bind. rewrite Su. cbn.
    eexists _, _, _, _. split; [reflexivity|]. split; [eapply St_items; [exact Sa|apply items_ok, G]|]. split; [exact R|]. split; [exact L|exact Lg].
Qed.
Lemma run_rel l : forall s a alive, rel s a -> lives a alive -> legal alive l ->
  exists rs s' a', hrun l s = Ok rs s' /\ hsteps c dflt l a rs a' /\ rel s' a'.
Proof.
  induction l as [|[e o] l IH]; intros s a alive R L Lg.
  - eexists _, _, _. split; [reflexivity|]. split; [constructor|exact R].
  - destruct (step_ok e o l s a alive R L Lg) as (r & s' & a' & al & E & S & R' & L' & Lg').
    destruct (IH s' a' al R' L' Lg') as (rs & s'' & a'' & E' & S' & R'').
    eexists _, _, _. cbn [HashModel.hrun]. unfold bind. rewrite E, E'. split; [reflexivity|]. split; [econstructor; eassumption|exact R''].
Qed.
Lemma run_ok l : legal ∅ l -> exists rs s' a', hrun l ∅ = Ok rs s' /\ hsteps c dflt l ∅ rs a'.
Proof.
  intros Lg. destruct (run_rel l ∅ ∅ ∅) as (rs & s' & a' & E & S & _).
  - intros t. rewrite !lookup_empty. exact I.
  - intros t I. apply elem_of_empty in I. destruct I.
  - exact Lg.
  - exists rs, s', a'. auto.
Qed.
Lemma hstep_det e o a r a' r2 a2 : hstep c dflt e o a r a' -> hstep c dflt e o a r2 a2 -> same_answer c r r2 /\ a' = a2.
Proof.
  intros S1 S2. inversion S1; subst; inversion S2; subst;
    repeat match goal with X : ?b !! ?t = Some ?m, Y : ?b !! ?t = Some ?n |- _ => rewrite X in Y; injection Y as <- end;
    try (split; reflexivity); try congruence.
  - split; [|reflexivity]. cbn [same_answer].
    match goal with |- option_map _ ?x = option_map _ ?y => destruct x as [[k1 v1]|]; destruct y as [[k2 v2]|]; cbn in *; try congruence end.
    repeat match goal with X : forall x, Some _ = Some x -> _ |- _ => specialize (X _ eq_refl); cbn in X end. congruence.
  - split; [|reflexivity]. cbn [same_answer]. etransitivity; [eassumption|]. symmetry. assumption.
Qed.
Lemma hsteps_det l : forall a rs a' rs2 a2, hsteps c dflt l a rs a' -> hsteps c dflt l a rs2 a2 -> Forall2 (same_answer c) rs rs2.
Proof.
  induction l as [|[e o] l IH]; intros a rs a' rs2 a2 S1 S2; inversion S1; subst; inversion S2; subst; [constructor|].
  match goal with X : hstep _ _ e o a ?r ?b, Y : hstep _ _ e o a ?r' ?b' |- _ => destruct (hstep_det _ _ _ _ _ _ _ X Y) as [Sa ->] end.
  constructor; [exact Sa|]. eapply IH; eassumption.
Qed.
End Proof.
Section Two.
Context {K C V : Type} `{Countable C}.
Variables (c : K -> C) (dflt : V) (keq : K -> K -> bool).
Hypothesis Hkeq : forall x y, keq x y = true <-> c x = c y.
Lemma hash_irrelevant h1 g1 h2 g2 l :
  (forall x y, c x = c y -> h1 x = h1 y) -> (forall x y, c x = c y -> h2 x = h2 y) -> legal ∅ l ->
  exists rs1 s1 rs2 s2, hrun h1 keq dflt g1 l ∅ = Ok rs1 s1 /\ hrun h2 keq dflt g2 l ∅ = Ok rs2 s2 /\ Forall2 (same_answer c) rs1 rs2.
Proof.
  intros H1 H2 Lg.
  destruct (run_ok c h1 keq dflt g1 Hkeq H1 l Lg) as (rs1 & s1 & a1 & E1 & S1).
  destruct (run_ok c h2 keq dflt g2 Hkeq H2 l Lg) as (rs2 & s2 & a2 & E2 & S2).
  exists rs1, s1, rs2, s2. split; [exact E1|]. split; [exact E2|]. eapply hsteps_det; eassumption.
Qed.
End Two.
