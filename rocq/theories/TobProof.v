(** Proofs about the reference counts of Tcl objects. *)
From Coq Require Import ZifyBool.
From stdpp Require Import gmap.
From Verif Require Import Base ZList StrSpec TobModel TobMeet.
From Verif Require ScriptModel.
Open Scope Z_scope.

Lemma bind_ok {S A B} (m : M S A) (k : A -> M S B) s v s' : m s = Ok v s' -> bind m k s = k v s'.
Proof. unfold bind. intros ->. reflexivity. Qed.

(** Counting. *)
Lemma times_app o l l' : times o (l ++ l') = times o l + times o l'.
Proof. induction l as [|x l IH]; cbn [times app]; [lia|]. rewrite IH. lia. Qed.
Lemma times_perm o l l' : Permutation l l' -> times o l = times o l'.
Proof. induction 1; cbn [times]; lia. Qed.
Lemma times_nonneg o l : 0 <= times o l.
Proof. induction l as [|x l IH]; cbn [times]; [lia|]. destruct (Pos.eqb x o); lia. Qed.
Lemma times_in o l : o ∈ l <-> 1 <= times o l.
Proof.
  induction l as [|x l IH]; cbn [times].
  - split; [intros X; inversion X|lia].
  - rewrite elem_of_cons, IH. pose proof (times_nonneg o l). destruct (Pos.eqb_spec x o) as [->|N]; [split; [lia|auto]|]. split; [intros [->|X]; [congruence|lia]|intros X; right; lia].
Qed.
Lemma cells_insert h o ob : h !! o = None -> Permutation (cells (<[o := ob]> h)) (elems (t_val ob) ++ cells h).
Proof. intros N. unfold cells. rewrite (map_to_list_insert h o ob N). reflexivity. Qed.
Lemma cells_delete h o ob : h !! o = Some ob -> Permutation (cells h) (elems (t_val ob) ++ cells (delete o h)).
Proof. intros E. rewrite <- (insert_delete h o ob E) at 1. apply cells_insert, lookup_delete. Qed.
Lemma cells_update h o ob ob' : h !! o = Some ob -> Permutation (elems (t_val ob) ++ cells (<[o := ob']> h)) (elems (t_val ob') ++ cells h).
Proof.
  intros E. rewrite <- (insert_delete_insert h o ob'). rewrite (cells_insert (delete o h) o ob' (lookup_delete h o)), (cells_delete h o ob E).
  rewrite !app_assoc. apply Permutation_app_tail, Permutation_app_comm.
Qed.
Lemma cells_same h o ob ob' : h !! o = Some ob -> t_val ob' = t_val ob -> Permutation (cells (<[o := ob']> h)) (cells h).
Proof. intros E V. pose proof (cells_update h o ob ob' E) as P. rewrite V in P. exact (Permutation_app_inv_l _ _ _ P). Qed.
Lemma cells_elem h o ob e : h !! o = Some ob -> e ∈ elems (t_val ob) -> e ∈ cells h.
Proof. intros E I. rewrite (cells_delete h o ob E). apply elem_of_app. left. exact I. Qed.

(** The invariant. *)
Lemma counted_perm h n X X' T : Permutation X X' -> counted h n X T -> counted h n X' T.
Proof.
  intros P [C1 C2 C3 C4 C5]. constructor; try assumption.
  - intros o ob E. rewrite (C1 o ob E). apply times_perm. rewrite P. reflexivity.
  - intros o I. apply C2. rewrite P. exact I.
Qed.
Lemma counted_temps h n X T T' : (forall o, o ∈ T -> o ∈ T') -> counted h n X T -> counted h n X T'.
Proof. intros P [C1 C2 C3 C4 C5]. constructor; try assumption. intros o ob E. destruct (C3 o ob E) as [?|?]; auto. Qed.
Lemma counted_fresh h n X T : counted h n X T -> h !! n = None.
Proof. intros C. destruct (h !! n) eqn:E; [|reflexivity]. assert (n < n)%positive; [apply (c_next _ _ _ _ C); eauto|lia]. Qed.
Lemma counted_new h n X T v : counted h n X T -> elems v = [] -> counted (<[n := Tob 0 v]> h) (Pos.succ n) X (n :: T).
Proof.
  intros C V. pose proof (counted_fresh _ _ _ _ C) as F. pose proof (cells_insert h n (Tob 0 v) F) as P. cbn [t_val] in P. rewrite V in P. cbn [app] in P.
  assert (n ∉ X ++ cells h) as Nn by (intros I; destruct (c_live _ _ _ _ C n I); congruence).
  constructor.
  - intros o ob E. rewrite (times_perm o _ (X ++ cells h)) by (rewrite P; reflexivity). destruct (decide (n = o)) as [<-|N].
    + rewrite lookup_insert in E. injection E as <-. cbn. pose proof (times_nonneg n (X ++ cells h)). rewrite times_in in Nn. lia.
    + rewrite lookup_insert_ne in E by exact N. apply (c_rc _ _ _ _ C o ob E).
  - intros o I. rewrite P in I. destruct (c_live _ _ _ _ C o I) as (ob & E). exists ob. rewrite lookup_insert_ne; [exact E|]. intros <-. congruence.
  - intros o ob E. destruct (decide (n = o)) as [<-|N]; [right; left|]. rewrite lookup_insert_ne in E by exact N. destruct (c_used _ _ _ _ C o ob E); [auto|right; right; assumption].
  - intros o I. destruct (decide (n = o)) as [<-|N]; [lia|]. rewrite lookup_insert_ne in I by exact N. pose proof (c_next _ _ _ _ C o I). lia.
  - destruct (c_rank _ _ _ _ C) as (f & R). exists f. intros o ob e E I. destruct (decide (n = o)) as [<-|N].
    + rewrite lookup_insert in E. injection E as <-. cbn in I. rewrite V in I. inversion I.
    + rewrite lookup_insert_ne in E by exact N. eapply R; eassumption.
Qed.
Lemma counted_set h n X X' T T' o ob r : counted h n X T -> h !! o = Some ob -> r = times o (X' ++ cells h) -> (forall o', o' <> o -> times o' (X' ++ cells h) = times o' (X ++ cells h)) ->
  (1 <= r \/ o ∈ T') -> (forall x, x ∈ T -> x <> o -> x ∈ T') -> counted (<[o := Tob r (t_val ob)]> h) n X' T'.
Proof.
  intros C E Hr Ho Hu HT. pose proof (cells_same h o ob (Tob r (t_val ob)) E eq_refl) as P. constructor.
  - intros x xb Ex. rewrite (times_perm x _ (X' ++ cells h)) by (rewrite P; reflexivity). destruct (decide (o = x)) as [<-|N].
    + rewrite lookup_insert in Ex. injection Ex as <-. exact Hr.
    + rewrite lookup_insert_ne in Ex by exact N. rewrite Ho by congruence. apply (c_rc _ _ _ _ C x xb Ex).
  - intros x I. rewrite P in I. destruct (decide (o = x)) as [<-|N]; [rewrite lookup_insert; eauto|]. rewrite lookup_insert_ne by exact N.
    apply (c_live _ _ _ _ C). apply times_in. rewrite <- Ho by congruence. apply times_in, I.
  - intros x xb Ex. destruct (decide (o = x)) as [<-|N]; [rewrite lookup_insert in Ex; injection Ex as <-; exact Hu|]. rewrite lookup_insert_ne in Ex by exact N.
    destruct (c_used _ _ _ _ C x xb Ex) as [?|?]; [auto|right; apply HT; congruence].
  - intros x I. apply (c_next _ _ _ _ C). destruct (decide (o = x)) as [<-|N]; [eauto|]. rewrite lookup_insert_ne in I by exact N. exact I.
  - destruct (c_rank _ _ _ _ C) as (f & R). exists f. intros x xb e Ex I. destruct (decide (o = x)) as [<-|N].
    + rewrite lookup_insert in Ex. injection Ex as <-. cbn in I. eapply R; eassumption.
    + rewrite lookup_insert_ne in Ex by exact N. eapply R; eassumption.
Qed.
Lemma counted_incr h n X T T' o ob : counted h n X T -> h !! o = Some ob -> (forall x, x ∈ T -> x <> o -> x ∈ T') ->
  counted (<[o := Tob (t_rc ob + 1) (t_val ob)]> h) n (o :: X) T'.
Proof.
  intros C E HT. pose proof (c_rc _ _ _ _ C o ob E) as R. pose proof (times_nonneg o (X ++ cells h)). apply (counted_set h n X (o :: X) T); try assumption.
  - cbn [app times]. rewrite Pos.eqb_refl. lia.
  - intros x N. cbn [app times]. destruct (Pos.eqb_spec o x); [congruence|lia].
  - left. lia.
Qed.
Lemma counted_dec h n X T o ob : counted h n (o :: X) T -> h !! o = Some ob -> 1 < t_rc ob -> counted (<[o := Tob (t_rc ob - 1) (t_val ob)]> h) n X T.
Proof.
  intros C E L. pose proof (c_rc _ _ _ _ C o ob E) as R. cbn [app times] in R. rewrite Pos.eqb_refl in R. apply (counted_set h n (o :: X) X T); try assumption.
  - lia.
  - intros x N. cbn [app times]. destruct (Pos.eqb_spec o x); [congruence|lia].
  - left. lia.
  - auto.
Qed.
(** [o] has no references left. *)
Lemma counted_free h n X Y T T' o ob : counted h n X T -> h !! o = Some ob -> times o (Y ++ cells h) = 0 -> (forall x, x <> o -> times x (Y ++ cells h) = times x (X ++ cells h)) ->
  (forall x, x ∈ T -> x <> o -> x ∈ T') -> counted (delete o h) n (elems (t_val ob) ++ Y) T'.
Proof.
  intros C E Z Ho HT. pose proof (cells_delete h o ob E) as P.
  assert (forall x, times x ((elems (t_val ob) ++ Y) ++ cells (delete o h)) = times x (Y ++ cells h)) as Q.
  { intros x. apply times_perm. rewrite P. rewrite !app_assoc. apply Permutation_app_tail, Permutation_app_comm. }
  constructor.
  - intros x xb Ex. apply lookup_delete_Some in Ex as [N Ex]. rewrite Q, Ho by congruence. apply (c_rc _ _ _ _ C x xb Ex).
  - intros x I. apply times_in in I. rewrite Q in I. assert (x <> o) as N by (intros ->; lia). rewrite lookup_delete_ne by congruence. apply (c_live _ _ _ _ C), times_in. rewrite <- Ho by exact N. exact I.
  - intros x xb Ex. apply lookup_delete_Some in Ex as [N Ex]. destruct (c_used _ _ _ _ C x xb Ex) as [?|I]; [auto|]. right. apply HT; [exact I|congruence].
  - intros x (xb & Ex). apply lookup_delete_Some in Ex as [N Ex]. apply (c_next _ _ _ _ C). eauto.
  - destruct (c_rank _ _ _ _ C) as (f & R). exists f. intros x xb e Ex I. apply lookup_delete_Some in Ex as [N Ex]. eapply R; eassumption.
Qed.
(** A reference goes into a list that nobody refers to. *)
Lemma counted_cell h n X T l es e : counted h n (e :: X) T -> h !! l = Some (Tob 0 (TList es)) -> counted (<[l := Tob 0 (TList (es ++ [e]))]> h) n X T.
Proof.
  intros C E. pose proof (c_rc _ _ _ _ C l _ E) as Rl. cbn [t_rc] in Rl. pose proof (times_nonneg l (X ++ cells h)) as Nl. cbn [app times] in Rl.
  assert (e <> l) as Nel by (intros ->; rewrite Pos.eqb_refl in Rl; lia). destruct (Pos.eqb_spec e l) as [?|_]; [contradiction|].
  assert (Permutation (cells (<[l := Tob 0 (TList (es ++ [e]))]> h)) (e :: cells h)) as P.
  { pose proof (cells_update h l _ (Tob 0 (TList (es ++ [e]))) E) as P. cbn [t_val elems] in P. rewrite <- app_assoc in P. exact (Permutation_app_inv_l _ _ _ P). }
  assert (forall x, times x (X ++ cells (<[l := Tob 0 (TList (es ++ [e]))]> h)) = times x ((e :: X) ++ cells h)) as Q.
  { intros x. apply times_perm. rewrite P. cbn [app]. symmetry. apply Permutation_middle. }
  assert (l ∉ X ++ cells h) as Nll by (rewrite times_in; lia).
  constructor.
  - intros x xb Ex. rewrite Q. destruct (decide (l = x)) as [<-|N].
    + rewrite lookup_insert in Ex. injection Ex as <-. apply (c_rc _ _ _ _ C l _ E).
    + rewrite lookup_insert_ne in Ex by exact N. apply (c_rc _ _ _ _ C x xb Ex).
  - intros x I. apply times_in in I. rewrite Q in I. destruct (decide (l = x)) as [<-|N]; [rewrite lookup_insert; eauto|]. rewrite lookup_insert_ne by exact N. apply (c_live _ _ _ _ C), times_in, I.
  - intros x xb Ex. destruct (decide (l = x)) as [<-|N]; [rewrite lookup_insert in Ex; injection Ex as <-; apply (c_used _ _ _ _ C l _ E)|]. rewrite lookup_insert_ne in Ex by exact N. apply (c_used _ _ _ _ C x xb Ex).
  - intros x I. apply (c_next _ _ _ _ C). destruct (decide (l = x)) as [<-|N]; [eauto|]. rewrite lookup_insert_ne in I by exact N. exact I.
  - destruct (c_rank _ _ _ _ C) as (f & R). exists (fun x => if Pos.eqb x l then S (Nat.max (f l) (f e)) else f x). intros x xb y Ex I.
    assert (y <> l -> (f y < f x)%nat -> (if Pos.eqb y l then S (Nat.max (f l) (f e)) else f y) < (if Pos.eqb x l then S (Nat.max (f l) (f e)) else f x))%nat as G.
    { intros N1 N2. destruct (Pos.eqb_spec y l); [contradiction|]. destruct (Pos.eqb_spec x l) as [->|]; lia. }
    destruct (decide (l = x)) as [<-|N].
    + rewrite lookup_insert in Ex. injection Ex as <-. cbn [t_val elems] in I. apply elem_of_app in I as [I|I].
      * apply G; [intros ->; apply Nll, elem_of_app; right; exact (cells_elem h l _ l E I)|exact (R l _ y E I)].
      * apply elem_of_list_singleton in I. subst y. destruct (Pos.eqb_spec e l); [contradiction|]. rewrite Pos.eqb_refl. lia.
    + rewrite lookup_insert_ne in Ex by exact N. apply G; [|exact (R x xb y Ex I)]. intros ->. apply Nll, elem_of_app. right. exact (cells_elem h x xb l Ex I).
Qed.
(** With no references nothing is there. *)
Lemma cells_parent h e : e ∈ cells h -> exists o ob, h !! o = Some ob /\ e ∈ elems (t_val ob).
Proof.
  unfold cells. intros I. apply elem_of_list_In, in_flat_map in I as ((o & ob) & I & J). apply elem_of_list_In in I, J. exists o, ob. split; [apply elem_of_map_to_list; exact I|exact J].
Qed.
Lemma le_list_max (f : positive -> nat) (l : list positive) x : x ∈ l -> (f x <= list_max (map f l))%nat.
Proof. intros I. apply elem_of_list_In in I. pose proof (list_max_le (map f l) (list_max (map f l))) as [L _]. specialize (L (Nat.le_refl _)). rewrite List.Forall_forall in L. apply L, in_map, I. Qed.
Lemma counted_empty h n : counted h n [] [] -> h = ∅.
Proof.
  intros C. apply map_empty. intros o. destruct (h !! o) as [ob|] eqn:E; [|reflexivity]. exfalso. destruct (c_rank _ _ _ _ C) as (f & R).
  set (N := list_max (map f (map fst (map_to_list h)))).
  assert (forall o ob, h !! o = Some ob -> (f o <= N)%nat) as B.
  { intros x xb Ex. apply le_list_max. apply elem_of_list_In, in_map_iff. exists (x, xb). split; [reflexivity|]. apply elem_of_list_In, elem_of_map_to_list, Ex. }
  assert (forall k o ob, h !! o = Some ob -> (k <= f o)%nat -> False) as G; [|exact (G O o ob E (Nat.le_0_l _))].
  intros k. remember (S N - k)%nat as j eqn:J. revert k J. induction j as [|j IH]; intros k J x xb Ex L; [pose proof (B x xb Ex); lia|].
  destruct (c_used _ _ _ _ C x xb Ex) as [U|U]; [|inversion U]. rewrite (c_rc _ _ _ _ C x xb Ex) in U. apply times_in in U. cbn [app] in U.
  destruct (cells_parent h x U) as (p & pb & Ep & I). pose proof (R p pb x Ep I). apply (IH (S k) ltac:(lia) p pb Ep). lia.
Qed.

(** Dropping references. *)
Definition survive (h h' : gmap positive tob) : Prop := forall x ob', h' !! x = Some ob' -> exists ob, h !! x = Some ob /\ t_val ob' = t_val ob.
Lemma survive_refl h : survive h h.
Proof. intros x ob E. eauto. Qed.
Lemma survive_trans h h' h'' : survive h h' -> survive h' h'' -> survive h h''.
Proof. intros A B x ob E. destruct (B x ob E) as (ob1 & E1 & V1). destruct (A x ob1 E1) as (ob2 & E2 & V2). exists ob2. split; [exact E2|congruence]. Qed.
Lemma survive_set h o ob r : h !! o = Some ob -> survive h (<[o := Tob r (t_val ob)]> h).
Proof.
  intros E x xb Ex. destruct (decide (o = x)) as [<-|N]; [rewrite lookup_insert in Ex; injection Ex as <-; exists ob; auto|]. rewrite lookup_insert_ne in Ex by exact N. exists xb. auto.
Qed.
Lemma survive_delete h o : survive h (delete o h).
Proof. intros x xb Ex. apply lookup_delete_Some in Ex as [_ Ex]. exists xb. auto. Qed.
Lemma survive_cells h h' x : survive h h' -> x ∈ cells h' -> x ∈ cells h.
Proof. intros S I. destruct (cells_parent h' x I) as (p & pb & Ep & Ix). destruct (S p pb Ep) as (ob & E & V). apply (cells_elem h p ob x E). rewrite <- V. exact Ix. Qed.
Lemma up_heap_up h h' s : up_heap h (up_heap h' s) = up_heap h s.
Proof. reflexivity. Qed.
Lemma up_heap_same s : up_heap (t_heap s) s = s.
Proof. destruct s. reflexivity. Qed.
Lemma look_ok o ob s : t_heap s !! o = Some ob -> look o s = Ok ob s.
Proof. intros E. unfold look. rewrite E. reflexivity. Qed.
Lemma drop_ok : forall fuel ws s X T, counted (t_heap s) (t_next s) (ws ++ X) T -> (length ws + length (cells (t_heap s)) <= fuel)%nat ->
  exists h', tdrop fuel ws s = Ok tt (up_heap h' s) /\ counted h' (t_next s) X T /\ survive (t_heap s) h' /\
    (forall x, x ∉ ws ++ cells (t_heap s) -> h' !! x = t_heap s !! x).
Proof.
  induction fuel as [|fuel IH]; intros ws s X T C L; destruct ws as [|o ws]; cbn [length] in L; try lia.
  - exists (t_heap s). rewrite up_heap_same. cbn. eauto using survive_refl.
  - exists (t_heap s). rewrite up_heap_same. cbn. eauto using survive_refl.
  - cbn [tdrop]. destruct (c_live _ _ _ _ C o) as (ob & E); [left|]. rewrite (bind_ok _ _ s ob s (look_ok o ob s E)). cbn [app] in C.
    pose proof (c_rc _ _ _ _ C o ob E) as R. cbn [app times] in R. rewrite Pos.eqb_refl in R. pose proof (times_nonneg o ((ws ++ X) ++ cells (t_heap s))) as Nn.
    pose proof (cells_delete _ o ob E) as P. destruct (Z.leb_spec (t_rc ob) 1) as [Le|Gt].
    + unfold tput at 1, bind at 1. destruct (IH (elems (t_val ob) ++ ws) (up_heap (delete o (t_heap s)) s) X T) as (h' & D & C' & S' & F').
      * cbn [t_heap up_heap t_next]. rewrite <- app_assoc. apply (counted_free _ _ _ (ws ++ X) T T o ob C E); [lia| |auto]. intros x N. cbn [app times]. destruct (Pos.eqb_spec o x); [congruence|lia].
      * cbn [t_heap up_heap]. apply Permutation_length in P. rewrite app_length in P |- *. lia.
      * exists h'. rewrite D, up_heap_up. split; [reflexivity|]. split; [exact C'|]. cbn [t_heap up_heap] in S', F'. split; [exact (survive_trans _ _ _ (survive_delete _ o) S')|].
        intros x Nx. cbn [app] in Nx. rewrite not_elem_of_cons, not_elem_of_app in Nx. destruct Nx as (N1 & N2 & N3). rewrite P in N3. apply not_elem_of_app in N3 as (N3 & N4).
        rewrite F'; [apply lookup_delete_ne; congruence|]. rewrite !not_elem_of_app. auto.
    + unfold set_ob, tput at 1, bind at 1. pose proof (cells_same _ o ob (Tob (t_rc ob - 1) (t_val ob)) E eq_refl) as Q.
      destruct (IH ws (up_heap (<[o := Tob (t_rc ob - 1) (t_val ob)]> (t_heap s)) s) X T) as (h' & D & C' & S' & F').
      * cbn [t_heap up_heap t_next]. apply counted_dec; assumption.
      * cbn [t_heap up_heap]. rewrite (Permutation_length Q). lia.
      * exists h'. rewrite D, up_heap_up. split; [reflexivity|]. split; [exact C'|]. cbn [t_heap up_heap] in S', F'. split; [exact (survive_trans _ _ _ (survive_set _ o ob _ E) S')|].
        intros x Nx. cbn [app] in Nx. rewrite not_elem_of_cons, not_elem_of_app in Nx. destruct Nx as (N1 & N2 & N3).
        rewrite F'; [apply lookup_insert_ne; congruence|]. rewrite Q, not_elem_of_app. auto.
Qed.
Lemma decr_ok ws s X T : counted (t_heap s) (t_next s) (ws ++ X) T -> exists h', tdecr ws s = Ok tt (up_heap h' s) /\ counted h' (t_next s) X T /\ survive (t_heap s) h' /\
    (forall x, x ∉ ws ++ cells (t_heap s) -> h' !! x = t_heap s !! x).
Proof. intros C. unfold tdecr. apply drop_ok; [exact C|lia]. Qed.
(** An object with count 0 goes. *)
Lemma decr_temp o ob s X T : counted (t_heap s) (t_next s) X (o :: T) -> t_heap s !! o = Some ob -> t_rc ob = 0 ->
  exists h', tdecr [o] s = Ok tt (up_heap h' s) /\ counted h' (t_next s) X T /\ survive (t_heap s) h' /\ h' !! o = None.
Proof.
  intros C E R. unfold tdecr. cbn [length Nat.add tdrop]. rewrite (bind_ok _ _ s ob s (look_ok o ob s E)). rewrite R. change (0 <=? 1) with true. cbn iota. unfold tput at 1, bind at 1.
  pose proof (c_rc _ _ _ _ C o ob E) as Rc. rewrite app_nil_r. destruct (drop_ok (length (cells (t_heap s))) (elems (t_val ob)) (up_heap (delete o (t_heap s)) s) X T) as (h' & D & C' & S' & _).
  - cbn [t_heap up_heap t_next]. apply (counted_free _ _ X X (o :: T) T o ob C E); [lia|auto|]. intros x I N. apply elem_of_cons in I as [?|?]; [congruence|assumption].
  - cbn [t_heap up_heap]. rewrite (Permutation_length (cells_delete _ o ob E)), app_length. lia.
  - exists h'. rewrite D, up_heap_up. split; [reflexivity|]. split; [exact C'|]. cbn [t_heap up_heap] in S'. split; [exact (survive_trans _ _ _ (survive_delete _ o) S')|].
    destruct (h' !! o) as [xb|] eqn:Ex; [|reflexivity]. destruct (S' o xb Ex) as (? & A & _). rewrite lookup_delete in A. discriminate.
Qed.

(** References in slots. *)
Notation held_by m := (map snd (map_to_list m)).
Lemma slots_insert (m : gmap slot positive) k o : Permutation (opt_list (m !! k) ++ held_by (<[k := o]> m)) (o :: held_by m).
Proof.
  destruct (m !! k) as [old|] eqn:E; cbn [opt_list app].
  - rewrite <- (insert_delete_insert m k o). rewrite (map_to_list_insert (delete k m) k o (lookup_delete m k)).
    rewrite <- (insert_delete m k old E) at 2. rewrite (map_to_list_insert (delete k m) k old (lookup_delete m k)). cbn [map snd]. apply perm_swap.
  - rewrite (map_to_list_insert m k o E). reflexivity.
Qed.
Lemma slots_delete (m : gmap slot positive) k : Permutation (opt_list (m !! k) ++ held_by (delete k m)) (held_by m).
Proof.
  destruct (m !! k) as [old|] eqn:E; cbn [opt_list app]; [|rewrite delete_notin by exact E; reflexivity].
  rewrite <- (insert_delete m k old E) at 2. rewrite (map_to_list_insert (delete k m) k old (lookup_delete m k)). reflexivity.
Qed.
Lemma slot_outer s k o : t_slots s !! k = Some o -> o ∈ outer s.
Proof. intros E. unfold outer. apply elem_of_app. left. apply elem_of_list_In, in_map_iff. exists (k, o). split; [reflexivity|]. apply elem_of_list_In, elem_of_map_to_list, E. Qed.
Lemma incr_ok o ob s : t_heap s !! o = Some ob -> tincr o s = Ok tt (up_heap (<[o := Tob (t_rc ob + 1) (t_val ob)]> (t_heap s)) s).
Proof. intros E. unfold tincr. rewrite (bind_ok _ _ s ob s (look_ok o ob s E)). reflexivity. Qed.
Lemma store_ok k o ob s T T' : counted (t_heap s) (t_next s) (outer s) T -> t_heap s !! o = Some ob -> (forall x, x ∈ T -> x <> o -> x ∈ T') ->
  exists h', tstore k (Some o) s = Ok tt (Tst h' (t_next s) (<[k := o]> (t_slots s)) (t_held s)) /\
    counted h' (t_next s) (outer (Tst h' (t_next s) (<[k := o]> (t_slots s)) (t_held s))) T' /\ survive (t_heap s) h' /\
    (forall x, x <> o -> x ∉ outer s ++ cells (t_heap s) -> h' !! x = t_heap s !! x).
Proof.
  intros C E HT. unfold tstore. rewrite (bind_ok _ _ _ _ _ (incr_ok o ob s E)). unfold tslot, tget, tput. unfold bind at 1. unfold bind at 1. cbn [t_slots up_heap].
  set (h1 := <[o := Tob (t_rc ob + 1) (t_val ob)]> (t_heap s)). pose proof (counted_incr _ _ _ T T' o ob C E HT) as C1. fold h1 in C1.
  change (up_slots (<[k := o]> (t_slots s)) (up_heap h1 s)) with (Tst h1 (t_next s) (<[k := o]> (t_slots s)) (t_held s)). set (s1 := Tst h1 _ _ _).
  destruct (decr_ok (opt_list (t_slots s !! k)) s1 (outer s1) T') as (h' & D & C' & S' & F').
  { cbn [t_heap t_next s1]. apply (counted_perm h1 (t_next s) (o :: outer s)); [|exact C1]. unfold outer. cbn [t_slots t_held s1]. rewrite app_assoc, slots_insert. reflexivity. }
  exists h'. split; [exact D|]. split; [exact C'|]. cbn [t_heap s1] in S', F'. split; [exact (survive_trans _ _ _ (survive_set _ o ob _ E) S')|].
  intros x N Nx. apply not_elem_of_app in Nx as (N1 & N2). rewrite F'; [unfold h1; apply lookup_insert_ne; congruence|]. unfold h1. rewrite (cells_same _ o ob (Tob (t_rc ob + 1) (t_val ob)) E eq_refl), not_elem_of_app.
  split; [|exact N2]. destruct (t_slots s !! k) as [old|] eqn:Ek; cbn [opt_list]; [|intros I; inversion I]. intros I. apply elem_of_list_singleton in I. subst x. exact (N1 (slot_outer s k old Ek)).
Qed.
Lemma clear_ok k s T : counted (t_heap s) (t_next s) (outer s) T ->
  exists h', clear_slot k s = Ok tt (Tst h' (t_next s) (delete k (t_slots s)) (t_held s)) /\
    counted h' (t_next s) (outer (Tst h' (t_next s) (delete k (t_slots s)) (t_held s))) T /\ survive (t_heap s) h'.
Proof.
  intros C. unfold clear_slot, tslot, tget, tput. unfold bind at 1. unfold bind at 1. set (s1 := up_slots (delete k (t_slots s)) s).
  destruct (decr_ok (opt_list (t_slots s !! k)) s1 (outer s1) T) as (h' & D & C' & S' & _).
  { cbn [t_heap t_next s1 up_slots]. apply (counted_perm _ (t_next s) (outer s)); [|exact C]. unfold outer. cbn [t_slots t_held s1 up_slots]. rewrite app_assoc, slots_delete. reflexivity. }
  exists h'. auto.
Qed.
Lemma remove1_perm o l : o ∈ l -> Permutation l (o :: remove1 o l).
Proof.
  induction l as [|x l IH]; intros I; [inversion I|]. cbn [remove1]. destruct (Pos.eqb_spec x o) as [->|N]; [reflexivity|].
  apply elem_of_cons in I as [->|I]; [congruence|]. rewrite (IH I) at 1. apply perm_swap.
Qed.
Lemma release_ok o s T : counted (t_heap s) (t_next s) (outer s) T -> o ∈ t_held s ->
  exists h', release o s = Ok tt (Tst h' (t_next s) (t_slots s) (remove1 o (t_held s))) /\
    counted h' (t_next s) (outer (Tst h' (t_next s) (t_slots s) (remove1 o (t_held s)))) T /\ survive (t_heap s) h'.
Proof.
  intros C I. unfold release, tput. unfold bind at 1. set (s1 := up_held (remove1 o (t_held s)) s).
  destruct (decr_ok [o] s1 (outer s1) T) as (h' & D & C' & S' & _).
  { cbn [t_heap t_next s1 up_held]. apply (counted_perm _ (t_next s) (outer s)); [|exact C]. unfold outer. cbn [t_slots t_held s1 up_held].
    rewrite (remove1_perm o (t_held s) I) at 1. rewrite Permutation_app_comm. cbn [app]. constructor. apply Permutation_app_comm. }
  exists h'. auto.
Qed.
Lemma held_alive s T o : counted (t_heap s) (t_next s) (outer s) T -> o ∈ t_held s -> is_Some (t_heap s !! o).
Proof. intros C I. apply (c_live _ _ _ _ C). unfold outer. rewrite !elem_of_app. auto. Qed.
Lemma again_ok o ob s T T' : counted (t_heap s) (t_next s) (outer s) T -> t_heap s !! o = Some ob -> (forall x, x ∈ T -> x <> o -> x ∈ T') ->
  exists h', hold_again o s = Ok tt (Tst h' (t_next s) (t_slots s) (o :: t_held s)) /\
    counted h' (t_next s) (outer (Tst h' (t_next s) (t_slots s) (o :: t_held s))) T' /\ survive (t_heap s) h'.
Proof.
  intros C E HT. unfold hold_again, tput. rewrite (bind_ok _ _ _ _ _ (incr_ok o ob s E)). exists (<[o := Tob (t_rc ob + 1) (t_val ob)]> (t_heap s)). split; [reflexivity|]. split; [|apply survive_set, E].
  apply (counted_perm _ _ (o :: outer s)); [|exact (counted_incr _ _ _ T T' o ob C E HT)]. unfold outer. cbn [t_slots t_held]. apply Permutation_middle.
Qed.

(** What is said survives. *)
Definition stays (h h' : gmap positive tob) : Prop := forall x ob ob', h !! x = Some ob -> h' !! x = Some ob' -> t_val ob' = t_val ob.
Lemma survive_stays h h' : survive h h' -> stays h h'.
Proof. intros S x ob ob' E E'. destruct (S x ob' E') as (ob1 & E1 & V). congruence. Qed.
Lemma says_stays s s' o v n X T : counted (t_heap s') n X T -> stays (t_heap s) (t_heap s') -> is_Some (t_heap s' !! o) -> says s o v -> says s' o v.
Proof.
  intros C S.
  assert (forall o t, is_Some (t_heap s' !! o) -> says_text s o t -> says_text s' o t) as A.
  { intros x t (xb & Ex) (r & E). pose proof (S x _ xb E Ex) as V. exists (t_rc xb). rewrite Ex. destruct xb. cbn in *. congruence. }
  assert (forall B (P Q : positive -> B -> Prop) o l, (forall o b, is_Some (t_heap s' !! o) -> P o b -> Q o b) -> is_Some (t_heap s' !! o) -> says_list P s o l -> says_list Q s' o l) as G.
  { intros B P Q x l PQ (xb & Ex) (r & es & E & F). pose proof (S x _ xb E Ex) as V. exists (t_rc xb), es. split; [rewrite Ex; destruct xb; cbn in *; congruence|].
    assert (forall e, e ∈ es -> is_Some (t_heap s' !! e)) as L.
    { intros e I. apply (c_live _ _ _ _ C), elem_of_app. right. apply (cells_elem _ x xb e Ex). rewrite V. exact I. }
    clear -F L PQ. induction F as [|e b es l H F IH]; constructor; [apply PQ; [apply L; left|exact H]|apply IH; intros x I; apply L; right; exact I]. }
  destruct v as [t|t|l|l]; cbn [says]; intros I H.
  - exact (A o t I H).
  - exact (A o t I H).
  - exact (G _ _ _ o l A I H).
  - refine (G _ _ _ o l _ I H). intros x b Ix Hx. exact (G _ _ _ x b A Ix Hx).
Qed.
Lemma says_survive s s' o v n X T : counted (t_heap s') n X T -> survive (t_heap s) (t_heap s') -> is_Some (t_heap s' !! o) -> says s o v -> says s' o v.
Proof. intros C S. exact (says_stays s s' o v n X T C (survive_stays _ _ S)). Qed.
(** New objects beside the old ones; those of [ex] may have changed. *)
Definition grow (ex : list positive) (s s' : tst) : Prop :=
  t_slots s' = t_slots s /\ t_held s' = t_held s /\ (t_next s <= t_next s')%positive /\ (forall x, (x < t_next s)%positive -> x ∉ ex -> t_heap s' !! x = t_heap s !! x).
Lemma grow_refl ex s : grow ex s s.
Proof. repeat split. lia. Qed.
Lemma grow_trans ex s s' s'' : grow ex s s' -> grow ex s' s'' -> grow ex s s''.
Proof. intros (A1 & A2 & A3 & A4) (B1 & B2 & B3 & B4). split_and!; try congruence; try lia. intros x L N. rewrite B4, A4; [reflexivity|..]; try assumption; lia. Qed.
Lemma grow_outer ex s s' : grow ex s s' -> outer s' = outer s.
Proof. intros (A1 & A2 & _). unfold outer. congruence. Qed.
Lemma says_grow s s' l X T e v : counted (t_heap s) (t_next s) X T -> grow [l] s s' -> l ∉ cells (t_heap s) -> e <> l -> says s e v -> says s' e v.
Proof.
  intros C (_ & _ & _ & G) Nl.
  assert (forall o ob, o <> l -> t_heap s !! o = Some ob -> t_heap s' !! o = Some ob) as A.
  { intros o ob N E. rewrite G; [exact E|apply (c_next _ _ _ _ C); eauto|]. rewrite elem_of_list_singleton. exact N. }
  assert (forall o t, o <> l -> says_text s o t -> says_text s' o t) as AT.
  { intros o t N (r & E). exists r. exact (A o _ N E). }
  assert (forall B (P Q : positive -> B -> Prop) o b, (forall o b, o <> l -> P o b -> Q o b) -> o <> l -> says_list P s o b -> says_list Q s' o b) as AL.
  { intros B P Q x b PQ N (r & es & E & F). exists r, es. split; [exact (A x _ N E)|].
    assert (forall e, e ∈ es -> e <> l) as L by (intros y I ->; exact (Nl (cells_elem _ x _ l E I))).
    clear -F L PQ. induction F as [|y c es b H F IH]; constructor; [apply PQ; [apply L; left|exact H]|apply IH; intros x I; apply L; right; exact I]. }
  destruct v as [t|t|b|b]; cbn [says]; intros N H.
  - exact (AT e t N H).
  - exact (AT e t N H).
  - exact (AL _ _ _ e b AT N H).
  - refine (AL _ _ _ e b _ N H). intros x c Nx Hx. exact (AL _ _ _ x c AT Nx Hx).
Qed.

(** Making objects of values. *)
Definition makes (m : Mt (option positive)) (v : cvalue) : Prop := forall s X T, counted (t_heap s) (t_next s) X T ->
  exists o w s', m s = Ok (Some o) s' /\ counted (t_heap s') (t_next s') X (o :: T) /\ (t_next s <= o)%positive /\ t_heap s' !! o = Some (Tob 0 w) /\ says s' o v /\ grow [] s s'.
Lemma new_ok v s X T : counted (t_heap s) (t_next s) X T -> elems v = [] ->
  exists s', tnew v s = Ok (t_next s) s' /\ counted (t_heap s') (t_next s') X (t_next s :: T) /\ t_heap s' !! t_next s = Some (Tob 0 v) /\ grow [] s s' /\ t_next s' = Pos.succ (t_next s).
Proof.
  intros C V. eexists. split; [reflexivity|]. cbn [t_heap t_next]. split; [exact (counted_new _ _ _ _ v C V)|]. split; [apply lookup_insert|]. split; [|reflexivity].
  repeat split; cbn [t_next t_heap]; [lia|]. intros x L _. apply lookup_insert_ne. lia.
Qed.
Lemma makes_text t : makes (let* o := tnew (TText t) in ret (Some o)) (CText t).
Proof.
  intros s X T C. destruct (new_ok (TText t) s X T C eq_refl) as (s' & D & C' & E & G & _). exists (t_next s), (TText t), s'. rewrite (bind_ok _ _ _ _ _ D). split_and!; try assumption; [reflexivity|lia|].
  exists 0. exact E.
Qed.
Lemma makes_string t : short t -> makes (string_to_tcl t) (CString t).
Proof. intros S. unfold short in S. unfold string_to_tcl. replace (zlen t <? 2147483647) with true by lia. exact (makes_text t). Qed.
Lemma rc0 h n X T o v : counted h n X T -> h !! o = Some (Tob 0 v) -> o ∉ X ++ cells h.
Proof. intros C E. rewrite times_in. rewrite <- (c_rc _ _ _ _ C o _ E). cbn. lia. Qed.
(** A reference to [e], which is there, goes into the list [l]. *)
Lemma append_one l e eb s X T T' es : counted (t_heap s) (t_next s) X T -> t_heap s !! l = Some (Tob 0 (TList es)) -> t_heap s !! e = Some eb -> e <> l -> (forall x, x ∈ T -> x <> e -> x ∈ T') ->
  exists s', tappend l (Some e) s = Ok tt s' /\ counted (t_heap s') (t_next s') X T' /\ t_heap s' !! l = Some (Tob 0 (TList (es ++ [e]))) /\
    t_heap s' !! e = Some (Tob (t_rc eb + 1) (t_val eb)) /\ t_slots s' = t_slots s /\ t_held s' = t_held s /\ t_next s' = t_next s /\ (forall x, x <> l -> x <> e -> t_heap s' !! x = t_heap s !! x).
Proof.
  intros C El Ee N HT. cbn [tappend]. rewrite (bind_ok _ _ _ _ _ (incr_ok e eb s Ee)). set (h1 := <[e := Tob (t_rc eb + 1) (t_val eb)]> (t_heap s)).
  assert (h1 !! l = Some (Tob 0 (TList es))) as E1 by (unfold h1; rewrite lookup_insert_ne by exact N; exact El). rewrite (bind_ok _ _ (up_heap h1 s) _ (up_heap h1 s) (look_ok l _ (up_heap h1 s) E1)). cbn [t_val t_rc].
  eexists. split; [reflexivity|]. cbn [t_heap t_next up_heap t_slots t_held]. split_and!; try reflexivity.
  - apply counted_cell; [|exact E1]. exact (counted_incr _ _ _ T T' e eb C Ee HT).
  - apply lookup_insert.
  - rewrite lookup_insert_ne by congruence. apply lookup_insert.
  - intros x N1 N2. unfold h1. rewrite !lookup_insert_ne by congruence. reflexivity.
Qed.
Lemma append_made m v l s X T es : makes m v -> counted (t_heap s) (t_next s) X (l :: T) -> t_heap s !! l = Some (Tob 0 (TList es)) ->
  exists e s', (forall k : Mt unit, (let* e := m in tappend l e ;;; k) s = k s') /\ counted (t_heap s') (t_next s') X (l :: T) /\ t_heap s' !! l = Some (Tob 0 (TList (es ++ [e]))) /\
    says s' e v /\ grow [l] s s'.
Proof.
  intros M C El. destruct (M s X (l :: T) C) as (e & w & s1 & D & C1 & Lt & Ee & Sy & (G1 & G2 & G3 & G4)).
  assert (l < t_next s)%positive as Ll by (apply (c_next _ _ _ _ C); eauto). assert (e <> l) as N by lia.
  assert (t_heap s1 !! l = Some (Tob 0 (TList es))) as El1 by (rewrite G4; [exact El|exact Ll|apply not_elem_of_nil]).
  destruct (append_one l e _ s1 X (e :: l :: T) (l :: T) es C1 El1 Ee N) as (s2 & D2 & C2 & El2 & Ee2 & A1 & A2 & A3 & A4).
  { intros x I Nx. apply elem_of_cons in I as [?|?]; [congruence|assumption]. }
  exists e, s2. split; [intros k; rewrite (bind_ok _ _ _ _ _ D), (bind_ok _ _ _ _ _ D2); reflexivity|]. split; [exact C2|]. split; [exact El2|]. split.
  - assert (survive (t_heap s1) (<[e := Tob 1 w]> (t_heap s1))) as S1 by (apply (survive_set _ e _ 1 Ee)).
    pose proof (counted_incr _ _ _ (e :: l :: T) (e :: l :: T) e _ C1 Ee (fun _ I _ => I)) as C1'. cbn [t_rc t_val] in C1'.
    assert (says (up_heap (<[e := Tob (0 + 1) w]> (t_heap s1)) s1) e v) as Sy1.
    { refine (says_survive s1 (up_heap (<[e := Tob (0 + 1) w]> (t_heap s1)) s1) e v _ _ _ C1' S1 _ Sy). cbn [t_heap up_heap]. rewrite lookup_insert. eauto. }
    refine (says_grow (up_heap (<[e := Tob (0 + 1) w]> (t_heap s1)) s1) s2 l _ _ e v C1' _ _ N Sy1).
    + repeat split; cbn [t_slots t_held t_next t_heap up_heap]; try assumption; [lia|]. intros x Lx Nx. rewrite elem_of_list_singleton in Nx. destruct (decide (x = e)) as [->|Ne].
      * rewrite lookup_insert. exact Ee2.
      * rewrite lookup_insert_ne by congruence. apply A4; congruence.
    + cbn [t_heap up_heap]. rewrite (cells_same _ e _ (Tob (0 + 1) w) Ee eq_refl). pose proof (rc0 _ _ _ _ l _ C1 El1) as R. rewrite not_elem_of_app in R. apply R.
  - unfold grow. split_and!; try congruence; try lia. intros x Lx Nx. rewrite elem_of_list_singleton in Nx. rewrite A4, G4; [reflexivity|exact Lx|apply not_elem_of_nil|exact Nx|lia].
Qed.
(** The loops. *)
Lemma says_same_grow s s' l X T es vs : counted (t_heap s) (t_next s) X (l :: T) -> t_heap s !! l = Some (Tob 0 (TList es)) -> grow [l] s s' ->
  Forall2 (says s) es vs -> Forall2 (says s') es vs.
Proof.
  intros C E G F. pose proof (rc0 _ _ _ _ l _ C E) as R. rewrite not_elem_of_app in R. destruct R as (_ & R).
  assert (forall e, e ∈ es -> e <> l) as L by (intros y I ->; exact (R (cells_elem _ l _ l E I))). clear E. induction F as [|y c es b H F IH]; constructor.
  - exact (says_grow s s' l X (l :: T) y c C G R (L y (elem_of_list_here y es)) H).
  - apply IH. intros x I. apply L. right. exact I.
Qed.
Lemma appends_ok (A : Type) (mk : A -> Mt (option positive)) (val : A -> cvalue) (loop : positive -> list A -> Mt unit) :
  (forall o a l, loop o (a :: l) = (let* e := mk a in tappend o e ;;; loop o l)) -> (forall o, loop o [] = ret tt) ->
  forall (l : list A) o s X T es vs, Forall (fun a => makes (mk a) (val a)) l -> counted (t_heap s) (t_next s) X (o :: T) -> t_heap s !! o = Some (Tob 0 (TList es)) -> Forall2 (says s) es vs ->
  exists es' s', loop o l s = Ok tt s' /\ counted (t_heap s') (t_next s') X (o :: T) /\ t_heap s' !! o = Some (Tob 0 (TList es')) /\ Forall2 (says s') es' (vs ++ map val l) /\ grow [o] s s'.
Proof.
  intros L1 L0. induction l as [|a l IH]; intros o s X T es vs F C E Fv.
  - rewrite L0. exists es, s. cbn [map]. rewrite app_nil_r. split_and!; try assumption; [reflexivity|apply grow_refl].
  - inversion F as [|? ? M F']; subst. rewrite L1. destruct (append_made (mk a) (val a) o s X T es M C E) as (e & s1 & D & C1 & E1 & S1 & G1). rewrite D.
    destruct (IH o s1 X T (es ++ [e]) (vs ++ [val a]) F' C1 E1) as (es' & s2 & D2 & C2 & E2 & F2 & G2).
    { apply Forall2_app; [exact (says_same_grow s s1 o X T es vs C E G1 Fv)|]. constructor; [exact S1|constructor]. }
    exists es', s2. split; [exact D2|]. split; [exact C2|]. split; [exact E2|]. split; [rewrite <- app_assoc in F2; exact F2|]. exact (grow_trans _ _ _ _ G1 G2).
Qed.
Lemma makes_list (A : Type) (mk : A -> Mt (option positive)) (val : A -> cvalue) (loop : positive -> list A -> Mt unit) v l :
  (forall o a l, loop o (a :: l) = (let* e := mk a in tappend o e ;;; loop o l)) -> (forall o, loop o [] = ret tt) ->
  Forall (fun a => makes (mk a) (val a)) l -> (forall s r o es, t_heap s !! o = Some (Tob r (TList es)) -> Forall2 (says s) es (map val l) -> says s o v) ->
  makes (let* o := tnew (TList []) in loop o l ;;; ret (Some o)) v.
Proof.
  intros L1 L0 F V s X T C. destruct (new_ok (TList []) s X T C eq_refl) as (s1 & D & C1 & E & (G1 & G2 & G3 & G4) & Nx). rewrite (bind_ok _ _ _ _ _ D).
  destruct (appends_ok A mk val loop L1 L0 l (t_next s) s1 X T [] [] F C1 E (Forall2_nil _)) as (es & s2 & D2 & C2 & E2 & F2 & (H1 & H2 & H3 & H4)). rewrite (bind_ok _ _ _ _ _ D2).
  exists (t_next s), (TList es), s2. split_and!; try assumption; [reflexivity|lia|exact (V s2 0 _ es E2 F2)|]. unfold grow. split_and!; try congruence; try lia.
  intros x Lx Nx'. rewrite H4, G4; [reflexivity|assumption|assumption|lia|]. rewrite elem_of_list_singleton. lia.
Qed.
Lemma Forall2_map_r {A B C} (P : A -> C -> Prop) (g : B -> C) es l : Forall2 P es (map g l) -> Forall2 (fun e a => P e (g a)) es l.
Proof. revert es. induction l as [|a l IH]; intros es H; inversion H; subst; constructor; auto. Qed.
Lemma makes_strings l : Forall short l -> makes (strings_to_tcl l) (CStrings l).
Proof.
  intros F. unfold strings_to_tcl. apply (makes_list chars string_to_tcl CString append_all); try reflexivity.
  - eapply (list.Forall_impl _ _ _ F). intros t. apply makes_string.
  - intros s r o es E H. exists r, es. split; [exact E|]. apply Forall2_map_r in H. exact H.
Qed.
Lemma to_tcl_ok v : fits v -> makes (to_tcl v) v.
Proof.
  destruct v as [t|t|l|l]; cbn [fits to_tcl]; intros F.
  - apply makes_text.
  - apply makes_string, F.
  - apply makes_strings, F.
  - apply (makes_list (list chars) strings_to_tcl CStrings append_alls); try reflexivity.
    + eapply (list.Forall_impl _ _ _ F). intros t. apply makes_strings.
    + intros s r o es E H. exists r, es. split; [exact E|]. apply Forall2_map_r in H. exact H.
Qed.

(** Reading an object. *)
Lemma filter_lt {A} (p q : A -> bool) l y : (forall x, p x = true -> q x = true) -> In y l -> p y = false -> q y = true -> (length (List.filter p l) < length (List.filter q l))%nat.
Proof.
  intros PQ I Py Qy.
  assert (forall l, (length (List.filter p l) <= length (List.filter q l))%nat) as Le.
  { induction l0 as [|x l0 IH]; cbn [List.filter]; [lia|]. specialize (PQ x). destruct (p x); [rewrite PQ by reflexivity; cbn; lia|]. destruct (q x); cbn; lia. }
  induction l as [|x l IH]; [destruct I|]. destruct I as [->|I].
  - cbn [List.filter]. rewrite Py, Qy. specialize (Le l). cbn. lia.
  - cbn [List.filter]. specialize (IH I). specialize (PQ x). destruct (p x); [rewrite PQ by reflexivity; cbn; lia|]. destruct (q x); cbn; lia.
Qed.
Lemma filter_le {A} (p : A -> bool) l : (length (List.filter p l) <= length l)%nat.
Proof. induction l as [|x l IH]; cbn [List.filter]; [lia|]. destruct (p x); cbn; lia. Qed.
Lemma texts_ok g es s : (forall e, e ∈ es -> exists t, g e s = Ok t s) -> exists ts, texts g es s = Ok ts s.
Proof.
  induction es as [|e es IH]; intros H; cbn [texts]; [eexists; reflexivity|]. destruct (H e (elem_of_list_here e es)) as (t & D). rewrite (bind_ok _ _ _ _ _ D).
  destruct IH as (ts & Ds); [intros x I; apply H; right; exact I|]. rewrite (bind_ok _ _ _ _ _ Ds). eexists. reflexivity.
Qed.
Section Texts.
Variable rep : list chars -> chars.
Lemma text_ok s X T o ob : counted (t_heap s) (t_next s) X T -> t_heap s !! o = Some ob -> exists t, string_of rep o s = Ok t s.
Proof.
  intros C E. destruct (c_rank _ _ _ _ C) as (f & R). unfold string_of.
  set (below := fun o => length (List.filter (fun p : positive * tob => (f (fst p) <? f o)%nat) (map_to_list (t_heap s)))).
  assert (forall fuel o ob, t_heap s !! o = Some ob -> (below o < fuel)%nat -> exists t, text_of rep fuel o s = Ok t s) as G.
  { induction fuel as [|fuel IH]; intros x xb Ex L; [lia|]. cbn [text_of]. rewrite (bind_ok _ _ _ _ _ (look_ok x xb s Ex)). destruct (t_val xb) as [t|es] eqn:V; [eexists; reflexivity|].
    destruct (texts_ok (text_of rep fuel) es s) as (ts & D); [|rewrite (bind_ok _ _ _ _ _ D); eexists; reflexivity].
    intros e I. assert (e ∈ elems (t_val xb)) as I' by (rewrite V; exact I). destruct (c_live _ _ _ _ C e) as (eb & Ee); [apply elem_of_app; right; exact (cells_elem _ x xb e Ex I')|].
    apply (IH e eb Ee). pose proof (R x xb e Ex I') as Lt. enough (below e < below x)%nat by lia. apply (filter_lt _ _ _ (e, eb)).
    - intros (z & zb). cbn [fst]. rewrite !Nat.ltb_lt. lia.
    - apply elem_of_list_In, elem_of_map_to_list, Ee.
    - cbn [fst]. apply Nat.ltb_irrefl.
    - cbn [fst]. apply Nat.ltb_lt, Lt. }
  apply (G _ o ob E). unfold below. pose proof (filter_le (fun p : positive * tob => (f (fst p) <? f o)%nat) (map_to_list (t_heap s))). lia.
Qed.
Lemma texts_are {A} g (P : positive -> A -> Prop) (val : A -> chars) es l s ts s' : Forall2 P es l -> (forall e a t s', P e a -> g e s = Ok t s' -> t = val a /\ s' = s) -> texts g es s = Ok ts s' -> ts = map val l /\ s' = s.
Proof.
  intros F H. revert ts s'. induction F as [|e a es l Pe F IH]; intros ts s' D; cbn [texts] in D; [injection D as <- <-; auto|].
  unfold bind at 1 in D. destruct (g e s) as [t s1| | | |] eqn:De; try discriminate. destruct (H e a t s1 Pe De) as [-> ->].
  unfold bind at 1 in D. destruct (texts g es s) as [ts1 s2| | | |] eqn:Ds; try discriminate. destruct (IH ts1 s2 eq_refl) as [-> ->]. injection D as <- <-. auto.
Qed.
Lemma text_said fuel s o v t s' : says s o v -> text_of rep fuel o s = Ok t s' -> t = said rep v /\ s' = s.
Proof.
  assert (forall fuel o t a s', says_text s o a -> text_of rep fuel o s = Ok t s' -> t = a /\ s' = s) as A.
  { intros [|n] x tx a sx (r & E) D; [discriminate|]. cbn [text_of] in D. rewrite (bind_ok _ _ _ _ _ (look_ok x _ s E)) in D. injection D as <- <-. auto. }
  assert (forall B (P : positive -> B -> Prop) (val : B -> chars) fuel o l t s', (forall fuel e a t s', P e a -> text_of rep fuel e s = Ok t s' -> t = val a /\ s' = s) ->
    says_list P s o l -> text_of rep fuel o s = Ok t s' -> t = rep (map val l) /\ s' = s) as L.
  { intros B P val [|n] x l tx sx H (r & es & E & F) D; [discriminate|]. cbn [text_of] in D. rewrite (bind_ok _ _ _ _ _ (look_ok x _ s E)) in D. cbn [t_val] in D.
    unfold bind at 1 in D. destruct (texts (text_of rep n) es s) as [ts s2| | | |] eqn:Ds; try discriminate.
    destruct (texts_are _ P val es l s ts s2 F (fun e a t s' => H n e a t s') Ds) as [-> ->]. injection D as <- <-. auto. }
  destruct v as [a|a|l|l]; cbn [says said]; intros S D.
  - exact (A fuel o t a s' S D).
  - exact (A fuel o t a s' S D).
  - pose proof (L _ _ (fun a => a) fuel o l t s' (fun f e a t s' => A f e t a s') S D) as Q. rewrite map_id in Q. exact Q.
  - refine (L _ _ rep fuel o l t s' _ S D). intros f e a t0 s0 Pe De. pose proof (L _ _ (fun a => a) f e a t0 s0 (fun f e a t s' => A f e t a s') Pe De) as Q. rewrite map_id in Q. exact Q.
Qed.
Lemma string_of_said s X T o ob v : counted (t_heap s) (t_next s) X T -> t_heap s !! o = Some ob -> says s o v -> string_of rep o s = Ok (said rep v) s.
Proof. intros C E S. destruct (text_ok s X T o ob C E) as (t & D). destruct (text_said _ s o v t s S D) as [<- _]. exact D. Qed.

(** The operations. *)
Lemma later_refl s : later s s.
Proof. split; [lia|]. eauto. Qed.
Lemma later_trans s s' s'' : later s s' -> later s' s'' -> later s s''.
Proof.
  intros [A1 A2] [B1 B2]. split; [lia|]. intros o ob L E. destruct (B2 o ob ltac:(lia) E) as (ob1 & E1 & V1). destruct (A2 o ob1 L E1) as (ob2 & E2 & V2). exists ob2. split; [exact E2|congruence].
Qed.
Lemma grow_later s s' : grow [] s s' -> later s s'.
Proof. intros (_ & _ & N & G). split; [exact N|]. intros o ob L E. rewrite G in E; [|exact L|apply not_elem_of_nil]. eauto. Qed.
Lemma survive_later s s' : t_next s' = t_next s -> survive (t_heap s) (t_heap s') -> later s s'.
Proof. intros N S. split; [lia|]. intros o ob _ E. exact (S o ob E). Qed.
Lemma says_later s s' o v : sound s -> sound s' -> later s s' -> is_Some (t_heap s' !! o) -> says s o v -> says s' o v.
Proof.
  intros C C' [_ L]. apply (says_stays s s' o v _ _ _ C'). intros x ob ob' E E'. destruct (L x ob') as (ob1 & E1 & V); [apply (c_next _ _ _ _ C); eauto|exact E'|congruence].
Qed.
Lemma finish_ok i v s : sound s -> fits v -> exists o s', finish i (Some v) s = Ok tt s' /\ sound s' /\ t_slots s' = <[(i, None) := o]> (t_slots s) /\ t_held s' = t_held s /\
  t_heap s !! o = None /\ says s' o v /\ later s s'.
Proof.
  intros C F. cbn [finish]. destruct (to_tcl_ok v F s (outer s) [] C) as (o & w & s1 & D & C1 & Lt & E & Sy & G). rewrite (bind_ok _ _ _ _ _ D). rewrite <- (grow_outer _ _ _ G) in C1.
  destruct (store_ok (i, None) o _ s1 [o] [] C1 E) as (h & D2 & C2 & S2 & _). { intros x I N. apply elem_of_list_singleton in I. contradiction. }
  set (s2 := Tst h (t_next s1) (<[(i, None) := o]> (t_slots s1)) (t_held s1)) in *. exists o, s2. split; [exact D2|]. split; [exact C2|]. pose proof G as (G1 & G2 & _). split_and!; try (cbn [s2 t_slots t_held]; congruence).
  - destruct (t_heap s !! o) eqn:Eo; [|reflexivity]. assert (o < t_next s)%positive by (apply (c_next _ _ _ _ C); eauto). lia.
  - refine (says_survive s1 s2 o v _ _ _ C2 S2 _ Sy). cbn [t_heap]. apply (c_live _ _ _ _ C2), elem_of_app. left. apply (slot_outer _ (i, None)). cbn [t_slots]. apply lookup_insert.
  - apply (later_trans s s1); [exact (grow_later _ _ G)|]. apply survive_later; [reflexivity|exact S2].
Qed.
Lemma upto_nul_cut t : cut_nul t (ScriptModel.upto_nul t).
Proof.
  induction t as [|c t IH]; cbn [ScriptModel.upto_nul]; [split; [apply not_elem_of_nil|auto]|]. destruct (Z.eqb_spec c 0) as [->|N]; [split; [apply not_elem_of_nil|right; exists t; reflexivity]|].
  destruct IH as [I H]. split; [rewrite not_elem_of_cons; split; [congruence|exact I]|]. destruct H as [H|(b & H)]; [left; congruence|right; exists b; cbn; congruence].
Qed.
Lemma trace_get_ok i n v s : sound s -> fits v -> exists o s', trace_get rep i n v s = Ok tt s' /\ sound s' /\ t_slots s' = <[(i, Some n) := o]> (t_slots s) /\ t_held s' = t_held s /\
  t_heap s !! o = None /\ (exists t, cut_nul (said rep v) t /\ says_text s' o t) /\ later s s'.
Proof.
  intros C F. unfold trace_get. destruct (to_tcl_ok v F s (outer s) [] C) as (o & w & s1 & D & C1 & Lt & E & Sy & G). rewrite (bind_ok _ _ _ _ _ D).
  rewrite (bind_ok _ _ _ _ _ (string_of_said s1 _ _ o _ v C1 E Sy)). unfold tset_var. pose proof (rc0 _ _ _ _ o _ C1 E) as R. rewrite <- (grow_outer _ _ _ G) in C1, R.
  destruct (new_ok (TText (ScriptModel.upto_nul (said rep v))) s1 _ _ C1 eq_refl) as (s2 & D2 & C2 & E2 & G2 & N2).
  assert (o < t_next s1)%positive as Lo by (apply (c_next _ _ _ _ C1); eauto).
  assert (t_heap s2 !! o = Some (Tob 0 w)) as Eo2 by (destruct G2 as (_ & _ & _ & G2); rewrite G2; [exact E|exact Lo|apply not_elem_of_nil]).
  pose proof (rc0 _ _ _ _ o _ C2 Eo2) as R2. rewrite <- (grow_outer _ _ _ G2) in C2, R2.
  destruct (store_ok (i, Some n) (t_next s1) _ s2 [t_next s1; o] [o] C2 E2) as (h & D3 & C3 & S3 & F3).
  { intros x I N. apply elem_of_cons in I as [?|I]; [congruence|exact I]. }
  rewrite (bind_ok _ _ s1 tt (Tst h (t_next s2) (<[(i, Some n) := t_next s1]> (t_slots s2)) (t_held s2))) by (rewrite (bind_ok _ _ _ _ _ D2); exact D3).
  set (s3 := Tst h _ _ _) in *.
  assert (h !! o = Some (Tob 0 w)) as Eo3 by (rewrite F3; [exact Eo2|lia|exact R2]).
  destruct (decr_temp o _ s3 (outer s3) [] C3 Eo3 eq_refl) as (h' & D4 & C4 & S4 & _).
  exists (t_next s1), (up_heap h' s3). pose proof G as (G1a & G1b & G1c & _). pose proof G2 as (G2a & G2b & _).
  assert (is_Some (h' !! t_next s1)) as Al by (apply (c_live _ _ _ _ C4), elem_of_app; left; apply (slot_outer s3 (i, Some n)); apply lookup_insert).
  split; [exact D4|]. split; [exact C4|]. split_and!; try (cbn [up_heap s3 t_slots t_held]; congruence).
  - destruct (t_heap s !! t_next s1) eqn:Eo; [|reflexivity]. assert (t_next s1 < t_next s)%positive by (apply (c_next _ _ _ _ C); eauto). lia.
  - exists (ScriptModel.upto_nul (said rep v)). split; [apply upto_nul_cut|]. refine (says_survive s2 (up_heap h' s3) (t_next s1) (CText (ScriptModel.upto_nul (said rep v))) _ _ _ C4 (survive_trans _ _ _ S3 S4) Al _). exists 0. exact E2.
  - apply (later_trans s s1); [exact (grow_later _ _ G)|]. apply (later_trans s1 s2); [exact (grow_later _ _ G2)|]. apply survive_later; [reflexivity|exact (survive_trans _ _ _ S3 S4)].
Qed.
Lemma trace_get_long i n t s : ~ short t -> trace_get rep i n (CString t) s = Ok tt s.
Proof. unfold short. intros L. unfold trace_get, to_tcl, string_to_tcl. replace (zlen t <? 2147483647) with false by lia. reflexivity. Qed.
Lemma trace_set_ok i n s : sound s -> short n -> exists r s', trace_set rep i n s = Ok r s' /\ sound s' /\ t_slots s' = t_slots s /\ t_held s' = t_held s /\ later s s' /\
  match t_slots s !! (i, Some n) with None => r = None | Some o => exists t, r = Some t /\ forall v, says s o v -> t = said rep v end.
Proof.
  intros C F. unfold trace_set. destruct (makes_string n F s (outer s) [] C) as (o & w & s1 & D & C1 & Lt & E & Sy & G). rewrite (bind_ok _ _ _ _ _ D).
  unfold tslot, tget. unfold bind at 1. pose proof (rc0 _ _ _ _ o _ C1 E) as R. rewrite <- (grow_outer _ _ _ G) in C1.
  destruct (decr_temp o _ s1 (outer s1) [] C1 E eq_refl) as (h' & D4 & C4 & S4 & _). rewrite (bind_ok _ _ _ _ _ D4). pose proof G as (G1 & G2 & _). rewrite G1.
  assert (sound (up_heap h' s1)) as Sd by exact C4.
  assert (later s (up_heap h' s1)) as La by (apply (later_trans s s1); [exact (grow_later _ _ G)|apply survive_later; [reflexivity|exact S4]]).
  destruct (t_slots s !! (i, Some n)) as [x|] eqn:Ex.
  - assert (is_Some (t_heap (up_heap h' s1) !! x)) as Al by (apply (c_live _ _ _ _ C4), elem_of_app; left; apply (slot_outer _ (i, Some n)); rewrite G1; exact Ex).
    pose proof Al as (xb & Exb). destruct (text_ok (up_heap h' s1) _ _ x xb C4 Exb) as (t & Dt). rewrite (bind_ok _ _ _ _ _ Dt). exists (Some t), (up_heap h' s1). split_and!; try assumption; try reflexivity.
    exists t. split; [reflexivity|]. intros v Hv. pose proof (says_later s _ x v C Sd La Al Hv) as Hv'. destruct (text_said _ _ x v t _ Hv' Dt) as [-> _]. reflexivity.
  - exists None, (up_heap h' s1). split_and!; try assumption; reflexivity.
Qed.
Lemma argument_ok o s : sound s -> o ∈ outer s -> exists t, argument rep o s = Ok t s /\ forall v, says s o v -> t = said rep v.
Proof.
  intros C I. destruct (c_live _ _ _ _ C o) as (ob & E); [apply elem_of_app; left; exact I|]. destruct (text_ok s _ _ o ob C E) as (t & D). exists t. split; [exact D|]. intros v Hv.
  destruct (text_said _ s o v t s Hv D) as [-> _]. reflexivity.
Qed.
Lemma result_ok i s : sound s -> exists r, result rep i s = Ok r s /\ match t_slots s !! (i, None) with None => r = None | Some o => exists t, r = Some t /\ forall v, says s o v -> t = said rep v end.
Proof.
  intros C. unfold result, tslot, tget. unfold bind at 1. destruct (t_slots s !! (i, None)) as [o|] eqn:E; [|eexists; split; reflexivity].
  destruct (argument_ok o s C (slot_outer s _ o E)) as (t & D & H). unfold argument in D. rewrite (bind_ok _ _ _ _ _ D). eexists. split; [reflexivity|]. eauto.
Qed.
End Texts.
Lemma held_ok : forall es l s T es0, counted (t_heap s) (t_next s) (outer s) (l :: T) -> t_heap s !! l = Some (Tob 0 (TList es0)) -> Forall (fun e => e ∈ t_held s) es ->
  exists s', append_held l es s = Ok tt s' /\ counted (t_heap s') (t_next s') (outer s') (l :: T) /\ t_heap s' !! l = Some (Tob 0 (TList (es0 ++ es))) /\
    t_slots s' = t_slots s /\ t_held s' = t_held s /\ t_next s' = t_next s /\ (forall x ob', x <> l -> t_heap s' !! x = Some ob' -> exists ob, t_heap s !! x = Some ob /\ t_val ob' = t_val ob).
Proof.
  induction es as [|e es IH]; intros l s T es0 C E F; cbn [append_held].
  - exists s. rewrite app_nil_r. split_and!; try assumption; try reflexivity. intros x ob' _ Ex. eauto.
  - inversion F as [|? ? Ie F']; subst. pose proof (rc0 _ _ _ _ l _ C E) as R. assert (e ∈ outer s) as Io by (unfold outer; rewrite elem_of_app; auto).
    assert (e <> l) as N by (intros ->; apply R, elem_of_app; auto). destruct (held_alive s _ e C Ie) as (eb & Ee).
    destruct (append_one l e eb s _ (l :: T) (l :: T) es0 C E Ee N (fun _ I _ => I)) as (s1 & D & C1 & El & Ee1 & A1 & A2 & A3 & A4). rewrite (bind_ok _ _ _ _ _ D).
    assert (outer s1 = outer s) as O1 by (unfold outer; congruence). rewrite <- O1 in C1. rewrite <- A2 in F'.
    destruct (IH l s1 T (es0 ++ [e]) C1 El F') as (s2 & D2 & C2 & E2 & B1 & B2 & B3 & B4). exists s2. rewrite <- app_assoc in E2. split_and!; try assumption; try congruence.
    intros x ob' Nx Ex. destruct (B4 x ob' Nx Ex) as (ob1 & E1 & V1). destruct (decide (x = e)) as [->|Ne].
    + rewrite Ee1 in E1. injection E1 as <-. exists eb. auto.
    + rewrite A4 in E1 by assumption. eauto.
Qed.
Lemma hold_new_ok v s : sound s -> Forall (fun e => e ∈ t_held s) (elems v) -> exists o s', hold_new v s = Ok o s' /\ sound s' /\ t_slots s' = t_slots s /\ t_held s' = o :: t_held s /\
  t_heap s !! o = None /\ (exists r, t_heap s' !! o = Some (Tob r v)) /\ later s s'.
Proof.
  intros C F. unfold hold_new.
  assert (exists s1, (match v with TText _ => tnew v | TList es => let* o := tnew (TList []) in append_held o es ;;; ret o end) s = Ok (t_next s) s1 /\
    counted (t_heap s1) (t_next s1) (outer s1) [t_next s] /\ t_heap s1 !! t_next s = Some (Tob 0 v) /\ t_slots s1 = t_slots s /\ t_held s1 = t_held s /\ later s s1) as (s1 & D & C1 & E & A1 & A2 & La).
  { destruct v as [t|es].
    - destruct (new_ok (TText t) s _ _ C eq_refl) as (s1 & D & C1 & E & G & _). exists s1. rewrite <- (grow_outer _ _ _ G) in C1. pose proof G as (G1 & G2 & _). split_and!; try assumption. exact (grow_later _ _ G).
    - destruct (new_ok (TList []) s _ _ C eq_refl) as (s1 & D & C1 & E & G & Nx). rewrite (bind_ok _ _ _ _ _ D). rewrite <- (grow_outer _ _ _ G) in C1. pose proof G as (G1 & G2 & _).
      cbn [elems] in F. rewrite <- G2 in F. destruct (held_ok es (t_next s) s1 [] [] C1 E F) as (s2 & D2 & C2 & E2 & B1 & B2 & B3 & B4). rewrite (bind_ok _ _ _ _ _ D2).
      exists s2. split_and!; try assumption; try congruence; [reflexivity|]. destruct G as (_ & _ & G3 & G4).
      split; [lia|]. intros o ob' Lo Eo. destruct (B4 o ob' ltac:(lia) Eo) as (ob & E1 & V). rewrite G4 in E1; [eauto|exact Lo|apply not_elem_of_nil]. }
  rewrite (bind_ok _ _ _ _ _ D). destruct (again_ok (t_next s) _ s1 [t_next s] [] C1 E) as (h & D2 & C2 & S2). { intros x I N. apply elem_of_list_singleton in I. contradiction. }
  rewrite (bind_ok _ _ _ _ _ D2). eexists (t_next s), _. split; [reflexivity|]. split; [exact C2|]. cbn [t_slots t_held t_heap]. rewrite A1, A2. split_and!; try reflexivity.
  - exact (counted_fresh _ _ _ _ C).
  - destruct (c_live _ _ _ _ C2 (t_next s)) as (ob & Eo); [apply elem_of_app; left; unfold outer; cbn [t_held t_slots]; apply elem_of_app; right; left|].
    destruct (S2 _ ob Eo) as (ob1 & E1 & V). rewrite E in E1. injection E1 as <-. exists (t_rc ob). rewrite Eo. destruct ob. cbn in *. congruence.
  - apply (later_trans s s1); [exact La|]. apply survive_later; [reflexivity|exact S2].
Qed.

(** A call, and any number of them. *)
Lemma kdo_ok rep c s : sound s -> can s c -> exists s', kdo rep c s = Ok tt s' /\ sound s' /\ later s s'.
Proof.
  intros C H. destruct c as [i [v|]|i n v|i n|o|i|v|o|o|k o|k]; cbn [kdo can] in *.
  - destruct (finish_ok i v s C H) as (o & s' & D & S & _ & _ & _ & _ & L). eauto.
  - exists s. split; [reflexivity|]. split; [exact C|apply later_refl].
  - assert (fits v \/ exists t, v = CString t /\ ~ short t) as [F|(t & -> & F)].
    { destruct v as [t|t|l|l]; auto. destruct (Z_lt_dec (zlen t) 2147483647); [left; assumption|right; exists t; auto]. }
    + destruct (trace_get_ok rep i n v s C F) as (o & s' & D & S & _ & _ & _ & _ & L). eauto.
    + exists s. split; [apply trace_get_long, F|]. split; [exact C|apply later_refl].
  - destruct (trace_set_ok rep i n s C H) as (r & s' & D & S & _ & _ & L & _). exists s'. rewrite (bind_ok _ _ _ _ _ D). auto.
  - destruct (argument_ok rep o s C) as (t & D & _). { unfold outer. apply elem_of_app. right. exact H. } exists s. rewrite (bind_ok _ _ _ _ _ D). split; [reflexivity|]. split; [exact C|apply later_refl].
  - destruct (result_ok rep i s C) as (r & D & _). exists s. rewrite (bind_ok _ _ _ _ _ D). split; [reflexivity|]. split; [exact C|apply later_refl].
  - destruct (hold_new_ok v s C H) as (o & s' & D & S & _ & _ & _ & _ & L). exists s'. rewrite (bind_ok _ _ _ _ _ D). auto.
  - destruct (held_alive s _ o C H) as (ob & E). destruct (again_ok o ob s [] [] C E (fun _ I _ => I)) as (h & D & C' & S'). eexists. split; [exact D|]. split; [exact C'|]. apply survive_later; [reflexivity|exact S'].
  - destruct (release_ok o s [] C H) as (h & D & C' & S'). eexists. split; [exact D|]. split; [exact C'|]. apply survive_later; [reflexivity|exact S'].
  - destruct (held_alive s _ o C H) as (ob & E). destruct (store_ok k o ob s [] [] C E (fun _ I _ => I)) as (h & D & C' & S' & _). eexists. split; [exact D|]. split; [exact C'|]. apply survive_later; [reflexivity|exact S'].
  - destruct (clear_ok k s [] C) as (h & D & C' & S'). eexists. split; [exact D|]. split; [exact C'|]. apply survive_later; [reflexivity|exact S'].
Qed.
Lemma krun_ok rep : forall cs s, sound s -> cans rep cs s -> exists s', krun rep cs s = Ok tt s' /\ sound s' /\ later s s'.
Proof.
  induction cs as [|c cs IH]; intros s C H; cbn [krun]; [exists s; split; [reflexivity|]; split; [exact C|apply later_refl]|].
  destruct H as [H1 H2]. destruct (kdo_ok rep c s C H1) as (s1 & D & C1 & L1). rewrite D in H2. destruct (IH s1 C1 H2) as (s2 & D2 & C2 & L2).
  exists s2. rewrite (bind_ok _ _ _ _ _ D). split; [exact D2|]. split; [exact C2|]. exact (later_trans _ _ _ L1 L2).
Qed.
Lemma sound_empty s : sound s -> t_slots s = ∅ -> t_held s = [] -> t_heap s = ∅.
Proof. intros C E1 E2. apply (counted_empty _ (t_next s)). unfold sound, outer in C. rewrite E1, E2 in C. rewrite map_to_list_empty in C. exact C. Qed.
Lemma sound_start : sound (Tst ∅ 1 ∅ []).
Proof.
  constructor; cbn [t_heap t_next].
  - intros o ob E. rewrite lookup_empty in E. discriminate.
  - intros o I. unfold outer, cells in I. cbn in I. inversion I.
  - intros o ob E. rewrite lookup_empty in E. discriminate.
  - intros o (ob & E). rewrite lookup_empty in E. discriminate.
  - exists (fun _ => O). intros o ob e E. rewrite lookup_empty in E. discriminate.
Qed.
Lemma finish_long i t s : 2147483647 <= zlen t -> finish i (Some (CString t)) s = Undef UbNull.
Proof. intros L. cbn [finish to_tcl]. unfold string_to_tcl. replace (zlen t <? 2147483647) with false by lia. reflexivity. Qed.
Lemma long_text : exists t : chars, zlen t = 2147483647.
Proof. exists (zrep 2147483647 97). rewrite zlen_zrep. reflexivity. Qed.
