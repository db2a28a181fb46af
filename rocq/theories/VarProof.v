(** Linked variables refine [VarSpec]. *)
From Verif Require Import Base ZList StrSpec StrModel ScriptModel RegModel ScriptSpec ScriptProof VarModel VarSpec.
From stdpp Require Import gmap.
Open Scope Z_scope.

Lemma simple_nul n : simple n -> upto_nul n = n.
Proof. intros [_ H]. rewrite Forall_forall in H. apply upto_nul_id. intros H0. apply elem_of_list_In, (H 0) in H0. lia. Qed.
Lemma simple_name n : simple n -> tcl_name n = n.
Proof.
  intros H. unfold tcl_name. rewrite (simple_nul n H). destruct H as [_ H].
  destruct n as [|c n]; [reflexivity|]. apply Forall_inv in H as (_ & _ & Hc).
  destruct c as [|c|c]; try reflexivity. repeat (destruct c as [c|c|]; try reflexivity). now contradiction Hc.
Qed.
Lemma before_nul_upto b s : before_nul b = Some s -> existsb (Z.eqb 0) b = true /\ upto_nul b = s.
Proof.
  revert s. induction b as [|c b IH]; intros s; [discriminate|]. cbn [before_nul existsb upto_nul].
  rewrite (Z.eqb_sym 0 c). destruct (c =? 0); [intros [= <-]; split; reflexivity|].
  destruct (before_nul b) as [t|]; [|discriminate]. intros [= <-]. destruct (IH t eq_refl) as [-> ->]. split; reflexivity.
Qed.
Lemma before_nul_none b : before_nul b = None -> upto_nul b = b.
Proof.
  induction b as [|c b IH]; [reflexivity|]. cbn [before_nul upto_nul]. destruct (c =? 0); [discriminate|].
  destruct (before_nul b); [discriminate|]. intros _. now rewrite IH.
Qed.
Lemma cut_upto b : cut b = upto_nul b.
Proof. unfold cut. destruct (before_nul b) eqn:E; [now destruct (before_nul_upto _ _ E) as [_ ->]|now rewrite before_nul_none]. Qed.

Section WithTcl.
Variable tc : tcl.
Hypothesis Htc : tcl_ok tc.

Definition getter (l : link) (p : Z) : trace := match l_how l with Whole | Const => GetVal (l_obj l) | Pointer => GetPtr (l_obj l) | Buffer _ => GetData p end.
Definition setter (l : link) (p : Z) : trace := match l_how l with Whole => SetVal (l_obj l) | Const | Pointer => SetRO | Buffer _ => SetData p end.
(** The data of a buffer is where its traces look. *)
Definition backed (s : vst) (l : link) (p : Z) : Prop :=
  match l_how l with Buffer size => v_data s !! p = Some (l_obj l, size) | _ => True end.

Lemma showable_int t z : showable t z = true -> int_to_tcl t z = TInt z.
Proof.
  unfold showable. intros H.
  destruct t; cbn [is_signed width] in H; apply andb_prop in H as [H1 H2]; apply Z.leb_le in H1; apply Z.ltb_lt in H2; cbn [int_to_tcl];
    unfold i8_to_tcl, i16_to_tcl, i32_to_tcl, i64_to_tcl; try reflexivity; rewrite wrap_low by lia; reflexivity.
Qed.
Lemma fitted_int t v : t <> U64 -> int_from_tcl tc t v = match get_long tc v with Some z => fitted t z | None => 0 end.
Proof.
  intros Ht. unfold int_from_tcl, checked. destruct (get_long tc v) as [z|] eqn:E; [|destruct t; reflexivity].
  pose proof (ok_long_range tc Htc _ _ E) as HR. unfold W63 in HR. unfold fitted.
  destruct t; cbn [is_signed width]; try congruence;
  match goal with |- context [if ?a && ?b then _ else 0] => destruct a eqn:A; destruct b eqn:B end; cbn [andb];
  repeat match goal with |- context [if ?c then _ else _] => destruct c eqn:? end; try reflexivity; lia.
Qed.
Lemma written_text o t : written tc o = Some t -> cstr_from_tcl tc o = t.
Proof. unfold written, cstr_from_tcl. destruct (get_string tc o) as [x|]; [|discriminate]. intros [= <-]. symmetry. apply cut_upto. Qed.
Lemma short_to s : shortb s = true -> string_to_tcl s = Some (TText s).
Proof. unfold shortb, string_to_tcl. now intros ->. Qed.

Lemma object_ok a s o : v_mem s !! a = Some o -> object a s = Ok o s.
Proof. unfold object. now intros ->. Qed.
Lemma data_ok p s o : v_data s !! p = Some o -> data p s = Ok o s.
Proof. unfold data. now intros ->. Qed.
Lemma bind_ok {A B} (m : Ml A) (k : A -> Ml B) s a s' : m s = Ok a s' -> bind m k s = k a s'.
Proof. unfold bind. now intros ->. Qed.

Lemma get_shown l p o t s : shown tc (l_how l) o = Some t -> v_mem s !! l_obj l = Some o -> backed s l p ->
  exists ob, get_object (getter l p) s = Ok (Some ob) s /\ cstr_from_tcl tc ob = t.
Proof.
  intros HS Ho Hb. unfold getter, backed, shown in *. destruct (l_how l) as [| | |size].
  1,2: cbn [get_object]; rewrite (bind_ok _ _ _ _ _ (object_ok _ _ _ Ho)); destruct o as [[ti| | | | | | |] [z|z|z|z|z|z|z|z]|b]; try discriminate;
    cbn [int_type to_tcl]; unfold vlift.
  1,6: destruct (showable ti z) eqn:E; [|discriminate]; rewrite (showable_int _ _ E); eexists; split; [reflexivity|now apply written_text].
  1,5: eexists; split; [reflexivity|now apply written_text].
  1,4: eexists; split; [reflexivity|now apply written_text].
  1,3: destruct (shortb z) eqn:E; [|discriminate]; unfold ret; rewrite (short_to _ E); eexists; split; [reflexivity|now apply written_text].
  1,2: destruct (forallb shortb z) eqn:E; [|discriminate]; unfold bind; rewrite strings_ok;
    [eexists; split; [reflexivity|now apply written_text]|];
    apply Forall_forall; intros x Hx; rewrite forallb_forall in E; apply elem_of_list_In in Hx; specialize (E x Hx); unfold shortb in E; unfold short; lia.
  - cbn [get_object]. rewrite (bind_ok _ _ _ _ _ (object_ok _ _ _ Ho)). destruct o as [|b]; [discriminate|].
    destruct (before_nul b) as [x|] eqn:E; [|discriminate]. destruct (shortb x) eqn:Ex; [|discriminate]. destruct (before_nul_upto _ _ E) as [E1 E2].
    unfold c_string. rewrite E1, E2. cbv beta iota delta [bind ret]. rewrite (short_to _ Ex). eexists; split; [reflexivity|now apply written_text].
  - cbn [get_object]. rewrite (bind_ok _ _ _ _ _ (data_ok _ _ _ Hb)). cbn [fst]. rewrite (bind_ok _ _ _ _ _ (object_ok _ _ _ Ho)). destruct o as [|b]; [discriminate|].
    destruct (before_nul b) as [x|] eqn:E; [|discriminate]. destruct (shortb x) eqn:Ex; [|discriminate]. destruct (before_nul_upto _ _ E) as [E1 E2].
    unfold c_string. rewrite E1, E2. cbv beta iota delta [bind ret]. rewrite (short_to _ Ex). eexists; split; [reflexivity|now apply written_text].
Qed.

Definition with_hook (h : option Z) (old new : cobj) (s : vst) : vst :=
  match h with Some h => Vst (v_mem s) (v_vars s) (v_data s) (v_next s) (v_ptrs s) (v_hooks s) (v_live s) (EHook h old new :: v_log s) | None => s end.
Lemma call_hook_ok n old new s : simple n -> call_hook n old new s = Ok tt (with_hook (v_hooks s !! n) old new s).
Proof.
  intros Hn. unfold call_hook, vgets, bind. rewrite (simple_nul n Hn). destruct (v_hooks s !! n); reflexivity.
Qed.
Lemma set_refuse l p o v s i n : stored tc (l_how l) o v = Some Refuse -> run_write tc i n (setter l p) v s = Ok false s.
Proof.
  unfold stored, setter. destruct (l_how l) as [| | |size]; try reflexivity.
  - destruct o as [[[]| | | | | | |] ?|]; discriminate.
  - destruct o as [|b]; [discriminate|]. destruct (get_string tc v); [|discriminate]. destruct (_ && _); discriminate.
Qed.
Lemma set_become l p o v s i n old new : stored tc (l_how l) o v = Some (Become old new) -> v_mem s !! l_obj l = Some o -> backed s l p -> simple n ->
  run_write tc i n (setter l p) v s = Ok true (with_hook (v_hooks s !! n) old new (up_mem (<[l_obj l := new]> (v_mem s)) s)).
Proof.
  intros HS Ho Hb Hn. unfold setter, backed, stored in *. destruct (l_how l) as [| | |size]; try discriminate.
  - cbn [run_write]. rewrite (bind_ok _ _ _ _ _ (object_ok _ _ _ Ho)).
    destruct o as [ty x|b]; [|discriminate].
    destruct ty as [ti| | | | | | |]; try discriminate; [destruct ti; try discriminate|..]; injection HS as <- <-; cbn [from_tcl];
      rewrite ?fitted_int by discriminate;
      (erewrite bind_ok by reflexivity); (erewrite bind_ok by (apply call_hook_ok; exact Hn)); reflexivity.
  - cbn [run_write]. rewrite (bind_ok _ _ _ _ _ (data_ok _ _ _ Hb)). cbn [fst snd]. rewrite (bind_ok _ _ _ _ _ (object_ok _ _ _ Ho)).
    destruct o as [|b]; [discriminate|]. destruct (get_string tc v) as [x|]; [|discriminate].
    destruct ((zlen b =? size) && (size - 1 <=? zlen x) && (0 <? size)) eqn:E; [|discriminate].
    injection HS as <- <-. apply andb_prop in E as [E E3]. apply andb_prop in E as [E1 E2].
    replace ((zlen b <? size) || (size <? 1)) with false by lia. rewrite zlen_app. change (zlen [0]) with 1.
    replace (zlen x + 1 <? size) with false by lia.
    assert (HB : zupd (size - 1) [0] (zupd 0 (ztake size (x ++ [0])) b) = ztake (size - 1) x ++ [0]).
    { apply Z.eqb_eq in E1. apply Z.leb_le in E2. apply Z.ltb_lt in E3.
      assert (L : zlen (ztake size (x ++ [0])) = size) by (rewrite zlen_ztake, zlen_app; change (zlen [0]) with 1; lia).
      assert (U : zupd 0 (ztake size (x ++ [0])) b = ztake size (x ++ [0])).
      { unfold zupd. rewrite L, ztake_0, zdrop_all by lia. now rewrite app_nil_r. }
      rewrite U. unfold zupd. change (zlen [0]) with 1. rewrite (zdrop_all _ (ztake size _)) by lia. rewrite app_nil_r. f_equal. zlist. }
    rewrite HB. assert (HT : ztake size b = b) by (apply ztake_all; lia). rewrite HT.
    (erewrite bind_ok by reflexivity); (erewrite bind_ok by (apply call_hook_ok; exact Hn)); reflexivity.
Qed.

Record Inv (s : vst) (a : avars) : Prop := {
  I_mem : v_mem s = av_mem a;
  I_live : v_live s = av_live a;
  I_log : v_log s = av_log a;
  I_link : forall i n l, av_links a !! (i, n) = Some l -> simple n /\ v_hooks s !! n = l_hook l /\
    exists v p, v_vars s !! (i, n) = Some (Tvar v [setter l p; getter l p]) /\ backed s l p /\
                match l_how l with Buffer _ => v_ptrs s !! (i, n) = Some p | _ => True end;
  I_plain : forall i n, av_links a !! (i, n) = None -> v_vars s !! (i, n) = option_map (fun v => Tvar v []) (av_plain a !! (i, n));
  I_one : forall i j n l m, av_links a !! (i, n) = Some l -> av_links a !! (j, n) = Some m -> i = j;
  I_hook : forall n, (forall j, av_links a !! (j, n) = None) -> v_hooks s !! n = None;
  I_next : forall k p, v_ptrs s !! k = Some p -> p < v_next s;
  I_inj : forall j k p, v_ptrs s !! j = Some p -> v_ptrs s !! k = Some p -> j = k
}.

Lemma inv_init mem : Inv (vst_init mem) (avars_init mem).
Proof.
  constructor; try reflexivity; cbn [vst_init avars_init av_links v_vars v_ptrs v_hooks]; intros *; rewrite ?lookup_empty; try discriminate; try reflexivity.
Qed.
Definition wval (i : Z) (n : chars) (v : tvar) (s : vst) : vst := up_vars (<[(i, n) := v]> (v_vars s)) s.

Lemma get_linked s a i n l o t : Inv s a -> av_links a !! (i, n) = Some l -> av_mem a !! l_obj l = Some o -> shown tc (l_how l) o = Some t ->
  exists p, tcl_get tc i n s = Ok (Some (TText t)) (wval i n (Tvar (TText t) [setter l p; getter l p]) s) /\
            backed s l p /\ match l_how l with Buffer _ => v_ptrs s !! (i, n) = Some p | _ => True end.
Proof.
  intros HI Hl Ho Ht. destruct (I_link s a HI _ _ _ Hl) as (Hn & Hh & v & p & Hv & Hb & Hp). exists p. split; [|split; assumption].
  rewrite <- (I_mem s a HI) in Ho. destruct (get_shown l p o t s Ht Ho Hb) as (ob & Hg & Hc).
  assert (Hr : run_reads tc i n [setter l p; getter l p] s = Ok tt (wval i n (Tvar (TText t) [setter l p; getter l p]) s)).
  { assert (E : run_reads tc i n [setter l p; getter l p] = (run_read tc i n (getter l p) ;;; ret tt)) by (unfold setter, getter; destruct (l_how l); reflexivity).
    rewrite E. unfold run_read, bind. rewrite Hg. unfold set_value, vupd, ret. rewrite (simple_name n Hn), Hv. cbn [tv_traces]. rewrite Hc. reflexivity. }
  unfold tcl_get, get_var, vgets. rewrite (simple_name n Hn). unfold bind at 1. rewrite Hv. cbn [tv_traces].
  unfold bind at 1. rewrite Hr. unfold bind, ret, wval. cbn [up_vars v_vars]. rewrite lookup_insert. reflexivity.
Qed.

Lemma inv_var s a i n l v p : Inv s a -> av_links a !! (i, n) = Some l -> backed s l p ->
  match l_how l with Buffer _ => v_ptrs s !! (i, n) = Some p | _ => True end ->
  Inv (wval i n (Tvar v [setter l p; getter l p]) s) a.
Proof.
  intros [] Hl Hb Hp. constructor; cbn [wval up_vars v_mem v_live v_log v_hooks v_ptrs v_next v_vars]; try assumption.
  - intros j m k Hk. destruct (decide ((j, m) = (i, n))) as [[= -> ->]|D].
    + rewrite Hl in Hk. injection Hk as <-. destruct (I_link0 _ _ _ Hl) as (Hn & Hh & _). split; [exact Hn|]. split; [exact Hh|].
      exists v, p. rewrite lookup_insert. split; [reflexivity|]. split; assumption.
    + destruct (I_link0 _ _ _ Hk) as (Hn & Hh & v' & p' & Hv & R). split; [exact Hn|]. split; [exact Hh|]. exists v', p'.
      rewrite lookup_insert_ne by congruence. split; [exact Hv|exact R].
  - intros j m Hk. rewrite lookup_insert_ne by congruence. now apply I_plain0.
Qed.
Lemma inv_mem s a m : Inv s a -> Inv (up_mem m s) (AV m (av_links a) (av_plain a) (av_live a) (av_log a)).
Proof. intros []. constructor; try assumption; reflexivity. Qed.
Definition wlog (e : vevent) (s : vst) : vst := Vst (v_mem s) (v_vars s) (v_data s) (v_next s) (v_ptrs s) (v_hooks s) (v_live s) (e :: v_log s).
Lemma inv_log s a e : Inv s a -> Inv (wlog e s) (avlog e a).
Proof. intros []. constructor; try assumption; cbn. now rewrite I_log0. Qed.

(** Linking *)
Lemma link_ok s a i n l p : Inv s a -> simple n -> (forall j, av_links a !! (j, n) = None) -> backed s l p ->
  exists s', setup_traces tc i n (getter l p) (setter l p) (l_hook l) s = Ok tt s' /\
    v_mem s' = v_mem s /\ v_live s' = v_live s /\ v_log s' = v_log s /\ v_data s' = v_data s /\ v_next s' = v_next s /\ v_ptrs s' = v_ptrs s /\
    v_vars s' = <[(i, n) := Tvar (TText []) [setter l p; getter l p]]> (v_vars s) /\
    v_hooks s' = match l_hook l with Some h => <[n := h]> (v_hooks s) | None => v_hooks s end.
Proof.
  intros HI Hn Hf Hb. pose proof (I_plain s a HI i n (Hf i)) as Hv.
  assert (E1 : tcl_set tc i n (TText []) s = Ok true (wval i n (Tvar (TText []) []) s)).
  { unfold tcl_set, get_var, vgets, set_value, vupd, bind. rewrite (simple_name n Hn), Hv. destruct (av_plain a !! (i, n)); reflexivity. }
  unfold setup_traces. rewrite (bind_ok _ _ _ _ _ E1). unfold tcl_trace, vupd, bind, wval. rewrite (simple_name n Hn).
  cbn [up_vars v_vars]. rewrite lookup_insert. cbn [up_vars v_vars tv_val tv_traces]. rewrite lookup_insert. cbn [tv_val tv_traces].
  rewrite !insert_insert. destruct (l_hook l); eexists; (split; [reflexivity|]); cbn; rewrite ?insert_insert; repeat split.
Qed.
Lemma inv_link s s' a i n l p : Inv s a -> simple n -> (forall j, av_links a !! (j, n) = None) -> backed s' l p ->
  match l_how l with Buffer _ => v_ptrs s' !! (i, n) = Some p | _ => True end ->
  v_mem s' = v_mem s -> v_live s' = v_live s -> v_log s' = v_log s ->
  (forall k m q, (k, m) <> (i, n) -> v_ptrs s !! (k, m) = Some q -> v_ptrs s' !! (k, m) = Some q /\ v_data s' !! q = v_data s !! q) ->
  (forall k q, v_ptrs s' !! k = Some q -> q < v_next s') ->
  (forall j k q, v_ptrs s' !! j = Some q -> v_ptrs s' !! k = Some q -> j = k) ->
  v_vars s' = <[(i, n) := Tvar (TText []) [setter l p; getter l p]]> (v_vars s) ->
  v_hooks s' = match l_hook l with Some h => <[n := h]> (v_hooks s) | None => v_hooks s end ->
  Inv s' (AV (av_mem a) (<[(i, n) := l]> (av_links a)) (delete (i, n) (av_plain a)) (av_live a) (av_log a)).
Proof.
  intros [] Hn Hf Hb Hp Em El Eg Hfr Hnx Hinj Ev Eh.
  constructor; cbn [av_mem av_links av_plain av_live av_log]; rewrite ?Em, ?El, ?Eg; try assumption.
  - intros j m k Hk. destruct (decide ((j, m) = (i, n))) as [[= -> ->]|D].
    + rewrite lookup_insert in Hk. injection Hk as <-. split; [exact Hn|]. split.
      * rewrite Eh. destruct (l_hook l); [apply lookup_insert|]. now apply I_hook0.
      * exists (TText []), p. rewrite Ev, lookup_insert. split; [reflexivity|]. split; assumption.
    + rewrite lookup_insert_ne in Hk by congruence. destruct (I_link0 _ _ _ Hk) as (Hm & Hh & v & q & Hv & Hq & Hpq).
      assert (Hmn : m <> n) by (intros ->; rewrite Hf in Hk; discriminate).
      split; [exact Hm|]. split; [rewrite Eh; destruct (l_hook l); [rewrite lookup_insert_ne by congruence|]; exact Hh|].
      exists v, q. rewrite Ev, lookup_insert_ne by congruence. split; [exact Hv|]. unfold backed in *. destruct (l_how k); try (split; exact I).
      destruct (Hfr _ _ _ D Hpq) as [H1 H2]. split; [now rewrite H2|exact H1].
  - intros j m Hk. destruct (decide ((j, m) = (i, n))) as [[= -> ->]|D]; [rewrite lookup_insert in Hk; discriminate|].
    rewrite lookup_insert_ne in Hk by congruence. rewrite Ev, lookup_insert_ne, lookup_delete_ne by congruence. now apply I_plain0.
  - intros j k m x y Hx Hy.
    destruct (decide (m = n)) as [->|D].
    + destruct (decide (j = i)) as [->|Dj], (decide (k = i)) as [->|Dk]; try reflexivity;
        repeat (rewrite lookup_insert_ne in Hx by congruence); repeat (rewrite lookup_insert_ne in Hy by congruence); rewrite Hf in *; discriminate.
    + rewrite lookup_insert_ne in Hx, Hy by congruence. now apply (I_one0 _ _ _ _ _ Hx Hy).
  - intros m Hm. destruct (decide (m = n)) as [->|D]; [specialize (Hm i); rewrite lookup_insert in Hm; discriminate|].
    assert (Hm' : forall j, av_links a !! (j, m) = None) by (intros j; specialize (Hm j); rewrite lookup_insert_ne in Hm by congruence; exact Hm).
    rewrite Eh. destruct (l_hook l); [rewrite lookup_insert_ne by congruence|]; now apply I_hook0.
Qed.
(** A name is gone, and what depended on it. *)
Lemma inv_unlink s s' a i n : Inv s a ->
  v_mem s' = v_mem s -> v_live s' = v_live s -> v_log s' = v_log s -> v_next s' = v_next s ->
  (forall k m q, (k, m) <> (i, n) -> v_ptrs s !! (k, m) = Some q -> v_ptrs s' !! (k, m) = Some q /\ v_data s' !! q = v_data s !! q) ->
  (forall k q, v_ptrs s' !! k = Some q -> v_ptrs s !! k = Some q) ->
  v_vars s' = delete (i, n) (v_vars s) ->
  (forall m, m <> n -> v_hooks s' !! m = v_hooks s !! m) ->
  (v_hooks s' !! n = None \/ v_hooks s' !! n = v_hooks s !! n) ->
  (forall l, av_links a !! (i, n) = Some l -> l_hook l = None \/ v_hooks s' !! n = None) ->
  (forall j l, j <> i -> av_links a !! (j, n) = Some l -> v_hooks s' !! n = v_hooks s !! n) ->
  Inv s' (AV (av_mem a) (delete (i, n) (av_links a)) (delete (i, n) (av_plain a)) (av_live a) (av_log a)).
Proof.
  intros [] Em El Eg En Hfr Hsub Ev Eh1 Eh2 Hhk Hoth.
  constructor; cbn [av_mem av_links av_plain av_live av_log]; rewrite ?Em, ?El, ?Eg; try assumption.
  - intros j m k Hk. apply lookup_delete_Some in Hk as [D Hk]. destruct (I_link0 _ _ _ Hk) as (Hm & Hh & v & q & Hv & Hq & Hpq).
    split; [exact Hm|]. split.
    + rewrite <- Hh. destruct (decide (m = n)) as [->|Dm]; [|now apply Eh1]. apply (Hoth j k); [congruence|exact Hk].
    + exists v, q. rewrite Ev, lookup_delete_ne by congruence. split; [exact Hv|]. unfold backed in *. destruct (l_how k); try (split; exact I).
      assert (D' : (j, m) <> (i, n)) by congruence. destruct (Hfr _ _ _ D' Hpq) as [H1 H2]. split; [now rewrite H2|exact H1].
  - intros j m Hk. rewrite Ev. destruct (decide ((i, n) = (j, m))) as [<-|D]; [now rewrite !lookup_delete|].
    rewrite lookup_delete_ne in Hk by exact D. rewrite !lookup_delete_ne by exact D. now apply I_plain0.
  - intros j k m x y Hx Hy. apply lookup_delete_Some in Hx as [_ Hx]. apply lookup_delete_Some in Hy as [_ Hy]. now apply (I_one0 _ _ _ _ _ Hx Hy).
  - intros m Hm. destruct (decide (m = n)) as [->|D].
    + destruct Eh2 as [E|E]; [exact E|]. destruct (av_links a !! (i, n)) as [l|] eqn:Hl.
      * destruct (Hhk l eq_refl) as [E'|E']; [|exact E']. rewrite E. destruct (I_link0 _ _ _ Hl) as (_ & Hh & _). now rewrite Hh.
      * rewrite E. apply I_hook0. intros j. destruct (decide (j = i)) as [->|Dj]; [exact Hl|]. specialize (Hm j). now rewrite lookup_delete_ne in Hm by congruence.
    + rewrite Eh1 by exact D. apply I_hook0. intros j. specialize (Hm j). now rewrite lookup_delete_ne in Hm by congruence.
  - rewrite En. intros k q Hq. apply (I_next0 k). now apply Hsub.
  - intros j k q H1 H2. apply (I_inj0 j k q); now apply Hsub.
Qed.

Lemma live_ok s a i : Inv s a -> forall u, av_live a !! i = Some u -> live i s = Ok tt s.
Proof. intros [] u H. unfold live. rewrite I_live0, H. reflexivity. Qed.

Lemma drop_ptrs_ok l : forall s, exists d, drop_ptrs l s = Ok tt (up_data d s) /\
  forall p, (forall k, ~ In (k, p) l) -> d !! p = v_data s !! p.
Proof.
  induction l as [|[k q] l IH]; intros s; cbn [drop_ptrs].
  - exists (v_data s). split; [destruct s; reflexivity|]. reflexivity.
  - unfold drop_data. erewrite bind_ok by reflexivity. destruct (IH (up_data (delete q (v_data s)) s)) as (d & E & Hd).
    exists d. split; [rewrite E; reflexivity|]. intros p Hp. rewrite Hd by (intros k' H; apply (Hp k'); right; exact H).
    cbn [up_data v_data]. rewrite lookup_delete_ne; [reflexivity|]. intros ->. apply (Hp k). left. reflexivity.
Qed.
Lemma destroy_ok s a i : Inv s a -> av_live a !! i = Some tt ->
  (forall j n l, j <> i -> av_links a !! (j, n) = Some l -> l_hook l = None) ->
  exists s', destroy_vars i s = Ok tt s' /\
    Inv s' (AV (av_mem a) (filter (fun kv => kv.1.1 <> i) (av_links a)) (filter (fun kv => kv.1.1 <> i) (av_plain a)) (delete i (av_live a)) (av_log a)).
Proof.
  intros HI Hi Ht. unfold destroy_vars. rewrite (bind_ok _ _ _ _ _ (live_ok s a i HI tt Hi)). erewrite bind_ok by reflexivity.
  unfold vgets at 1. erewrite bind_ok by reflexivity. cbn [up_hooks v_ptrs].
  destruct (drop_ptrs_ok (map_to_list (filter (fun kv : (Z * chars) * Z => kv.1.1 = i) (v_ptrs s))) (up_hooks ∅ s)) as (d & E & Hd).
  rewrite (bind_ok _ _ _ _ _ E). unfold vupd, bind. eexists. split; [reflexivity|].
  destruct HI. constructor; cbn [up_hooks up_data up_ptrs up_vars up_live v_mem v_live v_log v_hooks v_ptrs v_vars v_next v_data av_mem av_links av_plain av_live av_log];
    try assumption.
  - now rewrite I_live0.
  - intros j n l Hl. apply map_filter_lookup_Some in Hl as [Hl Hj]. cbn [fst] in Hj.
    destruct (I_link0 _ _ _ Hl) as (Hn & Hh & v & p & Hv & Hb & Hp). split; [exact Hn|]. split; [rewrite lookup_empty; symmetry; now apply (Ht j n)|].
    exists v, p. split; [apply map_filter_lookup_Some; split; [exact Hv|exact Hj]|]. unfold backed in *. cbn. destruct (l_how l); try (split; exact I).
    split; [|apply map_filter_lookup_Some; split; [exact Hp|exact Hj]].
    rewrite Hd; [exact Hb|]. intros k Hk. apply elem_of_list_In, elem_of_map_to_list, map_filter_lookup_Some in Hk as [Hk Hi'].
    rewrite (I_inj0 _ _ _ Hk Hp) in Hi'. cbn [fst] in Hi'. congruence.
  - intros j n Hl. destruct (decide (j = i)) as [->|D].
    + rewrite (proj2 (map_filter_lookup_None _ _ _)), (proj2 (map_filter_lookup_None _ _ _)); [reflexivity|right; intros ? _; cbn; congruence|right; intros ? _; cbn; congruence].
    + apply map_filter_lookup_None in Hl. assert (Hl' : av_links a !! (j, n) = None).
      { destruct Hl as [Hl|Hl]; [exact Hl|]. destruct (av_links a !! (j, n)) as [l|]; [|reflexivity]. contradiction (Hl l eq_refl D). }
      specialize (I_plain0 _ _ Hl'). destruct (av_plain a !! (j, n)) as [v|] eqn:Ep; cbn [option_map] in I_plain0 |- *.
      * rewrite (proj2 (map_filter_lookup_Some _ (v_vars s) (j, n) (Tvar v []))) by (split; [exact I_plain0|exact D]).
        now rewrite (proj2 (map_filter_lookup_Some _ (av_plain a) (j, n) v)) by (split; [exact Ep|exact D]).
      * rewrite (proj2 (map_filter_lookup_None _ (v_vars s) (j, n))) by (left; exact I_plain0).
        now rewrite (proj2 (map_filter_lookup_None _ (av_plain a) (j, n))) by (left; exact Ep).
  - intros j k n l m Hl Hm. apply map_filter_lookup_Some in Hl as [Hl _]. apply map_filter_lookup_Some in Hm as [Hm _]. now apply (I_one0 _ _ _ _ _ Hl Hm).
  - intros n _. apply lookup_empty.
  - intros k p Hp. apply map_filter_lookup_Some in Hp as [Hp _]. now apply (I_next0 k).
  - intros j k p H1 H2. apply map_filter_lookup_Some in H1 as [H1 _]. apply map_filter_lookup_Some in H2 as [H2 _]. now apply (I_inj0 j k p).
Qed.

Lemma link_step_ok s a i n l : Inv s a -> av_live a !! i = Some tt -> simple n -> (forall j, av_links a !! (j, n) = None) ->
  (forall size, l_how l <> Buffer size) ->
  exists s', setup_traces tc i n (getter l 0) (setter l 0) (l_hook l) s = Ok tt s' /\
    Inv s' (AV (av_mem a) (<[(i, n) := l]> (av_links a)) (delete (i, n) (av_plain a)) (av_live a) (av_log a)).
Proof.
  intros HI Hi Hn Hf Hb. assert (B : forall s, backed s l 0) by (intros s0; unfold backed; destruct (l_how l); try exact I; now contradiction (Hb size)).
  destruct (link_ok s a i n l 0 HI Hn Hf (B s)) as (s' & E & E1 & E2 & E3 & E4 & E5 & E6 & E7 & E8).
  exists s'. split; [exact E|]. apply (inv_link s s' a i n l 0 HI Hn Hf (B s')); try assumption.
  - destruct (l_how l); try exact I. now contradiction (Hb size).
  - intros k m q _ H. rewrite E6, E4. split; [exact H|reflexivity].
  - intros k q. rewrite E6, E5. apply (I_next s a HI).
  - intros j k q. rewrite E6. apply (I_inj s a HI).
Qed.

Lemma free_name {A} (m : gmap (Z * chars) A) n : map_Forall (fun k _ => k.2 <> n) m -> forall j, m !! (j, n) = None.
Proof. intros H j. destruct (m !! (j, n)) as [l|] eqn:E; [|reflexivity]. now contradiction (H _ _ E). Qed.

Lemma step_ok s a o a' : Inv s a -> tidy o a -> avstep tc o a = Some a' -> exists s', vstep tc o s = Ok tt s' /\ Inv s' a'.
Proof.
  intros HI HT HA. destruct o as [i|i|i n x h|i n x h|i n x h|i n x size h|i n|i n|i n v|i n|x v|x]; cbn [vstep avstep tidy] in *;
    unfold avalive, link_step in HA;
    try (destruct (av_live a !! i) as [[]|] eqn:Hi; [pose proof (live_ok s a i HI tt Hi) as HL|try discriminate HA]).
  - discriminate HT.
  - injection HA as <-. eexists. split; [reflexivity|]. destruct HI. constructor; try assumption. cbn. now rewrite I_live0.
  - injection HA as <-. apply (destroy_ok s a i HI Hi). intros j n l D Hl. destruct (HT _ _ Hl) as [E|E]; [now contradiction D|exact E].
  - injection HA as <-. destruct HT as [Hn Hf]. pose proof (free_name _ _ Hf) as Hf0. clear Hf. rename Hf0 into Hf. unfold link_var. rewrite (bind_ok _ _ _ _ _ HL). apply (link_step_ok s a i n (Link x Whole h)); try assumption. discriminate.
  - injection HA as <-. destruct HT as [Hn Hf]. pose proof (free_name _ _ Hf) as Hf0. clear Hf. rename Hf0 into Hf. unfold link_const. rewrite (bind_ok _ _ _ _ _ HL). apply (link_step_ok s a i n (Link x Const h)); try assumption. discriminate.
  - injection HA as <-. destruct HT as [Hn Hf]. pose proof (free_name _ _ Hf) as Hf0. clear Hf. rename Hf0 into Hf. unfold link_ptr. rewrite (bind_ok _ _ _ _ _ HL). apply (link_step_ok s a i n (Link x Pointer h)); try assumption. discriminate.
  - injection HA as <-. destruct HT as [Hn Hf]. pose proof (free_name _ _ Hf) as Hf0. clear Hf. rename Hf0 into Hf. unfold link_buf. rewrite (bind_ok _ _ _ _ _ HL).
    set (p := v_next s). set (l := Link x (Buffer size) h).
    set (s1 := Vst (v_mem s) (v_vars s) (<[p := (x, size)]> (v_data s)) (p + 1) (v_ptrs s) (v_hooks s) (v_live s) (v_log s)).
    unfold vgets at 1. erewrite bind_ok by reflexivity. fold p. unfold vupd at 1. erewrite bind_ok by reflexivity. fold s1.
    assert (HI1 : Inv s1 a).
    { destruct HI. constructor; cbn [s1 v_mem v_live v_log v_hooks v_ptrs v_vars v_next]; try assumption.
      - intros j m k Hk. destruct (I_link0 _ _ _ Hk) as (Hm & Hh & v & q & Hv & Hq & Hpq). split; [exact Hm|]. split; [exact Hh|].
        exists v, q. split; [exact Hv|]. split; [|exact Hpq]. unfold backed in *. destruct (l_how k); try exact I. cbn [s1 v_data].
        rewrite lookup_insert_ne; [exact Hq|]. specialize (I_next0 _ _ Hpq). unfold p. lia.
      - intros k q Hq. specialize (I_next0 _ _ Hq). unfold p. lia. }
    assert (B1 : backed s1 l p) by (cbn [backed l l_how l_obj s1 v_data]; apply lookup_insert).
    destruct (link_ok s1 a i n l p HI1 Hn Hf B1) as (s2 & E & E1 & E2 & E3 & E4 & E5 & E6 & E7 & E8).
    change (setup_traces tc i n (GetData p) (SetData p) h) with (setup_traces tc i n (getter l p) (setter l p) (l_hook l)).
    rewrite (bind_ok _ _ _ _ _ E). unfold vgets. erewrite bind_ok by reflexivity. unfold vupd at 1. erewrite bind_ok by reflexivity.
    set (s3 := up_ptrs (<[(i, n) := p]> (v_ptrs s2)) s2).
    assert (HF : exists s', drop_data (v_ptrs s2 !! (i, n)) s3 = Ok tt s' /\ v_mem s' = v_mem s /\ v_live s' = v_live s /\ v_log s' = v_log s /\ v_vars s' = v_vars s2 /\
              v_hooks s' = v_hooks s2 /\ v_next s' = p + 1 /\ v_ptrs s' = <[(i, n) := p]> (v_ptrs s) /\
              (forall q, v_ptrs s !! (i, n) <> Some q -> v_data s' !! q = v_data s1 !! q)).
    { rewrite E6. unfold s3, drop_data. cbn [s1 v_ptrs]. destruct (v_ptrs s !! (i, n)) as [q|] eqn:Eq; eexists; (split; [reflexivity|]);
        cbn [up_data up_ptrs v_mem v_live v_log v_vars v_hooks v_next v_ptrs v_data]; rewrite ?E1, ?E2, ?E3, ?E5, ?E6, ?E4; repeat (split; [reflexivity|]).
      - intros r Hr. rewrite lookup_delete_ne; [reflexivity|congruence].
      - reflexivity. }
    destruct HF as (s' & F & F1 & F2 & F3 & F4 & F5 & F6 & F7 & F8). exists s'. split; [exact F|].
    assert (Hfresh : forall k, v_ptrs s !! k <> Some p) by (intros k Hk; pose proof (I_next s a HI _ _ Hk); unfold p in *; lia).
    apply (inv_link s s' a i n l p HI Hn Hf); try assumption.
    + cbn [backed l l_how l_obj]. rewrite F8 by apply Hfresh. apply lookup_insert.
    + cbn [l l_how]. rewrite F7. apply lookup_insert.
    + intros k m q D Hq. rewrite F7, lookup_insert_ne by congruence. split; [exact Hq|]. rewrite F8.
      * cbn [s1 v_data]. rewrite lookup_insert_ne; [reflexivity|]. intros <-. now contradiction (Hfresh (k, m)).
      * intros H. apply D. symmetry. now apply (I_inj s a HI _ _ _ H Hq).
    + intros k q. rewrite F7, F6, lookup_insert_Some. intros [[_ <-]|[_ H]]; [lia|]. pose proof (I_next s a HI _ _ H). unfold p. lia.
    + intros j k q. rewrite F7, !lookup_insert_Some. intros [[<- <-]|[D1 H1]] [[<- E']|[D2 H2]]; try reflexivity.
      * now contradiction (Hfresh k).
      * subst q. now contradiction (Hfresh j).
      * now apply (I_inj s a HI _ _ _ H1 H2).
    + rewrite F4, E7. reflexivity.
    + rewrite F5, E8. reflexivity.
  - injection HA as <-. destruct HT as [Hn Hf]. unfold unlink_var. rewrite (bind_ok _ _ _ _ _ HL). unfold tcl_unset. rewrite (simple_name n Hn).
    unfold vupd, vgets. unfold bind at 1 2 3 4. cbn [up_vars up_hooks up_ptrs v_ptrs].
    assert (HF : exists s', drop_data (v_ptrs s !! (i, n)) (up_ptrs (delete (i, n) (v_ptrs s)) (up_hooks (delete n (v_hooks s)) (up_vars (delete (i, n) (v_vars s)) s))) = Ok tt s' /\
              v_mem s' = v_mem s /\ v_live s' = v_live s /\ v_log s' = v_log s /\ v_vars s' = delete (i, n) (v_vars s) /\
              v_hooks s' = delete n (v_hooks s) /\ v_next s' = v_next s /\ v_ptrs s' = delete (i, n) (v_ptrs s) /\
              (forall q, v_ptrs s !! (i, n) <> Some q -> v_data s' !! q = v_data s !! q)).
    { unfold drop_data. destruct (v_ptrs s !! (i, n)) as [q|] eqn:Eq; eexists; (split; [reflexivity|]);
        cbn [up_data up_ptrs up_hooks up_vars v_mem v_live v_log v_vars v_hooks v_next v_ptrs v_data]; repeat (split; [reflexivity|]).
      - intros r Hr. rewrite lookup_delete_ne; [reflexivity|congruence].
      - reflexivity. }
    destruct HF as (s' & F & F1 & F2 & F3 & F4 & F5 & F6 & F7 & F8). exists s'. split; [exact F|].
    apply (inv_unlink s s' a i n HI); try assumption.
    + intros k m q D Hq. rewrite F7, lookup_delete_ne by congruence. split; [exact Hq|]. apply F8. intros H. apply D. symmetry. now apply (I_inj s a HI _ _ _ H Hq).
    + intros k q. rewrite F7. intros Hk. now apply lookup_delete_Some in Hk as [_ Hk].
    + intros m D. rewrite F5. apply lookup_delete_ne. congruence.
    + left. rewrite F5. apply lookup_delete.
    + intros l _. right. rewrite F5. apply lookup_delete.
    + intros j l D Hl. destruct (Hf _ _ Hl) as [E|E]; now contradiction E.
  - rewrite (bind_ok _ _ _ _ _ HL). destruct (av_links a !! (i, n)) as [l|] eqn:El.
    + destruct (av_mem a !! l_obj l) as [o|] eqn:Eo; [|discriminate]. destruct (shown tc (l_how l) o) as [t|] eqn:Et; [|discriminate]. injection HA as <-.
      destruct (get_linked s a i n l o t HI El Eo Et) as (p & E & Hb & Hp). rewrite (bind_ok _ _ _ _ _ E).
      eexists. split; [reflexivity|]. apply (inv_log (wval i n _ s)). now apply inv_var.
    + injection HA as <-. unfold tcl_get, get_var, vgets. rewrite (simple_name n HT).
      destruct (av_plain a !! (i, n)) as [v|] eqn:Ev; cbn [option_map].
      * eexists. split.
        { unfold bind. rewrite (I_plain s a HI _ _ El), Ev. cbn [option_map tv_traces run_reads]. unfold ret. rewrite (I_plain s a HI _ _ El), Ev. reflexivity. }
        now apply (inv_log s).
      * eexists. split.
        { unfold bind. rewrite (I_plain s a HI _ _ El), Ev. reflexivity. }
        now apply (inv_log s).
  - rewrite (bind_ok _ _ _ _ _ HL). destruct (av_links a !! (i, n)) as [l|] eqn:El.
    + destruct (av_mem a !! l_obj l) as [o|] eqn:Eo; [|discriminate]. destruct (stored tc (l_how l) o v) as [r|] eqn:Er; [|discriminate].
      destruct (I_link s a HI _ _ _ El) as (Hn & Hh & v0 & p & Hv & Hb & Hp).
      set (s1 := wval i n (Tvar v [setter l p; getter l p]) s).
      assert (HI1 : Inv s1 a) by now apply inv_var.
      assert (E0 : tcl_set tc i n v s = run_writes tc i n [setter l p; getter l p] v s1).
      { unfold tcl_set, get_var, vgets, set_value, vupd, bind. rewrite (simple_name n Hn), Hv. reflexivity. }
      assert (Eg : forall s, run_write tc i n (getter l p) v s = Ok true s) by (intros s0; unfold getter; destruct (l_how l); reflexivity).
      destruct r as [|old new]; injection HA as <-.
      * unfold bind. rewrite E0. cbn [run_writes]. unfold bind. rewrite (set_refuse l p o v s1 i n Er). eexists. split; [reflexivity|]. now apply (inv_log s1).
      * pose proof Eo as Eo'. rewrite <- (I_mem s a HI) in Eo'.
        pose proof (set_become l p o v s1 i n old new Er Eo' Hb Hn) as Ew. cbn [s1 wval up_vars v_hooks] in Ew. fold (wval i n (Tvar v [setter l p; getter l p]) s) in Ew. fold s1 in Ew.
        rewrite Hh in Ew. unfold bind. rewrite E0. cbn [run_writes]. unfold bind. rewrite Ew, Eg. unfold ret, vemit, vupd. eexists. split; [reflexivity|].
        pose proof (inv_mem s1 a (<[l_obj l := new]> (v_mem s1)) HI1) as HI2.
        assert (EM : v_mem s1 = av_mem a) by apply HI1. rewrite EM in HI2 |- *.
        destruct (l_hook l) as [h|].
        -- exact (inv_log _ _ (ESet i n true) (inv_log _ _ (EHook h old new) HI2)).
        -- exact (inv_log _ _ (ESet i n true) HI2).
    + injection HA as <-. unfold tcl_set, get_var, vgets, set_value, vupd. rewrite (simple_name n HT).
      eexists. split.
      { unfold bind. rewrite (I_plain s a HI _ _ El). instantiate (1 := wlog (ESet i n true) (wval i n (Tvar v []) s)). destruct (av_plain a !! (i, n)); reflexivity. }
      enough (H : Inv (wval i n (Tvar v []) s) (AV (av_mem a) (av_links a) (<[(i, n) := v]> (av_plain a)) (av_live a) (av_log a)))
        by exact (inv_log _ _ (ESet i n true) H).
      destruct HI. constructor; cbn [wval up_vars v_mem v_live v_log v_vars v_hooks v_next v_ptrs v_data av_mem av_links av_plain av_live av_log]; try assumption.
      * intros j m k Hk. destruct (I_link0 _ _ _ Hk) as (Hm & Hh & v' & q & Hv & R). split; [exact Hm|]. split; [exact Hh|]. exists v', q.
        rewrite lookup_insert_ne by congruence. split; [exact Hv|exact R].
      * intros j m Hk. destruct (decide ((i, n) = (j, m))) as [<-|D]; [now rewrite !lookup_insert|]. rewrite !lookup_insert_ne by exact D. now apply I_plain0.
  - injection HA as <-. destruct HT as [Hn Hf]. rewrite (bind_ok _ _ _ _ _ HL). unfold tcl_unset, vupd. rewrite (simple_name n Hn). eexists. split; [reflexivity|].
    apply (inv_unlink s _ a i n HI); try reflexivity; cbn [up_vars v_ptrs v_data v_hooks].
    + intros k m q _ H. split; [exact H|reflexivity].
    + intros k q H. exact H.
    + right. reflexivity.
    + intros l Hl. left. destruct (Hf _ _ Hl) as [E|E]; [now contradiction E|exact E].
  - injection HA as <-. eexists. split; [reflexivity|]. pose proof (inv_mem s a (<[x := v]> (v_mem s)) HI) as H. rewrite (I_mem s a HI) in H |- *. exact H.
  - injection HA as <-. eexists. split; [reflexivity|]. pose proof (inv_mem s a (delete x (v_mem s)) HI) as H. rewrite (I_mem s a HI) in H |- *. exact H.
Qed.

Lemma exec_ok l : forall s a b, Inv s a -> avruns tc l a b -> exists s', vexec tc l s = Ok tt s' /\ Inv s' b.
Proof.
  induction l as [|o l IH]; intros s a b HI HR; cbn [avruns vexec] in *; [subst b; exists s; split; [reflexivity|exact HI]|].
  destruct HR as [HT (a' & HA & HR)]. destruct (step_ok s a o a' HI HT HA) as (s' & E & HI'). rewrite (bind_ok _ _ _ _ _ E). exact (IH s' a' b HI' HR).
Qed.
Lemma exec_refines l mem b : avruns tc l (avars_init mem) b ->
  exists s, vexec tc l (vst_init mem) = Ok tt s /\ v_mem s = av_mem b /\ v_log s = av_log b.
Proof.
  intros HR. destruct (exec_ok l _ _ _ (inv_init mem) HR) as (s & E & HI). exists s. split; [exact E|]. split; apply HI.
Qed.

(** A way to find that a program is tidy. *)
Global Instance tidy_dec o a : Decision (tidy o a).
Proof. destruct o; unfold tidy, simple; apply _. Defined.
Fixpoint avcheck (l : list vop) (a : avars) : option avars :=
  match l with
  | [] => Some a
  | o :: l' => if decide (tidy o a) then match avstep tc o a with Some a' => avcheck l' a' | None => None end else None
  end.
Lemma avcheck_ok l : forall a b, avcheck l a = Some b -> avruns tc l a b.
Proof.
  induction l as [|o l IH]; intros a b; cbn [avcheck avruns]; [now intros [= ->]|].
  destruct (decide (tidy o a)); [|discriminate]. destruct (avstep tc o a) as [a'|]; [|discriminate]. intros H. split; [assumption|]. exists a'. split; [reflexivity|now apply IH].
Qed.
Definition avtidy (l : list vop) (a : avars) : bool := match avcheck l a with Some _ => true | None => false end.
Lemma avtidy_ok l a : avtidy l a = true -> exists b, avruns tc l a b.
Proof. unfold avtidy. destruct (avcheck l a) as [b|] eqn:E; [|discriminate]. intros _. exists b. now apply avcheck_ok. Qed.
End WithTcl.
