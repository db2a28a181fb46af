(** Proofs about C65's witnesses: many copies of one String. *)
From stdpp Require Import gmap.
From Verif Require Import RcaSpec RcaModel RcaExec RcaMeet RcaEx CntModel CntMeet CntProof.
Open Scope Z_scope.
Definition ab : op Z := CtorCstrLen 1 [97; 98] 2.
Definition s_ab : state Z := match exec32 sdesc ab st_init with Ok _ s => s | _ => st_init end.
Section W.
Variables (e : gmap positive obj) (h : gmap positive (cell Z)) (l : positive) (g : nat) (r : Z) (nx : positive) (tk : nat) (fr : list (list (option Z))).
Let o := Obj (Some l) 0 2 0.
Hypothesis (E1 : e !! 1%positive = Some o) (E2 : e !! 2%positive = Some o) (Hr : (1 <? r) = false).
Let s b := State (<[l := Cell [b; Some 98; Some 0] g r]> h) e nx tk fr.

Lemma bindk {S A B} (m : M S A) (f : A -> M S B) t v t' : m t = Ok v t' -> (let* x := m in f x) t = f v t'.
Proof. intros H. unfold bind. rewrite H. reflexivity. Qed.
Lemma wr : exec32 sdesc (Write 1 0 88) (s (Some 97)) = Ok ONone (State (<[l := Cell [Some 88; Some 98; Some 0] g r]> h) (<[1%positive := o]> e) nx tk fr).
Proof.
  unfold exec32, g_exec, unit_. erewrite bindk; [reflexivity|]. unfold g_write. erewrite bindk.
  2:{ unfold g_get_own_copy. erewrite bindk; [|unfold length_of; erewrite bindk; [reflexivity|unfold get_obj, s; cbn -[lookup]; rewrite E1; reflexivity]].
      unfold g_about_to_modify. erewrite bindk; [|erewrite bindk; [reflexivity|unfold get_obj, s; cbn -[lookup]; rewrite E1; reflexivity]].
      erewrite bindk; [|unfold is_shared; erewrite bindk; [|unfold get_obj; cbn -[lookup insert]; rewrite lookup_insert; reflexivity]; cbn [o_ref];
        erewrite bindk; [reflexivity|unfold get_cell; cbn -[lookup insert]; rewrite lookup_insert; reflexivity]].
      cbn [c_refs]. rewrite Hr. unfold v_reserve. cbn [d_nul sdesc]. erewrite bindk.
      2:{ unfold base_reserve. erewrite bindk; [|unfold get_obj; cbn -[lookup insert]; rewrite lookup_insert; reflexivity]. cbn [o_ref]. erewrite bindk; [|reflexivity].
          erewrite bindk; [reflexivity|]. unfold aref_reserve. erewrite bindk; [|unfold get_cell; cbn -[lookup insert]; rewrite lookup_insert; reflexivity]. reflexivity. }
      erewrite bindk; [|unfold get_obj; cbn -[lookup insert]; rewrite lookup_insert; reflexivity]. cbn [o_ref].
      erewrite bindk; [|unfold get_cell; cbn -[lookup insert]; rewrite lookup_insert; reflexivity]. reflexivity. }
  unfold store. change (zlen [Some 88] <=? 0) with false. cbv iota. erewrite bindk; [|unfold get_obj; cbn -[lookup insert]; rewrite lookup_insert; reflexivity]. cbn [o_ref].
  erewrite bindk; [|unfold get_cell; cbn -[lookup insert]; rewrite lookup_insert; reflexivity].
  match goal with |- context [if ?b then _ else _] => change b with true end. cbv iota beta. unfold set_cell, with_heap. cbn -[lookup insert]. rewrite !insert_insert. reflexivity.
Qed.

Lemma rd x b : e !! x = Some o -> exec32 sdesc (Read x 0) (s (Some b)) = Ok (OVal b) (s (Some b)).
Proof.
  intros Ex. unfold exec32, g_exec, val_. erewrite bindk; [reflexivity|]. unfold read, load1. erewrite bindk; [|unfold load; cbn -[lookup insert bind get_obj get_cell]].
  2:{ erewrite bindk; [|unfold get_obj, s; cbn -[lookup]; rewrite Ex; reflexivity]. cbn [o o_ref]. erewrite bindk; [|unfold get_cell, s; cbn -[lookup insert]; rewrite lookup_insert; reflexivity]. reflexivity. }
  reflexivity.
Qed.
Lemma de b : (r =? 1) = false -> (i32 (r - 1) <? 1) = true ->
  exec32 sdesc (Destroy 1) (s b) = Ok ONone (State (delete l h) (delete 1%positive e) nx tk ([b; Some 98; Some 0] :: fr)).
Proof.
  intros H1 Hd. unfold exec32, g_exec, unit_. erewrite bindk; [reflexivity|]. unfold g_destroy. erewrite bindk.
  2:{ unfold cleanse_if_last. cbn [d_nul sdesc]. erewrite bindk; [|unfold get_obj, s; cbn -[lookup]; rewrite E1; reflexivity]. cbn [o o_ref].
      erewrite bindk; [|unfold get_cell, s; cbn -[lookup insert]; rewrite lookup_insert; reflexivity]. cbn [c_refs]. rewrite H1. reflexivity. }
  erewrite bindk.
  2:{ unfold g_check_dealloc. erewrite bindk; [|unfold get_obj, s; cbn -[lookup]; rewrite E1; reflexivity]. cbn [o o_ref]. erewrite bindk.
      2:{ unfold dec32. erewrite bindk; [|unfold get_cell, s; cbn -[lookup insert]; rewrite lookup_insert; reflexivity]. erewrite bindk; [|reflexivity]. reflexivity. }
      cbn [c_refs]. rewrite Hd. erewrite bindk; [|unfold delete_cell; cbn -[lookup insert delete i32]; rewrite insert_insert, lookup_insert; reflexivity]. reflexivity. }
  unfold del_obj, with_env. cbn [st_heap st_env st_next st_tick st_freed]. rewrite ?delete_insert_delete. reflexivity.
Qed.
End W.
Lemma dead d e h nx tk fr o l : e !! 2%positive = Some o -> o_ref o = Some l -> exec32 (T:=Z) d (Read 2 0) (State (delete l h) e nx tk fr) = Undef UbFreed.
Proof. intros E Ho. cbn -[lookup delete]. unfold val_, read, load1, load, bind, get_obj. cbn -[lookup delete]. rewrite E, Ho. unfold get_cell. cbn -[lookup delete]. rewrite lookup_delete. reflexivity. Qed.

Lemma crowd n : exists vs s', run32 sdesc (ab :: copies 2 n) st_init = Ok vs s' /\
  st_heap s' = <[1%positive := Cell [Some 97; Some 98; Some 0] 1 (i32 (1 + Z.of_nat n))]> (st_heap s_ab) /\
  forall j, (Z.pos j <= 1 + Z.of_nat n) -> st_env s' !! j = Some (Obj (Some 1%positive) 0 2 0).
Proof.
  destruct (copies_run sdesc (Obj (Some 1%positive) 0 2 0) 1%positive n 2%positive s_ab (Cell [Some 97; Some 98; Some 0] 1 1)) as (vs & s' & R1 & R2 & R3).
  1-4: vm_compute; reflexivity.
  - intros j Hj. destruct j as [p|p|]; [vm_compute; reflexivity..|lia].
  - reflexivity.
  - exists (ONone :: vs), s'. cbn [run32]. split.
    + erewrite bindk; [|assert (E : exec32 sdesc ab st_init = Ok ONone s_ab) by (vm_compute; reflexivity); exact E]. erewrite bindk; [|exact R1]. reflexivity.
    + split; [exact R2|]. intros j Hj. rewrite R3. destruct (decide (2 <= j)%positive) as [L|L]; [rewrite decide_True by lia; reflexivity|].
      assert (j = 1%positive) as -> by lia. vm_compute. reflexivity.
Qed.
(** 2^31 Strings on one buffer: writing through one shows in the others. *)
Lemma crowd_write : exists vs s' s'', run32 sdesc (ab :: copies 2 (Z.to_nat 2147483647)) st_init = Ok vs s' /\
  exec32 sdesc (Read 2 0) s' = Ok (OVal 97) s' /\ exec32 sdesc (Write 1 0 88) s' = Ok ONone s'' /\ exec32 sdesc (Read 2 0) s'' = Ok (OVal 88) s''.
Proof.
  destruct (crowd (Z.to_nat 2147483647)) as (vs & s' & R & Hh & He). rewrite Z2Nat.id in Hh, He by lia. change (i32 (1 + 2147483647)) with (-2147483648) in Hh.
  destruct s' as [h e nx tk fr]. cbn in Hh, He. subst h. pose proof (He 1%positive ltac:(lia)) as E1. pose proof (He 2%positive ltac:(lia)) as E2.
  eexists vs, _, _. split; [exact R|]. split; [apply rd, E2|]. split; [apply (wr e (st_heap s_ab) 1%positive 1 (-2147483648) nx tk fr E1 eq_refl)|].
  apply (rd (<[1%positive := _]> e)). rewrite lookup_insert_ne by discriminate. exact E2.
Qed.
(** One more, and destroying one frees the buffer under the others. *)
Lemma crowd_destroy : exists vs s' s'', run32 sdesc (ab :: copies 2 (Z.to_nat 2147483648)) st_init = Ok vs s' /\
  exec32 sdesc (Read 2 0) s' = Ok (OVal 97) s' /\ exec32 sdesc (Destroy 1) s' = Ok ONone s'' /\ exec32 sdesc (Read 2 0) s'' = Undef UbFreed.
Proof.
  destruct (crowd (Z.to_nat 2147483648)) as (vs & s' & R & Hh & He). rewrite Z2Nat.id in Hh, He by lia. change (i32 (1 + 2147483648)) with (-2147483647) in Hh.
  destruct s' as [h e nx tk fr]. cbn in Hh, He. subst h. pose proof (He 1%positive ltac:(lia)) as E1. pose proof (He 2%positive ltac:(lia)) as E2.
  eexists vs, _, _. split; [exact R|]. split; [apply rd, E2|]. split; [apply (de e (st_heap s_ab) 1%positive 1 (-2147483647) nx tk fr E1); reflexivity|].
  eapply dead; [rewrite lookup_delete_ne by discriminate; exact E2|reflexivity].
Qed.
