(** Every call of NestModel.v does what NestMeet.v says, in every state a program can reach. *)
From stdpp Require Import gmap.
From Verif Require Import RcaSpec RcaModel RcaExec RcaInv RcaOwn RcaRel RcaMeet RcaMain RcaReach NestModel NestMeet NestSim NestAbs NestBuf NestOps NestCalls NestNames NestProof.
From Coq Require Import ZifyBool.
Open Scope Z_scope.

Section Main.
Variable d : desc Z.
Variable od : desc positive.
Hypothesis Hwf : wf_desc d.
Notation vd := (vd od).
Notation St := (state sval).
Notation rel := (rel d).
Notation sim := (sim d).
Notation Rv := (RcaRel.R vd).
Notation Rd := (RcaRel.R d).
Notation nr := (nr d od).
Notation good_out := (good_out d od).

Lemma elems_insert A x vs : elems (<[x := NVal vs]> A) x = Some vs.
Proof. unfold elems. rewrite lookup_insert. reflexivity. Qed.

(** Prediction after bad_alloc: the array kept its value or is empty. *)
Ltac plain_ := first [right; intros ?; reflexivity | left; split; [reflexivity|intros ?; reflexivity]].
Ltac targets E := cbn [ntarget]; intros ? [= <-]; eexists; exact E.
Ltac asks_ := cbn [ntarget]; intros ? [= <-]; cbn [nasks asks]; unfold vlen; rewrite ?lookup_insert, ?elems_insert, ?zlen_map; reflexivity.
Ltac no_target := cbn [ntarget]; intros ? [=].

Lemma elem_some A y i w : elem A y i = Some w -> exists ws, elems A y = Some ws /\ znth i ws = Some w.
Proof. unfold elem. destruct (elems A y) as [ws|]; [|discriminate]. eauto. Qed.
Lemma nstep_out o s A b r : nr A b s -> nstep d o A b = Some r -> good_out o s A b r.
Proof.
  intros H Hst. destruct o.
  1: apply (str_out d od Hwf); assumption.
  all: pose proof H as (t & A1 & Hr & HR & Ha); cbn [nstep] in Hst; unfold nput in Hst.
  - (* NNew *) destruct (A !! x) eqn:E; [discriminate|]. injection Hst as <-. pose proof (arel_none _ _ _ Ha E) as E1.
    eapply (lift d od _ (CtorDefault x) _ _ s t); try eassumption; try reflexivity; try plain_; try no_target.
    + apply (sim_handles d); [apply h_default|exact Hr].
    + unfold step. cbn [spec_step]. unfold fresh_var. rewrite E1. reflexivity.
    + apply arel_insert; [exact Ha|reflexivity].
  - (* NCopy *) destruct (A !! x) eqn:E; [discriminate|]. destruct (elems A y) as [vs|] eqn:Ey; [|discriminate]. injection Hst as <-.
    pose proof (arel_none _ _ _ Ha E) as E1. destruct (arel_val _ _ _ _ Ha Ey) as (ry & Hy).
    eapply (lift d od _ (CtorCopy x y) _ _ s t); try eassumption; try reflexivity; try plain_; try no_target.
    + apply (sim_handles d); [apply h_copy|exact Hr].
    + unfold step. cbn [spec_step]. unfold fresh_var, holds. rewrite E1, Hy. reflexivity.
    + apply arel_insert; [exact Ha|reflexivity].
  - (* NMove *) destruct (A !! x) eqn:E; [discriminate|]. destruct (elems A y) as [vs|] eqn:Ey; [|discriminate]. injection Hst as <-.
    pose proof (arel_none _ _ _ Ha E) as E1. destruct (arel_val _ _ _ _ Ha Ey) as (ry & Hy).
    eapply (lift d od _ (CtorMove x y) _ _ s t); try eassumption; try reflexivity; try plain_; try no_target.
    + apply (sim_handles d); [apply h_move|exact Hr].
    + unfold step. cbn [spec_step]. unfold fresh_var, holds. rewrite E1, Hy. reflexivity.
    + apply arel_insert; [|reflexivity]. apply arel_insert; [exact Ha|exact I].
  - (* NKill *) destruct (A !! x) eqn:E; [|discriminate]. injection Hst as <-.
    eapply (lift d od _ (Destroy x) _ _ s t); try eassumption; try reflexivity; try plain_; try no_target.
    + apply (kill_sim d od Hwf), Hr.
    + unfold step. cbn [spec_step]. rewrite (arel_live _ _ _ _ Ha E). reflexivity.
    + apply arel_delete, Ha.
  - (* NAssign *) destruct (A !! x) eqn:E; [|discriminate]. destruct (elems A y) as [vs|] eqn:Ey; [|discriminate]. injection Hst as <-.
    destruct (arel_val _ _ _ _ Ha Ey) as (ry & Hy).
    eapply (lift d od _ (AssignCopy x y) _ _ s t); try eassumption; try reflexivity; try plain_; try no_target.
    + apply (assign_sim d Hwf), Hr.
    + unfold step. cbn [spec_step]. unfold holds. rewrite Hy, (arel_live _ _ _ _ Ha E). reflexivity.
    + apply arel_insert; [exact Ha|reflexivity].
  - (* NAssignMove *) destruct (Pos.eqb_spec x y) as [<-|Ne].
    + destruct (A !! x) eqn:E; [|discriminate]. injection Hst as <-.
      eapply (lift d od _ (AssignMove x x) _ _ s t); try eassumption; try reflexivity; try plain_; try no_target.
      * apply (assign_move_sim d Hwf), Hr.
      * unfold step. cbn [spec_step]. rewrite Pos.eqb_refl, (arel_live _ _ _ _ Ha E). reflexivity.
    + destruct (A !! x) eqn:E; [|discriminate]. destruct (elems A y) as [vs|] eqn:Ey; [|discriminate]. injection Hst as <-.
      destruct (arel_val _ _ _ _ Ha Ey) as (ry & Hy).
      eapply (lift d od _ (AssignMove x y) _ _ s t); try eassumption; try reflexivity; try plain_; try no_target.
      * apply (assign_move_sim d Hwf), Hr.
      * unfold step. cbn [spec_step]. rewrite (proj2 (Pos.eqb_neq x y) Ne). unfold holds. rewrite Hy, (arel_live _ _ _ _ Ha E). reflexivity.
      * apply arel_insert; [|reflexivity]. apply arel_insert; [exact Ha|exact I].
  - (* NSwap *) destruct (A !! x) as [vx|] eqn:Ex; [|discriminate]. destruct (A !! y) as [vy|] eqn:Ey; [|discriminate]. injection Hst as <-.
    destruct (arel_some _ _ _ _ Ha Ex) as (wx & Hx & Sx). destruct (arel_some _ _ _ _ Ha Ey) as (wy & Hy & Sy).
    eapply (lift d od _ (Swap x y) _ _ s t); try eassumption; try reflexivity; try plain_; try no_target.
    + apply (sim_handles d); [apply h_swap|exact Hr].
    + unfold step. cbn [spec_step]. rewrite Hx, Hy. reflexivity.
    + apply arel_insert; [|exact Sx]. apply arel_insert; [exact Ha|exact Sy].
  - (* NClear *) destruct (A !! x) eqn:E; [|discriminate]. injection Hst as <-.
    eapply (lift d od _ (Clear x) _ _ s t); try eassumption; try reflexivity; try plain_; try no_target.
    + apply (sim_handles d); [apply h_clear|exact Hr].
    + unfold step. cbn [spec_step]. rewrite (arel_live _ _ _ _ Ha E). reflexivity.
    + apply arel_insert; [exact Ha|reflexivity].
  - (* NReserve *) destruct (elems A x) as [vs|] eqn:E; [|discriminate]. destruct (in_u64 n && (zlen vs <=? n)) eqn:C; [|discriminate]. injection Hst as <-.
    destruct (arel_val _ _ _ _ Ha E) as (rx & Hx). destruct (rel_arr d od A A1 b s t x vs Hr HR Ha E) as (ob & Har).
    eapply (lift d od _ (ReserveIfOwn x n) _ _ s t); try eassumption; try reflexivity; try plain_.
    + apply (reserve_own_sim d od Hwf b s t x ob vs n Hr Har).
    + unfold step. cbn [spec_step]. unfold holds. rewrite Hx, zlen_map. unfold size_ok. cbn [is_string d_nul NestAbs.vd andb negb]. rewrite andb_true_r, C. reflexivity.
    + targets E.
  - (* NResize *) destruct (elems A x) as [vs|] eqn:E; [|discriminate]. destruct ((0 <=? n) && (n <=? zlen vs)) eqn:C; [|discriminate]. injection Hst as <-.
    destruct (arel_val _ _ _ _ Ha E) as (rx & Hx). destruct (rel_arr d od A A1 b s t x vs Hr HR Ha E) as (ob & Har).
    pose proof (max_small _ (ar_max _ _ _ _ _ Har)) as Hmx.
    assert (step vd (Resize x n) A1 = Some (SRet (<[x := AVal (if n <? zlen vs then rx else true) (map Some (ztake n vs))]> A1) ONone)) as Hs.
    { unfold step. cbn [spec_step]. unfold holds. rewrite Hx, zlen_map. unfold size_ok. cbn [is_string d_nul NestAbs.vd andb negb]. rewrite andb_true_r.
      assert (in_u64 n = true) as -> by (unfold in_u64; lia). cbn [need]. destruct (Z.ltb_spec n (zlen vs)); [rewrite ztake_map; reflexivity|].
      replace (n - zlen vs) with 0 by lia. change (zrep 0 None) with (@nil (option sval)). rewrite app_nil_r, ztake_all by lia. reflexivity. }
    eapply (lift d od _ (Resize x n) _ _ s t); try eassumption; try reflexivity; try plain_.
    + apply (resize_sim d od Hwf b s t x ob vs n Hr Har).
    + apply arel_insert; [exact Ha|reflexivity].
    + targets E.
    + asks_.
  - (* NSlice *) destruct (elems A x) as [vs|] eqn:E; [|discriminate]. destruct (sp_slice_ok (zlen vs) start len) eqn:C; [|discriminate]. injection Hst as <-.
    destruct (arel_val _ _ _ _ Ha E) as (rx & Hx).
    eapply (lift d od _ (SliceTo x start len) _ _ s t); try eassumption; try reflexivity; try plain_; try no_target.
    + apply (sim_handles d); [apply h_slice|exact Hr].
    + unfold step. cbn [spec_step]. unfold holds. rewrite Hx, zlen_map, C. reflexivity.
    + apply arel_insert; [exact Ha|]. apply slice_map.
  - (* NInsert *) destruct (elems A x) as [vs|] eqn:E; [|discriminate]. destruct (item b v) as [w|] eqn:Ev; [|discriminate]. apply item_some in Ev.
    destruct (in_u64 pos) eqn:C; [|discriminate].
    destruct (arel_val _ _ _ _ Ha E) as (rx & Hx). destruct (rel_arr d od A A1 b s t x vs Hr HR Ha E) as (ob & Har).
    pose proof (insert_sim d od Hwf b s t x ob vs pos v w mv Hr Har C Ev) as S.
    assert (step vd (InsertItem x pos w) A1 = if zlen vs <? pos then Some SRange else
       Some (SRet (<[x := AVal true (map Some (ztake pos vs ++ w :: zdrop pos vs))]> A1) ONone)) as Hs.
    { unfold step. cbn [spec_step]. unfold holds. rewrite Hx, zlen_map, C. cbn [need]. destruct (zlen vs <? pos); [reflexivity|].
      unfold sp_splice, put. rewrite ztake_map, zdrop_map, map_app. reflexivity. }
    destruct (zlen vs <? pos); injection Hst as <-.
    + eapply (lift_range d od _ (InsertItem x pos w) _ _ s t); try eassumption; reflexivity.
    + eapply (lift d od _ (InsertItem x pos w) _ _ s t); try eassumption; try reflexivity; try plain_.
      * apply arel_insert; [exact Ha|reflexivity].
      * targets E.
      * asks_.
  - (* NAppend *) destruct (elems A x) as [vs|] eqn:E; [|discriminate]. destruct (item b v) as [w|] eqn:Ev; [|discriminate]. apply item_some in Ev. injection Hst as <-.
    destruct (arel_val _ _ _ _ Ha E) as (rx & Hx). destruct (rel_arr d od A A1 b s t x vs Hr HR Ha E) as (ob & Har).
    pose proof (append_sim d od Hwf b s t x ob vs v w mv Hr Har Ev) as S.
    eapply (lift d od _ (AppendItem x w) _ _ s t); try eassumption; try reflexivity; try plain_.
    + unfold step. cbn [spec_step]. unfold holds. rewrite Hx. reflexivity.
    + apply arel_insert; [exact Ha|]. cbn. rewrite map_app. reflexivity.
    + targets E.
    + cbn [ntarget]; intros ? [= <-]; cbn [nasks asks]; unfold vlen; rewrite ?lookup_insert, ?elems_insert. zlen_simpl. rewrite zlen_map. reflexivity.
  - (* NInsertArray *) destruct (Pos.eqb_spec x y) as [|Ne]; [discriminate|]. destruct (elems A x) as [vs|] eqn:E; [|discriminate].
    destruct (elems A y) as [ws|] eqn:Ey; [|discriminate]. destruct (in_u64 pos) eqn:C; [|discriminate].
    destruct (arel_val _ _ _ _ Ha E) as (rx & Hx). destruct (rel_arr d od A A1 b s t x vs Hr HR Ha E) as (ob & Har).
    destruct (arel_val _ _ _ _ Ha Ey) as (ry & Hy). destruct (rel_arr d od A A1 b s t y ws Hr HR Ha Ey) as (oy & Hay).
    pose proof (insert_array_sim d od Hwf b s t x y ob vs oy ws pos Hr Har Hay Ne C) as S.
    assert (step vd (InsertAll false x pos y) A1 = if zlen vs <? pos then Some SRange else
       if (pos =? 0) && (zlen vs <? zlen ws) then Some (SRet (<[x := AVal ry (map Some ws)]> A1) ONone)
       else Some (SRet (<[x := AVal true (map Some (ztake pos vs ++ ws ++ zdrop pos vs))]> A1) ONone)) as Hs.
    { unfold step. cbn [spec_step]. unfold sp_insert, holds. rewrite Hx, Hy, !zlen_map, C. cbn [need]. rewrite andb_true_r. destruct (zlen vs <? pos); [reflexivity|].
      destruct ((pos =? 0) && (zlen vs <? zlen ws)); [reflexivity|]. unfold alias_ok. rewrite (proj2 (Pos.eqb_neq x y) Ne), andb_false_r. cbn [negb orb need].
      rewrite ztake_all by (rewrite zlen_map; lia). unfold sp_splice, put. rewrite ztake_map, zdrop_map, <- !map_app. reflexivity. }
    destruct (zlen vs <? pos); [injection Hst as <-|].
    + eapply (lift_range d od _ (InsertAll false x pos y) _ _ s t); try eassumption; reflexivity.
    + destruct ((pos =? 0) && (zlen vs <? zlen ws)); injection Hst as <-.
      * eapply (lift d od _ (InsertAll false x pos y) _ _ s t); try eassumption; try reflexivity; try plain_.
        -- apply arel_insert; [exact Ha|reflexivity].
        -- targets E.
        -- asks_.
      * eapply (lift d od _ (InsertAll false x pos y) _ _ s t); try eassumption; try reflexivity; try plain_.
        -- apply arel_insert; [exact Ha|reflexivity].
        -- targets E.
        -- asks_.
  - (* NWrite *) destruct (elems A x) as [vs|] eqn:E; [|discriminate]. destruct (item b v) as [w|] eqn:Ev; [|discriminate]. apply item_some in Ev.
    destruct ((0 <=? pos) && (pos <? zlen vs)) eqn:C; [|discriminate]. injection Hst as <-.
    destruct (arel_val _ _ _ _ Ha E) as (rx & Hx). destruct (rel_arr d od A A1 b s t x vs Hr HR Ha E) as (ob & Har).
    pose proof (write_sim d od Hwf b s t x ob vs pos v w mv Hr Har ltac:(lia) Ev) as S.
    eapply (lift d od _ (Write x pos w) _ _ s t); try eassumption; try reflexivity; try plain_.
    + apply (write_step _ _ _ rx); [exact Hx|lia].
    + apply arel_insert; [exact Ha|reflexivity].
    + targets E.
    + asks_.
  - (* NReplace *) destruct (elems A x) as [vs|] eqn:E; [|discriminate]. destruct (item b v) as [w|] eqn:Ev; [|discriminate]. apply item_some in Ev.
    destruct (in_u64 pos && negb (pos =? zlen vs)) eqn:C; [|discriminate].
    destruct (arel_val _ _ _ _ Ha E) as (rx & Hx). destruct (rel_arr d od A A1 b s t x vs Hr HR Ha E) as (ob & Har).
    assert (Cu : in_u64 pos = true) by lia. assert (Cp : 0 <= pos) by (unfold in_u64 in Cu; lia).
    pose proof (replace_sim d od Hwf b s t x ob vs pos v w mv Hr Har Cp Cu ltac:(lia) Ev) as S.
    assert (step vd (ReplaceItem x pos w) A1 = if zlen vs <? pos then Some SRange else
       Some (SRet (<[x := AVal true (map Some (zupd pos [w] vs))]> A1) ONone)) as Hs.
    { unfold step. cbn [spec_step]. unfold holds. rewrite Hx, zlen_map, C. cbn [need]. destruct (Z.ltb_spec (zlen vs) pos); [reflexivity|].
      rewrite over_map by lia. reflexivity. }
    destruct (zlen vs <? pos); injection Hst as <-.
    + eapply (lift_range d od _ (ReplaceItem x pos w) _ _ s t); try eassumption; reflexivity.
    + eapply (lift d od _ (ReplaceItem x pos w) _ _ s t); try eassumption; try reflexivity; try plain_.
      * apply arel_insert; [exact Ha|reflexivity].
      * targets E.
      * asks_.
  - (* NInsertEl *) destruct (Pos.eqb_spec x y) as [|Ne]; [discriminate|]. destruct (elems A x) as [vs|] eqn:E; [|discriminate].
    destruct (elem A y i) as [w|] eqn:Ev; [|discriminate]. apply elem_some in Ev as (ws & Ey & Ev). destruct (in_u64 pos) eqn:C; [|discriminate].
    destruct (arel_val _ _ _ _ Ha E) as (rx & Hx). destruct (rel_arr d od A A1 b s t x vs Hr HR Ha E) as (ob & Har). destruct (rel_arr d od A A1 b s t y ws Hr HR Ha Ey) as (oy & Hay).
    pose proof (insert_el_sim d od Hwf b s t x ob vs y oy ws pos i w Hr Har Hay Ne Ev C) as S.
    assert (step vd (InsertItem x pos w) A1 = if zlen vs <? pos then Some SRange else
       Some (SRet (<[x := AVal true (map Some (ztake pos vs ++ w :: zdrop pos vs))]> A1) ONone)) as Hs.
    { unfold step. cbn [spec_step]. unfold holds. rewrite Hx, zlen_map, C. cbn [need]. destruct (zlen vs <? pos); [reflexivity|].
      unfold sp_splice, put. rewrite ztake_map, zdrop_map, map_app. reflexivity. }
    destruct (zlen vs <? pos); injection Hst as <-.
    + eapply (lift_range d od _ (InsertItem x pos w) _ _ s t); try eassumption; reflexivity.
    + eapply (lift d od _ (InsertItem x pos w) _ _ s t); try eassumption; try reflexivity; try plain_.
      * apply arel_insert; [exact Ha|reflexivity].
      * targets E.
      * asks_.
  - (* NAppendEl *) destruct (Pos.eqb_spec x y) as [|Ne]; [discriminate|]. destruct (elems A x) as [vs|] eqn:E; [|discriminate].
    destruct (elem A y i) as [w|] eqn:Ev; [|discriminate]. apply elem_some in Ev as (ws & Ey & Ev). injection Hst as <-.
    destruct (arel_val _ _ _ _ Ha E) as (rx & Hx). destruct (rel_arr d od A A1 b s t x vs Hr HR Ha E) as (ob & Har). destruct (rel_arr d od A A1 b s t y ws Hr HR Ha Ey) as (oy & Hay).
    pose proof (append_el_sim d od Hwf b s t x ob vs y oy ws i w Hr Har Hay Ne Ev) as S.
    eapply (lift d od _ (AppendItem x w) _ _ s t); try eassumption; try reflexivity; try plain_.
    + unfold step. cbn [spec_step]. unfold holds. rewrite Hx. reflexivity.
    + apply arel_insert; [exact Ha|]. cbn. rewrite map_app. reflexivity.
    + targets E.
    + cbn [ntarget]; intros ? [= <-]; cbn [nasks asks]; unfold vlen; rewrite ?lookup_insert, ?elems_insert. zlen_simpl. rewrite zlen_map. reflexivity.
  - (* NWriteEl *) destruct (elems A x) as [vs|] eqn:E; [|discriminate]. destruct (elem A y i) as [w|] eqn:Ev; [|discriminate]. apply elem_some in Ev as (ws & Ey & Ev).
    destruct ((0 <=? pos) && (pos <? zlen vs)) eqn:C; [|discriminate]. injection Hst as <-.
    destruct (arel_val _ _ _ _ Ha E) as (rx & Hx). destruct (rel_arr d od A A1 b s t x vs Hr HR Ha E) as (ob & Har). destruct (rel_arr d od A A1 b s t y ws Hr HR Ha Ey) as (oy & Hay).
    pose proof (write_el_sim d od Hwf b s t x ob vs y oy ws pos i w Hr Har Hay Ev ltac:(lia)) as S.
    eapply (lift d od _ (Write x pos w) _ _ s t); try eassumption; try reflexivity; try plain_.
    + apply (write_step _ _ _ rx); [exact Hx|lia].
    + apply arel_insert; [exact Ha|reflexivity].
    + targets E.
    + asks_.
  - (* NReplaceEl *) destruct (elems A x) as [vs|] eqn:E; [|discriminate]. destruct (elem A y i) as [w|] eqn:Ev; [|discriminate]. apply elem_some in Ev as (ws & Ey & Ev).
    destruct (in_u64 pos && negb (pos =? zlen vs)) eqn:C; [|discriminate].
    destruct (arel_val _ _ _ _ Ha E) as (rx & Hx). destruct (rel_arr d od A A1 b s t x vs Hr HR Ha E) as (ob & Har). destruct (rel_arr d od A A1 b s t y ws Hr HR Ha Ey) as (oy & Hay).
    assert (Cu : in_u64 pos = true) by lia. assert (Cp : 0 <= pos) by (unfold in_u64 in Cu; lia).
    pose proof (replace_el_sim d od Hwf b s t x ob vs y oy ws pos i w Hr Har Hay Ev Cp Cu ltac:(lia)) as S.
    assert (step vd (ReplaceItem x pos w) A1 = if zlen vs <? pos then Some SRange else
       Some (SRet (<[x := AVal true (map Some (zupd pos [w] vs))]> A1) ONone)) as Hs.
    { unfold step. cbn [spec_step]. unfold holds. rewrite Hx, zlen_map, C. cbn [need]. destruct (Z.ltb_spec (zlen vs) pos); [reflexivity|].
      rewrite over_map by lia. reflexivity. }
    destruct (zlen vs <? pos); injection Hst as <-.
    + eapply (lift_range d od _ (ReplaceItem x pos w) _ _ s t); try eassumption; reflexivity.
    + eapply (lift d od _ (ReplaceItem x pos w) _ _ s t); try eassumption; try reflexivity; try plain_.
      * apply arel_insert; [exact Ha|reflexivity].
      * targets E.
      * asks_.
  - apply (elem_out d od Hwf); assumption.
  - apply (peek_out d od Hwf); assumption.
  - (* NGet *) destruct (elems A x) as [vs|] eqn:E; [|discriminate]. destruct (b !! r0) eqn:Eb; [discriminate|]. destruct (znth pos vs) as [v|] eqn:Ev; [|discriminate].
    injection Hst as <-. destruct (rel_arr d od A A1 b s t x vs Hr HR Ha E) as (ob & Har).
    destruct (get_sim d od Hwf b s t x ob vs pos v r0 Hr Har Ev Eb) as (s' & E' & Hr').
    left. exists s', ONone. cbn [nexec]. unfold NestModel.unit_. rewrite (bind_ok _ _ _ _ _ E'). split; [reflexivity|]. split; [reflexivity|]. exists t, A1. auto.
  - (* NShift *) destruct (elems A x) as [[|v vs]|] eqn:E; try discriminate. destruct (b !! r0) eqn:Eb; [discriminate|]. injection Hst as <-.
    destruct (arel_val _ _ _ _ Ha E) as (rx & Hx). destruct (rel_arr d od A A1 b s t x (v :: vs) Hr HR Ha E) as (ob & Har).
    destruct (shift_sim_ d od Hwf b s t x ob vs v r0 Hr Har Eb) as (s' & t' & E1 & E2 & Hr').
    pose proof (exec_meets vd (Shift x) t A1 (wf_vd od) HR) as Hm. unfold meets, step in Hm. cbn [spec_step exec] in Hm. unfold holds in Hm. rewrite Hx in Hm. cbn [map] in Hm.
    unfold val_ in Hm. rewrite (bind_ok _ _ _ _ _ E2) in Hm. destruct Hm as [HR' _].
    left. exists s', ONone. cbn [nexec]. unfold NestModel.unit_. rewrite (bind_ok _ _ _ _ _ E1). split; [reflexivity|]. split; [reflexivity|].
    eexists t', _. split; [exact Hr'|]. split; [exact HR'|]. apply arel_insert; [exact Ha|reflexivity].
  - (* NPop *) destruct (elems A x) as [vs|] eqn:E; [|discriminate]. destruct (b !! r0) eqn:Eb; [discriminate|]. destruct (znth (zlen vs - 1) vs) as [v|] eqn:Ev; [|discriminate].
    injection Hst as <-.
    destruct (arel_val _ _ _ _ Ha E) as (rx & Hx). destruct (rel_arr d od A A1 b s t x vs Hr HR Ha E) as (ob & Har).
    destruct (pop_sim d od Hwf b s t x ob vs v r0 Hr Har Ev Eb) as (s' & t' & E1 & E2 & Hr').
    pose proof (exec_meets vd (Pop x) t A1 (wf_vd od) HR) as Hm. unfold meets, step in Hm. cbn [spec_step exec] in Hm. unfold holds in Hm.
    rewrite Hx, zlen_map, znth_map, Ev in Hm. cbn [option_map] in Hm.
    unfold val_ in Hm. rewrite (bind_ok _ _ _ _ _ E2) in Hm. destruct Hm as [HR' _].
    left. exists s', ONone. cbn [nexec]. unfold NestModel.unit_. rewrite (bind_ok _ _ _ _ _ E1). split; [reflexivity|]. split; [reflexivity|].
    eexists t', _. split; [exact Hr'|]. split; [exact HR'|]. apply arel_insert; [exact Ha|]. cbn. apply ztake_map.
Qed.
End Main.
