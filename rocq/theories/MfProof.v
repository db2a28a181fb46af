(** Streams, Strings and files: every call does what MfSpec says. *)
From stdpp Require Import gmap.
From Verif Require Import RcaSpec RcaModel RcaExec RcaInv RcaOwn RcaRel RcaMeet RcaReach RcaFacts StreamSpec StreamModel StreamMeet StreamProof StdioSpec StdioModel StdioMeet StdioProof
  MstSpec MstModel MstMeet MstProof MfSpec MfModel MfMeet MfLoad.
Open Scope Z_scope.

Lemma path_at_text w : path_at (map Some w ++ [Some 0]) = Some (file_name w).
Proof.
  induction w as [|c w IH]; [reflexivity|]. cbn [map app path_at file_name]. rewrite IH. destruct (c =? 0); reflexivity.
Qed.
(** Writing from the beginning. *)
Lemma write_fd_exact d : wf_desc d -> forall x t fails s z a v p, SR d x t s z v p a ->
  exists f, write_fd fails [] (s, z) = Ok (if write_fails fails v then 1 else 0, f) (s, z) /\ (write_fails fails v = false -> f = v) /\ zlen f <= zlen v.
Proof.
  intros Hwf x t fails s z a v p [Hz Hpos Hpr Hr [r Hv] Ht]. destruct (reached_shows d s a Hwf Hr x r _ Hv) as [Hl _]. rewrite zlen_map in Hl.
  pose proof (zlen_nonneg v).
  unfold write_fd, slength, bind at 1 2, str at 1. rewrite Hz. unfold str_call at 1. rewrite Hl. unfold write_fails.
  destruct (fails Ftruncate); cbn [orb].
  { exists []. split; [reflexivity|]. split; [discriminate|exact H]. }
  assert (Hft : zlen (ftrunc (zlen v) []) = zlen v).
  { unfold ftrunc. rewrite zlen_app. change (zlen (ztake (zlen v) [])) with (zlen (firstn (Z.to_nat (zlen v)) (@nil Z))). rewrite firstn_nil.
    unfold zrep, zlen at 2. rewrite repeat_length. change (zlen (@nil Z)) with 0. lia. }
  destruct (Z.eqb_spec (zlen v) 0) as [E|E]; cbn [negb andb].
  { eexists. split; [reflexivity|]. split; [|lia]. intros _. apply zlen_0_nil in E. subst v. apply zlen_0_nil. exact Hft. }
  destruct (fails MmapWrite); cbn [orb].
  { eexists. split; [reflexivity|]. split; [discriminate|lia]. }
  unfold bind, str at 1. rewrite Hz. unfold str_call. rewrite (load_bytes d Hwf s a x r v Hr Hv). rewrite bytes_some. eexists. split; [reflexivity|]. split; [reflexivity|lia].
Qed.

Section Proof.
Variable d : desc Z.
Hypothesis Hwf : wf_desc d.
Hypothesis Hnul : d_nul d = Some 0.
Variable t : positive.
Variable mm : bool.
Notation streams := (gmap positive stream).
Notation fstate := ((state Z * streams) * (files * Z))%type.
Notation MF := (M fstate).
Notation reached := (reached d).
Notation step := (step d).
Notation mrel := (mrel d t).
Notation frel := (frel d t).
Notation fstep := (fstep step t mm).
Notation fdoes := (fdoes d t mm).
Notation memlow := (memlow d).

Lemma cstr_no_throw g y s e s' : exec d (CStr g y) s <> Exn e s'.
Proof.
  cbn [exec]. unfold mem_, with_nul. rewrite Hnul. unfold bind, c_str, noexcept.
  match goal with |- context [match (match ?r with _ => _ end) with _ => _ end] => destruct r end; discriminate.
Qed.
(** file.c_str() *)
Lemma path_ok (g : bool) (y : positive) (st : fstate) (a : astate Z) (m : gmap positive Z) (fs : files) (w : list Z) (P : list Z -> fstate -> Prop) (Q : exn -> fstate -> Prop) (T : Prop) :
  frel st a m fs -> text a y = Some (true, w) -> plain t m y = true ->
  (forall s', frel ((s', snd (fst st)), snd st) a m fs -> P (file_name w) ((s', snd (fst st)), snd st)) -> (short d (MString (CStr g y)) a -> T) ->
  match path_of d g y st with Ok v st' => P v st' | Exn e st' => Q e st' | Term => T | _ => False end.
Proof.
  intros [HM Hf Hs] Hy Hp HP HT. destruct st as [[s zs] [fs0 n]]. cbn [fst snd] in *. subst fs0. pose proof (text_some _ _ _ _ Hy) as Ha.
  assert (Es : step (CStr g y) a = Some (SRet a (OMem (map Some w ++ [Some 0])))).
  { unfold RcaMeet.step. cbn [spec_step]. rewrite Hnul, (holds_val _ _ _ _ Ha). reflexivity. }
  assert (Hm : mstep step t 0 (MString (CStr g y)) a m = Some (MRet a m (MOut (OMem (map Some w ++ [Some 0]))))).
  { cbn [mstep mentions forallb]. rewrite Hp. cbn [andb need]. rewrite Es. reflexivity. }
  pose proof (string_ok d Hwf t (CStr g y) s zs a m _ 0 HM Hm) as K. unfold MstMeet.mdoes in K. cbn [mexec] in K. unfold bind, ucall in K.
  unfold path_of, bind, below, ucall. pose proof (cstr_no_throw g y s) as Hno. destruct (exec d (CStr g y) s) as [v s'|e s'| | |u]; try contradiction.
  - destruct K as (a' & m' & v' & [= <- <- <-] & Hle & H'). unfold mout_le in Hle. cbn [out_le] in Hle. destruct v as [|v|z|b]; try discriminate Hle.
    change (map Some w ++ [Some 0]) with (map (@Some Z) w ++ map Some [0]) in Hle. rewrite <- map_app in Hle. apply vle_somes in Hle. subst b.
    rewrite map_app. cbn [map]. rewrite path_at_text. apply HP. split; [exact H'|reflexivity|exact Hs].
  - exfalso. eapply Hno. reflexivity.
  - destruct K as (g' & x & [= <- <-] & K). apply HT, K.
Qed.

Lemma frel_put (st : fstate) (a : astate Z) (m : gmap positive Z) (fs : files) k rk v p s' z' (n : Z) v' p' :
  frel st a m fs -> a !! k = Some (AVal rk (map Some v)) -> m !! k = Some p -> here d k a v' p' (s', z') -> 0 <= p' < W64 ->
  frel ((s', <[k := z']> (snd (fst st))), (fst (snd st), n)) (<[k := str_ true v']> a) (<[k := p']> m) fs.
Proof.
  intros [HM Hf Hs] Ha Hm (Hz & Hp & Hr) Hpr. destruct st as [[s zs] [fs0 n0]]. cbn [fst snd] in *.
  destruct (mrel_stream d t _ _ _ _ _ _ HM Hm) as (_ & Ht & Hkt & _ & _). split; cbn [fst snd]; [|exact Hf|exact Hs].
  destruct z' as [x q b]. cbn [s_str s_pos] in *. subst x q. eapply mrel_set; [exact HM|exact Hr| | |exact Hpr|].
  - unfold str_. rewrite lookup_insert_ne by congruence. exact Ht.
  - unfold str_. rewrite lookup_insert. eauto.
  - intros j q Hj. apply some_insert. eapply mrel_names; eassumption.
Qed.
Lemma zlen_bound s (a : astate Z) k rk (v : list Z) : reached s a -> a !! k = Some (AVal rk (map Some v)) -> 0 <= zlen v < W63.
Proof. intros H Ha. pose proof (reached_len d s a k _ _ Hwf H Ha) as Hl. rewrite zlen_map in Hl. pose proof (zlen_nonneg v). unfold max_alloc, W63 in *. lia. Qed.

(** loadFile on one Stream. *)
Definition loader (x : world) (f : list Z) : MK Z := if mm then load_mm d t x f else load_stdio_name d (x_stdio x) t (Some (Source f true (x_err x))).
Lemma loader_ok x f s z a k v p n : SR d k t s z v p a -> t <> k -> zlen f < W63 ->
  kwp (loader x f)
    (fun r st' n' => n' = n /\
       match luck_load mm x with
       | Shut => r = 1 /\ st' = (s, z)
       | lk => if match lk with Lost => true | _ => mm && (zlen f =? 0) end then r = 1 /\ here d k a [] 0 st' else r = 0 /\ here d k a (readable lk f) 0 st'
       end)
    (fun e st' n' => e = BadAlloc /\ n' = n + (if mm then 1 else 2) /\ memlow (2 * zlen f + 2048) /\ luck_load mm x <> Shut /\ (luck_load mm x = Lost -> mm = true) /\
       exists j, (mm = true -> j = 0) /\ lost d k a (readable (luck_load mm x) f) j st') (s, z) n.
Proof.
  intros HSR Htk Hf. pose proof HSR as [_ _ _ _ _ Hta]. unfold loader, luck_load. destruct mm.
  - unfold load_mm. destruct (x_mmap x OpenRead).
    { apply kwp_ret. auto. }
    apply kwp_bind, kwp_opened, kwp_bind, kwp_on. eapply wp_conseq; [apply (load_fd_exact d Hwf Hnul k t Htk a Hta (x_mmap x) s z v p f HSR Hf)| |].
    + intros r st' K. apply kwp_bind, kwp_closed, kwp_ret. split; [lia|]. cbn [andb]. destruct (x_mmap x Lseek || x_mmap x MmapRead); cbn [orb] in K; [exact K|].
      destruct (zlen f =? 0); exact K.
    + intros e st' (-> & Hm & K). split; [reflexivity|]. split; [reflexivity|]. split; [exact Hm|]. split; [destruct (_ || _); discriminate|]. split; [reflexivity|].
      exists 0. split; [reflexivity|]. split; [lia|]. exists []. change (1024 * 0) with 0. rewrite (ztake_0 0) by lia. auto.
  - unfold load_stdio_name. destruct (x_stdio x KOpenRead).
    { apply kwp_ret. auto. }
    apply kwp_bind, kwp_opened, kwp_bind.
    eapply kwp_conseq; [apply (load_stdio_exact d Hwf Hnul k t Htk a Hta (x_stdio x) s z v p (Source f true (x_err x)) (n + 1) HSR Hf eq_refl)| |].
    + intros r st' n' (-> & K). apply kwp_bind, kwp_closed, kwp_ret. split; [lia|]. cbn [src_data src_error andb] in *.
      destruct (x_stdio x Dup || x_stdio x Fdopen); [exact K|]. destruct (x_err x); exact K.
    + intros e st' n' (-> & Hd & Hm & -> & j & K). cbn [src_data src_error] in *. rewrite Hd. split; [reflexivity|]. split; [lia|]. split; [exact Hm|].
      split; [destruct (x_err x); discriminate|]. split; [destruct (x_err x); discriminate|]. exists j. split; [discriminate|]. destruct (x_err x); exact K.
Qed.
Lemma load_does x (g : bool) (k y : positive) (st : fstate) (a : astate Z) (m : gmap positive Z) (fs : files) r cap : frel st a m fs ->
  fstep (luck_of mm x (FLoad g k y) a m) cap (FLoad g k y) a m fs = Some r -> fdoes x (FLoad g k y) st a m fs r.
Proof.
  intros HF Hs. cbn [MfSpec.fstep luck_of] in Hs. destruct (strm a m k) as [[[rk v] p]|] eqn:Hk; [|discriminate]. destruct (text a y) as [[[|] w]|] eqn:Hy; [|discriminate|discriminate].
  destruct (plain t m y) eqn:Hp; [|discriminate]. cbn [need] in Hs. destruct (strm_some _ _ _ _ _ _ Hk) as [Ha Hm].
  unfold MfMeet.fdoes. cbn [fexec]. unfold load_file. unfold bind at 1 2.
  pose proof (path_ok g y st a m fs w
    (fun path st1 => match (let* f := look path in match f with None => ret 1 | Some f => at_desc k (loader x f) end) st1 with
       | Ok v st' => snd (snd st') = snd (snd st) /\ exists a' m' (F : files -> Prop) fs' v', r = FRet a' m' F v' /\ F fs' /\ mout_le v' (MInt v) /\ frel st' a' m' fs'
       | Exn e st' => e = BadAlloc /\ snd (snd st') = snd (snd st) + leaked mm (FLoad g k y) /\ (exists a' m' F v', r = FRet a' m' F v') /\ fshort d (FLoad g k y) a fs /\
          exists a' m', ffail mm (luck_load mm x) a m fs (FLoad g k y) a' m' /\ frel st' a' m' fs
       | _ => False
       end) (fun _ _ => False) (fends d (FLoad g k y) a) HF Hy Hp) as K.
  match type of K with ?A -> _ => assert A as HA; [|specialize (K HA); clear HA] end.
  2:{ specialize (K (fun h => h)). destruct (path_of d g y st) as [path st1|e st1| | |u]; try contradiction; [|exact K]. unfold loader in K.
      match type of K with match ?c with _ => _ end => destruct c as [v1 st2|[] st2| | |u] end; try contradiction; [exact K|destruct K; discriminate|exact (proj2 K)]. }
  intros s' HF'. unfold bind, look. destruct st as [[s zs] [fs0 n]]. cbn [fst snd] in *. pose proof (fr_files _ _ _ _ _ _ HF) as Hfs. cbn [fst snd] in Hfs. subst fs0.
  destruct (fs !! file_name w) as [f|] eqn:Ef.
  2:{ assert (r = FRet a m (eq fs) (MInt 1)) as -> by (destruct (luck_load mm x); congruence). cbn. split; [reflexivity|]. exists a, m, (eq fs), fs, (MInt 1). split; [reflexivity|]. split; [reflexivity|]. split; [reflexivity|exact HF']. }
  pose proof (fr_small _ _ _ _ _ _ HF _ _ Ef) as Hsm. pose proof (fr_mem _ _ _ _ _ _ HF') as HM. cbn [fst] in HM.
  destruct (sr_of d t _ _ _ _ _ _ _ _ t HM Ha Hm (mr_tmp _ _ _ _ _ HM)) as (b & Hb & HSR).
  destruct (mrel_stream d t _ _ _ _ _ _ HM Hm) as (_ & _ & Hkt & _ & _).
  pose proof (loader_ok x f s' _ a k v p n HSR (not_eq_sym Hkt) Hsm) as L. unfold kwp in L. unfold at_desc. rewrite Hb.
  destruct (loader x f (s', Stream k p b, n)) as [v1 [[s1 z1] n1]|e [[s1 z1] n1]| | |u] eqn:E; try contradiction; cbn [snd].
  - destruct L as (-> & L). split; [reflexivity|].
    assert (Hgo : forall l, here d k a l 0 (s1, z1) -> frel (s1, <[k := z1]> zs, (fs, n)) (<[k := str_ true l]> a) (<[k := 0]> m) fs).
    { intros l Hh. exact (frel_put _ _ _ _ k rk v p s1 z1 n l 0 HF' Ha Hm Hh ltac:(unfold W64; lia)). }
    destruct (luck_load mm x) eqn:El; cbn [readable] in *.
    2:{ destruct L as (-> & [= -> ->]). injection Hs as <-. exists a, m, (eq fs), fs, (MInt 1). split; [reflexivity|]. split; [reflexivity|]. split; [reflexivity|]. rewrite insert_id by exact Hb. exact HF'. }
    2:{ destruct L as (-> & L). injection Hs as <-. eexists _, _, _, fs, _. split; [reflexivity|]. split; [reflexivity|]. split; [reflexivity|]. apply Hgo, L. }
    all: destruct (mm && (zlen f =? 0)); destruct L as (-> & L); injection Hs as <-; eexists _, _, _, fs, _; (split; [reflexivity|]); (split; [reflexivity|]); (split; [reflexivity|]); apply Hgo, L.
  - destruct L as (-> & -> & Hmem & Hns & Hnl & j & Hj & Hj0 & v' & Hv' & Hh). split; [reflexivity|]. split; [reflexivity|]. split.
    { destruct (luck_load mm x); try contradiction; try (destruct (mm && (zlen f =? 0))); injection Hs as <-; eauto. }
    split; [exists true, w, f; auto|]. eexists _, _. split; [eapply ff_load; eassumption|].
    refine (frel_put _ _ _ _ k rk v p s1 z1 _ v' _ HF' Ha Hm Hh _).
    assert (zlen (readable (luck_load mm x) f) <= zlen f) by (unfold readable; destruct (luck_load mm x); zls; lia).
    assert (zlen (ztake (1024 * j) (readable (luck_load mm x) f)) <= zlen (readable (luck_load mm x) f)) by (zls; lia).
    pose proof (zlen_nonneg (ztake (1024 * j) (readable (luck_load mm x) f))). unfold W64, W63 in *. lia.
Qed.

(** writeFile on one Stream. *)
Definition saver (x : world) (f : option (list Z)) : MK (Z * option (list Z)) := if mm then write_mm x f else write_stdio_name (x_stdio x) f (x_room x).
Lemma saver_ok x old s z a k v p n : SR d k t s z v p a -> sane x ->
  exists r f, saver x old ((s, z), n) = Ok (r, f) ((s, z), n) /\
    match luck_save mm x v with
    | Shut => r = 1 /\ f = old
    | Good => r = 0 /\ f = Some v
    | _ => r = 1 /\ exists l, f = Some l /\ zlen l <= zlen v
    end.
Proof.
  intros HSR Hsane. pose proof (zlen_nonneg v). unfold saver, luck_save. destruct mm.
  - unfold write_mm. destruct (x_mmap x OpenWrite); [eexists _, _; split; [reflexivity|]; auto|].
    destruct (write_fd_exact d Hwf k t (x_mmap x) s z a v p HSR) as (f & E & Hok & Hlen). fold (write_fails (x_mmap x) v).
    exists (if write_fails (x_mmap x) v then 1 else 0), (Some f). split.
    + unfold bind, opened, StdioModel.on, closed, ret. rewrite E. cbn [fst snd]. do 2 f_equal. lia.
    + destruct (write_fails (x_mmap x) v); [eauto|]. rewrite Hok; auto.
  - destruct (write_name_ok' d Hwf k t (x_stdio x) s z a v p old (x_room x) n HSR) as (r & f & E & K).
    { unfold sane in Hsane. destruct (x_room x); lia. }
    exists r, f. split; [exact E|]. destruct (x_stdio x KOpenWrite); [exact K|]. destruct (x_stdio x Dup || x_stdio x Fdopen).
    { destruct K as (-> & ->). split; [reflexivity|]. eexists. split; [reflexivity|]. change (zlen (@nil Z)) with 0. lia. }
    destruct (x_room x) as [c|]; [|exact K]. destruct (c <? zlen v); [|exact K]. destruct K as (-> & ->). split; [reflexivity|]. eexists. split; [reflexivity|]. zls; lia.
Qed.
Lemma save_does x (g : bool) (k y : positive) (st : fstate) (a : astate Z) (m : gmap positive Z) (fs : files) r cap : frel st a m fs -> sane x ->
  fstep (luck_of mm x (FSave g k y) a m) cap (FSave g k y) a m fs = Some r -> fdoes x (FSave g k y) st a m fs r.
Proof.
  intros HF Hx Hs. cbn [MfSpec.fstep luck_of] in Hs. destruct (strm a m k) as [[[rk v] p]|] eqn:Hk; [|discriminate]. destruct (text a y) as [[[|] w]|] eqn:Hy; [|discriminate|discriminate].
  destruct (plain t m y) eqn:Hp; [|discriminate]. cbn [need] in Hs. destruct (strm_some _ _ _ _ _ _ Hk) as [Ha Hm].
  unfold MfMeet.fdoes. cbn [fexec]. unfold write_file. unfold bind at 1 2.
  pose proof (path_ok g y st a m fs w
    (fun path st1 => match (let* f := look path in let* r := at_desc k (saver x f) in put_file path (snd r) ;;; ret (fst r)) st1 with
       | Ok v st' => snd (snd st') = snd (snd st) /\ exists a' m' (F : files -> Prop) fs' v', r = FRet a' m' F v' /\ F fs' /\ mout_le v' (MInt v) /\ frel st' a' m' fs'
       | _ => False
       end) (fun _ _ => False) (fends d (FSave g k y) a) HF Hy Hp) as K.
  match type of K with ?A -> _ => assert A as HA; [|specialize (K HA); clear HA] end.
  2:{ specialize (K (fun h => h)). destruct (path_of d g y st) as [path st1|e st1| | |u]; try contradiction; [|exact K]. unfold saver in K.
      match type of K with match ?c with _ => _ end => destruct c as [v1 st2|[] st2| | |u] end; try contradiction; exact K. }
  intros s' HF'. unfold bind, look. destruct st as [[s zs] [fs0 n]]. cbn [fst snd] in *. pose proof (fr_files _ _ _ _ _ _ HF) as Hfs. cbn [fst snd] in Hfs. subst fs0.
  pose proof (fr_mem _ _ _ _ _ _ HF') as HM. cbn [fst] in HM.
  destruct (sr_of d t _ _ _ _ _ _ _ _ t HM Ha Hm (mr_tmp _ _ _ _ _ HM)) as (b & Hb & HSR).
  destruct (saver_ok x (fs !! file_name w) s' _ a k v p n HSR Hx) as (r1 & f & E & L). unfold at_desc. rewrite Hb, E. cbn [fst snd put_file ret].
  rewrite insert_id by exact Hb. split; [reflexivity|]. pose proof (zlen_bound _ _ _ _ _ (mr_reached _ _ _ _ _ HM) Ha) as Hzv.
  assert (Hput : forall l, zlen l < W63 -> frel (s', zs, (<[file_name w := l]> fs, n)) a m (<[file_name w := l]> fs)).
  { intros l Hl. split; cbn [fst snd]; [exact HM|reflexivity|]. intros q f' Hq. destruct (decide (file_name w = q)) as [<-|Hne].
    - rewrite lookup_insert in Hq. injection Hq as <-. exact Hl.
    - rewrite lookup_insert_ne in Hq by exact Hne. eapply (fr_small _ _ _ _ _ _ HF), Hq. }
  destruct (luck_save mm x v).
  - destruct L as (-> & ->). injection Hs as <-. eexists _, _, _, (<[file_name w := v]> fs), _. split; [reflexivity|]. split; [reflexivity|]. split; [reflexivity|]. apply Hput. lia.
  - destruct L as (-> & ->). injection Hs as <-. eexists _, _, _, fs, _. split; [reflexivity|]. split; [reflexivity|]. split; [reflexivity|].
    destruct (fs !! file_name w) as [f|] eqn:Ef; [rewrite insert_id by exact Ef|rewrite delete_notin by exact Ef]; exact HF'.
  - destruct L as (-> & l & -> & Hl). injection Hs as <-. eexists _, _, _, (<[file_name w := l]> fs), _. split; [reflexivity|]. split; [eauto|]. split; [reflexivity|]. apply Hput. lia.
  - destruct L as (-> & l & -> & Hl). injection Hs as <-. eexists _, _, _, (<[file_name w := l]> fs), _. split; [reflexivity|]. split; [eauto|]. split; [reflexivity|]. apply Hput. lia.
Qed.

Theorem fexec_ok x o (st : fstate) (a : astate Z) (m : gmap positive Z) (fs : files) cap : frel st a m fs -> sane x -> fcap o st cap ->
  match fstep (luck_of mm x o a m) cap o a m fs with None => True | Some r => fdoes x o st a m fs r end.
Proof.
  intros HF Hx Hc. destruct (fstep (luck_of mm x o a m) cap o a m fs) as [r|] eqn:Hs; [|exact I]. destruct o as [o|g k y|g k y|p c].
  - destruct HF as [HM Hf Hsm]. cbn [MfSpec.fstep fcap] in *. pose proof (mexec_ok d Hwf Hnul t o (fst st) a m cap HM Hc) as K.
    destruct (mstep step t cap o a m) as [r0|] eqn:E; [|discriminate]. unfold MstMeet.mdoes in K. unfold MfMeet.fdoes. cbn [fexec]. destruct st as [st w]. cbn [fst snd] in *. unfold below.
    destruct (mexec d t o st) as [v st'|[] st'| | |u]; try contradiction; cbn [snd].
    + destruct K as (a' & m' & v' & -> & Hle & H'). injection Hs as <-. split; [reflexivity|]. exists a', m', (eq fs), fs, v'. split; [reflexivity|]. split; [reflexivity|]. split; [exact Hle|]. split; assumption.
    + destruct K as (-> & H'). injection Hs as <-. split; [reflexivity|]. split; [reflexivity|]. split; assumption.
    + destruct K as ((a1 & m1 & v1 & ->) & Hsh & a' & m' & Hff & H'). injection Hs as <-. split; [cbn [leaked]; lia|]. split; [eauto|]. split; [exact Hsh|]. exists a', m'. split; [constructor; exact Hff|]. split; assumption.
    + destruct K as (g & y & -> & K). exact K.
  - eapply load_does; eassumption.
  - eapply save_does; eassumption.
  - destruct HF as [HM Hf Hsm]. destruct st as [st [fs0 n]]. cbn [fst snd] in *. subst fs0. cbn [MfSpec.fstep] in Hs. unfold MfMeet.fdoes. cbn [fexec]. unfold bind, put_file, ret. cbn [fst snd]. destruct c as [l|].
    + destruct (Z.ltb_spec (zlen l) W63) as [Hl|]; [|discriminate]. injection Hs as <-. split; [reflexivity|]. eexists _, _, _, (<[p := l]> fs), _. split; [reflexivity|]. split; [reflexivity|]. split; [reflexivity|].
      split; [exact HM|reflexivity|]. intros q f' Hq. destruct (decide (p = q)) as [<-|Hne].
      * rewrite lookup_insert in Hq. injection Hq as <-. exact Hl.
      * rewrite lookup_insert_ne in Hq by exact Hne. eapply Hsm, Hq.
    + injection Hs as <-. split; [reflexivity|]. eexists _, _, _, (delete p fs), _. split; [reflexivity|]. split; [reflexivity|]. split; [reflexivity|].
      split; [exact HM|reflexivity|]. intros q f' Hq. apply lookup_delete_Some in Hq. eapply Hsm, Hq.
Qed.

Lemma frel_init n : frel ((st_init, ∅), (∅, n)) ∅ ∅ ∅.
Proof. split; [apply mrel_init|reflexivity|]. intros p f E. rewrite lookup_empty in E. discriminate. Qed.
Theorem fobserve_ok ops : forall (st : fstate) (a : astate Z) (m : gmap positive Z) (fs : files), frel st a m fs -> Forall (fun c => sane (fst c)) ops ->
  fallows d t mm a m fs ops (fobserve d t mm ops st).
Proof.
  induction ops as [|[x o] ops IH]; intros st a m fs HF Hx; [constructor|]. inversion Hx as [|c0 l0 Hx0 Hxs]; subst. clear Hx. rename Hx0 into Hx. cbn [fst] in Hx. cbn [fobserve].
  assert (Hcap : (exists cap, fcap o st cap /\ fsaw o st = fseen o cap) \/ (exists k off wh, o = FDo (MSeek k off wh) /\ strm a m k = None)).
  { destruct o as [o| | |]; try (left; exists 0; split; [exact I|reflexivity]).
    destruct (cap_exists d Hwf t o (fst st) a m (fr_mem _ _ _ _ _ _ HF)) as [H|(k & off & wh & -> & H)]; [left; exact H|right; eauto]. }
  destruct Hcap as [(cap & Hc & ->)|(k & off & wh & -> & Hk)]; [|apply fl_nowhere, Hk].
  pose proof (fexec_ok x o st a m fs cap HF Hx Hc) as K. destruct (fstep (luck_of mm x o a m) cap o a m fs) as [r|] eqn:E; [|eapply fl_misuse, E].
  assert (Hno : fshort d o a fs -> fseen o cap = []) by (destruct o as [o| | |]; [destruct o|..]; cbn [fshort fseen short mseen]; (contradiction || reflexivity)).
  assert (Hno' : fends d o a -> fseen o cap = []) by (destruct o as [o| | |]; [destruct o|..]; cbn [fends fseen mseen]; (contradiction || reflexivity)).
  unfold MfMeet.fdoes in K. destruct (fexec d t mm x o st) as [v st'|[] st'| | |u]; try contradiction.
  - destruct K as (_ & a' & m' & F & fs' & v' & -> & HFs & Hle & H'). eapply fl_ret; [exact E|exact HFs|exact Hle|]. apply IH; assumption.
  - destruct K as (_ & -> & H'). eapply fl_range; [exact E|]. apply IH; assumption.
  - destruct K as (_ & _ & Hsh & a' & m' & Hf & H'). rewrite (Hno Hsh). eapply fl_oom; [exact Hsh|exact Hf|]. apply IH; assumption.
  - rewrite (Hno' K). apply fl_term, K.
Qed.

(** What a call does not mention. *)
Lemma fstep_apart lk cap o (a : astate Z) (m : gmap positive Z) (fs : files) a' m' (F : files -> Prop) v x :
  fstep lk cap o a m fs = Some (FRet a' m' F v) -> x ∉ finvolved o -> a' !! x = a !! x /\ m' !! x = m !! x.
Proof.
  intros Hs Hx. revert Hs. destruct o as [o|g k y|g k y|p c]; cbn [MfSpec.fstep finvolved] in *; unfold need, str_.
  1:{ destruct (mstep step t cap o a m) as [[a1 m1 v1|]|] eqn:E; [|discriminate|discriminate]. intros [= <- <- _ _]. eapply mstep_apart; eassumption. }
  all: repeat match goal with H : _ ∉ _ :: _ |- _ => apply not_elem_of_cons in H; destruct H as [? H] end.
  all: intros Hs; repeat match type of Hs with
    | context [match ?b with _ => _ end] => destruct b; try discriminate Hs
    end; injection Hs as <- <- _ _.
  all: split; rewrite ?lookup_insert_ne by congruence; reflexivity.
Qed.
Lemma fstep_files lk cap o (a : astate Z) (m : gmap positive Z) (fs : files) a' m' (F : files -> Prop) v fs' p :
  fstep lk cap o a m fs = Some (FRet a' m' F v) -> F fs' -> ftouches o a <> Some p -> fs' !! p = fs !! p.
Proof.
  intros Hs HF Hp. revert Hs. destruct o as [o|g k y|g k y|q c]; cbn [MfSpec.fstep ftouches] in *; unfold need.
  - destruct (mstep step t cap o a m) as [[a1 m1 v1|]|]; [|discriminate|discriminate]. intros [= <- <- <- _]. rewrite <- HF. reflexivity.
  - intros Hs. repeat match type of Hs with
    | context [match ?b with _ => _ end] => destruct b; try discriminate Hs
    end; injection Hs as <- <- <- _; rewrite <- HF; reflexivity.
  - destruct (strm a m k) as [[[rk v0] p0]|]; [|discriminate]. destruct (text a y) as [[[|] w]|]; [|discriminate|discriminate]. destruct (plain t m y); [|discriminate].
    assert (file_name w <> p) by congruence.
    destruct lk; intros [= <- <- <- _]; [rewrite <- HF|rewrite <- HF; reflexivity|destruct HF as (f & _ & ->)..]; rewrite lookup_insert_ne by assumption; reflexivity.
  - destruct c as [l|].
    + destruct (zlen l <? W63); [|discriminate]. intros [= <- <- <- _]. rewrite <- HF. apply lookup_insert_ne. congruence.
    + intros [= <- <- <- _]. rewrite <- HF. apply lookup_delete_ne. congruence.
Qed.
Lemma ffail_apart lk o (a : astate Z) (m : gmap positive Z) (fs : files) a' m' x : ffail mm lk a m fs o a' m' -> x ∉ finvolved o -> a' !! x = a !! x /\ m' !! x = m !! x.
Proof.
  intros Hf Hx. destruct Hf as [o a' m' Hf|]; cbn [finvolved] in *; [eapply mfail_apart; eassumption|].
  apply not_elem_of_cons in Hx as [Hx _]. rewrite !lookup_insert_ne by congruence. auto.
Qed.
Theorem fapart x o (st : fstate) (a : astate Z) (m : gmap positive Z) (fs : files) cap r st' : frel st a m fs -> sane x -> fcap o st cap ->
  fstep (luck_of mm x o a m) cap o a m fs = Some r -> outcome d t mm x o st st' ->
  (forall y, y ∉ finvolved o ->
    (forall rm v, a !! y = Some (AVal rm v) -> length_of y (fst (fst st')) = Ok (zlen v) (fst (fst st')) /\
      forall i e, znth i v = Some (Some e) -> RcaModel.read y i (fst (fst st')) = Ok e (fst (fst st'))) /\
    (forall p, m !! y = Some p -> exists b, snd (fst st') !! y = Some (Stream y p b))) /\
  (forall p, ftouches o a <> Some p -> fst (snd st') !! p = fst (snd st) !! p).
Proof.
  intros HF Hx Hc Hs He. pose proof (fexec_ok x o st a m fs cap HF Hx Hc) as K. rewrite Hs in K. unfold MfMeet.fdoes in K.
  assert (exists a' m' fs', frel st' a' m' fs' /\ (forall y, y ∉ finvolved o -> a' !! y = a !! y /\ m' !! y = m !! y) /\ (forall p, ftouches o a <> Some p -> fs' !! p = fs !! p)) as (a' & m' & fs' & H' & Hy & Hp).
  { destruct He as [[v E]|[e E]]; rewrite E in K.
    - destruct K as (_ & a' & m' & F & fs' & v' & -> & HFs & _ & H'). exists a', m', fs'. split; [exact H'|]. split; [intros y Hy; eapply fstep_apart; eassumption|intros p Hp; eapply fstep_files; eassumption].
    - destruct e; [exists a, m, fs; split; [apply K|auto]|]. destruct K as (_ & _ & _ & a' & m' & Hf & H'). exists a', m', fs. split; [exact H'|]. split; [intros y Hy; eapply ffail_apart; eassumption|auto]. }
  split.
  - intros y Hyy. destruct (Hy y Hyy) as [Ea Em]. pose proof (fr_mem _ _ _ _ _ _ H') as HM. split.
    + intros rm v Hv. rewrite <- Ea in Hv. exact (reached_shows d _ _ Hwf (mr_reached _ _ _ _ _ HM) y rm v Hv).
    + intros p Hpp. rewrite <- Em in Hpp. destruct (mr_live _ _ _ _ _ HM y p Hpp) as (_ & _ & Hb). exact Hb.
  - intros p Hpp. rewrite (fr_files _ _ _ _ _ _ H'), (fr_files _ _ _ _ _ _ HF). apply Hp, Hpp.
Qed.
Lemma elsewhere_file p st ops st' : elsewhere d t mm p st ops st' -> fst (snd st') !! p = fst (snd st) !! p.
Proof.
  induction 1 as [|st a m fs x o cap r ops st1 st2 HF Hx Hc Hs Hp Ho _ IH]; [reflexivity|]. rewrite IH.
  eapply (fapart x o st a m fs cap r st1); eassumption.
Qed.

(** What was saved is loaded. *)
Theorem saved x g k y (st : fstate) (a : astate Z) (m : gmap positive Z) (fs : files) rk v p w st1 : frel st a m fs -> sane x ->
  strm a m k = Some (rk, v, p) -> text a y = Some (true, w) -> plain t m y = true -> fexec d t mm x (FSave g k y) st = Ok (MInt 0) st1 ->
  frel st1 a m (<[file_name w := v]> fs).
Proof.
  intros HF Hx Hk Hy Hp E. pose proof (fexec_ok x (FSave g k y) st a m fs 0 HF Hx I) as K. cbn [MfSpec.fstep luck_of] in K. rewrite Hk, Hy, Hp in K. cbn [need] in K.
  unfold MfMeet.fdoes in K. rewrite E in K. destruct (luck_save mm x v).
  - destruct K as (_ & a' & m' & F & fs' & v' & [= <- <- <- <-] & <- & _ & H'). exact H'.
  - destruct K as (_ & a' & m' & F & fs' & v' & [= <- <- <- <-] & _ & Hle & _). discriminate Hle.
  - destruct K as (_ & a' & m' & F & fs' & v' & [= <- <- <- <-] & _ & Hle & _). discriminate Hle.
  - destruct K as (_ & a' & m' & F & fs' & v' & [= <- <- <- <-] & _ & Hle & _). discriminate Hle.
Qed.
Theorem loaded x g j z (st : fstate) (a : astate Z) (m : gmap positive Z) (fs : files) w f st1 : frel st a m fs -> sane x -> (mm = true \/ x_err x = None) ->
  strm a m j <> None -> text a z = Some (true, w) -> plain t m z = true -> fs !! file_name w = Some f -> fexec d t mm x (FLoad g j z) st = Ok (MInt 0) st1 ->
  frel st1 (<[j := str_ true f]> a) (<[j := 0]> m) fs.
Proof.
  intros HF Hx Herr Hj Hz Hp Hf E. pose proof (fexec_ok x (FLoad g j z) st a m fs 0 HF Hx I) as K. cbn [MfSpec.fstep luck_of] in K.
  destruct (strm a m j) as [sj|]; [|congruence]. rewrite Hz, Hp, Hf in K. cbn [need] in K.
  assert (Hlk : match luck_load mm x with Part _ => False | _ => True end).
  { unfold luck_load. destruct Herr as [->|He]; [|rewrite He]; repeat match goal with |- context [if ?b then _ else _] => destruct b end; exact I. }
  unfold MfMeet.fdoes in K. rewrite E in K. destruct (luck_load mm x); try contradiction; cbn [readable] in K.
  - destruct (mm && (zlen f =? 0)); destruct K as (_ & a' & m' & F & fs' & v' & [= <- <- <- <-] & <- & Hle & H'); [discriminate Hle|exact H'].
  - destruct K as (_ & a' & m' & F & fs' & v' & [= <- <- <- <-] & _ & Hle & _). discriminate Hle.
  - destruct K as (_ & a' & m' & F & fs' & v' & [= <- <- <- <-] & _ & Hle & _). discriminate Hle.
Qed.
Theorem save_then_load x g k y (st : fstate) (a : astate Z) (m : gmap positive Z) (fs : files) rk v p w st1 ops st2 x2 g2 j z (a2 : astate Z) (m2 : gmap positive Z) (fs2 : files) w2 st3 :
  frel st a m fs -> sane x -> strm a m k = Some (rk, v, p) -> text a y = Some (true, w) -> plain t m y = true -> fexec d t mm x (FSave g k y) st = Ok (MInt 0) st1 ->
  elsewhere d t mm (file_name w) st1 ops st2 ->
  frel st2 a2 m2 fs2 -> sane x2 -> (mm = true \/ x_err x2 = None) -> strm a2 m2 j <> None -> text a2 z = Some (true, w2) -> plain t m2 z = true -> file_name w2 = file_name w ->
  fexec d t mm x2 (FLoad g2 j z) st2 = Ok (MInt 0) st3 ->
  (exists b, snd (fst st3) !! j = Some (Stream j 0 b)) /\ length_of j (fst (fst st3)) = Ok (zlen v) (fst (fst st3)) /\
  forall i c, znth i v = Some c -> RcaModel.read j i (fst (fst st3)) = Ok c (fst (fst st3)).
Proof.
  intros HF Hx Hk Hy Hp E Hel HF2 Hx2 Herr Hj Hz Hpz Hn E2.
  pose proof (saved x g k y st a m fs rk v p w st1 HF Hx Hk Hy Hp E) as H1.
  assert (Hf : fs2 !! file_name w2 = Some v).
  { rewrite Hn, <- (fr_files _ _ _ _ _ _ HF2), (elsewhere_file _ _ _ _ Hel), (fr_files _ _ _ _ _ _ H1). apply lookup_insert. }
  pose proof (loaded x2 g2 j z st2 a2 m2 fs2 w2 v st3 HF2 Hx2 Herr Hj Hz Hpz Hf E2) as H3. pose proof (fr_mem _ _ _ _ _ _ H3) as HM. split.
  - destruct (mr_live _ _ _ _ _ HM j 0 (lookup_insert _ _ _)) as (_ & _ & Hb). exact Hb.
  - destruct (reached_shows d _ _ Hwf (mr_reached _ _ _ _ _ HM) j true (map Some v) (lookup_insert _ _ _)) as [Hl Hr]. rewrite zlen_map in Hl. split; [exact Hl|].
    intros i c Hc. apply Hr. rewrite znth_map, Hc. reflexivity.
Qed.
End Proof.
