(** Loading what was saved: the statements about saving put together with loadFile on the heap model. *)
From stdpp Require Import gmap.
From Verif Require Import RcaSpec RcaModel RcaExec RcaOwn RcaRel RcaMeet RcaReach StreamSpec StreamModel StreamMeet StreamProof.
From Verif Require Import StrSpec SaveSpec.
From Verif Require AtomicModel SaveModel SaveMain.
Open Scope Z_scope.

Lemma reload mdiff : memcmp_ok mdiff -> forall y mm f l q w r,
  on_disk f q -> Forall (SaveMain.fit q) l -> AtomicModel.ended (SaveModel.saves y mdiff mm l (AtomicModel.start f)) w ->
  r = visible (AtomicModel.w_now w) q \/ survives (AtomicModel.w_now w) (AtomicModel.w_past w) q r ->
  (forall c, saved_or_old f l q (Some c) -> zlen c < W63) ->
  forall d, wf_desc d -> d_nul d = Some 0 -> forall x t, t <> x -> forall fails s z a v p, SR d x t s z v p a ->
  wp (load_name d fails t r)
    (fun ret '(s', z') => ret = 0 -> exists c a', saved_or_old f l q (Some c) /\ SR d x t s' z' c 0 a')
    (fun e _ => e = BadAlloc) (s, z).
Proof.
  intros Hm y mm f l q w r D F E R B d Hd Hn x t Ne fails s z a v p H.
  destruct (SaveMain.saves_stop mdiff Hm y mm f l q w D F E) as [S1 S2].
  assert (S : saved_or_old f l q r) by (destruct R as [->|R]; [exact S1|exact (S2 r R)]).
  assert (B' : match r with Some c => zlen c < W63 | None => True end) by (destruct r; [exact (B _ S)|exact I]).
  pose proof (load_name_ok d Hd Hn x t Ne fails s z a v p r H B') as L. unfold wp in *.
  destruct (load_name d fails t r (s, z)) as [ret [s' z']|e [s' z']| | |]; auto.
  - intros ->. destruct r as [c|]; [|destruct L; discriminate].
    destruct (fails OpenRead); [destruct L; discriminate|]. destruct (load_fails fails c); [destruct L; discriminate|].
    destruct L as (_ & _ & a' & L & _). eauto.
  - apply L.
Qed.
(** Saved with success and loaded again, into any stream. *)
Lemma save_load mdiff : memcmp_ok mdiff -> forall y mm f l fn m rs w d, wf_desc d -> d_nul d = Some 0 -> forall x t x' t', t' <> x' ->
  forall s z a v p s2 z2 a2 v2 p2, SR d x t s z v p a -> v <> [] -> SR d x' t' s2 z2 v2 p2 a2 ->
  Forall (fun s => usual_name (fst (fst s))) (l ++ [(fn, m, v)]) ->
  SaveModel.saves y mdiff mm (l ++ [(fn, m, v)]) (AtomicModel.start f) = AtomicModel.Done (rs ++ [Some true]) w ->
  wp (load_name d (fun _ => false) t' (visible (AtomicModel.w_now w) (resolve fn)))
    (fun r '(s', z') => r = 0 /\ exists a', SR d x' t' s' z' v 0 a' /\ keeps x' a2 a')
    (fun e '(s', z') => e = BadAlloc /\ memlow d (2 * zlen v + 2048)) (s2, z2).
Proof.
  intros Hm y mm f l fn m rs w d Hd Hn x t x' t' Ne s z a v p s2 z2 a2 v2 p2 H Hv H2 F E.
  destruct (SaveMain.saved mdiff Hm y mm f l fn m v rs w F E) as [S _]. rewrite S.
  destruct (roundtrip d Hd Hn x t x' t' Ne s z a v p None s2 z2 a2 v2 p2 H Hv H2) as (g & W & L).
  destruct (write_name_ok d Hd x t (fun _ => false) s z a v p None H) as (g' & W' & X). rewrite W in W'. injection W' as _ <-.
  destruct X as (g0 & -> & X). assert (Y : write_fails (fun _ => false) v = false) by (destruct v; reflexivity).
  rewrite (X Y) in L. exact L.
Qed.
