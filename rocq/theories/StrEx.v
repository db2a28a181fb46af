(** Literals for the examples of the string properties. *)
From Coq Require Import Lia Ascii String.
From Verif Require Import Base RcaSpec StrModel StrSpec StrCmp StrFind StrAlg.
Open Scope Z_scope.

Definition bs (s : string) : list Z := map (fun c => Z.of_N (N_of_ascii c)) (list_ascii_of_string s).
Lemma bs_bytes s : bytes (bs s).
Proof.
  unfold bytes, bs. induction (list_ascii_of_string s) as [|c l IH]; cbn; constructor; auto.
  pose proof (N_ascii_bounded c). lia.
Qed.
Lemma sub_ok : memcmp_ok Z.sub.
Proof. intros x y _ _. lia. Qed.
(** toupper on ASCII. *)
Definition upper (c : Z) : Z := if (97 <=? c) && (c <=? 122) then c - 32 else c.

Lemma lexcmp_laws (a b c : list Z) :
  (lexcmp a b = Eq <-> a = b) /\ lexcmp b a = CompOpp (lexcmp a b) /\ (lexcmp a b = Lt -> lexcmp b c = Lt -> lexcmp a c = Lt).
Proof.
  split; [split; [apply lexcmp_eq|intros ->; apply lexcmp_refl]|]. split; [apply lexcmp_antisym|apply lexcmp_trans].
Qed.
Lemma compare_narrows_ex mdiff : exists a b : list Z, exists c, compare mdiff false a b tt = Ok c tt /\ c < 0 /\ lexcmp a b = Gt.
Proof.
  exists (zrep W31 0), [], (- W31). assert (zlen (zrep W31 0) = W31) as L by (rewrite zlen_zrep; reflexivity).
  destruct (compare_narrows mdiff (zrep W31 0) L) as [E C]. split; [exact E|]. split; [reflexivity|exact C].
Qed.
Lemma overlap_ex : exists ps delim s,
  Forall (no_occ delim) ps /\ join ps delim false tt = Ok s tt /\ split Z.sub 20 s delim npos tt <> Ok ps tt.
Proof.
  exists [bs "a"; bs "b"], (bs "aa"), (bs "aaab"). split; [|split; [reflexivity|vm_compute; discriminate]].
  change (bs "aa") with [97; 97]. change (bs "a") with [97]. change (bs "b") with [98].
  constructor; [|constructor; [|constructor]]; intros j O; apply occurs_range in O; rewrite !zlen_cons, zlen_nil in O; lia.
Qed.
Lemma sub_empty_search s repl : zlen s < W31 -> forall fuel, sub fuel s [] repl (-1) tt = Fuel.
Proof. intros L fuel. apply sub_loop_empty. exact L. Qed.
Lemma position_ex : exists s w pos r, find_at s w pos tt = Ok r tt /\ r <> npos /\ ~ occurs w s r.
Proof.
  exists (bs "xab"), (bs "b"), 1, 1. split; [reflexivity|]. split; [discriminate|]. intros O. apply occurs_head in O. discriminate.
Qed.
Lemma empty_needle mdiff s pos lo : find_ s [] pos tt = Ok 0 tt /\ rfind mdiff s [] lo tt = Ok (u64 (zlen s - 1)) tt.
Proof. split; [apply find_empty|apply rfind_empty]. Qed.
Lemma printf_long :
  (forall out, zlen out = 4096 -> printf out tt = Ok (ztake 4095 out ++ [0]) tt) /\
  (forall out, 4096 < zlen out -> printf out tt = Undef UbBounds).
Proof. split; [apply printf_4096|apply printf_beyond]. Qed.
