(** C31, HashTable. [c] gives the contents of a key, [keq] is operator== on keys, [hash] std::hash, [grow] the rehash policy of
    the library. *)
From Coq Require Import Lia String.
From Verif Require Import Base StrSpec StrEx HashSpec HashModel HashProof.
From stdpp Require Import gmap.
Open Scope Z_scope.
Ltac run := vm_compute; reflexivity.

(** Keys for the examples: an address and the bytes stored there; only the bytes are compared. *)
Definition skey := (Z * list Z)%type.
Definition seq_ (x y : skey) : bool := bool_decide (snd x = snd y).
Definition djb (x : skey) : Z := fold_left (fun h b => (33 * h + b) mod W64) (snd x) 5381 mod W31.
Definition worst (x : skey) : Z := 7.
Definition double (n count : Z) : option Z := if n <=? count then Some (2 * n) else None.
Definition never (n count : Z) : option Z := None.
Example seq_ok : forall x y, seq_ x y = true <-> snd x = snd y.
Proof. intros x y. unfold seq_. apply bool_decide_eq_true. Qed.
Example djb_ok : forall x y : skey, snd x = snd y -> djb x = djb y.
Proof. intros x y E. unfold djb. rewrite E. reflexivity. Qed.
Example worst_ok : forall x y : skey, snd x = snd y -> worst x = worst y.
Proof. intros x y E. reflexivity. Qed.
Definition k1 : skey := (1, bs "alpha"). Definition k1' : skey := (2, bs "alpha"). Definition k2 : skey := (3, bs "beta").
Definition calls : list (trouble * hop skey Z) := map (pair TNone)
  [HNew 0 100; HInsert 0 k1 10; HInsert 0 k1' 11; HGet 0 k1'; HInsert 0 k2 20; HSize 0; HCopyNew 0 1; HRemove 1 k1'; HRemove 1 k1;
   HGet 1 k1; HSize 1; HIndex 1 k1; HSize 1; HGet 0 k1; HAssign 0 k1' 12; HGet 0 k1; HSwap 0 1; HItems 1; HMove 1 2; HClear 0; HEmpty 0].
(* moving needs a table to move to *)
Definition calls' : list (trouble * hop skey Z) := (TNone, HInit 2 [(k2, 1); (k2, 2)]) :: calls ++ [(TNone, HFind 2 k1'); (TAssign, HInsert 0 k1 5)].
Ltac legals := cbn [legal calls calls' map app]; repeat match goal with |- _ /\ _ => split end; try exact I; try discriminate; set_solver.

(** C31: every sequence of calls gives the results of finite maps keyed by contents. *)
Theorem C31_finite_map : forall (K C V : Type) (E : EqDecision C) (X : Countable C) (c : K -> C) (hash : K -> Z) (keq : K -> K -> bool)
  (dflt : V) (grow : Z -> Z -> option Z),
  (forall x y, keq x y = true <-> c x = c y) -> (forall x y, c x = c y -> hash x = hash y) ->
  forall l, legal ∅ l -> exists rs s a, hrun hash keq dflt grow l ∅ = Ok rs s /\ hsteps c dflt l ∅ rs a.
Proof. exact @run_ok. Qed.
Print Assumptions C31_finite_map.
Example C31_finite_map_ex : legal ∅ calls' /\
  match hrun djb seq_ (-1) double calls' ∅ with
  | Ok rs _ => rs = [RUnit; RUnit; RBool true; RBool false; RVal 10; RBool true; RNum 2; RUnit; RBool true; RBool false;
      RVal (-1); RNum 1; RVal (-1); RNum 2; RVal 10; RUnit; RVal 12; RUnit; RItems [(k2, 20); (k1, 12)]; RUnit; RUnit; RBool true;
      ROpt (Some (k1, 12)); RThrow]
  | _ => False end.
Proof. split; [legals|run]. Qed.

(** C31: neither the hash function, nor collisions, nor the growth of the table can be told from the answers. *)
Theorem C31_hash_irrelevant : forall (K C V : Type) (E : EqDecision C) (X : Countable C) (c : K -> C) (dflt : V) (keq : K -> K -> bool),
  (forall x y, keq x y = true <-> c x = c y) ->
  forall hash1 grow1 hash2 grow2 l,
  (forall x y, c x = c y -> hash1 x = hash1 y) -> (forall x y, c x = c y -> hash2 x = hash2 y) -> legal ∅ l ->
  exists rs1 s1 rs2 s2, hrun hash1 keq dflt grow1 l ∅ = Ok rs1 s1 /\ hrun hash2 keq dflt grow2 l ∅ = Ok rs2 s2 /\ Forall2 (same_answer c) rs1 rs2.
Proof. exact @hash_irrelevant. Qed.
Print Assumptions C31_hash_irrelevant.
Example C31_hash_irrelevant_ex : legal ∅ calls' /\
  match hrun djb seq_ (-1) double calls' ∅, hrun worst seq_ (-1) never calls' ∅ with
  | Ok rs _, Ok rs' _ => nth_error rs 22 = Some (ROpt (Some (k1, 12))) /\ nth_error rs' 22 = Some (ROpt (Some (k1, 12)))
  | _, _ => False end.
Proof. split; [legals|split; run]. Qed.

(** C31: a hash that distinguishes equal keys loses entries. *)
Theorem C31_bad_hash_refuted : exists (hash : skey -> Z) l, legal ∅ l /\
  match hrun hash seq_ (-1) never l ∅ with
  | Ok rs _ => rs = [RUnit; RBool true; RBool false; RBool true; RNum 2] | _ => False end /\
  l = map (pair TNone) [HNew 0 100; HInsert 0 k1 10; HContains 0 k1'; HInsert 0 k1' 11; HSize 0].
Proof. exists fst. eexists. split; [|split; [|reflexivity]]; [legals|run]. Qed.
Print Assumptions C31_bad_hash_refuted.

(** C31: insert is not all or nothing: when copying the value throws, the key stays, with a default value. *)
Theorem C31_insert_throws_refuted : exists l, legal ∅ l /\
  match hrun djb seq_ (-1) double l ∅ with
  | Ok rs _ => rs = [RUnit; RThrow; RBool true; RBool false; RVal (-1)] | _ => False end /\
  l = [(TNone, HNew 0 100); (TAssign, HInsert 0 k1 10); (TNone, HContains 0 k1); (TNone, HInsert 0 k1 10); (TNone, HGet 0 k1)].
Proof. eexists. split; [|split; [|reflexivity]]; [legals|run]. Qed.
Print Assumptions C31_insert_throws_refuted.
