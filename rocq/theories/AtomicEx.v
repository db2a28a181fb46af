(** Concrete runs of AtomicFile for the examples. *)
From stdpp Require Import gmap.
From Coq Require Import String.
From Verif Require Import Base StrModel StrEx AtomicSpec AtomicModel.
Open Scope Z_scope.

Definition never (_ : nat) : bool := false.
Definition at_ (k n : nat) : bool := Nat.eqb n k.
(** mkstemp picks the suffix "abcdeN". *)
Definition pick (n : nat) : chars * Z * N := (bs "abcde" ++ [48 + Z.of_nat n], 3 + Z.of_nat n, (100 + N.of_nat n)%N).
Definition calm : sys := Sys never never never never pick.
Definition failing (k : nat) : sys := Sys never (at_ k) never never pick.
Definition stopping (k : nat) : sys := Sys (at_ k) never never never pick.
Definition throwing (k : nat) : sys := Sys never never never (at_ k) pick.
(** A directory with the file etc/conf, on the disk. *)
Definition conf : chars := bs "etc/conf".
Definition disk : fs := Fs {[resolve conf := 1%N]} {[1%N := Inode (bs "old") 420 true]} ∅.
Definition save : list aop := [AOpen conf 420; AWrite (bs "new1"); AWrite (bs "new2"); ACommit].
Definition world_of {A} (r : out A) : option world := match r with Done _ w | Stop w | Threw w => Some w | Bad _ => None end.
Definition results (r : out (list (option bool))) : option (list (option bool)) := match r with Done l _ => Some l | _ => None end.
Definition sees (q : path) (r : out (list (option bool))) : option (option chars) := option_map (fun w => visible (w_now w) q) (world_of r).
Definition fds_of (r : out (list (option bool))) : option (list Z) := option_map (fun w => map fst (map_to_list (f_fds (w_now w)))) (world_of r).
Definition names_of (r : out (list (option bool))) : option (list path) := option_map (fun w => map fst (map_to_list (f_names (w_now w)))) (world_of r).
Lemma conf_usual : usual_name conf.
Proof. split; [repeat constructor|split; vm_compute; reflexivity]. Qed.
Lemma disk_on_disk : on_disk disk (resolve conf).
Proof. intros i H. vm_compute in H. injection H as <-. eexists. split; reflexivity. Qed.
(** The state a run ends in. *)
Definition the_world {A} (r : out A) : world := match r with Done _ w | Stop w | Threw w => w | Bad _ => start disk end.
Definition stopped {A} (r : out A) : bool := match r with Stop _ => true | _ => false end.
Definition value {A} (r : out A) : option A := match r with Done a _ => Some a | _ => None end.
Lemma done_eq {A} (r : out A) a : value r = Some a -> r = Done a (the_world r).
Proof. destruct r; cbn; congruence. Qed.
Lemma stop_eq {A} (r : out A) : stopped r = true -> r = Stop (the_world r).
Proof. destruct r; cbn; congruence. Qed.
Definition last_past (w : world) : option fs := List.last (map Some (w_past w)) None.
Lemma in_past w f : last_past w = Some f -> In f (w_past w).
Proof.
  unfold last_past. induction (w_past w) as [|g l IH]; cbn [map List.last]; [discriminate|].
  destruct l as [|h l]; [cbn; intros E; left; congruence|]. intros E. right. exact (IH E).
Qed.
