(** Example programs for C76. *)
From stdpp Require Import gmap.
From Verif Require Import RcaSpec RcaModel RcaExec RcaOwn RcaMeet RcaEx DbgMeet.
Open Scope Z_scope.

(** A small program that never asks for much keeps to the contract if its plain run does. *)
Lemma roomy n : n < 1000 -> ~ no_memory sdesc n.
Proof. intros Hn [(k & H)|[H|(z & H1 & H2)]]; [discriminate H|unfold max_alloc in H; lia|]. cbn [d_grow sdesc] in H2. unfold grow15, max_alloc in H2. assert (z / 2 <= z) by (apply Z.div_le_upper_bound; lia). lia. Qed.
Fixpoint fine (ops : list (op Z)) (a : astate Z) : bool :=
  match ops with
  | [] => true
  | o :: ops' =>
    match step sdesc o a with
    | None => false
    | Some SRange => fine ops' a
    | Some (SRet a' _) => match subject o with Some x => asks o a' x <? 1000 | None => true end && fine ops' a'
    end
  end.
Lemma fine_keeps ops : forall a, fine ops a = true -> keeps sdesc ops a.
Proof.
  induction ops as [|o ops IH]; intros a H; [exact I|]. cbn [fine keeps] in *. destruct (step sdesc o a) as [[a' v|]|]; [|apply IH, H|discriminate].
  apply andb_prop in H as [H1 H2]. split; [apply IH, H2|]. intros x Hx Hm. rewrite Hx in H1. apply Z.ltb_lt in H1. destruct (roomy _ H1 Hm).
Qed.
(** A program that runs every kind of call with an assertion: c_str() with and without room, copy on write, assignment
    from a std::string, chomp(), pop_back(); and what it shows. *)
Definition talk : list (op Z) :=
  [CtorCstr 1 [104; 105; 10; 0]; CtorCopy 2 1; Chomp 1 10 13; CStr false 1; AppendItem 2 33; PopBack 2; AssignStd 1 [111; 107]; CStr true 1; At 1 7; Length 2; Destroy 1; Destroy 2].
