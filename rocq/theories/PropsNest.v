(** C69: Array<String>. Every theorem is closed by a lemma of NestReach; examples beside them.
    [nreached s A b]: a program that respects the preconditions can be in state [s], where the arrays should have the
    values [A] and the Strings the values [b]; [nshows]: they do. *)
From stdpp Require Import gmap.
From Verif Require Import Base ZList RcaSpec RcaModel RcaExec RcaOwn RcaMeet RcaEx NestModel NestMeet NestReach NestEx.
Open Scope Z_scope.

Definition ab : list (option Z) := [Some 97; Some 98].
Definition cd : list (option Z) := [Some 99; Some 100].

(** Array 1 gets two Strings; array 2 is a copy, of which the first element is changed in place; array 3 is a slice. *)
Definition ex_ops : list nop :=
  [NStr (CtorCstr 1 [97; 98; 0]); NStr (CtorCstr 2 [99; 100; 0]); NNew 1; NAppend false 1 1; NAppend true 1 2; NCopy 2 1;
   NElem 2 0 (AppendItem 1 120); NCopy 3 2; NSlice 3 1 1].
Definition ex_st := match follow sdesc adesc ex_ops n_init ∅ ∅ with Some t => t | None => (n_init, ∅, ∅) end.
Definition ex_s := fst (fst ex_st).
Definition ex_A := snd (fst ex_st).
Definition ex_b := snd ex_st.
Lemma ex_reached : nreached sdesc adesc ex_s ex_A ex_b.
Proof.
  apply (follow_reached sdesc adesc ex_ops n_init ∅ ∅); [apply nre_init|]. unfold ex_s, ex_A, ex_b, ex_st.
  assert (exists t, follow sdesc adesc ex_ops n_init ∅ ∅ = Some t) as [t ->]; [|destruct t as [[? ?] ?]; reflexivity].
  destruct (follow sdesc adesc ex_ops n_init ∅ ∅) eqn:E; [eauto|]. vm_compute in E. discriminate.
Qed.
Example ex_is : map (texts ex_s) [1; 2; 3]%positive = [Some [[97; 98]; [99; 100]]; Some [[97; 98; 120]; [99; 100]]; Some [[99; 100]]] /\
  map (elems ex_A) [1; 2; 3]%positive = [Some [(true, ab); (true, cd)]; Some [(true, ab ++ [Some 120]); (true, cd)]; Some [(true, cd)]] /\
  ex_b !! 1%positive = Some (AVal true ab) /\ ex_b !! 2%positive = Some AMoved.
Proof. vm_compute. repeat split. Qed.

(** C69: an array of Strings is a list of texts. Every call that respects the preconditions changes the values as
    [nstep] says (or throws out_of_range as [nstep] says and changes nothing), or it throws bad_alloc because memory
    can run out at that size and then the array or String it works on keeps its value or is empty. After each of them
    every array and every String reads as predicted. *)
Theorem C69_step : forall d od o s A b r, wf_desc d -> nreached d od s A b -> nstep d o A b = Some r -> nyields d od o s A b r.
Proof. exact (fun d od o s A b r H => step_nyields d od H o s A b r). Qed.
Print Assumptions C69_step.
Example C69_step_ex : wf_desc sdesc /\ nreached sdesc adesc ex_s ex_A ex_b /\
  (exists A' b' v, nstep sdesc (NElem 1 1 (InsertAll false 1 1 1)) ex_A ex_b = Some (NRet A' b' v) /\
     elems A' 1 = Some [(true, ab); (true, [Some 99; Some 99; Some 100; Some 100])]) /\
  (match nexec sdesc adesc (NElem 1 1 (InsertAll false 1 1 1)) ex_s with
   | Ok _ s' => map (texts s') [1; 2; 3]%positive =
       [Some [[97; 98]; [99; 99; 100; 100]]; Some [[97; 98; 120]; [99; 100]]; Some [[99; 100]]] | _ => False end) /\
  nstep sdesc (NInsert true 3 2 1) ex_A ex_b = Some NRange /\
  (match nexec sdesc adesc (NInsert true 3 2 1) ex_s with Exn OutOfRange _ => True | _ => False end) /\
  (* items that are elements: of another array, and of the same one *)
  (exists A' b' v, nstep sdesc (NInsertEl 3 0 2 0) ex_A ex_b = Some (NRet A' b' v) /\ elems A' 3 = Some [(true, ab ++ [Some 120]); (true, cd)]) /\
  (match nexec sdesc adesc (NInsertEl 3 0 2 0) ex_s with Ok _ s' => texts s' 3 = Some [[97; 98; 120]; [99; 100]] | _ => False end) /\
  (exists A' b' v, nstep sdesc (NWriteEl 2 1 2 0) ex_A ex_b = Some (NRet A' b' v) /\ elems A' 2 = Some [(true, ab ++ [Some 120]); (true, ab ++ [Some 120])]) /\
  (match nexec sdesc adesc (NWriteEl 2 1 2 0) ex_s with
   | Ok _ s' => map (texts s') [2; 3]%positive = [Some [[97; 98; 120]; [97; 98; 120]]; Some [[99; 100]]] | _ => False end).
Proof.
  split; [apply sdesc_wf|]. split; [exact ex_reached|]. split.
  - eexists _, _, _. split; [vm_compute; reflexivity|]. vm_compute. reflexivity.
  - split; [vm_compute; reflexivity|]. split; [vm_compute; reflexivity|]. split; [vm_compute; exact I|].
    split; [eexists _, _, _; split; vm_compute; reflexivity|]. split; [vm_compute; reflexivity|].
    split; [eexists _, _, _; split; vm_compute; reflexivity|]. vm_compute. reflexivity.
Qed.

(** C69: at any moment all arrays and Strings read as predicted. *)
Theorem C69_shows : forall d od s A b, wf_desc d -> nreached d od s A b -> nshows s A b.
Proof. exact (fun d od s A b H => reached_nshows d od H s A b). Qed.
Print Assumptions C69_shows.
Example C69_shows_ex : nreached sdesc adesc ex_s ex_A ex_b /\ ex_A !! 2%positive = Some (NVal [(true, ab ++ [Some 120]); (true, cd)]).
Proof. split; [exact ex_reached|vm_compute; reflexivity]. Qed.

(** C69: never undefined behaviour, never std::terminate. *)
Theorem C69_safe : forall d od o s A b r, wf_desc d -> nreached d od s A b -> nstep d o A b = Some r ->
  exists s', (exists v, nexec d od o s = Ok v s') \/ (exists e, nexec d od o s = Exn e s').
Proof. exact (fun d od o s A b r H => step_safe d od H o s A b r). Qed.
Print Assumptions C69_safe.
Example C69_safe_ex : nreached sdesc adesc ex_s ex_A ex_b /\
  (exists A' b' v, nstep sdesc (NWrite false 1 0 1) ex_A ex_b = Some (NRet A' b' v)) /\
  nstep sdesc (NWrite false 1 2 1) ex_A ex_b = None.
Proof. split; [exact ex_reached|]. split; [eexists _, _, _; vm_compute; reflexivity|vm_compute; reflexivity]. Qed.

(** C69: an array that a call does not change has the same texts afterwards, however the call ends: copies share slots and
    slots share buffers, but nobody sees it. *)
Theorem C69_others : forall d od o s A b r x vs s', wf_desc d -> nreached d od s A b -> nstep d o A b = Some r ->
  (exists v, nexec d od o s = Ok v s') \/ (exists e, nexec d od o s = Exn e s') ->
  ~ In x (nchanges o) -> A !! x = Some (NVal vs) ->
  length_of x (n_out s') = Ok (zlen vs) (n_out s') /\
  forall i v, znth i vs = Some v -> exists z, nslot x i s' = Ok z s' /\ shows_str s' z (snd v).
Proof. exact (fun d od o s A b r x vs s' H => others_keep d od H o s A b r x vs s'). Qed.
Print Assumptions C69_others.
Definition shared_ops : list nop := [NStr (CtorCstr 1 [97; 98; 0]); NNew 1; NAppend false 1 1; NCopy 2 1].
Example C69_others_ex :
  (exists s A b, follow sdesc adesc shared_ops n_init ∅ ∅ = Some (s, A, b) /\
     (exists l, option_map o_ref (st_env (n_out s) !! 1%positive) = Some (Some l) /\ option_map o_ref (st_env (n_out s) !! 2%positive) = Some (Some l)) /\
     ~ In 1%positive (nchanges (NElem 2 0 (AppendItem 1 120))) /\ A !! 1%positive = Some (NVal [(true, ab)]) /\
     match nexec sdesc adesc (NElem 2 0 (AppendItem 1 120)) s with Ok _ s' => map (texts s') [1; 2]%positive = [Some [[97; 98]]; Some [[97; 98; 120]]] | _ => False end) /\
  (* the buffer of the copy cannot be allocated: it is empty, and the other array is not *)
  (exists s A b, follow sdesc (adesc_oom 3) (shared_ops ++ [NElem 2 0 (AppendItem 1 120)]) n_init ∅ ∅ = Some (s, A, b) /\
     map (texts s) [1; 2]%positive = [Some [[97; 98]]; Some []] /\ map (elems A) [1; 2]%positive = [Some [(true, ab)]; Some []]).
Proof.
  split.
  - eexists _, _, _. split; [vm_compute; reflexivity|]. split; [eexists; split; vm_compute; reflexivity|]. split; [vm_compute; intros [H|[]]; discriminate|].
    split; vm_compute; reflexivity.
  - eexists _, _, _. split; [vm_compute; reflexivity|]. split; vm_compute; reflexivity.
Qed.

(** C69: when the arrays are gone, all slots have been destroyed and no buffer of an array is left; when the Strings are gone
    as well, no memory is. *)
Theorem C69_nothing_left : forall d od s b, wf_desc d -> nreached d od s ∅ b ->
  st_env (n_out s) = ∅ /\ st_heap (n_out s) = ∅ /\
  (forall z o, st_env (n_in s) !! z = Some o -> exists y, z = str y /\ is_Some (b !! y)) /\
  (b = ∅ -> st_env (n_in s) = ∅ /\ st_heap (n_in s) = ∅).
Proof. exact (fun d od s b H => nothing_left d od H s b). Qed.
Print Assumptions C69_nothing_left.
Example C69_nothing_left_ex :
  (exists s A b, follow sdesc adesc (ex_ops ++ [NPop 5 1; NKill 2; NKill 1; NKill 3]) n_init ∅ ∅ = Some (s, A, b) /\ A = ∅ /\ text s (str 5) = Some [99; 100]) /\
  exists s A b, follow sdesc adesc (ex_ops ++ [NPop 5 1; NKill 2; NKill 1; NKill 3; NStr (Destroy 1); NStr (Destroy 2); NStr (Destroy 5)]) n_init ∅ ∅ = Some (s, A, b) /\
    A = ∅ /\ b = ∅.
Proof.
  split; eexists _, _, _; (split; [vm_compute; reflexivity|]); (split; [apply map_to_list_empty_iff; vm_compute; reflexivity|]); [vm_compute; reflexivity|].
  apply map_to_list_empty_iff. vm_compute. reflexivity.
Qed.

(** C69: resize() to more elements does not make new empty Strings: after push, pop and resize(1) the element is the String
    that pop() moved away; reading it dereferences a null pointer. *)
Theorem C69_resize_refuted : exists s A b s1 s2 v1 v2,
  nreached sdesc adesc s A b /\ elems A 1 = Some [] /\ nexec sdesc adesc (NResize 1 1) s = Ok v1 s1 /\ nexec sdesc adesc (NGet 3 1 0) s1 = Ok v2 s2 /\
  slen (str 3) s2 = Some 2 /\ nexec sdesc adesc (NStr (Read 3 0)) s2 = Undef UbNull.
Proof.
  assert (exists s A b, follow sdesc adesc [NStr (CtorCstr 1 [97; 98; 0]); NNew 1; NAppend true 1 1; NPop 2 1] n_init ∅ ∅ = Some (s, A, b) /\ elems A 1 = Some [] /\
    exists s1 s2 v1 v2, nexec sdesc adesc (NResize 1 1) s = Ok v1 s1 /\ nexec sdesc adesc (NGet 3 1 0) s1 = Ok v2 s2 /\
      slen (str 3) s2 = Some 2 /\ nexec sdesc adesc (NStr (Read 3 0)) s2 = Undef UbNull) as (s & A & b & E & HA & s1 & s2 & v1 & v2 & H).
  - eexists _, _, _. split; [vm_compute; reflexivity|]. split; [vm_compute; reflexivity|]. eexists _, _, _, _.
    split; [vm_compute; reflexivity|]. split; [vm_compute; reflexivity|]. split; vm_compute; reflexivity.
  - exists s, A, b, s1, s2, v1, v2. split; [|auto]. eapply follow_reached; [apply nre_init|exact E].
Qed.
Print Assumptions C69_resize_refuted.

Definition own_ops : list nop := [NStr (CtorCstr 1 [97; 0]); NStr (CtorCstr 2 [98; 0]); NNew 1; NAppend false 1 1; NAppend false 1 2].
Lemma own_append : exists s A b, follow sdesc adesc own_ops n_init ∅ ∅ = Some (s, A, b) /\ elem A 1 0 = Some (true, [Some 97]) /\
  nexec sdesc adesc (NAppendEl 1 1 0) s = Undef UbDeadVar.
Proof. eexists _, _, _. split; [vm_compute; reflexivity|]. split; vm_compute; reflexivity. Qed.
Lemma own_insert : exists s A b, follow sdesc adesc (own_ops ++ [NReserve 1 3]) n_init ∅ ∅ = Some (s, A, b) /\ elems A 1 = Some [(true, [Some 97]); (true, [Some 98])] /\
  exists s' v, nexec sdesc adesc (NInsertEl 1 0 1 1) s = Ok v s' /\ texts s' 1 = Some [[97]; [97]; [98]].
Proof. eexists _, _, _. split; [vm_compute; reflexivity|]. split; [vm_compute; reflexivity|]. eexists _, _. split; [vm_compute; reflexivity|]. vm_compute. reflexivity. Qed.
(** C69: a << a[0] may use a String that has been destroyed, and a.insert(0, a[1]) may insert another text than a[1]. *)
Theorem C69_own_item_refuted :
  (exists s A b, nreached sdesc adesc s A b /\ elem A 1 0 = Some (true, [Some 97]) /\ nexec sdesc adesc (NAppendEl 1 1 0) s = Undef UbDeadVar) /\
  exists s A b, nreached sdesc adesc s A b /\ elems A 1 = Some [(true, [Some 97]); (true, [Some 98])] /\
    exists s' v, nexec sdesc adesc (NInsertEl 1 0 1 1) s = Ok v s' /\ texts s' 1 = Some [[97]; [97]; [98]].
Proof.
  split.
  - destruct own_append as (s & A & b & E & H). exists s, A, b. split; [eapply follow_reached; [apply nre_init|exact E]|exact H].
  - destruct own_insert as (s & A & b & E & H). exists s, A, b. split; [eapply follow_reached; [apply nre_init|exact E]|exact H].
Qed.
Print Assumptions C69_own_item_refuted.
