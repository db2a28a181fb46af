(** C68: reference counts of Tcl objects. Every theorem is closed by a lemma of TobProof; examples beside them.
    [sound]: every object has as many references as it counts, at least one, and all that is referred to is there. *)
From stdpp Require Import gmap.
From Verif Require Import Base ZList StrSpec TobModel TobMeet TobProof.
Open Scope Z_scope.

(** The text of a list: its elements in braces. *)
Definition ex_rep (l : list chars) : chars := flat_map (fun t => 123 :: t ++ [125]) l.
Definition after (m : Mt unit) (s : tst) : tst := match m s with Ok _ s' => s' | _ => s end.
(** Interpreter 0 has a variable v with a list of two texts, of which the first is its result as well; a script holds the list. *)
Definition ex_calls : list tcall :=
  [KNew (TText [97]); KNew (TText [98]); KNew (TList [1; 2]%positive); KStore (0, Some [118]) 3%positive; KStore (0, None) 1%positive; KRelease 2%positive; KRelease 1%positive].
Definition ex_s : tst := after (krun ex_rep ex_calls) (Tst ∅ 1 ∅ []).
Definition see (s : tst) (o : positive) : option tob := t_heap s !! o.
Local Instance fits_dec v : Decision (fits v).
Proof. destruct v; cbn [fits]; unfold short; apply _. Defined.
Local Instance can_dec s c : Decision (can s c).
Proof. destruct c as [? [?|]|? ? [?|?|?|?]| | | | | | | |]; cbn [can]; unfold short; apply _. Defined.
Local Instance cans_dec rep cs s : Decision (cans rep cs s).
Proof. revert s. induction cs as [|c cs IH]; intros s; cbn [cans]; [apply _|]. destruct (kdo rep c s); apply _. Defined.
Lemma ex_cans : cans ex_rep ex_calls (Tst ∅ 1 ∅ []).
Proof. apply (bool_decide_unpack _). vm_compute. reflexivity. Qed.
Lemma ex_sound : sound ex_s.
Proof. destruct (krun_ok ex_rep ex_calls _ sound_start ex_cans) as (s' & D & C & _). unfold ex_s, after. rewrite D. exact C. Qed.
Example ex_s_is : map (see ex_s) [1; 2; 3; 4]%positive = [Some (Tob 2 (TText [97])); Some (Tob 1 (TText [98])); Some (Tob 2 (TList [1; 2]%positive)); None] /\
  t_held ex_s = [3%positive] /\ t_slots ex_s !! (0, None) = Some 1%positive /\ says ex_s 3 (CStrings [[97]; [98]]).
Proof. split; [vm_compute; reflexivity|]. split; [vm_compute; reflexivity|]. split; [vm_compute; reflexivity|]. exists 2, [1; 2]%positive. split; [vm_compute; reflexivity|]. repeat constructor; eexists; vm_compute; reflexivity. Qed.

(** C68: what a command returns, or the message it ends with, becomes the result of the interpreter: a new object that
    says the value. What was the result before loses a reference; nothing else changes. *)
Theorem C68_return : forall i v s, sound s -> fits v ->
  exists o s', finish i (Some v) s = Ok tt s' /\ sound s' /\ t_slots s' = <[(i, None) := o]> (t_slots s) /\ t_held s' = t_held s /\
    t_heap s !! o = None /\ says s' o v /\ later s s'.
Proof. exact finish_ok. Qed.
Print Assumptions C68_return.
Example C68_return_ex : sound ex_s /\ fits (CStringss [[[97]; [98]]; []]) /\ fits (CString [99]) /\
  (let s' := after (finish 0 (Some (CStringss [[[97]; [98]]; []]))) ex_s in
   map (see s') [1; 4; 5; 6; 7; 8]%positive =
     [Some (Tob 1 (TText [97])); Some (Tob 1 (TList [5; 8]%positive)); Some (Tob 1 (TList [6; 7]%positive)); Some (Tob 1 (TText [97])); Some (Tob 1 (TText [98])); Some (Tob 1 (TList []))] /\
   map (see (after (finish 0 (Some (CString [99]))) s')) [4; 5; 6; 7; 8; 9]%positive = [None; None; None; None; None; Some (Tob 1 (TText [99]))]).
Proof. split; [exact ex_sound|]. split; [cbn; repeat constructor|]. split; [reflexivity|]. split; vm_compute; reflexivity. Qed.

(** C68: reading a linked variable gives it the text of the value, up to a NUL, in a new object; the object that the value
    was converted to is gone. *)
Theorem C68_trace_get : forall rep i n v s, sound s -> fits v ->
  exists o s', trace_get rep i n v s = Ok tt s' /\ sound s' /\ t_slots s' = <[(i, Some n) := o]> (t_slots s) /\ t_held s' = t_held s /\
    t_heap s !! o = None /\ (exists t, cut_nul (said rep v) t /\ says_text s' o t) /\ later s s'.
Proof. exact trace_get_ok. Qed.
Print Assumptions C68_trace_get.
(** C68: a String that is too long for Tcl leaves the variable as it was. *)
Theorem C68_trace_get_long : forall rep i n t s, ~ short t -> trace_get rep i n (CString t) s = Ok tt s.
Proof. exact trace_get_long. Qed.
Print Assumptions C68_trace_get_long.
Example C68_trace_get_ex : sound ex_s /\ fits (CStrings [[97; 97]; [98]]) /\ (exists t, ~ short t) /\
  (let s' := after (trace_get ex_rep 0 [118] (CStrings [[97; 97]; [98]])) ex_s in
   map (see s') [1; 2; 3; 4; 5; 6; 7]%positive =
     [Some (Tob 2 (TText [97])); Some (Tob 1 (TText [98])); Some (Tob 1 (TList [1; 2]%positive)); None; None; None; Some (Tob 1 (TText [123; 97; 97; 125; 123; 98; 125]))] /\
   t_slots s' !! (0, Some [118]) = Some 7%positive) /\
  see (after (trace_get ex_rep 0 [118] (CString [97; 0; 98])) ex_s) 5 = Some (Tob 1 (TText [97])).
Proof.
  split; [exact ex_sound|]. split; [cbn; repeat constructor|]. split; [destruct long_text as (t & L); exists t; unfold short; rewrite L; discriminate|].
  split; [split; vm_compute; reflexivity|vm_compute; reflexivity].
Qed.

(** C68: writing a linked variable reads the text of what it holds, and leaves every reference as it was. *)
Theorem C68_trace_set : forall rep i n s, sound s -> short n ->
  exists r s', trace_set rep i n s = Ok r s' /\ sound s' /\ t_slots s' = t_slots s /\ t_held s' = t_held s /\ later s s' /\
    match t_slots s !! (i, Some n) with None => r = None | Some o => exists t, r = Some t /\ forall v, says s o v -> t = said rep v end.
Proof. exact trace_set_ok. Qed.
Print Assumptions C68_trace_set.
(** C68: the arguments of a command, and the result of a script, are there to be read; reading them changes nothing. *)
Theorem C68_argument : forall rep o s, sound s -> o ∈ outer s ->
  exists t, argument rep o s = Ok t s /\ forall v, says s o v -> t = said rep v.
Proof. exact argument_ok. Qed.
Print Assumptions C68_argument.
Theorem C68_result : forall rep i s, sound s ->
  exists r, result rep i s = Ok r s /\ match t_slots s !! (i, None) with None => r = None | Some o => exists t, r = Some t /\ forall v, says s o v -> t = said rep v end.
Proof. exact result_ok. Qed.
Print Assumptions C68_result.
Example C68_reads_ex : sound ex_s /\ short [118] /\ 3%positive ∈ outer ex_s /\ says ex_s 3 (CStrings [[97]; [98]]) /\
  match trace_set ex_rep 0 [118] ex_s with Ok r s' => r = Some [123; 97; 125; 123; 98; 125] /\ see s' 4 = None | _ => False end /\
  match argument ex_rep 3 ex_s with Ok t _ => t = said ex_rep (CStrings [[97]; [98]]) | _ => False end /\
  match result ex_rep 0 ex_s with Ok r _ => r = Some [97] | _ => False end /\ match result ex_rep 1 ex_s with Ok r _ => r = None | _ => False end.
Proof.
  split; [exact ex_sound|]. split; [reflexivity|]. split; [apply (bool_decide_unpack _); vm_compute; reflexivity|]. split; [apply ex_s_is|].
  split; [vm_compute; split; reflexivity|]. split; [vm_compute; reflexivity|]. split; vm_compute; reflexivity.
Qed.

(** C68: over any sequence of commands, traces and scripts that use what they hold: no object is used after it is freed,
    every count stays right, and an object that is still there says what it said, as does all that any variable, result or
    script refers to. *)
Theorem C68_history : forall rep cs s, sound s -> cans rep cs s ->
  exists s', krun rep cs s = Ok tt s' /\ sound s' /\ later s s' /\
    (forall o, o ∈ outer s' -> is_Some (t_heap s' !! o)) /\ (forall o v, is_Some (t_heap s' !! o) -> says s o v -> says s' o v).
Proof.
  intros rep cs s C H. destruct (krun_ok rep cs s C H) as (s' & D & C' & L). exists s'. split_and!; try assumption.
  - intros o I. apply (c_live _ _ _ _ C'), elem_of_app. left. exact I.
  - intros o v. exact (says_later s s' o v C C' L).
Qed.
Print Assumptions C68_history.
(** C68: when nothing is referred to from variables, results and scripts any more, no object is left. *)
Theorem C68_nothing_left : forall s, sound s -> t_slots s = ∅ -> t_held s = [] -> t_heap s = ∅.
Proof. exact sound_empty. Qed.
Print Assumptions C68_nothing_left.
Definition ex_more : list tcall :=
  [KFinish 0 (Some (CStringss [[[97]]; [[98]; [99]]])); KResult 0; KHold 3%positive; KTraceGet 0 [118] (CStrings [[97]]); KTraceSet 0 [118]; KArg 3%positive; KFinish 1 None;
   KRelease 3%positive; KRelease 3%positive; KClear (0, None); KClear (0, Some [118])].
Definition ex_end : tst := after (krun ex_rep ex_more) ex_s.
Example C68_history_ex : sound ex_s /\ cans ex_rep ex_more ex_s /\ sound (Tst ∅ 1 ∅ []) /\ cans ex_rep ex_calls (Tst ∅ 1 ∅ []) /\
  t_slots ex_end = ∅ /\ t_held ex_end = [] /\ map_to_list (t_heap ex_end) = [] /\ t_next ex_end = 14%positive.
Proof.
  split; [exact ex_sound|]. split; [apply (bool_decide_unpack _); vm_compute; reflexivity|]. split; [exact sound_start|]. split; [exact ex_cans|].
  split; [apply (bool_decide_unpack _); vm_compute; reflexivity|]. split; [vm_compute; reflexivity|]. split; vm_compute; reflexivity.
Qed.

(** C68: false: a command may return any String. One of INT_MAX chars is converted to a null pointer, which is then made the
    result. *)
Theorem C68_null_refuted : exists t s, sound s /\ zlen t = 2147483647 /\ finish 0 (Some (CString t)) s = Undef UbNull.
Proof. destruct long_text as (t & L). exists t, ex_s. split; [exact ex_sound|]. split; [exact L|]. apply finish_long. rewrite L. discriminate. Qed.
Print Assumptions C68_null_refuted.
