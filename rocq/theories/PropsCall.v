(** C50, C51: evaluating scripts and calling back into them. [run] is the Tcl interpreter: success, result and new state of a script. *)
From Coq Require Import Lia String.
From Verif Require Import Base ZList StrSpec StrModel StrEx ScriptModel ScriptSpec PropsScript CallModel CallSpec CallProof.
Open Scope Z_scope.
Ltac run := vm_compute; reflexivity.

(** C50: the callback is called with its own words followed by exactly the parameters, if these are free of quotes, brackets, dollars,
    backslashes and NULs and everything together is shorter than 4096 bytes. *)
Theorem C50_call : forall E tc (run : chars -> E -> bool * tobj * E) f cmd ws ps e, prefix cmd ws -> Forall literal ps ->
  zlen cmd + 1 + zlen (intercalate [32] (map (fun p => quote :: p ++ [quote]) ps)) < 4096 ->
  exists script, commands script = Some [ws ++ ps] /\ zlen script < 4096 /\ callback_call tc run f cmd ps e = eval tc run f script e.
Proof. exact @call_ok. Qed.
Print Assumptions C50_call.
Example C50_call_ex : prefix (bs "cb -x") [bs "cb"; bs "-x"] /\ Forall literal [bs "two words; {here}"; []] /\
  commands (bs "cb -x " ++ quote :: bs "two words; {here}" ++ quote :: 32 :: [quote; quote]) = Some [[bs "cb"; bs "-x"; bs "two words; {here}"; []]].
Proof.
  split; [split; [run|]|split; [|run]].
  - intros c H. repeat (destruct H as [<-|H]; [split; [reflexivity|discriminate]|]). destruct H.
  - apply Forall_cons; [|apply Forall_cons; [|apply Forall_nil]]; intros c H; repeat (destruct H as [<-|H]; [split; [discriminate|reflexivity]|]); destruct H.
Qed.

(** C50: a parameter with quotes in it runs a command of its own. *)
Theorem C50_inject_refuted : exists cmd p, forall E tc (run : chars -> E -> bool * tobj * E) f e, exists script,
  callback_call tc run f cmd [p] e = eval tc run f script e /\ commands cmd = Some [[bs "cb"]] /\
  commands script = Some [[bs "cb"; []]; [bs "exit"; []]].
Proof.
  exists (bs "cb"), (quote :: bs "; exit " ++ [quote]). intros E tc rn f e. eexists. split; [reflexivity|]. split; run.
Qed.
Print Assumptions C50_inject_refuted.

(** C50: a parameter that ends in a backslash or contains a bracket, a dollar or a single quote is not passed literally. *)
Theorem C50_literal_refuted : exists cmd, commands cmd = Some [[bs "cb"]] /\ forall p, In p [[92]; bs "[exit]"; bs "$x"; [97; quote; 98]] ->
  forall E tc (run : chars -> E -> bool * tobj * E) f e, exists script,
    callback_call tc run f cmd [p] e = eval tc run f script e /\ commands script = None.
Proof.
  exists (bs "cb"). split; [run|]. intros p H E tc rn f e.
  repeat (destruct H as [<-|H]; [eexists; split; [reflexivity|run]|]). destruct H.
Qed.
Print Assumptions C50_literal_refuted.

(** C50: a NUL in a parameter cuts the script, leaving an open quote. *)
Theorem C50_nul_refuted : exists cmd p, forall E tc (run : chars -> E -> bool * tobj * E) f e,
  callback_call tc run f cmd [p; bs "y"] e = eval tc run f (bs "cb " ++ quote :: bs "a") e /\ commands (bs "cb " ++ quote :: bs "a") = None.
Proof. exists (bs "cb"), [97; 0; 98]. intros E tc rn f e. split; [reflexivity|run]. Qed.
Print Assumptions C50_nul_refuted.

(** C50: a long parameter makes the call read past the buffer of printf. *)
Theorem C50_long_refuted : exists cmd p, literal p /\ commands cmd = Some [[bs "cb"]] /\
  forall E tc (run : chars -> E -> bool * tobj * E) f e, callback_call tc run f cmd [p] e = Undef UbBounds.
Proof.
  exists (bs "cb"), (zrep 5000 120). split; [|split; [run|]].
  - intros c H. unfold zrep in H. apply List.repeat_spec in H as ->. split; [discriminate|reflexivity].
  - intros E tc rn f e. unfold callback_call, clift at 1, bind at 1.
    assert (J : join [zrep 5000 120] [32] true tt = Ok (quote :: zrep 5000 120 ++ [quote]) tt) by run. rewrite J.
    unfold clift, bind. replace (printf (upto_nul (bs "cb") ++ [32] ++ upto_nul (quote :: zrep 5000 120 ++ [quote])) tt) with (@Undef unit chars UbBounds) by run.
    reflexivity.
Qed.
Print Assumptions C50_long_refuted.

(** C51: eval returns the text of the result. *)
Theorem C51_result : forall E tc (run : chars -> E -> bool * tobj * E) f s e o e', zlen s < 2147483648 -> run s e = (true, o, e') ->
  eval tc run (S f) s e = Ok (string_from_tcl tc o) e'.
Proof. exact @eval_ok. Qed.
Print Assumptions C51_result.
Example C51_result_ex : eval tcl0 (fun s (e : Z) => (true, TText (bs "r"), e + zlen s)) 1 (bs "foo") 0 = Ok (bs "r") 3.
Proof. run. Qed.

(** C51: if the script fails, it returns the text of errorInfo. *)
Theorem C51_error : forall E tc (run : chars -> E -> bool * tobj * E) f s e o e1 o2 e2, zlen s < 2147483648 -> run s e = (false, o, e1) ->
  run (bs "set errorInfo") e1 = (true, o2, e2) -> eval tc run (S (S f)) s e = Ok (string_from_tcl tc o2) e2.
Proof. exact @eval_error. Qed.
Print Assumptions C51_error.
Example C51_error_ex : eval tcl0 (fun s (e : Z) => if list_eq_dec Z.eq_dec s (bs "set errorInfo") then (true, TText (bs "why"), e + 1) else (false, TText [], e + 10)) 2 (bs "foo") 0
  = Ok (bs "why") 11.
Proof. run. Qed.

(** C51: it never returns if reading errorInfo keeps failing. *)
Theorem C51_loops_refuted : exists (run : chars -> unit -> bool * tobj * unit) s, forall tc f e, eval tc run f s e = Fuel.
Proof.
  exists (fun _ _ => (false, TText [], tt)), (bs "foo"). intros tc f e. apply (eval_loops tc _ (fun _ => True)) with (o := TText []) (e1 := tt); try reflexivity; try exact I.
  intros e0 _. exists (TText []), tt. split; [reflexivity|exact I].
Qed.
Print Assumptions C51_loops_refuted.

(** C51: of a script of 4 GiB nothing is evaluated. *)
Theorem C51_length_refuted : forall s, zlen s = 4294967296 -> evaluated s = [].
Proof. intros s H. unfold evaluated. rewrite H. reflexivity. Qed.
Print Assumptions C51_length_refuted.
