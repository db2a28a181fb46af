(** C43, C44, C46: conversions between C++ and Tcl, dispatch of commands, loading of files. [tcl_ok tc] says that the Tcl library gives back
    what was put into an object. *)
From Coq Require Import Lia String.
From Verif Require Import Base StrSpec StrModel StrEx ScriptModel ScriptSpec ScriptProof.
Open Scope Z_scope.
Ltac run := vm_compute; reflexivity.
(** A Tcl library for the examples: numbers are read from integer and boolean objects only. *)
Definition tcl0 : tcl := Tcl
  (fun o => match o with TInt z => if (- W63 <=? z) && (z <? W63) then Some z else None | TBool b => Some (if b then 1 else 0) | _ => None end)
  (fun o => match o with TDouble b => Some b | _ => None end)
  (fun o => match o with TBool b => Some (if b then 1 else 0) | TInt z => Some z | _ => None end)
  (fun o => match o with TText t => Some t | _ => None end)
  (fun o => match o with TList l => Some l | TText [] => Some [] | _ => None end).
Lemma tcl0_ok : tcl_ok tcl0.
Proof.
  split; cbn; try reflexivity.
  - intros z H. destruct (_ && _) eqn:E; [reflexivity|lia].
  - intros [z| |[]| |] v H; try discriminate; try (injection H as <-; unfold W63; lia). destruct (_ && _) eqn:E; [injection H as <-; lia|discriminate].
Qed.

(** C43: the number a script sees. *)
Theorem C43_shown : forall t v, in_type t v ->
  int_to_tcl t v = TInt (if is_signed t || (v <? 2 ^ (width t - 1)) then v else v - 2 ^ width t).
Proof. exact shown. Qed.
Print Assumptions C43_shown.
Example C43_shown_ex : in_type U16 65535 /\ int_to_tcl U16 65535 = TInt (-1) /\ in_type U16 32767 /\ int_to_tcl U16 32767 = TInt 32767.
Proof. cbn; repeat split; try lia; run. Qed.

(** C43: values of signed types, unsigned values of the lower half (not of uint64), doubles, booleans, texts, lists of texts and lists
    of lists come back unchanged. *)
Theorem C43_round_trip : forall tc si ty v res, tcl_ok tc -> portable ty v -> (forall t, ty = CInt t -> res = t) ->
  exists o, to_tcl res v tt = Ok (Some o) tt /\ from_tcl tc si ty o = v.
Proof. intros tc si ty v res H. exact (back tc H si ty v res). Qed.
Print Assumptions C43_round_trip.
Example C43_round_trip_ex : tcl_ok tcl0 /\ portable (CInt I8) (VInt (-128)) /\ portable (CInt U32) (VInt 2147483647) /\
  portable CTable (VTable [[bs "a b"; []]; []; [bs "{"]]).
Proof. split; [exact tcl0_ok|]. cbn. repeat split; try lia; try discriminate; repeat constructor; run. Qed.

(** C43: unsigned values of the upper half come back as 0. *)
Theorem C43_unsigned_high : forall tc t v, tcl_ok tc -> is_signed t = false -> 2 ^ (width t - 1) <= v < 2 ^ width t ->
  int_to_tcl t v = TInt (v - 2 ^ width t) /\ int_from_tcl tc t (int_to_tcl t v) = 0.
Proof. intros tc t v H. exact (unsigned_high tc H t v). Qed.
Print Assumptions C43_unsigned_high.
Example C43_unsigned_high_ex : is_signed U8 = false /\ 2 ^ (width U8 - 1) <= 200 < 2 ^ width U8 /\ int_to_tcl U8 200 = TInt (-56).
Proof. repeat split; try run; cbn; lia. Qed.

(** C43: no script value reads as a uint64 other than 0. *)
Theorem C43_u64 : forall tc o, int_from_tcl tc U64 o = 0.
Proof. exact u64_zero. Qed.
Print Assumptions C43_u64.
Example C43_u64_ex : get_long tcl0 (TInt 5) = Some 5 /\ int_from_tcl tcl0 U64 (TInt 5) = 0 /\ int_from_tcl tcl0 I64 (TInt 5) = 5.
Proof. repeat split; run. Qed.

(** C43: what a script value reads as: itself if the type has it, else 0; never a value outside the type. *)
Theorem C43_from_script : forall tc t o, tcl_ok tc -> in_type t (int_from_tcl tc t o) /\
  (forall z, t <> U64 -> get_long tc o = Some z -> in_type t z -> int_from_tcl tc t o = z) /\
  ((forall z, get_long tc o = Some z -> ~ in_type t z) -> int_from_tcl tc t o = 0).
Proof. intros tc t o H. exact (from_script tc H t o). Qed.
Print Assumptions C43_from_script.
Example C43_from_script_ex : int_from_tcl tcl0 I16 (TInt 32768) = 0 /\ int_from_tcl tcl0 I16 (TInt (-32768)) = -32768 /\ int_from_tcl tcl0 I16 (TText (bs "x")) = 0.
Proof. repeat split; run. Qed.

(** C43 as one would wish it, every value comes back, is false. *)
Theorem C43_all_refuted : exists tc t v, tcl_ok tc /\ in_type t v /\ int_from_tcl tc t (int_to_tcl t v) <> v.
Proof. exists tcl0, U8, 200. split; [exact tcl0_ok|]. split; [cbn; lia|]. vm_compute. discriminate. Qed.
Print Assumptions C43_all_refuted.
Theorem C43_u64_refuted : exists tc v, tcl_ok tc /\ in_type U64 v /\ v < 2 ^ 63 /\ int_from_tcl tc U64 (int_to_tcl U64 v) <> v.
Proof. exists tcl0, 1. split; [exact tcl0_ok|]. split; [cbn; unfold W64; lia|]. split; [lia|]. vm_compute. discriminate. Qed.
Print Assumptions C43_u64_refuted.

(** C44: with a number of arguments from the minimum to the number of parameters, the function gets the arguments in order, the missing ones
    defaulted, and its answer becomes the result. *)
Theorem C44_called : forall tc h si name args, accepts h args -> zlen args + 1 < W63 ->
  shows_answer h (h_fun h (receives tc si (h_types h) args)) (receives tc si (h_types h) args) (invoke tc h si (name :: args) tt).
Proof. exact invoke_called. Qed.
Print Assumptions C44_called.
(** A command of two parameters, the second optional, that adds them; it throws on a negative first one. *)
Definition adder : handler := make_handler [CInt I32; CInt I32] I32 (Some 1) (Some (bs "a ?b?"))
  (fun l => match l with [VInt a; VInt b] => if a <? 0 then ThrowsString (bs "negative") else Returns (Some (VInt (a + b))) | _ => ThrowsOther end).
Example C44_called_ex : accepts adder [TInt 7] /\ accepts adder [TInt 7; TInt 8] /\
  invoke tcl0 adder 1 [TText (bs "add"); TInt 7] tt = Ok (Outcome true (RObj (TInt 7)) (Some [VInt 7; VInt 0])) tt /\
  invoke tcl0 adder 1 [TText (bs "add"); TInt 7; TInt 8] tt = Ok (Outcome true (RObj (TInt 15)) (Some [VInt 7; VInt 8])) tt /\
  invoke tcl0 adder 1 [TText (bs "add"); TInt (-7)] tt = Ok (Outcome false (RObj (TText (bs "negative"))) (Some [VInt (-7); VInt 0])) tt.
Proof. unfold accepts. repeat split; try run; vm_compute; discriminate. Qed.

(** C44: with fewer or more, the function is not called and an error tells the expected and the given number. *)
Theorem C44_refused : forall tc h si name args, ~ accepts h args -> zlen args + 1 < W63 ->
  invoke tc h si (name :: args) tt = Ok (Outcome false (RWrongArgs (h_min h) (zlen args) (h_usage h)) None) tt.
Proof. exact invoke_refused. Qed.
Print Assumptions C44_refused.
Example C44_refused_ex : ~ accepts adder [] /\ ~ accepts adder [TInt 1; TInt 2; TInt 3] /\
  invoke tcl0 adder 1 [TText (bs "add")] tt = Ok (Outcome false (RWrongArgs 1 0 (Some (bs "a ?b?"))) None) tt.
Proof. unfold accepts. repeat split; try run; vm_compute; intros [A B]; try (now apply A); now apply B. Qed.

(** C44: without a minimum every parameter is required. *)
Theorem C44_default_minimum : forall types res usage f args, accepts (make_handler types res None usage f) args <-> zlen args = zlen types.
Proof. intros. unfold accepts. cbn. lia. Qed.
Print Assumptions C44_default_minimum.
Example C44_default_minimum_ex : accepts (make_handler [CBool; CString] I32 None None (fun _ => Returns None)) [TInt 1; TInt 2].
Proof. apply C44_default_minimum. run. Qed.
(** C44: with a minimum, that many are required and the others optional; size_t(-1) stands for all of them. *)
Theorem C44_minimum : forall types res m usage f args,
  accepts (make_handler types res (Some m) usage f) args <-> (if Z.eq_dec m npos then zlen args = zlen types else m <= zlen args <= zlen types).
Proof. intros. unfold accepts, make_handler. cbn [h_min h_types]. destruct (Z.eq_dec m npos) as [->|N]; [rewrite Z.eqb_refl|rewrite (proj2 (Z.eqb_neq _ _) N)]; lia. Qed.
Print Assumptions C44_minimum.
Example C44_minimum_ex : accepts adder [TInt 7] /\ ~ accepts adder [] /\ ~ accepts (make_handler [CInt I32; CInt I32] I32 (Some npos) None (fun _ => Returns None)) [TInt 7].
Proof. split; [|split]; unfold adder; rewrite C44_minimum; vm_compute; [split; discriminate|intros [A _]; now apply A|discriminate]. Qed.

(** C46: a file is evaluated exactly when its name ends in ".tcl"; the result text changes only on an error in the script. *)
Theorem C46_accepts : forall mdiff eval file result, memcmp_ok mdiff -> bytes file -> zlen file < W63 -> suffix_of dot_tcl file ->
  load_script mdiff eval file result tt =
    Ok (match eval (upto_nul file) with Some e => (LoadError, e, Some (upto_nul file)) | None => (LoadOk, result, Some (upto_nul file)) end) tt.
Proof. exact load_accepts. Qed.
Print Assumptions C46_accepts.
Theorem C46_refuses : forall mdiff eval file result, memcmp_ok mdiff -> bytes file -> zlen file < W63 -> ~ suffix_of dot_tcl file ->
  load_script mdiff eval file result tt = Ok (LoadWrongInterp, result, None) tt.
Proof. exact load_refuses. Qed.
Print Assumptions C46_refuses.
Definition eval0 (f : chars) : option chars := if zlen f =? 6 then Some (bs "bad") else None.
Example C46_ex : load_script Z.sub eval0 (bs "ab.tcl") [] tt = Ok (LoadError, bs "bad", Some (bs "ab.tcl")) tt /\
  load_script Z.sub eval0 (bs ".tcl") [7] tt = Ok (LoadOk, [7], Some (bs ".tcl")) tt /\
  load_script Z.sub eval0 (bs "a.tcl.txt") [7] tt = Ok (LoadWrongInterp, [7], None) tt /\
  load_script Z.sub eval0 (bs "tcl") [7] tt = Ok (LoadWrongInterp, [7], None) tt.
Proof. repeat split; run. Qed.
(** C46: the file evaluated need not be one whose name ends in ".tcl": Tcl stops at a NUL inside the name. *)
Theorem C46_nul_refuted : exists file f, suffix_of dot_tcl file /\ ~ suffix_of dot_tcl f /\
  load_script Z.sub (fun _ => None) file [] tt = Ok (LoadOk, [], Some f) tt.
Proof.
  exists (bs "evil" ++ [0] ++ dot_tcl), (bs "evil"). split; [exists (bs "evil" ++ [0]); reflexivity|]. split; [|run].
  intros [r E]. assert (length r = O) as L by (apply (f_equal (@length Z)) in E; rewrite app_length in E; cbn in E; lia).
  destruct r; [|discriminate]. vm_compute in E. discriminate.
Qed.
Print Assumptions C46_nul_refuted.
