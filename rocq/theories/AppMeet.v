(** What it means for the model of whole programs to implement AppSpec. *)
From stdpp Require Import gmap.
From Verif Require Import RcaSpec RcaModel RcaExec RcaRel RcaMeet StreamModel NestModel HsModel PtModel LibSpec LibModel LibMeet AppSpec AppModel.
From Verif Require MstSpec MstModel MstMeet MfSpec MfModel MfMeet.
Open Scope Z_scope.

Section Meet.
Variable d : desc Z.
Variable mdiff : Z -> Z -> Z.
Variable grow : Z -> Z -> option Z.
Variable el : positive -> nat -> positive.
Variable upper : Z -> Z.
Variable junk : Z -> Z.
Variable mm : bool.

(** The memory holds the tables, arrays, Strings, Streams and files of [w]. *)
Record arel (q : amem) (w : total) : Prop := {
  ar_lib : lrel d (a_lib q) (w_lib w);
  ar_live : forall k p, w_cur w !! k = Some p -> is_Some (w_strs (w_lib w) !! k) /\ 0 <= p < W64 /\ exists b, a_streams q !! str k = Some (Stream (str k) p b);
  ar_only : forall z, is_Some (a_streams q !! z) -> exists k, z = str k /\ is_Some (w_cur w !! k);
  ar_disk : a_disk q = w_disk w;
  ar_small : forall p f, w_disk w !! p = Some f -> zlen f < W63 }.
Definition aout_le (o o' : aout) : Prop :=
  match o, o' with XLib v, XLib v' => lout_le v v' | XFile v, XFile v' => MstMeet.mout_le v v' | _, _ => False end.
(** How a call fares. *)
Definition lucky (c : acall) (e : env) (w : total) : MfSpec.luck :=
  match c with ALib _ => MfSpec.Good | AFile o => MfMeet.luck_of mm (e_sys e) o (w_strs (w_lib w)) (w_cur w) end.
(** Memory is refused to this call, or can be; it can end the program, c_str() being noexcept. *)
Definition ashort (c : acall) (e : env) (w : total) : Prop :=
  match c with ALib c => lshort d el c (e_need e) (w_lib w) | AFile o => MfMeet.fshort d o (w_strs (w_lib w)) (w_disk w) end.
Definition aends (c : acall) (w : total) : Prop := match c with ALib _ => False | AFile o => MfMeet.fends d o (w_strs (w_lib w)) end.
Definition aleaked (c : acall) : Z := match c with ALib _ => 0 | AFile o => MfMeet.leaked mm o end.
(** The capacity of the Stream that a seek is about. *)
Definition acap (c : acall) (q : amem) (cap : Z) : Prop :=
  match c with AFile (MfSpec.FDo (MstSpec.MSeek k _ _)) => capacity (str k) (heap_of q) = Ok cap (heap_of q) | _ => True end.
(** What a call has to do. *)
Definition adoes (cap : Z) (c : acall) (e : env) (q : amem) (w : total) : Prop :=
  match aexec d mdiff grow el upper junk mm c e q with
  | Ok v q' => a_fds q' = a_fds q /\ exists w' v', apost (step d) el upper mm (lucky c e w) cap c w v' w' /\ aout_le v' v /\ arel q' w'
  | Exn OutOfRange q' => a_fds q' = a_fds q /\ exists w', arange (step d) mm (lucky c e w) cap c w w' /\ arel q' w'
  | Exn BadAlloc q' => a_fds q' = a_fds q + aleaked c /\ ashort c e w /\ exists w', afail mm (lucky c e w) c w w' /\ arel q' w'
  | Term => aends c w
  | Fuel | Undef _ => False
  end.

(** Observations allowed for a program: anything from where a call lacks what it needs. *)
Definition placed (c : acall) (w : total) : Prop :=
  match c with AFile (MfSpec.FDo (MstSpec.MSeek k _ _)) => MstSpec.strm (w_strs (w_lib w)) (w_cur w) k <> None | _ => True end.
Definition aseen (c : acall) (cap : Z) : list aobs := match c with AFile (MfSpec.FDo (MstSpec.MSeek _ _ _)) => [SSaw (MstModel.BCap cap)] | _ => [] end.
Fixpoint aallows (w : total) (prog : list (acall * env)) (os : list aobs) {struct prog} : Prop :=
  match prog with
  | [] => os = []
  | (c, e) :: prog' =>
    placed c w -> exists cap os1, os = aseen c cap ++ os1 /\
    (apre (step d) el upper mm (lucky c e w) cap c w ->
     match os1 with
     | SRet v :: os' => exists v' w', apost (step d) el upper mm (lucky c e w) cap c w v' w' /\ aout_le v' v /\ aallows w' prog' os'
     | SThrow OutOfRange :: os' => exists w', arange (step d) mm (lucky c e w) cap c w w' /\ aallows w' prog' os'
     | SThrow BadAlloc :: os' => ashort c e w /\ exists w', afail mm (lucky c e w) c w w' /\ aallows w' prog' os'
     | [STerm] => aends c w
     | _ => False
     end)
  end.
End Meet.
