(** What it means for the model of programs with text input and output to implement TioSpec. *)
From stdpp Require Import gmap.
From Verif Require Import RcaSpec RcaModel RcaExec RcaRel RcaMeet LibSpec LibMeet AppSpec AppModel AppMeet IsSpec OsSpec TioSpec TioModel.
From Verif Require MstSpec MstModel MstMeet MfSpec MfModel MfMeet.
Open Scope Z_scope.

Section Meet.
Variable d : desc Z.
Variable mdiff : Z -> Z -> Z.
Variable grow : Z -> Z -> option Z.
Variable el : positive -> nat -> positive.
Variable upper : Z -> Z.
Variable junk : Z -> Z.
Variable mm : bool.
Variable high : Z -> option bool.
Variable marks : bool.

(** The streams in memory. *)
Definition is_input (st : istream) (v : input) : Prop :=
  match v with Open t => st = IS t false false false true | Failed => is_fail st = true end.
Definition an_output (t : list Z) : ostream := OS t false false false 0 32 false (fun _ => true).
Record trel (q : tmem) (w : scene) : Prop := {
  tr_app : arel d (t_app q) (s_app w);
  tr_in : forall i, match t_ins q !! i, s_in w !! i with Some st, Some v => is_input st v | None, None => True | _, _ => False end;
  tr_out : forall o, t_outs q !! o = an_output <$> s_out w !! o }.
Definition tout_le (o o' : tout) : Prop := match o, o' with ZApp v, ZApp v' => aout_le v v' | _, _ => o = o' end.
Definition tlucky (c : tcall) (e : env) (w : scene) : MfSpec.luck := match c with TApp c => lucky mm c e (s_app w) | _ => MfSpec.Good end.
Definition tshort (c : tcall) (e : env) (w : scene) : Prop :=
  match c with
  | TApp c => ashort d el c e (s_app w)
  | TRead line i x => exists st l st' f, s_in w !! i = Some st /\ reads line st l st' f /\ no_memory d (zlen l + 2)
  | _ => False
  end.
Definition tends (c : tcall) (w : scene) : Prop := match c with TApp c => aends d c (s_app w) | _ => False end.
Definition tleaked (c : tcall) : Z := match c with TApp c => aleaked mm c | _ => 0 end.
Definition tcap (c : tcall) (q : tmem) (cap : Z) : Prop := match c with TApp c => acap c (t_app q) cap | _ => True end.
Definition open_fds (q : tmem) : Z := a_fds (t_app q).
(** What a call has to do. *)
Definition tdoes (cap : Z) (c : tcall) (e : env) (q : tmem) (w : scene) : Prop :=
  match texec d mdiff grow el upper junk mm high marks c e q with
  | Ok v q' => open_fds q' = open_fds q /\ exists w' v', tpost (step d) el upper mm (tlucky c e w) cap c w v' w' /\ tout_le v' v /\ trel q' w'
  | Exn OutOfRange q' => open_fds q' = open_fds q /\ exists w', trange (step d) mm (tlucky c e w) cap c w w' /\ trel q' w'
  | Exn BadAlloc q' => open_fds q' = open_fds q + tleaked c /\ tshort c e w /\ exists w', tfail mm (tlucky c e w) c w w' /\ trel q' w'
  | Term => tends c w
  | Fuel | Undef _ => False
  end.

(** Observations allowed for a program: anything from where a call lacks what it needs. *)
Definition tplaced (c : tcall) (w : scene) : Prop := match c with TApp c => placed c (s_app w) | _ => True end.
Definition tseen (c : tcall) (cap : Z) : list tobs := match c with TApp c => map TSaw (aseen c cap) | _ => [] end.
Fixpoint tallows (w : scene) (p : prog) (os : list tobs) {struct p} : Prop :=
  match p with
  | Stop => os = []
  | Do c e k =>
    tplaced c w -> exists cap os1, os = tseen c cap ++ os1 /\
    (tpre (step d) el upper mm high (tlucky c e w) cap c w ->
     match os1 with
     | TRet v :: os' => exists v' w', tpost (step d) el upper mm (tlucky c e w) cap c w v' w' /\ tout_le v' v /\ tallows w' (k (inl v)) os'
     | TThrow OutOfRange :: os' => exists w', trange (step d) mm (tlucky c e w) cap c w w' /\ tallows w' (k (inr OutOfRange)) os'
     | TThrow BadAlloc :: os' => tshort c e w /\ exists w', tfail mm (tlucky c e w) c w w' /\ tallows w' (k (inr BadAlloc)) os'
     | [TTerm] => tends c w
     | _ => False
     end)
  end.
(** The system calls behave. *)
Fixpoint all_sane (p : prog) : Prop := match p with Stop => True | Do _ e k => MfMeet.sane (e_sys e) /\ forall r, all_sane (k r) end.
End Meet.
