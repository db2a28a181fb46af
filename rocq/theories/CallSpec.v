(** The words of a Tcl script, for scripts without substitution, braces, comments and NUL (None otherwise, and for malformed ones). *)
From Verif Require Import Base StrSpec.
Open Scope Z_scope.

Definition is_space (c : Z) : bool := (c =? 32) || (c =? 9) || (c =? 11) || (c =? 12) || (c =? 13).
Definition is_end (c : Z) : bool := (c =? 59) || (c =? 10).                                     (* ; and newline *)
Definition is_subst (c : Z) : bool := (c =? 91) || (c =? 36) || (c =? 92) || (c =? 0).         (* [ $ \ and NUL *)
Definition quote : Z := 34.
Inductive mode := Between | Bare (w : chars) | Quoted (w : chars) | Closed (w : chars).
(** The commands so far with one more, unless it is empty. *)
Definition push (cmds : list (list chars)) (cmd : list chars) : list (list chars) := match cmd with [] => cmds | _ => cmds ++ [cmd] end.
Fixpoint parse (m : mode) (cmd : list chars) (cmds : list (list chars)) (s : chars) : option (list (list chars)) :=
  match s with
  | [] => match m with
          | Between => Some (push cmds cmd)
          | Bare w | Closed w => Some (push cmds (cmd ++ [w]))
          | Quoted _ => None
          end
  | c :: s' =>
    match m with
    | Between =>
      if is_space c then parse Between cmd cmds s'
      else if is_end c then parse Between [] (push cmds cmd) s'
      else if c =? quote then parse (Quoted []) cmd cmds s'
      else if is_subst c || (c =? 123) || (c =? 35) then None                                  (* { and # *)
      else parse (Bare [c]) cmd cmds s'
    | Bare w =>
      if is_space c then parse Between (cmd ++ [w]) cmds s'
      else if is_end c then parse Between [] (push cmds (cmd ++ [w])) s'
      else if is_subst c then None
      else parse (Bare (w ++ [c])) cmd cmds s'
    | Quoted w =>
      if c =? quote then parse (Closed w) cmd cmds s'
      else if is_subst c then None
      else parse (Quoted (w ++ [c])) cmd cmds s'
    | Closed w =>
      if is_space c then parse Between (cmd ++ [w]) cmds s'
      else if is_end c then parse Between [] (push cmds (cmd ++ [w])) s'
      else None
    end
  end.
(** The commands of a script, each a list of words. *)
Definition commands (s : chars) : option (list (list chars)) := parse Between [] [] s.
(** Texts that mean themselves between quotes. *)
Definition literal (t : chars) : Prop := forall c, In c t -> c <> quote /\ is_subst c = false.
(** One command without an end. *)
Definition prefix (cmd : chars) (ws : list chars) : Prop := commands cmd = Some [ws] /\ forall c, In c cmd -> is_end c = false /\ c <> 0.
