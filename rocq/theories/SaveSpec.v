(** What a user who saves a Stream through an AtomicFile relies on. Nothing here refers to the model of either class. *)
From stdpp Require Import gmap.
From Verif Require Export AtomicSpec.
Open Scope Z_scope.

(** A file to be saved: its name, its mode and the data of the Stream. *)
Definition saving := (list Z * Z * list Z)%type.
(** What may be at [q]: what was there before, or everything that one of the calls was to save there. *)
Definition saved_or_old (f : fs) (l : list saving) (q : path) (r : option (list Z)) : Prop :=
  r = visible f q \/ exists fn m b, In (fn, m, b) l /\ resolve fn = q /\ r = Some b.
(** What is at [q] after calls with the results given, when [r] was there before: the data of the last call for [q] that
    reported success. *)
Fixpoint last_saved (q : path) (l : list (saving * option bool)) (r : option (list Z)) : option (list Z) :=
  match l with
  | [] => r
  | ((fn, _, b), ok) :: l' =>
    last_saved q l' (if bool_decide (ok = Some true /\ resolve fn = q) then Some b else r)
  end.
(** The permissions of the file at a path. *)
Definition mode_at (f : fs) (q : path) : option Z :=
  match f_names f !! q with None => None | Some i => option_map i_mode (f_inodes f !! i) end.
