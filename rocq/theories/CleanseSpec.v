(** What erasing means. *)
From Verif Require Import Base RcaSpec RcaModel.
Open Scope Z_scope.

(** Nothing of the contents is left: every element is unspecified in the model. *)
Definition erased {T} (b : list (option T)) : Prop := Forall (fun e => e = None) b.
(** Calls that never give a buffer back without erasing it. *)
Definition quiet {T} (o : op T) : Prop :=
  match o with
  | CtorDefault _ | CtorCopy _ _ | CtorMove _ _ | CtorSized _ _ | CtorList _ _ | CtorCstr _ _ | CtorCstrLen _ _ _ | CtorChar _ _
  | Destroy _ | Swap _ _ | Clear _ | SliceTo _ _ _ | Read _ _ | At _ _ | Length _ | HashOf _ | FindItem _ _ _ | RFindItem _ _ | PopBack _
  | StrDropFront _ _ | StrDropBack _ _ | Trim _ _ | Chomp _ _ _ => True
  | _ => False
  end.
(** The same contents except in the buffer at [l]. *)
Definition differ_in {T} (l : positive) (s1 s2 : state T) : Prop :=
  st_env s1 = st_env s2 /\ st_next s1 = st_next s2 /\ st_tick s1 = st_tick s2 /\ st_freed s1 = st_freed s2 /\
  (forall l', l' <> l -> st_heap s1 !! l' = st_heap s2 !! l') /\
  exists b1 b2 g n, st_heap s1 !! l = Some (Cell b1 g n) /\ st_heap s2 !! l = Some (Cell b2 g n) /\ zlen b1 = zlen b2.
(** How far the counter has moved after [i] bytes were written to the address [p] on. *)
Definition strides (p : Z) (i : nat) : Z := fold_right Z.add 0 (map (fun j => 17 + (p + Z.of_nat j) mod 16) (seq 1 i)).
