(** What is expected of reading and writing files without mmap. *)
From Verif Require Export Base StreamSpec.
Open Scope Z_scope.

(** The bytes that arrive before a read error. *)
Definition arrive (data : list Z) (err : option Z) : list Z :=
  match err with None => data | Some k => ztake k data end.
(** A file after [w] was put at position [p] of it. *)
Definition patched (old : list Z) (p : Z) (w : list Z) (new : list Z) : Prop :=
  zlen new = Z.max (zlen old) (if zlen w =? 0 then 0 else p + zlen w) /\
  forall i, 0 <= i < zlen new ->
    znth i new = if (p <=? i) && (i <? p + zlen w) then znth (i - p) w
                 else if i <? zlen old then znth i old else Some 0.
