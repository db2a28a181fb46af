(** An output stream as its user sees it, and what printing a string on it should leave behind. *)
From Verif Require Import Base.
Open Scope Z_scope.

(** What has been written, the state flags, width, fill character and adjustment; [os_takes n]: the device accepts one
    more character after [n]. *)
Record ostream := OS { os_out : list Z; os_eof : bool; os_fail : bool; os_bad : bool; os_width : Z; os_fill : Z; os_left : bool; os_takes : Z -> bool }.
Definition os_good (o : ostream) : bool := negb (os_eof o || os_fail o || os_bad o).
(** [o] after [l] was written: the width is used up. *)
Definition wrote (o : ostream) (l : list Z) : ostream := OS (os_out o ++ l) (os_eof o) (os_fail o) (os_bad o) 0 (os_fill o) (os_left o) (os_takes o).
(** The device takes [n] more characters. *)
Definition takes (o : ostream) (n : Z) : Prop := forall k, 0 <= k < n -> os_takes o (zlen (os_out o) + k) = true.
(** One character in a field. *)
Definition padding (o : ostream) : list Z := zrep (os_width o - 1) (os_fill o).
Definition field (o : ostream) (c : Z) : list Z := if os_left o then c :: padding o else padding o ++ [c].
(** Text with a separator after each word. *)
Fixpoint ended_by (sep : Z) (ws : list (list Z)) : list Z := match ws with [] => [] | w :: ws' => w ++ sep :: ended_by sep ws' end.
(** A stream to a string, just made. *)
Definition blank_os : ostream := OS [] false false false 0 32 false (fun _ => true).
