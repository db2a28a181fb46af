(** Items that are passed by reference, ReferenceCountedArray.h: write (844-847), replace (1212-1218), append (989, 991); insert is [RcaModel.insert_ref].
    The reference is a pointer into a buffer, which is read only after the array has prepared its own. All else is as in RcaModel. *)
From Verif Require Import RcaModel.
Open Scope Z_scope.

Section Alias.
Context {T : Type} (d : desc T).
Notation Mm := (M (state T)).
Implicit Types (x : positive) (p : ptr).
(** write(pos, const_reference), 844-847; a[pos] = item is this (908-911). *)
Definition write_ref x (pos : Z) p : Mm unit :=
  get_own_copy d x ;;; let* v := ptr_read p in store x pos [Some v].
(** replace(pos, const_reference), 1212-1218. *)
Definition replace_ref x (pos : Z) p : Mm unit := check_pos x pos ;;; write_ref x pos p.
(** append(const_reference), push_back, 989-991; Array's operator<< and += (Array.h:92-96, 309-312) are this. *)
Definition append_ref x p : Mm unit := let* n := length_of x in insert_ref d x n p.
End Alias.
