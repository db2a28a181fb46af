(** What a program relies on that uses the whole library at once: Strings and their algorithms, tables, arrays, base64, Streams and
    files. Texts, maps and lists are as in LibSpec, Streams (a text and a cursor) and files (a map from names to bytes) as in MfSpec;
    a Stream has its text under its own name among those of the Strings. Nothing here refers to the model. *)
From Verif Require Export LibSpec.
From Verif Require MstSpec MfSpec.
Open Scope Z_scope.

Inductive acall :=
| ALib (c : lcall)               (* a call of LibSpec *)
| AFile (o : MfSpec.fop).        (* a call of MfSpec *)
Inductive aout := XLib (o : lout) | XFile (o : MstSpec.mout).
(** Texts, maps and lists; the cursors of the Streams; the files. *)
Record total := Total { w_lib : world; w_cur : gmap positive Z; w_disk : MfSpec.files }.

(** A name that a call does not mention. *)
Definition spare (o : MfSpec.fop) : positive := Pos.succ (fold_right Pos.max 1%positive (MfSpec.finvolved o)).

Section Spec.
Variable ustep : op Z -> astate Z -> option (sres Z).
Variable el : positive -> nat -> positive.
Variable upper : Z -> Z.
(** Whether files are read through mmap. *)
Variable mm : bool.

(** No Stream is used as a String or as an element of an array. *)
Definition off_streams (c : lcall) (m : gmap positive Z) : Prop :=
  forall k, is_Some (m !! k) -> k ∉ l_strings c /\ forall j n, j ∈ l_arrays c -> k <> el j n.
(** A call on Streams or files; [lk] is how it fares, [cap] bounds seek(). *)
Definition tstep (lk : MfSpec.luck) (cap : Z) (o : MfSpec.fop) (w : total) : option MfSpec.fres :=
  MfSpec.fstep ustep (spare o) mm lk cap o (w_strs (w_lib w)) (w_cur w) (w_disk w).
Definition with_lib (w : total) (l : world) : total := Total l (w_cur w) (w_disk w).
Definition with_files (w : total) (b : astate Z) (m : gmap positive Z) (fs : MfSpec.files) : total := Total (with_strs (w_lib w) b) m fs.

(** What a call needs. *)
Definition apre (lk : MfSpec.luck) (cap : Z) (c : acall) (w : total) : Prop :=
  match c with
  | ALib c => lpre ustep el upper c (w_lib w) /\ off_streams c (w_cur w)
  | AFile o => exists r, tstep lk cap o w = Some r
  end.
(** What it returns and leaves. *)
Definition apost (lk : MfSpec.luck) (cap : Z) (c : acall) (w : total) (v : aout) (w' : total) : Prop :=
  match c with
  | ALib c => exists o l, lpost ustep el upper c (w_lib w) o l /\ v = XLib o /\ w' = with_lib w l
  | AFile o => exists b m F fs r, tstep lk cap o w = Some (MfSpec.FRet b m F r) /\ F fs /\ v = XFile r /\ w' = with_files w b m fs
  end.
(** What out_of_range leaves behind, and when it comes. *)
Definition arange (lk : MfSpec.luck) (cap : Z) (c : acall) (w w' : total) : Prop :=
  match c with
  | ALib c => exists l, lrange ustep c (w_lib w) l /\ w' = with_lib w l
  | AFile o => tstep lk cap o w = Some MfSpec.FRange /\ w' = w
  end.
(** What bad_alloc may leave behind. *)
Definition afail (lk : MfSpec.luck) (c : acall) (w w' : total) : Prop :=
  match c with
  | ALib c => exists l, lfail c (w_lib w) l /\ w' = with_lib w l
  | AFile o => exists b m, MfSpec.ffail mm lk (w_strs (w_lib w)) (w_cur w) (w_disk w) o b m /\ w' = with_files w b m (w_disk w)
  end.
(** The names that a call mentions. *)
Definition a_tables (c : acall) : list positive := match c with ALib c => l_tables c | AFile _ => [] end.
Definition a_arrays (c : acall) : list positive := match c with ALib c => l_arrays c | AFile _ => [] end.
Definition a_texts (c : acall) : list positive := match c with ALib c => l_strings c | AFile o => MfSpec.finvolved o end.
Definition a_touches (c : acall) (w : total) : option (list Z) := match c with ALib _ => None | AFile o => MfSpec.ftouches o (w_strs (w_lib w)) end.
(** Nothing else is different in [w']. *)
Definition a_apart (c : acall) (w w' : total) : Prop :=
  (forall i, i ∉ a_tables c -> w_maps (w_lib w') !! i = w_maps (w_lib w) !! i) /\
  (forall j, j ∉ a_arrays c -> w_lists (w_lib w') !! j = w_lists (w_lib w) !! j) /\
  (forall x, x ∉ a_texts c -> (forall j k, j ∈ a_arrays c -> x <> el j k) ->
    w_strs (w_lib w') !! x = w_strs (w_lib w) !! x /\ w_cur w' !! x = w_cur w !! x) /\
  (forall p, a_touches c w <> Some p -> w_disk w' !! p = w_disk w !! p).
End Spec.
