(** What a program relies on that reads from istreams and writes to ostreams besides using the library as in AppSpec. An istream is
    the text still to be read, or has failed; an ostream is the text written to it. What a program does next may depend on all
    it has seen. Nothing here refers to the model. *)
From Verif Require Export AppSpec IsSpec.
From Verif Require MstSpec MfSpec.
Open Scope Z_scope.

Inductive input := Open (text : list Z) | Failed.
Inductive tcall :=
| TApp (c : acall)                          (* a call of AppSpec *)
| TIn (i : positive) (text : list Z)        (* std::istringstream i(text); *)
| TRead (line : bool) (i x : positive)      (* i >> x; or getline(i, x); *)
| TOk (i : positive)                        (* bool(i) *)
| TOut (o : positive)                       (* std::ostringstream o; *)
| TWrite (o x : positive)                   (* o << x; *)
| TPut (o : positive) (c : Z)               (* o << c; for a char *)
| TShow (o : positive)                      (* o.str() *)
| TBack (i o : positive).                   (* std::istringstream i(o.str()); *)
Inductive tout := ZApp (o : aout) | ZVoid | ZBool (b : bool) | ZText (l : list Z).
Record scene := Scene { s_app : total; s_in : gmap positive input; s_out : gmap positive (list Z) }.

(** Reading a word (or a line) from an istream gives a text and leaves an istream; the last argument says what is still to be read if it
    is given up with some of the text to come. A word that ends with the input, and a line that has no newline, is read, but the istream has
    failed then. *)
Inductive reads : bool -> input -> list Z -> input -> (list Z -> list Z) -> Prop :=
| reads_word text blanks word rest : word_first text blanks word rest ->
    reads false (Open text) word (match rest with [] => Failed | _ => Open rest end) (fun w2 => w2 ++ rest)
| reads_blank text : Forall space text -> reads false (Open text) [] Failed (fun w2 => w2)
| reads_line line rest : ~ In 10 line -> reads true (Open (line ++ 10 :: rest)) line (Open rest) (fun w2 => w2 ++ 10 :: rest)
| reads_last line : ~ In 10 line -> reads true (Open line) line Failed (fun w2 => w2)
| reads_none b : reads b Failed [] Failed (fun w2 => w2).

Section Spec.
Variable ustep : op Z -> astate Z -> option (sres Z).
Variable el : positive -> nat -> positive.
Variable upper : Z -> Z.
Variable mm : bool.
(** isspace of a byte from 128 to 254; None is undefined. *)
Variable high : Z -> option bool.

(** No byte of a word is one that isspace must not be asked about, or that it takes for white space in another locale. *)
Definition classified (w : list Z) : Prop := forall b, In b w -> 128 <= b < 255 -> high b = Some false.
Definition with_app (w : scene) (a : total) : scene := Scene a (s_in w) (s_out w).
Definition texts (w : scene) : astate Z := w_strs (w_lib (s_app w)).
Definition with_text (w : scene) (x : positive) (l : list Z) (i : positive) (st : input) : scene :=
  Scene (with_files (s_app w) (<[x := AVal true (map Some l)]> (texts w)) (w_cur (s_app w)) (w_disk (s_app w))) (<[i := st]> (s_in w)) (s_out w).

(** What a call needs. *)
Definition tpre (lk : MfSpec.luck) (cap : Z) (c : tcall) (w : scene) : Prop :=
  match c with
  | TApp c => apre ustep el upper mm lk cap c (s_app w)
  | TIn i _ => s_in w !! i = None
  | TRead line i x => is_Some (texts w !! x) /\ w_cur (s_app w) !! x = None /\
      exists st, s_in w !! i = Some st /\ (line = false -> forall l st' f, reads false st l st' f -> classified l)
  | TOk i => is_Some (s_in w !! i)
  | TOut o => s_out w !! o = None
  | TWrite o x => is_Some (s_out w !! o) /\ w_cur (s_app w) !! x = None /\ exists l, full (texts w) x = Some l
  | TPut o _ | TShow o => is_Some (s_out w !! o)
  | TBack i o => s_in w !! i = None /\ is_Some (s_out w !! o)
  end.
(** What it returns and leaves. *)
Definition tpost (lk : MfSpec.luck) (cap : Z) (c : tcall) (w : scene) (v : tout) (w' : scene) : Prop :=
  match c with
  | TApp c => exists o a, apost ustep el upper mm lk cap c (s_app w) o a /\ v = ZApp o /\ w' = with_app w a
  | TIn i text => v = ZVoid /\ w' = Scene (s_app w) (<[i := Open text]> (s_in w)) (s_out w)
  | TRead line i x => v = ZVoid /\ exists st l st' f, s_in w !! i = Some st /\ reads line st l st' f /\ w' = with_text w x l i st'
  | TOk i => w' = w /\ exists st, s_in w !! i = Some st /\ v = ZBool (match st with Open _ => true | Failed => false end)
  | TOut o => v = ZVoid /\ w' = Scene (s_app w) (s_in w) (<[o := []]> (s_out w))
  | TWrite o x => v = ZVoid /\ exists t l, s_out w !! o = Some t /\ full (texts w) x = Some l /\ w' = Scene (s_app w) (s_in w) (<[o := t ++ l]> (s_out w))
  | TPut o c => v = ZVoid /\ exists t, s_out w !! o = Some t /\ w' = Scene (s_app w) (s_in w) (<[o := t ++ [c]]> (s_out w))
  | TShow o => w' = w /\ exists t, s_out w !! o = Some t /\ v = ZText t
  | TBack i o => v = ZVoid /\ exists t, s_out w !! o = Some t /\ w' = Scene (s_app w) (<[i := Open t]> (s_in w)) (s_out w)
  end.
(** What out_of_range leaves behind, and when it comes. *)
Definition trange (lk : MfSpec.luck) (cap : Z) (c : tcall) (w w' : scene) : Prop :=
  match c with TApp c => exists a, arange ustep mm lk cap c (s_app w) a /\ w' = with_app w a | _ => False end.
(** What bad_alloc may leave behind: reading may stop after a part of the text, and loses one character then. *)
Definition tfail (lk : MfSpec.luck) (c : tcall) (w w' : scene) : Prop :=
  match c with
  | TApp c => exists a, afail mm lk c (s_app w) a /\ w' = with_app w a
  | TRead line i x => w' = w \/ exists st l1 b l2 st' f, s_in w !! i = Some st /\ reads line st (l1 ++ b :: l2) st' f /\ w' = with_text w x l1 i (Open (f l2))
  | _ => False
  end.
(** Nothing but what a call mentions is different in [w']. *)
Definition t_in (c : tcall) : list positive := match c with TIn i _ | TRead _ i _ | TBack i _ => [i] | _ => [] end.
Definition t_out (c : tcall) : list positive := match c with TOut o | TWrite o _ | TPut o _ => [o] | _ => [] end.
Definition t_apart (c : tcall) (w w' : scene) : Prop :=
  match c with
  | TApp c => a_apart el c (s_app w) (s_app w')
  | TRead _ _ x => w_maps (w_lib (s_app w')) = w_maps (w_lib (s_app w)) /\ w_lists (w_lib (s_app w')) = w_lists (w_lib (s_app w)) /\
      w_cur (s_app w') = w_cur (s_app w) /\ w_disk (s_app w') = w_disk (s_app w) /\ forall y, y <> x -> texts w' !! y = texts w !! y
  | _ => s_app w' = s_app w
  end /\ (forall i, i ∉ t_in c -> s_in w' !! i = s_in w !! i) /\ (forall o, o ∉ t_out c -> s_out w' !! o = s_out w !! o).
End Spec.
