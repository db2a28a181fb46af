(** What a text put together from pieces is. *)
From Verif Require Import Base RcaSpec RcaModel BuildModel.
Open Scope Z_scope.

(** Text [w] of a piece: the first n elements of another array, or of the memory at a pointer (up to the NUL if n is npos). *)
Definition piece_text {T} (d : desc T) (a : gmap positive (aval T)) (x : var) (p : piece T) (w : list (option T)) : Prop :=
  match p with
  | Copied y n => y <> x /\ 0 <= n <= npos /\ exists r u, a !! y = Some (AVal r u) /\ w = ztake n u
  | Chars mem n => exists z, d_nul d = Some z /\
      (0 <= n < npos /\ n <= zlen mem /\ w = map Some (ztake n mem) \/ n = npos /\ exists t, cstr_of (fun c => d_eqb d c z) mem = Some t /\ w = map Some t)
  end.
(** A piece that is all of another array, with its length given, is not appended to an empty array: the other array is assigned (1070-1073). *)
Definition counted {T} (a : gmap positive (aval T)) (p : piece T) : Prop :=
  match p with Copied y n => 0 < n /\ exists r u, a !! y = Some (AVal r u) /\ n = zlen u | Chars _ _ => False end.
(** So a piece is appended to contents [v]. *)
Definition joins {T} (a : gmap positive (aval T)) (v : list (option T)) (p : piece T) : Prop := 0 < zlen v \/ ~ counted a p.
