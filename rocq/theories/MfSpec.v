(** What a program with several Streams and Strings and named files relies on: Streams and Strings as in MstSpec, and
    the files are a finite map from names to bytes. Nothing here refers to the model. *)
From Verif Require Export MstSpec.
Open Scope Z_scope.

Notation files := (@gmap (list Z) (@list.list_eq_dec Z numbers.Z.eq_dec) (@countable.list_countable Z numbers.Z.eq_dec countable.Z_countable) (list Z)).
(** How a file call fares: all well; the file cannot be opened; a later system call fails; reading stops after [k]
    bytes without anybody being told, which is possible where there is no mmap. *)
Inductive luck := Good | Shut | Lost | Part (k : Z).
(** The names of files are Strings [y] of the program. [guess] is as in CStr of RcaSpec. *)
Inductive fop :=
| FDo (o : mop)
| FLoad (guess : bool) (k y : positive)             (* k.loadFile(y) *)
| FSave (guess : bool) (k y : positive)             (* k.writeFile(y) *)
| FOutside (n : list Z) (c : option (list Z)).      (* somebody else writes or removes a file *)
Inductive fres := FRet (a : astate Z) (m : gmap positive Z) (fs : files -> Prop) (o : mout) | FRange.

(** A String names the file that its bytes before the first NUL name. *)
Fixpoint file_name (w : list Z) : list Z :=
  match w with
  | [] => []
  | c :: w' => if c =? 0 then [] else c :: file_name w'
  end.
(** The bytes that can be read. *)
Definition readable (lk : luck) (f : list Z) : list Z := match lk with Part k => ztake k f | _ => f end.
(** The names of Streams and Strings, and the names of files, that a call mentions. *)
Definition finvolved (o : fop) : list positive :=
  match o with
  | FDo o => involved o
  | FLoad _ k y | FSave _ k y => [k; y]
  | FOutside _ _ => []
  end.
Definition ftouches (o : fop) (a : astate Z) : option (list Z) :=
  match o with
  | FSave _ _ y => match text a y with Some (_, w) => Some (file_name w) | None => None end
  | FOutside n _ => Some n
  | _ => None
  end.

Section Spec.
Variable ustep : op Z -> astate Z -> option (sres Z).
Variable t : positive.
(** Whether files are read through mmap. *)
Variable mm : bool.

Definition fstep (lk : luck) (cap : Z) (o : fop) (a : astate Z) (m : gmap positive Z) (fs : files) : option fres :=
  match o with
  | FDo o =>
    match mstep ustep t cap o a m with
    | Some (MRet a' m' v) => Some (FRet a' m' (eq fs) v)
    | Some MRange => Some FRange
    | None => None
    end
  | FLoad _ k y =>
    match strm a m k, text a y with
    | Some _, Some (true, w) =>
      need (plain t m y)
        match fs !! file_name w, lk with
        | None, _ | _, Shut => Some (FRet a m (eq fs) (MInt 1))
        | Some f, _ =>
          let gives l r := Some (FRet (<[k := str_ true l]> a) (<[k := 0]> m) (eq fs) (MInt r)) in
          if match lk with Lost => true | _ => mm && (zlen f =? 0) end then gives [] 1 else gives (readable lk f) 0
        end
    | _, _ => None
    end
  | FSave _ k y =>
    match strm a m k, text a y with
    | Some (_, v, _), Some (true, w) =>
      need (plain t m y)
        match lk with
        | Shut => Some (FRet a m (eq fs) (MInt 1))
        | Good => Some (FRet a m (eq (<[file_name w := v]> fs)) (MInt 0))
        | _ => Some (FRet a m (fun g => exists f, zlen f <= zlen v /\ g = <[file_name w := f]> fs) (MInt 1))
        end
    | _, _ => None
    end
  | FOutside n c =>
    match c with
    | Some l => need (zlen l <? W63) (Some (FRet a m (eq (<[n := l]> fs)) MNone))
    | None => Some (FRet a m (eq (delete n fs)) MNone)
    end
  end.

(** What bad_alloc may leave behind. Loading: blocks of 1024 bytes that had been read, or nothing; the cursor is behind
    the blocks. *)
Inductive ffail (lk : luck) (a : astate Z) (m : gmap positive Z) (fs : files) : fop -> astate Z -> gmap positive Z -> Prop :=
| ff_do o a' m' : mfail a m o a' m' -> ffail lk a m fs (FDo o) a' m'
| ff_load g k y w f j v : text a y = Some (true, w) -> fs !! file_name w = Some f -> lk <> Shut -> (lk = Lost -> mm = true) -> 0 <= j -> (mm = true -> j = 0) ->
    (v = ztake (1024 * j) (readable lk f) \/ v = []) ->
    ffail lk a m fs (FLoad g k y) (<[k := str_ true v]> a) (<[k := zlen (ztake (1024 * j) (readable lk f))]> m).
End Spec.
