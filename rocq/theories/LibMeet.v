(** What it means for the model of programs to implement LibSpec. *)
From stdpp Require Import gmap.
From Verif Require Import RcaSpec RcaModel RcaExec RcaRel RcaMeet AlgModel HashModel HsModel PtSpec PtModel PtMeet LibSpec LibModel.
Open Scope Z_scope.

Section Meet.
Variable d : desc Z.
Variable mdiff : Z -> Z -> Z.
Variable grow : Z -> Z -> option Z.
Variable el : positive -> nat -> positive.
Variable upper : Z -> Z.
Variable junk : Z -> Z.

(** The memory holds the tables, arrays and Strings of [w]. *)
Definition lrel (q : lmem) (w : world) : Prop :=
  prel d (m_pt q) (w_maps w) (w_strs w) /\ m_lists q = w_lists w /\ m_blocks q = w_lost w.
(** Results agree; unspecified elements may have any value. *)
Definition lout_le (o o' : lout) : Prop := match o, o' with LOut v, LOut v' => pout_le v v' | _, _ => o = o' end.
(** Memory is refused to this call, or can be: [n] characters are more than there may be memory for. *)
Definition lshort (c : lcall) (tr : need_of) (w : world) : Prop :=
  let b := w_strs w in
  match c with
  | LPt c => short d c (n_pt tr) (w_maps w) b
  | LPlus r x y => exists sx sy, full b x = Some sx /\ full b y = Some sy /\ no_memory d (zlen sx + zlen sy + 2)
  | LTimes r x n => exists sx, full b x = Some sx /\ no_memory d (zlen sx * n + 2)
  | LSub r x y z limit => exists sx sy sz t, full b x = Some sx /\ full b y = Some sy /\ full b z = Some sz /\
      replaced sy sz (if 0 <? limit then Some limit else None) sx t /\ no_memory d (Z.max (zlen sx) (zlen t) + 2)
  | LSubst r x i => exists m sx l, w_maps w !! i = Some m /\ full b x = Some sx /\ Permutation l (map_to_list m) /\
      forall K, (forall l1 l2 t, l = l1 ++ l2 -> in_turn l1 sx t -> zlen t + 2 <= K) -> no_memory d K
  | LIfind x y | LRifind x y _ => exists sx sy, full b x = Some sx /\ full b y = Some sy /\ no_memory d (Z.max (zlen sx) (zlen sy) + 2)
  | LSlice _ x start len y => exists sx sy, full b x = Some sx /\ full b y = Some sy /\ no_memory d (Z.max (zlen sx) (start + zlen (upto len sy)) + 2)
  | LSliceOf x start len y start' len' => exists sx sy, full b x = Some sx /\ full b y = Some sy /\
      no_memory d (Z.max (zlen sx) (start + zlen (upto len (sp_slice sy start' len'))) + 2)
  | LEncode r x => exists l, full b x = Some l /\ no_memory d (zlen (enc64 std_alpha l) + 2)
  | LDecode r x => exists l, full b x = Some (enc64 std_alpha l) /\ no_memory d (zlen l + 2)
  | LSplit _ _ _ _ => no_memory d 3 \/ exists k, n_grow tr k = true
  | LJoin r j y quoted => exists n sy ss, w_lists w !! j = Some n /\ full b y = Some sy /\ texts_of b (elems_of el j n) ss /\
      no_memory d (zlen ss * zlen sy + (if quoted then zlen ss * 2 else 0) + total ss + 2)
  | LPush _ j _ => exists n, w_lists w !! j = Some n /\ n_grow tr n = true
  | LNewsplit _ _ _ | LAsk _ _ _ | LMake _ _ _ | LCount _ | LFree _ | LArr _ | LPop _ _ | LElem _ _ _ => False
  end.
(** What a call has to do. *)
Definition ldoes (c : lcall) (tr : need_of) (q : lmem) (w : world) : Prop :=
  match lexec d mdiff grow el upper junk c tr q with
  | Ok v q' => exists w' v', lpost (step d) el upper c w v' w' /\ lout_le v' v /\ lrel q' w'
  | Exn OutOfRange q' => exists w', lrange (step d) c w w' /\ lrel q' w'
  | Exn BadAlloc q' => lshort c tr w /\ exists w', lfail c w w' /\ lrel q' w'
  | _ => False
  end.

(** Observations allowed for a program: anything from where a call lacks what it needs. *)
Fixpoint lallows (w : world) (prog : list (lcall * need_of)) (os : list lobs) {struct prog} : Prop :=
  match prog with
  | [] => os = []
  | (c, tr) :: prog' =>
    lpre (step d) el upper c w ->
    match os with
    | YRet v :: os' => exists v' w', lpost (step d) el upper c w v' w' /\ lout_le v' v /\ lallows w' prog' os'
    | YThrow OutOfRange :: os' => exists w', lrange (step d) c w w' /\ lallows w' prog' os'
    | YThrow BadAlloc :: os' => lshort c tr w /\ exists w', lfail c w w' /\ lallows w' prog' os'
    | _ => False
    end
  end.
End Meet.
