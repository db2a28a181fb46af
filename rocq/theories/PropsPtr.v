(** C58: references, pointers and iterators stay valid while their array is left alone. *)
From Coq Require Import Lia.
From Verif Require Import RcaSpec RcaModel RcaExec RcaOwn RcaMeet RcaEx PtrSpec PtrProof.
Open Scope Z_scope.
Ltac run := vm_compute; reflexivity.
Ltac here := lazymatch goal with
  | |- _ /\ _ => split; here
  | |- reached _ _ _ => apply run_reached
  | |- wf_desc sdesc => apply sdesc_wf
  | |- Forall _ _ => repeat constructor; cbn; intuition discriminate
  | _ => run
  end.
(** String 1 and its copies 2 and 3, [3] a slice of it; 4 another. *)
Definition s0 := st sdesc prog_s. Definition a0 := av sdesc prog_s.
(** A program that uses 1 and changes the others. *)
Definition busy : list (op Z) := [HashOf 1; CtorCopy 7 1; Write 7 1 88; Write 3 0 89; AppendN false 4 1 npos; AssignCopy 2 4; InsertAll false 2 3 1; Destroy 3; CStr false 2;
  Clear 7; AppendItem 7 5; Read 1 4; Swap 2 7; PopBack 1; StrDropFront 1 1; At 1 50; AssignMove 4 2; Destroy 2; Destroy 4; Destroy 7].
Definition p1 := match ptr_to 1 3 s0 with Ok p _ => p | _ => Ptr 1 0 0 end.

(** C58: a pointer to an element of [x]. *)
Theorem C58_points : forall (T : Type) (d : desc T) (s : state T) a x r v i e, wf_desc d -> reached d s a -> a !! x = Some (AVal r v) -> znth i v = Some (Some e) ->
  exists p, ptr_to x i s = Ok p s /\ ptr_read p s = Ok e s.
Proof. exact @points. Qed.
Print Assumptions C58_points.
Example C58_points_ex : wf_desc sdesc /\ reached sdesc s0 a0 /\ a0 !! 1%positive = Some (AVal true (map Some hello)) /\ znth 3 (map Some hello) = Some (Some 108) /\
  (match ptr_read p1 s0 with Ok v _ => v | _ => 0 end) = 108.
Proof. here. Qed.

(** C58: it stays valid, and keeps reading the same element, while a program does anything whatever to other objects - copies of [x] included -
    and to [x] only reads it, copies it and takes elements off its ends; also if calls throw. *)
Theorem C58_pointers_stay : forall (T : Type) (d : desc T) ops (s : state T) a x i p e s', wf_desc d -> reached d s a -> ptr_to x i s = Ok p s -> ptr_read p s = Ok e s ->
  Forall (fun o => ~ disturbs o x) ops -> goes d ops s = Some s' -> ptr_read p s' = Ok e s'.
Proof. exact @pointers_stay. Qed.
Print Assumptions C58_pointers_stay.
Example C58_pointers_stay_ex : wf_desc sdesc /\ reached sdesc s0 a0 /\ (match ptr_to 1 3 s0 with Ok p _ => p_idx p | _ => -1 end) = 3 /\
  Forall (fun o => ~ disturbs o 1%positive) busy /\
  (match goes sdesc busy s0 with Some s => match ptr_read p1 s with Ok v _ => v | _ => 0 end | None => -1 end) = 108.
Proof. here. Qed.

(** C58: after reserve(n) on an unshared [x], appending up to length n neither invalidates pointers to the elements nor tries an allocation. *)
Theorem C58_reserved : forall (T : Type) (d : desc T) (s : state T) a x r v n out s1 i p e vs, wf_desc d -> reached d s a -> a !! x = Some (AVal r v) ->
  zlen v + zlen vs <= n < npos -> is_shared x s = Ok false s ->
  exec d (ReserveIfOwn x n) s = Ok out s1 -> 0 <= i < zlen v -> ptr_to x i s1 = Ok p s1 -> ptr_read p s1 = Ok e s1 ->
  exists s2, goes d (map (AppendItem x) vs) s1 = Some s2 /\ ptr_read p s2 = Ok e s2 /\ st_tick s2 = st_tick s1.
Proof. exact @reserved_room. Qed.
Print Assumptions C58_reserved.
Example C58_reserved_ex : wf_desc sdesc /\ reached sdesc s0 a0 /\ a0 !! 4%positive = Some (AVal true (map Some world)) /\ is_shared 4 s0 = Ok false s0 /\
  (match exec sdesc (ReserveIfOwn 4 20) s0 with Ok _ s1 => match ptr_to 4 2 s1 with Ok p _ => match goes sdesc (map (AppendItem 4) (hello ++ hello)) s1 with
    Some s2 => match ptr_read p s2 with Ok v _ => (v, Nat.eqb (st_tick s2) (st_tick s1)) | _ => (0, false) end | None => (0, false) end | _ => (0, false) end | _ => (0, false) end) = (114, true).
Proof. here. Qed.

(** C58: c_str() is a const member but counts as a disturbance. After it, pointers obtained before may dangle though only const members of [x] were called. *)
Theorem C58_c_str_refuted : exists s a p v s', reached sdesc s a /\ ptr_to 1 0 s = Ok p s /\ ptr_read p s = Ok v s /\
  goes sdesc [CStr false 1; Destroy 2; Destroy 3] s = Some s' /\ content_is 1 s' [104; 101; 108; 108] /\ ptr_read p s' = Undef UbFreed.
Proof. exists (st sdesc (prog_s ++ [PopBack 1])), (av sdesc (prog_s ++ [PopBack 1])). do 3 eexists. here. Qed.
Print Assumptions C58_c_str_refuted.
(** C58: appending without reserve() may leave them dangling. *)
Theorem C58_append_refuted : exists s a p v s', reached sdesc s a /\ is_shared 4 s = Ok false s /\ ptr_to 4 0 s = Ok p s /\ ptr_read p s = Ok v s /\
  goes sdesc [AppendItem 4 63; AppendItem 4 63] s = Some s' /\ ptr_read p s' = Undef UbFreed.
Proof. exists s0, a0. do 3 eexists. here. Qed.
Print Assumptions C58_append_refuted.
