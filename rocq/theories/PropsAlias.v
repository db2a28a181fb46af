(** C70: inserting, appending or writing an item that is an element of an array, passed by reference. *)
From Coq Require Import Lia.
From Verif Require Import RcaSpec RcaModel RcaExec RcaOwn RcaMeet RcaEx AliasModel AliasSpec AliasProof.
Open Scope Z_scope.
Ltac run := vm_compute; reflexivity.
Ltac here := lazymatch goal with
  | |- _ /\ _ => split; here
  | |- reached _ _ _ => apply run_reached
  | |- wf_desc sdesc => apply sdesc_wf
  | |- wf_desc pdesc => apply pdesc_wf
  | |- ~ _ => vm_compute; discriminate
  | |- _ \/ _ => left; here
  | |- _ <= _ => vm_compute; discriminate
  | _ => run
  end.
(** String 1 and its copies 2 and 3, [3] a slice of it; 4 another. *)
Definition s0 := st sdesc prog_s. Definition a0 := av sdesc prog_s.
(** A String built from a list, and one with its first character removed. *)
Definition abc : list (op Z) := [CtorList 1 [97; 98; 99]].
Definition bc : list (op Z) := [CtorList 1 [97; 98; 99]; StrDropFront 1 1].
(** An Array with room. *)
Definition roomy : list (op Z) := [CtorList 1 [1; 2; 3]; ReserveIfOwn 1 8].
Definition p_of {T} (s : state T) x i := match ptr_to x i s with Ok p _ => p | _ => Ptr 1 0 0 end.
Definition o_of {T} (s : state T) x := match st_env s !! x with Some o => o | None => obj_empty end.

(** C70: a reference to an element of another array - a copy or slice of this one included - or to an element of this one while its buffer is shared, is the element. *)
Theorem C70_elsewhere : forall (T : Type) (d : desc T) (s : state T) a x y r v i p e pos, wf_desc d -> reached d s a -> a !! y = Some (AVal r v) -> znth i v = Some (Some e) ->
  ptr_to y i s = Ok p s -> y <> x \/ is_shared x s = Ok true s ->
  insert_ref d x pos p s = insert_item d x pos e s /\ append_ref d x p s = append_item d x e s /\
  write_ref d x pos p s = write d x pos e s /\ replace_ref d x pos p s = replace_item d x pos e s.
Proof. exact @alias_elsewhere. Qed.
Print Assumptions C70_elsewhere.
Example C70_elsewhere_ex : wf_desc sdesc /\ reached sdesc s0 a0 /\ a0 !! 3%positive = Some (AVal true (map Some [101; 108; 108])) /\ znth 0 (map Some [101; 108; 108]) = Some (Some 101) /\
  ptr_to 3 0 s0 = Ok (p_of s0 3 0) s0 /\ is_shared 1 s0 = Ok true s0 /\ is_shared 3 s0 = Ok true s0 /\
  content_is 3 (ok_state (insert_ref sdesc 3 1 (p_of s0 3 0) s0) st_init) [101; 101; 108; 108] /\
  content_is 1 (ok_state (write_ref sdesc 1 0 (p_of s0 3 0) s0) st_init) [101; 101; 108; 108; 111].
Proof. here. Qed.

(** C70: an Array may always be given one of its own elements to write or replace with; a String too, unless it was built without room for the NUL. *)
Theorem C70_overwrite : forall (T : Type) (d : desc T) (s : state T) a x r v i p e pos, wf_desc d -> reached d s a -> a !! x = Some (AVal r v) -> znth i v = Some (Some e) ->
  ptr_to x i s = Ok p s -> d_nul d = None \/ r = true ->
  write_ref d x pos p s = write d x pos e s /\ replace_ref d x pos p s = replace_item d x pos e s.
Proof. exact @alias_overwrite. Qed.
Print Assumptions C70_overwrite.
Example C70_overwrite_ex : wf_desc sdesc /\ reached sdesc s0 a0 /\ a0 !! 4%positive = Some (AVal true (map Some world)) /\ ptr_to 4 6 s0 = Ok (p_of s0 4 6) s0 /\
  content_is 4 (ok_state (write_ref sdesc 4 0 (p_of s0 4 6) s0) st_init) (33 :: tl world) /\
  d_nul pdesc = None /\ reached pdesc (st pdesc abc) (av pdesc abc) /\ is_shared 1 (st pdesc abc) = Ok false (st pdesc abc) /\
  content_is 1 (ok_state (replace_ref pdesc 1 0 (p_of (st pdesc abc) 1 2) (st pdesc abc)) st_init) [99; 98; 99].
Proof. here. Qed.

(** C70: with room behind the elements, appending an own element and inserting one behind itself is right; inserted before itself, it is the element before it. *)
Theorem C70_room : forall (T : Type) (d : desc T) (s : state T) a x r v i p e pos o c, wf_desc d -> reached d s a -> a !! x = Some (AVal r v) -> znth i v = Some (Some e) ->
  ptr_to x i s = Ok p s -> is_shared x s = Ok false s -> st_env s !! x = Some o -> capacity x s = Ok c s -> 0 <= pos < W64 -> o_off o + needs d (zlen v + 1) <= c ->
  append_ref d x p s = append_item d x e s /\
  (i <= pos -> insert_ref d x pos p s = insert_item d x pos e s) /\
  (pos < i -> forall e', znth (i - 1) v = Some (Some e') -> insert_ref d x pos p s = insert_item d x pos e' s).
Proof. exact @alias_room. Qed.
Print Assumptions C70_room.
Example C70_room_ex : wf_desc pdesc /\ reached pdesc (st pdesc roomy) (av pdesc roomy) /\ av pdesc roomy !! 1%positive = Some (AVal true (map Some [1; 2; 3])) /\
  ptr_to 1 2 (st pdesc roomy) = Ok (p_of (st pdesc roomy) 1 2) (st pdesc roomy) /\ is_shared 1 (st pdesc roomy) = Ok false (st pdesc roomy) /\
  st_env (st pdesc roomy) !! 1%positive = Some (o_of (st pdesc roomy) 1) /\ capacity 1 (st pdesc roomy) = Ok 8 (st pdesc roomy) /\ o_off (o_of (st pdesc roomy) 1) + needs pdesc 4 <= 8 /\
  content_is 1 (ok_state (append_ref pdesc 1 (p_of (st pdesc roomy) 1 2) (st pdesc roomy)) st_init) [1; 2; 3; 3].
Proof. here. Qed.

(** C70: in an array's own buffer, exactly: what insert() puts in for a reference to the [i]-th element ... *)
Theorem C70_insert : forall (T : Type) (d : desc T) (s : state T) a x r v i p e pos o c, wf_desc d -> reached d s a -> a !! x = Some (AVal r v) -> znth i v = Some (Some e) ->
  ptr_to x i s = Ok p s -> is_shared x s = Ok false s -> st_env s !! x = Some o -> capacity x s = Ok c s -> 0 <= pos < W64 ->
  match shifted d v (o_off o) c pos i with
  | Some (Some e') => insert_ref d x pos p s = insert_item d x pos e' s
  | Some None => True
  | None => match insert_item d x pos e s with
            | Ok _ _ => insert_ref d x pos p s = Undef UbFreed
            | Exn ex s' => insert_ref d x pos p s = Exn ex s'
            | _ => True
            end
  end.
Proof. exact @alias_insert. Qed.
Print Assumptions C70_insert.
Example C70_insert_ex : wf_desc pdesc /\ reached pdesc (st pdesc abc) (av pdesc abc) /\ av pdesc abc !! 1%positive = Some (AVal true (map Some [97; 98; 99])) /\
  is_shared 1 (st pdesc abc) = Ok false (st pdesc abc) /\ capacity 1 (st pdesc abc) = Ok 3 (st pdesc abc) /\ shifted pdesc (map Some [97; 98; 99]) 0 3 3 0 = None /\
  shifted pdesc (map Some [1; 2; 3]) 0 8 0 2 = Some (Some 2) /\ shifted pdesc (map Some [98; 99]) 1 3 0 0 = Some (Some 98) /\ shifted pdesc (map Some [98; 99]) 1 3 0 1 = Some (Some 99).
Proof. here. Qed.

(** C70: ... and what write() does. *)
Theorem C70_write : forall (T : Type) (d : desc T) (s : state T) a x r v i p e pos o c, wf_desc d -> reached d s a -> a !! x = Some (AVal r v) -> znth i v = Some (Some e) ->
  ptr_to x i s = Ok p s -> is_shared x s = Ok false s -> st_env s !! x = Some o -> capacity x s = Ok c s ->
  match kept d v (o_off o) c (zlen v) i with
  | Some (Some e') => write_ref d x pos p s = write d x pos e' s
  | Some None => True
  | None => match get_own_copy d x s with
            | Ok _ _ => write_ref d x pos p s = Undef UbFreed
            | Exn ex s' => write_ref d x pos p s = Exn ex s'
            | _ => True
            end
  end.
Proof. exact @alias_write. Qed.
Print Assumptions C70_write.
Example C70_write_ex : wf_desc sdesc /\ reached sdesc (st sdesc bc) (av sdesc bc) /\ ptr_to 1 1 (st sdesc bc) = Ok (p_of (st sdesc bc) 1 1) (st sdesc bc) /\
  is_shared 1 (st sdesc bc) = Ok false (st sdesc bc) /\ capacity 1 (st sdesc bc) = Ok 3 (st sdesc bc) /\ o_off (o_of (st sdesc bc) 1) = 1 /\
  kept sdesc (map Some [98; 99]) 1 3 2 1 = Some (Some 0) /\ kept sdesc (map Some [97; 98; 99]) 0 3 3 0 = None.
Proof. here. Qed.

(** C70: String s{'a','b','c'}; s[0] = s.back() reads released memory. *)
Theorem C70_write_refuted : exists s a p, reached sdesc s a /\ content_is 1 s [97; 98; 99] /\ ptr_to 1 2 s = Ok p s /\ write_ref sdesc 1 0 p s = Undef UbFreed.
Proof. exists (st sdesc abc), (av sdesc abc). eexists. here. Qed.
Print Assumptions C70_write_refuted.
(** C70: the same after s += 1 writes a NUL. *)
Theorem C70_nul_refuted : exists s a p s', reached sdesc s a /\ content_is 1 s [98; 99] /\ ptr_to 1 1 s = Ok p s /\ write_ref sdesc 1 0 p s = Ok tt s' /\ content_is 1 s' [0; 99].
Proof. exists (st sdesc bc), (av sdesc bc). do 2 eexists. here. Qed.
Print Assumptions C70_nul_refuted.
(** C70: a.push_back(a[0]) on a full Array reads released memory. *)
Theorem C70_append_refuted : exists s a p, reached pdesc s a /\ content_is 1 s [97; 98; 99] /\ ptr_to 1 0 s = Ok p s /\ append_ref pdesc 1 p s = Undef UbFreed.
Proof. exists (st pdesc abc), (av pdesc abc). eexists. here. Qed.
Print Assumptions C70_append_refuted.
