(** Which item a reference to an element of the array itself stands for. *)
From Verif Require Import RcaModel.
Open Scope Z_scope.

Section Spec.
Context {T : Type} (d : desc T).
(** Elements that must fit behind the offset to hold [n] of them: a String needs one more. *)
Definition needs (n : Z) : Z := match d_nul d with Some _ => if 0 <? n then n + 1 else n | None => n end.
(** The array holds [v], at offset [off] of a buffer for [cap] elements. [kept n i]: what the [i]-th element's old place holds when there is room for [n],
    [shifted n pos i]: when, moreover, the elements from [pos] on have moved up by one.
    [None]: the place is gone; [Some None]: it holds no value. *)
Definition kept (v : list (option T)) (off cap n i : Z) : option (option T) :=
  if cap <? needs n then None
  else if off + needs n <=? cap then znth i v
  else if off + i <? zlen v then znth (off + i) v
  else if d_class d then Some None
  else match d_nul d with
       | Some z => if off + i =? cap - 1 then Some (Some z) else znth i v
       | None => znth i v
       end.
Definition shifted (v : list (option T)) (off cap pos i : Z) : option (option T) :=
  let n := zlen v + 1 in
  let k := if off + needs n <=? cap then i else off + i in
  if cap <? needs n then None
  else if (pos <? k) && (k <=? zlen v) then znth (k - 1) v
  else kept v off cap n i.
End Spec.
