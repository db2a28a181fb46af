(** The two builds of the library, with and without NDEBUG, and programs that keep to the contract. *)
From Verif Require Import RcaSpec RcaModel RcaExec RcaMeet.
Open Scope Z_scope.

Section Dbg.
Context {T : Type}.
Implicit Types (d : desc T) (a : astate T) (o : op T).

(** The same class in a build that checks assertions, or in one that does not. *)
Definition build (b : bool) d : desc T := Desc (d_class d) (d_def d) (d_nul d) (d_hash d) (d_eqb d) (d_grow d) (d_oom d) b.

(** A program that keeps to the contract: whatever calls did before, out of memory or not, each call is one the
    specification says something about. *)
Fixpoint keeps d (ops : list (op T)) a : Prop :=
  match ops with
  | [] => True
  | o :: ops' =>
    match step d o a with
    | None => False
    | Some SRange => keeps d ops' a
    | Some (SRet a' _) => keeps d ops' a' /\ forall x, subject o = Some x -> no_memory d (asks o a' x) ->
        keeps d ops' a /\ (target o = Some x -> keeps d ops' (<[x := AVal true []]> a))
    end
  end.
End Dbg.
