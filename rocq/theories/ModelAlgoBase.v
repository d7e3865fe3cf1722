(** Common pieces of the models of /repo/src/algorithms. *)
From Verif Require Import Base ModelLil ModelVec ModelHelpers ModelViews.

(** [while (cond) body], with a bound on the number of iterations: [Ok None] means that the
    loop has not ended after [n] tests of the condition. *)
Fixpoint mwhile {S : Type} (n : nat) (cond : S -> bool) (body : S -> res S) (s : S)
  : res (option S) :=
  match n with
  | O => Ok None
  | S n' => if cond s then s' <- body s ;; mwhile n' cond body s' else Ok (Some s)
  end.

(** The same type on both sides of a conversion. *)
Definition idc {T : Type} (v : T) : T := v.

(** [NoMask] arguments; the mask's scalar type is irrelevant. *)
Definition vnomask : mask (bvec bool) := NoMask.
Definition mnomask : mask (lil bool) := NoMask.
Definition btrue (b : bool) : bool := b.

(** Values used as flags by masks and logical operators. *)
Definition ntrue (n : nat) : bool := negb (n =? 0).
Definition ztrue (z : Z) : bool := negb (z =? 0)%Z.

(** [grb::Min], algebra.hpp:289-293, on indices and on integers. *)
Definition nmin (a b : nat) : nat := if a <? b then a else b.
Definition zmin (a b : Z) : Z := if (a <? b)%Z then a else b.
Definition zmax (a b : Z) : Z := if (a <? b)%Z then b else a.

(** [grb::Vector<IndexType> index_ramp(N); for i < N: index_ramp.setElement(i, i)],
    bfs.hpp:65-69. *)
Definition index_ramp (n : nat) : res (bvec nat) :=
  w <- vec_new 0 n ;;
  mfor (seq 0 n) (fun i w => vec_setElement w i i) w.
