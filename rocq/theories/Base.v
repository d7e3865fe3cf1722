(** Common vocabulary of the model: outcomes, exceptions, loops, container
    accesses.  No proofs here. *)
From Coq Require Export List Arith ZArith Bool.
Export ListNotations.

(** Exceptions thrown by the library.
    Models /repo/src/graphblas/exceptions.hpp:46-184 (messages dropped). *)
Inductive exn : Type :=
| DimensionException
| IndexOutOfBoundsException
| InvalidIndexException
| InvalidValueException
| NoValueException
| PanicException.

(** Outcome of a C++ call: normal return, exception, or undefined behaviour
    (an access outside a container, use of an unset value, ...). *)
Inductive res (A : Type) : Type :=
| Ok (a : A)
| Throw (e : exn)
| UB.
Arguments Ok {A} a.
Arguments Throw {A} e.
Arguments UB {A}.

Definition bind {A B : Type} (x : res A) (f : A -> res B) : res B :=
  match x with
  | Ok a => f a
  | Throw e => Throw e
  | UB => UB
  end.

Declare Scope res_scope.
Delimit Scope res_scope with res.
Notation "x <- e1 ;; e2" := (bind e1 (fun x => e2))
  (at level 61, e1 at next level, right associativity) : res_scope.
Open Scope res_scope.

Definition res_map {A B : Type} (f : A -> B) (x : res A) : res B :=
  a <- x ;; Ok (f a).

(** [if (cond) throw e;] *)
Definition throw_if (b : bool) (e : exn) : res unit :=
  if b then Throw e else Ok tt.

(** A [for] loop whose body updates a state [S] and may throw. *)
Fixpoint mfor {I S : Type} (l : list I) (body : I -> S -> res S) (s : S) : res S :=
  match l with
  | [] => Ok s
  | i :: l' => s' <- body i s ;; mfor l' body s'
  end.

(** [vec[i]] on a [std::vector]: out of range is undefined behaviour. *)
Definition vat {A : Type} (l : list A) (i : nat) : res A :=
  match nth_error l i with
  | Some a => Ok a
  | None => UB
  end.

(** [l] with position [i] replaced (unchanged when out of range). *)
Fixpoint upd {A : Type} (l : list A) (i : nat) (a : A) : list A :=
  match l, i with
  | [], _ => []
  | _ :: l', O => a :: l'
  | x :: l', S i' => x :: upd l' i' a
  end.

(** [vec[i] = a]: out of range is undefined behaviour. *)
Definition vset {A : Type} (l : list A) (i : nat) (a : A) : res (list A) :=
  if i <? length l then Ok (upd l i a) else UB.

(** [vec.resize(n, d)]. *)
Definition vresize {A : Type} (l : list A) (n : nat) (d : A) : list A :=
  firstn n l ++ repeat d (n - length l).

(** Output mode, /repo/src/graphblas/types.hpp:47-51. *)
Inductive outmode : Type := MERGE | REPLACE.
