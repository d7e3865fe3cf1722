(** Graphs given by lists. *)
From Verif Require Import Base.

(** There is an edge where the list has a pair. *)
Definition listed (es : list (nat * nat)) (u v : nat) : bool :=
  existsb (fun '(i, j) => (i =? u) && (j =? v)) es.

(** The weight of the last entry for an edge counts. *)
Definition last_weight (ts : list (nat * nat * Z)) (u v : nat) : option Z :=
  fold_left (fun w '(i, j, x) => if (i =? u) && (j =? v) then Some x else w) ts None.
