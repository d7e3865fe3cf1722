(** The graphs in the files of the demonstration programs. *)
From Verif Require Import Base ModelLil Spec SpecTruss.
Local Open Scope nat_scope.

(** The edges of a file of pairs. *)
Definition file_edge (lines : list (nat * nat)) (u v : nat) : bool :=
  negb (u =? v) && existsb (fun '(a, b) => (a =? u) && (b =? v)) lines.

(** The weight of the last line of the file for the edge from vertex [i + 1] to vertex [j + 1]. *)
Definition file_weight (lines : list (Z * Z * Z)) (i j : nat) : option Z :=
  match rev (map snd (filter (fun '(s, d, _) => (s =? Z.of_nat (S i))%Z && (d =? Z.of_nat (S j))%Z) lines)) with
  | [] => None
  | w :: _ => Some w
  end.

(** [F] is the incidence matrix of the [k]-truss of the graph of [E], its edges in the same order. *)
Definition truss_of (N : nat) (E : lil Z) (k : nat) (F : lil Z) : Prop :=
  incidence N F /\ some_rows F E /\ largest_supported N (k - 2) (joined F) (joined E).
