(** Betweenness centrality, independently of the model: the shortest paths are listed and counted. *)
From Coq Require Import QArith Qcanon.
From Verif Require Import Base SpecRank.
Local Open Scope nat_scope.

Section Paths.
Context (N : nat) (edge : nat -> nat -> bool).

(** The walks of [k] edges that start at [u], each the list of its vertices. *)
Fixpoint walks (k u : nat) : list (list nat) :=
  match k with
  | O => [[u]]
  | S j => flat_map (fun v => if edge u v then map (cons u) (walks j v) else []) (seq 0 N)
  end.
(** Those that end at [t]. *)
Definition walks_to (k u t : nat) : list (list nat) := filter (fun p => last p u =? t) (walks k u).
(** The shortest ones: those of the least number of edges for which there is any. *)
Definition shortest_paths (u t : nat) : list (list nat) :=
  match find (fun k => negb (length (walks_to k u t) =? 0)) (seq 0 N) with
  | Some k => walks_to k u t
  | None => []
  end.

(** The share of the shortest paths from [s] to [t] that have [v] as an inner vertex. *)
Definition pair_dependency (s t v : nat) : Qc :=
  if (v =? s) || (v =? t) then 0%Qc
  else (nat_q (length (filter (existsb (Nat.eqb v)) (shortest_paths s t))) /
        nat_q (length (shortest_paths s t)))%Qc.
Definition dependency (s v : nat) : Qc := qsum N (fun t => pair_dependency s t v).
(** The betweenness centrality of [v] as seen from a list of sources. *)
Definition betweenness (sources : list nat) (v : nat) : Qc :=
  fold_right Qcplus 0%Qc (map (fun s => dependency s v) sources).

(** No shortest path from a source has more than [d] edges. *)
Definition shallow (d : nat) (sources : list nat) : Prop :=
  forall s t p, In s sources -> t < N -> In p (shortest_paths s t) -> length p <= S d.

(** The path [p] goes from [u] directly to [v]. *)
Fixpoint uses_edge (u v : nat) (p : list nat) : bool :=
  match p with
  | x :: ((y :: _) as q) => ((x =? u) && (y =? v)) || uses_edge u v q
  | _ => false
  end.
(** The number of shortest paths between all pairs of vertices that use the edge. *)
Definition edge_uses (u v : nat) : nat :=
  list_sum (map (fun s => list_sum (map (fun t =>
    length (filter (uses_edge u v) (shortest_paths s t))) (seq 0 N))) (seq 0 N)).
End Paths.
