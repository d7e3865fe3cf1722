(** C186: the demonstration programs that search a graph print the levels and the distances. *)
From Coq Require Import Lia.
From Verif Require Import Base ModelLil ModelVec ModelSearchDemo Spec SpecGraph SpecPaths SpecMetrics SpecSearchDemo
  ProofSearchDemo.
Local Open Scope nat_scope.

(** Row [r] of the result has, for every vertex that [r] reaches, one more than its distance from [r]. *)
Theorem C186_masked_mxm_homework :
  forall (N n : nat) (es : list (nat * nat)),
    N <> 0 -> N < n -> Forall (fun '(i, j) => i < N /\ j < N) es ->
    exists l, masked_mxm_homework n N es = Ok (Some l) /\ wfm l /\ nrows l = N /\ ncols l = N /\
      forall r v x, r < N -> v < N ->
        (mget l r v = Some x <-> exists d, x = S d /\ at_distance (listed es) (eq r) d v).
Proof. intros. now apply masked_mxm_homework_ok. Qed.
Print Assumptions C186_masked_mxm_homework.

(** The parent of a vertex that is not a root is the least vertex from which a shortest walk enters it;
    [p] is for one root, row [r] of [P] for the root [r]. *)
Theorem C186_bfs_demo :
  forall (N n root : nat) (es : list (nat * nat)),
    N < n -> root < N -> Forall (fun '(i, j) => i < N /\ j < N) es ->
    exists p P, bfs_demo n N root es = Ok (Some p, Some P) /\
      (forall v q, v < N ->
        (vget p v = Some q <-> (v = root /\ q = root) \/ best_parent (listed es) (eq root) q v)) /\
      (forall r v q, r < N -> v < N ->
        (mget P r v = Some q <-> (v = r /\ q = r) \/ best_parent (listed es) (eq r) q v)).
Proof. intros. now apply bfs_demo_ok. Qed.
Print Assumptions C186_bfs_demo.

(** The two functions give the same levels. *)
Theorem C186_bfs_level_demo :
  forall (N n root : nat) (es : list (nat * nat)),
    N < n -> root < N -> Forall (fun '(i, j) => i < N /\ j < N) es ->
    exists l1 l2, bfs_level_demo n N root es = Ok (Some l1, Some l2) /\
      forall v x, v < N ->
        (mget l1 0 v = Some x <-> exists d, x = S d /\ at_distance (listed es) (eq root) d v) /\
        (mget l2 0 v = Some x <-> exists d, x = S d /\ at_distance (listed es) (eq root) d v).
Proof. intros. now apply bfs_level_demo_ok. Qed.
Print Assumptions C186_bfs_level_demo.

Theorem C186_sssp_demo :
  forall (N : nat) (ts : list (nat * nat * Z)),
    N <> 0 -> Forall (fun '(i, j, _) => i < N /\ j < N) ts -> no_negative_cycle (last_weight ts) ->
    exists d D, sssp_demo N ts = Ok (d, D) /\
      (forall v x, vget d v = Some x <-> distance (last_weight ts) 0 v x) /\
      (forall u v x, u < N -> (mget D u v = Some x <-> distance (last_weight ts) u v x)).
Proof. intros. now apply sssp_demo_ok. Qed.
Print Assumptions C186_sssp_demo.

(** The graph of the programs; vertex 7 is alone. *)
Definition sd_es : list (nat * nat) :=
  [(0, 3); (1, 3); (1, 6); (2, 4); (2, 5); (2, 6); (2, 8); (3, 0); (3, 1); (3, 4); (3, 6);
   (4, 2); (4, 3); (4, 8); (5, 2); (6, 1); (6, 2); (6, 3); (8, 2); (8, 4)].
Definition sd_ts : list (nat * nat * Z) := map (fun '(i, j) => (i, j, 1%Z)) sd_es.

Lemma sd_unit : forall u v x, last_weight sd_ts u v = Some x -> (0 <= x)%Z.
Proof.
  assert (X : forall u v ts a, Forall (fun '(_, _, x) => (0 <= x)%Z) ts -> (forall y, a = Some y -> (0 <= y)%Z) ->
    forall y, fold_left (fun w '(i, j, x) => if (i =? u) && (j =? v) then Some x else w) ts a = Some y -> (0 <= y)%Z).
  { intros u v. induction ts as [|[[i j] x] ts IH]; simpl; intros a F Ha; [exact Ha|].
    inversion F as [|? ? F1 F2]; subst. apply IH; [exact F2|].
    destruct (_ && _); [|exact Ha]. intros y Q. now injection Q as <-. }
  intros u v. apply (X u v sd_ts None); [|discriminate].
  unfold sd_ts, sd_es. simpl map. repeat (apply Forall_cons; [lia|]). apply Forall_nil.
Qed.

Example C186_example :
  Forall (fun '(i, j) => i < 9 /\ j < 9) sd_es /\ no_negative_cycle (last_weight sd_ts) /\
  match masked_mxm_homework 10 9 sd_es with
  | Ok (Some l) => map (mget l 3) (seq 0 9) =
      [Some 2; Some 2; Some 3; Some 1; Some 2; Some 4; Some 2; None; Some 3]
  | _ => False
  end /\
  match bfs_level_demo 10 9 3 sd_es with
  | Ok (Some l1, Some l2) => map (mget l1 0) (seq 0 9) = map (mget l2 0) (seq 0 9) /\
      map (mget l1 0) (seq 0 9) = [Some 2; Some 2; Some 3; Some 1; Some 2; Some 4; Some 2; None; Some 3]
  | _ => False
  end /\
  match bfs_demo 10 9 3 sd_es with
  | Ok (Some p, Some P) => map (vget p) (seq 0 9) = map (mget P 3) (seq 0 9) /\
      map (vget p) (seq 0 9) = [Some 3; Some 3; Some 4; Some 3; Some 3; Some 2; Some 3; None; Some 4]
  | _ => False
  end /\
  match sssp_demo 9 sd_ts with
  | Ok (d, D) => map (vget d) (seq 0 9) =
      [Some 0; Some 2; Some 3; Some 1; Some 2; Some 4; Some 2; None; Some 3]%Z /\
      map (mget D 7) (seq 0 9) = [None; None; None; None; None; None; None; Some 0%Z; None]
  | _ => False
  end.
Proof.
  split; [unfold sd_es; repeat (apply Forall_cons; [lia|]); apply Forall_nil|].
  split.
  { intros v k c. generalize v at 1. intros u H. induction H; [lia|].
    match goal with E : last_weight _ _ _ = Some _ |- _ => apply sd_unit in E; lia end. }
  vm_compute. repeat split.
Qed.

(** The matrix in the comment of masked_mxm_homework.cpp:140-149. *)
Example C186_homework_comment :
  match masked_mxm_homework 8 7
    [(0, 1); (0, 3); (1, 4); (1, 6); (2, 5); (3, 0); (3, 2); (3, 6); (4, 5); (5, 2); (6, 2); (6, 3); (6, 4)] with
  | Ok (Some l) => map (fun r => map (fun v => match mget l r v with Some x => x | None => 0 end) (seq 0 7)) (seq 0 7) =
      [[1; 2; 3; 2; 3; 4; 3];
       [4; 1; 3; 3; 2; 3; 2];
       [0; 0; 1; 0; 0; 2; 0];
       [2; 3; 2; 1; 3; 3; 2];
       [0; 0; 3; 0; 1; 2; 0];
       [0; 0; 2; 0; 0; 1; 0];
       [3; 4; 2; 2; 2; 3; 1]]
  | _ => False
  end.
Proof. vm_compute. reflexivity. Qed.
