(** Trusses over the built-in integer types and [bool]: C161, C162. *)
From Coq Require Import Lia ZArith.
From Verif Require Import Base ModelLil ModelVec ModelViews ModelAlgebra ModelInts ModelTruss ModelTrussTypes
  Spec SpecOps SpecGraph SpecTriangle SpecTruss SpecAlgebra SpecInts SpecRel ProofLil ProofTrussTypes ProofKtrussTypes PropTruss PropTriInts.

(** ** C161: within range.  [G'] and [E'] hold the values of [G] and [E] in the type [t]. *)
Theorem C161_k_truss2_int :
  forall (t : ctype) (N k n : nat) (G : lil Z) (G' : lil ival),
    integer_type t -> simple_graph N G -> mrel (exactly t 1) G G' -> 3 <= k -> (nvals G < Z.of_nat n)%Z ->
    (Z.of_nat N <= tmax t)%Z -> (Z.of_nat k - 2 <= tmax t)%Z ->
    exists (H : lil Z) (H' : lil ival),
      ik_truss2 t n G' (Z.of_nat k) = Ok (Some H') /\ mrel (exactly t 1) H H' /\ simple_graph N H /\
      largest_supported N (k - 2) (edge H) (edge G).
Proof.
  intros t N k n G G' Ht SG RG K Hn HN HK. destruct (C54_k_truss2 N k n G SG K Hn) as (H & E & SH & L).
  destruct (ik_truss2_run t Ht N k ltac:(lia) HN HK n G G' H SG RG E) as (H' & E' & R). eauto 6.
Qed.
Print Assumptions C161_k_truss2_int.

Theorem C161_k_truss_int :
  forall (t : ctype) (N k n : nat) (E : lil Z) (E' : lil ival),
    integer_type t -> incidence N E -> 0 < nrows E -> mrel (exactly t 1) E E' -> 2 <= k -> nrows E < n ->
    (Z.of_nat N <= tmax t)%Z -> (Z.of_nat k - 2 <= tmax t)%Z ->
    exists (H : lil Z) (H' : lil ival),
      ik_truss t n E' (Z.of_nat k) = Ok (Some H') /\ mrel (exactly t 1) H H' /\ incidence N H /\ some_rows H E /\
      largest_supported N (k - 2) (joined H) (joined E).
Proof.
  intros t N k n E E' Ht IE P RE K Hn HN HK. destruct (C63_k_truss N k n E IE P K Hn) as (H & X & IH & SR & L).
  destruct (ik_truss_run t Ht N k K HN HK n E E' H IE P RE X) as (H' & X' & R). eauto 8.
Qed.
Print Assumptions C161_k_truss_int.

(** The graphs of C54_example and C63_example over [uint8_t]. *)
Definition ei_o : ival := Ok 1%Z.
Definition ei_row (a b : nat) : list (nat * ival) := [(a, ei_o); (b, ei_o)].
Definition ei_E : lil ival := mkLil 5 5 10%Z [ei_row 0 1; ei_row 0 2; ei_row 3 4; ei_row 1 2; ei_row 0 3].
Example C161_example :
  let t := CInt false W8 in
  integer_type t /\ simple_graph 4 (e127_K 1%Z 4) /\ mrel (exactly t 1) (e127_K 1%Z 4) (e127_K ei_o 4) /\
  ik_truss2 t 15 (e127_K ei_o 4) 4 = Ok (Some (e127_K ei_o 4)) /\
  ik_truss2 t 15 (e127_K ei_o 4) 5 = Ok (Some (mkLil 4 4 0%Z [[]; []; []; []])) /\
  incidence 5 ek_E /\ mrel (exactly t 1) ek_E ei_E /\
  ik_truss t 6 ei_E 3 = Ok (Some (mkLil 3 5 6%Z [ei_row 0 1; ei_row 0 2; ei_row 1 2])) /\
  ik_truss t 6 ei_E 2 = Ok (Some ei_E).
Proof.
  split; [exists false, W8; reflexivity|].
  split; [apply e127_simple; [e127_wf|reflexivity|reflexivity|vm_compute; reflexivity]|].
  split; [apply (e127_rel _ 4); [e127_wf|e127_wf|reflexivity|reflexivity|reflexivity|reflexivity|e127_in|vm_compute; reflexivity]|].
  split; [vm_compute; reflexivity|]. split; [vm_compute; reflexivity|]. split; [apply C63_example|].
  split; [apply (e127_rel _ 5); [e127_wf|e127_wf|reflexivity|reflexivity|reflexivity|reflexivity|e127_in|vm_compute; reflexivity]|].
  split; vm_compute; reflexivity.
Qed.

(** ** C162: over [bool] all supports are at most 1, and so is the threshold: a triangle passes for a 4-truss. *)
Theorem C162_k_truss2_bool_refuted :
  exists (N k n : nat) (G : lil Z) (G' H' : lil ival),
    simple_graph N G /\ mrel (exactly CBool 1) G G' /\ 3 <= k /\ (nvals G < Z.of_nat n)%Z /\
    ik_truss2 CBool n G' (Z.of_nat k) = Ok (Some H') /\ ~ largest_supported N (k - 2) (edge H') (edge G).
Proof.
  exists 3, 4, 10, (e127_K 1%Z 3), (e127_K ei_o 3), (e127_K ei_o 3).
  split; [apply e127_simple; [e127_wf|reflexivity|reflexivity|vm_compute; reflexivity]|].
  split; [apply (e127_rel _ 3); [e127_wf|e127_wf|reflexivity|reflexivity|reflexivity|reflexivity|e127_in|vm_compute; reflexivity]|].
  split; [lia|]. split; [vm_compute; reflexivity|]. split; [vm_compute; reflexivity|].
  intros (_ & _ & S & _). specialize (S 0 1 eq_refl). apply Nat.leb_le in S. vm_compute in S. discriminate S.
Qed.
Print Assumptions C162_k_truss2_bool_refuted.

(** [k_truss] over [bool]: one common endpoint counts as two, and a single edge passes for a 3-truss. *)
Lemma ei_one_edge : incidence 2 (mkLil 1 2 2%Z [ek_row 0 1]).
Proof.
  split; [e127_wf|]. split; [reflexivity|]. split; [|split].
  - intros [|[|e]] [|[|v]] x H; vm_compute in H; congruence.
  - intros [|e] He; [|simpl in He; lia]. exists 0, 1. split; [lia|]. intros [|[|v]]; vm_compute; intuition (try discriminate; try lia).
  - intros [|e] [|f] He Hf _; simpl in He, Hf; lia.
Qed.
Theorem C162_k_truss_bool_refuted :
  exists (N k n : nat) (E : lil Z) (E' H' : lil ival),
    incidence N E /\ 0 < nrows E /\ mrel (exactly CBool 1) E E' /\ 2 <= k /\ nrows E < n /\
    ik_truss CBool n E' (Z.of_nat k) = Ok (Some H') /\ ~ largest_supported N (k - 2) (joined H') (joined E).
Proof.
  exists 2, 3, 10, (mkLil 1 2 2%Z [ek_row 0 1]), (mkLil 1 2 2%Z [ei_row 0 1]), (mkLil 1 2 2%Z [ei_row 0 1]).
  split; [apply ei_one_edge|]. split; [simpl; lia|]. split.
  { split; [e127_wf|]. split; [e127_wf|]. split; [reflexivity|]. split; [reflexivity|].
    intros [|[|e]] [|[|v]]; try exact I; (split; [reflexivity|]; split; [e127_in|vm_compute; discriminate]). }
  split; [lia|]. split; [simpl; lia|]. split; [vm_compute; reflexivity|].
  intros (_ & _ & S & _). specialize (S 0 1 eq_refl). apply Nat.leb_le in S. vm_compute in S. discriminate S.
Qed.
Print Assumptions C162_k_truss_bool_refuted.

(** The threshold is taken modulo 256 in [uint8_t]: a triangle passes for a 258-truss. *)
Theorem C162_threshold_wraps_refuted :
  exists (N k n : nat) (G : lil Z) (G' H' : lil ival), let t := CInt false W8 in
    simple_graph N G /\ mrel (exactly t 1) G G' /\ 3 <= k /\ (nvals G < Z.of_nat n)%Z /\ (Z.of_nat N <= tmax t)%Z /\
    ik_truss2 t n G' (Z.of_nat k) = Ok (Some H') /\ ~ largest_supported N (k - 2) (edge H') (edge G).
Proof.
  exists 3, 258, 10, (e127_K 1%Z 3), (e127_K ei_o 3), (e127_K ei_o 3). cbv zeta.
  split; [apply e127_simple; [e127_wf|reflexivity|reflexivity|vm_compute; reflexivity]|].
  split; [apply (e127_rel _ 3); [e127_wf|e127_wf|reflexivity|reflexivity|reflexivity|reflexivity|e127_in|vm_compute; reflexivity]|].
  split; [lia|]. split; [vm_compute; reflexivity|]. split; [vm_compute; discriminate|]. split; [vm_compute; reflexivity|].
  intros (_ & _ & S & _). specialize (S 0 1 eq_refl). apply Nat.leb_le in S. vm_compute in S. discriminate S.
Qed.
Print Assumptions C162_threshold_wraps_refuted.
