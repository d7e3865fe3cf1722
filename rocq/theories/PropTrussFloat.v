(** Trusses over [float] and [double]: C182. *)
From Coq Require Import Lia ZArith Floats.SpecFloat.
From Verif Require Import Base ModelLil ModelVec ModelViews ModelFloat ModelTruss ModelTrussFloat
  Spec SpecOps SpecGraph SpecTriangle SpecTruss SpecFloats SpecIntPaths SpecRel ProofLil ProofTrussFloat PropTruss PropTriInts PropTriFloat.

(** [G'] and [E'] hold the ones of [G] and [E] as numbers of the type [t].  The threshold [k - 2] is rounded if it is large. *)
Theorem C182_k_truss2_float :
  forall (t : ftype) (N k n : nat) (G : lil Z) (G' : lil fval),
    simple_graph N G -> mrel (fexactly t 1) G G' -> 3 <= k -> (nvals G < Z.of_nat n)%Z ->
    (Z.of_nat N < 2 ^ prec t)%Z -> (Z.of_nat k < 2 ^ 64)%Z ->
    exists (H : lil Z) (H' : lil fval),
      fk_truss2 t n G' (Z.of_nat k) = Ok (Some H') /\ mrel (fexactly t 1) H H' /\ simple_graph N H /\
      largest_supported N (k - 2) (edge H) (edge G).
Proof.
  intros t N k n G G' SG RG K Hn HN HK. destruct (C54_k_truss2 N k n G SG K Hn) as (H & E & SH & L).
  destruct (fk_truss2_run t N k ltac:(lia) HN HK n G G' H SG RG E) as (H' & E' & R). eauto 6.
Qed.
Print Assumptions C182_k_truss2_float.

Theorem C182_k_truss_float :
  forall (t : ftype) (N k n : nat) (E : lil Z) (E' : lil fval),
    incidence N E -> 0 < nrows E -> mrel (fexactly t 1) E E' -> 2 <= k -> nrows E < n ->
    (Z.of_nat N < 2 ^ prec t)%Z -> (Z.of_nat k < 2 ^ 64)%Z ->
    exists (H : lil Z) (H' : lil fval),
      fk_truss t n E' (Z.of_nat k) = Ok (Some H') /\ mrel (fexactly t 1) H H' /\ incidence N H /\ some_rows H E /\
      largest_supported N (k - 2) (joined H) (joined E).
Proof.
  intros t N k n E E' IE P RE K Hn HN HK. destruct (C63_k_truss N k n E IE P K Hn) as (H & X & IH & SR & L).
  destruct (fk_truss_run t N k K HN HK n E E' H IE P RE X) as (H' & X' & R). eauto 8.
Qed.
Print Assumptions C182_k_truss_float.

(** The graphs of C54_example and C63_example over [float]; the threshold 2^40 + 1 is rounded to 2^40. *)
Definition e182_o : fval := f1 CFloat.
Definition e182_row (a b : nat) : list (nat * fval) := [(a, e182_o); (b, e182_o)].
Definition e182_E : lil fval := mkLil 5 5 10%Z [e182_row 0 1; e182_row 0 2; e182_row 3 4; e182_row 1 2; e182_row 0 3].
Example C182_example :
  let t := CFloat in
  simple_graph 4 (e127_K 1%Z 4) /\ mrel (fexactly t 1) (e127_K 1%Z 4) (e127_K e182_o 4) /\
  fk_truss2 t 15 (e127_K e182_o 4) 4 = Ok (Some (e127_K e182_o 4)) /\
  fk_truss2 t 15 (e127_K e182_o 4) 5 = Ok (Some (mkLil 4 4 0%Z [[]; []; []; []])) /\
  fk_truss2 t 15 (e127_K e182_o 4) (2 ^ 40 + 3) = Ok (Some (mkLil 4 4 0%Z [[]; []; []; []])) /\
  incidence 5 ek_E /\ mrel (fexactly t 1) ek_E e182_E /\
  fk_truss t 6 e182_E 3 = Ok (Some (mkLil 3 5 6%Z [e182_row 0 1; e182_row 0 2; e182_row 1 2])) /\
  fk_truss t 6 e182_E 2 = Ok (Some e182_E).
Proof.
  split; [apply e127_simple; [e127_wf|reflexivity|reflexivity|vm_compute; reflexivity]|].
  split; [apply (e181_rel _ 4); [e127_wf|e127_wf|reflexivity|reflexivity|reflexivity|reflexivity|vm_compute; reflexivity]|].
  split; [vm_compute; reflexivity|]. split; [vm_compute; reflexivity|]. split; [vm_compute; reflexivity|]. split; [apply C63_example|].
  split; [apply (e181_rel _ 5); [e127_wf|e127_wf|reflexivity|reflexivity|reflexivity|reflexivity|vm_compute; reflexivity]|].
  split; vm_compute; reflexivity.
Qed.
