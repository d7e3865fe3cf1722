(** Property theorems: normalised rows and columns over [float] and [double] (C155). *)
From Coq Require Import ZArith QArith Qabs Lia Lqa Bool Floats.SpecFloat.
From Verif Require Import Base ModelLil ModelViews ModelUtils ModelAlgebra ModelFloat ModelConv Spec SpecOps SpecFloats SpecFpaths SpecIntPaths SpecRel SpecError
  SpecMstTypes SpecConv SpecNormalize ProofRel ProofConv ProofNormalize ProofNormalizeRows PropConv.
Local Open Scope Z_scope.

(** A correctly rounded result has a relative error of at most u, unless it is very small or very large. *)
Theorem C155_relative_error : forall (t : ftype) (q : Q) (x : fval), rounds_to t q x -> normal_range t q -> within1 t q x.
Proof. intros t q x R N. apply rounds_within; auto using normal_wide. Qed.
Print Assumptions C155_relative_error.

(** [normalize_rows] of any finite weights: each element is the quotient by the computed sum of its row, [S i], up to two roundings. *)
Theorem C155_rows : forall (t : ftype) (A : lil fval), mvalues t (Mat A) -> wfm A -> nrows A <> 0%nat ->
  exists B (S : nat -> fval), normalize_rows f0 (FPlus t) (FTimes t) (FMultiplicativeInverse t) A = Ok B /\ wfm B /\ nrows B = nrows A /\ ncols B = ncols A /\
    forall i j, (i < nrows A)%nat -> (j < ncols A)%nat ->
      match mget A i j, mget B i j with
      | Some x, Some r =>
          sums t (present (map (mget A i) (seq 0 (ncols A)))) (S i) /\
          (finite x -> finite (S i) -> ~ (real (S i) == 0)%Q -> normal_range t (1 / real (S i)) ->
           normal_range t (real x / real (S i)) \/ (real x == 0)%Q -> within2 t (real x / real (S i)) r)
      | None, None => True
      | _, _ => False
      end.
Proof. exact rows_within. Qed.
Print Assumptions C155_rows.

Theorem C155_cols : forall (t : ftype) (A : lil fval), mvalues t (Mat A) -> wfm A -> nrows A <> 0%nat -> nrows A = ncols A ->
  exists B (S : nat -> fval), normalize_cols f0 (FPlus t) (FTimes t) (FMultiplicativeInverse t) A = Ok B /\ wfm B /\ nrows B = nrows A /\ ncols B = ncols A /\
    forall i j, (i < nrows A)%nat -> (j < ncols A)%nat ->
      match mget A i j, mget B i j with
      | Some x, Some r =>
          sums t (present (map (fun k => mget A k j) (seq 0 (nrows A)))) (S j) /\
          (finite x -> finite (S j) -> ~ (real (S j) == 0)%Q -> normal_range t (1 / real (S j)) ->
           normal_range t (real x / real (S j)) \/ (real x == 0)%Q -> within2 t (real x / real (S j)) r)
      | None, None => True
      | _, _ => False
      end.
Proof. exact cols_within. Qed.
Print Assumptions C155_cols.

(** Weights that are integers from 0 to [K], where the number of columns times [K] is at most 2^24 or 2^53: each element is the exact quotient
    up to two roundings; in a row of sum [s] a weight 1 becomes the nearest number to 1 / s; and the exact sum of the new row is 1 up to
    two roundings. *)
Theorem C155_counts : forall (t : ftype) (K : Z) (G : lil Z) (A : lil fval), 1 <= K -> Z.of_nat (ncols G) * K <= 2 ^ prec t -> mrel (fexactly t K) G A ->
  (forall i j z, mget G i j = Some z -> 0 <= z) -> nrows G <> 0%nat ->
  exists B, normalize_rows f0 (FPlus t) (FTimes t) (FMultiplicativeInverse t) A = Ok B /\ wfm B /\ nrows B = nrows G /\ ncols B = ncols G /\
    forall i s, (i < nrows G)%nat -> osum Z.add (map (mget G i) (seq 0 (ncols G))) = Some s -> 0 < s ->
      (forall j, (j < ncols G)%nat ->
         match mget G i j, mget B i j with
         | Some x, Some r => within2 t (inject_Z x / inject_Z s) r /\ (x = 1 -> rounds_to t (1 / inject_Z s) r)
         | None, None => True
         | _, _ => False
         end) /\
      (Qabs (qtotal (map real (present (map (mget B i) (seq 0 (ncols G))))) - 1) <= 2 * unit_roundoff t + unit_roundoff t * unit_roundoff t)%Q.
Proof.
  intros t K G A K1 HK M NN NR. destruct (rows_counts t K G A K1 HK M NN NR) as (B & E & WB & RB & CB & H).
  exists B. split; [exact E|]. split; [exact WB|]. split; [exact RB|]. split; [exact CB|]. intros i s Hi Es S0.
  split; [exact (H i s Hi Es S0)|]. pose proof (osum_total (map (mget G i) (seq 0 (ncols G)))) as TS. rewrite Es in TS.
  assert (F : Forall2 (orel (fun x r => 0 <= x /\ within2 t (inject_Z x / inject_Z s) r)) (map (mget G i) (seq 0 (ncols G))) (map (mget B i) (seq 0 (ncols G)))).
  { assert (G' : forall l, (forall j, In j l -> (j < ncols G)%nat) ->
      Forall2 (orel (fun x r => 0 <= x /\ within2 t (inject_Z x / inject_Z s) r)) (map (mget G i) l) (map (mget B i) l)).
    { induction l as [|j l IH]; intros L; [constructor|]. cbn [map]. constructor; [|apply IH; intros; apply L; right; auto].
      specialize (H i s Hi Es S0 j (L j (or_introl eq_refl))). pose proof (NN i j) as P.
      destruct (mget G i j) as [x|], (mget B i j) as [r|]; cbn; try contradiction; auto. split; [apply P; auto|apply H]. }
    apply G'. intros j J. apply in_seq in J. lia. }
  pose proof (row_total t s _ _ S0 F) as T. rewrite <- TS in T.
  assert (E1 : (inject_Z s / inject_Z s == 1)%Q) by (field; intros C; unfold Qeq in C; cbn in C; lia).
  rewrite E1, Qmult_1_r in T. exact T.
Qed.
Print Assumptions C155_counts.

(** A graph whose first vertex has edges of weight 1, 1 and 5: 1/7, 1/7 and 5/7 in [double]; the sum is not exactly 1. *)
Definition e155_G : lil Z := mkLil 2 3 3 [[(0%nat, 1); (1%nat, 1); (2%nat, 5)]; []].
Definition e155_A : lil fval := mkLil 2 3 3 [[(0%nat, of_int CDouble 1); (1%nat, of_int CDouble 1); (2%nat, of_int CDouble 5)]; []].
Definition e155_seventh : fval := fl CDouble 5146971002709138 (-55).
Example C155_example :
  mrel (fexactly CDouble 5) e155_G e155_A /\ Z.of_nat (ncols e155_G) * 5 <= 2 ^ prec CDouble /\
  (exists x, normalize_rows f0 (FPlus CDouble) (FTimes CDouble) (FMultiplicativeInverse CDouble) e155_A =
     Ok (mkLil 2 3 3 [[(0%nat, e155_seventh); (1%nat, e155_seventh); (2%nat, x)]; []]) /\
     ~ (real e155_seventh + real e155_seventh + real x == 1)%Q) /\
  normal_range CDouble (1 / 7) /\ mvalues CDouble (Mat e155_A).
Proof.
  split; [|split; [vm_compute; discriminate|split; [|split; [vm_compute; split; discriminate|]]]].
  - split; [split; [|reflexivity]; split; [reflexivity|repeat constructor]|]. split; [split; [|reflexivity]; split; [reflexivity|repeat constructor]|].
    split; [reflexivity|]. split; [reflexivity|]. intros i j. destruct i as [|[|i]]; [| |destruct i; exact I].
    + destruct j as [|[|[|j]]]; (exact I || (split; [split; [split; [reflexivity|discriminate]|reflexivity]|vm_compute; discriminate])).
    + destruct j; exact I.
  - eexists. split; [vm_compute; reflexivity|]. vm_compute. discriminate.
  - intros i j x H. destruct i as [|[|i]]; [| |destruct i; discriminate].
    + destruct j as [|[|[|j]]]; inversion H; reflexivity.
    + destruct j; discriminate.
Qed.
