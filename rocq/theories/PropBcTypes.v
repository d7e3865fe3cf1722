(** Property theorems: the batch betweenness centrality over [float] and [double] (C157). *)
From Coq Require Import ZArith QArith Qabs Qcanon Lia Lqa Floats.SpecFloat.
From Verif Require Import Base ModelLil ModelVec ModelViews ModelAlgoBase ModelRank ModelInts ModelFloat ModelFsssp ModelConv ModelBc ModelBc32 ModelBcTypes
  Spec SpecOps SpecRank SpecBc SpecFloats SpecFpaths SpecConv SpecNormalize
  ProofBase ProofLil ProofConv ProofBc ProofBcFloat PropBc.
Local Open Scope nat_scope.

(** The graph: every stored value converts to 1, the shortest paths from each of the [p] sources are at most 2^31 - 1, and
    2 (8 N + p) <= 2^24 for [float], 2^53 for [double].  Every function ends with a finite number for each vertex, which differs from the
    betweenness by at most (2 (8 N + p) + 2) u (betweenness + p), where u = 2^-24 or 2^-53. *)
Theorem C157_betweenness_float :
  forall (t : ftype) (T : Type) (ti : T -> Z) (ta : T -> fval) (A : lil T) (src : list nat) (N n : nat),
    wfm A -> nrows A = N -> ncols A = N -> src <> [] -> Forall (fun s => s < N) src ->
    (forall u v x, mget A u v = Some x -> ti x = 1%Z /\ ta x = f1 t) -> S N < n ->
    let edge := fun u v => is_some (mget A u v) in
    let p := length src in
    Forall (fun s => (Z.of_nat (list_sum (map (fun v => length (shortest_paths N edge s v)) (seq 0 N))) <= 2147483647)%Z) src ->
    (2 * Z.of_nat (8 * N + p) <= 2 ^ prec t)%Z ->
    let accurate r := exists l, r = Ok (Some l) /\ length l = N /\ forall v, v < N -> exists x, nth_error l v = Some x /\ finite x /\
      (Qabs (real x - this (betweenness N edge src v)) <=
       (2 * inject_Z (Z.of_nat (8 * N + p)) + 2) * unit_roundoff t * (this (betweenness N edge src v) + inject_Z (Z.of_nat p)))%Q in
    accurate (fbc_batch_alt_trans t ti ta n A src) /\ accurate (fbc_batch_alt t ti ta n A src) /\
    accurate (fbc_batch t ti ta n A src) /\ accurate (fbc_batch_old t ti ta n A src) /\
    (10 < n -> shallow N edge 10 src -> accurate (fbc_batch_alt_trans_v2 t ti ta n A src)).
Proof.
  intros t T ti ta A src N n WA RA CA Hp Hs H1 Hn edge p HF HK. cbv zeta.
  assert (Hi : forall u v x, mget A u v = Some x -> ti x = 1%Z) by (intros u v x E; apply (H1 u v x E)).
  assert (Ht : forall u v x, mget A u v = Some x -> ta x = f1 t) by (intros u v x E; apply (H1 u v x E)).
  split; [|split; [|split; [|split]]].
  - exact (fbc_alt_trans_ok t ti ta A src N WA RA CA Hp Hs Hi Ht HF HK n Hn).
  - exact (fbc_alt_ok t ti ta A src N WA RA CA Hp Hs Hi Ht HF HK n Hn).
  - exact (fbc_batch_ok t ti ta A src N WA RA CA Hp Hs Hi Ht HF HK n Hn).
  - exact (fbc_old_ok t ti ta A src N WA RA CA Hp Hs Hi Ht HF HK n Hn).
  - intros H10 SH. exact (fbc_v2_ok t ti ta A src N WA RA CA Hp Hs Hi Ht HF HK n H10 SH).
Qed.
Print Assumptions C157_betweenness_float.

(** Over exact rational numbers the same definitions are those of C118. *)
Theorem C157_same_code :
  forall (T : Type) (ti : T -> Z) (tq : T -> Qc) (n : nat) (A : lil T) (src : list nat),
    let neg (p : nat) := (- qn p)%Qc in
    xbc_batch_alt_trans_v2 0%Qc 1%Qc Qcplus Qcminus Qcmult Qcinv zq qn ti tq n A src = bc32_batch_alt_trans_v2 ti tq n A src /\
    xbc_batch_alt_trans 0%Qc 1%Qc Qcplus Qcmult Qcinv zq neg ti tq n A src = bc32_batch_alt_trans ti tq n A src /\
    xbc_batch_alt 0%Qc 1%Qc Qcplus Qcmult Qcinv zq neg ti tq n A src = bc32_batch_alt ti tq n A src /\
    xbc_batch 0%Qc 1%Qc Qcplus Qcmult Qcinv zq neg ti tq n A src = bc32_batch ti tq n A src /\
    xbc_batch_old 0%Qc 1%Qc Qcplus Qcmult Qcdiv zq neg ti tq n A src = bc32_batch_old ti tq n A src.
Proof. repeat split. Qed.
Print Assumptions C157_same_code.

(** The graph of the repository's tests, with the sources 0, 4 and 0, over [float] and [double]: 8/3 is rounded (by more than one rounding would: 2.66666698), and vertices on
    no shortest path get exactly 0 here. *)
Example C157_example :
  (2 * Z.of_nat (8 * 8 + 3) <= 2 ^ prec CFloat)%Z /\
  (forall u v x, mget (ebc_g 1%Z) u v = Some x -> idc x = 1%Z /\ of_int CFloat x = f1 CFloat) /\
  match fbc_batch_alt_trans CFloat idc (of_int CFloat) 10 (ebc_g 1%Z) [0; 4; 0],
        fbc_batch_old CDouble idc (of_int CDouble) 10 (ebc_g 1%Z) [0; 4; 0] with
  | Ok (Some l), Ok (Some l') =>
      map (fun x => Qred (real x)) l = [0; 2796203 # 1048576; 2796203 # 1048576; 2796203 # 1048576; 6; 3 # 2; 3 # 2; 0]%Q /\
      map (fun x => Qeq_bool (real x) 0) l = map (fun x => Qeq_bool (real x) 0) l' /\
      forallb (fun x => negb (Qeq_bool (real x) (8 # 3))) l' = true
  | _, _ => False
  end.
Proof.
  split; [vm_compute; discriminate|]. split.
  - intros u v x E. rewrite (ebc_g_one _ u v x E). split; reflexivity.
  - vm_compute. repeat split.
Qed.
