(** Products, reductions and shortest paths over the built-in integer types: C114, C115, C116, C117. *)
From Coq Require Import Lia ZArith.
From Verif Require Import Base ModelLil ModelVec ModelHelpers ModelViews ModelMul ModelElem ModelUtils ModelAlgoBase ModelSssp
  ModelAlgebra ModelFsssp ModelInts Spec SpecOps SpecAlgebra SpecPaths SpecInts ProofRel ProofSssp ProofFint ProofInts SpecRel.

(** ** C114: unsigned types and the types narrower than [int]: the results are those of integer arithmetic, converted to the
    type ([wrapped]: modulo 2^bits); the matrices [A], [B] hold any integers whose conversions are the elements of [A'], [B']. *)
Theorem C114_mxm_modular :
  forall (t : ctype) (C : lil ival) (A B : mview Z) (A' B' : mview ival), times_wraps t ->
    viewrel (wrapped t) A A' -> viewrel (wrapped t) B B' -> wfm C -> nrows C = vrows A -> ncols C = vcols B -> vcols A = vrows B ->
    exists D, imxm t C A' B' = Ok D /\ wfm D /\ nrows D = nrows C /\ ncols D = ncols C /\
      forall i j, i < nrows C -> j < ncols C ->
        orel (wrapped t) (smul Z.add Z.mul (vcols A) (sview A) (sview B) i j) (mget D i j).
Proof.
  intros t C A B A' B' T HA HB WC R1 R2 R3. apply (imxm_rel (wrapped t) (wrapped t) (wrapped t)); auto; [apply wrapped_ok|].
  intros i j. unfold smul. apply dot_wrapped with (f := fun k => sview A i k) (g := fun k => sview B k j)
    (f' := fun k => sview A' i k) (g' := fun k => sview B' k j); auto; intro k; apply view_rel; auto.
Qed.
Print Assumptions C114_mxm_modular.

Theorem C114_mxv_vxm_modular :
  forall (t : ctype) (w : bvec ival) (A : mview Z) (A' : mview ival) (u : bvec Z) (u' : bvec ival), times_wraps t ->
    viewrel (wrapped t) A A' -> vrel (wrapped t) u u' -> wfv0 w ->
    (vsize w = vrows A -> vsize u = vcols A ->
     exists D, imxv t w A' u' = Ok D /\ wfv D /\ vsize D = vsize w /\
       forall i, i < vsize w -> orel (wrapped t) (smulv Z.add Z.mul (vcols A) (sview A) (vget u) i) (vget D i)) /\
    (vsize w = vcols A -> vsize u = vrows A ->
     exists D, ivxm t w u' A' = Ok D /\ wfv D /\ vsize D = vsize w /\
       forall i, i < vsize w -> orel (wrapped t) (svmul Z.add Z.mul (vrows A) (vget u) (sview A) i) (vget D i)).
Proof.
  intros t w A A' u u' T HA HU WW. split; intros S1 S2.
  - apply (imxv_rel (wrapped t) (wrapped t) (wrapped t)); auto; [apply wrapped_ok|]. intros i. unfold smulv.
    apply dot_wrapped with (f := fun k => sview A i k) (g := vget u) (f' := fun k => sview A' i k) (g' := vget u'); auto;
      intro k; [apply view_rel; auto|apply HU].
  - apply (ivxm_rel (wrapped t) (wrapped t) (wrapped t)); auto; [apply wrapped_ok|]. intros i. unfold svmul.
    apply dot_wrapped with (g := fun k => sview A k i) (f := vget u) (g' := fun k => sview A' k i) (f' := vget u'); auto;
      intro k; [apply HU|apply view_rel; auto].
Qed.
Print Assumptions C114_mxv_vxm_modular.

Theorem C114_reduce_modular :
  forall (t : ctype) (w : bvec ival) (A : mview Z) (A' : mview ival), plus_wraps t ->
    viewrel (wrapped t) A A' -> wfv0 w -> vsize w = vrows A ->
    exists D, ireduce t w A' = Ok D /\ wfv D /\ vsize D = vsize w /\
      forall i, i < vsize w -> orel (wrapped t) (osum Z.add (map (sview A i) (seq 0 (vcols A)))) (vget D i).
Proof.
  intros t w A A' T HA WW S. apply (ireduce_rel (wrapped t) (wrapped t)); auto; [apply wrapped_ok|].
  intro i. apply osum_rel; [apply wrapped_plus; auto|]. apply Forall2_maps. intro k. apply view_rel; auto.
Qed.
Print Assumptions C114_reduce_modular.

(** [uint8_t]: 200 * 3 + 100 * 4 = 1000 = 232 modulo 256. *)
Definition u8 : ctype := CInt false W8.
Definition i32 : ctype := CInt true W32.
Definition u16 : ctype := CInt false W16.
Definition e114_C : lil ival := mkLil 1 1 0%Z [[]].
Definition e114_A : lil Z := mkLil 1 2 2%Z [[(0, 200%Z); (1, 100%Z)]].
Definition e114_B : lil Z := mkLil 2 1 2%Z [[(0, 3%Z)]; [(0, 4%Z)]].
Definition e114_A' : lil ival := mkLil 1 2 2%Z [[(0, Ok 200%Z); (1, Ok 100%Z)]].
Definition e114_B' : lil ival := mkLil 2 1 2%Z [[(0, Ok 3%Z)]; [(0, Ok 4%Z)]].
Example C114_example :
  times_wraps u8 /\ viewrel (wrapped u8) (Mat e114_A) (Mat e114_A') /\ viewrel (wrapped u8) (Mat e114_B) (Mat e114_B') /\
  imxm u8 e114_C (Mat e114_A') (Mat e114_B') = Ok (mkLil 1 1 1%Z [[(0, Ok 232%Z)]]).
Proof.
  split; [split; [exists false, W8; split; [auto|discriminate]|discriminate]|].
  split; [|split; [|reflexivity]]; (split; [repeat split; repeat constructor|]); (split; [repeat split; repeat constructor|]);
    (split; [auto|]); (split; [auto|]).
  - intros i j. destruct i as [|i]; [|destruct i; exact I]. destruct j as [|[|j]]; reflexivity.
  - intros i j. destruct i as [|[|i]]; [| |destruct i; exact I]; (destruct j as [|j]; [reflexivity|exact I]).
Qed.

(** ** C115: any integer type: if the length of the inner dimension times the largest products does not exceed the largest
    value of the type, the results are those of integer arithmetic; in particular nothing overflows. *)
Theorem C115_mxm_exact :
  forall (t : ctype) (C : lil ival) (A B : mview Z) (A' B' : mview ival) (KA KB : Z), integer_type t -> (0 <= KA)%Z -> (0 <= KB)%Z ->
    (Z.of_nat (vcols A) * (KA * KB) <= tmax t)%Z ->
    viewrel (exactly t KA) A A' -> viewrel (exactly t KB) B B' -> wfm C -> nrows C = vrows A -> ncols C = vcols B -> vcols A = vrows B ->
    exists D, imxm t C A' B' = Ok D /\ wfm D /\ nrows D = nrows C /\ ncols D = ncols C /\
      forall i j, i < nrows C -> j < ncols C ->
        orel (exactly t (Z.of_nat (vcols A) * (KA * KB))) (smul Z.add Z.mul (vcols A) (sview A) (sview B) i j) (mget D i j).
Proof.
  intros t C A B A' B' KA KB T K1 K2 HK HA HB WC R1 R2 R3. apply (imxm_rel _ (exactly t KA) (exactly t KB)); auto; [apply exactly_ok|].
  intros i j. unfold smul. apply dot_exact with (f := fun k => sview A i k) (g := fun k => sview B k j)
    (f' := fun k => sview A' i k) (g' := fun k => sview B' k j); auto; intro k; apply view_rel; auto.
Qed.
Print Assumptions C115_mxm_exact.

Theorem C115_mxv_vxm_exact :
  forall (t : ctype) (w : bvec ival) (A : mview Z) (A' : mview ival) (u : bvec Z) (u' : bvec ival) (KA KU : Z), integer_type t ->
    (0 <= KA)%Z -> (0 <= KU)%Z -> (Z.of_nat (vsize u) * (KA * KU) <= tmax t)%Z ->
    viewrel (exactly t KA) A A' -> vrel (exactly t KU) u u' -> wfv0 w ->
    (vsize w = vrows A -> vsize u = vcols A ->
     exists D, imxv t w A' u' = Ok D /\ wfv D /\ vsize D = vsize w /\
       forall i, i < vsize w ->
         orel (exactly t (Z.of_nat (vsize u) * (KA * KU))) (smulv Z.add Z.mul (vcols A) (sview A) (vget u) i) (vget D i)) /\
    (vsize w = vcols A -> vsize u = vrows A ->
     exists D, ivxm t w u' A' = Ok D /\ wfv D /\ vsize D = vsize w /\
       forall i, i < vsize w ->
         orel (exactly t (Z.of_nat (vsize u) * (KA * KU))) (svmul Z.add Z.mul (vrows A) (vget u) (sview A) i) (vget D i)).
Proof.
  intros t w A A' u u' KA KU T K1 K2 HK HA HU WW. split; intros S1 S2; rewrite S2 in *.
  - apply (imxv_rel _ (exactly t KA) (exactly t KU)); auto; [apply exactly_ok|]. intros i. unfold smulv.
    apply dot_exact with (f := fun k => sview A i k) (g := vget u) (f' := fun k => sview A' i k) (g' := vget u'); auto;
      intro k; [apply view_rel; auto|apply HU].
  - apply (ivxm_rel _ (exactly t KA) (exactly t KU)); auto; [apply exactly_ok|]. intros i. unfold svmul.
    rewrite (Z.mul_comm KA KU) in *.
    apply dot_exact with (g := fun k => sview A k i) (f := vget u) (g' := fun k => sview A' k i) (f' := vget u'); auto;
      intro k; [apply HU|apply view_rel; auto].
Qed.
Print Assumptions C115_mxv_vxm_exact.

Theorem C115_reduce_exact :
  forall (t : ctype) (w : bvec ival) (A : mview Z) (A' : mview ival) (K : Z), integer_type t -> (0 <= K)%Z ->
    (Z.of_nat (vcols A) * K <= tmax t)%Z -> viewrel (exactly t K) A A' -> wfv0 w -> vsize w = vrows A ->
    exists D, ireduce t w A' = Ok D /\ wfv D /\ vsize D = vsize w /\
      forall i, i < vsize w ->
        orel (exactly t (Z.of_nat (vcols A) * K)) (osum Z.add (map (sview A i) (seq 0 (vcols A)))) (vget D i).
Proof.
  intros t w A A' K T K0 HK HA WW S. apply (ireduce_rel _ (exactly t K)); auto; [apply exactly_ok|]. intro i.
  pose proof (osum_exact t T K (map (sview A i) (seq 0 (vcols A))) (map (sview A' i) (seq 0 (vcols A)))) as H.
  rewrite map_length, seq_length in H. apply H; auto. apply Forall2_maps. intro k. apply view_rel; auto.
Qed.
Print Assumptions C115_reduce_exact.

(** [int]: two products of at most 1000 * 1000. *)
Definition e115_A : lil Z := mkLil 1 2 2%Z [[(0, 1000%Z); (1, (-7)%Z)]].
Definition e115_B : lil Z := mkLil 2 1 2%Z [[(0, 1000%Z)]; [(0, 3%Z)]].
Definition e115_A' : lil ival := mkLil 1 2 2%Z [[(0, Ok 1000%Z); (1, Ok (-7)%Z)]].
Definition e115_B' : lil ival := mkLil 2 1 2%Z [[(0, Ok 1000%Z)]; [(0, Ok 3%Z)]].
Example C115_example :
  integer_type i32 /\ (Z.of_nat 2 * (1000 * 1000) <= tmax i32)%Z /\
  viewrel (exactly i32 1000) (Mat e115_A) (Mat e115_A') /\ viewrel (exactly i32 1000) (Mat e115_B) (Mat e115_B') /\
  imxm i32 e114_C (Mat e115_A') (Mat e115_B') = Ok (mkLil 1 1 1%Z [[(0, Ok 999979%Z)]]).
Proof.
  split; [exists true, W32; auto|]. split; [vm_compute; discriminate|].
  split; [|split; [|reflexivity]]; (split; [repeat split; repeat constructor|]); (split; [repeat split; repeat constructor|]);
    (split; [auto|]); (split; [auto|]).
  - intros i j. destruct i as [|i]; [|destruct i; exact I]. destruct j as [|[|j]]; try exact I;
      (split; [reflexivity|]; split; [|vm_compute; discriminate]; split; vm_compute; discriminate).
  - intros i j. destruct i as [|[|i]]; [| |destruct i; exact I]; (destruct j as [|j]; [|exact I]);
      (split; [reflexivity|]; split; [|vm_compute; discriminate]; split; vm_compute; discriminate).
Qed.

(** ** C116: integer weights and initial distances of absolute value at most [M] on [N] vertices with [M * (N + 1)] at most
    the largest value of the type. *)
Theorem C116_sssp_exact :
  forall (t : ctype) (G : lil Z) (G' : lil ival) (dist : bvec Z) (dist' : bvec ival) (N : nat) (M : Z), integer_type t ->
    mrel (exactly t M) G G' -> nrows G = N -> ncols G = N -> vrel (exactly t M) dist dist' -> vsize dist = N -> N <> 0 ->
    (0 <= M)%Z -> (M * (Z.of_nat N + 1) <= tmax t)%Z ->
    exists b d d', sssp G dist = Ok (b, d) /\ isssp t G' dist' = Ok (b, d') /\ vrel (exactly t (M * Z.of_nat N)) d d' /\ vsize d' = N /\
      (b = false <-> negative_cycle (mget G) (vget dist)) /\
      (b = true -> forall v, match vget d' v with
        | Some y => exists x, y = Ok x /\ shortest (mget G) (vget dist) v x
        | None => forall k x, ~ walk_from (mget G) (vget dist) k v x
        end).
Proof.
  intros t G G' dist dist' N M T HG RG CG HD SD N0 M0 HM.
  destruct (isssp_exact t T G G' N M HG RG CG M0 HM dist dist') as (b & d & d' & E1 & E2 & R & S); auto; [split; auto|].
  exists b, d, d'. split; [auto|]. split; [auto|]. split; [auto|].
  pose proof R as (W1 & W2 & S2 & H). split; [congruence|].
  destruct HG as (WG & _). destruct HD as (WD & _).
  destruct (sssp_ok G N WG RG CG dist N0 WD SD) as (b' & d1 & E & _ & _ & _ & H2 & H3).
  rewrite E1 in E. injection E as <- <-. split; [auto|]. intros B v. specialize (H v).
  destruct (vget d' v) as [y|], (vget d v) as [z|] eqn:Ez; try contradiction.
  - exists z. split; [apply H|]. apply H3; auto.
  - intros k x Hw. destruct (sssp_reaches G N WG RG CG dist N0 WD SD b d E1 B v k x Hw) as (y & Hy). congruence.
Qed.
Print Assumptions C116_sssp_exact.

(** [signed char]: 0 -4-> 1, 0 -2-> 2, 2 -(-1)-> 1; weights up to 4 on 4 vertices. *)
Definition i8 : ctype := CInt true W8.
Definition e116_G : lil Z := mkLil 4 4 3%Z [[(1, 4%Z); (2, 2%Z)]; []; [(1, (-1)%Z)]; []].
Definition e116_G' : lil ival := mkLil 4 4 3%Z [[(1, Ok 4%Z); (2, Ok 2%Z)]; []; [(1, Ok (-1)%Z)]; []].
Definition e116_d : bvec Z := mkVec 4 1%Z (repeat 0%Z 4) [true; false; false; false].
Definition e116_d' : bvec ival := mkVec 4 1%Z (repeat (Ok 0%Z) 4) [true; false; false; false].
Definition distances {T} (r : res (bool * bvec T)) : option (bool * list (option T)) :=
  match r with Ok (b, d) => Some (b, map (vget d) (seq 0 (vsize d))) | _ => None end.
Example C116_example :
  mrel (exactly i8 4) e116_G e116_G' /\ vrel (exactly i8 4) e116_d e116_d' /\ (4 * (Z.of_nat 4 + 1) <= tmax i8)%Z /\
  distances (isssp i8 e116_G' e116_d') = Some (true, [Some (Ok 0%Z); Some (Ok 1%Z); Some (Ok 2%Z); None]).
Proof.
  split; [|split; [|split; [vm_compute; discriminate|reflexivity]]].
  - split; [repeat split; repeat constructor|]. split; [repeat split; repeat constructor|]. split; [auto|]. split; [auto|]. intros u v.
    do 4 (destruct u as [|u]; [do 4 (destruct v as [|v];
      [try exact I; (split; [reflexivity|]; split; [|vm_compute; discriminate]; split; vm_compute; discriminate)|]); exact I|]).
    unfold mget. simpl. destruct u; exact I.
  - split; [repeat split|]. split; [repeat split|]. split; [auto|]. intros [|[|[|[|v]]]]; try exact I.
    split; [reflexivity|]. split; [|vm_compute; discriminate]. split; vm_compute; discriminate.
    unfold vget. simpl. destruct v; exact I.
Qed.

(** ** C117: without such bounds the results are not those of integer arithmetic. *)

(** [uint8_t] weights 200 and 100: the distance is 44 and the flag true, but the only walk to the vertex has length 300. *)
Theorem C117_sssp_wraps_refuted :
  exists (G : lil Z) (G' : lil ival) (dist : bvec Z) (dist' : bvec ival) d',
    mrel (exactly u8 255) G G' /\ nrows G = 3 /\ ncols G = 3 /\ vrel (exactly u8 255) dist dist' /\ vsize dist = 3 /\
    isssp u8 G' dist' = Ok (true, d') /\ vget d' 2 = Some (Ok 44%Z) /\ shortest (mget G) (vget dist) 2 300.
Proof.
  set (G := mkLil 3 3 2%Z [[(1, 200%Z)]; [(2, 100%Z)]; []]). set (dist := mkVec 3 1%Z (repeat 0%Z 3) [true; false; false]).
  assert (WG : wfm G) by (repeat split; repeat constructor). assert (WD : wfv dist) by (repeat split).
  exists G, (mkLil 3 3 2%Z [[(1, Ok 200%Z)]; [(2, Ok 100%Z)]; []]),
    dist, (mkVec 3 1%Z (repeat (Ok 0%Z) 3) [true; false; false]),
    (mkVec 3 3%Z [Ok 0%Z; Ok 200%Z; Ok 44%Z] [true; true; true]).
  split.
  { split; [auto|]. split; [repeat split; repeat constructor|]. split; [auto|]. split; [auto|]. intros u v.
    do 3 (destruct u as [|u]; [do 3 (destruct v as [|v];
      [try exact I; (split; [reflexivity|]; split; [|vm_compute; discriminate]; split; vm_compute; discriminate)|]); exact I|]).
    unfold mget. simpl. destruct u; exact I. }
  split; [auto|]. split; [auto|]. split.
  { split; [auto|]. split; [repeat split|]. split; [auto|]. intros [|[|[|v]]]; try exact I.
    split; [reflexivity|]. split; [|vm_compute; discriminate]. split; vm_compute; discriminate.
    unfold vget. simpl. destruct v; exact I. }
  split; [auto|]. split; [reflexivity|]. split; [reflexivity|].
  destruct (sssp_ok G 3 WG eq_refl eq_refl dist ltac:(discriminate) WD eq_refl) as (b & d & E & _ & _ & _ & _ & H3).
  assert (E' : sssp G dist = Ok (true, mkVec 3 3%Z [0; 200; 300]%Z [true; true; true])) by reflexivity.
  rewrite E' in E. injection E as <- <-. apply H3; auto.
Qed.
Print Assumptions C117_sssp_wraps_refuted.

(** [int]: a distance beyond 2^31 - 1 is undefined behaviour, although the graph has no cycle. *)
Theorem C117_sssp_overflow_refuted :
  exists (G : lil Z) (G' : lil ival) (dist : bvec Z) (dist' : bvec ival),
    mrel (exactly i32 (tmax i32)) G G' /\ nrows G = 2 /\ ncols G = 2 /\ vrel (exactly i32 (tmax i32)) dist dist' /\ vsize dist = 2 /\
    isssp i32 G' dist' = UB.
Proof.
  exists (mkLil 2 2 1%Z [[(1, 2147483647%Z)]; []]), (mkLil 2 2 1%Z [[(1, Ok 2147483647%Z)]; []]),
    (mkVec 2 1%Z (repeat 1%Z 2) [true; false]), (mkVec 2 1%Z (repeat (Ok 1%Z) 2) [true; false]).
  split.
  { split; [repeat split; repeat constructor|]. split; [repeat split; repeat constructor|]. split; [auto|]. split; [auto|]. intros u v.
    do 2 (destruct u as [|u]; [do 2 (destruct v as [|v];
      [try exact I; (split; [reflexivity|]; split; [|vm_compute; discriminate]; split; vm_compute; discriminate)|]); exact I|]).
    unfold mget. simpl. destruct u; exact I. }
  split; [auto|]. split; [auto|]. split.
  { split; [repeat split|]. split; [repeat split|]. split; [auto|]. intros [|[|v]]; try exact I.
    split; [reflexivity|]. split; [|vm_compute; discriminate]. split; vm_compute; discriminate.
    unfold vget. simpl. destruct v; exact I. }
  split; [auto|]. reflexivity.
Qed.
Print Assumptions C117_sssp_overflow_refuted.

(** [uint16_t]: 65535 * 65535 is computed in [int], where it overflows. *)
Theorem C117_mxm_uint16_refuted :
  exists (A : lil Z) (A' : lil ival), mrel (exactly u16 (tmax u16)) A A' /\ nrows A = 1 /\ ncols A = 1 /\
    imxm u16 e114_C (Mat A') (Mat A') = UB.
Proof.
  exists (mkLil 1 1 1%Z [[(0, 65535%Z)]]), (mkLil 1 1 1%Z [[(0, Ok 65535%Z)]]).
  split; [|split; [auto|split; [auto|reflexivity]]].
  split; [repeat split; repeat constructor|]. split; [repeat split; repeat constructor|]. split; [auto|]. split; [auto|]. intros u v.
  destruct u as [|u]; [|destruct u; exact I]. destruct v as [|v]; [|exact I].
  split; [reflexivity|]. split; [|vm_compute; discriminate]. split; vm_compute; discriminate.
Qed.
Print Assumptions C117_mxm_uint16_refuted.
