(** Associativity of the product, and the transpose of a product. *)
From Coq Require Import Lia Permutation.
From Verif Require Import Base ModelLil ModelVec ModelHelpers ModelViews ModelMul ModelElem Spec
  SpecOps ProofBase ProofLil ProofWrite ProofViews ProofMul ProofElem ProofReduce.

(** A product without mask and accumulator, all scalars of one type. *)
Lemma mxm_plain {T TM} (add mult : T -> T -> T) (truthy : TM -> bool) outp
    (C : lil T) (A B : mview T) :
  wfm C -> wfview A -> wfview B -> nrows C = vrows A -> ncols C = vcols B -> vcols A = vrows B ->
  (match A, B with Trn _, Trn _ => forall x y, mult x y = mult y x | _, _ => True end) ->
  exists P, mxm add mult mult (fun v => v) (fun v => v) truthy (fun v => v) (NoAcc (fun v => v))
              (@NoMask (lil TM)) outp C A B = Ok P /\
    wfm P /\ nrows P = nrows C /\ ncols P = ncols C /\
    forall i j, i < nrows C -> j < ncols C ->
      mget P i j = smul add mult (vcols A) (sview A) (sview B) i j.
Proof.
  intros WC WA WB R K L HS.
  destruct (mxm_ok add mult mult (fun v : T => v) (fun v => v) truthy (fun v : T => v)
    (NoAcc (fun v => v)) (@NoMask (lil TM)) outp C A B WC WA WB I I R K L)
    as (P & E & W & R' & K' & G).
  { destruct A, B; auto. }
  exists P. do 4 (split; [assumption|]).
  intros i j Hi Hj. rewrite G by auto. simpl. destruct (smul _ _ _ _ _ _ _); reflexivity.
Qed.

Section Assoc.
Context {T : Type} (add mult : T -> T -> T).
Hypothesis add_assoc : forall x y z, add (add x y) z = add x (add y z).
Hypothesis add_comm : forall x y, add x y = add y x.
Hypothesis mult_assoc : forall x y z, mult (mult x y) z = mult x (mult y z).
Hypothesis dist_l : forall x y z, mult x (add y z) = add (mult x y) (mult x z).
Hypothesis dist_r : forall x y z, mult (add x y) z = add (mult x z) (mult y z).

Lemma osum_mult_l x l :
  omap2 mult x (osum add l) = osum add (map (fun y => omap2 mult x y) l).
Proof.
  induction l as [|y l IH]; simpl.
  - destruct x; reflexivity.
  - rewrite !osum_cons by auto. rewrite <- IH.
    destruct x, y, (osum add l); simpl; auto. rewrite dist_l; auto.
Qed.
Lemma osum_mult_r l z :
  omap2 mult (osum add l) z = osum add (map (fun y => omap2 mult y z) l).
Proof.
  induction l as [|y l IH]; simpl; auto.
  rewrite !osum_cons by auto. rewrite <- IH.
  destruct z, y, (osum add l); simpl; auto. rewrite dist_r; auto.
Qed.

Lemma osum_swap {X Y} (f : X -> Y -> option T) (lx : list X) (ly : list Y) :
  osum add (map (fun x => osum add (map (f x) ly)) lx) =
  osum add (map (fun y => osum add (map (fun x => f x y) lx)) ly).
Proof.
  rewrite <- (osum_flat_map add add_assoc (fun x => map (f x) ly) lx).
  rewrite <- (osum_flat_map add add_assoc (fun y => map (fun x => f x y) lx) ly).
  apply osum_perm; auto.
  clear. induction lx as [|x lx IH]; simpl.
  - induction ly; simpl; auto.
  - rewrite IH. clear IH. induction ly as [|y ly IH]; simpl; auto.
    apply perm_skip. rewrite <- IH.
    rewrite !app_assoc. apply Permutation_app_tail. apply Permutation_app_comm.
Qed.

Lemma smul_assoc (A B D : smat T) K L i j :
  smul add mult L (smul add mult K A B) D i j = smul add mult K A (smul add mult L B D) i j.
Proof.
  unfold smul.
  rewrite (map_ext _ (fun l => osum add (map (fun k => omap2 mult (omap2 mult (A i k) (B k l)) (D l j)) (seq 0 K)))).
  2: { intro l. rewrite osum_mult_r, map_map. reflexivity. }
  rewrite (map_ext (fun k => omap2 mult (A i k) (osum add (map (fun k0 => omap2 mult (B k k0) (D k0 j)) (seq 0 L))))
    (fun k => osum add (map (fun l => omap2 mult (omap2 mult (A i k) (B k l)) (D l j)) (seq 0 L)))).
  2: { intro k. rewrite osum_mult_l, map_map. f_equal. apply map_ext. intro l.
       destruct (A i k), (B k l), (D l j); simpl; auto. rewrite mult_assoc; auto. }
  rewrite (osum_swap (fun l k => omap2 mult (omap2 mult (A i k) (B k l)) (D l j))). reflexivity.
Qed.
End Assoc.

Lemma smul_ext {T} (add mult : T -> T -> T) K (A A' B B' : smat T) i j :
  (forall k, k < K -> A i k = A' i k) -> (forall k, k < K -> B k j = B' k j) ->
  smul add mult K A B i j = smul add mult K A' B' i j.
Proof.
  intros HA HB. unfold smul. f_equal. apply map_ext_in. intros k Hk. apply in_seq in Hk.
  rewrite HA, HB by lia. reflexivity.
Qed.

Theorem mxm_assoc {T TM} (add mult : T -> T -> T) (truthy : TM -> bool) (o1 o2 o3 o4 : outmode)
    (A B D P Q R S' : lil T) :
  (forall x y z, add (add x y) z = add x (add y z)) -> (forall x y, add x y = add y x) ->
  (forall x y z, mult (mult x y) z = mult x (mult y z)) ->
  (forall x y z, mult x (add y z) = add (mult x y) (mult x z)) ->
  (forall x y z, mult (add x y) z = add (mult x z) (mult y z)) ->
  wfm A -> wfm B -> wfm D -> wfm P -> wfm Q -> wfm R -> wfm S' ->
  ncols A = nrows B -> ncols B = nrows D ->
  nrows P = nrows A -> ncols P = ncols B -> nrows Q = nrows B -> ncols Q = ncols D ->
  nrows R = nrows A -> ncols R = ncols D -> nrows S' = nrows A -> ncols S' = ncols D ->
  let prod o C X Y := mxm add mult mult (fun v => v) (fun v => v) truthy (fun v => v)
                        (NoAcc (fun v => v)) (@NoMask (lil TM)) o C (Mat X) (Mat Y) in
  exists X, (AB <- prod o1 P A B ;; prod o2 R AB D) = Ok X /\ (BD <- prod o3 Q B D ;; prod o4 S' A BD) = Ok X.
Proof.
  intros aa ac ma dl dr WA WB WD WP WQ WR WS L1 L2 P1 P2 Q1 Q2 R1 R2 S1 S2 prod.
  destruct (mxm_plain add mult truthy o1 P (Mat A) (Mat B)) as (AB & E1 & W1 & N1 & K1 & G1); auto.
  destruct (mxm_plain add mult truthy o3 Q (Mat B) (Mat D)) as (BD & E3 & W3 & N3 & K3 & G3); auto.
  destruct (mxm_plain add mult truthy o2 R (Mat AB) (Mat D)) as (X & E2 & W2 & N2 & K2 & G2);
    simpl; auto; try congruence.
  destruct (mxm_plain add mult truthy o4 S' (Mat A) (Mat BD)) as (Y & E4 & W4 & N4 & K4 & G4);
    simpl; auto; try congruence.
  exists X. subst prod. cbn beta. rewrite E1, E3. cbn [bind]. split; auto. rewrite E4. f_equal.
  symmetry. apply lil_ext; auto; try congruence.
  intros i j Hi Hj. simpl in *. rewrite G2, G4 by congruence.
  rewrite (smul_ext add mult (ncols AB) (mget AB) (smul add mult (ncols A) (mget A) (mget B)) (mget D) (mget D))
    by (auto; intros; apply G1; congruence).
  rewrite smul_assoc by auto. rewrite K1, P2.
  apply smul_ext; auto. intros k Hk. symmetry. rewrite L2. rewrite <- L2. apply G3; congruence.
Qed.

Theorem mxm_transpose {T TM} (add mult : T -> T -> T) (truthy : TM -> bool) (o1 o2 o3 o4 : outmode)
    (A B At Bt P Q R S' : lil T) :
  (forall x y, mult x y = mult y x) ->
  wfm A -> wfm B -> wfm At -> wfm Bt -> wfm P -> wfm Q -> wfm R -> wfm S' ->
  ncols A = nrows B ->
  nrows At = ncols A -> ncols At = nrows A -> (forall i j, mget At j i = mget A i j) ->
  nrows Bt = ncols B -> ncols Bt = nrows B -> (forall i j, mget Bt j i = mget B i j) ->
  nrows P = nrows A -> ncols P = ncols B -> nrows Q = ncols B -> ncols Q = nrows A ->
  nrows R = ncols B -> ncols R = nrows A -> nrows S' = ncols B -> ncols S' = nrows A ->
  let prod o C X Y := mxm add mult mult (fun v => v) (fun v => v) truthy (fun v => v)
                        (NoAcc (fun v => v)) (@NoMask (lil TM)) o C X Y in
  exists X,
    (AB <- prod o1 P (Mat A) (Mat B) ;;
     transpose truthy (fun v => v) (NoAcc (fun v => v)) (@NoMask (lil TM)) o2 Q (Mat AB)) = Ok X /\ prod o3 R (Trn B) (Trn A) = Ok X /\ prod o4 S' (Mat Bt) (Mat At) = Ok X.
Proof.
  intros mc WA WB WAt WBt WP WQ WR WS L A1 A2 A3 B1 B2 B3 P1 P2 Q1 Q2 R1 R2 S1 S2 prod.
  destruct (mxm_plain add mult truthy o1 P (Mat A) (Mat B)) as (AB & E1 & W1 & N1 & K1 & G1); auto.
  destruct (mxm_plain add mult truthy o3 R (Trn B) (Trn A)) as (X & E2 & W2 & N2 & K2 & G2);
    simpl; auto.
  destruct (mxm_plain add mult truthy o4 S' (Mat Bt) (Mat At)) as (Y & E4 & W4 & N4 & K4 & G4);
    simpl; auto; try congruence.
  destruct (transpose_ok truthy (fun v : T => v) (NoAcc (fun v => v)) (@NoMask (lil TM)) o2 Q (Mat AB))
    as (Z' & E3 & W3 & N3 & K3 & G3); auto.
  { exact I. }
  { split; [exact I|]. simpl. split; congruence. }
  assert (V : forall i j, i < ncols B -> j < nrows A ->
    smul add mult (nrows B) (stran (mget B)) (stran (mget A)) i j =
    smul add mult (ncols A) (mget A) (mget B) j i).
  { intros i j Hi Hj. unfold smul, stran. rewrite L. f_equal. apply map_ext. intro k.
    destruct (mget B k i), (mget A j k); simpl; auto. rewrite mc; auto. }
  exists X. subst prod. cbn beta. rewrite E1. cbn [bind]. rewrite E3. split; [|split; auto].
  - f_equal. apply lil_ext; auto; try congruence.
    intros i j Hi Hj. simpl in *. rewrite G3, G2 by congruence. simpl. unfold stran at 1.
    rewrite V by congruence. rewrite G1 by congruence.
    destruct (smul _ _ _ _ _ _ _); auto.
  - rewrite E4. f_equal. apply lil_ext; auto; try congruence.
    intros i j Hi Hj. simpl in *. rewrite G4, G2 by congruence. rewrite B2.
    apply smul_ext; intros k Hk; unfold stran; auto.
Qed.
