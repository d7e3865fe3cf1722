(** Proofs about triangle counting. *)
From Coq Require Import Lia.
From Verif Require Import Base ModelLil ModelVec ModelHelpers ModelViews ModelMul ModelElem
  ModelUtils ModelAlgoBase ModelTriangle Spec SpecOps SpecGraph SpecTriangle ProofBase ProofRow ProofLil
  ProofViews ProofMul ProofElem ProofReduce ProofUtils.
Local Open Scope Z_scope.

(** ** Sums *)
Definition ov (o : option Z) : Z := match o with Some x => x | None => 0 end.
Definition suml {A} (f : A -> Z) (l : list A) : Z := fold_right Z.add 0 (map f l).
Definition sumn (f : nat -> Z) (n : nat) : Z := suml f (seq 0 n).

Lemma suml_ext {A} (f g : A -> Z) l : (forall x, In x l -> f x = g x) -> suml f l = suml g l.
Proof. intro H. unfold suml. f_equal. apply map_ext_in. auto. Qed.
Lemma suml_add {A} (f g : A -> Z) l : suml (fun x => f x + g x) l = suml f l + suml g l.
Proof. induction l; unfold suml in *; simpl; lia. Qed.
Lemma suml_scale {A} c (f : A -> Z) l : suml (fun x => c * f x) l = c * suml f l.
Proof. induction l; unfold suml in *; simpl; lia. Qed.
Lemma suml_0 {A} (l : list A) : suml (fun _ => 0) l = 0.
Proof. induction l; unfold suml in *; simpl; lia. Qed.
Lemma suml_swap {A B} (f : A -> B -> Z) l m :
  suml (fun x => suml (f x) m) l = suml (fun y => suml (fun x => f x y) l) m.
Proof.
  induction l as [|a l IH].
  - change (0 = suml (fun _ : B => 0) m). rewrite suml_0. reflexivity.
  - change (suml (f a) m + suml (fun x => suml (f x) m) l
            = suml (fun y => f a y + suml (fun x => f x y) l) m).
    rewrite suml_add, IH. reflexivity.
Qed.
Lemma suml_app {A} (f : A -> Z) l m : suml f (l ++ m) = suml f l + suml f m.
Proof. induction l; unfold suml in *; simpl; lia. Qed.
Lemma suml_prod {A B} (f : A * B -> Z) l m :
  suml f (list_prod l m) = suml (fun x => suml (fun y => f (x, y)) m) l.
Proof.
  induction l as [|a l IH]; [reflexivity|]. simpl. rewrite suml_app, IH.
  change (suml f (map (fun y => (a, y)) m) + suml (fun x => suml (fun y => f (x, y)) m) l =
          suml (fun y => f (a, y)) m + suml (fun x => suml (fun y => f (x, y)) m) l).
  f_equal. unfold suml. rewrite map_map. reflexivity.
Qed.
Lemma suml_filter {A} (p : A -> bool) l :
  Z.of_nat (length (filter p l)) = suml (fun x => Z.b2z (p x)) l.
Proof.
  induction l as [|a l IH]; [reflexivity|]. simpl.
  change (suml (fun x => Z.b2z (p x)) (a :: l)) with (Z.b2z (p a) + suml (fun x => Z.b2z (p x)) l).
  destruct (p a); simpl Z.b2z; simpl length; lia.
Qed.

Lemma ov_osum l : ov (osum Z.add l) = suml ov l.
Proof.
  unfold osum.
  enough (K : forall o, ov (fold_left (oadd Z.add) l o) = ov o + suml ov l) by (rewrite K; simpl; lia).
  induction l as [|x l IH]; intro o; simpl.
  - unfold suml; simpl; lia.
  - rewrite IH. change (suml ov (x :: l)) with (ov x + suml ov l).
    destruct o, x; simpl; lia.
Qed.
Lemma ov_total nr nc (A : smat Z) :
  total 0 idc Z.add nr nc A = sumn (fun i => sumn (fun j => ov (A i j)) nc) nr.
Proof.
  unfold total, sumn.
  match goal with |- match ?o with _ => _ end = _ => change (ov o = suml (fun i => suml (fun j => ov (A i j)) (seq 0 nc)) (seq 0 nr)) end.
  rewrite ov_osum. unfold suml at 1. rewrite map_map.
  rewrite <- (suml_prod (fun p => ov (A (fst p) (snd p)))). unfold suml. f_equal.
  apply map_ext. intros [i j]. simpl. destruct (A i j); reflexivity.
Qed.

(** ** Triple sums *)
Definition sum3 N (F : nat -> nat -> nat -> Z) : Z :=
  sumn (fun i => sumn (fun j => sumn (fun k => F i j k) N) N) N.

Lemma sumn_ext n (f g : nat -> Z) : (forall i, (i < n)%nat -> f i = g i) -> sumn f n = sumn g n.
Proof. intro H. apply suml_ext. intros x Hx. apply in_seq in Hx. apply H. lia. Qed.
Lemma sumn_scale n c (f : nat -> Z) : c * sumn f n = sumn (fun k => c * f k) n.
Proof. unfold sumn. rewrite suml_scale. reflexivity. Qed.
Lemma sum3_ext N F H :
  (forall i j k, (i < N)%nat -> (j < N)%nat -> (k < N)%nat -> F i j k = H i j k) ->
  sum3 N F = sum3 N H.
Proof.
  intro E. apply sumn_ext. intros i Hi. apply sumn_ext. intros j Hj. apply sumn_ext. auto.
Qed.
Lemma sum3_add N F H : sum3 N (fun i j k => F i j k + H i j k) = sum3 N F + sum3 N H.
Proof.
  unfold sum3, sumn. rewrite <- suml_add. apply suml_ext. intros i _. rewrite <- suml_add.
  apply suml_ext. intros j _. apply suml_add.
Qed.
Lemma sum3_swap12 N F : sum3 N F = sum3 N (fun i j k => F j i k).
Proof. unfold sum3, sumn. rewrite suml_swap. reflexivity. Qed.
Lemma sum3_swap23 N F : sum3 N F = sum3 N (fun i j k => F i k j).
Proof.
  unfold sum3, sumn. apply suml_ext. intros i _. rewrite suml_swap. reflexivity.
Qed.

Lemma triangles_sum N e :
  Z.of_nat (triangles N e) =
  sum3 N (fun i j k => Z.b2z ((i <? j)%nat && (j <? k)%nat && e i j && e j k && e i k)).
Proof.
  unfold triangles. rewrite suml_filter. rewrite suml_prod, suml_prod. reflexivity.
Qed.

(** ** Sums and products of matrices *)
Lemma sum_all_ok (M : lil Z) :
  wfm M -> sum_all M = Ok (sumn (fun i => sumn (fun j => ov (mget M i j)) (ncols M)) (nrows M)).
Proof.
  intro W. unfold sum_all. rewrite reduce_ms_rows by auto.
  rewrite rows_sum_total; [|reflexivity|intros; lia|reflexivity].
  rewrite ov_total. reflexivity.
Qed.

Lemma ov_mul a b : ov (omap2 Z.mul a b) = ov a * ov b.
Proof. destruct a, b; simpl; lia. Qed.
Lemma ov_smul K (A B : smat Z) i j :
  ov (smul Z.add Z.mul K A B i j) = sumn (fun k => ov (A i k) * ov (B k j)) K.
Proof.
  unfold smul. rewrite ov_osum. unfold suml. rewrite map_map. unfold sumn, suml. f_equal.
  apply map_ext. intro k. apply ov_mul.
Qed.

(** ** The adjacency matrix as numbers *)
Section Graph.
Context (N : nat) (G : lil Z).
Hypothesis SG : simple_graph N G.

Let e := edge G.
Definition bz (i j : nat) : Z := Z.b2z (e i j).

Lemma ov_G i j : ov (mget G i j) = bz i j.
Proof.
  destruct SG as (_ & _ & _ & V & _). unfold bz, e, edge.
  destruct (mget G i j) as [v|] eqn:E; simpl; auto. eapply V; eauto.
Qed.
Lemma e_sym i j : e i j = e j i.
Proof. destruct SG as (_ & _ & _ & _ & S & _). unfold e, edge. rewrite S. reflexivity. Qed.
Lemma e_irr i : e i i = false.
Proof. destruct SG as (_ & _ & _ & _ & _ & H). unfold e, edge. rewrite H. reflexivity. Qed.
Lemma ov_lower i j : ov (lower (mget G) i j) = Z.b2z (j <? i)%nat * bz i j.
Proof. unfold lower. destruct (j <? i)%nat; simpl ov; simpl Z.b2z; [rewrite ov_G|]; lia. Qed.
Lemma ov_upper i j : ov (upper (mget G) i j) = Z.b2z (i <? j)%nat * bz i j.
Proof. unfold upper. destruct (i <? j)%nat; simpl ov; simpl Z.b2z; [rewrite ov_G|]; lia. Qed.

(** The number of triangles with [k] the smallest vertex, [j] the middle one. *)
Let T := Z.of_nat (triangles N e).
Lemma count_kji :
  sum3 N (fun i j k => Z.b2z (j <? i)%nat * bz i j *
     (Z.b2z (k <? i)%nat * bz i k * (Z.b2z (k <? j)%nat * bz k j))) = T.
Proof.
  unfold T. rewrite triangles_sum. rewrite sum3_swap12, sum3_swap23, sum3_swap12.
  apply sum3_ext. intros i j k _ _ _. unfold bz.
  rewrite (e_sym k j), (e_sym k i).
  destruct (Nat.ltb_spec i j), (Nat.ltb_spec j k), (Nat.ltb_spec i k); simpl; try lia;
    destruct (e i j), (e j k), (e i k); reflexivity.
Qed.
Lemma count_kij :
  sum3 N (fun i j k => Z.b2z (i <? j)%nat * bz i j *
     (Z.b2z (k <? i)%nat * bz i k * (Z.b2z (k <? j)%nat * bz k j))) = T.
Proof.
  rewrite <- count_kji. rewrite sum3_swap12. apply sum3_ext. intros i j k _ _ _. unfold bz.
  rewrite (e_sym j i), (e_sym j k), (e_sym k i). lia.
Qed.
Lemma count_jki :
  sum3 N (fun i j k => Z.b2z (j <? i)%nat * bz i j *
     (Z.b2z (k <? i)%nat * bz i k * (Z.b2z (j <? k)%nat * bz k j))) = T.
Proof.
  rewrite <- count_kji, sum3_swap23. apply sum3_ext. intros i j k _ _ _. unfold bz.
  rewrite (e_sym j k). lia.
Qed.
Lemma count_both :
  sum3 N (fun i j k => bz i j *
     (Z.b2z (k <? i)%nat * bz i k * (Z.b2z (k <? j)%nat * bz k j))) = 2 * T.
Proof.
  replace (2 * T) with (T + T) by lia. rewrite <- count_kij at 1. rewrite <- count_kji.
  rewrite <- sum3_add. apply sum3_ext. intros i j k _ _ _. unfold bz.
  destruct (Nat.ltb_spec i j), (Nat.ltb_spec j i); simpl Z.b2z; try lia.
  assert (i = j) by lia. subst. rewrite e_irr. simpl Z.b2z. lia.
Qed.

(** ** The algorithms *)
(** The product written into a new matrix. *)
Lemma product_ok {TM} (truthy : TM -> bool) (m : mask (lil TM)) (A B : mview Z) :
  wfview A -> wfview B -> wfmask m -> mask_fits m N N ->
  vrows A = N -> vcols A = N -> vrows B = N -> vcols B = N ->
  (match A, B with Trn _, Trn _ => False | _, _ => True end) ->
  exists P, mxm Z.add Z.mul Z.mul idc idc truthy idc (NoAcc idc) m MERGE (lil_new N N) A B = Ok P /\
    wfm P /\ nrows P = N /\ ncols P = N /\
    forall i j, (i < N)%nat -> (j < N)%nat ->
      ov (mget P i j) = Z.b2z (mask_allows truthy m i j) *
        sumn (fun k => ov (sview A i k) * ov (sview B k j)) N.
Proof.
  intros WA WB Wm Fm RA CA RB CB NT.
  destruct (mxm_ok Z.add Z.mul Z.mul idc idc truthy idc (NoAcc idc) m MERGE (lil_new N N) A B)
    as (P & E & W & R & C & H); auto.
  - apply lil_new_wf.
  - congruence.
  - destruct A, B; tauto.
  - exists P. split; [exact E|]. do 3 (split; [assumption|]). intros i j Hi Hj.
    rewrite H by auto. unfold spec_write. destruct (mask_allows truthy m i j); simpl Z.b2z.
    + simpl. unfold idc. rewrite !option_map_id'. rewrite ov_smul, CA. lia.
    + rewrite mget_new. reflexivity.
Qed.

Lemma square_ov (F : nat -> nat -> Z) (H : nat -> nat -> nat -> Z) :
  (forall i j, (i < N)%nat -> (j < N)%nat -> F i j = sumn (H i j) N) ->
  sumn (fun i => sumn (fun j => F i j) N) N = sum3 N H.
Proof.
  intro E. apply sumn_ext. intros i Hi. apply sumn_ext. intros j Hj. auto.
Qed.

Theorem triangle_count_ok : triangle_count G = Ok T.
Proof.
  destruct SG as (W & R & C & V & S & I). unfold triangle_count. rewrite R, C.
  destruct (split_ok G (lil_new N N) (lil_new N N)) as (L & U & -> & WL & WU & RL & CL & RU & CU & GLU);
    auto using lil_new_wf.
  cbn [bind fst snd].
  destruct (product_ok btrue mnomask (Mat L) (Mat U)) as (B & -> & WB & RB & CB & HB);
    simpl; auto; try congruence.
  cbn [bind].
  destruct (eWiseMult_ok Z.mul Z.mul idc btrue idc (NoAcc idc) mnomask MERGE (lil_new N N)
              (Mat G) (Mat B)) as (D & -> & WD & RD & CD & HD); auto using lil_new_wf.
  { exact Logic.I. } { split; [exact Logic.I|]. simpl. repeat split; congruence. }
  cbn [bind]. rewrite sum_all_ok by auto. cbn [bind]. f_equal. rewrite RD, CD. simpl nrows. simpl ncols.
  replace (sumn _ N) with (2 * T); [rewrite Z.mul_comm; apply Z.quot_mul; lia|].
  rewrite <- count_both. symmetry. apply square_ov. intros i j Hi Hj.
  rewrite HD by auto. simpl. unfold idc. rewrite !option_map_id'. rewrite ov_mul, HB by auto.
  rewrite ov_G. simpl Z.b2z. rewrite Z.mul_1_l, sumn_scale. apply sumn_ext. intros k Hk. f_equal.
  simpl sview. destruct (GLU i k) as [-> _], (GLU k j) as [_ ->]. rewrite !mget_new.
  replace (oadd _ None (mget G i k)) with (mget G i k) by (destruct (mget G i k); reflexivity).
  replace (oadd _ None (mget G k j)) with (mget G k j) by (destruct (mget G k j); reflexivity).
  f_equal.
  - destruct (Nat.leb_spec k i), (Nat.ltb_spec k i); simpl ov; simpl Z.b2z; try lia.
    + rewrite ov_G. lia.
    + replace k with i by lia. rewrite I. reflexivity.
  - destruct (k <? j)%nat; simpl ov; simpl Z.b2z; [rewrite ov_G|]; lia.
Qed.

Context (L U : lil Z).
Hypothesis WL : wfm L.
Hypothesis RL : nrows L = N.
Hypothesis CL : ncols L = N.
Hypothesis GL : forall i j, mget L i j = lower (mget G) i j.
Hypothesis WU : wfm U.
Hypothesis RU : nrows U = N.
Hypothesis CU : ncols U = N.
Hypothesis GU : forall i j, mget U i j = upper (mget G) i j.

Lemma mask_L i j : Z.b2z (mask_allows ztrue (MVal L) i j) = Z.b2z (j <? i)%nat * bz i j.
Proof.
  simpl. rewrite GL, <- ov_lower. unfold lower. destruct (j <? i)%nat; [|reflexivity].
  destruct SG as (_ & _ & _ & V & _). destruct (mget G i j) as [v|] eqn:E; [|reflexivity].
  apply V in E. subst. reflexivity.
Qed.

Theorem triangle_count_masked_LU_ok : triangle_count_masked_LU L U = Ok T.
Proof.
  unfold triangle_count_masked_LU. rewrite RL, CL.
  destruct (product_ok ztrue (MVal L) (Mat L) (Mat U)) as (B & -> & WB & RB & CB & HB);
    simpl; auto; try congruence.
  cbn [bind]. rewrite sum_all_ok by auto. rewrite RB, CB. f_equal. rewrite <- count_kji.
  apply square_ov. intros i j Hi Hj. rewrite HB by auto. rewrite mask_L.
  rewrite sumn_scale. apply sumn_ext. intros k Hk. simpl sview. rewrite GL, GU, ov_lower, ov_upper.
  reflexivity.
Qed.

Theorem triangle_count_masked_ok : triangle_count_masked L = Ok T.
Proof.
  unfold triangle_count_masked. rewrite RL, CL.
  destruct (product_ok ztrue (MVal L) (Mat L) (Trn L)) as (B & -> & WB & RB & CB & HB);
    simpl; auto; try congruence.
  cbn [bind]. rewrite sum_all_ok by auto. rewrite RB, CB. f_equal. rewrite <- count_kji.
  apply square_ov. intros i j Hi Hj. rewrite HB by auto. rewrite mask_L.
  rewrite sumn_scale. apply sumn_ext. intros k Hk. simpl sview. unfold stran.
  rewrite !GL, !ov_lower. unfold bz. rewrite (e_sym j k). reflexivity.
Qed.

Theorem triangle_count_masked_noT_ok : triangle_count_masked_noT L = Ok T.
Proof.
  unfold triangle_count_masked_noT. rewrite RL, CL.
  destruct (product_ok ztrue (MVal L) (Mat L) (Mat L)) as (B & -> & WB & RB & CB & HB);
    simpl; auto; try congruence.
  cbn [bind]. rewrite sum_all_ok by auto. rewrite RB, CB. f_equal. rewrite <- count_jki.
  apply square_ov. intros i j Hi Hj. rewrite HB by auto. rewrite mask_L.
  rewrite sumn_scale. apply sumn_ext. intros k Hk. simpl sview. rewrite !GL, !ov_lower. reflexivity.
Qed.
End Graph.

Theorem triangle_count_newGBTL_ok N G (L : mview Z) U :
  simple_graph N G ->
  wfview L -> vrows L = N -> vcols L = N -> (forall i j, sview L i j = lower (mget G) i j) ->
  wfm U -> nrows U = N -> ncols U = N -> (forall i j, mget U i j = upper (mget G) i j) ->
  triangle_count_newGBTL L U = Ok (Z.of_nat (triangles N (edge G))).
Proof.
  intros SG WL RL CL GL WU RU CU GU. unfold triangle_count_newGBTL. rewrite RL, CL.
  destruct (product_ok N G btrue mnomask L (Mat U)) as (B & -> & WB & RB & CB & HB);
    simpl; auto; try congruence.
  { destruct L; exact Logic.I. }
  cbn [bind].
  destruct (eWiseMult_ok Z.mul Z.mul idc btrue idc (NoAcc idc) mnomask REPLACE (lil_new N N)
              L (Mat B)) as (D & -> & WD & RD & CD & HD); auto using lil_new_wf.
  { exact Logic.I. } { split; [exact Logic.I|]. simpl. repeat split; congruence. }
  cbn [bind]. rewrite sum_all_ok by auto. cbn [bind].
  destruct (eWiseMult_ok Z.mul Z.mul idc btrue idc (NoAcc idc) mnomask REPLACE D
              (Mat U) (Mat B)) as (D2 & -> & WD2 & RD2 & CD2 & HD2); auto.
  { exact Logic.I. } { split; [exact Logic.I|]. simpl in *. repeat split; congruence. }
  cbn [bind]. rewrite reduce_ms_rows by auto. cbn [bind].
  rewrite rows_sum_total; [|reflexivity|intros; lia|reflexivity].
  rewrite ov_total. rewrite RD2, CD2, RD, CD. simpl nrows. simpl ncols. cbv beta iota. f_equal. unfold idc at 1.
  set (T := Z.of_nat (triangles N (edge G))).
  assert (EL : forall i j, (i < N)%nat -> (j < N)%nat ->
    ov (mget B i j) = sumn (fun k => Z.b2z (k <? i)%nat * bz G i k * (Z.b2z (k <? j)%nat * bz G k j)) N).
  { intros i j Hi Hj. rewrite HB by auto. simpl Z.b2z. rewrite Z.mul_1_l. apply sumn_ext. intros k Hk.
    simpl sview. rewrite GL, GU, (ov_lower N G SG), (ov_upper N G SG). reflexivity. }
  replace (sumn _ N) with T at 1.
  2: { symmetry. unfold T. rewrite <- (count_kji N G SG). apply square_ov. intros i j Hi Hj.
       rewrite HD by auto. simpl. unfold idc.
       replace (option_map _ (option_map _ _)) with (omap2 Z.mul (sview L i j) (mget B i j)).
       2: { destruct L; rewrite !option_map_id'; reflexivity. }
       rewrite ov_mul, EL by auto. rewrite GL, (ov_lower N G SG). rewrite sumn_scale. reflexivity. }
  replace (sumn _ N) with T.
  2: { symmetry. unfold T. rewrite <- (count_kij N G SG). apply square_ov. intros i j Hi Hj.
       rewrite HD2 by (simpl in *; congruence). simpl. unfold idc. rewrite !option_map_id'.
       rewrite ov_mul, EL by auto. rewrite GU, (ov_upper N G SG). rewrite sumn_scale. reflexivity. }
  replace (T + T) with (T * 2) by lia. apply Z.quot_mul. lia.
Qed.
