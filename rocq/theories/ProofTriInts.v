(** Triangle counting over machine integers: the run over a machine type follows the run over the integers. *)
From Coq Require Import Lia ZArith.
From Verif Require Import Base ModelLil ModelVec ModelHelpers ModelViews ModelMul ModelElem ModelUtils ModelAlgoBase
  ModelAlgebra ModelOps ModelInts ModelTriangle ModelTriInts Spec SpecOps SpecAlgebra SpecGraph SpecTriangle SpecInts
  ProofBase ProofLil ProofViews ProofMul ProofElem ProofReduce ProofAlgebra ProofLaws ProofUtils ProofTriangle ProofRel ProofInts SpecRel.
Local Open Scope Z_scope.

Section Tri.
Variable t : ctype.
Hypothesis Ht : integer_type t.

(** A positive number at most [K]; a positive number, known while it fits in the type; the same for numbers from 0. *)
Definition sm (K z : Z) (x : ival) : Prop := exactly t K z x /\ 1 <= z.
Definition fits (z : Z) (x : ival) : Prop := 1 <= z /\ (z <= tmax t -> x = Ok z).
Definition fits0 (z : Z) (x : ival) : Prop := 0 <= z /\ (z <= tmax t -> x = Ok z).

Lemma pos_inty z : 0 <= z <= tmax t -> inty t z.
Proof. intros H. apply inty_bound; auto; lia. Qed.
Lemma fits_add : rel2 fits fits fits Z.add (op2 Plus t).
Proof.
  intros a x b y [A X] [B Y]. split; [lia|]. intro H. rewrite X, Y by lia. apply fits_plus; auto. apply pos_inty. lia.
Qed.
Lemma fits0_add : rel2 fits0 fits0 fits0 Z.add (op2 Plus t).
Proof.
  intros a x b y [A X] [B Y]. split; [lia|]. intro H. rewrite X, Y by lia. apply fits_plus; auto. apply pos_inty. lia.
Qed.
Lemma fits_mul : rel2 fits fits fits Z.mul (op2 Times t).
Proof.
  intros a x b y [A X] [B Y]. split; [nia|]. intro H. rewrite X, Y by nia. apply fits_times; auto. apply pos_inty. nia.
Qed.
Lemma fits_fits0 z x : fits z x -> fits0 z x.
Proof. intros [A X]. split; auto. lia. Qed.
Lemma sm_fits K z x : K <= tmax t -> sm K z x -> fits z x.
Proof. intros HK [(X & _ & B) A]. split; auto. Qed.
Lemma sm_ok K z x : sm K z x -> exists y, x = Ok y.
Proof. intros [(X & _) _]. eauto. Qed.
Lemma sm_mul K : 0 <= K <= tmax t -> rel2 (sm 1) (sm K) (sm K) Z.mul (op2 Times t).
Proof.
  intros HK a x b y [X A] [Y B]. split; [|nia]. replace K with (1 * K) by lia. apply exactly_times; auto; lia.
Qed.

Lemma mrel_imp {A A'} (R R' : A -> A' -> Prop) M M' : (forall x y, R x y -> R' x y) -> mrel R M M' -> mrel R' M M'.
Proof.
  intros H (W & W' & E1 & E2 & G). repeat split; auto; try apply W; try apply W'. intros i j. specialize (G i j).
  destruct (mget M i j), (mget M' i j); simpl in *; auto.
Qed.
Lemma viewrel_imp {A A'} (R R' : A -> A' -> Prop) M M' : (forall x y, R x y -> R' x y) -> viewrel R M M' -> viewrel R' M M'.
Proof. intro H. destruct M, M'; simpl; try tauto; apply mrel_imp; auto. Qed.
Lemma mrel_new {A A'} (R : A -> A' -> Prop) n m : mrel R (lil_new n m) (lil_new n m).
Proof. split; [apply lil_new_wf|]. split; [apply lil_new_wf|]. split; [auto|]. split; [auto|]. intros i j. rewrite !mget_new. exact I. Qed.
Lemma mrel_defined K M M' : mrel (sm K) M M' -> defined_m M' = Ok M'.
Proof.
  intros (W & W' & E1 & E2 & G). apply defined_m_ok; auto. intros i j x Hx. specialize (G i j). rewrite Hx in G.
  destruct (mget M i j); simpl in G; [|tauto]. eapply sm_ok; eauto.
Qed.

(** Wedges: at most [K] of them, each counted once. *)
Lemma dot_sm n (f g : nat -> option Z) f' g' : Z.of_nat n <= tmax t ->
  (forall k, orel (sm 1) (f k) (f' k)) -> (forall k, orel (sm 1) (g k) (g' k)) ->
  orel (sm (Z.of_nat n)) (osum Z.add (map (fun k => omap2 Z.mul (f k) (g k)) (seq 0 n)))
    (osum (op2 Plus t) (map (fun k => omap2 (op2 Times t) (f' k) (g' k)) (seq 0 n))).
Proof.
  intros Hn Hf Hg.
  assert (E : orel (exactly t (Z.of_nat n * (1 * 1))) (osum Z.add (map (fun k => omap2 Z.mul (f k) (g k)) (seq 0 n)))
    (osum (op2 Plus t) (map (fun k => omap2 (op2 Times t) (f' k) (g' k)) (seq 0 n)))).
  { apply dot_exact; auto; try lia; intro k; [specialize (Hf k); destruct (f k), (f' k)|specialize (Hg k); destruct (g k), (g' k)]; simpl in *; auto;
      [apply Hf|apply Hg]. }
  assert (T1 : 1 <= tmax t) by (destruct Ht as (s & w & ->); destruct s, w; vm_compute; discriminate).
  assert (F : orel fits (osum Z.add (map (fun k => omap2 Z.mul (f k) (g k)) (seq 0 n)))
    (osum (op2 Plus t) (map (fun k => omap2 (op2 Times t) (f' k) (g' k)) (seq 0 n)))).
  { apply osum_rel; [apply fits_add|]. apply Forall2_maps. intro k. eapply orel_map2; [apply fits_mul| |].
    - specialize (Hf k). destruct (f k), (f' k); simpl in *; auto. eapply sm_fits; eauto.
    - specialize (Hg k). destruct (g k), (g' k); simpl in *; auto. eapply sm_fits; eauto. }
  destruct (osum Z.add _), (osum (op2 Plus t) _); simpl in *; auto. split; [|apply F].
  replace (Z.of_nat n) with (Z.of_nat n * (1 * 1)) by lia. exact E.
Qed.

Definition prod_conforms N (A B : mview Z) : Prop :=
  vrows A = N /\ vcols A = N /\ vrows B = N /\ vcols B = N /\ match A, B with Trn _, Trn _ => False | _, _ => True end.
(** The product, with any mask. *)
Lemma product_rel {TM TM'} (RM : TM -> TM' -> Prop) N (tr : TM -> bool) (tr' : TM' -> bool) (m : mask (lil TM)) (m' : mask (lil TM')) A A' B B' :
  Z.of_nat N <= tmax t -> rel1 RM eq tr tr' -> maskrel (mrel RM) m m' -> mask_fits m N N -> viewrel (sm 1) A A' -> viewrel (sm 1) B B' -> prod_conforms N A B ->
  mresult (sm (Z.of_nat N)) (mxm Z.add Z.mul Z.mul idc idc tr idc (NoAcc idc) m MERGE (lil_new N N) A B)
    (mxm (op2 Plus t) (op2 Times t) (op2 Times t) idc idc tr' idc (NoAcc idc) m' MERGE (lil_new N N) A' B').
Proof.
  intros HN Htr Hm Fm HA HB (RA & CA & RB & CB & NT). shapes. pose proof (lil_new_wf (T := Z) N N). pose proof (lil_new_wf (T := ival) N N).
  apply (written_rel (sm (Z.of_nat N)) (sm (Z.of_nat N)) (sm (Z.of_nat N)) RM tr tr' idc idc (NoAcc idc) (NoAcc idc) MERGE Htr) with (m := m) (m' := m')
    (C := lil_new N N) (C' := lil_new N N) (T := smul Z.add Z.mul (vcols A) (sview A) (sview B))
    (T' := smul (op2 Plus t) (op2 Times t) (vcols A') (sview A') (sview B')); auto.
  - intros z x Hx. exact Hx.
  - intros z x Hx. exact Hx.
  - apply mrel_new.
  - apply mxm_ok; auto; try (simpl; congruence). destruct A, B; tauto.
  - apply mxm_ok; auto; try (simpl; congruence); [eapply maskrel_fits; eauto|]. destruct A; destruct A'; simpl in HA; try tauto; auto.
    destruct B; destruct B'; simpl in HB; tauto.
  - intros i j Hi Hj. unfold smul. replace (vcols A') with (vcols A) by congruence. rewrite CA.
    apply dot_sm with (f := fun k => sview A i k) (f' := fun k => sview A' i k) (g := fun k => sview B k j) (g' := fun k => sview B' k j);
      auto; intro k; apply viewrel_get; auto.
Qed.
Lemma imxm_run N A A' B B' : Z.of_nat N <= tmax t -> viewrel (sm 1) A A' -> viewrel (sm 1) B B' -> prod_conforms N A B ->
  exists P P', mxm Z.add Z.mul Z.mul idc idc btrue idc (NoAcc idc) mnomask MERGE (lil_new N N) A B = Ok P /\
    imxm t (lil_new N N) A' B' = Ok P' /\ mrel (sm (Z.of_nat N)) P P' /\ nrows P = N /\ ncols P = N.
Proof.
  intros HN HA HB Cf.
  destruct (product_rel (@eq bool) N btrue btrue mnomask mnomask A A' B B') as (P & P' & E & E' & R); auto; try exact I.
  { intros z x ->. reflexivity. }
  pose proof (product_ok N (lil_new 0 0) btrue mnomask A B) as (P0 & E0 & _ & RP & CP & _);
    [apply (proj1 (viewrel_wf _ _ _ HA))|apply (proj1 (viewrel_wf _ _ _ HB))|exact I|exact I| | | | | |]; try apply Cf.
  assert (P0 = P) by congruence. subst P0. exists P, P'. split; [exact E0|]. split; [|auto]. unfold imxm.
  rewrite E'. cbn [bind]. eapply mrel_defined; eauto.
Qed.
Lemma imxm_masked_run N L L' A A' B B' : Z.of_nat N <= tmax t -> mrel (sm 1) L L' -> nrows L = N -> ncols L = N ->
  viewrel (sm 1) A A' -> viewrel (sm 1) B B' -> prod_conforms N A B ->
  exists P P', mxm Z.add Z.mul Z.mul idc idc ztrue idc (NoAcc idc) (MVal L) MERGE (lil_new N N) A B = Ok P /\
    imxm_masked t L' (lil_new N N) A' B' = Ok P' /\ mrel (sm (Z.of_nat N)) P P'.
Proof.
  intros HN HL RL CL HA HB Cf.
  destruct (product_rel (sm 1) N ztrue itrue (MVal L) (MVal L') A A' B B') as (P & P' & E & E' & R); auto.
  { intros z x [(-> & _) _]. reflexivity. }
  { split; auto. }
  destruct (imxm_run N A A' B B') as (Q & Q' & _ & F & _); auto.
  exists P, P'. split; [auto|]. split; auto. unfold imxm_masked. rewrite F. exact E'.
Qed.
Lemma ewise_run N outp C C' A A' B B' : Z.of_nat N <= tmax t -> mrel (sm (Z.of_nat N)) C C' -> nrows C = N -> ncols C = N ->
  viewrel (sm 1) A A' -> vrows A = N -> vcols A = N -> mrel (sm (Z.of_nat N)) B B' -> nrows B = N -> ncols B = N ->
  exists D D', eWiseMult Z.mul Z.mul idc btrue idc (NoAcc idc) mnomask outp C A (Mat B) = Ok D /\
    iewise_times t outp C' A' (Mat B') = Ok D' /\ mrel (sm (Z.of_nat N)) D D' /\ nrows D = N /\ ncols D = N.
Proof.
  intros HN HC RC CC HA RA CA HB RB CB.
  destruct (eWiseMult_rel (sm 1) (sm (Z.of_nat N)) (sm (Z.of_nat N)) (sm (Z.of_nat N)) (sm (Z.of_nat N)) (@eq bool)
    btrue btrue idc idc outp ltac:(intros z x ->; reflexivity) ltac:(intros z x Hx; exact Hx) (NoAcc idc) (NoAcc idc) ltac:(intros z x Hx; exact Hx)
    Z.mul (op2 Times t) (sm_mul _ (conj (Zle_0_nat N) HN)) Z.mul (op2 Times t) idc idc mnomask mnomask C C' A A' (Mat B) (Mat B')) as (D & D' & E & E' & R);
    auto; try (destruct A, A'; exact I); try exact I.
  { split; [exact I|]. simpl. repeat split; congruence. }
  destruct (eWiseMult_ok Z.mul Z.mul idc btrue idc (NoAcc idc) mnomask outp C A (Mat B)) as (D0 & E0 & WD & RD & CD & _).
  { apply HC. } { apply (proj1 (viewrel_wf _ _ _ HA)). } { apply HB. } { exact I. }
  { split; [exact I|]. simpl. repeat split; congruence. }
  assert (Y : eWiseMult Z.mul Z.mul idc btrue idc (NoAcc idc) mnomask outp C A (Mat B) = Ok D) by exact E.
  exists D, D'. split; [exact Y|]. unfold iewise_times.
  assert (Y' : eWiseMult (op2 Times t) (op2 Times t) idc btrue idc (NoAcc idc) mnomask outp C' A' (Mat B') = Ok D') by exact E'.
  rewrite Y'. cbn [bind]. split; [eapply mrel_defined; eauto|]. split; auto. rewrite Y in E0. injection E0 as <-. split; congruence.
Qed.

Lemma sum_rel K s0 s0' a a' C C' : K <= tmax t -> mrel (sm K) C C' -> fits0 s0 s0' -> accrel fits0 fits0 fits0 a a' ->
  exists s s', reduce_ms 0 idc Z.add Z.add Z.add idc a s0 C = Ok s /\
    reduce_ms (Ok 0) idc (op2 Plus t) (op2 Plus t) (op2 Plus t) idc a' s0' C' = Ok s' /\ fits0 s s'.
Proof.
  intros HK HC H0 Ha.
  apply (reduce_ms_rel fits fits0 fits0 fits0); auto.
  - intros z x Hx. exact Hx.
  - split; [lia|auto].
  - intros z x Hx. apply fits_fits0. exact Hx.
  - intros z x y w Hx Hy. apply fits0_add; auto. apply fits_fits0; auto.
  - apply fits0_add.
  - eapply mrel_imp; [|exact HC]. intros. eapply sm_fits; eauto.
Qed.

Lemma isum_run K C C' : K <= tmax t -> mrel (sm K) C C' ->
  exists s, sum_all C = Ok s /\ 0 <= s /\ (s <= tmax t -> isum t C' = Ok s).
Proof.
  intros HK HC. destruct (sum_rel K 0 (Ok 0) (NoAcc idc) (NoAcc idc) C C') as (s & s' & Es & Es' & S0 & Fs); auto.
  { split; [lia|auto]. } { intros z x Hx. exact Hx. }
  exists s. split; [exact Es|]. split; [auto|]. intro H. unfold isum.
  transitivity (sum <- Ok s' ;; sum); [exact (f_equal (fun r : res ival => sum <- r ;; sum) Es')|]. cbn [bind]. auto.
Qed.
Lemma isum_plus_run K v C C' : K <= tmax t -> mrel (sm K) C C' -> 0 <= v <= tmax t ->
  exists s, reduce_ms 0 idc Z.add Z.add Z.add idc (Acc Z.add idc idc) v C = Ok s /\ 0 <= s /\
    (s <= tmax t -> isum_plus t v C' = Ok s).
Proof.
  intros HK HC Hv.
  destruct (sum_rel K v (Ok v) (Acc Z.add idc idc) (Acc (op2 Plus t) idc idc) C C') as (s & s' & Es & Es' & S0 & Fs); auto.
  { split; [lia|auto]. } { split; [apply fits0_add|split; intros z x Hx; exact Hx]. }
  exists s. split; [exact Es|]. split; [auto|]. intro H. unfold isum_plus.
  transitivity (sum <- Ok s' ;; sum); [exact (f_equal (fun r : res ival => sum <- r ;; sum) Es')|]. cbn [bind]. auto.
Qed.

Lemma half_ok T s : s <= tmax t -> 0 <= s -> Z.quot s 2 = T -> ihalf t s = Ok T.
Proof.
  intros Hs S0 E. assert (Is : inty t s) by (apply pos_inty; lia).
  assert (I2 : inty t 2) by (apply pos_inty; destruct Ht as (sg & w & ->); destruct sg, w; vm_compute; split; discriminate).
  assert (IT : inty t T).
  { apply pos_inty. subst T. split; [apply Z.quot_pos; lia|]. assert (Z.quot s 2 <= s); [|lia].
    rewrite Z.quot_div_nonneg by lia. apply Z.div_le_upper_bound; lia. }
  unfold ihalf, Div. rewrite (convert_id t 2 I2).
  assert (CC : common t t = promote t) by (destruct Ht as (sg & w & ->); destruct sg, w; reflexivity).
  assert (PI : forall z, inty t z -> inty (promote t) z).
  { intros z [L H]. destruct Ht as (sg & w & ->). destruct sg, w; split; auto; simpl in *; lia. }
  rewrite CC, !convert_id by auto. unfold quotient. simpl (2 =? 0). cbv iota. rewrite E.
  destruct Ht as (sg & w & ->). destruct (arith_inty _ _ IT) as (r & Er). rewrite Er. cbn [bind]. f_equal.
  rewrite (arith_convert _ _ _ Er). apply convert_id; auto.
Qed.
Lemma tmax_odd s T : Z.quot s 2 = T -> 0 <= s -> 2 * T <= tmax t -> s <= tmax t.
Proof.
  intros E S0 H. rewrite Z.quot_div_nonneg in E by lia. pose proof (Z.div_mod s 2). pose proof (Z.mod_pos_bound s 2).
  destruct Ht as (sg & w & ->). destruct sg, w; simpl in *; lia.
Qed.

Context (N : nat) (G : lil Z) (G' : lil ival).
Hypothesis SG : simple_graph N G.
Hypothesis HG : mrel (exactly t 1) G G'.
Hypothesis HN : Z.of_nat N <= tmax t.
Let T := Z.of_nat (triangles N (edge G)).

Lemma ones {M M'} : mrel (exactly t 1) M M' -> (forall i j v, mget M i j = Some v -> v = 1) -> mrel (sm 1) M M'.
Proof.
  intros (W & W' & E1 & E2 & H) O. repeat split; auto; try apply W; try apply W'. intros i j. specialize (H i j). specialize (O i j).
  destruct (mget M i j), (mget M' i j); simpl in *; auto. split; auto. rewrite (O z eq_refl). lia.
Qed.

Lemma itriangle_count_run : 2 * T <= tmax t -> itriangle_count t G' = Ok T.
Proof.
  intros HT. pose proof (triangle_count_ok N G SG) as OK. destruct SG as (W & R & C & V & S & Ir). fold T in OK.
  pose proof (ones HG V) as H1. pose proof HG as (_ & W' & R' & C' & _).
  unfold itriangle_count, triangle_count in *. rewrite <- R', <- C', R, C. rewrite R, C in OK.
  destruct (split_ok G (lil_new N N) (lil_new N N)) as (L & U & EL & WL & WU & RL & CL & RU & CU & GLU); auto using lil_new_wf.
  rewrite EL in OK. cbn [bind fst snd] in OK.
  destruct (split_ok G' (lil_new N N) (lil_new N N)) as (L' & U' & EL' & WL' & WU' & RL' & CL' & RU' & CU' & GLU');
    auto using lil_new_wf; simpl; try congruence.
  rewrite EL'. cbn [bind fst snd].
  assert (HL : mrel (sm 1) L L').
  { split; [auto|]. split; [auto|]. split; [congruence|]. split; [congruence|]. intros i j. destruct (GLU i j) as [-> _], (GLU' i j) as [-> _].
    rewrite !mget_new. destruct (j <=? i)%nat; [|exact I]. pose proof (proj2 (proj2 (proj2 (proj2 H1))) i j) as H. destruct (mget G i j), (mget G' i j); simpl in *; auto. }
  assert (HU : mrel (sm 1) U U').
  { split; [auto|]. split; [auto|]. split; [congruence|]. split; [congruence|]. intros i j. destruct (GLU i j) as [_ ->], (GLU' i j) as [_ ->].
    rewrite !mget_new. destruct (i <? j)%nat; [|exact I]. pose proof (proj2 (proj2 (proj2 (proj2 H1))) i j) as H. destruct (mget G i j), (mget G' i j); simpl in *; auto. }
  destruct (imxm_run N (Mat L) (Mat L') (Mat U) (Mat U')) as (B & B' & EB & EB' & HB & RB & CB); auto.
  { split; [simpl; congruence|]. split; [simpl; congruence|]. split; [simpl; congruence|]. split; [simpl; congruence|exact I]. }
  rewrite EB in OK. cbn [bind] in OK. rewrite EB'. cbn [bind].
  destruct (ewise_run N MERGE (lil_new N N) (lil_new N N) (Mat G) (Mat G') B B') as (D & D' & ED & ED' & HD & RD & CD); auto; try apply mrel_new.
  rewrite ED in OK. cbn [bind] in OK. rewrite ED'. cbn [bind].
  destruct (isum_run (Z.of_nat N) D D') as (s & Es & S0 & Fs); auto.
  rewrite Es in OK. cbn [bind] in OK. injection OK as OK.
  assert (Sm : s <= tmax t) by (eapply tmax_odd; eauto).
  rewrite Fs by auto. cbn [bind]. apply half_ok; auto.
Qed.

Lemma part_ones {M : mview Z} {M'} (p : smat Z -> smat Z) : viewrel (exactly t 1) M M' ->
  (forall i j, sview M i j = p (mget G) i j) -> (forall i j v, p (mget G) i j = Some v -> mget G i j = Some v) -> viewrel (sm 1) M M'.
Proof.
  intros H E Hp. destruct SG as (_ & _ & _ & V & _). destruct M as [M|M], M' as [M'|M']; simpl in *; try tauto; apply ones; auto; intros i j v Hv.
  - apply (V i j), Hp. rewrite <- E. auto.
  - apply (V j i), Hp. rewrite <- E. auto.
Qed.
Lemma lower_in (i j : nat) (v : Z) : lower (mget G) i j = Some v -> mget G i j = Some v.
Proof. unfold lower. destruct (j <? i)%nat; [auto|discriminate]. Qed.
Lemma upper_in (i j : nat) (v : Z) : upper (mget G) i j = Some v -> mget G i j = Some v.
Proof. unfold upper. destruct (i <? j)%nat; [auto|discriminate]. Qed.

Lemma masked_run L L' A A' B B' : T <= tmax t -> mrel (sm 1) L L' -> nrows L = N -> ncols L = N ->
  viewrel (sm 1) A A' -> viewrel (sm 1) B B' -> prod_conforms N A B ->
  (B <- mxm Z.add Z.mul Z.mul idc idc ztrue idc (NoAcc idc) (MVal L) MERGE (lil_new N N) A B ;; sum_all B) = Ok T ->
  (B <- imxm_masked t L' (lil_new N N) A' B' ;; isum t B) = Ok T.
Proof.
  intros HT HL RL CL HA HB Cf OK.
  destruct (imxm_masked_run N L L' A A' B B') as (P & P' & E & E' & HP); auto.
  rewrite E in OK. cbn [bind] in OK. rewrite E'. cbn [bind].
  destruct (isum_run (Z.of_nat N) P P') as (s & Es & S0 & Fs); auto. assert (s = T) by congruence. subst s. auto.
Qed.

Section Lower.
Context (L : lil Z) (L' : lil ival).
Hypothesis HT : T <= tmax t.
Hypothesis HL : mrel (exactly t 1) L L'.
Hypothesis RL : nrows L = N.
Hypothesis CL : ncols L = N.
Hypothesis GL : forall i j, mget L i j = lower (mget G) i j.

Lemma itriangle_count_masked_LU_run U U' : mrel (exactly t 1) U U' -> nrows U = N -> ncols U = N ->
  (forall i j, mget U i j = upper (mget G) i j) -> itriangle_count_masked_LU t L' U' = Ok T.
Proof.
  intros HU RU CU GU. pose proof (proj1 HL) as WL. pose proof (proj1 HU) as WU. pose proof HL as (_ & WL' & RL' & CL' & _).
  assert (HL1 : viewrel (sm 1) (Mat L) (Mat L')) by (apply (part_ones lower); auto using lower_in).
  assert (HU1 : viewrel (sm 1) (Mat U) (Mat U')) by (apply (part_ones upper); auto using upper_in).
  unfold itriangle_count_masked_LU. rewrite <- RL', <- CL', RL, CL.
  apply (masked_run L L' (Mat L) (Mat L') (Mat U) (Mat U')); auto; [repeat split; auto|].
  pose proof (triangle_count_masked_LU_ok N G SG L U WL RL CL GL WU RU CU GU) as K. unfold triangle_count_masked_LU in K. rewrite RL, CL in K. exact K.
Qed.
Lemma itriangle_count_masked_run : itriangle_count_masked t L' = Ok T.
Proof.
  pose proof (proj1 HL) as WL. pose proof HL as (_ & WL' & RL' & CL' & _).
  assert (HL1 : viewrel (sm 1) (Mat L) (Mat L')) by (apply (part_ones lower); auto using lower_in).
  unfold itriangle_count_masked. rewrite <- RL', <- CL', RL, CL.
  apply (masked_run L L' (Mat L) (Mat L') (Trn L) (Trn L')); auto; [repeat split; auto|].
  pose proof (triangle_count_masked_ok N G SG L L WL RL CL GL RL CL) as K. unfold triangle_count_masked in K. rewrite RL, CL in K. exact K.
Qed.
Lemma itriangle_count_masked_noT_run : itriangle_count_masked_noT t L' = Ok T.
Proof.
  pose proof (proj1 HL) as WL. pose proof HL as (_ & WL' & RL' & CL' & _).
  assert (HL1 : viewrel (sm 1) (Mat L) (Mat L')) by (apply (part_ones lower); auto using lower_in).
  unfold itriangle_count_masked_noT. rewrite <- RL', <- CL', RL, CL.
  apply (masked_run L L' (Mat L) (Mat L') (Mat L) (Mat L')); auto; [repeat split; auto|].
  pose proof (triangle_count_masked_noT_ok N G SG L L WL RL CL GL RL CL) as K. unfold triangle_count_masked_noT in K. rewrite RL, CL in K. exact K.
Qed.
End Lower.

Lemma itriangle_count_newGBTL_run (L : mview Z) L' U U' : 2 * T <= tmax t -> viewrel (exactly t 1) L L' -> vrows L = N -> vcols L = N ->
  (forall i j, sview L i j = lower (mget G) i j) -> mrel (exactly t 1) U U' -> nrows U = N -> ncols U = N ->
  (forall i j, mget U i j = upper (mget G) i j) -> itriangle_count_newGBTL t L' U' = Ok T.
Proof.
  intros HT HL RL CL GL HU RU CU GU.
  assert (OK : triangle_count_newGBTL L U = Ok T).
  { apply triangle_count_newGBTL_ok; auto; [apply (proj1 (viewrel_wf _ _ _ HL))|apply HU]. }
  assert (HL1 : viewrel (sm 1) L L') by (apply (part_ones lower); auto using lower_in).
  assert (HU1 : viewrel (sm 1) (Mat U) (Mat U')) by (apply (part_ones upper); auto using upper_in).
  unfold itriangle_count_newGBTL, triangle_count_newGBTL in *. destruct (viewrel_rows _ _ _ HL) as [R' C'].
  rewrite <- R', <- C', RL, CL. rewrite RL, CL in OK.
  destruct (imxm_run N L L' (Mat U) (Mat U')) as (B & B' & EB & EB' & HB & RB & CB); auto.
  { repeat split; auto. destruct L; exact I. }
  rewrite EB in OK. cbn [bind] in OK. rewrite EB'. cbn [bind].
  destruct (ewise_run N REPLACE (lil_new N N) (lil_new N N) L L' B B') as (D & D' & ED & ED' & HD & RD & CD); auto; try apply mrel_new.
  rewrite ED in OK. cbn [bind] in OK. rewrite ED'. cbn [bind].
  destruct (isum_run (Z.of_nat N) D D') as (s & Es & S0 & Fs); auto. rewrite Es in OK. cbn [bind] in OK.
  destruct (ewise_run N REPLACE D D' (Mat U) (Mat U') B B') as (D2 & D2' & ED2 & ED2' & HD2 & RD2 & CD2); auto.
  rewrite ED2 in OK. cbn [bind] in OK.
  assert (Mono : exists r, reduce_ms 0 idc Z.add Z.add Z.add idc (Acc Z.add idc idc) s D2 = Ok r /\ s <= r).
  { destruct (isum_run (Z.of_nat N) D2 D2') as (s2 & Es2 & S2 & _); auto. exists (s + s2). split; [|lia].
    unfold sum_all in Es2. rewrite reduce_ms_rows in Es2 by (try apply HD2; auto). rewrite reduce_ms_rows by (try apply HD2; auto).
    cbn in Es2. injection Es2 as Es2. unfold idc in *. cbn. f_equal. f_equal. exact Es2. }
  destruct Mono as (r & Er & Hr). rewrite Er in OK. cbn [bind] in OK. injection OK as OK.
  assert (Sm : r <= tmax t) by (apply (tmax_odd r T); auto; lia).
  rewrite Fs by lia. cbn [bind]. rewrite ED2'. cbn [bind].
  destruct (isum_plus_run (Z.of_nat N) s D2 D2') as (r2 & Er2 & R0 & Fr); auto; [lia|].
  rewrite Er in Er2. injection Er2 as <-. rewrite Fr by auto. cbn [bind]. apply half_ok; auto.
Qed.
End Tri.
