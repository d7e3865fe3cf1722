(** Shortest paths with floating point weights. *)
From Coq Require Import Lia ZArith Floats.SpecFloat.
From Verif Require Import Base ModelLil ModelVec ModelViews ModelAlgoBase ModelSssp ModelFloat ModelFsssp
  Spec SpecPaths SpecFloats SpecFpaths ProofVec ProofLil ProofRound ProofFloat ProofGpaths.

Section Float.
Variable t : ftype.
Definition fgood (x : fval) : Prop := number t x.
Definition fweight (x : fval) : Prop := value t x /\ finite x.
Definition fkey (x : fval) : Z := sv t x.

Lemma weight_number g : fweight g -> number t g.
Proof. intros [V F]. split; auto. intros ->. exact F. Qed.
Lemma f_min_key a b : fgood a -> fgood b -> FMin t a b = if (fkey a <? fkey b)%Z then a else b.
Proof. intros A B. unfold FMin. rewrite (ltb_sv t) by auto. reflexivity. Qed.
Lemma f_eqb_key a b : fgood a -> fgood b -> FEqual a b = (fkey a =? fkey b)%Z.
Proof. intros A B. unfold FEqual. apply eqb_sv; auto. Qed.
Lemma f_ltb_key a b : fgood a -> fgood b -> FLessThan a b = (fkey a <? fkey b)%Z.
Proof. intros A B. unfold FLessThan. apply ltb_sv; auto. Qed.
Lemma f_plus_nan a g : fgood a -> fweight g -> FPlus t a g <> S754_nan.
Proof.
  intros A G. destruct (finite_dec a) as [F|[->|(s & ->)]].
  - apply (plus_fin t a g); auto; [apply A|apply G|apply G].
  - destruct A; congruence.
  - destruct g; try (destruct G; contradiction); discriminate.
Qed.
Lemma f_plus_good a g : fgood a -> fweight g -> fgood (FPlus t a g).
Proof. intros A G. split; [apply plus_value; [apply A|apply G]|apply f_plus_nan; auto]. Qed.
Lemma f_plus_mono a b g : fgood a -> fgood b -> fweight g -> (fkey a <= fkey b)%Z ->
  (fkey (FPlus t a g) <= fkey (FPlus t b g))%Z.
Proof.
  intros A B G L. unfold fkey. rewrite (plus_comm t a g), (plus_comm t b g).
  apply plus_mono; auto; try (rewrite plus_comm; apply f_plus_nan; auto). apply weight_number; auto.
Qed.
Lemma f_plus_up a g : fgood a -> fweight g -> nonnegative g -> (fkey a <= fkey (FPlus t a g))%Z.
Proof.
  intros A G P. unfold fkey. unfold nonnegative in P. rewrite (fle_sv t) in P by (auto using f0_number, weight_number).
  change (sv t f0) with 0%Z in P.
  destruct (finite_dec a) as [F|[->|(s & ->)]].
  - destruct (plus_fin t a g (proj1 A) (proj1 G) F (proj2 G)) as [_ ->].
    rewrite <- (Rz_fix (prec t) (emax t) (prec_ok t) (emax_ok t) a) at 1.
    + apply (Rz_mono (prec t) (emax t) (prec_ok t) (emax_ok t)). fold (sv t a). lia.
    + apply A.
    + destruct a; try contradiction; reflexivity.
  - destruct A; congruence.
  - assert (E : FPlus t (S754_infinity s) g = S754_infinity s) by (destruct g; try (destruct G; contradiction); reflexivity).
    rewrite E. lia.
Qed.

Lemma nle_nonnegative g : value t g -> finite g -> ~ fle g f0 -> nonnegative g.
Proof.
  intros V F H. assert (N := weight_number g (conj V F)). unfold nonnegative. apply (fle_sv t); auto using f0_number.
  destruct (Z.le_gt_cases (sv t f0) (sv t g)); auto. exfalso. apply H, (fle_sv t); auto using f0_number. lia.
Qed.
Lemma walk_positive (G : lil fval) D0 :
  (forall u v g, mget G u v = Some g -> value t g /\ finite g /\ ~ fle g f0) ->
  (forall v x, D0 v = Some x -> number t x /\ nonnegative x) ->
  forall k v x, fwalk t (mget G) D0 k v x -> number t x /\ nonnegative x /\ (0 < k -> ~ feq x f0).
Proof.
  intros HG HD k v x H. induction H as [v a H|k u v a g H (Na & Pa & _) E].
  - destruct (HD v a H). split; [auto|]. split; [auto|lia].
  - destruct (HG u v g E) as (V & F & P). assert (W : fweight g) by (split; auto).
    assert (Ng := weight_number g W). assert (Np := f_plus_good a g Na W).
    assert (L : (0 < fkey (FPlus t a g))%Z).
    { assert (L1 := f_plus_up a g Na W (nle_nonnegative g V F P)).
      assert (Lg : (0 < sv t g)%Z).
      { apply Z.nle_gt. intro L. apply P, (fle_sv t); auto using f0_number. }
      unfold nonnegative in Pa. rewrite (fle_sv t) in Pa by auto using f0_number. change (sv t f0) with 0%Z in Pa.
      destruct (finite_dec a) as [Fa|[->|(s & ->)]]; [|destruct Na; congruence|].
      - assert (L2 := f_plus_up g a Ng (conj (proj1 Na) Fa)). unfold fkey in *. rewrite plus_comm.
        unfold nonnegative in L2. rewrite (fle_sv t) in L2 by auto using f0_number. change (sv t f0) with 0%Z in L2.
        specialize (L2 Pa). lia.
      - pose proof (big_pos (prec t) (emax t) (prec_ok t) (emax_ok t)). unfold fkey, sv in *. cbn [sval sg] in *. destruct s; cbn [sg] in *; lia. }
    split; [auto|]. unfold fkey in L. split.
    + unfold nonnegative. apply (fle_sv t); auto using f0_number. change (sv t f0) with 0%Z. lia.
    + intros _ Q. apply (feq_sv t) in Q; auto using f0_number. change (sv t f0) with 0%Z in Q. lia.
Qed.

(** The results in terms of the specification. *)
Section Result.
Variables (G : lil fval) (N : nat).
Hypothesis WG : wfm G.
Hypothesis RG : nrows G = N.
Hypothesis CG : ncols G = N.
Hypothesis HG : forall u v g, mget G u v = Some g -> value t g /\ finite g.

Lemma fwalk_number D0 : (forall v x, D0 v = Some x -> number t x) -> forall k v x, fwalk t (mget G) D0 k v x -> number t x.
Proof.
  intros HD k v x H. induction H as [v a H|k u v a g H IH E]; [eauto|]. apply f_plus_good; [auto|]. exact (HG _ _ _ E).
Qed.
Lemma f_inflating : (forall u v g, mget G u v = Some g -> nonnegative g) ->
  inflating fval (FPlus t) fgood fkey (mget G).
Proof. intros P u v a g A E. apply f_plus_up; eauto. exact (HG _ _ _ E). Qed.

Lemma fresult_ok D0 b d : (forall v x, D0 v = Some x -> number t x) ->
  gresult fval (FPlus t) fgood fkey N (mget G) D0 b d ->
  (forall v, d v = None <-> forall k x, ~ fwalk t (mget G) D0 k v x) /\
  (forall v x, d v = Some x -> fshortest_of (fun k => k < N) t (mget G) D0 v x) /\
  (b = true <-> forall v x, d v = Some x -> fshortest t (mget G) D0 v x) /\
  ((forall u v g, mget G u v = Some g -> nonnegative g) -> b = true).
Proof.
  intros HD (H1 & H2 & H3 & H4). split; [exact H1|]. split; [|split; [|intro P; apply H4, f_inflating, P]].
  - intros v x Hx. destruct (H2 v x Hx) as [(j & Hj & Hw) L]. split; [eauto|].
    intros k y Hk Hy. apply (fle_sv t); [eapply fwalk_number; eauto|eapply fwalk_number; eauto|]. apply (L k y); auto.
  - rewrite H3. split.
    + intros H v x Hx. destruct (H2 v x Hx) as [(j & Hj & Hw) _]. split; [eauto|].
      intros k y _ Hy. apply (fle_sv t); [eapply fwalk_number; eauto|eapply fwalk_number; eauto|]. apply (H v x Hx k y); auto.
    + intros H v x Hx j y Hw. destruct (H v x Hx) as [(i & _ & Hwi) L].
      apply (fle_sv t); [eapply fwalk_number; eauto|eapply fwalk_number; eauto|]. apply (L j y); auto.
Qed.

Theorem fsssp_ok dist : N <> 0 -> wfv dist -> vsize dist = N ->
  (forall v x, vget dist v = Some x -> number t x) ->
  exists b d, fsssp t G dist = Ok (b, d) /\ wfv d /\ vsize d = N /\
    (forall v, vget d v = None <-> forall k x, ~ fwalk t (mget G) (vget dist) k v x) /\
    (forall v x, vget d v = Some x -> fshortest_of (fun k => k < N) t (mget G) (vget dist) v x) /\
    (b = true <-> forall v x, vget d v = Some x -> fshortest t (mget G) (vget dist) v x) /\
    ((forall u v g, mget G u v = Some g -> nonnegative g) -> b = true).
Proof.
  intros N0 Wd Sd HD.
  destruct (gsssp_ok fval (FMin t) (FPlus t) FEqual ftrue fgood fweight fkey f_min_key f_eqb_key f_plus_good f_plus_mono
    G N WG RG CG HG dist N0 Wd Sd HD) as (b & d & E & W & S & R).
  exists b, d. split; [exact E|]. split; [auto|]. split; [auto|]. apply fresult_ok; auto.
Qed.

Theorem fbatch_ok dists : N <> 0 -> wfm dists -> ncols dists = N ->
  (forall r v x, mget dists r v = Some x -> number t x) ->
  exists b d, fbatch_sssp t G dists = Ok (b, d) /\ wfm d /\ nrows d = nrows dists /\ ncols d = N /\
    (forall r v, r < nrows dists -> mget d r v = None <-> forall k x, ~ fwalk t (mget G) (mget dists r) k v x) /\
    (forall r v x, mget d r v = Some x -> fshortest_of (fun k => k < N) t (mget G) (mget dists r) v x) /\
    (b = true <-> forall r v x, mget d r v = Some x -> fshortest t (mget G) (mget dists r) v x) /\
    ((forall u v g, mget G u v = Some g -> nonnegative g) -> b = true).
Proof.
  intros N0 Wd Sd HD.
  destruct (gbatch_ok fval (FMin t) (FPlus t) FEqual ftrue fgood fweight fkey f_min_key f_eqb_key f_plus_good f_plus_mono
    G N WG RG CG HG dists N0 Wd Sd HD) as (b & d & E & W & R & K & br & H & Hb).
  exists b, d. split; [exact E|]. split; [auto|]. split; [auto|]. split; [auto|].
  assert (F := fun r Hr => fresult_ok (mget dists r) (br r) (mget d r) (HD r) (H r Hr)).
  assert (Rin : forall r v x, mget d r v = Some x -> r < nrows dists).
  { intros r v x Hx. apply Nat.nle_gt; intro L; rewrite mget_oob in Hx; auto; try discriminate; lia. }
  split; [|split; [|split]].
  - intros r v Hr. apply F; auto.
  - intros r v x Hx. apply F; eauto.
  - rewrite Hb. split.
    + intros A r v x Hx. destruct (F r (Rin _ _ _ Hx)) as (_ & _ & I & _). apply I; auto. eauto.
    + intros A r Hr. destruct (F r Hr) as (_ & _ & I & _). apply I. eauto.
  - intro P. apply Hb. intros r Hr. apply F; auto.
Qed.

Theorem ffiltered_ok dist : N <> 0 -> wfv dist -> vsize dist = N ->
  (forall v x, vget dist v = Some x -> number t x) ->
  (forall k v x, fwalk t (mget G) (vget dist) (S k) v x -> ~ feq x f0) ->
  exists b d, ffiltered_sssp t G dist = Ok (b, d) /\ wfv d /\ vsize d = N /\
    (b = true -> (forall v, vget d v = None <-> forall k x, ~ fwalk t (mget G) (vget dist) k v x) /\
       forall v x, vget d v = Some x -> fshortest t (mget G) (vget dist) v x) /\
    (b = false -> exists k v x, fwalk t (mget G) (vget dist) k v x /\
       forall i y, i < N -> fwalk t (mget G) (vget dist) i v y -> ~ fle y x) /\
    ((forall u v g, mget G u v = Some g -> nonnegative g) -> b = true).
Proof.
  intros N0 Wd Sd HD NZ.
  destruct (gfiltered_ok fval (FMin t) (FPlus t) FLessThan ftrue fgood fweight fkey f_min_key f_ltb_key f_plus_good f_plus_mono
    G N WG RG CG HG dist N0 Wd Sd HD) as (b & d & E & W & S & H1 & H2 & H3).
  { intros k v x Hw. specialize (NZ k v x Hw). destruct x as [s|s| |s m e]; auto. destruct NZ. destruct s; reflexivity. }
  exists b, d. split; [exact E|]. split; [auto|]. split; [auto|]. split; [|split].
  - intro B. destruct (H1 B) as [A1 A2]. split; [exact A1|]. intros v x Hx. destruct (A2 v x Hx) as [(j & Hj) L].
    split; [eauto|]. intros k y _ Hy. apply (fle_sv t); [eapply fwalk_number; eauto|eapply fwalk_number; eauto|]. apply (L k y); auto.
  - intro B. destruct (H2 B) as (j & v & y & Hw & L). exists j, v, y. split; [exact Hw|].
    intros i x Hi Hx Hle. apply (fle_sv t) in Hle; [|eapply fwalk_number; eauto|eapply fwalk_number; eauto].
    specialize (L i x Hi Hx). unfold fkey in L. lia.
  - intro P. apply H3, f_inflating, P.
Qed.
End Result.
End Float.
