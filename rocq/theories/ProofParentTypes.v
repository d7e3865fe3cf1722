(** The parent searches over the scalar types, against the searches on unbounded indices. *)
From Coq Require Import Lia ZArith Floats.SpecFloat.
From Verif Require Import Base ModelLil ModelVec ModelHelpers ModelViews ModelMul ModelElem
  ModelIndex ModelAlgoBase ModelBfs ModelAlgebra ModelFloat ModelFsssp ModelLevels ModelParentTypes
  Spec SpecOps SpecGraph SpecRel SpecFloats SpecInts SpecLevels SpecParentTypes
  ProofBase ProofRow ProofLil ProofVec ProofViews ProofMul ProofElem ProofReduce ProofRel ProofBfs ProofParents
  ProofGraph ProofRound ProofFloat ProofLevels ProofLevelTypes ProofTrussTypes.
From Verif Require PropBfs.

(** ** The types *)
Lemma fits_below lt N i : indices_fit lt N -> i < N -> s_to (scalar_of lt) (of_index (scalar_of lt) i) = Z.of_nat i.
Proof.
  intros F Hi. unfold of_index. destruct lt as [t|t]; cbn [indices_fit scalar_of] in *.
  - cbn [int_scalar s_to s_of]. destruct i as [|i].
    + destruct t as [|s w]; [reflexivity|]. destruct s, w; reflexivity.
    + destruct t as [|s w].
      * cbn [tmax] in F. assert (i = 0) as -> by lia. reflexivity.
      * apply int_holds; [eexists; eexists; reflexivity|lia].
  - destruct i as [|i]; [reflexivity|]. apply float_holds. lia.
Qed.
Lemma fits_64 lt N : indices_fit lt N -> (Z.of_nat N <= 2 ^ 64)%Z.
Proof.
  destruct lt as [t|t]; cbn [indices_fit].
  - destruct t as [|s w]; cbn [tmax]; [lia|]. destruct s, w; cbn [tmax bits]; lia.
  - destruct t; simpl; lia.
Qed.
Lemma fits_min lt N i j : indices_fit lt N -> i < N -> j < N ->
  min_of lt (of_index (scalar_of lt) i) (of_index (scalar_of lt) j) = of_index (scalar_of lt) (Nat.min i j).
Proof.
  intros F Hi Hj. destruct lt as [t|t].
  - cbn [min_of]. pose proof (fits_below (LInt t) N i F Hi) as E1. pose proof (fits_below (LInt t) N j F Hj) as E2.
    cbn [scalar_of int_scalar s_to] in E1, E2. cbn [scalar_of] in *. unfold zmin. rewrite E1, E2.
    destruct (Z.ltb_spec (Z.of_nat i) (Z.of_nat j)).
    + rewrite Nat.min_l by lia. congruence.
    + rewrite Nat.min_r by lia. congruence.
  - cbn [min_of scalar_of indices_fit] in *. unfold of_index. cbn [float_scalar s_of].
    destruct (int_ok t (Z.of_nat i)) as (N1 & F1 & S1); [lia|]. destruct (int_ok t (Z.of_nat j)) as (N2 & F2 & S2); [lia|].
    unfold FMin. rewrite (ltb_sv t) by auto. rewrite S1, S2. pose proof (unit_pos t).
    destruct (Z.ltb_spec (Z.of_nat i * unit_of t) (Z.of_nat j * unit_of t)).
    + rewrite Nat.min_l by nia. reflexivity.
    + rewrite Nat.min_r by nia. reflexivity.
Qed.

(** ** Containers with other values at the same positions *)
Lemma same_lil {A B} (b : B) (M : lil A) : wfm M -> exists M', mrel (fun (x : B) (_ : A) => x = b) M' M.
Proof.
  intro W. destruct (apply_ok (fun _ : A => b) btrue idc (NoAcc idc) mnomask MERGE (lil_new (nrows M) (ncols M)) (Mat M))
    as (M' & _ & W' & R' & C' & G'); auto using lil_new_wf.
  { exact Logic.I. } { split; [exact Logic.I|]. split; reflexivity. }
  cbn [lil_new nrows ncols] in *.
  exists M'. split; [auto|]. split; [auto|]. split; [auto|]. split; [auto|]. intros i j.
  destruct (Nat.lt_ge_cases i (nrows M)) as [Hi|Hi]; [destruct (Nat.lt_ge_cases j (ncols M)) as [Hj|Hj]|].
  - rewrite G' by lia. cbn. destruct (mget M i j); reflexivity.
  - rewrite !mget_oob; [exact Logic.I| | | |]; auto; right; congruence.
  - rewrite !mget_oob; [exact Logic.I| | | |]; auto; left; congruence.
Qed.
Lemma same_vec {A B} (b : B) (u : bvec A) : vsize u <> 0 -> wfv u -> exists u', vrel (fun (x : B) (_ : A) => x = b) u' u.
Proof.
  intros N0 W. destruct (vec_new_ok b (vsize u) N0) as (w0 & _ & W0 & S0 & G0).
  destruct (apply_v_ok (fun _ : A => b) btrue idc (NoAcc idc) vnomask MERGE w0 u)
    as (u' & _ & W' & S' & G').
  { apply W0. } { apply wfv_wfvn; auto. } { exact Logic.I. } { split; [exact Logic.I|congruence]. }
  exists u'. split; [auto|]. split; [auto|]. split; [congruence|]. intro i.
  destruct (Nat.lt_ge_cases i (vsize u)) as [Hi|Hi].
  - rewrite G' by lia. cbn. destruct (vget u i); reflexivity.
  - rewrite !vget_oob; [exact Logic.I| | | |]; [apply W|lia|apply W'|lia].
Qed.
Lemma vrel_nvals {A A'} (R : A -> A' -> Prop) u u' : vrel R u u' -> vnvals u = vnvals u'.
Proof.
  intros ([_ E] & [_ E'] & Es & G). rewrite E, E', Es. f_equal. unfold vcount.
  induction (seq 0 (vsize u')) as [|i l IH]; [reflexivity|]. simpl. specialize (G i).
  destruct (vget u i), (vget u' i); simpl in *; try contradiction; congruence.
Qed.
Lemma vrel_sub {A A'} (R R' : A -> A' -> Prop) u u' : (forall x y, R x y -> R' x y) -> vrel R u u' -> vrel R' u u'.
Proof.
  intros H (W & W' & E & G). repeat split; auto; try apply W; try apply W'. intro i. specialize (G i).
  destruct (vget u i), (vget u' i); simpl in *; auto.
Qed.
Lemma mrel_sub {A A'} (R R' : A -> A' -> Prop) u u' : (forall x y, R x y -> R' x y) -> mrel R u u' -> mrel R' u u'.
Proof.
  intros H (W & W' & E & E' & G). repeat split; auto; try apply W; try apply W'. intros i j. specialize (G i j).
  destruct (mget u i j), (mget u' i j); simpl in *; auto.
Qed.

(** A structural mask does not look at the values. *)
Lemma vxm_struct {TA TU TT TZ TC TM} (add : TT -> TT -> TT) (mult : TU -> TA -> TT) (tr tr' : TM -> bool) (zc : TZ -> TC)
  (a : accum TC TT TZ) (M : bvec TM) outp w u A :
  vxm add mult tr zc a (MSComp M) outp w u A = vxm add mult tr' zc a (MSComp M) outp w u A.
Proof. reflexivity. Qed.
Lemma mxm_struct {TA TB TT TZ TC TM} (add : TT -> TT -> TT) (mult : TA -> TB -> TT) multS tc ct (tr tr' : TM -> bool) (zc : TZ -> TC)
  (a : accum TC TT TZ) (M : lil TM) outp C A B :
  mxm add mult multS tc ct tr zc a (MSComp M) outp C A B = mxm add mult multS tc ct tr' zc a (MSComp M) outp C A B.
Proof. reflexivity. Qed.

(** ** The searches *)
(** An index below [N] is represented exactly; anything represents another number. *)
Definition ix (N : nat) (S : scalar) (n : nat) (x : sty S) : Prop := n < N -> x = of_index S n.
(** A minimum and a sum which give no index if an argument is none. *)
Definition jmin (N n m : nat) : nat := if (n <? N) && (m <? N) then Nat.min n m else N.
Definition jsum (N n m : nat) : nat := N.

Section Types.
Variables (N : nat) (lt wt pt : ltype).
Notation GT := (scalar_of lt).
Notation WT := (scalar_of wt).
Notation PT := (scalar_of pt).
Hypothesis Fl : indices_fit lt N.
Hypothesis Fw : indices_fit wt N.
Hypothesis Fp : indices_fit pt N.

Lemma cv_ix A B : indices_fit A N -> rel1 (ix N (scalar_of A)) (ix N (scalar_of B)) idc (cv (scalar_of A) (scalar_of B)).
Proof.
  clear. intros F n x H Hn. unfold cv. change (idc n) with n in *. rewrite (H Hn), (fits_below A N) by auto. reflexivity.
Qed.
Lemma of_ix S : rel1 eq (ix N S) idc (of_index S).
Proof. clear. intros n x <- Hn. reflexivity. Qed.
Lemma idc_ix S : rel1 (ix N S) (ix N S) idc idc.
Proof. clear. intros n x H. exact H. Qed.
Lemma jmin_ix : rel2 (ix N GT) (ix N GT) (ix N GT) (jmin N) (min_of lt).
Proof.
  clear -Fl. intros n x m y Hx Hy Hn. unfold jmin in *. destruct (Nat.ltb_spec n N), (Nat.ltb_spec m N); cbn [andb] in *; try lia.
  rewrite Hx, Hy by auto. apply (fits_min lt N); auto.
Qed.
Lemma jmin_ok i j : i < N -> j < N -> jmin N i j = Nat.min i j.
Proof. clear. intros Hi Hj. unfold jmin. destruct (Nat.ltb_spec i N), (Nat.ltb_spec j N); simpl; auto; lia. Qed.
Lemma acc_ix : accrel (ix N PT) (ix N GT) (ix N GT) (Acc (fun p x => jsum N (idc p) x) idc idc)
  (Acc (fun p x => plus_of lt (cv PT GT p) x) (cv PT GT) idc).
Proof.
  clear -Fp. split; [|split]; [|apply cv_ix; auto|apply idc_ix]. intros n x m y _ _ Hn. unfold jsum in Hn. lia.
Qed.
Lemma any_true {A B} (R : A -> B -> Prop) : rel1 R eq (fun _ : A => true) (fun _ : B => true).
Proof. intros x y _. reflexivity. Qed.
Lemma first_ix {A B} (R : A -> B -> Prop) : rel2 eq R eq (fun (a : nat) (_ : A) => a) (fun (a : nat) (_ : B) => a).
Proof. intros x y _ _ H _. exact H. Qed.

Section Vectors.
Variables (G : lil (sty GT)) (G' : lil nat) (ramp : bvec nat).
Hypothesis HG : mrel (fun _ _ => True) G' G.
Hypothesis RG : nrows G = N.
Hypothesis CG : ncols G = N.
Hypothesis Wr : wfv ramp.
Hypothesis Sr : vsize ramp = N.

Lemma ramp_rel : vrel eq ramp ramp.
Proof. clear -Wr. repeat split; try apply Wr. intro i. destruct (vget ramp i); simpl; auto. Qed.

Definition vstate (s : bvec nat * bvec nat) : Prop := vsize (fst s) = N /\ vsize (snd s) = N.
Definition vstates (s : bvec nat * bvec nat) (s' : bvec (sty WT) * bvec (sty PT)) : Prop :=
  vrel (ix N WT) (fst s) (fst s') /\ vrel (ix N PT) (snd s) (snd s').

Lemma first_step {A B} (R : A -> B -> Prop) S w w' u u' : vrel (ix N S) w w' -> vrel R u u' -> vsize w = N -> vsize u = N ->
  exists x x', eWiseMult_v (fun (a : nat) (_ : A) => a) btrue idc (NoAcc idc) vnomask MERGE w ramp u = Ok x /\
    eWiseMult_v (fun (a : nat) (_ : B) => a) btrue (of_index S) (NoAcc idc) vnomask MERGE w' ramp u' = Ok x' /\
    vrel (ix N S) x x' /\ vsize x = N.
Proof.
  clear -Wr Sr. intros Hw Hu Sw Su.
  assert (Q : vresult (ix N S) (eWiseMult_v (fun (a : nat) (_ : A) => a) btrue idc (NoAcc idc) vnomask MERGE w ramp u)
    (eWiseMult_v (fun (a : nat) (_ : B) => a) btrue (of_index S) (NoAcc idc) vnomask MERGE w' ramp u')).
  { eapply (eWiseMult_v_rel eq R eq (ix N S) eq eq).
    - intros b b' ->. reflexivity.
    - apply of_ix.
    - intros a b ->. reflexivity.
    - apply first_ix.
    - exact Logic.I.
    - exact Hw.
    - apply ramp_rel.
    - exact Hu.
    - split; [exact Logic.I|]. split; congruence. }
  destruct Q as (x & x' & E & E' & Rx).
  exists x, x'. split; [exact E|]. split; [exact E'|]. split; [exact Rx|].
  destruct (eWiseMult_v_ok (fun (a : nat) (_ : A) => a) btrue idc (@NoAcc nat nat nat idc) vnomask MERGE w ramp u) as (y & Ey & _ & Sy & _).
  { apply Hw. } { apply wfv_wfvn; auto. } { apply wfv_wfvn, Hu. } { exact Logic.I. } { split; [exact Logic.I|]. split; congruence. }
  congruence.
Qed.

Lemma pbfs_w_step s s' s1 : vstate s -> vstates s s' -> bfs_w_body idc idc (jmin N) (jsum N) ramp G' s = Ok s1 ->
  vstate s1 /\ exists s1', pbfs_w_body lt WT PT ramp G s' = Ok s1' /\ vstates s1 s1'.
Proof.
  pose proof HG as (_ & _ & RG' & CG' & _). intros (Sw & Sp) (Hw & Hp). destruct s as [w p], s' as [w' p']. cbn [fst snd] in *. unfold bfs_w_body, pbfs_w_body.
  destruct (first_step (ix N WT) WT w w' w w') as (x & x' & -> & -> & Rx & Sx); auto. cbn [bind].
  rewrite (vxm_struct _ _ ntrue (fun _ => true)), (vxm_struct _ _ (s_true PT) (fun _ => true)).
  assert (Q : vresult (ix N WT)
    (vxm (jmin N) (fun (a : nat) (_ : nat) => idc a) (fun _ => true) idc (NoAcc idc) (MSComp p) REPLACE x x (Mat G'))
    (vxm (min_of lt) (fun (a : sty WT) (_ : sty GT) => cv WT GT a) (fun _ => true) (cv GT WT) (NoAcc idc) (MSComp p') REPLACE x' x' (Mat G))).
  { eapply (vxm_rel (fun _ _ => True) (ix N WT) (ix N GT) (ix N WT) (ix N GT) (ix N PT)).
    - apply any_true.
    - apply cv_ix; auto.
    - apply idc_ix.
    - apply jmin_ix.
    - intros n y m z Hn _. apply cv_ix; auto.
    - exact Hp.
    - exact Rx.
    - exact Rx.
    - exact HG.
    - split; [cbn; congruence|]. split; cbn; congruence. }
  destruct Q as (y & y' & E & E' & Ry). rewrite E, E'. cbn [bind].
  destruct (vxm_ok (jmin N) (fun (a : nat) (_ : nat) => idc a) (fun _ => true) idc (NoAcc idc) (MSComp p) REPLACE x x (Mat G')) as (y0 & E0 & _ & S0 & _).
  { apply Rx. } { apply HG. } { apply wfv_wfvn, Rx. } { apply Hp. } { cbn; congruence. } { cbn; congruence. } { cbn; congruence. }
  assert (Sy : vsize y = N) by congruence. clear y0 E0 S0.
  assert (Q : vresult (ix N PT)
    (apply_v idc btrue idc (Acc (fun p x => jsum N (idc p) x) idc idc) vnomask MERGE p y)
    (apply_v (cv WT GT) btrue (cv GT PT) (Acc (fun p x => plus_of lt (cv PT GT p) x) (cv PT GT) idc) vnomask MERGE p' y')).
  { eapply (apply_v_rel (ix N WT) (ix N GT) (ix N PT) (ix N GT) eq).
    - intros b b' ->. reflexivity.
    - apply cv_ix; auto.
    - apply acc_ix.
    - apply cv_ix; auto.
    - exact Logic.I.
    - exact Hp.
    - exact Ry.
    - split; [exact Logic.I|congruence]. }
  destruct Q as (z & z' & Ez & Ez' & Rz). rewrite Ez, Ez'. cbn [bind].
  destruct (apply_v_ok idc btrue idc (Acc (fun p x => jsum N (idc p) x) idc idc) vnomask MERGE p y) as (z0 & E0 & _ & S0 & _).
  { apply Hp. } { apply wfv_wfvn, Ry. } { exact Logic.I. } { split; [exact Logic.I|congruence]. }
  intro X. injection X as <-. split; [split; cbn [fst snd]; congruence|].
  eexists. split; [reflexivity|]. split; assumption.
Qed.
Lemma pbfs_w_rel n s s' s1 : vstate s -> vstates s s' ->
  mwhile n (fun s => has_vals (vnvals (fst s))) (bfs_w_body idc idc (jmin N) (jsum N) ramp G') s = Ok (Some s1) ->
  exists s1', mwhile n (fun s => has_vals (vnvals (fst s))) (pbfs_w_body lt WT PT ramp G) s' = Ok (Some s1') /\ vstates s1 s1'.
Proof.
  intros Hs Hr E. destruct (mwhile_step (fun s => has_vals (vnvals (fst s))) (fun s => has_vals (vnvals (fst s)))
    (bfs_w_body idc idc (jmin N) (jsum N) ramp G') (pbfs_w_body lt WT PT ramp G) vstate vstates) with (n := n) (s := s) (s' := s') (s1 := s1)
    as (s2 & E2 & R2 & _); auto.
  - intros t t' _ [Ht _]. rewrite (vrel_nvals _ _ _ Ht). reflexivity.
  - intros t t' t1 Ht Hr' _. apply pbfs_w_step; auto.
  - eauto.
Qed.
End Vectors.

(** The batch. *)
Section Matrices.
Variables (K : nat) (G : lil (sty GT)) (G' : lil nat) (ramp : lil nat).
Hypothesis HG : mrel (fun _ _ => True) G' G.
Hypothesis RG : nrows G = N.
Hypothesis CG : ncols G = N.
Hypothesis Wr : wfm ramp.
Hypothesis Rr : nrows ramp = N.
Hypothesis Cr : ncols ramp = N.

Lemma ramp_mrel : mrel eq ramp ramp.
Proof. clear -Wr. repeat split; try apply Wr. intros i j. destruct (mget ramp i j); simpl; auto. Qed.

Definition mstate (s : lil nat * lil nat) : Prop :=
  (nrows (fst s) = K /\ ncols (fst s) = N) /\ (nrows (snd s) = K /\ ncols (snd s) = N).
Definition mstates (s : lil nat * lil nat) (s' : lil (sty WT) * lil (sty PT)) : Prop :=
  mrel (ix N WT) (fst s) (fst s') /\ mrel (ix N PT) (snd s) (snd s').

Lemma to_index_step st C C' w w' : mrel (ix N (scalar_of st)) C C' -> mrel (ix N WT) w w' ->
  nrows C = K -> ncols C = N -> nrows w = K -> ncols w = N ->
  exists x x', to_index idc idc (jmin N) C w ramp = Ok x /\ pto_index lt WT (scalar_of st) C' w' ramp = Ok x' /\
    mrel (ix N (scalar_of st)) x x' /\ nrows x = K /\ ncols x = N.
Proof.
  clear -Fl Wr Rr Cr. intros HC Hw R1 C1 R2 C2. unfold to_index, pto_index.
  match goal with |- exists x x', ?a = _ /\ ?b = _ /\ _ => assert (Q : mresult (ix N (scalar_of st)) a b) end.
  { eapply (mxm_rel (ix N WT) eq (ix N GT) (ix N (scalar_of st)) (ix N GT) eq).
    - intros b b' ->. reflexivity.
    - apply cv_ix; auto.
    - apply idc_ix.
    - apply jmin_ix.
    - intros n y m z _ <- Hn. reflexivity.
    - exact Logic.I.
    - exact Logic.I.
    - exact Logic.I.
    - exact HC.
    - exact Hw.
    - apply ramp_mrel.
    - split; [exact Logic.I|]. repeat split; cbn; congruence. }
  destruct Q as (x & x' & E & E' & Rx). exists x, x'. split; [exact E|]. split; [exact E'|]. split; [exact Rx|].
  destruct (mxm_ok (jmin N) (fun _ b : nat => idc b) (fun b _ : nat => idc b) idc idc btrue idc (NoAcc idc) mnomask MERGE C (Mat w) (Mat ramp))
    as (y & Ey & _ & S1 & S2 & _).
  { apply HC. } { apply Hw. } { exact Wr. } { exact Logic.I. } { exact Logic.I. } { cbn; congruence. } { cbn; congruence. } { cbn; congruence. } { exact Logic.I. }
  split; congruence.
Qed.

Lemma pbfs_batch_step s s' s1 : mstate s -> mstates s s' -> bfs_batch_p_body idc idc (jmin N) (jsum N) ramp G' s = Ok s1 ->
  mstate s1 /\ exists s1', pbfs_batch_body lt WT PT ramp G s' = Ok s1' /\ mstates s1 s1'.
Proof.
  pose proof HG as (WG' & _ & RG' & CG' & _). intros ((R1 & C1) & (R2 & C2)) (Hw & Hp). destruct s as [w p], s' as [w' p']. cbn [fst snd] in *.
  unfold bfs_batch_p_body, pbfs_batch_body.
  destruct (to_index_step wt w w' w w') as (x & x' & -> & -> & Rx & S1 & S2); auto. cbn [bind].
  rewrite (mxm_struct _ _ _ _ _ ntrue (fun _ => true)), (mxm_struct _ _ _ _ _ (s_true PT) (fun _ => true)).
  assert (Q : mresult (ix N WT)
    (mxm (jmin N) (fun (a : nat) (_ : nat) => idc a) (fun (_ : nat) (a : nat) => idc a) idc idc (fun _ => true) idc (NoAcc idc) (MSComp p) REPLACE
       x (Mat x) (Mat G'))
    (mxm (min_of lt) (fun (a : sty WT) (_ : sty GT) => cv WT GT a) (fun (_ : sty GT) (a : sty WT) => cv WT GT a) (cv GT WT) (cv WT GT)
       (fun _ => true) (cv GT WT) (NoAcc idc) (MSComp p') REPLACE x' (Mat x') (Mat G))).
  { eapply (mxm_rel (ix N WT) (fun _ _ => True) (ix N GT) (ix N WT) (ix N GT) (ix N PT)).
    - apply any_true.
    - apply cv_ix; auto.
    - apply idc_ix.
    - apply jmin_ix.
    - intros n y m z Hn _. apply cv_ix; auto.
    - exact Logic.I.
    - exact Logic.I.
    - exact Hp.
    - exact Rx.
    - exact Rx.
    - exact HG.
    - split; [cbn; split; congruence|]. repeat split; cbn; congruence. }
  destruct Q as (y & y' & E & E' & Ry). rewrite E, E'. cbn [bind].
  destruct (mxm_ok (jmin N) (fun (a : nat) (_ : nat) => idc a) (fun (_ : nat) (a : nat) => idc a) idc idc (fun _ => true) idc (NoAcc idc) (MSComp p) REPLACE
       x (Mat x) (Mat G')) as (y0 & E0 & _ & S3 & S4 & _).
  { apply Rx. } { apply Rx. } { exact WG'. } { apply Hp. } { cbn; split; congruence. } { cbn; congruence. } { cbn; congruence. } { cbn; congruence. } { exact Logic.I. }
  assert (T1 : nrows y = K) by congruence. assert (T2 : ncols y = N) by congruence. clear y0 E0 S3 S4.
  assert (Q : mresult (ix N PT)
    (apply idc btrue idc (Acc (fun p x => jsum N (idc p) x) idc idc) mnomask MERGE p (Mat y))
    (apply (cv WT GT) btrue (cv GT PT) (Acc (fun p x => plus_of lt (cv PT GT p) x) (cv PT GT) idc) mnomask MERGE p' (Mat y'))).
  { eapply (apply_rel (ix N WT) (ix N GT) (ix N PT) (ix N GT) eq).
    - intros b b' ->. reflexivity.
    - apply cv_ix; auto.
    - apply acc_ix.
    - apply cv_ix; auto.
    - exact Logic.I.
    - exact Hp.
    - exact Ry.
    - split; [exact Logic.I|split; cbn; congruence]. }
  destruct Q as (z & z' & Ez & Ez' & Rz). rewrite Ez, Ez'. cbn [bind].
  destruct (apply_ok idc btrue idc (Acc (fun p x => jsum N (idc p) x) idc idc) mnomask MERGE p (Mat y)) as (z0 & E0 & _ & S3 & S4 & _).
  { apply Hp. } { apply Ry. } { exact Logic.I. } { split; [exact Logic.I|split; cbn; congruence]. }
  intro X. injection X as <-. split; [split; split; cbn [fst snd]; congruence|].
  eexists. split; [reflexivity|]. split; assumption.
Qed.

Lemma pbfs_batch_rel n s s' s1 : mstate s -> mstates s s' ->
  mwhile n (fun s => has_vals (nvals (fst s))) (bfs_batch_p_body idc idc (jmin N) (jsum N) ramp G') s = Ok (Some s1) ->
  exists s1', mwhile n (fun s => has_vals (nvals (fst s))) (pbfs_batch_body lt WT PT ramp G) s' = Ok (Some s1') /\ mstates s1 s1'.
Proof.
  intros Hs Hr E. destruct (mwhile_step (fun s => has_vals (nvals (fst s))) (fun s => has_vals (nvals (fst s)))
    (bfs_batch_p_body idc idc (jmin N) (jsum N) ramp G') (pbfs_batch_body lt WT PT ramp G) mstate mstates) with (n := n) (s := s) (s' := s') (s1 := s1)
    as (s2 & E2 & R2 & _); auto.
  - intros t t' _ [Ht _]. rewrite (mrel_nvals _ _ _ Ht). reflexivity.
  - intros t t' t1 Ht Hr' _. apply pbfs_batch_step; auto.
  - eauto.
Qed.
End Matrices.

(** From a source: parents of any type against natural numbers. *)
Section FromSource.
Context {T : Type}.
Variables (G : lil T) (ramp : bvec nat).
Hypothesis WG : wfm G.
Hypothesis RG : nrows G = N.
Hypothesis CG : ncols G = N.
Hypothesis Wr : wfv ramp.
Hypothesis Sr : vsize ramp = N.

Definition sstates (s : bvec nat * bvec nat) (s' : bvec nat * bvec (sty PT)) : Prop :=
  vrel eq (fst s) (fst s') /\ vrel (ix N PT) (snd s) (snd s').

Lemma to_ix_of n x : n < N -> ix N PT n x -> to_ix PT x = n.
Proof.
  clear -Fp. intros Hn H. unfold to_ix. rewrite (H Hn), (fits_below pt N) by auto.
  pose proof (fits_64 _ _ Fp). rewrite u64_id by lia. apply Nat2Z.id.
Qed.

Lemma pbfs_step s s' s1 : vstate s -> sstates s s' -> bfs_body ramp G s = Ok s1 ->
  vstate s1 /\ exists s1', pbfs_body PT ramp G s' = Ok s1' /\ sstates s1 s1'.
Proof.
  intros (Sw & Sp) (Hw & Hp). destruct s as [w p], s' as [w' p']. cbn [fst snd] in *. unfold bfs_body, pbfs_body.
  assert (Q : vresult eq (eWiseMult_v (fun a _ : nat => a) btrue idc (NoAcc idc) vnomask MERGE w ramp w)
    (eWiseMult_v (fun a _ : nat => a) btrue idc (NoAcc idc) vnomask MERGE w' ramp w')).
  { eapply (eWiseMult_v_rel eq eq eq eq eq eq).
    - intros b b' ->. reflexivity.
    - intros a b ->. reflexivity.
    - intros a b ->. reflexivity.
    - apply first_ix.
    - exact Logic.I.
    - exact Hw.
    - apply ramp_rel; auto.
    - exact Hw.
    - split; [exact Logic.I|]. split; congruence. }
  destruct Q as (x & x' & E & E' & Rx). rewrite E, E'. cbn [bind].
  destruct (eWiseMult_v_ok (fun a _ : nat => a) btrue idc (@NoAcc nat nat nat idc) vnomask MERGE w ramp w) as (x0 & E0 & _ & S0 & _).
  { apply Hw. } { apply wfv_wfvn; auto. } { apply wfv_wfvn, Hw. } { exact Logic.I. } { split; [exact Logic.I|]. split; congruence. }
  assert (Sx : vsize x = N) by congruence. clear x0 E0 S0.
  rewrite (vxm_struct _ _ ntrue (fun _ => true)), (vxm_struct _ _ (s_true PT) (fun _ => true)).
  assert (Q : vresult eq
    (vxm nmin (fun (a : nat) (_ : T) => a) (fun _ => true) idc (NoAcc idc) (MSComp p) REPLACE x x (Mat G))
    (vxm nmin (fun (a : nat) (_ : T) => a) (fun _ => true) idc (NoAcc idc) (MSComp p') REPLACE x' x' (Mat G))).
  { eapply (vxm_rel eq eq eq eq eq (ix N PT)).
    - apply any_true.
    - intros a b ->. reflexivity.
    - intros a b ->. reflexivity.
    - intros a b c d -> ->. reflexivity.
    - intros a b c d -> ->. reflexivity.
    - exact Hp.
    - exact Rx.
    - exact Rx.
    - repeat split; try apply WG. intros i j. destruct (mget G i j); simpl; auto.
    - split; [cbn; congruence|]. split; cbn; congruence. }
  destruct Q as (y & y' & Ey & Ey' & Ry). rewrite Ey, Ey'. cbn [bind].
  destruct (vxm_ok nmin (fun (a : nat) (_ : T) => a) (fun _ => true) idc (NoAcc idc) (MSComp p) REPLACE x x (Mat G)) as (y0 & E0 & _ & S0 & _).
  { apply Rx. } { exact WG. } { apply wfv_wfvn, Rx. } { apply Hp. } { cbn; congruence. } { cbn; congruence. } { cbn; congruence. }
  assert (Sy : vsize y = N) by congruence. clear y0 E0 S0.
  set (f := fun (p : sty PT) (x : nat) => Z.to_nat (u64 (Z.of_nat (to_ix PT p) + Z.of_nat x))).
  assert (Q : vresult (ix N PT) (apply_v idc btrue idc (Acc Nat.add idc idc) vnomask MERGE p y)
    (apply_v idc btrue (of_index PT) (Acc f (to_ix PT) idc) vnomask MERGE p' y')).
  { eapply (apply_v_rel eq eq (ix N PT) (fun n m => n < N -> m = n) eq).
    - intros b b' ->. reflexivity.
    - intros n m H Hn. change (idc n) with n in *. rewrite (H Hn). reflexivity.
    - split; [|split].
      + intros n z m ? Hz <- Hn. unfold f. rewrite (to_ix_of n) by (auto; lia).
        pose proof (fits_64 _ _ Fp). rewrite u64_id by lia. lia.
      + intros n z Hz Hn. apply to_ix_of; auto.
      + intros n m -> _. reflexivity.
    - intros n m ->. reflexivity.
    - exact Logic.I.
    - exact Hp.
    - exact Ry.
    - split; [exact Logic.I|congruence]. }
  destruct Q as (z & z' & Ez & Ez' & Rz). rewrite Ez, Ez'. cbn [bind].
  destruct (apply_v_ok idc btrue idc (Acc Nat.add idc idc) vnomask MERGE p y) as (z0 & E0 & _ & S0 & _).
  { apply Hp. } { apply wfv_wfvn, Ry. } { exact Logic.I. } { split; [exact Logic.I|congruence]. }
  intro X. injection X as <-. split; [split; cbn [fst snd]; congruence|].
  eexists. split; [reflexivity|]. split; assumption.
Qed.

Lemma pbfs_rel n s s' s1 : vstate s -> sstates s s' ->
  mwhile n (fun s => has_vals (vnvals (fst s))) (bfs_body ramp G) s = Ok (Some s1) ->
  exists s1', mwhile n (fun s => has_vals (vnvals (fst s))) (pbfs_body PT ramp G) s' = Ok (Some s1') /\ sstates s1 s1'.
Proof.
  intros Hs Hr E. destruct (mwhile_step (fun s => has_vals (vnvals (fst s))) (fun s => has_vals (vnvals (fst s)))
    (bfs_body ramp G) (pbfs_body PT ramp G) vstate sstates) with (n := n) (s := s) (s' := s') (s1 := s1)
    as (s2 & E2 & R2 & _); auto.
  - intros t t' _ [Ht _]. rewrite (vrel_nvals _ _ _ Ht). reflexivity.
  - intros t t' t1 Ht Hr' _. apply pbfs_step; auto.
  - eauto.
Qed.
End FromSource.

(** ** The whole searches *)
Lemma walks_same {A B} (G : lil A) (G' : lil B) (R R' : nat -> Prop) : (forall u v, edge G u v = edge G' u v) ->
  (forall v, R v <-> R' v) -> forall k v, walks (edge G) R k v <-> walks (edge G') R' k v.
Proof.
  clear. intros He HR k. induction k as [|k IH]; intro v; cbn [walks]; [apply HR|].
  split; intros (u & H1 & H2); exists u; (split; [apply IH; auto|congruence]).
Qed.
Lemma best_parent_same {A B} (G : lil A) (G' : lil B) (R R' : nat -> Prop) : (forall u v, edge G u v = edge G' u v) ->
  (forall v, R v <-> R' v) -> forall p v, best_parent (edge G) R p v <-> best_parent (edge G') R' p v.
Proof.
  clear. intros He HR p v. pose proof (walks_same G G' R R' He HR) as HW.
  assert (HA : forall k u, at_distance (edge G) R k u <-> at_distance (edge G') R' k u).
  { intros k u. unfold at_distance. rewrite HW. split; intros [H1 H2]; (split; [auto|]); intros k' Hk Hw; apply (H2 k' Hk), HW; auto. }
  unfold best_parent. split; intros (d & H1 & H2 & H3 & H4); exists d; (split; [apply HA; auto|]); (split; [apply HA; auto|]);
    (split; [congruence|]); intros p' Hp He'; (apply H4; [apply HA; auto|congruence]).
Qed.
Lemma orel_none {A B} (R : A -> B -> Prop) o o' : orel R o o' -> (o <> None <-> o' <> None).
Proof. destruct o, o'; simpl; intuition congruence. Qed.
Lemma related_values (Q : nat -> Prop) (S : scalar) o (o' : option (sty S)) :
  orel (ix N S) o o' -> (forall q, o = Some q <-> Q q) -> (forall q, Q q -> q < N) ->
  forall x, o' = Some x <-> exists q, x = of_index S q /\ Q q.
Proof.
  clear. intros H HQ HN x. split.
  - intros ->. destruct o as [q|]; [|contradiction]. exists q. assert (Hq : Q q) by (apply HQ; auto). split; [apply H, HN; auto|auto].
  - intros (q & -> & Hq). pose proof (HN q Hq). apply HQ in Hq. subst o. destruct o' as [y|]; [|contradiction]. simpl in H. f_equal. apply H; auto.
Qed.

Lemma pbfs_w_ok n (G : lil (sty GT)) (roots : bvec (sty WT)) (parents : bvec (sty PT)) :
  wfm G -> nrows G = N -> ncols G = N -> N <> 0 -> wfv roots -> vsize roots = N -> wfv parents -> vsize parents = N -> N < n ->
  exists p, pbfs_w lt WT PT n G roots parents = Ok (Some p) /\ wfv p /\ vsize p = N /\
    forall v x, v < N -> (vget p v = Some x <-> exists q, x = of_index PT q /\
      ((vget roots v <> None /\ q = v) \/ best_parent (edge G) (fun u => vget roots u <> None) q v)).
Proof.
  intros WG RG CG N0 Wo So Wp Sp Hn.
  destruct (same_lil 0 G WG) as (G' & HG0). assert (HG : mrel (fun _ _ => True) G' G) by (eapply mrel_sub; [|exact HG0]; auto).
  pose proof HG as (WG' & _ & RG' & CG' & GG).
  destruct (same_vec N roots) as (roots' & Ho0); [congruence|auto|].
  destruct (same_vec N parents) as (parents' & Hp0); [congruence|auto|].
  assert (Ho : vrel (ix N WT) roots' roots) by (eapply vrel_sub; [|exact Ho0]; intros ? ? ->; intro; lia).
  assert (Hp : vrel (ix N PT) parents' parents) by (eapply vrel_sub; [|exact Hp0]; intros ? ? ->; intro; lia).
  pose proof Ho as (Wo' & _ & So' & Go). pose proof Hp as (Wp' & _ & Sp' & _).
  destruct (PropBfs.C59_bfs_wavefront nat G' N n idc idc (jmin N) (jsum N) roots' parents') as (p & E & Wq & Sq & Gq); auto; try congruence.
  { apply jmin_ok. }
  revert E. unfold bfs_w, pbfs_w. rewrite RG', RG. destruct (index_ramp_ok N N0) as (ramp & -> & Wr & Sr & _). cbn [bind].
  destruct (first_step ramp Wr Sr (ix N WT) PT parents' parents roots' roots) as (a & a' & -> & -> & Ra & Sa); auto; try congruence. cbn [bind].
  destruct (first_step ramp Wr Sr (ix N PT) PT a a' a a') as (b & b' & -> & -> & Rb & Sb); auto. cbn [bind].
  destruct (mwhile n _ _ _) as [[s1|]| |] eqn:El; cbn [bind option_map]; try discriminate. intro X. injection X as X.
  destruct (pbfs_w_rel G G' ramp HG RG CG Wr Sr n (roots', b) (roots, b') s1) as (s2 & -> & Hs2 & Hs3); auto.
  { split; cbn [fst snd]; congruence. } { split; auto. }
  cbn [bind option_map]. rewrite X in Hs3. pose proof Hs3 as (_ & W3 & S3 & G3).
  exists (snd s2). split; [reflexivity|]. split; [auto|]. split; [congruence|]. intros v x Hv.
  apply (related_values _ PT (vget p v)); auto.
  - intro q. rewrite Gq by auto. rewrite (orel_none _ _ _ (Go v)).
    rewrite (best_parent_same G' G (fun u => vget roots' u <> None) (fun u => vget roots u <> None)); [reflexivity| |].
    + intros u w. unfold edge. apply (is_some_rel _ _ _ (GG u w)).
    + intro u. apply (orel_none _ _ _ (Go u)).
  - intros q [[_ ->]|(d & _ & _ & H & _)]; [auto|]. apply (edge_bound G N) in H; auto. tauto.
Qed.

Lemma pbfs_batch_ok n (G : lil (sty GT)) (roots : lil (sty WT)) (parents : lil (sty PT)) :
  wfm G -> nrows G = N -> ncols G = N -> wfm roots -> ncols roots = N -> wfm parents -> nrows parents = nrows roots -> ncols parents = N -> N < n ->
  exists p, pbfs_batch lt WT PT n G roots parents = Ok (Some p) /\ wfm p /\ nrows p = nrows roots /\ ncols p = N /\
    forall r v x, r < nrows roots -> v < N -> (mget p r v = Some x <-> exists q, x = of_index PT q /\
      ((mget roots r v <> None /\ q = v) \/ best_parent (edge G) (fun u => mget roots r u <> None) q v)).
Proof.
  intros WG RG CG Wo Co Wp Rp Cp Hn.
  destruct (same_lil 0 G WG) as (G' & HG0). assert (HG : mrel (fun _ _ => True) G' G) by (eapply mrel_sub; [|exact HG0]; auto).
  pose proof HG as (WG' & _ & RG' & CG' & GG).
  destruct (same_lil N roots) as (roots' & Ho0); [auto|].
  destruct (same_lil N parents) as (parents' & Hp0); [auto|].
  assert (Ho : mrel (ix N WT) roots' roots) by (eapply mrel_sub; [|exact Ho0]; intros ? ? ->; intro; lia).
  assert (Hp : mrel (ix N PT) parents' parents) by (eapply mrel_sub; [|exact Hp0]; intros ? ? ->; intro; lia).
  pose proof Ho as (Wo' & _ & Ro' & Co' & Go). pose proof Hp as (Wp' & _ & Rp' & Cp' & _).
  destruct (PropBfs.C59_bfs_batch nat G' N n idc idc (jmin N) (jsum N) roots' parents') as (p & E & Wq & Rq & Cq & Gq); auto; try congruence.
  { apply jmin_ok. }
  revert E. unfold bfs_batch, pbfs_batch. rewrite RG', RG. destruct (index_ramp_m_ok N) as (ramp & -> & Wr & Rr & Cr & _). cbn [bind].
  destruct (to_index_step (nrows roots) ramp Wr Rr Cr pt parents' parents roots' roots) as (a & a' & -> & -> & Ra & S1 & S2); auto; try congruence. cbn [bind].
  destruct (mwhile n _ _ _) as [[s1|]| |] eqn:El; cbn [bind option_map]; try discriminate. intro X. injection X as X.
  destruct (pbfs_batch_rel (nrows roots) G G' ramp HG RG CG Wr Rr Cr n (roots', a) (roots, a') s1) as (s2 & -> & Hs2 & Hs3); auto.
  { split; split; cbn [fst snd]; congruence. } { split; auto. }
  cbn [bind option_map]. rewrite X in Hs3. pose proof Hs3 as (_ & W3 & R3 & C3 & G3).
  exists (snd s2). split; [reflexivity|]. split; [auto|]. split; [congruence|]. split; [congruence|]. intros r v x Hr Hv.
  apply (related_values _ PT (mget p r v)); auto.
  - intro q. rewrite Gq by (auto; congruence). rewrite (orel_none _ _ _ (Go r v)).
    rewrite (best_parent_same G' G (fun u => mget roots' r u <> None) (fun u => mget roots r u <> None)); [reflexivity| |].
    + intros u w. unfold edge. apply (is_some_rel _ _ _ (GG u w)).
    + intro u. apply (orel_none _ _ _ (Go r u)).
  - intros q [[_ ->]|(d & _ & _ & H & _)]; [auto|]. apply (edge_bound G N) in H; auto. tauto.
Qed.

Lemma pbfs_ok {T} n (G : lil T) source (parents : bvec (sty PT)) :
  wfm G -> nrows G = N -> ncols G = N -> source < N -> wfv0 parents -> vsize parents = N -> N < n ->
  exists p, pbfs PT n G source parents = Ok (Some p) /\ wfv p /\ vsize p = N /\
    forall v x, v < N -> (vget p v = Some x <-> exists q, x = of_index PT q /\
      ((v = source /\ q = source) \/ best_parent (edge G) (eq source) q v)).
Proof.
  intros WG RG CG Hs Wp Sp Hn.
  assert (N0 : N <> 0) by lia.
  destruct (vec_new_ok 0 N N0) as (par & _ & Wpar & Spar & _).
  destruct (PropBfs.C42_bfs_parents T G N n source par) as (p & E & Wq & Sq & Gq); auto; [apply Wpar|].
  revert E. unfold bfs, pbfs. rewrite RG. destruct (index_ramp_ok N N0) as (ramp & -> & Wr & Sr & _). cbn [bind].
  destruct (vec_new_ok 0 N N0) as (w0 & -> & W0 & S0 & _). cbn [bind].
  destruct (vec_setElement_ok w0 source 1) as (w1 & -> & _ & S1 & _ & _ & W1); [apply W0|lia|]. specialize (W1 W0). cbn [bind].
  destruct (vec_clear_wf par) as (Wc & Gc); [apply Wpar|].
  destruct (vec_clear_wf parents) as (Wd & Gd); [auto|].
  destruct (vec_setElement_ok (vec_clear par) source source) as (a & -> & _ & Sa & _ & Ga & Wa); [apply Wc|cbn; lia|]. cbn [bind].
  destruct (vec_setElement_ok (vec_clear parents) source (of_index PT source)) as (a' & -> & _ & Sa' & _ & Ga' & Wa'); [apply Wd|cbn; lia|]. cbn [bind]. change (vsize (vec_clear par)) with (vsize par) in Sa. change (vsize (vec_clear parents)) with (vsize parents) in Sa'.
  specialize (Wa Wc). specialize (Wa' Wd).
  destruct (mwhile n _ _ _) as [[s1|]| |] eqn:El; cbn [bind option_map]; try discriminate. intro X. injection X as X.
  destruct (pbfs_rel G ramp WG RG CG Wr Sr n (w1, a) (w1, a') s1) as (s2 & -> & Hs2 & Hs3); auto.
  { split; cbn [fst snd]; congruence. }
  { split; cbn [fst snd].
    - repeat split; try apply W1. intro i. destruct (vget w1 i); simpl; auto.
    - split; [auto|]. split; [auto|]. split; [congruence|]. intro i. rewrite Ga, Ga', Gc, Gd. destruct (i =? source); simpl; auto. intro. reflexivity. }
  cbn [bind option_map]. rewrite X in Hs3. pose proof Hs3 as (_ & W3 & S3 & G3).
  exists (snd s2). split; [reflexivity|]. split; [auto|]. split; [congruence|]. intros v x Hv.
  apply (related_values _ PT (vget p v)); auto.
  intros q [[_ ->]|(d & _ & _ & H & _)]; [auto|]. apply (edge_bound G N) in H; auto. tauto.
Qed.
End Types.
