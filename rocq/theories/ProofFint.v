(** Shortest paths with floating point weights that are small integers. *)
From Coq Require Import Lia ZArith Floats.SpecFloat.
From Verif Require Import Base ModelLil ModelVec ModelHelpers ModelViews ModelMul ModelElem ModelAlgoBase ModelSssp ModelFloat ModelFsssp
  Spec SpecOps SpecPaths SpecFloats SpecFpaths ProofBase ProofVec ProofLil ProofElem ProofUtils ProofGraph ProofRound ProofFloat
  ProofPaths ProofSssp ProofGpaths ProofFsssp.

Section Int.
Variable t : ftype.

(** [x] is the integer [z], of absolute value at most [K]. *)
Definition isint (K z : Z) (x : fval) : Prop := (Z.abs z <= K)%Z /\ number t x /\ feq x (of_int t z).
Definition oisint (K : Z) (a : option Z) (b : option fval) : Prop :=
  match a, b with
  | Some z, Some x => isint K z x
  | None, None => True
  | _, _ => False
  end.
Notation P := (2 ^ prec t)%Z.

Lemma isint_sv K z x : (K <= P)%Z -> isint K z x -> sv t x = (z * unit_of t)%Z.
Proof.
  intros HK (B & N & E). destruct (int_ok t z) as (Nz & _ & S); [lia|]. apply (feq_sv t) in E; auto. congruence.
Qed.
Lemma isint_finite K z x : (K <= P)%Z -> isint K z x -> finite x.
Proof.
  intros HK (B & N & E). destruct (int_ok t z) as (Nz & F & S); [lia|].
  destruct x; try exact I; [|destruct N; congruence]. exfalso. unfold feq in E.
  destruct (of_int t z); try contradiction; destruct s; discriminate.
Qed.
Lemma isint_le K K' z x : (K <= K')%Z -> isint K z x -> isint K' z x.
Proof. intros H (B & R). split; [lia|auto]. Qed.
Lemma oisint_le K K' z x : (K <= K')%Z -> oisint K z x -> oisint K' z x.
Proof. intros H. destruct z, x; simpl; auto. apply isint_le; auto. Qed.
Lemma isint_plus K M a x b y : (0 <= K)%Z -> (0 <= M)%Z -> (K + M <= P)%Z -> isint K a x -> isint M b y ->
  isint (K + M) (a + b) (FPlus t x y).
Proof.
  intros K0 M0 H Hx Hy. pose proof (isint_sv K a x ltac:(lia) Hx) as Sx. pose proof (isint_sv M b y ltac:(lia) Hy) as Sy.
  pose proof (isint_finite K a x ltac:(lia) Hx) as Fx. pose proof (isint_finite M b y ltac:(lia) Hy) as Fy.
  destruct Hx as (Bx & Nx & _), Hy as (By & Ny & _).
  destruct (plus_fin t x y (proj1 Nx) (proj1 Ny) Fx Fy) as [Np Ep].
  split; [lia|]. split; [auto|]. destruct (int_ok t (a + b)) as (Nz & _ & S); [lia|].
  apply (feq_sv t); auto. rewrite Ep, Sx, Sy, S, <- Z.mul_add_distr_r. apply Rz_int. lia.
Qed.
Lemma isint_min K a x b y : (K <= P)%Z -> isint K a x -> isint K b y -> isint K (zmin a b) (FMin t x y).
Proof.
  intros H Hx Hy. pose proof (isint_sv K a x H Hx) as Sx. pose proof (isint_sv K b y H Hy) as Sy.
  pose proof (unit_pos t). unfold zmin, FMin. rewrite (ltb_sv t), Sx, Sy by (apply Hx || apply Hy).
  destruct (Z.ltb_spec a b), (Z.ltb_spec (a * unit_of t) (b * unit_of t)); auto; nia.
Qed.
Lemma isint_eqb K a x b y : (K <= P)%Z -> isint K a x -> isint K b y -> FEqual x y = (a =? b)%Z.
Proof.
  intros H Hx Hy. pose proof (isint_sv K a x H Hx) as Sx. pose proof (isint_sv K b y H Hy) as Sy.
  pose proof (unit_pos t). unfold FEqual. rewrite (eqb_sv t), Sx, Sy by (apply Hx || apply Hy).
  destruct (Z.eqb_spec a b), (Z.eqb_spec (a * unit_of t) (b * unit_of t)); auto; nia.
Qed.
Lemma oisint_min K a x b y : (K <= P)%Z -> oisint K a x -> oisint K b y -> oisint K (oadd zmin a b) (oadd (FMin t) x y).
Proof.
  intro H. destruct a, x; try contradiction; destruct b, y; try contradiction; simpl; auto. apply isint_min; auto.
Qed.
Lemma osum_int K l l' : (K <= P)%Z -> Forall2 (oisint K) l l' -> oisint K (osum zmin l) (osum (FMin t) l').
Proof.
  intros H F. unfold osum.
  assert (G : forall a b, oisint K a b -> oisint K (fold_left (oadd zmin) l a) (fold_left (oadd (FMin t)) l' b)).
  { induction F as [|x y l l' Hxy F IH]; intros a b Hab; simpl; [auto|]. apply IH, oisint_min; auto. }
  apply G. exact I.
Qed.
Lemma Forall2_map2 {A B C} (R : B -> C -> Prop) (f : A -> B) (g : A -> C) l :
  (forall x, R (f x) (g x)) -> Forall2 R (map f l) (map g l).
Proof. intro H. induction l; simpl; constructor; auto. Qed.

(** One step. *)
Lemma cand_int N K M w fw d fd v : (0 <= K)%Z -> (0 <= M)%Z -> (K + M <= P)%Z ->
  (forall u, oisint M (w u v) (fw u v)) -> (forall u, oisint K (d u) (fd u)) ->
  oisint (K + M) (candidates N w d v) (gcand fval (FMin t) (FPlus t) N fw fd v).
Proof.
  intros K0 M0 H Hw Hd. apply osum_int; auto. apply Forall2_map2. intro u. specialize (Hw u). specialize (Hd u).
  destruct (d u), (fd u); try contradiction; destruct (w u v), (fw u v); try contradiction; simpl; auto.
  apply isint_plus; auto.
Qed.
Lemma step_int N K M w fw d fd v : (0 <= K)%Z -> (0 <= M)%Z -> (K + M <= P)%Z ->
  (forall u, oisint M (w u v) (fw u v)) -> (forall u, oisint K (d u) (fd u)) ->
  oisint (K + M) (oadd zmin (d v) (candidates N w d v)) (oadd (FMin t) (fd v) (gcand fval (FMin t) (FPlus t) N fw fd v)).
Proof.
  intros. apply oisint_min; auto; [apply (oisint_le K); [lia|auto]|apply cand_int; auto].
Qed.

Section Graph.
Variables (G : lil Z) (FG : lil fval) (N : nat) (M : Z).
Hypothesis WG : wfm G.
Hypothesis RG : nrows G = N.
Hypothesis CG : ncols G = N.
Hypothesis WF : wfm FG.
Hypothesis RF : nrows FG = N.
Hypothesis CF : ncols FG = N.
Hypothesis M0 : (0 <= M)%Z.
Hypothesis HG : forall u v, oisint M (mget G u v) (mget FG u v).
Hypothesis HM : (M * (Z.of_nat N + 1) <= P)%Z.

Definition vrel K (d : bvec Z) (fd : bvec fval) : Prop :=
  wfv d /\ vsize d = N /\ wfv fd /\ vsize fd = N /\ forall v, oisint K (vget d v) (vget fd v).
Lemma sstep_int K d fd : (0 <= K)%Z -> (K + M <= P)%Z -> vrel K d fd ->
  exists d' fd', sssp_step G d = Ok d' /\ gstep (FMin t) (FPlus t) FG fd = Ok fd' /\ vrel (K + M) d' fd'.
Proof.
  intros K0 HK (W & S & W' & S' & H).
  destruct (sssp_step_ok G N WG RG CG d W S) as (d1 & E1 & W1 & S1 & G1).
  destruct (gstep_ok fval (FMin t) (FPlus t) FG N WF RF CF fd W' S') as (d2 & E2 & W2 & S2 & G2).
  exists d1, d2. split; [auto|]. split; [auto|]. split; [auto|]. split; [auto|]. split; [auto|]. split; [auto|].
  intro v. destruct (Nat.lt_ge_cases v N) as [Hv|Hv].
  - rewrite G1, G2 by auto. apply step_int; auto.
  - rewrite !vget_oob; [exact I|apply W2|lia|apply W1|lia].
Qed.
Lemma sloop_int n : forall k K d fd, (0 <= K)%Z -> (K + M * Z.of_nat n <= P)%Z -> vrel K d fd ->
  exists d' fd', mfor (seq k n) (fun _ d => sssp_step G d) d = Ok d' /\
    mfor (seq k n) (fun _ d => gstep (FMin t) (FPlus t) FG d) fd = Ok fd' /\ vrel (K + M * Z.of_nat n) d' fd'.
Proof.
  induction n as [|n IH]; intros k K d fd K0 HK H.
  - simpl. exists d, fd. split; [auto|]. split; [auto|]. replace (K + M * Z.of_nat 0)%Z with K by lia. auto.
  - rewrite Nat2Z.inj_succ in HK. destruct (sstep_int K d fd) as (d1 & fd1 & E1 & E2 & R); auto; [nia|].
    cbn [seq mfor]. rewrite E1, E2. cbn [bind].
    destruct (IH (S k) (K + M)%Z d1 fd1) as (d2 & fd2 & E3 & E4 & R2); auto; [lia|nia|].
    exists d2, fd2. split; [auto|]. split; [auto|].
    replace (K + M * Z.of_nat (S n))%Z with (K + M + M * Z.of_nat n)%Z by lia. auto.
Qed.

Theorem fsssp_int dist fdist : N <> 0 -> vrel M dist fdist ->
  exists b d fd, sssp G dist = Ok (b, d) /\ fsssp t FG fdist = Ok (b, fd) /\ vrel (M * Z.of_nat N) d fd.
Proof.
  intros N0 R. pose proof R as (_ & S & _ & S' & _). unfold sssp, fsssp, gsssp.
  rewrite RG, CG, RF, CF, S, S', Nat.eqb_refl. cbn [negb orb].
  destruct (sloop_int (N - 1) 0 M dist fdist M0) as (d & fd & -> & -> & R1); [nia|auto|]. cbn [bind].
  replace (M + M * Z.of_nat (N - 1))%Z with (M * Z.of_nat N)%Z in R1 by nia.
  destruct (sstep_int (M * Z.of_nat N) d fd) as (d2 & fd2 & -> & -> & R2); [nia|nia|auto|]. cbn [bind].
  destruct (vec_new_ok false N N0) as (f & -> & Wf & Sf & _). cbn [bind].
  pose proof R1 as (W1 & S1 & W1' & S1' & H1). pose proof R2 as (W2 & S2 & W2' & S2' & H2).
  destruct (eWiseMult_v_ok Z.eqb btrue idc (NoAcc idc) vnomask MERGE f d d2) as (fl & -> & Wfl & Sfl & Gfl).
  { apply Wf. } { apply wfv_wfvn; auto. } { apply wfv_wfvn; auto. } { exact Logic.I. }
  { split; [exact Logic.I|]. split; congruence. }
  destruct (eWiseMult_v_ok FEqual btrue idc (NoAcc idc) vnomask MERGE f fd fd2) as (fl' & -> & Wfl' & Sfl' & Gfl').
  { apply Wf. } { apply wfv_wfvn; auto. } { apply wfv_wfvn; auto. } { exact Logic.I. }
  { split; [exact Logic.I|]. split; congruence. }
  cbn [bind]. exists (negb (any_false_v fl)), d, fd. split; [auto|]. split; [|auto].
  do 3 f_equal. apply eq_true_iff_eq. rewrite !any_false_v_iff by (apply Wfl || apply Wfl').
  assert (Eq : forall v, vget fl' v = vget fl v).
  { intro v. destruct (Nat.lt_ge_cases v N) as [Hv|Hv].
    - rewrite Gfl, Gfl' by congruence. simpl. specialize (H1 v). specialize (H2 v).
      destruct (vget d v), (vget fd v); try contradiction; destruct (vget d2 v), (vget fd2 v); try contradiction; simpl; auto.
      unfold idc. f_equal. apply (isint_eqb (M * Z.of_nat N + M)); [nia| |auto]. apply (isint_le (M * Z.of_nat N)); [lia|auto].
    - rewrite !vget_oob; [auto|apply Wfl|lia|apply Wfl'|lia]. }
  split; intros (i & Hi); exists i; rewrite <- Hi; auto.
Qed.
End Graph.

Lemma sssp_reaches G N : wfm G -> nrows G = N -> ncols G = N -> forall dist, N <> 0 -> wfv dist -> vsize dist = N ->
  forall b d, sssp G dist = Ok (b, d) -> b = true -> forall v k x, walk_from (mget G) (vget dist) k v x -> exists y, vget d v = Some y.
Proof.
  intros WG RG CG dist N0 Wd Sd b d E _ v k x Hw.
  destruct (gsssp_ok Z zmin Z.add Z.eqb ztrue (fun _ => True) (fun _ => True) (fun z => z)) with (G := G) (N := N) (dist := dist)
    as (b' & d' & E' & _ & _ & H & _); auto; [intros; lia|].
  change (gsssp zmin Z.add Z.eqb G dist) with (sssp G dist) in E'. rewrite E in E'. injection E' as <- <-.
  destruct (vget d v) as [y|] eqn:Ey; [eauto|]. exfalso. apply H with (j := k) (y := x) in Ey; auto. apply Ey.
  clear - Hw. revert v x Hw. induction k as [|k IH]; intros v x Hw.
  - apply walk_from_0 in Hw. apply rwalk_start. auto.
  - apply walk_from_S in Hw. destruct Hw as (u & y & g & Hw & Eg & ->). eapply rwalk_step; eauto.
Qed.
Lemma int_summary G FG dist fdist N b d fd K : wfm G -> nrows G = N -> ncols G = N -> wfv dist -> vsize dist = N -> N <> 0 ->
  (K <= P)%Z -> sssp G dist = Ok (b, d) -> fsssp t FG fdist = Ok (b, fd) -> vrel N K d fd ->
  sssp G dist = Ok (b, d) /\ fsssp t FG fdist = Ok (b, fd) /\ wfv fd /\ vsize fd = N /\
  (forall v, same_ints t (vget d v) (vget fd v)) /\
  (b = false <-> negative_cycle (mget G) (vget dist)) /\
  (b = true -> forall v, match vget fd v with
        | Some y => exists x, is_int t x y /\ shortest (mget G) (vget dist) v x
        | None => forall k x, ~ walk_from (mget G) (vget dist) k v x
        end).
Proof.
  intros WG RG CG Wd Sd N0 HK E1 E2 (W & S & W' & S' & R). split; [auto|]. split; [auto|]. split; [auto|]. split; [auto|].
  assert (SI : forall v, same_ints t (vget d v) (vget fd v)).
  { intro v. specialize (R v). destruct (vget d v), (vget fd v); try contradiction; auto. exact (proj2 R). }
  split; [auto|].
  destruct (sssp_ok G N WG RG CG dist N0 Wd Sd) as (b' & d' & E & _ & _ & _ & H2 & H3).
  rewrite E1 in E. injection E as <- <-. split; [auto|]. intros B v. specialize (SI v).
  destruct (vget fd v) as [y|], (vget d v) as [z|] eqn:Ez; try contradiction.
  - exists z. split; [exact SI|]. apply H3; auto.
  - intros k x Hw. destruct (sssp_reaches G N WG RG CG dist N0 Wd Sd b d E1 B v k x Hw) as (y & Hy). congruence.
Qed.
End Int.
