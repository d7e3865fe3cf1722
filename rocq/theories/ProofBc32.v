(** The batch algorithms with [int32_t] numbers of paths: as long as the numbers fit they agree with those of ProofBc. *)
From Coq Require Import Lia ZArith QArith Qcanon.
From Verif Require Import Base ModelLil ModelVec ModelHelpers ModelViews ModelMul ModelElem ModelIndex ModelUtils
  ModelAlgoBase ModelRank ModelAlgebra ModelInts ModelBc ModelBc32 Spec SpecOps SpecRank SpecBc SpecAlgebra SpecInts ProofBase
  ProofRow ProofLil ProofElem ProofReduce ProofGraph ProofRank ProofVis ProofRc ProofBcPaths ProofBcRow ProofBc ProofLaws ProofInts.
Local Open Scope nat_scope.

Definition okf (f : nat -> nat -> option Z) (i v : nat) : option ival := option_map (fun z => Ok z) (f i v).

Lemma int32_type : integer_type int32.
Proof. exists true, W32. auto. Qed.
Lemma fits32 z : (0 <= z <= 2147483647)%Z -> inty int32 z.
Proof. intro H. unfold inty, int32, tmin, tmax. simpl. lia. Qed.
Lemma plus32 a b : (0 <= a + b <= 2147483647)%Z -> op2 Plus int32 (Ok a) (Ok b) = Ok (a + b)%Z.
Proof. intro H. simpl. apply fits_plus; [apply int32_type|apply fits32; auto]. Qed.
Lemma times32 a : (0 <= a <= 2147483647)%Z -> op2 Times int32 (Ok a) (Ok 1%Z) = Ok a.
Proof.
  intro H. simpl. rewrite fits_times; [f_equal; lia|apply int32_type|apply fits32; lia].
Qed.
Lemma times32' a : (0 <= a <= 2147483647)%Z -> op2 Times int32 (Ok 1%Z) (Ok a) = Ok a.
Proof.
  intro H. simpl. rewrite fits_times; [f_equal; lia|apply int32_type|apply fits32; lia].
Qed.

Lemma zadd32 a b : (Z.of_nat a + Z.of_nat b)%Z = Z.of_nat (a + b).
Proof. lia. Qed.
Lemma ztruthy32 a : ztrue (Z.of_nat a) = negb (a =? 0).
Proof. unfold ztrue. destruct (Nat.eqb_spec a 0) as [->|]; auto. destruct (Z.eqb_spec (Z.of_nat a) 0); auto. lia. Qed.

(** A sum of nonnegative numbers below a sum that fits. *)
Lemma osum32 (fz : nat -> option Z) (h : nat -> nat) m : (Z.of_nat (nsum m h) <= 2147483647)%Z ->
  (forall k z, k < m -> fz k = Some z -> (0 <= z <= Z.of_nat (h k))%Z) ->
  osum (op2 Plus int32) (map (fun k => option_map (fun z => Ok z) (fz k)) (seq 0 m)) =
    option_map (fun z => Ok z) (osum Z.add (map fz (seq 0 m))) /\
  (forall z, osum Z.add (map fz (seq 0 m)) = Some z -> (0 <= z <= Z.of_nat (nsum m h))%Z).
Proof.
  induction m as [|m IH]; intros Hb H; [split; [auto|discriminate]|].
  cbn [nsum] in Hb. destruct IH as (E & Q); [lia|intros; apply H; auto; lia|].
  rewrite seq_S, !map_app. cbn [map Nat.add]. rewrite !osum_snoc'', E.
  destruct (osum Z.add (map fz (seq 0 m))) as [a|], (fz m) as [b|] eqn:Em; cbn [option_map oadd nsum].
  - specialize (Q a eq_refl). pose proof (H m b ltac:(lia) Em). rewrite plus32 by lia. split; [auto|].
    intros z [= <-]. lia.
  - specialize (Q a eq_refl). split; [auto|]. intros z [= <-]. lia.
  - pose proof (H m b ltac:(lia) Em). split; [auto|]. intros z [= <-]. lia.
  - split; [auto|discriminate].
Qed.

(** [plain] *)
Lemma rget_plain_row (r : row ival) j : rget (cast_row (fun x : ival => match x with Ok z => z | _ => 0%Z end) r) j =
  option_map (fun x : ival => match x with Ok z => z | _ => 0%Z end) (rget r j).
Proof. apply rget_cast. Qed.
Lemma mget_plain M i j : mget (plain M) i j = option_map (fun x : ival => match x with Ok z => z | _ => 0%Z end) (mget M i j).
Proof.
  unfold mget, plain. cbn [data].
  change (@nil (nat * Z)) with (cast_row (fun x : ival => match x with Ok z => z | _ => 0%Z end) []). rewrite map_nth. apply rget_cast.
Qed.
Lemma rc_plain R K M f : rc R K M (okf f) -> rc R K (plain M) f.
Proof.
  intros (((L & F) & V) & HR & HC & G). split; [|split; [auto|split; [auto|]]].
  - split; [split|].
    + simpl. rewrite map_length. auto.
    + simpl. apply Forall_map. eapply Forall_impl; [|exact F]. intros r. apply wfrow_cast.
    + cbn [plain nvals nrows ncols]. rewrite V. unfold mcount. f_equal. f_equal. apply filter_ext. intros [i j].
      rewrite mget_plain. destruct (mget M i j); auto.
  - intros i j Hi Hj. rewrite mget_plain, G by auto. unfold okf. destruct (f i j); auto.
Qed.

Section Batch.
Context {T : Type} (ti : T -> Z) (tq : T -> Qc) (A : lil T) (src : list nat) (N : nat).
Local Notation p := (length src).
Hypothesis WA : wfm A.
Hypothesis RA : nrows A = N.
Hypothesis CA : ncols A = N.
Hypothesis Hp : src <> [].
Hypothesis Hsrc : Forall (fun s => s < N) src.
Hypothesis Hone : forall u v x, mget A u v = Some x -> ti x = 1%Z /\ tq x = 1%Qc.
Local Notation edge := (ProofBc.edge A).
Local Notation sr i := (nth i src 0).
Local Notation paths s v := (length (shortest_paths N edge s v)).
Hypothesis Hfits : Forall (fun s => (Z.of_nat (list_sum (map (fun v => paths s v) (seq 0 N))) <= 2147483647)%Z) src.
Local Notation bv := (bv src N).
Local Notation isFi i := (isF N edge (sr i) Z.of_nat).
Local Notation isPi i := (isP N edge (sr i) Z.of_nat).
Local Notation masks := (masks A src N).
Local Notation within := (within A src N).
Local Notation rcA := (rcA A N WA RA CA).
Local Notation sr_lt := (sr_lt src N Hsrc).
Local Notation p_pos := (p_pos A src N RA CA Hp Hsrc).
Local Notation N_pos := (N_pos A src N RA CA Hp Hsrc).

Lemma fits i : i < p -> (Z.of_nat (nsum N (fun v => paths (sr i) v)) <= 2147483647)%Z.
Proof. intro Hi. rewrite <- nsum_list. rewrite Forall_forall in Hfits. apply (Hfits (sr i)). apply nth_In. auto. Qed.
Lemma nsum_ge (h : nat -> nat) m k : k < m -> h k <= nsum m h.
Proof. induction m; intro H; [lia|]. simpl. destruct (Nat.eq_dec k m) as [->|]; [lia|]. specialize (IHm ltac:(lia)). lia. Qed.
Lemma fits1 i v : i < p -> v < N -> (Z.of_nat (paths (sr i) v) <= 2147483647)%Z.
Proof. intros Hi Hv. pose proof (fits i Hi). pose proof (nsum_ge (fun v => paths (sr i) v) N v Hv). cbv beta in *. lia. Qed.

(** What is stored for the source itself. *)
Definition self (f g : nat -> nat -> option Z) : Prop := forall i, i < p ->
  (f i (sr i) = None \/ f i (sr i) = Some 1%Z) /\
  (g i (sr i) = Some 1%Z \/ (g i (sr i) = Some 2%Z /\ f i (sr i) = None)).

Lemma paths_lev i d v : i < p -> v < N -> levb N edge (sr i) d v = true -> W N edge d (sr i) v = paths (sr i) v.
Proof.
  intros Hi Hv L. apply levb_spec in L. apply (dist_lev N edge (sr i) (sr_lt i Hi) v d Hv) in L.
  rewrite shortest_dist, L. reflexivity.
Qed.
Lemma paths_self i : i < p -> paths (sr i) (sr i) = 1.
Proof.
  intro Hi. rewrite shortest_dist, (dist_source N edge (sr i) (sr_lt i Hi)). unfold walks_to. simpl. rewrite Nat.eqb_refl. auto.
Qed.
Lemma F_bound i d f v z : i < p -> v < N -> isFi i d f -> (f (sr i) = None \/ f (sr i) = Some 1%Z) -> f v = Some z ->
  (0 <= z <= Z.of_nat (paths (sr i) v))%Z.
Proof.
  intros Hi Hv (Q & _) HS E. destruct (Nat.eq_dec v (sr i)) as [->|Nv].
  - rewrite (paths_self i Hi). destruct HS as [HS|HS]; rewrite HS in E; [discriminate|]. injection E as <-. lia.
  - rewrite Q in E by auto. destruct (levb N edge (sr i) d v) eqn:L; [|discriminate]. injection E as <-.
    rewrite (paths_lev i d v Hi Hv L). lia.
Qed.
(** The frontier and the numbers of paths meet at the source only. *)
Lemma disjoint i k f g v : i < p -> v < N -> v <> sr i -> isFi i (S k) f -> isPi i k g -> f v = None \/ g v = None.
Proof.
  intros Hi Hv Nv (Q & _) (R & _). rewrite Q, R by auto. rewrite (levb_dist N edge (sr i) (sr_lt i Hi)) by auto.
  destruct (dist N edge (sr i) v) as [l|]; auto. destruct (Nat.leb_spec l k), (Nat.eqb_spec l (S k)); auto; lia.
Qed.

(** ** The operations *)
Lemma bv_defined o M f : bv o M (okf f) -> defined_m M = Ok M.
Proof.
  intro H. assert (Q : forall R K g, rc R K M g -> (forall i j x, i < R -> j < K -> g i j = Some x -> exists z, x = Ok z) ->
    defined_m M = Ok M).
  { intros R K g (V & HR & HC & G) Hg. apply defined_m_ok; auto. intros i j x E.
    assert (i < R /\ j < K) as (Hi & Hj).
    { rewrite <- HR, <- HC. apply (mget_some_bounds M i j x); auto. }
    rewrite G in E by auto. eauto. }
  destruct o; simpl in H; apply (Q _ _ _ H); intros i j x _ _ E; unfold okf in E.
  - destruct (f i j); [|discriminate]. injection E as <-. eauto.
  - destruct (f j i); [|discriminate]. injection E as <-. eauto.
Qed.
Lemma sigma32_ok o F f : bv o F (okf f) -> exists Sg, b32_sigma F = Ok Sg /\ bv o Sg (fun i v => option_map ztrue (f i v)).
Proof.
  intro HF. unfold b32_sigma. destruct o; simpl in *.
  - destruct (rc_dims _ _ _ _ HF) as (-> & ->).
    destruct (rc_apply p N itrue btrue mnomask _ MERGE _ F _ _ (rc_new _ _) HF (mrc_none _ _ _)) as (S & E & V).
    exists S. split; [exact E|]. eapply rc_ext; [exact V|]. intros i j _ _. unfold wr, okf. destruct (f i j); auto.
  - destruct (rc_dims _ _ _ _ HF) as (-> & ->).
    destruct (rc_apply N p itrue btrue mnomask _ MERGE _ F _ _ (rc_new _ _) HF (mrc_none _ _ _)) as (S & E & V).
    exists S. split; [exact E|]. eapply rc_ext; [exact V|]. intros i j _ _. unfold wr, okf. destruct (f j i); auto.
Qed.
Lemma count32_ok o (P X Y : lil ival) g (x y : nat -> nat -> option Z) : bv o P (okf g) -> bv o X (okf x) -> bv o Y (okf y) ->
  (forall i v a b, i < p -> v < N -> x i v = Some a -> y i v = Some b -> (0 <= a + b <= 2147483647)%Z) ->
  exists P', b32_count P X Y = Ok P' /\ bv o P' (okf (fun i v => ounion Z.add idc idc (x i v) (y i v))).
Proof.
  intros HP HX HY HB.
  assert (U : forall i v, i < p -> v < N -> ounion (op2 Plus int32) idc idc (okf x i v) (okf y i v) =
    okf (fun i v => ounion Z.add idc idc (x i v) (y i v)) i v).
  { intros i v Hi Hv. unfold okf. destruct (x i v) as [a|] eqn:Ea, (y i v) as [b|] eqn:Eb; auto. cbn [option_map ounion].
    rewrite plus32; [auto|]. eapply HB; eauto. }
  assert (Q : exists P', eWiseAdd (op2 Plus int32) idc idc (op2 Plus int32) idc idc btrue idc (NoAcc idc) mnomask MERGE P (Mat X) (Mat Y) = Ok P' /\
    bv o P' (okf (fun i v => ounion Z.add idc idc (x i v) (y i v)))).
  { destruct o; simpl in *.
    - destruct (rc_add p N (op2 Plus int32) idc idc (op2 Plus int32) idc idc btrue mnomask _ MERGE P X Y _ _ _ HP HX HY (mrc_none _ _ _)) as (S & E & V).
      exists S. split; [exact E|]. eapply rc_ext; [exact V|]. intros i v Hi Hv. apply U; auto.
    - destruct (rc_add N p (op2 Plus int32) idc idc (op2 Plus int32) idc idc btrue mnomask _ MERGE P X Y _ _ _ HP HX HY (mrc_none _ _ _)) as (S & E & V).
      exists S. split; [exact E|]. eapply rc_ext; [exact V|]. intros v i Hv Hi. apply U; auto. }
  destruct Q as (P' & E & V). exists P'. split; [|auto]. unfold b32_count. rewrite E. cbn [bind]. eapply bv_defined; eauto.
Qed.
Definition b32_next (o : bool) := if o then b32_next_r ti A else b32_next_c ti A.
Lemma product32 i d f v : i < p -> v < N -> isFi i d (f i) -> (f i (sr i) = None \/ f i (sr i) = Some 1%Z) ->
  osum (op2 Plus int32) (map (fun k => omap2 (imul_ia ti) (okf f i k) (mget A k v)) (seq 0 N)) =
  option_map (fun z => Ok z) (osum Z.add (map (fun k => omap2 (mul_ia ti) (f i k) (mget A k v)) (seq 0 N))).
Proof.
  intros Hi Hv HF HS.
  rewrite (map_ext_in _ (fun k => option_map (fun z : Z => Ok z) (omap2 (mul_ia ti) (f i k) (mget A k v)))).
  - apply (osum32 (fun k => omap2 (mul_ia ti) (f i k) (mget A k v)) (fun v => paths (sr i) v) N); [apply fits; auto|].
    intros k z Hk E. destruct (f i k) as [a|] eqn:Ef; [|discriminate]. destruct (mget A k v) as [e|] eqn:Ee; [|discriminate].
    injection E as <-. unfold mul_ia. rewrite (proj1 (Hone k v e Ee)). rewrite Z.mul_1_r. apply (F_bound i d (f i) k a); auto.
  - intros k Hk. apply in_seq in Hk. unfold okf. destruct (f i k) as [a|] eqn:Ef; [|auto].
    destruct (mget A k v) as [e|] eqn:Ee; [|auto]. cbn [option_map omap2]. f_equal. unfold imul_ia, mul_ia.
    rewrite (proj1 (Hone k v e Ee)), Z.mul_1_r.
    pose proof (F_bound i d (f i) k a Hi ltac:(lia) HF HS Ef). pose proof (fits1 i k Hi ltac:(lia)). apply times32. lia.
Qed.
Lemma imul_flip a x : imul_ai ti a x = imul_ia ti x a.
Proof. unfold imul_ai, imul_ia. destruct x; auto. simpl. unfold Times. rewrite Z.mul_comm. auto. Qed.
Lemma otrue32 o : otrue itrue (option_map (fun z => Ok z) o) = otrue ztrue o.
Proof. destruct o; auto. Qed.
Lemma next32_ok o P F g f d : bv o P (okf g) -> bv o F (okf f) -> (forall i, i < p -> isFi i (d i) (f i)) ->
  (forall i, i < p -> f i (sr i) = None \/ f i (sr i) = Some 1%Z) ->
  exists F', b32_next o P F = Ok F' /\ bv o F' (okf (next_f ti A N g f)).
Proof.
  intros HP HF IF IS.
  pose (t := fun i v => osum Z.add (map (fun k => omap2 (mul_ia ti) (f i k) (mget A k v)) (seq 0 N))).
  assert (U : forall i v, i < p -> v < N ->
    osum (op2 Plus int32) (map (fun k => omap2 (imul_ia ti) (okf f i k) (mget A k v)) (seq 0 N)) = okf t i v).
  { intros i v Hi Hv. apply (product32 i (d i) f v); auto. }
  assert (U' : forall i v, i < p -> v < N ->
    osum (op2 Plus int32) (map (fun k => omap2 (imul_ai ti) (mget A k v) (okf f i k)) (seq 0 N)) = okf t i v).
  { intros i v Hi Hv. rewrite <- U by auto. f_equal. apply map_ext. intro k. apply omap2_flip. intros. apply imul_flip. }
  destruct o; simpl in *.
  - unfold b32_next_r.
    destruct (rc_mxm p N N (op2 Plus int32) (imul_ia ti) (imul_ai ti) idc idc btrue mnomask _ REPLACE F F A _ _ _ HF HF rcA
      (mrc_none _ _ _)) as (T0 & -> & V). cbn [bind].
    rewrite (bv_defined true T0 t). 2: { eapply rc_ext; [exact V|]. intros i v Hi Hv. unfold wr. apply U; auto. }
    cbn [bind].
    destruct (rc_mxm p N N (op2 Plus int32) (imul_ia ti) (imul_ai ti) idc idc itrue (MComp P) _ REPLACE F F A _ _ _ HF HF rcA
      (mrc_comp p N itrue P _ HP)) as (F' & E & V').
    exists F'. split; [exact E|]. eapply rc_ext; [exact V'|]. intros i v Hi Hv. unfold wr. cbv beta. rewrite U by auto.
    unfold okf at 1. rewrite otrue32. unfold okf, next_f. destruct (negb _); auto.
  - unfold b32_next_c.
    destruct (rc_mxm_lt N N p (op2 Plus int32) (imul_ai ti) (imul_ia ti) idc idc btrue mnomask _ REPLACE F A F _ _ _ HF rcA HF
      (mrc_none _ _ _)) as (T0 & -> & V). cbn [bind].
    rewrite (bv_defined false T0 t). 2: { eapply rc_ext; [exact V|]. intros v i Hv Hi. unfold wr. apply U'; auto. }
    cbn [bind].
    destruct (rc_mxm_lt N N p (op2 Plus int32) (imul_ai ti) (imul_ia ti) idc idc itrue (MComp P) _ REPLACE F A F _ _ _ HF rcA HF
      (mrc_comp N p itrue P _ HP)) as (F' & E & V').
    exists F'. split; [exact E|]. eapply rc_ext; [exact V'|]. intros v i Hv Hi. unfold wr. cbv beta. rewrite U' by auto.
    unfold okf at 1. rewrite otrue32. unfold okf, next_f. destruct (negb _); auto.
Qed.

(** ** The invariant *)
Definition inv32 {X} (tr : X -> bool) (sh : nat) (o : bool) (k : nat) (st : bcs32 X) : Prop :=
  let '(F, P, Ss) := st in
  masks tr o k Ss /\ exists f g, bv o F (okf f) /\ bv o P (okf g) /\ self f g /\
    (forall i, i < p -> isFi i (sh + k) (f i)) /\ (forall i, i < p -> isPi i k (g i)).
Definition body32_ok {X} (tr : X -> bool) sh o (body : bcs32 X -> res (bcs32 X)) : Prop :=
  forall k st, inv32 tr sh o k st -> exists st', body st = Ok st' /\ inv32 tr sh o (S k) st'.

Local Notation zmulA := (zmulA ti tq A N RA CA Hone).
Local Notation esome := (fun u v (_ _ : _ < N) => edge_some A u v).

(** The sums of [count] are in range. *)
Lemma count_fits k f g i v a b : i < p -> v < N -> self f g -> isFi i (S k) (f i) -> isPi i k (g i) ->
  g i v = Some a -> f i v = Some b -> (0 <= a + b <= 2147483647)%Z.
Proof.
  intros Hi Hv HS IF IP Ea Eb. destruct (Nat.eq_dec v (sr i)) as [->|Nv].
  - destruct (HS i Hi) as ([Q|Q] & [R|(R & R')]); rewrite Q in Eb; try discriminate; try congruence.
    rewrite R in Ea. injection Ea as <-. injection Eb as <-. lia.
  - destruct (disjoint i k (f i) (g i) v Hi Hv Nv IF IP); congruence.
Qed.
Lemma next_self (P : nat -> nat -> option Z) f i : i < p -> (exists c, c <> 0%Z /\ P i (sr i) = Some c) -> next_f ti A N P f i (sr i) = None.
Proof.
  intros Hi (c & Hc & E). unfold next_f. rewrite E. simpl. unfold ztrue. destruct (Z.eqb_spec c 0); [lia|]. auto.
Qed.

Lemma body32_r_ok (o : bool) (body : bcs32 bool -> res (bcs32 bool)) :
  body = (if o then b32_body_r ti A else b32_body_c ti A) -> body32_ok btrue 1 o body.
Proof.
  intros -> k [[F P] Ss] (M & f & g & HF & HP & HS & IF & IP).
  assert (E : (if o then b32_body_r ti A else b32_body_c ti A) (F, P, Ss) =
    (Sg <- b32_sigma F ;; P <- b32_count P P F ;; F <- b32_next o P F ;; Ok (F, P, Ss ++ [Sg]))) by (destruct o; auto).
  rewrite E. clear E.
  destruct (sigma32_ok o F f HF) as (Sg & -> & VS). cbn [bind].
  destruct (count32_ok o P P F g g f HP HP HF) as (P' & -> & HP').
  { intros i v a b Hi Hv Ea Eb. apply (count_fits k f g i v a b Hi Hv HS (IF i Hi) (IP i Hi) Ea Eb). }
  cbn [bind].
  destruct (next32_ok o P' F _ f (fun _ => 1 + k) HP' HF IF (fun i Hi => proj1 (HS i Hi))) as (F' & -> & HF').
  cbn [bind]. eexists. split; [reflexivity|].
  assert (IP' : forall i, i < p -> isPi i (S k) (fun v => ounion Z.add idc idc (g i v) (f i v))).
  { intros i Hi. apply (step_P N edge (sr i) (sr_lt i Hi) Z.of_nat Z.add zadd32 k (f i) (g i) _ (IF i Hi) (IP i Hi)). auto. }
  split; [|exists (next_f ti A N (fun i v => ounion Z.add idc idc (g i v) (f i v)) f), (fun i v => ounion Z.add idc idc (g i v) (f i v));
    split; [exact HF'|split; [exact HP'|split; [|split]]]].
  - apply (masks_snoc A src N RA CA _ _ _ _ _ _ M VS). intros i Hi. apply (isS_map A src N RA CA Hsrc); [auto|lia|apply (IF i Hi)].
  - intros i Hi. destruct (HS i Hi) as (Q & R). split.
    + left. apply next_self; auto. destruct Q as [Q|Q], R as [R|(R & R')]; rewrite Q, R; cbn [ounion];
        eexists; (split; [|reflexivity]); unfold idc; lia.
    + destruct Q as [Q|Q], R as [R|(R & R')]; rewrite Q, R; cbn [ounion]; auto; try congruence.
      * right. split; [auto|]. apply next_self; auto. rewrite Q, R. cbn [ounion]. eexists. split; [|reflexivity]. unfold idc. lia.
      * right. split; [auto|]. apply next_self; auto. rewrite Q, R. cbn [ounion]. eexists. split; [|reflexivity]. lia.
  - intros i Hi. change (1 + S k) with (S (S k)).
    apply (step_F N edge (sr i) (sr_lt i Hi) Z.of_nat Z.add (mul_ia ti) ztrue (mget A) zadd32 ztruthy32
      esome zmulA (S k) (f i) _ _ (IF i Hi) (IP' i Hi)). intros v Hv. reflexivity.
  - exact IP'.
Qed.
Lemma body32_old_ok : forall k st, inv32 itrue 1 true k st -> exists st', b32_body_old ti A st = Ok st' /\ inv32 itrue 1 true (S k) st'.
Proof.
  intros k [[F P] Ss] (M & f & g & HF & HP & HS & IF & IP). unfold b32_body_old. change (b32_next_r ti A) with (b32_next true).
  destruct (count32_ok true P F P g f g HP HF HP) as (P' & -> & HP').
  { intros i v a b Hi Hv Ea Eb. rewrite Z.add_comm. apply (count_fits k f g i v b a Hi Hv HS (IF i Hi) (IP i Hi) Eb Ea). }
  cbn [bind].
  destruct (next32_ok true P' F _ f (fun _ => 1 + k) HP' HF IF (fun i Hi => proj1 (HS i Hi))) as (F' & -> & HF').
  cbn [bind]. eexists. split; [reflexivity|].
  assert (IP' : forall i, i < p -> isPi i (S k) (fun v => ounion Z.add idc idc (f i v) (g i v))).
  { intros i Hi. apply (step_P' N edge (sr i) (sr_lt i Hi) Z.of_nat Z.add zadd32 k (f i) (g i) _ (IF i Hi) (IP i Hi)). auto. }
  split; [|exists (next_f ti A N (fun i v => ounion Z.add idc idc (f i v) (g i v)) f), (fun i v => ounion Z.add idc idc (f i v) (g i v));
    split; [exact HF'|split; [exact HP'|split; [|split]]]].
  - apply (masks_snoc A src N RA CA _ _ _ _ _ _ M HF). intros i Hi.
    pose proof (step_S N edge (sr i) (sr_lt i Hi) Z.of_nat ztrue ztruthy32 (S k) (f i) ltac:(lia) (IF i Hi)) as (Q & Q').
    split; [intros v Hv Nv; unfold okf; rewrite otrue32; apply Q; auto|intro; unfold okf; rewrite otrue32; apply Q'; auto].
  - intros i Hi. destruct (HS i Hi) as (Q & R). split.
    + left. apply next_self; auto. destruct Q as [Q|Q], R as [R|(R & R')]; rewrite Q, R; cbn [ounion];
        eexists; (split; [|reflexivity]); unfold idc; lia.
    + destruct Q as [Q|Q], R as [R|(R & R')]; rewrite Q, R; cbn [ounion]; auto; try congruence.
      * right. split; [auto|]. apply next_self; auto. rewrite Q, R. cbn [ounion]. eexists. split; [|reflexivity]. unfold idc. lia.
      * right. split; [auto|]. apply next_self; auto. rewrite Q, R. cbn [ounion]. eexists. split; [|reflexivity]. lia.
  - intros i Hi. change (1 + S k) with (S (S k)).
    apply (step_F N edge (sr i) (sr_lt i Hi) Z.of_nat Z.add (mul_ia ti) ztrue (mget A) zadd32 ztruthy32
      esome zmulA (S k) (f i) _ _ (IF i Hi) (IP' i Hi)). intros v Hv. reflexivity.
  - exact IP'.
Qed.
Lemma body32_src_ok : body32_ok btrue 0 false (b32_body_src ti A).
Proof.
  intros k [[F P] Ss] (M & f & g & HF & HP & HS & IF & IP). unfold b32_body_src. change (b32_next_c ti A) with (b32_next false).
  destruct (next32_ok false P F g f (fun _ => k) HP HF IF (fun i Hi => proj1 (HS i Hi))) as (F' & -> & HF'). cbn [bind].
  destruct (sigma32_ok false F' _ HF') as (Sg & -> & VS). cbn [bind].
  assert (IF' : forall i, i < p -> isFi i (S k) (next_f ti A N g f i)).
  { intros i Hi.
    apply (step_F N edge (sr i) (sr_lt i Hi) Z.of_nat Z.add (mul_ia ti) ztrue (mget A) zadd32 ztruthy32
      esome zmulA k (f i) (g i) _ (IF i Hi) (IP i Hi)). intros v Hv. reflexivity. }
  assert (NS : forall i, i < p -> next_f ti A N g f i (sr i) = None).
  { intros i Hi. apply next_self; auto. destruct (HS i Hi) as (_ & [R|(R & _)]); rewrite R; eexists; (split; [|reflexivity]); lia. }
  assert (HS' : self (next_f ti A N g f) g).
  { intros i Hi. split; [left; apply NS; auto|]. destruct (HS i Hi) as (_ & [R|(R & _)]); auto. }
  destruct (count32_ok false P P F' g g _ HP HP HF') as (P' & -> & HP').
  { intros i v a b Hi Hv Ea Eb. apply (count_fits k _ g i v a b Hi Hv HS' (IF' i Hi) (IP i Hi) Ea Eb). }
  cbn [bind]. eexists. split; [reflexivity|].
  split; [|exists (next_f ti A N g f), (fun i v => ounion Z.add idc idc (g i v) (next_f ti A N g f i v));
    split; [exact HF'|split; [exact HP'|split; [|split]]]].
  - apply (masks_snoc A src N RA CA _ _ _ _ _ _ M VS). intros i Hi. apply (isS_map A src N RA CA Hsrc); [auto|lia|apply (IF' i Hi)].
  - intros i Hi. rewrite (NS i Hi). split; [auto|]. destruct (HS i Hi) as (_ & [R|(R & _)]); rewrite R; cbn [ounion]; auto.
  - exact IF'.
  - intros i Hi. apply (step_P N edge (sr i) (sr_lt i Hi) Z.of_nat Z.add zadd32 k (next_f ti A N g f i) (g i)); auto.
Qed.

Lemma isSome_okf f i v : okf f i v <> None -> f i v <> None.
Proof. unfold okf. destruct (f i v); intros H; [discriminate|exact (fun _ => H eq_refl)]. Qed.
Lemma inv32_more {X} (tr : X -> bool) sh o k st : sh <= 1 -> inv32 tr sh o k st -> b32_more st = true -> k <= N.
Proof.
  intros Hsh. destruct st as [[F P] Ss]. intros (_ & f & g & HF & _ & _ & IF & _) E. unfold b32_more in E. simpl in E.
  destruct (bv_some src N o F _ HF E) as (i & v & Hi & Hv & Q). apply isSome_okf in Q.
  destruct (F_some N edge (sr i) (sr_lt i Hi) Z.of_nat _ _ v (IF i Hi) Hv Q) as [L|(L & _)]; [lia|]. pose proof N_pos. lia.
Qed.
Lemma inv32_done {X} (tr : X -> bool) sh o k st : sh <= 1 -> 1 <= sh + k -> inv32 tr sh o k st -> b32_more st = false -> within k.
Proof.
  intros Hsh Hk. destruct st as [[F P] Ss]. intros (_ & f & g & HF & _ & _ & IF & _) E i v l Hi Hv L. unfold b32_more in E. simpl in E.
  apply (F_none N edge (sr i) (sr_lt i Hi) Z.of_nat (sh + k) (f i) (IF i Hi)); auto.
  - intros u Hu. pose proof (bv_none src N o F _ HF E i u Hi Hu) as Q. unfold okf in Q. destruct (f i u); [discriminate|auto].
  - lia.
Qed.
Lemma loop32_ok {X} (tr : X -> bool) sh o body : sh <= 1 -> body32_ok tr sh o body -> forall m k st,
  inv32 tr sh o k st -> (1 <= sh + k \/ b32_more st = true) -> k <= S N -> S N - k < m ->
  exists st' k', mwhile m b32_more body st = Ok (Some st') /\ inv32 tr sh o k' st' /\ within k'.
Proof.
  intros Hsh HB. induction m as [|m IH]; intros k st I Hk Hk' Hm; [lia|]. simpl. destruct (b32_more st) eqn:E.
  - destruct (HB k st I) as (st' & -> & I'). cbn [bind]. pose proof (inv32_more tr sh o k st Hsh I E).
    apply (IH (S k)); auto; lia.
  - exists st, k. split; [auto|]. split; [auto|]. destruct Hk as [Hk|Hk]; [|congruence].
    apply (inv32_done tr sh o k st Hsh Hk I E).
Qed.
Lemma loop32_v2_ok : within 10 -> forall m k st, inv32 btrue 1 true k st -> k <= 10 -> 10 - k < m ->
  exists st' k', mwhile m (fun s => b32_more s && (length (snd s) <? 10)) (b32_body_r ti A) st = Ok (Some st') /\
    inv32 btrue 1 true k' st' /\ within k'.
Proof.
  intro Hw. induction m as [|m IH]; intros k st I Hk Hm; [lia|]. cbn [mwhile].
  assert (L : length (snd st) = k) by (destruct st as [[F P] Ss]; apply (proj1 I)). rewrite L.
  destruct (b32_more st) eqn:E; cbn [andb].
  - destruct (Nat.ltb_spec k 10) as [L'|L'].
    + destruct (body32_r_ok true _ eq_refl k st I) as (st' & -> & I'). cbn [bind]. apply (IH (S k)); auto; lia.
    + exists st, k. split; [auto|]. split; [auto|]. replace k with 10 by lia. auto.
  - exists st, k. split; [auto|]. split; [auto|]. apply (inv32_done btrue 1 true k st ltac:(lia) ltac:(lia) I E).
Qed.
Lemma bv_plain o M f : bv o M (okf f) -> bv o (plain M) f.
Proof. destruct o; simpl; apply rc_plain. Qed.

(** ** The functions *)
Lemma first_okf i v : option_map (fun x => Ok (ti x)) (mget A (sr i) v) = okf (fun i v => option_map ti (mget A (sr i) v)) i v.
Proof. unfold okf. destruct (mget A (sr i) v); auto. Qed.
Lemma source_okf i v : (if sr i =? v then Some (Ok 1%Z : ival) else None) = okf (fun i v => if sr i =? v then Some 1%Z else None) i v.
Proof. unfold okf. destruct (sr i =? v); auto. Qed.
Lemma start_self : self (fun i v => option_map ti (mget A (sr i) v)) (fun i v => if sr i =? v then Some 1%Z else None).
Proof.
  intros i Hi. cbv beta. rewrite Nat.eqb_refl. split; [|auto]. destruct (mget A (sr i) (sr i)) eqn:E; auto. simpl.
  rewrite (proj1 (Hone _ _ _ E)). auto.
Qed.
Lemma start_src : self (fun i v => if sr i =? v then Some 1%Z else None) (fun i v => if sr i =? v then Some 1%Z else None).
Proof. intros i Hi. cbv beta. rewrite Nat.eqb_refl. auto. Qed.
Lemma start_inv {X} (tr : X -> bool) o F P : bv o F (fun i v => option_map (fun x => Ok (ti x)) (mget A (sr i) v)) ->
  bv o P (fun i v => if sr i =? v then Some (Ok 1%Z : ival) else None) -> inv32 tr 1 o 0 (F, P, []).
Proof.
  intros VF VP. split; [split; [auto|intros; lia]|].
  exists (fun i v => option_map ti (mget A (sr i) v)), (fun i v => if sr i =? v then Some 1%Z else None).
  split; [eapply bv_ext; [exact VF|intros; apply first_okf]|].
  split; [eapply bv_ext; [exact VP|intros; apply source_okf]|]. split; [apply start_self|]. split.
  - intros i Hi. apply (first_F N edge (sr i) (sr_lt i Hi) Z.of_nat (mget A) esome).
    intros v Hv. destruct (mget A (sr i) v) eqn:E; auto. simpl. rewrite (proj1 (Hone _ _ _ E)). auto.
  - intros i Hi. apply (source_P N edge (sr i) (sr_lt i Hi) Z.of_nat). auto.
Qed.
Lemma build_rows32 : exists P, build_or_throw (lil_new p N) (src_rows32 src) = Ok P /\
  rc p N P (fun i v => if sr i =? v then Some (Ok 1%Z : ival) else None).
Proof. exact (rc_build_rows N src (Ok 1%Z : ival) Hsrc). Qed.
Lemma build_cols32 : exists P, build_or_throw (lil_new N p) (src_cols32 src) = Ok P /\
  rc N p P (fun v i => if sr i =? v then Some (Ok 1%Z : ival) else None).
Proof. exact (rc_build_cols N src (Ok 1%Z : ival) Hsrc). Qed.
Local Notation finish := (finish ti tq A src N WA RA CA Hsrc Hone).
Local Notation result_ok := (result_ok A src N RA CA Hp Hsrc).
Local Notation check_ok := (check_ok A src N RA CA Hp Hsrc).

Theorem bc32_alt_trans_ok n : S N < n -> bc32_batch_alt_trans ti tq n A src = Ok (Some (map (betweenness N edge src) (seq 0 N))).
Proof.
  intro Hn. unfold bc32_batch_alt_trans. rewrite check_ok, CA.
  destruct (rc_extract_rows N N (fun x => Ok (ti x)) A _ src rcA Hsrc) as (F & -> & VF). cbn [bind].
  destruct build_rows32 as (P & -> & VP). cbn [bind].
  destruct (loop32_ok btrue 1 true (b32_body_r ti A) ltac:(lia) (body32_r_ok true _ eq_refl) n 0 (F, P, [])
    (start_inv btrue true F P VF VP)) as (st & k & E & I & Hw); try lia.
  rewrite E. cbn [bind]. destruct st as [[F' P'] Ss]. destruct I as (M & f & g & _ & HP & _ & _ & IP). apply bv_plain in HP.
  destruct (finish true k (plain P') Ss g M HP IP Hw) as (I & B & -> & EB & W' & B' & EM & VB). cbn [bind].
  simpl in EB, EM. rewrite EB. cbn [bind]. rewrite EM. cbn [bind snd]. pose proof (result_ok true B' VB) as R. cbn [oview] in R. rewrite R. auto.
Qed.
Theorem bc32_alt_ok n : S N < n -> bc32_batch_alt ti tq n A src = Ok (Some (map (betweenness N edge src) (seq 0 N))).
Proof.
  intro Hn. unfold bc32_batch_alt. rewrite check_ok, CA.
  destruct (rc_extract_rows_t N N (fun x => Ok (ti x)) A _ src rcA Hsrc) as (F & -> & VF). cbn [bind].
  destruct build_cols32 as (P & -> & VP). cbn [bind].
  destruct (loop32_ok btrue 1 false (b32_body_c ti A) ltac:(lia) (body32_r_ok false _ eq_refl) n 0 (F, P, [])
    (start_inv btrue false F P VF VP)) as (st & k & E & I & Hw); try lia.
  rewrite E. cbn [bind]. destruct st as [[F' P'] Ss]. destruct I as (M & f & g & _ & HP & _ & _ & IP). apply bv_plain in HP.
  destruct (finish false k (plain P') Ss g M HP IP Hw) as (I & B & -> & EB & W' & B' & EM & VB). cbn [bind].
  simpl in EB, EM. rewrite EB. cbn [bind]. rewrite EM. cbn [bind snd]. pose proof (result_ok false B' VB) as R. cbn [oview] in R. rewrite R. auto.
Qed.
Theorem bc32_batch_ok n : S N < n -> bc32_batch ti tq n A src = Ok (Some (map (betweenness N edge src) (seq 0 N))).
Proof.
  intro Hn. unfold bc32_batch. rewrite check_ok, CA.
  destruct build_cols32 as (P & -> & VP). cbn [bind].
  destruct (loop32_ok btrue 0 false (b32_body_src ti A) ltac:(lia) body32_src_ok n 0 (P, P, [])) as (st & k & E & I & Hw);
    try lia.
  { split; [split; [auto|intros; lia]|].
    assert (VP' : bv false P (okf (fun i v => if sr i =? v then Some 1%Z else None))).
    { apply (bv_ext src N false P (fun i v => if sr i =? v then Some (Ok 1%Z : ival) else None)); [exact VP|intros; apply source_okf]. }
    exists (fun i v => if sr i =? v then Some 1%Z else None), (fun i v => if sr i =? v then Some 1%Z else None).
    split; [exact VP'|]. split; [exact VP'|]. split; [apply start_src|]. split.
    - intros i Hi. apply (source_F N edge (sr i) (sr_lt i Hi) Z.of_nat). auto.
    - intros i Hi. apply (source_P N edge (sr i) (sr_lt i Hi) Z.of_nat). auto. }
  { right. unfold b32_more. simpl. destruct (has_vals (nvals P)) eqn:EV; auto. exfalso.
    pose proof (rc_no_vals N p P _ VP EV (sr 0) 0 (sr_lt 0 p_pos) p_pos) as Q. simpl in Q. rewrite Nat.eqb_refl in Q. discriminate. }
  rewrite E. cbn [bind]. destruct st as [[F' P'] Ss]. destruct I as (M & f & g & _ & HP & _ & _ & IP). apply bv_plain in HP.
  destruct (finish false k (plain P') Ss g M HP IP Hw) as (I & B & -> & EB & W' & B' & EM & VB). cbn [bind].
  simpl in EB, EM. rewrite EB. cbn [bind]. rewrite EM. cbn [bind snd]. pose proof (result_ok false B' VB) as R. cbn [oview] in R. rewrite R. auto.
Qed.
(** The masks of the old version are the frontiers. *)
Lemma bv_inj o (M : lil ival) f g : bv o M f -> bv o M g -> forall i v, i < p -> v < N -> f i v = g i v.
Proof.
  intros H K i v Hi Hv. destruct o; simpl in H, K; destruct H as (_ & _ & _ & H), K as (_ & _ & _ & K);
    rewrite <- H, <- K; auto.
Qed.
Lemma masks_plain o k Ss : (forall j S, nth_error Ss j = Some S -> exists f, bv o S (okf f)) ->
  masks itrue o k Ss -> masks ztrue o k (map plain Ss).
Proof.
  intros D (L & M). split; [rewrite map_length; auto|]. intros j Hj. destruct (M j Hj) as (Sg & sg & E & V & I).
  destruct (D j Sg E) as (f & Vf). exists (plain Sg), f. rewrite nth_error_map, E. split; [auto|].
  split; [apply bv_plain; auto|]. intros i Hi. destruct (I i Hi) as (Q & Q').
  split; [intros v Hv Nv; rewrite <- Q by auto|intro H2; rewrite <- (Q' H2)];
    rewrite (bv_inj o Sg sg (okf f) V Vf i) by (auto; apply sr_lt; auto); unfold okf; rewrite otrue32; auto.
Qed.
Definition inv32o (k : nat) (st : bcs32 ival) : Prop :=
  inv32 itrue 1 true k st /\ forall j S, nth_error (snd st) j = Some S -> exists f, bv true S (okf f).
Lemma body32_old_ok' k st : inv32o k st -> exists st', b32_body_old ti A st = Ok st' /\ inv32o (S k) st'.
Proof.
  intros (I & D). destruct (body32_old_ok k st I) as (st' & E & I'). exists st'. split; [auto|]. split; [auto|].
  destruct st as [[F P] Ss], st' as [[F' P'] Ss']. cbn [snd] in *.
  assert (Q : Ss' = Ss ++ [F]).
  { unfold b32_body_old in E. destruct (b32_count P F P) as [P1| |]; try discriminate. cbn [bind] in E.
    destruct (b32_next_r ti A P1 F); try discriminate. cbn [bind] in E. congruence. }
  subst Ss'. intros j S Ej. destruct (Nat.lt_ge_cases j (length Ss)) as [Lj|Lj].
  - rewrite nth_error_app1 in Ej by auto. eapply D; eauto.
  - rewrite nth_error_app2 in Ej by auto. destruct (j - length Ss) as [|j']; simpl in Ej.
    + injection Ej as <-. destruct I as (_ & f & g & HF & _). eauto.
    + destruct j'; discriminate.
Qed.
Lemma loop32_old_ok : forall m k st, inv32o k st -> k <= S N -> S N - k < m ->
  exists st' k', mwhile m b32_more (b32_body_old ti A) st = Ok (Some st') /\ inv32o k' st' /\ within k'.
Proof.
  induction m as [|m IH]; intros k st I Hk' Hm; [lia|]. simpl. destruct (b32_more st) eqn:E.
  - destruct (body32_old_ok' k st I) as (st' & -> & I'). cbn [bind]. pose proof (inv32_more itrue 1 true k st ltac:(lia) (proj1 I) E).
    apply (IH (S k)); auto; lia.
  - exists st, k. split; [auto|]. split; [auto|].
    apply (inv32_done itrue 1 true k st ltac:(lia) ltac:(lia) (proj1 I) E).
Qed.
Theorem bc32_old_ok n : S N < n -> bc32_batch_old ti tq n A src = Ok (Some (map (betweenness N edge src) (seq 0 N))).
Proof.
  intro Hn. unfold bc32_batch_old. rewrite check_ok, CA.
  destruct build_rows32 as (P & -> & VP). cbn [bind].
  destruct (rc_extract_rows N N (fun x => Ok (ti x)) A _ src rcA Hsrc) as (F & -> & VF). cbn [bind].
  destruct (loop32_old_ok n 0 (F, P, [])) as (st & k & E & (I & D) & Hw); try lia.
  { split; [exact (start_inv itrue true F P VF VP)|]. intros [|j] S; discriminate. }
  rewrite E. cbn [bind]. destruct st as [[F' P'] Ss]. destruct I as (M & f & g & _ & HP & _ & _ & IP). apply bv_plain in HP.
  apply (masks_plain true k Ss D) in M.
  destruct (ones_ok src N true) as (B & EB & VB). simpl in EB. rewrite EB. cbn [bind].
  destruct (back_ok ti tq A src N RA CA Hsrc Hone ztrue true k (plain P') (map plain Ss) g (bc_back_old tq A (plain P') (map plain Ss)) (lil_new p N) B M HP IP Hw)
    as (W' & B' & EM & VB'); auto.
  { intros j W0 B0 b w Si Sp si sp Ei Ep Vi Vp HW0 HB0. eapply back_step_old; eauto. }
  { eexists. apply (bv_new src N true). }
  rewrite map_length in EM. rewrite EM. cbn [bind snd]. pose proof (result_ok true B' VB') as R. cbn [oview] in R. rewrite R. auto.
Qed.
Theorem bc32_v2_ok n : 10 < n -> shallow N edge 10 src ->
  bc32_batch_alt_trans_v2 ti tq n A src = Ok (Some (map (betweenness N edge src) (seq 0 N))).
Proof.
  intros Hn Hsh. apply (shallow_within A src N RA CA Hsrc) in Hsh. unfold bc32_batch_alt_trans_v2. rewrite check_ok, CA.
  destruct (rc_extract_rows N N (fun x => Ok (ti x)) A _ src rcA Hsrc) as (F & -> & VF). cbn [bind].
  destruct build_rows32 as (P & -> & VP). cbn [bind].
  destruct (loop32_v2_ok Hsh n 0 (F, P, []) (start_inv btrue true F P VF VP)) as (st & k & E & I & Hw); try lia.
  rewrite E. cbn [bind]. destruct st as [[F' P'] Ss]. destruct I as (M & f & g & _ & HP & _ & _ & IP). apply bv_plain in HP.
  destruct (finish true k (plain P') Ss g M HP IP Hw) as (I & B & -> & EB & W' & B' & EM & VB). cbn [bind].
  simpl in EB, EM. rewrite EB. cbn [bind]. rewrite EM. cbn [bind snd]. rewrite (result_v2_ok A src N RA CA Hp Hsrc B' VB). auto.
Qed.
End Batch.
