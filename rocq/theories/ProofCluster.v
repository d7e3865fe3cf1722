(** Peer pressure clustering. *)
From Coq Require Import Lia QArith Qcanon.
From Verif Require Import Base ModelLil ModelVec ModelHelpers ModelViews ModelMul ModelElem ModelIndex ModelUtils
  ModelAlgoBase ModelRank ModelCluster Spec SpecOps SpecRank SpecCluster ProofBase ProofLil ProofVec ProofElem ProofReduce
  ProofUtils ProofContainers ProofGraph ProofRank ProofVis ProofRc.
Local Open Scope nat_scope.

Lemma qeqb_true a b : qeqb a b = true <-> a = b.
Proof. unfold qeqb. destruct (Qc_eq_dec a b); split; congruence. Qed.
Lemma qmax_spec a b : (qmax a b = a \/ qmax a b = b) /\ (a <= qmax a b)%Qc /\ (b <= qmax a b)%Qc.
Proof. unfold qmax. destruct (Qclt_le_dec a b); repeat split; auto; qlra. Qed.

Lemma osum_qmax (l : list (option Qc)) :
  match osum qmax l with
  | Some M => In (Some M) l /\ forall x, In (Some x) l -> (x <= M)%Qc
  | None => forall x, In x l -> x = None
  end.
Proof.
  induction l as [|x l IH] using rev_ind; [simpl; tauto|]. rewrite osum_snoc'.
  destruct (osum qmax l) as [M|] eqn:E.
  - destruct IH as (I & L). destruct x as [x|]; simpl oadd; cbv iota.
    + destruct (qmax_spec M x) as (D & L1 & L2). split.
      * apply in_or_app. destruct D as [-> | ->]; [left; auto|right; left; auto].
      * intros y Hy. apply in_app_or in Hy. destruct Hy as [Hy|[Hy|[]]].
        -- specialize (L y Hy). qlra.
        -- injection Hy as ->. auto.
    + split; [apply in_or_app; auto|]. intros y Hy. apply in_app_or in Hy. destruct Hy as [Hy|[Hy|[]]]; [auto|discriminate].
  - destruct x as [x|]; simpl oadd; cbv iota.
    + split; [apply in_or_app; right; left; auto|]. intros y Hy. apply in_app_or in Hy. destruct Hy as [Hy|[Hy|[]]].
      * specialize (IH _ Hy). discriminate.
      * injection Hy as ->. qlra.
    + intros y Hy. apply in_app_or in Hy. destruct Hy as [Hy|[Hy|[]]]; auto.
Qed.

(** The elements that are the greatest of a column. *)
Definition picked (N : nat) (f : nat -> option Qc) (i : nat) : option bool :=
  omap2 qeqb (f i) (osum qmax (map f (seq 0 N))).
Lemma picked_true N f i : i < N ->
  (otrue btrue (picked N f i) = true <->
   exists x, f i = Some x /\ forall i' x', i' < N -> f i' = Some x' -> (x' <= x)%Qc).
Proof.
  intro Hi. unfold picked. pose proof (osum_qmax (map f (seq 0 N))) as H. destruct (osum qmax (map f (seq 0 N))) as [M|].
  - destruct H as (I & L). destruct (f i) as [x|] eqn:E; simpl.
    + unfold btrue. rewrite qeqb_true. split.
      * intros ->. exists M. split; [auto|]. intros i' x' Hi' E'. apply L. rewrite <- E'. apply in_map, in_seq. lia.
      * intros (y & Ey & Hy). injection Ey as <-. apply in_map_iff in I. destruct I as (k & Ek & Ik). apply in_seq in Ik.
        apply Qcle_antisym; [apply L; rewrite <- E; apply in_map, in_seq; lia|apply (Hy k); [lia|auto]].
    + split; [discriminate|]. intros (x & Ex & _). discriminate.
  - rewrite (H (f i)) by (apply in_map, in_seq; lia). simpl. split; [discriminate|]. intros (x & Ex & _). discriminate.
Qed.

Lemma rc_diag N w f : vis N w f -> exists D : lil Qc, diag idc w = Ok D /\ rc N N D (fun i j => if i =? j then f i else None).
Proof.
  intros (V & S0 & G). destruct (diag_ok idc w (proj1 V)) as (D & E & WD & R & C & GD).
  exists D. split; [auto|]. split; [auto|]. split; [congruence|]. split; [congruence|]. intros i j Hi Hj. rewrite GD.
  destruct (i =? j); auto. rewrite G by auto. destruct (f i); auto.
Qed.
Lemma cluster_nums_ok N : exists M, cluster_nums N = Ok M /\ rc N N M (fun i j => if i =? j then Some (i + 1) else None).
Proof.
  unfold cluster_nums.
  match goal with |- exists M, mfor (seq 0 N) ?body ?s0 = _ /\ _ =>
    destruct (mfor_seq_inv (fun k M => rc N N M (fun i j => if (i =? j) && (i <? k) then Some (i + 1) else None)) body N s0)
      as (M & E & H) end.
  - eapply rc_ext; [apply rc_new|]. intros i j Hi Hj. simpl. destruct (i =? j); auto.
  - intros k M Hk HM. destruct (sq_set N M _ k k (k + 1) HM Hk Hk) as (M' & -> & HM').
    exists M'. split; [auto|]. eapply rc_ext; [exact HM'|]. intros i j Hi Hj. simpl.
    destruct (Nat.eqb_spec i k) as [->|Nk], (Nat.eqb_spec j k) as [->|Nj]; simpl.
    + rewrite Nat.eqb_refl, (proj2 (Nat.ltb_lt k (S k))) by lia. auto.
    + rewrite (proj2 (Nat.eqb_neq k j)) by auto. auto.
    + rewrite (proj2 (Nat.eqb_neq i k)) by auto. auto.
    + destruct (i =? j); auto. simpl. destruct (Nat.ltb_spec i k), (Nat.ltb_spec i (S k)); auto; lia.
  - rewrite E. exists M. split; [auto|]. eapply rc_ext; [exact H|]. intros i j Hi Hj. simpl.
    rewrite (proj2 (Nat.ltb_lt i N)) by auto. destruct (i =? j); auto.
Qed.

Lemma mul_eq_diag N Cf f Tl fT D g :
  rc N N Cf f -> rc N N Tl fT -> rc N N D (fun i j => if i =? j then g i else None) ->
  exists Cf', mul_eq Cf Tl D = Ok Cf' /\ rc N N Cf' (fun i v => omap2 qeqb (fT i v) (g v)).
Proof.
  intros H HT HD. unfold mul_eq.
  destruct (rc_mxm N N N orb qeqb (fun x y => qeqb y x) idc idc btrue mnomask _ MERGE Cf Tl D _ _ _ H HT HD (mrc_none N N btrue))
    as (Cf' & E & H'). exists Cf'. split; [exact E|]. eapply rc_ext; [exact H'|]. intros i v Hi Hv. cbv beta. unfold wr.
  rewrite (osum_single _ _ N v Hv); [rewrite Nat.eqb_refl; auto|]. intros k Hk. rewrite (proj2 (Nat.eqb_neq k v)) by auto.
  destruct (fT i k); auto.
Qed.
Lemma lil_assign_ok {X} N (A B : lil X) f g : rc N N A f -> rc N N B g -> lil_assign A B = Ok B.
Proof.
  intros (_ & R & C & _) (_ & R' & C' & _). unfold lil_assign. rewrite R, R', C, C', !Nat.eqb_refl. destruct B; simpl in *. subst. reflexivity.
Qed.

Definition only_true (N : nat) (f : nat -> nat -> option bool) : Prop := forall i v, i < N -> v < N -> f i v <> Some false.
Definition mem (f : nat -> nat -> option bool) (i v : nat) : bool := match f i v with Some b => b | None => false end.

Lemma nat_q_le a b : (nat_q a <= nat_q b)%Qc <-> a <= b.
Proof.
  assert (H : forall a b, a <= b -> (nat_q a <= nat_q b)%Qc).
  { intros x y H. induction H; [qlra|]. rewrite nat_q_S. qlra. }
  split; [|apply H]. intro L. destruct (le_lt_dec a b) as [|G]; auto. exfalso. apply H in G. rewrite nat_q_S in G. qlra.
Qed.

Section Body.
Context {TA : Type} (ta : TA -> Qc) (N : nat) (fA : nat -> nat -> option TA).
Hypothesis posA : forall u v x, u < N -> v < N -> fA u v = Some x -> (0 < ta x)%Qc.
Let w (u v : nat) : Qc := oq (option_map ta (fA u v)).

Lemma w_nonneg u v : u < N -> v < N -> (0 <= w u v)%Qc.
Proof.
  intros Hu Hv. unfold w. destruct (fA u v) as [x|] eqn:E; simpl; [|qlra]. specialize (posA u v x Hu Hv E). qlra.
Qed.
Lemma tally fC i v : only_true N fC -> i < N -> v < N ->
  osum Qcplus (map (fun u => omap2 (fun (c : bool) (a : TA) => (bq c * ta a)%Qc) (fC i u) (fA u v)) (seq 0 N)) =
  if Qclt_le_dec 0 (votes N w (mem fC) i v) then Some (votes N w (mem fC) i v) else None.
Proof.
  intros HT Hi Hv. set (h := fun u => omap2 (fun (c : bool) (a : TA) => (bq c * ta a)%Qc) (fC i u) (fA u v)).
  assert (Q : forall u, u < N -> oq (h u) = if mem fC i u then w u v else 0%Qc).
  { intros u Hu. unfold h, mem, w. destruct (fC i u) as [b|]; [|reflexivity]. destruct (fA u v) as [a|]; simpl.
    - destruct b; simpl; ring.
    - destruct b; reflexivity. }
  assert (NN : forall u, u < N -> (0 <= (if mem fC i u then w u v else 0))%Qc).
  { intros u Hu. destruct (mem fC i u); [apply w_nonneg; auto|qlra]. }
  destruct (Qclt_le_dec 0 (votes N w (mem fC) i v)) as [P|Z].
  - assert (V : votes N w (mem fC) i v = oq (osum Qcplus (map h (seq 0 N)))).
    { rewrite osum_q. unfold votes. symmetry. apply qsum_ext. exact Q. }
    rewrite V in *. destruct (osum Qcplus (map h (seq 0 N))); simpl in *; [reflexivity|]. exfalso. revert P. apply Qcle_not_lt. qlra.
  - apply osum_none_iff. intros o Ho. apply in_map_iff in Ho. destruct Ho as (u & <- & Hu). apply in_seq in Hu.
    unfold h. destruct (fC i u) as [b|] eqn:Eb; auto. destruct (fA u v) as [a|] eqn:Ea; auto. exfalso.
    assert (b = true) by (destruct b; auto; exfalso; apply (HT i u); auto; lia). subst b.
    assert (0 < votes N w (mem fC) i v)%Qc; [|qlra]. unfold votes. apply (qsum_pos N _ u); [auto|lia|].
    unfold mem, w. rewrite Eb, Ea. simpl. apply (posA u v); auto; lia.
Qed.

(** The two selections of one round. *)
Definition tal (m : nat -> nat -> bool) (v i : nat) : option Qc :=
  if Qclt_le_dec 0 (votes N w m i v) then Some (votes N w m i v) else None.
Definition tal2 (m : nat -> nat -> bool) (v i : nat) : option Qc :=
  if otrue btrue (picked N (tal m v) i) then Some (qn (i + 1)) else None.
Definition elected (m : nat -> nat -> bool) (i v : nat) : bool := otrue btrue (picked N (tal2 m v) i).

Lemma elected_wins m i v : i < N -> (elected m i v = true <-> wins N w m i v).
Proof.
  intro Hi. unfold elected. rewrite picked_true by auto.
  assert (P : forall k, k < N -> (otrue btrue (picked N (tal m v) k) = true <->
    (0 < votes N w m k v)%Qc /\ forall i', i' < N -> (votes N w m i' v <= votes N w m k v)%Qc)).
  { intros k Hk. rewrite picked_true by auto. unfold tal. split.
    - intros (x & Ex & L). destruct (Qclt_le_dec 0 (votes N w m k v)) as [P|]; [|discriminate]. injection Ex as <-. split; [auto|].
      intros i' Hi'. specialize (L i'). destruct (Qclt_le_dec 0 (votes N w m i' v)); [apply L; auto|]. qlra.
    - intros (P & L). exists (votes N w m k v). destruct (Qclt_le_dec 0 (votes N w m k v)); [|qlra]. split; [auto|].
      intros i' x' Hi'. destruct (Qclt_le_dec 0 (votes N w m i' v)); [|discriminate]. intro E. injection E as <-. auto. }
  unfold tal2, wins. split.
  - intros (x & Ex & L). destruct (otrue btrue (picked N (tal m v) i)) eqn:Ei; [|discriminate]. injection Ex as <-.
    apply P in Ei; [|auto]. destruct Ei as (P0 & M). split; [auto|]. intros i' Hi'. specialize (L i').
    destruct (Qc_eq_dec (votes N w m i' v) (votes N w m i v)) as [Ev|Ne].
    + right. split; [auto|]. assert (Q : otrue btrue (picked N (tal m v) i') = true).
      { apply P; auto. rewrite Ev. auto. }
      rewrite Q in L. specialize (L _ Hi' eq_refl). rewrite !qn_nat_q in L. apply nat_q_le in L. lia.
    + left. specialize (M i' Hi'). apply Qcle_lt_or_eq in M. destruct M; [auto|contradiction].
  - intros (P0 & M). exists (qn (i + 1)).
    rewrite (proj2 (P i Hi)).
    2:{ split; [auto|]. intros i' Hi'. destruct (M i' Hi') as [|(-> & _)]; qlra. }
    split; [auto|]. intros i' x' Hi' E'. destruct (otrue btrue (picked N (tal m v) i')) eqn:Ei; [|discriminate]. injection E' as <-.
    apply P in Ei; [|auto]. destruct Ei as (_ & M'). specialize (M' i Hi). rewrite !qn_nat_q. apply nat_q_le.
    destruct (M i' Hi') as [|(_ & ?)]; [qlra|lia].
Qed.

Lemma pp_body_ok A nums C m Cf Tl fC fm fCf fTl :
  rc N N A fA -> rc N N nums (fun i j => if i =? j then Some (i + 1) else None) -> rc N N C fC -> only_true N fC ->
  vis N m fm -> rc N N Cf fCf -> rc N N Tl fTl ->
  exists m' Cf' Tl' fm' fTl', pp_body ta A nums C m Cf Tl = Ok (m', Cf', Tl') /\
    vis N m' fm' /\ rc N N Tl' fTl' /\
    rc N N Cf' (fun i v => if elected (mem fC) i v then Some true else None).
Proof.
  intros HA Hn HC OT Hm HCf HTl. unfold pp_body, col_max.
  destruct (rc_mxm N N N Qcplus (fun (c : bool) (a : TA) => (bq c * ta a)%Qc) (fun (a : TA) (c : bool) => (ta a * bq c)%Qc)
    idc idc btrue mnomask _ MERGE Tl C A _ _ _ HTl HC HA (mrc_none N N btrue)) as (T1 & -> & HT1). cbn [bind].
  apply (rc_ext N N T1 _ (fun i v => tal (mem fC) v i)) in HT1.
  2:{ intros i v Hi Hv. cbv beta. unfold wr. rewrite tally by auto. reflexivity. }
  destruct (vis_reduce_t N N qmax MERGE m _ T1 _ Hm HT1) as (m1 & -> & Hm1). cbn [bind].
  destruct (rc_diag N m1 _ Hm1) as (D1 & -> & HD1). cbn [bind].
  destruct (mul_eq_diag N Cf _ T1 _ D1 (fun v => osum qmax (map (tal (mem fC) v) (seq 0 N))) HCf HT1 HD1) as (C1 & -> & HC1). cbn [bind].
  change (rc N N C1 (fun i v => picked N (tal (mem fC) v) i)) in HC1.
  destruct (rc_mxm N N N Qcplus (fun (k : nat) (c : bool) => (qn k * bq c)%Qc) (fun (c : bool) (k : nat) => (bq c * qn k)%Qc)
    idc idc btrue (MVal C1) _ REPLACE T1 nums C1 _ _ _ HT1 Hn HC1 (mrc_val N N btrue C1 _ HC1)) as (T2 & -> & HT2). cbn [bind].
  apply (rc_ext N N T2 _ (fun i v => tal2 (mem fC) v i)) in HT2.
  2:{ intros i v Hi Hv. cbv beta. unfold wr, tal2. destruct (otrue btrue (picked N (tal (mem fC) v) i)) eqn:E; [|reflexivity].
      rewrite (osum_single _ _ N i Hi).
      - rewrite Nat.eqb_refl. destruct (picked N (tal (mem fC) v) i) as [b|]; [|discriminate]. simpl in E. unfold btrue in E. subst b.
        cbn [omap2 bq]. f_equal. ring.
      - intros k Hk. rewrite (proj2 (Nat.eqb_neq i k)) by auto. auto. }
  destruct (vis_reduce_t N N qmax MERGE m1 _ T2 _ Hm1 HT2) as (m2 & -> & Hm2). cbn [bind].
  destruct (rc_diag N m2 _ Hm2) as (D2 & -> & HD2). cbn [bind].
  rewrite (lil_assign_ok N D1 D2 _ _ HD1 HD2). cbn [bind].
  destruct (mul_eq_diag N C1 _ T2 _ D2 (fun v => osum qmax (map (tal2 (mem fC) v) (seq 0 N))) HC1 HT2 HD2) as (C2 & -> & HC2). cbn [bind].
  change (rc N N C2 (fun i v => picked N (tal2 (mem fC) v) i)) in HC2.
  destruct (rc_apply N N idc btrue (MVal C2) _ REPLACE C2 C2 _ _ HC2 HC2 (mrc_val N N btrue C2 _ HC2)) as (C3 & -> & HC3). cbn [bind].
  exists m2, C3, T2. do 2 eexists. split; [reflexivity|]. split; [exact Hm2|]. split; [exact HT2|].
  eapply rc_ext; [exact HC3|]. intros i v Hi Hv. cbv beta. unfold wr, elected.
  destruct (picked N (tal2 (mem fC) v) i) as [[|]|]; reflexivity.
Qed.

Lemma pp_loop_ok A nums n : forall C m Cf Tl fC fm fCf fTl,
  rc N N A fA -> rc N N nums (fun i j => if i =? j then Some (i + 1) else None) -> rc N N C fC -> only_true N fC ->
  vis N m fm -> rc N N Cf fCf -> rc N N Tl fTl ->
  exists C' fC', pp_loop n ta A nums C m Cf Tl = Ok C' /\ rc N N C' fC' /\ only_true N fC' /\
    exists k, k <= n /\ rounds N w k (mem fC) (mem fC') /\ (k = n \/ round N w (mem fC') (mem fC')).
Proof.
  induction n as [|n IH]; intros C m Cf Tl fC fm fCf fTl HA Hn HC OT Hm HCf HTl.
  - exists C, fC. split; [reflexivity|]. split; [auto|]. split; [auto|]. exists 0. split; [lia|]. split; [intros i v _ _; reflexivity|auto].
  - cbn [pp_loop]. destruct (pp_body_ok A nums C m Cf Tl fC fm fCf fTl HA Hn HC OT Hm HCf HTl)
      as (m' & Cf' & Tl' & fm' & fTl' & -> & Hm' & HTl' & HCf'). cbn [bind].
    assert (RD : round N w (mem fC) (fun i v => elected (mem fC) i v)).
    { intros i v Hi Hv. apply elected_wins. auto. }
    destruct (lil_eqb Bool.eqb Cf' C) eqn:E.
    + exists C, fC. split; [reflexivity|]. split; [auto|]. split; [auto|]. exists 0. split; [lia|].
      split; [intros i v _ _; reflexivity|]. right.
      apply (lil_eqb_spec Bool.eqb Cf' C eqb_true_iff) in E. subst Cf'.
      intros i v Hi Hv. rewrite <- (RD i v Hi Hv). unfold mem at 1.
      rewrite <- (rc_get _ _ _ _ _ _ HC Hi Hv), (rc_get _ _ _ _ _ _ HCf' Hi Hv).
      destruct (elected (mem fC) i v); tauto.
    + rewrite (lil_assign_ok N C Cf' _ _ HC HCf'). cbn [bind].
      destruct (IH Cf' m' Cf' Tl' _ _ _ _ HA Hn HCf' ltac:(intros i v _ _; destruct (elected (mem fC) i v); discriminate) Hm' HCf' HTl')
        as (C' & fC' & E' & HC' & OT' & k & Hk & Rk & St).
      exists C', fC'. split; [exact E'|]. split; [auto|]. split; [auto|]. exists (S k). split; [lia|]. split; [|intuition lia].
      cbn [rounds]. eexists. split; [|exact Rk]. intros i v Hi Hv. rewrite <- (RD i v Hi Hv). unfold mem at 1.
      destruct (elected (mem fC) i v); tauto.
Qed.
End Body.

(** ** Extensionality *)
Lemma votes_ext N w w' m m' i v : i < N -> v < N ->
  (forall u v, u < N -> v < N -> w u v = w' u v) -> (forall i v, i < N -> v < N -> m i v = m' i v) ->
  votes N w m i v = votes N w' m' i v.
Proof. intros Hi Hv Hw Hm. apply qsum_ext. intros u Hu. rewrite Hm, Hw by auto. reflexivity. Qed.
Lemma wins_ext N w w' m m' i v : i < N -> v < N ->
  (forall u v, u < N -> v < N -> w u v = w' u v) -> (forall i v, i < N -> v < N -> m i v = m' i v) ->
  (wins N w m i v <-> wins N w' m' i v).
Proof.
  intros Hi Hv Hw Hm. unfold wins. rewrite (votes_ext N w w' m m' i v) by auto.
  split; intros (P & H); (split; [auto|]); intros i' Hi'; specialize (H i' Hi');
    rewrite (votes_ext N w w' m m' i' v) in * by auto; auto.
Qed.
Lemma round_ext N w w' m1 m2 m1' m2' :
  (forall u v, u < N -> v < N -> w u v = w' u v) -> (forall i v, i < N -> v < N -> m1 i v = m1' i v) ->
  (forall i v, i < N -> v < N -> m2 i v = m2' i v) -> round N w m1 m2 -> round N w' m1' m2'.
Proof. intros Hw H1 H2 R i v Hi Hv. rewrite <- H2, <- (wins_ext N w w' m1 m1') by auto. apply R; auto. Qed.
Lemma rounds_ext N w w' k : forall m1 m2 m1' m2',
  (forall u v, u < N -> v < N -> w u v = w' u v) -> (forall i v, i < N -> v < N -> m1 i v = m1' i v) ->
  (forall i v, i < N -> v < N -> m2 i v = m2' i v) -> rounds N w k m1 m2 -> rounds N w' k m1' m2'.
Proof.
  induction k as [|k IH]; intros m1 m2 m1' m2' Hw H1 H2 R; simpl in *.
  - intros i v Hi Hv. rewrite <- H1, <- H2 by auto. auto.
  - destruct R as (m & R1 & R2). exists m. split; [eapply round_ext; eauto|eapply IH; eauto].
Qed.

Lemma rc_apply_cast {TA TT TC TM} R K (op : TA -> TT) (tz : TT -> TC) (truthy : TM -> bool) m b outp (C : lil TC) (A : lil TA) f fA :
  rc R K C f -> rc R K A fA -> mrc R K truthy m b ->
  exists C', apply op truthy idc (NoAcc tz) m outp C (Mat A) = Ok C' /\
    rc R K C' (fun i j => wr (b i j) outp (f i j) (option_map tz (option_map op (fA i j)))).
Proof.
  intros H HA Hm.
  destruct (rc_written R K truthy m b outp C f _ tz _ H Hm
    (apply_ok op truthy idc (NoAcc tz) m outp C (Mat A) (proj1 H) (proj1 HA) (proj1 Hm)
      ltac:(destruct H as (_ & ? & ? & _), HA as (_ & ? & ? & _), Hm as (_ & ? & _); subst; split; [auto|simpl; split; congruence]))) as (C' & E & V).
  exists C'. split; [auto|]. eapply rc_ext; [exact V|]. intros i j Hi Hj. simpl. rewrite (rc_get _ _ _ _ _ _ HA) by auto. auto.
Qed.

Lemma inv_pos (x : Qc) : (0 < x -> 0 < / x)%Qc.
Proof.
  intro P. destruct (Qclt_le_dec 0 (/ x)) as [|L]; auto. exfalso.
  assert (E : (x * / x = 1)%Qc) by (apply Qcmult_inv_r; intro Z; subst; revert P; apply Qcle_not_lt; qlra).
  assert (x * / x <= 0)%Qc; [|rewrite E in *; revert H; apply Qclt_not_le; reflexivity].
  replace 0%Qc with (x * 0)%Qc by ring. rewrite (Qcmult_comm x 0), (Qcmult_comm x (/ x)).
  apply Qcmult_le_compat_r; [auto|apply Qclt_le_weak; auto].
Qed.

(** ** The calls *)
Section Calls.
Context {T : Type} (tq : T -> Qc) (qt : Qc -> T).

Definition outcome (N : nat) (w : nat -> nat -> Qc) (n : nat) (C : lil bool) (r : res (lil bool)) : Prop :=
  exists C' k, r = Ok C' /\ clustering N C' /\ k <= n /\ rounds N w k (member C) (member C') /\
    (k = n \/ round N w (member C') (member C')).

Lemma pp_run_ok {TA} (makeA : res (lil TA)) ta (G : lil T) C n N A fA w :
  N <> 0 -> nrows G = N -> ncols G = N -> clustering N C -> makeA = Ok A -> rc N N A fA ->
  (forall u v x, u < N -> v < N -> fA u v = Some x -> (0 < ta x)%Qc) ->
  (forall u v, u < N -> v < N -> oq (option_map ta (fA u v)) = w u v) ->
  outcome N w n C (pp_run makeA ta G C n).
Proof.
  intros N0 RG CG (WC & RC & CC & OT) EA HA Pos Hw. unfold pp_run. rewrite RG, CG, RC, CC, !Nat.eqb_refl. cbn [negb orb].
  destruct (cluster_nums_ok N) as (nums & -> & Hn). cbn [bind]. rewrite EA. cbn [bind].
  destruct (vis_new 0%Qc N N0) as (m & -> & Hm). cbn [bind].
  destruct (pp_loop_ok ta N fA Pos A nums n C m (lil_new N N) (lil_new N N) (mget C) _ _ _ HA Hn
    ltac:(split; [auto|split; [auto|split; [auto|auto]]]) (fun i v _ _ => OT i v) Hm (rc_new N N) (rc_new N N))
    as (C' & fC' & E & HC' & OT' & k & Hk & Rk & St).
  assert (EM : forall i v, i < N -> v < N -> mem fC' i v = member C' i v).
  { intros i v Hi Hv. unfold mem, member. rewrite (rc_get _ _ _ _ _ _ HC') by auto. reflexivity. }
  exists C', k. split; [exact E|]. split.
  { destruct HC' as (W' & R' & C0' & G'). split; [auto|split; [auto|split; [auto|]]]. intros i v.
    destruct (Nat.lt_ge_cases i N); [destruct (Nat.lt_ge_cases v N)|].
    - rewrite G' by auto. auto.
    - rewrite mget_oob; auto; [discriminate|lia].
    - rewrite mget_oob; auto; [discriminate|lia]. }
  split; [auto|]. split.
  - eapply rounds_ext; [exact Hw| |exact EM|exact Rk]. intros; reflexivity.
  - destruct St as [|St]; [auto|]. right. eapply round_ext; [exact Hw|exact EM|exact EM|exact St].
Qed.

Context (G : lil T) (N : nat).
Hypothesis WG : wfm G.
Hypothesis N0 : N <> 0.
Hypothesis RG : nrows G = N.
Hypothesis CG : ncols G = N.
Hypothesis pos : forall u v x, mget G u v = Some x -> (0 < tq x)%Qc.

Lemma weight_nonneg u v : (0 <= weight tq G u v)%Qc.
Proof. clear WG RG CG. unfold weight. destruct (mget G u v) as [x|] eqn:E; [apply Qclt_le_weak, (pos u v); auto|qlra]. Qed.
Lemma out_pos u v x : u < N -> v < N -> mget G u v = Some x -> (0 < qsum N (weight tq G u))%Qc.
Proof.
  intros Hu Hv E. apply (qsum_pos N _ v); auto. { intros; apply weight_nonneg. }
  unfold weight. rewrite E. apply (pos u v); auto.
Qed.

Lemma shares_ok : exists A,
  (A0 <- apply tq btrue idc (NoAcc idc) mnomask MERGE (lil_new N N) (Mat G) ;; normalize_rows 0%Qc Qcplus Qcmult Qcinv A0) = Ok A /\
  rc N N A (fun u v => option_map (fun g => / qsum N (weight tq G u) * tq g)%Qc (mget G u v)).
Proof.
  assert (HG : rc N N G (mget G)) by (split; auto).
  destruct (rc_apply N N tq btrue mnomask _ MERGE (lil_new N N) G _ _ (rc_new N N) HG (mrc_none N N btrue)) as (m1 & -> & (W1 & R1 & C1 & G1)).
  cbn [bind].
  destruct (normalize_rows_ok 0%Qc Qcplus Qcmult Qcinv m1 W1) as (m2 & E2 & W2 & R2 & C2 & G2); [congruence|].
  rewrite R1, C1 in *. exists m2. split; [exact E2|].
  split; [auto|split; [auto|split; [auto|]]]. intros u v Hu Hv. rewrite G2, G1 by auto. unfold wr.
  destruct (mget G u v) as [g|] eqn:Eg; simpl; [|destruct (osum _ _); reflexivity].
  rewrite (osum_q_some N (mget m1 u)).
  2:{ exists v. split; [auto|]. rewrite G1 by auto. unfold wr. rewrite Eg. discriminate. }
  cbn [omap2 option_map]. do 3 f_equal. apply qsum_ext. intros i Hi. rewrite G1 by auto. unfold wr, weight.
  destruct (mget G u i); reflexivity.
Qed.

Lemma peer_pressure_ok C n : clustering N C -> outcome N (share N (weight tq G)) n C (peer_pressure_cluster tq G C n).
Proof.
  intro HC. unfold peer_pressure_cluster. rewrite CG. destruct shares_ok as (A & EA & HA).
  refine (pp_run_ok _ idc G C n N A _ _ N0 RG CG HC EA HA _ _).
  - intros u v x Hu Hv E. destruct (mget G u v) as [g|] eqn:Eg; [|discriminate E]. cbn [option_map] in E.
    assert (Ex : (/ qsum N (weight tq G u) * tq g)%Qc = x) by congruence. subst x. unfold idc.
    pose proof (inv_pos _ (out_pos u v g Hu Hv Eg)). pose proof (pos u v g Eg).
    replace 0%Qc with (0 * tq g)%Qc by ring. apply Qcmult_lt_compat_r; auto.
  - intros u v Hu Hv. unfold share, weight at 2. destruct (mget G u v) as [g|]; simpl; unfold idc; [|unfold Qcdiv; ring].
    unfold Qcdiv. ring.
Qed.
Lemma peer_pressure_v2_ok C n : (forall u v x, mget G u v = Some x -> tq (qt (tq x)) = tq x) ->
  clustering N C -> outcome N (weight tq G) n C (peer_pressure_cluster_v2 tq qt G C n).
Proof.
  intros Rt HC. unfold peer_pressure_cluster_v2. rewrite CG.
  assert (HG : rc N N G (mget G)) by (split; auto).
  destruct (rc_apply_cast N N tq qt btrue mnomask _ MERGE (lil_new N N) G _ _ (rc_new N N) HG (mrc_none N N btrue)) as (A & EA & HA).
  refine (pp_run_ok _ tq G C n N A _ _ N0 RG CG HC EA HA _ _).
  - intros u v x Hu Hv E. cbv beta in E. unfold wr in E. destruct (mget G u v) as [g|] eqn:Eg; [|discriminate]. injection E as <-.
    rewrite (Rt u v) by auto. apply (pos u v); auto.
  - intros u v Hu Hv. cbv beta. unfold wr, weight. destruct (mget G u v) as [g|] eqn:Eg; simpl; [apply (Rt u v); auto|auto].
Qed.
End Calls.

(** ** Consequences *)
Lemma wins_unique N w m i i' v : i < N -> i' < N -> wins N w m i v -> wins N w m i' v -> i = i'.
Proof.
  intros Hi Hi' (_ & H) (_ & H'). specialize (H i' Hi'). specialize (H' i Hi).
  destruct H as [H|(H & L)], H' as [H'|(H' & L')]; try lia; exfalso; try rewrite H in *; try rewrite H' in *; qlra.
Qed.
Lemma greatest (N : nat) (f : nat -> Qc) : N <> 0 ->
  exists i, i < N /\ forall i', i' < N -> (f i' < f i)%Qc \/ (f i' = f i /\ i' <= i).
Proof.
  induction N as [|N IH]; intro N0; [congruence|]. destruct (Nat.eq_dec N 0) as [->|N1].
  - exists 0. split; [lia|]. intros i' Hi'. right. assert (i' = 0) by lia. subst. auto.
  - destruct (IH N1) as (i & Hi & H). destruct (Qclt_le_dec (f N) (f i)) as [L|L].
    + exists i. split; [lia|]. intros i' Hi'. destruct (Nat.eq_dec i' N) as [->|]; [auto|]. apply H. lia.
    + exists N. split; [lia|]. intros i' Hi'. destruct (Nat.eq_dec i' N) as [->|]; [auto|].
      destruct (H i' ltac:(lia)) as [H1|(H1 & H2)].
      * left. qlra.
      * apply Qcle_lt_or_eq in L. destruct L as [L|L]; [left; rewrite H1; auto|right; split; [congruence|lia]].
Qed.
Lemma wins_exists N w m v : N <> 0 -> (exists i, i < N /\ (0 < votes N w m i v)%Qc) -> exists i, i < N /\ wins N w m i v.
Proof.
  intros N0 (j & Hj & P). destruct (greatest N (fun i => votes N w m i v) N0) as (i & Hi & H). exists i. split; [auto|].
  split; [|exact H]. destruct (H j Hj) as [L|(L & _)]; [qlra|rewrite <- L; auto].
Qed.

Lemma rounds_last N w k : forall m m', rounds N w (S k) m m' -> exists m1, rounds N w k m m1 /\ round N w m1 m'.
Proof.
  induction k as [|k IH]; intros m m' (m1 & R1 & R2).
  - exists m. split; [intros i v _ _; reflexivity|]. simpl in R2. eapply round_ext; [| | |exact R1]; auto. intros. symmetry. auto.
  - destruct (IH m1 m' R2) as (m2 & R3 & R4). exists m2. split; [|auto]. exists m1. auto.
Qed.
(** After at least one iteration the clusters are those of a round. *)
Lemma outcome_round N w n C r : 1 <= n -> outcome N w n C r ->
  exists C' m, r = Ok C' /\ clustering N C' /\ round N w m (member C') /\
    exists k, rounds N w k (member C) m.
Proof.
  intros Hn (C' & k & E & S & Hk & R & St). destruct St as [->|St].
  - destruct n as [|n]; [lia|]. destruct (rounds_last N w n _ _ R) as (m & R1 & R2). exists C', m. eauto 6.
  - exists C', (member C'). eauto 6.
Qed.
(** Every vertex stays in a cluster when every vertex gets a vote. *)
Lemma round_total N w m m' : N <> 0 -> (forall u v, u < N -> v < N -> (0 <= w u v)%Qc) ->
  (forall v, v < N -> exists u, u < N /\ (0 < w u v)%Qc) ->
  (forall v, v < N -> exists i, i < N /\ m i v = true) -> round N w m m' ->
  forall v, v < N -> exists i, i < N /\ m' i v = true.
Proof.
  intros N0 Nn In Cl R v Hv. destruct (In v Hv) as (u & Hu & P). destruct (Cl u Hu) as (i & Hi & M).
  destruct (wins_exists N w m v N0) as (i' & Hi' & Wn).
  - exists i. split; [auto|]. apply (qsum_pos N _ u); auto.
    + intros j Hj. destruct (m i j); [auto|qlra].
    + rewrite M. auto.
  - exists i'. split; [auto|]. apply R; auto.
Qed.
Lemma rounds_total N w k : forall m m', N <> 0 -> (forall u v, u < N -> v < N -> (0 <= w u v)%Qc) ->
  (forall v, v < N -> exists u, u < N /\ (0 < w u v)%Qc) ->
  (forall v, v < N -> exists i, i < N /\ m i v = true) -> rounds N w k m m' ->
  forall v, v < N -> exists i, i < N /\ m' i v = true.
Proof.
  induction k as [|k IH]; intros m m' N0 Nn In Cl R.
  - intros v Hv. destruct (Cl v Hv) as (i & Hi & M). exists i. split; [auto|]. rewrite R; auto.
  - destruct R as (m1 & R1 & R2). apply (IH m1 m' N0 Nn In); [|exact R2]. apply (round_total N w m m1); auto.
Qed.
Lemma round_none N w m m' v : (forall u, u < N -> w u v = 0%Qc) -> round N w m m' -> v < N -> forall i, i < N -> m' i v = false.
Proof.
  intros Z R Hv i Hi. destruct (m' i v) eqn:E; auto. apply R in E; auto. destruct E as (P & _).
  unfold votes in P. rewrite qsum_zero in P; [exfalso; qlra|]. intros u Hu. rewrite Z by auto. destruct (m i u); auto.
Qed.

(** Shares have the signs of the weights. *)
Lemma share_nonneg N w u v : (forall v, v < N -> (0 <= w u v)%Qc) -> v < N -> (0 <= share N w u v)%Qc.
Proof.
  intros H Hv. unfold share, Qcdiv. assert (P : (0 <= qsum N (w u))%Qc) by (apply qsum_nonneg; auto).
  apply Qcle_lt_or_eq in P. destruct P as [P|P].
  - replace 0%Qc with (0 * / qsum N (w u))%Qc by ring. apply Qcmult_le_compat_r; [auto|]. apply Qclt_le_weak, inv_pos; auto.
  - rewrite <- P. change (/ 0)%Qc with 0%Qc. rewrite Qcmult_0_r. qlra.
Qed.
Lemma share_pos N w u v : (forall v, v < N -> (0 <= w u v)%Qc) -> v < N -> (0 < w u v)%Qc -> (0 < share N w u v)%Qc.
Proof.
  intros H Hv P. unfold share, Qcdiv. assert (S : (0 < qsum N (w u))%Qc) by (apply (qsum_pos N _ v); auto).
  replace 0%Qc with (0 * / qsum N (w u))%Qc by ring. apply Qcmult_lt_compat_r; [|auto]. apply inv_pos; auto.
Qed.
Lemma share_zero N w u v : w u v = 0%Qc -> share N w u v = 0%Qc.
Proof. intro Z. unfold share. rewrite Z. unfold Qcdiv. ring. Qed.

(** Two vertices that vote for each other only. *)
Section Swap.
Context (w : nat -> nat -> Qc).
Hypothesis w00 : w 0 0 = 0%Qc.
Hypothesis w01 : w 0 1 = 1%Qc.
Hypothesis w10 : w 1 0 = 1%Qc.
Hypothesis w11 : w 1 1 = 0%Qc.
Definition swapping (m : nat -> nat -> bool) : Prop := m 1 1 = m 0 0 /\ m 1 0 = m 0 1 /\ m 0 1 = negb (m 0 0).
Lemma swap_round m m' : swapping m -> round 2 w m m' -> swapping m' /\ m' 0 0 = negb (m 0 0).
Proof.
  intros (A & B & C) R.
  assert (V : forall i, votes 2 w m i 0 = bq (m i 1) /\ votes 2 w m i 1 = bq (m i 0)).
  { intro i. unfold votes, qsum. rewrite w00, w01, w10, w11. destruct (m i 0), (m i 1); split; vm_compute; reflexivity. }
  assert (P : (0 < bq true)%Qc) by reflexivity.
  assert (W : forall i v, i < 2 -> v < 2 -> (m' i v = true <-> m i (1 - v) = true)).
  { intros i v Hi Hv. rewrite (R i v Hi Hv). unfold wins.
    assert (Vv : forall i, votes 2 w m i v = bq (m i (1 - v))).
    { intro i0. destruct v as [|[|]]; [apply V|apply V|lia]. }
    rewrite Vv. split.
    - intros (P0 & _). destruct (m i (1 - v)); [auto|]. discriminate P0.
    - intro E. rewrite E. split; [auto|]. intros i' Hi'. rewrite Vv.
      destruct (Nat.eq_dec i' i) as [->|Ne]; [rewrite E; auto|]. left.
      assert (F : m i' (1 - v) = false).
      { destruct i as [|[|]], i' as [|[|]], v as [|[|]]; try lia; simpl in *; try rewrite A in *; try rewrite B in *;
          try rewrite C in *; destruct (m 0 0); simpl in *; congruence. }
      rewrite F. exact P. }
  assert (W' : forall i v, i < 2 -> v < 2 -> m' i v = m i (1 - v)).
  { intros i v Hi Hv. specialize (W i v Hi Hv). destruct (m' i v), (m i (1 - v)); auto; [symmetry|]; apply W; auto. }
  unfold swapping. rewrite !W' by lia. simpl. rewrite A, B, C. destruct (m 0 0); auto.
Qed.
Lemma swap_rounds k : forall m m', swapping m -> rounds 2 w k m m' -> swapping m'.
Proof.
  induction k as [|k IH]; intros m m' S R.
  - simpl in R. destruct S as (A & B & C). unfold swapping. rewrite !R by lia. auto.
  - destruct R as (m1 & R1 & R2). apply (IH m1); auto. eapply swap_round; eauto.
Qed.
Lemma swap_unstable m : swapping m -> ~ round 2 w m m.
Proof. intros S R. destruct (swap_round m m S R) as (_ & E). destruct (m 0 0); discriminate. Qed.
End Swap.
