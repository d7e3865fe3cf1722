(** Proofs about the k-truss algorithms. *)
From Coq Require Import Lia Sorted.
From Verif Require Import Base ModelLil ModelVec ModelHelpers ModelViews ModelMul ModelElem
  ModelIndex ModelUtils ModelAlgoBase ModelTruss ModelTriangle Spec SpecOps SpecCalls SpecGraph
  SpecTriangle SpecTruss ProofBase ProofRow ProofLil ProofVec ProofCalls ProofContainers ProofViews
  ProofMul ProofElem ProofReduce ProofUtils ProofGraph ProofTriangle.

(** ** A matrix with fewer elements *)
Lemma pos_nodup {T} (l : list (nat * nat * T)) :
  StronglySorted pos_lt l -> NoDup (map fst l).
Proof.
  induction 1 as [|[[i j] x] l S IH F]; simpl; constructor; auto.
  intro H. apply in_map_iff in H as ([[i' j'] y] & E & Hy). injection E as -> ->.
  rewrite Forall_forall in F. specialize (F _ Hy). unfold pos_lt in F. simpl in F. lia.
Qed.

Lemma fewer {S T} (M : lil S) (M' : lil T) :
  wfm M -> wfm M' -> (forall i j, is_some (mget M' i j) = true -> is_some (mget M i j) = true) ->
  (nvals M' <= nvals M)%Z /\
  (nvals M' = nvals M -> forall i j, is_some (mget M i j) = true -> is_some (mget M' i j) = true).
Proof.
  intros W W' H.
  assert (I : forall {A} (K : lil A), wfm K -> forall i j,
            In (i, j) (map fst (lil_extractTuples K)) <-> is_some (mget K i j) = true).
  { intros A K WK i j. rewrite in_map_iff. split.
    - intros ([[i' j'] v] & E & Hv). injection E as -> ->. apply tuples_In in Hv; auto.
      rewrite Hv. reflexivity.
    - destruct (mget K i j) as [v|] eqn:E; [|discriminate]. intros _. exists (i, j, v).
      split; auto. apply tuples_In; auto. }
  assert (ND : NoDup (map fst (lil_extractTuples M'))) by (apply pos_nodup, tuples_sorted; auto).
  assert (IN : incl (map fst (lil_extractTuples M')) (map fst (lil_extractTuples M))).
  { intros [i j] Hp. apply I in Hp; auto. apply I; auto. }
  pose proof (NoDup_incl_length ND IN) as L. rewrite !map_length in L.
  rewrite <- (tuples_length M), <- (tuples_length M') by auto. split; [lia|].
  intros E i j Hm. apply I; auto.
  refine (NoDup_length_incl ND _ IN (i, j) _); [rewrite !map_length; lia|]. apply I; auto.
Qed.

(** ** Support *)
Lemma support_sum N e u v :
  Z.of_nat (support N e u v) = sumn (fun w => Z.b2z (e u w) * Z.b2z (e w v))%Z N.
Proof.
  unfold support. rewrite suml_filter. apply sumn_ext. intros w _.
  destruct (e u w), (e w v); reflexivity.
Qed.
Lemma filter_mono {A} (p q : A -> bool) l :
  (forall x, p x = true -> q x = true) -> length (filter p l) <= length (filter q l).
Proof.
  intro H. induction l as [|a l IH]; simpl; auto. specialize (H a).
  destruct (p a), (q a); simpl; try lia.
  all: exfalso; discriminate H; auto.
Qed.
Lemma support_mono N e' e u v : subgraph e' e -> support N e' u v <= support N e u v.
Proof.
  intro H. apply filter_mono. intros w. rewrite !andb_true_iff. intros [H1 H2]. auto.
Qed.
Lemma support_sym N (e : nat -> nat -> bool) u v :
  (forall i j, e i j = e j i) -> support N e u v = support N e v u.
Proof.
  intro H. unfold support. f_equal. apply filter_ext. intro w.
  rewrite (H u w), (H w v). apply andb_comm.
Qed.

Lemma support_0 N (e : nat -> nat -> bool) u v :
  support N e u v = 0 -> forall w, w < N -> e u w = false \/ e w v = false.
Proof.
  intros H w Hw. unfold support in H.
  assert (H0 : filter (fun w => e u w && e w v) (seq 0 N) = []) by (apply length_zero_iff_nil; auto).
  destruct (e u w) eqn:E1; auto. destruct (e w v) eqn:E2; auto. exfalso.
  assert (In w []) as []. rewrite <- H0. apply filter_In. rewrite E1, E2. split; auto.
  apply in_seq. lia.
Qed.
Lemma smul_none K (A B : smat Z) i j :
  (forall w, w < K -> A i w = None \/ B w j = None) -> smul Z.add Z.mul K A B i j = None.
Proof.
  intro H. unfold smul. apply osum_none_iff. intros o Ho.
  apply in_map_iff in Ho as (w & <- & Hw). apply in_seq in Hw.
  destruct (H w) as [->| ->]; [lia|reflexivity|]. destruct (A i w); reflexivity.
Qed.

(** ** [k_truss2] *)
Section Truss2.
Context (N k : nat) (G : lil Z).
Hypothesis K2 : 2 <= k.

(** A stored element is needed for an edge to be kept. *)
Let t := Nat.max 1 (k - 2).

Definition keep (e : nat -> nat -> bool) (i j : nat) : bool := e i j && (t <=? support N e i j).

Lemma body_ok s :
  simple_graph N (tr_A s) ->
  wfm (tr_mask s) -> nrows (tr_mask s) = N -> ncols (tr_mask s) = N ->
  wfm (tr_support s) -> nrows (tr_support s) = N -> ncols (tr_support s) = N ->
  exists s', k_truss2_body k s = Ok s' /\ simple_graph N (tr_A s') /\
    wfm (tr_mask s') /\ nrows (tr_mask s') = N /\ ncols (tr_mask s') = N /\
    wfm (tr_support s') /\ nrows (tr_support s') = N /\ ncols (tr_support s') = N /\
    tr_old s' = tr_new s /\ tr_new s' = nvals (tr_A s') /\
    forall i j, edge (tr_A s') i j = keep (edge (tr_A s)) i j.
Proof.
  intros SG WM RM CM WS RS CS. destruct SG as (W & R & C & V & S & I0) eqn:ESG.
  set (A := tr_A s) in *.
  unfold k_truss2_body. fold A.
  destruct (mxm_ok Z.add Z.mul Z.mul idc idc ztrue idc (NoAcc idc) (MVal A) REPLACE (tr_support s)
              (Trn A) (Mat A)) as (P & -> & WP & RP & CP & GP); simpl; auto; try congruence.
  { split; congruence. }
  cbn [bind].
  destruct (apply_ok (support_min_test (threshold k)) btrue idc (NoAcc idc) mnomask REPLACE
              (tr_mask s) (Mat P)) as (K & -> & WK & RK & CK & GK); auto.
  { exact Logic.I. } { split; [exact Logic.I|]. simpl. repeat split; congruence. }
  cbn [bind].
  destruct (apply_ok idc btrue idc (NoAcc idc) (MVal K) REPLACE A (Mat A))
    as (A' & -> & WA' & RA' & CA' & GA'); auto.
  { split; [simpl; split; congruence|]. simpl. repeat split; congruence. }
  cbn [bind]. eexists. split; [reflexivity|]. simpl.
  assert (B : forall i j, edge A i j = true -> i < N /\ j < N).
  { unfold edge. intros i j H. destruct (mget A i j) eqn:E; [|discriminate].
    apply mget_some_bounds in E; auto. lia. }
  assert (E1 : forall i j, (i < N)%nat -> (j < N)%nat ->
    ov (smul Z.add Z.mul (vcols (Trn A)) (sview (Trn A)) (sview (Mat A)) i j) =
    Z.of_nat (support N (edge A) i j)).
  { intros i j Hi Hj. rewrite ov_smul. simpl vcols. rewrite R, support_sum. apply sumn_ext.
    intros w _. simpl sview. unfold stran. rewrite !(ov_G N A SG). unfold bz.
    rewrite (e_sym N A SG w i). reflexivity. }
  assert (EV : forall i j v, mget A' i j = Some v <-> v = 1%Z /\ keep (edge A) i j = true).
  { intros i j v. destruct (Nat.lt_ge_cases i N) as [Hi|Hi].
    2: { rewrite mget_oob by (auto; lia). split; [discriminate|]. intros [_ H]. unfold keep in H.
         apply andb_true_iff in H as [H _]. apply B in H. lia. }
    destruct (Nat.lt_ge_cases j N) as [Hj|Hj].
    2: { rewrite mget_oob by (auto; lia). split; [discriminate|]. intros [_ H]. unfold keep in H.
         apply andb_true_iff in H as [H _]. apply B in H. lia. }
    rewrite GA' by congruence. unfold spec_write. simpl. unfold idc. rewrite !option_map_id'.
    rewrite GK by congruence. unfold spec_write. simpl. unfold idc. rewrite !option_map_id'.
    rewrite GP by congruence. unfold spec_write. simpl mask_allows. unfold idc. rewrite !option_map_id'.
    unfold keep, edge at 1. destruct (mget A i j) as [a|] eqn:Ea; simpl.
    2: { split; [|intros [_ H]; discriminate].
         discriminate. }
    apply V in Ea as ->. simpl.
    assert (E2 := E1 i j Hi Hj). simpl vcols in E2. simpl sview in E2.
    destruct (smul Z.add Z.mul (nrows A) _ _ i j) as [p|] eqn:Ep; simpl in E2 |- *.
    - unfold idc. subst p. unfold support_min_test, threshold.
      destruct (Z.ltb_spec (Z.of_nat (support N (edge A) i j)) (Z.of_nat k - 2)); simpl.
      + split; [discriminate|]. intros [_ H1]. apply Nat.leb_le in H1. unfold t in H1. lia.
      + destruct (Nat.leb_spec t (support N (edge A) i j)).
        * split; [intros [=]; auto | intros [-> _]; auto].
        * exfalso. assert (H2 : support N (edge A) i j = 0) by (unfold t in *; lia).
          rewrite smul_none in Ep; [discriminate|]. intros w Hw. rewrite R in Hw.
          destruct (support_0 N (edge A) i j H2 w Hw) as [H3|H3]; unfold edge in H3;
            [left|right]; unfold stran; [rewrite S|]; destruct (mget A _ _); auto; discriminate.
    - split; [discriminate|]. intros [_ H]. apply Nat.leb_le in H. unfold t in H. lia. }
  assert (EE : forall i j, edge A' i j = keep (edge A) i j).
  { intros i j. unfold edge at 1. destruct (keep (edge A) i j) eqn:E.
    - replace (mget A' i j) with (Some 1%Z); auto. symmetry. apply EV. auto.
    - destruct (mget A' i j) as [v|] eqn:E'; auto. apply EV in E' as [_ E']. congruence. }
  assert (ks : forall i j, keep (edge A) i j = keep (edge A) j i).
  { intros i j. unfold keep. rewrite (e_sym N A SG i j).
    rewrite (support_sym N (edge A) i j) by (apply (e_sym N A SG)). reflexivity. }
  assert (EM : forall i j, mget A' i j = if keep (edge A) i j then Some 1%Z else None).
  { intros i j. destruct (keep (edge A) i j) eqn:E; [apply EV; auto|].
    destruct (mget A' i j) as [v|] eqn:E'; auto. apply EV in E' as [_ E']. congruence. }
  split.
  { split; [auto|]. split; [congruence|]. split; [congruence|]. split; [|split].
    - intros i j v H. apply EV in H. tauto.
    - intros i j. rewrite !EM, ks. reflexivity.
    - intro i. destruct (mget A' i i) as [v|] eqn:E; auto. apply EV in E as [_ E].
      unfold keep in E. rewrite (e_irr N A SG) in E. discriminate. }
  repeat (split; [first [assumption|congruence]|]). exact EE.
Qed.

Definition inv (b : nat) (s : truss_state) : Prop :=
  simple_graph N (tr_A s) /\
  wfm (tr_mask s) /\ nrows (tr_mask s) = N /\ ncols (tr_mask s) = N /\
  wfm (tr_support s) /\ nrows (tr_support s) = N /\ ncols (tr_support s) = N /\
  tr_new s = nvals (tr_A s) /\ (tr_new s <= tr_old s)%Z /\
  (Z.of_nat b <= nvals G - tr_old s)%Z /\
  subgraph (edge (tr_A s)) (edge G) /\
  (tr_old s = tr_new s -> supported N t (edge (tr_A s))) /\
  forall h, subgraph h (edge G) -> supported N t h -> subgraph h (edge (tr_A s)).

Lemma keep_max (e h : nat -> nat -> bool) :
  subgraph h e -> supported N t h -> subgraph h (keep e).
Proof.
  intros S H u v E. unfold keep. rewrite (S u v E). simpl. apply Nat.leb_le.
  apply Nat.le_trans with (support N h u v); auto. apply support_mono; auto.
Qed.

Lemma step_ok b s :
  simple_graph N (tr_A s) ->
  wfm (tr_mask s) -> nrows (tr_mask s) = N -> ncols (tr_mask s) = N ->
  wfm (tr_support s) -> nrows (tr_support s) = N -> ncols (tr_support s) = N ->
  tr_new s = nvals (tr_A s) -> (Z.of_nat b <= nvals G - tr_new s)%Z ->
  subgraph (edge (tr_A s)) (edge G) ->
  (forall h, subgraph h (edge G) -> supported N t h -> subgraph h (edge (tr_A s))) ->
  exists s', k_truss2_body k s = Ok s' /\ inv b s'.
Proof.
  intros SG WM RM CM WS RS CS NV Bd SB MX.
  destruct (body_ok s SG WM RM CM WS RS CS)
    as (s' & E & SG' & WM' & RM' & CM' & WS' & RS' & CS' & O & Nw & K).
  exists s'. split; auto.
  assert (F := fewer (tr_A s) (tr_A s') (proj1 SG) (proj1 SG')). destruct F as [F1 F2].
  { intros i j H. specialize (K i j). unfold edge at 1 in K. rewrite H in K. symmetry in K.
    unfold keep in K. apply andb_true_iff in K as [K _]. exact K. }
  unfold inv. do 8 (split; [assumption|]). split; [lia|]. split; [lia|].
  split; [|split].
  - intros u v H. apply SB. rewrite K in H. unfold keep in H. apply andb_true_iff in H. tauto.
  - intros Eq u v H. assert (same : forall i j, edge (tr_A s') i j = edge (tr_A s) i j).
    { intros i j. destruct (edge (tr_A s) i j) eqn:E1.
      - apply F2; auto. congruence.
      - rewrite K. unfold keep. rewrite E1. reflexivity. }
    pose proof H as H'. rewrite K in H'. unfold keep in H'. apply andb_true_iff in H' as [_ H'].
    apply Nat.leb_le in H'. eapply Nat.le_trans; [exact H'|]. apply support_mono. intros a c.
    rewrite same. auto.
  - intros h Sh Hh u v Hu. rewrite K. apply (keep_max (edge (tr_A s)) h); auto.
Qed.

Theorem k_truss2_ok n :
  simple_graph N G -> (nvals G < Z.of_nat n)%Z ->
  exists H, k_truss2 n G k = Ok (Some H) /\ simple_graph N H /\
    largest_supported N t (edge H) (edge G).
Proof.
  intros SG Hn. unfold k_truss2. assert (C : ncols G = N) by apply SG. rewrite C.
  destruct (step_ok 0 (mkTruss G 0%Z (nvals G) (lil_new N N) (lil_new N N))) as (s & -> & I0);
    simpl; auto using lil_new_wf; try lia.
  { intros u v; auto. }
  cbn [bind].
  assert (P0 : (0 <= nvals G)%Z) by (rewrite <- tuples_length by apply SG; lia).
  destruct (mwhile_inv (fun s => negb (tr_new s =? tr_old s)%Z) (k_truss2_body k) inv
              (Z.to_nat (nvals G))) with (n := n) (k := 0) (s := s) as (b & s' & -> & I' & Ec); auto; try lia.
  { intros b s1 (SG1 & WM & RM & CM & WS & RS & CS & NV & Le & Bd & SB & SU & MX) Cd.
    apply negb_true_iff, Z.eqb_neq in Cd.
    assert ((0 <= nvals (tr_A s1))%Z) by (rewrite <- tuples_length by apply SG1; lia).
    split; [lia|]. apply step_ok; auto; lia. }
  cbn [bind option_map]. exists (tr_A s'). split; [reflexivity|].
  destruct I' as (SG1 & WM & RM & CM & WS & RS & CS & NV & Le & Bd & SB & SU & MX).
  split; auto. apply negb_false_iff, Z.eqb_eq in Ec. split; [auto|]. split; [apply (e_sym N _ SG1)|].
  split; [apply SU; auto|]. intros h Sh _ Hh. apply MX; auto.
Qed.
End Truss2.
