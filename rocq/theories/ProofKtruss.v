(** Proofs about [k_truss]. *)
From Coq Require Import Lia Sorted.
From Verif Require Import Base ModelLil ModelVec ModelHelpers ModelViews ModelMul ModelElem
  ModelIndex ModelUtils ModelAlgoBase ModelMis ModelTruss ModelTriangle Spec SpecOps SpecIndex SpecCalls
  SpecGraph SpecTriangle SpecTruss ProofBase ProofRow ProofLil ProofVec ProofCalls ProofContainers
  ProofViews ProofMul ProofElem ProofReduce ProofIndex ProofAssign ProofAssignRC ProofUtils ProofGraph
  ProofBfs ProofMis ProofTriangle ProofTruss.
Local Open Scope Z_scope.

(** ** Sums *)
Lemma sumn_S f n : sumn f (S n) = sumn f n + f n.
Proof.
  unfold sumn. rewrite seq_S, suml_app. simpl. unfold suml at 2. simpl. lia.
Qed.
Lemma sumn_0 n : sumn (fun _ => 0) n = 0.
Proof. unfold sumn. apply suml_0. Qed.
Lemma sumn_add n f g : sumn (fun i => f i + g i) n = sumn f n + sumn g n.
Proof. unfold sumn. apply suml_add. Qed.
Lemma sumn_point f a n : (a < n)%nat -> sumn (fun w => Z.b2z (w =? a)%nat * f w) n = f a.
Proof.
  induction n as [|n IH]; intro H; [lia|]. rewrite sumn_S.
  destruct (Nat.eqb_spec n a).
  - subst. rewrite (sumn_ext a _ (fun _ => 0)).
    + rewrite sumn_0. simpl Z.b2z. lia.
    + intros i Hi. destruct (Nat.eqb_spec i a); simpl; lia.
  - rewrite IH by lia. simpl Z.b2z. lia.
Qed.
Lemma sumn_unique p n :
  (forall e f, (e < n)%nat -> (f < n)%nat -> p e = true -> p f = true -> e = f) ->
  sumn (fun e => Z.b2z (p e)) n = Z.b2z (existsb p (seq 0 n)).
Proof.
  induction n as [|n IH]; intro H; [reflexivity|].
  rewrite sumn_S, seq_S, existsb_app, IH by (intros; apply H; auto; lia). simpl.
  rewrite orb_false_r. destruct (existsb p (seq 0 n)) eqn:E, (p n) eqn:Ep; simpl; auto.
  exfalso. apply existsb_exists in E as (e & He & Ee). apply in_seq in He.
  assert (e = n) by (apply H; auto; lia). lia.
Qed.
Lemma suml_part {A} (p : A -> bool) f l :
  suml f l = suml f (filter p l) + suml f (filter (fun x => negb (p x)) l).
Proof.
  induction l as [|a l IH]; [reflexivity|]. simpl filter.
  change (suml f (a :: l)) with (f a + suml f l).
  destruct (p a); simpl negb; cbv iota;
    [change (suml f (a :: filter p l)) with (f a + suml f (filter p l))|
     change (suml f (a :: filter (fun x => negb (p x)) l)) with (f a + suml f (filter (fun x => negb (p x)) l))];
    lia.
Qed.
Lemma sumn_nth f (l : list nat) : sumn (fun r => f (nth r l 0%nat)) (length l) = suml f l.
Proof.
  unfold sumn. induction l as [|a l IH]; [reflexivity|]. simpl length. simpl seq.
  rewrite <- seq_shift.
  change (suml f (a :: l)) with (f a + suml f l). rewrite <- IH.
  unfold suml. simpl. rewrite map_map. reflexivity.
Qed.

(** ** Rows of a matrix *)
Lemma extract_rows_ok (M : lil Z) l :
  wfm M -> Forall (fun e => (e < nrows M)%nat) l ->
  exists M', extract_rows M l = Ok M' /\ wfm M' /\ nrows M' = length l /\ ncols M' = ncols M /\
    forall r v, (r < length l)%nat -> mget M' r v = mget M (nth r l 0%nat) v.
Proof.
  intros W F. unfold extract_rows.
  destruct (extract_m_ok btrue idc (NoAcc idc) mnomask REPLACE (lil_new (length l) (ncols M)) (Mat M)
              (IdxArr l) AllIdx) as (M' & E & W' & R & C & G); auto using lil_new_wf.
  { exact Logic.I. }
  { split; [exact Logic.I|]. split; [reflexivity|]. split; [exact Logic.I|]. split; [exact F|exact Logic.I]. }
  exists M'. split; [exact E|]. split; [auto|]. split; [auto|]. split; [auto|].
  intros r v Hr. simpl in R, C.
  destruct (Nat.lt_ge_cases v (ncols M)) as [Hv|Hv].
  - rewrite G by auto. simpl. unfold idc. rewrite !option_map_id'. unfold smextract. simpl.
    rewrite (nth_error_nth' l 0%nat Hr). reflexivity.
  - rewrite !mget_oob; auto; right; lia.
Qed.

Lemma diag_mask_ok n :
  exists D, diag_mask n = Ok D /\ wfm D /\ nrows D = n /\ ncols D = n /\
    forall i j, mget D i j = if ((i <? n) && (i =? j))%nat then Some true else None.
Proof.
  unfold diag_mask.
  destruct (mfor_seq_inv (fun k D => wfm D /\ nrows D = n /\ ncols D = n /\
     forall i j, mget D i j = if ((i <? k) && (i =? j))%nat then Some true else None)
     (fun ix (M : lil bool) => lil_setElement M ix ix true) n (lil_new n n)) as (D & E & H).
  - split; [apply lil_new_wf|]. do 2 (split; [reflexivity|]). intros. rewrite mget_new. reflexivity.
  - intros k D Hk (W & R & C & G). unfold lil_setElement.
    destruct (setElement_merge_ok (fun _ new => new) D k k true W) as (D' & -> & W' & R' & C' & G'); try lia.
    exists D'. split; [reflexivity|]. split; [auto|]. split; [lia|]. split; [lia|].
    intros i j. rewrite G'. replace (match mget D k k with Some _ => true | None => true end) with true
      by (destruct (mget D k k); reflexivity). rewrite G. change (1 + k)%nat with (S k).
    destruct (Nat.eqb_spec i k), (Nat.eqb_spec j k), (Nat.ltb_spec i k), (Nat.ltb_spec i (S k)),
      (Nat.eqb_spec i j); subst; try lia; reflexivity.
  - exists D. split; [exact E|]. exact H.
Qed.

(** ** Adjacencies *)
Definition adj (E : smat Z) (n w v : nat) : Z :=
  if (w =? v)%nat then 0 else sumn (fun e => ov (E e w) * ov (E e v)) n.
(** Some row holds both [w] and [v]. *)
Definition meets {T} (E : lil T) (w v : nat) : Prop :=
  w <> v /\ exists e, (e < nrows E)%nat /\ is_some (mget E e w) = true /\ is_some (mget E e v) = true.

Lemma osum_some {X} (op : X -> X -> X) l x : In (Some x) l -> is_some (osum op l) = true.
Proof.
  intro H. destruct (osum op l) eqn:E; auto. exfalso. rewrite osum_none_iff in E.
  specialize (E _ H). discriminate.
Qed.
Lemma smul_some K (A B : smat Z) i j :
  is_some (smul Z.add Z.mul K A B i j) = true <->
  exists w, (w < K)%nat /\ is_some (A i w) = true /\ is_some (B w j) = true.
Proof.
  split.
  - intro H. destruct (existsb (fun w => is_some (A i w) && is_some (B w j)) (seq 0 K)) eqn:E.
    + apply existsb_exists in E as (w & Hw & Ew). apply in_seq in Hw. apply andb_true_iff in Ew.
      exists w. split; [lia|auto].
    + rewrite smul_none in H; [discriminate|]. intros w Hw.
      destruct (A i w) eqn:E1; auto. destruct (B w j) eqn:E2; auto. exfalso.
      assert (existsb (fun w => is_some (A i w) && is_some (B w j)) (seq 0 K) = true); [|congruence].
      apply existsb_exists. exists w. rewrite E1, E2. split; auto. apply in_seq. lia.
  - intros (w & Hw & H1 & H2). destruct (A i w) as [a|] eqn:E1; [|discriminate].
    destruct (B w j) as [b|] eqn:E2; [|discriminate]. unfold smul. apply osum_some with (x := a * b).
    apply in_map_iff. exists w. rewrite E1, E2. split; auto. apply in_seq. lia.
Qed.

Lemma offdiag_ok N (D : lil bool) (E : lil Z) :
  wfm D -> nrows D = N -> ncols D = N ->
  (forall i j, mget D i j = if ((i <? N) && (i =? j))%nat then Some true else None) ->
  wfm E -> ncols E = N ->
  exists P, mxm Z.add Z.mul Z.mul idc idc btrue idc (NoAcc idc) (MComp D) REPLACE
              (lil_new N N) (Trn E) (Mat E) = Ok P /\
    wfm P /\ nrows P = N /\ ncols P = N /\
    (forall w v, (w < N)%nat -> (v < N)%nat -> ov (mget P w v) = adj (mget E) (nrows E) w v) /\
    (forall w v, (w < N)%nat -> (v < N)%nat -> (is_some (mget P w v) = true <-> meets E w v)).
Proof.
  intros WD RD CD GD WE CE.
  destruct (mxm_ok Z.add Z.mul Z.mul idc idc btrue idc (NoAcc idc) (MComp D) REPLACE (lil_new N N)
              (Trn E) (Mat E)) as (P & EP & WP & RP & CP & GP); simpl; auto using lil_new_wf.
  exists P. split; [exact EP|]. simpl in RP, CP. split; [auto|]. split; [auto|]. split; [auto|].
  assert (G : forall w v, (w < N)%nat -> (v < N)%nat -> mget P w v =
     if (w =? v)%nat then None else smul Z.add Z.mul (nrows E) (stran (mget E)) (mget E) w v).
  { intros w v Hw Hv. rewrite GP by auto. simpl mask_allows. rewrite GD.
    destruct (Nat.ltb_spec w N); [|lia]. destruct (Nat.eqb_spec w v); simpl; auto.
    unfold idc. rewrite !option_map_id'. reflexivity. }
  split; intros w v Hw Hv; rewrite G by auto.
  - unfold adj. destruct (w =? v)%nat; [reflexivity|]. rewrite ov_smul. reflexivity.
  - unfold meets. destruct (Nat.eqb_spec w v).
    + split; [discriminate|]. intros [H _]. contradiction.
    + rewrite smul_some. unfold stran. split; [intro H; split; auto|tauto].
Qed.

(** ** Incidence matrices *)
Section Inc.
Context (N : nat) (E : lil Z).
Hypothesis IE : incidence N E.

Lemma inc_ov e v : ov (mget E e v) = Z.b2z (is_some (mget E e v)).
Proof.
  destruct IE as (_ & _ & V & _). destruct (mget E e v) as [x|] eqn:Ex; simpl; auto.
  eapply V; eauto.
Qed.
Lemma inc_bound e v : is_some (mget E e v) = true -> (e < nrows E)%nat /\ (v < N)%nat.
Proof.
  destruct IE as (W & C & _). intro H. destruct (mget E e v) eqn:Ex; [|discriminate].
  apply mget_some_bounds in Ex; auto. lia.
Qed.
Lemma ends_iff e a b v : endpoints E e a b -> is_some (mget E e v) = ((v =? a) || (v =? b))%nat.
Proof.
  intros [_ H]. specialize (H v).
  destruct (Nat.eqb_spec v a), (Nat.eqb_spec v b); simpl; try (apply H; auto; fail).
  destruct (is_some (mget E e v)); auto. exfalso. assert (v = a \/ v = b)%nat by (apply H; auto). lia.
Qed.
Lemma ends_same e f a b : endpoints E e a b -> endpoints E f a b -> e = f.
Proof.
  intros He Hf. pose proof IE as (_ & _ & V & _ & U).
  apply U.
  - apply (inc_bound e a). rewrite (ends_iff e a b) by auto. rewrite Nat.eqb_refl. reflexivity.
  - apply (inc_bound f a). rewrite (ends_iff f a b) by auto. rewrite Nat.eqb_refl. reflexivity.
  - intro v. pose proof (ends_iff e a b v He) as H1. rewrite <- (ends_iff f a b v Hf) in H1.
    destruct (mget E e v) as [x|] eqn:E1, (mget E f v) as [y|] eqn:E2; try discriminate; auto.
    apply V in E1, E2. congruence.
Qed.
Lemma ends_lt e a b : endpoints E e a b -> (e < nrows E)%nat /\ (a < N)%nat /\ (b < N)%nat.
Proof.
  intro H. pose proof (inc_bound e a) as Ha. pose proof (inc_bound e b) as Hb.
  rewrite (ends_iff e a b) in Ha, Hb by auto. rewrite Nat.eqb_refl in Ha. rewrite Nat.eqb_refl in Hb.
  rewrite orb_true_r in Hb. simpl in Ha. destruct (Ha eq_refl), (Hb eq_refl). auto.
Qed.
Lemma both_ends e w v :
  is_some (mget E e w) = true -> is_some (mget E e v) = true -> (w < v)%nat -> endpoints E e w v.
Proof.
  intros Hw Hv L. destruct (inc_bound e w Hw) as [He _]. destruct IE as (_ & _ & _ & Ep & _).
  destruct (Ep e He) as (a & b & H). pose proof (ends_iff e a b w H). pose proof (ends_iff e a b v H).
  rewrite Hw in *. rewrite Hv in *.
  destruct (Nat.eqb_spec w a), (Nat.eqb_spec w b), (Nat.eqb_spec v a), (Nat.eqb_spec v b);
    try discriminate; subst; auto; destruct H; lia.
Qed.

Lemma joined_sym u v : joined E u v = joined E v u.
Proof.
  unfold joined. rewrite (Nat.eqb_sym u v). f_equal.
  assert (K : forall l, existsb (fun e => is_some (mget E e u) && is_some (mget E e v)) l =
                        existsb (fun e => is_some (mget E e v) && is_some (mget E e u)) l).
  { induction l as [|x l IH]; simpl; auto. rewrite IH. f_equal. apply andb_comm. }
  apply K.
Qed.
Lemma joined_meets u v : joined E u v = true <-> meets E u v.
Proof.
  unfold joined, meets. rewrite andb_true_iff, negb_true_iff, Nat.eqb_neq, existsb_exists.
  split; intros [H1 (e & He & H2)]; (split; [exact H1|]); exists e.
  - apply in_seq in He. apply andb_true_iff in H2. split; [lia|auto].
  - rewrite in_seq. destruct H2 as [-> ->]. split; [lia|auto].
Qed.
Lemma joined_ends u v : (u < v)%nat -> joined E u v = true -> exists e, endpoints E e u v.
Proof.
  intros L H. apply joined_meets in H as (_ & e & He & H1 & H2). exists e. apply both_ends; auto.
Qed.
Lemma ends_joined e a b : endpoints E e a b -> joined E a b = true.
Proof.
  intro H. apply joined_meets. destruct (ends_lt e a b H) as (He & _). split; [destruct H; lia|].
  exists e. rewrite !(ends_iff e a b) by auto. rewrite !Nat.eqb_refl, orb_true_r. auto.
Qed.

Lemma adj_joined w v : adj (mget E) (nrows E) w v = Z.b2z (joined E w v).
Proof.
  unfold adj, joined. destruct (Nat.eqb_spec w v) as [|D]; [reflexivity|]. simpl.
  rewrite <- sumn_unique.
  - apply sumn_ext. intros e _. rewrite !inc_ov.
    destruct (is_some (mget E e w)), (is_some (mget E e v)); reflexivity.
  - intros e f _ _ He Hf. apply andb_true_iff in He as [H1 H2]. apply andb_true_iff in Hf as [H3 H4].
    destruct (Nat.lt_total w v) as [L|[L|L]]; [|contradiction|].
    + apply (ends_same e f w v); apply both_ends; auto.
    + apply (ends_same e f v w); apply both_ends; auto.
Qed.

Lemma row_sum e a b (F : nat -> Z) :
  endpoints E e a b -> sumn (fun w => ov (mget E e w) * F w) N = F a + F b.
Proof.
  intro H. destruct (ends_lt e a b H) as (_ & Ha & Hb).
  rewrite <- (sumn_point F a N Ha), <- (sumn_point F b N Hb), <- sumn_add.
  apply sumn_ext. intros w _. rewrite inc_ov, (ends_iff e a b) by auto. destruct H as [L _].
  destruct (Nat.eqb_spec w a), (Nat.eqb_spec w b); simpl; try lia.
Qed.

(** The matrix [R] of the code. *)
Definition counts (R : lil Z) : Prop :=
  wfm R /\ nrows R = nrows E /\ ncols R = N /\
  (forall e v, (e < nrows E)%nat -> (v < N)%nat ->
     ov (mget R e v) = sumn (fun w => ov (mget E e w) * adj (mget E) (nrows E) w v) N) /\
  (forall e w v, is_some (mget E e w) = true -> meets E w v -> is_some (mget R e v) = true).

Definition ones_vector (ones : bvec Z) : Prop :=
  wfv ones /\ vsize ones = N /\ forall v, (v < N)%nat -> vget ones v = Some 1.

Definition supports (s : bvec Z) : Prop :=
  wfv s /\ vsize s = nrows E /\
  forall e a b, endpoints E e a b -> vget s e = Some (Z.of_nat (support N (joined E) a b)).

Lemma edge_support_ok R ones :
  counts R -> ones_vector ones -> (0 < nrows E)%nat ->
  exists s, edge_support R ones = Ok s /\ supports s.
Proof.
  intros (WR & RR & CR & VR & SR) (Wo & So & Go) P. unfold edge_support. rewrite RR.
  destruct (vec_new_ok 0 (nrows E)) as (s0 & -> & W0 & S0 & G0); [lia|]. cbn [bind].
  destruct (mxv_ok Z.add first_equals_two (fun y x => first_equals_two x y) btrue idc (NoAcc idc)
              vnomask REPLACE s0 (Mat R) ones) as (s & -> & Ws & Ss & Gs); simpl; auto; try congruence.
  { apply W0. } { apply wfv_wfvn; auto. }
  exists s. split; [reflexivity|]. split; [auto|]. split; [congruence|].
  intros e a b H. destruct (ends_lt e a b H) as (He & Ha & Hb).
  rewrite Gs by lia. simpl. unfold idc. rewrite !option_map_id'. rewrite CR.
  set (o := smulv Z.add first_equals_two N (mget R) (vget ones) e).
  assert (EO : ov o = Z.of_nat (support N (joined E) a b)).
  { unfold o, smulv. rewrite ov_osum. unfold suml. rewrite map_map. rewrite support_sum.
    unfold sumn, suml. f_equal. apply map_ext_in. intros v Hv. apply in_seq in Hv.
    rewrite Go by lia. rewrite (joined_sym v b).
    assert (EV := VR e v He ltac:(lia)). rewrite (row_sum e a b) in EV by auto.
    rewrite !adj_joined in EV.
    destruct (mget R e v) as [x|]; simpl in *.
    - subst x. unfold first_equals_two. destruct (joined E a v), (joined E b v); reflexivity.
    - destruct (joined E a v), (joined E b v); simpl in *; lia. }
  assert (IS : is_some o = true).
  { assert (Hr : is_some (mget R e a) = true).
    { apply (SR e b a).
      - rewrite (ends_iff e a b), Nat.eqb_refl, orb_true_r by auto. reflexivity.
      - apply joined_meets. rewrite joined_sym. eapply ends_joined; eauto. }
    destruct (mget R e a) as [x|] eqn:Ex; [|discriminate].
    apply osum_some with (x := first_equals_two x 1). apply in_map_iff. exists a.
    rewrite Ex, Go by auto. split; auto. apply in_seq. lia. }
  destruct o; [|discriminate]. simpl in EO. subst. reflexivity.
Qed.
End Inc.

Lemma edges_where_ok test (s : bvec Z) :
  wfv s -> (0 < vsize s)%nat ->
  exists x, edges_where test s = Ok x /\ wfv x /\ vsize x = vsize s /\
    forall e, (e < vsize s)%nat -> is_some (vget x e) = match vget s e with Some v => test v | None => false end.
Proof.
  intros W P. unfold edges_where.
  destruct (vec_new_ok false (vsize s)) as (x0 & -> & W0 & S0 & G0); [lia|]. cbn [bind].
  destruct (apply_v_ok test btrue idc (NoAcc idc) vnomask REPLACE x0 s) as (x1 & -> & W1 & S1 & G1).
  { apply W0. } { apply wfv_wfvn; auto. } { exact Logic.I. } { split; [exact Logic.I|auto]. }
  cbn [bind].
  destruct (apply_v_ok idc btrue idc (NoAcc idc) (MVal x1) REPLACE x1 x1) as (x & -> & Wx & Sx & Gx).
  { apply W1. } { apply wfv_wfvn; auto. } { apply W1. } { split; reflexivity. }
  exists x. split; [reflexivity|]. split; [auto|]. split; [congruence|]. intros e He.
  rewrite Gx by congruence. simpl. unfold idc. rewrite !option_map_id'. rewrite G1 by congruence.
  simpl. unfold idc. rewrite !option_map_id'. destruct (vget s e) as [v|]; [|reflexivity].
  simpl. unfold btrue. destruct (test v); reflexivity.
Qed.

(** ** Sub-matrices *)
Lemma sorted_nth l i j :
  StronglySorted lt l -> (i < j < length l)%nat -> (nth i l 0 < nth j l 0)%nat.
Proof.
  intro S. revert i j. induction S as [|a l S IH F]; intros i j H; simpl in *; [lia|].
  destruct j as [|j]; [lia|]. destruct i as [|i]; [|apply IH; lia].
  rewrite Forall_forall in F. apply F. apply nth_In. lia.
Qed.
Lemma sorted_of_nth l :
  (forall i j, (i < j < length l)%nat -> (nth i l 0 < nth j l 0)%nat) -> StronglySorted lt l.
Proof.
  induction l as [|a l IH]; intro H; constructor.
  - apply IH. intros i j Hij. apply (H (S i) (S j)). simpl. lia.
  - apply Forall_forall. intros x Hx. destruct (In_nth l x 0%nat Hx) as (k & Hk & <-).
    apply (H 0%nat (S k)). simpl. lia.
Qed.
Lemma sorted_filter (p : nat -> bool) l : StronglySorted lt l -> StronglySorted lt (filter p l).
Proof.
  induction 1 as [|a l S IH F]; simpl; [constructor|]. destruct (p a); auto. constructor; auto.
  rewrite Forall_forall in *. intros x Hx. apply filter_In in Hx. apply F. tauto.
Qed.
Lemma sorted_seq n : StronglySorted lt (seq 0 n).
Proof.
  apply sorted_of_nth. intros i j H. rewrite seq_length in H. rewrite !seq_nth by lia. lia.
Qed.

Lemma some_rows_refl {T} (E : lil T) : some_rows E E.
Proof.
  exists (seq 0 (nrows E)). split; [apply sorted_seq|]. split.
  { apply Forall_forall. intros x Hx. apply in_seq in Hx. lia. }
  rewrite seq_length. split; [auto|]. split; [auto|]. intros r v Hr. rewrite seq_nth; auto.
Qed.
Lemma some_rows_trans {T} (K H E : lil T) : some_rows K H -> some_rows H E -> some_rows K E.
Proof.
  intros (l & Sl & Fl & Rl & Cl & Gl) (m & Sm & Fm & Rm & Cm & Gm).
  rewrite Forall_forall in Fl, Fm.
  assert (B : forall i, (i < length l)%nat -> (nth i l 0 < length m)%nat).
  { intros i Hi. rewrite <- Rm. apply Fl. apply nth_In; auto. }
  assert (Nt : forall i, (i < length l)%nat ->
            nth i (map (fun r => nth r m 0%nat) l) 0%nat = nth (nth i l 0%nat) m 0%nat).
  { intros i Hi. rewrite (nth_indep _ 0%nat (nth 0 m 0%nat)) by (rewrite map_length; auto).
    rewrite (map_nth (fun r => nth r m 0%nat) l 0%nat). reflexivity. }
  exists (map (fun r => nth r m 0%nat) l). rewrite map_length. split.
  { apply sorted_of_nth. rewrite map_length. intros i j Hij. rewrite !Nt by lia.
    apply sorted_nth; auto. split; [apply sorted_nth; auto|apply B; lia]. }
  split.
  { apply Forall_forall. intros x Hx. apply in_map_iff in Hx as (r & <- & Hr). apply Fm.
    apply nth_In. rewrite <- Rm. auto. }
  split; [auto|]. split; [congruence|]. intros r v Hr. rewrite Nt, Gl, Gm; auto.
Qed.

Lemma some_rows_inc N (H E : lil Z) : wfm H -> some_rows H E -> incidence N E -> incidence N H.
Proof.
  intros W (l & Sl & Fl & Rl & Cl & Gl) (WE & CE & V & Ep & U). rewrite Forall_forall in Fl.
  assert (Lt : forall r, (r < nrows H)%nat -> (nth r l 0 < nrows E)%nat).
  { intros r Hr. apply Fl, nth_In. lia. }
  split; [auto|]. split; [congruence|]. split; [|split].
  - intros e v x Hx. destruct (mget_some_bounds H e v x W Hx) as [He _]. rewrite Gl in Hx by lia. eauto.
  - intros e He. destruct (Ep _ (Lt e He)) as (a & b & L & P). exists a, b. split; auto.
    intro v. rewrite Gl by lia. auto.
  - intros e f He Hf Eq. assert (Q : nth e l 0%nat = nth f l 0%nat).
    { apply U; auto. intro v. rewrite <- !Gl by lia. auto. }
    destruct (Nat.lt_total e f) as [L|[L|L]]; auto.
    + pose proof (sorted_nth l e f Sl). lia.
    + pose proof (sorted_nth l f e Sl). lia.
Qed.

Lemma rows_meets {T} (H E : lil T) l w v :
  Forall (fun e => (e < nrows E)%nat) l -> nrows H = length l ->
  (forall r v, (r < length l)%nat -> mget H r v = mget E (nth r l 0%nat) v) ->
  meets H w v -> meets E w v.
Proof.
  intros F R G (D & e & He & H1 & H2). split; auto. exists (nth e l 0%nat).
  rewrite Forall_forall in F. split; [apply F, nth_In; lia|]. rewrite <- !G by lia. auto.
Qed.

Lemma adj_split (p : nat -> bool) (E A B : lil Z) w v :
  nrows A = length (filter p (seq 0 (nrows E))) ->
  (forall r v, (r < nrows A)%nat -> mget A r v = mget E (nth r (filter p (seq 0 (nrows E))) 0%nat) v) ->
  nrows B = length (filter (fun e => negb (p e)) (seq 0 (nrows E))) ->
  (forall r v, (r < nrows B)%nat ->
     mget B r v = mget E (nth r (filter (fun e => negb (p e)) (seq 0 (nrows E))) 0%nat) v) ->
  adj (mget E) (nrows E) w v = adj (mget A) (nrows A) w v + adj (mget B) (nrows B) w v.
Proof.
  intros RA GA RB GB. unfold adj. destruct (w =? v)%nat; [reflexivity|].
  unfold sumn at 1. rewrite (suml_part p). rewrite <- !sumn_nth. rewrite RA, RB in *.
  f_equal; apply sumn_ext; intros r Hr; rewrite ?GA, ?GB by auto; reflexivity.
Qed.

Lemma filter_split {A} (p : A -> bool) l :
  (length (filter p l) + length (filter (fun x => negb (p x)) l) = length l)%nat.
Proof. induction l as [|a l IH]; simpl; auto. destruct (p a); simpl; lia. Qed.

(** ** The loop *)
Section Loop.
Context (N k : nat) (Ein : lil Z) (D : lil bool) (ones : bvec Z).
Hypothesis K2 : (2 <= k)%nat.
Hypothesis IE : incidence N Ein.
Hypothesis WD : wfm D.
Hypothesis RD : nrows D = N.
Hypothesis CD : ncols D = N.
Hypothesis GD : forall i j, mget D i j = if ((i <? N) && (i =? j))%nat then Some true else None.
Hypothesis HO : ones_vector N ones.

Let t := (k - 2)%nat.

(** The flags of the edges that lack support. *)
Definition flagged (s : bvec Z) (x : bvec bool) : Prop :=
  wfv x /\ vsize x = vsize s /\
  forall e, (e < vsize s)%nat ->
    is_some (vget x e) = match vget s e with Some v => support_test (threshold k) v | None => false end.

Definition kinv (b : nat) (st : ktruss_state) : Prop :=
  incidence N (kt_E st) /\ some_rows (kt_E st) Ein /\ (b + nrows (kt_E st) <= nrows Ein)%nat /\
  (forall h, subgraph h (joined Ein) -> (forall u v, h u v = h v u) -> supported N t h ->
     subgraph h (joined (kt_E st))) /\
  if kt_break st then nrows (kt_E st) = 0%nat
  else (0 < nrows (kt_E st))%nat /\ counts N (kt_E st) (kt_R st) /\
       supports N (kt_E st) (kt_s st) /\ flagged (kt_s st) (kt_x st).

Lemma flags_ok E s :
  supports N E s -> (0 < nrows E)%nat ->
  exists x, edges_where (support_test (threshold k)) s = Ok x /\ flagged s x.
Proof.
  clear - k. intros (W & Sz & _) P.
  destruct (edges_where_ok (support_test (threshold k)) s) as (x & Ex & Wx & Sx & Gx); auto; [lia|].
  exists x. split; auto. split; auto.
Qed.

Lemma kbody_ok b st :
  kinv b st -> kt_break st = false -> (0 < vnvals (kt_x st)) ->
  exists st', k_truss_body k D ones st = Ok st' /\ kinv (S b) st'.
Proof.
  destruct st as [E R s x br]. simpl. intros (IE' & SR & Bd & MX & H) -> Hx. simpl in *.
  destruct H as (P & CR & SS & FL).
  pose proof SS as (Ws & Sz & Gs). pose proof FL as (Wx & Sx & Gx).
  pose proof IE' as (WE & CE & _ & Ep & _).
  unfold k_truss_body. cbn [kt_E kt_R kt_s kt_x]. cbv zeta.
  set (p := fun e => is_some (vget x e)).
  rewrite (get_vertex_IDs_ok x Wx). cbn [bind]. fold p.
  destruct (edges_where_ok (support_min_test (threshold k)) s) as (xc & -> & Wc & Sc & Gc); auto; [lia|].
  cbn [bind]. rewrite (get_vertex_IDs_ok xc Wc). cbn [bind].
  assert (Efl : filter (fun v => is_some (vget xc v)) (seq 0 (vsize xc)) =
                filter (fun e => negb (p e)) (seq 0 (nrows E))).
  { rewrite Sc, Sz. apply filter_ext_in. intros e He. apply in_seq in He. unfold p.
    rewrite Gc, Gx by lia. destruct (Ep e) as (a & c & Hac); [lia|]. rewrite (Gs e a c Hac).
    reflexivity. }
  rewrite Efl. rewrite Sx, Sz.
  set (lx := filter p (seq 0 (nrows E))). set (lc := filter (fun e => negb (p e)) (seq 0 (nrows E))).
  assert (Fx : Forall (fun e => (e < nrows E)%nat) lx).
  { apply Forall_forall. intros e He. apply filter_In in He as [He _]. apply in_seq in He. lia. }
  assert (Fc : Forall (fun e => (e < nrows E)%nat) lc).
  { apply Forall_forall. intros e He. apply filter_In in He as [He _]. apply in_seq in He. lia. }
  destruct (extract_rows_ok E lx WE Fx) as (Ex & -> & WEx & REx & CEx & GEx). cbn [bind].
  destruct (extract_rows_ok E lc WE Fc) as (En & -> & WEn & REn & CEn & GEn). cbn [bind].
  assert (Sub : some_rows En E).
  { exists lc. split; [apply sorted_filter, sorted_seq|]. auto. }
  assert (IEn : incidence N En) by (eapply some_rows_inc; eauto).
  assert (Less : (nrows En < nrows E)%nat).
  { rewrite REn. pose proof (filter_split p (seq 0 (nrows E))) as Q. rewrite seq_length in Q.
    fold lx lc in Q. enough (0 < length lx)%nat by lia. destruct Wx as [_ Wx]. rewrite Wx in Hx.
    unfold vcount in Hx. rewrite Sx, Sz in Hx. fold p in Hx. fold lx in Hx. lia. }
  assert (SR' : some_rows En Ein) by (eapply some_rows_trans; eauto).
  assert (MX' : forall h, subgraph h (joined Ein) -> (forall u v, h u v = h v u) -> supported N t h ->
     subgraph h (joined En)).
  { intros h Sh Sy Hh u v Hu. pose proof (MX h Sh Sy Hh) as Sh'. pose proof (Sh' u v Hu) as J.
    apply joined_meets in J as (Df & e & He & H1 & H2). apply joined_meets. split; auto.
    assert (Pe : p e = false).
    { unfold p. rewrite Gx by lia.
      assert (Hs : forall a c, endpoints E e a c -> h a c = true -> 
                match vget s e with Some v0 => support_test (threshold k) v0 | None => false end = false).
      { intros a c Hac Hh'. rewrite (Gs e a c Hac). unfold support_test, threshold.
        apply Z.ltb_ge. pose proof (Hh a c Hh'). pose proof (support_mono N h (joined E) a c Sh').
        unfold t in *. lia. }
      destruct (Nat.lt_total u v) as [L|[L|L]]; [|contradiction|].
      - apply (Hs u v); auto. apply (both_ends N E IE'); auto.
      - apply (Hs v u); [|rewrite Sy; auto]. apply (both_ends N E IE'); auto. }
    assert (In e lc) as HI.
    { apply filter_In. rewrite Pe. split; auto. apply in_seq. lia. }
    destruct (In_nth lc e 0%nat HI) as (r & Hr & Er). exists r. rewrite !GEn by auto. rewrite Er.
    split; [lia|auto]. }
  destruct (Nat.eqb_spec (length lc) 0) as [Z0|NZ].
  { eexists. split; [reflexivity|]. simpl. split; [auto|]. split; [auto|].
    split; [simpl; lia|]. split; [auto|]. simpl. congruence. }
  destruct CR as (WR & RR & CR & VR & IR).
  assert (Fc' : Forall (fun e => (e < nrows R)%nat) lc) by (rewrite RR; auto).
  destruct (extract_rows_ok R lc WR Fc') as (R1 & -> & WR1 & RR1 & CR1 & GR1). cbn [bind].
  rewrite CD.
  destruct (offdiag_ok N D Ex WD RD CD GD WEx) as (XX & -> & WXX & RXX & CXX & VXX & IXX); [congruence|].
  cbn [bind].
  destruct (mxm_ok Z.add Z.mul Z.mul idc idc btrue idc (Acc Z.sub idc idc) mnomask REPLACE R1
              (Mat En) (Mat XX)) as (R2 & -> & WR2 & RR2 & CR2 & GR2); simpl; auto; try congruence.
  cbn [bind].
  assert (G2 : forall e v, (e < nrows En)%nat -> (v < N)%nat ->
     mget R2 e v = ounion Z.sub idc idc (mget R1 e v) (smul Z.add Z.mul N (mget En) (mget XX) e v)).
  { intros e v He Hv. rewrite GR2 by congruence. simpl. unfold idc at 1. rewrite !option_map_id'.
    rewrite CEn, CE. reflexivity. }
  assert (C2 : counts N En R2).
  { split; [auto|]. split; [congruence|]. split; [congruence|]. split.
    - intros e v He Hv. rewrite G2 by auto.
      assert (Imp : is_some (smul Z.add Z.mul N (mget En) (mget XX) e v) = true ->
                    is_some (mget R1 e v) = true).
      { intro H. apply smul_some in H as (w & Hw & H1 & H2). rewrite GR1 by congruence.
        apply IXX in H2; auto. apply (IR _ w v).
        - rewrite <- GEn by congruence. auto.
        - exact (rows_meets Ex E lx w v Fx REx GEx H2). }
      replace (ov (ounion _ _ _ _ _)) with
        (ov (mget R1 e v) - ov (smul Z.add Z.mul N (mget En) (mget XX) e v)).
      2: { destruct (smul _ _ _ _ _ e v) as [y|]; destruct (mget R1 e v) as [z|]; simpl; unfold idc; try lia.
           discriminate Imp; reflexivity. }
      rewrite ov_smul. rewrite GR1 by congruence.
      rewrite VR; auto.
      2: { rewrite Forall_forall in Fc. apply Fc, nth_In. congruence. }
      match goal with |- ?a - ?b = ?c => enough (a = c + b) by lia end.
      rewrite <- sumn_add. apply sumn_ext. intros w Hw. rewrite VXX by auto.
      rewrite GEn by congruence.
      rewrite (adj_split p E Ex En w v); auto.
      + lia.
      + intros. apply GEx. congruence.
      + intros. apply GEn. congruence.
    - intros e w v H1 Hm.
      destruct (inc_bound N En IEn e w H1) as [He Hw].
      assert (Hv : (v < N)%nat).
      { destruct Hm as (_ & f & _ & _ & Hf). apply (inc_bound N En IEn f v Hf). }
      rewrite G2 by auto.
      assert (Hr : is_some (mget R1 e v) = true).
      { rewrite GR1 by congruence. apply (IR _ w v).
        - rewrite <- GEn by congruence. auto.
        - exact (rows_meets En E lc w v Fc REn GEn Hm). }
      destruct (mget R1 e v); [|discriminate]. destruct (smul _ _ _ _ _ e v); reflexivity. }
  assert (P' : (0 < nrows En)%nat) by lia.
  destruct (edge_support_ok N En IEn R2 ones C2 HO P') as (s' & -> & SS'). cbn [bind].
  destruct (flags_ok En s' SS' P') as (x' & -> & FL'). cbn [bind].
  eexists. split; [reflexivity|]. simpl. split; [auto|]. split; [auto|]. split; [simpl; lia|].
  split; [auto|]. simpl. auto.
Qed.
End Loop.

Lemma nth_error_seq n i : (i < n)%nat -> nth_error (seq 0 n) i = Some i.
Proof.
  intro H. rewrite (nth_error_nth' _ 0%nat) by (rewrite seq_length; auto). rewrite seq_nth; auto.
Qed.

Theorem k_truss_ok N k E n :
  incidence N E -> (0 < nrows E)%nat -> (2 <= k)%nat -> (nrows E < n)%nat ->
  exists H, k_truss n E k = Ok (Some H) /\ incidence N H /\ some_rows H E /\
    largest_supported N (k - 2) (joined H) (joined E).
Proof.
  intros IE P K2 Hn. pose proof IE as (W & C & _ & Ep & _).
  assert (PN : (0 < N)%nat).
  { destruct (Ep 0%nat P) as (a & b & Hab). apply (ends_lt N E IE) in Hab. lia. }
  unfold k_truss. rewrite C.
  destruct (diag_mask_ok N) as (D & -> & WD & RD & CD & GD). cbn [bind].
  destruct (offdiag_ok N D E WD RD CD GD W C) as (A & -> & WA & RA & CA & VA & IA). cbn [bind].
  destruct (mxm_ok Z.add Z.mul Z.mul idc idc btrue idc (NoAcc idc) mnomask MERGE (lil_new (nrows E) N)
              (Mat E) (Mat A)) as (R & -> & WR & RR & CR & GR); simpl; auto using lil_new_wf; try congruence.
  cbn [bind]. simpl in RR, CR, GR.
  destruct (vec_new_ok 0 N) as (o0 & -> & W0 & S0 & G0); [lia|]. cbn [bind].
  destruct (assign_const_v_ok btrue idc idc (NoAcc idc) vnomask REPLACE o0 1 (IdxArr (seq 0 N)))
    as (ones & -> & Wo & So & Go).
  { apply W0. } { exact Logic.I. }
  { split; [exact Logic.I|]. simpl. rewrite seq_length. split; [lia|].
    apply Forall_forall. intros i Hi. apply in_seq in Hi. lia. }
  { intros a b i j Hab Hi Hj. apply nth_error_nth with (d := 0%nat) in Hi as Hi'.
    apply nth_error_nth with (d := 0%nat) in Hj as Hj'.
    assert (a < length (seq 0 N))%nat by (apply nth_error_Some; congruence).
    assert (b < length (seq 0 N))%nat by (apply nth_error_Some; congruence).
    rewrite seq_length in *. rewrite seq_nth in Hi' by auto. rewrite seq_nth in Hj' by auto. simpl in *. lia. }
  cbn [bind].
  assert (HO : ones_vector N ones).
  { split; [auto|]. split; [congruence|]. intros v Hv. rewrite Go by lia.
    assert (Ei : in_idx (IdxArr (seq 0 N)) (idx_count (IdxArr (seq 0 N)) (vsize o0)) v = true).
    { unfold in_idx, pos. simpl idx_count. rewrite seq_length. apply is_some_true. intro En.
      assert (K := find_none _ _ En v). cbn [sel] in K. rewrite nth_error_seq in K by auto.
      rewrite Nat.eqb_refl in K. enough (true = false) by discriminate. apply K. apply in_seq. lia. }
    rewrite Ei. reflexivity. }
  assert (CT : counts N E R).
  { split; [auto|]. split; [auto|]. split; [auto|].
    assert (G : forall e v, (e < nrows E)%nat -> (v < N)%nat -> mget R e v = smul Z.add Z.mul N (mget E) (mget A) e v).
    { intros e v He Hv. rewrite GR by auto. simpl. unfold idc. rewrite !option_map_id', C. reflexivity. }
    split.
    - intros e v He Hv. rewrite G by auto. rewrite ov_smul. apply sumn_ext. intros w Hw.
      rewrite VA by auto. reflexivity.
    - intros e w v H1 Hm. destruct (inc_bound N E IE e w H1) as [He Hw].
      assert (Hv : (v < N)%nat).
      { destruct Hm as (_ & f & _ & _ & Hf). apply (inc_bound N E IE f v Hf). }
      rewrite G by auto. apply smul_some. exists w. split; auto. split; auto. apply IA; auto. }
  destruct (edge_support_ok N E IE R ones CT HO P) as (s & -> & SS). cbn [bind].
  destruct (flags_ok N k E s SS P) as (x & -> & FL). cbn [bind].
  destruct (mwhile_inv (fun st => negb (kt_break st) && (0 <? vnvals (kt_x st)))
     (k_truss_body k D ones) (kinv N k E) (nrows E)) with (n := n) (k := 0%nat)
     (s := mkKtruss E R s x false) as (b & st & -> & I' & Ec); try lia.
  { intros b st Hi Hc. apply andb_true_iff in Hc as [Hb Hx]. apply negb_true_iff in Hb.
    apply Z.ltb_lt in Hx. split.
    - destruct Hi as (_ & _ & B & _ & Q). rewrite Hb in Q. lia.
    - apply kbody_ok; auto. }
  { unfold kinv. simpl. split; [auto|]. split; [apply some_rows_refl|]. split; [lia|].
    split; [intros h Hh _ _; exact Hh|]. auto. }
  cbn [bind option_map]. exists (kt_E st). split; [reflexivity|].
  destruct I' as (I1 & S1 & _ & MX & Q). split; [auto|]. split; [auto|].
  split; [|split; [apply (joined_sym (kt_E st))|split; [|exact MX]]].
  - intros u v J. apply joined_meets in J. apply joined_meets.
    destruct S1 as (l & _ & F & Rl & _ & Gl). eapply rows_meets; eauto.
  - intros u v J. destruct (kt_break st) eqn:Eb.
    { apply joined_meets in J as (_ & e & He & _). lia. }
    destruct Q as (P1 & _ & (Ws & Sz & Gs) & (Wx & Sx & Gx)). simpl in Ec. apply Z.ltb_ge in Ec.
    assert (K : forall e a c, endpoints (kt_E st) e a c -> (k - 2 <= support N (joined (kt_E st)) a c)%nat).
    { intros e a c Hac. destruct (ends_lt N _ I1 e a c Hac) as (He & _).
      assert (Hv : vget (kt_x st) e = None).
      { apply no_vals_v with (i := e); auto. unfold has_vals. destruct Wx as [_ Wx].
        assert (vnvals (kt_x st) = 0) by lia. rewrite H. reflexivity. }
      specialize (Gx e ltac:(lia)). rewrite Hv, (Gs e a c Hac) in Gx. simpl in Gx. symmetry in Gx.
      unfold support_test, threshold in Gx. apply Z.ltb_ge in Gx. lia. }
    assert (Dv : u <> v) by (apply joined_meets in J; apply J).
    destruct (Nat.lt_total u v) as [L|[L|L]]; [|contradiction|].
    + destruct (joined_ends N _ I1 u v L J) as (e & He). eapply K; eauto.
    + rewrite (joined_sym (kt_E st)) in J. destruct (joined_ends N _ I1 v u L J) as (e & He).
      rewrite support_sym by (apply (joined_sym (kt_E st))). eapply K; eauto.
Qed.
