(** [k_truss] over machine integers follows [k_truss] over the integers. *)
From Coq Require Import Lia ZArith Sorted.
From Verif Require Import Base ModelLil ModelVec ModelHelpers ModelViews ModelMul ModelElem ModelIndex ModelUtils ModelAlgoBase ModelMis
  ModelAlgebra ModelInts ModelTriInts ModelTruss ModelTrussTypes ModelTriangle
  Spec SpecOps SpecIndex SpecCalls SpecAlgebra SpecGraph SpecTriangle SpecTruss SpecInts SpecRel
  ProofBase ProofRow ProofLil ProofVec ProofViews ProofMul ProofElem ProofReduce ProofIndex ProofAssign ProofAssignRC ProofAlgebra ProofLaws ProofUtils ProofGraph ProofBfs ProofContainers ProofMis
  ProofTriangle ProofRel ProofInts ProofTriInts ProofTruss ProofKtruss ProofTrussTypes.
Local Open Scope Z_scope.

(** ** Degrees *)
Lemma sumn_le n f g : (forall i, (i < n)%nat -> f i <= g i) -> sumn f n <= sumn g n.
Proof.
  induction n as [|n IH]; intro H; [reflexivity|]. rewrite !sumn_S. specialize (IH ltac:(intros; apply H; lia)). specialize (H n ltac:(lia)). lia.
Qed.
Lemma sumn_const n : sumn (fun _ => 1) n = Z.of_nat n.
Proof. induction n as [|n IH]; [reflexivity|]. rewrite sumn_S, IH. lia. Qed.

Lemma degree_bound N E v : incidence N E -> sumn (fun e => ov (mget E e v) * ov (mget E e v)) (nrows E) <= Z.of_nat N.
Proof.
  intros IE.
  assert (X : sumn (fun e => ov (mget E e v) * ov (mget E e v)) (nrows E) = sumn (fun u => adj (mget E) (nrows E) u v) N).
  { transitivity (sumn (fun e => sumn (fun u => ov (mget E e u) * (if (u =? v)%nat then 0 else ov (mget E e v))) N) (nrows E)).
    - apply sumn_ext. intros e He. pose proof IE as (_ & _ & _ & Ep & _). destruct (Ep e He) as (a & b & H).
      rewrite (row_sum N E IE e a b (fun u => if (u =? v)%nat then 0 else ov (mget E e v)) H).
      cbv beta. rewrite (inc_ov N E IE), (ends_iff E e a b v H). destruct H as [L _].
      destruct (Nat.eqb_spec a v), (Nat.eqb_spec b v), (Nat.eqb_spec v a), (Nat.eqb_spec v b); simpl; try lia; subst; try lia; congruence.
    - unfold sumn at 1 2. rewrite suml_swap. apply sumn_ext. intros u _. unfold adj. destruct (Nat.eqb_spec u v).
      + fold (sumn (fun x => ov (mget E x u) * 0) (nrows E)). transitivity (sumn (fun _ => 0) (nrows E)); [|apply sumn_0]. apply sumn_ext. intros. apply Z.mul_0_r.
      + reflexivity. }
  rewrite X, <- sumn_const. apply sumn_le. intros u _. rewrite (adj_joined N E IE). destruct (joined E u v); simpl; lia.
Qed.
Lemma gram_bound N E i j z : incidence N E -> smul Z.add Z.mul (vcols (Trn E)) (sview (Trn E)) (sview (Mat E)) i j = Some z -> (0 < N)%nat ->
  z <= Z.of_nat N.
Proof.
  intros IE H PN. assert (X : ov (smul Z.add Z.mul (vcols (Trn E)) (sview (Trn E)) (sview (Mat E)) i j) = z) by (rewrite H; reflexivity).
  rewrite ov_smul in X. simpl in X. unfold stran in X. destruct (Nat.eq_dec i j) as [->|D].
  - rewrite <- X. apply degree_bound; auto.
  - assert (Y : adj (mget E) (nrows E) i j = z). { unfold adj. destruct (Nat.eqb_spec i j); [contradiction|]. exact X. }
    rewrite (adj_joined N E IE) in Y. destruct (joined E i j); simpl in Y; lia.
Qed.

Section Types.
Variable t : ctype.
Hypothesis Ht : integer_type t.
Variables (N k : nat).
Hypothesis K2 : (2 <= k)%nat.
Hypothesis HN : Z.of_nat N <= tmax t.
Hypothesis HK : Z.of_nat k - 2 <= tmax t.

(** Between 0 and [K]. *)
Definition upto (K z : Z) (x : ival) : Prop := x = Ok z /\ 0 <= z <= K.

Lemma tmax_2 : 2 <= tmax t.
Proof. clear -Ht. destruct Ht as (s & w & ->). destruct s, w; vm_compute; discriminate. Qed.
Lemma sm_upto K z x : sm t K z x -> upto K z x.
Proof. clear. intros [(-> & _ & B) P]. split; auto. lia. Qed.
Lemma upto_sub a x b y : upto 2 a x -> upto 2 b y -> op2 Minus t x y = Ok (convert t (a - b)).
Proof.
  clear -Ht. intros [-> A] [-> B]. assert (Ha : a = 0 \/ a = 1 \/ a = 2) by lia. assert (Hb : b = 0 \/ b = 1 \/ b = 2) by lia.
  destruct Ht as (s & w & ->). destruct Ha as [->|[->| ->]], Hb as [->|[->| ->]], s, w; reflexivity.
Qed.
Lemma two_rel : rel2 (upto 2) (sm t 1) (fits0 t) first_equals_two (ifirst_equals_two t).
Proof.
  clear -Ht. intros a x b y [-> A] [(-> & _ & B) P]. unfold first_equals_two, ifirst_equals_two. pose proof tmax_2.
  rewrite (convert_id t 2) by (apply pos_inty; auto; lia). split; [destruct (a =? 2); lia|]. intros _. reflexivity.
Qed.

Lemma vrel_new {A A'} (R : A -> A' -> Prop) d d' n : (0 < n)%nat -> exists w w', vec_new d n = Ok w /\ vec_new d' n = Ok w' /\ vrel R w w' /\ vsize w = n.
Proof.
  clear. intro P. destruct (vec_new_ok d n) as (w & E & W & S & G); [lia|]. destruct (vec_new_ok d' n) as (w' & E' & W' & S' & G'); [lia|].
  exists w, w'. split; [auto|]. split; [auto|]. split; [|auto]. split; [auto|]. split; [auto|]. split; [congruence|].
  intro i. rewrite G, G'. exact I.
Qed.
Lemma eq_refl_rel {A} (f : A -> A) : rel1 (@eq A) eq f f.
Proof. clear. intros x y ->. reflexivity. Qed.

Lemma support_rel R R' ones ones' s : mrel (upto 2) R R' -> vrel (sm t 1) ones ones' -> (0 < nrows R)%nat -> vsize ones = ncols R ->
  edge_support R ones = Ok s -> (forall i z, vget s i = Some z -> z <= Z.of_nat N) ->
  exists s', iedge_support t R' ones' = Ok s' /\ vrel (upto (Z.of_nat N)) s s'.
Proof.
  clear -Ht HN. intros HR HO P Sz E B. unfold edge_support, iedge_support in *. pose proof HR as (_ & _ & ER & _). rewrite <- ER.
  destruct (vrel_new (fits0 t) 0 (Ok 0 : ival) (nrows R) P) as (w & w' & E1 & E1' & RW & SW). rewrite E1 in E. rewrite E1'. cbn [bind] in *.
  destruct (mxv_rel (upto 2) (sm t 1) (fits0 t) (fits0 t) (fits0 t) (@eq bool) btrue btrue idc idc REPLACE
    ltac:(intros z x ->; reflexivity) ltac:(intros z x Hx; exact Hx) (NoAcc idc) (NoAcc idc) ltac:(intros z x Hx; exact Hx)
    Z.add (op2 Plus t) first_equals_two (ifirst_equals_two t) (fits0_add t Ht) two_rel
    (fun y x => first_equals_two x y) (fun y x => ifirst_equals_two t x y) vnomask vnomask w w' (Mat R) (Mat R') ones ones')
    as (u & u' & E2 & E2' & RU); auto; try exact I.
  { split; [exact I|]. simpl. auto. }
  change (mxv Z.add first_equals_two (fun y x => first_equals_two x y) btrue idc (NoAcc idc) vnomask REPLACE w (Mat R) ones = Ok u) in E2.
  change (mxv (op2 Plus t) (ifirst_equals_two t) (fun y x => ifirst_equals_two t x y) btrue idc (NoAcc idc) vnomask REPLACE w' (Mat R') ones' = Ok u') in E2'.
  rewrite E2 in E. injection E as ->. rewrite E2'. cbn [bind]. destruct RU as (W & W' & ES & G).
  assert (Q : vrel (upto (Z.of_nat N)) s u').
  { split; [auto|]. split; [auto|]. split; [auto|]. intro i. specialize (G i). specialize (B i).
    destruct (vget s i) as [z|], (vget u' i); simpl in *; auto. specialize (B z eq_refl). destruct G as [G1 G2]. split; [apply G2|]; lia. }
  exists u'. split; [|auto]. apply defined_v_ok; [apply W'|]. intros i x Hx. destruct Q as (_ & _ & _ & Q). specialize (Q i). rewrite Hx in Q.
  destruct (vget s i); simpl in Q; [|tauto]. destruct Q as [-> _]. eauto.
Qed.

Lemma where_rel (test : Z -> bool) (test' : ival -> bool) s s' x : vrel (upto (Z.of_nat N)) s s' -> (0 < vsize s)%nat ->
  (forall z, test z = test' (Ok z)) -> edges_where test s = Ok x -> exists x', iedges_where test' s' = Ok x' /\ vrel eq x x'.
Proof.
  clear. intros HS P Ht E. unfold edges_where, iedges_where in *. pose proof HS as (_ & _ & ES & _). rewrite <- ES.
  destruct (vrel_new (@eq bool) false false (vsize s) P) as (w & w' & E1 & E1' & RW & SW). rewrite E1 in E. rewrite E1'. cbn [bind] in *.
  destruct (apply_v_rel (upto (Z.of_nat N)) (@eq bool) (@eq bool) (@eq bool) (@eq bool) btrue btrue idc idc REPLACE
    ltac:(intros z y ->; reflexivity) ltac:(intros z y ->; reflexivity) (NoAcc idc) (NoAcc idc) ltac:(intros z y ->; reflexivity)
    test test' vnomask vnomask w w' s s') as (u & u' & E2 & E2' & RU); auto; try exact I.
  { intros z y [-> _]. apply Ht. }
  { split; [exact I|auto]. }
  change (apply_v test btrue idc (NoAcc idc) vnomask REPLACE w s = Ok u) in E2.
  change (apply_v test' btrue idc (NoAcc idc) vnomask REPLACE w' s' = Ok u') in E2'.
  rewrite E2 in E. rewrite E2'. cbn [bind] in *.
  destruct (apply_v_rel (@eq bool) (@eq bool) (@eq bool) (@eq bool) (@eq bool) btrue btrue idc idc REPLACE
    ltac:(intros z y ->; reflexivity) ltac:(intros z y ->; reflexivity) (NoAcc idc) (NoAcc idc) ltac:(intros z y ->; reflexivity)
    idc idc (MVal u) (MVal u') u u' u u') as (v & v' & E3 & E3' & RV); auto.
  { intros z y ->. reflexivity. }
  { split; simpl; auto. }
  change (apply_v idc btrue idc (NoAcc idc) (MVal u) REPLACE u u = Ok v) in E3.
  change (apply_v idc btrue idc (NoAcc idc) (MVal u') REPLACE u' u' = Ok v') in E3'.
  rewrite E3 in E. injection E as ->. rewrite E3'. eauto.
Qed.

Lemma IDs_rel (x x' : bvec bool) : vrel eq x x' -> get_vertex_IDs x = get_vertex_IDs x'.
Proof.
  clear. intros (W & W' & ES & G). rewrite !get_vertex_IDs_ok by auto. rewrite ES. f_equal. apply filter_ext. intro i. specialize (G i).
  destruct (vget x i), (vget x' i); simpl in *; tauto.
Qed.
Lemma vnvals_rel (x x' : bvec bool) : vrel eq x x' -> vnvals x = vnvals x'.
Proof.
  clear. intros ((_ & C) & (_ & C') & ES & G). rewrite C, C'. unfold vcount. rewrite ES. do 2 f_equal. apply filter_ext. intro i. specialize (G i).
  destruct (vget x i), (vget x' i); simpl in *; tauto.
Qed.
Lemma rows_rel (R : Z -> ival -> Prop) M M' l X : mrel R M M' -> Forall (fun e => (e < nrows M)%nat) l -> extract_rows M l = Ok X ->
  exists X', iextract_rows M' l = Ok X' /\ mrel R X X'.
Proof.
  clear. intros HM F E. unfold extract_rows, iextract_rows in *. pose proof HM as (_ & _ & ER & EC & _). rewrite <- EC.
  destruct (extract_m_rel R R R (@eq bool) btrue btrue idc idc REPLACE
    ltac:(intros z y ->; reflexivity) ltac:(intros z x Hx; exact Hx) (NoAcc idc) (NoAcc idc) ltac:(intros z x Hx; exact Hx)
    mnomask mnomask (lil_new (length l) (ncols M)) (lil_new (length l) (ncols M)) (Mat M) (Mat M') (IdxArr l) AllIdx) as (u & u' & E1 & E1' & RU);
    auto using mrel_new; try exact I.
  { split; [exact I|]. split; [reflexivity|]. split; [exact I|]. split; [exact F|exact I]. }
  change (extract_m btrue idc (NoAcc idc) mnomask REPLACE (lil_new (length l) (ncols M)) (Mat M) (IdxArr l) AllIdx = Ok u) in E1.
  change (extract_m btrue idc (NoAcc idc) mnomask REPLACE (lil_new (length l) (ncols M)) (Mat M') (IdxArr l) AllIdx = Ok u') in E1'.
  rewrite E1 in E. injection E as ->. eauto.
Qed.

Section Diag.
Variable D : lil bool.
Hypothesis WD : wfm D.
Hypothesis RD : nrows D = N.
Hypothesis CD : ncols D = N.
Hypothesis GD : forall i j, mget D i j = if ((i <? N) && (i =? j))%nat then Some true else None.

Lemma gram_rel E E' P : incidence N E -> (0 < N)%nat -> mrel (sm t 1) E E' ->
  mxm Z.add Z.mul Z.mul idc idc btrue idc (NoAcc idc) (MComp D) REPLACE (lil_new N N) (Trn E) (Mat E) = Ok P ->
  exists P', iproduct t idc btrue (MComp D) REPLACE (lil_new N N) (Trn E') (Mat E') = Ok P' /\ mrel (sm t 1) P P'.
Proof.
  clear -Ht HN WD RD CD GD. intros IE PN RE EP. pose proof IE as (WE & CE & _).
  destruct (iproduct_ok t Ht (@eq bool) (Z.of_nat N) btrue btrue idc (MComp D) (MComp D) REPLACE (lil_new N N) (lil_new N N)
    (Trn E) (Trn E') (Mat E) (Mat E')) as (Q & Q' & X & X' & RQ); auto using mrel_new.
  { intros z x ->. reflexivity. }
  { split; [auto|]. split; [auto|]. split; [auto|]. split; [auto|]. intros i j. destruct (mget D i j); simpl; auto. }
  { split; simpl; auto. }
  { intros z x Hx. exact Hx. }
  { intros i j z Hz. eapply gram_bound; eauto. }
  rewrite EP in X. injection X as <-. exists Q'. split; [auto|]. eapply sm_sharp; eauto.
  destruct (offdiag_ok N D E WD RD CD GD WE CE) as (P0 & E0 & W0 & R0 & C0 & V0 & _). rewrite EP in E0. injection E0 as <-.
  intros i j z Hz. destruct (mget_some_bounds P i j z W0 Hz) as [Hi Hj]. specialize (V0 i j ltac:(lia) ltac:(lia)). rewrite Hz in V0.
  simpl in V0. rewrite (adj_joined N E IE) in V0. destruct (joined E i j); simpl in V0; lia.
Qed.

(** The products of edges and adjacencies. *)
Lemma two_bound E A e v z : incidence N E -> (forall w v, (w < N)%nat -> (v < N)%nat -> ov (mget A w v) <= 1) -> (v < N)%nat ->
  smul Z.add Z.mul N (mget E) (mget A) e v = Some z -> z <= 2.
Proof.
  clear. intros IE HA Hv H. assert (X : ov (smul Z.add Z.mul N (mget E) (mget A) e v) = z) by (rewrite H; reflexivity).
  rewrite ov_smul in X. destruct (Nat.lt_ge_cases e (nrows E)) as [He|He].
  - pose proof IE as (_ & _ & _ & Ep & _). destruct (Ep e He) as (a & b & Hab). destruct (ends_lt N E IE e a b Hab) as (_ & Ha & Hb).
    rewrite (row_sum N E IE e a b (fun w => ov (mget A w v)) Hab) in X. pose proof (HA a v Ha Hv). pose proof (HA b v Hb Hv). lia.
  - rewrite <- X. transitivity (sumn (fun _ => 0) N); [|rewrite sumn_0; lia]. apply Z.eq_le_incl, sumn_ext. intros w _.
    rewrite mget_oob; [reflexivity|apply IE|auto].
Qed.

Variables (Ein : lil Z) (ones : bvec Z) (ones' : bvec ival).
Hypothesis IE : incidence N Ein.
Hypothesis HO : ones_vector N ones.
Hypothesis RO : vrel (sm t 1) ones ones'.

Definition krel (st : ktruss_state) (st' : iktruss_state) : Prop :=
  mrel (sm t 1) (kt_E st) (ik_E st') /\ mrel (upto 2) (kt_R st) (ik_R st') /\ vrel (upto (Z.of_nat N)) (kt_s st) (ik_s st') /\
  vrel eq (kt_x st) (ik_x st') /\ kt_break st = ik_break st'.

Lemma counts_2 E R : incidence N E -> counts N E R -> forall i j z, mget R i j = Some z -> 0 <= z <= 2.
Proof.
  clear. intros IE (W & RR & CR & V & _) i j z Hz. destruct (mget_some_bounds R i j z W Hz) as [Hi Hj].
  specialize (V i j ltac:(lia) ltac:(lia)). rewrite Hz in V. simpl in V.
  pose proof IE as (_ & _ & _ & Ep & _). destruct (Ep i ltac:(lia)) as (a & b & Hab). rewrite (row_sum N E IE i a b) in V by auto.
  rewrite !(adj_joined N E IE) in V. destruct (joined E a j), (joined E b j); simpl in V; lia.
Qed.
Lemma supports_N E s : incidence N E -> supports N E s -> forall i z, vget s i = Some z -> z <= Z.of_nat N.
Proof.
  clear. intros IE (W & Sz & G) i z Hz. assert (Hi : (i < nrows E)%nat).
  { rewrite <- Sz. destruct (Nat.lt_ge_cases i (vsize s)) as [|Hi]; auto. rewrite vget_oob in Hz by (auto; apply W). discriminate. }
  pose proof IE as (_ & _ & _ & Ep & _). destruct (Ep i Hi) as (a & b & Hab). rewrite (G i a b Hab) in Hz. injection Hz as <-.
  pose proof (sup_bound N (joined E) a b). lia.
Qed.
Lemma filter_lt p n : Forall (fun e => (e < n)%nat) (filter p (seq 0 n)).
Proof. clear. apply Forall_forall. intros e He. apply filter_In in He as [He _]. apply in_seq in He. lia. Qed.

Lemma kbody_rel b st st' s1 : kinv N k Ein b st -> kt_break st = false -> 0 < vnvals (kt_x st) -> krel st st' ->
  k_truss_body k D ones st = Ok s1 -> kinv N k Ein (S b) s1 /\ exists s1', ik_truss_body t (Z.of_nat k) D ones' st' = Ok s1' /\ krel s1 s1'.
Proof.
  intros KI BR PX RK E1.
  assert (KI1 : kinv N k Ein (S b) s1).
  { destruct (kbody_ok N k Ein D ones K2 WD RD CD GD HO b st KI BR PX) as (s2 & E2 & K). rewrite E1 in E2. injection E2 as <-. exact K. }
  split; [exact KI1|].
  destruct st as [E R s x br], st' as [E' R' s' x' br']. unfold krel in RK. simpl in *. destruct RK as (RE & RR & RS & RX & RB).
  destruct KI as (IE' & SR & Bd & MX & H). simpl in *. subst br. destruct H as (P & CR & SS & FL).
  pose proof SS as (Ws & Sz & Gs). pose proof FL as (Wx & Sx & Gx). pose proof IE' as (WE & CE & _ & Ep & _).
  assert (PN : (0 < N)%nat). { destruct (Ep 0%nat P) as (c & d & Hcd). destruct (ends_lt N E IE' 0%nat c d Hcd). lia. }
  pose proof CR as (WR & RR0 & CR0 & _).
  unfold k_truss_body in E1. unfold ik_truss_body. cbn [kt_E kt_R kt_s kt_x ik_E ik_R ik_s ik_x] in *. cbv zeta in *.
  rewrite <- (IDs_rel x x' RX). rewrite (get_vertex_IDs_ok x Wx) in E1 |- *. cbn [bind] in E1 |- *.
  rewrite Sx, Sz in E1 |- *. set (lx := filter (fun v => is_some (vget x v)) (seq 0 (nrows E))) in *.
  pose proof (filter_lt (fun v => is_some (vget x v)) (nrows E)) as Fx. fold lx in Fx.
  destruct (edges_where_ok (support_min_test (threshold k)) s) as (xc & Exc & Wc & Sc & Gc); auto; [lia|].
  rewrite (ithreshold_ok t Ht k K2 HK).
  destruct (where_rel (support_min_test (threshold k)) (isupport_min_test (threshold k)) s s' xc RS ltac:(lia) (fun z => eq_refl) Exc) as (xc' & Exc' & RXC).
  rewrite Exc in E1. rewrite Exc'. cbn [bind] in E1 |- *. rewrite <- (IDs_rel xc xc' RXC).
  rewrite (get_vertex_IDs_ok xc Wc) in E1 |- *. cbn [bind] in E1 |- *. rewrite Sc, Sz in E1 |- *.
  set (lc := filter (fun v => is_some (vget xc v)) (seq 0 (nrows E))) in *.
  pose proof (filter_lt (fun v => is_some (vget xc v)) (nrows E)) as Fc. fold lc in Fc.
  destruct (extract_rows_ok E lx WE Fx) as (Ex & EEx & WEx & REx & CEx & GEx).
  destruct (rows_rel (sm t 1) E E' lx Ex RE Fx EEx) as (Ex' & EEx' & RelEx).
  rewrite EEx in E1. rewrite EEx'. cbn [bind] in E1 |- *.
  destruct (extract_rows_ok E lc WE Fc) as (En & EEn & WEn & REn & CEn & GEn).
  destruct (rows_rel (sm t 1) E E' lc En RE Fc EEn) as (En' & EEn' & RelEn).
  rewrite EEn in E1. rewrite EEn'. cbn [bind] in E1 |- *.
  assert (IEx : incidence N Ex). { eapply some_rows_inc; eauto. exists lx. split; [apply sorted_filter, sorted_seq|]. auto. }
  destruct (length lc =? 0)%nat eqn:Elc.
  { injection E1 as <-. eexists. split; [reflexivity|]. unfold krel. simpl. auto. }
  assert (FcR : Forall (fun e => (e < nrows R)%nat) lc) by (rewrite RR0; exact Fc).
  destruct (extract_rows_ok R lc WR FcR) as (R1 & ER1 & WR1 & RR1 & CR1 & GR1).
  destruct (rows_rel (upto 2) R R' lc R1 RR FcR ER1) as (R1' & ER1' & RelR1).
  rewrite ER1 in E1. rewrite ER1'. cbn [bind] in E1 |- *. rewrite CD in E1 |- *.
  destruct (offdiag_ok N D Ex WD RD CD GD WEx) as (XX & EXX & WXX & RXX & CXX & VXX & IXX); [congruence|].
  destruct (gram_rel Ex Ex' XX IEx PN RelEx EXX) as (XX' & EXX' & RelXX).
  rewrite EXX in E1. rewrite EXX'. cbn [bind] in E1 |- *.
  pose proof RelR1 as (_ & WR1' & DR1 & DR1c & GRel1). pose proof RelEn as (_ & WEn' & DEn & DEnc & GRelEn). pose proof RelXX as (_ & WXX' & DXX & DXXc & GRelXX).
  destruct (mxm_ok Z.add Z.mul Z.mul idc idc btrue idc (Acc Z.sub idc idc) mnomask REPLACE R1
              (Mat En) (Mat XX)) as (R2 & ER2 & WR2 & RR2 & CR2 & GR2); simpl; auto; try congruence.
  destruct (mxm_ok (op2 Plus t) (op2 Times t) (op2 Times t) idc idc btrue idc (Acc (op2 Minus t) idc idc) mnomask REPLACE R1'
              (Mat En') (Mat XX')) as (R2' & ER2' & WR2' & RR2' & CR2' & GR2'); simpl; auto; try congruence.
  change (mxm Z.add Z.mul Z.mul idc idc btrue idc (Acc Z.sub idc idc) mnomask REPLACE R1 (Mat En) (Mat XX) = Ok R2) in ER2.
  change (mxm (op2 Plus t) (op2 Times t) (op2 Times t) idc idc btrue idc (Acc (op2 Minus t) idc idc) mnomask REPLACE R1' (Mat En') (Mat XX') = Ok R2') in ER2'.
  rewrite ER2 in E1. rewrite ER2'. cbn [bind] in E1 |- *.
  destruct (edge_support R2 ones) as [s2| |] eqn:Es2; try discriminate E1. cbn [bind] in E1.
  destruct (edges_where (support_test (threshold k)) s2) as [x2| |] eqn:Ex2; try discriminate E1. cbn [bind] in E1. injection E1 as <-.
  destruct KI1 as (IEn & _ & _ & _ & Pn & CR2n & SS2 & FL2). simpl in IEn, Pn, CR2n, SS2, FL2.
  assert (Rel2 : mrel (upto 2) R2 R2').
  { split; [auto|]. split; [auto|]. split; [congruence|]. split; [congruence|]. intros i j.
    pose proof (counts_2 En R2 IEn CR2n i j) as B2. pose proof tmax_2.
    destruct (Nat.lt_ge_cases i (nrows R1)) as [Hi|Hi]; [|rewrite !mget_oob; [exact I| | | |]; auto; left; congruence].
    destruct (Nat.lt_ge_cases j (ncols R1)) as [Hj|Hj]; [|rewrite !mget_oob; [exact I| | | |]; auto; right; congruence].
    specialize (GR2 i j Hi Hj). specialize (GR2' i j ltac:(congruence) ltac:(congruence)).
    assert (RS2 : orel (sm t 2) (smul Z.add Z.mul N (mget En) (mget XX) i j) (smul (op2 Plus t) (op2 Times t) N (mget En') (mget XX') i j)).
    { apply smul_sm; auto. intros z Hz. apply (two_bound En XX i j z IEn); auto; [|lia]. intros w v Hw Hv. rewrite VXX by auto.
      rewrite (adj_joined N Ex IEx). destruct (joined Ex w v); simpl; lia. }
    rewrite GR2 in B2 |- *. rewrite GR2'. simpl vcols in *. simpl sview in *. rewrite <- DEnc. rewrite CEn, CE in *.
    simpl spec_write in *. unfold spec_write, spec_accum in *. simpl in *. unfold idc in *. rewrite !option_map_id' in *.
    specialize (GRel1 i j).
    destruct (mget R1 i j) as [z1|], (mget R1' i j) as [y1|]; simpl in GRel1; try tauto;
    destruct (smul Z.add Z.mul N (mget En) (mget XX) i j) as [z2|], (smul (op2 Plus t) (op2 Times t) N (mget En') (mget XX') i j) as [y2|];
      simpl in RS2; try tauto; simpl in *; auto.
    - apply sm_upto in RS2. rewrite (upto_sub z1 y1 z2 y2 GRel1 RS2). specialize (B2 (z1 - z2) eq_refl). split; [|lia].
      rewrite convert_id; auto. apply pos_inty; auto. lia.
    - apply sm_upto in RS2. exact RS2. }
  assert (Def : defined_m R2' = Ok R2').
  { apply defined_m_ok; auto. intros i j y Hy. destruct Rel2 as (_ & _ & _ & _ & Q). specialize (Q i j). rewrite Hy in Q.
    destruct (mget R2 i j); simpl in Q; [|tauto]. destruct Q as [-> _]. eauto. }
  rewrite Def. cbn [bind].
  destruct (support_rel R2 R2' ones ones' s2 Rel2 RO) as (s2' & Es2' & RS2); auto.
  { destruct CR2n as (_ & -> & _). auto. }
  { destruct CR2n as (_ & _ & -> & _). apply HO. }
  { apply (supports_N En s2 IEn SS2). }
  rewrite Es2'. cbn [bind].
  destruct (where_rel (support_test (threshold k)) (isupport_test (threshold k)) s2 s2' x2 RS2) as (x2' & Ex2' & RX2); auto.
  { destruct SS2 as (_ & -> & _). auto. }
  rewrite Ex2'. cbn [bind]. eexists. split; [reflexivity|]. unfold krel. simpl. auto.
Qed.
End Diag.

Lemma ones_ok : (0 < N)%nat -> exists o o' ones ones', vec_new 0 N = Ok o /\ vec_new (Ok 0 : ival) N = Ok o' /\
  assign_const_v idc btrue idc (NoAcc idc) vnomask REPLACE o 1 (IdxArr (seq 0 N)) = Ok ones /\
  assign_const_v idc btrue idc (NoAcc idc) vnomask REPLACE o' (Ok (convert t 1) : ival) (IdxArr (seq 0 N)) = Ok ones' /\
  ones_vector N ones /\ vrel (sm t 1) ones ones'.
Proof.
  clear -Ht. intro PN. destruct (vrel_new (sm t 1) 0 (Ok 0 : ival) N PN) as (o & o' & E & E' & RO & SO). exists o, o'.
  assert (Srt : idx_sorted (IdxArr (seq 0 N))).
  { intros a b i j Hab Hi Hj. apply nth_error_nth with (d := 0%nat) in Hi as Hi'.
    apply nth_error_nth with (d := 0%nat) in Hj as Hj'.
    assert (a < length (seq 0 N))%nat by (apply nth_error_Some; congruence).
    assert (b < length (seq 0 N))%nat by (apply nth_error_Some; congruence).
    rewrite seq_length in *. rewrite seq_nth in Hi' by auto. rewrite seq_nth in Hj' by auto. simpl in *. lia. }
  assert (Cf : vcassign_conforms (TM := bool) vnomask o (IdxArr (seq 0 N))).
  { split; [exact I|]. simpl. rewrite seq_length. split; [lia|]. apply Forall_forall. intros i Hi. apply in_seq in Hi. lia. }
  assert (One : sm t 1 1 (Ok (convert t 1))).
  { pose proof (tmax_1 t Ht). rewrite convert_id by (apply pos_inty; auto; lia). split; [|lia]. split; [auto|]. split; [apply pos_inty; auto|]; lia. }
  destruct (assign_const_v_rel (sm t 1) (sm t 1) (sm t 1) (@eq bool) btrue btrue idc idc REPLACE
    ltac:(intros z x ->; reflexivity) ltac:(intros z x Hx; exact Hx) (NoAcc idc) (NoAcc idc) ltac:(intros z x Hx; exact Hx)
    idc idc vnomask vnomask o o' 1 (Ok (convert t 1)) (IdxArr (seq 0 N))) as (ones & ones' & X & X' & R1); auto; try exact I.
  { intros z x Hx. exact Hx. }
  exists ones, ones'. split; [auto|]. split; [auto|]. split; [exact X|]. split; [exact X'|]. split; [|auto].
  destruct (assign_const_v_ok btrue idc idc (NoAcc idc) vnomask REPLACE o 1 (IdxArr (seq 0 N))) as (ones0 & E0 & Wo & So & Go); auto; try exact I.
  { apply RO. }
  assert (ones0 = ones) by (change (assign_const_v idc btrue idc (NoAcc idc) vnomask REPLACE o 1 (IdxArr (seq 0 N)) = Ok ones) in X; congruence).
  subst ones0. split; [auto|]. split; [congruence|]. intros v Hv. rewrite Go by lia.
  assert (Ei : in_idx (IdxArr (seq 0 N)) (idx_count (IdxArr (seq 0 N)) (vsize o)) v = true).
  { unfold in_idx, pos. simpl idx_count. rewrite seq_length. apply is_some_true. intro En.
    assert (K := find_none _ _ En v). cbn [sel] in K. rewrite nth_error_seq in K by auto.
    rewrite Nat.eqb_refl in K. enough (true = false) by discriminate. apply K. apply in_seq. lia. }
  rewrite Ei. reflexivity.
Qed.

Theorem ik_truss_run n E E' H : incidence N E -> (0 < nrows E)%nat -> mrel (exactly t 1) E E' -> k_truss n E k = Ok (Some H) ->
  exists H', ik_truss t n E' (Z.of_nat k) = Ok (Some H') /\ mrel (exactly t 1) H H'.
Proof.
  intros IE P RG. pose proof IE as (W & C & V & Ep & _). pose proof RG as (_ & _ & ER & EC & _).
  assert (RE : mrel (sm t 1) E E') by (apply ones; auto).
  assert (PN : (0 < N)%nat).
  { destruct (Ep 0%nat P) as (a & b & Hab). apply (ends_lt N E IE) in Hab. lia. }
  unfold k_truss, ik_truss. cbv zeta. rewrite <- EC, <- ER, C.
  destruct (diag_mask_ok N) as (D & -> & WD & RD & CD & GD). cbn [bind].
  destruct (offdiag_ok N D E WD RD CD GD W C) as (A & EA & WA & RA & CA & VA & IA).
  destruct (gram_rel D WD RD CD GD E E' A IE PN RE EA) as (A' & EA' & RelA). rewrite EA, EA'. cbn [bind].
  assert (VA1 : forall w v, (w < N)%nat -> (v < N)%nat -> ov (mget A w v) <= 1).
  { intros w v Hw Hv. rewrite VA by auto. rewrite (adj_joined N E IE). destruct (joined E w v); simpl; lia. }
  destruct (imxm_ok t Ht 2 (nrows E) N (Mat E) (Mat E') (Mat A) (Mat A')) as (R & R' & EMR & EMR' & RelR); auto; try (simpl; congruence).
  { apply tmax_2. }
  { intros i j z Hz. simpl vcols in Hz. simpl sview in Hz. rewrite C in Hz.
    destruct (Nat.lt_ge_cases j N) as [Hj|Hj]; [eapply two_bound; eauto|].
    rewrite smul_none in Hz; [discriminate|]. intros w _. right. apply mget_oob; auto. right. congruence. }
  change (mxm Z.add Z.mul Z.mul idc idc btrue idc (NoAcc idc) mnomask MERGE (lil_new (nrows E) N) (Mat E) (Mat A) = Ok R) in EMR.
  rewrite EMR, EMR'. cbn [bind].
  destruct (mxm_ok Z.add Z.mul Z.mul idc idc btrue idc (NoAcc idc) mnomask MERGE (lil_new (nrows E) N)
              (Mat E) (Mat A)) as (R0 & ER0 & WR & RR & CR & GR); simpl; auto using lil_new_wf; try congruence.
  assert (R0 = R) by (change (mxm Z.add Z.mul Z.mul idc idc btrue idc (NoAcc idc) mnomask MERGE (lil_new (nrows E) N) (Mat E) (Mat A) = Ok R0) in ER0; congruence).
  subst R0. simpl in RR, CR, GR.
  destruct (ones_ok PN) as (o & o' & os & os' & -> & -> & Eo & Eo' & HO & RO). cbn [bind]. rewrite Eo, Eo'. cbn [bind].
  assert (CT : counts N E R).
  { split; [auto|]. split; [auto|]. split; [auto|].
    assert (G : forall e v, (e < nrows E)%nat -> (v < N)%nat -> mget R e v = smul Z.add Z.mul N (mget E) (mget A) e v).
    { intros e v He Hv. rewrite GR by auto. simpl. unfold idc. rewrite !option_map_id', C. reflexivity. }
    split.
    - intros e v He Hv. rewrite G by auto. rewrite ov_smul. apply sumn_ext. intros w Hw.
      rewrite VA by auto. reflexivity.
    - intros e w v H1 Hm. destruct (inc_bound N E IE e w H1) as [He Hw].
      assert (Hv : (v < N)%nat).
      { destruct Hm as (_ & f & _ & _ & Hf). apply (inc_bound N E IE f v Hf). }
      rewrite G by auto. apply smul_some. exists w. split; auto. split; auto. apply IA; auto. }
  destruct (edge_support_ok N E IE R os CT HO P) as (s & Es & SS). rewrite Es. cbn [bind].
  destruct (support_rel R R' os os' s (mrel_imp _ _ _ _ (sm_upto 2) RelR) RO) as (s' & Es' & RS); auto; try lia.
  { destruct HO as (_ & -> & _). auto. }
  { apply (supports_N E s IE SS). }
  rewrite Es'. cbn [bind]. rewrite (ithreshold_ok t Ht k K2 HK).
  destruct (flags_ok N k E s SS P) as (x & Ex & FL). rewrite Ex. cbn [bind].
  destruct (where_rel (support_test (threshold k)) (isupport_test (threshold k)) s s' x RS) as (x' & Ex' & RX); auto.
  { destruct SS as (_ & -> & _). auto. }
  rewrite Ex'. cbn [bind].
  destruct (mwhile n _ (k_truss_body k D os) _) as [[s2|]| |] eqn:E2; try discriminate. cbn [bind option_map]. intros [= <-].
  destruct (mwhile_step (fun st => negb (kt_break st) && (0 <? vnvals (kt_x st))) (fun st => negb (ik_break st) && (0 <? vnvals (ik_x st)))
    (k_truss_body k D os) (ik_truss_body t (Z.of_nat k) D os') (fun st => exists b, kinv N k E b st) krel)
    with (n := n) (s := mkKtruss E R s x false) (s' := mkIktruss E' R' s' x' false) (s1 := s2) as (s2' & -> & R2 & _); auto.
  { intros st st' _ (_ & _ & _ & Rx & ->). rewrite (vnvals_rel _ _ Rx). reflexivity. }
  { intros st st' s3 (b & KI) RK Hc Hb. apply andb_true_iff in Hc as [Hb1 Hx]. apply negb_true_iff in Hb1. apply Z.ltb_lt in Hx.
    destruct (kbody_rel D WD RD CD GD E os os' HO RO b st st' s3 KI Hb1 Hx RK Hb) as (K3 & Q). split; [eauto|auto]. }
  { exists 0%nat. unfold kinv. simpl. split; [auto|]. split; [apply some_rows_refl|]. split; [lia|].
    split; [intros h Hh _ _; exact Hh|]. auto. }
  { unfold krel. simpl. split; [auto|]. split; [|auto]. exact (mrel_imp _ _ _ _ (sm_upto 2) RelR). }
  cbn [bind option_map]. eexists. split; [reflexivity|]. eapply mrel_imp; [|apply R2]. intros y z [Hx _]. exact Hx.
Qed.
End Types.
