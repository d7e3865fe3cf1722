(** The batch algorithms compute the betweenness from the given sources. *)
From Coq Require Import Lia QArith Qcanon.
From Verif Require Import Base ModelLil ModelVec ModelHelpers ModelViews ModelMul ModelElem ModelIndex ModelUtils
  ModelAlgoBase ModelRank ModelBc Spec SpecOps SpecRank SpecBc ProofBase ProofElem ProofReduce ProofGraph ProofRank ProofVis
  ProofRc ProofBcPaths ProofBcRow.
Local Open Scope nat_scope.

Lemma zq_nat a : zq (Z.of_nat a) = nat_q a.
Proof. reflexivity. Qed.
Lemma to_vector_ok {X} (zero : X) N w f : vis N w f ->
  to_vector zero N w = Ok (map (fun k => match f k with Some x => x | None => zero end) (seq 0 N)).
Proof.
  intro V. unfold to_vector.
  match goal with |- mfor (seq 0 N) ?body ?s0 = _ =>
    destruct (mfor_seq_inv (fun i l => l = map (fun k => match f k with Some x => x | None => zero end) (seq 0 i)) body N s0)
      as (l & E & H) end.
  - auto.
  - intros i l Hi ->. rewrite (vis_has N w f i V Hi). cbn [bind].
    change (1 + i) with (S i). rewrite seq_S, map_app. cbn [map]. change (0 + i) with i.
    destruct (f i) as [x|] eqn:E; simpl is_some; cbv iota.
    + rewrite (vis_extract N w f i x V Hi E). cbn [bind]. eauto.
    + eauto.
  - rewrite E, H. auto.
Qed.
Lemma fold_qsum (g : nat -> Qc) l : fold_right Qcplus 0%Qc (map g l) = qsum (length l) (fun i => g (nth i l 0)).
Proof.
  induction l as [|x l IH]; auto. simpl length. simpl map. simpl fold_right. rewrite IH. clear.
  assert (H : forall n, (g x + qsum n (fun i => g (nth i l 0%nat)))%Qc = qsum (S n) (fun i => g (nth i (x :: l) 0%nat))).
  { induction n; [simpl; ring|]. cbn [qsum] in *. rewrite <- IHn. simpl. ring. }
  apply H.
Qed.
Lemma mdown_inv {X} (J : nat -> X -> Prop) body : (forall j s, J (S j) s -> exists s', body (S j) s = Ok s' /\ J j s') ->
  forall k s, J k s -> exists s', mdown k body s = Ok s' /\ J 0 s'.
Proof.
  intro H. induction k as [|k IH]; intros s Hk; [simpl; eauto|]. destruct (H k s Hk) as (s' & E & J'). simpl.
  rewrite E. cbn [bind]. auto.
Qed.
Lemma sigma_at_ok {X} (l : list X) i x : nth_error l i = Some x -> sigma_at l i = Ok x.
Proof. unfold sigma_at. intros ->. auto. Qed.

Section Batch.
Context {T : Type} (ti : T -> Z) (tq : T -> Qc) (A : lil T) (src : list nat) (N : nat).
Local Notation p := (length src).
Hypothesis WA : wfm A.
Hypothesis RA : nrows A = N.
Hypothesis CA : ncols A = N.
Hypothesis Hp : src <> [].
Hypothesis Hsrc : Forall (fun s => s < N) src.
(** The stored values count as one. *)
Hypothesis Hone : forall u v x, mget A u v = Some x -> ti x = 1%Z /\ tq x = 1%Qc.

Local Notation sr i := (nth i src 0).
Definition edge (u v : nat) : bool := is_some (mget A u v).
Local Notation inj := Z.of_nat.

Lemma sr_lt i : i < p -> sr i < N.
Proof. intro H. rewrite Forall_forall in Hsrc. apply Hsrc, nth_In. auto. Qed.
Lemma p_pos : 0 < p.
Proof. destruct src; [congruence|simpl; lia]. Qed.
Lemma N_pos : 0 < N.
Proof. pose proof (sr_lt 0 p_pos). lia. Qed.
Lemma rcA : rc N N A (mget A).
Proof. split; [auto|split; [auto|split; auto]]. Qed.

Lemma zadd a b : (inj a + inj b)%Z = inj (a + b).
Proof. lia. Qed.
Lemma ztruthy a : ztrue (inj a) = negb (a =? 0).
Proof. unfold ztrue. destruct (Nat.eqb_spec a 0) as [->|]; auto. destruct (Z.eqb_spec (inj a) 0); auto. lia. Qed.
Lemma zmulA u v x a : u < N -> v < N -> mget A u v = Some x -> mul_ia ti (inj a) x = inj a.
Proof. intros _ _ E. unfold mul_ia. rewrite (proj1 (Hone u v x E)). lia. Qed.
Lemma qmulA u v x a : u < N -> v < N -> mget A u v = Some x -> mul_qa tq a x = a.
Proof. intros _ _ E. unfold mul_qa. rewrite (proj2 (Hone u v x E)). ring. Qed.

(** [M] stores [g], source by vertex, in rows ([o]) or in columns. *)
Definition bv {X} (o : bool) (M : lil X) (g : nat -> nat -> option X) : Prop :=
  if o then rc p N M g else rc N p M (fun v i => g i v).
Definition onew {X} (o : bool) : lil X := if o then lil_new p N else lil_new N p.

Lemma bv_ext {X} o (M : lil X) f g : bv o M f -> (forall i v, i < p -> v < N -> f i v = g i v) -> bv o M g.
Proof. destruct o; intros H E; (eapply rc_ext; [exact H|]); intros; apply E; auto. Qed.
Lemma bv_new {X} o : bv o (onew o : lil X) (fun _ _ => None).
Proof. destruct o; apply rc_new. Qed.

(** ** The search *)
Definition next_f (g f : nat -> nat -> option Z) (i v : nat) : option Z :=
  if negb (otrue ztrue (g i v)) then osum Z.add (map (fun k => omap2 (mul_ia ti) (f i k) (mget A k v)) (seq 0 N)) else None.
Definition bc_next (o : bool) : lil Z -> lil Z -> res (lil Z) := if o then bc_next_r ti A else bc_next_c ti A.

Lemma omap2_flip {X Y Z} (f : X -> Y -> Z) (g : Y -> X -> Z) a b : (forall x y, f x y = g y x) -> omap2 f a b = omap2 g b a.
Proof. intro H. destruct a, b; simpl; auto. rewrite H. auto. Qed.
Lemma next_ok o P F g f : bv o P g -> bv o F f -> exists F', bc_next o P F = Ok F' /\ bv o F' (next_f g f).
Proof.
  intros HP HF. destruct o; simpl in *.
  - destruct (rc_mxm p N N Z.add (mul_ia ti) (mul_ai ti) idc idc ztrue (MComp P) _ REPLACE F F A _ _ _ HF HF rcA
      (mrc_comp p N ztrue P g HP)) as (F' & E & V).
    exists F'. split; [exact E|]. eapply rc_ext; [exact V|]. intros i j Hi Hj. unfold wr, next_f. auto.
  - destruct (rc_mxm_lt N N p Z.add (mul_ai ti) (mul_ia ti) idc idc ztrue (MComp P) _ REPLACE F A F _ _ _ HF rcA HF
      (mrc_comp N p ztrue P _ HP)) as (F' & E & V).
    exists F'. split; [exact E|]. eapply rc_ext; [exact V|]. intros i j Hi Hj. unfold wr, next_f. cbv beta.
    destruct (negb _); auto. f_equal. apply map_ext. intro k. apply omap2_flip. intros. unfold mul_ai, mul_ia. lia.
Qed.
Lemma sigma_ok o F f : bv o F f -> exists Sg, bc_sigma F = Ok Sg /\ bv o Sg (fun i v => option_map ztrue (f i v)).
Proof.
  intro HF. unfold bc_sigma. destruct o; simpl in *.
  - destruct (rc_dims _ _ _ _ HF) as (-> & ->).
    destruct (rc_apply p N ztrue btrue mnomask _ MERGE _ F _ _ (rc_new _ _) HF (mrc_none _ _ _)) as (S & E & V). eauto.
  - destruct (rc_dims _ _ _ _ HF) as (-> & ->).
    destruct (rc_apply N p ztrue btrue mnomask _ MERGE _ F _ _ (rc_new _ _) HF (mrc_none _ _ _)) as (S & E & V). eauto.
Qed.
Lemma count_ok o (P F X Y : lil Z) g (f x y : nat -> nat -> option Z) : bv o P g -> bv o F f -> bv o X x -> bv o Y y ->
  exists P', eWiseAdd Z.add idc idc Z.add idc idc btrue idc (NoAcc idc) mnomask MERGE P (Mat X) (Mat Y) = Ok P' /\
    bv o P' (fun i v => ounion Z.add idc idc (x i v) (y i v)).
Proof.
  intros HP HF HX HY. destruct o; simpl in *.
  - destruct (rc_add p N Z.add idc idc Z.add idc idc btrue mnomask _ MERGE P X Y _ _ _ HP HX HY (mrc_none _ _ _)) as (S & E & V).
    eauto.
  - destruct (rc_add N p Z.add idc idc Z.add idc idc btrue mnomask _ MERGE P X Y _ _ _ HP HX HY (mrc_none _ _ _)) as (S & E & V).
    eauto.
Qed.

Local Notation isFi i := (isF N edge (sr i) inj).
Local Notation isPi i := (isP N edge (sr i) inj).
Local Notation isSi i := (isS N edge (sr i)).

(** The masks of the levels found. *)
Definition masks {X} (tr : X -> bool) (o : bool) (k : nat) (Ss : list (lil X)) : Prop :=
  length Ss = k /\ forall j, j < k -> exists Sg sg, nth_error Ss j = Some Sg /\ bv o Sg sg /\
    forall i, i < p -> isSi i (S j) (fun v => otrue tr (sg i v)).
Lemma masks_snoc {X} (tr : X -> bool) o k Ss Sg sg : masks tr o k Ss -> bv o Sg sg ->
  (forall i, i < p -> isSi i (S k) (fun v => otrue tr (sg i v))) -> masks tr o (S k) (Ss ++ [Sg]).
Proof.
  intros (L & M) V H. split; [rewrite app_length; simpl; lia|]. intros j Hj. destruct (Nat.eq_dec j k) as [->|Nj].
  - exists Sg, sg. rewrite nth_error_app2 by lia. rewrite L, Nat.sub_diag. auto.
  - destruct (M j ltac:(lia)) as (S' & s' & E & R). exists S', s'. rewrite nth_error_app1 by lia. auto.
Qed.

(** The state after [k] steps; [sh] = 1 when the search starts at the neighbours. *)
Definition inv {X} (tr : X -> bool) (sh : nat) (o : bool) (k : nat) (st : bcs X) : Prop :=
  let '(F, P, Ss) := st in
  masks tr o k Ss /\ exists f g, bv o F f /\ bv o P g /\
    (forall i, i < p -> isFi i (sh + k) (f i)) /\ (forall i, i < p -> isPi i k (g i)).

Definition body_ok {X} (tr : X -> bool) sh o (body : bcs X -> res (bcs X)) : Prop :=
  forall k st, inv tr sh o k st -> exists st', body st = Ok st' /\ inv tr sh o (S k) st'.

Lemma edge_some u v : edge u v = is_some (mget A u v).
Proof. auto. Qed.
Lemma isS_map i d f : i < p -> 1 <= d -> isFi i d (f i) -> isSi i d (fun v => otrue btrue (option_map ztrue (f i v))).
Proof.
  intros Hi Hd H. pose proof (step_S N edge (sr i) (sr_lt i Hi) inj ztrue ztruthy d (f i) Hd H) as (Q & Q').
  split; [intros v Hv Nv; rewrite <- Q by auto; destruct (f i v); auto|intro; rewrite <- Q' by auto].
  destruct (f i (sr i)); auto.
Qed.

Lemma body_r_ok (o : bool) (body : bcs bool -> res (bcs bool)) : body = (if o then bc_body_r ti A else bc_body_c ti A) -> body_ok btrue 1 o body.
Proof.
  intros -> k [[F P] Ss] (M & f & g & HF & HP & IF & IP).
  assert (E : (if o then bc_body_r ti A else bc_body_c ti A) (F, P, Ss) =
    (Sg <- bc_sigma F ;; P <- bc_count P F ;; F <- bc_next o P F ;; Ok (F, P, Ss ++ [Sg]))) by (destruct o; auto).
  rewrite E. clear E.
  destruct (sigma_ok o F f HF) as (Sg & -> & HS). cbn [bind]. unfold bc_count.
  destruct (count_ok o P F P F g f g f HP HF HP HF) as (P' & -> & HP'). cbn [bind].
  destruct (next_ok o P' F _ _ HP' HF) as (F' & -> & HF'). cbn [bind]. eexists. split; [reflexivity|].
  assert (IP' : forall i, i < p -> isPi i (S k) (fun v => ounion Z.add idc idc (g i v) (f i v))).
  { intros i Hi. apply (step_P N edge (sr i) (sr_lt i Hi) inj Z.add zadd k (f i) (g i) _ (IF i Hi) (IP i Hi)). auto. }
  split; [|exists (next_f (fun i v => ounion Z.add idc idc (g i v) (f i v)) f), (fun i v => ounion Z.add idc idc (g i v) (f i v));
    split; [exact HF'|split; [exact HP'|split]]].
  - apply (masks_snoc _ _ _ _ _ _ M HS). intros i Hi. apply isS_map; [auto|lia|apply (IF i Hi)].
  - intros i Hi. change (1 + S k) with (S (S k)).
    apply (step_F N edge (sr i) (sr_lt i Hi) inj Z.add (mul_ia ti) ztrue (mget A) zadd ztruthy
      (fun u v _ _ => edge_some u v) zmulA (S k) (f i) _ _ (IF i Hi) (IP' i Hi)). intros v Hv. reflexivity.
  - exact IP'.
Qed.
Lemma body_src_ok : body_ok btrue 0 false (bc_body_src ti A).
Proof.
  intros k [[F P] Ss] (M & f & g & HF & HP & IF & IP). unfold bc_body_src. change (bc_next_c ti A) with (bc_next false).
  destruct (next_ok false P F _ _ HP HF) as (F' & -> & HF'). cbn [bind].
  destruct (sigma_ok false F' _ HF') as (Sg & -> & HS). cbn [bind]. unfold bc_count.
  destruct (count_ok false P F' P F' _ _ _ _ HP HF' HP HF') as (P' & -> & HP'). cbn [bind]. eexists. split; [reflexivity|].
  assert (IF' : forall i, i < p -> isFi i (S k) (next_f g f i)).
  { intros i Hi.
    apply (step_F N edge (sr i) (sr_lt i Hi) inj Z.add (mul_ia ti) ztrue (mget A) zadd ztruthy
      (fun u v _ _ => edge_some u v) zmulA k (f i) (g i) _ (IF i Hi) (IP i Hi)). intros v Hv. reflexivity. }
  split; [|exists (next_f g f), (fun i v => ounion Z.add idc idc (g i v) (next_f g f i v));
    split; [exact HF'|split; [exact HP'|split]]].
  - apply (masks_snoc _ _ _ _ _ _ M HS). intros i Hi. apply isS_map; auto; lia.
  - exact IF'.
  - intros i Hi. apply (step_P N edge (sr i) (sr_lt i Hi) inj Z.add zadd k (next_f g f i) (g i)); auto.
Qed.
Lemma body_old_ok : body_ok ztrue 1 true (bc_body_old ti A).
Proof.
  intros k [[F P] Ss] (M & f & g & HF & HP & IF & IP). unfold bc_body_old. change (bc_next_r ti A) with (bc_next true).
  destruct (count_ok true P F F P _ _ _ _ HP HF HF HP) as (P' & -> & HP'). cbn [bind].
  destruct (next_ok true P' F _ _ HP' HF) as (F' & -> & HF'). cbn [bind]. eexists. split; [reflexivity|].
  assert (IP' : forall i, i < p -> isPi i (S k) (fun v => ounion Z.add idc idc (f i v) (g i v))).
  { intros i Hi. apply (step_P' N edge (sr i) (sr_lt i Hi) inj Z.add zadd k (f i) (g i) _ (IF i Hi) (IP i Hi)). auto. }
  split; [|exists (next_f (fun i v => ounion Z.add idc idc (f i v) (g i v)) f), (fun i v => ounion Z.add idc idc (f i v) (g i v));
    split; [exact HF'|split; [exact HP'|split]]].
  - apply (masks_snoc _ _ _ _ _ _ M HF). intros i Hi.
    apply (step_S N edge (sr i) (sr_lt i Hi) inj ztrue ztruthy (S k)); [lia|apply (IF i Hi)].
  - intros i Hi. change (1 + S k) with (S (S k)).
    apply (step_F N edge (sr i) (sr_lt i Hi) inj Z.add (mul_ia ti) ztrue (mget A) zadd ztruthy
      (fun u v _ _ => edge_some u v) zmulA (S k) (f i) _ _ (IF i Hi) (IP' i Hi)). intros v Hv. reflexivity.
  - exact IP'.
Qed.

(** No vertex is further than [k] from any source. *)
Definition within (k : nat) : Prop := forall i v l, i < p -> v < N -> S k <= l -> ~ lev N edge (sr i) l v.

Lemma bv_some {X} o (M : lil X) f : bv o M f -> has_vals (nvals M) = true -> exists i v, i < p /\ v < N /\ f i v <> None.
Proof.
  intros H E. destruct o; simpl in H.
  - apply (rc_vals p N M f H E).
  - destruct (rc_vals N p M _ H E) as (v & i & ? & ? & ?). eauto.
Qed.
Lemma bv_none {X} o (M : lil X) f : bv o M f -> has_vals (nvals M) = false -> forall i v, i < p -> v < N -> f i v = None.
Proof.
  intros H E i v Hi Hv. destruct o; simpl in H.
  - apply (rc_no_vals p N M f H E i v Hi Hv).
  - apply (rc_no_vals N p M _ H E v i Hv Hi).
Qed.
Lemma inv_more {X} (tr : X -> bool) sh o k st : sh <= 1 -> inv tr sh o k st -> bc_more st = true -> k <= N.
Proof.
  intros Hsh. destruct st as [[F P] Ss]. intros (_ & f & g & HF & _ & IF & _) E. unfold bc_more in E. simpl in E.
  destruct (bv_some o F f HF E) as (i & v & Hi & Hv & Q).
  destruct (F_some N edge (sr i) (sr_lt i Hi) inj _ _ v (IF i Hi) Hv Q) as [L|(L & _)]; [lia|]. pose proof N_pos. lia.
Qed.
Lemma inv_done {X} (tr : X -> bool) sh o k st : sh <= 1 -> 1 <= sh + k -> inv tr sh o k st -> bc_more st = false -> within k.
Proof.
  intros Hsh Hk. destruct st as [[F P] Ss]. intros (_ & f & g & HF & _ & IF & _) E i v l Hi Hv L. unfold bc_more in E. simpl in E.
  apply (F_none N edge (sr i) (sr_lt i Hi) inj (sh + k) (f i) (IF i Hi)); auto.
  - intros u Hu. apply (bv_none o F f HF E i u Hi Hu).
  - lia.
Qed.
Lemma loop_ok {X} (tr : X -> bool) sh o body : sh <= 1 -> body_ok tr sh o body -> forall m k st,
  inv tr sh o k st -> (1 <= sh + k \/ bc_more st = true) -> k <= S N -> S N - k < m ->
  exists st' k', mwhile m bc_more body st = Ok (Some st') /\ inv tr sh o k' st' /\ within k'.
Proof.
  intros Hsh HB. induction m as [|m IH]; intros k st I Hk Hk' Hm; [lia|]. simpl. destruct (bc_more st) eqn:E.
  - destruct (HB k st I) as (st' & -> & I'). cbn [bind]. pose proof (inv_more tr sh o k st Hsh I E).
    apply (IH (S k)); auto; lia.
  - exists st, k. split; [auto|]. split; [auto|]. destruct Hk as [Hk|Hk]; [|congruence].
    apply (inv_done tr sh o k st Hsh Hk I E).
Qed.

(** ** Back propagation *)
Local Notation vali i := (val N edge (sr i)).
Definition isB (o : bool) (j : nat) (B : lil Qc) : Prop := bv o B (fun i v => Some (vali i j v)).
Definition wbv {X} (o : bool) (M : lil X) : Prop := exists g, bv o M g.

Definition W1f (b : nat -> nat -> option Qc) (g : nat -> nat -> option Z) (S1 : nat -> nat -> bool) (i w : nat) : option Qc :=
  if S1 i w then omap2 (fun x y => (x / zq y)%Qc) (b i w) (g i w) else None.
Definition Bf (b W1 : nat -> nat -> option Qc) (g : nat -> nat -> option Z) (S0 : nat -> nat -> bool) (i v : nat) : option Qc :=
  ounion Qcplus idc idc (b i v)
    (if S0 i v then omap2 (fun x y => (x * zq y)%Qc)
       (osum Qcplus (map (fun w => omap2 (mul_qa tq) (W1 i w) (mget A v w)) (seq 0 N))) (g i v) else None).

Lemma back_math o k j P B B' g S0 S1 :
  1 <= j -> S j <= k -> (forall i, i < p -> isPi i k (g i)) -> bv o P g -> isB o j B ->
  (forall i, i < p -> isSi i (S j) (S1 i)) -> (forall i, i < p -> isSi i j (S0 i)) ->
  bv o B' (Bf (fun i v => Some (vali i j v)) (W1f (fun i v => Some (vali i j v)) g S1) g S0) -> isB o (j - 1) B'.
Proof.
  intros Hj Hk IP HP HB I1 I0 HB'. eapply bv_ext; [exact HB'|]. intros i v Hi Hv.
  apply (back_B N edge (sr i) (sr_lt i Hi) inj zq (mul_qa tq) (mget A) zq_nat (fun u v _ _ => edge_some u v)
    qmulA k j (g i) (fun v => Some (vali i j v)) (S0 i)
    (W1f (fun i v => Some (vali i j v)) g S1 i)
    (Bf (fun i v => Some (vali i j v)) (W1f (fun i v => Some (vali i j v)) g S1) g S0 i)); auto.
  intros w Hw. apply (back_W N edge (sr i) (sr_lt i Hi) inj zq zq_nat k j (g i) (fun v => Some (vali i j v)) (S1 i)
    (W1f (fun i v => Some (vali i j v)) g S1 i)); auto.
Qed.

(** One step, with the products in rows or in columns. *)
Definition bc_back (o : bool) := if o then bc_back_r tq A else bc_back_c tq A.
Lemma back_step (o : bool) (P : lil Z) I g Ss j W B b Si Sp si sp w :
  bv o P g -> bv o I (fun i v => option_map (fun x => Qcinv (zq x)) (g i v)) ->
  nth_error Ss j = Some Si -> nth_error Ss (j - 1) = Some Sp -> bv o Si si -> bv o Sp sp -> bv o W w -> bv o B b ->
  exists W' B', bc_back o P I Ss j (W, B) = Ok (W', B') /\ wbv o W' /\
    bv o B' (Bf b (W1f b g (fun i v => otrue btrue (si i v))) g (fun i v => otrue btrue (sp i v))).
Proof.
  intros HP HI Ei Ep Hi Hp' HW HB. destruct o; cbn [bc_back]; simpl in HP, HI, Hi, Hp', HW, HB.
  - unfold bc_back_r. rewrite (sigma_at_ok _ _ _ Ei). cbn [bind].
    destruct (rc_mult p N Qcmult Qcmult idc btrue (MVal Si) _ REPLACE W I B _ _ _ HW HI HB (mrc_val _ _ btrue Si si Hi))
      as (W1 & -> & V1). cbn [bind]. rewrite (sigma_at_ok _ _ _ Ep). cbn [bind].
    destruct (rc_mxm_rt p N N Qcplus (mul_qa tq) (mul_aq tq) idc idc btrue (MVal Sp) _ REPLACE W1 W1 A _ _ _ V1 V1 rcA
      (mrc_val _ _ btrue Sp sp Hp')) as (W2 & -> & V2). cbn [bind].
    destruct (rc_mult_acc p N (fun x y => (x * zq y)%Qc) Qcmult zq Qcplus idc btrue mnomask _ MERGE B W2 P _ _ _ HB V2 HP
      (mrc_none _ _ _)) as (B' & -> & VB). cbn [bind]. exists W2, B'. split; [auto|]. split; [eexists; exact V2|].
    eapply rc_ext; [exact VB|]. intros i v _ _. unfold Bf, W1f, wr. f_equal.
    destruct (otrue btrue (sp i v)); [|auto]. f_equal. f_equal. apply map_ext. intro u. f_equal.
    destruct (otrue btrue (si i u)); [|auto]. destruct (g i u), (b i u); simpl; auto. f_equal. unfold Qcdiv. ring.
  - unfold bc_back_c. rewrite (sigma_at_ok _ _ _ Ei). cbn [bind].
    destruct (rc_mult N p Qcmult Qcmult idc btrue (MVal Si) _ REPLACE W I B _ _ _ HW HI HB (mrc_val _ _ btrue Si _ Hi))
      as (W1 & -> & V1). cbn [bind]. rewrite (sigma_at_ok _ _ _ Ep). cbn [bind].
    destruct (rc_mxm N N p Qcplus (mul_aq tq) (mul_qa tq) idc idc btrue (MVal Sp) _ REPLACE W1 A W1 _ _ _ V1 rcA V1
      (mrc_val _ _ btrue Sp _ Hp')) as (W2 & -> & V2). cbn [bind].
    destruct (rc_mult_acc N p (fun x y => (x * zq y)%Qc) Qcmult zq Qcplus idc btrue mnomask _ MERGE B W2 P _ _ _ HB V2 HP
      (mrc_none _ _ _)) as (B' & -> & VB). cbn [bind]. exists W2, B'. split; [auto|].
    split; [exists (fun i v => wr (otrue btrue (sp i v)) REPLACE (wr (otrue btrue (si i v)) REPLACE (w i v)
      (omap2 Qcmult (option_map (fun x : Z => (/ zq x)%Qc) (g i v)) (b i v)))
      (osum Qcplus (map (fun k => omap2 (mul_aq tq) (mget A v k) (wr (otrue btrue (si i k)) REPLACE (w i k)
        (omap2 Qcmult (option_map (fun x : Z => (/ zq x)%Qc) (g i k)) (b i k)))) (seq 0 N)))); exact V2|].
    eapply rc_ext; [exact VB|]. intros v i _ _. unfold Bf, W1f, wr. f_equal.
    destruct (otrue btrue (sp i v)); [|auto]. f_equal. f_equal. apply map_ext. intro u.
    rewrite (omap2_flip (mul_aq tq) (mul_qa tq)) by (intros; unfold mul_aq, mul_qa; ring). f_equal.
    destruct (otrue btrue (si i u)); [|auto]. destruct (g i u), (b i u); simpl; auto. f_equal. unfold Qcdiv. ring.
Qed.
Lemma back_step_old P g Ss j W U b Si Sp si sp w :
  bv true P g -> nth_error Ss j = Some Si -> nth_error Ss (j - 1) = Some Sp -> bv true Si si -> bv true Sp sp ->
  bv true W w -> bv true U b ->
  exists W' U', bc_back_old tq A P Ss j (W, U) = Ok (W', U') /\ wbv true W' /\
    bv true U' (Bf b (W1f b g (fun i v => otrue ztrue (si i v))) g (fun i v => otrue ztrue (sp i v))).
Proof.
  intros HP Ei Ep Hi Hp' HW HB. simpl in HP, Hi, Hp', HW, HB. unfold bc_back_old. rewrite (sigma_at_ok _ _ _ Ei). cbn [bind].
  destruct (rc_mult p N (fun x y => (x / zq y)%Qc) Qcdiv zq ztrue (MVal Si) _ REPLACE W U P _ _ _ HW HB HP (mrc_val _ _ ztrue Si si Hi))
    as (W1 & -> & V1). cbn [bind].
  destruct (rc_mxm_rt p N N Qcplus (mul_qa tq) (mul_aq tq) idc idc btrue mnomask _ REPLACE W1 W1 A _ _ _ V1 V1 rcA
    (mrc_none _ _ _)) as (W2 & -> & V2). cbn [bind]. rewrite (sigma_at_ok _ _ _ Ep). cbn [bind].
  destruct (rc_mult p N (fun x y => (x * zq y)%Qc) Qcmult zq ztrue (MVal Sp) _ REPLACE W2 W2 P _ _ _ V2 V2 HP (mrc_val _ _ ztrue Sp sp Hp'))
    as (W3 & -> & V3). cbn [bind].
  destruct (rc_add p N Qcplus idc idc Qcplus idc idc btrue mnomask _ REPLACE U U W3 _ _ _ HB HB V3
    (mrc_none _ _ _)) as (B' & -> & VB). cbn [bind]. exists W3, B'. split; [auto|]. split; [eexists; exact V3|].
  eapply rc_ext; [exact VB|]. intros i v _ _. unfold Bf, W1f, wr. auto.
Qed.

Lemma back_ok {X} (tr : X -> bool) o k P Ss g (body : nat -> lil Qc * lil Qc -> res (lil Qc * lil Qc)) W B :
  masks tr o k Ss -> bv o P g -> (forall i, i < p -> isPi i k (g i)) -> within k ->
  (forall j W B b w Si Sp si sp, nth_error Ss j = Some Si -> nth_error Ss (j - 1) = Some Sp ->
     bv o Si si -> bv o Sp sp -> bv o W w -> bv o B b ->
     exists W' B', body j (W, B) = Ok (W', B') /\ wbv o W' /\
       bv o B' (Bf b (W1f b g (fun i v => otrue tr (si i v))) g (fun i v => otrue tr (sp i v)))) ->
  wbv o W -> bv o B (fun _ _ => Some 1%Qc) ->
  exists W' B', mdown (length Ss - 1) body (W, B) = Ok (W', B') /\
    bv o B' (fun i v => Some (1 + dependency N edge (sr i) v)%Qc).
Proof.
  intros (L & M) HP IP Hw Hbody HW HB.
  destruct (mdown_inv (fun j st => j <= length Ss - 1 /\ wbv o (fst st) /\ isB o j (snd st)) body) with (k := length Ss - 1) (s := (W, B))
    as (st & E & _ & _ & J).
  - intros j [W0 B0] (Hj & (w & HW0) & HB0). simpl in HW0, HB0. rewrite L in Hj.
    destruct (M (S j) ltac:(lia)) as (Si & si & Ei & Vi & Ii). destruct (M j ltac:(lia)) as (Sp & sp & Ep & Vp & Ip).
    destruct (Hbody (S j) W0 B0 _ w Si Sp si sp Ei ltac:(simpl; rewrite Nat.sub_0_r; auto) Vi Vp HW0 HB0) as (W' & B' & -> & HW' & HB').
    exists (W', B'). split; [auto|]. split; [lia|]. split; [auto|]. simpl.
    replace j with (S j - 1) by lia. 
    apply (back_math o k (S j) P B0 B' g (fun i v => otrue tr (sp i v)) (fun i v => otrue tr (si i v))); auto; lia.
  - split; [lia|]. split; [auto|]. simpl. eapply bv_ext; [exact HB|]. intros i v Hi Hv. simpl.
    rewrite (val_init N edge (sr i) (sr_lt i Hi) k (length Ss - 1) v Hv); [auto|lia|].
    intros l u Hu Hl. apply Hw; auto.
  - destruct st as [W' B']. exists W', B'. split; [auto|]. eapply bv_ext; [exact J|]. intros i v Hi Hv. simpl.
    rewrite (val_final N edge (sr i) (sr_lt i Hi) v Hv). auto.
Qed.

(** ** The results *)
Lemma sum_result v : (- qn p + qsum p (fun i => 1 + dependency N edge (sr i) v))%Qc = betweenness N edge src v.
Proof.
  rewrite qn_nat_q, qsum_add, qsum_const. unfold betweenness. rewrite fold_qsum. ring.
Qed.
Lemma osum_all K (h : nat -> Qc) : 0 < K -> osum Qcplus (map (fun i => Some (h i)) (seq 0 K)) = Some (qsum K h).
Proof. intro H. rewrite osum_q_some; [reflexivity|]. exists 0. split; [auto|discriminate]. Qed.
Definition oview (o : bool) (B : lil Qc) : mview Qc := if o then Trn B else Mat B.
Lemma result_ok o B : bv o B (fun i v => Some (1 + dependency N edge (sr i) v)%Qc) ->
  bc_result p N (oview o B) = Ok (map (betweenness N edge src) (seq 0 N)).
Proof.
  intro HB. unfold bc_result. destruct (vis_new 0%Qc N ltac:(pose proof N_pos; lia)) as (r0 & -> & V0). cbn [bind].
  destruct (vis_fill N btrue vnomask _ MERGE r0 _ (- qn p)%Qc V0 (vmis_none _ _)) as (r1 & -> & V1). cbn [bind].
  assert (Q : exists r2, reduce idc Qcplus Qcplus btrue idc (Acc Qcplus idc idc) vnomask MERGE r1 (oview o B) = Ok r2 /\
    vis N r2 (fun v => Some (betweenness N edge src v))).
  { destruct o; simpl in HB |- *.
    - destruct (vis_reduce_t_acc p N Qcplus MERGE r1 _ B _ V1 HB) as (r2 & -> & V2). exists r2. split; [auto|].
      eapply vis_ext; [exact V2|]. intros v Hv. cbv beta. rewrite osum_all by apply p_pos. simpl. rewrite sum_result. auto.
    - destruct (vis_reduce_acc N p Qcplus MERGE r1 _ B _ V1 HB) as (r2 & -> & V2). exists r2. split; [auto|].
      eapply vis_ext; [exact V2|]. intros v Hv. cbv beta. rewrite osum_all by apply p_pos. simpl. rewrite sum_result. auto. }
  destruct Q as (r2 & -> & V2). cbn [bind]. rewrite (to_vector_ok _ _ _ _ V2). auto.
Qed.
Lemma result_v2_ok B : bv true B (fun i v => Some (1 + dependency N edge (sr i) v)%Qc) ->
  bc_result_v2 p N (Trn B) = Ok (map (betweenness N edge src) (seq 0 N)).
Proof.
  intro HB. unfold bc_result_v2. destruct (vis_new 0%Qc N ltac:(pose proof N_pos; lia)) as (r0 & -> & V0). cbn [bind].
  destruct (vis_reduce_t p N Qcplus REPLACE r0 _ B _ V0 HB) as (r1 & -> & V1). cbn [bind].
  destruct (vis_apply N (fun x => (x - qn p)%Qc) btrue vnomask _ REPLACE r1 r1 _ _ V1 V1 (vmis_none _ _)) as (r2 & -> & V2).
  cbn [bind]. rewrite (to_vector_ok _ _ _ _ V2). f_equal. apply map_ext_in. intros v Hv. unfold wr. cbv beta.
  rewrite osum_all by apply p_pos. simpl. rewrite <- sum_result. ring.
Qed.

Lemma check_ok {X} (r : res X) : bc_check A src r = r.
Proof.
  unfold bc_check. pose proof p_pos. destruct (Nat.eqb_spec p 0); [lia|]. rewrite RA, CA, Nat.eqb_refl. auto.
Qed.
Lemma first_f (o : bool) (f : nat -> nat -> option Z) F : bv o F (fun i v => option_map ti (mget A (sr i) v)) ->
  forall i, i < p -> isFi i 1 (fun v => option_map ti (mget A (sr i) v)).
Proof.
  intros _ i Hi. apply (first_F N edge (sr i) (sr_lt i Hi) inj (mget A) (fun u v _ _ => edge_some u v)).
  intros v Hv. destruct (mget A (sr i) v) eqn:E; auto. simpl. rewrite (proj1 (Hone _ _ _ E)). auto.
Qed.
Lemma inverse_ok o P g : bv o P g -> exists I, bc_inverse P = Ok I /\ bv o I (fun i v => option_map (fun x => Qcinv (zq x)) (g i v)).
Proof.
  intro HP. unfold bc_inverse. destruct o; simpl in *.
  - destruct (rc_dims _ _ _ _ HP) as (-> & ->).
    destruct (rc_apply p N (fun x => Qcinv (zq x)) btrue mnomask _ MERGE _ P _ _ (rc_new _ _) HP (mrc_none _ _ _)) as (I & E & V). eauto.
  - destruct (rc_dims _ _ _ _ HP) as (-> & ->).
    destruct (rc_apply N p (fun x => Qcinv (zq x)) btrue mnomask _ MERGE _ P _ _ (rc_new _ _) HP (mrc_none _ _ _)) as (I & E & V). eauto.
Qed.
Definition oones (o : bool) : res (lil Qc) := if o then bc_ones p N else bc_ones N p.
Lemma ones_ok o : exists B, oones o = Ok B /\ bv o B (fun _ _ => Some 1%Qc).
Proof. destruct o; unfold oones, bc_ones; apply rc_fill. Qed.

(** The second half of the functions with precomputed inverses. *)
Lemma finish o k P Ss g : masks btrue o k Ss -> bv o P g -> (forall i, i < p -> isPi i k (g i)) -> within k ->
  exists I B, bc_inverse P = Ok I /\ oones o = Ok B /\
    exists W' B', mdown (length Ss - 1) (bc_back o P I Ss) (onew o, B) = Ok (W', B') /\
      bv o B' (fun i v => Some (1 + dependency N edge (sr i) v)%Qc).
Proof.
  intros M HP IP Hw. destruct (inverse_ok o P g HP) as (I & EI & VI). destruct (ones_ok o) as (B & EB & VB).
  exists I, B. split; [auto|]. split; [auto|].
  apply (back_ok btrue o k P Ss g (bc_back o P I Ss) (onew o) B M HP IP Hw); auto.
  - intros j W0 B0 b w Si Sp si sp Ei Ep Vi Vp HW0 HB0. eapply back_step; eauto.
  - eexists. apply bv_new.
Qed.

Theorem bc_alt_trans_ok n : S N < n -> bc_batch_alt_trans ti tq n A src = Ok (Some (map (betweenness N edge src) (seq 0 N))).
Proof.
  intro Hn. unfold bc_batch_alt_trans. rewrite check_ok, CA.
  destruct (rc_extract_rows N N ti A _ src rcA Hsrc) as (F & -> & VF). cbn [bind]. unfold src_rows.
  destruct (rc_build_rows N src 1%Z Hsrc) as (P & -> & VP). cbn [bind].
  destruct (loop_ok btrue 1 true (bc_body_r ti A) ltac:(lia) (body_r_ok true _ eq_refl) n 0 (F, P, [])) as (st & k & E & I & Hw);
    try lia.
  { split; [split; [auto|intros; lia]|]. do 2 eexists. split; [exact VF|]. split; [exact VP|]. split.
    - apply (first_f true (fun _ _ => None) F VF).
    - intros i Hi. apply (source_P N edge (sr i) (sr_lt i Hi) inj). auto. }
  rewrite E. cbn [bind]. destruct st as [[F' P'] Ss]. destruct I as (M & f & g & _ & HP & _ & IP).
  destruct (finish true k P' Ss g M HP IP Hw) as (I & B & -> & EB & W' & B' & EM & VB). cbn [bind].
  simpl in EB, EM. rewrite EB. cbn [bind]. rewrite EM. cbn [bind snd]. pose proof (result_ok true B' VB) as R. cbn [oview] in R. rewrite R. auto.
Qed.
Theorem bc_alt_ok n : S N < n -> bc_batch_alt ti tq n A src = Ok (Some (map (betweenness N edge src) (seq 0 N))).
Proof.
  intro Hn. unfold bc_batch_alt. rewrite check_ok, CA.
  destruct (rc_extract_rows_t N N ti A _ src rcA Hsrc) as (F & -> & VF). cbn [bind]. unfold src_cols.
  destruct (rc_build_cols N src 1%Z Hsrc) as (P & -> & VP). cbn [bind].
  destruct (loop_ok btrue 1 false (bc_body_c ti A) ltac:(lia) (body_r_ok false _ eq_refl) n 0 (F, P, [])) as (st & k & E & I & Hw);
    try lia.
  { split; [split; [auto|intros; lia]|]. exists (fun i v => option_map ti (mget A (sr i) v)), (fun i j => if sr i =? j then Some 1%Z else None).
    split; [exact VF|]. split; [exact VP|]. split.
    - apply (first_f false (fun _ _ => None) F VF).
    - intros i Hi. apply (source_P N edge (sr i) (sr_lt i Hi) inj). auto. }
  rewrite E. cbn [bind]. destruct st as [[F' P'] Ss]. destruct I as (M & f & g & _ & HP & _ & IP).
  destruct (finish false k P' Ss g M HP IP Hw) as (I & B & -> & EB & W' & B' & EM & VB). cbn [bind].
  simpl in EB, EM. rewrite EB. cbn [bind]. rewrite EM. cbn [bind snd]. pose proof (result_ok false B' VB) as R. cbn [oview] in R. rewrite R. auto.
Qed.
Theorem bc_batch_ok n : S N < n -> bc_batch ti tq n A src = Ok (Some (map (betweenness N edge src) (seq 0 N))).
Proof.
  intro Hn. unfold bc_batch. rewrite check_ok, CA. unfold src_cols.
  destruct (rc_build_cols N src 1%Z Hsrc) as (P & -> & VP). cbn [bind].
  destruct (loop_ok btrue 0 false (bc_body_src ti A) ltac:(lia) body_src_ok n 0 (P, P, [])) as (st & k & E & I & Hw);
    try lia.
  { split; [split; [auto|intros; lia]|]. exists (fun i j => if sr i =? j then Some 1%Z else None), (fun i j => if sr i =? j then Some 1%Z else None).
    split; [exact VP|]. split; [exact VP|]. split.
    - intros i Hi. apply (source_F N edge (sr i) (sr_lt i Hi) inj). auto.
    - intros i Hi. apply (source_P N edge (sr i) (sr_lt i Hi) inj). auto. }
  { right. unfold bc_more. simpl. destruct (has_vals (nvals P)) eqn:EV; auto. exfalso.
    pose proof (rc_no_vals N p P _ VP EV (sr 0) 0 (sr_lt 0 p_pos) p_pos) as Q. simpl in Q. rewrite Nat.eqb_refl in Q. discriminate. }
  rewrite E. cbn [bind]. destruct st as [[F' P'] Ss]. destruct I as (M & f & g & _ & HP & _ & IP).
  destruct (finish false k P' Ss g M HP IP Hw) as (I & B & -> & EB & W' & B' & EM & VB). cbn [bind].
  simpl in EB, EM. rewrite EB. cbn [bind]. rewrite EM. cbn [bind snd]. pose proof (result_ok false B' VB) as R. cbn [oview] in R. rewrite R. auto.
Qed.
Theorem bc_old_ok n : S N < n -> bc_batch_old ti tq n A src = Ok (Some (map (betweenness N edge src) (seq 0 N))).
Proof.
  intro Hn. unfold bc_batch_old. rewrite check_ok, CA. unfold src_rows.
  destruct (rc_build_rows N src 1%Z Hsrc) as (P & -> & VP). cbn [bind].
  destruct (rc_extract_rows N N ti A _ src rcA Hsrc) as (F & -> & VF). cbn [bind].
  destruct (loop_ok ztrue 1 true (bc_body_old ti A) ltac:(lia) body_old_ok n 0 (F, P, [])) as (st & k & E & I & Hw);
    try lia.
  { split; [split; [auto|intros; lia]|]. do 2 eexists. split; [exact VF|]. split; [exact VP|]. split.
    - apply (first_f true (fun _ _ => None) F VF).
    - intros i Hi. apply (source_P N edge (sr i) (sr_lt i Hi) inj). auto. }
  rewrite E. cbn [bind]. destruct st as [[F' P'] Ss]. destruct I as (M & f & g & _ & HP & _ & IP).
  destruct (ones_ok true) as (B & EB & VB). simpl in EB. rewrite EB. cbn [bind].
  destruct (back_ok ztrue true k P' Ss g (bc_back_old tq A P' Ss) (lil_new p N) B M HP IP Hw) as (W' & B' & EM & VB'); auto.
  { intros j W0 B0 b w Si Sp si sp Ei Ep Vi Vp HW0 HB0. eapply back_step_old; eauto. }
  { eexists. apply (bv_new true). }
  rewrite EM. cbn [bind snd]. pose proof (result_ok true B' VB') as R. cbn [oview] in R. rewrite R. auto.
Qed.

(** ** The version that stops at depth 10 *)
Lemma shallow_within d : shallow N edge d src -> within d.
Proof.
  intros H i v l Hi Hv Hl L. pose proof (sr_lt i Hi) as Hs. destruct L as (L & L').
  destruct (walks_to N edge l (sr i) v) as [|q qs] eqn:E; [apply L; unfold W; rewrite E; auto|].
  assert (Q : In q (shortest_paths N edge (sr i) v)).
  { rewrite shortest_dist. destruct (dist_lev N edge (sr i) Hs v l Hv) as (_ & ->); [rewrite E; simpl; auto|].
    split; auto. }
  specialize (H (sr i) v q (nth_In _ _ Hi) Hv Q).
  assert (I : In q (walks_to N edge l (sr i) v)) by (rewrite E; simpl; auto).
  unfold walks_to in I. apply filter_In in I. rewrite (walk_length N edge l (sr i) q (proj1 I)) in H. lia.
Qed.
Lemma loop_v2_ok : within 10 -> forall m k st, inv btrue 1 true k st -> k <= 10 -> 10 - k < m ->
  exists st' k', mwhile m (fun s => bc_more s && (length (snd s) <? 10)) (bc_body_r ti A) st = Ok (Some st') /\
    inv btrue 1 true k' st' /\ within k'.
Proof.
  intro Hw. induction m as [|m IH]; intros k st I Hk Hm; [lia|]. cbn [mwhile].
  assert (L : length (snd st) = k) by (destruct st as [[F P] Ss]; apply (proj1 I)). rewrite L.
  destruct (bc_more st) eqn:E; cbn [andb].
  - destruct (Nat.ltb_spec k 10) as [L'|L'].
    + destruct (body_r_ok true _ eq_refl k st I) as (st' & -> & I'). cbn [bind]. apply (IH (S k)); auto; lia.
    + exists st, k. split; [auto|]. split; [auto|]. replace k with 10 by lia. auto.
  - exists st, k. split; [auto|]. split; [auto|]. apply (inv_done btrue 1 true k st ltac:(lia) ltac:(lia) I E).
Qed.
Theorem bc_v2_ok n : 10 < n -> shallow N edge 10 src ->
  bc_batch_alt_trans_v2 ti tq n A src = Ok (Some (map (betweenness N edge src) (seq 0 N))).
Proof.
  intros Hn Hsh. apply shallow_within in Hsh. unfold bc_batch_alt_trans_v2. rewrite check_ok, CA.
  destruct (rc_extract_rows N N ti A _ src rcA Hsrc) as (F & -> & VF). cbn [bind]. unfold src_rows.
  destruct (rc_build_rows N src 1%Z Hsrc) as (P & -> & VP). cbn [bind].
  destruct (loop_v2_ok Hsh n 0 (F, P, [])) as (st & k & E & I & Hw); try lia.
  { split; [split; [auto|intros; lia]|]. do 2 eexists. split; [exact VF|]. split; [exact VP|]. split.
    - apply (first_f true (fun _ _ => None) F VF).
    - intros i Hi. apply (source_P N edge (sr i) (sr_lt i Hi) inj). auto. }
  rewrite E. cbn [bind]. destruct st as [[F' P'] Ss]. destruct I as (M & f & g & _ & HP & _ & IP).
  destruct (finish true k P' Ss g M HP IP Hw) as (I & B & -> & EB & W' & B' & EM & VB). cbn [bind].
  simpl in EB, EM. rewrite EB. cbn [bind]. rewrite EM. cbn [bind snd]. rewrite (result_v2_ok B' VB). auto.
Qed.
End Batch.
