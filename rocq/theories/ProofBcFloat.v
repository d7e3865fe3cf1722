(** The batch betweenness centrality over floating point numbers. *)
From Coq Require Import ZArith QArith Qabs Qcanon Lia Lqa Floats.SpecFloat.
From Verif Require Import Base ModelLil ModelVec ModelViews ModelElem ModelIndex ModelUtils ModelAlgoBase ModelInts ModelFloat ModelFsssp ModelConv ModelBc ModelBc32 ModelBcTypes
  Spec SpecOps SpecRank SpecBc SpecFloats SpecFpaths SpecConv SpecNormalize SpecRankTypes
  ProofBase ProofLil ProofElem ProofReduce ProofGraph ProofVec ProofRank ProofVis ProofRc ProofFloat ProofRound ProofConv ProofDiv ProofError ProofNormalize ProofNormalizeRows ProofApprox ProofRankApprox
  ProofBcPaths ProofBcRow ProofBc ProofBc32 ProofBcTypes ProofBcApprox.
Local Open Scope nat_scope.

Lemma exact_at t q r : rounds_to t q r -> forall z, (Z.abs z <= 2 ^ prec t)%Z -> (q == inject_Z z)%Q -> value t r /\ finite r /\ (real r == q)%Q.
Proof.
  intros R z Hz E. destruct (int_exact t z Hz) as (V & F & X).
  assert (FR : finite r).
  { apply (rounds_finite t q r R). rewrite E. change (Qabs (inject_Z z)) with (inject_Z (Z.abs z)).
    apply (Qle_trans _ (inject_Z (2 ^ (emax t - 2)))).
    - rewrite <- Zle_Qle. etransitivity; [exact Hz|]. apply Z.pow_le_mono_r; [lia|]. destruct t; cbn; lia.
    - apply Qle_lteq. right. apply two_Z. destruct t; cbn; lia. }
  destruct R as (Nr & _ & C). split; [apply Nr|]. split; [exact FR|]. specialize (C FR _ V F).
  assert (Z0 : (Qabs (real (of_int t z) - q) == 0)%Q) by (rewrite X, E; setoid_replace (inject_Z z - inject_Z z)%Q with 0%Q by ring; reflexivity).
  rewrite Z0 in C. apply Qabs_Qle_condition in C. lra.
Qed.

Lemma present_all h n : (forall i, i < n -> is_some (h i) = true) -> present_n h n = n.
Proof.
  intro H. induction n as [|n IH]; [reflexivity|]. rewrite present_S, IH by (intros; apply H; lia). rewrite H by lia. lia.
Qed.

Section Float.
Context (t : ftype) {T : Type} (ti : T -> Z) (ta : T -> fval) (A : lil T) (src : list nat) (N : nat).
Local Notation p := (length src).
Hypothesis WA : wfm A.
Hypothesis RA : nrows A = N.
Hypothesis CA : ncols A = N.
Hypothesis Hp : src <> [].
Hypothesis Hsrc : Forall (fun s => s < N) src.
Hypothesis Hone : forall u v x, mget A u v = Some x -> ti x = 1%Z.
Hypothesis Htone : forall u v x, mget A u v = Some x -> ta x = f1 t.
Local Notation edge := (ProofBc.edge A).
Local Notation sr i := (nth i src 0).
Local Notation paths s v := (length (shortest_paths N edge s v)).
Hypothesis Hfits : Forall (fun s => (Z.of_nat (list_sum (map (fun v => paths s v) (seq 0 N))) <= 2147483647)%Z) src.
Hypothesis HK : (2 * Z.of_nat (8 * N + p) <= 2 ^ prec t)%Z.
Local Notation isPi i := (isP N edge (sr i) Z.of_nat).
Local Notation bv := (bv src N).
Local Notation masks := (masks A src N).
Local Notation within := (within A src N).
Local Notation sr_lt := (sr_lt src N Hsrc).
Local Notation p_pos := (p_pos A src N RA CA Hp Hsrc).
Local Notation rcA := (rcA A N WA RA CA).
Let tq (_ : T) : Qc := 1%Qc.
Let HO : forall u v x, mget A u v = Some x -> ti x = 1%Z /\ tq x = 1%Qc := Hone' ti A Hone.

Local Notation BCx v := (this (betweenness N edge src v)).
Local Notation pq := (inject_Z (Z.of_nat p)).
Local Notation u := (unit_roundoff t).
Definition bc_bound : Q := (2 * inject_Z (Z.of_nat (8 * N + p)) + 2) * u.
Definition close (v : nat) (x : fval) : Prop := finite x /\ (Qabs (real x - BCx v) <= bc_bound * (BCx v + pq))%Q.

(** The numbers of all sources after the back propagation, and their sum. *)
Lemma sum_approx b v : v < N -> (exists J, J <= N /\ Qf t A src N J 0 (fun i v => Some (b i v))) ->
  approx t (8 * N + p) (BCx v + pq) (sumx (FPlus t) src b v) /\ (1 <= BCx v + pq)%Q /\ (pq <= BCx v + pq)%Q /\ (BCx v + pq <= two ^ (2 * prec t))%Q.
Proof.
  intros Hv (J & HJ & HB). set (h := fun i => Some (b i v)). set (g := fun i => (1 + dependency N edge (sr i) v)%Qc).
  assert (EQ : (this (qsum p g) == BCx v + pq)%Q).
  { pose proof (sum_result A src N v) as Q. fold g in Q. rewrite <- Q, plus_q, opp_q, qn_nat_q, nat_q_this. ring. }
  assert (EV : forall i, i < p -> this (val N edge (sr i) 0 v) = this (g i)).
  { intros i Hi. unfold g. rewrite (val_final N edge (sr i) (sr_lt i Hi) v Hv). reflexivity. }
  assert (GB : forall i, i < p -> (1 <= this (g i) <= 1 + inject_Z (Z.of_nat N))%Q).
  { intros i Hi. rewrite <- EV by auto. apply val_range; [apply sr_lt; auto|auto]. }
  assert (L1 : (nat_q p <= qsum p g)%Qc).
  { replace (nat_q p) with (qsum p (fun _ => 1%Qc)) by (rewrite qsum_const; ring). apply qsum_le. intros i Hi. apply GB. auto. }
  unfold Qcle in L1. rewrite nat_q_this, EQ in L1.
  assert (P1 : (1 <= pq)%Q) by (change 1%Q with (inject_Z 1); rewrite <- Zle_Qle; pose proof p_pos; lia).
  pose proof (prec_range t) as PRE.
  assert (UB : (this (qsum p g) <= two ^ (2 * prec t))%Q).
  { assert (Q : (qsum p g <= qsum p (fun _ => Q2Qc (two ^ prec t)))%Qc).
    { apply qsum_le. intros i Hi. unfold Qcle. cbn [this Q2Qc]. rewrite Qred_correct. destruct (GB i Hi). pose proof (N_small t A src N RA CA Hp Hsrc HK). lra. }
    rewrite qsum_const in Q. unfold Qcle in Q. rewrite mult_q, nat_q_this in Q. cbn [this Q2Qc] in Q. rewrite Qred_correct in Q.
    eapply Qle_trans; [exact Q|]. replace (2 * prec t)%Z with (prec t + prec t)%Z by lia. rewrite two_plus. apply Qmult_le_compat_r; [|apply Qlt_le_weak, two_pos].
    apply (Qle_trans _ (inject_Z (2 ^ prec t))); [rewrite <- Zle_Qle; lia|]. apply Qle_lteq. right. apply two_Z. lia. }
  pose proof (approx_osum_c t (8 * N) 0 (2 * prec t) h g ltac:(lia) ltac:(lia) p) as OS.
  rewrite present_all in OS by reflexivity. fold (sumx (FPlus t) src b v).
  assert (E : osum (FPlus t) (map h (seq 0 p)) = Some (sumx (FPlus t) src b v)) by (apply (osum_sumx (FPlus t) src Hp)).
  rewrite E in OS. destruct OS as [OA OB].
  - intros i Hi. unfold h. destruct (HB i v Hi Hv) as (x & Ex & Ax). injection Ex as Ex. subst x. rewrite EV in Ax by auto. split.
    + apply (approx_le t (Kf A src N J i 0)); [apply Kf_bound; auto|destruct (GB i Hi); lra|exact Ax].
    + apply GB. auto.
  - exact UB.
  - apply (half t src N HK). lia.
  - split; [apply (approx_eq t _ _ _ _ EQ), OA|]. rewrite EQ in UB. split; [lra|]. split; [lra|exact UB].
Qed.

(** The number of sources is subtracted: the error is at most that of the sum and one more rounding. *)
Lemma close_of v x m r : value t x -> finite x -> value t m -> finite m -> (real m == - pq)%Q -> approx t (8 * N + p) (BCx v + pq) x ->
  (1 <= BCx v + pq)%Q -> (pq <= BCx v + pq)%Q -> (BCx v + pq <= two ^ (2 * prec t))%Q -> r = FPlus t x m \/ r = FPlus t m x -> close v r.
Proof.
  intros Vx Fx Vm Fm Em Ax L1 Lp UB Hr. pose proof (approx_relative t _ _ _ HK (Qle_trans 0 1 _ ltac:(lra) L1) Ax) as (_ & RX).
  assert (P0 : (0 <= pq)%Q) by (change 0%Q with (inject_Z 0); rewrite <- Zle_Qle; lia).
  assert (K0 : (0 <= inject_Z (Z.of_nat (8 * N + p)))%Q) by (change 0%Q with (inject_Z 0); rewrite <- Zle_Qle; lia).
  pose proof (prec_range t) as PRE. pose proof (u_pos t) as U0.
  assert (KU : (2 * inject_Z (Z.of_nat (8 * N + p)) * u <= 1)%Q).
  { unfold unit_roundoff. change (2 # 1)%Q with two. rewrite two_opp. pose proof (two_pos (prec t)) as PP.
    apply (Qmult_le_r _ _ (two ^ prec t) PP). setoid_replace (2 * inject_Z (Z.of_nat (8 * N + p)) * / two ^ prec t * two ^ prec t)%Q with (2 * inject_Z (Z.of_nat (8 * N + p)))%Q by (field; lra).
    rewrite Qmult_1_l. apply (Qle_trans _ (inject_Z (2 ^ prec t))).
    - change 2%Q with (inject_Z 2). rewrite <- inject_Z_mult, <- Zle_Qle. lia.
    - apply Qle_lteq. right. apply two_Z. lia. }
  assert (RB : (Qabs (real x - pq - BCx v) <= 2 * inject_Z (Z.of_nat (8 * N + p)) * u * (BCx v + pq))%Q).
  { setoid_replace (real x - pq - BCx v)%Q with (real x - (BCx v + pq))%Q by ring. exact RX. }
  assert (XP : (Qabs (real x - pq) <= 2 * (BCx v + pq))%Q).
  { apply Qabs_Qle_condition in RB. apply Qabs_Qle_condition. set (S := (BCx v + pq)%Q) in *. set (e := (2 * inject_Z (Z.of_nat (8 * N + p)) * u)%Q) in *.
    assert (e * S <= S)%Q by (clearbody e S; nra). unfold S in *. split; lra. }
  assert (BIG : (Qabs (real x - pq) <= two ^ (emax t - 2))%Q).
  { eapply Qle_trans; [exact XP|]. apply (Qle_trans _ (two ^ (1 + 2 * prec t))); [rewrite two_plus; change (two ^ 1)%Q with 2%Q; lra|]. apply two_le. lia. }
  assert (W1 : within1 t (real x - pq) r).
  { destruct Hr as [->| ->].
    - pose proof (plus_within t x m Vx Vm Fx Fm) as W. assert (E : (real x + real m == real x - pq)%Q) by (rewrite Em; ring).
      assert (BIG' : (Qabs (real x + real m) <= two ^ (emax t - 2))%Q) by (rewrite E; exact BIG). destruct (W BIG') as (A1 & A2 & A3). split; [exact A1|]. split; [exact A2|]. rewrite E in A3. exact A3.
    - pose proof (plus_within t m x Vm Vx Fm Fx) as W. assert (E : (real m + real x == real x - pq)%Q) by (rewrite Em; ring).
      assert (BIG' : (Qabs (real m + real x) <= two ^ (emax t - 2))%Q) by (rewrite E; exact BIG). destruct (W BIG') as (A1 & A2 & A3). split; [exact A1|]. split; [exact A2|]. rewrite E in A3. exact A3. }
  destruct W1 as (_ & Fr & Er). split; [exact Fr|]. unfold bc_bound.
  apply Qabs_Qle_condition in RB. apply Qabs_Qle_condition in Er.
  assert (XQ : (Qabs (real x - pq) <= BCx v + 2 * inject_Z (Z.of_nat (8 * N + p)) * u * (BCx v + pq))%Q).
  { apply Qabs_Qle_condition. assert (0 <= BCx v)%Q by lra. split; lra. }
  apply Qabs_Qle_condition. set (a := Qabs (real x - pq)) in *. set (S := (BCx v + pq)%Q) in *. set (k := inject_Z (Z.of_nat (8 * N + p))) in *. set (B := BCx v) in *.
  assert (U1 : (u * a <= 2 * u * S)%Q).
  { setoid_replace (2 * u * S)%Q with (u * (2 * S))%Q by ring. apply Qmult_le_l; [exact U0|exact XP]. }
  setoid_replace ((2 * k + 2) * u * S)%Q with (2 * k * u * S + 2 * u * S)%Q by ring. split; lra.
Qed.

Lemma count_ok : value t (of_int t (Z.of_nat p)) /\ finite (of_int t (Z.of_nat p)) /\ (real (of_int t (Z.of_nat p)) == pq)%Q.
Proof. apply int_exact. lia. Qed.
Lemma neg_count_ok : value t (fb_neg_count t p) /\ finite (fb_neg_count t p) /\ (real (fb_neg_count t p) == - pq)%Q.
Proof.
  destruct count_ok as (V & F & E). unfold fb_neg_count. set (m1 := FAdditiveInverse t (f1 t)).
  assert (M : value t m1 /\ finite m1 /\ (real m1 == - (1))%Q) by (destruct t; vm_compute; repeat split).
  destruct M as (Vm & Fm & Em). pose proof (times_rounds t _ _ Vm V Fm F) as R.
  assert (EQ : (real m1 * real (of_int t (Z.of_nat p)) == - pq)%Q) by (rewrite Em, E; ring).
  destruct (exact_at t _ _ (rounds_eq t _ _ _ EQ R) (- Z.of_nat p)) as (V1 & F1 & E1); auto; [lia|].
  rewrite inject_Z_opp. reflexivity.
Qed.
Lemma close_neg b v : v < N -> (exists J, J <= N /\ Qf t A src N J 0 (fun i v => Some (b i v))) -> close v (FPlus t (fb_neg_count t p) (sumx (FPlus t) src b v)).
Proof.
  intros Hv HB. destruct (sum_approx b v Hv HB) as (AX & L1 & Lp & UB). destruct neg_count_ok as (V & F & E).
  eapply close_of; [apply AX|apply AX|exact V|exact F|exact E|exact AX|exact L1|exact Lp|exact UB|right; reflexivity].
Qed.
Lemma close_minus b v : v < N -> (exists J, J <= N /\ Qf t A src N J 0 (fun i v => Some (b i v))) -> close v (FMinus t (sumx (FPlus t) src b v) (fb_count t p)).
Proof.
  intros Hv HB. destruct (sum_approx b v Hv HB) as (AX & L1 & Lp & UB). destruct count_ok as (V & F & E).
  pose proof (opp_number t _ (finite_number t _ V F)) as [Vo _].
  eapply close_of; [apply AX|apply AX|exact Vo|apply opp_finite; exact F|rewrite opp_real, E; reflexivity|exact AX|exact L1|exact Lp|exact UB|left; apply minus_plus].
Qed.

Lemma Hcount i v : i < p -> v < N -> (Z.of_nat (paths (sr i) v) <= 9007199254740992)%Z.
Proof. intros Hi Hv. pose proof (fits1 A src N RA CA Hfits i v Hi Hv). lia. Qed.
(** The back propagation in full. *)
Lemma start_Q k g : within k -> (forall i, i < p -> isPi i k (g i)) -> Qf t A src N (k - 1) (k - 1) (fun _ _ => Some (f1 t)).
Proof.
  intros Hw _ i v Hi Hv. exists (f1 t). split; [reflexivity|].
  rewrite (val_init N edge (sr i) (sr_lt i Hi) k (k - 1) v Hv ltac:(lia) (fun j w Hw' Hj => Hw i w j Hi Hw' Hj)).
  apply (approx_le t 0); [lia|discriminate|]. apply f1_approx.
Qed.
Lemma back_all {X} (tr : X -> bool) o dv k P Ss g body B W : dv_ok t src N dv -> k <= S N -> masks tr o k Ss -> bv o P g -> (forall i, i < p -> isPi i k (g i)) -> within k ->
  step_ok (FPlus t) (FTimes t) (of_int t) A src N tr o dv (oml (FTimes t) ta o) g Ss body -> wbv src N o W -> bv o B (fun _ _ => Some (f1 t)) ->
  exists W' B' b, mdown (length Ss - 1) body (W, B) = Ok (W', B') /\ bv o B' (fun i v => Some (b i v)) /\ exists J, J <= N /\ Qf t A src N J 0 (fun i v => Some (b i v)).
Proof.
  intros Hdv Hk M HP IP Hw Hb HW HB.
  destruct (xback_ok (FPlus t) (FTimes t) (of_int t) A src N RA CA tr o dv (oml (FTimes t) ta o) k P Ss g body (Qf t A src N (k - 1)) W B (fun _ _ => Some (f1 t)) M HP IP Hb)
    as (W' & B' & b & E & VB & Q); auto.
  - intros j b S0 S1 Hj HQ H1 H0. eapply back_approx; eauto; [apply Hcount|apply (oml_ok t ta A src N Htone HK)].
  - apply (start_Q k g); auto.
  - exists W', B', (fun i v => match b i v with Some x => x | None => f0 end). split; [exact E|]. split.
    + apply (bv_ext src N o B' b); [exact VB|]. intros i v Hi Hv. destruct (Q i v Hi Hv) as (x & -> & _). reflexivity.
    + exists (k - 1). split; [lia|]. intros i v Hi Hv. destruct (Q i v Hi Hv) as (x & Ex & Ax). exists x. rewrite Ex. auto.
Qed.

Definition all_close (r : res (option (list fval))) : Prop :=
  exists l, r = Ok (Some l) /\ length l = N /\ forall v, v < N -> exists x, nth_error l v = Some x /\ close v x.
Lemma close_list (f : nat -> fval) : (forall v, v < N -> close v (f v)) -> all_close (Ok (Some (map f (seq 0 N)))).
Proof.
  intro H. eexists. split; [reflexivity|]. split; [now rewrite map_length, seq_length|]. intros v Hv. exists (f v). split; [|auto].
  rewrite nth_error_map, (nth_error_nth' _ 0) by (rewrite seq_length; auto). rewrite seq_nth by auto. reflexivity.
Qed.
Local Notation finv := (FMultiplicativeInverse t).
(** From the end of the searches to the sums. *)
Lemma finish_inv o k P Ss g : k <= S N -> masks btrue o k Ss -> bv o P g -> (forall i, i < p -> isPi i k (g i)) -> within k ->
  exists I B W' B' b, xb_inverse finv (of_int t) P = Ok I /\ xoones (f1 t) src N o = Ok B /\
    mdown (length Ss - 1) (xb_back (FPlus t) (FTimes t) (of_int t) ta A o P I Ss) (onew src N o, B) = Ok (W', B') /\ bv o B' (fun i v => Some (b i v)) /\
    exists J, J <= N /\ Qf t A src N J 0 (fun i v => Some (b i v)).
Proof.
  intros Hk M HP IP Hw. destruct (xinverse_ok finv (of_int t) src N o P g HP) as (I & EI & VI). destruct (xones_ok (f1 t) src N o) as (B & EB & VB).
  destruct (back_all btrue o (dv_inv (FTimes t) finv (of_int t)) k P Ss g (xb_back (FPlus t) (FTimes t) (of_int t) ta A o P I Ss) B (onew src N o))
    as (W' & B' & b & E & V & Q); auto.
  - apply (dv_inv_ok t src N HK).
  - apply xback_step; auto.
  - eexists. apply bv_new.
  - exists I, B, W', B', b. auto.
Qed.

Local Notation check_ok := (check_ok A src N RA CA Hp Hsrc).
Lemma loop_bound {X} (tr : X -> bool) sh o body n st st' k : sh <= 1 -> body32_ok A src N tr sh o body -> inv32 A src N tr sh o 0 st ->
  mwhile n b32_more body st = Ok (Some st') -> inv32 A src N tr sh o k st' -> k <= S N.
Proof.
  intros Hsh HB I E I'. apply (xloop_ok A src N RA CA Hp Hsrc tr sh o (fun _ => true) body Hsh HB n 0 st st' I); auto; [lia|].
  rewrite <- E. apply mwhile_ext. intro s. apply andb_true_r.
Qed.

Theorem fbc_alt_trans_ok n : S N < n -> all_close (fbc_batch_alt_trans t ti ta n A src).
Proof.
  intro Hn. unfold fbc_batch_alt_trans, xbc_batch_alt_trans. rewrite check_ok, CA.
  destruct (rc_extract_rows N N (fun x => Ok (ti x)) A _ src rcA Hsrc) as (F & -> & VF). cbn [bind].
  destruct (build_rows32 src N Hsrc) as (P & -> & VP). cbn [bind].
  pose proof (start_inv ti tq A src N RA CA Hsrc HO btrue true F P VF VP) as I0.
  pose proof (body32_r_ok ti tq A src N WA RA CA Hsrc HO Hfits true _ eq_refl) as HB.
  destruct (loop32_ok A src N RA CA Hp Hsrc btrue 1 true (b32_body_r ti A) ltac:(lia) HB n 0 (F, P, []) I0) as (st & k & E & I & Hw); try lia.
  pose proof (loop_bound btrue 1 true _ n _ _ k ltac:(lia) HB I0 E I) as Hk.
  rewrite E. cbn [bind]. destruct st as [[F' P'] Ss]. destruct I as (M & f & g & _ & HP & _ & _ & IP). apply bv_plain in HP.
  destruct (finish_inv true k (plain P') Ss g Hk M HP IP Hw) as (I & B & W' & B' & b & -> & EB & EM & VB & Q). cbn [bind].
  simpl in EB, EM. rewrite EB. cbn [bind]. unfold xb_back in EM. rewrite EM. cbn [bind snd].
  rewrite (xresult_ok f0 (FPlus t) (fb_neg_count t) A src N RA CA Hp Hsrc true B' b VB : xb_result f0 (FPlus t) (fb_neg_count t) p N (Trn B') = _). cbn [bind]. apply close_list. intros v Hv. apply close_neg; auto.
Qed.
Theorem fbc_alt_ok n : S N < n -> all_close (fbc_batch_alt t ti ta n A src).
Proof.
  intro Hn. unfold fbc_batch_alt, xbc_batch_alt. rewrite check_ok, CA.
  destruct (rc_extract_rows_t N N (fun x => Ok (ti x)) A _ src rcA Hsrc) as (F & -> & VF). cbn [bind].
  destruct (build_cols32 src N Hsrc) as (P & -> & VP). cbn [bind].
  pose proof (start_inv ti tq A src N RA CA Hsrc HO btrue false F P VF VP) as I0.
  pose proof (body32_r_ok ti tq A src N WA RA CA Hsrc HO Hfits false _ eq_refl) as HB.
  destruct (loop32_ok A src N RA CA Hp Hsrc btrue 1 false (b32_body_c ti A) ltac:(lia) HB n 0 (F, P, []) I0) as (st & k & E & I & Hw); try lia.
  pose proof (loop_bound btrue 1 false _ n _ _ k ltac:(lia) HB I0 E I) as Hk.
  rewrite E. cbn [bind]. destruct st as [[F' P'] Ss]. destruct I as (M & f & g & _ & HP & _ & _ & IP). apply bv_plain in HP.
  destruct (finish_inv false k (plain P') Ss g Hk M HP IP Hw) as (I & B & W' & B' & b & -> & EB & EM & VB & Q). cbn [bind].
  simpl in EB, EM. rewrite EB. cbn [bind]. unfold xb_back in EM. rewrite EM. cbn [bind snd].
  rewrite (xresult_ok f0 (FPlus t) (fb_neg_count t) A src N RA CA Hp Hsrc false B' b VB : xb_result f0 (FPlus t) (fb_neg_count t) p N (Mat B') = _). cbn [bind]. apply close_list. intros v Hv. apply close_neg; auto.
Qed.
Theorem fbc_batch_ok n : S N < n -> all_close (fbc_batch t ti ta n A src).
Proof.
  intro Hn. unfold fbc_batch, xbc_batch. rewrite check_ok, CA.
  destruct (build_cols32 src N Hsrc) as (P & -> & VP). cbn [bind].
  assert (I0 : inv32 A src N btrue 0 false 0 (P, P, [])).
  { split; [split; [auto|intros; lia]|].
    assert (VP' : bv false P (okf (fun i v => if sr i =? v then Some 1%Z else None))).
    { apply (bv_ext src N false P (fun i v => if sr i =? v then Some (Ok 1%Z : ival) else None)); [exact VP|intros; apply source_okf]. }
    exists (fun i v => if sr i =? v then Some 1%Z else None), (fun i v => if sr i =? v then Some 1%Z else None).
    split; [exact VP'|]. split; [exact VP'|]. split; [apply start_src|]. split.
    - intros i Hi. apply (source_F N edge (sr i) (sr_lt i Hi) Z.of_nat). auto.
    - intros i Hi. apply (source_P N edge (sr i) (sr_lt i Hi) Z.of_nat). auto. }
  pose proof (body32_src_ok ti tq A src N WA RA CA Hsrc HO Hfits) as HB.
  destruct (loop32_ok A src N RA CA Hp Hsrc btrue 0 false (b32_body_src ti A) ltac:(lia) HB n 0 (P, P, []) I0) as (st & k & E & I & Hw);
    try lia.
  { right. unfold b32_more. simpl. destruct (has_vals (nvals P)) eqn:EV; auto. exfalso.
    pose proof (rc_no_vals N p P _ VP EV (sr 0) 0 (sr_lt 0 p_pos) p_pos) as Q. simpl in Q. rewrite Nat.eqb_refl in Q. discriminate. }
  pose proof (loop_bound btrue 0 false _ n _ _ k ltac:(lia) HB I0 E I) as Hk.
  rewrite E. cbn [bind]. destruct st as [[F' P'] Ss]. destruct I as (M & f & g & _ & HP & _ & _ & IP). apply bv_plain in HP.
  destruct (finish_inv false k (plain P') Ss g Hk M HP IP Hw) as (I & B & W' & B' & b & -> & EB & EM & VB & Q). cbn [bind].
  simpl in EB, EM. rewrite EB. cbn [bind]. unfold xb_back in EM. rewrite EM. cbn [bind snd].
  rewrite (xresult_ok f0 (FPlus t) (fb_neg_count t) A src N RA CA Hp Hsrc false B' b VB : xb_result f0 (FPlus t) (fb_neg_count t) p N (Mat B') = _). cbn [bind]. apply close_list. intros v Hv. apply close_neg; auto.
Qed.
Theorem fbc_old_ok n : S N < n -> all_close (fbc_batch_old t ti ta n A src).
Proof.
  intro Hn. unfold fbc_batch_old, xbc_batch_old. rewrite check_ok, CA.
  destruct (build_rows32 src N Hsrc) as (P & -> & VP). cbn [bind].
  destruct (rc_extract_rows N N (fun x => Ok (ti x)) A _ src rcA Hsrc) as (F & -> & VF). cbn [bind].
  pose proof (start_inv ti tq A src N RA CA Hsrc HO itrue true F P VF VP) as I0.
  pose proof (body32_old_ok ti tq A src N WA RA CA Hsrc HO Hfits) as HB.
  destruct (loop32_old_ok ti tq A src N WA RA CA Hp Hsrc HO Hfits n 0 (F, P, [])) as (st & k & E & (I & D) & Hw); try lia.
  { split; [exact I0|]. intros [|j] S; discriminate. }
  pose proof (loop_bound itrue 1 true _ n _ _ k ltac:(lia) HB I0 E I) as Hk.
  rewrite E. cbn [bind]. destruct st as [[F' P'] Ss]. destruct I as (M & f & g & _ & HP & _ & _ & IP). apply bv_plain in HP.
  apply (masks_plain A src N Hsrc true k Ss D) in M.
  destruct (xones_ok (f1 t) src N true) as (B & EB & VB). simpl in EB. rewrite EB. cbn [bind].
  destruct (back_all ztrue true (dv_div (FDiv t) (of_int t)) k (plain P') (map plain Ss) g (xb_back_old (FPlus t) (FTimes t) (FDiv t) (of_int t) ta A (plain P') (map plain Ss)) B (lil_new p N))
    as (W' & B' & b & EM & VB' & Q); auto.
  { apply (dv_div_ok t src N HK). }
  { apply xback_step_old; auto. }
  { eexists. apply (bv_new src N true). }
  rewrite map_length in EM. rewrite EM. cbn [bind snd].
  rewrite (xresult_ok f0 (FPlus t) (fb_neg_count t) A src N RA CA Hp Hsrc true B' b VB' : xb_result f0 (FPlus t) (fb_neg_count t) p N (Trn B') = _). cbn [bind]. apply close_list. intros v Hv. apply close_neg; auto.
Qed.
Theorem fbc_v2_ok n : 10 < n -> shallow N edge 10 src -> all_close (fbc_batch_alt_trans_v2 t ti ta n A src).
Proof.
  intros Hn Hsh. apply (shallow_within A src N RA CA Hsrc) in Hsh. unfold fbc_batch_alt_trans_v2, xbc_batch_alt_trans_v2. rewrite check_ok, CA.
  destruct (rc_extract_rows N N (fun x => Ok (ti x)) A _ src rcA Hsrc) as (F & -> & VF). cbn [bind].
  destruct (build_rows32 src N Hsrc) as (P & -> & VP). cbn [bind].
  pose proof (start_inv ti tq A src N RA CA Hsrc HO btrue true F P VF VP) as I0.
  pose proof (body32_r_ok ti tq A src N WA RA CA Hsrc HO Hfits true _ eq_refl) as HB.
  destruct (loop32_v2_ok ti tq A src N WA RA CA Hsrc HO Hfits Hsh n 0 (F, P, []) I0) as (st & k & E & I & Hw); try lia.
  pose proof (xloop_ok A src N RA CA Hp Hsrc btrue 1 true (fun s => length (snd s) <? 10) _ ltac:(lia) HB n 0 _ st I0 ltac:(lia) E k I) as Hk.
  rewrite E. cbn [bind]. destruct st as [[F' P'] Ss]. destruct I as (M & f & g & _ & HP & _ & _ & IP). apply bv_plain in HP.
  destruct (finish_inv true k (plain P') Ss g Hk M HP IP Hw) as (I & B & W' & B' & b & -> & EB & EM & VB & Q). cbn [bind].
  simpl in EB, EM. rewrite EB. cbn [bind]. unfold xb_back in EM. rewrite EM. cbn [bind snd].
  rewrite (xresult_v2_ok f0 (FPlus t) (FMinus t) (fb_count t) A src N RA CA Hp Hsrc B' b VB). cbn [bind]. apply close_list. intros v Hv. apply close_minus; auto.
Qed.
End Float.
