(** The back propagation over floating point numbers approximates the dependencies. *)
From Coq Require Import ZArith QArith Qabs Qcanon Lia Lqa Floats.SpecFloat.
From Verif Require Import Base ModelLil ModelVec ModelViews ModelAlgoBase ModelFloat ModelFsssp ModelConv ModelBc ModelBc32 ModelBcTypes
  Spec SpecOps SpecRank SpecBc SpecFloats SpecFpaths SpecConv SpecNormalize SpecRankTypes
  ProofBase ProofLil ProofGraph ProofVec ProofRank ProofFloat ProofRound ProofConv ProofDiv ProofError ProofNormalize ProofNormalizeRows ProofApprox ProofRankApprox
  ProofBcPaths ProofBcRow ProofBc ProofBc32 ProofBcTypes.
Local Open Scope nat_scope.

(** ** Roundings *)

(** The sum of two numbers is rounded once, however small it is. *)
Lemma plus_within t x y : value t x -> value t y -> finite x -> finite y -> (Qabs (real x + real y) <= two ^ (emax t - 2))%Q ->
  within1 t (real x + real y) (FPlus t x y).
Proof.
  intros Vx Vy Fx Fy B. pose proof (plus_rounds t x y Vx Vy Fx Fy) as R. pose proof (rounds_finite t _ _ R B) as F.
  split; [apply R|]. split; [exact F|]. destruct (plus_fin t x y Vx Vy Fx Fy) as [N E].
  pose proof (finite_rep t (FPlus t x y) (proj1 N) F) as (_ & L). rewrite E in L.
  pose proof (Rz_err (prec t) (emax t) (prec_ok t) _ L) as H. rewrite <- E in H.
  assert (EQ : (real (FPlus t x y) - (real x + real y) == inject_Z (sv t (FPlus t x y) - (sv t x + sv t y)) * two ^ em t)%Q).
  { rewrite (real_sv t x), (real_sv t y), (real_sv t (FPlus t x y)) by (auto; apply N). unfold Z.sub. rewrite inject_Z_plus, inject_Z_opp, inject_Z_plus. ring. }
  assert (ES : (real x + real y == inject_Z (sv t x + sv t y) * two ^ em t)%Q).
  { rewrite (real_sv t x), (real_sv t y) by auto. rewrite inject_Z_plus. ring. }
  rewrite EQ, ES, !Qabs_Qmult. pose proof (two_pos (em t)) as TP. rewrite (Qabs_pos (two ^ em t)) by lra.
  setoid_replace (unit_roundoff t * (Qabs (inject_Z (sv t x + sv t y)) * two ^ em t))%Q with (unit_roundoff t * Qabs (inject_Z (sv t x + sv t y)) * two ^ em t)%Q by ring.
  apply Qmult_le_compat_r; [|lra]. change (Qabs (inject_Z ?z)) with (inject_Z (Z.abs z)).
  rewrite Zle_Qle, inject_Z_mult in H. assert (EP : (inject_Z (2 ^ prec t) == two ^ prec t)%Q) by (apply two_Z; pose proof (prec_ok t); lia).
  rewrite EP in H. unfold unit_roundoff. change (2 # 1)%Q with two. rewrite two_opp. pose proof (two_pos (prec t)) as PP.
  change (Qabs (inject_Z (sv t (FPlus t x y) - (sv t x + sv t y)))) with (inject_Z (Z.abs (sv t (FPlus t x y) - (sv t x + sv t y)))).
  change (Qabs (inject_Z (sv t x + sv t y))) with (inject_Z (Z.abs (sv t x + sv t y))).
  apply (Qmult_le_l _ _ (two ^ prec t)); [exact PP|].
  setoid_replace (two ^ prec t * (/ two ^ prec t * inject_Z (Z.abs (sv t x + sv t y))))%Q with (inject_Z (Z.abs (sv t x + sv t y))) by (field; lra). exact H.
Qed.

Definition present_n (h : nat -> option fval) (n : nat) : nat := length (filter (fun i => is_some (h i)) (seq 0 n)).
Lemma present_S h n : present_n h (S n) = present_n h n + (if is_some (h n) then 1 else 0).
Proof. unfold present_n. rewrite seq_S, filter_app, app_length. simpl. destruct (is_some (h n)); auto. Qed.
(** A sum of positive numbers; only those present are added. *)
Lemma approx_osum_c t K a b (h : nat -> option fval) (g : nat -> Qc) : (3 - emax t <= a - 1)%Z -> (b + 2 <= emax t - 2)%Z -> forall n,
  (forall i, i < n -> match h i with Some x => approx t K (this (g i)) x /\ (two ^ a <= this (g i))%Q | None => g i = 0%Qc end) ->
  (this (qsum n g) <= two ^ b)%Q -> (1 # 2 <= shrink t (K + present_n h n))%Q ->
  match osum (FPlus t) (map h (seq 0 n)) with
  | Some s => approx t (K + present_n h n) (this (qsum n g)) s /\ (two ^ a <= this (qsum n g))%Q
  | None => qsum n g = 0%Qc
  end.
Proof.
  intros HA HB. induction n as [|n IH]; intros H UB HS; [reflexivity|].
  assert (P : forall i, i < S n -> (0 <= g i)%Qc).
  { intros i Hi. specialize (H i Hi). destruct (h i) as [x|]; [|rewrite H; discriminate]. unfold Qcle. change (this 0%Qc) with 0%Q. pose proof (two_pos a). lra. }
  pose proof (qsum_last_le n g (P n (Nat.lt_succ_diag_r n))) as L.
  assert (S0 : (0 <= qsum n g)%Qc) by (apply qsum_nonneg; auto). rewrite present_S in *.
  assert (HS' : (1 # 2 <= shrink t (K + present_n h n))%Q) by (pose proof (shrink_le t (K + present_n h n) (K + (present_n h n + if is_some (h n) then 1 else 0))) as Q; specialize (Q ltac:(lia)); lra).
  specialize (IH (fun i Hi => H i (Nat.lt_lt_succ_r _ _ Hi)) (Qle_trans _ _ _ L UB) HS'). rewrite seq_S, map_app. cbn [map]. rewrite osum_snoc'. change (0 + n) with n.
  specialize (H n (Nat.lt_succ_diag_r n)). cbn [qsum] in *.
  unfold Qcle in S0. change (this 0%Qc) with 0%Q in S0. pose proof (two_pos a) as TA. rewrite plus_q in UB, L.
  destruct (osum (FPlus t) (map h (seq 0 n))) as [s|], (h n) as [x|]; cbn [oadd is_some] in *.
  - destruct IH as [A1 A2], H as [B1 B2]. split; [|rewrite plus_q; lra]. replace (K + (present_n h n + 1)) with (S (K + present_n h n)) by lia.
    apply (approx_eq t _ (this (qsum n g) + this (g n))%Q); [symmetry; apply plus_q|].
    apply (approx_plus t _ a b); auto; [split; lra|split; lra|]. apply (approx_le t K); auto; [lia|lra].
  - rewrite H. replace (qsum n g + 0)%Qc with (qsum n g) by ring. destruct IH as [A1 A2]. split; auto. apply (approx_le t (K + present_n h n)); auto; lia.
  - rewrite IH. replace (0 + g n)%Qc with (g n) by ring. destruct H as [B1 B2]. split; auto. apply (approx_le t K); auto; [lia|lra].
  - rewrite IH, H. ring.
Qed.

Lemma filter_le {X} (f : X -> bool) l : length (filter f l) <= length l.
Proof. induction l as [|x l IH]; [auto|]. simpl. destruct (f x); simpl; lia. Qed.

(** ** Dependencies *)
Section Dependency.
Context (N : nat) (edge : nat -> nat -> bool) (s : nat).
Lemma pair_range t v : (0 <= pair_dependency N edge s t v)%Qc /\ (pair_dependency N edge s t v <= 1)%Qc.
Proof.
  unfold pair_dependency. destruct (_ || _); [split; discriminate|].
  set (l := shortest_paths N edge s t). pose proof (filter_le (existsb (Nat.eqb v)) l) as L.
  destruct (Nat.eq_dec (length l) 0) as [E|E].
  - rewrite E in *. replace (length (filter _ l)) with 0 by lia. change (nat_q 0) with 0%Qc. unfold Qcdiv. replace (0 * / 0)%Qc with 0%Qc by ring. split; discriminate.
  - pose proof (nat_q_pos _ E) as P. pose proof (Qc_inv_pos _ P) as PI. split.
    + apply Qc_mult_nonneg; [apply nat_q_nonneg|apply Qclt_le_weak; auto].
    + replace 1%Qc with (nat_q (length l) * / nat_q (length l))%Qc by (apply Qcmult_inv_r, Qc_pos_neq; auto).
      apply Qc_mult_le; [apply Qclt_le_weak; auto|]. unfold Qcle. rewrite !nat_q_this, <- Zle_Qle. lia.
Qed.
Lemma dep_range v : (0 <= dependency N edge s v)%Qc /\ (dependency N edge s v <= nat_q N)%Qc.
Proof.
  unfold dependency. split.
  - apply qsum_nonneg. intros t _. apply pair_range.
  - replace (nat_q N) with (qsum N (fun _ => 1%Qc)) by (rewrite qsum_const; ring). apply qsum_le. intros t _. apply pair_range.
Qed.
Hypothesis Hs : s < N.
Lemma val_range j v : v < N -> (1 <= this (val N edge s j v))%Q /\ (this (val N edge s j v) <= 1 + inject_Z (Z.of_nat N))%Q.
Proof.
  intro Hv. assert (N1 : (0 <= inject_Z (Z.of_nat N))%Q) by (change 0%Q with (inject_Z 0); rewrite <- Zle_Qle; lia).
  assert (One : (1 <= this 1%Qc)%Q /\ (this 1%Qc <= 1 + inject_Z (Z.of_nat N))%Q) by (change (this 1%Qc) with 1%Q; split; lra).
  unfold val. destruct (Nat.eqb_spec v s) as [E|E]; [exact One|]. destruct (dist N edge s v) as [l|] eqn:D; [|exact One].
  destruct (S j <=? l); [|exact One]. apply (dist_lev N edge s Hs v l Hv) in D. rewrite (D_dep N edge s Hs l v Hv E D), plus_q.
  change (this 1%Qc) with 1%Q. destruct (dep_range v) as [A B]. unfold Qcle in A, B. change (this 0%Qc) with 0%Q in A. rewrite nat_q_this in B. split; lra.
Qed.

(** The vertices at a level, and up to a level. *)
Definition nlev (l : nat) : nat := length (filter (levb N edge s l) (seq 0 N)).
Definition cum (l : nat) : nat := length (filter (fun v => match dist N edge s v with Some k => k <=? l | None => false end) (seq 0 N)).
Lemma filter_split {X} (f g h : X -> bool) l : (forall x, In x l -> h x = f x || g x) -> (forall x, In x l -> f x && g x = false) ->
  length (filter h l) = length (filter f l) + length (filter g l).
Proof.
  induction l as [|x l IH]; intros H D; [reflexivity|]. specialize (IH (fun y Hy => H y (or_intror Hy)) (fun y Hy => D y (or_intror Hy))).
  specialize (H x (or_introl eq_refl)). specialize (D x (or_introl eq_refl)). cbn [filter]. rewrite H. destruct (f x), (g x); simpl in *; try discriminate; lia.
Qed.
Lemma cum_S l : cum (S l) = cum l + nlev (S l).
Proof.
  apply filter_split; intros v Hv; apply in_seq in Hv; rewrite (levb_dist N edge s Hs) by lia; destruct (dist N edge s v) as [k|]; auto;
    destruct (Nat.leb_spec k (S l)), (Nat.leb_spec k l), (Nat.eqb_spec k (S l)); auto; lia.
Qed.
Lemma cum_le l : cum l <= N.
Proof. unfold cum. etransitivity; [apply filter_le|]. rewrite seq_length. auto. Qed.
End Dependency.

Lemma present_le h f n : (forall i, i < n -> is_some (h i) = true -> f i = true) -> present_n h n <= length (filter f (seq 0 n)).
Proof.
  intro H. induction n as [|n IH]; [auto|]. rewrite present_S, seq_S, filter_app, app_length. specialize (IH (fun i Hi => H i (Nat.lt_lt_succ_r _ _ Hi))).
  specialize (H n (Nat.lt_succ_diag_r n)). simpl. destruct (is_some (h n)); [rewrite H by auto; simpl; lia|lia].
Qed.

(** ** The back propagation *)
Section Float.
Context (t : ftype) {T : Type} (ti : T -> Z) (ta : T -> fval) (A : lil T) (src : list nat) (N : nat).
Local Notation p := (length src).
Hypothesis WA : wfm A.
Hypothesis RA : nrows A = N.
Hypothesis CA : ncols A = N.
Hypothesis Hp : src <> [].
Hypothesis Hsrc : Forall (fun s => s < N) src.
Hypothesis Hone : forall u v x, mget A u v = Some x -> ti x = 1%Z.
Hypothesis Htone : forall u v x, mget A u v = Some x -> ta x = f1 t.
Local Notation edge := (ProofBc.edge A).
Local Notation sr i := (nth i src 0).
Local Notation paths s v := (length (shortest_paths N edge s v)).
Hypothesis Hcount : forall i v, i < p -> v < N -> (Z.of_nat (paths (sr i) v) <= 9007199254740992)%Z.
Hypothesis HK : (2 * Z.of_nat (8 * N + p) <= 2 ^ prec t)%Z.
Local Notation isPi i := (isP N edge (sr i) Z.of_nat).
Local Notation isSi i := (isS N edge (sr i)).
Local Notation vali i := (val N edge (sr i)).
Local Notation sr_lt := (sr_lt src N Hsrc).

Lemma half K : K <= 8 * N + p -> (1 # 2 <= shrink t K)%Q.
Proof. clear - HK. intro H. apply shrink_half. lia. Qed.
Lemma prec_range : (24 <= prec t /\ 2 * prec t + 60 <= emax t /\ 128 <= emax t)%Z.
Proof. clear. destruct t; cbn; lia. Qed.
Lemma f1_approx : approx t 0 1 (f1 t).
Proof. clear. apply (approx_eq _ _ (real (f1 t))); [destruct t; reflexivity|]. apply approx_exact; [destruct t; reflexivity|destruct t; exact I]. Qed.
Lemma one_between : between 0 0 1.
Proof. split; vm_compute; discriminate. Qed.
Lemma N_small : (1 + inject_Z (Z.of_nat N) <= two ^ prec t)%Q.
Proof.
  apply (Qle_trans _ (inject_Z (2 ^ prec t))).
  - change 1%Q with (inject_Z 1). rewrite <- inject_Z_plus, <- Zle_Qle. pose proof (p_pos A src N RA CA Hp Hsrc). lia.
  - apply Qle_lteq. right. apply two_Z. pose proof prec_range. lia.
Qed.
Lemma val_between i j v : i < p -> v < N -> between 0 (prec t) (this (vali i j v)).
Proof.
  intros Hi Hv. destruct (val_range N edge (sr i) (sr_lt i Hi) j v Hv) as [L U]. pose proof N_small. change (two ^ 0)%Q with 1%Q in *. split; [exact L|].
  eapply Qle_trans; eauto.
Qed.
(** A number of paths converted to the type is rounded once. *)
Lemma z_between z : (1 <= z <= 9007199254740992)%Z -> between 0 53 (inject_Z z).
Proof.
  clear. intro H. split.
  - change (two ^ 0)%Q with (inject_Z 1). rewrite <- Zle_Qle. lia.
  - apply (Qle_trans _ (inject_Z (2 ^ 53))); [rewrite <- Zle_Qle; lia|]. apply Qle_lteq. right. apply two_Z. lia.
Qed.
Lemma ofz_approx z : (1 <= z <= 9007199254740992)%Z -> approx t 1 (inject_Z z) (of_int t z).
Proof.
  clear. intro H. pose proof (z_between z H) as B. pose proof (between_pos _ _ _ B) as P. pose proof prec_range.
  apply (approx_round t 0 _ (inject_Z z)); [apply of_int_rounds|exact P|exact P|eapply between_wide; [| |exact B]; lia|rewrite shrink_0; lra|rewrite shrink_0; lra].
Qed.

(** What the divisions by numbers of paths and the products with stored ones do. *)
Definition dv_ok (dv : fval -> Z -> fval) : Prop := forall K q x z, (1 <= z <= 9007199254740992)%Z -> between 0 (prec t) q -> K + 3 <= 8 * N + p ->
  approx t K q x -> approx t (K + 3) (q / inject_Z z) (dv x z).
Definition ml_ok (ml : fval -> T -> fval) : Prop := forall K q x u v a, mget A u v = Some a -> between (-53) (prec t) q -> K + 1 <= 8 * N + p ->
  approx t K q x -> approx t (K + 1) q (ml x a).
Lemma dv_inv_ok : dv_ok (dv_inv (FTimes t) (FMultiplicativeInverse t) (of_int t)).
Proof.
  clear - HK. intros K q x z Hz B HK' X. unfold dv_inv. pose proof prec_range.
  assert (Z1 : approx t 2 (1 / inject_Z z) (FMultiplicativeInverse t (of_int t z))).
  { apply (approx_div t 0 1 0 0 0 53 1 (inject_Z z) (f1 t) (of_int t z)); try lia; try (apply half; lia); auto using one_between, z_between, f1_approx, ofz_approx. }
  assert (ZB : between (-53) 0 (1 / inject_Z z)).
  { apply (between_eq _ _ (/ inject_Z z)); [unfold Qdiv; ring|]. apply (between_le (-(53)) (-0)); try lia. apply (between_inv 0 53), z_between, Hz. }
  apply (approx_eq t _ (1 / inject_Z z * q)%Q); [unfold Qdiv; ring|]. replace (K + 3) with (S (2 + K)) by lia.
  apply (approx_times t 2 K (-53) 0 0 (prec t)); auto; try lia; apply half; lia.
Qed.
Lemma dv_div_ok : dv_ok (dv_div (FDiv t) (of_int t)).
Proof.
  clear - HK. intros K q x z Hz B HK' X. unfold dv_div. pose proof prec_range. pose proof (between_pos _ _ _ B). pose proof (between_pos _ _ _ (z_between z Hz)).
  apply (approx_le t (S (K + 1))); [lia|unfold Qdiv; apply Qmult_le_0_compat; [lra|apply Qlt_le_weak, Qinv_lt_0_compat; auto]|].
  apply (approx_div t K 1 0 (prec t) 0 53); auto using z_between, ofz_approx; try lia; apply half; lia.
Qed.
Lemma oml_ok o : ml_ok (oml (FTimes t) ta o).
Proof.
  clear - HK Htone. intros K q x u v a E B HK' X. unfold oml. rewrite (Htone u v a E). pose proof prec_range. destruct o.
  - apply (approx_eq t _ (q * 1)%Q); [ring|]. replace (K + 1) with (S (K + 0)) by lia.
    apply (approx_times t K 0 (-53) (prec t) 0 0); auto using one_between, f1_approx; try lia; apply half; lia.
  - apply (approx_eq t _ (1 * q)%Q); [ring|]. replace (K + 1) with (S (0 + K)) by lia.
    apply (approx_times t 0 K 0 0 (-53) (prec t)); auto using one_between, f1_approx; try lia; apply half; lia.
Qed.

(** The error after the levels above [j], of [J] levels in all. *)
Definition Kf (J i j : nat) : nat := 7 * (J - j) + (N - cum N edge (sr i) (S j)).
Definition Qf (J j : nat) (b : nat -> nat -> option fval) : Prop := forall i v, i < p -> v < N ->
  exists x, b i v = Some x /\ approx t (Kf J i j) (this (vali i j v)) x.
Lemma Kf_step J i j : i < p -> S j <= J -> Kf J i j = Kf J i (S j) + 7 + nlev N edge (sr i) (S (S j)).
Proof.
  intros Hi Hj. unfold Kf. pose proof (cum_S N edge (sr i) (sr_lt i Hi) (S j)) as C. pose proof (cum_le N edge (sr i) (S (S j))). lia.
Qed.
Lemma Kf_bound J i j : J <= N -> Kf J i j <= 8 * N.
Proof. clear. intro H. unfold Kf. lia. Qed.

Lemma back_approx dv ml k g b S0 S1 j : dv_ok dv -> ml_ok ml -> k <= S N -> S (S j) <= k -> (forall i, i < p -> isPi i k (g i)) ->
  Qf (k - 1) (S j) b -> (forall i, i < p -> isSi i (S (S j)) (S1 i)) -> (forall i, i < p -> isSi i (S j) (S0 i)) ->
  Qf (k - 1) j (Bx (FPlus t) (FTimes t) (of_int t) A N ml b (W1x dv b g S1) g S0).
Proof.
  intros Hdv Hml HkN Hk HP HB H1 H0 i v Hi Hv. pose proof (sr_lt i Hi) as Hs. set (s := sr i) in *.
  pose proof (Kf_step (k - 1) i j Hi ltac:(lia)) as EK. pose proof (Kf_bound (k - 1) i j ltac:(lia)) as BK. fold s in EK.
  set (K := Kf (k - 1) i (S j)) in *. set (K' := Kf (k - 1) i j) in *.
  destruct (HP i Hi) as (HPv & c & _ & HPs). destruct (H1 i Hi) as (HS1 & HS1'). destruct (H0 i Hi) as (HS0 & _). fold s in HPv, HPs, HS1, HS1', HS0.
  destruct (HB i v Hi Hv) as (x & Ex & Ax). fold s in Ax. fold K in Ax.
  assert (HW : forall w, w < N -> match W1x dv b g S1 i w with
    | Some y => levb N edge s (S (S j)) w = true /\ approx t (K + 3) (this (D N edge s (S (S j)) w / nat_q (W N edge (S (S j)) s w))%Qc) y /\
                between (-53) (prec t) (this (D N edge s (S (S j)) w / nat_q (W N edge (S (S j)) s w))%Qc)
    | None => levb N edge s (S (S j)) w = false end).
  { intros w Hw. unfold W1x. destruct (Nat.eq_dec w s) as [->|Nw].
    - rewrite HS1' by lia. apply levb_source; auto.
    - rewrite HS1 by auto. destruct (levb N edge s (S (S j)) w) eqn:L; [|reflexivity].
      pose proof L as L'. apply levb_spec in L'. pose proof (proj2 (dist_lev N edge s Hs w _ Hw) L') as Ed.
      destruct (HB i w Hi Hw) as (y & Ey & Ay). rewrite Ey, HPv, Ed by auto. destruct (Nat.leb_spec (S (S j)) k); [|lia]. cbn [omap2].
      split; [reflexivity|]. fold s K in Ay.
      assert (EV : val N edge s (S j) w = D N edge s (S (S j)) w).
      { unfold val. rewrite (proj2 (Nat.eqb_neq w s)), Ed, Nat.leb_refl by auto. reflexivity. }
      pose proof (val_between i (S j) w Hi Hw) as BV. fold s in BV. rewrite EV in Ay, BV.
      assert (ZB : (1 <= Z.of_nat (W N edge (S (S j)) s w) <= 9007199254740992)%Z).
      { split; [destruct L' as [L' _]; lia|]. unfold s. rewrite (paths_lev A src N Hsrc i (S (S j)) w Hi Hw L). apply (Hcount i w Hi Hw). }
      assert (EQ : (this (D N edge s (S (S j)) w / nat_q (W N edge (S (S j)) s w))%Qc == this (D N edge s (S (S j)) w) / inject_Z (Z.of_nat (W N edge (S (S j)) s w)))%Q).
      { rewrite div_q, nat_q_this. reflexivity. }
      split.
      + apply (approx_eq t _ _ _ _ (Qeq_sym _ _ EQ)). apply Hdv; auto. lia.
      + apply (between_eq _ _ _ _ (Qeq_sym _ _ EQ)). unfold Qdiv. apply (between_le (0 + - (53)) (prec t + - 0)); try lia.
        apply between_mult; auto. apply (between_inv 0 53), z_between, ZB. }
  unfold Bx. rewrite Ex. destruct (Nat.eq_dec v s) as [->|Nv].
  - assert (E0 : osum (FPlus t) (map (fun w => omap2 ml (W1x dv b g S1 i w) (mget A s w)) (seq 0 N)) = None).
    { apply osum_none_iff. intros y Hy. apply in_map_iff in Hy. destruct Hy as (w & <- & Hw). apply in_seq in Hw.
      specialize (HW w ltac:(lia)). destruct (W1x dv b g S1 i w) as [y|]; [|reflexivity]. destruct HW as (L & _).
      apply levb_spec in L. destruct L as (_ & L). specialize (L 1 ltac:(lia)). rewrite W_1 in L by lia. unfold ProofBc.edge in L.
      destruct (mget A s w); [discriminate|reflexivity]. }
    rewrite E0. exists x. split; [destruct (S0 i s); reflexivity|].
    assert (EV : val N edge s j s = val N edge s (S j) s) by (unfold val; rewrite Nat.eqb_refl; reflexivity). rewrite EV.
    apply (approx_le t K); [lia| |exact Ax]. destruct (val_range N edge s Hs (S j) s Hs). lra.
  - rewrite HS0 by auto. destruct (levb N edge s (S j) v) eqn:L.
    + pose proof L as L'. apply levb_spec in L'. pose proof (proj2 (dist_lev N edge s Hs v _ Hv) L') as Ed. rewrite HPv, Ed by auto.
      destruct (Nat.leb_spec (S j) k); [|lia].
      assert (EV1 : val N edge s (S j) v = 1%Qc).
      { unfold val. rewrite (proj2 (Nat.eqb_neq v s)), Ed by auto. destruct (Nat.leb_spec (S (S j)) (S j)); [lia|reflexivity]. }
      assert (EV : val N edge s j v = D N edge s (S j) v).
      { unfold val. rewrite (proj2 (Nat.eqb_neq v s)), Ed, Nat.leb_refl by auto. reflexivity. }
      pose proof (D_rec N edge s Hs (S j) v Hv L') as DR. rewrite EV1 in Ax.
      set (gq := fun w => if edge v w && levb N edge s (S (S j)) w then (D N edge s (S (S j)) w / nat_q (W N edge (S (S j)) s w))%Qc else 0%Qc) in *.
      set (h := fun w => omap2 ml (W1x dv b g S1 i w) (mget A v w)).
      assert (PR : present_n h N <= nlev N edge s (S (S j))).
      { apply present_le. intros w Hw P. specialize (HW w Hw). unfold h in P. destruct (W1x dv b g S1 i w); [|discriminate P]. apply HW. }
      pose proof prec_range as PRE.
      assert (GB : forall w, w < N -> (0 <= this (gq w) <= two ^ prec t)%Q).
      { intros w Hw. unfold gq. specialize (HW w Hw). pose proof (two_pos (prec t)). destruct (edge v w && levb N edge s (S (S j)) w) eqn:EE.
        - apply andb_prop in EE. destruct EE as [_ EE]. destruct (W1x dv b g S1 i w); [|congruence]. destruct HW as (_ & _ & BB). pose proof (between_pos _ _ _ BB). destruct BB. split; lra.
        - change (this 0%Qc) with 0%Q. split; lra. }
      assert (SB : (this (qsum N gq) <= two ^ (2 * prec t))%Q).
      { apply (Qle_trans _ (inject_Z (Z.of_nat N) * two ^ prec t)).
        - assert (Q : (qsum N gq <= qsum N (fun _ => Q2Qc (two ^ prec t)))%Qc).
          { apply qsum_le. intros w Hw. unfold Qcle. cbn [this Q2Qc]. rewrite Qred_correct. apply GB. auto. }
          rewrite qsum_const in Q. unfold Qcle in Q. rewrite mult_q, nat_q_this in Q. cbn [this Q2Qc] in Q. rewrite Qred_correct in Q. exact Q.
        - replace (2 * prec t)%Z with (prec t + prec t)%Z by lia. rewrite two_plus. apply Qmult_le_compat_r; [|apply Qlt_le_weak, two_pos]. pose proof N_small. lra. }
      pose proof (approx_osum_c t (K + 4) (-53) (2 * prec t) h gq ltac:(lia) ltac:(lia) N) as OS.
      assert (OH : forall w, w < N -> match h w with Some y => approx t (K + 4) (this (gq w)) y /\ (two ^ (-53) <= this (gq w))%Q | None => gq w = 0%Qc end).
      { intros w Hw. unfold h, gq. specialize (HW w Hw). change (edge v w) with (is_some (mget A v w)). destruct (W1x dv b g S1 i w) as [y|].
        - destruct HW as (-> & AW & BW). rewrite andb_true_r. destruct (mget A v w) as [a|] eqn:Ea; cbn [omap2 is_some]; [|reflexivity].
          split; [|apply BW]. replace (K + 4) with (K + 3 + 1) by lia. apply (Hml (K + 3) _ _ v w a Ea BW); auto. lia.
        - rewrite HW. rewrite andb_false_r. reflexivity. }
      specialize (OS OH SB ltac:(apply half; lia)). fold h.
      destruct (osum (FPlus t) (map h (seq 0 N))) as [y|] eqn:Ey; cbn [omap2 ounion idc].
      * eexists. split; [reflexivity|]. rewrite EV. destruct OS as [OA OB].
        assert (ZB : (1 <= Z.of_nat (W N edge (S j) s v) <= 9007199254740992)%Z).
        { split; [destruct L' as [L' _]; lia|]. unfold s. rewrite (paths_lev A src N Hsrc i (S j) v Hi Hv L). apply (Hcount i v Hi Hv). }
        assert (EQ : (this (D N edge s (S j) v) == 1 + this (qsum N gq) * inject_Z (Z.of_nat (W N edge (S j) s v)))%Q).
        { rewrite DR, plus_q, mult_q, nat_q_this. change (this 1%Qc) with 1%Q. ring. }
        apply (approx_eq t _ _ _ _ (Qeq_sym _ _ EQ)).
        set (KK := K + 4 + present_n h N) in *.
        assert (TA : approx t (S (KK + 1)) (this (qsum N gq) * inject_Z (Z.of_nat (W N edge (S j) s v))) (FTimes t y (of_int t (Z.of_nat (W N edge (S j) s v))))).
        { apply (approx_times t KK 1 (-53) (2 * prec t) 0 53); auto using z_between, ofz_approx; try lia; try (apply half; lia). split; auto. }
        assert (TB : between (-53) (2 * prec t + 53) (this (qsum N gq) * inject_Z (Z.of_nat (W N edge (S j) s v)))).
        { apply (between_le (-53 + 0) (2 * prec t + 53)); try lia. apply between_mult; [split; auto|apply z_between; auto]. }
        apply (approx_le t (S (S (KK + 1)))); [lia| |].
        { pose proof (between_pos _ _ _ TB). lra. }
        apply (approx_plus t (S (KK + 1)) (-53) (2 * prec t + 53)); auto; try lia; [apply half; lia|apply (between_le 0 0); [lia|lia|apply one_between]|].
        apply (approx_le t K); [lia|lra|exact Ax].
      * exists x. split; [reflexivity|]. rewrite EV, DR, OS. replace (1 + nat_q (W N edge (S j) s v) * 0)%Qc with 1%Qc by ring.
        apply (approx_le t K); [lia|discriminate|exact Ax].
    + exists x. split; [reflexivity|]. assert (EV : val N edge s j v = val N edge s (S j) v).
      { unfold val. rewrite (proj2 (Nat.eqb_neq v s)) by auto. rewrite (levb_dist N edge s Hs) in L by auto. destruct (dist N edge s v) as [l|]; auto.
        apply Nat.eqb_neq in L. destruct (Nat.leb_spec (S j) l), (Nat.leb_spec (S (S j)) l); auto; lia. }
      rewrite EV. apply (approx_le t K); [lia| |exact Ax]. destruct (val_range N edge s Hs (S j) v Hv). lra.
Qed.
End Float.
