(** Normalised rows and columns over [float] and [double]. *)
From Coq Require Import ZArith QArith Qabs Qpower Lia Lqa Bool Floats.SpecFloat.
From Verif Require Import Base ModelLil ModelViews ModelUtils ModelAlgebra ModelFloat ModelConv Spec SpecOps SpecFloats SpecFpaths SpecIntPaths SpecRel SpecError
  SpecMstTypes SpecConv SpecNormalize ProofRound ProofFloat ProofConv ProofDiv ProofError ProofFloatOps ProofUtils ProofRel ProofNormalize.
Local Open Scope Z_scope.

Lemma present_values t (f : nat -> option fval) l : (forall i x, f i = Some x -> value t x) -> Forall (value t) (present (map f l)).
Proof.
  intros H. induction l as [|i l IH]; cbn; auto. destruct (f i) eqn:E; cbn; eauto.
Qed.
Lemma osum_some {T} (add : T -> T -> T) (f : nat -> option T) n j x : (j < n)%nat -> f j = Some x -> exists s, osum add (map f (seq 0 n)) = Some s.
Proof.
  intros J E. unfold osum. assert (G : forall l a, (exists s, a = Some s) \/ (exists k, In k l /\ f k <> None) ->
    exists s, fold_left (oadd add) (map f l) a = Some s).
  { clear. induction l as [|k l IH]; intros a H; cbn.
    - destruct H as [H|(k & [] & _)]; auto.
    - apply IH. destruct H as [[s ->]|(k' & [<-|I'] & N)].
      + left. destruct (f k); cbn; eauto.
      + left. destruct (f k); [|congruence]. destruct a; cbn; eauto.
      + right. eauto. }
  apply G. right. exists j. split; [apply in_seq; lia|congruence].
Qed.

Lemma rows_within t (A : lil fval) : mvalues t (Mat A) -> wfm A -> nrows A <> 0%nat ->
  exists B (S : nat -> fval), normalize_rows f0 (FPlus t) (FTimes t) (FMultiplicativeInverse t) A = Ok B /\ wfm B /\ nrows B = nrows A /\ ncols B = ncols A /\
    forall i j, (i < nrows A)%nat -> (j < ncols A)%nat ->
      match mget A i j, mget B i j with
      | Some x, Some r =>
          sums t (present (map (mget A i) (seq 0 (ncols A)))) (S i) /\
          (finite x -> finite (S i) -> ~ (real (S i) == 0)%Q -> normal_range t (1 / real (S i)) ->
           normal_range t (real x / real (S i)) \/ (real x == 0)%Q -> within2 t (real x / real (S i)) r)
      | None, None => True
      | _, _ => False
      end.
Proof.
  intros V W N. destruct (normalize_rows_ok f0 (FPlus t) (FTimes t) (FMultiplicativeInverse t) A W N) as (B & E & WB & RB & CB & G).
  exists B, (fun i => match osum (FPlus t) (map (mget A i) (seq 0 (ncols A))) with Some s => s | None => f0 end).
  split; [exact E|]. split; [exact WB|]. split; [exact RB|]. split; [exact CB|]. intros i j Hi Hj. rewrite G by auto.
  pose proof (osum_sums t (map (mget A i) (seq 0 (ncols A)))) as H. specialize (H (present_values t _ _ (fun k x K => V i k x K))).
  destruct (mget A i j) as [x|] eqn:Ex.
  - destruct (osum_some (FPlus t) (mget A i) (ncols A) j x Hj Ex) as [s Es]. rewrite Es in *. cbn. destruct H as [_ H].
    split; [exact H|]. intros Fx Fs NZ N1 N2. apply scaled_within; auto; [apply (V i j); exact Ex|apply H].
  - destruct (osum (FPlus t) (map (mget A i) (seq 0 (ncols A)))); cbn; auto.
Qed.

Lemma cols_within t (A : lil fval) : mvalues t (Mat A) -> wfm A -> nrows A <> 0%nat -> nrows A = ncols A ->
  exists B (S : nat -> fval), normalize_cols f0 (FPlus t) (FTimes t) (FMultiplicativeInverse t) A = Ok B /\ wfm B /\ nrows B = nrows A /\ ncols B = ncols A /\
    forall i j, (i < nrows A)%nat -> (j < ncols A)%nat ->
      match mget A i j, mget B i j with
      | Some x, Some r =>
          sums t (present (map (fun k => mget A k j) (seq 0 (nrows A)))) (S j) /\
          (finite x -> finite (S j) -> ~ (real (S j) == 0)%Q -> normal_range t (1 / real (S j)) ->
           normal_range t (real x / real (S j)) \/ (real x == 0)%Q -> within2 t (real x / real (S j)) r)
      | None, None => True
      | _, _ => False
      end.
Proof.
  intros V W N SQ. destruct (normalize_cols_ok f0 (FPlus t) (FTimes t) (FMultiplicativeInverse t) A W N SQ) as (B & E & WB & RB & CB & G).
  exists B, (fun j => match osum (FPlus t) (map (fun k => mget A k j) (seq 0 (nrows A))) with Some s => s | None => f0 end).
  split; [exact E|]. split; [exact WB|]. split; [exact RB|]. split; [exact CB|]. intros i j Hi Hj. rewrite G by auto.
  pose proof (osum_sums t (map (fun k => mget A k j) (seq 0 (nrows A)))) as H. specialize (H (present_values t _ _ (fun k x K => V k j x K))).
  destruct (mget A i j) as [x|] eqn:Ex.
  - destruct (osum_some (FPlus t) (fun k => mget A k j) (nrows A) i x Hi Ex) as [s Es]. rewrite Es in *. cbn. destruct H as [_ H].
    split; [exact H|]. intros Fx Fs NZ N1 N2. apply scaled_within; auto; [apply (V i j); exact Ex|apply H].
  - destruct (osum (FPlus t) (map (fun k => mget A k j) (seq 0 (nrows A)))); cbn; auto.
Qed.

(** ** Integer weights *)
Lemma is_int_real t K z x : K <= 2 ^ prec t -> fexactly t K z x -> value t x /\ finite x /\ (real x == inject_Z z)%Q.
Proof.
  intros HK [[N E] B]. destruct (int_exact t z) as (V & F & R); [lia|]. split; [apply N|].
  pose proof (finite_number t _ V F) as NI. apply (feq_sv t) in E; auto.
  assert (Fx : finite x). { apply (sv_finite t); auto. pose proof (sv_bounds t _ V F). rewrite E. lia. }
  split; auto. rewrite (real_sv t x) by (auto; apply N). rewrite E, <- (real_sv t) by auto. exact R.
Qed.
Lemma normal_fraction t x s : 1 <= x <= s -> s <= 2 ^ prec t -> normal_range t (inject_Z x / inject_Z s).
Proof.
  intros X S. assert (S0 : (0 < inject_Z s)%Q) by (change 0%Q with (inject_Z 0); rewrite <- Zlt_Qlt; lia).
  assert (X0 : (1 <= inject_Z x)%Q) by (change 1%Q with (inject_Z 1); rewrite <- Zle_Qle; lia).
  assert (XS : (inject_Z x <= inject_Z s)%Q) by (rewrite <- Zle_Qle; lia).
  assert (SB : (inject_Z s <= two ^ prec t)%Q) by (rewrite <- two_Z by (pose proof (prec_ok t); lia); rewrite <- Zle_Qle; lia).
  set (q := (inject_Z x / inject_Z s)%Q). assert (Q : (q * inject_Z s == inject_Z x)%Q) by (unfold q; field; lra). clearbody q.
  assert (Q0 : (0 < q)%Q) by nra. unfold normal_range. change (2 # 1)%Q with two. rewrite Qabs_pos by lra.
  assert (U1 : (q <= 1)%Q) by nra.
  assert (L1 : (two ^ (- prec t) <= q)%Q).
  { assert (E : (two ^ (- prec t) * two ^ prec t == 1)%Q) by (rewrite <- two_plus; replace (- prec t + prec t) with 0 by lia; reflexivity).
    pose proof (two_pos (- prec t)). pose proof (two_pos (prec t)). nra. }
  assert (E1 : (two ^ (4 - emax t) <= two ^ (- prec t))%Q) by (apply two_le; destruct t; cbn; lia).
  assert (E2 : (two ^ 0 <= two ^ (emax t - 3))%Q) by (apply two_le; destruct t; cbn; lia). change (two ^ 0)%Q with 1%Q in E2.
  split; lra.
Qed.

Lemma osum_total (l : list (option Z)) : match osum Z.add l with Some s => s = total (present l) | None => present l = [] end.
Proof.
  unfold osum. assert (G : forall l a, match fold_left (oadd Z.add) l a with
     | Some s => s = (match a with Some b => b | None => 0 end) + total (present l)
     | None => a = None /\ present l = [] end).
  { clear. induction l as [|o l IH]; intros a; cbn [fold_left present flat_map].
    - destruct a; cbn; auto. lia.
    - specialize (IH (oadd Z.add a o)). destruct (fold_left (oadd Z.add) l (oadd Z.add a o)) as [s|].
      + rewrite IH. unfold total. destruct a, o; cbn; unfold present; lia.
      + destruct IH as [H1 H2]. destruct a, o; cbn in H1; try discriminate. auto. }
  specialize (G l None). destruct (fold_left (oadd Z.add) l None); [lia|apply G].
Qed.
Lemma total_ge (l : list Z) x : Forall (fun z => 0 <= z) l -> In x l -> x <= total l.
Proof.
  intros F. unfold total. assert (0 <= fold_right Z.add 0 l) by (induction F; cbn; lia).
  induction F as [|y l Y F IH]; intros I; [destruct I|]. cbn in *. destruct I as [->|I'].
  - assert (0 <= fold_right Z.add 0 l) by (clear - F; induction F; cbn; lia). lia.
  - assert (0 <= fold_right Z.add 0 l) by (clear - F; induction F; cbn; lia). specialize (IH H0 I'). lia.
Qed.
Lemma present_in {T} (f : nat -> option T) n j x : (j < n)%nat -> f j = Some x -> In x (present (map f (seq 0 n))).
Proof.
  intros J E. unfold present. apply in_flat_map. exists (Some x). split; [|left; auto]. rewrite <- E. apply in_map. apply in_seq. lia.
Qed.
Lemma present_all {T} (P : T -> Prop) (f : nat -> option T) l : (forall i x, f i = Some x -> P x) -> Forall P (present (map f l)).
Proof. intros H. induction l as [|i l IH]; cbn; auto. destruct (f i) eqn:E; cbn; eauto. Qed.

Lemma rows_counts t K (G : lil Z) (A : lil fval) : 1 <= K -> Z.of_nat (ncols G) * K <= 2 ^ prec t -> mrel (fexactly t K) G A ->
  (forall i j z, mget G i j = Some z -> 0 <= z) -> nrows G <> 0%nat ->
  exists B, normalize_rows f0 (FPlus t) (FTimes t) (FMultiplicativeInverse t) A = Ok B /\ wfm B /\ nrows B = nrows G /\ ncols B = ncols G /\
    forall i s, (i < nrows G)%nat -> osum Z.add (map (mget G i) (seq 0 (ncols G))) = Some s -> 0 < s ->
      (forall j, (j < ncols G)%nat ->
         match mget G i j, mget B i j with
         | Some x, Some r => within2 t (inject_Z x / inject_Z s) r /\ (x = 1 -> rounds_to t (1 / inject_Z s) r)
         | None, None => True
         | _, _ => False
         end).
Proof.
  intros K1 HK (WG & WA & HR & HC & HG) NN NR.
  destruct (normalize_rows_ok f0 (FPlus t) (FTimes t) (FMultiplicativeInverse t) A WA) as (B & E & WB & RB & CB & GB); [congruence|].
  exists B. split; [exact E|]. split; [exact WB|]. split; [congruence|]. split; [congruence|].
  intros i s Hi Es S0 j Hj. rewrite GB by congruence. rewrite <- HC.
  pose proof (osum_fexact t K (map (mget G i) (seq 0 (ncols G))) (map (mget A i) (seq 0 (ncols G)))) as H.
  rewrite map_length, seq_length in H. specialize (H ltac:(lia) HK).
  assert (FF : Forall2 (orel (fexactly t K)) (map (mget G i) (seq 0 (ncols G))) (map (mget A i) (seq 0 (ncols G)))) by (apply Forall2_maps; intros; apply HG).
  specialize (H FF). rewrite Es in H. pose proof (HG i j) as Hij.
  destruct (osum (FPlus t) (map (mget A i) (seq 0 (ncols G)))) as [s'|] eqn:Es'; [|contradiction H].
  destruct (mget G i j) as [x|] eqn:Ex; destruct (mget A i j) as [x'|] eqn:Ex'; try contradiction; cbn; auto. cbn in Hij.
  assert (KP : K <= 2 ^ prec t) by (destruct (ncols G); [lia|nia]).
  destruct (is_int_real t K x x' KP Hij) as (Vx & Fx & Rx). cbn in H.
  destruct (is_int_real t _ s s' HK H) as (Vs & Fs & Rs).
  pose proof (osum_total (map (mget G i) (seq 0 (ncols G)))) as TS. rewrite Es in TS.
  pose proof (NN i j x Ex) as X0. assert (XS : x <= s).
  { rewrite TS. apply total_ge; [apply present_all; intros; eapply NN; eauto|]. eapply present_in; eauto. }
  assert (SB : s <= 2 ^ prec t) by (destruct H as [_ H]; lia).
  assert (NZ : ~ (real s' == 0)%Q). { rewrite Rs. intros C. unfold Qeq in C. cbn in C. lia. }
  assert (N1 : normal_range t (1 / real s')).
  { pose proof (normal_fraction t 1 s ltac:(lia) SB) as [P1 P2]. split; rewrite (Qabs_wd (1 / real s') (inject_Z 1 / inject_Z s)) by (rewrite Rs; reflexivity); auto. }
  split.
  - destruct (scaled_within t x' s' Vx Vs Fx Fs NZ N1) as [W _].
    { destruct (Z.eq_dec x 0) as [->|XN]; [right; rewrite Rx; reflexivity|left].
      destruct (normal_fraction t x s ltac:(lia) SB) as [P1 P2].
      split; rewrite (Qabs_wd (real x' / real s') (inject_Z x / inject_Z s)) by (rewrite Rx, Rs; reflexivity); auto. }
    destruct W as (W1 & W2 & W3). split; auto. split; auto.
    set (r := FTimes t (FMultiplicativeInverse t s') x') in *. clearbody r.
    rewrite (Qabs_wd (real r - inject_Z x / inject_Z s) (real r - real x' / real s')) by (rewrite Rx, Rs; reflexivity).
    rewrite (Qabs_wd (inject_Z x / inject_Z s) (real x' / real s')) by (rewrite Rx, Rs; reflexivity). exact W3.
  - intros ->. assert (E1 : sv t x' = sv t (f1 t)).
    { destruct Hij as [[Nx Ex1] _]. apply (feq_sv t) in Ex1; auto. apply one_number. }
    assert (x' = f1 t). { destruct Hij as [[Nx Ex1] _]. destruct (sv_inj t x' (f1 t) Nx (one_number t) E1) as [->|(z1 & z2 & _ & C)]; auto.
      exfalso. destruct t; discriminate. }
    subst x'. assert (NI : number t (FMultiplicativeInverse t s')).
    { assert (O : value t (f1 t) /\ finite (f1 t)) by (destruct t; vm_compute; auto). destruct O as [O1 O2]. apply (div_rounds t (f1 t) s'); auto. }
    destruct (times_one t _ NI) as [-> _]. apply (rounds_eq _ (1 / real s')); [rewrite Rs; reflexivity|].
    assert (O : value t (f1 t) /\ finite (f1 t) /\ (real (f1 t) == 1)%Q) by (destruct t; vm_compute; auto). destruct O as (O1 & O2 & O3).
    apply (rounds_eq _ (real (f1 t) / real s')); [rewrite O3; reflexivity|]. apply div_rounds; auto.
Qed.

(** The sum of a normalised row. *)
Lemma row_total t s (l : list (option Z)) (l' : list (option fval)) : 0 < s ->
  Forall2 (orel (fun x r => 0 <= x /\ within2 t (inject_Z x / inject_Z s) r)) l l' ->
  (Qabs (qtotal (map real (present l')) - inject_Z (total (present l)) / inject_Z s) <=
     (2 * unit_roundoff t + unit_roundoff t * unit_roundoff t) * (inject_Z (total (present l)) / inject_Z s))%Q.
Proof.
  intros S0 F. set (e := (2 * unit_roundoff t + unit_roundoff t * unit_roundoff t)%Q).
  assert (S1 : (0 < inject_Z s)%Q) by (change 0%Q with (inject_Z 0); rewrite <- Zlt_Qlt; lia).
  induction F as [|x r l l' H F IH]; [cbn; unfold Qdiv; rewrite !Qmult_0_l, Qmult_0_r; discriminate|].
  destruct x as [x|], r as [r|]; cbn in H; try contradiction; [|exact IH].
  destruct H as (X0 & Vr & Fr & H). fold e in H.
  change (present (Some x :: l)) with (x :: present l). change (present (Some r :: l')) with (r :: present l').
  cbn [map total qtotal fold_right]. fold (qtotal (map real (present l'))). fold (total (present l)).
  set (L := (inject_Z (total (present l)) / inject_Z s)%Q) in *. set (X := (inject_Z x / inject_Z s)%Q) in *. set (Y := qtotal (map real (present l'))) in *.
  assert (E : (inject_Z (x + total (present l)) / inject_Z s == X + L)%Q) by (rewrite inject_Z_plus; unfold X, L; field; lra).
  assert (PX : (0 <= X)%Q).
  { unfold X. assert (0 <= inject_Z x)%Q by (change 0%Q with (inject_Z 0); rewrite <- Zle_Qle; lia). apply Qle_shift_div_l; [auto|lra]. }
  rewrite (Qabs_pos X) in H by auto. rewrite E.
  assert (T : (Qabs (real r + Y - (X + L)) <= Qabs (real r - X) + Qabs (Y - L))%Q).
  { rewrite (Qabs_wd (real r + Y - (X + L)) ((real r - X) + (Y - L))) by ring. apply Qabs_triangle. }
  lra.
Qed.
