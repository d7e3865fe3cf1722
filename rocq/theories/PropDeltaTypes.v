(** Delta stepping over the built-in integer types and over [float] and [double] (C142, C143). *)
From Coq Require Import Lia ZArith Floats.SpecFloat.
From Verif Require Import Base ModelLil ModelVec ModelHelpers ModelViews ModelAlgoBase ModelDelta ModelAlgebra ModelFloat ModelFsssp
  ModelInts ModelIntPaths ModelMstTypes ModelDeltaTypes Spec SpecOps SpecAlgebra SpecFloats SpecPaths SpecInts SpecIntPaths
  ProofPaths ProofFloat ProofInts ProofExact ProofIntPaths ProofDelta ProofDeltaTypes ProofGraph ProofViews ProofVis PropDelta PropInts SpecRel.

(** ** C142: the distances are exact.  The weights are positive and at most [W]; [N * W] and [(N - 1) * W + delta] are values
    of the type. *)
Theorem C142_integers :
  forall (t : ctype) (G : lil Z) (G' : lil ival) (N src : nat) (delta W : Z) (paths : bvec ival), integer_type t ->
    mrel (exactly t W) G G' -> nrows G = N -> ncols G = N -> src < N -> (forall u v g, mget G u v = Some g -> (0 < g)%Z) ->
    (0 < delta)%Z -> (0 <= W)%Z -> (Z.of_nat N * W <= tmax t)%Z -> ((Z.of_nat N - 1) * W + delta <= tmax t)%Z ->
    wfv0 paths -> vsize paths = N ->
    exists n0, forall n, n0 <= n ->
      exists d, isssp_delta_step t n G' (Ok delta) src paths = Ok (Some d) /\ wfv d /\ vsize d = N /\
        forall v, holds (exactly t ((Z.of_nat N - 1) * W)) (distance (mget G) src v) (vget d v).
Proof.
  intros t G G' N src delta W paths T HG RG CG Hs HP Hd W0 B1 B2 Wp Sp. pose proof HG as (WG & _).
  assert (W1 : (0 <= (Z.of_nat N - 1) * W)%Z) by (apply Z.mul_nonneg_nonneg; lia).
  assert (HW : forall u v g, mget G u v = Some g -> (0 <= g <= W)%Z).
  { intros u v g E. pose proof (HP u v g E) as HP'. destruct HG as (_ & _ & _ & _ & H). specialize (H u v). rewrite E in H.
    destruct (mget G' u v); [|contradiction]. destruct H as (_ & _ & L). lia. }
  assert (HD : IR t delta (Ok delta)) by (split; [auto|apply inty_bound; auto; lia]).
  set (z := mkVec N 0%Z (repeat 0%Z N) (repeat false N)).
  assert (Wz : wfv0 z) by (split; apply repeat_length).
  destruct (C68_sssp_delta_step_ends G N src delta z WG RG CG Hs Hd HP Wz eq_refl) as (n0 & H).
  exists n0. intros n Hn. destruct (H n Hn) as (d & E & Wd & Sd & Hdist).
  assert (HG' : mrel (IR t) G G') by (eapply mrel_impl; [|exact HG]; intros ? ? (? & ? & _); split; auto).
  destruct (gdelta_ok (IR t) (tmax t) ileb iltb (op2 Min t) (op2 Plus t) (op2 Times t) inonzero (fun b => Ok (if b then 1%Z else 0%Z))
    (fun i => Ok (convert t (Z.of_nat i))) (Ok 0%Z) defined defined_v (IR_leb t) (IR_ltb t) (IR_min t) (IR_plus t T) (IR_times t T)
    (IR_true t) (IR_bool t T) (IR_nat t T) (IR_0 t T) (IR_chk t) (IR_chkv t) G G' N src delta W (Ok delta) HG' RG CG Hs Hd HD W0 HW B1 B2
    n z paths Wz eq_refl Wp Sp) as (o & o' & E1 & E2 & Ho).
  rewrite E in E1. injection E1 as <-. destruct o' as [d'|]; [|contradiction].
  exists d'. split; [exact E2|]. destruct Ho as [(_ & W' & S' & Gd) _]. split; [auto|]. split; [congruence|].
  intro v. specialize (Gd v). destruct (vget d v) as [x|] eqn:Ex, (vget d' v) as [y|]; simpl in Gd |- *; try contradiction.
  - exists x. split; [destruct Gd as ((-> & I) & L); split; [auto|split; [auto|lia]]|apply Hdist; auto].
  - intros x Hx. apply Hdist in Hx. congruence.
Qed.
Print Assumptions C142_integers.

Theorem C142_floating_point :
  forall (t : ftype) (G : lil Z) (G' : lil fval) (N src : nat) (delta W : Z) (delta' : fval) (paths : bvec fval),
    mrel (fexactly t W) G G' -> nrows G = N -> ncols G = N -> src < N -> (forall u v g, mget G u v = Some g -> (0 < g)%Z) ->
    (0 < delta)%Z -> fexactly t delta delta delta' -> (0 <= W)%Z ->
    (Z.of_nat N * W <= 2 ^ prec t)%Z -> ((Z.of_nat N - 1) * W + delta <= 2 ^ prec t)%Z ->
    wfv0 paths -> vsize paths = N ->
    exists n0, forall n, n0 <= n ->
      exists d, fsssp_delta_step t n G' delta' src paths = Ok (Some d) /\ wfv d /\ vsize d = N /\
        forall v, holds (fexactly t ((Z.of_nat N - 1) * W)) (distance (mget G) src v) (vget d v).
Proof.
  intros t G G' N src delta W delta' paths HG RG CG Hs HP Hd HD' W0 B1 B2 Wp Sp. pose proof HG as (WG & _).
  assert (W1 : (0 <= (Z.of_nat N - 1) * W)%Z) by (apply Z.mul_nonneg_nonneg; lia).
  assert (W2 : (W <= 2 ^ prec t)%Z) by nia.
  assert (HW : forall u v g, mget G u v = Some g -> (0 <= g <= W)%Z).
  { intros u v g E. pose proof (HP u v g E) as HP'. destruct HG as (_ & _ & _ & _ & H). specialize (H u v). rewrite E in H.
    destruct (mget G' u v); [|contradiction]. destruct H as (_ & L). lia. }
  assert (HD : FR t delta delta') by (apply FR_ex in HD'; [apply HD'|lia]).
  set (z := mkVec N 0%Z (repeat 0%Z N) (repeat false N)).
  assert (Wz : wfv0 z) by (split; apply repeat_length).
  destruct (C68_sssp_delta_step_ends G N src delta z WG RG CG Hs Hd HP Wz eq_refl) as (n0 & H).
  exists n0. intros n Hn. destruct (H n Hn) as (d & E & Wd & Sd & Hdist).
  assert (HG' : mrel (FR t) G G') by (eapply mrel_impl; [|exact HG]; intros ? ? F; apply FR_ex in F; [apply F|auto]).
  destruct (gdelta_ok (FR t) (2 ^ prec t) FLessEqual FLessThan (FMin t) (FPlus t) (FTimes t) ftrue (fun b : bool => if b then f1 t else f0)
    (fun i => of_int t (Z.of_nat i)) f0 Ok Ok (FR_leb t) (FR_ltb t) (FR_min t) (FR_plus t) (FR_times t) (FR_true t) (FR_bool t) (FR_nat t) (FR_0 t)
    (fun _ _ _ => eq_refl) (fun _ _ _ => eq_refl) G G' N src delta W delta' HG' RG CG Hs Hd HD W0 HW B1 B2
    n z paths Wz eq_refl Wp Sp) as (o & o' & E1 & E2 & Ho).
  rewrite E in E1. injection E1 as <-. destruct o' as [d'|]; [|contradiction].
  exists d'. split; [exact E2|]. destruct Ho as [(_ & W' & S' & Gd) _]. split; [auto|]. split; [congruence|].
  intro v. specialize (Gd v). destruct (vget d v) as [x|] eqn:Ex, (vget d' v) as [y|]; simpl in Gd |- *; try contradiction.
  - exists x. split; [|apply Hdist; auto]. destruct Gd as (F & L). apply FR_ex; [lia|]. split; [auto|lia].
  - intros x Hx. apply Hdist in Hx. congruence.
Qed.
Print Assumptions C142_floating_point.

(** [unsigned char] and [float]: the graph of C68, weights up to 9 on 5 vertices. *)
Definition lil_map {A B : Type} (f : A -> B) (M : lil A) : lil B :=
  mkLil (nrows M) (ncols M) (nvals M) (map (map (fun e => (fst e, f (snd e)))) (data M)).
Example C142_example :
  mrel (exactly u8 9) ed_G (lil_map Ok ed_G) /\ mrel (fexactly CFloat 9) ed_G (lil_map (of_int CFloat) ed_G) /\
  (forall u v g, mget ed_G u v = Some g -> (0 < g)%Z) /\ fexactly CFloat 2 2 (of_int CFloat 2) /\
  (Z.of_nat 5 * 9 <= tmax u8)%Z /\ ((Z.of_nat 5 - 1) * 9 + 2 <= tmax u8)%Z /\
  (exists d, isssp_delta_step u8 60 (lil_map Ok ed_G) (Ok 2%Z) 0 (mkVec 5 0%Z (repeat (Ok 0%Z) 5) (repeat false 5)) = Ok (Some d) /\
     map (vget d) (seq 0 5) = [Some (Ok 0); Some (Ok 3); Some (Ok 2); Some (Ok 4); None]%Z) /\
  (exists d, fsssp_delta_step CFloat 60 (lil_map (of_int CFloat) ed_G) (of_int CFloat 2) 0 (mkVec 5 0%Z (repeat f0 5) (repeat false 5)) = Ok (Some d) /\
     map (vget d) (seq 0 5) = map (option_map (of_int CFloat)) [Some 0; Some 3; Some 2; Some 4; None]%Z).
Proof.
  assert (K : forall u v g, mget ed_G u v = Some g -> (0 < g <= 9)%Z).
  { intros u v g E. do 5 (destruct u as [|u]; [do 5 (destruct v as [|v]; [first [discriminate|injection E as <-; lia]|]); discriminate|]).
    destruct u; discriminate. }
  split.
  { split; [wf_mat|]. split; [wf_mat|]. split; [reflexivity|]. split; [reflexivity|]. intros u v.
    do 5 (destruct u as [|u]; [do 5 (destruct v as [|v]; [first [exact I|split; [reflexivity|split; [split; vm_compute; discriminate|vm_compute; discriminate]]]|]); exact I|]).
    destruct u; exact I. }
  split.
  { split; [wf_mat|]. split; [wf_mat|]. split; [reflexivity|]. split; [reflexivity|]. intros u v.
    do 5 (destruct u as [|u]; [do 5 (destruct v as [|v]; [first [exact I|split; [split; [split; [reflexivity|discriminate]|reflexivity]|vm_compute; discriminate]]|]); exact I|]).
    destruct u; exact I. }
  split; [intros; eapply K; eauto|]. split; [split; [split; [split; [reflexivity|discriminate]|reflexivity]|vm_compute; discriminate]|].
  split; [vm_compute; discriminate|]. split; [vm_compute; discriminate|].
  split; (eexists; split; [vm_compute; reflexivity|vm_compute; reflexivity]).
Qed.
Print Assumptions C142_example.

(** ** C143: it is not enough that the distances, the weights and [delta] are values of the type. *)
Definition edge01 (w : Z) : lil Z := mkLil 2 2 1%Z [[(1, w)]; []].
Definition ipaths : bvec ival := mkVec 2 0%Z [Ok 0%Z; Ok 0%Z] [false; false].

Lemma edge01_walks w k v c : wwalk (mget (edge01 w)) 0 v k c -> v = 0 /\ c = 0%Z \/ v = 1 /\ c = w.
Proof.
  intro H. remember 0 as s. revert Heqs. induction H as [|v t k c g _ IH E]; intros ->; [auto|].
  destruct (IH eq_refl) as [[-> ->]|[-> ->]]; destruct t as [|[|t]]; try discriminate.
  injection E as <-. right. split; [auto|lia].
Qed.
Lemma edge01_rel t w : inty t w -> (0 <= w)%Z -> mrel (exactly t w) (edge01 w) (lil_map Ok (edge01 w)).
Proof.
  intros I W. split; [wf_mat|]. split; [wf_mat|]. split; [reflexivity|]. split; [reflexivity|]. intros u v.
  destruct u as [|[|u]]; [destruct v as [|[|v]]; simpl; auto; split; [auto|split; [auto|lia]]|exact Logic.I|destruct u; exact Logic.I].
Qed.

(** [int]: the only edge, 0 -> 1, has weight 2^30 and so has [delta]; [(i + 1) * delta] overflows. *)
Theorem C143_undefined_refuted :
  exists (G : lil Z) (delta : Z),
    mrel (exactly i32 (2 ^ 30)) G (lil_map Ok G) /\ (forall u v g, mget G u v = Some g -> (0 < g)%Z) /\
    inty i32 delta /\ (0 < delta)%Z /\ (forall v x, distance (mget G) 0 v x -> inty i32 x) /\
    forall n, 5 <= n -> isssp_delta_step i32 n (lil_map Ok G) (Ok delta) 0 ipaths = UB.
Proof.
  assert (I30 : inty i32 (2 ^ 30)) by (split; vm_compute; discriminate).
  exists (edge01 (2 ^ 30)), (2 ^ 30)%Z. split; [apply edge01_rel; [auto|lia]|].
  split; [intros [|[|u]] [|[|v]] g E; try discriminate; [injection E as <-; lia|destruct u; discriminate..]|].
  split; [auto|]. split; [lia|]. split.
  - intros v x ((k & H) & _). apply edge01_walks in H. destruct H as [[_ ->]|[_ ->]]; [split; vm_compute; discriminate|auto].
  - intros n Hn. do 5 (destruct n as [|n]; [exfalso; lia|]). vm_compute. reflexivity.
Qed.
Print Assumptions C143_undefined_refuted.

(** [unsigned char]: weight and [delta] 128; [i * delta] is 0 for every even [i], so that the loop goes on for ever. *)
Section Loop.
Let body := gds_outer_body ileb iltb (op2 Min u8) (op2 Plus u8) (op2 Times u8) inonzero (fun b => Ok (if b then 1%Z else 0%Z))
  (fun i => Ok (convert u8 (Z.of_nat i))) defined defined_v.
Let outer := gds_outer ileb iltb (op2 Min u8) (op2 Plus u8) (op2 Times u8) inonzero (fun b => Ok (if b then 1%Z else 0%Z))
  (fun i => Ok (convert u8 (Z.of_nat i))) defined defined_v.
Let lowi := gds_low (op2 Times u8) (fun i => Ok (convert u8 (Z.of_nat i))) defined (Ok 128%Z).
Let AL : lil ival := mkLil 2 2 1%Z [[(1, Ok 128%Z)]; []].
Let AH : lil ival := mkLil 2 2 0%Z [[]; []].
Let even_state (less1 : bool) : gds_state (D := ival) :=
  mkGds (mkVec 2 2%Z [Ok 0%Z; Ok 128%Z] [true; true]) (mkVec 2 0%Z [Ok 0%Z; Ok 0%Z] [false; false])
    (mkVec 2 0%Z [Ok 0%Z; Ok 128%Z] [false; false]) (mkVec 2 0%Z [false; false] [false; false]) (mkVec 2 2%Z [true; true] [true; true])
    (mkVec 2 1%Z [false; less1] [false; true]) (mkVec 2 0%Z [true; false] [false; false]) 0.
Let odd_state (first : bool) : gds_state (D := ival) :=
  mkGds (mkVec 2 2%Z [Ok 0%Z; Ok 128%Z] [true; true]) (mkVec 2 1%Z [Ok 0%Z; Ok 0%Z] [true; false])
    (mkVec 2 0%Z [Ok 0%Z; Ok 128%Z] [false; false]) (mkVec 2 (if first then 1 else 0)%Z [true; false] [false; first])
    (mkVec 2 1%Z [false; true] [false; true])
    (mkVec 2 1%Z [false; first] [false; true]) (mkVec 2 1%Z [true; false] [true; false]) 1.
Let start : gds_state (D := ival) :=
  let v := mkVec 2 0%Z [Ok 0%Z; Ok 0%Z] [false; false] in
  let b := mkVec 2 0%Z [false; false] [false; false] in
  mkGds (mkVec 2 1%Z [Ok 0%Z; Ok 0%Z] [true; false]) v v b (mkVec 2 1%Z [true; false] [true; false]) b b 0.

Lemma low_parity i : lowi i = Ok (Ok (if Nat.even i then 0 else 128)%Z).
Proof.
  assert (H : op2 Times u8 (Ok (convert u8 (Z.of_nat i))) (Ok 128%Z) = Ok (if Nat.even i then 0 else 128)%Z).
  { assert (W : times_wraps u8) by (split; [exists false, W8; split; [reflexivity|discriminate]|discriminate]).
    pose proof (wrapped_times u8 W (Z.of_nat i) (Ok (convert u8 (Z.of_nat i))) 128%Z (Ok (convert u8 128)) eq_refl eq_refl) as E.
    change (convert u8 128) with 128%Z in E. rewrite E. f_equal. unfold convert. cbn [u8]. unfold wrapu. change (2 ^ bits W8)%Z with 256%Z.
    destruct (Nat.even i) eqn:Ei.
    - apply Nat.even_spec in Ei. destruct Ei as (m & ->). replace (Z.of_nat (2 * m) * 128)%Z with (Z.of_nat m * 256)%Z by lia. apply Z.mod_mul. lia.
    - assert (O : Nat.odd i = true) by (rewrite <- Nat.negb_even, Ei; reflexivity).
      apply Nat.odd_spec in O. destruct O as (m & ->). replace (Z.of_nat (2 * m + 1) * 128)%Z with (128 + Z.of_nat m * 256)%Z by lia.
      rewrite Z.mod_add by lia. reflexivity. }
  unfold lowi, gds_low. rewrite H. destruct (Nat.even i); reflexivity.
Qed.
Lemma even_next i : Nat.even (i + 1) = negb (Nat.even i).
Proof. rewrite Nat.add_1_r, Nat.even_succ, Nat.negb_even. reflexivity. Qed.
Lemma round_even f b i : Nat.even i = true ->
  body (5 + f) (Ok 128%Z) AL AH (set_i (even_state b) i) = Ok (Some (set_i (odd_state false) (i + 1))).
Proof.
  intro H. unfold body. rewrite (round_set_i _ _ _ _ _ _ _ _ _ _ _ _ _ _ (even_state b) i 0).
  - destruct b; vm_compute; reflexivity.
  - fold lowi. rewrite !low_parity, H. reflexivity.
  - fold lowi. rewrite !low_parity, !even_next, H. reflexivity.
Qed.
Lemma round_odd f b i : Nat.even i = false ->
  body (5 + f) (Ok 128%Z) AL AH (set_i (odd_state b) i) = Ok (Some (set_i (even_state b) (i + 1))).
Proof.
  intro H. unfold body. rewrite (round_set_i _ _ _ _ _ _ _ _ _ _ _ _ _ _ (odd_state b) i 1).
  - destruct b; vm_compute; reflexivity.
  - fold lowi. rewrite !low_parity, H. reflexivity.
  - fold lowi. rewrite !low_parity, !even_next, H. reflexivity.
Qed.
Lemma rounds f n : forall i b,
  (Nat.even i = true -> outer n (5 + f) (Ok 128%Z) AL AH (set_i (even_state b) i) = Ok None) /\
  (Nat.even i = false -> outer n (5 + f) (Ok 128%Z) AL AH (set_i (odd_state b) i) = Ok None).
Proof.
  induction n as [|n IH]; intros i b; [split; reflexivity|]. split; intro H.
  - change (outer (S n) (5 + f) (Ok 128%Z) AL AH (set_i (even_state b) i)) with
      (o <- body (5 + f) (Ok 128%Z) AL AH (set_i (even_state b) i) ;;
       match o with None => Ok None | Some x => outer n (5 + f) (Ok 128%Z) AL AH x end).
    rewrite (round_even f b i H). cbn [bind]. apply IH. rewrite even_next, H. reflexivity.
  - change (outer (S n) (5 + f) (Ok 128%Z) AL AH (set_i (odd_state b) i)) with
      (o <- body (5 + f) (Ok 128%Z) AL AH (set_i (odd_state b) i) ;;
       match o with None => Ok None | Some x => outer n (5 + f) (Ok 128%Z) AL AH x end).
    rewrite (round_odd f b i H). cbn [bind]. apply IH. rewrite even_next, H. reflexivity.
Qed.
Lemma never_ends n : isssp_delta_step u8 n (lil_map Ok (edge01 128)) (Ok 128%Z) 0 ipaths = Ok None.
Proof.
  destruct (Nat.le_gt_cases 5 n) as [H|H]; [|do 5 (destruct n as [|n]; [vm_compute; reflexivity|]); exfalso; lia].
  destruct n as [|n]; [exfalso; lia|]. assert (E : exists f, S n = 5 + f) by (exists (S n - 5); lia). destruct E as (f & E).
  assert (K : exists F : gds_state -> res (option (bvec ival)),
    isssp_delta_step u8 (S n) (lil_map Ok (edge01 128)) (Ok 128%Z) 0 ipaths =
      (o <- outer (S n) (S n) (Ok 128%Z) AL AH start ;; match o with None => Ok None | Some x => F x end)) by (eexists; reflexivity).
  destruct K as (F & ->).
  rewrite E at 2.
  change (outer (S n) (5 + f) (Ok 128%Z) AL AH start) with
    (o <- body (5 + f) (Ok 128%Z) AL AH start ;; match o with None => Ok None | Some x => outer n (5 + f) (Ok 128%Z) AL AH x end).
  assert (S0 : body (5 + f) (Ok 128%Z) AL AH start = Ok (Some (set_i (odd_state true) 1))) by (vm_compute; reflexivity).
  rewrite S0. cbn [bind]. destruct (rounds f n 1 true) as [_ R]. rewrite (R eq_refl). reflexivity.
Qed.
End Loop.

Theorem C143_endless_refuted :
  exists (G : lil Z) (delta : Z),
    mrel (exactly u8 128) G (lil_map Ok G) /\ (forall u v g, mget G u v = Some g -> (0 < g)%Z) /\
    inty u8 delta /\ (0 < delta)%Z /\ (forall v x, distance (mget G) 0 v x -> inty u8 x) /\
    forall n, isssp_delta_step u8 n (lil_map Ok G) (Ok delta) 0 ipaths = Ok None.
Proof.
  assert (I128 : inty u8 128) by (split; vm_compute; discriminate).
  exists (edge01 128), 128%Z. split; [apply edge01_rel; [auto|lia]|].
  split; [intros [|[|u]] [|[|v]] g E; try discriminate; [injection E as <-; lia|destruct u; discriminate..]|].
  split; [auto|]. split; [lia|]. split; [|exact never_ends].
  intros v x ((k & H) & _). apply edge01_walks in H. destruct H as [[_ ->]|[_ ->]]; [split; vm_compute; discriminate|auto].
Qed.
Print Assumptions C143_endless_refuted.
