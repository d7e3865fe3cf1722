(** Which scalar types hold the levels. *)
From Coq Require Import Lia ZArith Floats.SpecFloat.
From Verif Require Import Base ModelLil ModelVec Spec ModelAlgebra ModelFloat ModelFsssp ModelLevels SpecFloats SpecInts SpecLevels ProofRound ProofFloat.
Local Open Scope Z_scope.

Lemma int_holds t z : integer_type t -> 1 <= z <= tmax t -> convert t z = z /\ holds_int (int_scalar t) z.
Proof.
  intros (s & w & ->) H. assert (E : convert (CInt s w) z = z).
  { assert (P : 2 ^ bits w = 2 * 2 ^ (bits w - 1)) by (destruct w; reflexivity).
    assert (0 < 2 ^ (bits w - 1)) by (apply Z.pow_pos_nonneg; destruct w; simpl; lia).
    destruct s; cbn [convert tmax] in *; unfold wraps, wrapu.
    - rewrite Z.mod_small by lia. lia.
    - apply Z.mod_small. lia. }
  split; [exact E|]. unfold holds_int. cbn [int_scalar s_to s_of s_true]. rewrite E. split; [reflexivity|].
  unfold istrue. destruct (Z.eqb_spec z 0); [lia|reflexivity].
Qed.

Lemma one_holds t : holds_int (int_scalar t) 1.
Proof. destruct t as [|s w]; [split; reflexivity|]. destruct s, w; split; reflexivity. Qed.

Lemma float_holds t z : 1 <= z <= 2 ^ prec t -> holds_int (float_scalar t) z.
Proof.
  intro H. destruct (int_ok t z) as (_ & F & S); [lia|].
  unfold holds_int. cbn [float_scalar s_to s_of s_true]. pose proof (unit_pos t) as U.
  pose proof (emin_neg (prec t) (emax t) (prec_ok t) (emax_ok t)) as EN.
  destruct (int_ok t z) as ((V & _) & _ & _); [lia|].
  unfold sv in S. destruct (of_int t z) as [s|s| |s m e] eqn:E; cbn [sval] in S; try contradiction; [nia|].
  split; [|reflexivity].
  pose proof (valid_finite (prec t) (emax t) s m e V) as Hv.
  cbn [ftrunc]. destruct s; cbn [sg] in S.
  { exfalso. assert (0 <= 2 ^ (e - emin (prec t) (emax t))) by (apply Z.pow_nonneg; lia). nia. }
  unfold unit_of in *. set (em := emin (prec t) (emax t)) in *.
  rewrite Z.mul_1_l. assert (em <= e) by lia.
  destruct (Z.le_gt_cases 0 e).
  - rewrite Z.shiftl_mul_pow2 by lia.
    replace (e - em) with (e + - em) in S by lia. rewrite Z.pow_add_r in S by lia. nia.
  - replace e with (- (- e)) at 1 by lia. rewrite Z.shiftl_opp_r, Z.shiftr_div_pow2 by lia.
    replace (- em) with ((e - em) + - e) in S by lia. rewrite Z.pow_add_r in S by lia.
    assert (0 < 2 ^ (e - em)) by (apply Z.pow_pos_nonneg; lia).
    assert (Z.pos m = z * 2 ^ (- e)) as -> by nia.
    apply Z.div_mul. apply Z.pow_nonzero; lia.
Qed.
Lemma fone_holds t : holds_int (float_scalar t) 1.
Proof. apply float_holds. destruct t; simpl; lia. Qed.

(** Conversions in a row. *)
Lemma mod_mod_le a p q : 0 <= q <= p -> (a mod 2 ^ p) mod 2 ^ q = a mod 2 ^ q.
Proof.
  intro H. replace p with (q + (p - q)) by lia. rewrite Z.pow_add_r by lia.
  assert (0 < 2 ^ q) by (apply Z.pow_pos_nonneg; lia). assert (0 < 2 ^ (p - q)) by (apply Z.pow_pos_nonneg; lia).
  rewrite Z.rem_mul_r by lia. rewrite Z.mul_comm, Z.mod_add, Z.mod_mod by lia. reflexivity.
Qed.
Lemma wraps_mod w z z' : z mod 2 ^ bits w = z' mod 2 ^ bits w -> wraps w z = wraps w z'.
Proof.
  intro E. unfold wraps. f_equal. rewrite Z.add_mod, E, <- Z.add_mod; auto; apply Z.pow_nonzero; destruct w; simpl; lia.
Qed.
Lemma wraps_cong w z : wraps w z mod 2 ^ bits w = z mod 2 ^ bits w.
Proof.
  unfold wraps. assert (2 ^ bits w <> 0) by (apply Z.pow_nonzero; destruct w; simpl; lia).
  rewrite Zminus_mod, Z.mod_mod, <- Zminus_mod by auto. f_equal. lia.
Qed.
Lemma convert_through w' t z : (forall s w, t = CInt s w -> bits w <= bits w') -> t <> CBool ->
  convert t (convert (CInt false w') (convert t z)) = convert t z.
Proof.
  intros Hw Hb. destruct t as [|s w]; [congruence|]. specialize (Hw s w eq_refl).
  assert (B : 0 <= bits w) by (destruct w; simpl; lia).
  cbn [convert]. unfold wrapu at 1. destruct s.
  - apply wraps_mod. rewrite mod_mod_le by lia. apply wraps_cong.
  - unfold wrapu. rewrite mod_mod_le by lia. apply Z.mod_mod. apply Z.pow_nonzero; lia.
Qed.

Lemma int_keeps w' t z : w' = W32 \/ w' = W64 -> 1 <= z < 2 ^ bits w' -> convert t z <> 0 ->
  keeps_level (convert (CInt false w')) (int_scalar t) z.
Proof.
  intros Hw' Hz Hn. split.
  - cbn [int_scalar s_true s_of]. unfold istrue. destruct (Z.eqb_spec (convert t z) 0); [congruence|reflexivity].
  - cbn [int_scalar s_to s_of]. destruct t as [|s w].
    + assert (E : convert CBool z = 1) by (cbn [convert] in *; destruct (z =? 0); congruence).
      rewrite E. destruct Hw' as [-> | ->]; reflexivity.
    + destruct (Z.le_gt_cases (bits w) (bits w')).
      * apply convert_through; [|congruence]. intros s0 w0 E. injection E as <- <-. assumption.
      * assert (w = W64 /\ w' = W32) as [-> ->]
          by (destruct w, Hw' as [-> | ->]; simpl in *; split; congruence || lia).
        cbn [bits] in *. assert (E : convert (CInt s W64) z = z).
        { destruct s; cbn [convert]; unfold wraps, wrapu; cbn [bits].
          - rewrite Z.mod_small; lia.
          - rewrite Z.mod_small; lia. }
        rewrite E. replace (convert (CInt false W32) z) with z; [exact E|].
        cbn [convert]. unfold wrapu. cbn [bits]. rewrite Z.mod_small; lia.
Qed.

Lemma float_keeps w' t z : w' = W32 \/ w' = W64 -> 1 <= z < 2 ^ bits w' -> z <= 2 ^ prec t ->
  keeps_level (convert (CInt false w')) (float_scalar t) z.
Proof.
  intros Hw' Hz Hp. destruct (float_holds t z) as [E1 E2]; [lia|]. split; [exact E2|].
  rewrite E1. f_equal. cbn [convert]. unfold wrapu. apply Z.mod_small. lia.
Qed.

Lemma fits_keeps w' lt z : w' = W32 \/ w' = W64 -> 1 <= z < 2 ^ bits w' -> level_fits lt z ->
  keeps_level (convert (CInt false w')) (scalar_of lt) z.
Proof. destruct lt; intros; [apply int_keeps|apply float_keeps]; auto. Qed.
Lemma one_of lt : holds_int (scalar_of lt) 1.
Proof. destruct lt; [apply one_holds|apply fone_holds]. Qed.

(** Well-formed rows, by computation. *)
Fixpoint rowb {T : Type} (lo hi : nat) (r : row T) : bool :=
  match r with
  | [] => true
  | (j, _) :: r' => ((lo <=? j) && (j <? hi))%nat && rowb (S j) hi r'
  end.
Lemma rowb_ok {T : Type} hi (r : row T) : forall lo, rowb lo hi r = true -> wfrow lo hi r.
Proof.
  induction r as [|[j x] r IH]; intros lo H; simpl in *; auto.
  apply andb_prop in H. destruct H as [H1 H2]. apply andb_prop in H1. destruct H1 as [H0 H1].
  apply Nat.leb_le in H0. apply Nat.ltb_lt in H1. auto.
Qed.
Lemma rowb_rows {T : Type} hi (l : list (row T)) : forallb (rowb 0 hi) l = true -> Forall (wfrow 0 hi) l.
Proof. intro H. apply Forall_forall. intros r Hr. apply rowb_ok. rewrite forallb_forall in H. auto. Qed.

(** Vectors without elements, with one element, and a matrix with one. *)
Lemma no_bits {A} (x : A) n v : vget (mkVec n 0 (repeat x n) (repeat false n)) v = None.
Proof.
  unfold vget. cbn [vbits vvals]. destruct (nth_error (repeat false n) v) as [b|] eqn:E; [|reflexivity].
  apply nth_error_In, repeat_spec in E. subst. reflexivity.
Qed.
Lemma first_bit {A} (x : A) n v y :
  vget (mkVec (S n) 1 (repeat x (S n)) (true :: repeat false n)) v = Some y <-> v = 0%nat /\ y = x.
Proof.
  destruct v as [|v]; unfold vget; cbn [vbits vvals nth_error repeat].
  - split; [intro H; injection H as <-; auto|intros [_ ->]; reflexivity].
  - split; [|intros [? _]; discriminate].
    destruct (nth_error (repeat false n) v) as [b|] eqn:E; [|discriminate].
    apply nth_error_In, repeat_spec in E. subst. discriminate.
Qed.
Lemma first_root {A} (x : A) n r v y :
  mget (mkLil 1 n 1 [[(0%nat, x)]]) r v = Some y <-> r = 0%nat /\ v = 0%nat /\ y = x.
Proof.
  unfold mget. cbn [data]. destruct r as [|[|r]]; cbn [nth_error rget].
  - destruct v as [|v]; simpl.
    + split; [intro H; injection H as <-; auto|intros (_ & _ & ->); reflexivity].
    + split; [discriminate|intros (_ & ? & _); discriminate].
  - split; [discriminate|intros (? & _); discriminate].
  - split; [discriminate|intros (? & _); discriminate].
Qed.
