(** Operators of machine integers beside those of the integers; containers of the two runs. *)
From Coq Require Import ZArith Lia.
From Verif Require Import Base ModelLil ModelVec ModelHelpers ModelAlgebra ModelOps ModelInts ModelCalls ModelMachine Spec SpecAlgebra SpecRel
  SpecInts SpecSim SpecSimInts ProofLaws ProofInts ProofSim.

Section Flags.
Context {A A' : Type} (R : A -> A' -> Prop).
Lemma num2_sim f f' : rel2 R R R f f' -> rel2 (flag_or R) (flag_or R) (flag_or R) (num2 f) (num2 f').
Proof. intros H [a|a] [a'|a'] [b|b] [b'|b']; simpl; try tauto; auto. Qed.
Lemma num1_sim f f' : rel1 R R f f' -> rel1 (flag_or R) (flag_or R) (num1 f) (num1 f').
Proof. intros H [a|a] [a'|a']; simpl; try tauto; auto. Qed.
Lemma flag_sim : rel1 (flag_or R) eq (@flag A) (@flag A').
Proof. intros [a|a] [a'|a']; simpl; tauto. Qed.
End Flags.

Local Open Scope Z_scope.
Lemma narrow_minus t a b : plus_wraps t -> inty t a -> inty t b -> exists r, arith (promote t) (a - b) = Ok r.
Proof.
  intros (s & w & -> & H) [A1 A2] [B1 B2]. unfold arith.
  destruct w, s; try (eexists; reflexivity); try (destruct (H eq_refl); discriminate).
  all: cbn [promote]; exists (a - b); replace (_ && _)%bool with true; auto; symmetry; apply andb_true_intro; split; apply Z.leb_le;
    unfold tmin, tmax in *; cbn in *; lia.
Qed.
Lemma Minus_eq t a b c : Minus t a b = Ok c -> c = convert t (a - b).
Proof. intros H. destruct (bind_ok_inv _ _ _ H) as (r & E & F). injection F as <-. apply arith_convert; auto. Qed.
Lemma conv_minus s w x y : convert (CInt s w) (convert (CInt s w) x - convert (CInt s w) y) = convert (CInt s w) (x - y).
Proof. apply convert_eq_iff. rewrite Zminus_mod, !convert_mod, <- Zminus_mod. reflexivity. Qed.
Lemma wrapped_minus t : plus_wraps t -> rel2 (wrapped t) (wrapped t) (wrapped t) Z.sub (op2 Minus t).
Proof.
  intros H a x b y -> ->. unfold wrapped, op2.
  destruct (narrow_minus t _ _ H (convert_inty t a) (convert_inty t b)) as (r & E).
  unfold Minus. rewrite E. cbn [bind]. f_equal. rewrite (arith_convert _ _ _ E).
  destruct H as (s & w & -> & _). apply conv_minus.
Qed.
Lemma wrapped_first t : rel2 (wrapped t) (wrapped t) (wrapped t) (fun a _ => a) (op2 First t).
Proof. intros a x b y -> ->. reflexivity. Qed.
Lemma wrapped_second t : rel2 (wrapped t) (wrapped t) (wrapped t) (fun _ b => b) (op2 Second t).
Proof. intros a x b y -> ->. reflexivity. Qed.
Lemma wrapped_opp t : plus_wraps t -> rel1 (wrapped t) (wrapped t) Z.opp (fun x => x <- x ;; AdditiveInverse t t x).
Proof.
  intros H a x ->. unfold wrapped, AdditiveInverse. cbn [bind].
  assert (I0 : inty t 0). { destruct H as (s & w & -> & _). destruct s, w; split; vm_compute; discriminate. }
  destruct (narrow_minus t 0 (convert t a) H I0 (convert_inty t a)) as (r & E).
  replace (0 - convert t a) with (- convert t a) in E by lia. rewrite E. cbn [bind]. f_equal. rewrite (arith_convert _ _ _ E).
  destruct H as (s & w & -> & _). replace (- convert (CInt s w) a) with (0 - convert (CInt s w) a) by lia.
  apply convert_eq_iff. rewrite Zminus_mod, convert_mod, <- Zminus_mod. f_equal; lia.
Qed.

Lemma eou_arith t z : overflow_undefined t -> exact_or_undefined t z (r <- arith (promote t) z ;; Ok (convert t r)).
Proof.
  intros H. assert (P : promote t = t) by (destruct H as [-> | ->]; auto). rewrite P.
  assert (E : arith t z = if (tmin t <=? z) && (z <=? tmax t) then Ok z else UB) by (destruct H as [-> | ->]; auto).
  rewrite E. destruct ((tmin t <=? z) && (z <=? tmax t))%bool eqn:B; [|left; auto]. right.
  apply andb_prop in B. destruct B as [B1 B2]. apply Z.leb_le in B1, B2.
  assert (I : inty t z) by (split; auto). split; auto. cbn [bind]. rewrite convert_id; auto.
Qed.
Ltac eou := intros a x b y [-> | [-> ?]] [-> | [-> ?]]; try (left; reflexivity).
Lemma eou_plus t : overflow_undefined t -> rel2 (exact_or_undefined t) (exact_or_undefined t) (exact_or_undefined t) Z.add (op2 Plus t).
Proof. intros H. eou. apply eou_arith; auto. Qed.
Lemma eou_minus t : overflow_undefined t -> rel2 (exact_or_undefined t) (exact_or_undefined t) (exact_or_undefined t) Z.sub (op2 Minus t).
Proof. intros H. eou. apply eou_arith; auto. Qed.
Lemma eou_times t : overflow_undefined t -> rel2 (exact_or_undefined t) (exact_or_undefined t) (exact_or_undefined t) Z.mul (op2 Times t).
Proof. intros H. eou. apply eou_arith; auto. Qed.
Lemma eou_opp t : overflow_undefined t ->
  rel1 (exact_or_undefined t) (exact_or_undefined t) Z.opp (fun x => x <- x ;; AdditiveInverse t t x).
Proof. intros H a x [-> | [-> ?]]; [left; reflexivity|]. apply eou_arith; auto. Qed.
Lemma eou_abs t : overflow_undefined t ->
  rel1 (exact_or_undefined t) (exact_or_undefined t) Z.abs (fun x => x <- x ;; Abs t t x).
Proof.
  intros H a x [-> | [-> ?]]; [left; reflexivity|]. cbn [bind]. unfold Abs.
  replace (my_abs t a) with (arith (promote t) (Z.abs a)) by (destruct H as [-> | ->]; auto). apply eou_arith; auto.
Qed.
Lemma eou_min t : rel2 (exact_or_undefined t) (exact_or_undefined t) (exact_or_undefined t) Z.min (op2 Min t).
Proof.
  eou. right. unfold op2, Min. destruct (Z.ltb_spec a b); [rewrite Z.min_l by lia|rewrite Z.min_r by lia]; auto.
Qed.
Lemma eou_max t : rel2 (exact_or_undefined t) (exact_or_undefined t) (exact_or_undefined t) Z.max (op2 Max t).
Proof.
  eou. right. unfold op2, Max. destruct (Z.ltb_spec a b); [rewrite Z.max_r by lia|rewrite Z.max_l by lia]; auto.
Qed.
Lemma eou_first t : rel2 (exact_or_undefined t) (exact_or_undefined t) (exact_or_undefined t) (fun a _ => a) (op2 First t).
Proof. eou. right. auto. Qed.
Lemma eou_second t : rel2 (exact_or_undefined t) (exact_or_undefined t) (exact_or_undefined t) (fun _ b => b) (op2 Second t).
Proof. eou. right. auto. Qed.

(** ** Reading the containers of two related stores *)
Local Close Scope Z_scope.
Section Read.
Context {T T' : Type} (R : T -> T' -> Prop).
Lemma rget_sim r r' j : same_row R r r' -> orel R (rget r j) (rget r' j).
Proof.
  induction 1 as [|[k v] [k0 v'] r r' [E V] F IH]; [exact I|]. cbn [fst snd] in E, V; subst k0. simpl.
  destruct (k =? j); auto.
Qed.
Lemma mget_sim M M' i j : same_lil R M M' -> orel R (mget M i j) (mget M' i j).
Proof.
  intros (_ & _ & _ & F). unfold mget. apply rget_sim.
  clear - F. revert i. induction F; intros [|i]; simpl; auto; constructor.
Qed.
Lemma vget_sim u u' i : same_vec R u u' -> orel R (vget u i) (vget u' i).
Proof.
  intros (_ & _ & F & E). unfold vget. rewrite E. destruct (nth_error (vbits u') i) as [[|]|]; try exact I.
  pose proof (F2_nth R _ _ i F) as H. destruct (nth_error (vvals u) i), (nth_error (vvals u') i); auto.
Qed.
Lemma store_mats st st' k M : same_store R st st' -> nth_error (mats st) k = Some M ->
  exists M', nth_error (mats st') k = Some M' /\ same_lil R M M'.
Proof.
  intros [F _] E. pose proof (F2_nth _ _ _ k F) as H. rewrite E in H. destruct (nth_error (mats st') k); [|contradiction]. eauto.
Qed.
Lemma store_vecs st st' k u : same_store R st st' -> nth_error (vecs st) k = Some u ->
  exists u', nth_error (vecs st') k = Some u' /\ same_vec R u u'.
Proof.
  intros [_ F] E. pose proof (F2_nth _ _ _ k F) as H. rewrite E in H. destruct (nth_error (vecs st') k); [|contradiction]. eauto.
Qed.
End Read.

Lemma settled_shows t st st' : same_store (flag_or (exact_or_undefined t)) st st' -> settled_store st' -> store_shows st st'.
Proof.
  intros S [SM SV]. pose proof S as [FM FV]. split; [apply (F2_length _ _ _ FM)|]. split; [apply (F2_length _ _ _ FV)|].
  assert (G : forall x x', flag_or (exact_or_undefined t) x x' -> settled x' -> shows x x').
  { intros [a|a] [a'|a']; simpl; try tauto. intros [-> | [-> _]]; auto. intros H. exfalso. apply H. auto. }
  split.
  - intros k M M' E E'. destruct (store_mats _ _ _ _ _ S E) as (N & E2 & L). rewrite E' in E2. injection E2 as <-.
    pose proof L as (L1 & L2 & L3 & _). repeat (split; auto). intros i j. pose proof (mget_sim _ _ _ i j L) as H.
    destruct (mget M i j), (mget M' i j) eqn:X; auto. apply G; auto. eapply SM; eauto.
  - intros k u u' E E'. destruct (store_vecs _ _ _ _ _ S E) as (v & E2 & L). rewrite E' in E2. injection E2 as <-.
    pose proof L as (L1 & L2 & _). repeat (split; auto). intros i. pose proof (vget_sim _ _ _ i L) as H.
    destruct (vget u i), (vget u' i) eqn:X; auto. apply G; auto. eapply SV; eauto.
Qed.
