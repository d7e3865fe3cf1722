(** Property theorems: programs over float and double are exact on small integers (C154). *)
From Coq Require Import ZArith QArith Lia Lqa Bool Floats.SpecFloat.
From Verif Require Import Base ModelLil ModelVec ModelHelpers ModelViews ModelAlgebra ModelFloat ModelCalls ModelMachine Spec
  SpecFloats SpecConv SpecRel SpecSim SpecSimInts SpecSimFloat ProofFloat ProofConv ProofSim ProofSimProg ProofSimInts ProofSimFloat PropSim.
Local Open Scope Z_scope.

(** Each operator either gives the integer result or the result is beyond 2^24 (2^53). *)
Theorem C154_operators : forall t : ftype, let K := 2 ^ prec t in let I := is_integer t in
  rel2 I I I (small2 K Z.add) (FPlus t) /\ rel2 I I I (small2 K Z.sub) (FMinus t) /\ rel2 I I I (small2 K Z.mul) (FTimes t) /\
  rel2 I I I (small2 K Z.min) (FMin t) /\ rel2 I I I (small2 K Z.max) (FMax t) /\
  rel2 I I I (fun a _ => a) (FFirst t) /\ rel2 I I I (fun _ b => b) (FSecond t) /\
  rel1 I I (small1 K Z.opp) (FAdditiveInverse t) /\
  forall z, Z.abs z <= K -> I (Some z) (of_int t z).
Proof.
  intros t K I. split; [apply plus_small|]. split; [apply minus_small|]. split; [apply times_small|].
  split; [apply min_small|]. split; [apply max_small|]. split; [intros a x b y A B; exact A|]. split; [intros a x b y A B; exact B|].
  split; [apply opp_small|]. intros z H. split; [exact H|]. apply int_exact; auto.
Qed.
Print Assumptions C154_operators.

Theorem C154_programs :
  forall (t : ftype) (eqb : bool + option Z -> bool + option Z -> bool) (eqb' : bool + fval -> bool + fval -> bool)
         (cs : list (call (bool + option Z))) (cs' : list (call (bool + fval))),
    Forall2 (same_call (flag_or (is_integer t)) eqb eqb') cs cs' ->
    let run := exec (inr (Some 0)) eqb (mkStore [] []) cs in
    let run' := exec (inr f0) eqb' (mkStore [] []) cs' in
    Forall2 (same_res (same_answer (flag_or (is_integer t)))) (snd run) (snd run') /\
    same_store (flag_or (is_integer t)) (fst run) (fst run') /\
    (kept_store (fst run) -> store_shows_float (fst run) (fst run')).
Proof.
  intros t eqb eqb' cs cs' F run run'.
  assert (D : flag_or (is_integer t) (inr (Some 0)) (inr f0)).
  { split; [apply Z.pow_nonneg; lia|]. split; [destruct t; reflexivity|]. split; [exact I|reflexivity]. }
  destruct (exec_sim _ _ _ D eqb eqb' cs cs' F (mkStore [] []) (mkStore [] [])) as [S A]; [split; constructor|].
  split; [exact A|]. split; [exact S|]. intros [SM SV].
  destruct (C150_observed _ _ _ _ _ S) as (L1 & L2 & HM & HV).
  assert (G : forall x x', flag_or (is_integer t) x x' -> kept x -> shows_float x x').
  { intros [a|[a|]] [a'|a']; simpl; try tauto. intros _ H. exfalso. apply H. auto. }
  split; [exact L1|]. split; [exact L2|]. split.
  - intros k M M' E E'. destruct (HM k M E) as (N & E2 & B1 & B2 & B3 & O). fold run' in E2. rewrite E' in E2. injection E2 as <-.
    repeat (split; auto). intros i j. specialize (O i j). destruct (mget M i j) eqn:X, (mget M' i j); auto. apply G; auto. eapply SM; eauto.
  - intros k u u' E E'. destruct (HV k u E) as (v & E2 & B1 & B2 & O). fold run' in E2. rewrite E' in E2. injection E2 as <-.
    repeat (split; auto). intros i. specialize (O i). destruct (vget u i) eqn:X, (vget u' i); auto. apply G; auto. eapply SV; eauto.
Qed.
Print Assumptions C154_programs.

(** The program of [PropSim] over float: 80001 and 9 are exact.  Squaring 10001 loses the last digit. *)
Example C154_example :
  let p := e_prog (fun z => inr (small (2 ^ 24) z)) inl flag (num2 (small2 (2 ^ 24) Z.add)) (num2 (small2 (2 ^ 24) Z.mul)) (fun x => x) in
  let p' := e_prog (fun z => inr (of_int CFloat z)) inl flag (num2 (FPlus CFloat)) (num2 (FTimes CFloat)) (fun x => x) in
  Forall2 (same_call (flag_or (is_integer CFloat)) (fun _ _ => true) (fun _ _ => true)) p p' /\
  skipn 9 (snd (exec (inr (Some 0)) (fun _ _ => true) (mkStore [] []) p)) =
    [Ok (ATuples [((0, 0)%nat, inr (Some 80001)); ((1, 1)%nat, inr (Some 9))]); Ok (AVal (inr (Some 80010))); Throw DimensionException] /\
  skipn 9 (snd (exec (inr f0) (fun _ _ => true) (mkStore [] []) p')) =
    [Ok (ATuples [((0, 0)%nat, inr (of_int CFloat 80001)); ((1, 1)%nat, inr (of_int CFloat 9))]); Ok (AVal (inr (of_int CFloat 80010)));
     Throw DimensionException] /\
  small2 (2 ^ 24) Z.mul (Some 10001) (Some 10001) = None /\
  FTimes CFloat (of_int CFloat 10001) (of_int CFloat 10001) = of_int CFloat 100020000.
Proof.
  split; [|split; [vm_compute; reflexivity|split; [vm_compute; reflexivity|split; vm_compute; reflexivity]]].
  apply e_prog_same; simpl; auto.
  - intros z. change (is_integer CFloat (small (2 ^ 24) z) (of_int CFloat z)). unfold small. destruct (Z.leb_spec (Z.abs z) (2 ^ 24)) as [L|]; [|exact I]. split; [exact L|]. apply (int_exact CFloat); auto.
  - apply flag_sim.
  - apply num2_sim, (plus_small CFloat).
  - apply num2_sim, (times_small CFloat).
  - intros x x' E; exact E.
Qed.
