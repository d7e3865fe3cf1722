(** Property theorems: the same program over two scalar types (C150), over the integers and a wrap-around type (C151), over
    the integers and a type whose overflow is undefined (C152). *)
From Coq Require Import ZArith Lia.
From Verif Require Import Base ModelLil ModelVec ModelHelpers ModelViews ModelAlgebra ModelOps ModelInts ModelCalls ModelMachine Spec SpecAlgebra
  SpecRel SpecInts SpecSim SpecSimInts ProofLaws ProofInts ProofSim ProofSimOps ProofSimProg ProofSimInts.

(** ** C150: a program takes the same course over related scalar types *)
Theorem C150_programs :
  forall (T T' : Type) (R : T -> T' -> Prop) (dflt : T) (dflt' : T') (eqb : T -> T -> bool) (eqb' : T' -> T' -> bool)
         (cs : list (call T)) (cs' : list (call T')) (st : store T) (st' : store T'),
    R dflt dflt' ->
    Forall2 (same_call R eqb eqb') cs cs' ->
    same_store R st st' ->
    same_store R (fst (exec dflt eqb st cs)) (fst (exec dflt' eqb' st' cs')) /\
    Forall2 (same_res (same_answer R)) (snd (exec dflt eqb st cs)) (snd (exec dflt' eqb' st' cs')).
Proof. intros. eapply exec_sim; eauto. Qed.
Print Assumptions C150_programs.

Theorem C150_single_call :
  forall (T T' : Type) (R : T -> T' -> Prop) (dflt : T) (dflt' : T') (eqb : T -> T -> bool) (eqb' : T' -> T' -> bool)
         (c : call T) (c' : call T') (st : store T) (st' : store T'),
    R dflt dflt' -> same_call R eqb eqb' c c' -> same_store R st st' ->
    same_store R (fst (step dflt eqb st c)) (fst (step dflt' eqb' st' c')) /\
    same_res (same_answer R) (snd (step dflt eqb st c)) (snd (step dflt' eqb' st' c')).
Proof. intros. eapply step_sim; eauto. Qed.
Print Assumptions C150_single_call.

(** What [same_store] says through the API: the same shapes and counts, the same positions stored, related elements. *)
Theorem C150_observed :
  forall (T T' : Type) (R : T -> T' -> Prop) (st : store T) (st' : store T'), same_store R st st' ->
    length (mats st) = length (mats st') /\ length (vecs st) = length (vecs st') /\
    (forall k M, nth_error (mats st) k = Some M -> exists M', nth_error (mats st') k = Some M' /\
       nrows M = nrows M' /\ ncols M = ncols M' /\ nvals M = nvals M' /\ forall i j, orel R (mget M i j) (mget M' i j)) /\
    (forall k u, nth_error (vecs st) k = Some u -> exists u', nth_error (vecs st') k = Some u' /\
       vsize u = vsize u' /\ vnvals u = vnvals u' /\ forall i, orel R (vget u i) (vget u' i)).
Proof.
  intros T T' R st st' S. pose proof S as [FM FV]. split; [apply (F2_length _ _ _ FM)|]. split; [apply (F2_length _ _ _ FV)|]. split.
  - intros k M E. destruct (store_mats _ _ _ _ _ S E) as (M' & E' & L). exists M'. split; auto.
    pose proof L as (L1 & L2 & L3 & _). repeat (split; auto). intros i j. apply mget_sim; auto.
  - intros k u E. destruct (store_vecs _ _ _ _ _ S E) as (u' & E' & L). exists u'. split; auto.
    pose proof L as (L1 & L2 & _). repeat (split; auto). intros i. apply vget_sim; auto.
Qed.
Print Assumptions C150_observed.

(** ** A program written once for any scalar type: build, a boolean mask, a masked product that accumulates, tuples, a
    reduction, and a call that throws. *)
Definition e_prog {S : Type} (num : Z -> S) (flg : bool -> S) (truth : S -> bool) (add mult : S -> S -> S) (id : S -> S)
  : list (call S) :=
  let w acc := mkW truth id id acc MERGE in
  [ CMat (MNew 2 2);
    CMat (MBuild 0 add [0; 0; 1; 0] [0; 1; 1; 0] [num 100; num 200; num 3; num 100]%Z);
    CMat (MNew 2 2);
    CMat (MSet 1 0 0 (flg true)); CMat (MSet 1 0 1 (flg false)); CMat (MSet 1 1 1 (flg true));
    CMat (MNew 2 2);
    CMat (MSet 2 0 0 (num 1%Z));
    CMop 2 (MVal 1) (w (Acc add id id)) (OMxm add mult mult id id (RMat 0) (RTrn 0));
    CMat (MTuples 2);
    CSop (w (NoAcc id)) (OReduceMS (num 0%Z) id add add add (num 7%Z) 2);
    CMop 2 (MVal 1) (w (NoAcc id)) (OKron mult (RMat 0) (RMat 0)) ].

Lemma e_prog_same {T T'} (R : T -> T' -> Prop) eqb eqb' num num' flg flg' truth truth' add add' mult mult' id id' :
  (forall z, R (num z) (num' z)) -> (forall b, R (flg b) (flg' b)) -> rel1 R eq truth truth' ->
  rel2 R R R add add' -> rel2 R R R mult mult' -> rel1 R R id id' ->
  Forall2 (same_call R eqb eqb') (e_prog num flg truth add mult id) (e_prog num' flg' truth' add' mult' id').
Proof. intros. unfold e_prog. repeat (constructor; auto); simpl; repeat (split; auto). Qed.

(** Over [Z] and over pairs of a [Z] and anything: the second run computes the same first components. *)
Example C150_example :
  let p := e_prog (fun z => z) Z.b2z (fun z => negb (z =? 0)%Z) Z.add Z.mul (fun z => z) in
  let p' := e_prog (fun z => (z, tt)) (fun b => (Z.b2z b, tt)) (fun x => negb (fst x =? 0)%Z)
              (fun x y => (fst x + fst y, tt)%Z) (fun x y => (fst x * fst y, tt)%Z) (fun x => x) in
  let R (z : Z) (x : Z * unit) := fst x = z in
  Forall2 (same_call R Z.eqb (fun x y => fst x =? fst y)%Z) p p' /\
  snd (exec 0%Z Z.eqb (mkStore [] []) p) =
    [Ok ADone; Ok ADone; Ok ADone; Ok ADone; Ok ADone; Ok ADone; Ok ADone; Ok ADone; Ok ADone;
     Ok (ATuples [((0, 0), 80001%Z); ((1, 1), 9%Z)]); Ok (AVal 80010%Z); Throw DimensionException].
Proof.
  split; [|vm_compute; reflexivity].
  apply e_prog_same; simpl; auto.
  - intros z x <-. auto.
  - intros a x b y <- <-. auto.
  - intros a x b y <- <-. auto.
  - intros z x <-. auto.
Qed.

(** ** C151: programs over a type that wraps around compute modulo 2^bits *)
Theorem C151_operators :
  forall t, plus_wraps t ->
    rel2 (wrapped t) (wrapped t) (wrapped t) Z.add (op2 Plus t) /\
    rel2 (wrapped t) (wrapped t) (wrapped t) Z.sub (op2 Minus t) /\
    (times_wraps t -> rel2 (wrapped t) (wrapped t) (wrapped t) Z.mul (op2 Times t)) /\
    rel2 (wrapped t) (wrapped t) (wrapped t) (fun a _ => a) (op2 First t) /\
    rel2 (wrapped t) (wrapped t) (wrapped t) (fun _ b => b) (op2 Second t) /\
    rel1 (wrapped t) (wrapped t) Z.opp (fun x => x <- x ;; AdditiveInverse t t x) /\
    forall z, wrapped t z (Ok (convert t z)).
Proof.
  intros t H. split; [apply wrapped_plus; auto|]. split; [apply wrapped_minus; auto|]. split; [apply wrapped_times|].
  split; [apply wrapped_first|]. split; [apply wrapped_second|]. split; [apply wrapped_opp; auto|]. reflexivity.
Qed.
Print Assumptions C151_operators.

(** Operators on numbers leave the flags alone and agree on them. *)
Theorem C151_flags :
  forall (A A' : Type) (R : A -> A' -> Prop),
    (forall f f', rel2 R R R f f' -> rel2 (flag_or R) (flag_or R) (flag_or R) (num2 f) (num2 f')) /\
    (forall f f', rel1 R R f f' -> rel1 (flag_or R) (flag_or R) (num1 f) (num1 f')) /\
    rel1 (flag_or R) eq (@flag A) (@flag A').
Proof. intros A A' R. split; [apply num2_sim|]. split; [apply num1_sim|apply flag_sim]. Qed.
Print Assumptions C151_flags.

Theorem C151_programs :
  forall (t : ctype) (eqb : bool + Z -> bool + Z -> bool) (eqb' : bool + ival -> bool + ival -> bool)
         (cs : list (call (bool + Z))) (cs' : list (call (bool + ival))),
    Forall2 (same_call (flag_or (wrapped t)) eqb eqb') cs cs' ->
    let run := exec (inr 0%Z) eqb (mkStore [] []) cs in
    let run' := exec (inr (Ok (convert t 0))) eqb' (mkStore [] []) cs' in
    Forall2 (same_res (same_answer (flag_or (wrapped t)))) (snd run) (snd run') /\
    (forall k M, nth_error (mats (fst run)) k = Some M -> exists M', nth_error (mats (fst run')) k = Some M' /\
       nrows M' = nrows M /\ ncols M' = ncols M /\ nvals M' = nvals M /\
       forall i j, mget M' i j = match mget M i j with
                                 | Some (inl b) => Some (inl b)
                                 | Some (inr z) => Some (inr (Ok (convert t z)))
                                 | None => None
                                 end) /\
    (forall k u, nth_error (vecs (fst run)) k = Some u -> exists u', nth_error (vecs (fst run')) k = Some u' /\
       vsize u' = vsize u /\ vnvals u' = vnvals u /\
       forall i, vget u' i = match vget u i with
                             | Some (inl b) => Some (inl b)
                             | Some (inr z) => Some (inr (Ok (convert t z)))
                             | None => None
                             end).
Proof.
  intros t eqb eqb' cs cs' F run run'.
  destruct (exec_sim (flag_or (wrapped t)) (inr 0%Z) (inr (Ok (convert t 0))) eq_refl eqb eqb' cs cs' F (mkStore [] []) (mkStore [] []))
    as [S A]; [split; constructor|].
  split; [exact A|]. destruct (C150_observed _ _ _ _ _ S) as (_ & _ & HM & HV).
  assert (G : forall (x : option (bool + Z)) x', orel (flag_or (wrapped t)) x x' ->
    x' = match x with Some (inl b) => Some (inl b) | Some (inr z) => Some (inr (Ok (convert t z))) | None => None end).
  { intros [[b|z]|] [[b'|z']|]; simpl; try tauto; intros E; rewrite E; auto. }
  split.
  - intros k M E. destruct (HM k M E) as (M' & E' & L1 & L2 & L3 & O). exists M'. repeat (split; auto).
  - intros k u E. destruct (HV k u E) as (u' & E' & L1 & L2 & O). exists u'. repeat (split; auto).
Qed.
Print Assumptions C151_programs.

(** [uint8_t]: the run over the integers ends with 80001 and 9; over [uint8_t] with 129 = 80001 mod 256 and 9. *)
Definition e_nums : list (call (bool + Z)) := e_prog inr inl flag (num2 Z.add) (num2 Z.mul) (fun x => x).
Definition e_ints (t : ctype) : list (call (bool + ival)) :=
  e_prog (fun z => inr (Ok (convert t z))) inl flag (num2 (op2 Plus t)) (num2 (op2 Times t)) (fun x => x).
Example C151_example :
  let u8 := CInt false W8 in
  times_wraps u8 /\ Forall2 (same_call (flag_or (wrapped u8)) (fun _ _ => true) (fun _ _ => true)) e_nums (e_ints u8) /\
  skipn 9 (snd (exec (inr 0%Z) (fun _ _ => true) (mkStore [] []) e_nums)) =
    [Ok (ATuples [((0, 0), inr 80001%Z); ((1, 1), inr 9%Z)]); Ok (AVal (inr 80010%Z)); Throw DimensionException] /\
  skipn 9 (snd (exec (inr (Ok 0%Z)) (fun _ _ => true) (mkStore [] []) (e_ints u8))) =
    [Ok (ATuples [((0, 0), inr (Ok 129%Z)); ((1, 1), inr (Ok 9%Z))]); Ok (AVal (inr (Ok 138%Z))); Throw DimensionException].
Proof.
  assert (W : times_wraps (CInt false W8)).
  { split; [exists false, W8; split; auto; discriminate|discriminate]. }
  intros u8. split; [exact W|]. split; [|split; vm_compute; reflexivity].
  apply e_prog_same; simpl; auto.
  - reflexivity.
  - apply flag_sim.
  - apply num2_sim, wrapped_plus. apply W.
  - apply num2_sim, wrapped_times. apply W.
  - intros x x' H; exact H.
Qed.

(** ** C152: over [int32_t] and [int64_t] every element is exact or undefined *)
Theorem C152_operators :
  forall t, overflow_undefined t ->
    let E := exact_or_undefined t in
    rel2 E E E Z.add (op2 Plus t) /\ rel2 E E E Z.sub (op2 Minus t) /\ rel2 E E E Z.mul (op2 Times t) /\
    rel2 E E E Z.min (op2 Min t) /\ rel2 E E E Z.max (op2 Max t) /\
    rel2 E E E (fun a _ => a) (op2 First t) /\ rel2 E E E (fun _ b => b) (op2 Second t) /\
    rel1 E E Z.opp (fun x => x <- x ;; AdditiveInverse t t x) /\ rel1 E E Z.abs (fun x => x <- x ;; Abs t t x) /\
    forall z, inty t z -> E z (Ok z).
Proof.
  intros t H E. unfold E. split; [apply eou_plus; auto|]. split; [apply eou_minus; auto|]. split; [apply eou_times; auto|].
  split; [apply eou_min|]. split; [apply eou_max|]. split; [apply eou_first|]. split; [apply eou_second|].
  split; [apply eou_opp; auto|]. split; [apply eou_abs; auto|]. right. auto.
Qed.
Print Assumptions C152_operators.

Theorem C152_programs :
  forall (t : ctype) (eqb : bool + Z -> bool + Z -> bool) (eqb' : bool + ival -> bool + ival -> bool)
         (cs : list (call (bool + Z))) (cs' : list (call (bool + ival))),
    overflow_undefined t ->
    Forall2 (same_call (flag_or (exact_or_undefined t)) eqb eqb') cs cs' ->
    let run := exec (inr 0%Z) eqb (mkStore [] []) cs in
    let run' := exec (inr (Ok 0%Z)) eqb' (mkStore [] []) cs' in
    Forall2 (same_res (same_answer (flag_or (exact_or_undefined t)))) (snd run) (snd run') /\
    same_store (flag_or (exact_or_undefined t)) (fst run) (fst run') /\
    (settled_store (fst run') -> store_shows (fst run) (fst run')).
Proof.
  intros t eqb eqb' cs cs' HT F run run'.
  assert (D : flag_or (exact_or_undefined t) (inr 0%Z) (inr (Ok 0%Z))).
  { right. split; auto. destruct HT as [-> | ->]; split; vm_compute; discriminate. }
  destruct (exec_sim _ _ _ D eqb eqb' cs cs' F (mkStore [] []) (mkStore [] [])) as [S A]; [split; constructor|].
  split; [exact A|]. split; [exact S|]. apply (settled_shows t). exact S.
Qed.
Print Assumptions C152_programs.

Example C152_example :
  let i32 := CInt true W32 in
  overflow_undefined i32 /\
  Forall2 (same_call (flag_or (exact_or_undefined i32)) (fun _ _ => true) (fun _ _ => true))
    (e_prog (fun z => inr (Z.min z 1000)) inl flag (num2 Z.add) (num2 Z.mul) (fun x => x))
    (e_prog (fun z => inr (if (Z.abs z <=? 1000)%Z then Ok z else UB)) inl flag (num2 (op2 Plus i32)) (num2 (op2 Times i32)) (fun x => x)) /\
  skipn 9 (snd (exec (inr (Ok 0%Z)) (fun _ _ => true) (mkStore [] []) (e_ints i32))) =
    [Ok (ATuples [((0, 0), inr (Ok 80001%Z)); ((1, 1), inr (Ok 9%Z))]); Ok (AVal (inr (Ok 80010%Z))); Throw DimensionException].
Proof.
  intros i32. assert (H : overflow_undefined i32) by (left; auto). split; [exact H|]. split; [|vm_compute; reflexivity].
  apply e_prog_same; simpl; auto.
  - intros z. destruct (Z.leb_spec (Z.abs z) 1000); [right|left; auto]. rewrite Z.min_l by lia. split; auto.
    split; cbn; lia.
  - apply flag_sim.
  - apply num2_sim, eou_plus; auto.
  - apply num2_sim, eou_times; auto.
  - intros x x' E; exact E.
Qed.
(** An overflow: 2147483647 + 1 in [build] leaves an undefined element. *)
Example C152_overflow_example :
  let i32 := CInt true W32 in
  snd (exec (inr (Ok 0%Z)) (fun _ _ => true) (mkStore [] [])
    [CMat (MNew 1 1); CMat (MBuild 0 (num2 (op2 Plus i32)) [0; 0] [0; 0] [inr (Ok 2147483647%Z); inr (Ok 1%Z)]); CMat (MTuples 0)]) =
  [Ok ADone; Ok ADone; Ok (ATuples [((0, 0), inr UB)])].
Proof. reflexivity. Qed.
