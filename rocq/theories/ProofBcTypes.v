(** The batch betweenness centrality over any type of real numbers: what the back propagation computes. *)
From Coq Require Import Lia ZArith QArith Qcanon.
From Verif Require Import Base ModelLil ModelVec ModelHelpers ModelViews ModelMul ModelElem ModelIndex ModelUtils
  ModelAlgoBase ModelRank ModelInts ModelBc ModelBc32 ModelBcTypes Spec SpecOps SpecRank SpecBc ProofBase ProofElem ProofReduce
  ProofGraph ProofRank ProofVis ProofRc ProofBcPaths ProofBcRow ProofBc ProofBc32.
Local Open Scope nat_scope.

Section Batch.
Context {R : Type} (zero one : R) (plus minus times div : R -> R -> R) (inv : R -> R) (ofz : Z -> R) (neg_count count : nat -> R).
Context {T : Type} (ti : T -> Z) (ta : T -> R) (A : lil T) (src : list nat) (N : nat).
Local Notation p := (length src).
Hypothesis WA : wfm A.
Hypothesis RA : nrows A = N.
Hypothesis CA : ncols A = N.
Hypothesis Hp : src <> [].
Hypothesis Hsrc : Forall (fun s => s < N) src.
Hypothesis Hone : forall u v x, mget A u v = Some x -> ti x = 1%Z.
Local Notation edge := (ProofBc.edge A).
Local Notation sr i := (nth i src 0).
Local Notation paths s v := (length (shortest_paths N edge s v)).
Hypothesis Hfits : Forall (fun s => (Z.of_nat (list_sum (map (fun v => paths s v) (seq 0 N))) <= 2147483647)%Z) src.
Local Notation bv := (bv src N).
Local Notation wbv := (wbv src N).
Local Notation masks := (masks A src N).
Local Notation within := (within A src N).
Local Notation isPi i := (isP N edge (sr i) Z.of_nat).

Let tq (_ : T) : Qc := 1%Qc.
Lemma Hone' u v x : mget A u v = Some x -> ti x = 1%Z /\ tq x = 1%Qc.
Proof. intro E. split; [eauto|reflexivity]. Qed.

Definition W1x (dv : R -> Z -> R) (b : nat -> nat -> option R) (g : nat -> nat -> option Z) (S1 : nat -> nat -> bool) (i w : nat) : option R :=
  if S1 i w then omap2 dv (b i w) (g i w) else None.
Definition Bx (ml : R -> T -> R) (b W1 : nat -> nat -> option R) (g : nat -> nat -> option Z) (S0 : nat -> nat -> bool) (i v : nat) : option R :=
  ounion plus idc idc (b i v)
    (if S0 i v then omap2 (fun x y => times x (ofz y))
       (osum plus (map (fun w => omap2 ml (W1 i w) (mget A v w)) (seq 0 N))) (g i v) else None).

Definition dv_inv (x : R) (z : Z) : R := times (inv (ofz z)) x.
Definition dv_div (x : R) (z : Z) : R := div x (ofz z).
Definition oml (o : bool) (x : R) (a : T) : R := if o then times x (ta a) else times (ta a) x.
Definition xb_back (o : bool) := if o then xb_back_r plus times ofz ta A else xb_back_c plus times ofz ta A.
Local Notation rcA := (rcA A N WA RA CA).

(** What one step of the back propagation does. *)
Definition step_ok {X} (tr : X -> bool) (o : bool) (dv : R -> Z -> R) (ml : R -> T -> R) (g : nat -> nat -> option Z) (Ss : list (lil X))
  (body : nat -> lil R * lil R -> res (lil R * lil R)) : Prop :=
  forall j W B b w Si Sp si sp, nth_error Ss j = Some Si -> nth_error Ss (j - 1) = Some Sp ->
    bv o Si si -> bv o Sp sp -> bv o W w -> bv o B b ->
    exists W' B', body j (W, B) = Ok (W', B') /\ wbv o W' /\
      bv o B' (Bx ml b (W1x dv b g (fun i v => otrue tr (si i v))) g (fun i v => otrue tr (sp i v))).

Lemma xback_step (o : bool) (P : lil Z) I g Ss :
  bv o P g -> bv o I (fun i v => option_map (fun x => inv (ofz x)) (g i v)) ->
  step_ok btrue o dv_inv (oml o) g Ss (xb_back o P I Ss).
Proof.
  intros HP HI j W B b w Si Sp si sp Ei Ep Hi Hp' HW HB. destruct o; cbn [xb_back oml]; simpl in HP, HI, Hi, Hp', HW, HB.
  - unfold xb_back_r. rewrite (sigma_at_ok _ _ _ Ei). cbn [bind].
    destruct (rc_mult p N times times idc btrue (MVal Si) _ REPLACE W I B _ _ _ HW HI HB (mrc_val _ _ btrue Si si Hi))
      as (W1 & -> & V1). cbn [bind]. rewrite (sigma_at_ok _ _ _ Ep). cbn [bind].
    destruct (rc_mxm_rt p N N plus (xmul_ra times ta) (xmul_ar times ta) idc idc btrue (MVal Sp) _ REPLACE W1 W1 A _ _ _ V1 V1 rcA
      (mrc_val _ _ btrue Sp sp Hp')) as (W2 & -> & V2). cbn [bind].
    destruct (rc_mult_acc p N (fun x y => times x (ofz y)) times ofz plus idc btrue mnomask _ MERGE B W2 P _ _ _ HB V2 HP
      (mrc_none _ _ _)) as (B' & -> & VB). cbn [bind]. exists W2, B'. split; [auto|]. split; [eexists; exact V2|].
    eapply rc_ext; [exact VB|]. intros i v _ _. unfold Bx, W1x, wr, xmul_ra, dv_inv, oml. f_equal.
    destruct (otrue btrue (sp i v)); [|auto]. f_equal. f_equal. apply map_ext. intro u. f_equal.
    destruct (otrue btrue (si i u)); [|auto]. destruct (g i u), (b i u); simpl; auto.
  - unfold xb_back_c. rewrite (sigma_at_ok _ _ _ Ei). cbn [bind].
    destruct (rc_mult N p times times idc btrue (MVal Si) _ REPLACE W I B _ _ _ HW HI HB (mrc_val _ _ btrue Si _ Hi))
      as (W1 & -> & V1). cbn [bind]. rewrite (sigma_at_ok _ _ _ Ep). cbn [bind].
    destruct (rc_mxm N N p plus (xmul_ar times ta) (xmul_ra times ta) idc idc btrue (MVal Sp) _ REPLACE W1 A W1 _ _ _ V1 rcA V1
      (mrc_val _ _ btrue Sp _ Hp')) as (W2 & -> & V2). cbn [bind].
    destruct (rc_mult_acc N p (fun x y => times x (ofz y)) times ofz plus idc btrue mnomask _ MERGE B W2 P _ _ _ HB V2 HP
      (mrc_none _ _ _)) as (B' & -> & VB). cbn [bind]. exists W2, B'. split; [auto|].
    split; [exists (fun i v => wr (otrue btrue (sp i v)) REPLACE (wr (otrue btrue (si i v)) REPLACE (w i v)
      (omap2 times (option_map (fun x : Z => inv (ofz x)) (g i v)) (b i v)))
      (osum plus (map (fun k => omap2 (xmul_ar times ta) (mget A v k) (wr (otrue btrue (si i k)) REPLACE (w i k)
        (omap2 times (option_map (fun x : Z => inv (ofz x)) (g i k)) (b i k)))) (seq 0 N)))); exact V2|].
    eapply rc_ext; [exact VB|]. intros v i _ _. unfold Bx, W1x, wr, dv_inv. f_equal.
    destruct (otrue btrue (sp i v)); [|auto]. f_equal. f_equal. apply map_ext. intro u.
    rewrite (omap2_flip (xmul_ar times ta) (fun x a => times (ta a) x)) by (intros; reflexivity). f_equal.
    destruct (otrue btrue (si i u)); [|auto]. destruct (g i u), (b i u); simpl; auto.
Qed.
Lemma xback_step_old P g Ss : bv true P g -> step_ok ztrue true dv_div (oml true) g Ss (xb_back_old plus times div ofz ta A P Ss).
Proof.
  intros HP j W U b w Si Sp si sp Ei Ep Hi Hp' HW HB. simpl in HP, Hi, Hp', HW, HB. unfold xb_back_old. rewrite (sigma_at_ok _ _ _ Ei). cbn [bind].
  destruct (rc_mult p N (fun x y => div x (ofz y)) div ofz ztrue (MVal Si) _ REPLACE W U P _ _ _ HW HB HP (mrc_val _ _ ztrue Si si Hi))
    as (W1 & -> & V1). cbn [bind].
  destruct (rc_mxm_rt p N N plus (xmul_ra times ta) (xmul_ar times ta) idc idc btrue mnomask _ REPLACE W1 W1 A _ _ _ V1 V1 rcA
    (mrc_none _ _ _)) as (W2 & -> & V2). cbn [bind]. rewrite (sigma_at_ok _ _ _ Ep). cbn [bind].
  destruct (rc_mult p N (fun x y => times x (ofz y)) times ofz ztrue (MVal Sp) _ REPLACE W2 W2 P _ _ _ V2 V2 HP (mrc_val _ _ ztrue Sp sp Hp'))
    as (W3 & -> & V3). cbn [bind].
  destruct (rc_add p N plus idc idc plus idc idc btrue mnomask _ REPLACE U U W3 _ _ _ HB HB V3
    (mrc_none _ _ _)) as (B' & -> & VB). cbn [bind]. exists W3, B'. split; [auto|]. split; [eexists; exact V3|].
  eapply rc_ext; [exact VB|]. intros i v _ _. unfold Bx, W1x, wr. auto.
Qed.

(** The whole back propagation, for any relation [Q j] between the levels done and the contents of [BCu]. *)
Lemma xback_ok {X} (tr : X -> bool) o dv ml k P Ss g body (Q : nat -> (nat -> nat -> option R) -> Prop) W B b :
  masks tr o k Ss -> bv o P g -> (forall i, i < p -> isPi i k (g i)) -> step_ok tr o dv ml g Ss body ->
  (forall j b S0 S1, S (S j) <= k -> Q (S j) b -> (forall i, i < p -> isS N edge (sr i) (S (S j)) (S1 i)) ->
     (forall i, i < p -> isS N edge (sr i) (S j) (S0 i)) -> Q j (Bx ml b (W1x dv b g S1) g S0)) ->
  wbv o W -> bv o B b -> Q (k - 1) b ->
  exists W' B' b', mdown (length Ss - 1) body (W, B) = Ok (W', B') /\ bv o B' b' /\ Q 0 b'.
Proof.
  intros (L & M) HP IP Hbody HQ HW HB HQ0.
  destruct (mdown_inv (fun j st => j <= length Ss - 1 /\ wbv o (fst st) /\ exists b, bv o (snd st) b /\ Q j b) body) with (k := length Ss - 1) (s := (W, B))
    as (st & E & _ & _ & b' & V & J).
  - intros j [W0 B0] (Hj & (w & HW0) & b0 & HB0 & Q0). simpl in HW0, HB0. rewrite L in Hj.
    destruct (M (S j) ltac:(lia)) as (Si & si & Ei & Vi & Ii). destruct (M j ltac:(lia)) as (Sp & sp & Ep & Vp & Ip).
    destruct (Hbody (S j) W0 B0 _ w Si Sp si sp Ei ltac:(simpl; rewrite Nat.sub_0_r; auto) Vi Vp HW0 HB0) as (W' & B' & -> & HW' & HB').
    exists (W', B'). split; [auto|]. split; [lia|]. split; [auto|]. eexists. split; [exact HB'|].
    apply HQ; auto. lia.
  - split; [lia|]. split; [auto|]. exists b. rewrite L. auto.
  - destruct st as [W' B']. exists W', B', b'. auto.
Qed.

(** The results: [fin x] from the sum of the numbers of all sources. *)
Lemma osum_all' (h : nat -> R) m : osum plus (map (fun i => Some (h i)) (seq 0 (S m))) = Some (fold_left plus (map h (seq 1 m)) (h 0)).
Proof.
  cbn [seq map]. unfold osum. cbn [fold_left oadd]. generalize (h 0) as x, (seq 1 m) as l. intros x l. revert x. induction l; intro x; cbn [map fold_left oadd]; auto.
Qed.
Definition sumx (b : nat -> nat -> R) (v : nat) : R := fold_left plus (map (fun i => b i v) (seq 1 (p - 1))) (b 0 v).
Lemma osum_sumx b v : osum plus (map (fun i => Some (b i v)) (seq 0 p)) = Some (sumx b v).
Proof.
  clear - Hp. unfold sumx. assert (E : exists m, p = S m) by (destruct src; [congruence|simpl; eauto]). destruct E as (m & ->).
  replace (S m - 1) with m by lia. apply (osum_all' (fun i => b i v)).
Qed.
Definition xview (o : bool) (B : lil R) : mview R := if o then Trn B else Mat B.
Local Notation N_pos := (N_pos A src N RA CA Hp Hsrc).
Lemma xresult_ok o B b : bv o B (fun i v => Some (b i v)) ->
  xb_result zero plus neg_count p N (xview o B) = Ok (map (fun v => plus (neg_count p) (sumx b v)) (seq 0 N)).
Proof.
  intro HB. unfold xb_result. destruct (vis_new zero N ltac:(pose proof N_pos; lia)) as (r0 & -> & V0). cbn [bind].
  destruct (vis_fill N btrue vnomask _ MERGE r0 _ (neg_count p) V0 (vmis_none _ _)) as (r1 & -> & V1). cbn [bind].
  assert (Q : exists r2, reduce idc plus plus btrue idc (Acc plus idc idc) vnomask MERGE r1 (xview o B) = Ok r2 /\
    vis N r2 (fun v => Some (plus (neg_count p) (sumx b v)))).
  { destruct o; simpl in HB |- *.
    - destruct (vis_reduce_t_acc p N plus MERGE r1 _ B _ V1 HB) as (r2 & -> & V2). exists r2. split; [auto|].
      eapply vis_ext; [exact V2|]. intros v Hv. cbv beta. rewrite osum_sumx. reflexivity.
    - destruct (vis_reduce_acc N p plus MERGE r1 _ B _ V1 HB) as (r2 & -> & V2). exists r2. split; [auto|].
      eapply vis_ext; [exact V2|]. intros v Hv. cbv beta. rewrite osum_sumx. reflexivity. }
  destruct Q as (r2 & -> & V2). cbn [bind]. rewrite (to_vector_ok _ _ _ _ V2). auto.
Qed.
Lemma xresult_v2_ok B b : bv true B (fun i v => Some (b i v)) ->
  xb_result_v2 zero plus minus count p N (Trn B) = Ok (map (fun v => minus (sumx b v) (count p)) (seq 0 N)).
Proof.
  intro HB. unfold xb_result_v2. destruct (vis_new zero N ltac:(pose proof N_pos; lia)) as (r0 & -> & V0). cbn [bind].
  destruct (vis_reduce_t p N plus REPLACE r0 _ B _ V0 HB) as (r1 & -> & V1). cbn [bind].
  destruct (vis_apply N (fun x => minus x (count p)) btrue vnomask _ REPLACE r1 r1 _ _ V1 V1 (vmis_none _ _)) as (r2 & -> & V2).
  cbn [bind]. rewrite (to_vector_ok _ _ _ _ V2). f_equal. apply map_ext_in. intros v Hv. unfold wr. cbv beta.
  rewrite osum_sumx. reflexivity.
Qed.
Lemma xinverse_ok o P g : bv o P g -> exists I, xb_inverse inv ofz P = Ok I /\ bv o I (fun i v => option_map (fun x => inv (ofz x)) (g i v)).
Proof.
  intro HP. unfold xb_inverse. destruct o; simpl in *.
  - destruct (rc_dims _ _ _ _ HP) as (-> & ->).
    destruct (rc_apply p N (fun x => inv (ofz x)) btrue mnomask _ MERGE _ P _ _ (rc_new _ _) HP (mrc_none _ _ _)) as (I & E & V). eauto.
  - destruct (rc_dims _ _ _ _ HP) as (-> & ->).
    destruct (rc_apply N p (fun x => inv (ofz x)) btrue mnomask _ MERGE _ P _ _ (rc_new _ _) HP (mrc_none _ _ _)) as (I & E & V). eauto.
Qed.
Definition xoones (o : bool) : res (lil R) := if o then xb_ones one p N else xb_ones one N p.
Lemma xones_ok o : exists B, xoones o = Ok B /\ bv o B (fun _ _ => Some one).
Proof. destruct o; unfold xoones, xb_ones; apply rc_fill. Qed.

(** The searches with a bound on the number of levels. *)
Local Notation inv32 := (inv32 A src N).
Local Notation body32_ok := (body32_ok A src N).
Lemma xloop_ok {X} (tr : X -> bool) sh o (more : bcs32 X -> bool) body : sh <= 1 -> body32_ok tr sh o body ->
  forall m k st st' , inv32 tr sh o k st -> k <= S N -> mwhile m (fun s => b32_more s && more s) body st = Ok (Some st') ->
  forall k', inv32 tr sh o k' st' -> k' <= S N.
Proof.
  intros Hsh HB. induction m as [|m IH]; intros k st st' I Hk E k' I'; [discriminate|]. cbn [mwhile] in E.
  destruct (b32_more st && more st) eqn:EM.
  - apply andb_prop in EM. destruct EM as (EM & _). pose proof (inv32_more A src N RA CA Hp Hsrc tr sh o k st Hsh I EM) as L.
    destruct (HB k st I) as (st1 & E1 & I1). rewrite E1 in E. cbn [bind] in E. apply (IH (S k) st1 st' I1 ltac:(lia) E k' I').
  - injection E as <-. destruct st as [[F P] Ss]. destruct I as ((L1 & _) & _), I' as ((L2 & _) & _). lia.
Qed.
Lemma mwhile_ext {X} m (c c' : X -> bool) body : (forall s, c s = c' s) -> forall s, mwhile m c body s = mwhile m c' body s.
Proof. intro H. induction m as [|m IH]; intro s; [reflexivity|]. cbn [mwhile]. rewrite H. destruct (c' s); auto. destruct (body s); cbn [bind]; auto. Qed.
End Batch.
