(** Laws that relate calls of the operations. *)
From Coq Require Import Lia Permutation.
From Verif Require Import Base ModelLil ModelVec ModelHelpers ModelViews ModelMul ModelElem ModelIndex ModelUtils ModelAlgoBase
  Spec SpecOps SpecIndex SpecOpLaws ProofBase ProofLil ProofWrite ProofViews ProofMul ProofElem ProofReduce ProofIndex ProofGraph ProofKron
  ProofProduct ProofVis ProofRc ProofUtils.

Lemma shaped_rc {T} R K (M : lil T) : shaped R K M -> rc R K M (mget M).
Proof. intros (W & E & F). split; auto. Qed.
Lemma rc_unique {T} R K (X Y : lil T) f : rc R K X f -> rc R K Y f -> X = Y.
Proof.
  intros (W & E & F & G) (W' & E' & F' & G'). apply lil_ext; auto; try congruence.
  intros i j Hi Hj. rewrite G, G' by congruence. auto.
Qed.
Lemma rc_agree {T} R K (a b : res (lil T)) f : (exists X, a = Ok X /\ rc R K X f) -> (exists Y, b = Ok Y /\ rc R K Y f) -> agree a b.
Proof. intros (X & -> & HX) (Y & -> & HY). rewrite (rc_unique R K X Y f HX HY). exists Y. auto. Qed.
Lemma rc_plain_written {T} R K o (C : lil T) t r : shaped R K C -> written btrue idc (NoAcc idc) mnomask o C t r ->
  exists M, r = Ok M /\ rc R K M t.
Proof.
  intros HC W. destruct (rc_written R K btrue mnomask (fun _ _ => true) o C _ t idc r (shaped_rc _ _ _ HC) (mrc_none _ _ _) W)
    as (M & E & H). exists M. split; [auto|]. eapply rc_ext; [exact H|]. intros i j _ _. unfold wr. destruct (t i j); auto.
Qed.
Lemma rc_wf {T} R K (M : lil T) f : rc R K M f -> wfm M.
Proof. intros (W & _). auto. Qed.

Section Ops.
Context {T : Type} (o : outmode).
Lemma add_rc (op : T -> T -> T) R K C A B a b : shaped R K C -> rc R K A a -> rc R K B b ->
  exists M, add_call o op C A B = Ok M /\ rc R K M (fun i j => ounion op idc idc (a i j) (b i j)).
Proof. intros HC HA HB. apply (rc_add R K op idc idc op idc idc btrue mnomask _ o C A B _ _ _ (shaped_rc _ _ _ HC) HA HB (mrc_none _ _ _)). Qed.
Lemma mult_rc (op : T -> T -> T) R K C A B a b : shaped R K C -> rc R K A a -> rc R K B b ->
  exists M, mult_call o op C A B = Ok M /\ rc R K M (fun i j => omap2 op (a i j) (b i j)).
Proof. intros HC HA HB. apply (rc_mult R K op op idc btrue mnomask _ o C A B _ _ _ (shaped_rc _ _ _ HC) HA HB (mrc_none _ _ _)). Qed.
Lemma mxm_rc (add mult : T -> T -> T) R L K C A B a b : shaped R K C -> rc R L A a -> rc L K B b ->
  exists M, mxm_call o add mult C A B = Ok M /\ rc R K M (smul add mult L a b).
Proof.
  intros HC HA HB. apply (rc_mxm R L K add mult mult idc idc btrue mnomask _ o C A B _ _ _ (shaped_rc _ _ _ HC) HA HB (mrc_none _ _ _)).
Qed.
Lemma apply_rc (f : T -> T) R K C A a : shaped R K C -> rc R K A a ->
  exists M, apply_call o f C A = Ok M /\ rc R K M (fun i j => option_map f (a i j)).
Proof. intros HC HA. apply (rc_apply R K f btrue mnomask _ o C A _ _ (shaped_rc _ _ _ HC) HA (mrc_none _ _ _)). Qed.
Lemma transpose_rc R K (C A : lil T) a : shaped R K C -> rc K R A a ->
  exists M, transpose_call o C A = Ok M /\ rc R K M (fun i j => a j i).
Proof.
  intros HC HA. destruct HA as (WA & RA & CA & GA).
  destruct (rc_plain_written R K o C (stran (mget A)) (transpose_call o C A) HC) as (M & E & H).
  { destruct HC as (WC & RC & CC). apply (transpose_ok btrue idc (NoAcc idc) mnomask o C (Mat A)); simpl; auto.
    split; [exact I|]. simpl. split; congruence. }
  exists M. split; [auto|]. eapply rc_ext; [exact H|]. intros i j Hi Hj. unfold stran. auto.
Qed.
Lemma kronecker_rc (op : T -> T -> T) ra ca rb cb C A B a b : shaped (ra * rb) (ca * cb) C -> rc ra ca A a -> rc rb cb B b ->
  (Z.of_nat (ra * rb) < 2 ^ 64)%Z -> (Z.of_nat (ca * cb) < 2 ^ 64)%Z ->
  exists M, kronecker_call o op C A B = Ok M /\ rc (ra * rb) (ca * cb) M (skron op rb cb a b).
Proof.
  intros HC HA HB L1 L2. destruct HA as (WA & RA & CA & GA), HB as (WB & RB & CB & GB).
  destruct (rc_plain_written (ra * rb) (ca * cb) o C (skron op rb cb (mget A) (mget B)) (kronecker_call o op C A B) HC) as (M & E & H).
  { destruct HC as (WC & RC & CC). subst rb cb.
    assert (Q : kron_conforms mnomask C (Mat A) (Mat B)) by (split; [exact I|]; simpl; split; congruence).
    apply (kronecker_ok op btrue idc (NoAcc idc) mnomask o C (Mat A) (Mat B) WC WA WB I Q); congruence. }
  exists M. split; [auto|]. eapply rc_ext; [exact H|]. intros i j Hi Hj. unfold skron. 
  assert (rb <> 0) by nia. assert (cb <> 0) by nia.
  rewrite GA, GB; auto; try (apply Nat.mod_upper_bound; auto); apply Nat.div_lt_upper_bound; lia.
Qed.
Lemma extract_rc R K r k C A a (rs cs : list nat) : shaped r k C -> rc R K A a -> length rs = r -> length cs = k ->
  Forall (fun i => i < R) rs -> Forall (fun i => i < K) cs ->
  exists M : lil T, extract_call o C A (IdxArr rs) (IdxArr cs) = Ok M /\ rc r k M (fun i j => a (nth i rs 0) (nth j cs 0)).
Proof.
  intros HC (WA & RA & CA & GA) Hr Hk Fr Fk.
  destruct (rc_plain_written r k o C (smextract (mget A) (IdxArr rs) (IdxArr cs)) (extract_call o C A (IdxArr rs) (IdxArr cs)) HC) as (M & E & H).
  { destruct HC as (WC & RC & CC). apply (extract_m_ok btrue idc (NoAcc idc) mnomask o C (Mat A)); simpl; auto.
    split; [exact I|]. simpl. rewrite RC, CC, RA, CA. auto. }
  exists M. split; [auto|]. eapply rc_ext; [exact H|]. intros i j Hi Hj. unfold smextract. simpl.
  rewrite (nth_error_nth' rs 0) by lia. rewrite (nth_error_nth' cs 0) by lia. simpl. apply GA.
  - rewrite Forall_forall in Fr. apply Fr, nth_In. lia.
  - rewrite Forall_forall in Fk. apply Fk, nth_In. lia.
Qed.
End Ops.

(** ** Element-wise laws on options *)
Lemma ounion_comm {T} (op : T -> T -> T) a b : (forall x y, op x y = op y x) -> ounion op idc idc a b = ounion op idc idc b a.
Proof. intro H. destruct a, b; simpl; auto. rewrite H. auto. Qed.
Lemma ounion_assoc {T} (op : T -> T -> T) a b c : (forall x y z, op (op x y) z = op x (op y z)) ->
  ounion op idc idc (ounion op idc idc a b) c = ounion op idc idc a (ounion op idc idc b c).
Proof. intro H. destruct a, b, c; simpl; unfold idc; auto. rewrite H. auto. Qed.
Lemma omap2_comm {T} (op : T -> T -> T) a b : (forall x y, op x y = op y x) -> omap2 op a b = omap2 op b a.
Proof. intro H. destruct a, b; simpl; auto. rewrite H. auto. Qed.
Lemma omap2_assoc {T} (op : T -> T -> T) a b c : (forall x y z, op (op x y) z = op x (op y z)) ->
  omap2 op (omap2 op a b) c = omap2 op a (omap2 op b c).
Proof. intro H. destruct a, b, c; simpl; auto. rewrite H. auto. Qed.
Lemma omap2_dist {T} (add mult : T -> T -> T) a b c : (forall x y z, mult x (add y z) = add (mult x y) (mult x z)) ->
  omap2 mult a (ounion add idc idc b c) = ounion add idc idc (omap2 mult a b) (omap2 mult a c).
Proof. intro H. destruct a, b, c; simpl; unfold idc; auto. rewrite H. auto. Qed.
Lemma omap2_dist_r {T} (add mult : T -> T -> T) a b c : (forall x y z, mult (add x y) z = add (mult x z) (mult y z)) ->
  omap2 mult (ounion add idc idc a b) c = ounion add idc idc (omap2 mult a c) (omap2 mult b c).
Proof. intro H. destruct a, b, c; simpl; unfold idc; auto. rewrite H. auto. Qed.
Lemma oadd_ounion {T} (add : T -> T -> T) a b : oadd add a b = ounion add idc idc a b.
Proof. destruct a, b; auto. Qed.

Section Sums.
Context {T : Type} (add : T -> T -> T).
Hypothesis add_assoc : forall x y z, add (add x y) z = add x (add y z).
Hypothesis add_comm : forall x y, add x y = add y x.
Lemma osum_ounion {X} (f g : X -> option T) l :
  osum add (map (fun k => ounion add idc idc (f k) (g k)) l) = ounion add idc idc (osum add (map f l)) (osum add (map g l)).
Proof.
  induction l as [|x l IH]; [auto|]. cbn [map]. rewrite !osum_cons, IH by auto. rewrite !oadd_ounion.
  set (p := osum add (map f l)). set (q := osum add (map g l)).
  rewrite !ounion_assoc by auto. f_equal. rewrite <- !ounion_assoc by auto. f_equal. apply ounion_comm. auto.
Qed.
Lemma seq_pairs m n : seq 0 (m * n) = flat_map (fun a => map (fun b => a * n + b) (seq 0 n)) (seq 0 m).
Proof.
  induction m as [|m IH]; [auto|]. rewrite seq_S, flat_map_app, <- IH. cbn [flat_map Nat.add]. rewrite app_nil_r.
  replace (S m * n) with (m * n + n) by lia. rewrite seq_app. f_equal. simpl.
  generalize (m * n). clear. intro a. induction n as [|n IH]; [auto|]. rewrite !seq_S, map_app, IH. auto.
Qed.
End Sums.

(** ** Laws of the matrix operations *)
Section Laws.
Context {T : Type} (o : outmode) (add mult : T -> T -> T).

Lemma law_add_comm R K (A B C D : lil T) : (forall x y, add x y = add y x) ->
  shaped R K A -> shaped R K B -> shaped R K C -> shaped R K D -> agree (add_call o add C A B) (add_call o add D B A).
Proof.
  intros H HA%shaped_rc HB%shaped_rc HC HD. apply (rc_agree R K _ _ _ (add_rc o add R K C A B _ _ HC HA HB)).
  destruct (add_rc o add R K D B A _ _ HD HB HA) as (M & E & V). exists M. split; [auto|]. eapply rc_ext; [exact V|].
  intros. apply ounion_comm. auto.
Qed.
Lemma law_mult_comm R K (A B C D : lil T) : (forall x y, mult x y = mult y x) ->
  shaped R K A -> shaped R K B -> shaped R K C -> shaped R K D -> agree (mult_call o mult C A B) (mult_call o mult D B A).
Proof.
  intros H HA%shaped_rc HB%shaped_rc HC HD. apply (rc_agree R K _ _ _ (mult_rc o mult R K C A B _ _ HC HA HB)).
  destruct (mult_rc o mult R K D B A _ _ HD HB HA) as (M & E & V). exists M. split; [auto|]. eapply rc_ext; [exact V|].
  intros. apply omap2_comm. auto.
Qed.
Lemma law_add_assoc R K (A B D P Q X Y : lil T) : (forall x y z, add (add x y) z = add x (add y z)) ->
  shaped R K A -> shaped R K B -> shaped R K D -> shaped R K P -> shaped R K Q -> shaped R K X -> shaped R K Y ->
  agree (AB <- add_call o add P A B ;; add_call o add X AB D) (BD <- add_call o add Q B D ;; add_call o add Y A BD).
Proof.
  intros H HA%shaped_rc HB%shaped_rc HD%shaped_rc HP HQ HX HY.
  destruct (add_rc o add R K P A B _ _ HP HA HB) as (M & -> & V). cbn [bind].
  destruct (add_rc o add R K Q B D _ _ HQ HB HD) as (M' & -> & V'). cbn [bind].
  apply (rc_agree R K _ _ _ (add_rc o add R K X M D _ _ HX V HD)).
  destruct (add_rc o add R K Y A M' _ _ HY HA V') as (N & E & W). exists N. split; [auto|]. eapply rc_ext; [exact W|].
  intros. symmetry. apply ounion_assoc. auto.
Qed.
Lemma law_mult_assoc R K (A B D P Q X Y : lil T) : (forall x y z, mult (mult x y) z = mult x (mult y z)) ->
  shaped R K A -> shaped R K B -> shaped R K D -> shaped R K P -> shaped R K Q -> shaped R K X -> shaped R K Y ->
  agree (AB <- mult_call o mult P A B ;; mult_call o mult X AB D) (BD <- mult_call o mult Q B D ;; mult_call o mult Y A BD).
Proof.
  intros H HA%shaped_rc HB%shaped_rc HD%shaped_rc HP HQ HX HY.
  destruct (mult_rc o mult R K P A B _ _ HP HA HB) as (M & -> & V). cbn [bind].
  destruct (mult_rc o mult R K Q B D _ _ HQ HB HD) as (M' & -> & V'). cbn [bind].
  apply (rc_agree R K _ _ _ (mult_rc o mult R K X M D _ _ HX V HD)).
  destruct (mult_rc o mult R K Y A M' _ _ HY HA V') as (N & E & W). exists N. split; [auto|]. eapply rc_ext; [exact W|].
  intros. symmetry. apply omap2_assoc. auto.
Qed.
Lemma law_mult_add R K (A B D P Q S X Y : lil T) : (forall x y z, mult x (add y z) = add (mult x y) (mult x z)) ->
  shaped R K A -> shaped R K B -> shaped R K D -> shaped R K P -> shaped R K Q -> shaped R K S -> shaped R K X -> shaped R K Y ->
  agree (BD <- add_call o add P B D ;; mult_call o mult X A BD)
        (AB <- mult_call o mult Q A B ;; AD <- mult_call o mult S A D ;; add_call o add Y AB AD).
Proof.
  intros H HA%shaped_rc HB%shaped_rc HD%shaped_rc HP HQ HS HX HY.
  destruct (add_rc o add R K P B D _ _ HP HB HD) as (M & -> & V). cbn [bind].
  destruct (mult_rc o mult R K Q A B _ _ HQ HA HB) as (M' & -> & V'). cbn [bind].
  destruct (mult_rc o mult R K S A D _ _ HS HA HD) as (M2 & -> & V2). cbn [bind].
  apply (rc_agree R K _ _ _ (mult_rc o mult R K X A M _ _ HX HA V)).
  destruct (add_rc o add R K Y M' M2 _ _ HY V' V2) as (N & E & W). exists N. split; [auto|]. eapply rc_ext; [exact W|].
  intros. symmetry. apply omap2_dist. auto.
Qed.
Lemma law_transpose_add R K (A B P Q S X Y : lil T) :
  shaped R K A -> shaped R K B -> shaped R K P -> shaped K R Q -> shaped K R S -> shaped K R X -> shaped K R Y ->
  agree (AB <- add_call o add P A B ;; transpose_call o X AB)
        (At <- transpose_call o Q A ;; Bt <- transpose_call o S B ;; add_call o add Y At Bt).
Proof.
  intros HA%shaped_rc HB%shaped_rc HP HQ HS HX HY.
  destruct (add_rc o add R K P A B _ _ HP HA HB) as (M & -> & V). cbn [bind].
  destruct (transpose_rc o K R Q A _ HQ HA) as (M' & -> & V'). cbn [bind].
  destruct (transpose_rc o K R S B _ HS HB) as (M2 & -> & V2). cbn [bind].
  apply (rc_agree K R _ _ _ (transpose_rc o K R X M _ HX V)). apply (add_rc o add K R Y M' M2 _ _ HY V' V2).
Qed.
Lemma law_transpose_mult R K (A B P Q S X Y : lil T) :
  shaped R K A -> shaped R K B -> shaped R K P -> shaped K R Q -> shaped K R S -> shaped K R X -> shaped K R Y ->
  agree (AB <- mult_call o mult P A B ;; transpose_call o X AB)
        (At <- transpose_call o Q A ;; Bt <- transpose_call o S B ;; mult_call o mult Y At Bt).
Proof.
  intros HA%shaped_rc HB%shaped_rc HP HQ HS HX HY.
  destruct (mult_rc o mult R K P A B _ _ HP HA HB) as (M & -> & V). cbn [bind].
  destruct (transpose_rc o K R Q A _ HQ HA) as (M' & -> & V'). cbn [bind].
  destruct (transpose_rc o K R S B _ HS HB) as (M2 & -> & V2). cbn [bind].
  apply (rc_agree K R _ _ _ (transpose_rc o K R X M _ HX V)). apply (mult_rc o mult K R Y M' M2 _ _ HY V' V2).
Qed.
Lemma law_apply_apply (f g : T -> T) R K (A P X Y : lil T) :
  shaped R K A -> shaped R K P -> shaped R K X -> shaped R K Y ->
  agree (B <- apply_call o g P A ;; apply_call o f X B) (apply_call o (fun x => f (g x)) Y A).
Proof.
  intros HA%shaped_rc HP HX HY. destruct (apply_rc o g R K P A _ HP HA) as (M & -> & V). cbn [bind].
  apply (rc_agree R K _ _ _ (apply_rc o f R K X M _ HX V)).
  destruct (apply_rc o (fun x => f (g x)) R K Y A _ HY HA) as (N & E & W). exists N. split; [auto|]. eapply rc_ext; [exact W|].
  intros i j _ _. simpl. destruct (mget A i j); auto.
Qed.
Lemma law_apply_transpose (f : T -> T) R K (A P Q X Y : lil T) :
  shaped R K A -> shaped R K P -> shaped K R Q -> shaped K R X -> shaped K R Y ->
  agree (B <- apply_call o f P A ;; transpose_call o X B) (B <- transpose_call o Q A ;; apply_call o f Y B).
Proof.
  intros HA%shaped_rc HP HQ HX HY. destruct (apply_rc o f R K P A _ HP HA) as (M & -> & V). cbn [bind].
  destruct (transpose_rc o K R Q A _ HQ HA) as (M' & -> & V'). cbn [bind].
  apply (rc_agree K R _ _ _ (transpose_rc o K R X M _ HX V)). apply (apply_rc o f K R Y M' _ HY V').
Qed.

(** Products. *)
Lemma law_mxm_add_l R L K (A B D P Q S X Y : lil T) :
  (forall x y z, add (add x y) z = add x (add y z)) -> (forall x y, add x y = add y x) ->
  (forall x y z, mult x (add y z) = add (mult x y) (mult x z)) ->
  shaped R L A -> shaped L K B -> shaped L K D -> shaped L K P -> shaped R K Q -> shaped R K S -> shaped R K X -> shaped R K Y ->
  agree (BD <- add_call o add P B D ;; mxm_call o add mult X A BD)
        (AB <- mxm_call o add mult Q A B ;; AD <- mxm_call o add mult S A D ;; add_call o add Y AB AD).
Proof.
  intros H1 H2 H3 HA%shaped_rc HB%shaped_rc HD%shaped_rc HP HQ HS HX HY.
  destruct (add_rc o add L K P B D _ _ HP HB HD) as (M & -> & V). cbn [bind].
  destruct (mxm_rc o add mult R L K Q A B _ _ HQ HA HB) as (M' & -> & V'). cbn [bind].
  destruct (mxm_rc o add mult R L K S A D _ _ HS HA HD) as (M2 & -> & V2). cbn [bind].
  apply (rc_agree R K _ _ _ (mxm_rc o add mult R L K X A M _ _ HX HA V)).
  destruct (add_rc o add R K Y M' M2 _ _ HY V' V2) as (N & E & W). exists N. split; [auto|]. eapply rc_ext; [exact W|].
  intros i j _ _. unfold smul. cbv beta. rewrite <- osum_ounion by auto. f_equal. apply map_ext. intro k. symmetry. apply omap2_dist. auto.
Qed.
Lemma law_mxm_add_r R L K (A B D P Q S X Y : lil T) :
  (forall x y z, add (add x y) z = add x (add y z)) -> (forall x y, add x y = add y x) ->
  (forall x y z, mult (add x y) z = add (mult x z) (mult y z)) ->
  shaped R L A -> shaped R L B -> shaped L K D -> shaped R L P -> shaped R K Q -> shaped R K S -> shaped R K X -> shaped R K Y ->
  agree (AB <- add_call o add P A B ;; mxm_call o add mult X AB D)
        (AD <- mxm_call o add mult Q A D ;; BD <- mxm_call o add mult S B D ;; add_call o add Y AD BD).
Proof.
  intros H1 H2 H3 HA%shaped_rc HB%shaped_rc HD%shaped_rc HP HQ HS HX HY.
  destruct (add_rc o add R L P A B _ _ HP HA HB) as (M & -> & V). cbn [bind].
  destruct (mxm_rc o add mult R L K Q A D _ _ HQ HA HD) as (M' & -> & V'). cbn [bind].
  destruct (mxm_rc o add mult R L K S B D _ _ HS HB HD) as (M2 & -> & V2). cbn [bind].
  apply (rc_agree R K _ _ _ (mxm_rc o add mult R L K X M D _ _ HX V HD)).
  destruct (add_rc o add R K Y M' M2 _ _ HY V' V2) as (N & E & W). exists N. split; [auto|]. eapply rc_ext; [exact W|].
  intros i j _ _. unfold smul. cbv beta. rewrite <- osum_ounion by auto. f_equal. apply map_ext. intro k. symmetry. apply omap2_dist_r. auto.
Qed.
Lemma osum_one_pos L k (f : nat -> option T) : k < L -> (forall j, j < L -> j <> k -> f j = None) ->
  osum add (map f (seq 0 L)) = f k.
Proof.
  intros Hk H. assert (Q : forall m, m <= L -> osum add (map f (seq 0 m)) = if k <? m then f k else None).
  { induction m as [|m IH]; intro Hm; [auto|]. rewrite seq_S, map_app. unfold osum. rewrite fold_left_app. fold (osum add (map f (seq 0 m))).
    rewrite IH by lia. simpl. destruct (Nat.ltb_spec k m), (Nat.ltb_spec k (S m)); try lia.
    - rewrite (H m) by lia. destruct (f k); auto.
    - replace m with k by lia. auto.
    - rewrite (H m) by lia. auto. }
  rewrite Q by lia. destruct (Nat.ltb_spec k L); auto. lia.
Qed.
Lemma law_mxm_one (one : T) R K (A C D : lil T) : (forall x, mult x one = x) -> (forall x, mult one x = x) ->
  shaped R K A -> shaped R K C -> shaped R K D ->
  (I <- scaled_identity K one ;; mxm_call o add mult C A I) = Ok A /\
  (I <- scaled_identity R one ;; mxm_call o add mult D I A) = Ok A.
Proof.
  intros H1 H2 HA%shaped_rc HC HD. split.
  - destruct (scaled_identity_ok K one) as (J & -> & WJ & RJ & CJ & GJ). cbn [bind].
    assert (VJ : rc K K J (mget J)) by (split; [|split; [|split]]; auto).
    destruct (mxm_rc o add mult R K K C A J _ _ HC HA VJ) as (M & -> & V). f_equal. eapply rc_unique; [|exact HA].
    eapply rc_ext; [exact V|]. intros i j Hi Hj. unfold smul. rewrite (osum_one_pos K j); auto.
    + rewrite GJ, Nat.eqb_refl. rewrite (proj2 (Nat.ltb_lt j K) Hj). simpl. destruct (mget A i j); simpl; auto. rewrite H1. auto.
    + intros k Hk Nk. rewrite GJ. destruct (Nat.eqb_spec k j); [lia|]. simpl. destruct (mget A i k); auto.
  - destruct (scaled_identity_ok R one) as (J & -> & WJ & RJ & CJ & GJ). cbn [bind].
    assert (VJ : rc R R J (mget J)) by (split; [|split; [|split]]; auto).
    destruct (mxm_rc o add mult R R K D J A _ _ HD VJ HA) as (M & -> & V). f_equal. eapply rc_unique; [|exact HA].
    eapply rc_ext; [exact V|]. intros i j Hi Hj. unfold smul. rewrite (osum_one_pos R i); auto.
    + rewrite GJ, Nat.eqb_refl. rewrite (proj2 (Nat.ltb_lt i R) Hi). simpl. destruct (mget A i j); simpl; auto. rewrite H2. auto.
    + intros k Hk Nk. rewrite GJ. destruct (Nat.eqb_spec i k); [lia|]. simpl. auto.
Qed.

(** Selecting rows and columns of a product. *)
Lemma law_extract_mxm R L K (rs cs : list nat) (A B P Q S X Y : lil T) :
  Forall (fun i => i < R) rs -> Forall (fun j => j < K) cs ->
  shaped R L A -> shaped L K B -> shaped R K P -> shaped (length rs) L Q -> shaped L (length cs) S ->
  shaped (length rs) (length cs) X -> shaped (length rs) (length cs) Y ->
  agree (AB <- mxm_call o add mult P A B ;; extract_call o X AB (IdxArr rs) (IdxArr cs))
        (A' <- extract_call o Q A (IdxArr rs) (IdxArr (seq 0 L)) ;; B' <- extract_call o S B (IdxArr (seq 0 L)) (IdxArr cs) ;;
         mxm_call o add mult Y A' B').
Proof.
  intros Fr Fc HA%shaped_rc HB%shaped_rc HP HQ HS HX HY.
  assert (FL : Forall (fun i => i < L) (seq 0 L)) by (apply Forall_forall; intros i Hi; apply in_seq in Hi; lia).
  destruct (mxm_rc o add mult R L K P A B _ _ HP HA HB) as (M & -> & V). cbn [bind].
  destruct (extract_rc o R L (length rs) L Q A _ rs (seq 0 L) HQ HA eq_refl (seq_length _ _) Fr FL) as (M' & -> & V'). cbn [bind].
  destruct (extract_rc o L K L (length cs) S B _ (seq 0 L) cs HS HB (seq_length _ _) eq_refl FL Fc) as (M2 & -> & V2). cbn [bind].
  apply (rc_agree _ _ _ _ _ (extract_rc o R K _ _ X M _ rs cs HX V eq_refl eq_refl Fr Fc)).
  destruct (mxm_rc o add mult _ L _ Y M' M2 _ _ HY V' V2) as (N & E & W). exists N. split; [auto|]. eapply rc_ext; [exact W|].
  intros i j Hi Hj. unfold smul. f_equal. apply map_ext_in. intros k Hk. apply in_seq in Hk. rewrite seq_nth by lia. auto.
Qed.
Lemma law_extract_extract R K (rs cs rs' cs' : list nat) (A P X Y : lil T) :
  Forall (fun i => i < R) rs -> Forall (fun j => j < K) cs ->
  Forall (fun i => i < length rs) rs' -> Forall (fun j => j < length cs) cs' ->
  shaped R K A -> shaped (length rs) (length cs) P -> shaped (length rs') (length cs') X -> shaped (length rs') (length cs') Y ->
  agree (B <- extract_call o P A (IdxArr rs) (IdxArr cs) ;; extract_call o X B (IdxArr rs') (IdxArr cs'))
        (extract_call o Y A (IdxArr (map (fun k => nth k rs 0) rs')) (IdxArr (map (fun k => nth k cs 0) cs'))).
Proof.
  intros Fr Fc Fr' Fc' HA%shaped_rc HP HX HY.
  destruct (extract_rc o R K _ _ P A _ rs cs HP HA eq_refl eq_refl Fr Fc) as (M & -> & V). cbn [bind].
  apply (rc_agree _ _ _ _ _ (extract_rc o _ _ _ _ X M _ rs' cs' HX V eq_refl eq_refl Fr' Fc')).
  destruct (extract_rc o R K (length rs') (length cs') Y A _ (map (fun k => nth k rs 0) rs') (map (fun k => nth k cs 0) cs') HY HA)
    as (N & E & W); try apply map_length.
  { apply Forall_map. eapply Forall_impl; [|exact Fr']. intros k Hk. rewrite Forall_forall in Fr. apply Fr, nth_In. auto. }
  { apply Forall_map. eapply Forall_impl; [|exact Fc']. intros k Hk. rewrite Forall_forall in Fc. apply Fc, nth_In. auto. }
  exists N. split; [auto|]. eapply rc_ext; [exact W|]. intros i j Hi Hj. cbv beta.
  rewrite (nth_indep (map (fun k => nth k rs 0) _) 0 (nth 0 rs 0)) by (rewrite map_length; auto). rewrite (map_nth (fun k => nth k rs 0)).
  rewrite (nth_indep (map (fun k => nth k cs 0) _) 0 (nth 0 cs 0)) by (rewrite map_length; auto). rewrite (map_nth (fun k => nth k cs 0)). auto.
Qed.

(** Kronecker products. *)
Lemma law_kron_mxm ra ca rb cb cc cd (A B C D P Q S U X Y : lil T) :
  (forall x y z, add (add x y) z = add x (add y z)) -> (forall x y, add x y = add y x) ->
  (forall x y z, mult (mult x y) z = mult x (mult y z)) -> (forall x y, mult x y = mult y x) ->
  (forall x y z, mult x (add y z) = add (mult x y) (mult x z)) ->
  shaped ra ca A -> shaped rb cb B -> shaped ca cc C -> shaped cb cd D ->
  shaped (ra * rb) (ca * cb) P -> shaped (ca * cb) (cc * cd) Q -> shaped ra cc S -> shaped rb cd U ->
  shaped (ra * rb) (cc * cd) X -> shaped (ra * rb) (cc * cd) Y ->
  (Z.of_nat (ra * rb) < 2 ^ 64)%Z -> (Z.of_nat (ca * cb) < 2 ^ 64)%Z -> (Z.of_nat (cc * cd) < 2 ^ 64)%Z ->
  agree (AB <- kronecker_call o mult P A B ;; CD <- kronecker_call o mult Q C D ;; mxm_call o add mult X AB CD)
        (AC <- mxm_call o add mult S A C ;; BD <- mxm_call o add mult U B D ;; kronecker_call o mult Y AC BD).
Proof.
  intros aa ac ma mc dl HA%shaped_rc HB%shaped_rc HC%shaped_rc HD%shaped_rc HP HQ HS HU HX HY L1 L2 L3.
  destruct (kronecker_rc o mult ra ca rb cb P A B _ _ HP HA HB L1 L2) as (M & -> & V). cbn [bind].
  destruct (kronecker_rc o mult ca cc cb cd Q C D _ _ HQ HC HD L2 L3) as (M' & -> & V'). cbn [bind].
  destruct (mxm_rc o add mult ra ca cc S A C _ _ HS HA HC) as (N & -> & W). cbn [bind].
  destruct (mxm_rc o add mult rb cb cd U B D _ _ HU HB HD) as (N' & -> & W'). cbn [bind].
  apply (rc_agree _ _ _ _ _ (mxm_rc o add mult (ra * rb) (ca * cb) (cc * cd) X M M' _ _ HX V V')).
  destruct (kronecker_rc o mult ra cc rb cd Y N N' _ _ HY W W' L1 L3) as (Z' & E & G). exists Z'. split; [auto|].
  eapply rc_ext; [exact G|]. intros i j Hi Hj. unfold smul, skron. symmetry.
  assert (dr : forall x y z, mult (add x y) z = add (mult x z) (mult y z)) by (intros; rewrite !(mc _ z); apply dl).
  rewrite seq_pairs. rewrite flat_map_concat_map, concat_map, map_map, <- flat_map_concat_map.
  rewrite (osum_flat_map add aa). rewrite (osum_mult_r add mult aa dr), map_map.
  f_equal. apply map_ext. intro a. rewrite (osum_mult_l add mult aa dl), !map_map. f_equal. apply map_ext_in. intros b Hb. apply in_seq in Hb.
  rewrite !(Nat.add_comm (a * cb)), !Nat.div_add, !Nat.mod_add, !(Nat.div_small b cb), !(Nat.mod_small b cb) by lia. cbn [Nat.add].
  destruct (mget A (i / rb) a), (mget B (i mod rb) b), (mget C a (j / cd)), (mget D b (j mod cd)); simpl; auto. f_equal.
  rewrite !ma. f_equal. rewrite <- !ma. f_equal. apply mc.
Qed.
Lemma law_kron_transpose ra ca rb cb (A B P Q S X Y : lil T) :
  shaped ra ca A -> shaped rb cb B -> shaped (ra * rb) (ca * cb) P -> shaped ca ra Q -> shaped cb rb S ->
  shaped (ca * cb) (ra * rb) X -> shaped (ca * cb) (ra * rb) Y ->
  (Z.of_nat (ra * rb) < 2 ^ 64)%Z -> (Z.of_nat (ca * cb) < 2 ^ 64)%Z ->
  agree (AB <- kronecker_call o mult P A B ;; transpose_call o X AB)
        (At <- transpose_call o Q A ;; Bt <- transpose_call o S B ;; kronecker_call o mult Y At Bt).
Proof.
  intros HA%shaped_rc HB%shaped_rc HP HQ HS HX HY L1 L2.
  destruct (kronecker_rc o mult ra ca rb cb P A B _ _ HP HA HB L1 L2) as (M & -> & V). cbn [bind].
  destruct (transpose_rc o ca ra Q A _ HQ HA) as (M' & -> & V'). cbn [bind].
  destruct (transpose_rc o cb rb S B _ HS HB) as (M2 & -> & V2). cbn [bind].
  apply (rc_agree _ _ _ _ _ (transpose_rc o _ _ X M _ HX V)). apply (kronecker_rc o mult ca ra cb rb Y M' M2 _ _ HY V' V2 L2 L1).
Qed.
Lemma law_kron_assoc ra ca rb cb rd cd (A B D P Q X Y : lil T) : (forall x y z, mult (mult x y) z = mult x (mult y z)) ->
  shaped ra ca A -> shaped rb cb B -> shaped rd cd D -> shaped (ra * rb) (ca * cb) P -> shaped (rb * rd) (cb * cd) Q ->
  shaped (ra * rb * rd) (ca * cb * cd) X -> shaped (ra * (rb * rd)) (ca * (cb * cd)) Y ->
  (Z.of_nat (ra * rb) < 2 ^ 64)%Z -> (Z.of_nat (ca * cb) < 2 ^ 64)%Z -> (Z.of_nat (rb * rd) < 2 ^ 64)%Z -> (Z.of_nat (cb * cd) < 2 ^ 64)%Z ->
  (Z.of_nat (ra * rb * rd) < 2 ^ 64)%Z -> (Z.of_nat (ca * cb * cd) < 2 ^ 64)%Z ->
  agree (AB <- kronecker_call o mult P A B ;; kronecker_call o mult X AB D)
        (BD <- kronecker_call o mult Q B D ;; kronecker_call o mult Y A BD).
Proof.
  intros ma HA%shaped_rc HB%shaped_rc HD%shaped_rc HP HQ HX HY L1 L2 L3 L4 L5 L6.
  destruct (kronecker_rc o mult ra ca rb cb P A B _ _ HP HA HB L1 L2) as (M & -> & V). cbn [bind].
  destruct (kronecker_rc o mult rb cb rd cd Q B D _ _ HQ HB HD L3 L4) as (M' & -> & V'). cbn [bind].
  rewrite <- !Nat.mul_assoc in L5, L6.
  destruct (kronecker_rc o mult ra ca (rb * rd) (cb * cd) Y A M' _ _ HY HA V' L5 L6) as (Z' & E & G).
  rewrite (Nat.mul_assoc ra) in L5, G. rewrite (Nat.mul_assoc ca) in L6, G.
  apply (rc_agree _ _ _ _ _ (kronecker_rc o mult (ra * rb) (ca * cb) rd cd X M D _ _ HX V HD L5 L6)). exists Z'. split; [auto|].
  eapply rc_ext; [exact G|]. intros i j Hi Hj. unfold skron.
  assert (rb <> 0) by nia. assert (rd <> 0) by nia. assert (cb <> 0) by nia. assert (cd <> 0) by nia.
  rewrite !(Nat.mul_comm rb rd), !(Nat.mul_comm cb cd), <- !Nat.div_div by auto.
  rewrite !Nat.mod_mul_r by auto.
  rewrite !(Nat.mul_comm rd), !(Nat.mul_comm cd), !Nat.div_add, !Nat.mod_add by auto.
  rewrite !(Nat.div_small (_ mod _)) by (apply Nat.mod_upper_bound; auto). rewrite !Nat.mod_mod by auto. cbn [Nat.add].
  rewrite omap2_assoc by auto. auto.
Qed.
End Laws.
