(** Vector laws, and splitting a call by a mask and its complement. *)
From Coq Require Import Lia.
From Verif Require Import Base ModelLil ModelVec ModelHelpers ModelViews ModelMul ModelElem ModelIndex ModelUtils ModelAlgoBase
  Spec SpecOps SpecIndex SpecOpLaws ProofBase ProofLil ProofWrite ProofViews ProofMul ProofElem ProofReduce ProofIndex ProofAssign ProofGraph
  ProofKron ProofProduct ProofVis ProofRc ProofOpLaws.

Lemma vshaped_vis {T} N (w : bvec T) : vshaped N w -> vis N w (vget w).
Proof. intros (W & S). split; [auto|split; auto]. Qed.
Lemma vis_vagree {T} N (a b : res (bvec T)) f :
  (exists x, a = Ok x /\ vis N x f) -> (exists y, b = Ok y /\ vis N y f) -> vagree a b.
Proof.
  intros (x & -> & Hx) (y & -> & Hy). exists x, y. repeat split; auto; try apply Hx; try apply Hy.
  - rewrite (proj1 (proj2 Hx)), (proj1 (proj2 Hy)). auto.
  - intro i. destruct (Nat.lt_ge_cases i N) as [L|L].
    + rewrite (vis_get N x f i Hx L), (vis_get N y f i Hy L). auto.
    + rewrite (vis_oob N x f i Hx L), (vis_oob N y f i Hy L). auto.
Qed.
Lemma vis_plain_written {T} N o (w : bvec T) t r : vshaped N w -> vwritten btrue idc (NoAcc idc) vnomask o w t r ->
  exists x, r = Ok x /\ vis N x t.
Proof.
  intros Hw W. destruct (vis_written N btrue vnomask (fun _ => true) o w _ t r (vshaped_vis _ _ Hw) (vmis_none _ _) W) as (x & E & H).
  exists x. split; [auto|]. eapply vis_ext; [exact H|]. intros i _. unfold wr. destruct (t i); auto.
Qed.

Section Ops.
Context {T : Type} (o : outmode).
Lemma vadd_vis (op : T -> T -> T) N w u v fu fv : vshaped N w -> vis N u fu -> vis N v fv ->
  exists x, vadd_call o op w u v = Ok x /\ vis N x (fun i => ounion op idc idc (fu i) (fv i)).
Proof.
  intros Hw Hu Hv. destruct (vis_plain_written N o w _ (vadd_call o op w u v) Hw (eWiseAdd_v_ok op idc idc btrue idc (NoAcc idc) vnomask o w u v
    (proj1 (proj1 Hw)) (wfv_wfvn _ (proj1 Hu)) (wfv_wfvn _ (proj1 Hv)) I (conj I (conj (eq_trans (proj2 Hw) (eq_sym (proj1 (proj2 Hu))))
      (eq_trans (proj1 (proj2 Hu)) (eq_sym (proj1 (proj2 Hv)))))))) as (x & E & H).
  exists x. split; [auto|]. eapply vis_ext; [exact H|]. intros i Hi. cbv beta. rewrite (vis_get N u fu), (vis_get N v fv) by auto. auto.
Qed.
Lemma vmult_vis (op : T -> T -> T) N w u v fu fv : vshaped N w -> vis N u fu -> vis N v fv ->
  exists x, vmult_call o op w u v = Ok x /\ vis N x (fun i => omap2 op (fu i) (fv i)).
Proof.
  intros Hw Hu Hv. destruct (vis_plain_written N o w _ (vmult_call o op w u v) Hw (eWiseMult_v_ok op btrue idc (NoAcc idc) vnomask o w u v
    (proj1 (proj1 Hw)) (wfv_wfvn _ (proj1 Hu)) (wfv_wfvn _ (proj1 Hv)) I (conj I (conj (eq_trans (proj2 Hw) (eq_sym (proj1 (proj2 Hu))))
      (eq_trans (proj1 (proj2 Hu)) (eq_sym (proj1 (proj2 Hv)))))))) as (x & E & H).
  exists x. split; [auto|]. eapply vis_ext; [exact H|]. intros i Hi. cbv beta. rewrite (vis_get N u fu), (vis_get N v fv) by auto. auto.
Qed.
Lemma vapply_vis (f : T -> T) N w u fu : vshaped N w -> vis N u fu ->
  exists x, vapply_call o f w u = Ok x /\ vis N x (fun i => option_map f (fu i)).
Proof.
  intros Hw Hu. destruct (vis_plain_written N o w _ (vapply_call o f w u) Hw (apply_v_ok f btrue idc (NoAcc idc) vnomask o w u
    (proj1 (proj1 Hw)) (wfv_wfvn _ (proj1 Hu)) I (conj I (eq_trans (proj2 Hw) (eq_sym (proj1 (proj2 Hu))))))) as (x & E & H).
  exists x. split; [auto|]. eapply vis_ext; [exact H|]. intros i Hi. cbv beta. rewrite (vis_get N u fu) by auto. auto.
Qed.
Lemma mxv_vis (add mult : T -> T -> T) R K w A u a fu : vshaped R w -> rc R K A a -> vis K u fu ->
  exists x, mxv_call o add mult w (Mat A) u = Ok x /\ vis R x (smulv add mult K a fu).
Proof.
  intros Hw (WA & RA & CA & GA) Hu.
  destruct (vis_plain_written R o w _ (mxv_call o add mult w (Mat A) u) Hw (mxv_ok add mult mult btrue idc (NoAcc idc) vnomask o w (Mat A) u
    (proj1 (proj1 Hw)) WA (wfv_wfvn _ (proj1 Hu)) I I (eq_trans (proj2 Hw) (eq_sym RA)) (eq_trans (proj1 (proj2 Hu)) (eq_sym CA)) I)) as (x & E & H).
  exists x. split; [auto|]. eapply vis_ext; [exact H|]. intros i Hi. simpl. unfold smulv. rewrite CA. f_equal. apply map_ext_in. intros k Hk.
  apply in_seq in Hk. rewrite GA, (vis_get K u fu) by (auto; lia). auto.
Qed.
Lemma mxv_trn_vis (add mult : T -> T -> T) R K w A u a fu : (forall x y, mult x y = mult y x) ->
  vshaped K w -> rc R K A a -> vis R u fu ->
  exists x, mxv_call o add mult w (Trn A) u = Ok x /\ vis K x (smulv add mult R (fun i j => a j i) fu).
Proof.
  intros C Hw (WA & RA & CA & GA) Hu.
  destruct (vis_plain_written K o w _ (mxv_call o add mult w (Trn A) u) Hw (mxv_ok add mult mult btrue idc (NoAcc idc) vnomask o w (Trn A) u
    (proj1 (proj1 Hw)) WA (wfv_wfvn _ (proj1 Hu)) I I (eq_trans (proj2 Hw) (eq_sym CA)) (eq_trans (proj1 (proj2 Hu)) (eq_sym RA))
    (fun x y => C y x))) as (x & E & H).
  exists x. split; [auto|]. eapply vis_ext; [exact H|]. intros i Hi. simpl. unfold smulv, stran. rewrite RA. f_equal. apply map_ext_in. intros k Hk.
  apply in_seq in Hk. rewrite GA, (vis_get R u fu) by (auto; lia). auto.
Qed.
Lemma vxm_vis (add mult : T -> T -> T) R K w u A a fu : vshaped K w -> rc R K A a -> vis R u fu ->
  exists x, vxm_call o add mult w u (Mat A) = Ok x /\ vis K x (svmul add mult R fu a).
Proof.
  intros Hw (WA & RA & CA & GA) Hu.
  destruct (vis_plain_written K o w _ (vxm_call o add mult w u (Mat A)) Hw (vxm_ok add mult btrue idc (NoAcc idc) vnomask o w u (Mat A)
    (proj1 (proj1 Hw)) WA (wfv_wfvn _ (proj1 Hu)) I I (eq_trans (proj2 Hw) (eq_sym CA)) (eq_trans (proj1 (proj2 Hu)) (eq_sym RA)))) as (x & E & H).
  exists x. split; [auto|]. eapply vis_ext; [exact H|]. intros i Hi. simpl. unfold svmul. rewrite RA. f_equal. apply map_ext_in. intros k Hk.
  apply in_seq in Hk. rewrite GA, (vis_get R u fu) by (auto; lia). auto.
Qed.
Lemma reduce_vis (op : T -> T -> T) R K w A a : vshaped R w -> rc R K A a ->
  exists x, reduce_call o op w (Mat A) = Ok x /\ vis R x (fun i => osum op (map (a i) (seq 0 K))).
Proof.
  intros Hw (WA & RA & CA & GA).
  destruct (vis_plain_written R o w _ (reduce_call o op w (Mat A)) Hw (reduce_ok idc op op btrue idc (NoAcc idc) vnomask o w (Mat A)
    (fun _ _ => eq_refl) (proj1 (proj1 Hw)) WA I (conj I (eq_trans (proj2 Hw) (eq_sym RA))))) as (x & E & H).
  exists x. split; [auto|]. eapply vis_ext; [exact H|]. intros i Hi. simpl. rewrite CA. unfold ofold, osum.
  rewrite (map_ext_in (fun j => mget A i j) (a i) (seq 0 K)) by (intros k Hk; apply in_seq in Hk; apply GA; lia).
  generalize (map (a i) (seq 0 K)), (@None T). induction l as [|z l IH]; intro s; simpl; auto. rewrite IH. destruct s, z; auto.
Qed.

(** Laws. *)
Variables add mult : T -> T -> T.
Lemma law_vadd_comm N (u v w x : bvec T) : (forall a b, add a b = add b a) ->
  vshaped N u -> vshaped N v -> vshaped N w -> vshaped N x -> vagree (vadd_call o add w u v) (vadd_call o add x v u).
Proof.
  intros H Hu%vshaped_vis Hv%vshaped_vis Hw Hx. apply (vis_vagree N _ _ _ (vadd_vis add N w u v _ _ Hw Hu Hv)).
  destruct (vadd_vis add N x v u _ _ Hx Hv Hu) as (y & E & V). exists y. split; [auto|]. eapply vis_ext; [exact V|]. intros.
  apply ounion_comm. auto.
Qed.
Lemma law_vadd_assoc N (u v z p q w x : bvec T) : (forall a b c, add (add a b) c = add a (add b c)) ->
  vshaped N u -> vshaped N v -> vshaped N z -> vshaped N p -> vshaped N q -> vshaped N w -> vshaped N x ->
  vagree (uv <- vadd_call o add p u v ;; vadd_call o add w uv z) (vz <- vadd_call o add q v z ;; vadd_call o add x u vz).
Proof.
  intros H Hu%vshaped_vis Hv%vshaped_vis Hz%vshaped_vis Hp Hq Hw Hx.
  destruct (vadd_vis add N p u v _ _ Hp Hu Hv) as (m & -> & V). cbn [bind].
  destruct (vadd_vis add N q v z _ _ Hq Hv Hz) as (n & -> & V'). cbn [bind].
  apply (vis_vagree N _ _ _ (vadd_vis add N w m z _ _ Hw V Hz)).
  destruct (vadd_vis add N x u n _ _ Hx Hu V') as (y & E & G). exists y. split; [auto|]. eapply vis_ext; [exact G|]. intros.
  symmetry. apply ounion_assoc. auto.
Qed.
Lemma law_vmult_comm N (u v w x : bvec T) : (forall a b, mult a b = mult b a) ->
  vshaped N u -> vshaped N v -> vshaped N w -> vshaped N x -> vagree (vmult_call o mult w u v) (vmult_call o mult x v u).
Proof.
  intros H Hu%vshaped_vis Hv%vshaped_vis Hw Hx. apply (vis_vagree N _ _ _ (vmult_vis mult N w u v _ _ Hw Hu Hv)).
  destruct (vmult_vis mult N x v u _ _ Hx Hv Hu) as (y & E & V). exists y. split; [auto|]. eapply vis_ext; [exact V|]. intros.
  apply omap2_comm. auto.
Qed.
Lemma law_vmult_assoc N (u v z p q w x : bvec T) : (forall a b c, mult (mult a b) c = mult a (mult b c)) ->
  vshaped N u -> vshaped N v -> vshaped N z -> vshaped N p -> vshaped N q -> vshaped N w -> vshaped N x ->
  vagree (uv <- vmult_call o mult p u v ;; vmult_call o mult w uv z) (vz <- vmult_call o mult q v z ;; vmult_call o mult x u vz).
Proof.
  intros H Hu%vshaped_vis Hv%vshaped_vis Hz%vshaped_vis Hp Hq Hw Hx.
  destruct (vmult_vis mult N p u v _ _ Hp Hu Hv) as (m & -> & V). cbn [bind].
  destruct (vmult_vis mult N q v z _ _ Hq Hv Hz) as (n & -> & V'). cbn [bind].
  apply (vis_vagree N _ _ _ (vmult_vis mult N w m z _ _ Hw V Hz)).
  destruct (vmult_vis mult N x u n _ _ Hx Hu V') as (y & E & G). exists y. split; [auto|]. eapply vis_ext; [exact G|]. intros.
  symmetry. apply omap2_assoc. auto.
Qed.
Lemma law_vmult_add N (u v z p q s w x : bvec T) : (forall a b c, mult a (add b c) = add (mult a b) (mult a c)) ->
  vshaped N u -> vshaped N v -> vshaped N z -> vshaped N p -> vshaped N q -> vshaped N s -> vshaped N w -> vshaped N x ->
  vagree (vz <- vadd_call o add p v z ;; vmult_call o mult w u vz)
         (uv <- vmult_call o mult q u v ;; uz <- vmult_call o mult s u z ;; vadd_call o add x uv uz).
Proof.
  intros H Hu%vshaped_vis Hv%vshaped_vis Hz%vshaped_vis Hp Hq Hs Hw Hx.
  destruct (vadd_vis add N p v z _ _ Hp Hv Hz) as (m & -> & V). cbn [bind].
  destruct (vmult_vis mult N q u v _ _ Hq Hu Hv) as (n & -> & V'). cbn [bind].
  destruct (vmult_vis mult N s u z _ _ Hs Hu Hz) as (n' & -> & V2). cbn [bind].
  apply (vis_vagree N _ _ _ (vmult_vis mult N w u m _ _ Hw Hu V)).
  destruct (vadd_vis add N x n n' _ _ Hx V' V2) as (y & E & G). exists y. split; [auto|]. eapply vis_ext; [exact G|]. intros.
  symmetry. apply omap2_dist. auto.
Qed.
Lemma law_vapply_vapply (f g : T -> T) N (u p w x : bvec T) :
  vshaped N u -> vshaped N p -> vshaped N w -> vshaped N x ->
  vagree (v <- vapply_call o g p u ;; vapply_call o f w v) (vapply_call o (fun a => f (g a)) x u).
Proof.
  intros Hu%vshaped_vis Hp Hw Hx. destruct (vapply_vis g N p u _ Hp Hu) as (m & -> & V). cbn [bind].
  apply (vis_vagree N _ _ _ (vapply_vis f N w m _ Hw V)).
  destruct (vapply_vis (fun a => f (g a)) N x u _ Hx Hu) as (y & E & G). exists y. split; [auto|]. eapply vis_ext; [exact G|].
  intros i _. cbv beta. destruct (vget u i); auto.
Qed.

Hypothesis add_assoc : forall a b c, add (add a b) c = add a (add b c).
Hypothesis add_comm : forall a b, add a b = add b a.
Lemma law_mxv_mxm R L K (A B P : lil T) (u p w x : bvec T) :
  (forall a b c, mult (mult a b) c = mult a (mult b c)) ->
  (forall a b c, mult a (add b c) = add (mult a b) (mult a c)) -> (forall a b c, mult (add a b) c = add (mult a c) (mult b c)) ->
  shaped R L A -> shaped L K B -> vshaped K u -> shaped R K P -> vshaped L p -> vshaped R w -> vshaped R x ->
  vagree (AB <- mxm_call o add mult P A B ;; mxv_call o add mult w (Mat AB) u)
         (Bu <- mxv_call o add mult p (Mat B) u ;; mxv_call o add mult x (Mat A) Bu).
Proof.
  intros ma dl dr HA%shaped_rc HB%shaped_rc Hu%vshaped_vis HP Hp Hw Hx.
  destruct (mxm_rc o add mult R L K P A B _ _ HP HA HB) as (M & -> & V). cbn [bind].
  destruct (mxv_vis add mult L K p B u _ _ Hp HB Hu) as (m & -> & V'). cbn [bind].
  apply (vis_vagree R _ _ _ (mxv_vis add mult R K w M u _ _ Hw V Hu)).
  destruct (mxv_vis add mult R L x A m _ _ Hx HA V') as (y & E & G). exists y. split; [auto|]. eapply vis_ext; [exact G|].
  intros i _. symmetry. apply (smul_assoc add mult add_assoc add_comm ma dl dr (mget A) (mget B) (fun k _ => vget u k) L K i 0).
Qed.
Lemma law_vxm_mxm R L K (A B P : lil T) (u p w x : bvec T) :
  (forall a b c, mult (mult a b) c = mult a (mult b c)) ->
  (forall a b c, mult a (add b c) = add (mult a b) (mult a c)) -> (forall a b c, mult (add a b) c = add (mult a c) (mult b c)) ->
  shaped R L A -> shaped L K B -> vshaped R u -> shaped R K P -> vshaped L p -> vshaped K w -> vshaped K x ->
  vagree (AB <- mxm_call o add mult P A B ;; vxm_call o add mult w u (Mat AB))
         (uA <- vxm_call o add mult p u (Mat A) ;; vxm_call o add mult x uA (Mat B)).
Proof.
  intros ma dl dr HA%shaped_rc HB%shaped_rc Hu%vshaped_vis HP Hp Hw Hx.
  destruct (mxm_rc o add mult R L K P A B _ _ HP HA HB) as (M & -> & V). cbn [bind].
  destruct (vxm_vis add mult R L p u A _ _ Hp HA Hu) as (m & -> & V'). cbn [bind].
  apply (vis_vagree K _ _ _ (vxm_vis add mult R K w u M _ _ Hw V Hu)).
  destruct (vxm_vis add mult L K x m B _ _ Hx HB V') as (y & E & G). exists y. split; [auto|]. eapply vis_ext; [exact G|].
  intros j _. apply (smul_assoc add mult add_assoc add_comm ma dl dr (fun _ k => vget u k) (mget A) (mget B) R L 0 j).
Qed.
Lemma law_mxv_vadd R K (A : lil T) (u v p q s w x : bvec T) :
  (forall a b c, mult a (add b c) = add (mult a b) (mult a c)) ->
  shaped R K A -> vshaped K u -> vshaped K v -> vshaped K p -> vshaped R q -> vshaped R s -> vshaped R w -> vshaped R x ->
  vagree (uv <- vadd_call o add p u v ;; mxv_call o add mult w (Mat A) uv)
         (Au <- mxv_call o add mult q (Mat A) u ;; Av <- mxv_call o add mult s (Mat A) v ;; vadd_call o add x Au Av).
Proof.
  intros dl HA%shaped_rc Hu%vshaped_vis Hv%vshaped_vis Hp Hq Hs Hw Hx.
  destruct (vadd_vis add K p u v _ _ Hp Hu Hv) as (m & -> & V). cbn [bind].
  destruct (mxv_vis add mult R K q A u _ _ Hq HA Hu) as (n & -> & V'). cbn [bind].
  destruct (mxv_vis add mult R K s A v _ _ Hs HA Hv) as (n' & -> & V2). cbn [bind].
  apply (vis_vagree R _ _ _ (mxv_vis add mult R K w A m _ _ Hw HA V)).
  destruct (vadd_vis add R x n n' _ _ Hx V' V2) as (y & E & G). exists y. split; [auto|]. eapply vis_ext; [exact G|].
  intros i _. unfold smulv. cbv beta. rewrite <- osum_ounion by auto. f_equal. apply map_ext. intro k. symmetry. apply omap2_dist. auto.
Qed.
Lemma law_vxm_vadd R K (A : lil T) (u v p q s w x : bvec T) :
  (forall a b c, mult (add a b) c = add (mult a c) (mult b c)) ->
  shaped R K A -> vshaped R u -> vshaped R v -> vshaped R p -> vshaped K q -> vshaped K s -> vshaped K w -> vshaped K x ->
  vagree (uv <- vadd_call o add p u v ;; vxm_call o add mult w uv (Mat A))
         (uA <- vxm_call o add mult q u (Mat A) ;; vA <- vxm_call o add mult s v (Mat A) ;; vadd_call o add x uA vA).
Proof.
  intros dr HA%shaped_rc Hu%vshaped_vis Hv%vshaped_vis Hp Hq Hs Hw Hx.
  destruct (vadd_vis add R p u v _ _ Hp Hu Hv) as (m & -> & V). cbn [bind].
  destruct (vxm_vis add mult R K q u A _ _ Hq HA Hu) as (n & -> & V'). cbn [bind].
  destruct (vxm_vis add mult R K s v A _ _ Hs HA Hv) as (n' & -> & V2). cbn [bind].
  apply (vis_vagree K _ _ _ (vxm_vis add mult R K w m A _ _ Hw HA V)).
  destruct (vadd_vis add K x n n' _ _ Hx V' V2) as (y & E & G). exists y. split; [auto|]. eapply vis_ext; [exact G|].
  intros i _. unfold svmul. cbv beta. rewrite <- osum_ounion by auto. f_equal. apply map_ext. intro k. symmetry. apply omap2_dist_r. auto.
Qed.
Lemma law_mxv_add R K (A B P : lil T) (u q s w x : bvec T) :
  (forall a b c, mult (add a b) c = add (mult a c) (mult b c)) ->
  shaped R K A -> shaped R K B -> shaped R K P -> vshaped K u -> vshaped R q -> vshaped R s -> vshaped R w -> vshaped R x ->
  vagree (AB <- add_call o add P A B ;; mxv_call o add mult w (Mat AB) u)
         (Au <- mxv_call o add mult q (Mat A) u ;; Bu <- mxv_call o add mult s (Mat B) u ;; vadd_call o add x Au Bu).
Proof.
  intros dr HA%shaped_rc HB%shaped_rc HP Hu%vshaped_vis Hq Hs Hw Hx.
  destruct (add_rc o add R K P A B _ _ HP HA HB) as (M & -> & V). cbn [bind].
  destruct (mxv_vis add mult R K q A u _ _ Hq HA Hu) as (n & -> & V'). cbn [bind].
  destruct (mxv_vis add mult R K s B u _ _ Hs HB Hu) as (n' & -> & V2). cbn [bind].
  apply (vis_vagree R _ _ _ (mxv_vis add mult R K w M u _ _ Hw V Hu)).
  destruct (vadd_vis add R x n n' _ _ Hx V' V2) as (y & E & G). exists y. split; [auto|]. eapply vis_ext; [exact G|].
  intros i _. unfold smulv. cbv beta. rewrite <- osum_ounion by auto. f_equal. apply map_ext. intro k. symmetry. apply omap2_dist_r. auto.
Qed.
Lemma law_reduce_add R K (A B P : lil T) (q s w x : bvec T) :
  shaped R K A -> shaped R K B -> shaped R K P -> vshaped R q -> vshaped R s -> vshaped R w -> vshaped R x ->
  vagree (AB <- add_call o add P A B ;; reduce_call o add w (Mat AB))
         (a <- reduce_call o add q (Mat A) ;; b <- reduce_call o add s (Mat B) ;; vadd_call o add x a b).
Proof.
  intros HA%shaped_rc HB%shaped_rc HP Hq Hs Hw Hx.
  destruct (add_rc o add R K P A B _ _ HP HA HB) as (M & -> & V). cbn [bind].
  destruct (reduce_vis add R K q A _ Hq HA) as (n & -> & V'). cbn [bind].
  destruct (reduce_vis add R K s B _ Hs HB) as (n' & -> & V2). cbn [bind].
  apply (vis_vagree R _ _ _ (reduce_vis add R K w M _ Hw V)).
  destruct (vadd_vis add R x n n' _ _ Hx V' V2) as (y & E & G). exists y. split; [auto|]. eapply vis_ext; [exact G|].
  intros i _. cbv beta. rewrite <- osum_ounion by auto. auto.
Qed.
End Ops.

Section More.
Context {T : Type} (o : outmode) (add mult : T -> T -> T).
(** A product with a vector on the left is a product of the transposed matrix with the vector on the right. *)
Lemma law_vxm_mxv R K (A : lil T) (u w x : bvec T) : (forall a b, mult a b = mult b a) ->
  shaped R K A -> vshaped R u -> vshaped K w -> vshaped K x ->
  vagree (vxm_call o add mult w u (Mat A)) (mxv_call o add mult x (Trn A) u).
Proof.
  intros C HA%shaped_rc Hu%vshaped_vis Hw Hx. apply (vis_vagree K _ _ _ (vxm_vis o add mult R K w u A _ _ Hw HA Hu)).
  destruct (mxv_trn_vis o add mult R K x A u _ _ C Hx HA Hu) as (y & E & G). exists y. split; [auto|]. eapply vis_ext; [exact G|].
  intros i _. unfold smulv, svmul. f_equal. apply map_ext. intro k. apply omap2_comm. auto.
Qed.
(** Row sums are the product with a vector of ones. *)
Lemma law_reduce_ones (one : T) R K (A : lil T) (u w x : bvec T) : (forall a, mult a one = a) ->
  shaped R K A -> vshaped K u -> (forall j, j < K -> vget u j = Some one) -> vshaped R w -> vshaped R x ->
  vagree (reduce_call o add w (Mat A)) (mxv_call o add mult x (Mat A) u).
Proof.
  intros C HA%shaped_rc Hu%vshaped_vis H1 Hw Hx. apply (vis_vagree R _ _ _ (reduce_vis o add R K w A _ Hw HA)).
  destruct (mxv_vis o add mult R K x A u _ _ Hx HA Hu) as (y & E & G). exists y. split; [auto|]. eapply vis_ext; [exact G|].
  intros i _. unfold smulv. f_equal. apply map_ext_in. intros k Hk. apply in_seq in Hk. rewrite H1 by lia.
  destruct (mget A i k); simpl; auto. rewrite C. auto.
Qed.
End More.

(** ** A call under a mask and then under its complement *)
Lemma mask_not_wf {X} (m : mask (lil X)) : wfmask m -> wfmask (mask_not m).
Proof. destruct m; auto. Qed.
Lemma mask_not_fits {X} (m : mask (lil X)) r k : mask_fits m r k -> mask_fits (mask_not m) r k.
Proof. destruct m; auto. Qed.
Lemma vmask_not_wf {X} (m : mask (bvec X)) : wfvmask m -> wfvmask (mask_not m).
Proof. destruct m; auto. Qed.
Lemma vmask_not_fits {X} (m : mask (bvec X)) n : vmask_fits m n -> vmask_fits (mask_not m) n.
Proof. destruct m; auto. Qed.
Lemma mask_not_allows {X} (t : X -> bool) m i j : m <> NoMask -> mask_allows t (mask_not m) i j = negb (mask_allows t m i j).
Proof. destruct m; simpl; auto; try congruence; intros; rewrite negb_involutive; auto. Qed.
Lemma vmask_not_allows {X} (t : X -> bool) m i : m <> NoMask -> vmask_allows t (mask_not m) i = negb (vmask_allows t m i).
Proof. destruct m; simpl; auto; try congruence; intros; rewrite negb_involutive; auto. Qed.

Lemma split_gen {TC TZ TM} (truthy : TM -> bool) (zc : TZ -> TC) (Zf : option TC -> nat -> nat -> option TZ) (m : mask (lil TM)) (C : lil TC)
    (r1 : res (lil TC)) (f2 : lil TC -> res (lil TC)) (r : res (lil TC)) : m <> NoMask ->
  (exists C', r1 = Ok C' /\ wfm C' /\ nrows C' = nrows C /\ ncols C' = ncols C /\ forall i j, i < nrows C -> j < ncols C ->
     mget C' i j = spec_write zc (mask_allows truthy m i j) MERGE (mget C i j) (Zf (mget C i j) i j)) ->
  (forall D, wfm D -> nrows D = nrows C -> ncols D = ncols C ->
     exists C', f2 D = Ok C' /\ wfm C' /\ nrows C' = nrows D /\ ncols C' = ncols D /\ forall i j, i < nrows D -> j < ncols D ->
     mget C' i j = spec_write zc (mask_allows truthy (mask_not m) i j) MERGE (mget D i j) (Zf (mget D i j) i j)) ->
  (exists C', r = Ok C' /\ wfm C' /\ nrows C' = nrows C /\ ncols C' = ncols C /\ forall i j, i < nrows C -> j < ncols C ->
     mget C' i j = option_map zc (Zf (mget C i j) i j)) ->
  agree (D <- r1 ;; f2 D) r.
Proof.
  intros Hm (C1 & -> & W1 & R1 & K1 & G1) H2 (C3 & -> & W3 & R3 & K3 & G3). cbn [bind].
  destruct (H2 C1 W1 R1 K1) as (C2 & -> & W2 & R2 & K2 & G2). exists C3. split; [|auto]. f_equal. apply lil_ext; auto; try congruence.
  intros i j Hi Hj. rewrite R2, R1 in Hi. rewrite K2, K1 in Hj. rewrite G2 by congruence. rewrite G3, mask_not_allows by auto.
  unfold spec_write. rewrite G1 by auto. unfold spec_write.
  destruct (mask_allows truthy m i j); simpl; auto.
Qed.
Lemma vsplit_gen {TW TZ TM} (truthy : TM -> bool) (zc : TZ -> TW) (Zf : option TW -> nat -> option TZ) (m : mask (bvec TM)) (w : bvec TW)
    (r1 : res (bvec TW)) (f2 : bvec TW -> res (bvec TW)) (r : res (bvec TW)) : m <> NoMask ->
  (exists x, r1 = Ok x /\ wfv x /\ vsize x = vsize w /\ forall i, i < vsize w ->
     vget x i = spec_write zc (vmask_allows truthy m i) MERGE (vget w i) (Zf (vget w i) i)) ->
  (forall y, wfv y -> vsize y = vsize w -> exists x, f2 y = Ok x /\ wfv x /\ vsize x = vsize y /\ forall i, i < vsize y ->
     vget x i = spec_write zc (vmask_allows truthy (mask_not m) i) MERGE (vget y i) (Zf (vget y i) i)) ->
  (exists x, r = Ok x /\ wfv x /\ vsize x = vsize w /\ forall i, i < vsize w -> vget x i = option_map zc (Zf (vget w i) i)) ->
  vagree (y <- r1 ;; f2 y) r.
Proof.
  intros Hm (C1 & -> & W1 & S1 & G1) H2 (C3 & -> & W3 & S3 & G3). cbn [bind].
  destruct (H2 C1 W1 S1) as (C2 & -> & W2 & S2 & G2).
  apply (vis_vagree (vsize w) _ _ (fun i => option_map zc (Zf (vget w i) i))).
  - exists C2. split; [auto|]. split; [auto|]. split; [congruence|]. intros i Hi. rewrite G2 by congruence. rewrite vmask_not_allows by auto.
    unfold spec_write. rewrite G1 by auto. unfold spec_write. destruct (vmask_allows truthy m i); simpl; auto.
  - exists C3. repeat split; auto; apply W3.
Qed.
Lemma split_written {TC TT TZ TM} (truthy : TM -> bool) (zc : TZ -> TC) (a : accum TC TT TZ) (m : mask (lil TM)) o (C : lil TC) t r1 f2 r :
  m <> NoMask -> written truthy zc a m MERGE C t r1 ->
  (forall D, wfm D -> nrows D = nrows C -> ncols D = ncols C -> written truthy zc a (mask_not m) MERGE D t (f2 D)) ->
  written truthy zc a (@NoMask (lil TM)) o C t r -> agree (D <- r1 ;; f2 D) r.
Proof.
  intros Hm H1 H2 H3. apply (split_gen truthy zc (fun c i j => spec_accum a c (t i j)) m C); auto.
Qed.
Lemma vsplit_written {TW TT TZ TM} (truthy : TM -> bool) (zc : TZ -> TW) (a : accum TW TT TZ) (m : mask (bvec TM)) o (w : bvec TW) t r1 f2 r :
  m <> NoMask -> vwritten truthy zc a m MERGE w t r1 ->
  (forall y, wfv y -> vsize y = vsize w -> vwritten truthy zc a (mask_not m) MERGE y t (f2 y)) ->
  vwritten truthy zc a (@NoMask (bvec TM)) o w t r -> vagree (y <- r1 ;; f2 y) r.
Proof.
  intros Hm H1 H2 H3. apply (vsplit_gen truthy zc (fun c i => spec_accum a c (t i)) m w); auto.
Qed.
Lemma split_assigned {TC TT TZ TM} cz' (truthy : TM -> bool) (zc : TZ -> TC) (a : accum TC TT TZ) (m : mask (lil TM)) o (C : lil TC) reg t r1 f2 r :
  m <> NoMask -> assigned cz' truthy zc a m MERGE C reg t r1 ->
  (forall D, wfm D -> nrows D = nrows C -> ncols D = ncols C -> assigned cz' truthy zc a (mask_not m) MERGE D reg t (f2 D)) ->
  assigned cz' truthy zc a (@NoMask (lil TM)) o C reg t r -> agree (D <- r1 ;; f2 D) r.
Proof.
  intros Hm H1 H2 H3. apply (split_gen truthy zc (fun c i j => spec_assign a cz' (reg i j) c (t i j)) m C); auto.
Qed.
Lemma vsplit_assigned {TW TT TZ TM} cz' (truthy : TM -> bool) (zc : TZ -> TW) (a : accum TW TT TZ) (m : mask (bvec TM)) o (w : bvec TW) reg t r1 f2 r :
  m <> NoMask -> vassigned cz' truthy zc a m MERGE w reg t r1 ->
  (forall y, wfv y -> vsize y = vsize w -> vassigned cz' truthy zc a (mask_not m) MERGE y reg t (f2 y)) ->
  vassigned cz' truthy zc a (@NoMask (bvec TM)) o w reg t r -> vagree (y <- r1 ;; f2 y) r.
Proof.
  intros Hm H1 H2 H3. apply (vsplit_gen truthy zc (fun c i => spec_assign a cz' (reg i) c (t i)) m w); auto.
Qed.
