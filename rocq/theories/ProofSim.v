(** Every operation takes the same course over two scalar types whose elements, operators and tests are related. *)
From Coq Require Import Lia.
From Verif Require Import Base ModelLil ModelVec ModelHelpers ModelViews ModelMul ModelElem ModelIndex ModelCalls ModelMachine.
From Verif Require Import SpecRel SpecSim.

(** ** Generic *)
Lemma bind_sim {A A' B B'} (RA : A -> A' -> Prop) (RB : B -> B' -> Prop) x x' f f' :
  same_res RA x x' -> (forall a a', RA a a' -> same_res RB (f a) (f' a')) -> same_res RB (bind x f) (bind x' f').
Proof. destruct x, x'; simpl; intros; try contradiction; auto. Qed.

Lemma mfor_sim {I I' S S'} (RI : I -> I' -> Prop) (RS : S -> S' -> Prop) l l' b b' s s' :
  RS s s' -> Forall2 RI l l' ->
  (forall i i' s s', RI i i' -> RS s s' -> same_res RS (b i s) (b' i' s')) ->
  same_res RS (mfor l b s) (mfor l' b' s').
Proof.
  intros H0 F HB. revert s s' H0. induction F; intros s s' H0; simpl; auto.
  eapply bind_sim; [apply HB; eauto|]. intros. apply IHF; auto.
Qed.

Lemma Forall2_same {A} (l : list A) : Forall2 eq l l.
Proof. induction l; constructor; auto. Qed.
Lemma Forall2_eq {A} (l l' : list A) : Forall2 eq l l' -> l = l'.
Proof. induction 1; congruence. Qed.

Lemma mfor_sim_eq {I S S'} (RS : S -> S' -> Prop) (l : list I) b b' s s' :
  RS s s' -> (forall i s s', RS s s' -> same_res RS (b i s) (b' i s')) ->
  same_res RS (mfor l b s) (mfor l b' s').
Proof. intros. apply (mfor_sim eq); auto. apply Forall2_same. intros ? ? ? ? -> ?. auto. Qed.

Lemma throw_sim b e : same_res eq (throw_if b e) (throw_if b e).
Proof. destruct b; reflexivity. Qed.
Lemma refl_sim {A} (r : res A) : same_res eq r r.
Proof. destruct r; reflexivity. Qed.

Section L.
Context {A A' : Type} (P : A -> A' -> Prop).
Lemma F2_app l l' m m' : Forall2 P l l' -> Forall2 P m m' -> Forall2 P (l ++ m) (l' ++ m').
Proof. apply Forall2_app. Qed.
Lemma F2_length l l' : Forall2 P l l' -> length l = length l'.
Proof. induction 1; simpl; auto. Qed.
Lemma empty_sim l l' : Forall2 P l l' -> empty l = empty l'.
Proof. destruct 1; auto. Qed.
Lemma F2_nth l l' k : Forall2 P l l' -> orel P (nth_error l k) (nth_error l' k).
Proof. intro F. revert k. induction F; intros [|k]; simpl; auto. Qed.
Lemma vat_sim l l' k : Forall2 P l l' -> same_res P (vat l k) (vat l' k).
Proof. intro F. unfold vat. pose proof (F2_nth _ _ k F) as N. destruct (nth_error l k), (nth_error l' k); simpl in *; tauto. Qed.
Lemma upd_sim l l' k a a' : Forall2 P l l' -> P a a' -> Forall2 P (upd l k a) (upd l' k a').
Proof. intros F H. revert k. induction F; intros [|k]; simpl; constructor; auto. Qed.
Lemma vset_sim l l' k a a' : Forall2 P l l' -> P a a' -> same_res (Forall2 P) (vset l k a) (vset l' k a').
Proof.
  intros F H. unfold vset. rewrite <- (F2_length _ _ F). destruct (k <? length l); simpl; auto. apply upd_sim; auto.
Qed.
Lemma repeat_sim a a' n : P a a' -> Forall2 P (repeat a n) (repeat a' n).
Proof. intro. induction n; simpl; constructor; auto. Qed.
Lemma firstn_sim n : forall l l', Forall2 P l l' -> Forall2 P (firstn n l) (firstn n l').
Proof. induction n; intros l l' F; simpl; [constructor|]. destruct F; constructor; auto. Qed.
Lemma vresize_sim l l' n d d' : Forall2 P l l' -> P d d' -> Forall2 P (vresize l n d) (vresize l' n d').
Proof.
  intros F H. unfold vresize. rewrite <- (F2_length _ _ F). apply F2_app; [apply firstn_sim|apply repeat_sim]; auto.
Qed.
End L.

Lemma F2_map {A A' B B'} (P : A -> A' -> Prop) (Q : B -> B' -> Prop) f f' l l' :
  Forall2 P l l' -> (forall x x', P x x' -> Q (f x) (f' x')) -> Forall2 Q (map f l) (map f' l').
Proof. induction 1; simpl; constructor; auto. Qed.
Lemma F2_map_eq {A B B'} (Q : B -> B' -> Prop) f f' (l : list A) :
  (forall x, Q (f x) (f' x)) -> Forall2 Q (map f l) (map f' l).
Proof. intro. induction l; simpl; constructor; auto. Qed.
Lemma F2_fold {A A' S S'} (P : A -> A' -> Prop) (RS : S -> S' -> Prop) f f' l l' :
  Forall2 P l l' -> (forall s s' x x', RS s s' -> P x x' -> RS (f s x) (f' s' x')) ->
  forall s s', RS s s' -> RS (fold_left f l s) (fold_left f' l' s').
Proof. induction 1; simpl; intros; auto. Qed.

Lemma cast_row_sim {S S' T T'} (RS : S -> S' -> Prop) (RT : T -> T' -> Prop) c c' r r' :
  rel1 RS RT c c' -> same_row RS r r' -> same_row RT (cast_row c r) (cast_row c' r').
Proof.
  intros Hc F. unfold cast_row, same_row. eapply F2_map; [exact F|].
  intros [j v] [j' v'] [E V]; simpl in *. split; auto.
Qed.
Lemma same_row_eq {T} (r r' : row T) : same_row eq r r' -> r = r'.
Proof. induction 1 as [|[? ?] [? ?] ? ? [? ?]]; simpl in *; congruence. Qed.
Lemma cast_row_flag {S S'} (RS : S -> S' -> Prop) (c : S -> bool) c' r r' :
  rel1 RS eq c c' -> same_row RS r r' -> cast_row c r = cast_row c' r'.
Proof. intros. apply same_row_eq. eapply cast_row_sim; eauto. Qed.

Section Sim.
Context {T T' : Type} (R : T -> T' -> Prop).
Notation rw := (same_row R).
Notation sl := (same_lil R).
Notation sv := (same_vec R).
Notation pr := (fun p p' => fst p = fst p' /\ R (snd p) (snd p')).

Lemma id_sim : rel1 R R (fun x => x) (fun x => x).
Proof. intros x x' H. auto. Qed.

Lemma nil_sim : rw [] [].
Proof. constructor. Qed.
Lemma cons_sim j v v' r r' : R v v' -> rw r r' -> rw ((j, v) :: r) ((j, v') :: r').
Proof. intros. constructor; auto. Qed.
Lemma push_sim r r' j v v' : rw r r' -> R v v' -> rw (r ++ [(j, v)]) (r' ++ [(j, v')]).
Proof. intros. apply F2_app; auto. Qed.
Lemma app_sim r r' q q' : rw r r' -> rw q q' -> rw (r ++ q) (r' ++ q').
Proof. apply F2_app. Qed.

Lemma mk_sim nr nc nv d d' : Forall2 rw d d' -> sl (mkLil nr nc nv d) (mkLil nr nc nv d').
Proof. intro. repeat split; auto. Qed.
Lemma new_sim nr nc : sl (lil_new nr nc) (lil_new nr nc).
Proof. apply mk_sim. apply repeat_sim. constructor. Qed.
Lemma getrow_sim M M' i : sl M M' -> same_res rw (getrow M i) (getrow M' i).
Proof. intros (_ & _ & _ & D). apply vat_sim; auto. Qed.

(** Take related matrices (vectors) apart. *)
Ltac open :=
  repeat match goal with
  | H : sl ?M ?M' |- _ =>
      is_var M; is_var M'; destruct M as [?nr ?nc ?nv ?d], M' as [?nr ?nc ?nv ?d]; destruct H as (? & ? & ? & ?); cbn [nrows ncols nvals data] in *; subst
  | H : sv ?M ?M' |- _ =>
      is_var M; is_var M'; destruct M as [?n ?nv ?l ?b], M' as [?n ?nv ?l ?b]; destruct H as (? & ? & ? & ?); cbn [vsize vnvals vvals vbits] in *; subst
  | H : sl (mkLil _ _ _ _) (mkLil _ _ _ _) |- _ => destruct H as (? & ? & ? & ?); cbn [nrows ncols nvals data] in *; subst
  end.

Lemma row_ind2 (P : row T -> row T' -> Prop) :
  P [] [] -> (forall j v v' r r', R v v' -> rw r r' -> P r r' -> P ((j, v) :: r) ((j, v') :: r')) ->
  forall r r', rw r r' -> P r r'.
Proof.
  intros H0 HS. induction 1 as [|[j v] [j' v'] r r' [E V] F IH]; auto. simpl in *; subst. apply HS; auto.
Qed.
Lemma rw_inv r r' : rw r r' -> (r = [] /\ r' = []) \/
  exists j v v' q q', r = (j, v) :: q /\ r' = (j, v') :: q' /\ R v v' /\ rw q q'.
Proof.
  destruct 1 as [|[j v] [j' v'] r r' [E V] F]; auto. simpl in *; subst. right. eexists _, _, _, _, _; repeat split; eauto.
Qed.

(** ** Rows *)
Lemma row_find_sim r r' j : rw r r' -> orel R (row_find r j) (row_find r' j).
Proof. induction 1 as [|[k x] [k0 x'] r r' [E X] F IH]; [|cbn [fst snd] in E, X; subst k0]; simpl; auto. destruct (_ =? _); simpl; auto. Qed.
Lemma row_set_sim f f' r r' j v v' : rel2 R R R f f' -> R v v' -> rw r r' ->
  rw (fst (row_set f r j v)) (fst (row_set f' r' j v')) /\ snd (row_set f r j v) = snd (row_set f' r' j v').
Proof.
  intros Hf V. induction 1 as [|[k x] [k0 x'] r r' [E X] F IH]; [|cbn [fst snd] in E, X; subst k0]; simpl.
  - split; auto. repeat constructor; auto.
  - destruct (_ =? _); simpl; [split; auto; apply cons_sim; auto|].
    destruct (_ <? _); simpl; [split; auto; repeat apply cons_sim; auto|].
    destruct (row_set f r j v), (row_set f' r' j v'); simpl in *. destruct IH. split; auto. apply cons_sim; auto.
Qed.
Lemma row_remove_sim r r' j : rw r r' ->
  rw (fst (row_remove r j)) (fst (row_remove r' j)) /\ snd (row_remove r j) = snd (row_remove r' j).
Proof.
  induction 1 as [|[k x] [k0 x'] r r' [E X] F IH]; [|cbn [fst snd] in E, X; subst k0]; simpl.
  - split; auto. constructor.
  - destruct (_ =? _); simpl; [split; auto|].
    destruct (row_remove r j), (row_remove r' j); simpl in *. destruct IH. split; auto. apply cons_sim; auto.
Qed.
Lemma row_truncate_sim r r' n : rw r r' -> rw (row_truncate n r) (row_truncate n r').
Proof. induction 1 as [|[k x] [k0 x'] r r' [E X] F IH]; [|cbn [fst snd] in E, X; subst k0]; simpl; try constructor; auto. destruct (_ <? _); [apply cons_sim|apply nil_sim]; auto. Qed.
Lemma drop_sim r r' n : rw r r' -> rw (drop_below r n) (drop_below r' n).
Proof. induction 1 as [|[k x] [k0 x'] r r' [E X] F IH]; [|cbn [fst snd] in E, X; subst k0]; simpl; try constructor; auto. destruct (_ <? _); auto. apply cons_sim; auto. Qed.
Lemma take_sim r r' n : rw r r' -> rw (take_below r n) (take_below r' n).
Proof. induction 1 as [|[k x] [k0 x'] r r' [E X] F IH]; [|cbn [fst snd] in E, X; subst k0]; simpl; try constructor; auto. destruct (_ <? _); [apply cons_sim|apply nil_sim]; auto. Qed.

Lemma dot_loop_sim add add' mult mult' : rel2 R R R add add' -> rel2 R R R mult mult' ->
  forall r r', rw r r' -> forall q q', rw q q' -> forall o o', orel R o o' ->
  orel R (dot_loop add mult r q o) (dot_loop add' mult' r' q' o').
Proof.
  intros Ha Hm r r'. induction 1 as [|[j v] [j0 v'] r r' [E V] F IH]; [|cbn [fst snd] in E, V; subst j0].
  - intros q q' Q o o' O. destruct Q; simpl; auto.
  - intros q q'. induction 1 as [|[k x] [k0 x'] q q' [E X] G IHq]; [|cbn [fst snd] in E, X; subst k0]; intros o o' O; simpl; auto.
    destruct (k =? j).
    + apply IH; auto. destruct o, o'; simpl in *; try contradiction; auto.
    + destruct (j <? k); [apply (IH ((k, x) :: q) ((k, x') :: q')); auto; apply cons_sim; auto|].
      apply (IHq o o' O).
Qed.
Lemma dot_sim add add' mult mult' r r' q q' : rel2 R R R add add' -> rel2 R R R mult mult' -> rw r r' -> rw q q' ->
  orel R (dot add mult r q) (dot add' mult' r' q').
Proof. intros. apply dot_loop_sim; auto. exact I. Qed.
Lemma dot_rev_loop_sim add add' mult mult' : rel2 R R R add add' -> rel2 R R R mult mult' ->
  forall r r', rw r r' -> forall q q', rw q q' -> forall o o', orel R o o' ->
  orel R (dot_rev_loop add mult r q o) (dot_rev_loop add' mult' r' q' o').
Proof.
  intros Ha Hm r r'. induction 1 as [|[j v] [j0 v'] r r' [E V] F IH]; [|cbn [fst snd] in E, V; subst j0].
  - intros q q' Q o o' O. destruct Q; simpl; auto.
  - intros q q'. induction 1 as [|[k x] [k0 x'] q q' [E X] G IHq]; [|cbn [fst snd] in E, X; subst k0]; intros o o' O; simpl; auto.
    destruct (j =? k).
    + apply IH; auto. destruct o, o'; simpl in *; try contradiction; auto.
    + destruct (k <? j); [apply (IHq o o' O)|apply (IH ((k, x) :: q) ((k, x') :: q')); auto; apply cons_sim; auto].
Qed.
Lemma dot_rev_sim add add' mult mult' r r' q q' : rel2 R R R add add' -> rel2 R R R mult mult' -> rw r r' -> rw q q' ->
  orel R (dot_rev add mult r q) (dot_rev add' mult' r' q').
Proof. intros. apply dot_rev_loop_sim; auto. exact I. Qed.

Lemma reduction_sim c1 c1' op01 op01' op op' c3 c3' r r' : rel1 R R c1 c1' -> rel2 R R R op01 op01' -> rel2 R R R op op' -> rel1 R R c3 c3' ->
  rw r r' -> orel R (reduction c1 op01 op c3 r) (reduction c1' op01' op' c3' r').
Proof.
  intros H1 H2 H3 H4 F. destruct (rw_inv _ _ F) as [[-> ->]|(j & v & v' & q & q' & -> & -> & V & Q)]; [exact I|].
  destruct (rw_inv _ _ Q) as [[-> ->]|(k & x & x' & p & p' & -> & -> & X & P)]; simpl.
  - apply H4, H1, V.
  - apply H4. apply (F2_fold _ R _ _ _ _ P); [|apply H2; auto]. intros s s' y y' S [_ Y]. apply H3; auto.
Qed.

Lemma ewise_or_sim op op' c1 c1' c2 c2' : rel2 R R R op op' -> rel1 R R c1 c1' -> rel1 R R c2 c2' ->
  forall r r', rw r r' -> forall q q', rw q q' -> rw (ewise_or op c1 c2 r q) (ewise_or op' c1' c2' r' q').
Proof.
  intros Ho H1 H2 r r'. induction 1 as [|[j v] [j0 v'] r r' [E V] F IH]; [|cbn [fst snd] in E, V; subst j0].
  - intros q q' Q. pose proof (cast_row_sim _ _ _ _ _ _ H2 Q). destruct q, q'; auto.
  - intros q q'. induction 1 as [|[k x] [k0 x'] q q' [E X] G IHq]; [|cbn [fst snd] in E, X; subst k0].
    + apply (cast_row_sim _ _ _ _ _ _ H1 (cons_sim _ _ _ _ _ V F)).
    + simpl. destruct (k =? j); [apply cons_sim; auto|].
      destruct (j <? k); apply cons_sim; auto. apply (IH ((k, x) :: q) ((k, x') :: q')). apply cons_sim; auto.
Qed.
Lemma ewise_or_stencil_sim c1 c1' c2 c2' s : rel1 R R c1 c1' -> rel1 R R c2 c2' ->
  forall r r', rw r r' -> forall q q', rw q q' -> rw (ewise_or_stencil c1 c2 s r q) (ewise_or_stencil c1' c2' s r' q').
Proof.
  intros H1 H2 r r'. induction 1 as [|[j v] [j0 v'] r r' [E V] F IH]; [|cbn [fst snd] in E, V; subst j0].
  - intros q q'. induction 1 as [|[k x] [k0 x'] r r' [E X] F IH]; [|cbn [fst snd] in E, X; subst k0]; simpl; [apply nil_sim|apply cons_sim; auto].
  - intros q q'. induction 1 as [|[k x] [k0 x'] q q' [E X] G IHq]; [|cbn [fst snd] in E, X; subst k0].
    + simpl. destruct (negb _); [apply cons_sim; auto|]; apply (IH [] []); apply nil_sim.
    + simpl. destruct (k =? j); [apply cons_sim; auto|].
      destruct (j <? k); [|apply cons_sim; auto].
      assert (K : rw ((k, x) :: q) ((k, x') :: q')) by (apply cons_sim; auto).
      destruct (negb _); [apply cons_sim; auto|]; apply (IH _ _ K).
Qed.
Lemma ewise_and_sim op op' : rel2 R R R op op' ->
  forall r r', rw r r' -> forall q q', rw q q' -> rw (ewise_and op r q) (ewise_and op' r' q').
Proof.
  intros Ho r r'. induction 1 as [|[j v] [j0 v'] r r' [E V] F IH]; [|cbn [fst snd] in E, V; subst j0].
  - intros q q' Q. destruct q, q'; apply nil_sim.
  - intros q q'. induction 1 as [|[k x] [k0 x'] q q' [E X] G IHq]; [|cbn [fst snd] in E, X; subst k0]; [apply nil_sim|].
    simpl. destruct (k =? j); [apply cons_sim; auto|].
    destruct (j <? k); [|apply IHq]. apply (IH ((k, x) :: q) ((k, x') :: q')). apply cons_sim; auto.
Qed.

Lemma apply_with_mask_sim zc zc' outp (m : row bool) : rel1 R R zc zc' ->
  forall c c' z z', rw c c' -> rw z z' -> rw (apply_with_mask zc outp c z m) (apply_with_mask zc' outp c' z' m).
Proof.
  intro Hz. induction m as [|[mi b] m IH]; intros c c' z z' Hc HZ; simpl.
  - destruct outp; auto. apply nil_sim.
  - destruct b; [|auto].
    assert (D : rw match outp with MERGE => drop_below c mi | REPLACE => c end
                   match outp with MERGE => drop_below c' mi | REPLACE => c' end)
      by (destruct outp; auto; apply drop_sim; auto).
    pose proof (drop_sim _ _ mi HZ) as DZ.
    apply app_sim; [destruct outp; [apply take_sim; auto|apply nil_sim]|].
    apply app_sim.
    + destruct (rw_inv _ _ DZ) as [[-> ->]|(j & v & v' & q & q' & -> & -> & V & Q)]; [apply nil_sim|].
      destruct (j =? mi); [apply cons_sim; auto; apply nil_sim|apply nil_sim].
    + apply IH; auto.
      destruct (rw_inv _ _ D) as [[-> ->]|(j & v & v' & q & q' & -> & -> & V & Q)]; [apply nil_sim|].
      destruct (j =? mi); auto. apply cons_sim; auto.
Qed.

Lemma xpey_sim op op' c c' : rel2 R R R op op' -> rel1 R R c c' ->
  forall q q', rw q q' -> forall r r', rw r r' -> rw (xpey op c r q) (xpey op' c' r' q').
Proof.
  intros Ho Hc q q'. induction 1 as [|[j x] [j0 x'] q q' [E X] Q IH]; [|cbn [fst snd] in E, X; subst j0]; intros r r' F; simpl; auto.
  apply app_sim; [apply take_sim; auto|]. pose proof (drop_sim _ _ j F) as D.
  destruct (rw_inv _ _ D) as [[-> ->]|(k & v & v' & p & p' & -> & -> & V & P)].
  - apply cons_sim; auto. apply IH, nil_sim.
  - destruct (k =? j); apply cons_sim; auto. apply IH. apply cons_sim; auto.
Qed.
Lemma axpy_sim add add' mult mult' a a' : rel2 R R R add add' -> rel2 R R R mult mult' -> R a a' ->
  forall q q', rw q q' -> forall r r', rw r r' -> rw (axpy add mult a r q) (axpy add' mult' a' r' q').
Proof.
  intros Ho Hm Ha q q'. induction 1 as [|[j x] [j0 x'] q q' [E X] Q IH]; [|cbn [fst snd] in E, X; subst j0]; intros r r' F; simpl; auto.
  apply app_sim; [apply take_sim; auto|]. pose proof (drop_sim _ _ j F) as D.
  destruct (rw_inv _ _ D) as [[-> ->]|(k & v & v' & p & p' & -> & -> & V & P)].
  - apply cons_sim; auto. apply IH, nil_sim.
  - destruct (k =? j); apply cons_sim; auto. apply IH. apply cons_sim; auto.
Qed.

(** ** Matrices *)
Lemma setRow_sim c c' M M' i r r' : rel1 R R c c' -> sl M M' -> rw r r' -> same_res sl (setRow c M i r) (setRow c' M' i r').
Proof.
  intros Hc HM Hr. unfold setRow. eapply bind_sim; [apply getrow_sim; eauto|]. intros o o' O.
  eapply bind_sim; [apply vset_sim; [apply HM|eapply cast_row_sim; eauto]|]. intros d d' D.
  rewrite (F2_length _ _ _ O), (F2_length _ _ _ Hr). open. apply mk_sim; auto.
Qed.
Lemma setRow_id_sim M M' i r r' : sl M M' -> rw r r' -> same_res sl (setRow (fun x => x) M i r) (setRow (fun x => x) M' i r').
Proof. apply setRow_sim, id_sim. Qed.
Lemma putrow_sim M M' i r r' : sl M M' -> rw r r' -> same_res sl (putrow M i r) (putrow M' i r').
Proof.
  intros HM Hr. unfold putrow. eapply bind_sim; [apply vset_sim; [apply HM|eauto]|]. intros d d' D. open. apply mk_sim; auto.
Qed.
Lemma pushrow_sim M M' i j v v' : sl M M' -> R v v' -> same_res sl (pushrow M i (j, v)) (pushrow M' i (j, v')).
Proof.
  intros HM V. unfold pushrow. eapply bind_sim; [apply getrow_sim; eauto|]. intros r r' F. apply putrow_sim; auto. apply push_sim; auto.
Qed.
Lemma pushcol_sim g g' i r r' M M' : rel1 R R g g' -> rw r r' -> sl M M' -> same_res sl (pushcol g i r M) (pushcol g' i r' M').
Proof.
  intros Hg F HM. eapply mfor_sim; eauto. intros [j v] [j' v'] s s' [E V] HS; simpl in *; subst. apply pushrow_sim; auto.
Qed.
Lemma clear_sim M M' : sl M M' -> sl (lil_clear M) (lil_clear M').
Proof. intro H. open. apply mk_sim. eapply F2_map; eauto. intros; apply nil_sim. Qed.
Lemma count_rows_sim d d' : Forall2 rw d d' -> count_rows d = count_rows d'.
Proof.
  intro F. unfold count_rows. eapply (F2_fold rw eq); eauto. intros s s' x x' -> X. rewrite (F2_length _ _ _ X). auto.
Qed.
Lemma lil_eqb_sim eqb eqb' M M' N N' : rel2 R R eq eqb eqb' -> sl M M' -> sl N N' -> lil_eqb eqb M N = lil_eqb eqb' M' N'.
Proof.
  intros He HM HN.
  assert (RE : forall r r', rw r r' -> forall q q', rw q q' -> row_eqb eqb r q = row_eqb eqb' r' q').
  { intros r r'. induction 1 as [|[j v] [j0 v'] r r' [E V] F IH]; [|cbn [fst snd] in E, V; subst j0]; intros q q' Q;
      (destruct (rw_inv _ _ Q) as [[-> ->]|(k & x & x' & p & p' & -> & -> & X & P)]); simpl; auto.
    rewrite (He v v' x x'), (IH _ _ P); auto. }
  assert (RS : forall d d', Forall2 rw d d' -> forall e e', Forall2 rw e e' -> rows_eqb eqb d e = rows_eqb eqb' d' e').
  { induction 1; intros e e' E; destruct E; simpl; auto. rewrite (RE _ _ H _ _ H1), (IHForall2 _ _ E). auto. }
  destruct HM as (A1 & A2 & A3 & A4), HN as (B1 & B2 & B3 & B4). unfold lil_eqb. rewrite A1, A2, A3, B1, B2, B3, (RS _ _ A4 _ _ B4). auto.
Qed.
Lemma lil_resize_sim M M' nr nc : sl M M' -> sl (lil_resize M nr nc) (lil_resize M' nr nc).
Proof.
  destruct M as [mr mc mv d], M' as [mr' mc' mv' d']. intros (E1 & E2 & E3 & H). cbn [nrows ncols nvals data] in *. subst.
  unfold lil_resize. cbn [nrows ncols nvals data].
  assert (D : Forall2 rw (vresize d nr []) (vresize d' nr [])) by (apply vresize_sim; auto; apply nil_sim).
  rewrite <- (count_rows_sim _ _ D). destruct (nc <? mc'); [|apply mk_sim; auto].
  set (n := if nr <? mr' then _ else _). clearbody n.
  match goal with |- sl (let '(_, _) := ?f in _) (let '(_, _) := ?f' in _) =>
    assert (Q : (fun p p' => fst p = fst p' /\ Forall2 rw (snd p) (snd p')) f f') end.
  { eapply (F2_fold rw (fun p p' => fst p = fst p' /\ Forall2 rw (snd p) (snd p'))); eauto.
    intros [a b] [a' b'] x x' [E B] X; simpl in *; subst. split.
    - rewrite (F2_length _ _ _ X), (F2_length _ _ _ (row_truncate_sim _ _ nc X)). auto.
    - apply F2_app; auto. constructor; auto. apply row_truncate_sim; auto.
    - simpl; auto. }
  destruct (fold_left _ _ _) as [n2 d2], (fold_left _ _ _) as [n3 d3]. destruct Q as [E D2]; simpl in *; subst. apply mk_sim; auto.
Qed.
Lemma has_sim M M' i j : sl M M' -> same_res eq (lil_hasElement M i j) (lil_hasElement M' i j).
Proof.
  intro H. unfold lil_hasElement, oob. pose proof (getrow_sim _ _ i H) as G. open. cbn [nrows ncols data] in *.
  destruct (_ || _); simpl; auto. destruct H2; simpl; auto.
  eapply bind_sim; [exact G|]. intros r r' F. simpl. pose proof (row_find_sim _ _ j F).
  destruct (row_find r j), (row_find r' j); simpl in *; tauto.
Qed.
Lemma extractElement_sim M M' i j : sl M M' -> same_res R (lil_extractElement M i j) (lil_extractElement M' i j).
Proof.
  intro H. unfold lil_extractElement, oob. pose proof (getrow_sim _ _ i H) as G. open. cbn [nrows ncols data] in *.
  destruct (_ || _); simpl; auto. destruct H2; simpl; auto.
  eapply bind_sim; [exact G|]. intros r r' F. simpl. pose proof (row_find_sim _ _ j F).
  destruct (row_find r j), (row_find r' j); simpl in *; tauto.
Qed.
Lemma setElement_merge_sim f f' M M' i j v v' : rel2 R R R f f' -> R v v' -> sl M M' ->
  same_res sl (lil_setElement_merge f M i j v) (lil_setElement_merge f' M' i j v').
Proof.
  intros Hf V H. unfold lil_setElement_merge, oob. pose proof (getrow_sim _ _ i H) as G. open. cbn [nrows ncols nvals data] in *.
  destruct (_ || _); simpl; auto. eapply bind_sim; [exact G|]. intros r r' F.
  pose proof (row_set_sim f f' _ _ j _ _ Hf V F) as [E1 E2].
  destruct (row_set f r j v) as [a b], (row_set f' r' j v') as [a' b']; simpl in *; subst b'.
  eapply bind_sim; [apply vset_sim; eauto|]. intros. destruct b; apply mk_sim; auto.
Qed.
Lemma setElement_sim M M' i j v v' : R v v' -> sl M M' -> same_res sl (lil_setElement M i j v) (lil_setElement M' i j v').
Proof. intros. apply setElement_merge_sim; auto. intros ? ? ? ? _ ?; auto. Qed.
Lemma removeElement_sim M M' i j : sl M M' -> same_res sl (lil_removeElement M i j) (lil_removeElement M' i j).
Proof.
  intros H. unfold lil_removeElement, oob. pose proof (getrow_sim _ _ i H) as G. open. cbn [nrows ncols nvals data] in *.
  destruct (_ || _); simpl; auto. eapply bind_sim; [exact G|]. intros r r' F.
  pose proof (row_remove_sim _ _ j F) as [E1 E2].
  destruct (row_remove r j) as [a b], (row_remove r' j) as [a' b']; simpl in *; subst b'.
  eapply bind_sim; [apply vset_sim; eauto|]. intros. destruct b; apply mk_sim; auto.
Qed.
Lemma build_sim f f' : rel2 R R R f f' -> forall ts ts', Forall2 pr ts ts' -> forall M M', sl M M' ->
  sl (fst (lil_build f M ts)) (fst (lil_build f' M' ts')) /\ snd (lil_build f M ts) = snd (lil_build f' M' ts').
Proof.
  intros Hf ts ts'. induction 1 as [|[[i j] v] [[i' j'] v'] ts ts' [E V] F IH]; intros M M' H; simpl; auto.
  cbn [fst snd] in E, V. injection E as E1 E2; subst.
  pose proof (setElement_merge_sim f f' M M' i' j' v v' Hf V H) as S.
  destruct (lil_setElement_merge f M i' j' v), (lil_setElement_merge f' M' i' j' v'); simpl in *; try contradiction; subst; auto.
Qed.
Lemma dense_row_sim keep keep' : (forall v v', R v v' -> keep v = keep' v') ->
  forall vs vs', Forall2 R vs vs' -> forall j, rw (dense_row keep j vs) (dense_row keep' j vs').
Proof.
  intros Hk vs vs'. induction 1; intro j; simpl; [apply nil_sim|]. rewrite (Hk _ _ H). destruct (keep' _); auto. apply cons_sim; auto.
Qed.
Lemma dense_sim keep keep' vs vs' : (forall v v', R v v' -> keep v = keep' v') -> Forall2 (Forall2 R) vs vs' ->
  same_res sl (lil_dense keep vs) (lil_dense keep' vs').
Proof.
  intros Hk F. destruct F as [|v v' l l' V F]; [exact I|]. unfold lil_dense. cbv zeta.
  assert (FF : Forall2 (Forall2 R) (v :: l) (v' :: l')) by (constructor; auto).
  rewrite <- (F2_length _ _ _ FF), <- (F2_length _ _ _ V).
  apply mfor_sim_eq; [apply new_sim|]. intros i s s' HS.
  eapply bind_sim; [apply vat_sim; exact FF|]. intros q q' Q. rewrite <- (F2_length _ _ _ Q).
  eapply bind_sim; [apply throw_sim|]. intros _ _ _.
  pose proof (dense_row_sim _ _ Hk _ _ Q 0) as D. rewrite <- (F2_length _ _ _ D).
  eapply bind_sim; [apply vset_sim; [apply HS|exact D]|]. intros. open. apply mk_sim; auto.
Qed.
Lemma assign_sim M M' N N' : sl M M' -> sl N N' -> same_res sl (lil_assign M N) (lil_assign M' N').
Proof. intros. unfold lil_assign. open. cbn [nrows ncols nvals data]. destruct (_ || _); simpl; auto. apply mk_sim; auto. Qed.
Lemma tuples_sim M M' : sl M M' -> Forall2 pr (lil_extractTuples M) (lil_extractTuples M').
Proof.
  intro H. open. unfold lil_extractTuples. cbn [data]. generalize 0.
  induction H2 as [|r r' d d' F FF IH]; intro n; simpl; [constructor|]. apply F2_app; auto.
  eapply F2_map; [exact F|]. intros [j v] [j' v'] [E V]; simpl in *; subst; auto.
Qed.
Lemma getCol_sim M M' j : sl M M' -> same_res rw (getCol M j) (getCol M' j).
Proof.
  intro H. unfold getCol. replace (nrows M') with (nrows M) by apply H. apply mfor_sim_eq; [apply nil_sim|].
  intros i s s' S. eapply bind_sim; [apply getrow_sim; eauto|]. intros r r' F. simpl. apply app_sim; auto.
  clear - F. induction F as [|[k x] [k0 x'] r r' [E X] F IH]; [|cbn [fst snd] in E, X; subst k0]; simpl; [apply nil_sim|]. destruct (_ =? _); auto. apply cons_sim; auto.
Qed.
Lemma setCol_sim c c' M M' j r r' : rel1 R R c c' -> sl M M' -> rw r r' -> same_res sl (setCol c M j r) (setCol c' M' j r').
Proof.
  intros Hc H F. unfold setCol. replace (nrows M') with (nrows M) by apply H.
  eapply bind_sim with (RA := fun p p' => sl (fst p) (fst p') /\ rw (snd p) (snd p')); [|intros ? ? [? ?]; simpl; auto].
  apply mfor_sim_eq; [auto|]. intros i [s it] [s' it'] [S IT]; cbn [fst snd] in S, IT.
  eapply bind_sim; [apply getrow_sim; eauto|]. intros q q' Q.
  assert (ER : same_res (fun p p' => sl (fst p) (fst p') /\ rw (snd p) (snd p'))
     (let '(r', b) := row_remove q j in d <- vset (data s) i r' ;;
       Ok (mkLil (nrows s) (ncols s) (if b then nvals s - 1 else nvals s)%Z d, it))
     (let '(r', b) := row_remove q' j in d <- vset (data s') i r' ;;
       Ok (mkLil (nrows s') (ncols s') (if b then nvals s' - 1 else nvals s')%Z d, it'))).
  { pose proof (row_remove_sim _ _ j Q) as [E1 E2].
    destruct (row_remove q j) as [a b], (row_remove q' j) as [a' b']; cbn [fst snd] in *; subst b'.
    eapply bind_sim; [apply vset_sim; [apply S|exact E1]|]. intros. open. split; auto. destruct b; apply mk_sim; auto. }
  destruct (rw_inv _ _ IT) as [[-> ->]|(k & v & v' & p & p' & -> & -> & V & P)]; [exact ER|].
  destruct (i <? k); [exact ER|]. destruct (i =? k); [|reflexivity].
  pose proof (row_set_sim (fun _ new => new) (fun _ new => new) _ _ j _ _ (fun _ _ _ _ _ h => h) (Hc _ _ V) Q) as [E1 E2].
  destruct (row_set (fun _ new : T => new) q j (c v)) as [a b], (row_set (fun _ new : T' => new) q' j (c' v')) as [a' b'];
    cbn [fst snd] in *; subst b'.
  eapply bind_sim; [apply vset_sim; [apply S|exact E1]|]. intros. open. split; auto. destruct b; apply mk_sim; auto.
Qed.

(** ** Vectors *)
Lemma mkv_sim n z l l' b : Forall2 R l l' -> sv (mkVec n z l b) (mkVec n z l' b).
Proof. intro. repeat split; auto. Qed.
Lemma store_sim u u' i v v' n : sv u u' -> R v v' -> same_res sv (vec_store u i v n) (vec_store u' i v' n).
Proof.
  intros H V. open. unfold vec_store. cbn [vsize vvals vbits]. eapply bind_sim; [apply vset_sim; eauto|]. intros.
  eapply bind_sim; [apply refl_sim|]. intros ? ? ->. apply mkv_sim; auto.
Qed.
Lemma vhas_sim u u' i : sv u u' -> same_res eq (vec_hasElement u i) (vec_hasElement u' i).
Proof. intro H. open. apply refl_sim. Qed.
Lemma vextract_sim u u' i : sv u u' -> same_res R (vec_extractElement u i) (vec_extractElement u' i).
Proof.
  intro H. open. unfold vec_extractElement. cbn [vsize vvals vbits]. destruct (_ <=? _); simpl; auto.
  eapply bind_sim; [apply refl_sim|]. intros b ? <-. destruct b; simpl; auto. apply vat_sim; auto.
Qed.
Lemma vsetElement_sim u u' i v v' : sv u u' -> R v v' -> same_res sv (vec_setElement u i v) (vec_setElement u' i v').
Proof.
  intros H V. unfold vec_setElement. replace (vsize u') with (vsize u) by apply H.
  replace (vbits u') with (vbits u) by apply H. replace (vnvals u') with (vnvals u) by apply H.
  destruct (_ <=? _); simpl; auto. eapply bind_sim; [apply refl_sim|]. intros b ? <-. apply store_sim; auto.
Qed.
Lemma vremove_sim u u' i : sv u u' -> same_res sv (vec_removeElement u i) (vec_removeElement u' i).
Proof.
  intro H. open. unfold vec_removeElement. cbn [vsize vvals vbits vnvals]. destruct (_ <=? _); simpl; auto.
  eapply bind_sim; [apply refl_sim|]. intros b ? <-. destruct b; [|apply mkv_sim; auto].
  eapply bind_sim; [apply refl_sim|]. intros ? ? <-. apply mkv_sim; auto.
Qed.
Lemma contents_sim u u' : sv u u' -> same_res rw (getContents u) (getContents u').
Proof.
  intro H. open. unfold getContents. cbn [vsize vvals vbits]. apply mfor_sim_eq; [apply nil_sim|].
  intros i s s' S. eapply bind_sim; [apply refl_sim|]. intros b ? <-. destruct b; simpl; auto.
  eapply bind_sim; [apply vat_sim; eauto|]. intros. apply push_sim; auto.
Qed.
Lemma vclear_sim u u' : sv u u' -> sv (vec_clear u) (vec_clear u').
Proof. intro H. open. apply mkv_sim; auto. Qed.
Lemma setContents_sim c c' u u' r r' : rel1 R R c c' -> sv u u' -> rw r r' -> same_res sv (setContents c u r) (setContents c' u' r').
Proof.
  intros Hc H F. unfold setContents. eapply mfor_sim; [apply vclear_sim; eauto|exact F|].
  intros [i v] [i' v'] s s' [E V] S; cbn [fst snd] in *; subst. replace (vnvals s') with (vnvals s) by apply S. apply store_sim; auto.
Qed.
Lemma veqb_sim eqb eqb' u u' v v' : rel2 R R eq eqb eqb' -> sv u u' -> sv v v' -> same_res eq (vec_eqb eqb u v) (vec_eqb eqb' u' v').
Proof.
  intros He H K. open. unfold vec_eqb. cbn [vsize vnvals vvals vbits]. destruct (_ || _); simpl; auto.
  apply mfor_sim_eq; auto. intros i s ? <-. destruct (negb s); simpl; auto.
  eapply bind_sim; [apply refl_sim|]. intros b ? <-. eapply bind_sim; [apply refl_sim|]. intros b' ? <-.
  destruct (negb _); simpl; auto. destruct b; simpl; auto.
  eapply bind_sim; [apply vat_sim; eauto|]. intros. eapply bind_sim; [apply vat_sim; eauto|]. intros. simpl. apply He; auto.
Qed.

Context (dflt : T) (dflt' : T') (HD : R dflt dflt').
Lemma vnew_sim n : same_res sv (vec_new dflt n) (vec_new dflt' n).
Proof. unfold vec_new. destruct (_ =? _); simpl; auto. apply mkv_sim, repeat_sim; auto. Qed.
Lemma vdense_sim l l' : Forall2 R l l' -> same_res sv (vec_dense l) (vec_dense l').
Proof. intro F. unfold vec_dense. rewrite <- (F2_length _ _ _ F). destruct (_ =? _); simpl; auto. apply mkv_sim; auto. Qed.
Lemma vdense_zero_sim keep keep' l l' : (forall v v', R v v' -> keep v = keep' v') -> Forall2 R l l' ->
  same_res sv (vec_dense_zero dflt keep l) (vec_dense_zero dflt' keep' l').
Proof.
  intros Hk F. unfold vec_dense_zero. rewrite <- (F2_length _ _ _ F). destruct (_ =? _); simpl; auto.
  apply mfor_sim_eq; [apply mkv_sim, repeat_sim; auto|]. intros i s s' S. eapply bind_sim; [apply vat_sim; eauto|].
  intros v v' V. rewrite <- (Hk _ _ V). destruct (keep v); simpl; auto. replace (vnvals s') with (vnvals s) by apply S. apply store_sim; auto.
Qed.
Lemma vassign_sim u u' v v' : sv u u' -> sv v v' -> same_res sv (vec_assign u v) (vec_assign u' v').
Proof. intros. unfold vec_assign. open. cbn [vsize vnvals vvals vbits]. destruct (negb _); simpl; auto. apply mkv_sim; auto. Qed.
Lemma vassign_dense_sim u u' l l' : sv u u' -> Forall2 R l l' -> same_res sv (vec_assign_dense u l) (vec_assign_dense u' l').
Proof.
  intros H F. unfold vec_assign_dense. rewrite <- (F2_length _ _ _ F). replace (vsize u') with (vsize u) by apply H.
  destruct (negb _); simpl; auto. eapply bind_sim.
  - apply mfor_sim_eq; [exact H|]. intros i s s' S. eapply bind_sim; [apply vat_sim; eauto|]. intros.
    replace (vnvals s') with (vnvals s) by apply S. apply store_sim; auto.
  - intros. open. apply mkv_sim; auto.
Qed.
Lemma vresize_v_sim u u' n : sv u u' -> sv (vec_resize dflt u n) (vec_resize dflt' u' n).
Proof.
  intro H. open. unfold vec_resize. cbn [vsize vnvals vvals vbits].
  destruct (_ <? _); [apply mkv_sim, vresize_sim; auto|]. destruct (_ <? _); apply mkv_sim; auto. apply vresize_sim; auto.
Qed.
Lemma vbuild_sim f f' u u' ts ts' : rel2 R R R f f' -> sv u u' -> rw ts ts' ->
  same_res sv (vec_build dflt f u ts) (vec_build dflt' f' u' ts').
Proof.
  intros Hf H F. unfold vec_build. replace (vsize u') with (vsize u) by apply H. rewrite <- (F2_length _ _ _ F).
  apply (bind_sim sv); [|intros a a' HA; open; apply mkv_sim; auto].
  eapply mfor_sim; [apply mkv_sim, repeat_sim; auto|exact F|].
  intros [i v] [i' v'] s s' [E V] S; cbn [fst snd] in *; subst.
  eapply bind_sim; [apply throw_sim|]. intros _ _ _. replace (vbits s') with (vbits s) by apply S.
  eapply bind_sim; [apply refl_sim|]. intros b ? <-. destruct b; [|apply store_sim; auto].
  eapply bind_sim; [apply vat_sim; apply S|]. intros. apply store_sim; auto.
Qed.
Lemma vec_of_row_sim n r r' : rw r r' -> same_res sv (vec_of_row dflt n r) (vec_of_row dflt' n r').
Proof.
  intro F. unfold vec_of_row. eapply bind_sim; [apply vnew_sim|]. intros. eapply mfor_sim; [eauto|exact F|].
  intros [i v] [i' v'] s s' [E V] S; cbn [fst snd] in *; subst. apply vsetElement_sim; auto.
Qed.
Lemma row_of_vec_sim u u' : sv u u' -> same_res rw (row_of_vec u) (row_of_vec u').
Proof.
  intro H. unfold row_of_vec. eapply bind_sim; [apply contents_sim; eauto|]. intros r r' F.
  rewrite <- (F2_length _ _ _ F). replace (vnvals u') with (vnvals u) by apply H. destruct (_ =? _)%Z; simpl; auto.
Qed.
End Sim.
