(** Lemmas on lists, loops and container accesses. *)
From Coq Require Import Lia.
From Verif Require Import Base ModelLil ModelVec Spec.

#[global] Arguments Z.add : simpl never.
#[global] Arguments Z.sub : simpl never.
#[global] Arguments Z.mul : simpl never.
#[global] Arguments Z.of_nat : simpl never.

(** ** Loops *)

Lemma mfor_app {I S} (l1 l2 : list I) (body : I -> S -> res S) s :
  mfor (l1 ++ l2) body s = (s' <- mfor l1 body s ;; mfor l2 body s').
Proof.
  revert s; induction l1 as [|i l1 IH]; intro s; simpl; [reflexivity|].
  destruct (body i s); simpl; auto.
Qed.

Lemma mfor_seq_inv_from {S} (P : nat -> S -> Prop) (body : nat -> S -> res S) b n s0 :
  P b s0 ->
  (forall i s, b <= i < b + n -> P i s -> exists s', body i s = Ok s' /\ P (1 + i) s') ->
  exists s', mfor (seq b n) body s0 = Ok s' /\ P (b + n) s'.
Proof.
  revert b s0; induction n as [|n IH]; intros b s0 H0 Hstep; simpl.
  - exists s0; rewrite Nat.add_0_r; auto.
  - destruct (Hstep b s0) as (s1 & E1 & H1); [lia|assumption|].
    rewrite E1; simpl.
    destruct (IH (Datatypes.S b) s1) as (s' & E & H); [exact H1| |].
    + intros i s Hi HP; apply Hstep; [lia|assumption].
    + exists s'; split; [exact E|]. replace (b + Datatypes.S n) with (Datatypes.S b + n) by lia.
      exact H.
Qed.

Lemma mfor_seq_inv {S} (P : nat -> S -> Prop) (body : nat -> S -> res S) n s0 :
  P 0 s0 ->
  (forall i s, i < n -> P i s -> exists s', body i s = Ok s' /\ P (1 + i) s') ->
  exists s', mfor (seq 0 n) body s0 = Ok s' /\ P n s'.
Proof.
  intros H0 Hstep.
  destruct (mfor_seq_inv_from P body 0 n s0 H0) as (s' & E & H).
  - intros; apply Hstep; [lia|assumption].
  - eauto.
Qed.

Lemma mfor_pure {I S} (l : list I) (body : I -> S -> res S) (f : S -> I -> S) s :
  (forall i s, In i l -> body i s = Ok (f s i)) ->
  mfor l body s = Ok (fold_left f l s).
Proof.
  revert s; induction l as [|i l IH]; intros s H; simpl; [reflexivity|].
  rewrite H by (left; reflexivity). simpl. apply IH. intros; apply H; right; assumption.
Qed.

Lemma mfor_ext {I S} (l : list I) (f g : I -> S -> res S) s :
  (forall i s, In i l -> f i s = g i s) -> mfor l f s = mfor l g s.
Proof.
  revert s; induction l as [|i l IH]; intros s H; simpl; [reflexivity|].
  rewrite (H i s) by (left; reflexivity).
  destruct (g i s); simpl; auto. apply IH. intros; apply H; right; assumption.
Qed.

(** ** Accesses *)

Lemma vat_ok {A} (l : list A) i d : i < length l -> vat l i = Ok (nth i l d).
Proof.
  intro H; unfold vat.
  rewrite (nth_error_nth' l d H); reflexivity.
Qed.

Lemma vat_ub {A} (l : list A) i : length l <= i -> vat l i = UB.
Proof.
  intro H; unfold vat. apply nth_error_None in H. rewrite H; reflexivity.
Qed.

Lemma vset_ok {A} (l : list A) i a : i < length l -> vset l i a = Ok (upd l i a).
Proof.
  intro H; unfold vset. apply Nat.ltb_lt in H; rewrite H; reflexivity.
Qed.

Lemma upd_length {A} (l : list A) i a : length (upd l i a) = length l.
Proof. revert i; induction l; intros [|i]; simpl; auto. Qed.

Lemma nth_upd {A} (l : list A) i j a d :
  i < length l -> nth j (upd l i a) d = if j =? i then a else nth j l d.
Proof.
  revert i j; induction l as [|x l IH]; intros [|i] [|j] H; simpl in *; try lia; auto.
  apply IH; lia.
Qed.

Lemma nth_error_upd {A} (l : list A) i j a :
  i < length l -> nth_error (upd l i a) j = if j =? i then Some a else nth_error l j.
Proof.
  revert i j; induction l as [|x l IH]; intros [|i] [|j] H; simpl in *; try lia; auto.
  apply IH; lia.
Qed.

Lemma upd_self {A} (l : list A) i d : upd l i (nth i l d) = l.
Proof. revert i; induction l as [|x l IH]; intros [|i]; simpl; f_equal; auto. Qed.

Lemma upd_oob {A} (l : list A) i a : length l <= i -> upd l i a = l.
Proof.
  revert i; induction l as [|x l IH]; intros [|i]; simpl; intro H; auto; try lia.
  f_equal; apply IH; lia.
Qed.

Lemma Forall_upd {A} (P : A -> Prop) l i a : Forall P l -> P a -> Forall P (upd l i a).
Proof.
  intros H Ha; revert i; induction H; intros [|i]; simpl; constructor; auto.
Qed.

Lemma Forall_nth' {A} (P : A -> Prop) l i d : Forall P l -> P d -> P (nth i l d).
Proof.
  intros H Hd; revert i; induction H; intros [|i]; simpl; auto.
Qed.

Lemma Forall_of_nth {A} (P : A -> Prop) l d :
  (forall i, i < length l -> P (nth i l d)) -> Forall P l.
Proof.
  induction l as [|x l IH]; intro H; constructor.
  - apply (H 0); simpl; lia.
  - apply IH; intros i Hi; apply (H (S i)); simpl; lia.
Qed.

Lemma nth_ext' {A} (l1 l2 : list A) d :
  length l1 = length l2 -> (forall i, i < length l1 -> nth i l1 d = nth i l2 d) -> l1 = l2.
Proof. intros; eapply nth_ext; eauto. Qed.

Lemma vresize_length {A} (l : list A) n d : length (vresize l n d) = n.
Proof. unfold vresize. rewrite app_length, firstn_length, repeat_length. lia. Qed.

Lemma nth_repeat' {A} (a d : A) n i : nth i (repeat a n) d = if i <? n then a else d.
Proof.
  revert i; induction n as [|n IH]; intros [|i]; simpl; auto.
  rewrite IH. reflexivity.
Qed.

Lemma nth_error_repeat' {A} (a : A) n i : nth_error (repeat a n) i = if i <? n then Some a else None.
Proof.
  revert i; induction n as [|n IH]; intros [|i]; simpl; auto.
  rewrite IH; reflexivity.
Qed.

Lemma nth_firstn' {A} (l : list A) n i d : nth i (firstn n l) d = if i <? n then nth i l d else d.
Proof.
  revert l i; induction n as [|n IH]; intros [|x l] [|i]; simpl; auto.
  - destruct (S i <? S n); reflexivity.
  - rewrite IH; reflexivity.
Qed.

Lemma nth_vresize {A} (l : list A) n d i :
  nth i (vresize l n d) d = if i <? n then nth i l d else d.
Proof.
  unfold vresize.
  destruct (Nat.ltb_spec i (length (firstn n l))) as [H|H].
  - rewrite app_nth1 by assumption. apply nth_firstn'.
  - rewrite app_nth2 by assumption. rewrite nth_repeat'.
    rewrite firstn_length in *.
    replace (nth i l d) with (if i <? length l then nth i l d else d).
    2:{ destruct (Nat.ltb_spec i (length l)); auto. rewrite nth_overflow; auto. }
    destruct (_ <? _); destruct (Nat.ltb_spec i n); auto.
    destruct (Nat.ltb_spec i (length l)); auto. lia.
    destruct (Nat.ltb_spec i (length l)); auto. lia.
Qed.

Lemma map_nth_seq {A} (l : list A) d : map (fun i => nth i l d) (seq 0 (length l)) = l.
Proof.
  induction l as [|x l IH]; simpl; [reflexivity|].
  f_equal. rewrite <- seq_shift, map_map. exact IH.
Qed.

Lemma nth_map_seq {A} (f : nat -> A) n i d :
  nth i (map f (seq 0 n)) d = if i <? n then f i else d.
Proof.
  destruct (Nat.ltb_spec i n).
  - rewrite nth_indep with (d' := f 0) by (rewrite map_length, seq_length; lia).
    rewrite map_nth, seq_nth by lia. reflexivity.
  - apply nth_overflow. rewrite map_length, seq_length. lia.
Qed.

Lemma filter_ext_in' {A} (f g : A -> bool) l :
  (forall x, In x l -> f x = g x) -> filter f l = filter g l.
Proof.
  induction l as [|x l IH]; intro H; simpl; [reflexivity|].
  rewrite (H x) by (left; reflexivity). rewrite IH; [reflexivity|].
  intros; apply H; right; assumption.
Qed.

Lemma seq_split' a n m : seq a (n + m) = seq a n ++ seq (a + n) m.
Proof. apply seq_app. Qed.

Ltac ltb := repeat match goal with
  | |- context [?a =? ?b] => destruct (Nat.eqb_spec a b); try (exfalso; lia)
  | |- context [?a <? ?b] => destruct (Nat.ltb_spec a b); try (exfalso; lia)
  | |- context [?a <=? ?b] => destruct (Nat.leb_spec a b); try (exfalso; lia)
  end.
