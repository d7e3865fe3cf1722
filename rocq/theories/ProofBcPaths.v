(** Counting shortest paths. *)
From Coq Require Import Lia QArith Qcanon.
From Verif Require Import Base ModelLil Spec SpecRank SpecBc ProofBase ProofRank.
Local Open Scope nat_scope.

Fixpoint nsum (N : nat) (f : nat -> nat) : nat := match N with O => 0 | S n => nsum n f + f n end.
Lemma nsum_ext N f g : (forall i, i < N -> f i = g i) -> nsum N f = nsum N g.
Proof. induction N; simpl; intro H; auto. rewrite IHN, H; auto. Qed.
Lemma nsum_zero N f : (forall i, i < N -> f i = 0) -> nsum N f = 0.
Proof. induction N; simpl; intro H; auto. rewrite IHN, H; auto. Qed.
Lemma nsum_scale N f c : nsum N (fun i => c * f i) = c * nsum N f.
Proof. induction N; simpl; auto. rewrite IHN. lia. Qed.
Lemma nsum_scale_r N f c : nsum N (fun i => f i * c) = nsum N f * c.
Proof. induction N; simpl; auto. rewrite IHN. lia. Qed.
Lemma nsum_add N f g : nsum N (fun i => f i + g i) = nsum N f + nsum N g.
Proof. induction N; simpl; auto. rewrite IHN. lia. Qed.
Lemma nsum_swap N M f : nsum N (fun i => nsum M (fun j => f i j)) = nsum M (fun j => nsum N (fun i => f i j)).
Proof.
  induction N; simpl. { symmetry. apply nsum_zero. auto. } rewrite IHN, <- nsum_add. auto.
Qed.
Lemma nsum_single N f i : i < N -> (forall j, j < N -> j <> i -> f j = 0) -> nsum N f = f i.
Proof.
  induction N as [|N IH]; intros Hi H; [lia|]. simpl. destruct (Nat.eq_dec i N) as [->|].
  - rewrite nsum_zero; auto. intros; apply H; lia.
  - rewrite IH, (H N) by (auto; lia). lia.
Qed.
Lemma nsum_pos N f : nsum N f <> 0 -> exists i, i < N /\ f i <> 0.
Proof.
  induction N as [|N IH]; simpl; intro H; [lia|]. destruct (Nat.eq_dec (f N) 0) as [E|E].
  - destruct IH as (i & Hi & Fi); [lia|]. exists i. split; [lia|auto].
  - exists N. split; [lia|auto].
Qed.
Lemma nsum_ge N f i : i < N -> f i <= nsum N f.
Proof. induction N as [|N IH]; intro H; [lia|]. simpl. destruct (Nat.eq_dec i N) as [->|]; [lia|]. specialize (IH ltac:(lia)). lia. Qed.
Lemma nsum_list N f : list_sum (map f (seq 0 N)) = nsum N f.
Proof. induction N; auto. rewrite seq_S, map_app, list_sum_app, IHN. simpl. lia. Qed.

Lemma nat_q_add m n : nat_q (m + n) = (nat_q m + nat_q n)%Qc.
Proof. induction n; [rewrite Nat.add_0_r; change (nat_q 0) with 0%Qc; ring|]. rewrite Nat.add_succ_r, !nat_q_S, IHn. ring. Qed.
Lemma nat_q_mul m n : nat_q (m * n) = (nat_q m * nat_q n)%Qc.
Proof.
  induction m; [simpl; change (nat_q 0) with 0%Qc; ring|]. simpl. rewrite nat_q_add, nat_q_S, IHm. ring.
Qed.
Lemma nat_q_nsum N f : nat_q (nsum N f) = qsum N (fun i => nat_q (f i)).
Proof. induction N; auto. simpl. rewrite nat_q_add, IHN. auto. Qed.
Lemma nat_q_neq n : n <> 0 -> nat_q n <> 0%Qc.
Proof. intro H. apply Qc_pos_neq, nat_q_pos. auto. Qed.

Lemma filter_filter {X} (f g : X -> bool) l : filter f (filter g l) = filter (fun x => g x && f x) l.
Proof. induction l; simpl; auto. destruct (g a); simpl; rewrite IHl; auto. Qed.
Lemma filter_false {X} (f : X -> bool) l : (forall x, In x l -> f x = false) -> filter f l = [].
Proof. induction l; simpl; intro H; auto. rewrite H; auto. Qed.
Lemma filter_map_swap {X Y} (f : X -> Y) (P : Y -> bool) l : filter P (map f l) = map f (filter (fun x => P (f x)) l).
Proof. induction l; simpl; auto. destruct (P (f a)); simpl; rewrite IHl; auto. Qed.
Lemma filter_eq_in {X} (f g : X -> bool) l : (forall x, In x l -> f x = g x) -> filter f l = filter g l.
Proof. induction l; simpl; intro H; auto. rewrite H, IHl; auto. Qed.
Lemma filter_length_in {X} (f : X -> bool) l x : In x l -> f x = true -> length (filter f l) <> 0.
Proof. intros H E C. apply length_zero_iff_nil in C. assert (In x (filter f l)) by (apply filter_In; auto). rewrite C in H0. auto. Qed.

Section Paths.
Context (N : nat) (edge : nat -> nat -> bool).
Local Notation walks := (walks N edge).
Local Notation walks_to := (walks_to N edge).
Definition b2n (b : bool) : nat := if b then 1 else 0.

Definition cnt (P : list nat -> bool) (k u : nat) : nat := length (filter P (walks k u)).
Definition W (k u t : nat) : nat := length (walks_to k u t).

Lemma cnt_S P k u : cnt P (S k) u = nsum N (fun v => if edge u v then cnt (fun p => P (u :: p)) k v else 0).
Proof.
  unfold cnt. cbn [SpecBc.walks].
  assert (H : forall n, length (filter P (flat_map (fun v => if edge u v then map (cons u) (walks k v) else []) (seq 0 n))) =
    nsum n (fun v => if edge u v then length (filter (fun p => P (u :: p)) (walks k v)) else 0)); [|apply H].
  induction n; auto. rewrite seq_S, flat_map_app, filter_app, app_length, IHn. simpl. rewrite app_nil_r.
  destruct (edge u n); [rewrite filter_map_swap, map_length|]; auto.
Qed.
Lemma walk_head k u p : In p (walks k u) -> exists q, p = u :: q.
Proof.
  destruct k; simpl.
  - intros [<-|[]]. eauto.
  - intro H. apply in_flat_map in H. destruct H as (v & _ & H). destruct (edge u v); [|contradiction].
    apply in_map_iff in H. destruct H as (q & <- & _). eauto.
Qed.
Lemma walk_length k : forall u p, In p (walks k u) -> length p = S k.
Proof.
  induction k as [|k IH]; intros u p H.
  - simpl in H. destruct H as [<-|[]]. auto.
  - simpl in H. apply in_flat_map in H. destruct H as (v & _ & H). destruct (edge u v); [|contradiction].
    apply in_map_iff in H. destruct H as (q & <- & Hq). simpl. rewrite (IH v q); auto.
Qed.
Lemma walk_last k v u d p : In p (walks k v) -> last (u :: p) d = last p v.
Proof.
  intro H. destruct (walk_head k v p H) as (q & ->). simpl. clear. revert v. induction q as [|x q IH]; intro v; auto.
  destruct q; auto. simpl in *. apply IH.
Qed.
Lemma cnt_ext P Q k u : (forall p, In p (walks k u) -> P p = Q p) -> cnt P k u = cnt Q k u.
Proof. intro H. unfold cnt. rewrite (filter_eq_in P Q); auto. Qed.
Lemma cnt_false P k u : (forall p, In p (walks k u) -> P p = false) -> cnt P k u = 0.
Proof. intro H. unfold cnt. rewrite filter_false; auto. Qed.
Lemma W_cnt k u t : W k u t = cnt (fun p => last p u =? t) k u.
Proof. reflexivity. Qed.

Lemma W_0 u t : W 0 u t = b2n (u =? t).
Proof. unfold W, SpecBc.walks_to. simpl. destruct (u =? t); auto. Qed.
Lemma W_S k u t : W (S k) u t = nsum N (fun v => if edge u v then W k v t else 0).
Proof.
  rewrite W_cnt, cnt_S. apply nsum_ext. intros v _. destruct (edge u v); auto. rewrite W_cnt. apply cnt_ext.
  intros p Hp. rewrite (walk_last k v u u p Hp). auto.
Qed.
Lemma W_add j : forall k u t, u < N -> W (j + k) u t = nsum N (fun v => W j u v * W k v t).
Proof.
  induction j as [|j IH]; intros k u t Hu.
  - simpl. rewrite (nsum_single N _ u Hu).
    + rewrite W_0, Nat.eqb_refl. simpl. lia.
    + intros i _ Hi. rewrite W_0. rewrite (proj2 (Nat.eqb_neq u i)); auto.
  - simpl. rewrite W_S.
    transitivity (nsum N (fun x => nsum N (fun v => (if edge u x then W j x v else 0) * W k v t))).
    + apply nsum_ext. intros x Hx. destruct (edge u x).
      * apply IH; auto.
      * symmetry. apply nsum_zero. auto.
    + rewrite nsum_swap. apply nsum_ext. intros v Hv. rewrite nsum_scale_r, W_S. auto.
Qed.
Lemma W_1 u t : t < N -> W 1 u t = b2n (edge u t).
Proof.
  intro Ht. rewrite W_S, (nsum_single N _ t Ht).
  - rewrite W_0, Nat.eqb_refl. destruct (edge u t); auto.
  - intros i _ Hi. rewrite W_0, (proj2 (Nat.eqb_neq i t)); auto. destruct (edge u i); auto.
Qed.
Lemma W_last k u t : u < N -> t < N -> W (S k) u t = nsum N (fun v => W k u v * b2n (edge v t)).
Proof.
  intros Hu Ht. replace (S k) with (k + 1) by lia. rewrite W_add by auto. apply nsum_ext. intros v Hv.
  rewrite W_1; auto.
Qed.
Lemma W_join j k u v t : u < N -> v < N -> W j u v <> 0 -> W k v t <> 0 -> W (j + k) u t <> 0.
Proof.
  intros Hu Hv A B. rewrite W_add by auto. pose proof (nsum_ge N (fun v => W j u v * W k v t) v Hv). simpl in H.
  assert (W j u v * W k v t <> 0) by (apply Nat.neq_mul_0; auto). lia.
Qed.

(** Walks whose vertex at position [l] is [v]. *)
Lemma cnt_at l : forall k u v t, l <= k ->
  cnt (fun p => (last p u =? t) && (nth l p N =? v)) k u = W l u v * W (k - l) v t.
Proof.
  induction l as [|l IH]; intros k u v t L.
  - rewrite W_0, Nat.sub_0_r. destruct (Nat.eqb_spec u v) as [->|E]; simpl.
    + rewrite Nat.add_0_r, W_cnt. apply cnt_ext. intros p Hp. destruct (walk_head k v p Hp) as (q & ->). cbn [nth].
      rewrite Nat.eqb_refl, andb_true_r. auto.
    + apply cnt_false. intros p Hp. destruct (walk_head k u p Hp) as (q & ->). cbn [nth].
      rewrite (proj2 (Nat.eqb_neq u v)), andb_false_r; auto.
  - destruct k as [|k]; [lia|]. rewrite cnt_S, W_S, <- nsum_scale_r. apply nsum_ext. intros x Hx.
    destruct (edge u x); auto. simpl Nat.sub. rewrite <- IH by lia. apply cnt_ext. intros p Hp.
    rewrite (walk_last k x u u p Hp). auto.
Qed.

(** ** Distances from [s] *)
Section Source.
Context (s : nat).

Definition lev (k v : nat) : Prop := W k s v <> 0 /\ forall j, j < k -> W j s v = 0.
Definition levb (k v : nat) : bool := negb (W k s v =? 0) && forallb (fun j => W j s v =? 0) (seq 0 k).
Lemma levb_spec k v : levb k v = true <-> lev k v.
Proof.
  unfold levb, lev. rewrite andb_true_iff, negb_true_iff, Nat.eqb_neq, forallb_forall. split; intros (A & B); split; auto.
  - intros j Hj. apply Nat.eqb_eq, B, in_seq. lia.
  - intros j Hj. apply in_seq in Hj. apply Nat.eqb_eq, B. lia.
Qed.
Lemma lev_unique j k v : lev j v -> lev k v -> j = k.
Proof.
  intros (A & B) (A' & B'). destruct (lt_eq_lt_dec j k) as [[L|E]|L]; auto.
  - specialize (B' j L). lia.
  - specialize (B k L). lia.
Qed.
Lemma lev_least k v : W k s v <> 0 -> exists j, j <= k /\ lev j v.
Proof.
  induction k as [k IH] using lt_wf_ind. intro H.
  destruct (existsb (fun j => negb (W j s v =? 0)) (seq 0 k)) eqn:E.
  - apply existsb_exists in E. destruct E as (j & Hj & Wj). apply in_seq in Hj. apply negb_true_iff, Nat.eqb_neq in Wj.
    destruct (IH j ltac:(lia) Wj) as (i & Hi & Li). exists i. split; [lia|auto].
  - exists k. split; auto. split; auto. intros j Hj. destruct (Nat.eq_dec (W j s v) 0) as [|Q]; auto. exfalso.
    rewrite <- not_true_iff_false, existsb_exists in E. apply E. exists j.
    rewrite in_seq, negb_true_iff, Nat.eqb_neq. split; [lia|auto].
Qed.
Lemma lev_source : lev 0 s.
Proof. split; [rewrite W_0, Nat.eqb_refl; simpl; lia|lia]. Qed.
Lemma lev_0 v : lev 0 v -> v = s.
Proof. intros (A & _). rewrite W_0 in A. destruct (Nat.eqb_spec s v); auto. simpl in A. lia. Qed.
Hypothesis Hs : s < N.
Lemma lev_pred k v : v < N -> lev (S k) v -> exists u, u < N /\ lev k u /\ edge u v = true.
Proof.
  intros Hv (A & B). rewrite W_last in A by auto. apply nsum_pos in A. destruct A as (u & Hu & A).
  exists u. split; [auto|]. assert (E : edge u v = true). { destruct (edge u v); auto; simpl in A; lia. }
  split; [|auto]. assert (Wu : W k s u <> 0) by lia. split; [auto|].
  destruct (lev_least k u Wu) as (j & Hj & Lj). destruct (Nat.eq_dec j k) as [->|Nj]; [apply Lj|].
  exfalso. specialize (B (j + 1) ltac:(lia)). revert B. apply (W_join j 1 s u v); auto. { apply Lj. }
  rewrite W_1, E by auto. simpl. lia.
Qed.
(** Vertices at the levels up to [k]. *)
Lemma lev_chain k : forall v, v < N -> lev k v ->
  exists l, length l = S k /\ NoDup l /\ forall x, In x l -> x < N /\ exists j, j <= k /\ lev j x.
Proof.
  induction k as [|k IH]; intros v Hv L.
  - exists [v]. split; [auto|]. split; [repeat constructor; auto|]. intros x [<-|[]]. eauto.
  - destruct (lev_pred k v Hv L) as (u & Hu & Lu & _). destruct (IH u Hu Lu) as (l & Ll & ND & Hl).
    exists (v :: l). split; [simpl; auto|]. split.
    + constructor; auto. intro I. destruct (Hl v I) as (_ & j & Hj & Lj). pose proof (lev_unique _ _ _ L Lj). lia.
    + intros x [<-|I]; [eauto|]. destruct (Hl x I) as (? & j & ? & ?). split; [auto|]. exists j. split; [lia|auto].
Qed.
Lemma lev_bound k v : v < N -> lev k v -> k < N.
Proof.
  intros Hv L. destruct (lev_chain k v Hv L) as (l & Ll & ND & Hl).
  assert (I : incl l (seq 0 N)). { intros x Hx. apply in_seq. destruct (Hl x Hx). lia. }
  apply NoDup_incl_length in I; auto. rewrite seq_length in I. lia.
Qed.

(** The next level: its unvisited vertices are reached through the previous level only. *)
Lemma W_next k v : v < N -> (forall j, j <= k -> W j s v = 0) ->
  W (S k) s v = nsum N (fun u => if levb k u then W k s u * b2n (edge u v) else 0).
Proof.
  intros Hv H. rewrite W_last by auto. apply nsum_ext. intros u Hu. destruct (levb k u) eqn:E; auto.
  destruct (Nat.eq_dec (W k s u * b2n (edge u v)) 0) as [|Q]; auto. exfalso.
  assert (A : W k s u <> 0) by lia. assert (B : edge u v = true). { destruct (edge u v); auto; simpl in Q; lia. }
  destruct (lev_least k u A) as (j & Hj & Lj). destruct (Nat.eq_dec j k) as [->|Nj].
  - apply levb_spec in Lj. congruence.
  - specialize (H (j + 1) ltac:(lia)). revert H. apply (W_join j 1 s u v); auto. { apply Lj. }
    rewrite W_1, B by auto. simpl. lia.
Qed.

Definition dist (t : nat) : option nat := find (fun k => negb (W k s t =? 0)) (seq 0 N).
Lemma find_seq_least P n b k : find P (seq b n) = Some k -> P k = true /\ b <= k < b + n /\ forall j, b <= j < k -> P j = false.
Proof.
  revert b. induction n as [|n IH]; intros b H; [discriminate|]. simpl in H. destruct (P b) eqn:E.
  - injection H as <-. split; [auto|]. split; [lia|]. intros; lia.
  - apply IH in H. destruct H as (A & B & C). split; [auto|]. split; [lia|]. intros j Hj.
    destruct (Nat.eq_dec j b) as [->|]; auto. apply C. lia.
Qed.
Lemma dist_lev t n : t < N -> (dist t = Some n <-> lev n t).
Proof.
  intro Ht. unfold dist. split.
  - intro H. apply find_seq_least in H. destruct H as (A & B & C). apply negb_true_iff, Nat.eqb_neq in A. split; auto.
    intros j Hj. specialize (C j ltac:(lia)). apply negb_false_iff, Nat.eqb_eq in C. auto.
  - intro L. destruct (find (fun k => negb (W k s t =? 0)) (seq 0 N)) as [m|] eqn:E.
    + f_equal. apply find_seq_least in E. destruct E as (A & B & C). apply negb_true_iff, Nat.eqb_neq in A.
      apply (lev_unique m n t); auto. split; auto.
      intros j Hj. specialize (C j ltac:(lia)). apply negb_false_iff, Nat.eqb_eq in C. auto.
    + exfalso. pose proof (lev_bound n t Ht L). assert (In n (seq 0 N)) by (apply in_seq; lia).
      pose proof (find_none _ _ E n H0) as Q. simpl in Q. apply negb_false_iff, Nat.eqb_eq in Q. destruct L. auto.
Qed.
Lemma dist_None t : t < N -> dist t = None -> forall k, W k s t = 0.
Proof.
  intros Ht E k. destruct (Nat.eq_dec (W k s t) 0) as [|Q]; auto. exfalso.
  destruct (lev_least k t Q) as (j & _ & L). apply dist_lev in L; auto. congruence.
Qed.
Lemma shortest_dist t : shortest_paths N edge s t = match dist t with Some k => walks_to k s t | None => [] end.
Proof. reflexivity. Qed.

(** A vertex of a shortest path is at the position of its level. *)
Lemma path_at n t p v j : t < N -> v < N -> lev n t -> In p (walks_to n s t) -> j <= n -> nth j p N = v ->
  lev j v /\ W (n - j) v t <> 0.
Proof.
  intros Ht Hv L I Hj E. unfold SpecBc.walks_to in I. apply filter_In in I. destruct I as (I & La).
  assert (C : cnt (fun p => (last p s =? t) && (nth j p N =? v)) n s <> 0).
  { unfold cnt. apply (filter_length_in _ _ p); auto. rewrite La, E, Nat.eqb_refl. auto. }
  rewrite cnt_at in C by auto. assert (A : W j s v <> 0) by lia. assert (B : W (n - j) v t <> 0) by lia.
  split; [|auto]. split; [auto|]. destruct (lev_least j v A) as (i & Hi & Li).
  destruct (Nat.eq_dec i j) as [->|Ni]; [apply Li|]. exfalso.
  destruct L as (_ & L). specialize (L (i + (n - j)) ltac:(lia)). revert L. apply (W_join i (n - j) s v t); auto. apply Li.
Qed.
Lemma count_through n t v l : t < N -> v < N -> lev n t -> lev l v ->
  length (filter (existsb (Nat.eqb v)) (walks_to n s t)) = if l <=? n then W l s v * W (n - l) v t else 0.
Proof.
  intros Ht Hv L Lv. destruct (Nat.leb_spec l n) as [Hl|Hl].
  - rewrite <- cnt_at by auto. unfold cnt.
    rewrite <- (filter_filter (fun p => nth l p N =? v) (fun p => last p s =? t)).
    fold (walks_to n s t). rewrite (filter_eq_in _ (fun p => nth l p N =? v)); auto.
    intros p Hp. assert (LP : length p = S n).
    { unfold SpecBc.walks_to in Hp. apply filter_In in Hp. apply (walk_length n s). apply Hp. }
    destruct (Nat.eqb_spec (nth l p N) v) as [E|E].
    + apply existsb_exists. exists v. rewrite Nat.eqb_refl. split; auto. rewrite <- E. apply nth_In. lia.
    + destruct (existsb (Nat.eqb v) p) eqn:X; auto. exfalso. apply existsb_exists in X. destruct X as (x & Ix & Ex).
      apply Nat.eqb_eq in Ex. subst x. destruct (In_nth p v N Ix) as (j & Hj & Ej).
      destruct (path_at n t p v j Ht Hv L Hp ltac:(lia) Ej) as (Lj & _).
      rewrite (lev_unique j l v Lj Lv) in Ej. auto.
  - rewrite filter_false; auto. intros p Hp. assert (LP : length p = S n).
    { unfold SpecBc.walks_to in Hp. apply filter_In in Hp. apply (walk_length n s). apply Hp. }
    destruct (existsb (Nat.eqb v) p) eqn:X; auto. exfalso. apply existsb_exists in X. destruct X as (x & Ix & Ex).
    apply Nat.eqb_eq in Ex. subst x. destruct (In_nth p v N Ix) as (j & Hj & Ej).
    destruct (path_at n t p v j Ht Hv L Hp ltac:(lia) Ej) as (Lj & _).
    pose proof (lev_unique j l v Lj Lv). lia.
Qed.
Lemma count_through_none n t v : t < N -> v < N -> lev n t -> dist v = None ->
  length (filter (existsb (Nat.eqb v)) (walks_to n s t)) = 0.
Proof.
  intros Ht Hv L Lv. rewrite filter_false; auto. intros p Hp. assert (LP : length p = S n).
  { unfold SpecBc.walks_to in Hp. apply filter_In in Hp. apply (walk_length n s). apply Hp. }
  destruct (existsb (Nat.eqb v) p) eqn:X; auto. exfalso. apply existsb_exists in X. destruct X as (x & Ix & Ex).
  apply Nat.eqb_eq in Ex. subst x. destruct (In_nth p v N Ix) as (j & Hj & Ej).
  destruct (path_at n t p v j Ht Hv L Hp ltac:(lia) Ej) as (Lj & _). apply dist_lev in Lj; auto. congruence.
Qed.

(** ** The recursion of Brandes *)
Local Open Scope Qc_scope.
Definition term (l v t : nat) : Qc :=
  match dist t with
  | Some n => if (l <=? n)%nat then nat_q (W l s v) * nat_q (W (n - l) v t) / nat_q (W n s t) else 0
  | None => 0
  end.
Definition D (l v : nat) : Qc := qsum N (term l v).

Lemma qsum_single n f i : (i < n)%nat -> (forall j, (j < n)%nat -> j <> i -> f j = 0) -> qsum n f = f i.
Proof.
  induction n as [|n IH]; intros Hi H; [lia|]. simpl. destruct (Nat.eq_dec i n) as [->|].
  - rewrite qsum_zero; [ring|]. intros; apply H; lia.
  - rewrite IH, (H n) by (auto; lia). ring.
Qed.

Lemma D_dep l v : (v < N)%nat -> v <> s -> lev l v -> D l v = 1 + dependency N edge s v.
Proof.
  intros Hv Ns L. unfold D, dependency.
  transitivity (qsum N (fun t => (if (t =? v)%nat then 1 else 0) + pair_dependency N edge s t v)).
  - apply qsum_ext. intros t Ht. unfold pair_dependency, term. rewrite (proj2 (Nat.eqb_neq v s) Ns). simpl orb.
    rewrite shortest_dist. destruct (Nat.eqb_spec t v) as [->|Nt].
    + rewrite Nat.eqb_refl. rewrite (proj2 (dist_lev v l Hv) L). rewrite Nat.leb_refl, Nat.sub_diag, W_0, Nat.eqb_refl.
      simpl b2n. change (nat_q 1) with 1. field. apply nat_q_neq. apply L.
    + rewrite (proj2 (Nat.eqb_neq v t)) by auto. destruct (dist t) as [n|] eqn:E.
      * apply dist_lev in E; auto. rewrite (count_through n t v l Ht Hv E L). change (length (walks_to n s t)) with (W n s t).
        destruct (l <=? n)%nat; [rewrite nat_q_mul; ring|]. change (nat_q 0) with 0. unfold Qcdiv. ring.
      * simpl. change (nat_q 0) with 0. unfold Qcdiv. ring.
  - rewrite qsum_add. rewrite (qsum_single N (fun t => if (t =? v)%nat then 1 else 0) v Hv).
    + rewrite Nat.eqb_refl. auto.
    + intros j _ Hj. rewrite (proj2 (Nat.eqb_neq j v) Hj). auto.
Qed.
Lemma dep_unreached v : (v < N)%nat -> dist v = None -> dependency N edge s v = 0.
Proof.
  intros Hv E. unfold dependency. apply qsum_zero. intros t Ht. unfold pair_dependency.
  destruct (_ || _); auto. rewrite shortest_dist. destruct (dist t) as [n|] eqn:Et.
  - apply dist_lev in Et; auto. rewrite (count_through_none n t v) by auto. change (nat_q 0) with 0. unfold Qcdiv. ring.
  - simpl. change (nat_q 0) with 0. unfold Qcdiv. ring.
Qed.
Lemma dep_source : dependency N edge s s = 0.
Proof. unfold dependency. apply qsum_zero. intros t Ht. unfold pair_dependency. rewrite Nat.eqb_refl. auto. Qed.

Lemma D_rec l v : (v < N)%nat -> lev l v ->
  D l v = 1 + nat_q (W l s v) *
    qsum N (fun w => if edge v w && levb (S l) w then D (S l) w / nat_q (W (S l) s w) else 0).
Proof.
  intros Hv L. unfold D at 1.
  transitivity (qsum N (fun t => (if (t =? v)%nat then 1 else 0) +
    nat_q (W l s v) * qsum N (fun w => if edge v w && levb (S l) w then term (S l) w t / nat_q (W (S l) s w) else 0))).
  - apply qsum_ext. intros t Ht. destruct (Nat.eqb_spec t v) as [->|Nt].
    + unfold term at 1. rewrite (proj2 (dist_lev v l Hv) L). rewrite Nat.leb_refl, Nat.sub_diag, W_0, Nat.eqb_refl.
      rewrite qsum_zero.
      * simpl b2n. change (nat_q 1) with 1. field. apply nat_q_neq. apply L.
      * intros w Hw. destruct (_ && _); auto. unfold term. rewrite (proj2 (dist_lev v l Hv) L).
        destruct (Nat.leb_spec (S l) l); [lia|]. unfold Qcdiv. ring.
    + unfold term at 1. destruct (dist t) as [n|] eqn:E.
      * apply dist_lev in E; auto. destruct (Nat.leb_spec l n) as [Hl|Hl].
        -- destruct (Nat.eq_dec l n) as [<-|Nl].
           ++ rewrite Nat.sub_diag, W_0, (proj2 (Nat.eqb_neq v t)) by auto. rewrite qsum_zero.
              ** simpl b2n. change (nat_q 0) with 0. unfold Qcdiv. ring.
              ** intros w Hw. destruct (_ && _); auto. unfold term. rewrite (proj2 (dist_lev t l Ht) E).
                 destruct (Nat.leb_spec (S l) l); [lia|]. unfold Qcdiv. ring.
           ++ replace (n - l)%nat with (S (n - S l)) by lia. rewrite W_S, nat_q_nsum.
              rewrite (qsum_ext N (fun w => if edge v w && levb (S l) w then term (S l) w t / nat_q (W (S l) s w) else 0)
                (fun w => / nat_q (W n s t) * nat_q (if edge v w then W (n - S l) w t else 0))).
              ** rewrite qsum_scale. unfold Qcdiv. ring.
              ** intros w Hw. destruct (edge v w) eqn:Ew; simpl andb; cbv iota; [|change (nat_q 0) with 0; ring].
                 destruct (levb (S l) w) eqn:Lw.
                 --- apply levb_spec in Lw. unfold term. rewrite (proj2 (dist_lev t n Ht) E).
                     destruct (Nat.leb_spec (S l) n); [|lia]. field. split; apply nat_q_neq; [apply E|apply Lw].
                 --- destruct (Nat.eq_dec (W (n - S l) w t) 0) as [->|Q]; [change (nat_q 0) with 0; ring|]. exfalso.
                     assert (Ww : W (S l) s w <> 0%nat).
                     { replace (S l) with (l + 1)%nat by lia. apply (W_join l 1 s v w); auto; [apply L|].
                       rewrite W_1, Ew by auto. simpl. lia. }
                     destruct (lev_least _ _ Ww) as (j & Hj & Lj). destruct (Nat.eq_dec j (S l)) as [->|Nj].
                     { apply levb_spec in Lj. congruence. }
                     destruct E as (_ & E). specialize (E (j + (n - S l))%nat ltac:(lia)). revert E.
                     apply (W_join j (n - S l) s w t); auto. apply Lj.
        -- rewrite qsum_zero; [ring|]. intros w Hw. destruct (_ && _); auto. unfold term.
           rewrite (proj2 (dist_lev t n Ht) E). destruct (Nat.leb_spec (S l) n); [lia|]. unfold Qcdiv. ring.
      * rewrite qsum_zero; [ring|]. intros w Hw. destruct (_ && _); auto. unfold term. rewrite E. unfold Qcdiv. ring.
  - rewrite qsum_add. rewrite (qsum_single N (fun t => if (t =? v)%nat then 1 else 0) v Hv).
    + rewrite Nat.eqb_refl. f_equal. rewrite qsum_scale. f_equal. rewrite qsum_swap. apply qsum_ext. intros w Hw.
      destruct (_ && _).
      * unfold Qcdiv. rewrite (qsum_ext N _ (fun i => / nat_q (W (S l) s w) * term (S l) w i)) by (intros; ring).
        rewrite qsum_scale. unfold D. ring.
      * apply qsum_zero. auto.
    + intros j _ Hj. rewrite (proj2 (Nat.eqb_neq j v) Hj). auto.
Qed.
End Source.
End Paths.
