(** Lemmas about the row primitives used to build results. *)
From Coq Require Import Lia.
From Verif Require Import Base ModelLil ModelVec ModelHelpers ModelViews Spec SpecOps.
From Verif Require Import ProofBase ProofRow ProofLil ProofVec ProofCalls ProofWrite.

(** ** Rows listed position by position *)

Definition opt1 {T} (i : nat) (o : option T) : row T :=
  match o with Some v => [(i, v)] | None => [] end.

Definition genrow {T} (f : nat -> option T) (lo n : nat) : row T :=
  flat_map (fun c => opt1 c (f c)) (seq lo n).

Lemma genrow_S {T} (f : nat -> option T) lo n :
  genrow f lo (S n) = genrow f lo n ++ opt1 (lo + n) (f (lo + n)).
Proof.
  unfold genrow. rewrite seq_S, flat_map_app. simpl. rewrite app_nil_r. reflexivity.
Qed.

Lemma genrow_wf {T} (f : nat -> option T) lo n : wfrow lo (lo + n) (genrow f lo n).
Proof.
  revert lo; induction n as [|n IH]; intro lo; [exact I|].
  unfold genrow in *. simpl. specialize (IH (S lo)).
  replace (S lo + n) with (lo + S n) in IH by lia.
  destruct (f lo); simpl.
  - split; [lia|auto].
  - eapply wfrow_weaken; eauto; lia.
Qed.

Lemma genrow_wf0 {T} (f : nat -> option T) n : wfrow 0 n (genrow f 0 n).
Proof. exact (genrow_wf f 0 n). Qed.

Lemma genrow_get {T} (f : nat -> option T) n j :
  rget (genrow f 0 n) j = if j <? n then f j else None.
Proof.
  induction n as [|n IH]; [reflexivity|].
  rewrite genrow_S, rget_app, IH. simpl. ltb.
  - destruct (f j) eqn:E; auto. destruct (f n); simpl; auto. ltb; auto.
  - replace j with n by lia. destruct (f n); simpl; auto. ltb; auto.
  - destruct (f n); simpl; auto. ltb; auto.
Qed.

Lemma genrow_ext {T} (f g : nat -> option T) lo n :
  (forall c, lo <= c < lo + n -> f c = g c) -> genrow f lo n = genrow g lo n.
Proof.
  intro H. apply flat_map_ext_in. intros c Hc. apply in_seq in Hc. rewrite H; auto.
Qed.

Lemma fold_left_ext_in {A B} (f g : A -> B -> A) l a :
  (forall x b, In b l -> f x b = g x b) -> fold_left f l a = fold_left g l a.
Proof.
  revert a; induction l as [|b l IH]; intros a H; simpl; auto.
  rewrite (H a b) by (left; auto). apply IH. intros; apply H; right; auto.
Qed.

Lemma fold_map {A B C} (f : A -> B -> A) (g : C -> B) l a :
  fold_left f (map g l) a = fold_left (fun x c => f x (g c)) l a.
Proof. revert a; induction l; simpl; auto. Qed.

(** Folding over a sorted row is folding over the positions. *)
Lemma fold_row_seq {T S} (f : S -> nat * T -> S) r lo hi s :
  wfrow lo hi r ->
  fold_left f r s =
  fold_left (fun s k => match rget r k with Some v => f s (k, v) | None => s end)
            (seq lo (hi - lo)) s.
Proof.
  intro W. rewrite (row_positions r lo hi W) at 1.
  revert s. induction (seq lo (hi - lo)) as [|k l IH]; intro s; [reflexivity|].
  cbn [flat_map fold_left]. rewrite fold_left_app, IH. f_equal.
  destruct (rget r k); reflexivity.
Qed.

Lemma oadd_none_r {T} (add : T -> T -> T) x : oadd add x None = x.
Proof. destruct x; reflexivity. Qed.

(** ** Rows of results under construction *)

Definition setraw {T} (M : lil T) (i : nat) (r : row T) : lil T :=
  mkLil (nrows M) (ncols M) (nvals M) (upd (data M) i r).

Lemma setraw_self {T} (M : lil T) i : setraw M i (nth i (data M) []) = M.
Proof. unfold setraw. rewrite upd_self. destruct M; reflexivity. Qed.

Lemma putrow_ok {T} (M : lil T) i r : i < length (data M) -> putrow M i r = Ok (setraw M i r).
Proof. intro H. unfold putrow. rewrite vset_ok by auto. reflexivity. Qed.

Lemma pushrow_ok {T} (M : lil T) i p :
  i < length (data M) -> pushrow M i p = Ok (setraw M i (nth i (data M) [] ++ [p])).
Proof.
  intro H. unfold pushrow. rewrite getrow_ok by auto. cbn [bind]. apply putrow_ok; auto.
Qed.

Lemma upd_upd {A} (l : list A) i a b : upd (upd l i a) i b = upd l i b.
Proof. revert i; induction l as [|x l IH]; intros [|i]; simpl; auto. rewrite IH; auto. Qed.

Lemma nth_upd_same {A} (l : list A) i a d : i < length l -> nth i (upd l i a) d = a.
Proof. intro H. rewrite nth_upd by auto. ltb; auto. Qed.

Lemma setraw_setraw {T} (M : lil T) i r r' : setraw (setraw M i r) i r' = setraw M i r'.
Proof. unfold setraw; simpl. rewrite upd_upd. reflexivity. Qed.

Lemma setraw_len {T} (M : lil T) i r : length (data (setraw M i r)) = length (data M).
Proof. apply upd_length. Qed.

(** A loop that keeps updating one row. *)
Lemma rowfold_loop {P T} (step : row T -> P -> row T) (body : P -> lil T -> res (lil T)) l i :
  forall M : lil T,
  i < length (data M) ->
  (forall p M', In p l -> length (data M') = length (data M) ->
     body p M' = Ok (setraw M' i (step (nth i (data M') []) p))) ->
  mfor l body M = Ok (setraw M i (fold_left step l (nth i (data M) []))).
Proof.
  induction l as [|p l IH]; intros M Hi Hb; simpl.
  - rewrite setraw_self. reflexivity.
  - rewrite Hb by (auto; left; auto). cbn [bind].
    rewrite IH.
    + rewrite setraw_setraw. simpl. rewrite nth_upd_same by auto. reflexivity.
    + rewrite setraw_len; auto.
    + intros q M' Hq L. rewrite setraw_len in L. apply Hb; auto. right; auto.
Qed.

(** A loop that fills the rows of an empty matrix one after the other. *)
Lemma fill_loop {T} (body : nat -> lil T -> res (lil T)) (F : nat -> row T) nr nc n :
  n <= nr ->
  (forall i M, i < n -> length (data M) = nr -> nth i (data M) [] = [] ->
     body i M = Ok (setraw M i (F i))) ->
  exists M', mfor (seq 0 n) body (lil_new nr nc) = Ok M' /\ length (data M') = nr /\
    (forall i, nth i (data M') [] = if i <? n then F i else []).
Proof.
  intros Hn Hb.
  destruct (mfor_seq_inv (fun k M => length (data M) = nr /\
    (forall i, nth i (data M) [] = if i <? k then F i else [])) body n (lil_new nr nc))
    as (M' & E & P).
  - simpl. split; [apply repeat_length|]. intro i. rewrite nth_repeat'. ltb; auto.
  - intros i M Hi (L & G). exists (setraw M i (F i)). split.
    + apply Hb; auto. rewrite G. ltb; auto.
    + rewrite setraw_len. split; auto. intro k. simpl. rewrite nth_upd by lia. rewrite G.
      ltb; subst; auto; lia.
  - exists M'. tauto.
Qed.

(** A loop that updates the rows named by a sorted row, each once. *)
Lemma scatter_loop {X T} (step : X -> row T -> row T) (body : nat * X -> lil T -> res (lil T)) r :
  forall lo (M : lil T),
  wfrow lo (length (data M)) r ->
  (forall p M', In p r -> length (data M') = length (data M) ->
     body p M' = Ok (setraw M' (fst p) (step (snd p) (nth (fst p) (data M') [])))) ->
  exists M', mfor r body M = Ok M' /\ length (data M') = length (data M) /\
    forall i, nth i (data M') [] =
      match rget r i with Some a => step a (nth i (data M) []) | None => nth i (data M) [] end.
Proof.
  induction r as [|[k a] r IH]; intros lo M W Hb; simpl.
  - exists M. auto.
  - destruct W as [Hk W]. rewrite Hb by (auto; left; auto). cbn [bind fst snd].
    set (M1 := setraw M k (step a (nth k (data M) []))).
    assert (L1 : length (data M1) = length (data M)) by apply setraw_len.
    destruct (IH (S k) M1) as (M' & E & L & G).
    + rewrite L1; auto.
    + intros p M' Hp L. apply Hb; [right; auto|lia].
    + exists M'. split; [auto|]. split; [lia|]. intro i. rewrite G. unfold M1 at 1 2; simpl.
      rewrite nth_upd by lia. ltb; subst; auto.
      rewrite (rget_lt r (S k) (length (data M))) by (auto; lia). reflexivity.
Qed.

(** A loop that fills the columns of an empty matrix one after the other. *)
Lemma pushcol_loop {X T} (g : X -> T) (body : nat -> lil T -> res (lil T)) (R : nat -> row X)
    nr nc n :
  (forall i, i < n -> wfrow 0 nr (R i)) ->
  (forall i M, i < n -> length (data M) = nr -> body i M = pushcol g i (R i) M) ->
  exists M', mfor (seq 0 n) body (lil_new nr nc) = Ok M' /\ length (data M') = nr /\
    (forall j, j < nr ->
       nth j (data M') [] = genrow (fun i => option_map g (rget (R i) j)) 0 n).
Proof.
  intros HR Hb.
  destruct (mfor_seq_inv (fun k M => length (data M) = nr /\
    (forall j, j < nr -> nth j (data M) [] = genrow (fun i => option_map g (rget (R i) j)) 0 k))
    body n (lil_new nr nc)) as (M' & E & P).
  - simpl. split; [apply repeat_length|]. intros j Hj. rewrite nth_repeat'. ltb; auto.
  - intros i M Hi (L & G). rewrite Hb by auto. unfold pushcol.
    destruct (scatter_loop (fun v t => t ++ [(i, g v)])
      (fun p M' => pushrow M' (fst p) (i, g (snd p))) (R i) 0 M) as (M1 & E1 & L1 & G1).
    + rewrite L. auto.
    + intros p M1 Hp L1. apply pushrow_ok. rewrite L1, L.
      destruct p as [k v]. eapply wfrow_In in Hp; [|apply HR; eauto]. simpl; lia.
    + exists M1. split; [auto|]. split; [lia|]. intros j Hj. rewrite G1, G by auto.
      change (1 + i) with (S i). rewrite genrow_S. simpl.
      destruct (rget (R i) j); simpl; auto. rewrite app_nil_r; auto.
  - exists M'. tauto.
Qed.

(** [r] returns rows with the shape and contents of [f]. *)
Definition tgives {T} (nr nc : nat) (f : smat T) (r : res (lil T)) : Prop :=
  exists M, r = Ok M /\ wfrows nr nc (data M) /\
    forall i j, i < nr -> j < nc -> mget M i j = f i j.

Lemma tgives_new {T} nr nc (f : smat T) :
  (forall i j, i < nr -> j < nc -> f i j = None) -> tgives nr nc f (Ok (lil_new nr nc)).
Proof.
  intro H. exists (lil_new nr nc). split; [auto|]. split.
  - exact (proj1 (lil_new_wf nr nc)).
  - intros. rewrite mget_new, H; auto.
Qed.

Lemma tgives_ext {T} nr nc (f g : smat T) r :
  (forall i j, i < nr -> j < nc -> f i j = g i j) -> tgives nr nc f r -> tgives nr nc g r.
Proof.
  intros H (M & E & W & G). exists M. split; [auto|]. split; [auto|].
  intros. rewrite <- H by auto. auto.
Qed.

Lemma tgives_rows {T} nr nc (M : lil T) (F : nat -> row T) (f : smat T) :
  length (data M) = nr ->
  (forall i, i < nr -> nth i (data M) [] = F i) ->
  (forall i, i < nr -> wfrow 0 nc (F i)) ->
  (forall i j, i < nr -> j < nc -> rget (F i) j = f i j) ->
  tgives nr nc f (Ok M).
Proof.
  intros L G W Hf. exists M. split; [auto|]. split; [split; auto|].
  - apply Forall_of_nth with (d := []). intros i Hi. rewrite G by lia. apply W. lia.
  - intros i j Hi Hj. unfold mget. rewrite G by auto. auto.
Qed.

(** [r] returns a sorted row with the contents of [s]. *)
Definition vgives {T} (n : nat) (s : svec T) (r : res (row T)) : Prop :=
  exists t, r = Ok t /\ wfrow 0 n t /\ forall i, i < n -> rget t i = s i.

Lemma vgives_nil {T} n (s : svec T) : (forall i, i < n -> s i = None) -> vgives n s (Ok []).
Proof. intro H. exists []. split; [auto|]. split; [exact I|]. intros. rewrite H; auto. Qed.

(** A loop that appends to a row. *)
Lemma append_loop {T} (f : nat -> option T) (body : nat -> row T -> res (row T)) n t :
  (forall i t, i < n -> body i t = Ok (t ++ opt1 i (f i))) ->
  mfor (seq 0 n) body t = Ok (t ++ genrow f 0 n).
Proof.
  intro H. rewrite (mfor_pure _ _ (fun t i => t ++ opt1 i (f i))).
  - f_equal. unfold genrow. clear. revert t. induction (seq 0 n) as [|i l IH]; intro t; simpl.
    + rewrite app_nil_r; auto.
    + rewrite IH, app_assoc. auto.
  - intros i s Hi. apply in_seq in Hi. apply H. lia.
Qed.

(** ** Counts used as emptiness tests *)
Lemma has_vals_false_m {T} (M : lil T) : wfm M -> has_vals (nvals M) = false ->
  forall i j, mget M i j = None.
Proof.
  intros W H i j. unfold has_vals in H. apply negb_false_iff, Z.eqb_eq in H.
  destruct (mget M i j) as [v|] eqn:E; auto. exfalso.
  pose proof (mget_some_bounds M i j v W E) as [Hi Hj].
  destruct W as [_ N]. rewrite N in H. unfold mcount in H.
  assert (In (i, j) (filter (fun '(i, j) => is_some (mget M i j))
                       (list_prod (seq 0 (nrows M)) (seq 0 (ncols M))))).
  { apply filter_In. split; [apply in_prod; apply in_seq; lia|]. rewrite E. reflexivity. }
  destruct (filter _ _); [contradiction|]. simpl in H. lia.
Qed.

Lemma wfv_wfvn {T} (u : bvec T) : wfv u -> wfvn u.
Proof.
  intros [W N]. split; auto. intros H i. rewrite N in H.
  destruct (vget u i) as [v|] eqn:E; auto. exfalso.
  assert (Hi : i < vsize u).
  { destruct (Nat.lt_ge_cases i (vsize u)); auto. rewrite vget_oob in E by auto. discriminate. }
  unfold vcount in H.
  assert (In i (filter (fun i => is_some (vget u i)) (seq 0 (vsize u)))).
  { apply filter_In. split; [apply in_seq; lia|]. rewrite E. reflexivity. }
  destruct (filter _ _); [contradiction|]. simpl in H. lia.
Qed.

Lemma has_vals_false_v {T} (u : bvec T) : wfvn u -> has_vals (vnvals u) = false ->
  forall i, vget u i = None.
Proof.
  intros [_ W] H. unfold has_vals in H. apply negb_false_iff, Z.eqb_eq in H. auto.
Qed.

Lemma osum_none {T X} (add : T -> T -> T) (f : X -> option T) l :
  (forall x, In x l -> f x = None) -> osum add (map f l) = None.
Proof.
  intro H. unfold osum. rewrite fold_oadd_none; auto.
  intros y Hy. apply in_map_iff in Hy. destruct Hy as (x & <- & Hx). auto.
Qed.

(** ** Frontend checks *)
Lemma check_eq_ok a b : a = b -> check_eq a b = Ok tt.
Proof. intro H. unfold check_eq. rewrite (proj2 (Nat.eqb_eq a b) H). reflexivity. Qed.

Lemma check_eq_throw a b : a <> b -> check_eq a b = Throw DimensionException.
Proof. intro H. unfold check_eq. rewrite (proj2 (Nat.eqb_neq a b) H). reflexivity. Qed.

Lemma check_mask_ok {TM} (m : mask (lil TM)) nr nc :
  mask_fits m nr nc -> check_mask_rows nr m = Ok tt /\ check_mask_cols nc m = Ok tt.
Proof.
  destruct m; simpl; intros H; auto; destruct H; split; apply check_eq_ok; auto.
Qed.

Lemma check_mask_throw {TM} (m : mask (lil TM)) nr nc :
  ~ mask_fits m nr nc ->
  check_mask_rows nr m = Throw DimensionException \/
  check_mask_rows nr m = Ok tt /\ check_mask_cols nc m = Throw DimensionException.
Proof.
  destruct m as [|M|M|M|M]; simpl; intros H; [tauto| | | |];
    (destruct (Nat.eq_dec nr (nrows M));
     [right; split; [apply check_eq_ok; auto|apply check_eq_throw; intuition auto]
     |left; apply check_eq_throw; auto]).
Qed.

Lemma check_mask_size_ok {TM} (m : mask (bvec TM)) n :
  vmask_fits m n -> check_mask_size n m = Ok tt.
Proof. destruct m; simpl; intros H; auto; apply check_eq_ok; auto. Qed.

Lemma check_mask_size_throw {TM} (m : mask (bvec TM)) n :
  ~ vmask_fits m n -> check_mask_size n m = Throw DimensionException.
Proof. destruct m; simpl; intros H; [tauto| | | |]; apply check_eq_throw; auto. Qed.

(** ** The write rule determines the result *)
Lemma written_unique {TC TT TZ TM} (truthy : TM -> bool) (zc : TZ -> TC) (a : accum TC TT TZ)
    (m : mask (lil TM)) outp (C : lil TC) (S1 S2 : smat TT) r1 r2 :
  written truthy zc a m outp C S1 r1 -> written truthy zc a m outp C S2 r2 ->
  (forall i j, i < nrows C -> j < ncols C -> S1 i j = S2 i j) -> r1 = r2.
Proof.
  intros (C1 & -> & W1 & R1 & K1 & G1) (C2 & -> & W2 & R2 & K2 & G2) E. f_equal.
  apply lil_ext; auto; try congruence.
  intros i j Hi Hj. rewrite G1, G2, E by congruence. reflexivity.
Qed.

(** ** Deciding conformity *)
Lemma mask_fits_dec {TM} (m : mask (lil TM)) nr nc : {mask_fits m nr nc} + {~ mask_fits m nr nc}.
Proof.
  destruct m as [|M|M|M|M]; simpl; auto;
    destruct (Nat.eq_dec (nrows M) nr), (Nat.eq_dec (ncols M) nc); auto; right; tauto.
Qed.

Lemma vmask_fits_dec {TM} (m : mask (bvec TM)) n : {vmask_fits m n} + {~ vmask_fits m n}.
Proof. destruct m as [|M|M|M|M]; simpl; auto; destruct (Nat.eq_dec (vsize M) n); auto. Qed.

(** A chain of checks throws as soon as one fails. *)
Lemma check_bind {A} a b (k : unit -> res A) :
  (a = b -> k tt = Throw DimensionException) -> bind (check_eq a b) k = Throw DimensionException.
Proof.
  intro H. destruct (Nat.eq_dec a b).
  - rewrite check_eq_ok by auto. apply H; auto.
  - rewrite check_eq_throw by auto. reflexivity.
Qed.

Lemma check_mask_bind {TM A} (m : mask (lil TM)) nr nc (k : unit -> res A) :
  (mask_fits m nr nc -> k tt = Throw DimensionException) ->
  bind (check_mask_rows nr m) (fun _ => bind (check_mask_cols nc m) k) = Throw DimensionException.
Proof.
  intro H. destruct (mask_fits_dec m nr nc) as [F|F].
  - destruct (check_mask_ok m nr nc F) as [-> ->]. cbn [bind]. auto.
  - destruct (check_mask_throw m nr nc F) as [-> |[-> ->]]; reflexivity.
Qed.

Lemma check_vmask_bind {TM A} (m : mask (bvec TM)) n (k : unit -> res A) :
  (vmask_fits m n -> k tt = Throw DimensionException) ->
  bind (check_mask_size n m) k = Throw DimensionException.
Proof.
  intro H. destruct (vmask_fits_dec m n) as [F|F].
  - rewrite check_mask_size_ok by auto. cbn [bind]. auto.
  - rewrite check_mask_size_throw by auto. reflexivity.
Qed.

(** For concrete containers. *)
Ltac wf_mat := split; [split; [reflexivity|
  repeat (apply Forall_cons; [cbn; repeat split; lia|]); apply Forall_nil]|reflexivity].
Ltac wf_vec := split; [split; reflexivity|reflexivity].
