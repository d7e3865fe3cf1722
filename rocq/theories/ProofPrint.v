(** The printed form of containers. *)
From Coq Require Import Ascii String DecimalString DecimalNat Lia.
From Verif Require Import Base ModelLil ModelVec ModelPrint Spec SpecPrint ProofBase ProofLil ProofViews ProofVec.

(** ** Joining *)
Lemma joined_cons sep x y l : joined sep (x :: y :: l) = x ++ sep ++ joined sep (y :: l).
Proof. auto. Qed.
Lemma joined_snoc sep l x : l <> [] -> joined sep (l ++ [x]) = joined sep l ++ sep ++ x.
Proof.
  induction l as [|a l IH]; [congruence|]. intros _. destruct l as [|b l]; [auto|].
  change ((a :: b :: l) ++ [x]) with (a :: (b :: l) ++ [x]).
  change (joined sep (a :: (b :: l) ++ [x])) with (a ++ sep ++ joined sep ((b :: l) ++ [x])).
  rewrite IH by congruence. rewrite joined_cons, !app_assoc. auto.
Qed.
Lemma split_at {X} (d : X) a a' t t' : ~ In d a -> ~ In d a' -> a ++ d :: t = a' ++ d :: t' -> a = a' /\ t = t'.
Proof.
  revert a'. induction a as [|x a IH]; intros [|y a'] H H' E; simpl in *.
  - inversion E. auto.
  - inversion E. subst. tauto.
  - inversion E. subst. tauto.
  - inversion E. subst y. destruct (IH a') as [-> ->]; auto.
Qed.
Lemma joined_inj d s l l' : length l = length l' -> Forall (fun x => ~ In d x) l -> Forall (fun x => ~ In d x) l' ->
  joined (d :: s) l = joined (d :: s) l' -> l = l'.
Proof.
  revert l'. induction l as [|x l IH]; intros [|x' l'] L F F' E; try discriminate; auto.
  inversion_clear F. inversion_clear F'. destruct l as [|y l], l' as [|y' l']; try discriminate.
  - simpl in E. congruence.
  - rewrite !joined_cons in E. cbn [app] in E. destruct (split_at d x x' _ _ H H1 E) as (-> & E').
    apply app_inv_head in E'. f_equal. apply IH; auto.
Qed.

(** ** Decimal numbers *)
Definition is_digit (c : ascii) : Prop := In c (txt "0123456789").
Lemma uint_digits d c : In c (txt (NilEmpty.string_of_uint d)) -> is_digit c.
Proof. unfold is_digit, txt. induction d; simpl; intros H; try tauto; destruct H as [<-|H]; auto 12. Qed.
Lemma index_digits n c : In c (show_index n) -> is_digit c.
Proof.
  unfold show_index. intro H. destruct (Nat.to_uint n) eqn:E; try (apply (uint_digits (Nat.to_uint n)); rewrite E; exact H).
  simpl in H. unfold is_digit, txt. simpl. intuition.
Qed.
Lemma to_uint_nonnil n : Nat.to_uint n <> Decimal.Nil.
Proof. intro H. assert (n = 0) by (rewrite <- (Unsigned.of_to n), H; auto). subst n. discriminate. Qed.
Lemma index_inj n m : show_index n = show_index m -> n = m.
Proof.
  unfold show_index, txt. intro H. apply (f_equal string_of_list_ascii) in H. rewrite !string_of_list_ascii_of_string in H.
  apply (f_equal NilZero.uint_of_string) in H. rewrite !NilZero.usu in H by apply to_uint_nonnil.
  apply Unsigned.to_uint_inj. congruence.
Qed.
Lemma index_not n c : In c (show_index n) -> c <> " "%char /\ c <> ")"%char /\ c <> ","%char /\ c <> "-"%char /\ c <> Ascii.ascii_of_nat 10.
Proof. intros H%index_digits. unfold is_digit, txt in H. simpl in H. repeat (destruct H as [<-|H]; [repeat split; discriminate|]). tauto. Qed.
Lemma index_nonempty n : show_index n <> [].
Proof.
  unfold show_index. pose proof (to_uint_nonnil n) as H. destruct (Nat.to_uint n); try discriminate. 
Qed.
Lemma show_int_plain blank : blank = txt " " \/ blank = txt "-" -> plain_show show_int blank.
Proof.
  intro B.
  assert (N : forall n c, In c (show_index n) -> is_digit c) by apply index_digits.
  assert (F : forall n, ~ In "-"%char (show_index n)).
  { intros n H. apply index_not in H. tauto. }
  split; [|split].
  - intros x y H. unfold show_int in H. destruct (Z.ltb_spec x 0), (Z.ltb_spec y 0).
    + apply app_inv_head in H. apply index_inj in H. lia.
    + exfalso. apply (F (Z.to_nat y)). rewrite <- H. simpl. auto.
    + exfalso. apply (F (Z.to_nat x)). rewrite H. simpl. auto.
    + apply index_inj in H. lia.
  - intro x. assert (G : forall c, In c (show_int x) -> is_digit c \/ c = "-"%char).
    { intros c H. unfold show_int in H. destruct (x <? 0)%Z; [|left; eapply N; eauto]. simpl in H. destruct H as [<-|H]; [auto|left; eapply N; eauto]. }
    split; intro H; apply G in H; unfold is_digit, txt in H; simpl in H; intuition discriminate.
  - intros x H. unfold show_int in H. destruct (Z.ltb_spec x 0).
    + destruct B as [-> | ->]; simpl in H; inversion H. apply (index_nonempty (Z.to_nat (- x))). auto.
    + assert (Q : forall c, blank = [c] -> is_digit c).
      { intros c E. apply (N (Z.to_nat x)). rewrite H, E. simpl. auto. }
      destruct B as [-> | ->]; specialize (Q _ eq_refl); unfold is_digit, txt in Q; simpl in Q; intuition discriminate.
Qed.

(** ** Rows *)
Section Print.
Context {T : Type} (show : T -> text) (name : text).

Definition cell (f : nat -> option T) (j : nat) : text := match f j with Some v => show v | None => txt " " end.
(** The text of the columns from [a] on, as continued after the columns before [a]. *)
Definition tail_text (f : nat -> option T) (a b : nat) : text :=
  flat_map (fun j => (if j =? 0 then [] else txt ", ") ++ cell f j) (seq a (b - a)).
Lemma tail_joined f n : tail_text f 0 n = joined (txt ", ") (map (cell f) (seq 0 n)).
Proof.
  unfold tail_text. rewrite Nat.sub_0_r. induction n as [|n IH]; [auto|]. rewrite seq_S, flat_map_app, map_app, IH. simpl (map _ [_]).
  destruct n as [|n]; [simpl; rewrite app_nil_r; auto|]. rewrite joined_snoc by (simpl; congruence). simpl (flat_map _ [_]).
  rewrite app_nil_r. auto.
Qed.
Lemma tail_split f a b c : a <= b <= c -> tail_text f a c = tail_text f a b ++ tail_text f b c.
Proof.
  intro H. unfold tail_text. replace (c - a) with ((b - a) + (c - b)) by lia. rewrite seq_app, flat_map_app.
  replace (a + (b - a)) with b by lia. auto.
Qed.
Lemma tail_one f a : tail_text f a (S a) = (if a =? 0 then [] else txt ", ") ++ cell f a.
Proof. unfold tail_text. replace (S a - a) with 1 by lia. simpl. rewrite app_nil_r. auto. Qed.
Lemma fill_tail f a b : (forall j, a <= j < b -> f j = None) -> fill a b = tail_text f a b.
Proof.
  intro H. unfold fill, tail_text. rewrite !flat_map_concat_map. f_equal. apply map_ext_in. intros j Hj. apply in_seq in Hj.
  unfold gap, cell. rewrite H by lia. destruct (j =? 0); auto.
Qed.
Lemma flat_map_gap a n : 0 < a -> flat_map (fun _ => txt ",  ") (seq a n) = flat_map gap (seq a n).
Proof.
  intro H. rewrite !flat_map_concat_map. f_equal. apply map_ext_in. intros j Hj. apply in_seq in Hj. unfold gap.
  destruct (Nat.eqb_spec j 0); auto. lia.
Qed.

Lemma wfrow_lt lo hi (l : list (nat * T)) j : wfrow lo hi l -> rget l j <> None -> lo <= j < hi.
Proof.
  revert lo. induction l as [|[c v] l IH]; intros lo W H; simpl in *; [congruence|]. destruct W as (W & W').
  destruct (Nat.eqb_spec c j); [lia|]. specialize (IH _ W' H). lia.
Qed.
Lemma row_items_ok nc : forall l lo curr, curr <= lo -> wfrow lo nc l -> (forall j, curr <= j < lo -> rget l j = None) ->
  l <> [] -> exists e, e <= nc /\ 0 < e /\ (forall j, e <= j -> rget l j = None) /\
    row_items show curr l = (tail_text (rget l) curr e, e).
Proof.
  induction l as [|[c v] l IH]; intros lo curr L W H Hl; [congruence|]. destruct W as (W & W'). cbn [row_items].
  assert (Hc : forall j, j < c -> rget l j = None).
  { intros j Hj. destruct (rget l j) eqn:E; auto. assert (rget l j <> None) by congruence. pose proof (wfrow_lt _ _ _ _ W' H0). lia. }
  assert (Hcc : rget l c = None).
  { destruct (rget l c) eqn:E; auto. assert (rget l c <> None) by congruence. pose proof (wfrow_lt _ _ _ _ W' H0). lia. }
  assert (F : fill curr c = tail_text (rget ((c, v) :: l)) curr c).
  { apply fill_tail. intros j Hj. simpl. destruct (Nat.eqb_spec c j); [lia|]. apply Hc. lia. }
  assert (T1 : forall a b, c < a -> tail_text (rget ((c, v) :: l)) a b = tail_text (rget l) a b).
  { intros a b Hab. unfold tail_text. rewrite !flat_map_concat_map. f_equal. apply map_ext_in. intros j Hj. apply in_seq in Hj. f_equal.
    unfold cell. simpl. destruct (Nat.eqb_spec c j); [lia|]. auto. }
  assert (T0 : tail_text (rget ((c, v) :: l)) c (S c) = (if c =? 0 then [] else txt ", ") ++ show v).
  { rewrite tail_one. unfold cell. simpl. rewrite Nat.eqb_refl. auto. }
  replace (Nat.max curr c) with c by lia. rewrite Nat.add_1_r.
  destruct l as [|p l].
  - simpl row_items. exists (S c). split; [lia|]. split; [lia|]. split.
    + intros j Hj. simpl. destruct (Nat.eqb_spec c j); [lia|]. auto.
    + rewrite F, app_nil_r, <- T0, <- tail_split by lia. auto.
  - destruct (IH (S c) (S c) (le_n _) W') as (e & E1 & E2 & E3 & E4); [intros; lia|congruence|]. rewrite E4.
    assert (Se : S c <= e).
    { destruct (Nat.le_gt_cases (S c) e); auto. exfalso. destruct p as [c' v']. destruct W' as (W' & _).
      specialize (E3 c' ltac:(lia)). simpl in E3. rewrite Nat.eqb_refl in E3. discriminate. }
    exists e. split; [lia|]. split; [lia|]. split.
    + intros j Hj. simpl. destruct (Nat.eqb_spec c j); [lia|]. apply E3. lia.
    + f_equal. rewrite F, <- (T1 (S c) e) by lia. rewrite (tail_split _ curr c e), (tail_split _ c (S c) e), T0 by lia.
      rewrite !app_assoc. auto.
Qed.
Lemma row_text_ok nc l : wfrow 0 nc l -> row_text show nc l = joined (txt ", ") (map (cell (rget l)) (seq 0 nc)).
Proof.
  intro W. rewrite <- tail_joined. unfold row_text. destruct l as [|p l].
  - apply fill_tail. auto.
  - destruct (row_items_ok nc (p :: l) 0 0 (le_n _) W) as (e & E1 & E2 & E3 & ->); [intros; lia|congruence|].
    rewrite flat_map_gap by lia. rewrite (tail_split _ 0 e nc) by lia. f_equal. change (flat_map gap (seq e (nc - e))) with (fill e nc).
    apply fill_tail. intros. apply E3. lia.
Qed.

(** ** Whole containers *)
Lemma rows_joined (f : nat -> text) n : 0 < n ->
  flat_map (fun i => (if i =? 0 then txt "  [[" else txt "   [") ++ f i ++ (if i =? n - 1 then txt "]]" else txt "]" ++ newline)) (seq 0 n) =
  txt "  [" ++ joined (newline ++ txt "   ") (map (fun i => txt "[" ++ f i ++ txt "]") (seq 0 n)) ++ txt "]".
Proof.
  intro Hn. assert (Q : forall m, m <= n - 1 ->
    flat_map (fun i => (if i =? 0 then txt "  [[" else txt "   [") ++ f i ++ (if i =? n - 1 then txt "]]" else txt "]" ++ newline)) (seq 0 m) =
    if m =? 0 then [] else txt "  [" ++ joined (newline ++ txt "   ") (map (fun i => txt "[" ++ f i ++ txt "]") (seq 0 m)) ++ newline).
  { induction m as [|m IH]; intro Hm; [auto|]. rewrite seq_S, flat_map_app, IH by lia. simpl (flat_map _ [_]). simpl (0 + m). simpl (S m =? 0).
    destruct (Nat.eqb_spec m (n - 1)); [lia|]. rewrite map_app. simpl (map _ [_]). destruct (Nat.eqb_spec m 0) as [Z0|N0].
    - rewrite Z0 in *. simpl. rewrite !app_nil_r. rewrite <- app_assoc. auto.
    - rewrite joined_snoc by (destruct m; simpl; congruence). rewrite app_nil_r, <- !app_assoc. cbn [txt list_ascii_of_string app].
      rewrite <- ?app_assoc. auto. }
  destruct n as [|n]; [lia|]. replace (S n - 1) with n in * by lia. rewrite seq_S, flat_map_app, Q by lia. simpl (flat_map _ [_]). simpl (0 + n).
  rewrite Nat.eqb_refl, map_app. simpl (map _ [_]). destruct (Nat.eqb_spec n 0) as [Z0|N0].
  - rewrite Z0 in *. simpl. rewrite !app_nil_r. rewrite <- app_assoc. auto.
  - rewrite joined_snoc by (destruct n; simpl; congruence). rewrite app_nil_r, <- !app_assoc. cbn [txt list_ascii_of_string app].
    rewrite <- ?app_assoc. auto.
Qed.
Lemma print_matrix_ok M : wfm M -> 0 < nrows M -> matrix_print show name M = matrix_spec show name M.
Proof.
  intros ((L & F) & V) Hr. unfold matrix_print, lil_print, matrix_spec.
  rewrite (flat_map_concat_map), (map_ext_in _ (fun i => (if i =? 0 then txt "  [[" else txt "   [") ++ row_spec show M i ++
    (if i =? nrows M - 1 then txt "]]" else txt "]" ++ newline))), <- flat_map_concat_map.
  2: { intros i Hi. apply in_seq in Hi. f_equal. f_equal. unfold row_spec. apply row_text_ok. rewrite Forall_forall in F. apply F, nth_In. lia. }
  rewrite rows_joined by auto. rewrite V, Nat2Z.id. reflexivity.
Qed.
Lemma cell_text_ok w i : wfv0 w -> i < vsize w ->
  cell_text show w i = Ok (match vget w i with Some v => show v | None => txt "-" end).
Proof.
  intros (L & B) H. unfold cell_text, vget.
  destruct (nth_error (vbits w) i) as [[]|] eqn:E; destruct (nth_error (vvals w) i) eqn:G; auto;
    try (apply nth_error_None in E; lia); try (apply nth_error_None in G; lia).
Qed.
Lemma print_vector_ok w : wfv w -> 0 < vsize w -> vector_print show name w = Ok (vector_spec show name w).
Proof.
  intros (W & V) Hn. unfold vector_print, vec_print, vector_spec. rewrite cell_text_ok by auto. cbn [bind].
  set (g := fun i => match vget w i with Some v => show v | None => txt "-" end).
  assert (Q : forall l s, (forall i, In i l -> i < vsize w) ->
    mfor l (fun i s => c <- cell_text show w i ;; Ok (s ++ txt ", " ++ c)) s = Ok (s ++ flat_map (fun i => txt ", " ++ g i) l)).
  { induction l as [|i l IH]; intros s H; simpl mfor; [simpl; rewrite app_nil_r; auto|]. rewrite cell_text_ok by (auto; apply H; simpl; auto).
    cbn [bind]. rewrite IH by (intros; apply H; simpl; auto). simpl flat_map. rewrite <- !app_assoc. auto. }
  rewrite Q by (intros i Hi; apply in_seq in Hi; lia). cbn [bind]. f_equal. rewrite V, Nat2Z.id.
  assert (J : g 0 ++ flat_map (fun i => txt ", " ++ g i) (seq 1 (vsize w - 1)) = joined (txt ", ") (map g (seq 0 (vsize w)))).
  { replace (seq 0 (vsize w)) with (0 :: seq 1 (vsize w - 1)) by (destruct (vsize w); [lia|]; simpl; rewrite Nat.sub_0_r; auto).
    generalize (seq 1 (vsize w - 1)) at 1 2. intro l. simpl map. generalize 0. induction l as [|i l IH]; intro a; simpl flat_map; [rewrite app_nil_r; auto|].
    simpl map. rewrite joined_cons, <- IH. rewrite <- ?app_assoc. auto. }
  fold (g 0). rewrite <- J. rewrite <- ?app_assoc. reflexivity.
Qed.

Lemma cells_inj blank (f f' : nat -> option T) n : plain_show show blank -> ~ In ","%char blank ->
  joined (txt ", ") (map (fun j => match f j with Some v => show v | None => blank end) (seq 0 n)) =
  joined (txt ", ") (map (fun j => match f' j with Some v => show v | None => blank end) (seq 0 n)) ->
  forall j, j < n -> f j = f' j.
Proof.
  intros (SI & SC & SB) B E. apply (joined_inj ","%char [" "%char]) in E.
  - intros j Hj. assert (H : In j (seq 0 n)) by (apply in_seq; lia).
    assert (G : (fun j => match f j with Some v => show v | None => blank end) j = (fun j => match f' j with Some v => show v | None => blank end) j).
    { clear - E H. induction (seq 0 n) as [|x l IH]; simpl in *; [tauto|]. inversion E. destruct H as [->|H]; auto. }
    cbv beta in G. destruct (f j) as [v|] eqn:A1, (f' j) as [v'|] eqn:A2; auto.
    + f_equal. auto.
    + exfalso. apply (SB v). auto.
    + exfalso. apply (SB v'). auto.
  - rewrite !map_length. auto.
  - apply Forall_map, Forall_forall. intros j _. destruct (f j); auto. apply SC.
  - apply Forall_map, Forall_forall. intros j _. destruct (f' j); auto. apply SC.
Qed.
Lemma index_split n n' d t t' : (d = " "%char \/ d = ")"%char \/ d = ","%char \/ d = Ascii.ascii_of_nat 10) ->
  show_index n ++ d :: t = show_index n' ++ d :: t' -> n = n' /\ t = t'.
Proof.
  intros D E. apply split_at in E.
  - destruct E as (E & ->). split; auto. apply index_inj. auto.
  - intro H. apply index_not in H. intuition.
  - intro H. apply index_not in H. intuition.
Qed.
Lemma joined_char sep l c : In c (joined sep l) -> In c sep \/ exists x, In x l /\ In c x.
Proof.
  induction l as [|x l IH]; [simpl; tauto|]. destruct l as [|y l].
  - simpl. intro. right. exists x. auto.
  - rewrite joined_cons. intros [H|[H|H]%in_app_or]%in_app_or; auto.
    + right. exists x. simpl. auto.
    + destruct (IH H) as [|(z & Hz & Hc)]; auto. right. exists z. split; [right|]; auto.
Qed.
Lemma print_matrix_inj M M' : plain_show show (txt " ") -> wfm M -> wfm M' -> 0 < nrows M -> 0 < nrows M' ->
  matrix_print show name M = matrix_print show name M' -> M = M'.
Proof.
  intros PS W W' Hr Hr' E. rewrite !print_matrix_ok in E by auto. unfold matrix_spec in E.
  apply app_inv_head in E. apply app_inv_head in E. apply app_inv_head in E. cbn [txt list_ascii_of_string app] in E.
  apply index_split in E as (R & E); [|auto]. cbn [app] in E. inversion E as [E1]. clear E.
  apply index_split in E1 as (K & E); [|auto]. rewrite <- R, <- K in E. repeat (injection E; clear E; intro E).
  apply (index_split _ _ (Ascii.ascii_of_nat 10)) in E as (_ & E); [|auto]. cbn [app] in E. repeat (injection E; clear E; intro E).
  apply app_inv_tail in E.
  assert (NL : forall X i, ~ In (Ascii.ascii_of_nat 10) ("["%char :: row_spec show X i ++ txt "]")).
  { intros X i [H|[H|H]%in_app_or]; [discriminate| |simpl in H; intuition discriminate]. unfold row_spec in H.
    apply joined_char in H as [H|(x & Hx & Hc)]; [simpl in H; intuition discriminate|]. apply in_map_iff in Hx as (j & <- & _).
    destruct (mget X i j); [|simpl in Hc; intuition discriminate]. destruct PS as (_ & PS & _). destruct (PS t). auto. }
  apply (joined_inj (Ascii.ascii_of_nat 10)) in E.
  - apply lil_ext; auto. intros i j Hi Hj.
    assert (G : row_spec show M i = row_spec show M' i).
    { assert (H : In i (seq 0 (nrows M))) by (apply in_seq; lia). clear - E H. induction (seq 0 (nrows M)) as [|x l IH]; simpl in *; [tauto|].
      inversion E. destruct H as [->|H]; auto. apply app_inv_tail in H1. auto. }
    unfold row_spec in G. rewrite <- K in G. apply (cells_inj (txt " ") (mget M i) (mget M' i) (ncols M)); auto. simpl. intuition discriminate.
  - rewrite !map_length. auto.
  - apply Forall_map, Forall_forall. intros i _. apply NL.
  - apply Forall_map, Forall_forall. intros i _. apply NL.
Qed.
Lemma print_vector_inj w w' : plain_show show (txt "-") -> wfv w -> wfv w' -> 0 < vsize w -> 0 < vsize w' ->
  vector_print show name w = vector_print show name w' -> vsize w = vsize w' /\ forall i, vget w i = vget w' i.
Proof.
  intros PS W W' Hr Hr' E. rewrite !print_vector_ok in E by auto. assert (E' : vector_spec show name w = vector_spec show name w') by congruence. clear E. rename E' into E. unfold vector_spec in E.
  apply app_inv_head in E. apply app_inv_head in E. apply app_inv_head in E. cbn [txt list_ascii_of_string app] in E.
  apply index_split in E as (R & E); [|auto]. split; [auto|]. repeat (injection E; clear E; intro E). 
  apply (index_split _ _ (Ascii.ascii_of_nat 10)) in E as (_ & E); [|auto]. cbn [app] in E. repeat (injection E; clear E; intro E).
  apply app_inv_tail in E. rewrite <- R in E. intro i. destruct (Nat.lt_ge_cases i (vsize w)) as [L|L].
  - apply (cells_inj (txt "-") (vget w) (vget w') (vsize w)); auto. simpl. intuition discriminate.
  - rewrite !vget_oob; auto; try lia; try apply W; apply W'.
Qed.
End Print.
