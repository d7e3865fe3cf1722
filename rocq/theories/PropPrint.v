(** * C125, C126: the printed form of containers *)
From Coq Require Import Ascii String Lia.
From Verif Require Import Base ModelLil ModelVec ModelPrint Spec SpecPrint ProofBase ProofLil ProofViews ProofPrint.

(** ** C125 *)
Theorem C125_print_matrix :
  forall (T : Type) (show : T -> text) (name : text) (M : lil T),
    wfm M -> 0 < nrows M -> matrix_print show name M = matrix_spec show name M.
Proof. intros. apply print_matrix_ok; auto. Qed.
Print Assumptions C125_print_matrix.

Theorem C125_print_vector :
  forall (T : Type) (show : T -> text) (name : text) (w : bvec T),
    wfv w -> 0 < vsize w -> vector_print show name w = Ok (vector_spec show name w).
Proof. intros. apply print_vector_ok; auto. Qed.
Print Assumptions C125_print_vector.

Theorem C125_print_labelled :
  forall (T : Type) (show : T -> text) (name label : text) (M : lil T) (w : bvec T),
    wfm M -> 0 < nrows M -> wfv w -> 0 < vsize w ->
    print_matrix show name label M = label ++ txt ":" ++ newline ++ matrix_spec show name M ++ newline /\
    print_vector show name label w = Ok (label ++ txt ":" ++ newline ++ vector_spec show name w ++ newline).
Proof. intros. unfold print_matrix, print_vector. rewrite print_matrix_ok, print_vector_ok by auto. auto. Qed.
Print Assumptions C125_print_labelled.

Theorem C125_print_matrix_faithful :
  forall (T : Type) (show : T -> text) (name : text) (M M' : lil T),
    plain_show show (txt " ") -> wfm M -> wfm M' -> 0 < nrows M -> 0 < nrows M' ->
    matrix_print show name M = matrix_print show name M' -> M = M'.
Proof. intros. eapply print_matrix_inj; eauto. Qed.
Print Assumptions C125_print_matrix_faithful.

Theorem C125_print_vector_faithful :
  forall (T : Type) (show : T -> text) (name : text) (w w' : bvec T),
    plain_show show (txt "-") -> wfv w -> wfv w' -> 0 < vsize w -> 0 < vsize w' ->
    vector_print show name w = vector_print show name w' -> vsize w = vsize w' /\ forall i, vget w i = vget w' i.
Proof. intros. eapply print_vector_inj; eauto. Qed.
Print Assumptions C125_print_vector_faithful.

(** The integers in decimal are such a notation. *)
Theorem C125_integers_plain : plain_show show_int (txt " ") /\ plain_show show_int (txt "-").
Proof. split; apply show_int_plain; auto. Qed.
Print Assumptions C125_integers_plain.

Example C125_example :
  let M := mkLil 3 3 3 [[(1, (-5)%Z)]; []; [(0, 12%Z); (2, 7%Z)]] in
  let w := mkVec 3 2 [4%Z; 0%Z; (-1)%Z] [true; false; true] in
  wfm M /\ 0 < nrows M /\ wfv w /\ 0 < vsize w /\ plain_show show_int (txt " ") /\
  matrix_print show_int (txt "i") M =
    txt "grb::Matrix: backend::LilSparseMatrix<i> (3 x 3), nvals = 3" ++ newline ++
    txt "  [[ , -5,  ]" ++ newline ++ txt "   [ ,  ,  ]" ++ newline ++ txt "   [12,  , 7]]" /\
  vector_print show_int (txt "i") w =
    Ok (txt "grb::Vector: backend::BitmapSparseVector<i>, size  = 3, nvals = 2" ++ newline ++ txt "[4, -, -1]").
Proof.
  cbv zeta. split; [wf_mat|]. split; [simpl; lia|]. split; [wf_vec|]. split; [simpl; lia|]. split; [apply show_int_plain; auto|].
  split; reflexivity.
Qed.

(** ** C126: an 8-bit integer is written as a character, which can be the mark of a missing element. *)
Theorem C126_print_8_bit_refuted :
  exists (w w' : bvec Z), wfv w /\ wfv w' /\ 0 < vsize w /\ 0 < vsize w' /\
    Forall (fun x => (-128 <= x < 128)%Z) (vvals w) /\ Forall (fun x => (-128 <= x < 128)%Z) (vvals w') /\
    vector_print show_int8 (txt "a") w = vector_print show_int8 (txt "a") w' /\
    vget w 0 = Some 45%Z /\ vget w' 0 = None.
Proof.
  exists (mkVec 2 1 [45%Z; 0%Z] [true; false]), (mkVec 2 1 [0%Z; 45%Z] [false; true]).
  split; [wf_vec|]. split; [wf_vec|]. split; [simpl; lia|]. split; [simpl; lia|].
  split; [repeat constructor; lia|]. split; [repeat constructor; lia|]. repeat split.
Qed.
Print Assumptions C126_print_8_bit_refuted.
