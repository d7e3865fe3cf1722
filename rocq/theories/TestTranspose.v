(** The tests of /repo/src/test/test_transpose.cpp, run on the model.  Generated translation. *)
From Verif Require Import TestRun.


(** test_transpose.cpp:46-59 *)
Example test_two_argument_transpose_bad_dim :
 (x_mA <- mnew 3 3 ;;
  x_mA_1 <- mbuild TyD qsecond x_mA [0; 0; 0; 1; 1; 1; 2; 2; 2] [0; 1; 2; 0; 1; 2; 0; 1; 2] [1; 2;
    3; 4; 5; 6; 7; 8; 9]%Q ;;
  x_mC <- mnew 3 4 ;;
  _ <- throws DimensionException (t_transpose TyD noacc NoMask MERGE x_mC (Mat x_mA_1)) ;;
  Ok tt) = Ok tt.
Proof. vm_compute. reflexivity. Qed.

(** test_transpose.cpp:62-77 *)
Example test_two_argument_transpose_square :
 (x_mA <- mnew 3 3 ;;
  x_mA_1 <- mbuild TyD qsecond x_mA [0; 0; 0; 1; 1; 1; 2; 2; 2] [0; 1; 2; 0; 1; 2; 0; 1; 2] [1; 2;
    3; 4; 5; 6; 7; 8; 9]%Q ;;
  x_answer <- mnew 3 3 ;;
  x_answer_1 <- mbuild TyD qsecond x_answer [0; 1; 2; 0; 1; 2; 0; 1; 2] [0; 0; 0; 1; 1; 1; 2; 2; 2]
    [1; 2; 3; 4; 5; 6; 7; 8; 9]%Q ;;
  x_mC <- mnew 3 3 ;;
  x_mC_1 <- t_transpose TyD noacc NoMask MERGE x_mC (Mat x_mA_1) ;;
  x_q <- meq x_mC_1 x_answer_1 ;;
  _ <- check x_q ;;
  Ok tt) = Ok tt.
Proof. vm_compute. reflexivity. Qed.

(** test_transpose.cpp:80-96 *)
Example test_two_argument_transpose_nonsquare :
 (x_mA <- mnew 3 4 ;;
  x_mA_1 <- mbuild TyD qsecond x_mA [0; 0; 0; 0; 1; 1; 1; 2; 2; 2] [0; 1; 2; 3; 0; 1; 2; 0; 1; 2]
    [1; 2; 3; (-2); 4; 5; 6; 7; 8; 9]%Q ;;
  x_answer <- mnew 4 3 ;;
  x_answer_1 <- mbuild TyD qsecond x_answer [0; 1; 2; 3; 0; 1; 2; 0; 1; 2] [0; 0; 0; 0; 1; 1; 1; 2;
    2; 2] [1; 2; 3; (-2); 4; 5; 6; 7; 8; 9]%Q ;;
  x_mC <- mnew 4 3 ;;
  x_mC_1 <- t_transpose TyD noacc NoMask MERGE x_mC (Mat x_mA_1) ;;
  x_q <- meq x_mC_1 x_answer_1 ;;
  _ <- check x_q ;;
  Ok tt) = Ok tt.
Proof. vm_compute. reflexivity. Qed.

(** test_transpose.cpp:99-197 *)
Example test_transpose_noaccum :
 (x_A <- mdense0 TyD [[1; 1; 0]; [1; 2; 2]; [0; 2; 3]; [0; 0; 3]]%Q 0%Q ;;
  x_M <- mdense0 (TyU 8) [[1; 1; 1; 1]; [0; 1; 1; 1]; [0; 0; 0; 1]]%Q 0%Q ;;
  x_answer <- mdense0 TyD [[1; 1; 0; 0]; [1; 2; 2; 0]; [0; 2; 3; 3]]%Q 0%Q ;;
  x_C <- mdense0 TyD [[9; 9; 9; 9]; [9; 9; 9; 9]; [9; 9; 9; 9]]%Q 0%Q ;;
  x_C_1 <- t_transpose TyD noacc NoMask MERGE x_C (Mat x_A) ;;
  x_q <- meq x_C_1 x_answer ;;
  _ <- check x_q ;;
  x_answer_1 <- mdense0 TyD [[1; 1; 0; 0]; [0; 2; 2; 0]; [0; 0; 0; 3]]%Q 0%Q ;;
  x_C_2 <- mdense0 TyD [[9; 9; 9; 9]; [9; 9; 9; 9]; [9; 9; 9; 9]]%Q 0%Q ;;
  x_C_3 <- t_transpose TyD noacc (MVal x_M) REPLACE x_C_2 (Mat x_A) ;;
  x_q_1 <- meq x_C_3 x_answer_1 ;;
  _ <- check x_q_1 ;;
  x_answer_2 <- mdense0 TyD [[1; 1; 0; 0]; [9; 2; 2; 0]; [9; 9; 9; 3]]%Q 0%Q ;;
  x_C_4 <- mdense0 TyD [[9; 9; 9; 9]; [9; 9; 9; 9]; [9; 9; 9; 9]]%Q 0%Q ;;
  x_C_5 <- t_transpose TyD noacc (MVal x_M) MERGE x_C_4 (Mat x_A) ;;
  x_q_2 <- meq x_C_5 x_answer_2 ;;
  _ <- check x_q_2 ;;
  x_answer_3 <- mdense0 TyD [[0; 0; 0; 0]; [1; 0; 0; 0]; [0; 2; 3; 0]]%Q 0%Q ;;
  x_C_6 <- mdense0 TyD [[9; 9; 9; 9]; [9; 9; 9; 9]; [9; 9; 9; 9]]%Q 0%Q ;;
  x_C_7 <- t_transpose TyD noacc (MComp x_M) REPLACE x_C_6 (Mat x_A) ;;
  x_q_3 <- meq x_C_7 x_answer_3 ;;
  _ <- check x_q_3 ;;
  x_answer_4 <- mdense0 TyD [[9; 9; 9; 9]; [1; 9; 9; 9]; [0; 2; 3; 9]]%Q 0%Q ;;
  x_C_8 <- mdense0 TyD [[9; 9; 9; 9]; [9; 9; 9; 9]; [9; 9; 9; 9]]%Q 0%Q ;;
  x_C_9 <- t_transpose TyD noacc (MComp x_M) MERGE x_C_8 (Mat x_A) ;;
  x_q_4 <- meq x_C_9 x_answer_4 ;;
  _ <- check x_q_4 ;;
  Ok tt) = Ok tt.
Proof. vm_compute. reflexivity. Qed.

(** test_transpose.cpp:200-298 *)
Example test_transpose_plus_accum :
 (x_A <- mdense0 TyD [[1; 1; 0]; [1; 2; 2]; [0; 2; 3]; [0; 0; 3]]%Q 0%Q ;;
  x_M <- mdense0 (TyU 8) [[1; 1; 1; 1]; [0; 1; 1; 1]; [0; 0; 0; 1]]%Q 0%Q ;;
  x_answer <- mdense0 TyD [[10; 10; 9; 9]; [10; 11; 11; 9]; [9; 11; 12; 12]]%Q 0%Q ;;
  x_C <- mdense0 TyD [[9; 9; 9; 9]; [9; 9; 9; 9]; [9; 9; 9; 9]]%Q 0%Q ;;
  x_C_1 <- t_transpose TyD (acc TyD qplus) NoMask MERGE x_C (Mat x_A) ;;
  x_q <- meq x_C_1 x_answer ;;
  _ <- check x_q ;;
  x_answer_1 <- mdense0 TyD [[10; 10; 9; 9]; [0; 11; 11; 9]; [0; 0; 0; 12]]%Q 0%Q ;;
  x_C_2 <- mdense0 TyD [[9; 9; 9; 9]; [9; 9; 9; 9]; [9; 9; 9; 9]]%Q 0%Q ;;
  x_C_3 <- t_transpose TyD (acc TyD qplus) (MVal x_M) REPLACE x_C_2 (Mat x_A) ;;
  x_q_1 <- meq x_C_3 x_answer_1 ;;
  _ <- check x_q_1 ;;
  x_answer_2 <- mdense0 TyD [[10; 10; 9; 9]; [9; 11; 11; 9]; [9; 9; 9; 12]]%Q 0%Q ;;
  x_C_4 <- mdense0 TyD [[9; 9; 9; 9]; [9; 9; 9; 9]; [9; 9; 9; 9]]%Q 0%Q ;;
  x_C_5 <- t_transpose TyD (acc TyD qplus) (MVal x_M) MERGE x_C_4 (Mat x_A) ;;
  x_q_2 <- meq x_C_5 x_answer_2 ;;
  _ <- check x_q_2 ;;
  x_answer_3 <- mdense0 TyD [[0; 0; 0; 0]; [10; 0; 0; 0]; [9; 11; 12; 0]]%Q 0%Q ;;
  x_C_6 <- mdense0 TyD [[9; 9; 9; 9]; [9; 9; 9; 9]; [9; 9; 9; 9]]%Q 0%Q ;;
  x_C_7 <- t_transpose TyD (acc TyD qplus) (MComp x_M) REPLACE x_C_6 (Mat x_A) ;;
  x_q_3 <- meq x_C_7 x_answer_3 ;;
  _ <- check x_q_3 ;;
  x_answer_4 <- mdense0 TyD [[9; 9; 9; 9]; [10; 9; 9; 9]; [9; 11; 12; 9]]%Q 0%Q ;;
  x_C_8 <- mdense0 TyD [[9; 9; 9; 9]; [9; 9; 9; 9]; [9; 9; 9; 9]]%Q 0%Q ;;
  x_C_9 <- t_transpose TyD (acc TyD qplus) (MComp x_M) MERGE x_C_8 (Mat x_A) ;;
  x_q_4 <- meq x_C_9 x_answer_4 ;;
  _ <- check x_q_4 ;;
  Ok tt) = Ok tt.
Proof. vm_compute. reflexivity. Qed.

(** test_transpose.cpp:301-326 *)
Example test_transpose_nonsquare_trans :
 (x_A <- mdense0 TyD [[1; 1; 0; 0]; [1; 2; 2; 0]; [0; 2; 3; 3]]%Q 0%Q ;;
  x_answer <- mdense0 TyD [[1; 1; 0; 0]; [1; 2; 2; 0]; [0; 2; 3; 3]]%Q 0%Q ;;
  x_C <- mnew 3 4 ;;
  x_C_1 <- t_transpose TyD noacc NoMask MERGE x_C (Trn x_A) ;;
  x_q <- meq x_C_1 x_answer ;;
  _ <- check x_q ;;
  Ok tt) = Ok tt.
Proof. vm_compute. reflexivity. Qed.
