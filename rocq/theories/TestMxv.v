(** The tests of /repo/src/test/test_mxv.cpp, run on the model.  Generated translation. *)
From Verif Require Import TestRun.

Definition d_m3x3_dense : list (list Q) :=
  [[12; 1; 3];
   [0; 0; 6];
   [7; 0; 9]]%Q.
Definition d_m3x4_dense : list (list Q) :=
  [[5; 0; 1; 2];
   [6; 7; 0; 0];
   [4; 5; 0; 1]]%Q.

(** test_mxv.cpp:69-98 *)
Example test_mxv_bad_dimensions :
 (x_mA <- mdense0 TyD d_m3x3_dense 0%Q ;;
  x_mB <- mdense0 TyD d_m3x4_dense 0%Q ;;
  x_u3 <- vdense0 TyD [1; 1; 0]%Q 0%Q ;;
  x_w4 <- vnew 4 ;;
  x_w3 <- vnew 3 ;;
  _ <- throws DimensionException (t_mxv TyD noacc (mkSr qplus qtimes TyD) NoMask MERGE x_w3 (Mat
    x_mB) x_u3) ;;
  _ <- throws DimensionException (t_mxv TyD noacc (mkSr qplus qtimes TyD) NoMask MERGE x_w4 (Mat
    x_mA) x_u3) ;;
  Ok tt) = Ok tt.
Proof. vm_compute. reflexivity. Qed.

(** test_mxv.cpp:101-126 *)
Example test_mxv_reg :
 (x_mA <- mdense0 TyD d_m3x3_dense 0%Q ;;
  x_mB <- mdense0 TyD d_m3x4_dense 0%Q ;;
  x_u3 <- vdense0 TyD [1; 1; 0]%Q 0%Q ;;
  x_u4 <- vdense0 TyD [0; 0; 1; 1]%Q 0%Q ;;
  x_result <- vnew 3 ;;
  x_ansA <- vdense0 TyD [13; 0; 7]%Q 0%Q ;;
  x_ansB <- vdense0 TyD [3; 0; 1]%Q 0%Q ;;
  x_result_1 <- t_mxv TyD noacc (mkSr qplus qtimes TyD) NoMask MERGE x_result (Mat x_mA) x_u3 ;;
  x_q <- veq x_result_1 x_ansA ;;
  _ <- check x_q ;;
  x_result_2 <- t_mxv TyD noacc (mkSr qplus qtimes TyD) NoMask MERGE x_result_1 (Mat x_mB) x_u4 ;;
  x_q_1 <- veq x_result_2 x_ansB ;;
  _ <- check x_q_1 ;;
  Ok tt) = Ok tt.
Proof. vm_compute. reflexivity. Qed.

(** test_mxv.cpp:129-154 *)
Example test_mxv_stored_zero_result :
 (x_mA <- mdense0 TyI [[1; 1; 0; 0]; [1; 2; 2; 0]; [0; 2; 3; 3]; [0; 0; 3; 4]]%Q 0%Q ;;
  x_u <- vdense0 TyI [1; (-1); 0; 0]%Q 0%Q ;;
  x_result <- vnew 4 ;;
  x_answer <- vdense0 TyI [0; (-1); (-2); 666]%Q 666%Q ;;
  x_result_1 <- t_mxv TyI noacc (mkSr (op3 TyI TyI TyI qplus) (op3 TyI TyI TyI qtimes) TyI) NoMask
    MERGE x_result (Mat x_mA) x_u ;;
  x_q <- veq x_result_1 x_answer ;;
  _ <- check x_q ;;
  _ <- check (Qeq_bool (inject_Z (vnvals x_result_1)) 3%Q) ;;
  Ok tt) = Ok tt.
Proof. vm_compute. reflexivity. Qed.

(** test_mxv.cpp:157-196 *)
Example test_a_transpose :
 (x_mA <- mdense0 TyD d_m3x3_dense 0%Q ;;
  x_mB <- mdense0 TyD d_m3x4_dense 0%Q ;;
  x_u3 <- vdense0 TyD [1; 1; 0]%Q 0%Q ;;
  x_u4 <- vdense0 TyD [0; 0; 1; 1]%Q 0%Q ;;
  x_result3 <- vnew 3 ;;
  x_result4 <- vnew 4 ;;
  x_ansA <- vdense0 TyD [12; 1; 9]%Q 0%Q ;;
  x_ansB <- vdense0 TyD [11; 7; 1; 2]%Q 0%Q ;;
  x_result3_1 <- t_mxv TyD noacc (mkSr qplus qtimes TyD) NoMask MERGE x_result3 (Trn x_mA) x_u3 ;;
  x_q <- veq x_result3_1 x_ansA ;;
  _ <- check x_q ;;
  _ <- throws DimensionException (t_mxv TyD noacc (mkSr qplus qtimes TyD) NoMask MERGE x_result4
    (Trn x_mB) x_u4) ;;
  x_result4_1 <- t_mxv TyD noacc (mkSr qplus qtimes TyD) NoMask MERGE x_result4 (Trn x_mB) x_u3 ;;
  x_q_1 <- veq x_result4_1 x_ansB ;;
  _ <- check x_q_1 ;;
  Ok tt) = Ok tt.
Proof. vm_compute. reflexivity. Qed.

(** test_mxv.cpp:203-219 *)
Example test_mxv_masked_replace_bad_dimensions :
 (x_mA <- mdense0 TyD d_m3x3_dense 0%Q ;;
  x_u3 <- vdense0 TyD [1; 1; 0]%Q 0%Q ;;
  x_m4 <- vdense0 TyD [0; 0; 1; 1]%Q 0%Q ;;
  x_w3 <- vnew 3 ;;
  _ <- throws DimensionException (t_mxv TyD noacc (mkSr qplus qtimes TyD) (MVal x_m4) REPLACE x_w3
    (Mat x_mA) x_u3) ;;
  Ok tt) = Ok tt.
Proof. vm_compute. reflexivity. Qed.

(** test_mxv.cpp:222-265 *)
Example test_mxv_masked_replace_reg :
 (x_mA <- mdense0 TyD d_m3x3_dense 0%Q ;;
  x_u3 <- vdense0 TyD [1; 1; 0]%Q 0%Q ;;
  x_m3 <- vdense0 TyD [1; 1; 0]%Q 0%Q ;;
  _ <- check (Qeq_bool (inject_Z (vnvals x_m3)) 2%Q) ;;
  x_result <- vdense0 TyD [1; 1; 1]%Q 0%Q ;;
  x_answer <- vdense0 TyD [13; 1; 0]%Q 0%Q ;;
  x_result_1 <- t_mxv TyD (acc TyD qsecond) (mkSr qplus qtimes TyD) (MVal x_m3) REPLACE x_result
    (Mat x_mA) x_u3 ;;
  _ <- check (Qeq_bool (inject_Z (vnvals x_result_1)) 2%Q) ;;
  x_q <- veq x_result_1 x_answer ;;
  _ <- check x_q ;;
  x_result_2 <- vdense0 TyD [1; 1; 1]%Q 0%Q ;;
  x_answer_1 <- vdense0 TyD [13; 0; 0]%Q 0%Q ;;
  x_result_3 <- t_mxv TyD noacc (mkSr qplus qtimes TyD) (MVal x_m3) REPLACE x_result_2 (Mat x_mA)
    x_u3 ;;
  _ <- check (Qeq_bool (inject_Z (vnvals x_result_3)) 1%Q) ;;
  x_q_1 <- veq x_result_3 x_answer_1 ;;
  _ <- check x_q_1 ;;
  Ok tt) = Ok tt.
Proof. vm_compute. reflexivity. Qed.

(** test_mxv.cpp:268-301 *)
Example test_mxv_masked_replace_reg_stored_zero :
 (x_A <- mdense0 TyI [[1; 1; 0; 0]; [1; 2; 2; 0]; [0; 2; 3; 3]; [0; 0; 3; 4]]%Q 0%Q ;;
  x_u <- vdense0 TyI [1; (-1); 1; 0]%Q 0%Q ;;
  x_mask <- vdense0 TyI [1; 1; 1; 0]%Q 0%Q ;;
  x_result <- vdense0 TyI [1; 1; 1; 1]%Q 0%Q ;;
  _ <- check (Qeq_bool (inject_Z (vnvals x_mask)) 3%Q) ;;
  x_mask_1 <- vec_setElement x_mask 3 (cast TyI 0%Q) ;;
  _ <- check (Qeq_bool (inject_Z (vnvals x_mask_1)) 4%Q) ;;
  x_answer <- vdense0 TyI [0; 1; 1; 666]%Q 666%Q ;;
  x_result_1 <- t_mxv TyI noacc (mkSr qplus qtimes TyD) (MVal x_mask_1) REPLACE x_result (Mat x_A)
    x_u ;;
  _ <- check (Qeq_bool (inject_Z (vnvals x_result_1)) 3%Q) ;;
  x_q <- veq x_result_1 x_answer ;;
  _ <- check x_q ;;
  Ok tt) = Ok tt.
Proof. vm_compute. reflexivity. Qed.

(** test_mxv.cpp:304-332 *)
Example test_mxv_masked_replace_a_transpose :
 (x_A <- mdense0 TyI [[1; 1; 0; 0; 1]; [1; 2; 2; 0; 1]; [0; 2; 3; 3; 1]; [0; 0; 3; 4; 1]]%Q 0%Q ;;
  x_u <- vdense0 TyI [1; (-1); 1; 0]%Q 0%Q ;;
  x_mask <- vdense0 TyI [1; 0; 1; 0; 1]%Q 0%Q ;;
  x_result <- vdense0 TyI [1; 1; 1; 1; 1]%Q 0%Q ;;
  x_answer <- vdense0 TyI [0; 666; 1; 666; 1]%Q 666%Q ;;
  x_result_1 <- t_mxv TyI noacc (mkSr qplus qtimes TyD) (MVal x_mask) REPLACE x_result (Trn x_A) x_u
    ;;
  x_q <- veq x_result_1 x_answer ;;
  _ <- check x_q ;;
  Ok tt) = Ok tt.
Proof. vm_compute. reflexivity. Qed.

(** test_mxv.cpp:339-356 *)
Example test_mxv_masked_bad_dimensions :
 (x_mA <- mdense0 TyD d_m3x3_dense 0%Q ;;
  x_u3 <- vdense0 TyD [1; 1; 0]%Q 0%Q ;;
  x_m4 <- vdense0 TyD [0; 0; 1; 1]%Q 0%Q ;;
  x_w3 <- vdense0 TyD [1; 1; 1]%Q 0%Q ;;
  _ <- throws DimensionException (t_mxv TyD noacc (mkSr qplus qtimes TyD) (MVal x_m4) MERGE x_w3
    (Mat x_mA) x_u3) ;;
  Ok tt) = Ok tt.
Proof. vm_compute. reflexivity. Qed.

(** test_mxv.cpp:359-400 *)
Example test_mxv_masked_reg :
 (x_mA <- mdense0 TyD d_m3x3_dense 0%Q ;;
  x_u3 <- vdense0 TyD [1; 1; 0]%Q 0%Q ;;
  x_m3 <- vdense0 TyD [1; 1; 0]%Q 0%Q ;;
  _ <- check (Qeq_bool (inject_Z (vnvals x_m3)) 2%Q) ;;
  x_result <- vdense0 TyD [1; 1; 1]%Q 0%Q ;;
  x_answer <- vdense0 TyD [13; 1; 1]%Q 0%Q ;;
  x_result_1 <- t_mxv TyD (acc TyD qsecond) (mkSr qplus qtimes TyD) (MVal x_m3) MERGE x_result (Mat
    x_mA) x_u3 ;;
  _ <- check (Qeq_bool (inject_Z (vnvals x_result_1)) 3%Q) ;;
  x_q <- veq x_result_1 x_answer ;;
  _ <- check x_q ;;
  x_result_2 <- vdense0 TyD [1; 1; 1]%Q 0%Q ;;
  x_answer_1 <- vdense0 TyD [13; 0; 1]%Q 0%Q ;;
  x_result_3 <- t_mxv TyD noacc (mkSr qplus qtimes TyD) (MVal x_m3) MERGE x_result_2 (Mat x_mA) x_u3
    ;;
  _ <- check (Qeq_bool (inject_Z (vnvals x_result_3)) 2%Q) ;;
  x_q_1 <- veq x_result_3 x_answer_1 ;;
  _ <- check x_q_1 ;;
  Ok tt) = Ok tt.
Proof. vm_compute. reflexivity. Qed.

(** test_mxv.cpp:403-444 *)
Example test_mxv_masked_reg_stored_zero :
 (x_mA <- mdense0 TyD d_m3x3_dense 0%Q ;;
  x_u3 <- vdense0 TyD [1; 1; 0]%Q 0%Q ;;
  x_m3 <- vdense TyD [1; 1; 0]%Q ;;
  _ <- check (Qeq_bool (inject_Z (vnvals x_m3)) 3%Q) ;;
  x_result <- vdense0 TyD [1; 1; 1]%Q 0%Q ;;
  x_answer <- vdense0 TyD [13; 1; 1]%Q 0%Q ;;
  x_result_1 <- t_mxv TyD (acc TyD qsecond) (mkSr qplus qtimes TyD) (MVal x_m3) MERGE x_result (Mat
    x_mA) x_u3 ;;
  _ <- check (Qeq_bool (inject_Z (vnvals x_result_1)) 3%Q) ;;
  x_q <- veq x_result_1 x_answer ;;
  _ <- check x_q ;;
  x_result_2 <- vdense0 TyD [1; 1; 1]%Q 0%Q ;;
  x_answer_1 <- vdense0 TyD [13; 0; 1]%Q 0%Q ;;
  x_result_3 <- t_mxv TyD noacc (mkSr qplus qtimes TyD) (MVal x_m3) MERGE x_result_2 (Mat x_mA) x_u3
    ;;
  _ <- check (Qeq_bool (inject_Z (vnvals x_result_3)) 2%Q) ;;
  x_q_1 <- veq x_result_3 x_answer_1 ;;
  _ <- check x_q_1 ;;
  Ok tt) = Ok tt.
Proof. vm_compute. reflexivity. Qed.

(** test_mxv.cpp:447-467 *)
Example test_mxv_masked_a_transpose :
 (x_mA <- mdense0 TyD d_m3x3_dense 0%Q ;;
  x_u3 <- vdense0 TyD [1; 1; 0]%Q 0%Q ;;
  x_m3 <- vdense0 TyD [1; 1; 0]%Q 0%Q ;;
  x_result <- vdense0 TyD [1; 1; 1]%Q 0%Q ;;
  _ <- check (Qeq_bool (inject_Z (vnvals x_m3)) 2%Q) ;;
  x_answer <- vdense0 TyD [12; 1; 1]%Q 0%Q ;;
  x_result_1 <- t_mxv TyD noacc (mkSr qplus qtimes TyD) (MVal x_m3) MERGE x_result (Trn x_mA) x_u3
    ;;
  _ <- check (Qeq_bool (inject_Z (vnvals x_result_1)) 3%Q) ;;
  x_q <- veq x_result_1 x_answer ;;
  _ <- check x_q ;;
  Ok tt) = Ok tt.
Proof. vm_compute. reflexivity. Qed.

(** test_mxv.cpp:474-492 *)
Example test_mxv_scmp_masked_replace_bad_dimensions :
 (x_mA <- mdense0 TyD d_m3x3_dense 0%Q ;;
  x_u3 <- vdense0 TyD [1; 1; 0]%Q 0%Q ;;
  x_m4 <- vdense0 TyD [0; 0; 1; 1]%Q 0%Q ;;
  x_w3 <- vnew 3 ;;
  _ <- throws DimensionException (t_mxv TyD noacc (mkSr qplus qtimes TyD) (MComp x_m4) REPLACE x_w3
    (Mat x_mA) x_u3) ;;
  Ok tt) = Ok tt.
Proof. vm_compute. reflexivity. Qed.

(** test_mxv.cpp:494-539 *)
Example test_mxv_scmp_masked_replace_reg :
 (x_mA <- mdense0 TyD d_m3x3_dense 0%Q ;;
  x_u3 <- vdense0 TyD [1; 1; 0]%Q 0%Q ;;
  x_m3 <- vdense0 TyD [0; 0; 1]%Q 0%Q ;;
  _ <- check (Qeq_bool (inject_Z (vnvals x_m3)) 1%Q) ;;
  x_result <- vdense0 TyD [1; 1; 1]%Q 0%Q ;;
  x_answer <- vdense0 TyD [13; 1; 0]%Q 0%Q ;;
  x_result_1 <- t_mxv TyD (acc TyD qsecond) (mkSr qplus qtimes TyD) (MComp x_m3) REPLACE x_result
    (Mat x_mA) x_u3 ;;
  _ <- check (Qeq_bool (inject_Z (vnvals x_result_1)) 2%Q) ;;
  x_q <- veq x_result_1 x_answer ;;
  _ <- check x_q ;;
  x_result_2 <- vdense0 TyD [1; 1; 1]%Q 0%Q ;;
  x_answer_1 <- vdense0 TyD [13; 0; 0]%Q 0%Q ;;
  x_result_3 <- t_mxv TyD noacc (mkSr qplus qtimes TyD) (MComp x_m3) REPLACE x_result_2 (Mat x_mA)
    x_u3 ;;
  _ <- check (Qeq_bool (inject_Z (vnvals x_result_3)) 1%Q) ;;
  x_q_1 <- veq x_result_3 x_answer_1 ;;
  _ <- check x_q_1 ;;
  Ok tt) = Ok tt.
Proof. vm_compute. reflexivity. Qed.

(** test_mxv.cpp:542-574 *)
Example test_mxv_scmp_masked_replace_reg_stored_zero :
 (x_A <- mdense0 TyI [[1; 1; 0; 0]; [1; 2; 2; 0]; [0; 2; 3; 3]; [0; 0; 3; 4]]%Q 0%Q ;;
  x_u <- vdense0 TyI [1; (-1); 1; 0]%Q 0%Q ;;
  x_mask <- vdense TyI [0; 0; 0; 1]%Q ;;
  x_result <- vdense0 TyI [1; 1; 1; 1]%Q 0%Q ;;
  _ <- check (Qeq_bool (inject_Z (vnvals x_mask)) 4%Q) ;;
  x_answer <- vdense0 TyI [0; 1; 1; 666]%Q 666%Q ;;
  x_result_1 <- t_mxv TyI noacc (mkSr qplus qtimes TyD) (MComp x_mask) REPLACE x_result (Mat x_A)
    x_u ;;
  _ <- check (Qeq_bool (inject_Z (vnvals x_result_1)) 3%Q) ;;
  x_q <- veq x_result_1 x_answer ;;
  _ <- check x_q ;;
  Ok tt) = Ok tt.
Proof. vm_compute. reflexivity. Qed.

(** test_mxv.cpp:577-605 *)
Example test_mxv_scmp_masked_replace_a_transpose :
 (x_A <- mdense0 TyI [[1; 1; 0; 0; 1]; [1; 2; 2; 0; 1]; [0; 2; 3; 3; 1]; [0; 0; 3; 4; 1]]%Q 0%Q ;;
  x_u <- vdense0 TyI [1; (-1); 1; 0]%Q 0%Q ;;
  x_mask <- vdense0 TyI [0; 1; 0; 1; 0]%Q 0%Q ;;
  x_result <- vdense0 TyI [1; 1; 1; 1; 1]%Q 0%Q ;;
  x_answer <- vdense0 TyI [0; 666; 1; 666; 1]%Q 666%Q ;;
  x_result_1 <- t_mxv TyI noacc (mkSr qplus qtimes TyD) (MComp x_mask) REPLACE x_result (Trn x_A)
    x_u ;;
  x_q <- veq x_result_1 x_answer ;;
  _ <- check x_q ;;
  Ok tt) = Ok tt.
Proof. vm_compute. reflexivity. Qed.

(** test_mxv.cpp:612-629 *)
Example test_mxv_scmp_masked_bad_dimensions :
 (x_mA <- mdense0 TyD d_m3x3_dense 0%Q ;;
  x_u3 <- vdense0 TyD [1; 1; 0]%Q 0%Q ;;
  x_m4 <- vdense0 TyD [0; 0; 1; 1]%Q 0%Q ;;
  x_w3 <- vdense0 TyD [1; 1; 1]%Q 0%Q ;;
  _ <- throws DimensionException (t_mxv TyD noacc (mkSr qplus qtimes TyD) (MComp x_m4) MERGE x_w3
    (Mat x_mA) x_u3) ;;
  Ok tt) = Ok tt.
Proof. vm_compute. reflexivity. Qed.

(** test_mxv.cpp:631-653 *)
Example test_mxv_scmp_masked_reg :
 (x_mA <- mdense0 TyD d_m3x3_dense 0%Q ;;
  x_u3 <- vdense0 TyD [1; 1; 0]%Q 0%Q ;;
  x_m3 <- vdense0 TyD [1; 1; 0]%Q 0%Q ;;
  x_result <- vdense0 TyD [1; 1; 1]%Q 0%Q ;;
  _ <- check (Qeq_bool (inject_Z (vnvals x_m3)) 2%Q) ;;
  x_answer <- vdense0 TyD [1; 1; 7]%Q 0%Q ;;
  x_result_1 <- t_mxv TyD noacc (mkSr qplus qtimes TyD) (MComp x_m3) MERGE x_result (Mat x_mA) x_u3
    ;;
  _ <- check (Qeq_bool (inject_Z (vnvals x_result_1)) 3%Q) ;;
  x_q <- veq x_result_1 x_answer ;;
  _ <- check x_q ;;
  Ok tt) = Ok tt.
Proof. vm_compute. reflexivity. Qed.

(** test_mxv.cpp:656-678 *)
Example test_mxv_scmp_masked_reg_stored_zero :
 (x_mA <- mdense0 TyD d_m3x3_dense 0%Q ;;
  x_u3 <- vdense0 TyD [1; 1; 0]%Q 0%Q ;;
  x_m3 <- vdense TyD [1; 1; 0]%Q ;;
  x_result <- vdense0 TyD [1; 1; 1]%Q 0%Q ;;
  _ <- check (Qeq_bool (inject_Z (vnvals x_m3)) 3%Q) ;;
  x_answer <- vdense0 TyD [1; 1; 7]%Q 0%Q ;;
  x_result_1 <- t_mxv TyD noacc (mkSr qplus qtimes TyD) (MComp x_m3) MERGE x_result (Mat x_mA) x_u3
    ;;
  _ <- check (Qeq_bool (inject_Z (vnvals x_result_1)) 3%Q) ;;
  x_q <- veq x_result_1 x_answer ;;
  _ <- check x_q ;;
  Ok tt) = Ok tt.
Proof. vm_compute. reflexivity. Qed.

(** test_mxv.cpp:681-703 *)
Example test_mxv_scmp_masked_a_transpose :
 (x_mA <- mdense0 TyD d_m3x3_dense 0%Q ;;
  x_u3 <- vdense0 TyD [1; 1; 0]%Q 0%Q ;;
  x_m3 <- vdense0 TyD [1; 1; 0]%Q 0%Q ;;
  x_result <- vdense0 TyD [1; 1; 1]%Q 0%Q ;;
  _ <- check (Qeq_bool (inject_Z (vnvals x_m3)) 2%Q) ;;
  x_answer <- vdense0 TyD [1; 1; 9]%Q 0%Q ;;
  x_result_1 <- t_mxv TyD noacc (mkSr qplus qtimes TyD) (MComp x_m3) MERGE x_result (Trn x_mA) x_u3
    ;;
  _ <- check (Qeq_bool (inject_Z (vnvals x_result_1)) 3%Q) ;;
  x_q <- veq x_result_1 x_answer ;;
  _ <- check x_q ;;
  Ok tt) = Ok tt.
Proof. vm_compute. reflexivity. Qed.

(** test_mxv.cpp:708-775 *)
Example mxv_reg :
 (x_m <- vdense0 (TyU 32) [1; 1; 1]%Q 0%Q ;;
  x_A <- mdense0 TyD [[8; 1; 6]; [3; 0; 7]; [0; 0; 2]]%Q 0%Q ;;
  x_v1 <- vdense0 TyD [(-1); 2; 1]%Q 0%Q ;;
  x_v2 <- vdense0 TyD [0; 1; 0]%Q 0%Q ;;
  x_v3 <- vdense0 TyD [2; 1; 0]%Q 0%Q ;;
  x_v4 <- vdense0 TyD [0; 1; 1]%Q 0%Q ;;
  x_ans1 <- vdense TyD [0; 4; 2]%Q ;;
  x_ans2 <- vdense0 TyD [1; 0; 0]%Q 0%Q ;;
  x_ans3 <- vdense0 TyD [17; 6; 0]%Q 0%Q ;;
  x_ans4 <- vdense0 TyD [7; 7; 2]%Q 0%Q ;;
  x_result <- vnew 3 ;;
  x_result_1 <- t_mxv TyD (acc TyD qsecond) (mkSr qplus qtimes TyD) (MVal x_m) MERGE x_result (Mat
    x_A) x_v1 ;;
  x_q <- veq x_result_1 x_ans1 ;;
  _ <- check x_q ;;
  x_result_2 <- Ok (vec_clear x_result_1) ;;
  x_result_3 <- t_mxv TyD (acc TyD qsecond) (mkSr qplus qtimes TyD) (MVal x_m) MERGE x_result_2 (Mat
    x_A) x_v2 ;;
  x_q_1 <- veq x_result_3 x_ans2 ;;
  _ <- check x_q_1 ;;
  x_result_4 <- Ok (vec_clear x_result_3) ;;
  x_result_5 <- t_mxv TyD (acc TyD qsecond) (mkSr qplus qtimes TyD) (MVal x_m) MERGE x_result_4 (Mat
    x_A) x_v3 ;;
  x_q_2 <- veq x_result_5 x_ans3 ;;
  _ <- check x_q_2 ;;
  x_result_6 <- Ok (vec_clear x_result_5) ;;
  x_result_7 <- t_mxv TyD (acc TyD qsecond) (mkSr qplus qtimes TyD) (MVal x_m) MERGE x_result_6 (Mat
    x_A) x_v4 ;;
  x_q_3 <- veq x_result_7 x_ans4 ;;
  _ <- check x_q_3 ;;
  Ok tt) = Ok tt.
Proof. vm_compute. reflexivity. Qed.
