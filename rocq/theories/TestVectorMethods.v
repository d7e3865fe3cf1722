(** The tests of /repo/src/test/test_vector_methods.cpp, run on the model.  Generated translation. *)
From Verif Require Import TestRun.


(** test_vector_methods.cpp:45-79 *)
Example vector_resize_test :
 (x_v1 <- vnew 6 ;;
  x_v1_1 <- vbuild TyD qsecond x_v1 [1; 2; 3] [1; 2; 3]%Q ;;
  _ <- check (Qeq_bool (inject_Z (vnvals x_v1_1)) 3%Q) ;;
  _ <- check (Qeq_bool (inject_Z (Z.of_nat (vsize x_v1_1))) 6%Q) ;;
  x_v1_2 <- Ok (vec_resize 0%Q x_v1_1 12) ;;
  _ <- check (Qeq_bool (inject_Z (vnvals x_v1_2)) 3%Q) ;;
  _ <- check (Qeq_bool (inject_Z (Z.of_nat (vsize x_v1_2))) 12%Q) ;;
  x_v1_3 <- vec_setElement x_v1_2 7 (cast TyD 99%Q) ;;
  x_e <- vec_extractElement x_v1_3 7 ;;
  _ <- check (Qeq_bool x_e 99%Q) ;;
  x_v1_4 <- Ok (vec_resize 0%Q x_v1_3 3) ;;
  _ <- check (Qeq_bool (inject_Z (Z.of_nat (vsize x_v1_4))) 3%Q) ;;
  _ <- check (Qeq_bool (inject_Z (vnvals x_v1_4)) 2%Q) ;;
  x_e_1 <- vec_extractElement x_v1_4 1 ;;
  _ <- check (Qeq_bool x_e_1 1%Q) ;;
  x_e_2 <- vec_extractElement x_v1_4 2 ;;
  _ <- check (Qeq_bool x_e_2 2%Q) ;;
  x_v1_5 <- Ok (vec_resize 0%Q x_v1_4 12) ;;
  _ <- check (Qeq_bool (inject_Z (vnvals x_v1_5)) 2%Q) ;;
  _ <- check (Qeq_bool (inject_Z (Z.of_nat (vsize x_v1_5))) 12%Q) ;;
  Ok tt) = Ok tt.
Proof. vm_compute. reflexivity. Qed.

(** test_vector_methods.cpp:82-105 *)
Example vector_removeElement_test :
 (x_v1 <- vnew 6 ;;
  x_v1_1 <- vbuild TyD qsecond x_v1 [1; 2; 3] [1; 2; 3]%Q ;;
  _ <- check (Qeq_bool (inject_Z (vnvals x_v1_1)) 3%Q) ;;
  x_h <- vec_hasElement x_v1_1 4 ;;
  _ <- check (nz (of_bool (negb (nz (of_bool x_h))))) ;;
  x_v1_2 <- vec_removeElement x_v1_1 4 ;;
  _ <- check (Qeq_bool (inject_Z (vnvals x_v1_2)) 3%Q) ;;
  x_h_1 <- vec_hasElement x_v1_2 4 ;;
  _ <- check (nz (of_bool (negb (nz (of_bool x_h_1))))) ;;
  x_h_2 <- vec_hasElement x_v1_2 1 ;;
  _ <- check (nz (of_bool x_h_2)) ;;
  x_v1_3 <- vec_removeElement x_v1_2 1 ;;
  _ <- check (Qeq_bool (inject_Z (vnvals x_v1_3)) 2%Q) ;;
  x_h_3 <- vec_hasElement x_v1_3 1 ;;
  _ <- check (nz (of_bool (negb (nz (of_bool x_h_3))))) ;;
  Ok tt) = Ok tt.
Proof. vm_compute. reflexivity. Qed.
