(** Model of the printed form of containers.
    LilSparseMatrix.hpp:723-788 (the layout used when GRB_MATRIX_PRINT_RAW_STORAGE is not defined), BitmapSparseVector.hpp:457-470,
    Matrix.hpp:263-303, Vector.hpp:250-289, StructureView.hpp, ComplementView.hpp, StructuralComplementView.hpp.
    Text is a list of characters.  [show] is what [os << value] writes for a scalar and [name] what [typeid(ScalarT).name()] returns;
    the stream has its default formatting, so that indices and sizes are written in decimal. *)
From Coq Require Import Ascii String DecimalString.
From Verif Require Import Base ModelLil ModelVec.

Definition text : Type := list ascii.
Definition txt (s : string) : text := list_ascii_of_string s.
Definition newline : text := [Ascii.ascii_of_nat 10].
(** [os << n] for an [IndexType]. *)
Definition show_index (n : nat) : text := txt (NilZero.string_of_uint (Nat.to_uint n)).

Section Print.
Context {T : Type} (show : T -> text) (name : text).

(** The text written for one skipped position, lines 753 and 766. *)
Definition gap (curr : nat) : text := if curr =? 0 then txt " " else txt ",  ".
(** [while (curr_idx < bound) { os << gap; ++curr_idx; }], lines 751-755 and 764-768. *)
Definition fill (curr bound : nat) : text := flat_map gap (seq curr (bound - curr)).
(** The loop over the stored elements of a row, lines 760-776; returns the text and [curr_idx]. *)
Fixpoint row_items (curr : nat) (l : list (nat * T)) : text * nat :=
  match l with
  | [] => ([], curr)
  | (c, v) :: l' =>
      let curr' := Nat.max curr c in
      let '(s, e) := row_items (curr' + 1) l' in
      (fill curr c ++ (if curr' =? 0 then [] else txt ", ") ++ show v ++ s, e)
  end.
(** One row, lines 746-784. *)
Definition row_text (nc : nat) (l : list (nat * T)) : text :=
  match l with
  | [] => fill 0 nc
  | _ => let '(s, e) := row_items 0 l in s ++ flat_map (fun _ => txt ",  ") (seq e (nc - e))
  end.
(** [printInfo], lines 723-788. *)
Definition lil_print (M : lil T) : text :=
  txt "backend::LilSparseMatrix<" ++ name ++ txt "> " ++
  txt "(" ++ show_index (nrows M) ++ txt " x " ++ show_index (ncols M) ++ txt "), nvals = " ++ show_index (Z.to_nat (nvals M)) ++ newline ++
  flat_map (fun i => (if i =? 0 then txt "  [[" else txt "   [") ++ row_text (ncols M) (nth i (data M) []) ++
                     (if i =? nrows M - 1 then txt "]]" else txt "]" ++ newline)) (seq 0 (nrows M)).
(** [os << matrix], Matrix.hpp:263-274, and [print_matrix], 292-301. *)
Definition matrix_print (M : lil T) : text := txt "grb::Matrix: " ++ lil_print M.
Definition print_matrix (label : text) (M : lil T) : text := label ++ txt ":" ++ newline ++ matrix_print M ++ newline.

(** [printInfo], BitmapSparseVector.hpp:457-470.  Reading past the end of the arrays is undefined. *)
Definition cell_text (w : bvec T) (i : nat) : res text :=
  match nth_error (vbits w) i, nth_error (vvals w) i with
  | Some true, Some v => Ok (show v)
  | Some false, _ => Ok (txt "-")
  | _, _ => UB
  end.
Definition vec_print (w : bvec T) : res text :=
  first <- cell_text w 0 ;;
  rest <- mfor (seq 1 (vsize w - 1)) (fun i s => c <- cell_text w i ;; Ok (s ++ txt ", " ++ c)) [] ;;
  Ok (txt "backend::BitmapSparseVector<" ++ name ++ txt ">" ++ txt ", size  = " ++ show_index (vsize w) ++
      txt ", nvals = " ++ show_index (Z.to_nat (vnvals w)) ++ newline ++ txt "[" ++ first ++ rest ++ txt "]").
(** [os << vector], Vector.hpp:250-261, and [print_vector], 278-287. *)
Definition vector_print (w : bvec T) : res text := s <- vec_print w ;; Ok (txt "grb::Vector: " ++ s).
Definition print_vector (label : text) (w : bvec T) : res text := s <- vector_print w ;; Ok (label ++ txt ":" ++ newline ++ s ++ newline).
End Print.
