(** Specification of the printed form of containers. *)
From Coq Require Import Ascii String.
From Verif Require Import Base ModelLil ModelVec ModelPrint Spec.

(** The elements of [l] with [sep] between them. *)
Fixpoint joined (sep : text) (l : list text) : text :=
  match l with
  | [] => []
  | [x] => x
  | x :: l' => x ++ sep ++ joined sep l'
  end.

Section Print.
Context {T : Type} (show : T -> text) (name : text).
(** A matrix: dimensions, number of stored elements, then one bracketed line per row with one cell per column; a cell that is not
    stored is blank. *)
Definition row_spec (M : lil T) (i : nat) : text :=
  joined (txt ", ") (map (fun j => match mget M i j with Some v => show v | None => txt " " end) (seq 0 (ncols M))).
Definition matrix_spec (M : lil T) : text :=
  txt "grb::Matrix: backend::LilSparseMatrix<" ++ name ++ txt "> (" ++ show_index (nrows M) ++ txt " x " ++ show_index (ncols M) ++
  txt "), nvals = " ++ show_index (mcount (nrows M) (ncols M) (mget M)) ++ newline ++
  txt "  [" ++ joined (newline ++ txt "   ") (map (fun i => txt "[" ++ row_spec M i ++ txt "]") (seq 0 (nrows M))) ++ txt "]".
(** A vector: size, number of stored elements, then one cell per position; a cell that is not stored is a dash. *)
Definition vector_spec (w : bvec T) : text :=
  txt "grb::Vector: backend::BitmapSparseVector<" ++ name ++ txt ">, size  = " ++ show_index (vsize w) ++
  txt ", nvals = " ++ show_index (vcount (vsize w) (vget w)) ++ newline ++
  txt "[" ++ joined (txt ", ") (map (fun i => match vget w i with Some v => show v | None => txt "-" end) (seq 0 (vsize w))) ++ txt "]".

(** Values are written distinctly, without comma and line break, and never as the mark [blank] of a missing value.  True of the numbers of
    the integer types other than the 8-bit ones. *)
Definition plain_show (blank : text) : Prop :=
  (forall x y, show x = show y -> x = y) /\
  (forall x, ~ In ","%char (show x) /\ ~ In (Ascii.ascii_of_nat 10) (show x)) /\
  (forall x, show x <> blank).
End Print.

(** How a stream writes an [int8_t]: as the character. *)
Definition show_int8 (z : Z) : text := [Ascii.ascii_of_N (Z.to_N (z mod 256))].
(** How it writes a wider integer: in decimal, with a sign if negative. *)
Definition show_int (z : Z) : text :=
  if (z <? 0)%Z then txt "-" ++ show_index (Z.to_nat (- z)) else show_index (Z.to_nat z).
