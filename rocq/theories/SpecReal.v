(* Exact arithmetic: the numeric layer instantiated with the real numbers.  Used to state what
   the code computes up to rounding. *)
From Coq Require Import Reals.
From Verif Require Import Py Arr Storage Chunks Embeddings.

(* x1*y1 + x2*y2 + ... *)
Fixpoint r_dot (x y : list R) : R :=
  match x, y with
  | a :: x', b :: y' => (a * b + r_dot x' y')%R
  | _, _ => 0%R
  end.
Fixpoint sum_squares (x : list R) : R :=
  match x with [] => 0%R | a :: x' => (a * a + sum_squares x')%R end.

Definition r_ops : fops R := {|
  fzero := 0%R; fadd := Rplus; fsub := Rminus; fmul := Rmult; fdiv := Rdiv; fofZ := IZR;
  fle := fun a b => if Rle_dec a b then true else false;
  fdot := r_dot; fnorm := fun x => sqrt (sum_squares x) |}.

(* row k of e' and its norm are the given row: a unit vector times a positive number *)
Definition split_row (e' : embeddings R) (k : nat) (row : list R) : Prop :=
  exists v n norms, storage_get r_ops (em_storage e') (Z.of_nat k) = Ok v
    /\ em_norms e' = Some norms /\ nth_error (nm_vals norms) k = Some n
    /\ (0 < n)%R /\ sum_squares v = 1%R /\ map (fun x => n * x)%R v = row.
