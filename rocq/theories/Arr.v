(* numpy layer: element arithmetic, row-wise operations, indexing and slicing.
   Arrays are lists of rows.  No proofs in this file. *)
From Verif Require Import Py.

(* Arithmetic on array elements.  [fdot] and [fnorm] stand for BLAS/numpy reductions
   whose order of summation is unspecified; as functions of the values they are
   otherwise arbitrary.  [fle] is the comparison of elements; [fofZ] conversion of an
   int.
   Used by embeddings.py 605-641, _util.py 9-12, storage/quantized.py 137-153, 230-234, 279-283 and compat/fasttext.py 218, 291-295. *)
Record fops (F : Type) : Type := FOps {
  fzero : F;
  fadd : F -> F -> F;
  fsub : F -> F -> F;
  fmul : F -> F -> F;
  fdiv : F -> F -> F;
  fofZ : Z -> F;
  fle : F -> F -> bool;
  fdot : list F -> list F -> F;      (* a.dot(b) for vectors *)
  fnorm : list F -> F;               (* np.linalg.norm of a vector *)
}.
Arguments fzero {F} _.
Arguments fadd {F} _ _ _.
Arguments fsub {F} _ _ _.
Arguments fmul {F} _ _ _.
Arguments fdiv {F} _ _ _.
Arguments fofZ {F} _ _.
Arguments fle {F} _ _ _.
Arguments fdot {F} _ _ _.
Arguments fnorm {F} _ _.

(* Element-wise numpy operations on arrays of the same shape, embeddings.py 519-520. *)
Fixpoint map2 {A B C} (f : A -> B -> C) (x : list A) (y : list B) : list C :=
  match x, y with
  | a :: x', b :: y' => f a b :: map2 f x' y'
  | _, _ => []
  end.

Section Vec.
  Context {F : Type} (o : fops F).
  (* embeddings.py 519-520, compat/fasttext.py 295. *)
  Definition vadd (x y : list F) : list F := map2 (fadd o) x y.
  (* embeddings.py 519-520, compat/fasttext.py 295. *)
  Definition vsub (x y : list F) : list F := map2 (fsub o) x y.
  (* scalar * vector.
     embeddings.py 640, _util.py 11, compat/fasttext.py 291-293, storage/quantized.py 234. *)
  Definition vscale (s : F) (x : list F) : list F := map (fmul o s) x.
  (* vector / scalar.
     embeddings.py 640, _util.py 11, compat/fasttext.py 291-293, storage/quantized.py 234. *)
  Definition vdiv (x : list F) (s : F) : list F := map (fun a => fdiv o a s) x.
  (* np.zeros, embeddings.py 461. *)
  Definition vzero (n : nat) : list F := repeat (fzero o) n.
  (* np.add.reduce(rows, 0): element-wise sums over the first axis, row by row; the
     empty sum is zero.  cols is the length of the rows.
     embeddings.py 638, compat/fasttext.py 295. *)
  Definition vsum (cols : nat) (rows : list (list F)) : list F :=
    match rows with
    | [] => vzero cols
    | r :: rs => fold_left vadd rs r
    end.
End Vec.

(* a[i] for an int i: negative indices count from the end.
   storage/ndarray.py 137-140, storage/quantized.py 230-234, 261-271. *)
Definition py_index {A} (l : list A) (i : Z) : result A :=
  let n := Z.of_nat (length l) in
  let i := if (i <? 0)%Z then (i + n)%Z else i in
  if in_range 0 n i then
    match nth_error l (Z.to_nat i) with
    | Some a => Ok a
    | None => Err IndexError
    end
  else Err IndexError.

(* slice(start, stop, step).indices(n): clipped start and stop as in CPython's
   PySlice_AdjustIndices.
   Slice keys: storage/ndarray.py 138, storage/quantized.py 264, norms.py 77. *)
Record pslice : Set := PSlice {
  sl_start : option Z; sl_stop : option Z; sl_step : option Z }.

(* Slice keys: storage/ndarray.py 138, storage/quantized.py 264, norms.py 77. *)
Definition clip_bound (n step : Z) (b : Z) : Z :=
  (if b <? 0 then
     let b := b + n in
     if b <? 0 then (if step <? 0 then -1 else 0) else b
   else if n <=? b then (if step <? 0 then n - 1 else n)
   else b)%Z.

(* Slice keys: storage/ndarray.py 138, storage/quantized.py 264, norms.py 77. *)
Definition slice_bounds (n : Z) (s : pslice) : result (Z * Z * Z) :=
  let step := match sl_step s with Some z => z | None => 1%Z end in
  if (step =? 0)%Z then Err ValueError
  else
    let start := match sl_start s with
                 | Some b => clip_bound n step b
                 | None => if (step <? 0)%Z then (n - 1)%Z else 0%Z
                 end in
    let stop := match sl_stop s with
                | Some b => clip_bound n step b
                | None => if (step <? 0)%Z then (-1)%Z else n
                end in
    Ok (start, stop, step).

(* number of elements of range(start, stop, step).
   Slice keys: storage/ndarray.py 138, storage/quantized.py 264, norms.py 77. *)
Definition range_len (start stop step : Z) : nat :=
  Z.to_nat
    (if step <? 0 then
       if stop <? start then (start - stop - 1) / (- step) + 1 else 0
     else
       if start <? stop then (stop - start - 1) / step + 1 else 0)%Z.

(* the indices selected by a slice, in order.
   Slice keys: storage/ndarray.py 138, storage/quantized.py 264, norms.py 77. *)
Definition slice_indices (n : nat) (s : pslice) : result (list nat) :=
  '(start, stop, step) <- slice_bounds (Z.of_nat n) s ;;
  Ok (map (fun k => Z.to_nat (start + Z.of_nat k * step)%Z)
        (seq 0 (range_len start stop step))).

(* l[s].  Slice keys: storage/ndarray.py 138, storage/quantized.py 264, norms.py 77. *)
Definition py_slice {A} (l : list A) (s : pslice) : result (list A) :=
  idx <- slice_indices (length l) s ;;
  Ok (flat_map (fun i => match nth_error l i with Some a => [a] | None => [] end) idx).

(* l[:n] as a slice key.
   Slice keys: storage/ndarray.py 138, storage/quantized.py 264, norms.py 77. *)
Definition slice_to (n : Z) : pslice := PSlice None (Some n) None.
(* Slice keys: storage/ndarray.py 138, storage/quantized.py 264, norms.py 77. *)
Definition slice_from (n : Z) : pslice := PSlice (Some n) None None.
