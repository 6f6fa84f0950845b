(** * Graphlet correlation distance (graphlets/graphlet_measures.py 227-278).
    Definitions only.  Simplifications: rationals instead of floats; the final [math.sqrt]
    is left out, so [GCD] is the square of the distance. *)
From Coq Require Export QArith.
From Verif Require Export Base.
Local Open Scope nat_scope.

(** 2-d arrays: lists of rows of equal length. *)
Definition matrix := list (list Q).
Definition shape (m : matrix) : nat * nat := (length m, length (default [] (m !! 0))).
Definition entry (m : matrix) (i j : nat) : res Q :=
  match m !! i with None => Err IndexError | Some r => match r !! j with None => Err IndexError | Some x => Ok x end end.
(** graphlet_measures.py 227-251 [GCD], without the square root. *)
Definition GCD (m1 m2 : matrix) : res Q :=
  if decide (shape m1 = shape m2) then
    rfold (fun acc i =>
      rfold (fun acc j => let? x := entry m1 i j in let? y := entry m2 i j in Ok (acc + (x - y) * (x - y))%Q) acc
        (seq (i + 1) (length (default [] (m1 !! i)) - (i + 1)))) 0%Q (seq 0 (length m1))
  else Err AssertionError.
(** graphlet_measures.py 254-278 [GCD_matrix]. *)
Definition GCD_matrix (gcms : list matrix) : res (list (list Q)) := rmapM (fun m1 => rmapM (fun m2 => GCD m1 m2) gcms) gcms.
