(** * Specification vocabulary for the files of netio.py *)
From Verif Require Export Netio MpxSpec.
Local Open Scope nat_scope.

(** The lines [g] hold exactly the row [r], which ends at the end of the last line. *)
Definition row_lines (n : nat) (emb : bool) (r : string * list field) (g : list (list field)) : Prop :=
  exists pre last l0, g = pre ++ [last] /\ length (concat pre) < n /\ length (r.2) = n /\
    (concat pre ++ last = if emb then (r.1, l0) :: r.2 else r.2).
(** The rows are written one after the other, each on lines of its own; [rest] is the
    beginning of a row that is not complete (blank lines, for example). *)
Definition layout (n : nat) (emb : bool) (rows : list (string * list field)) (lines : list (list field)) : Prop :=
  exists gs rest, Forall2 (row_lines n emb) rows gs /\ lines = concat gs ++ rest /\ (rest = [] \/ length (concat rest) < n).

(** What a UCINET file with [n] nodes and [nm] matrices says: layer labels, row labels,
    column labels and the rows of the matrices. *)
Definition ufile (n nm : nat) (labels rlabels clabels llabels : option (list name)) (emb : bool) (lines : list (list field))
    (ll rl cl : list name) (rows : list (string * list field)) : Prop :=
  ll = default (irange nm) llabels /\ nm <= length ll /\ n <= length rl /\ length cl = n /\ length rows = n * nm /\
  if emb then
    labels = None /\ rlabels = None /\ clabels = None /\
    exists line0 lines', lines = line0 :: lines' /\ cl = (fun f : field => NStr (f.1)) <$> line0 /\
      rl = (fun r : string * list field => NStr (r.1)) <$> rows /\ layout n true rows lines'
  else
    (labels = None \/ rlabels = None \/ clabels = None) /\
    rl = default (default (irange n) labels) rlabels /\ cl = default (default (irange n) labels) clabels /\
    layout n false rows lines.
(** [M k i j] is the number in row [i] and column [j] of matrix [k], where the labels of
    the row and of the column differ. *)
Definition matrices (n : nat) (rl cl : list name) (rows : list (string * list field)) (M : nat -> nat -> nat -> Z) : Prop :=
  forall k i j row f x y, i < n -> rows !! (k * n + i) = Some row -> row.2 !! j = Some f ->
    rl !! i = Some x -> cl !! j = Some y -> x <> y -> f.2 = Some (M k i j).
(** Entry [i], [j] of matrix [k] is about the nodes [x] and [y] on layer [l]. *)
Definition about (n nm : nat) (ll rl cl : list name) (l x y : name) (k i j : nat) : Prop :=
  k < nm /\ i < n /\ ll !! k = Some l /\
  (rl !! i = Some x /\ cl !! j = Some y \/ rl !! i = Some y /\ cl !! j = Some x).
(** In the order of the file. *)
Definition later (k i j k' i' j' : nat) : Prop := k < k' \/ k = k' /\ (i < i' \/ i = i' /\ j < j').
(** [w] is the last nonzero entry of those in [Q], or 0. *)
Definition last_nonzero (M : nat -> nat -> nat -> Z) (Q : nat -> nat -> nat -> Prop) (w : Z) : Prop :=
  (exists k i j, Q k i j /\ M k i j = w /\ w <> 0%Z /\ forall k' i' j', Q k' i' j' -> later k i j k' i' j' -> M k' i' j' = 0%Z) \/
  (w = 0%Z /\ forall k i j, Q k i j -> M k i j = 0%Z).
