(** * What the clustering-coefficient properties say *)
From Verif Require Import MpxSpec.
Open Scope Z_scope.

(** No self-loop was written through an intra-layer network [net.A[layer]]. *)
Definition no_loops (p : mpx) : Prop := forall l x v, agetitem p (LBare l) [x; x] = Ok v -> v = 0.

(** ** Elementary cycles *)
(** The 0/1 matrix [M] of the relation [P] between node-layers. *)
Definition indicates (P : nl -> nl -> Prop) (M : nl -> nl -> Z) : Prop :=
  forall a b, (P a b /\ M a b = 1) \/ (~ P a b /\ M a b = 0).
(** Products of square matrices whose rows and columns are named by the list [V]. *)
Definition mmul (V : list nl) (M N : nl -> nl -> Z) : nl -> nl -> Z := fun a b => zsumf (fun c => M a c * N c b) V.
Fixpoint mprod (V : list nl) (Ms : list (nl -> nl -> Z)) : nl -> nl -> Z :=
  match Ms with
  | [] => fun a b => if decide (a = b) then 1 else 0
  | M :: Ms => mmul V M (mprod V Ms)
  end.
(** A step inside a layer, a step along a coupling edge, and a step to another node of the
    same layer whether linked or not. *)
Definition stepA (p : mpx) (a b : nl) : Prop := mlinked p a b /\ tail a = tail b.
Definition stepC (p : mpx) (a b : nl) : Prop := mlinked p a b /\ tail a <> tail b.
Definition stepF (p : mpx) (a b : nl) : Prop := mexists p a /\ mexists p b /\ tail a = tail b /\ a <> b.
(** The ten walks whose closed instances cc.py counts, as words over the matrices. *)
Definition cycle_words {M : Type} (A C F : M) : list (list M) :=
  [[A; A; A]; [A; A; C; A; C]; [A; C; A; A; C]; [A; C; A; C; A]; [A; C; A; C; A; C];
   [A; F; A]; [A; F; C; A; C]; [A; C; F; A; C]; [A; C; F; C; A]; [A; C; F; C; A; C]].
