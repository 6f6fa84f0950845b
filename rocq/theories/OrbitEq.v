(** * Coefficients of the orbit equations (graphlets/graphlets.py).  Definitions only. *)
From Coq Require Import QArith.
From Verif Require Export OrbitCount.
Local Open Scope nat_scope.

Section Eqs.
Context {T : Type} `{EqDecision T} (structure : auxg -> auxg -> bool) (mapping : auxg -> auxg -> dict nat nat)
  (canon : dict nat nat -> list (nat * nat) -> T) (al : option (list nat)).
Context (nets : dict nat (list mpx)) (invs : @invariants T) (auts : dict orbit name).

(** [nets[k][j]]. *)
Definition net_at (k j : nat) : res mpx :=
  match dget nets k with None => Err KeyError | Some l => match l !! j with None => Err IndexError | Some g => Ok g end end.
(** graphlets.py 629-639: the image of [x] under the isomorphism that the
    backend gives, [x] itself when it is not in the dictionary ([iso[0]] of [None] raises
    TypeError). *)
Definition image_in (sub net : mpx) (x : name) : res name :=
  let? iso := mget_isomorphism structure mapping sub net al false in
  match iso with None => Err TypeError | Some ms => Ok (default x (dget (default [] (ms !! 0)) x)) end.
(** [auts[o[0], o[1], y] == o[2]]. *)
Definition in_orbit (o : orbit) (y : name) : res bool :=
  match dget auts (o.1.1, o.1.2, y) with None => Err KeyError | Some a => Ok (bool_decide (a = o.2)) end.
(** graphlets.py 618-642: the body of the loop, 1 when the coefficient is increased. *)
Definition coef_step (x : name) (both : list name) (o1 o2 : orbit) (net net1 net2 : mpx) (comb : list name) : res nat :=
  let nodes_s2 := sdiff (mnodes net) comb in
  let nodes_s1 := sunion (sdiff (mnodes net) nodes_s2) both in
  let? sub1 := msubnet net [Some nodes_s1; Some (layers_of net)] false in
  let? sub2 := msubnet net [Some nodes_s2; Some (layers_of net)] false in
  let? ci1 := mcomplete_invariant canon sub1 al in
  let? ci2 := mcomplete_invariant canon sub2 al in
  if decide (dget invs ci1 = Some (o1.1) /\ dget invs ci2 = Some (o2.1)) then
    let? y1 := image_in sub1 net1 x in
    let? y2 := image_in sub2 net2 x in
    let? b1 := in_orbit o1 y1 in
    if b1 then let? b2 := in_orbit o2 y2 in Ok (if b2 then 1 else 0) else Ok 0
  else Ok 0.
(** graphlets.py 605-644 [coefficient_help]. *)
Definition coefficient_help (nodes : list name) (x : name) (both : list name) (o1 o2 : orbit) (net : mpx) : res nat :=
  let? net1 := net_at (o1.1.1) (o1.1.2) in
  let? net2 := net_at (o2.1.1) (o2.1.2) in
  let? cs := combs_z (Z.of_nat (length (mnodes net1)) - Z.of_nat (length both)) nodes in
  rfold (fun coef comb => let? k := coef_step x both o1 o2 net net1 net2 comb in Ok (coef + k)) 0 cs.
(** graphlets.py 558-602 [coefficient]; the quotient is exact. *)
Definition coefficient (x : name) (both : list name) (o1 o2 : orbit) (net : mpx) : res Q :=
  let nodes := sdiff (mnodes net) [x] in
  let? coef := (if decide (1 < length both) then
      rfold (fun coef shared => let? k := coefficient_help (sdiff nodes shared) x (sunion shared [x]) o1 o2 net in Ok (coef + k)) 0
        (combs (length both - 1) nodes)
    else coefficient_help nodes x both o1 o2 net) in
  Ok (Qmake (Z.of_nat coef) (if decide (o1 = o2) then 2 else 1)).

(** graphlets.py 647-658 [orbit_name]; [iso[0][node]] raises KeyError. *)
Definition orbit_name (x : name) (net : mpx) : res orbit :=
  let? ci := mcomplete_invariant canon net al in
  match dget invs ci with
  | None => Err KeyError
  | Some ij =>
    let? net_i := net_at (ij.1) (ij.2) in
    let? iso := mget_isomorphism structure mapping net net_i al true in
    match iso with
    | None => Err TypeError
    | Some ms =>
      match dget (default [] (ms !! 0)) x with
      | None => Err KeyError
      | Some y => match dget auts (ij.1, ij.2, y) with None => Err KeyError | Some a => Ok (ij.1, ij.2, a) end
      end
    end
  end.
(** graphlets.py 262-313 [subtrahend]: the lookups, then the generator
    [partitions_with_remainder] is asked for its first element. *)
Definition subtrahend (o1 o2 : orbit) : res nat :=
  let? net1 := net_at (o1.1.1) (o1.1.2) in
  let? net2 := net_at (o2.1.1) (o2.1.2) in
  let? ps := partitions_with_remainder (sdiff (mnodes net1) [o1.2]) (Z.of_nat (o2.1.1) - 1) in
  Ok (length ps).
End Eqs.
