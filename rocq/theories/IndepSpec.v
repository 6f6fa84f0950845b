(** * Specification vocabulary for the properties C89-C91 (independent equations). *)
From stdpp Require Import prelude relations.
From Verif Require Import Base Net Graphlet GraphletSpec Indep.
Local Open Scope nat_scope.

(** ** Redundant orbits *)
(** [i] is the number of an orbit on the right-hand side of the equation [eq]. *)
Definition occurs (eqs : dict eqkey (list orbit)) (orbit_is : dict orbit nat) (eq : eqkey) (i : nat) : Prop :=
  exists os o, dget eqs eq = Some os /\ o ∈ os /\ dget orbit_is o = Some i.
(** One number for each equation: the greatest one that occurs in the equation and
    has not been given to an equation before it. *)
Definition greedy (eqs : dict eqkey (list orbit)) (orbit_is : dict orbit nat) (inds : list eqkey) (is : list nat) : Prop :=
  length is = length inds /\
  forall k eq i, inds !! k = Some eq -> is !! k = Some i ->
    occurs eqs orbit_is eq i /\ i ∉ take k is /\ forall j, occurs eqs orbit_is eq j -> i < j -> j ∈ take k is.

(** ** Derivations *)
(** [net] says from which equations an equation follows; [derived net I v]: [v] follows
    from the equations in [I], in finitely many steps. *)
Inductive derived {V} `{EqDecision V} (net : dict V (list V)) (I : list V) : V -> Prop :=
| derived_given v : v ∈ I -> derived net I v
| derived_by v us : dget net v = Some us -> us <> [] -> (forall u, u ∈ us -> derived net I u) -> derived net I v.
(** [v] depends on itself, directly or through others. *)
Definition on_cycle {V} `{EqDecision V} (net : dict V (list V)) (v : V) : Prop := tc (arc net) v v.
(** [net] is obtained by choosing one of the alternatives for each equation that has any. *)
Definition chosen {V} `{EqDecision V} (alts : dict V (list (list V))) (net : dict V (list V)) : Prop :=
  dkeys net = dkeys alts /\
  forall v ds us, dget alts v = Some ds -> dget net v = Some us -> us ∈ ds \/ ds = [] /\ us = [].
(** Every successor is an equation of the network; a three-orbit equation follows from
    something, and not from itself. *)
Definition sound_net {V} `{EqDecision V} (three : V -> bool) (net : dict V (list V)) : Prop :=
  NoDup (dkeys net) /\ (forall v us u, dget net v = Some us -> u ∈ us -> u ∈ dkeys net) /\
  (forall v us, three v = true -> dget net v = Some us -> us <> [] /\ v ∉ us).

(** ** Dependencies between orbit equations *)
(** The set of the equations for the products of [o] with the orbits on the right-hand side of [eq]
    if there is an equation for each of them, the empty set otherwise. *)
Definition product_key (set_eqs : dict eqkey (list orbit)) (o : orbit) (eq : eqkey) (k : eqkey) : Prop :=
  exists os, dget set_eqs eq = Some os /\ (forall p, p ∈ os -> is_Some (find_key o p set_eqs)) /\ exists p, p ∈ os /\ find_key o p set_eqs = Some k.
(** The orbits of an equation. *)
Definition orbits2 (k : eqkey) : list orbit := match k with KPair a b => [a; b] | KTwice o => [o; o] end.
(** The first orbit of an equation. *)
Definition head_orbit (k : eqkey) : orbit := match k with KPair a _ => a | KTwice o => o end.
(** A way to compute the product of the three orbits [abc]: an equation for two of
    them, and the equations for the products of its right-hand side with the third. *)
Definition triple_from (set_eqs : dict eqkey (list orbit)) (abc : list orbit) (s : list depkey) : Prop :=
  exists eq o, eq ∈ dkeys set_eqs /\ orbits2 eq ++ [o] ≡ₚ abc /\
    forall u, u ∈ s <-> u = DEq eq \/ exists k, u = DEq k /\ product_key set_eqs o eq k.
(** A way to compute the product of the two orbits of [un]: one of them occurs in an equation
    [eq]; the product of the three orbits, [eq] and the equations for the products of the
    other terms of [eq]. *)
Definition pair_from (set_eqs : dict eqkey (list orbit)) (un : eqkey) (s : list depkey) : Prop :=
  exists eq os o m a b c, dget set_eqs eq = Some os /\ o ∈ os /\ orbits2 un ≡ₚ [o; m] /\ orbits2 eq ++ [m] ≡ₚ [a; b; c] /\
    (exists k, k <> un /\ product_key set_eqs m eq k) /\
    forall u, u ∈ s <-> u = DEq eq \/ (exists k, u = DEq k /\ k <> un /\ product_key set_eqs m eq k) \/ u = DThree a b c.
(** A reason why the equation [v] follows from the equations [us]. *)
Definition justified (set_eqs : dict eqkey (list orbit)) (v : depkey) (us : list depkey) : Prop :=
  match v with
  | DEq un => un ∈ dkeys set_eqs /\ pair_from set_eqs un us
  | DThree a b c => triple_from set_eqs [a; b; c] us
  | DNone => False
  end.
(** The graphlet of the orbit [o] is on exactly the layers [layers]. *)
Definition on_layers (nets : dict nat (list mpx)) (layers : list name) (o : orbit) : Prop :=
  exists l g, dget nets (o.1.1) = Some l /\ l !! (o.1.2) = Some g /\ forall x, x ∈ layers_of g <-> x ∈ layers.
