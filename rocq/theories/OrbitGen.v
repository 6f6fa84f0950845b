(** * The orbit equations (graphlets/graphlets.py).  Definitions only.
    The iteration order of the sets of nodes and layers is that of the lists in the model. *)
From Coq Require Import QArith.
From Verif Require Export OrbitEq Cc.
Local Open Scope nat_scope.

(** graphlets.py 442-449, 514-521: the nodes that are not in both orbits, those not below 0
    and those below 0; comparing a string with 0 raises TypeError. *)
Fixpoint split_sign (l : list name) : res (list name * list name) :=
  match l with
  | [] => Ok ([], [])
  | NStr _ :: _ => Err TypeError
  | NInt z :: l => let? r := split_sign l in Ok (if decide (z < 0)%Z then (r.1, NInt z :: r.2) else (NInt z :: r.1, r.2))
  end.
(** graphlets.py 456, 523: [itertools.product(nodes1, nodes2)]. *)
Definition cross_pairs (s1 s2 : list name) : list (name * name) := s1 ≫= fun x => (fun y => (x, y)) <$> s2.
(** graphlets.py 532-535: the choices of pairs of nodes and of the layers of each. *)
Definition edge_choices (edges : list (name * name)) (layer_combs : list (list name)) : list (list ((name * name) * list name)) :=
  seq 1 (length edges) ≫= fun n_e => combs n_e edges ≫= fun ec => (fun lc => zip ec lc) <$> cart (replicate n_e layer_combs).
(** graphlets.py 536-540: a copy of the network with these links. *)
Definition with_edges (net : mpx) (e : list ((name * name) * list name)) : res mpx :=
  let? q := msubnet net [Some (mnodes net); Some (layers_of net)] false in
  mbuild q (e ≫= fun xl => (fun l => MSet [xl.1.1; xl.1.2; l] 1) <$> xl.2).
(** graphlets.py 494-544 [add_possible_edges]. *)
Definition add_possible_edges (both : list name) (net : mpx) : res (list mpx) :=
  let? s := split_sign (sdiff (mnodes net) both) in
  rmapM (with_edges net) (edge_choices (cross_pairs (s.1) (s.2)) (layer_combinations (layers_of net))).

Section Gen.
Context {T : Type} `{EqDecision T} (structure : auxg -> auxg -> bool) (mapping : auxg -> auxg -> dict nat nat)
  (canon : dict nat nat -> list (nat * nat) -> T) (al : option (list nat)).
Context (nets : dict nat (list mpx)) (invs : @invariants T) (auts : dict orbit name).

(** graphlets.py 375, 384-385: new names -2, -3, ... for the nodes of the second graphlet but
    the shared one. *)
Definition second_names (node1 node2 : name) (nodes2 : list name) : dict name name :=
  dset (imap (fun i x => (x, NInt (- 2 - Z.of_nat i))) (sdiff nodes2 [node2])) node2 node1.
(** graphlets.py 389-393, 404-408: a copy of the first graphlet with the links of the
    relabelled second one. *)
Definition overlay (net1 net2 : mpx) (ds : list (dict name name)) : res mpx :=
  let? new := msubnet net1 [Some (mnodes net1); Some (layers_of net1)] false in
  let? r := mrelabel net2 ds in
  let? es := medges r in
  mbuild new (omap (fun e : list name * Z => match e.1 with
    | x :: y :: _ => if decide (x = y) then None else Some (MSet (e.1) (e.2))
    | _ => None end) es).
(** graphlets.py 401-402: [layerNames[perm[i-1]] = perm[i]]; [perm[-1]] is the last layer. *)
Definition rotated (perm : list name) : dict name name :=
  match last perm with None => [] | Some z => zip (z :: perm) perm end.
(** graphlets.py 343-415 [combine_orbits]; [None] when the layers differ. *)
Definition combine_orbits (o1 o2 : orbit) : res (option (list mpx)) :=
  let? net1 := net_at nets (o1.1.1) (o1.1.2) in
  let? net2 := net_at nets (o2.1.1) (o2.1.2) in
  if negb (set_eqb (layers_of net1) (layers_of net2)) then Ok None else
  let names := second_names (o1.2) (o2.2) (mnodes net2) in
  let? first := overlay net1 net2 [names] in
  let? ci := mcomplete_invariant canon first al in
  let? s := rfold (fun (s : list mpx * list (@invariant T)) perm =>
      let? q := overlay net1 net2 [names; rotated perm] in
      let? ci := mcomplete_invariant canon q al in
      Ok (if decide (ci ∈ s.2) then s else (s.1 ++ [q], s.2 ++ [ci]))) ([first], [ci])
    (if decide (al = Some [0]) then [] else permutations (layers_of net2)) in
  Ok (Some (s.1)).
(** graphlets.py 459-465: the layers in which a node is present. *)
Definition present (net : mpx) (x : name) : res (list name) :=
  let? nls := miter_node_layers net in Ok (omap (fun a : nl => match a with y :: l :: _ => if decide (x = y) then Some l else None | _ => None end) nls).
(** graphlets.py 456-489: one pair of nodes. *)
Definition merge_step (both : list name) (net : mpx) (s : list (mpx * list name) * list (@invariant T)) (xy : name * name) :
    res (list (mpx * list name) * list (@invariant T)) :=
  let? l1 := present net (xy.1) in
  let? l2 := present net (xy.2) in
  if negb (set_eqb l1 l2) then Ok s else
  let? sub1 := msubnet net [Some (both ++ [xy.1]); Some (layers_of net)] false in
  let? sub2 := msubnet net [Some (both ++ [xy.2]); Some (layers_of net)] false in
  let? b := mis_isomorphic structure sub1 sub2 (Some [0]) in
  if negb b then Ok s else
  let? new := msubnet net [Some (sdiff (mnodes net) [xy.2]); Some (layers_of net)] false in
  let? new := rfold (fun q l =>
      let? bs := mp_iter net DTot [xy.2; l] None in
      mbuild q (omap (fun b : nl => match b with y :: l' :: _ => if decide (y = xy.2) then None else Some (MSet [xy.1; y; l; l'] 1) | _ => None end) bs))
    new (layers_of net) in
  let? ci := mcomplete_invariant canon new al in
  Ok (if decide (ci ∈ s.2) then s else (s.1 ++ [(new, both ++ [xy.1])], s.2 ++ [ci])).
(** graphlets.py 418-491 [merge_nodes]. *)
Definition merge_nodes (both : list name) (net : mpx) : res (list (mpx * list name)) :=
  let? ns := split_sign (sdiff (mnodes net) both) in
  let? s := rfold (merge_step both net) ([], []) (cross_pairs (ns.1) (ns.2)) in Ok (s.1).
(** graphlets.py 212-220: the rounds of merging; [level] holds the networks of the last
    round. *)
Fixpoint merge_rounds (k : nat) (level acc : list (mpx * list name)) : res (list (mpx * list name)) :=
  match k with
  | 0 => Ok acc
  | S k => let? ls := rmapM (fun m : mpx * list name => merge_nodes (m.2) (m.1)) level in merge_rounds k (concat ls) (acc ++ concat ls)
  end.
(** graphlets.py 233-241: the orbit of the shared node in a combined network. *)
Definition orbit_of (x : name) (net : mpx) : res orbit :=
  let? ci := mcomplete_invariant canon net al in
  match dget invs ci with
  | None => Err KeyError
  | Some ij =>
    let? g := net_at nets (ij.1) (ij.2) in
    let? y := image_in structure mapping al net g x in
    match dget auts (ij.1, ij.2, y) with None => Err KeyError | Some a => Ok (ij.1, ij.2, a) end
  end.
(** graphlets.py 204-245, 253-257: the right-hand side for two orbits, [None] when they cannot be
    combined. *)
Definition right_side (o1 o2 : orbit) : res (option (dict orbit Q)) :=
  let? c := combine_orbits o1 o2 in
  match c with
  | None => Ok None
  | Some cs =>
    let start := (fun q => (q, [o1.2])) <$> cs in
    let? merged := merge_rounds (o1.1.1 + o2.1.1 - 1 - (Nat.max (o1.1.1) (o2.1.1) + 1)) start start in
    let? added := rmapM (fun m : mpx * list name => let? l := add_possible_edges (m.2) (m.1) in Ok ((fun q => (q, m.2)) <$> l)) merged in
    let? reps := rfold (fun (d : dict orbit (mpx * list name)) m =>
        let? o := orbit_of (o1.2) (m.1) in Ok (if din d o then d else dset d o m)) [] (merged ++ concat added) in
    let? coefs := rmapM (fun om : orbit * (mpx * list name) =>
        let? q := coefficient structure mapping canon al nets invs auts (o1.2) (om.2.2) o1 o2 (om.2.1) in Ok (om.1, q)) reps in
    Ok (Some (filter (fun oq : orbit * Q => (0 < Qnum (oq.2))%Z) coefs))
  end.
(** graphlets.py 246-251: the key of an equation. *)
Definition eq_key (o1 o2 : orbit) : eqkey := if decide (o1 = o2) then KTwice o1 else KPair o2 o1.
(** graphlets.py 201-257: one pair of orbits. *)
Definition eq_step (o1 : orbit) (eqs : dict eqkey (dict orbit Q)) (o2 : orbit) : res (dict eqkey (dict orbit Q)) :=
  if din eqs (KPair o1 o2) then Ok eqs else
  let? r := right_side o1 o2 in
  Ok (match r with None => eqs | Some rhs => dset eqs (eq_key o1 o2) rhs end).
(** graphlets.py 163-259 [orbit_equations]. *)
Definition orbit_equations (n : nat) : res (dict eqkey (dict orbit Q)) :=
  let ol := list_orbits auts in
  rfold (fun eqs n1 =>
    match dget ol n1 with
    | None => Err KeyError
    | Some os =>
      rfold (fun eqs o1 =>
        rfold (fun eqs (ko : nat * list orbit) => if decide (n1 + ko.1 - 1 <= n) then rfold (eq_step o1) eqs (ko.2) else Ok eqs) eqs ol) eqs os
    end) [] (seq 2 (Nat.min (n + 1) 4 - 2)).
End Gen.
