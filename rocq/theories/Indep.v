(** * Independent equations and redundant orbits (graphlets/independent_equations.py).
    Definitions only. *)
From Verif Require Export OrbitEq.
Local Open Scope nat_scope.

(** ** Redundant orbits *)
(** independent_equations.py 106-109: [o_max = max(os)] and the loop that drops
    numbers already taken; [max] of an empty set raises ValueError. *)
Fixpoint pick_red (fuel : nat) (os reds : list nat) : res nat :=
  match fuel with
  | 0 => Err OutOfFuel
  | S fuel =>
    match os with
    | [] => Err ValueError
    | o :: os' => let m := foldl Nat.max o os' in if decide (m ∈ reds) then pick_red fuel (sdiff os [m]) reds else Ok m
    end
  end.
(** independent_equations.py 100-111: one equation. *)
Definition red_step (eqs : dict eqkey (list orbit)) (orbit_is : dict orbit nat) (reds : list nat) (eq : eqkey) : res (list nat) :=
  match dget eqs eq with
  | None => Err KeyError
  | Some os =>
    let? is := rmapM (fun o => match dget orbit_is o with None => Err KeyError | Some i => Ok i end) os in
    let is := foldl (fun s i => sadd i s) [] is in
    let? m := pick_red (S (length is)) is reds in
    Ok (sadd m reds)
  end.
(** independent_equations.py 79-119 [redundant_orbits].  [inds] is given in the
    order in which the set is iterated, [ord] is the order in which the set of
    numbers is listed.  Simplification: the orbits themselves are returned, not their
    [str]. *)
Definition redundant_orbits (ord : list nat -> list nat) (inds : list eqkey) (eqs : dict eqkey (list orbit)) (orbit_is : dict orbit nat)
    (orbit_list : list orbit) : res (list orbit) :=
  let? reds := rfold (red_step eqs orbit_is) [] inds in
  rmapM (fun i => match orbit_list !! i with None => Err IndexError | Some o => Ok o end) (ord reds).

(** ** Equations on given layers *)
(** Graphlet [nets[o[0]][o[1]]] lives on exactly these layers; independent_equations.py
    163-183 [orbit_in_layers] ([slices[1] == set(layers)]). *)
Definition orbit_in_layers (nets : dict nat (list mpx)) (layers : list name) (o : orbit) : res bool :=
  let? g := net_at nets (o.1.1) (o.1.2) in Ok (set_eqb (layers_of g) layers).
(** [eq[0][0]] or [eq[0]]: the first orbit of an equation. *)
Definition first_orbit (k : eqkey) : orbit := match k with KPair o _ => o | KTwice o => o end.
(** independent_equations.py 141-146: the indices of the graphlets on these layers. *)
Definition nets_sub (nets : dict nat (list mpx)) (layers : list name) : list (nat * nat) :=
  nets ≫= (fun kv => omap (fun ig : nat * mpx => if set_eqb (layers_of (ig.2)) layers then Some (kv.1, ig.1) else None) (imap pair (kv.2))).
(** independent_equations.py 122-160 [eqs_in_layers]. *)
Definition eqs_in_layers {V} (nets : dict nat (list mpx)) (layers : list name) (eqs : dict eqkey V) : dict eqkey V :=
  filter (fun kv : eqkey * V => (first_orbit (kv.1)).1 ∈ nets_sub nets layers) eqs.

(** ** Three-orbit equations *)
(** Keys of the dependency network: an equation, or a triple of orbits; [DNone] is the
    Python value [None]. *)
Inductive depkey := DEq (k : eqkey) | DThree (o1 o2 o3 : orbit) | DNone.
Global Instance depkey_eq_dec : EqDecision depkey.
Proof. solve_decision. Defined.
(** [len(eq) == 3] *)
Definition is_three (k : depkey) : bool := match k with DThree _ _ _ => true | _ => false end.
Definition dep_of (k : option eqkey) : depkey := match k with Some k => DEq k | None => DNone end.
(** The two orbits of an equation: [eq[0][0]], [eq[1][0]], or twice [eq[0]] (independent_equations.py 391-397). *)
Definition two_orbits (k : eqkey) : orbit * orbit := match k with KPair a b => (a, b) | KTwice o => (o, o) end.

(** independent_equations.py 337-357 [too_many_nodes]. *)
Definition too_many_nodes (eq : eqkey) (o : orbit) (max_nodes : nat) : bool :=
  match eq with
  | KPair o1 o2 => bool_decide (Z.of_nat max_nodes < Z.of_nat (o1.1.1) + Z.of_nat (o2.1.1) + Z.of_nat (o.1.1) - 2)%Z
  | KTwice o1 => bool_decide (Z.of_nat max_nodes < 2 * Z.of_nat (o1.1.1) + Z.of_nat (o.1.1) - 2)%Z
  end.
(** independent_equations.py 375-386 [find_key]. *)
Definition find_key {V} (o1 o2 : orbit) (eqs : dict eqkey V) : option eqkey :=
  if bool_decide (o1 = o2) && din eqs (KTwice o1) then Some (KTwice o1)
  else if din eqs (KPair o1 o2) then Some (KPair o1 o2)
  else if din eqs (KPair o2 o1) then Some (KPair o2 o1)
  else None.
(** independent_equations.py 364-370: the loop, left with the empty set when a key is missing. *)
Fixpoint find_loop (o : orbit) (set_eqs : dict eqkey (list orbit)) (acc : list eqkey) (l : list orbit) : list eqkey :=
  match l with
  | [] => acc
  | p :: l => match find_key o p set_eqs with Some k => find_loop o set_eqs (sadd k acc) l | None => [] end
  end.
(** independent_equations.py 360-372 [find_equations]; [set_eqs[None]] raises KeyError. *)
Definition find_equations (o : orbit) (eq : option eqkey) (set_eqs : dict eqkey (list orbit)) : res (list eqkey) :=
  match eq with
  | None => Err KeyError
  | Some eq => match dget set_eqs eq with None => Err KeyError | Some os => Ok (find_loop o set_eqs [] os) end
  end.
(** [itertools.permutations((a,b,c))] *)
Definition perms3 (a b c : orbit) : list depkey :=
  [DThree a b c; DThree a c b; DThree b a c; DThree b c a; DThree c a b; DThree c b a].

Notation depnet := (dict depkey (list (list depkey))) (only parsing).
Section net.
Context (nets : dict nat (list mpx)) (set_eqs : dict eqkey (list orbit)).
(** [find_equations(o, eq, set_eqs) | set(extra)] *)
Definition dep_set (o : orbit) (eq : option eqkey) (extra : list (option eqkey)) : res (list depkey) :=
  let? ks := find_equations o eq set_eqs in Ok (sunion (DEq <$> ks) (dep_of <$> extra)).
(** independent_equations.py 404-463: the dependency sets of the new triple. *)
Definition three_sets (eq : eqkey) (o1 o2 o : orbit) : res (list (list depkey)) :=
  if decide (o1 = o2 /\ o2 = o) then let? s := dep_set o (Some eq) [Some eq] in Ok [s]
  else if decide (o1 = o2) then
    if decide (o.1.1 < o1.1.1) then let? s := dep_set o (Some eq) [Some eq] in Ok [s]
    else
      let? sub := subtrahend nets o o1 in
      let key := find_key o o1 set_eqs in
      let? s1 := dep_set o (Some eq) (if decide (sub = 0) then [Some eq] else [Some eq; key]) in
      let? s2 := dep_set o1 key [key] in
      Ok [s1; s2]
  else if decide (o2 = o) then
    let? s := dep_set o (Some eq) [Some eq] in
    let? sub := subtrahend nets o1 o in
    let key := find_key o2 o set_eqs in
    let? s1 := (if decide (sub = 0) then dep_set o1 key [key] else dep_set o (Some eq) [Some eq; key]) in
    Ok [s; s1]
  else if decide (o1 = o) then
    let? s := dep_set o (Some eq) [Some eq] in
    let key := find_key o1 o set_eqs in
    let? s1 := dep_set o2 key [key] in
    Ok [s; s1]
  else
    let? s := dep_set o (Some eq) [Some eq] in
    let key := find_key o1 o set_eqs in
    let? s1 := dep_set o2 key [key] in
    let key := find_key o2 o set_eqs in
    let? s2 := dep_set o1 key [key] in
    Ok [s; s1; s2].
(** independent_equations.py 389-467 [three_orbit_equations]: the dictionary and the key. *)
Definition three_orbit_equations (eq : eqkey) (o : orbit) (eq_net : depnet) : res (depnet * depkey) :=
  let o1 := (two_orbits eq).1 in let o2 := (two_orbits eq).2 in
  match list_find (fun k => k ∈ dkeys eq_net) (perms3 o1 o2 o) with
  | Some (_, k) => Ok (eq_net, k)
  | None => let? l := three_sets eq o1 o2 o in Ok (dset eq_net (DThree o o2 o1) l, DThree o o2 o1)
  end.

(** independent_equations.py 309-323: one equation [eq] for the equation [un] and its
    orbit [o]. *)
Definition dep_step (max_nodes : nat) (un : eqkey) (o multi : orbit) (s : depnet * list (list depkey)) (kv : eqkey * list orbit) :
    res (depnet * list (list depkey)) :=
  if decide (o ∈ kv.2) then
    if too_many_nodes (kv.1) multi max_nodes then Ok s else
    let? r := three_orbit_equations (kv.1) multi (s.1) in
    let? ks := find_equations multi (Some (kv.1)) set_eqs in
    let new := sdiff ks [un] in
    if decide (length new = 0) then Ok (r.1, s.2)
    else Ok (r.1, s.2 ++ [sunion (sunion [DEq (kv.1)] (DEq <$> new)) [r.2]])
  else Ok s.
(** independent_equations.py 290-307: the orbits of an equation, each with the orbit
    that is multiplied ([orbits[i-1]]). *)
Definition orbit_multis (un : eqkey) : list (orbit * orbit) :=
  match un with KPair a b => [(a, b); (b, a)] | KTwice o => [(o, o)] end.
(** independent_equations.py 258-334 [eq_network]; [undefined] in iteration order. *)
Definition eq_network (undefined : list eqkey) (max_nodes : nat) : res depnet :=
  rfold (fun (d : depnet) un =>
    let? s := rfold (fun s om => rfold (dep_step max_nodes un (om.1) (om.2)) s set_eqs) (d, []) (orbit_multis un) in
    Ok (dset (s.1) (DEq un) (s.2))) [] undefined.

(** independent_equations.py 54-63: the loops that register further triples. *)
Fixpoint more_orbits (n : nat) (layers : list name) (eq : eqkey) (d : depnet) (os : list orbit) : res depnet :=
  match os with
  | [] => Ok d
  | o :: os =>
    if too_many_nodes eq o n then Ok d else
    let? b := orbit_in_layers nets layers o in
    if b : bool then let? r := three_orbit_equations eq o d in more_orbits n layers eq (r.1) os
    else more_orbits n layers eq d os
  end.
Definition more_triples (n : nat) (layers : list name) (orbit_lists : dict nat (list orbit)) (d : depnet) : res depnet :=
  rfold (fun d eq => rfold (fun d i => match dget orbit_lists i with None => Err KeyError | Some os => more_orbits n layers eq d os end) d [2; 3])
    d (dkeys set_eqs).
End net.

(** ** Independent and dependent equations *)
Section dep.
Context {V : Type} `{EqDecision V} (three : V -> bool) (ord : list V -> list V).
(** independent_equations.py 572-589: one strongly connected component; [ord] is the
    order in which the set is iterated. *)
Definition split_step (eq_net : dict V (list V)) (s : list V * list V) (c : list V) : res (list V * list V) :=
  match list_find (fun e => three e = true) (ord c) with
  | Some (_, e) => Ok (sunion (s.1) (sdiff c [e]), sadd e (s.2))
  | None =>
    rfold (fun (s : list V * list V) e =>
      match dget eq_net e with
      | None => Err KeyError
      | Some us =>
        let both := sunion (s.1) (s.2) in
        if decide (length us = 0) then Ok (sadd e (s.1), s.2)
        else if forallb (fun u => lin u both) us then Ok (s.1, sadd e (s.2))
        else Ok (sadd e (s.1), s.2)
      end) s (ord c)
  end.
(** independent_equations.py 567-591 [independents_and_dependents]. *)
Definition independents_and_dependents (comps : list (list V)) (eq_net : dict V (list V)) : res (list V * list V) :=
  rfold (split_step eq_net) ([], []) comps.
(** independent_equations.py 472-493: the networks obtained by choosing one of the
    dependency sets for each equation, in the order of [itertools.product] (an
    equation with one set has one choice, an equation with none has no successors). *)
Definition choices (eq_net : dict V (list (list V))) : list (dict V (list V)) :=
  zip (dkeys eq_net) <$> cart ((fun ds : list (list V) => match ds with [] => [[]] | _ => ds end) <$> eq_net.*2).
(** independent_equations.py 470-505 [all_inds_and_deps]: the first choice with the most
    dependent equations.  [eq_net_best] is unbound when there never was a dependent
    equation (UnboundLocalError, a NameError). *)
Definition all_inds_and_deps (eq_net : dict V (list (list V))) : res (list V * list V * dict V (list V)) :=
  let? best := rfold (fun (best : list V * list V * option (dict V (list V))) net =>
      let? comps := sccs net in
      let? r := independents_and_dependents comps net in
      Ok (if decide (length (best.1.2) < length (r.2)) then (r.1, r.2, Some net) else best)) ([], [], None) (choices eq_net) in
  match best.2 with None => Err NameError | Some net => Ok (best.1, net) end.
End dep.

(** ** The whole computation, from the equations on *)
(** independent_equations.py 65-71: equations without dependencies are independent
    ([undefined.remove] raises KeyError), and independent equations have no successors. *)
Definition close_net (ind und : list eqkey) (d : depnet) : res (list eqkey * depnet) :=
  let? s := rfold (fun (s : list eqkey * list eqkey) (kv : depkey * list (list depkey)) =>
      if decide (length (kv.2) = 0) then
        match kv.1 with
        | DEq k => if decide (k ∈ s.2) then Ok (sadd k (s.1), sdiff (s.2) [k]) else Err KeyError
        | _ => Err KeyError
        end
      else Ok s) (ind, und) d in
  Ok (s.1, foldl (fun d k => dset d (DEq k) []) d (s.1)).
(** independent_equations.py 46-74: one combination of layers; [ordk] and [ord] are the
    iteration orders of the sets [undefined] and of the components. *)
Definition layer_part (ord : list depkey -> list depkey) (ordk : list eqkey -> list eqkey) (n : nat) (nets : dict nat (list mpx))
    (orbit_lists : dict nat (list orbit)) (layers : list name) (eqs_sub : dict eqkey (list orbit)) : res (list depkey) :=
  let '(ind, und, set_eqs) := definitely_independent eqs_sub in
  if decide (n = 3) then Ok (DEq <$> ind) else
  let? d := eq_network nets set_eqs (ordk und) n in
  let? d := more_triples nets set_eqs n layers orbit_lists d in
  let? r := close_net ind und d in
  let? r := all_inds_and_deps is_three ord (r.2) in
  Ok (r.1.1).
(** independent_equations.py 39-76 [independent_equations], given the graphlets, the
    orbit lists and the equations (coefficients left out). *)
Definition independent_equations (ord : list depkey -> list depkey) (ordk : list eqkey -> list eqkey) (n n_l : nat) (layers : list name)
    (nets : dict nat (list mpx)) (orbit_lists : dict nat (list orbit)) (eqs : dict eqkey (list orbit)) : res (list depkey) :=
  rfold (fun inds comb =>
    let eqs_sub := if decide (length layers = n_l) then eqs else eqs_in_layers nets comb eqs in
    let? r := layer_part ord ordk n nets orbit_lists comb eqs_sub in
    Ok (sunion inds r)) [] (combs n_l layers).
