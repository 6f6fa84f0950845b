(** * Orbit counts (graphlets/graphlet_measures.py) and automorphism orbits of graphlets
    (graphlets/graphlets.py).  Definitions only. *)
From Verif Require Export Enum.
Local Open Scope nat_scope.

(** The layers in [net.slices[1]]. *)
Definition layers_of (p : mpx) : list name := default [] (mslices p !! 1).
(** graphlet_measures.py 57-60, 195-198: [neighbor[0]] for the neighbours of [x] on all layers. *)
Definition mnbrs (p : mpx) (x : name) : res (list name) :=
  let? ls := rmapM (fun l => let? bs := mp_iter p DTot [x; l] None in Ok (node_of <$> bs)) (layers_of p) in
  Ok (concat ls).
(** graphlet_measures.py 56-62, 194-200: the sets grown out of [s]; [processed] nodes are
    skipped ([touching_orbit_nodes] has none). *)
Definition mgrow (nb : name -> res (list name)) (processed : list name) (set_c : list (list name)) (s : list name) : res (list (list name)) :=
  rfold (fun c x => let? ys := nb x in
    Ok (foldl (fun c y => if decide (y ∈ s \/ y ∈ processed) then c else add_set (sadd y s) c) c ys)) set_c s.
(** graphlet_measures.py 188-205: the rounds of [touching_orbit_nodes]; [set_c] is not reset. *)
Fixpoint mtouching_loop (nb : name -> res (list name)) (k : nat) (set_p set_c node_sets : list (list name)) : res (list (list name)) :=
  match k with
  | 0 => Ok node_sets
  | S k => let? set_c := rfold (mgrow nb []) set_c set_p in
           mtouching_loop nb k set_c set_c (foldl (fun l s => add_set s l) node_sets set_c)
  end.
(** graphlet_measures.py 185-205 [touching_orbit_nodes]. *)
Definition mtouching (p : mpx) (x : name) (max_size : nat) : res (list (list name)) :=
  mtouching_loop (mnbrs p) (max_size - 1) [[x]] [] [].
(** graphlet_measures.py 51-65: the rounds of [orbit_counts_all] for one node. *)
Fixpoint mall_sets_loop (nb : name -> res (list name)) (processed : list name) (k : nat) (set_p node_sets : list (list name)) : res (list (list name)) :=
  match k with
  | 0 => Ok node_sets
  | S k => let? set_c := rfold (mgrow nb processed) [] set_p in
           mall_sets_loop nb processed k set_c (foldl (fun l s => add_set s l) node_sets set_c)
  end.

Section Counts.
Context {T : Type} `{EqDecision T} (structure : auxg -> auxg -> bool) (mapping : auxg -> auxg -> dict nat nat)
  (canon : dict nat nat -> list (nat * nat) -> T) (al : option (list nat)).
Context (nets : dict nat (list mpx)) (invs : @invariants T) (auts : dict orbit name).

(** graphlet_measures.py 69-76, 173-178: the place of the graphlet that the subnetwork on the
    nodes [s] is isomorphic to, and the dictionary [iso[0]] ([iso[0]] of [None] raises
    TypeError). *)
Definition classify (p : mpx) (s : list name) : res (nat * nat * dict name name) :=
  let? sub := msubnet p [Some s; Some (layers_of p)] false in
  let? ci := mcomplete_invariant canon sub al in
  match dget invs ci with
  | None => Err KeyError
  | Some ij =>
    match dget nets (ij.1) with
    | None => Err KeyError
    | Some l =>
      match l !! ij.2 with
      | None => Err IndexError
      | Some nw =>
        let? iso := mget_isomorphism structure mapping sub nw al false in
        match iso with
        | None => Err TypeError
        | Some ms => Ok (ij.1, ij.2, default [] (ms !! 0))
        end
      end
    end
  end.
(** graphlet_measures.py 77-81, 179-182: [orbits[x, orbit] += 1].  Simplification: [orbits] is
    a dictionary without a default value. *)
Definition bump (c : nat * nat * dict name name) (orbits : dict (name * orbit) nat) (x : name) : res (dict (name * orbit) nat) :=
  match dget auts (c.1.1, c.1.2, default x (dget (c.2) x)) with
  | None => Err KeyError
  | Some a =>
    match dget orbits (x, (c.1.1, c.1.2, a)) with
    | None => Err KeyError
    | Some k => Ok (dset orbits (x, (c.1.1, c.1.2, a)) (S k))
    end
  end.
(** graphlet_measures.py 146-182 [orbit_counts]. *)
Definition orbit_counts (n : nat) (x : name) (p : mpx) (orbits : dict (name * orbit) nat) (orbit_list : list orbit) : res (dict (name * orbit) nat) :=
  let orbits := foldl (fun d o => dset d (x, o) 0) orbits orbit_list in
  let? sets := mtouching p x n in
  rfold (fun orbits s => let? c := classify p s in bump c orbits x) orbits sets.

(** graphlet_measures.py 83-86: the links of [x] are removed, layer by layer. *)
Definition drop_links (p : mpx) (x : name) : res mpx :=
  rfold (fun p l => let? bs := mp_iter p DTot [x; l] (Some [None; Some l]) in
    mbuild p ((fun b => MSet [x; node_of b; l] 0) <$> bs)) p (layers_of p).
(** graphlet_measures.py 50-86: the body of the loop over the nodes; the state is the network,
    [processed] and [orbits]. *)
Definition count_node (n : nat) (st : mpx * list name * dict (name * orbit) nat) (x : name) : res (mpx * list name * dict (name * orbit) nat) :=
  let p := st.1.1 in
  let? sets := mall_sets_loop (mnbrs p) (st.1.2) (n - 1) [[x]] [] in
  let? orbits := rfold (fun orbits s => let? c := classify p s in rfold (bump c) orbits s) (st.2) sets in
  let? q := drop_links p x in
  Ok (q, sadd x (st.1.2), orbits).
(** graphlet_measures.py 8-88 [orbit_counts_all]; the network after the call is returned too. *)
Definition orbit_counts_all (p : mpx) (n : nat) (orbit_list : list orbit) : res (dict (name * orbit) nat * mpx) :=
  let nodes := mnodes p in
  let orbits := foldl (fun d x => foldl (fun d o => dset d (x, o) 0) d orbit_list) [] nodes in
  let? st := rfold (count_node n) (p, [], orbits) nodes in
  Ok (st.2, st.1.1).
End Counts.

(** graphlets.py 89-124 [automorphism_orbits]: the nodes of each network and the node maps
    [a[0]] of its automorphism generators, then [all_orbits]. *)
Definition automorphism_orbits (perms : auxg -> list (dict nat nat)) (al : option (list nat)) (nets : dict nat (list mpx)) : res (dict orbit name) :=
  let? nets' := rmapM (fun kl => let? l := rmapM (fun p =>
      let? gens := mautomorphism_generators perms p al false in
      Ok (mnodes p, (fun ms => default [] (ms !! 0)) <$> gens)) (kl.2) in Ok (kl.1, l)) nets in
  all_orbits nets'.
(** graphlet_measures.py 90-141: the orbits in the order of their numbers, as obtained by
    [ordered_orbit_list(orbit_numbers(n, nets, auts))]. *)
Definition orbit_list (n : nat) (nets : dict nat (list mpx)) (auts : dict orbit name) : res (list orbit) :=
  let? d := orbit_numbers n (map (fun kl => (kl.1, map mnodes (kl.2))) nets) auts in
  let? l := ordered_orbits d in
  Ok (omap id l).
