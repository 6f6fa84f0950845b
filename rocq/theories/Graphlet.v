(** * Graphlet analysis (/repo/pymnet/graphlets).  Definitions only.

    Python sets are duplicate-free lists.  Where Python iterates over a set the
    order is an input (the order of the list, or an explicit function). *)
From Verif Require Export Supra Samp.
Local Open Scope nat_scope.

(** ** graphlets.py *)

(** [set.union] and [set - set]. *)
Definition sunion {V} `{EqDecision V} (s t : list V) : list V := foldl (fun s x => sadd x s) s t.
Definition sdiff {V} `{EqDecision V} (s t : list V) : list V := filter (fun x => x ∉ t) s.

(** graphlets.py 116-119: [for j in nodes: if key in auts[j]: auts[j] =
    auts[j].union(auts[a[key]])], for one item [key -> a[key]] of a generator.
    [auts] is restricted to the keys of the network at hand. *)
Definition orbit_step {V} `{EqDecision V} (nodes : list V) (auts : dict V (list V)) (e : V * V) : res (dict V (list V)) :=
  rfold (fun auts j =>
    match dget auts j with
    | None => Err KeyError
    | Some s =>
      if decide (e.1 ∈ s) then
        match dget auts (e.2) with
        | None => Err KeyError
        | Some t => Ok (dset auts j (sunion s t))
        end
      else Ok auts
    end) auts nodes.
(** graphlets.py 113-119 (and 145-154): the sets before taking minima; [edges]
    lists the items of all generators in the order in which they are visited. *)
Definition orbit_sets {V} `{EqDecision V} (nodes : list V) (edges : list (V * V)) : res (dict V (list V)) :=
  rfold (orbit_step nodes) (foldl (fun d x => dset d x [x]) [] nodes) edges.
(** [min] of a set of names: comparing an int with a str raises TypeError, and the
    minimum of a set with both always compares such a pair. *)
Definition py_min (l : list name) : res name :=
  match l with
  | [] => Err ValueError
  | x :: l => if existsb is_int (x :: l) && existsb (fun x => negb (is_int x)) (x :: l) then Err TypeError
              else Ok (foldl (fun m y => if name_leb m y then m else y) x l)
  end.
(** [auts[x] = f(auts[x])] for every node. *)
Definition each {V W} `{EqDecision V} (f : list V -> res W) (nodes : list V) (auts : dict V (list V)) : res (dict V W) :=
  rfold (fun d x => match dget auts x with
                    | None => Err KeyError
                    | Some s => let? m := f s in Ok (dset d x m) end) [] nodes.
(** graphlets.py 89-124 [automorphism_orbits], for one network with the nodes
    [nodes]; [gens] are the node maps [a[0]] of the generators (dictionaries; fixed
    nodes may be left out). *)
Definition node_orbits (nodes : list name) (gens : list (dict name name)) : res (dict name name) :=
  let? d := orbit_sets nodes (concat gens) in
  each py_min nodes d.
(** [min] of a set of (node,layer) pairs, scanned in the listed order: tuples are
    compared component by component; TypeError when an int meets a str. *)
Definition pair_cmp (a b : name * name) : bool :=
  if decide (a.1 = b.1) then bool_decide (is_int (a.2) = is_int (b.2)) else bool_decide (is_int (a.1) = is_int (b.1)).
Definition pair_leb (a b : name * name) : bool :=
  if decide (a.1 = b.1) then name_leb (a.2) (b.2) else name_leb (a.1) (b.1).
Definition py_min2 (l : list (name * name)) : res (name * name) :=
  match l with
  | [] => Err ValueError
  | x :: l => rfold (fun m y => if pair_cmp m y then Ok (if pair_leb m y then m else y) else Err TypeError) x l
  end.
(** graphlets.py 126-159 [automorphism_orbits_nl], for one network of one aspect
    with the node-layers [nls]; [gens] are the node and layer maps of the
    generators (all nodes and layers are keys: [include_fixed=True]). *)
Definition nl_edges (g : dict name name * dict name name) : list ((name * name) * (name * name)) :=
  g.1 ≫= fun kn => (fun kl => ((kn.1, kl.1), (kn.2, kl.2))) <$> g.2.
Definition nl_orbits (nls : list (name * name)) (gens : list (dict name name * dict name name)) : res (dict (name * name) (name * name)) :=
  let? d := orbit_sets nls (gens ≫= nl_edges) in
  each py_min2 nls d.

(** An orbit: (n_nodes, net_index, node). *)
Notation orbit := (nat * nat * name)%type.
(** The loop over [nets] in [automorphism_orbits]: a network is given by its nodes
    and generators; the keys are (n_nodes, net_index, node). *)
Definition all_orbits (nets : dict nat (list (list name * list (dict name name)))) : res (dict orbit name) :=
  rfold (fun d kv =>
    rfold (fun d inet =>
      let? o := node_orbits (inet.2.1) (inet.2.2) in
      Ok (foldl (fun d xm => dset d (kv.1, inet.1, xm.1) (xm.2)) d o)) d (imap pair (kv.2))) [] nets.

(** graphlets.py 316-340 [list_orbits]. *)
Definition list_orbits (auts : dict orbit name) : dict nat (list orbit) :=
  foldl (fun d kv => let k := kv.1.1.1 in let o : orbit := (k, kv.1.1.2, kv.2) in
    let l := default [] (dget d k) in
    dset d k (if decide (o ∈ l) then l else l ++ [o])) [] auts.
(** graphlet_measures.py 90-119 [orbit_numbers]; [sizes]: the nodes of each
    graphlet [nets[k][j]]. *)
Definition orbit_numbers (n : nat) (nets : dict nat (list (list name))) (auts : dict orbit name) : res (dict orbit nat) :=
  rfold (fun d k =>
    match dget nets k with
    | None => Err KeyError
    | Some l => rfold (fun d jn => rfold (fun d x =>
        match dget auts (k, jn.1, x) with
        | None => Err KeyError
        | Some a => Ok (if decide (is_Some (dget d (k, jn.1, a))) then d else dset d (k, jn.1, a) (length d))
        end) d (jn.2)) d (imap pair l)
    end) [] (seq 2 (n - 1)).
(** graphlet_measures.py 122-141 [ordered_orbit_list]. *)
Definition ordered_orbits (d : dict orbit nat) : res (list (option orbit)) :=
  rfold (fun l kv => if decide (kv.2 < length l) then Ok (<[kv.2 := Some (kv.1)]> l) else Err IndexError) (replicate (length d) None) d.

(** graphlets.py 547-555 [layer_combinations]. *)
Definition layer_combinations {V} (layers : list V) : list (list V) := seq 1 (length layers) ≫= fun k => combs k layers.

(** graphlets.py 661-678 [partitions].  [ord path b l] is the order in which
    Python lists the set [l] ([b]: the set [rest]); it may depend on the blocks
    chosen so far.  All that is yielded is collected. *)
Fixpoint partitions {V} `{EqDecision V} (ord : list (list V) -> bool -> list V -> list V) (fuel : nat) (path : list (list V))
    (s : list V) (r : Z) : res (list (list (list V))) :=
  match fuel with
  | 0 => Err OutOfFuel
  | S fuel =>
    if decide (r = 0)%Z then Err ZeroDivisionError else
    if decide (Z.of_nat (length s) mod r = 0)%Z then
      match ord path false s with
      | [] => Ok [[]]
      | x :: rest =>
        let rest := ord path true rest in
        let? cs := combs_z (r - 1) rest in
        rfold (fun acc c =>
          let? ps := partitions ord fuel (path ++ [x :: c]) (sdiff rest c) r in
          Ok (acc ++ (((x :: c) ::.) <$> ps))) [] cs
      end
    else Err AssertionError
  end.
(** graphlets.py 680-698 [partitions_with_remainder]: [xrange] does not exist in
    Python 3, so asking for the first element raises NameError. *)
Definition partitions_with_remainder {V} (s : list V) (r : Z) : res (list (list (list V))) := Err NameError.

(** ** graphlet_measures.py 185-205 [touching_orbit_nodes] *)
(** Sets of nodes are duplicate-free lists and a set of sets is a list of them in
    which no two have the same elements. *)
Definition same_set (s t : list name) : Prop := (forall x, x ∈ s -> x ∈ t) /\ (forall x, x ∈ t -> x ∈ s).
Definition same_setb (s t : list name) : bool := forallb (fun x => bool_decide (x ∈ t)) s && forallb (fun x => bool_decide (x ∈ s)) t.
Definition add_set (s : list name) (l : list (list name)) : list (list name) := if existsb (same_setb s) l then l else l ++ [s].
(** One pass of the body: [nb x] lists [neighbor[0]] for the neighbours of [x] on
    all layers. *)
Definition grow_sets (nb : name -> list name) (set_c : list (list name)) (p : list name) : list (list name) :=
  foldl (fun c x => foldl (fun c y => if decide (y ∈ p) then c else add_set (sadd y p) c) c (nb x)) set_c p.
Fixpoint touching_loop (nb : name -> list name) (k : nat) (set_p set_c node_sets : list (list name)) : list (list name) :=
  match k with
  | 0 => node_sets
  | S k => let set_c := foldl (grow_sets nb) set_c set_p in
           touching_loop nb k set_c set_c (foldl (fun l s => add_set s l) node_sets set_c)
  end.
(** [net[node,layer].iter_total()] over all layers of a one-aspect network. *)
Definition all_nbrs (n : mlnet) (x : name) : list name :=
  layers1 n ≫= fun l => node_of <$> iter_total n [x; l] None.
Definition touching (n : mlnet) (x : name) (max_size : nat) : list (list name) :=
  touching_loop (all_nbrs n) (max_size - 1) [[x]] [] [].

(** graphlet_measures.py 48-67: the node sets [orbit_counts_all] looks at, in the
    order of [nodes] ([processed] nodes are skipped; here [set_c] is reset in every
    round).  Simplification: the links that the code removes from [net] on the way
    lead to processed nodes only. *)
Definition grow_sets' (nb : name -> list name) (processed : list name) (set_c : list (list name)) (p : list name) : list (list name) :=
  foldl (fun c x => foldl (fun c y => if decide (y ∈ p \/ y ∈ processed) then c else add_set (sadd y p) c) c (nb x)) set_c p.
Fixpoint all_sets_loop (nb : name -> list name) (processed : list name) (k : nat) (set_p node_sets : list (list name)) : list (list name) :=
  match k with
  | 0 => node_sets
  | S k => let set_c := foldl (grow_sets' nb processed) [] set_p in
           all_sets_loop nb processed k set_c (foldl (fun l s => add_set s l) node_sets set_c)
  end.
Fixpoint all_sets (nb : name -> list name) (n : nat) (processed nodes : list name) : list (name * list (list name)) :=
  match nodes with
  | [] => []
  | x :: nodes => (x, all_sets_loop nb processed (n - 1) [[x]] []) :: all_sets nb n (sadd x processed) nodes
  end.

(** ** independent_equations.py *)
Section scc.
Context {V : Type} `{EqDecision V}.
Notation graph := (dict V (list V)).

(** independent_equations.py 542-554 [explore]. *)
Fixpoint explore (fuel : nat) (net : graph) (v : V) (s : list V * list V) : res (list V * list V) :=
  match fuel with
  | 0 => Err OutOfFuel
  | S fuel =>
    match dget net v with
    | None => Err KeyError
    | Some us =>
      let? s := rfold (fun s u => if decide (u ∈ s.1) then Ok s else explore fuel net u s) (sadd v (s.1), s.2) us in
      Ok (s.1, s.2 ++ [v])
    end
  end.
(** 556-565 [DFS]. *)
Definition dfs (net : graph) : res (list V) :=
  let? s := rfold (fun s v => if decide (v ∈ s.1) then Ok s else explore (S (length net)) net v s) ([], []) (dkeys net) in
  Ok (s.2).
(** 528-540 [reverse]. *)
Definition reverse_net (net : graph) : res graph :=
  rfold (fun r kv => rfold (fun r u =>
      match dget r u with None => Err KeyError | Some l => Ok (dset r u (sadd (kv.1) l)) end) r (kv.2))
    (foldl (fun r v => dset r v []) [] (dkeys net)) net.
(** 508-526 [SCCs]; the dictionary's keys are 1, 2, ... in order. *)
Definition sccs (net : graph) : res (list (list V)) :=
  let? r := reverse_net net in
  let? post := dfs r in
  let? s := rfold (fun (s : list (list V) * (list V * list V)) v =>
    if decide (v ∈ s.2.1) then Ok s else
    let? t := explore (S (length net)) net v (s.2) in
    Ok (s.1 ++ [sdiff (t.1) (s.2.1)], t)) ([], ([], [])) (rev post) in
  Ok (s.1).
End scc.

(** Equation keys: [((orbit2,1),(orbit1,1))] and [(orbit,2)]. *)
Inductive eqkey := KPair (o1 o2 : orbit) | KTwice (o : orbit).
Global Instance eqkey_eq_dec : EqDecision eqkey.
Proof. solve_decision. Defined.
Definition key_orbits (k : eqkey) : list orbit := match k with KPair a b => [a; b] | KTwice o => [o] end.
(** 186-255 [definitely_independent]; an equation is a key with the orbits on its
    right-hand side (the coefficients are not used). *)
Definition eq_set (e : eqkey * list orbit) : list orbit := sunion (e.2) (key_orbits (e.1)).
Definition definitely_independent (eqs : dict eqkey (list orbit)) : list eqkey * list eqkey * dict eqkey (list orbit) :=
  let ind0 := omap (fun e : eqkey * list orbit => if forallb (fun o : orbit => bool_decide (o.1.1 = 2)) (key_orbits (e.1)) then Some (e.1) else None) eqs in
  let r := foldl (fun (s : list eqkey * list eqkey) (ie : nat * (eqkey * list orbit)) =>
    if decide (ie.2.1 ∈ s.1) then s else
    let rest := foldl (fun s je => if decide (ie.1 = je.1) then s else sdiff s (eq_set (je.2))) (eq_set (ie.2)) (imap pair eqs) in
    match rest with [] => (s.1, s.2 ++ [ie.2.1]) | _ => (s.1 ++ [ie.2.1], s.2) end) (ind0, []) (imap pair eqs) in
  (r.1, r.2, eqs).
