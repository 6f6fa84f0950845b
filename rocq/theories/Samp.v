(** * Induced-subgraph sampling: pymnet/sampling/reqs.py, dumb.py and esu.py. *)
From stdpp Require Import prelude strings.
From Coq Require Import QArith.
From Verif Require Import Base Net Build Trans.
Local Open Scope nat_scope.

(** [itertools.combinations(l,k)] in its documented order (lexicographic in the
    positions). *)
Fixpoint combs {A} (k : nat) (l : list A) : list (list A) :=
  match k, l with
  | 0, _ => [[]]
  | S _, [] => []
  | S k', x :: l' => ((x ::.) <$> combs k' l') ++ combs k l'
  end.

(** ** reqs.py: requirements *)
(** The sets of roles an entry of [intersections] belongs to, in order
    (reqs.py 231-236 and 327-334: all pairs, then all triples, ...). *)
Definition role_sets {A} (l : list A) : list (list A) :=
  seq 2 (length l - 1) ≫= fun ii => combs ii l.

(** [all(j>=0 ... for j in intersections)]: comparing None with 0 raises. *)
Fixpoint all_nonneg (l : list (option Z)) : res bool :=
  match l with
  | [] => Ok true
  | None :: _ => Err TypeError
  | Some j :: l => if decide (0 <= j)%Z then all_nonneg l else Ok false
  end.
(** reqs.py 329-334: one step of the inclusion-exclusion loop. *)
Definition calc_step (inters : list (option Z)) (ii : nat) (s : Z * nat) : res (Z * nat) :=
  match inters !! s.2 with
  | Some (Some z) => Ok (if decide (ii mod 2 = 0) then (s.1 - z)%Z else (s.1 + z)%Z, S (s.2))
  | Some None => Err TypeError
  | None => Err IndexError
  end.
(** reqs.py 271-335 [default_calculate_required_lengths].  Entries are Python
    ints or None (the [isinstance] tests are always true for them). *)
Definition calc_lengths (sizes : list Z) (inters : list (option Z)) : res (Z * Z) :=
  match sizes with
  | [] => Err AssertionError
  | s0 :: _ =>
    if decide (length inters = 2 ^ length sizes - length sizes - 1) then
      if forallb (fun i => bool_decide (1 <= i)%Z) sizes then
        let? b := all_nonneg inters in
        if b : bool then
          match inters with
          | [] => Ok (s0, 1%Z)
          | _ =>
            let? s := rfold (fun s ii => rfold (fun s _ => calc_step inters ii s) s (combs ii sizes))
                        (zsum sizes, 0) (seq 2 (length sizes - 1)) in
            Ok (s.1, Z.of_nat (length sizes))
          end
        else Err AssertionError
      else Err AssertionError
    else Err AssertionError
  end.

(** networkx [is_connected] on a pymnet network with no aspects, as reached
    through nxwrap.py 166-169: a directed network fails an assertion, the empty
    graph raises NetworkXPointlessConcept ([None] here), otherwise a
    breadth-first search from some node must see every node.  networkx itself is
    third-party code; this is its documented behaviour. *)
Fixpoint bfs (n : mlnet) (fuel : nat) (seen : list name) : list name :=
  match fuel with
  | 0 => seen
  | S fuel => bfs n fuel (remove_dups (seen ++ (seen ≫= fun x => node_of <$> iter_total n [x] None)))
  end.
Definition nx_connected (n : mlnet) : res (option bool) :=
  if directed n then Err AssertionError
  else match net_nodes n with
       | [] => Ok None
       | x :: _ => Ok (Some (bool_decide (length (bfs n (length (net_nodes n)) [x]) = length (net_nodes n))))
       end.

(** reqs.py 207-223 and 392-408: every listed layer and every listed node occurs
    in some node-layer of the induced subgraph. *)
Definition no_empty (nls : list nl) (nodes layers : list name) : bool :=
  forallb (fun l => existsb (fun x => bool_decide ([x; l] ∈ nls)) nodes) layers &&
  forallb (fun x => existsb (fun l => bool_decide ([x; l] ∈ nls)) layers) nodes.

(** reqs.py 339-410 [relaxed_check_reqs].  [str] is Python's [str] on node-layer
    tuples, used by [get_underlying_graph]. *)
Definition relaxed_check (str : nl -> name) (n : mlnet) (nodes layers : list name) : res bool :=
  let? ind := subnet n [Some nodes; Some layers] false in
  let? g := underlying str (src_of ind) in
  let? c := nx_connected g in
  match c with
  | Some true => Ok (no_empty (iter_node_layers ind) nodes layers)
  | _ => Ok false
  end.

(** [intersection_type] *)
Inductive itype := Strict | LessOrEqual | OtherType.
Global Instance itype_eq_dec : EqDecision itype.
Proof. solve_decision. Defined.

(** reqs.py 167-194: the required lengths. *)
Definition req_lengths (sizes : list Z) (inters : list (option Z)) (nnodes nlayers : option Z) (ty : itype) : res (Z * Z) :=
  match ty with
  | Strict =>
    match nnodes, nlayers with
    | Some a, Some b => Ok (a, b)
    | _, _ => if bool_decide (None ∈ inters) then Err TypeError else calc_lengths sizes inters
    end
  | LessOrEqual =>
    match nnodes with
    | None => Err AssertionError
    | Some a =>
      match nlayers with
      | Some b => Ok (a, b)
      | None => if bool_decide (None ∈ inters) then Err TypeError
                else let? r := calc_lengths sizes inters in Ok (a, r.2)
      end
    end
  | OtherType => Err TypeError
  end.

(** reqs.py 225-228: the dictionary from layers to the list of their nodes. *)
Definition layer_nodes (nls : list nl) : dict name (list name) :=
  foldl (fun d a => match a with
                    | [x; l] => dset d l (default [] (dget d l) ++ [x])
                    | _ => d end) [] nls.
(** reqs.py 231-236: [d_isect[combination]=intersections[indexer]]. *)
Definition d_isect (k : nat) (inters : list (option Z)) : res (dict (list nat) (option Z)) :=
  let? r := rfold (fun (s : dict (list nat) (option Z) * nat) c =>
      match inters !! s.2 with
      | Some z => Ok (dset s.1 c z, S (s.2))
      | None => Err IndexError
      end) ([], 0) (role_sets (seq 0 k)) in
  Ok (r.1).
(** [permutation.index(layer)] *)
Definition index_of (l : name) (perm : list name) : nat := default 0 (fst <$> list_find (fun x => x = l) perm).
(** [nodeset & set(d[layer])] over the layers of a combination. *)
Definition common (d : dict name (list name)) (c : list name) : list name :=
  foldl (fun s l => filter (fun x => x ∈ default [] (dget d l)) s)
    (remove_dups (default [] (dget d (default (NInt 0) (head c))))) c.
(** reqs.py 243-262: one combination of layers in the role assignment
    [perm]; [Ok false] is [goto_next_perm=True]. *)
Definition combo_ok (d : dict name (list name)) (di : dict (list nat) (option Z)) (sizes : list Z) (ty : itype)
    (perm c : list name) : res bool :=
  match c with
  | [] => Err AssertionError
  | [l] => match sizes !! index_of l perm with
           | Some s => Ok (bool_decide (Z.of_nat (length (default [] (dget d l))) = s))
           | None => Err IndexError
           end
  | _ =>
    let roles := merge_sort le ((fun l => index_of l perm) <$> c) in
    match dget di roles with
    | Some None => Ok true
    | Some (Some z) =>
      let k := Z.of_nat (length (common d c)) in
      Ok (match ty with Strict => bool_decide (k = z) | LessOrEqual => bool_decide (k <= z)%Z | OtherType => true end)
    | None => Err KeyError
    end
  end.
(** [for x in l: if not f(x): break] followed by the test whether it broke. *)
Fixpoint rforall {A} (f : A -> res bool) (l : list A) : res bool :=
  match l with
  | [] => Ok true
  | x :: l => match f x with Ok true => rforall f l | r => r end
  end.
(** [for x in l: if f(x): return True]. *)
Fixpoint rexists {A} (f : A -> res bool) (l : list A) : res bool :=
  match l with
  | [] => Ok false
  | x :: l => match f x with Ok false => rexists f l | r => r end
  end.
(** reqs.py 239-264: one role assignment. *)
Definition perm_ok (d : dict name (list name)) (di : dict (list nat) (option Z)) (sizes : list Z) (ty : itype)
    (perm : list name) : res bool :=
  rforall (combo_ok d di sizes ty perm) (seq 1 (length perm) ≫= fun ii => combs ii perm).

(** reqs.py 7-267 [default_check_reqs].  The role assignments are tried in the
    order of [permutations] instead of itertools' (which can only matter for
    which exception is raised when [sizes] is too short). *)
Definition default_check (str : nl -> name) (n : mlnet) (nodes layers : list name)
    (sizes : list Z) (inters : list (option Z)) (nnodes nlayers : option Z) (ty : itype) : res bool :=
  let? r := req_lengths sizes inters nnodes nlayers ty in
  if decide (Z.of_nat (length nodes) = r.1) then
  if decide (Z.of_nat (length layers) = r.2) then
  if forallb (fun i => bool_decide (1 <= i)%Z) sizes then
    let? ind := subnet n [Some nodes; Some layers] false in
    let? g := underlying str (src_of ind) in
    let? c := nx_connected g in
    match c with
    | Some true =>
      if no_empty (iter_node_layers ind) nodes layers then
        let d := layer_nodes (iter_node_layers ind) in
        if decide (Z.of_nat (length d) = r.2) then
          let? di := d_isect (length layers) inters in
          rexists (perm_ok d di sizes ty) (permutations layers)
        else Ok false
      else Ok false
    | _ => Ok false
    end
  else Err AssertionError else Err AssertionError else Err AssertionError.

(** ** The parameter handling shared by esu.py 234-271 and dumb.py 26-63 *)
Inductive iarg := IList (l : list (option Z)) | IInt (z : Z).
(** A check function: network, nodelist, layerlist. *)
Definition checker := mlnet -> list name -> list name -> res bool.
(** [intersections_as_list = [None]*(2**len(sizes)-len(sizes)-1)] with the last
    entry replaced (IndexError if there is none). *)
Definition int_to_list (k : nat) (z : Z) : res (list (option Z)) :=
  match 2 ^ k - k - 1 with
  | 0 => Err IndexError
  | S m => Ok (replicate m None ++ [Some z])
  end.
(** Result: required numbers of nodes and layers and the check function.  The
    NameError is Python's UnboundLocalError for [req_nodelist_len] when
    [intersection_type] is misspelt; it is raised here at once instead of at
    the first use of that variable. *)
Definition samp_params (str : nl -> name) (sizes : option (list Z)) (inters : option iarg) (nnodes nlayers : option Z)
    (ty : itype) (custom : option checker) : res (Z * Z * checker) :=
  let ok1 := match sizes, inters with Some _, Some _ => true | _, _ => false end in
  let ok2 := match nnodes, nlayers with Some _, Some _ => true | _, _ => false end in
  if negb (ok1 || ok2) then Err AssertionError else
  match custom with
  | Some f => match nnodes, nlayers with Some a, Some b => Ok (a, b, f) | _, _ => Err AssertionError end
  | None =>
    match sizes, inters with
    | Some sz, Some (IList il) =>
      let k := Z.of_nat (length sz) in
      let chk a b : checker := fun n x y => default_check str n x y sz il (Some a) (Some b) ty in
      if bool_decide (None ∈ il) then
        match nnodes with Some a => Ok (a, k, chk a k) | None => Err AssertionError end
      else match ty with
        | Strict => match nnodes, nlayers with
                    | None, None => let? r := calc_lengths sz il in Ok (r.1, r.2, chk (r.1) (r.2))
                    | _, _ => Err AssertionError end
        | LessOrEqual => match nnodes, nlayers with
                    | Some a, None => Ok (a, k, chk a k)
                    | _, _ => Err AssertionError end
        | OtherType => Err NameError
        end
    | Some sz, Some (IInt z) =>
      if decide (0 <= z)%Z then
        match nnodes, nlayers with
        | Some a, None =>
          let k := Z.of_nat (length sz) in
          let? il := int_to_list (length sz) z in
          Ok (a, k, fun n x y => default_check str n x y sz il (Some a) (Some k) ty)
        | _, _ => Err AssertionError
        end
      else Err AssertionError
    | _, _ =>
      match nnodes, nlayers with
      | Some a, Some b =>
        match sizes, inters with
        | None, None => if decide (0 < a /\ 0 < b)%Z then Ok (a, b, relaxed_check str) else Err AssertionError
        | _, _ => Err AssertionError
        end
      | _, _ => Err AssertionError
      end
    end
  end.

(** ** dumb.py *)
(** [itertools.combinations(l,k)] with a Python int [k]. *)
Definition combs_z {A} (k : Z) (l : list A) : res (list (list A)) :=
  if decide (0 <= k)%Z then Ok (combs (Z.to_nat k) l) else Err ValueError.
(** The elementary layers listed by [iter_layers] of a one-aspect network. *)
Definition layers1 (n : mlnet) : list name := default [] (slices n !! 1).
(** dumb.py 65-72: the enumeration, [results] being a list. *)
Definition dumb_run (n : mlnet) (rn rl : Z) (chk : checker) : res (list (list name * list name)) :=
  let? nls := combs_z rn (net_nodes n) in
  rfold (fun rs A =>
    let? lls := combs_z rl (layers1 n) in
    rfold (fun rs B => let? b := chk n A B in Ok (if b : bool then rs ++ [(A, B)] else rs)) rs lls) [] nls.
(** dumb.py 6-72 [dumb_enumeration]. *)
Definition dumb (str : nl -> name) (n : mlnet) (sizes : option (list Z)) (inters : option iarg) (nnodes nlayers : option Z)
    (ty : itype) (custom : option checker) : res (list (list name * list name)) :=
  let? r := samp_params str sizes inters nnodes nlayers ty custom in
  dumb_run n (r.1.1) (r.1.2) (r.2).

(** ** esu.py *)
(** transforms.py 120-233 [subnet] as called by esu.py 225: everything is
    selected and [newNet] is an undirected network with one aspect, no-edge
    value 0 and without full interconnection. *)
Definition copy_args (n : mlnet) : list (option (list name)) :=
  [Some (default [] (slices n !! 0)); Some (default [] (slices n !! 1))].
Definition copy_link_ops (n : mlnet) (sel : list (list name)) (a : nl) : list op :=
  if decide (Z.of_nat (length (sub_nls n sel)) <= degree n a None)%Z then
    (fun b => OpNodeSet a b (weight n a b)) <$> filter (fun b => weight n a b <> noEdge n) (cart sel)
  else
    (fun b => OpNodeSet a b (weight n a b)) <$> filter (fun b => selected sel b = true) (iter_total n a None).
Definition esu_copy (n : mlnet) : res mlnet :=
  let sel := selection n (copy_args n) in
  let? m0 := build (new_net 1 0 false false) (sub_layer_ops n sel) in
  let? m1 := build m0 ((fun a => OpAddNode (node_of a) (Some (lay_arg (tail a)))) <$> sub_nls n sel) in
  rfold (fun m a => build m (copy_link_ops n sel a)) m1 (cart sel).

(** esu.py 277-282: [numberings] is the position in the list of node-layers.
    [later v a]: [numberings[a] > numberings[v]]; [earlier v a]: [a in
    numberings and numberings[a] < numberings[v]].  Neighbours and [v] are always
    numbered, so [later] raises no KeyError. *)
Definition num (nls : list nl) (a : nl) : option nat := fst <$> list_find (fun b => b = a) nls.
Definition later (nls : list nl) (v a : nl) : bool :=
  match num nls a, num nls v with Some i, Some j => bool_decide (j < i) | _, _ => false end.
Definition earlier (nls : list nl) (v a : nl) : bool :=
  match num nls a, num nls v with Some i, Some j => bool_decide (i < j) | _, _ => false end.
(** [nl[0]] and [nl[1]] of a node-layer of a one-aspect network. *)
Definition lay1 (a : nl) : name := default (NInt 0) (a !! 1).

(** esu.py 287-308: extension sets of a starting node-layer. *)
Definition root_step (nls : list nl) (v : nl) (s : list name * list name) (b : nl) : list name * list name :=
  if later nls v b then
    let x := node_of b in let l := lay1 b in
    let noc := negb (earlier nls v [x; lay1 v]) in
    let loc := negb (earlier nls v [node_of v; l]) in
    (if negb (bool_decide (x = node_of v)) && noc then sadd x (s.1) else s.1,
     if negb (bool_decide (l = lay1 v)) && loc then sadd l (s.2) else s.2)
  else s.
Definition root_ext (n : mlnet) (nls : list nl) (v : nl) : list name * list name :=
  foldl (root_step nls v) ([], []) (iter_total n v None).

(** esu.py 333-342: the original neighbourhood. *)
Definition nbh_step (nls : list nl) (v : nl) (A B : list name) (s : list name * list name) (b : nl) : list name * list name :=
  if later nls v b then
    (if bool_decide (node_of b ∈ A) then s.1 else sadd (node_of b) (s.1),
     if bool_decide (lay1 b ∈ B) then s.2 else sadd (lay1 b) (s.2))
  else s.
Definition numbered (nls : list nl) (l : list nl) : list nl := filter (fun a => a ∈ nls) l.
Definition nbh (n : mlnet) (nls : list nl) (v : nl) (A B : list name) : list name * list name :=
  foldl (nbh_step nls v A B) ([], []) (numbered nls (cart [A; B]) ≫= fun a => iter_total n a None).

(** esu.py 362-384: one neighbour of the added part; [A], [B] are the new lists,
    [o] the original neighbourhood. *)
Definition ext_step (nls : list nl) (v : nl) (A B : list name) (o s : list name * list name) (b : nl) : list name * list name :=
  if later nls v b then
    let x := node_of b in let l := lay1 b in
    (if bool_decide (x ∈ o.1) || bool_decide (x ∈ A) || existsb (earlier nls v) (cart [[x]; B]) then s.1 else sadd x (s.1),
     if bool_decide (l ∈ o.2) || bool_decide (l ∈ B) || existsb (earlier nls v) (cart [A; [l]]) then s.2 else sadd l (s.2))
  else s.
Definition next_ext (n : mlnet) (nls : list nl) (v : nl) (A B : list name) (o s : list name * list name) (added : list nl) : list name * list name :=
  foldl (ext_step nls v A B o) s (numbered nls added ≫= fun a => iter_total n a None).

(** Python's [random.random() < p[depth]]. *)
Definition qlt (a b : Q) : bool := if Qlt_le_dec a b then true else false.

(** The choices of one run: for every [pop] of a set the position of the element
    returned, and the random number drawn right after it (for a starting
    node-layer only the number is used).  A list that is used up or names a
    position outside the set gives [Err OutOfFuel]. *)
Notation oracle := (list (nat * Q)).
Notation found := (list (list name * list name)).

Section extend.
Context (n : mlnet) (nls : list nl) (chk : checker) (v : nl) (rn rl : Z) (p : list Q).

(** esu.py 344-386: the loop; [rec] is the recursive call. *)
Fixpoint esu_loop (rec : list name -> list name -> list name -> list name -> found -> oracle -> res (found * oracle))
    (A B : list name) (o : list name * list name) (depth : nat) (k : nat)
    (En El : list name) (rs : found) (orc : oracle) : res (found * oracle) :=
  match k with
  | 0 => Ok (rs, orc)
  | S k =>
    match orc with
    | [] => Err OutOfFuel
    | (i, q) :: orc =>
      match En with
      | _ :: _ =>
        match En !! i with
        | None => Err OutOfFuel
        | Some x =>
          let En' := delete i En in
          match p !! depth with
          | None => Err IndexError
          | Some pr =>
            if qlt q pr then
              let s := next_ext n nls v (A ++ [x]) B o (En', El) (cart [[x]; B]) in
              let? r := rec (A ++ [x]) B (s.1) (s.2) rs orc in
              esu_loop rec A B o depth k En' El (r.1) (r.2)
            else esu_loop rec A B o depth k En' El rs orc
          end
        end
      | [] =>
        match El !! i with
        | None => Err OutOfFuel
        | Some l =>
          let El' := delete i El in
          match p !! depth with
          | None => Err IndexError
          | Some pr =>
            if qlt q pr then
              let s := next_ext n nls v A (B ++ [l]) o ([], El') (cart [A; [l]]) in
              let? r := rec A (B ++ [l]) (s.1) (s.2) rs orc in
              esu_loop rec A B o depth k [] El' (r.1) (r.2)
            else esu_loop rec A B o depth k [] El' rs orc
          end
        end
      end
    end
  end.

(** esu.py 314-386 [_extend_subgraph]. *)
Fixpoint esu_extend (fuel : nat) (depth : nat) (A B En El : list name) (rs : found) (orc : oracle) : res (found * oracle) :=
  match fuel with
  | 0 => Err OutOfFuel
  | S fuel =>
    if decide (rn < Z.of_nat (length A) \/ rl < Z.of_nat (length B))%Z then Ok (rs, orc)
    else if decide (Z.of_nat (length A) = rn /\ Z.of_nat (length B) = rl) then
      let? b := chk n A B in
      Ok (if b : bool then rs ++ [(A, B)] else rs, orc)
    else
      let En := if decide (Z.of_nat (length A) = rn) then [] else En in
      esu_loop (esu_extend fuel (S depth)) A B (nbh n nls v A B) depth (length En + length El) En El rs orc
  end.
End extend.

(** esu.py 310-312: unlink a finished starting node-layer from the copy. *)
Definition drop_links (n : mlnet) (v : nl) : res mlnet :=
  build n ((fun b => OpNodeSet b v 0%Z) <$> iter_total n v None).
(** esu.py 284-312: one starting node-layer. *)
Definition esu_root (copy : bool) (nls : list nl) (chk : checker) (rn rl : Z) (p : list Q)
    (s : mlnet * found * oracle) (v : nl) : res (mlnet * found * oracle) :=
  let '(n, rs, orc) := s in
  match orc with
  | [] => Err OutOfFuel
  | (_, q) :: orc =>
    match p with
    | [] => Err IndexError
    | p0 :: _ =>
      let? r := if qlt q p0 then
                  let e := root_ext n nls v in
                  esu_extend n nls chk v rn rl p (S (Z.to_nat rn + Z.to_nat rl)) 1 [node_of v] [lay1 v] (e.1) (e.2) rs orc
                else Ok (rs, orc) in
      let? n' := if copy then drop_links n v else Ok n in
      Ok (n', r.1, r.2)
    end
  end.
(** esu.py 273-312.  [n] is the network to work on (the copy, if one is made). *)
Definition esu_run (copy : bool) (n : mlnet) (rn rl : Z) (chk : checker) (p : option (list Q)) (orc : oracle) : res found :=
  let p := match p with Some p => p | None => replicate (Z.to_nat (rn - 1 + rl - 1 + 1)) 1%Q end in
  let nls := iter_node_layers n in
  let? s := rfold (esu_root copy nls chk rn rl p) (n, [], orc) nls in
  Ok (s.1.2).
(** esu.py 8-312 [sample_multilayer_subgraphs_esu] with [results] a list.  In
    Python the copy's sets may be listed in another order than in the model; the
    theorems allow for this by relating [esu_run] to any reordered copy. *)
Definition esu (str : nl -> name) (n : mlnet) (sizes : option (list Z)) (inters : option iarg) (nnodes nlayers : option Z)
    (p : option (list Q)) (ty : itype) (copy : bool) (custom : option checker) (orc : oracle) : res found :=
  let? n' := if copy then esu_copy n else Ok n in
  let? r := samp_params str sizes inters nnodes nlayers ty custom in
  esu_run copy n' (r.1.1) (r.1.2) (r.2) p orc.
