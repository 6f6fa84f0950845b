(** * Model of isomorphisms/isomcore.py: the auxiliary graph of a multilayer network *)
From stdpp Require Import prelude.
From Verif Require Import Base Net Supra.
Local Open Scope nat_scope.

(** What the builder reads from a network: number of aspects, directedness, the
    elementary layers of each aspect, the node-layers in iteration order, and
    the neighbours [net[nl]] iterates over. *)
Record iview := MkView {
  v_asp : nat; v_dir : bool; v_slices : list (list name); v_nls : list nl; v_nbr : nl -> list nl }.
(** The view of a MultilayerNetwork with at least one aspect: net.py 575-589 and
    753-761 ([for nl2 in net[nl1]] is [iter_total]). *)
Definition net_view (n : mlnet) : iview :=
  MkView (aspects n) (directed n) (slices n) (iter_node_layers n) (fun a => iter_total n a None).

(** isomcore.py 15-17: [None] is "all"; [sorted(allowed_aspects)]. *)
Definition iasp (v : iview) (al : option (list nat)) : list nat :=
  match al with None => seq 0 (S (v_asp v)) | Some l => merge_sort le l end.
(** isomcore.py 18. *)
Definition inasp (v : iview) (al : option (list nat)) : list nat :=
  match al with
  | None => []
  | Some l => filter (fun a => a ∉ l) (seq 0 (S (v_asp v)))
  end.
(** isomcore.py 53-57 [_slice_node_layer_not_allowed] (the aspects are in range). *)
Definition nl_slice (ixs : list nat) (a : nl) : list name := (fun i => default (NInt 0) (a !! i)) <$> ixs.
(** Python's [<] on two tuples of equal length raises when the first components
    that differ are of different kinds. *)
Fixpoint comparable (a b : list name) : bool :=
  match a, b with
  | x :: a, y :: b => if decide (x = y) then comparable a b else bool_decide (is_int x = is_int y)
  | _, _ => true
  end.
(** isomcore.py 69-74: the distinct colours in increasing order.  Sorting
    compares every pair of neighbours in the result, so it raises as soon as two
    of the colours cannot be compared; the sorted distinct colours always pass
    [_assert_full_order]. *)
Definition sorted_colors (cs : list (list name)) : res (list (list name)) :=
  if forallb (fun a => forallb (comparable a) cs) cs then Ok (merge_sort tuple_le cs) else Err TypeError.

(** The builder's attributes; [g_color] and [g_links] are the graph handed to the
    backend (vertices with colours, links), see nxbackend.py 10-31. *)
Record auxg := MkAux {
  g_asp : list nat; g_nasp : list nat;
  g_nodemap : dict nl nat; g_auxmap : dict (nat * name) nat;
  g_colormap : dict (list name) nat; g_auxcolor : dict nat nat;
  g_color : dict nat nat; g_links : list (nat * nat) }.

(** isomcore.py 36-40 [_get_node_id] and 42-45 [_get_auxnode_id] (with
    [base = len(self.nodemap)]): the dictionary afterwards; the id is then the
    value stored.  The assertion of line 38 cannot fail where new nodes are
    added (83-94 precede the auxiliary nodes). *)
Definition get_id {K} `{EqDecision K} (base : nat) (m : dict K nat) (k : K) : dict K nat :=
  match dget m k with Some _ => m | None => dset m k (base + length m) end.
Definition id_of {K} `{EqDecision K} (m : dict K nat) (k : K) : nat := default 0 (dget m k).
(** [enumerate] into a dictionary, numbering from [base] (75, 78). *)
Definition enum_dict {K} `{EqDecision K} (base : nat) (l : list K) : dict K nat :=
  foldl (fun d p => dset d (snd p) (fst p)) [] (imap (fun i k => (base + i, k)) l).

(** isomcore.py 83-87: the node-layers with their colours. *)
Definition add_nodes (v : iview) (nasp : list nat) (cm : dict (list name) nat) : res (dict nl nat * dict nat nat) :=
  rfold (fun st a =>
    let m := get_id 0 (fst st) a in
    match dget cm (nl_slice nasp a) with
    | None => Err KeyError
    | Some c => Ok (m, dset (snd st) (id_of m a) c)
    end) ([], []) (v_nls v).
(** isomcore.py 90-94: the links between node-layers. *)
Definition add_net_links (v : iview) (m : dict nl nat) : dict nl nat * list (nat * nat) :=
  foldl (fun st a =>
    foldl (fun st b =>
      let m := get_id 0 (get_id 0 (fst st) a) b in
      (m, snd st ++ [(id_of m a, id_of m b)])) st (v_nbr v a)) (m, []) (v_nls v).
(** isomcore.py 99-103: the auxiliary nodes. *)
Definition add_aux_nodes (v : iview) (asp : list nat) (base : nat) (ac : dict nat nat) (col : dict nat nat)
  : res (dict (nat * name) nat * dict nat nat) :=
  rfold (fun st a =>
    match v_slices v !! a with
    | None => Err IndexError
    | Some s =>
      rfold (fun st e =>
        let m := get_id base (fst st) (a, e) in
        match dget ac a with
        | None => Err KeyError
        | Some c => Ok (m, dset (snd st) (id_of m (a, e)) c)
        end) st s
    end) ([], col) asp.
(** isomcore.py 106-110: the links to the auxiliary nodes. *)
Definition add_aux_links (v : iview) (asp : list nat) (m : dict nl nat) (aux : dict (nat * name) nat)
  (ls : list (nat * nat)) : dict (nat * name) nat * list (nat * nat) :=
  foldl (fun st a =>
    foldl (fun st i =>
      let k := (i, default (NInt 0) (a !! i)) in
      let x := get_id (length m) (fst st) k in
      (x, snd st ++ [(id_of m a, id_of x k)])) st asp) (aux, ls) (v_nls v).

(** isomcore.py 11-34 [__init__] and 63-110 [_build_graph_general]. *)
Definition build (v : iview) (al : option (list nat)) : res auxg :=
  if v_dir v then Err AssertionError else
  let asp := iasp v al in
  let nasp := inasp v al in
  let colors := remove_dups (nl_slice nasp <$> v_nls v) in
  let? cs := sorted_colors colors in
  let cm := enum_dict 0 cs in
  let ac := enum_dict (length cm) asp in
  let? nodes := add_nodes v nasp cm in
  let '(m, links) := add_net_links v (fst nodes) in
  let? auxs := add_aux_nodes v asp (length m) ac (snd nodes) in
  let '(aux, links) := add_aux_links v asp m (fst auxs) links in
  Ok (MkAux asp nasp m aux cm ac (snd auxs) links).

(** Equality of dictionaries. *)
Definition dict_eqb {K V} `{EqDecision K, EqDecision V} (d e : dict K V) : bool :=
  bool_decide (length d = length e) && forallb (fun kv => bool_decide (dget e (fst kv) = Some (snd kv))) d.
(** isomcore.py 112-114 [compare_labels]. *)
Definition compare_labels (g h : auxg) : res bool :=
  if dict_eqb (g_auxcolor g) (g_auxcolor h) then Ok (dict_eqb (g_colormap g) (g_colormap h)) else Err AssertionError.
(** isomcore.py 117-121 [compare]; [structure] is the answer of the backend to
    [compare_structure], asked only if the labels agree. *)
Definition compare (structure : bool) (g h : auxg) : res bool :=
  if decide (g_asp g = g_asp h /\ g_nasp g = g_nasp h) then
    let? b := compare_labels g h in
    Ok (b && structure)
  else Err AssertionError.
(** isomorphisms/__init__.py 50-88 [is_isomorphic]: both graphs are built, then
    compared. *)
Definition is_isomorphic (structure : auxg -> auxg -> bool) (v w : iview) (al : option (list nat)) : res bool :=
  let? g := build v al in
  let? h := build w al in
  compare (structure g h) g h.

(** isomcore.py 138-154 / 167-184: reading a permutation of the vertices as one
    dictionary per aspect.  [v], [g] belong to the source and [h] to the target. *)
Definition decode (v : iview) (g h : auxg) (perm : dict nat nat) (fixed : bool) : res (list (dict name name)) :=
  let inv := foldl (fun d kv => dset d (snd kv) (fst kv)) [] (g_auxmap h) in
  let? mp := rfold (fun mp kv =>
      match dget perm (snd kv) with
      | None => Err KeyError
      | Some j =>
        match dget inv j with
        | None => Err KeyError
        | Some k' =>
          let '(a, e) := fst kv in
          let mp := if negb (bool_decide (e = snd k')) || fixed then alter (fun d => dset d e (snd k')) a mp else mp in
          if decide (a = fst k') then Ok mp else Err AssertionError
        end
      end) (replicate (S (v_asp v)) []) (g_auxmap g) in
  Ok (if fixed then
        foldl (fun mp a => alter (fun d => foldl (fun d e => dset d e e) d (default [] (v_slices v !! a))) a mp) mp (g_nasp g)
      else mp).
(** isomcore.py 159-189 [get_isomorphism]; the backend answers [compare_structure]
    and, when asked, gives the vertex mapping [mapping]. *)
Definition get_isomorphism (structure : bool) (mapping : dict nat nat) (v : iview) (g h : auxg) (fixed : bool)
  : res (option (list (dict name name))) :=
  let? b := compare structure g h in
  if b then let? mp := decode v g h mapping fixed in Ok (Some mp) else Ok None.
(** isomcore.py 133-157 [get_automorphism_generators]; [perms] comes from the backend. *)
Definition get_automorphism_generators (perms : list (dict nat nat)) (v : iview) (g : auxg) (fixed : bool)
  : res (list (list (dict name name))) :=
  rmapM (fun p => decode v g g p fixed) perms.
(** Order of the items of the colour map; the colours are distinct, so the ids
    are never compared. *)
Definition item_le (p q : list name * nat) : Prop := tuple_le (fst p) (fst q).
Global Instance item_le_dec : RelDecision item_le.
Proof. intros p q. unfold item_le. apply _. Defined.
(** isomcore.py 124-131 [get_complete_invariant]: the label part (the entries of
    the colour map sorted by colour), and the canonical form of the graph given
    by the backend. *)
Definition get_complete_invariant {S} (canon : dict nat nat -> list (nat * nat) -> S) (g : auxg) : dict (list name) nat * S :=
  (merge_sort item_le (g_colormap g), canon (g_color g) (g_links g)).
