(** * Isomorphism functions on MultiplexNetworks (isomorphisms/isomcore.py).  Definitions only. *)
From Verif Require Export Mpx Isom.
Local Open Scope nat_scope.

(** What the builder reads from a MultiplexNetwork: isomcore.py 13 (undirected), 72, 83-94
    ([iter_node_layers], [for nl2 in net[nl1]]), 99-103 ([slices]).  Every exception of
    iterating the neighbours is raised; simplification: it is raised before the colours are
    sorted. *)
Definition mpx_view (p : mpx) : res iview :=
  if mdir p then Err AssertionError else
  let? nls := miter_node_layers p in
  let? _ := rmapM (fun a => mp_iter p DTot a None) nls in
  Ok (MkView (maspects p) false (mslices p) nls
        (fun a => match mp_iter p DTot a None with Ok l => l | Err _ => [] end)).
(** isomcore.py 11-34, 63-110: the auxiliary graph. *)
Definition mgraph (p : mpx) (al : option (list nat)) : res auxg := let? v := mpx_view p in build v al.
(** isomorphisms/__init__.py 50-88 [is_isomorphic]. *)
Definition mis_isomorphic (structure : auxg -> auxg -> bool) (p q : mpx) (al : option (list nat)) : res bool :=
  let? g := mgraph p al in
  let? h := mgraph q al in
  compare (structure g h) g h.
(** isomorphisms/__init__.py [get_isomorphism]; the backend gives [mapping] for two graphs
    it finds isomorphic. *)
Definition mget_isomorphism (structure : auxg -> auxg -> bool) (mapping : auxg -> auxg -> dict nat nat) (p q : mpx)
  (al : option (list nat)) (fixed : bool) : res (option (list (dict name name))) :=
  let? v := mpx_view p in
  let? g := build v al in
  let? h := mgraph q al in
  get_isomorphism (structure g h) (mapping g h) v g h fixed.
(** isomorphisms/__init__.py [get_automorphism_generators]; the backend gives [perms]. *)
Definition mautomorphism_generators (perms : auxg -> list (dict nat nat)) (p : mpx) (al : option (list nat)) (fixed : bool)
  : res (list (list (dict name name))) :=
  let? v := mpx_view p in
  let? g := build v al in
  get_automorphism_generators (perms g) v g fixed.
(** isomorphisms/__init__.py [get_complete_invariant]. *)
Definition mcomplete_invariant {S} (canon : dict nat nat -> list (nat * nat) -> S) (p : mpx) (al : option (list nat))
  : res (dict (list name) nat * S) :=
  let? g := mgraph p al in Ok (get_complete_invariant canon g).
