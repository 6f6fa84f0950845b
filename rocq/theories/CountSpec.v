(** * Specification vocabulary for orbit counts *)
From stdpp Require Import prelude relations.
From Verif Require Import Base MpxSpec MpxHist MpxIsom Isom IsomSpec PropsIsom GraphletSpec PropsIsomMpx Enum EnumSpec.
Local Open Scope nat_scope.

(** [x] and [y] are linked inside some layer. *)
Definition tied_somewhere (p : mpx) (x y : name) : Prop := exists l, tied p l x y.
(** A fully interconnected undirected multiplex network with coupling [c], without self-loops. *)
Record plain (c : coupling) (p : mpx) : Prop := {
  pl_net : exists h, mhist [c] false 0 true h p;
  pl_loops : forall l x, ~ tied p l x x }.
(** [p] has [n_l] layers, all among [layers]. *)
Definition on_layers (layers : list name) (n_l : nat) (p : mpx) : Prop := exists t, lists_exactly t (mhas p 1) /\ length t = n_l /\ forall l, l ∈ t -> l ∈ layers.
(** [q] is the subnetwork of [p] on the nodes [s]: all layers, and the links between these nodes. *)
Definition induced (c : coupling) (p : mpx) (s : list name) (q : mpx) : Prop :=
  (exists h, mhist [c] false 0 true h q) /\ (forall x, mhas q 0 x <-> x ∈ s) /\ (forall l, mhas q 1 l <-> mhas p 1 l) /\
  (forall l x y, tied q l x y <-> tied p l x y /\ x ∈ s /\ y ∈ s).
(** The graphlet at place [j] of the list of size [k]. *)
Definition graphlet_at (nets : dict nat (list mpx)) (k j : nat) (g : mpx) : Prop := exists l, dget nets k = Some l /\ l !! j = Some g.
(** The node set [s] of [p] contains [x], is connected, and has 2 to [n] nodes. *)
Definition touches (p : mpx) (n : nat) (x : name) (s : list name) : Prop :=
  x ∈ s /\ 2 <= length s <= n /\ (forall z, z ∈ s -> mhas p 0 z) /\ set_connected (tied_somewhere p) s.
(** [x] occupies the orbit [o] in the subnetwork on [s]: an isomorphism takes the subnetwork to
    the graphlet of [o] and [x] into [o]. *)
Definition occupies (c : coupling) (al : option (list nat)) (nets : dict nat (list mpx)) (auts : dict orbit name) (p : mpx) (x : name) (o : orbit) (s : list name) : Prop :=
  exists q g f, induced c p s q /\ graphlet_at nets (o.1.1) (o.1.2) g /\ misomorphism (fun a => a ∈ aspect_list 1 al) f q g /\ dget auts (o.1, f 0 x) = Some (o.2).
(** [k] is the number of sets (up to order) with property [P]. *)
Definition counts_sets (k : nat) (P : list name -> Prop) : Prop := exists L, lists_sets L P /\ length L = k.

(** The backend's vertex permutations are automorphisms and generate all automorphisms. *)
Definition exact_perms (perms : auxg -> list (dict nat nat)) : Prop :=
  forall g, NoDup (dkeys (g_color g)) -> Forall (valid_mapping g g) (perms g) /\
    forall f, graph_iso f (g_color g) (g_links g) (g_color g) (g_links g) ->
      composed (fun i => i ∈ dkeys (g_color g)) (fun r => exists perm, perm ∈ perms g /\ r = fun i => default i (dget perm i)) f.

(** Graphlets with their invariants, automorphism orbits and list of orbits, for connected
    subnetworks of 2 to [n] nodes with coupling [c] and [n_l] of the layers [layers]. *)
Record catalogue {T} `{EqDecision T} (canon : dict nat nat -> list (nat * nat) -> T) (al : option (list nat)) (c : coupling) (layers : list name) (n_l n : nat)
    (nets : dict nat (list mpx)) (invs : @invariants T) (auts : dict orbit name) (orbits : list orbit) : Prop := {
  cat_net : forall k j g, graphlet_at nets k j g -> graphlet c layers n_l k g /\ 2 <= k;
  cat_find : forall k q, 2 <= k <= n -> graphlet c layers n_l k q ->
    exists ci j g, mcomplete_invariant canon q al = Ok ci /\ dget invs ci = Some (k, j) /\ graphlet_at nets k j g /\ misomorphic al q g;
  cat_inv : forall ci k j, dget invs ci = Some (k, j) -> exists g, graphlet_at nets k j g /\ mcomplete_invariant canon g al = Ok ci;
  cat_once : forall k j g k' j' g', graphlet_at nets k j g -> graphlet_at nets k' j' g' -> misomorphic al g g' -> k = k' /\ j = j';
  cat_aut : forall k j g x, graphlet_at nets k j g -> mhas g 0 x -> exists a, dget auts (k, j, x) = Some a /\ (2 <= k <= n -> (k, j, a) ∈ orbits);
  cat_orbit : forall k j g x y, graphlet_at nets k j g -> mhas g 0 x -> mhas g 0 y ->
    dget auts (k, j, x) = dget auts (k, j, y) <-> exists m, misomorphism (fun a => a ∈ aspect_list 1 al) m g g /\ m 0 x = y }.
