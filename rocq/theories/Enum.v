(** * Enumeration of the graphlets (graphlets/graphlets.py).  Definitions only. *)
From Verif Require Export Mpx MpxTrans Supra Samp Graphlet MpxIsom.
Local Open Scope nat_scope.

(** [range(i)] as node names. *)
Definition nrange (i : nat) : list name := (fun k => NInt (Z.of_nat k)) <$> seq 0 i.

(** graphlets.py 45-51: a network with the nodes 0 and 1 linked on the layers [comb]. *)
Definition pair_net (cs : list coupling) (net_layers comb : list name) : res mpx :=
  mbuild (new_mpx cs false 0 true) (((fun l => MSet [NInt 0; NInt 1; l] 1) <$> comb) ++ ((fun l => MAddLayer l 1) <$> net_layers)).
(** graphlets.py 66-69: the choices of the nodes that the new node [i] is linked to, with
    the layers of these links, in the order of the loops. *)
Definition extensions (i : nat) (layer_combs : list (list name)) : list (list (name * list name)) :=
  seq 1 i ≫= fun n_n => combs n_n (nrange i) ≫= fun nc => (fun lc => zip nc lc) <$> cart (replicate n_n layer_combs).
(** graphlets.py 70-77: [net] with the new node. *)
Definition ext_net (i : nat) (p : mpx) (net_layers : list name) (e : list (name * list name)) : res mpx :=
  let? q := msubnet p [Some (default [] (mslices p !! 0)); Some net_layers] false in
  mbuild q ((e ≫= fun xl => (fun l => MSet [xl.1; NInt (Z.of_nat i); l] 1) <$> xl.2) ++ ((fun l => MAddLayer l 1) <$> net_layers)).

Section Enum.
Context {S : Type} `{EqDecision S} (canon : dict nat nat -> list (nat * nat) -> S) (al : option (list nat)).
(** The keys of [invariants].  Simplification: the code uses the string of the invariant;
    the model uses the invariant itself, so it assumes that different invariants have
    different strings. *)
Definition invariant : Type := dict (list name) nat * S.
Definition invariants : Type := dict invariant (nat * nat).
(** graphlets.py 53-57, 79-83: the network is kept if its invariant is new. *)
Definition keep (k : nat) (st : list mpx * invariants) (p : mpx) : res (list mpx * invariants) :=
  let? ci := mcomplete_invariant canon p al in
  if decide (is_Some (dget (st.2) ci)) then Ok st else Ok (st.1 ++ [p], dset (st.2) ci (k, length (st.1))).
(** graphlets.py 36-57: the graphlets with two nodes. *)
Definition first_size (cs : list coupling) (layers : list name) (n_l : nat) : res (list mpx * invariants) :=
  rfold (fun st net_layers =>
    rfold (fun st comb => let? p := pair_net cs net_layers comb in keep 2 st p) st (layer_combinations net_layers))
    ([], []) (combs n_l layers).
(** graphlets.py 61-83: from the graphlets with [i] nodes to those with [i+1]. *)
Definition next_size (i : nat) (nets_i : list mpx) (invs : invariants) : res (list mpx * invariants) :=
  rfold (fun st p =>
    let? net_layers := py_sorted (default [] (mslices p !! 1)) in
    rfold (fun st e => let? q := ext_net i p net_layers e in keep (i + 1) st q) st (extensions i (layer_combinations net_layers)))
    ([], invs) nets_i.
(** graphlets.py 7-87 [graphlets].  Simplification: [n] and [n_l] are not negative ([n] below
    2 behaves like 2; a negative [n_l] makes [combinations] raise ValueError). *)
Definition graphlets (n : nat) (layers : list name) (n_l : option nat) (cs : list coupling) : res (dict nat (list mpx) * invariants) :=
  let? st := first_size cs layers (default (length layers) n_l) in
  rfold (fun acc i =>
    match dget (acc.1) i with
    | None => Err KeyError
    | Some nets_i => let? st := next_size i nets_i (acc.2) in Ok (dset (acc.1) (i + 1) (st.1), st.2)
    end) ([(2, st.1)], st.2) (seq 2 (n - 2)).
End Enum.
