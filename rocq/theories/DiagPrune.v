(** * dijkstra_mlayer_prune (/repo/pymnet/diagnostics.py 162-213).  Definitions only. *)
From Verif Require Export Diag MpxEdges.
Local Open Scope nat_scope.

(** diagnostics.py 164-174: the sources to expand, [None] standing for "any".  [deg a] is
    [net[a].deg()].  A [None] outside [aaspects] names no node-layer (its degree is 0). *)
Definition prune_source (asp : nat) (sls : list (list name)) (deg : nl -> res Z) (aasp : list nat) (s : list (option name)) : res (list nl) :=
  let? ls := rmapM (fun a =>
      match s !! a with
      | None => Err IndexError
      | Some o =>
        if decide (a ∈ aasp) then
          match o with None => Ok (default [] (sls !! a)) | Some _ => Err AssertionError end
        else Ok (option_list o)
      end) (seq 0 (S asp)) in
  let? ds := rmapM (fun a => let? k := deg a in Ok (a, k)) (cart ls) in
  Ok ((filter (fun q : nl * Z => (0 < q.2)%Z) ds).*1).
(** diagnostics.py 178-183 [select_aspects]. *)
Definition select_aspects (aasp : list nat) (a : nl) : nl := (filter (fun q : nat * name => q.1 ∉ aasp) (imap pair a)).*2.
(** diagnostics.py 185-191: the least distance of each selection. *)
Definition prune_nd (aasp : list nat) (d : dict nl Z) : dict nl Z :=
  foldl (fun nd (q : nl * Z) => let y := select_aspects aasp (q.1) in
    match dget nd y with
    | Some c => if decide (q.2 < c)%Z then dset nd y (q.2) else nd
    | None => dset nd y (q.2)
    end) [] d.
(** diagnostics.py 194-198 [build_path]; running out of [fuel] stands for a recursion that
    has not ended yet. *)
Fixpoint build_path (ot : mlnet) (fuel : nat) (nt : mlnet) (node : nl) : res mlnet :=
  match fuel with
  | O => Err OutOfFuel
  | S f =>
    rfold (fun nt u =>
      let? nt' := do_op nt (OpNodeSet u node (weight ot u node)) in
      if decide (degree_in nt' u None = 0%Z) then build_path ot f nt' u else Ok nt') nt (iter_in ot node None)
  end.
(** diagnostics.py 162-213 for a network with at least one aspect, over arbitrary
    neighbours, weights and degrees as [dijkstra_gen]. *)
Definition prune_gen (asp : nat) (sls : list (list name)) (deg : nl -> res Z) (nbs : nl -> res (list nl)) (wt : nl -> nl -> res Z)
  (choose : nat -> list (Z * nl * nl) -> nat) (fuel : nat) (sources : list (list (option name))) (aasp : list nat) : res (dict nl Z * mlnet) :=
  let? ss := rmapM (prune_source asp sls deg aasp) sources in
  let? r := dijkstra_gen asp nbs wt choose fuel (concat ss) in
  let nd := prune_nd aasp (r.1) in
  let? f := rfold (fun nt (q : nl * Z) => if decide (dget nd (select_aspects aasp (q.1)) = Some (q.2)) then build_path (r.2) fuel nt (q.1) else Ok nt)
              (new_net asp (-1) true false) (r.1) in
  Ok (nd, f).
Definition dijkstra_prune (n : mlnet) choose fuel (sources : list (list (option name))) (aasp : list nat) : res (dict nl Z * mlnet) :=
  prune_gen (aspects n) (slices n) (fun a => Ok (degree n a None)) (fun a => Ok (iter_out n a None)) (fun a b => Ok (weight n a b)) choose fuel sources aasp.
Definition mdijkstra_prune (p : mpx) choose fuel (sources : list (list (option name))) (aasp : list nat) : res (dict nl Z * mlnet) :=
  prune_gen (maspects p) (mslices p) (fun a => mp_degree p DTot a None) (fun a => mp_iter p DOut a None) (pget_pair p) choose fuel sources aasp.
