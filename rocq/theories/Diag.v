(** * Diagnostics (/repo/pymnet/diagnostics.py).  Definitions only. *)
From Coq Require Export QArith.
From Verif Require Export Trans Mpx.
Close Scope Q_scope.

(** ** Degree distributions *)
(** diagnostics.py 22-25: the node-layers iterated over (for 0 aspects the nodes,
    modelled as 1-tuples). *)
(** diagnostics.py 4-36 [degs] with [degstype="distribution"]. *)
Definition degs_dist (n : mlnet) : dict Z Z :=
  foldl (fun d a => let k := degree n a None in dset d k (default 0%Z (dget d k) + 1)%Z) [] (iter_node_layers n).
(** diagnostics.py 4-36 [degs] with [degstype="nodes"]. *)
Definition degs_nodes (n : mlnet) : dict nl Z :=
  foldl (fun d a => dset d a (degree n a None)) [] (iter_node_layers n).
(** diagnostics.py 69-89 [multiplex_degs]: the distribution of every intra-layer
    network; [net.A[layer]] raises KeyError for a missing layer. *)
Definition multiplex_degs {V} (f : mlnet -> V) (p : mpx) : res (dict layer V) :=
  rfold (fun d l => match pA p l with Some m => Ok (dset d l (f m)) | None => Err KeyError end) [] (mlayers p).

(** ** Density *)
(** diagnostics.py 38-57 [density].  [pedges] is only assigned for fully
    interconnected networks (UnboundLocalError, a NameError, otherwise);
    [x/float(0)] raises ZeroDivisionError.  Floats are modelled by rationals. *)
Definition density (n : mlnet) : res Q :=
  if decide (net_nodes n = []) then Ok (inject_Z 0)
  else if fic n then
    let nls := foldl (fun z a => (z * Z.of_nat (length (default [] (slices n !! S a))))%Z)
                 (Z.of_nat (length (net_nodes n))) (seq 0 (aspects n)) in
    let pe := (if directed n then inject_Z (nls * (nls - 1)) else inject_Z (nls * (nls - 1)) / inject_Z 2)%Q in
    if Qeq_bool pe (inject_Z 0) then Err ZeroDivisionError else Ok (inject_Z (edges_len n) / pe)%Q
  else Err NameError.
(** diagnostics.py 60-67 [multiplex_density]. *)
Definition multiplex_density (p : mpx) : res (dict layer Q) :=
  rfold (fun d l => match pA p l with Some m => let? q := density m in Ok (dset d l q) | None => Err KeyError end)
    [] (mlayers p).

(** ** dijkstra *)
(** A heap entry: distance, predecessor, node-layer. *)
Notation dentry := (Z * nl * nl)%type (only parsing).
Record dstate := MkD { dq : list (Z * nl * nl); dd : dict nl Z; dfor : mlnet }.
(** diagnostics.py 139-147. *)
Definition dij_init (asp : nat) (sources : list nl) : dstate :=
  MkD ((fun s => (0%Z, s, s)) <$> sources) (foldl (fun d s => dset d s 0%Z) [] sources) (new_net asp (-1) true false).
(** diagnostics.py 153-157: one neighbour. *)
Definition relax (wt : nl -> nl -> res Z) (dist : Z) (dest : nl) (s : list (Z * nl * nl) * dict nl Z) (neigh : nl)
  : res (list (Z * nl * nl) * dict nl Z) :=
  let? w := wt dest neigh in
  let ndist := (dist + w)%Z in
  let go := match dget (s.2) neigh with None => true | Some c => bool_decide (ndist <= c)%Z end in
  if go then Ok (s.1 ++ [(ndist, dest, neigh)], dset (s.2) neigh ndist) else Ok s.
(** diagnostics.py 148-157: one pass of the loop, in which the heap returns its
    entry number [i].  [nbs a] is [net[a].iter_out()], [wt a b] is [net[a][b]]. *)
Definition dij_step (nbs : nl -> res (list nl)) (wt : nl -> nl -> res Z) (st : dstate) (i : nat) : res dstate :=
  match dq st !! i with
  | None => Err IndexError
  | Some (dist, source, dest) =>
    let q := delete i (dq st) in
    match dget (dd st) dest with
    | None => Err KeyError
    | Some c =>
      if decide (dist <= c)%Z then
        if decide (c = dist) then
          let? w := wt source dest in
          let? f := do_op (dfor st) (OpNodeSet source dest w) in
          let? ns := nbs dest in
          let? s := rfold (relax wt dist dest) (q, dd st) ns in
          Ok (MkD (s.1) (s.2) f)
        else Err AssertionError
      else Ok (MkD q (dd st) (dfor st))
    end
  end.
(** diagnostics.py 148-160: the loop.  [heappop] returns an entry with the least
    distance; which of several it returns depends on the heap and on the order of
    the node names, so it is left to [choose], which may depend on the number of
    the pass and on the heap.  (Comparing an int and a str while ordering entries
    with equal distances raises TypeError; such runs are not modelled.)  Running
    out of [fuel] stands for a loop that has not ended yet. *)
Fixpoint dij_loop (nbs : nl -> res (list nl)) (wt : nl -> nl -> res Z) (choose : nat -> list (Z * nl * nl) -> nat)
  (fuel : nat) (st : dstate) : res (dict nl Z * mlnet) :=
  match dq st with
  | [] => Ok (dd st, dfor st)
  | q => match fuel with
         | O => Err OutOfFuel
         | S f => let? st' := dij_step nbs wt st (choose f q) in dij_loop nbs wt choose f st'
         end
  end.
(** diagnostics.py 130-160 [dijkstra]. *)
Definition dijkstra_gen asp nbs wt choose fuel sources := dij_loop nbs wt choose fuel (dij_init asp sources).
Definition dijkstra (n : mlnet) choose fuel (sources : list nl) : res (dict nl Z * mlnet) :=
  dijkstra_gen (aspects n) (fun a => Ok (iter_out n a None)) (fun a b => Ok (weight n a b)) choose fuel sources.
Definition mdijkstra (p : mpx) choose fuel (sources : list nl) : res (dict nl Z * mlnet) :=
  dijkstra_gen (maspects p) (fun a => mp_iter p DOut a None) (pget_pair p) choose fuel sources.
