(** * Averages of clustering coefficients over layers and nodes, and Onnela's coefficient
    (/repo/pymnet/cc.py 281-285, 1118-1124, 113-134).  Definitions only; conventions of Cc.v. *)
From Verif Require Export Cc.
Open Scope Z_scope.

(** cc.py 281-285 [cc_layers_avg].  [lists] says whether [map] returns a list (Python 2) or an
    iterator (Python 3), of which [len] cannot be taken; [sum(tot)] is evaluated first, so the
    divisions come before it. *)
Definition cc_layers_avg (lists : bool) (p : mpx) (x : name) : res Q :=
  let? s := cc_sequence p x in
  let? tot := rmapM (fun td => zdiv (td.1) (td.2)) s in
  if lists then fdiv (qsum tot) (inject_Z (Z.of_nat (length tot))) else Err TypeError.
(** cc.py 1118-1124 [gcc_from_lcc]; [f x] is [lcc(net,x,undefReturn=None)].  If [map] and
    [filter] return iterators the first [len] raises before [f] is called. *)
Definition gcc_from_lcc (lists : bool) (n : mlnet) (f : name -> res (option Q)) : res (option Q) :=
  if lists then
    let? v := rmapM f (net_nodes n) in
    let fv := omap id v in
    if decide (0 < length fv)%nat then let? q := fdiv (qsum fv) (inject_Z (Z.of_nat (length fv))) in Ok (Some q) else Ok None
  else Err TypeError.
(** cc.py 113-134 [cc_onnela] of a network without aspects; [root z] is the rational in the
    place of the float [z**(1./3.)] (a complex number if [z] is negative, not modelled). *)
Definition cc_onnela (root : Z -> Q) (n : mlnet) (a : nl) : res (option Q) :=
  let? maxw := max_weight n in
  let k := degree n a None in
  if decide (2 <= k) then
    let nom := qsum ((fun q => let ij := weight n (q.1) (q.2) in
                       if decide (ij = noEdge n) then 0%Q else root (weight n a (q.1) * weight n a (q.2) * ij))
                     <$> pairs2 (iter_total n a None)) in
    let? x := fdiv (2 * nom)%Q (inject_Z (k * (k - 1))) in
    let? q := fdiv x (inject_Z maxw) in Ok (Some q)
  else Ok None.
