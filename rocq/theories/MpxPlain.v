(** * Transformations of a MultiplexNetwork that give a MultilayerNetwork, and its
    supra-adjacency matrix.  Definitions only. *)
From Verif Require Export Cc Supra.

(** transforms.py 416-469 [threshold] of a multiplex network one of whose couplings is
    not "none" (lines 429-433 then choose a MultilayerNetwork as the result).  The edges
    are computed before the result is built, which is observable only where computing
    them raises. *)
Definition mthreshold_plain (p : mpx) (t : Z) (r : rule) : res mlnet :=
  let? s := msrc_of p in threshold s t r.
(** transforms.py 571-616 [get_underlying_graph] of a multiplex network. *)
Definition munderlying (str : nl -> name) (p : mpx) : res mlnet :=
  let? s := msrc_of p in underlying str s.
(** net.py 623-654 [get_supra_adjacency_matrix] of a multiplex network (inherited; [self[i][j]]
    reads through the overridden [_get_link]). *)
Definition msupra (p : mpx) (inc : bool) : res (list (list Z) * list nl) :=
  supra (maspects p) (mslices p) (fun a b => pgetitem p (interleave a b)) inc.
