(** * Assigning a network to a layer of a multiplex network: [net.A[l]=val].
    Definitions only; the conventions of Mpx.v and MpxTrans.v. *)
From Verif Require Export MpxTrans.

(** net.py 835-843 [MultiplexIntraNetDict.__setitem__]: the layer gets a new empty network
    (lines 848-856), into which transforms.py 120-233 [subnet] copies the nodes and the links
    of [v].  [s] is the order in which Python iterates over [set(val)] (transforms.py 160), a
    permutation of the nodes of [v].  Simplifications: [v] is an instance of MultilayerNetwork
    and not of MultiplexNetwork (any other object fails the first assertion); a network without
    aspects is always fully interconnected (net.py 95-97), so that transforms.py 176-177 never
    raises.  The network is returned also when the call raises. *)
Definition aset_net (p : mpx) (l : layer) (v : mlnet) (s : list name) : out mpx unit :=
  if decide (aspects v = 0)%nat then
    match dget (mA p) l with
    | None => (p, Err GenericException)
    | Some _ => ofold mstep (add_empty p l) (msub_layer_ops l v s)
    end
  else (p, Err AssertionError).
