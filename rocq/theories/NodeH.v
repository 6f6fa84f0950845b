(** * Node handles (net.py 655-770 [MultilayerNode]).  Definitions only. *)
From Verif Require Export Net.
Local Open Scope nat_scope.

(** A handle: the node-layer and the restriction given by the index with colons, [self.layers]. *)
Record handle := MkHandle { hnode : nl; hlayers : option (list (option name)) }.
(** net.py 454-515: [net[item]] as a handle; a weight has none of the methods. *)
Definition node_handle (n : mlnet) (item : list idx) : res handle :=
  let? g := getitem n item in match g with GNode a ds => Ok (MkHandle a ds) | GWeight _ => Err AttributeError end.
(** net.py 689-751: the four degree and the four strength methods ([deg] and [deg_total],
    [str] and [str_total] are the same); [layers] are the arguments, [None] for any. *)
Definition node_deg (n : mlnet) (h : handle) (layers : list (option name)) : res Z :=
  let? ds := node_dims n (hlayers h) layers in Ok (degree n (hnode h) ds).
Definition node_deg_in (n : mlnet) (h : handle) (layers : list (option name)) : res Z :=
  let? ds := node_dims n (hlayers h) layers in Ok (degree_in n (hnode h) ds).
Definition node_deg_out (n : mlnet) (h : handle) (layers : list (option name)) : res Z :=
  let? ds := node_dims n (hlayers h) layers in Ok (degree_out n (hnode h) ds).
Definition node_str (n : mlnet) (h : handle) (layers : list (option name)) : res Z :=
  let? ds := node_dims n (hlayers h) layers in Ok (strength n (hnode h) ds).
Definition node_str_in (n : mlnet) (h : handle) (layers : list (option name)) : res Z :=
  let? ds := node_dims n (hlayers h) layers in Ok (strength_in n (hnode h) ds).
Definition node_str_out (n : mlnet) (h : handle) (layers : list (option name)) : res Z :=
  let? ds := node_dims n (hlayers h) layers in Ok (strength_out n (hnode h) ds).
(** net.py 686-687 [__len__]. *)
Definition node_len (n : mlnet) (h : handle) : res Z := node_deg n h [].
(** net.py 762-770 [_iter_nodes]: bare nodes in a network without aspects. *)
Definition node_iter (n : mlnet) (f : mlnet -> nl -> option (list (option name)) -> list nl) (h : handle) : res (list (list name)) :=
  if decide (0 < aspects n) then Ok (f n (hnode h) (hlayers h))
  else rmapM (fun b : nl => match b !! 0 with Some x => Ok [x] | None => Err IndexError end) (f n (hnode h) (hlayers h)).
(** net.py 747-760 [__iter__], [iter_total], [iter_out], [iter_in]. *)
Definition node_iter_total (n : mlnet) (h : handle) : res (list (list name)) := node_iter n iter_total h.
Definition node_iter_out (n : mlnet) (h : handle) : res (list (list name)) := node_iter n iter_out h.
Definition node_iter_in (n : mlnet) (h : handle) : res (list (list name)) := node_iter n iter_in h.
