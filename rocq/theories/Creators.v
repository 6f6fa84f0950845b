(** * Random multilayer networks of the sampling package
    (/repo/pymnet/sampling/creators.py).  Definitions only. *)
From Verif Require Export Models Build.

(** creators.py 27-31: layers are numbered and every node is added to its layer.  The
    calls to [random.seed] (23-26, 60-63) are not modelled: the outcomes of the random
    calls are inputs. *)
Definition erp_struct (nbl : list (list name)) : list op :=
  zip (range (length nbl)) nbl ≫= fun t => OpAddLayer (t.1) 1 :: ((fun x => OpAddNode x (Some (LBare (t.1)))) <$> t.2).
(** creators.py 32-38: the numbering of the node-layers and the two loops; [coin a b] is
    the outcome of [random.random()<p], which is called once for each pair in which [a]
    has the larger number. *)
Definition erp_links (L : list nl) (coin : nl -> nl -> bool) : list op :=
  zip (seq 0 (length L)) L ≫= fun s => zip (seq 0 (length L)) L ≫= fun t =>
    if decide (t.1 < s.1) then if coin (s.2) (t.2) then [OpNodeSet (s.2) (t.2) 1] else [] else [].
(** creators.py 6-39 [er_multilayer_partially_interconnected]. *)
Definition er_part (nbl : list (list name)) (coin : nl -> nl -> bool) : res mlnet :=
  let? n := build (new_net 1 0 false false) (erp_struct nbl) in
  build n (erp_links (iter_node_layers n) coin).

(** creators.py 65: [random.sample(xrange(poolsize),nodes_per_layer)]; [s] is the sample.
    The module does not define [xrange]; [py2] says whether the interpreter does. *)
Definition rsample (py2 : bool) (pool k : nat) (s : list nat) : res (list name) :=
  if py2 then
    if decide (k <= pool) then
      if decide (length s = k /\ NoDup s /\ Forall (fun i => i < pool) s) then Ok ((fun i => NInt (Z.of_nat i)) <$> s) else Err OutOfFuel
    else Err ValueError
  else Err NameError.
(** creators.py 41-65 [random_nodelists], all lists that are yielded. *)
Definition random_nodelists (py2 : bool) (pool k layers : nat) (ss : list (list nat)) : res (list (list name)) :=
  rmapM (fun i => rsample py2 pool k (default [] (ss !! i))) (seq 0 layers).
