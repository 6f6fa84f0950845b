(** * subnet_iter (/repo/pymnet/transforms.py 491-568).  Definitions only. *)
From Verif Require Export Graphlet Trans MpxTrans Cc.

(** transforms.py 537-542 [all_combinations]; [all_nonzero_combinations] (530-535) is
    [layer_combinations] of Graphlet.v, which loops over [range(1,len(l)+1)] in the same way. *)
Definition all_combinations {A} (l : list A) : list (list A) := seq 0 (S (length l)) ≫= fun k => combs k l.
(** transforms.py 544-551: [combinations_args] and the product of its entries. *)
Definition iter_choices (sl : list (list name)) (rem : list nat) : list (list (list name)) :=
  cart (imap (fun a s => if decide (a ∈ rem) then layer_combinations s else [s]) sl).
(** transforms.py 491-568 [subnet_iter] of a MultilayerNetwork: the list of all networks the
    generator yields, if the network is not changed meanwhile.  An exception raised after some
    networks have been yielded discards them here.  Negative entries of [remove_elayers],
    which raise AssertionError as too large ones do, are not modelled. *)
Definition subnet_iter (n : mlnet) (rem : list nat) (redges : bool) : res (list mlnet) :=
  if forallb (fun a => bool_decide (a <= aspects n)%nat) rem then
    let? Ls := rmapM (fun c =>
        let? sub := subnet n (Some <$> c) false in
        if redges then
          rmapM (fun es : list (list name * Z) =>
            let? m := subnet sub (Some <$> c) true in
            build m ((fun e => OpSet (e.1) (get_link sub (e.1))) <$> es)) (all_combinations (edges n))
        else Ok [sub]) (iter_choices (slices n) rem) in
    Ok (concat Ls)
  else Err AssertionError.
(** The same of a MultiplexNetwork: lines 555-559 list the edges of the subnetwork (the
    couplings are "restored" without having been removed, so coupling edges are listed too). *)
Definition msubnet_iter (p : mpx) (rem : list nat) (redges : bool) : res (list mpx) :=
  if forallb (fun a => bool_decide (a <= maspects p)%nat) rem then
    let? Ls := rmapM (fun c =>
        let? sub := msubnet p (Some <$> c) false in
        if redges then
          let? E := medges sub in
          rmapM (fun es : list (list name * Z) =>
            let? q := msubnet sub (Some <$> c) true in
            rfold (fun q (e : list name * Z) => let? w := pgetitem sub (e.1) in mdo q (MSet (e.1) w)) q es) (all_combinations E)
        else Ok [sub]) (iter_choices (mslices p) rem) in
    Ok (concat Ls)
  else Err AssertionError.
