(** * The configuration model for multiplex networks (/repo/pymnet/models.py 15-150,
    203-289).  Definitions only.

    [single_layer_conf] is called with the intra-layer network [net.A[l]] of a
    MultiplexNetwork: it is the code modelled in Conf.v, but every read and every
    write goes to the layer [l] of the multiplex network.  The random outcomes are
    inputs as in Conf.v. *)
From Verif Require Export Conf.

(** [net.A[l][a,b]] and [net.A[l][a,b]=w]. *)
Definition mgetw (l : name) (p : mpx) (a b : name) : res Z := agetitem p (LBare l) [a; b].
Definition msetw (l : name) (p : mpx) (a b : name) (w : Z) : res mpx := do_mop p (MASet (LBare l) [a; b] w).

(** The local variables of [single_layer_conf], see [cst]; [d_net] is the multiplex
    network whose layer is filled. *)
Record dst := DSt {
  d_net : mpx;
  d_slots : list (name * name);
  d_self : dict name (list nat);
  d_multi : list (name * name);
  d_idx : dict (name * name) (list nat)
}.

(** models.py 80-92: the edge in slot [s]. *)
Definition mconf_edge (l : name) (st : dst) (t : nat * (name * name)) : res dst :=
  let '(s, (a, b)) := t in
  let? e := nsort a b in
  let '(x, y) := e in
  let idx := dset (d_idx st) (x, y) (default [] (dget (d_idx st) (x, y)) ++ [s]) in
  let? w := mgetw l (d_net st) x y in
  let multi := if decide (w <> 0%Z) then sadd (x, y) (d_multi st) else d_multi st in
  if decide (x = y) then
    Ok (DSt (d_net st) (d_slots st) (dset (d_self st) x (default [] (dget (d_self st) x) ++ [s])) multi idx)
  else
    let? n := msetw l (d_net st) x y 1 in
    Ok (DSt n (d_slots st) (d_self st) multi idx).

(** models.py 99 and 128: [random.sample(xrange(len(stubs)/2),2)]; consumes one
    outcome. *)
Definition mdraw (st : dst) (rnd : list (nat * nat)) : res (nat * nat * list (nat * nat)) :=
  if decide (length (d_slots st) < 2) then Err ValueError
  else match rnd with
       | [] => Err OutOfFuel
       | (e1, e2) :: rnd' =>
         if decide (e1 <> e2 /\ e1 < length (d_slots st) /\ e2 < length (d_slots st)) then Ok (e1, e2, rnd') else Err OutOfFuel
       end.
Definition mslot (st : dst) (s : nat) : res (name * name) :=
  match d_slots st !! s with Some q => Ok q | None => Err IndexError end.
Definition mput (l : name) (n : mpx) (q : name * name * Z) : res mpx := msetw l n ((q.1).1) ((q.1).2) (q.2).

(** models.py 98-115: one pass of the loop that removes the self-edge of [node] in
    slot [si]; [None]: repeat. *)
Definition mself_try (l : name) (st : dst) (node : name) (si e1 e2 : nat) : res (option dst) :=
  let? q1 := mslot st e1 in let? q2 := mslot st e2 in
  let c := [node; q1.1; q1.2; q2.1; q2.2] in
  let? p1 := nsort (q1.1) (q1.2) in let? p2 := nsort (q2.1) (q2.2) in
  let '(n2, n3) := p1 in let '(n4, n5) := p2 in
  if decide (NoDup c) then
    if decide ((n2, n3) ∉ d_multi st /\ (n4, n5) ∉ d_multi st) then
      let? w1 := mgetw l (d_net st) node n2 in let? w2 := mgetw l (d_net st) node n4 in let? w3 := mgetw l (d_net st) n3 n5 in
      if decide (w1 = 0%Z /\ w2 = 0%Z /\ w3 = 0%Z) then
        let? n := rfold (mput l) (d_net st) [(n2, n3, 0%Z); (n4, n5, 0%Z); (node, n2, 1%Z); (node, n4, 1%Z); (n3, n5, 1%Z)] in
        let? s0 := nsort n3 n5 in let? s1 := nsort node n2 in let? s2 := nsort node n4 in
        Ok (Some (DSt n (<[e2 := s2]> (<[e1 := s1]> (<[si := s0]> (d_slots st)))) (d_self st) (d_multi st) (d_idx st)))
      else Ok None
    else Ok None
  else Ok None.
Fixpoint mself_loop (l : name) (fuel : nat) (st : dst) (node : name) (si : nat) (rnd : list (nat * nat)) : res (dst * list (nat * nat)) :=
  match fuel with
  | O => Err OutOfFuel
  | S f =>
    let? d := mdraw st rnd in
    let '(e1, e2, rnd') := d in
    let? r := mself_try l st node si e1 e2 in
    match r with Some st' => Ok (st', rnd') | None => mself_loop l f st node si rnd' end
  end.
(** models.py 94-115: [for node,sis in selfedges.items(): for si in sis]. *)
Definition mself_phase (l : name) (st : dst) (rnd : list (nat * nat)) : res (dst * list (nat * nat)) :=
  rfold (fun s t => mself_loop l (S (length (s.2))) (s.1) (t.1) (t.2) (s.2)) (st, rnd)
    (d_self st ≫= fun kv => (fun si => (kv.1, si)) <$> kv.2).

(** models.py 127-150: one pass of the loop that removes two parallel edges
    (n1,n2). *)
Definition mmulti_try (l : name) (st : dst) (n1 n2 : name) (e1 e2 : nat) : res (option dst) :=
  let? q1 := mslot st e1 in let? q2 := mslot st e2 in
  let c := [n1; n2; q1.1; q1.2; q2.1; q2.2] in
  let? p1 := nsort (q1.1) (q1.2) in let? p2 := nsort (q2.1) (q2.2) in
  let '(n3, n4) := p1 in let '(n5, n6) := p2 in
  if decide (NoDup c) then
    if decide ((n3, n4) ∉ d_multi st /\ (n5, n6) ∉ d_multi st) then
      let? w1 := mgetw l (d_net st) n1 n3 in let? w2 := mgetw l (d_net st) n2 n4 in
      let? w3 := mgetw l (d_net st) n1 n5 in let? w4 := mgetw l (d_net st) n2 n6 in
      if decide (w1 = 0%Z /\ w2 = 0%Z /\ w3 = 0%Z /\ w4 = 0%Z) then
        match dget (d_idx st) (n1, n2) with
        | None => Err KeyError
        | Some js =>
          let? n := (if decide (length js = 2) then msetw l (d_net st) n1 n2 0 else Ok (d_net st)) in
          let? v1 := mgetw l n n3 n4 in let? v2 := mgetw l n n5 n6 in
          if decide (v1 = 1%Z /\ v2 = 1%Z) then
            let? n' := rfold (mput l) n [(n3, n4, 0%Z); (n5, n6, 0%Z); (n1, n3, 1%Z); (n2, n4, 1%Z); (n1, n5, 1%Z); (n2, n6, 1%Z)] in
            match reverse js with
            | x :: y :: r =>
              let si1 := Nat.min x y in let si2 := Nat.max x y in
              let? s1 := nsort n1 n3 in let? s2 := nsort n2 n4 in let? s3 := nsort n1 n5 in let? s4 := nsort n2 n6 in
              Ok (Some (DSt n' (<[e2 := s4]> (<[e1 := s3]> (<[si2 := s2]> (<[si1 := s1]> (d_slots st)))))
                (d_self st) (d_multi st) (dset (d_idx st) (n1, n2) (reverse r))))
            | _ => Err IndexError
            end
          else Err AssertionError
        end
      else Ok None
    else Ok None
  else Ok None.
Fixpoint mmulti_loop (l : name) (fuel : nat) (st : dst) (n1 n2 : name) (rnd : list (nat * nat)) : res (dst * list (nat * nat)) :=
  match fuel with
  | O => Err OutOfFuel
  | S f =>
    let? d := mdraw st rnd in
    let '(e1, e2, rnd') := d in
    let? r := mmulti_try l st n1 n2 e1 e2 in
    match r with Some st' => Ok (st', rnd') | None => mmulti_loop l f st n1 n2 rnd' end
  end.
Definition mmulti_edge (l : name) (s : dst * list (nat * nat)) (q : name * name) : res (dst * list (nat * nat)) :=
  match dget (d_idx (s.1)) q with
  | None => Err KeyError
  | Some js => rfold (fun s _ => mmulti_loop l (S (length (s.2))) (s.1) (q.1) (q.2) (s.2)) s (replicate (length js / 2) tt)
  end.

(** models.py 15-150 [single_layer_conf(net.A[l],degs,degstype="nodes")]. *)
Definition layer_conf (l : name) (p : mpx) (degs : list (name * nat)) (sh : list name) (order : list (name * name)) (rnd : list (nat * nat)) : res mpx :=
  let? n := mbuild p (degs ≫= fun xk => if decide (xk.2 = 0) then [MAAddNode (LBare l) (xk.1)] else []) in
  let nstubs := sum_list (degs.*2) in
  let nodes := length degs in
  if decide (Nat.even nstubs = true /\ nstubs <= nodes * (nodes - 1)) then
    if decide (sh ≡ₚ degs ≫= fun xk => replicate (xk.2) (xk.1)) then
      let slots := pair_up sh in
      let? st := rfold (mconf_edge l) (DSt n slots [] [] []) (zip (seq 0 (length slots)) slots) in
      let? r := mself_phase l st rnd in
      if decide (order ≡ₚ d_multi st) then
        let? r' := rfold (mmulti_edge l) r order in Ok (d_net (r'.1))
      else Err OutOfFuel
    else Err OutOfFuel
  else Err AssertionError.
(** The random outcomes for one layer: shuffled stubs, order of the multi-edges,
    sampled pairs of edges. *)
Record outcomes := Outc { o_sh : list name; o_order : list (name * name); o_rnd : list (nat * nat) }.
(** models.py 285-287: one layer. *)
Definition conf_layer (p : mpx) (t : name * (list (name * nat) * outcomes)) : res mpx :=
  let '(l, (degs, o)) := t in
  let? p1 := do_mop p (MAddLayer l 1) in
  layer_conf l p1 degs (o_sh o) (o_order o) (o_rnd o).
(** models.py 264-278: [nodeAligned]; the set (number) of nodes of each layer is
    compared with that of the previous layer. *)
Fixpoint consec {A} (R : A -> A -> bool) (l : list A) : bool :=
  match l with
  | x :: l' => match l' with y :: _ => R x y && consec R l' | [] => true end
  | [] => true
  end.
Definition same_set (a b : list name) : bool := bool_decide (a ⊆ b /\ b ⊆ a).
Definition aligned_nodes (ds : list (list (name * nat))) : bool := consec (fun a b => same_set (a.*1) (b.*1)) ds.
Definition aligned_dist (ds : list (list (nat * nat))) : bool := consec (fun a b => sum_list (a.*2) =? sum_list (b.*2)) ds.
(** models.py 258-289 [conf] with degstype "nodes", for a dict of dicts (the keys are
    the layer names) or a list of dicts (the layers are numbered). *)
Definition conf_nodes (c : coupling) (ls : list (name * (list (name * nat) * outcomes))) : res mpx :=
  rfold conf_layer (new_mpx [c] false 0 (aligned_nodes (fst <$> ls.*2))) ls.
(** The same with degstype "distribution"; [perm] is the shuffled list of node
    numbers, see [dist_degs]. *)
Definition conf_layer_dist (p : mpx) (t : name * (list (nat * nat) * list nat * outcomes)) : res mpx :=
  let '(l, (dist, perm, o)) := t in
  let? p1 := do_mop p (MAddLayer l 1) in
  if decide (perm ≡ₚ seq 0 (sum_list (dist.*2))) then layer_conf l p1 (dist_degs dist perm) (o_sh o) (o_order o) (o_rnd o) else Err OutOfFuel.
Definition conf_dist (c : coupling) (ls : list (name * (list (nat * nat) * list nat * outcomes))) : res mpx :=
  rfold conf_layer_dist (new_mpx [c] false 0 (aligned_dist ((fun t => t.2.1.1) <$> ls))) ls.
(** models.py 233-241: the degrees of the layers of a MultiplexNetwork. *)
Definition layer_degs (p : mpx) (l : layer) : res (name * list (name * nat)) :=
  match l, pA p l with
  | LBare x, Some m => Ok (x, (fun y => (y, Z.to_nat (degree m [y] None))) <$> iter_nodes m None)
  | _, _ => Err KeyError
  end.
(** models.py 233-241 [conf] of a MultiplexNetwork.  The couplings of the argument are
    not passed on, so that the result has the default ("categorical",1.0).  Without
    layers the first key of the dict cannot be taken (StopIteration). *)
Definition conf_of_mpx (p : mpx) (os : list outcomes) : res mpx :=
  if decide (maspects p = 1) then
    let? ds := rmapM (layer_degs p) (mlayers p) in
    match ds with
    | [] => Err StopIter
    | _ => if decide (length os = length ds) then conf_nodes (CCat 1) (zip_with (fun d o => (d.1, (d.2, o))) ds os) else Err OutOfFuel
    end
  else Err AssertionError.
