(** * The configuration model (/repo/pymnet/models.py 15-150, 203-258).
    Definitions only.

    The outcomes of the random calls are inputs: the shuffled stubs, the pairs of
    edges drawn by [random.sample] (consumed from a list) and the order in which
    the set of multi-edges is iterated.  [OutOfFuel] stands for a list of outcomes
    that is used up or contains something the call cannot return. *)
From Verif Require Export Models.

(** [sorted([a,b])]: comparing an int with a str raises TypeError. *)
Definition nsort (a b : name) : res (name * name) :=
  let? g := py_gt a b in Ok (if g then (b, a) else (a, b)).
(** [net[a,b]] and [net[a,b]=w] for a network with no aspects. *)
Definition getw (n : mlnet) (a b : name) : res Z :=
  match getitem n (INm <$> [a; b]) with Ok (GWeight w) => Ok w | Ok _ => Err TypeError | Err e => Err e end.
Definition setw (n : mlnet) (a b : name) (w : Z) : res mlnet := do_op n (OpSet [a; b] w).

(** The local variables [net], [stubs], [selfedges], [multiedges], [edgetoindex].
    Simplification: the flat list [stubs] is kept as the list of its consecutive
    pairs, and the index 2*s of a pair is written s. *)
Record cst := CSt {
  c_net : mlnet;
  c_slots : list (name * name);
  c_self : dict name (list nat);
  c_multi : list (name * name);
  c_idx : dict (name * name) (list nat)
}.
Fixpoint pair_up {A} (l : list A) : list (A * A) :=
  match l with x :: y :: l => (x, y) :: pair_up l | _ => [] end.

(** models.py 80-92: the edge in slot [s]. *)
Definition conf_edge (st : cst) (t : nat * (name * name)) : res cst :=
  let '(s, (a, b)) := t in
  let? e := nsort a b in
  let '(x, y) := e in
  let idx := dset (c_idx st) (x, y) (default [] (dget (c_idx st) (x, y)) ++ [s]) in
  let? w := getw (c_net st) x y in
  let multi := if decide (w <> 0%Z) then sadd (x, y) (c_multi st) else c_multi st in
  if decide (x = y) then
    Ok (CSt (c_net st) (c_slots st) (dset (c_self st) x (default [] (dget (c_self st) x) ++ [s])) multi idx)
  else
    let? n := setw (c_net st) x y 1 in
    Ok (CSt n (c_slots st) (c_self st) multi idx).

(** models.py 99 and 128: [random.sample(xrange(len(stubs)/2),2)]; consumes one
    outcome. *)
Definition draw (st : cst) (rnd : list (nat * nat)) : res (nat * nat * list (nat * nat)) :=
  if decide (length (c_slots st) < 2) then Err ValueError
  else match rnd with
       | [] => Err OutOfFuel
       | (e1, e2) :: rnd' =>
         if decide (e1 <> e2 /\ e1 < length (c_slots st) /\ e2 < length (c_slots st)) then Ok (e1, e2, rnd') else Err OutOfFuel
       end.
Definition slot (st : cst) (s : nat) : res (name * name) :=
  match c_slots st !! s with Some q => Ok q | None => Err IndexError end.
Definition put (n : mlnet) (q : name * name * Z) : res mlnet := setw n ((q.1).1) ((q.1).2) (q.2).

(** models.py 98-115: one pass of the loop that removes the self-edge of [node] in
    slot [si]; [None]: repeat. *)
Definition self_try (st : cst) (node : name) (si e1 e2 : nat) : res (option cst) :=
  let? q1 := slot st e1 in let? q2 := slot st e2 in
  let c := [node; q1.1; q1.2; q2.1; q2.2] in
  let? p1 := nsort (q1.1) (q1.2) in let? p2 := nsort (q2.1) (q2.2) in
  let '(n2, n3) := p1 in let '(n4, n5) := p2 in
  if decide (NoDup c) then
    if decide ((n2, n3) ∉ c_multi st /\ (n4, n5) ∉ c_multi st) then
      let? w1 := getw (c_net st) node n2 in let? w2 := getw (c_net st) node n4 in let? w3 := getw (c_net st) n3 n5 in
      if decide (w1 = 0%Z /\ w2 = 0%Z /\ w3 = 0%Z) then
        let? n := rfold put (c_net st) [(n2, n3, 0%Z); (n4, n5, 0%Z); (node, n2, 1%Z); (node, n4, 1%Z); (n3, n5, 1%Z)] in
        let? s0 := nsort n3 n5 in let? s1 := nsort node n2 in let? s2 := nsort node n4 in
        Ok (Some (CSt n (<[e2 := s2]> (<[e1 := s1]> (<[si := s0]> (c_slots st)))) (c_self st) (c_multi st) (c_idx st)))
      else Ok None
    else Ok None
  else Ok None.
Fixpoint self_loop (fuel : nat) (st : cst) (node : name) (si : nat) (rnd : list (nat * nat)) : res (cst * list (nat * nat)) :=
  match fuel with
  | O => Err OutOfFuel
  | S f =>
    let? d := draw st rnd in
    let '(e1, e2, rnd') := d in
    let? r := self_try st node si e1 e2 in
    match r with Some st' => Ok (st', rnd') | None => self_loop f st node si rnd' end
  end.
(** models.py 94-115: [for node,sis in selfedges.items(): for si in sis]. *)
Definition self_phase (st : cst) (rnd : list (nat * nat)) : res (cst * list (nat * nat)) :=
  rfold (fun s t => self_loop (S (length (s.2))) (s.1) (t.1) (t.2) (s.2)) (st, rnd)
    (c_self st ≫= fun kv => (fun si => (kv.1, si)) <$> kv.2).

(** models.py 127-150: one pass of the loop that removes two parallel edges
    (n1,n2). *)
Definition multi_try (st : cst) (n1 n2 : name) (e1 e2 : nat) : res (option cst) :=
  let? q1 := slot st e1 in let? q2 := slot st e2 in
  let c := [n1; n2; q1.1; q1.2; q2.1; q2.2] in
  let? p1 := nsort (q1.1) (q1.2) in let? p2 := nsort (q2.1) (q2.2) in
  let '(n3, n4) := p1 in let '(n5, n6) := p2 in
  if decide (NoDup c) then
    if decide ((n3, n4) ∉ c_multi st /\ (n5, n6) ∉ c_multi st) then
      let? w1 := getw (c_net st) n1 n3 in let? w2 := getw (c_net st) n2 n4 in
      let? w3 := getw (c_net st) n1 n5 in let? w4 := getw (c_net st) n2 n6 in
      if decide (w1 = 0%Z /\ w2 = 0%Z /\ w3 = 0%Z /\ w4 = 0%Z) then
        match dget (c_idx st) (n1, n2) with
        | None => Err KeyError
        | Some l =>
          let? n := (if decide (length l = 2) then setw (c_net st) n1 n2 0 else Ok (c_net st)) in
          let? v1 := getw n n3 n4 in let? v2 := getw n n5 n6 in
          if decide (v1 = 1%Z /\ v2 = 1%Z) then
            let? n' := rfold put n [(n3, n4, 0%Z); (n5, n6, 0%Z); (n1, n3, 1%Z); (n2, n4, 1%Z); (n1, n5, 1%Z); (n2, n6, 1%Z)] in
            match reverse l with
            | x :: y :: r =>
              let si1 := Nat.min x y in let si2 := Nat.max x y in
              let? s1 := nsort n1 n3 in let? s2 := nsort n2 n4 in let? s3 := nsort n1 n5 in let? s4 := nsort n2 n6 in
              Ok (Some (CSt n' (<[e2 := s4]> (<[e1 := s3]> (<[si2 := s2]> (<[si1 := s1]> (c_slots st)))))
                (c_self st) (c_multi st) (dset (c_idx st) (n1, n2) (reverse r))))
            | _ => Err IndexError
            end
          else Err AssertionError
        end
      else Ok None
    else Ok None
  else Ok None.
Fixpoint multi_loop (fuel : nat) (st : cst) (n1 n2 : name) (rnd : list (nat * nat)) : res (cst * list (nat * nat)) :=
  match fuel with
  | O => Err OutOfFuel
  | S f =>
    let? d := draw st rnd in
    let '(e1, e2, rnd') := d in
    let? r := multi_try st n1 n2 e1 e2 in
    match r with Some st' => Ok (st', rnd') | None => multi_loop f st n1 n2 rnd' end
  end.
Definition multi_edge (s : cst * list (nat * nat)) (q : name * name) : res (cst * list (nat * nat)) :=
  match dget (c_idx (s.1)) q with
  | None => Err KeyError
  | Some l => rfold (fun s _ => multi_loop (S (length (s.2))) (s.1) (q.1) (q.2) (s.2)) s (replicate (length l / 2) tt)
  end.

(** models.py 15-150 [single_layer_conf] with degstype "nodes", filling an empty
    network; [sh] is the result of [random.shuffle(stubs)], [order] the iteration
    order of [multiedges]. *)
Definition single_layer_conf (degs : list (name * nat)) (sh : list name) (order : list (name * name)) (rnd : list (nat * nat)) : res mlnet :=
  let? n := build (new_net 0 0 false true) (degs ≫= fun xk => if decide (xk.2 = 0) then [OpAddNode (xk.1) None] else []) in
  let nstubs := sum_list (degs.*2) in
  let nodes := length degs in
  if decide (Nat.even nstubs = true /\ nstubs <= nodes * (nodes - 1)) then
    if decide (sh ≡ₚ degs ≫= fun xk => replicate (xk.2) (xk.1)) then
      let slots := pair_up sh in
      let? st := rfold conf_edge (CSt n slots [] [] []) (zip (seq 0 (length slots)) slots) in
      let? r := self_phase st rnd in
      if decide (order ≡ₚ c_multi st) then
        let? r' := rfold multi_edge r order in Ok (c_net (r'.1))
      else Err OutOfFuel
    else Err OutOfFuel
  else Err AssertionError.
(** models.py 46-60: degstype "distribution"; [perm] is the shuffled list of node
    numbers.  The nodes are taken from it in turn, so that this is the call with
    the degrees that the positions get. *)
Definition dist_degs (dist : list (nat * nat)) (perm : list nat) : list (name * nat) :=
  zip ((fun i => NInt (Z.of_nat i)) <$> perm) (dist ≫= fun kn => replicate (kn.2) (kn.1)).
Definition single_layer_conf_dist (dist : list (nat * nat)) (perm : list nat) (sh : list name) (order : list (name * name))
  (rnd : list (nat * nat)) : res mlnet :=
  if decide (perm ≡ₚ seq 0 (sum_list (dist.*2))) then single_layer_conf (dist_degs dist perm) sh order rnd else Err OutOfFuel.
(** models.py 203-256 [conf] of a MultilayerNetwork with no aspects: a network with
    the same degrees.  An empty network gives an empty dict, whose first key cannot
    be taken (StopIteration). *)
Definition conf_of (m : mlnet) (sh : list name) (order : list (name * name)) (rnd : list (nat * nat)) : res mlnet :=
  if decide (aspects m = 0) then
    match iter_nodes m None with
    | [] => Err StopIter
    | xs => single_layer_conf ((fun x => (x, Z.to_nat (degree m [x] None))) <$> xs) sh order rnd
    end
  else Err AssertionError.
