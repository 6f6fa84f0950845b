(** * Networks with given overlap degrees (/repo/pymnet/models.py 514-705).
    Definitions only.

    The outcomes of the random calls and the iteration orders of sets are inputs, as in
    Conf.v.  [OutOfFuel] stands for outcomes that are used up or that the calls cannot
    return. *)
From Verif Require Export Conf Mpx.

(** The local variables: [o_c] has [net_temp], [stubs] (as a list of pairs), [selfedges],
    [multiedges] and [edgetoindex] (see Conf.v); [o_used] is [used_edges] and [o_taken]
    is [takenedges].  Sets are lists without repetitions. *)
Record ost := OSt {
  o_c : cst;
  o_used : list (name * name);
  o_taken : list (name * name)
}.
(** [used_edges.remove(p)]. *)
Definition urem (p : name * name) (u : list (name * name)) : res (list (name * name)) :=
  if decide (p ∈ u) then Ok (filter (fun q => q <> p) u) else Err KeyError.
Definition urems (ps u : list (name * name)) : res (list (name * name)) := rfold (fun u p => urem p u) u ps.
Definition uadds (ps u : list (name * name)) : list (name * name) := foldl (fun u p => sadd p u) u ps.

(** models.py 582-595: the edge in slot [s]. *)
Definition ov_edge (st : ost) (t : nat * (name * name)) : res ost :=
  let '(s, (a, b)) := t in
  let c := o_c st in
  let? e := nsort a b in
  let '(x, y) := e in
  let idx := dset (c_idx c) (x, y) (default [] (dget (c_idx c) (x, y)) ++ [s]) in
  if decide (x = y) then
    Ok (OSt (CSt (c_net c) (c_slots c) (dset (c_self c) x (default [] (dget (c_self c) x) ++ [s])) (c_multi c) idx) (o_used st) (o_taken st))
  else
    let? w := getw (c_net c) x y in
    if decide (w <> 0%Z) then
      Ok (OSt (CSt (c_net c) (c_slots c) (c_self c) (sadd (x, y) (c_multi c)) idx) (o_used st) (o_taken st))
    else if decide ((x, y) ∈ o_used st) then
      Ok (OSt (CSt (c_net c) (c_slots c) (c_self c) (c_multi c) idx) (o_used st) (sadd (x, y) (o_taken st)))
    else
      let? n := setw (c_net c) x y 1 in
      Ok (OSt (CSt n (c_slots c) (c_self c) (c_multi c) idx) (sadd (x, y) (o_used st)) (o_taken st)).

(** models.py 601-626: one pass of the loop that removes the self-edge of [node] in slot
    [si]; [None]: repeat. *)
Definition ov_self_try (st : ost) (node : name) (si i1 i2 : nat) : res (option ost) :=
  let c := o_c st in
  let? q1 := slot c i1 in let? q2 := slot c i2 in
  let? p1 := nsort (q1.1) (q1.2) in let? p2 := nsort (q2.1) (q2.2) in
  let '(n2, n3) := p1 in let '(n4, n5) := p2 in
  if decide (NoDup [node; q1.1; q1.2; q2.1; q2.2]) then
    if decide ((n2, n3) ∉ c_multi c /\ (n4, n5) ∉ c_multi c /\ (n2, n3) ∉ o_taken st /\ (n4, n5) ∉ o_taken st) then
      let? e1 := nsort node n2 in let? e2 := nsort node n4 in let? e3 := nsort n3 n5 in
      if decide (e1 ∉ o_used st /\ e2 ∉ o_used st /\ e3 ∉ o_used st) then
        let? n := rfold put (c_net c) [(n2, n3, 0%Z); (n4, n5, 0%Z); (node, n2, 1%Z); (node, n4, 1%Z); (n3, n5, 1%Z)] in
        let? u := urems [(n2, n3); (n4, n5)] (o_used st) in
        Ok (Some (OSt (CSt n (<[i2 := e2]> (<[i1 := e1]> (<[si := e3]> (c_slots c)))) (c_self c) (c_multi c) (c_idx c))
          (uadds [e1; e2; e3] u) (o_taken st)))
      else Ok None
    else Ok None
  else Ok None.
Fixpoint ov_self_loop (fuel : nat) (st : ost) (node : name) (si : nat) (rnd : list (nat * nat)) : res (ost * list (nat * nat)) :=
  match fuel with
  | O => Err OutOfFuel
  | S f =>
    let? d := draw (o_c st) rnd in
    let '(i1, i2, rnd') := d in
    let? r := ov_self_try st node si i1 i2 in
    match r with Some st' => Ok (st', rnd') | None => ov_self_loop f st node si rnd' end
  end.
(** models.py 597-626: [for node,sis in selfedges.items(): for si in sis]. *)
Definition ov_self_phase (st : ost) (rnd : list (nat * nat)) : res (ost * list (nat * nat)) :=
  rfold (fun s t => ov_self_loop (S (length (s.2))) (s.1) (t.1) (t.2) (s.2)) (st, rnd)
    (c_self (o_c st) ≫= fun kv => (fun si => (kv.1, si)) <$> kv.2).

(** models.py 632-665: one pass of the loop that removes two parallel edges (n1,n2). *)
Definition ov_multi_try (st : ost) (n1 n2 : name) (i1 i2 : nat) : res (option ost) :=
  let c := o_c st in
  let? q1 := slot c i1 in let? q2 := slot c i2 in
  let? p1 := nsort (q1.1) (q1.2) in let? p2 := nsort (q2.1) (q2.2) in
  let '(n3, n4) := p1 in let '(n5, n6) := p2 in
  if decide (NoDup [n1; n2; q1.1; q1.2; q2.1; q2.2]) then
    if decide ((n3, n4) ∉ c_multi c /\ (n5, n6) ∉ c_multi c /\ (n3, n4) ∉ o_taken st /\ (n5, n6) ∉ o_taken st) then
      let? e1 := nsort n1 n3 in let? e2 := nsort n2 n4 in let? e3 := nsort n1 n5 in let? e4 := nsort n2 n6 in
      if decide (e1 ∉ o_used st /\ e2 ∉ o_used st /\ e3 ∉ o_used st /\ e4 ∉ o_used st) then
        match dget (c_idx c) (n1, n2) with
        | None => Err KeyError
        | Some l =>
          let? n := (if decide (length l = 2) then setw (c_net c) n1 n2 0 else Ok (c_net c)) in
          let? u := (if decide (length l = 2) then urem (n1, n2) (o_used st) else Ok (o_used st)) in
          let? n' := rfold put n [(n3, n4, 0%Z); (n5, n6, 0%Z); (n1, n3, 1%Z); (n2, n4, 1%Z); (n1, n5, 1%Z); (n2, n6, 1%Z)] in
          match reverse l with
          | x :: y :: r =>
            let si1 := Nat.min x y in let si2 := Nat.max x y in
            let? u' := urems [(n3, n4); (n5, n6)] u in
            Ok (Some (OSt (CSt n' (<[i2 := e4]> (<[i1 := e3]> (<[si2 := e2]> (<[si1 := e1]> (c_slots c)))))
              (c_self c) (c_multi c) (dset (c_idx c) (n1, n2) (reverse r))) (uadds [e1; e2; e3; e4] u') (o_taken st)))
          | _ => Err IndexError
          end
        end
      else Ok None
    else Ok None
  else Ok None.
Fixpoint ov_multi_loop (fuel : nat) (st : ost) (n1 n2 : name) (rnd : list (nat * nat)) : res (ost * list (nat * nat)) :=
  match fuel with
  | O => Err OutOfFuel
  | S f =>
    let? d := draw (o_c st) rnd in
    let '(i1, i2, rnd') := d in
    let? r := ov_multi_try st n1 n2 i1 i2 in
    match r with Some st' => Ok (st', rnd') | None => ov_multi_loop f st n1 n2 rnd' end
  end.
(** models.py 628-665: one pair of [multiedges]. *)
Definition ov_multi_edge (s : ost * list (nat * nat)) (q : name * name) : res (ost * list (nat * nat)) :=
  match dget (c_idx (o_c (s.1))) q with
  | None => Err KeyError
  | Some l => rfold (fun s _ => ov_multi_loop (S (length (s.2))) (s.1) (q.1) (q.2) (s.2)) s (replicate (length l / 2) tt)
  end.

(** models.py 671-699: one pass of the loop that removes the edge (n1,n2) in slot [si],
    which another layer combination already has. *)
Definition ov_taken_try (st : ost) (n1 n2 : name) (si i1 i2 : nat) : res (option ost) :=
  let c := o_c st in
  let? q1 := slot c i1 in let? q2 := slot c i2 in
  let? p1 := nsort (q1.1) (q1.2) in let? p2 := nsort (q2.1) (q2.2) in
  let '(n3, n4) := p1 in let '(n5, n6) := p2 in
  if decide (NoDup [n1; n2; q1.1; q1.2; q2.1; q2.2]) then
    if decide ((n3, n4) ∉ o_taken st /\ (n5, n6) ∉ o_taken st) then
      let? e1 := nsort n1 n3 in let? e2 := nsort n2 n5 in let? e3 := nsort n4 n6 in
      if decide (e1 ∉ o_used st /\ e2 ∉ o_used st /\ e3 ∉ o_used st) then
        let? w1 := getw (c_net c) n3 n4 in let? w2 := getw (c_net c) n5 n6 in
        if decide (w1 = 1%Z /\ w2 = 1%Z) then
          let? n := rfold put (c_net c) [(n3, n4, 0%Z); (n5, n6, 0%Z); (n1, n3, 1%Z); (n2, n5, 1%Z); (n4, n6, 1%Z)] in
          let? u := urems [(n3, n4); (n5, n6)] (o_used st) in
          Ok (Some (OSt (CSt n (<[i2 := e3]> (<[i1 := e2]> (<[si := e1]> (c_slots c)))) (c_self c) (c_multi c) (c_idx c))
            (uadds [e1; e2; e3] u) (o_taken st)))
        else Err AssertionError
      else Ok None
    else Ok None
  else Ok None.
Fixpoint ov_taken_loop (fuel : nat) (st : ost) (n1 n2 : name) (si : nat) (rnd : list (nat * nat)) : res (ost * list (nat * nat)) :=
  match fuel with
  | O => Err OutOfFuel
  | S f =>
    let? d := draw (o_c st) rnd in
    let '(i1, i2, rnd') := d in
    let? r := ov_taken_try st n1 n2 si i1 i2 in
    match r with Some st' => Ok (st', rnd') | None => ov_taken_loop f st n1 n2 si rnd' end
  end.
(** models.py 667-699: one pair of [takenedges]. *)
Definition ov_taken_edge (s : ost * list (nat * nat)) (q : name * name) : res (ost * list (nat * nat)) :=
  match dget (c_idx (o_c (s.1))) q with
  | None => Err KeyError
  | Some l => rfold (fun s si => ov_taken_loop (S (length (s.2))) (s.1) (q.1) (q.2) si (s.2)) s l
  end.

(** The random outcomes for one layer combination: the shuffled stubs, the iteration
    orders of [multiedges] and [takenedges] and the pairs of edges drawn. *)
Record orand := ORand {
  r_shuffle : list name;
  r_multi : list (name * name);
  r_taken : list (name * name);
  r_draws : list (nat * nat)
}.
(** models.py 556-699: [net_temp] and [used_edges] after one layer combination.
    Simplification: degrees are not negative. *)
Definition oc_comb (used : list (name * name)) (degs : list (name * nat)) (r : orand) : res (mlnet * list (name * name)) :=
  let? n := build (new_net 0 0 false true) (degs ≫= fun xk => if decide (xk.2 = 0) then [OpAddNode (xk.1) None] else []) in
  let nstubs := sum_list (degs.*2) in
  let nodes := length degs in
  if decide (Nat.even nstubs = true /\ nstubs <= nodes * (nodes - 1)) then
    if decide (r_shuffle r ≡ₚ degs ≫= fun xk => replicate (xk.2) (xk.1)) then
      let slots := pair_up (r_shuffle r) in
      let? st := rfold ov_edge (OSt (CSt n slots [] [] []) used []) (zip (seq 0 (length slots)) slots) in
      let? s1 := ov_self_phase st (r_draws r) in
      if decide (r_multi r ≡ₚ c_multi (o_c st) /\ r_taken r ≡ₚ o_taken st) then
        let? s2 := rfold ov_multi_edge s1 (r_multi r) in
        let? s3 := rfold ov_taken_edge s2 (r_taken r) in
        Ok (c_net (o_c (s3.1)), o_used (s3.1))
      else Err OutOfFuel
    else Err OutOfFuel
  else Err AssertionError.
(** models.py 701-703: the edges of [net_temp] in the layers of the combination. *)
Definition oc_write (comb : list name) (e : list name * Z) : list mop :=
  match e.1 with x :: y :: _ => (fun l => MSet [x; y; l] 1) <$> comb | _ => [] end.
(** models.py 514-705 [conf_overlaps]; [couplings] is the
    normalised argument, [[CNone None]] for None; [rs]
    has the random outcomes for each layer combination. *)
Definition oc_step (s : mpx * list (name * name)) (t : list name * list (name * nat) * orand) : res (mpx * list (name * name)) :=
  let? r := oc_comb (s.2) ((t.1).2) (t.2) in
  let? p := mbuild (s.1) (edges (r.1) ≫= oc_write ((t.1).1)) in
  Ok (p, r.2).
Definition conf_overlaps (couplings : list coupling) (ol_degs : dict (list name) (list (name * nat))) (rs : list orand) : res mpx :=
  if decide (length ol_degs <= length rs) then
    let? r := rfold oc_step (new_mpx couplings false 0 true, []) (zip ol_degs rs) in Ok (r.1)
  else Err OutOfFuel.
