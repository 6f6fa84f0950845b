(** * Random and regular network models (/repo/pymnet/models.py).  Definitions only.

    Random numbers are inputs: every function takes the outcomes of the random
    calls it makes, and the theorems quantify over all of them. *)
From Coq Require Export QArith.
From Verif Require Export Trans Mpx.
Close Scope Q_scope.

(** A call that a generator makes on the single-layer network it fills. *)
Inductive gcall := GAdd (x : name) | GLink (x y : name).
Global Instance gcall_eq_dec : EqDecision gcall.
Proof. solve_decision. Defined.
(** The same call on a MultilayerNetwork with no aspects, and on [net.A[l]]. *)
Definition g_op (g : gcall) : op := match g with GAdd x => OpAddNode x None | GLink x y => OpSet [x; y] 1 end.
Definition g_mop (l : name) (g : gcall) : mop :=
  match g with GAdd x => MAAddNode (LBare l) x | GLink x y => MASet (LBare l) [x; y] 1 end.
(** Library code filling a MultiplexNetwork. *)
Definition do_mop (p : mpx) (o : mop) : res mpx :=
  match mstep p o with (p', Ok _) => Ok p' | (_, Err e) => Err e end.
Definition mbuild (p : mpx) (os : list mop) : res mpx := rfold do_mop p os.

(** [range(n)] as node names. *)
Definition range (n : nat) : list name := (fun i => NInt (Z.of_nat i)) <$> seq 0 n.
Definition node_at (nodes : list name) (i : nat) : res name :=
  match nodes !! i with Some x => Ok x | None => Err IndexError end.

(** ** Erdos-Renyi networks *)
(** models.py 199-200: the decoding of an edge index,
    [v=int(1+floor(-0.5+sqrt(0.25+2*k)))], [w=k-v*(v-1)/2].  The floating point
    square root is taken to be exact: [floor(-0.5+sqrt(0.25+2*k))] is
    [(isqrt(8*k+1)-1)/2] (see [decode_floor]). *)
Definition decode (k : nat) : nat * nat :=
  let v := Z.to_nat (1 + (Z.sqrt (8 * Z.of_nat k + 1) - 1) / 2)%Z in
  (v, k - v * (v - 1) / 2).
(** models.py 186-195: the G(n,p) loop.  [s i] is the value of
    [int(floor(log(1-r)/log(1-p)))] in the i-th pass; [w1] is [w+1], so that it
    starts with 0.  Result: the pairs (v,w) that are linked. *)
Fixpoint gnp_inner (fuel n v w : nat) : nat * nat :=
  match fuel with
  | O => (v, w)
  | S f => if decide (v <= w /\ v < n) then gnp_inner f n (S v) (w - v) else (v, w)
  end.
Fixpoint gnp_loop (fuel n : nat) (s : nat -> nat) (i v w1 : nat) : res (list (nat * nat)) :=
  if decide (v < n) then
    match fuel with
    | O => Err OutOfFuel
    | S f =>
      let '(v', w') := gnp_inner (n - v) n v (w1 + s i) in
      if decide (v' < n) then
        let? r := gnp_loop f n s (S i) v' (S w') in Ok ((v', w') :: r)
      else gnp_loop f n s (S i) v' (S w')
    end
  else Ok [].
(** The random inputs of one call of [single_layer_er]: [ErP p s] is p=p with skips
    [s]; [ErEdges m k] is edges=m with [random.sample] returning [k]. *)
Inductive er_par := ErP (p : Q) (s : nat -> nat) | ErEdges (m : nat) (k : list nat).
Definition link_nodes (nodes : list name) (vw : nat * nat) : res gcall :=
  let? x := node_at nodes (vw.1) in let? y := node_at nodes (vw.2) in Ok (GLink x y).
(** models.py 155-201 [single_layer_er]: the calls made on the network.
    [math.log(1-p)] is 0 for p=0 (ZeroDivisionError) and raises ValueError for
    p>1; both only if the loop is entered.  p<0 is not modelled. *)
Definition single_layer_er (nodes : list name) (par : er_par) : res (list gcall) :=
  let n := length nodes in
  let adds := GAdd <$> nodes in
  match par with
  | ErP p s =>
    if Qeq_bool p 1%Q then
      Ok (adds ++ (nodes ≫= fun x => nodes ≫= fun y => if decide (x <> y) then [GLink x y] else []))
    else if decide (n <= 1) then Ok adds
    else if Qeq_bool p 0%Q then Err ZeroDivisionError
    else if Qle_bool p 1%Q then
      let? l := gnp_loop (n * n) n s 0 1 0 in let? ls := rmapM (link_nodes nodes) l in Ok (adds ++ ls)
    else Err ValueError
  | ErEdges m k =>
    if decide (m <= n * (n - 1) / 2) then let? ls := rmapM (link_nodes nodes) (decode <$> k) in Ok (adds ++ ls)
    else Err ValueError
  end.
(** [single_layer_er] of an empty MultilayerNetwork with no aspects. *)
Definition er_single (nodes : list name) (par : er_par) : res mlnet :=
  let? cs := single_layer_er nodes par in build (new_net 0 0 false true) (g_op <$> cs).
(** models.py 293-365 [er] of an int and a number: a network with no aspects. *)
Definition er_mono (n : nat) (par : er_par) : res mlnet := er_single (range n) par.
(** models.py 347-365 and 388-393: the layers are filled one after the other. *)
Definition er_layer (p : mpx) (t : name * (list name * er_par)) : res mpx :=
  let? p1 := do_mop p (MAddLayer (t.1) 1) in
  let? cs := single_layer_er ((t.2).1) ((t.2).2) in
  mbuild p1 (g_mop (t.1) <$> cs).
(** models.py 293-365 [er] with a list of parameters, for an int [n] (fully
    interconnected, every layer has the nodes range(n)) or a list of node lists;
    366-393 [er_partially_interconnected] with a categorical coupling. *)
Definition er_multiplex (cs : list coupling) (fi : bool) (ls : list (list name * er_par)) : res mpx :=
  rfold er_layer (new_mpx cs false 0 fi) (zip (range (length ls)) ls).

(** ** Full networks *)
(** models.py 420-427: [full] with [layers=None]. *)
Definition full_mono (n : nat) : res mlnet :=
  build (new_net 0 0 false true)
    (range n ≫= fun x => range n ≫= fun y => if decide (x <> y) then [OpSet [x; y] 1] else []).
(** models.py 428-442: [full] with a sequence of layer names, or an int ([range]). *)
Definition full_mpx (c : coupling) (n : nat) (layers : list name) : res mpx :=
  mbuild (new_mpx [c] false 0 true)
    (layers ≫= fun l => range n ≫= fun x => range n ≫= fun y => if decide (x <> y) then [MSet [x; y; l; l] 1] else []).
(** models.py 440-468 [full_multilayer]. *)
Definition full_multilayer (n : nat) (layers : list name) : res mlnet :=
  build (new_net 1 0 false true)
    (layers ≫= fun l1 => layers ≫= fun l2 => range n ≫= fun x => range n ≫= fun y =>
       if decide (x <> y \/ l1 <> l2) then [OpSet [x; y; l1; l2] 1] else []).
(** models.py 470-508 [er_multilayer]; [coin l1 l2 i j] is the outcome of
    [random.random()<p] and [wt l1 l2 i j] the weight that is written (1 unless
    [randomWeights]). *)
Definition er_multilayer (n : nat) (layers : list name) (coin : name -> name -> nat -> nat -> bool)
  (wt : name -> name -> nat -> nat -> Z) : res mlnet :=
  build (new_net 1 0 false true)
    (layers ≫= fun l1 => layers ≫= fun l2 => seq 0 n ≫= fun i => seq (S i) (n - S i) ≫= fun j =>
       if coin l1 l2 i j then [OpSet [NInt (Z.of_nat i); NInt (Z.of_nat j); l1; l2] (wt l1 l2 i j)] else []).

(** ** Barabasi-Albert networks *)
(** models.py 824-826: [while len(link_set)<m: link_set|=set(random.sample(links,m-len(link_set)))].
    The samples are taken from [rnd], which is consumed; each sample is given by
    the positions chosen in [links].  [OutOfFuel]: [rnd] is used up or is not a
    possible sequence of outcomes.  The order in which sets are iterated only
    permutes [links], so that it is covered by quantifying over the samples. *)
Fixpoint ba_fill (links : list name) (m : nat) (ls : list name) (rnd : list (list nat)) : res (list name * list (list nat)) :=
  if decide (length ls < m) then
    if decide (m - length ls <= length links) then
      match rnd with
      | [] => Err OutOfFuel
      | k :: rnd' =>
        if decide (length k = m - length ls /\ NoDup k /\ Forall (fun i => i < length links) k) then
          ba_fill links m (foldl (fun s x => sadd x s) ls (omap (fun i => links !! i) k)) rnd'
        else Err OutOfFuel
      end
    else Err ValueError
  else Ok (ls, rnd).
(** models.py 816-836: one layer of node [i]; the state is (network, link sets so
    far, random outcomes). *)
Definition ba_layer (i : nat) (links : list name) (st : mpx * list (list name) * list (list nat)) (lm : nat * nat)
  : res (mpx * list (list name) * list (list nat)) :=
  let '(p, sets, rnd) := st in
  let '(layer, m) := lm in
  let? r := (if decide (i = m) then Ok (range i, rnd)
             else if decide (m < i) then ba_fill links m [] rnd
             else Ok ([], rnd)) in
  let '(ls, rnd') := r in
  let? p' := mbuild p ((fun j => MSet [NInt (Z.of_nat i); j; NInt (Z.of_nat layer)] 1) <$> ls) in
  Ok (p', sets ++ [ls], rnd').
(** models.py 812-840: one node. *)
Definition ba_node (ms : list nat) (st : mpx * list name * list (list nat)) (i : nat) : res (mpx * list name * list (list nat)) :=
  let '(p, links, rnd) := st in
  let? p1 := do_mop p (MAddNode (NInt (Z.of_nat i)) None) in
  let? r := rfold (ba_layer i links) (p1, [], rnd) (zip (seq 0 (length ms)) ms) in
  let '(p2, sets, rnd') := r in
  Ok (p2, foldl (fun ks s => ks ++ s ++ replicate (length s) (NInt (Z.of_nat i))) links sets, rnd').
(** models.py 785-842 [ba_total_degree]. *)
Definition ba_total_degree (c : coupling) (n : nat) (ms : list nat) (rnd : list (list nat)) : res mpx :=
  let? r := rfold (ba_node ms) (new_mpx [c] false 0 true, [], rnd) (seq 0 n) in Ok ((r.1).1).
