(** * Clustering coefficients of Battiston, Brodka and Criado et al. and the tensor
    contractions (/repo/pymnet/cc.py 1214-1730).  Definitions only; conventions of Cc.v. *)
From Verif Require Export Cc.
Open Scope Z_scope.

(** [net[x,y,l]!=net.noEdge] *)
Definition lnkb (p : mpx) (x y l : name) : res bool :=
  let? w := pgetitem p [x; y; l] in Ok (negb (bool_decide (w = mnoe p))).
(** [c1 and c2], the second condition evaluated only if the first holds. *)
Definition rand (a b : res bool) : res bool := let? u := a in if u then b else Ok false.
(** [for v in net: if v!=node: for h in net: if h!=node: if c: s+=1] *)
Definition others (p : mpx) (x : name) : list name := filter (fun v => v <> x) (mnodes p).
Definition bat_pairs (p : mpx) (x : name) (c : name -> name -> res bool) : res Z :=
  rsum (fun v => rsum (fun h => let? b := c v h in Ok (if b : bool then 1 else 0)) (others p x)) (others p x).
(** cc.py 1500-1568 [lcc_battiston1]. *)
Definition lcc_battiston1 (p : mpx) (x : name) : res (option Q) :=
  if decide (maspects p = 1%nat) then
    let? ls := layers1 p in
    if decide (2 <= length ls)%nat then
      let? d := rsum (fun al => bat_pairs p x (fun v h => rand (lnkb p x v al) (lnkb p h x al))) ls in
      if decide (d = 0) then Ok None else
      let? s := rsum (fun al => rsum (fun be =>
                  bat_pairs p x (fun v h => rand (rand (lnkb p x v al) (lnkb p v h be)) (lnkb p h x al)))
                  (filter (fun be => be <> al) ls)) ls in
      let? q := zdiv s d in
      let? r := fdiv q (inject_Z (Z.of_nat (length ls) - 1)) in Ok (Some r)
    else Err AssertionError
  else Err AssertionError.
(** cc.py 1573-1646 [lcc_battiston2]. *)
Definition lcc_battiston2 (p : mpx) (x : name) : res (option Q) :=
  if decide (maspects p = 1%nat) then
    let? ls := layers1 p in
    if decide (length ls < 3)%nat then Ok None else
    let? d := rsum (fun al => rsum (fun be =>
                bat_pairs p x (fun v h => rand (lnkb p x v al) (lnkb p h x be))) (filter (fun be => be <> al) ls)) ls in
    if decide (d = 0) then Ok None else
    let? s := rsum (fun al => rsum (fun be => rsum (fun ga =>
                bat_pairs p x (fun v h => rand (rand (lnkb p x v al) (lnkb p v h ga)) (lnkb p h x be)))
                (filter (fun ga => ga <> al /\ ga <> be) ls)) (filter (fun be => be <> al) ls)) ls in
    let? q := zdiv s d in
    let? r := fdiv q (inject_Z (Z.of_nat (length ls) - 2)) in Ok (Some r)
  else Err AssertionError.

(** cc.py 1463-1477 of [lcc_brodka]: the thresholded neighbourhood, counted on the layers
    or read off the aggregated network. *)
Definition count_neighbours (p : mpx) (x : name) (ls : list name) : res (dict name Z) :=
  rfold (fun d l => let? m := intra p (LBare l) in
           Ok (foldl (fun d y => dset d y (default 0 (dget d y) + 1)) d (nbs0 m x))) [] ls.
Definition th_neighbours (p : mpx) (x : name) (an : option mlnet) (th : Z) (ls : list name) : res (list name) :=
  match an with
  | Some an => if mdir p then
                 let? d := count_neighbours p x ls in Ok ((filter (fun kv => th <= kv.2) d).*1)
               else Ok (filter (fun y => th <= w0 an x y) (nbs0 an x))
  | None => let? d := count_neighbours p x ls in Ok ((filter (fun kv => th <= kv.2) d).*1)
  end.
(** cc.py 1400-1497 [lcc_brodka]; [th = None] is the threshold 'all'. *)
Definition lcc_brodka (p : mpx) (x : name) (an : option mlnet) (th : option Z) : res (option Q) :=
  if decide (maspects p = 1%nat) then
    let? ls := layers1 p in
    let th := default (Z.of_nat (length ls)) th in
    let? N := th_neighbours p x an th ls in
    if decide (length N = 0%nat) then Ok (Some 0%Q) else
    let? s := match an with
              | None => rsum (fun l => rsum (fun v => rsum (fun h =>
                          let? u := pgetitem p [h; v; l] in let? w := pgetitem p [v; h; l] in Ok (u + w)) N) N) ls
              | Some an => Ok (zsumf (fun v => zsumf (fun h => w0 an h v + w0 an v h) N) N)
              end in
    if decide (Z.of_nat (length N) * Z.of_nat (length ls) = 0) then Ok None
    else let? q := zdiv s (2 * Z.of_nat (length N) * Z.of_nat (length ls)) in Ok (Some q)
  else Err AssertionError.

(** cc.py 1684-1690 of [lcc_criado]: the set [nu]. *)
Definition criado_nu (p : mpx) (x : name) (an : option mlnet) (ls : list name) : res (list name) :=
  match an with
  | None => rfold (fun s l => let? m := intra p (LBare l) in Ok (foldl (fun s y => sadd y s) s (nbs0 m x))) [] ls
  | Some an => Ok (nbs0 an x)
  end.
(** cc.py 1692-1698: one layer's contributions to [s] and [d]. *)
Definition criado_layer (p : mpx) (nu : list name) (l : name) : res (Z * Z) :=
  let? m := intra p (LBare l) in
  let na := filter (fun y => y ∈ net_nodes m) nu in
  Ok (zsumf (fun y => Z.of_nat (length (filter (fun z => z ∈ na) (nbs0 m y)))) na,
      Z.of_nat (length na) * (Z.of_nat (length na) - 1)).
(** cc.py 1649-1703 [lcc_criado]. *)
Definition lcc_criado (p : mpx) (x : name) (an : option mlnet) : res (option Q) :=
  let? ls := layers1 p in
  let? nu := criado_nu p x an ls in
  let? sd := rmapM (criado_layer p nu) ls in
  let d := zsum (sd.*2) in
  if decide (d = 0) then Ok None else let? q := zdiv (zsum (sd.*1)) d in Ok (Some q).

(** ** cc.py 1214-1397: the [gcc_contraction] functions.  They only use [net.slices[0]],
    [net.slices[1]] and [net[a,b,g,d]] and run on any network with one aspect, so they
    are modelled over these three: [N], [L] and [get].  A loop is a sum; the order of the
    reads only matters for which exception is raised first. *)
Section Contraction.
  Context (get : name -> name -> name -> name -> res Z) (N L : list name).
  Definition loop6 (f : name -> name -> name -> name -> name -> name -> res Z) : res Z :=
    rsum (fun a => rsum (fun b => rsum (fun e => rsum (fun g => rsum (fun d => rsum (fun n => f a b e g d n) L) L) L) N) N) N.
  Definition loop4 (f : name -> name -> name -> name -> res Z) : res Z :=
    rsum (fun a => rsum (fun b => rsum (fun g => rsum (fun d => f a b g d) L) L) N) N.
  Definition mul2 (x y : res Z) : res Z := let? u := x in let? v := y in Ok (u * v).
  Definition contraction (num den : res Z) : res (option Q) :=
    let? s := num in let? d := den in
    if decide (d = 0) then Ok None else let? q := zdiv s d in Ok (Some q).
  (** [num] of the functions whose name contains _m and of those whose name contains _o. *)
  Definition num_m : res Z := loop6 (fun a b e g d n => mul2 (mul2 (get a b g d) (get b e d n)) (get e a n g)).
  Definition num_o : res Z := loop6 (fun a b e g d n => mul2 (mul2 (get a b g g) (get b e d d)) (get e a n n)).
  (** 1214-1242 *)
  Definition gcc_contraction_m : res (option Q) :=
    contraction num_m
      (let? u := loop6 (fun a b e g d n => mul2 (get a b g d) (get b e d n)) in
       let? v := loop4 (fun a b g d => let? u := get a b g d in let? w := get b a d g in Ok (- u * w)) in Ok (u + v)).
  (** 1244-1269 *)
  Definition gcc_contraction_m_ct : res (option Q) :=
    contraction num_m
      (loop6 (fun a b e g d n =>
         let? u := mul2 (get a b g d) (get b e d n) in
         if decide (e = a /\ n = g) then let? v := mul2 (get a b g d) (get b e d n) in Ok (u + v * -1) else Ok u)).
  (** 1272-1297 *)
  Definition gcc_contraction_m_full : res (option Q) :=
    contraction num_m
      (loop6 (fun a b e g d n => if decide (b <> e \/ d <> n) then mul2 (get a b g d) (get e a n g) else Ok 0)).
  (** 1301-1331 *)
  Definition gcc_contraction_o : res (option Q) :=
    contraction num_o
      (let? u := loop6 (fun a b e g d n => mul2 (get a b g g) (get b e d d)) in
       let? v := loop4 (fun a b g d => let? u := get a b g g in let? w := get b a d d in Ok (- u * w)) in Ok (u + v)).
  (** 1334-1358 *)
  Definition gcc_contraction_o_full : res (option Q) :=
    contraction num_o
      (loop6 (fun a b e g d n => if decide (b <> e) then mul2 (get a b g g) (get e a n n) else Ok 0)).
  (** 1362-1397 *)
  Definition gcc_contraction_o2 : res (option Q) :=
    contraction num_o
      (loop6 (fun a b e g d n =>
         let? u := mul2 (get a b g g) (get b e d d) in
         if decide (e = a) then let? v := mul2 (get a b g g) (get b e d d) in Ok (u + v * -1) else Ok u)).
End Contraction.
(** [net[a,b,g,d]] of a multiplex network and of a plain one. *)
Definition mget4 (p : mpx) (a b g d : name) : res Z := pgetitem p [a; b; g; d].
Definition nget4 (n : mlnet) (a b g d : name) : res Z :=
  let? v := getitem n [INm a; INm b; INm g; INm d] in
  match v with GWeight w => Ok w | _ => Err TypeError end.
