(** * Specification vocabulary for MultiplexNetwork *)
From Verif Require Export NetSpec Mpx.

(** [l] is a layer of a network with [asp] aspects in the form used by the API. *)
Definition mlayer_form (asp : nat) (l : layer) : Prop :=
  match l with LBare _ => asp = 1 | LTup ls => 2 <= asp /\ length ls = asp end.

(** A call together with its outcome. *)
Notation call := (mop * res unit)%type.

(** The call [e] assigns the weight [w] to the link from [i] to [j] on layer [l],
    either through the network or through the intra-layer network [net.A[l]];
    the latter needs the layer to exist (otherwise the call raises). *)
Definition mwrites (asp : nat) (e : call) (l : layer) (i j : name) (w : Z) : Prop :=
  mlayer_form asp l /\
  match e.1 with
  | MSet item v => v = w /\ names_link asp item (nl_of i l) (nl_of j l)
  | MNodeSet a b v => v = w /\ a = nl_of i l /\ b = nl_of j l
  | MASet l' item v => v = w /\ l' = l /\ item = [i; j] /\ e.2 = Ok tt
  | _ => False
  end.
Definition massigns (asp : nat) (dir : bool) (e : call) (l : layer) (i j : name) (w : Z) : Prop :=
  mwrites asp e l i j w \/ (dir = false /\ mwrites asp e l j i w).
(** [w] is the value of the last assignment to [i] -> [j] on layer [l], or 0. *)
Definition mlast (asp : nat) (dir : bool) (h : list call) (l : layer) (i j : name) (w : Z) : Prop :=
  (exists h1 e h2, h = h1 ++ e :: h2 /\ massigns asp dir e l i j w /\
     forall e' w', e' ∈ h2 -> ~ massigns asp dir e' l i j w') \/
  (w = 0%Z /\ forall e' w', e' ∈ h -> ~ massigns asp dir e' l i j w').

(** The call [e] names [x] as node ([k = 0]) or as elementary layer of aspect [k]. *)
Definition mmentions (asp : nat) (fi : bool) (e : call) (k : nat) (x : name) : Prop :=
  match e.1 with
  | MSet item w => mentions asp fi (OpSet item w) k x
  | MNodeSet a b w => mentions asp fi (OpNodeSet a b w) k x
  | MAddNode y lay => mentions asp fi (OpAddNode y lay) k x
  | MAddLayer y j => mentions asp fi (OpAddLayer y j) k x
  | MASet _ item _ => e.2 = Ok tt /\ k = 0 /\ x ∈ item
  | MAAddNode _ y => e.2 = Ok tt /\ k = 0 /\ x = y
  end.
(** The call [e] puts node [x] on layer [l] (networks that are not fully
    interconnected). *)
Definition mcreates (asp : nat) (e : call) (x : name) (l : layer) : Prop :=
  mlayer_form asp l /\
  match e.1 with
  | MSet item w => exists a b, names_link asp item a b /\ (nl_of x l = a \/ nl_of x l = b)
  | MNodeSet a b w => length a = S asp /\ length b = S asp /\ (nl_of x l = a \/ nl_of x l = b)
  | MAddNode y lay => x = y /\ lay = Some l
  | MAddLayer _ _ => False
  | MASet l' item _ => e.2 = Ok tt /\ l' = l /\ x ∈ item
  | MAAddNode l' y => e.2 = Ok tt /\ l' = l /\ x = y
  end.

(** [w] is what [net[item]] returns for an index tuple naming the link [a] -> [b]. *)
Definition mreads (p : mpx) (a b : nl) (w : Z) : Prop :=
  exists item, names_link (maspects p) item a b /\ pgetitem p item = Ok w.
(** Reading the link raises [e]. *)
Definition mraises (p : mpx) (a b : nl) (e : exn) : Prop :=
  exists item, names_link (maspects p) item a b /\ pgetitem p item = Err e.
(** There is a link from [a] to [b]. *)
Definition mlinked (p : mpx) (a b : nl) : Prop := exists w, mreads p a b w /\ w <> mnoe p.
(** Linked in the sense of [net[a].iter_out()], [iter_in()] and [iter_total()]. *)
Definition mlinked_dir (p : mpx) (dr : direction) (a b : nl) : Prop :=
  match dr with DOut => mlinked p a b | DIn => mlinked p b a | DTot => mlinked p a b \/ mlinked p b a end.
Definition mreads_dir (p : mpx) (dr : direction) (a b : nl) (w : Z) : Prop :=
  match dr with DOut | DTot => mreads p a b w | DIn => mreads p b a w end.
(** [a] is listed by [net.iter_node_layers()]. *)
Definition mexists (p : mpx) (a : nl) : Prop := exists L, miter_node_layers p = Ok L /\ a ∈ L.
(** [x] is listed as a node ([k = 0]) or elementary layer of aspect [k]. *)
Definition mhas (p : mpx) (k : nat) (x : name) : Prop := exists s, mget_layers p k = Ok s /\ x ∈ s.
(** [a] and [b] differ exactly in coordinate [d]. *)
Definition differ_at (d : nat) (a b : nl) : Prop :=
  length a = length b /\ d < length a /\ forall k, a !! k = b !! k <-> k <> d.
(** The restriction [ds] has one entry per coordinate and agrees with [a]. *)
Definition dims_of (asp : nat) (ds : option (list (option name))) (a : nl) : Prop :=
  match ds with None => True | Some l => length l = S asp end /\ matches ds a.
