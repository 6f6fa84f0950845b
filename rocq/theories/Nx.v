(** * Model of pymnet/nxwrap.py: networkx functions on plain networks *)
From Verif Require Export Net.
Local Open Scope nat_scope.

(** ** The mappings through which networkx sees a network *)
(** A value assigned to an edge: a number, or a dictionary (or the edge of another view:
    [{"weight": w}]). *)
Inductive edge_val := EVal (w : Z) | EDict (d : list (string * Z)).
(** nxwrap.py 72-79: the weight that is written. *)
Definition edge_weight (v : edge_val) : Z :=
  match v with EVal w => w | EDict [] => 1 | EDict ((_, w) :: _) => w end.

(** [for node in self.net[self.node]]: net.py 454-515, 753-780. *)
Definition node_list (n : mlnet) (x : name) : res (list name) :=
  match getitem n [INm x] with
  | Ok (GNode a dims) => Ok (node_of <$> iter_total n a dims)
  | Ok (GWeight _) => Err TypeError
  | Err e => Err e
  end.
(** nxwrap.py 86-92 [MonoplexGraphWrapper_adj.__getitem__]: the node whose neighbours are
    shown. *)
Definition adj_getitem (n : mlnet) (x : name) : res name := if decide (x ∈ net_nodes n) then Ok x else Err KeyError.
(** nxwrap.py 93-97. *)
Definition adj_iter (n : mlnet) : list name := net_nodes n.
Definition adj_len (n : mlnet) : nat := net_len n.
(** nxwrap.py 55-61 [MonoplexGraphWrapper_adjlist.__getitem__]. *)
Definition adjlist_getitem (n : mlnet) (x y : name) : res (name * name) :=
  let? l := node_list n x in if decide (y ∈ l) then Ok (x, y) else Err KeyError.
(** nxwrap.py 62-64. *)
Definition adjlist_iter (n : mlnet) (x : name) : res (list name) := node_list n x.
(** nxwrap.py 65-66. *)
Definition adjlist_len (n : mlnet) (x : name) : res Z :=
  match getitem n [INm x] with Ok (GNode a dims) => Ok (degree n a dims) | Ok (GWeight _) => Err AttributeError | Err e => Err e end.
(** nxwrap.py 69-79. *)
Definition adjlist_setitem (n : mlnet) (x y : name) (v : edge_val) : out mlnet unit := setitem n [x; y] (edge_weight v).
(** nxwrap.py 80-81. *)
Definition adjlist_delitem (n : mlnet) (x y : name) : out mlnet unit := setitem n [x; y] (noEdge n).
(** nxwrap.py 32-36 [MonoplexGraphWrapper_singleedge.__getitem__]. *)
Definition edge_getitem (n : mlnet) (x y : name) (key : string) : res Z :=
  if decide (key = "weight"%string) then match getitem n [INm x; INm y] with Ok (GWeight w) => Ok w | Ok _ => Err TypeError | Err e => Err e end
  else Err KeyError.
(** nxwrap.py 42-44. *)
Definition edge_setitem (n : mlnet) (x y : name) (key : string) (w : Z) : out mlnet unit :=
  if decide (key = "weight"%string) then setitem n [x; y] w else (n, Ok tt).
(** nxwrap.py 45-47. *)
Definition edge_delitem (n : mlnet) (x y : name) (key : string) : out mlnet unit :=
  if decide (key = "weight"%string) then setitem n [x; y] (noEdge n) else (n, Ok tt).
(** nxwrap.py 99-108 [MonoplexGraphWrapper_adj.__setitem__]; [None]: not a dictionary. *)
Definition adj_setitem (n : mlnet) (x : name) (v : option (list (name * edge_val))) : out mlnet unit :=
  match v with
  | Some d => obind (add_node n x None) (fun n _ => ofold (fun n e => adjlist_setitem n x (e.1) (e.2)) n d)
  | None => (n, Err GenericException)
  end.
(** nxwrap.py 109-110. *)
Definition adj_delitem (n : mlnet) (x : name) : out mlnet unit := (n, Err GenericException).
(** nxwrap.py 116-122 [MonoplexGraphWrapper_node.__getitem__]: [{}]. *)
Definition nodes_getitem (n : mlnet) (x : name) : res unit := if decide (x ∈ net_nodes n) then Ok tt else Err KeyError.

(** The operations that write. *)
Inductive nxop :=
| NxAdj (x : name) (v : option (list (name * edge_val)))   (* G._adj[x]=v *)
| NxDelAdj (x : name)                                      (* del G._adj[x] *)
| NxEdge (x y : name) (v : edge_val)                       (* G._adj[x][y]=v *)
| NxDelEdge (x y : name)                                   (* del G._adj[x][y] *)
| NxAttr (x y : name) (key : string) (w : Z)               (* G._adj[x][y][key]=w *)
| NxDelAttr (x y : name) (key : string).                   (* del G._adj[x][y][key] *)
(** With [G._adj[x]] and [G._adj[x][y]] evaluated first. *)
Definition nxstep (n : mlnet) (o : nxop) : out mlnet unit :=
  let at_node x (k : out mlnet unit) := match adj_getitem n x with Ok _ => k | Err e => (n, Err e) end in
  let at_edge x y k := at_node x match adjlist_getitem n x y with Ok _ => k | Err e => (n, Err e) end in
  match o with
  | NxAdj x v => adj_setitem n x v
  | NxDelAdj x => adj_delitem n x
  | NxEdge x y v => at_node x (adjlist_setitem n x y v)
  | NxDelEdge x y => at_node x (adjlist_delitem n x y)
  | NxAttr x y key w => at_edge x y (edge_setitem n x y key w)
  | NxDelAttr x y key => at_edge x y (edge_delitem n x y key)
  end.

(** ** The decorator *)
(** The class bound to [networkx.Graph]. *)
Inductive gclass := GOriginal | GView.
(** Objects: the network number [i], its view, a graph of networkx, anything else. *)
Inductive value := VNet (i : nat) | VView (i : nat) | VGraph | VOther (z : Z).
Inductive outcome := ORet (v : value) | ORaise (e : exn).
(** [aspects] and [directed] of each network. *)
Record world := World { graph : gclass; nets : list (nat * bool) }.
Definition set_graph (w : world) (g : gclass) : world := World g (nets w).
(** Code that uses networkx: it returns, raises, creates a graph by [networkx.Graph()], or
    calls a wrapped function, given by its body, and goes on with what the call returned or
    raised. *)
Inductive prog :=
| PRet (v : value)
| PRaise (e : exn)
| PGraph (k : value -> prog)
| PCall (args : list value) (kwargs : list (string * value)) (body : list value -> list (string * value) -> prog) (k : outcome -> prog).

(** nxwrap.py 166-169 [autowrap], for the arguments that are networks (176-180, 184-187). *)
Definition wrap (w : world) (v : value) : res value :=
  match v with
  | VNet i => match (nets w !! i : option (nat * bool)) with
              | Some (asp, dir) => if decide (asp = 0) then if dir then Err AssertionError else Ok (VView i) else Err AssertionError
              | None => Err NameError (* no such object *)
              end
  | _ => Ok v
  end.
Definition wrap_kw (w : world) (kv : string * value) : res (string * value) := let? v := wrap w (kv.2) in Ok (kv.1, v).
(** nxwrap.py 202-203. *)
Definition unwrap (v : value) : value := match v with VView i => VNet i | _ => v end.
(** nxwrap.py 171-207 [networkxdecorator]; lines 188-189 (tuples become ntuples) are left
    out.  nxwrap.py 136-141: [networkx.Graph()] makes an empty network if the class is the
    view. *)
Fixpoint exec (p : prog) (w : world) : world * outcome :=
  match p with
  | PRet v => (w, ORet v)
  | PRaise e => (w, ORaise e)
  | PGraph k => match graph w with
                | GOriginal => exec (k VGraph) w
                | GView => exec (k (VView (length (nets w)))) (World (graph w) (nets w ++ [(0, false)]))
                end
  | PCall args kwargs body k =>
    let r := (let? a := rmapM (wrap w) args in let? b := rmapM (wrap_kw w) kwargs in Ok (a, b)) in
    let x := match r with
             | Err e => (w, ORaise e)
             | Ok ab =>
               let original := graph w in
               let (w', o) := exec (body (ab.1) (ab.2)) (set_graph w GView) in
               match o with
               | ORet v => (set_graph w' original, ORet (unwrap v))
               | ORaise e => (w', ORaise e)
               end
             end in
    exec (k (x.2)) (x.1)
  end.
