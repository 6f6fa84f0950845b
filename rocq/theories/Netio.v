(** * Reading and writing networks (/repo/pymnet/netio.py).  Definitions only.
    Files are modelled by the data their lines are split into; weights are integers.  Not
    modelled: opening and closing files, the header of a UCINET file (netio.py 122-223,
    what it defines is an argument of [read_ucinet]), the rendering of numbers and names. *)
From Verif Require Export Cc.
Local Open Scope nat_scope.

(** The exception of a call, if any, ends the function. *)
Definition out_res {S} (o : S * res unit) : res S := match o.2 with Ok _ => Ok (o.1) | Err e => Err e end.

(** ** UCINET *)
(** A field: its text (lower case) and [float(field)]; [None]: ValueError. *)
Definition field := (string * option Z)%type.
Definition label_at (l : list name) (i : nat) : res name := match l !! i with Some x => Ok x | None => Err IndexError end.
Definition float_of (f : field) : res Z := match f.2 with Some v => Ok v | None => Err ValueError end.
(** netio.py 274-276: one field of a single matrix; [net[c][r]=value]. *)
Definition cell1 (cl rl : list name) (row : nat) (n : mlnet) (cf : nat * field) : res mlnet :=
  let? c := label_at cl (cf.1) in
  let? r := label_at rl row in
  if decide (c = r) then Ok n
  else let? v := float_of (cf.2) in if decide (v = 0%Z) then Ok n else out_res (node_setitem n [c] [r] v).
(** netio.py 278-281: one field of several matrices. *)
Definition cellm (sz : nat) (ll cl rl : list name) (row : nat) (p : mpx) (cf : nat * field) : res mpx :=
  let? c := label_at cl (cf.1) in
  let? r := label_at rl (row mod sz) in
  if decide (c = r) then Ok p
  else
    let? v := float_of (cf.2) in
    if decide (v = 0%Z) then Ok p
    else let? l := label_at ll (row / sz) in out_res (psetitem p [c; r; l; l] v).
(** netio.py 258-282: the loop over the rows.  A row may span several lines.  The result
    is the number of rows, the row labels and the network; the loop is left when the file
    ends, also in the middle of a row (line 283). *)
Fixpoint urows {S} (cell : list name -> nat -> S -> nat * field -> res S) (n : nat) (emb : bool)
    (acc : list field) (row : nat) (rl : list name) (s : S) (lines : list (list field)) : res (nat * list name * S) :=
  match lines with
  | [] => Ok (row, rl, s)
  | line :: lines =>
    let fields := acc ++ line in
    if decide (length fields < n) then urows cell n emb fields row rl s lines
    else
      let? rf := (if emb then match fields with [] => Err IndexError | f :: fs => Ok (rl ++ [NStr (f.1)], fs) end
                  else Ok (rl, fields)) in
      if decide (length (rf.2) = n) then
        let? s := rfold (cell (rf.1) row) s (imap pair (rf.2)) in
        urows cell n emb [] (Datatypes.S row) (rf.1) s lines
      else Err AssertionError
  end.
(** netio.py 252-284: column labels from the first line if they are embedded; the checks. *)
Definition udata {S} (cell : list name -> list name -> nat -> S -> nat * field -> res S) (n nm : nat) (emb : bool)
    (cl rl : list name) (s : S) (lines : list (list field)) : res (list name * list name * S) :=
  let? h := (if emb then match lines with
                         | [] => Err NameError (* UnboundLocalError: row *)
                         | line :: lines => Ok ((fun f : field => NStr (f.1)) <$> line, [], lines) end
             else Ok (cl, rl, lines)) in
  let '(cl, rl, lines) := h in
  if decide (length cl = n) then
    let? x := urows (cell cl) n emb [] 0 rl s lines in
    if decide (x.1.1 = n * nm) then Ok (cl, x.1.2, x.2) else Err AssertionError
  else Err AssertionError.
Definition irange (n : nat) : list name := (fun i => NInt (Z.of_nat i)) <$> seq 0 n.
(** netio.py 225-241: the labels to use. *)
Definition ulabels (n nm : nat) (labels rlabels clabels llabels : option (list name)) (emb : bool) : res (list name * list name * list name) :=
  if emb && (bool_decide (is_Some labels) || bool_decide (is_Some rlabels) || bool_decide (is_Some clabels)) then Err GenericException
  else if bool_decide (is_Some labels) && bool_decide (is_Some rlabels) && bool_decide (is_Some clabels) then Err GenericException
  else
    let dflt := default (irange n) labels in
    Ok (default (irange nm) llabels, default dflt rlabels, default dflt clabels).
(** netio.py 289-294. *)
Definition ufill (ll cl rl : list name) (p : mpx) : res mpx :=
  rfold (fun p l => rfold (fun p x => out_res (A_add_node p (LBare l) x)) p (cl ++ rl)) p ll.
(** netio.py 91-296 [read_ucinet] after the header.  The format is not checked (the
    condition on line 251 is always true). *)
Definition read_ucinet (n nm : nat) (labels rlabels clabels llabels : option (list name)) (emb : bool)
    (lines : list (list field)) (c : coupling) (fi : bool) : res (mlnet + mpx) :=
  let? ls := ulabels n nm labels rlabels clabels llabels emb in
  let '(ll, rl, cl) := ls in
  if decide (nm = 1) then
    let? x := udata cell1 n nm emb cl rl (new_net 0 0 false true) lines in Ok (inl (x.2))
  else
    let? x := udata (cellm n ll) n nm emb cl rl (new_mpx [c] false 0 fi) lines in
    let? p := (if fi then ufill ll (x.1.1) (x.1.2) (x.2) else Ok (x.2)) in Ok (inr p).

(** ** JSON *)
Record json := MkJson { j_nodes : list name; j_layers : list name; j_links : list (nat * nat * Z * nat) }.
(** The dicts [node2index] and [layer2index]: position in the list. *)
Definition index_of (l : list name) (x : name) : res nat :=
  match list_find (x =.) l with Some (i, _) => Ok i | None => Err KeyError end.
(** netio.py 11-44 [write_json]: what is passed to [json.dump], with "source", "target",
    "value" and "layer" of each link. *)
Definition write_json (p : mpx) : res json :=
  if decide (maspects p = 0 \/ maspects p = 1) then
    let nodes := mnodes p in
    let? ls := layers1 p in
    let? lks := rmapM (fun l =>
      let? m := intra p (LBare l) in
      rmapM (fun e : list name * Z =>
        match e.1 with
        | [x; y] =>
          let? s := index_of nodes x in
          let? t := index_of nodes y in
          let? k := index_of ls l in Ok (s, t, e.2, k)
        | _ => Err IndexError
        end) (edges m)) ls in
    Ok (MkJson nodes ls (concat lks))
  else Err AssertionError.

(** ** Edge files *)
(** netio.py 46-59 [read_edge_files]: a line is layer, source, target, weight. *)
Definition read_edge_files (lines : list (Z * Z * Z * Z)) (c : coupling) (fi dir ignoreSelf : bool) : res mpx :=
  rfold (fun p ln =>
    let '(l, x, y, w) := ln in
    if negb (bool_decide (x = y)) || negb ignoreSelf then out_res (psetitem p [NInt x; NInt y; NInt l] w) else Ok p)
    (new_mpx [c] dir 0 fi) lines.
(** netio.py 63-89 [write_edge_files]: the rows written to the file of each layer. *)
Definition write_edge_files (p : mpx) (numeric : bool) : res (list (name * list (name * name * Z))) :=
  if decide (maspects p = 1) then
    let? ls := layers1 p in
    rmapM (fun l =>
      let? m := intra p (LBare l) in
      let? rows := rmapM (fun e : list name * Z =>
        match e.1 with
        | [x; y] =>
          if numeric then
            let? s := index_of (mnodes p) x in
            let? t := index_of (mnodes p) y in Ok (NInt (Z.of_nat s), NInt (Z.of_nat t), e.2)
          else Ok (x, y, e.2)
        | _ => Err IndexError
        end) (edges m) in
      Ok (l, rows)) ls
  else Err AssertionError.
