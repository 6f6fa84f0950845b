(** * The modularity view (net.py 1332-1363 [ModularityMultilayerNetworkView]).
    Definitions only.  Simplification: rationals instead of floats; networks with at
    least one aspect. *)
From Coq Require Export QArith.
From Verif Require Export Net.
Local Open Scope nat_scope.

(** [mnet[(x,)+s][(COLON,)+s].str()] (net.py 1344, 1356, 1357): the strength of the
    handle; a weight has no method [str]. *)
Definition slice_str (n : mlnet) (x : name) (s : list name) : res Z :=
  let? g := getitem n (interleave (INm <$> (x :: s)) (IColon :: (INm <$> s))) in
  match g with GNode a ds => Ok (strength n a ds) | GWeight _ => Err AttributeError end.
(** net.py 1341-1345: [self.m]; reading [self.m[s]] raises KeyError when there are no nodes. *)
Definition slice_masses (n : mlnet) : res (dict (list name) Q) :=
  rmapM (fun s => if decide (net_nodes n = []) then Err KeyError
                  else let? ks := rmapM (fun x => slice_str n x s) (net_nodes n) in Ok (s, (inject_Z (zsum ks) / 2)%Q))
    (cart (drop 1 (slices n))).
(** net.py 1346-1349: [self.u]. *)
Definition total_weight (n : mlnet) : Z := zsumf (fun a => zsumf (fun b => weight n a b) (cart (slices n))) (cart (slices n)).
Record mview := MkView { vgamma : Q; vm : dict (list name) Q }.
(** net.py 1333-1350 [__init__]; [1.0/self.u] raises ZeroDivisionError. *)
Definition new_view (n : mlnet) (gamma : Q) : res mview :=
  let? m := slice_masses n in
  if decide (total_weight n = 0%Z) then Err ZeroDivisionError else Ok (MkView gamma m).
(** net.py 1352-1363 [_get_link] for a complete link; [n] is the network at the time of reading. *)
Definition view_link (v : mview) (n : mlnet) (item : list name) : res Q :=
  let w := get_link n item in
  let s := drop 1 (evens item) in
  if decide (s = drop 1 (odds item)) then
    match item with
    | i :: j :: _ =>
      let? ki := slice_str n i s in
      let? kj := slice_str n j s in
      match dget (vm v) s with
      | None => Err KeyError
      | Some ms => if Qeq_bool (2 * ms) 0 then Err ZeroDivisionError else Ok (inject_Z w - vgamma v * inject_Z ki * inject_Z kj / (2 * ms))%Q
      end
    | _ => Err IndexError
    end
  else Ok (inject_Z w).
(** [view[a][b]] for complete node-layers. *)
Definition view_weight (v : mview) (n : mlnet) (a b : nl) : res Q := view_link v n (interleave a b).
