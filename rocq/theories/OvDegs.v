(** * Overlap degrees of multiplex networks (/repo/pymnet/diagnostics.py).
    Definitions only. *)
From Verif Require Export CcAdj Diag MpxTrans Trans Graphlet.
From Verif Require Import MpxTrans.
Open Scope Z_scope.

(** diagnostics.py 124-125: [net0[e[0],e[1],layer]=0] for the layers of the combination. *)
Definition ol_clear (c : list name) (e : list name * Z) : list mop :=
  match e.1 with x :: y :: _ => (fun l => MSet [x; y; l] 0) <$> c | _ => [] end.
(** diagnostics.py 117-125: one layer combination.  The state is [net0] and [ol_degs]. *)
Definition ol_comb (nodes : list name) (st : mpx * dict (list name) (dict nl Z)) (c : list name) :
    res (mpx * dict (list name) (dict nl Z)) :=
  let? sub := msubnet (st.1) [Some nodes; Some c] false in
  let? agg := maggregate sub [1%nat] false in
  let? thr := threshold (src_of agg) (Z.of_nat (length c)) RGe in
  let degs := dset (st.2) c (degs_nodes thr) in
  if decide (1 < length c)%nat then
    let? net0 := Models.mbuild (st.1) (edges thr ≫= ol_clear c) in Ok (net0, degs)
  else Ok (st.1, degs).
(** diagnostics.py 115-116: the combinations in the order of the two loops. *)
Definition ol_combs (layers : list name) : list (list name) :=
  seq 0 (length layers) ≫= fun i => combs (length layers - i) layers.
(** diagnostics.py 91-127 [overlap_degs].  [net.slices[1]] of a network without aspects
    raises IndexError.  The module diagnostics.py imports neither [subnet] nor [aggregate]
    nor [threshold]; [imported] says whether these names have been put into the module
    ([false] is the module as it is). *)
Definition overlap_degs (imported : bool) (p : mpx) : res (dict (list name) (dict nl Z)) :=
  let? nodes := pslices p 0 in
  let? layers := pslices p 1 in
  if negb imported then Err NameError else
  let? net0 := msubnet p [Some nodes; Some layers] false in
  let? r := rfold (ol_comb nodes) (net0, []) (ol_combs layers) in
  Ok (r.2).
