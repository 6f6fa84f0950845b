(** * The matrix versions of the alternating-walk counts (/repo/pymnet/cc.py).
    Definitions only. *)
From Verif Require Export Cc MpxPlain Models.
Open Scope Z_scope.

(** ** numpy matrices *)
(** A square [numpy.matrix] is the list of its rows.  All matrices of these functions are
    square.  Entries are integers instead of floats. *)
Notation mat := (list (list Z)).
Definition ment (m : mat) (i j : nat) : Z := default 0 (default [] (m !! i) !! j).
(** [x*y]: ValueError if the sizes do not fit. *)
Definition mat_mul (x y : mat) : res mat :=
  if decide (length x = length y) then
    Ok ((fun r => (fun j => zsumf (fun k => default 0 (r !! k) * ment y k j) (seq 0 (length x))) <$> seq 0 (length x)) <$> x)
  else Err ValueError.
(** [x*y*z*...], from left to right. *)
Definition mat_chain (x : mat) (ys : list mat) : res mat := rfold mat_mul x ys.
(** [x-y] and [x+y] of matrices of the same size (here they always have the same size). *)
Definition mat_sub (x y : mat) : mat := zip_with (zip_with Z.sub) x y.
Definition mat_add (x y : mat) : mat := zip_with (zip_with Z.add) x y.
(** [numpy.eye(n)] *)
Definition mat_eye (n : nat) : mat := (fun i => (fun j => if decide (i = j) then 1 else 0) <$> seq 0 n) <$> seq 0 n.
(** [x1*x2*... + y1*y2*... + ...] *)
Definition mat_sum (ws : list (mat * list mat)) : res mat :=
  match ws with
  | [] => Ok []
  | w :: ws => let? x := mat_chain (w.1) (w.2) in
    rfold (fun acc v => let? y := mat_chain (v.1) (v.2) in Ok (mat_add acc y)) x ws
  end.
(** The entries [m[i,i]] and the sum of the entries [m[i,j]] with [i!=j]. *)
Definition mat_diag (m : mat) : list Z := (fun i => ment m i i) <$> seq 0 (length m).
Definition mat_off (m : mat) : Z :=
  zsumf (fun i => zsumf (fun j => if decide (i = j) then 0 else ment m i j) (seq 0 (length m))) (seq 0 (length m)).

(** ** The matrices *)
(** [net.slices[k]] *)
Definition pslices (p : mpx) (k : nat) : res (list name) :=
  match mslices p !! k with Some s => Ok s | None => Err IndexError end.
(** cc.py 1163-1170 [get_full_multiplex_network]. *)
Definition full_net (nodes layers : list name) : res mpx :=
  mbuild (new_mpx [CCat 1] false 0 true)
    (layers ≫= fun l => nodes ≫= fun x => nodes ≫= fun y => if decide (x <> y) then [MSet [x; y; l; l] 1] else []).
(** cc.py 661-662, 698-699, 1190-1191: [net.slices[1]] of a network without aspects
    raises IndexError. *)
Definition full_matrix (p : mpx) : res mat :=
  let? nodes := pslices p 0 in
  let? layers := pslices p 1 in
  let? fn := full_net nodes layers in
  let? s := msupra fn false in Ok (s.1).
(** [net.couplings[0]=c]: a network with other couplings. *)
Definition set_coup (p : mpx) (c : coupling) : res mpx :=
  match mcoup p with
  | [] => Err IndexError
  | _ :: cs => Ok (MkMpx (c :: cs) (mdir p) (mnoe p) (mfic p) (mslices p) (mA p) (mn2l p))
  end.
Definition passert (b : bool) : res unit := if b then Ok tt else Err AssertionError.
(** [nodes1.index((node,layer))] *)
Fixpoint index_of (a : nl) (nodes : list nl) : res nat :=
  match nodes with
  | [] => Err ValueError
  | b :: nodes => if decide (a = b) then Ok 0%nat else let? i := index_of a nodes in Ok (S i)
  end.

(** cc.py 629-680 [cc_cycle_vector_adj].  [net.couplings[0]] is changed for the second
    matrix and set back. *)
Definition cc_cycle_vector_adj (p : mpx) (x l : name) : res (list Z) :=
  let? s1 := msupra p true in
  let adj := s1.1 in
  let? p0 := set_coup p (CCat 0) in
  let? s2 := msupra p0 true in
  let a := s2.1 in
  let? s3 := msupra p false in
  let? _ := passert (bool_decide (a = s3.1)) in
  let? _ := passert (bool_decide (s1.2 = s2.2)) in
  let c := mat_sub adj a in
  let ch := mat_add c (mat_eye (length c)) in
  let? i := index_of [x; l] (s1.2) in
  let at_ (m : mat) (ms : list mat) : res Z := let? r := mat_chain m ms in Ok (ment r i i) in
  let? aaa := at_ a [a; a] in
  let? aacac := at_ a [a; c; a; c] in
  let? acaac := at_ a [c; a; a; c] in
  let? acaca := at_ a [c; a; c; a] in
  let? acacac := at_ a [c; a; c; a; c] in
  let? cacaa := at_ c [a; c; a; a] in
  let? caaca := at_ c [a; a; c; a] in
  let? cacaca := at_ c [a; c; a; c; a] in
  let? _ := passert (aacac =? cacaa) in
  let? _ := passert (acaac =? caaca) in
  let? _ := passert (acacac =? cacaca) in
  let? ach3 := at_ a [ch; a; ch; a; ch] in
  let? _ := passert (aaa + aacac + acaac + acaca + acacac =? ach3) in
  let? f := full_matrix p in
  let? afa := at_ a [f; a] in
  let? afcac := at_ a [f; c; a; c] in
  let? acfac := at_ a [c; f; a; c] in
  let? acfca := at_ a [c; f; c; a] in
  let? acfcac := at_ a [c; f; c; a; c] in
  let? layers := pslices p 1 in
  let b := Z.of_nat (length layers) in
  let? _ := if mfic p then
              let? _ := passert (afcac =? acfac) in
              let? _ := passert ((b - 1) * afa =? acfca) in
              passert (acfcac =? (b - 2) * afcac)
            else Ok tt in
  Ok [aaa; aacac; acaac; acaca; acacac; afa; afcac; acfac; acfca; acfcac].

(** cc.py 692-699, 1139-1141, 1186-1191: the matrices [a] and [c]. *)
Definition adj_mats (p : mpx) : res (mat * mat) :=
  let? s1 := msupra p true in
  let? s2 := msupra p false in
  Ok (s2.1, mat_sub (s1.1) (s2.1)).
(** The sums of products that closing with the step [y] gives (cc.py 701-716). *)
Definition aw_terms (a c y : mat) : list (list (mat * list mat)) :=
  [ [(a, [y; a])];
    [(a, [y; c; a; c]); (a, [c; y; a; c]); (a, [c; y; c; a])];
    [(a, [c; y; c; a; c])] ].
(** cc.py 682-717 [gcc_aw_vector_adj]: the lists c1_nom, c1_den, c2_nom, c2_den, c3_nom,
    c3_den. *)
Definition gcc_aw_vector_adj (p : mpx) : res (list (list Z)) :=
  let? ac := adj_mats p in
  let '(a, c) := ac in
  let? f := full_matrix p in
  let? ns := rmapM mat_sum (aw_terms a c a) in
  let? ds := rmapM mat_sum (aw_terms a c f) in
  Ok (zip_with (fun n d => [mat_diag n; mat_diag d]) ns ds ≫= id).
(** cc.py 719-731 [cc_aw_vector]: the same six lists by the counts of [elementary_cycles],
    here as a list of rows. *)
Definition cc_aw_vector (p : mpx) : res (list (list Z)) :=
  let? ls := layers1 p in
  let? rows := rmapM (fun x => rmapM (fun l =>
      let? v := elementary_cycles p (Some x) (Some l) None in
      let '(t1, t2, t3, (d1, d2, d3)) := aw_totals v in Ok [t1; d1; t2; d2; t3; d3]) ls) (mnodes p) in
  Ok (concat rows).
(** [sum(nom)/float(sum(den))], or 0 (cc.py 735-747). *)
Definition sum_ratio (nom den : list Z) : Q := ratio0 (zsum nom) (zsum den).
(** cc.py 733-755 [gcc_aw_seplayers_adj] with [returnCVector] false. *)
Definition gcc_aw_seplayers_adj (p : mpx) (w1 w2 w3 : Q) : res Q :=
  let? v := gcc_aw_vector_adj p in
  let? layers := pslices p 1 in
  match v with
  | [n1; d1; n2; d2; n3; d3] =>
    Ok (if decide (length layers = 2%nat) then (w1 * sum_ratio n1 d1 + w2 * sum_ratio n2 d2)%Q
        else (w1 * sum_ratio n1 d1 + w2 * sum_ratio n2 d2 + w3 * sum_ratio n3 d3)%Q)
  | _ => Err ValueError
  end.
(** The same with [returnCVector] true: the weighted sum ([inl]) if there are two layers
    and the vector ([inr]) otherwise. *)
Definition gcc_aw_seplayers_adj_vector (p : mpx) (w1 w2 : Q) : res (Q + Q * Q * Q) :=
  let? v := gcc_aw_vector_adj p in
  let? layers := pslices p 1 in
  match v with
  | [n1; d1; n2; d2; n3; d3] =>
    Ok (if decide (length layers = 2%nat) then inl (w1 * sum_ratio n1 d1 + w2 * sum_ratio n2 d2)%Q
        else inr (sum_ratio n1 d1, sum_ratio n2 d2, sum_ratio n3 d3))
  | _ => Err ValueError
  end.

(** ** The coefficients of Moreno et al. *)
(** Floating-point results: a number, nan, or plus (true) or minus infinity. *)
Inductive pfloat : Type := PNum (q : Q) | PNan | PInf (pos : bool).
(** [nom/float(den)]: [nom] is a numpy float, whose division by zero does not raise, if
    there is at least one row, and the Python float 0.0 otherwise. *)
Definition np_div (n : nat) (t d : Z) : res pfloat :=
  if decide (d = 0) then
    if decide (n = 0%nat) then Err ZeroDivisionError
    else Ok (if decide (t = 0) then PNan else PInf (0 <? t))
  else Ok (PNum (inject_Z t / inject_Z d)%Q).
Definition pmul (w : Q) (v : pfloat) : pfloat :=
  match v with
  | PNum q => PNum (w * q)%Q
  | PNan => PNan
  | PInf s => if Qeq_bool w 0 then PNan else PInf (if Qle_bool 0 w then s else negb s)
  end.
Definition padd (u v : pfloat) : pfloat :=
  match u, v with
  | PNum p, PNum q => PNum (p + q)%Q
  | PNan, _ | _, PNan => PNan
  | PInf s, PInf t => if Bool.eqb s t then PInf s else PNan
  | PInf s, PNum _ | PNum _, PInf s => PInf s
  end.
(** cc.py 1143-1155: the numerators, and the denominators of [gcc_vector_moreno]. *)
Definition moreno_terms (a c y : mat) : list (list (mat * list mat)) :=
  [ [(a, [y; a])];
    [(a, [y; c; a; c]); (c, [a; c; y; a]); (a, [c; y; a; c]); (c, [a; y; c; a]); (a, [c; y; c; a])];
    [(a, [c; y; c; a; c]); (c, [a; c; y; c; a])] ].
Definition moreno_opens (a c : mat) : list (list (mat * list mat)) :=
  [ [(a, [a])];
    [(a, [a; c]); (c, [a; c; a]); (a, [c; a]); (c, [a; a; c]); (a, [c; a; c])];
    [(a, [c; a; c]); (c, [a; c; a; c])] ].
Definition trace (m : mat) : Z := zsum (mat_diag m).
(** cc.py 1127-1157 [gcc_vector_moreno]. *)
Definition gcc_vector_moreno (p : mpx) : res (pfloat * pfloat * pfloat) :=
  let? ac := adj_mats p in
  let '(a, c) := ac in
  let? ns := rmapM mat_sum (moreno_terms a c a) in
  let? ds := rmapM mat_sum (moreno_opens a c) in
  match trace <$> ns, mat_off <$> ds with
  | [n1; n2; n3], [d1; d2; d3] =>
    let? c1 := np_div (length a) n1 d1 in
    let? c2 := np_div (length a) n2 d2 in
    let? c3 := np_div (length a) n3 d3 in Ok (c1, c2, c3)
  | _, _ => Err ValueError
  end.
(** cc.py 1159-1161 [gcc_moreno]. *)
Definition gcc_moreno (p : mpx) (w1 w2 w3 : Q) : res pfloat :=
  let? c := gcc_vector_moreno p in
  Ok (padd (padd (pmul w1 (c.1.1)) (pmul w2 (c.1.2))) (pmul w3 (c.2))).
(** cc.py 1172-1206 [gcc_vector_moreno2]. *)
Definition gcc_vector_moreno2 (p : mpx) : res (pfloat * pfloat * pfloat) :=
  let? ac := adj_mats p in
  let '(a, c) := ac in
  let? f := full_matrix p in
  let? ns := rmapM mat_sum (moreno_terms a c a) in
  let? ds := rmapM mat_sum (moreno_terms a c f) in
  match trace <$> ns, trace <$> ds with
  | [n1; n2; n3], [d1; d2; d3] =>
    let? c1 := np_div (length a) n1 d1 in
    let? c2 := np_div (length a) n2 d2 in
    let? c3 := if decide (d3 = 0) then Ok (PNum 0) else np_div (length a) n3 d3 in Ok (c1, c2, c3)
  | _, _ => Err ValueError
  end.
(** cc.py 1208-1212 [gcc_moreno2]. *)
Definition gcc_moreno2 (p : mpx) (w1 w2 w3 : Q) : res pfloat :=
  let? c := gcc_vector_moreno2 p in
  let? layers := pslices p 1 in
  Ok (if decide (length layers = 2%nat) then padd (pmul w1 (c.1.1)) (pmul w2 (c.1.2))
      else padd (padd (pmul w1 (c.1.1)) (pmul w2 (c.1.2))) (pmul w3 (c.2))).
