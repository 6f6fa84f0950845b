(** * Multiplex Erdos-Renyi networks with overlapping links
    ([er_overlaps_match_aggregated], /repo/pymnet/models.py).  Definitions only. *)
From Verif Require Export Models.

(** The state of the function: the network, [used_edges], [e_left] and the outcomes
    of [random.choice] that have not been used yet. *)
Definition ovst : Type := mpx * list (nat * nat) * dict name Z * list nat.

(** models.py 756-766 and 771-781: the loop that draws [need] unused pairs and
    writes each of them to the layers [ls].  The outcomes of
    [random.choice(xrange(int((n*(n-1))/2)))] are taken from [rnd]; [OutOfFuel]:
    [rnd] is used up or is not a possible sequence of outcomes.  The choice from an
    empty range raises IndexError.  The decoding is [decode], see there. *)
Fixpoint ov_draw (n : nat) (ls : list name) (need : nat) (p : mpx) (used : list (nat * nat)) (rnd : list nat) {struct rnd}
  : res (mpx * list (nat * nat) * list nat) :=
  match need with
  | O => Ok (p, used, rnd)
  | S need' =>
    if decide (n * (n - 1) / 2 = 0) then Err IndexError else
    match rnd with
    | [] => Err OutOfFuel
    | i :: rnd' =>
      if decide (i < n * (n - 1) / 2) then
        let '(v, w) := decode i in
        if decide ((w, v) ∈ used) then ov_draw n ls need p used rnd'
        else
          let? p' := mbuild p ((fun l => MSet [NInt (Z.of_nat w); NInt (Z.of_nat v); l] 1) <$> ls) in
          ov_draw n ls need' p' ((w, v) :: used) rnd'
      else Err OutOfFuel
    end
  end.
(** models.py 744-766: one layer combination.  [m] is the value of
    [int(round(p*edges))], which is an input of the model. *)
Definition ov_comb (n : nat) (edges : Z) (st : ovst) (cm : list name * Z) : res ovst :=
  let '(p, used, el, rnd) := st in
  let '(ls, m) := cm in
  match ls with
  | [] => Ok st
  | [l] => Ok (p, used, dset el l (default edges (dget el l)), rnd)
  | _ =>
    let el' := foldl (fun d l => dset d l (default edges (dget d l) - m)%Z) el ls in
    let? r := ov_draw n ls (Z.to_nat (Z.of_nat (length ls) * m)) p used rnd in
    Ok (r.1.1, r.1.2, el', r.2)
  end.
(** models.py 768-781: the remaining links of one layer. *)
Definition ov_layer (n : nat) (st : mpx * list (nat * nat) * list nat) (lm : name * Z) : res (mpx * list (nat * nat) * list nat) :=
  ov_draw n [lm.1] (Z.to_nat (lm.2)) (st.1.1) (st.1.2) (st.2).
(** models.py 708-783 [er_overlaps_match_aggregated]; [cs] are the couplings of the
    network, [[CNone None]] for [couplings=None]. *)
Definition er_overlaps (cs : list coupling) (n : nat) (edges : Z) (ps : list (list name * Z)) (rnd : list nat) : res mpx :=
  let? st := rfold (ov_comb n edges) (new_mpx cs false 0 true, [], [], rnd) ps in
  let? r := rfold (ov_layer n) (st.1.1.1, st.1.1.2, st.2) (st.1.2) in
  Ok (r.1.1).
