(** * Enumeration of the graphlets: C86 *)
From stdpp Require Import prelude.
From Verif Require Import Base Net NetSpec MpxSpec MpxHist MpxFacts PropsMpx MpxIsom IsomSpec PropsIsomMpx Enum EnumSpec EnumNet EnumFacts EnumRun.
Local Open Scope nat_scope.

(** The layers are different and comparable, the coupling can be used on them, and the nodes
    may be permuted by the isomorphisms. *)
Record enumerable (c : coupling) (layers : list name) (al : option (list nat)) : Prop := {
  en_nodup : NoDup layers;
  en_kind : one_kind layers;
  en_fit : coupling_fits c layers;
  en_al : aspects_ok 1 al;
  en_nodes : 0 ∈ aspect_list 1 al }.

(** [graphlets] returns, for each size from 2 to n, pairwise non-isomorphic graphlets of this size. *)
Theorem C86_sound {T} `{EqDecision T} (canon : dict nat nat -> list (nat * nat) -> T) n layers n_l c al : exact_canon canon -> enumerable c layers al ->
  exists nets invs, graphlets canon al n layers n_l [c] = Ok (nets, invs) /\
    (forall k, is_Some (dget nets k) <-> 2 <= k <= max 2 n) /\
    (forall k l, dget nets k = Some l ->
      (forall p, p ∈ l -> graphlet c layers (default (length layers) n_l) k p /\ nodes_range p k /\ unit_weights p) /\
      (forall i j p q, l !! i = Some p -> l !! j = Some q -> misomorphic al p q -> i = j)).
Proof.
  intros Hc [H1 H2 H3 H4 H5]. destruct (graphlets_full canon Hc c layers (default (length layers) n_l) H1 H2 H3 al H4 H5 n n_l eq_refl) as (nets & invs & E & Hf).
  exists nets, invs. split; [done|]. split; [apply Hf|]. intros k l Hl. split.
  - intros p [i Hp]%elem_of_list_lookup. destruct (fu_net _ _ _ _ _ _ _ _ Hf k l i p Hl Hp) as (Gp & [HN Hu] & _). split; [done|]. split; [|done]. intros x. rewrite HN. apply elem_of_nrange.
  - intros i j p q Hp Hq Hiso. destruct (fu_net _ _ _ _ _ _ _ _ Hf k l i p Hl Hp) as (Gp & _ & ci & Hi & Hd). destruct (fu_net _ _ _ _ _ _ _ _ Hf k l j q Hl Hq) as (Gq & _ & cj & Hj & Hd').
    apply (inv_same canon Hc c layers _ H2 H3 al H4 H5 k k p q ci Gp Gq Hi) in Hiso. rewrite (inv_fun canon al q ci cj Hiso Hj) in Hd. rewrite Hd' in Hd. by injection Hd.
Qed.

(** Every graphlet with at most n nodes is isomorphic to exactly one of the returned networks;
    its invariant is found in the second result and gives the place of this network. *)
Theorem C86_complete {T} `{EqDecision T} (canon : dict nat nat -> list (nat * nat) -> T) n layers n_l c al : exact_canon canon -> enumerable c layers al ->
  exists nets invs, graphlets canon al n layers n_l [c] = Ok (nets, invs) /\
    (forall k q, 2 <= k <= max 2 n -> graphlet c layers (default (length layers) n_l) k q ->
      exists l i p ci, dget nets k = Some l /\ l !! i = Some p /\ misomorphic al q p /\ (forall j p', l !! j = Some p' -> misomorphic al q p' -> j = i) /\
        mcomplete_invariant canon q al = Ok ci /\ dget invs ci = Some (k, i)) /\
    (forall ci k i, dget invs ci = Some (k, i) <-> exists l p, dget nets k = Some l /\ l !! i = Some p /\ mcomplete_invariant canon p al = Ok ci).
Proof.
  intros Hc [H1 H2 H3 H4 H5]. destruct (graphlets_full canon Hc c layers (default (length layers) n_l) H1 H2 H3 al H4 H5 n n_l eq_refl) as (nets & invs & E & Hf).
  exists nets, invs. split; [done|]. split.
  - intros k q Hk Hq. destruct (full_find canon Hc c layers _ H2 H3 al H4 H5 _ nets invs k q Hf Hk Hq) as (l & i & p & ci & Hl & Hp & Hiso & Hi & Hd & Hu). exists l, i, p, ci. done.
  - intros ci k i. split; [apply Hf|]. intros (l & p & Hl & Hp & Hi). destruct (fu_net _ _ _ _ _ _ _ _ Hf k l i p Hl Hp) as (_ & _ & cj & Hj & Hd). by rewrite (inv_fun canon al p ci cj Hi Hj).
Qed.

(** ** Examples *)
Definition ea : name := NStr "a".
Definition eb : name := NStr "b".
Example C86_enumerable : enumerable (CCat 1) [ea; eb] None /\ enumerable (CNone None) [ea] (Some [0]) /\ exact_canon brute_canon.
Proof.
  split; [|split; [|exact brute_canon_exact]].
  - split; [apply NoDup_cons; split; [set_solver|apply NoDup_singleton]|right; intros x; rewrite !elem_of_cons, elem_of_nil; intros [-> |[-> |[]]]; by eexists|done| |left].
    split; [apply (NoDup_seq 0 2)|]. intros a. cbn. rewrite !elem_of_cons, elem_of_nil. lia.
  - split; [apply NoDup_singleton|right; intros x ->%elem_of_list_singleton; by eexists|done| |left]. split; [apply NoDup_singleton|]. intros a ->%elem_of_list_singleton. lia.
Qed.
(** With two layers that must not be permuted, two nodes are linked in one, in the other, or in both. *)
Example C86_two : (let? r := graphlets brute_canon (Some [0]) 2 [ea; eb] None [CCat 1] in Ok ((fun kl => (kl.1, length (kl.2))) <$> r.1)) = Ok [(2, 3)].
Proof. by vm_compute. Qed.
(** The path and the triangle. *)
Example C86_three : (let? r := graphlets brute_canon (Some [0]) 3 [ea] None [CNone None] in Ok ((fun kl => (kl.1, length (kl.2))) <$> r.1)) = Ok [(2, 1); (3, 2)].
Proof. by vm_compute. Qed.
(** A graphlet that is not in the list itself: its nodes are 5 and 7. *)
Example C86_graphlet : exists p, mbuild (new_mpx [CCat 1] false 0 true) [MSet [NInt 5; NInt 7; ea] 1; MAddLayer eb 1] = Ok p /\ graphlet (CCat 1) [ea; eb] 2 2 p /\ ~ nodes_range p 2.
Proof.
  pose proof (mhist_init [CCat 1] false 0%Z true) as H0.
  destruct (add_links (CCat 1) [] (new_mpx [CCat 1] false 0 true) [(NInt 5, NInt 7, ea)] [eb] H0) as (p & g & E & Hg & M0 & M1 & Hw).
  { intros x y l [= -> -> ->]%elem_of_list_singleton. done. }
  assert (forall k x, ~ mhas (new_mpx [CCat 1] false 0 true) k x) as Hno. { intros k x. rewrite (C51_nodes_layers_exact _ _ _ _ _ _ H0) by done. by intros (e & ?%elem_of_nil & _). }
  assert (forall l x y, tied p l x y <-> l = ea /\ ((x = NInt 5 /\ y = NInt 7) \/ (x = NInt 7 /\ y = NInt 5))) as HT.
  { intros l x y. rewrite (add_tied _ _ _ _ _ _ Hw), !elem_of_list_singleton. split.
    - intros [Ht|[[= -> -> ->]|[= -> -> ->]]]; [|auto..]. apply (en_tied _ _ _ H0) in Ht as [? _]. by edestruct Hno.
    - intros [-> [[-> ->]|[-> ->]]]; auto. }
  assert (forall x, mhas p 0 x <-> x ∈ [NInt 5; NInt 7]) as HN.
  { intros x. rewrite M0, !elem_of_cons, elem_of_nil. setoid_rewrite elem_of_list_singleton. split.
    - intros [?|(y & l & [[= -> -> ->]|[= -> -> ->]])]; [by edestruct Hno|auto..].
    - intros [-> |[-> |[]]]; right; eexists _, ea; [left|right]; done. }
  assert (forall l, mhas p 1 l <-> l ∈ [ea; eb]) as HL.
  { intros l. rewrite M1, !elem_of_cons, elem_of_nil. setoid_rewrite elem_of_list_singleton. split.
    - intros [?|[[-> |[]]|(x & y & [= -> -> ->])]]; [by edestruct Hno|auto..].
    - intros [-> |[-> |[]]]; [|auto]. right. right. by eexists _, _. }
  exists p. split; [exact E|]. split; [split|].
  - by exists g.
  - exists [NInt 5; NInt 7]. split; [|done]. split; [|intros x; by rewrite HN]. apply NoDup_cons. split; [set_solver|apply NoDup_singleton].
  - exists [ea; eb]. split; [|done]. split; [|intros x; by rewrite HL]. apply NoDup_cons. split; [set_solver|apply NoDup_singleton].
  - intros l x [_ [[-> ?]|[-> ?]]]%HT; done.
  - intros x y Hx%HN Hy%HN. rewrite !elem_of_cons, elem_of_nil in Hx. rewrite !elem_of_cons, elem_of_nil in Hy.
    destruct Hx as [-> |[-> |[]]], Hy as [-> |[-> |[]]]; try apply rtc_refl; apply rtc_once; exists ea; apply HT; auto.
  - intros Hr. destruct (proj1 (Hr (NInt 5))) as (i & Hi & [= Hz]); [apply HN; left|]. lia.
Qed.

Print Assumptions C86_sound.
Print Assumptions C86_complete.
