# Formal model of pymnet (bolozna/Multilayer-networks-library) in Rocq

All Coq sources are in `rocq/theories` (logical name `Verif`).  The model is a
shallow, executable Gallina transcription of the Python code, function by
function; every definition cites the file and lines it models.  Python
exceptions are values (`res A = Ok a | Err e`), mutators return the new state
together with the outcome so that non-atomic failures are visible, loops are
folds or structural recursion, and calls to `random` are explicit arguments
(the theorems quantify over all outcomes).  Loops without a structural bound
run on fuel or on the list of random outcomes; running out is `Err OutOfFuel`,
and the theorems either exclude it or prove that a finished run exists.

## Representation

* Node and elementary layer names: `name := NInt Z | NStr string`.  This covers
  hashable names that are ints or strs; comparing an int with a str raises
  TypeError where the code sorts names.
* Node-layer tuples: `list name`; layers as dictionary keys keep Python's
  distinction between a bare name (one aspect) and a tuple (several aspects).
* Link weights and `noEdge`: `Z`.  Results that are quotients or sums of
  products with parameters are exact rationals `Q`; floating-point rounding is
  not modelled.
* Python dicts: association lists in insertion order (`dict K V`).
* Python sets: duplicate-free lists.  Python's set iteration order is
  arbitrary, so reachability (`hist`, `mhist`) contains an explicit "re-order
  every set" step, or the iteration order is an argument; the theorems hold for
  every order.
* Histories: `hist asp noe dir fi h n` says that `n` is a state of
  `MultilayerNetwork(aspects=asp,noEdge=noe,directed=dir,fullyInterconnected=fi)`
  after the public calls `h`, where calls that raise keep their partial effects;
  `mhist` is the same for `MultiplexNetwork`.

## Files

| model | specification | lemmas | theorems | code |
|---|---|---|---|---|
| `Net` | `NetSpec` | `NetFacts NetHist NetIter NetEdges` | `PropsNet` (C01-C15) | `net.py` 24-821 |
| `Supra` | | | `PropsSupra` (C16) | `net.py` 623-654 |
| `Mpx` | `MpxSpec` | `MpxFacts MpxHist MpxIter MpxEdges` | `PropsMpx` (C17-C22, C51), `PropsMpxEdges` (C56, C57) | `net.py` 824-1292 |
| `Build`, `Trans` | | `TransFacts TransFacts2` | `PropsTrans` (C23-C29) | `transforms.py` |
| `MpxTrans` | | `MpxBuild MpxRelabel MpxSub MpxThr` | `PropsMpxEq` (C67), `PropsMpxRelabel` (C68), `PropsMpxSub` (C69), `PropsMpxThr` (C70, C71) | `net.py` 1263-1270, `transforms.py` |
| `MpxPlain`, `SubIter` | | | `PropsMpxPlain` (C72, C73), `PropsSubIter` (C74) | `net.py` 623-663, `transforms.py` 491-568 |
| `DiagPrune` | | `PruneFacts` | `PropsPrune` (C75, C76) | `diagnostics.py` of multiplex networks, `dijkstra_mlayer_prune` |
| `ModelsOverlap` | `OverlapSpec` | `OverlapFacts` | `PropsOverlap` (C77) | `models.py`: `er_overlaps_match_aggregated` |
| `MpxConf` | | `MpxConfFacts` | `PropsMpxConf` (C78) | `models.py`: `conf` for multiplex networks |
| `CcAdj` | `CcAdjSpec` | `CcAdjFacts` | `PropsCcAdj` (C79-C81) | `cc.py`: the functions that use numpy matrices |
| `OvDegs` | in `PropsOvDegs` | `OvDegsFacts` | `PropsOvDegs` (C82) | `diagnostics.py`: `overlap_degs` |
| `OvConf` | in `PropsOvConf` | `OvConfFacts` | `PropsOvConf` (C83) | `models.py`: `conf_overlaps` |
| `Creators` | in `PropsCreators` | in `PropsCreators` | `PropsCreators` (C84) | `sampling/creators.py` |
| `MpxIsom` | in `PropsIsomMpx` | `IsomView` | `PropsIsomMpx` (C85) | `isomorphisms/isomcore.py` on multiplex networks |
| `Enum` | `EnumSpec` | `EnumNet`, `EnumFacts`, `EnumRun` | `PropsEnum` (C86) | `graphlets/graphlets.py`: `graphlets` |
| `OrbitCount` | `CountSpec` | `CountFacts`, `CountRun`, `CountCat` | `PropsCount` (C87) | `graphlets/graphlet_measures.py`: `orbit_counts`, `orbit_counts_all`; `graphlets/graphlets.py`: `automorphism_orbits` on networks |
| `OrbitEq` | `EqSpec` | `EqFacts`, `EqRun`, `EqMain` | `PropsEq` (C88) | `graphlets/graphlets.py`: `coefficient`, `coefficient_help`, `orbit_name`, `subtrahend` |
| `Indep` | `IndepSpec` | `IndepFacts`, `RedFacts`, `DepFacts`, `DepMain` | `PropsIndep` (C89-C91) | `graphlets/independent_equations.py` |
| `NodeH` | in `PropsNode` | | `PropsNode` (C92) | `net.py` 655-770 `MultilayerNode` |
| `ModView` | in `PropsMod` | | `PropsMod` (C93) | `net.py` 1332-1363 `ModularityMultilayerNetworkView` |
| `Gcd` | in `PropsGcd` | | `PropsGcd` (C94) | `graphlets/graphlet_measures.py` 227-278 |
| `OrbitGen` | in `PropsOrbGen` | | `PropsOrbGen` (C95, C96), `PropsComb` (C97), `PropsMerge` (C98), `PropsTerms` (C99) | `graphlets/graphlets.py` 163-259 `orbit_equations`, 343-544 `combine_orbits`, `merge_nodes`, `add_possible_edges` |
| `MpxAssign` | `NetSpec MpxSpec` | in `PropsAssign` | `PropsAssign` (C100) | `net.py` (`A[layer]=net`) |
| `Diag` | | `DiagFacts` | `PropsDiag` (C30-C32) | `diagnostics.py` |
| `Models`, `Conf` | `ModelsSpec` | `ModelsFacts ConfFacts` | `PropsModels` (C33-C35, C37, C52), `PropsConf` (C36) | `models.py` |
| `Netio` | `NetioSpec` | `NetioFacts` | `PropsNetio` (C38, C39, C59) | `netio.py` |
| `Cc`, `CcMore` | `CcSpec` | `CcFacts CcAgg CcBarrett CcGen` | `PropsCc` (C40-C42), `PropsAw` (C58), `PropsBat` (C61), `PropsBrodka` (C62, C63), `PropsContr` (C64), `PropsZhang` (C65), `PropsSuper` (C66) | `cc.py` |
| `CcAvg` | in `PropsAvg`, `PropsOnnela` | | `PropsAvg` (C101), `PropsOnnela` (C102) | `cc.py` 113-134, 281-285, 1118-1124 |
| `Samp` | `SampSpec` | `SampFacts SampChk EsuFacts EsuRun SampDec` | `PropsSamp` (C43-C45) | `sampling/` |
| `Isom` | `IsomSpec` | `IsomFacts IsomIso IsomDec` | `PropsIsom` (C46) | `isomorphisms/isomcore.py` |
| `Graphlet` | `GraphletSpec` | `GraphletFacts PartFacts SccFacts TouchFacts OrbitFacts` | `PropsGraphlet` (C47-C49, C53-C55) | `graphlets/` |
| `Nx` | `NxSpec` | | `PropsNx` (C50, C60) | `nxwrap.py` |

`Props*.v` hold the property theorems, an `Example` beside each one showing that
a concrete case meets its hypotheses, and `Print Assumptions`.

## Plan per property

| id | modelled | proof method |
|----|----------|--------------|
| C01-C05 | `MultilayerNetwork.__getitem__/__setitem__/_set_link/_get_link/add_node/add_layer` | refinement to an abstract map `link -> weight`, induction over histories |
| C06-C09 | neighbour iterators, degrees, strengths | state invariant over histories, permutation/counting lemmas; exact drift of the directed total degree and a `_refuted` witness |
| C10, C11 | `MultilayerEdges` | invariants + counting (handshake) |
| C12, C13 | node / layer sets, `iter_*` | invariant over histories |
| C14 | `__eq__` | counting argument: equal edge counts and inclusion imply equality |
| C15 | slicing in `__getitem__`, `MultilayerNode` | case analysis, `_refuted` witness |
| C16 | `get_supra_adjacency_matrix` | index lemmas |
| C17-C22, C51 | `MultiplexNetwork`, intra-layer networks with shared node set | refinement (sequence of graphs), invariants, `_refuted` witnesses |
| C23-C29 | `transforms.py` | fold invariants over edge enumeration (C10) |
| C30-C32 | `diagnostics.py` | counting; Dijkstra loop invariant with an arbitrary min-priority queue |
| C33-C35, C37, C52 | `models.py` with random oracles | arithmetic, loop invariants |
| C36 | configuration model | loop invariant on stub pairs and parallel edges; a run for every simple graph |
| C38, C39, C59 | `netio.py` at token / object level | row decomposition of the file, then refinement to histories of assignments |
| C40-C42, C58, C61-C66 | `cc.py` | algebra of finite sums; closed walks of supra-adjacency matrices |
| C43-C45 | `sampling` | inclusion-exclusion, permutations; ESU extension-set invariant |
| C46 | `isomorphisms/isomcore.py`, graph backends as "exists an isomorphism" | construction of bijections |
| C47-C49, C53-C55 | `graphlets` (orbits, partitions, SCCs, connected sets, orbit numbers, independent equations) | loop invariants; Kosaraju post-order invariant; growth of connected sets |
| C50 | `nxwrap.networkxdecorator` | programs of nested wrapped calls as a tree, induction over it |
| C56, C57 | `MultilayerEdges` and `aggregate` on multiplex networks | induction over the iteration; sums over links |
| C67 | `MultiplexNetwork.__eq__` | reduction to C14 on the intra-layer networks |
| C68 | multiplex `relabel`, `normalize` | the calls made on the new network are a history, so C17-C22 describe the result |
| C69 | multiplex `subnet` | as C68; the reads of the result follow from C17-C22 |
| C70 | `threshold` of a multiplex network without couplings | as C68 |
| C71 | `randomize_nodes_by_layer`, the shuffles as an argument | as C68, with one renaming per layer |
| C72 | `threshold`, `get_underlying_graph` of multiplex networks with couplings | the proofs of C26 and C29 for any source of edges, C56 for the edges |
| C73 | `get_supra_adjacency_matrix` of multiplex networks | as C16 |
| C74 | `subnet_iter` as the list of all yielded networks | the choices are listed once (combinations, product); C25 and C69 for each choice, an invariant of the writing loop |
| C75 | `diagnostics.py` for multiplex networks | the loop invariant of C32 over the neighbours of C19/C20; C30 and C31 for each intra-layer network |
| C76 | `dijkstra_mlayer_prune` | C32, then an invariant of the recursive `build_path` (ranked by distance) |
| C77 | `er_overlaps_match_aggregated` | the function as a list of phases (layers, number of pairs); invariant of the drawing loop over calls and drawn pairs |
| C78 | `conf` for multiplex networks | the run on one layer and the run of C36 produce the same log of calls; the result is the network after the concatenated logs |
| C79-C81 | the functions of `cc.py` that use numpy matrices | matrices as functions of node-layers (`tab`); products over all combinations of node and layer equal products over the existing node-layers on the walks counted; C42 and C58 for the agreement |
| C82 | `overlap_degs` | composition of C69 (subnet), C57 (aggregate), C28 (threshold) and C30 (degrees); invariant: the working copy has lost exactly the links shared by a combination of several layers already counted |
| C83 | `conf_overlaps` | simulation of the rewiring by that of C36 (`single_layer_conf`) with the taken links added, then an invariant over the rewiring of taken links; induction over the layer combinations |
| C84 | `sampling/creators.py` | the calls made are a history; the history theorems (C01, C13) give node-layers and links |
| C85 | the C46 model on what a multiplex network shows through its API | the C46 lemmas restated for any view; C74's iteration theorem gives the view of a multiplex network |
| C86 | the loops over layer combinations, smaller graphlets and ways to attach a node | a connected network has a node whose removal leaves it connected, so it is an extension of a smaller graphlet; loop invariant linking networks and invariants |
| C87 | the growth of node sets, their classification by invariant and mapping, the removal of links | the subnetwork on a set is a graphlet of C86, so its place is found; two isomorphisms differ by an automorphism, so the orbit does not depend on the mapping; loop invariant: the sets that meet the processed nodes are counted |
| C88 | the loops over shared and private nodes, the places of the two subnetworks, their orbits | the loops visit every pair of covering sets once; an isomorphism carries the pairs of a set to those of its graphlet; every pair of sets that contain a node is counted at its union, which is one connected set in one orbit |
| C89 | the greedy loop over a list of equations, sets of numbers | the numbers taken so far are one per equation, distinct; invariant of the loop |
| C90 | the split of the components, the product of the alternatives, the best choice | components come successors first (C49), so the dependencies of a dependent equation are already split; induction over the components |
| C91 | the dependency network, the registration of triples, the whole computation from the equations on | every entry of the network is justified, invariant of all loops; the triple with a repeated orbit is never registered |
| C92 | handles with their restriction, the degree, strength and iteration methods | the methods reduce to the counts of C06, C07, C09 |
| C93 | the layer totals stored by the constructor, the weight read through the view | the sum over a layer factors; strengths are sums of weights (C09) |
| C94 | the double loop over the upper triangle, the table of distances | Cauchy-Schwarz by induction over the positions, without square roots |
| C95 | the pairs of nodes, the choices of layers, the copies with the links | induction over the choices; the copy is a history (C51) |
| C96 | the loops over pairs of orbits, the combination, merging and the coefficients | the loops are flattened to a list of visits; invariant over its prefixes |
| C97 | the renamed copy of the second graphlet, the loop over permutations of the layers | subnetwork (C69), relabelling (C68), edges (C56), invariants (C85); invariant over the loop |
| C98 | the pairs of nodes, the two subnetworks that are compared, the rewritten links | subnetwork (C69), neighbours (C56), isomorphism and invariants (C85); invariant over the loop |
| C99 | the rounds of merging, the added links, the representatives and their coefficients | invariant over the rounds (C95, C97, C98), induction over the levels |
| C101 | `cc_layers_avg`, `gcc_from_lcc`, with map and filter returning lists or iterators | from C66 and C40; induction over the nodes |
| C102 | `cc_onnela`, with any function in the place of the cube root | pairs of neighbours in both orders are a permutation of the pairs of the specification; bounds by induction over the sum; from C40 for equal weights |
| C100 | `A[layer]=net`: the emptied layer and the calls of `subnet` that fill it | invariant over the calls, from the histories of both networks, run beside a network whose table of layers per node fits the emptied layer; `_refuted` witness |
| C60 | the mappings networkx reads and writes | reduction to C01-C12 |

## Trusted base

* Coq 8.16.1's kernel (`coqc`, `vm_compute` included) and the definitions of the
  standard library and std++ used in statements.
* `Print Assumptions` under every property theorem reports "Closed under the
  global context": no axiom is used by any of them.  std++ loads ssreflect,
  whose module `Coq.ssr.ssrunder.Under_rel` is sealed by a module type; checkers
  that list the axioms of all loaded libraries (`coqchk -o`, `vcheck`) therefore
  report `Under_rel.Under_rel`, `Under_rel_from_rel`, `Under_relE`, `Over_rel`,
  `over_rel`, `over_rel_done` and `under_rel_done`.  They are part of Coq's own
  distribution and no theorem here depends on them.
* The tie between model and code is by reading only.

### Modelled

* `net.py`: `MultilayerNetwork` except what is listed below, `MultilayerNode`,
  `MultilayerEdges`, `MultiplexNetwork` (couplings categorical, ordinal, by
  network, "none"; intra-layer networks; node-layer bookkeeping; equality).
* `transforms.py`: aggregate (plain and multiplex), overlay_network,
  subnet, supernet-style relabel, normalize, threshold, get_underlying_graph
  and subnet_iter (plain and multiplex); relabel, normalize, subnet, threshold and
  randomize_nodes_by_layer of multiplex networks.
* `diagnostics.py`: degs, density, dijkstra (plain and multiplex), multiplex degree
  and density functions, dijkstra_mlayer_prune.
* `models.py`: er, single_layer_er, full, full_multilayer, er_multilayer, ba,
  single_layer_conf, conf (plain and multiplex), er_partially_interconnected,
  er_overlaps_match_aggregated.
* `netio.py`: all functions, after tokenising (fields with their numeric value).
* `cc.py`: lcc, Barrett's coefficient in three versions, elementary cycle
  counts in two versions, the alternating-walk coefficients, Battiston's,
  Brodka's and Criado's coefficients, the tensor contractions, Zhang's and
  Barrat's weighted coefficients, the functions that use numpy matrices (entries
  in Z, so sums and products are exact; `nan` and infinities are values).
* `sampling`: requirements, acceptance tests, dumb enumeration, ESU.
* `isomorphisms`: auxiliary graph, is_isomorphic, get_isomorphism,
  automorphism generators, complete invariants, of multilayer and multiplex networks; the solver is a parameter with an exactness
  hypothesis, and one exact solver is constructed.
* `graphlets`: orbits, layer combinations, partitions, SCCs, touching sets,
  orbit numbers and lists, independent equations.
* `nxwrap.py`: the mappings, autowrap, the decorator.

### Not modelled

* floating-point rounding, hashing, pickling, memory sharing between
  intra-layer networks other than the shared node set, recursion limits;
* `visuals`, `benchmarks`, `tests`;
* `net.py`: `write_flattened` and file names; `A[layer]=net` for a network with noEdge other than 0, for a
  directed network on a layer of an undirected one, and for a MultiplexNetwork without aspects;
* `net.py`: `__hash__`;
* `models.py`: `geo`;
* `cc.py`: the cube root in Onnela's weighted coefficient (a function argument in C102) and its complex values for negative products;
* `graphlets.py`: modelled but not claimed: that the search of `orbit_equations` (C99) finds
  every orbit with a positive coefficient (merged networks are kept up to isomorphism, which
  need not fix the shared node);
* `graphlet_measures.py`: `GCM`, the square root in `GCD`;
* `netio.py`: `write_ucinet` (a stub);
* `isomorphisms`: the bliss and networkx backends (abstracted by their
  specification), networks without aspects;
* `nxwrap.py`: networkx itself.

## Where the code disagrees with its documentation or with expectation

Each of these is stated as part of a property or as a `_refuted` theorem.

* C05: deleting an existing self-loop of an undirected network raises KeyError
  (the loop is removed).
* C08: the total degree of a directed network drifts when links are deleted.
* C15: `net[i,j,s,:]` and `net[i,:,s,r]` ignore `j` and `r`.
* C18: coupling 'none' makes reading a coupling link raise.
* C20: partially interconnected networks with ordinal couplings iterate
  neighbours that are not linked consistently with `net[...]`; several
  categorical aspects make degree queries fail.
* C21: rejected multiplex writes still add the nodes and layers they name.
* C22: `noEdge != 0` is not respected by multiplex networks.
* C24, C27: mixing int and str names raises TypeError.
* C28: threshold of a network that is not fully interconnected raises NameError.
* C32: zero weights make dijkstra's forest miss or keep wrong links.
* C36: see the `conf_failure` cases.
* C38: a matrix without links makes read_ucinet raise KeyError when fully
  interconnected; a single matrix drops isolated nodes; the declared format is
  never checked.
* C39: write_json does not record directedness.
* C41: cc_barrett_explicit returns 0 where the others are undefined; the
  optimised version differs for negative weights.
* C42: elementary_cycles with an aggregated network of non-unit weights
  disagrees with the brute-force count.
* C45: ESU raises KeyError on self-links; copy_network=True loses links of
  weight 0.
* C46: compare_labels raises AssertionError for some label sets; mixed names
  raise TypeError.
* C48: partitions_with_remainder always raises NameError (xrange).
* C50: an exception in a wrapped networkx function leaves `networkx.Graph`
  replaced by the view class for the rest of the process.
* C56: a self-loop written through `net.A[layer]` is iterated with weight noEdge.
* C60: `G._adj[x]={...}` keeps the old links of `x`; an attribute dictionary
  writes its first value as weight whatever its key.
* C61: the documented value (n-1)/(n-2) on full networks cannot be reached; the
  code gives (n-2)/(n-1).
* C62: neighbours count in either direction and on at least t layers, where the
  documentation says both directions and at most t; with an aggregated network
  the threshold is compared with summed weights.
* C63: the documentation counts links of the aggregated network, the code those
  of the layer.
* C64: gcc_contraction_o differs from its two siblings on several layers.
* C65: cc_zhang raises ValueError on a network without links (max of an empty
  sequence); cc_barrat raises ZeroDivisionError when weights cancel.
* C66: cc_layers_wavg raises ZeroDivisionError where its siblings return None.
* C68: relabel of a multiplex network raises KeyError on links of a node to
  itself and AssertionError on couplings given by a network; ordinal coupling
  links are recomputed from the new layer names.
* C69: subnet of a multiplex network raises KeyError if a selected layer does
  not exist.
* C70: threshold of a network that is not fully interconnected raises NameError.
* C71: randomize_nodes_by_layer drops nodes that are on no layer.
* C72: threshold of a network that is not fully interconnected raises NameError.
* C73: the supra-adjacency matrix with a "none" coupling raises.
* C74: subnet_iter with remove_edges=True uses the edges of the whole network, so
  removed nodes reappear and networks are repeated; for a multiplex network with
  couplings it writes coupling edges, which raises KeyError, although the
  documentation says that coupling edges are not removed.
* C75: `multiplex_density` raises ZeroDivisionError if a layer has one node.
* C77: in `er_overlaps_match_aggregated` a layer gets more links than `edges`, which
  is documented as the number of edges in each layer (a combination of k layers gets
  k*m shared pairs but each layer only gives up m of its own).
* C78: `conf` of a multiplex network does not keep its couplings, and raises
  StopIteration for a network without layers.
* C79: the assertions of `cc_cycle_vector_adj` fail in fully interconnected
  networks whose coupling weight is not 1 or -1, and the function raises ValueError
  if there is only one node (the full network is then empty).
* C80: `gcc_aw_seplayers_adj` ignores `returnCVector` if there are two layers.
* C81: `gcc_moreno2` returns nan where `gcc_moreno2_seplayers` returns a number,
  e.g. for networks with one layer, even if the weight of the missing coefficient is 0.
* C82: `overlap_degs` uses `subnet`, `aggregate` and `threshold` without importing
  them (NameError on every call); with the imports added it compares sums of weights with the number of layers, so it
  miscounts links whose weight is not 1.
* C83: `conf_overlaps` drops the nodes whose degrees are all 0.
* C84: `random_nodelists` uses `xrange`, so it raises NameError in Python 3.
* C88: `subtrahend` raises NameError (`partitions_with_remainder` uses `xrange`).
* C91, C96: `independent_equations` has no result for four or more nodes if two different
  two-node orbits are on the layers of a combination.
* C97: `combine_orbits` is meant to try all permutations of the layers, but it turns each
  of them into the cycle through its entries, so most permutations are never tried with three or more
  layers.
* C101: `cc_layers_avg` and `gcc_from_lcc` never return in Python 3.
* C100: `A[layer]=net` in a network that is not fully interconnected leaves the former nodes of
  the layer in the table of layers per node, so degrees and neighbours still count them.
