{"id": "C01", "title": "Tensor read-after-write", "statement": "Take any MultilayerNetwork and any history of net[link]=w, net.add_node and net.add_layer calls (including calls that raise). Afterwards net[link] for a full-length link returns the value of the last write to that link (for an undirected network: to that link or to its reverse), and net.noEdge if there was no such write. No other call changes it.", "quantifier": "every number of aspects, directed or not, fully interconnected or not, every noEdge value, every finite history of public calls, every link", "why_tests_cant": "the claim ranges over unbounded histories with interleaved insertions, overwrites, deletions and failing calls", "anchors": ["pymnet/net.py:MultilayerNetwork.__getitem__", "pymnet/net.py:MultilayerNetwork.__setitem__", "pymnet/net.py:MultilayerNetwork._set_link", "pymnet/net.py:MultilayerNetwork._get_link"]}
{"id": "C02", "title": "Undirected networks are symmetric", "statement": "In an undirected MultilayerNetwork net[i,j,s1,r1,...]==net[j,i,r1,s1,...] after every history.", "quantifier": "every history, every link of an undirected network", "why_tests_cant": "both adjacency directions are stored separately; the invariant must survive all histories", "anchors": ["pymnet/net.py:MultilayerNetwork._set_link", "pymnet/net.py:MultilayerNetwork._get_link"]}
{"id": "C03", "title": "Short link notation equals the long notation", "statement": "net[i,j,s1,...,sd] reads and writes exactly the link net[i,j,s1,s1,...,sd,sd]; the link<->node-pair conversion is a bijection between links with 2(d+1) entries and pairs of node-layers.", "quantifier": "every number of aspects, every index tuple, every network", "why_tests_cant": "index arithmetic with strides must be right for every number of aspects", "anchors": ["pymnet/net.py:MultilayerNetwork._short_link_to_link", "pymnet/net.py:MultilayerNetwork._link_to_nodes", "pymnet/net.py:MultilayerNetwork._nodes_to_link", "pymnet/net.py:MultilayerNetwork._nodes_to_link"]}
{"id": "C04", "title": "Malformed index tuples are rejected without effect", "statement": "net[item] and net[item]=w with a tuple whose length is neither that of a node-layer, a short link nor a full link raise KeyError, and the assignment leaves the network unchanged.", "quantifier": "every network, every tuple", "why_tests_cant": "ranges over all tuple lengths and all aspects", "anchors": ["pymnet/net.py:MultilayerNetwork.__getitem__", "pymnet/net.py:MultilayerNetwork.__setitem__"]}
{"id": "C05", "title": "Deleting a link", "statement": "net[link]=net.noEdge removes the link and touches no other link; it never raises for a link between two different node-layers. (The code does raise KeyError when an existing undirected self-loop is deleted; the self-loop is removed nevertheless.)", "quantifier": "every reachable network, every link", "why_tests_cant": "depends on the state reached by an arbitrary history", "anchors": ["pymnet/net.py:MultilayerNetwork._set_link"]}
{"id": "C06", "title": "Neighbour iteration is exact", "statement": "iter_out() on a node-layer yields precisely the node-layers b with net[a][b]!=noEdge, iter_in() those with net[b][a]!=noEdge, iter_total() (and plain iteration) their union, each exactly once.", "quantifier": "every history, every node-layer", "why_tests_cant": "must hold for all histories including deletions; duplicates only appear for reciprocal links", "anchors": ["pymnet/net.py:MultilayerNetwork._iter_neighbors_out", "pymnet/net.py:MultilayerNetwork._iter_neighbors_in", "pymnet/net.py:MultilayerNetwork._iter_neighbors_total"]}
{"id": "C07", "title": "Out/in degree equals number of neighbours", "statement": "deg_out() and deg_in() of a node-layer equal the number of node-layers b with net[a][b]!=noEdge (resp. net[b][a]!=noEdge) after every history.", "quantifier": "every history, every node-layer", "why_tests_cant": "counts must stay in step with link state over unbounded histories", "anchors": ["pymnet/net.py:MultilayerNetwork._get_degree_out", "pymnet/net.py:MultilayerNetwork._get_degree_in"]}
{"id": "C08", "title": "Total degree is maintained incrementally", "statement": "deg()/deg_total() equals the number of distinct neighbours in either direction after every history without deletions (directed) and after every history (undirected). In a directed network a deletion breaks it: there is a history after which deg() of a node-layer differs from the number of its neighbours.", "quantifier": "every history; every node-layer", "why_tests_cant": "the counter is updated incrementally, so only an invariant over all histories settles it", "anchors": ["pymnet/net.py:MultilayerNetwork._get_degree_total", "pymnet/net.py:MultilayerNetwork._set_link"]}
{"id": "C09", "title": "Strength is the sum of incident link weights", "statement": "str_out() is the sum of net[a][b] over the out-neighbours, str_in() over the in-neighbours, and str()/str_total() of a directed network is str_in()+str_out(), of an undirected one equals str_out().", "quantifier": "every history, every node-layer, all integer weights", "why_tests_cant": "sum over unbounded neighbourhoods", "anchors": ["pymnet/net.py:MultilayerNetwork._get_strength_out", "pymnet/net.py:MultilayerNetwork._get_strength_in", "pymnet/net.py:MultilayerNetwork._get_strength_total"]}
{"id": "C10", "title": "Edge iteration is exact", "statement": "Iterating net.edges yields every link exactly once with its weight; for an undirected network exactly one orientation of every link, self-loops once. Nothing else is yielded.", "quantifier": "every history and every iteration order of the node and layer sets", "why_tests_cant": "set iteration order is arbitrary; completeness needs the invariant that links only join node-layers built from existing nodes and layers", "anchors": ["pymnet/net.py:MultilayerEdges.__iter__"]}
{"id": "C11", "title": "len(net.edges) counts the iterated edges", "statement": "len(net.edges) equals the number of edges produced by iterating net.edges, self-loops included.", "quantifier": "every history, directed or not, fully interconnected or not", "why_tests_cant": "requires the handshake identity over arbitrary networks and uses different traversals for length and iteration", "anchors": ["pymnet/net.py:MultilayerEdges.__len__", "pymnet/net.py:MultilayerEdges.__iter__"]}
{"id": "C12", "title": "Nodes and layers close over links", "statement": "After every history each endpoint of each link consists of existing nodes and elementary layers (and, if not fully interconnected, is listed by iter_node_layers()); nodes and layers are never removed; setting a link to noEdge still creates its node-layers.", "quantifier": "every history", "why_tests_cant": "invariant over histories", "anchors": ["pymnet/net.py:MultilayerNetwork.add_node", "pymnet/net.py:MultilayerNetwork.add_layer", "pymnet/net.py:MultilayerNetwork.__setitem__", "pymnet/net.py:MultilayerNetwork._add_node_to_layer"]}
{"id": "C13", "title": "Node-layer listing is duplicate free and consistent", "statement": "iter_node_layers() yields no duplicates; in a fully interconnected network it yields the full Cartesian product of nodes and elementary layers; otherwise exactly the node-layers that were added. iter_nodes(layer) lists exactly the nodes forming a listed node-layer with that layer.", "quantifier": "every history and set order", "why_tests_cant": "two mirrored dictionaries must agree over all histories", "anchors": ["pymnet/net.py:MultilayerNetwork.iter_node_layers", "pymnet/net.py:MultilayerNetwork.iter_nodes", "pymnet/net.py:MultilayerNetwork.iter_layers", "pymnet/net.py:MultilayerNetwork._add_node_to_layer"]}
{"id": "C14", "title": "Network equality is structural", "statement": "For reachable MultilayerNetworks of the same kind, net1==net2 iff they have the same configuration, node and layer sets (and the same layers per node) and agree on every link; == is reflexive, symmetric and transitive.", "quantifier": "all pairs of reachable networks", "why_tests_cant": "== compares only edge counts and one side's edges; that this suffices is a counting argument over all networks", "anchors": ["pymnet/net.py:MultilayerNetwork.__eq__"]}
{"id": "C15", "title": "Colon slices", "statement": "net[i,:,s,:] is the node-layer with no restriction and net[i,i,s,:] / net[i,:,s,s] restrict iteration and degree to the stated coordinates. For j!=i the documented restriction to j in net[i,j,s,:] (and to r in net[i,:,s,r]) is not implemented: i (resp. s) is used instead.", "quantifier": "every network, every slice", "why_tests_cant": "ranges over all index combinations and networks", "anchors": ["pymnet/net.py:MultilayerNetwork.__getitem__", "pymnet/net.py:MultilayerNode.__iter__"]}
{"id": "C16", "title": "Supra-adjacency matrix", "statement": "get_supra_adjacency_matrix() returns the list of node-layers without duplicates (for a network that is not fully interconnected: every combination of an existing node and existing layers) and the matrix whose (a,b) entry is net[a][b]; it is symmetric for undirected networks; includeCouplings=False keeps exactly intra-layer entries. For a network with 0 aspects the diagonal (self-loops) is zeroed.", "quantifier": "every reachable network and set order", "why_tests_cant": "matrix/label alignment for every iteration order", "anchors": ["pymnet/net.py:MultilayerNetwork.get_supra_adjacency_matrix"]}
{"id": "C17", "title": "Multiplex intra-layer links behave like independent graphs", "statement": "For a MultiplexNetwork with noEdge 0, after every history net[i,j,s] (i!=j) returns the last value written to that link, written either through net[i,j,s]=w or through net.A[s][i,j]=w, and writes to one layer never affect another.", "quantifier": "every history over both access paths", "why_tests_cant": "aliasing between the multiplex network and its intra-layer networks over unbounded histories", "anchors": ["pymnet/net.py:MultiplexNetwork._get_link", "pymnet/net.py:MultiplexNetwork._set_link", "pymnet/net.py:MultilayerNetworkWithParent", "pymnet/net.py:MultiplexIntraNetDict"]}
{"id": "C18", "title": "Multiplex couplings", "statement": "Categorical coupling: net[i,i,s,r]=w for every existing node and all s!=r in one aspect; ordinal coupling: only for adjacent integer layers; links between different nodes on different layers, or differing in several aspects, are noEdge. If not fully interconnected both endpoints must exist. Coupling 'none' raises an exception instead of returning noEdge.", "quantifier": "every reachable multiplex network, every link", "why_tests_cant": "links are computed, not stored; the rule must hold for all layer tuples and aspects", "anchors": ["pymnet/net.py:MultiplexNetwork._get_link", "pymnet/net.py:MultiplexNetwork._get_edge_inter_aspects"]}
{"id": "C19", "title": "Multiplex neighbours, degrees and strengths agree with links", "statement": "For fully interconnected multiplex networks with categorical or ordinal couplings of nonzero weight in any number of aspects, iterating net[a] yields exactly the b with net[a][b]!=noEdge once each, deg() counts them and str() sums the weights.", "quantifier": "every reachable fully interconnected multiplex network, every node-layer", "why_tests_cant": "degree, iteration and link lookup are three separate code paths", "anchors": ["pymnet/net.py:MultiplexNetwork._iter_dim", "pymnet/net.py:MultiplexNetwork._get_dim_degree", "pymnet/net.py:MultiplexNetwork._get_dim_strength", "pymnet/net.py:MultiplexNetwork._iter_neighbors_out"]}
{"id": "C20", "title": "Partially interconnected multiplex: where degree, iteration and links disagree", "statement": "For one categorically coupled aspect they agree as in the fully interconnected case. For ordinal coupling iteration and degree ignore coupling links that exist, and for several categorical aspects degree queries fail: concrete networks exhibit each disagreement.", "quantifier": "every reachable one-aspect categorical network; existence for the others", "why_tests_cant": "agreement over all histories; counterexamples for the rest", "anchors": ["pymnet/net.py:MultiplexNetwork._iter_dim", "pymnet/net.py:MultiplexNetwork._get_dim_degree"]}
{"id": "C21", "title": "A rejected multiplex write", "statement": "Writing a coupling link or a self-link of a MultiplexNetwork raises KeyError and changes no link between existing node-layers; it is however not atomic: the nodes and layers named in the rejected write are added.", "quantifier": "every reachable multiplex network, every rejected write", "why_tests_cant": "failure atomicity over all states", "anchors": ["pymnet/net.py:MultiplexNetwork._set_link", "pymnet/net.py:MultilayerNetwork.__setitem__"]}
{"id": "C22", "title": "Multiplex with nonzero noEdge", "statement": "With noEdge!=0, an absent intra-layer link reads 0 rather than noEdge and writing noEdge stores a link instead of deleting it.", "quantifier": "every nonzero noEdge, every reachable network", "why_tests_cant": "exhibits a mismatch between two components for every parameter value", "anchors": ["pymnet/net.py:MultiplexIntraNetDict._add_network", "pymnet/net.py:MultiplexNetwork.__init__"]}
{"id": "C23", "title": "aggregate sums weights", "statement": "For a network with noEdge 0, aggregate(net,aspects) succeeds for aspects in range and has as weight of each link between distinct projected node-layers the sum of the weights of all links projecting to it (each undirected link counted once), keeps all nodes, and creates no self-links unless selfEdges is set, in which case the self-links are summed in the same way. Out-of-range aspects are not rejected in all cases (the check admits aspects+1).", "quantifier": "every reachable network, every set of aggregated aspects", "why_tests_cant": "sums over unboundedly many links in arbitrary iteration order, with read-modify-write through an undirected store", "anchors": ["pymnet/transforms.py:aggregate"]}
{"id": "C24", "title": "overlay_network", "statement": "overlay_network(net) of an undirected network with one aspect and mutually comparable node names has, for i != j, net'[i,j] equal to the sum over layers of net[i,j,layer], and, if there is a layer and at least two nodes, the same nodes. For a directed network the result is undirected and adds both directions. If int and str node names are mixed the call raises TypeError.", "quantifier": "every reachable network (multilayer or multiplex) with one aspect", "why_tests_cant": "sum over all layers and pairs in arbitrary order", "anchors": ["pymnet/transforms.py:overlay_network"]}
{"id": "C25", "title": "subnet is the induced subnetwork", "statement": "subnet(net,nodes,*layers) contains exactly the existing nodes/layers among those requested (in a network that is not fully interconnected: the nodes occurring in a selected node-layer) and has net'[link]==net[link] for links inside the selection and noEdge elsewhere; with nolinks it has no links; selecting everything in a fully interconnected network gives a network equal to the input.", "quantifier": "every reachable network, every selection (including names that do not exist)", "why_tests_cant": "two different copying strategies are chosen by degree and must agree for all networks", "anchors": ["pymnet/transforms.py:subnet"]}
{"id": "C26", "title": "relabel is an isomorphism for injective maps", "statement": "relabel(net,nodeNames,layerNames) with injective (on the network) renamings satisfies net'[f(link)]==net[link] for every link, and has exactly the renamed nodes, layers and node-layers.", "quantifier": "every reachable network, every injective renaming", "why_tests_cant": "ranges over all renamings", "anchors": ["pymnet/transforms.py:relabel"]}
{"id": "C27", "title": "normalize gives consecutive integer names", "statement": "normalize(net,nodeStart,layerStart) renames nodes to nodeStart.. and each aspect's layers to layerStart.. consecutively in sorted order by a bijection, so it is an isomorphism; the returned inverse maps invert the renaming. If an aspect has int and str names the call raises TypeError.", "quantifier": "every reachable network with sortable names", "why_tests_cant": "ranges over all networks", "anchors": ["pymnet/transforms.py:normalize"]}
{"id": "C28", "title": "threshold keeps exactly the qualifying links", "statement": "threshold(net,w,method) keeps exactly the links whose weight compares as requested with w, with their weights, and all nodes and layers (fully interconnected networks; otherwise it raises NameError as soon as there is a node-layer). An unknown method raises exactly if the network has a link.", "quantifier": "every reachable network, weight, method", "why_tests_cant": "ranges over all networks", "anchors": ["pymnet/transforms.py:threshold"]}
{"id": "C29", "title": "get_underlying_graph", "statement": "The underlying graph has one node per node-layer and the same links and weights, with directedness kept.", "quantifier": "every reachable network", "why_tests_cant": "ranges over all networks", "anchors": ["pymnet/transforms.py:get_underlying_graph"]}
{"id": "C30", "title": "Degree distribution and handshake", "statement": "The counts of degs(net) sum to the number of node-layers, each count is the number of node-layers of that degree, and the degrees of an undirected network sum to 2*len(edges) minus the number of self-loops.", "quantifier": "every reachable network", "why_tests_cant": "sums over arbitrary networks", "anchors": ["pymnet/diagnostics.py:degs", "pymnet/net.py:MultilayerEdges.__len__"]}
{"id": "C31", "title": "Density range", "statement": "density(net) of a fully interconnected network without self-loops and with at least two node-layers is the number of links divided by the number of (ordered, if directed) pairs of node-layers, is between 0 and 1, and is 1 exactly when all pairs are linked. It is 0 for a network without nodes; with nodes it raises if the network is not fully interconnected or has fewer than two node-layers.", "quantifier": "every reachable network", "why_tests_cant": "counting bound over all networks", "anchors": ["pymnet/diagnostics.py:density"]}
{"id": "C32", "title": "dijkstra computes shortest distances", "statement": "If all link weights are positive, dijkstra(net,sources) terminates for every tie-breaking of the heap, and the returned distance map contains exactly the node-layers reachable from the sources with the minimum total weight of a path to each. The returned forest is directed and consists of exactly the links that lie on shortest paths, plus a self-link at every source with the weight net[s][s]. With a zero-weight link it may never terminate.", "quantifier": "every network with positive weights, every source list, every heap order", "why_tests_cant": "optimality over all paths and termination of an unbounded loop", "anchors": ["pymnet/diagnostics.py:dijkstra"]}
{"id": "C33", "title": "Edge index decoding is a bijection", "statement": "The triangular decoding of random edge indices in single_layer_er maps 0..n(n-1)/2-1 one-to-one onto pairs 0<=w<v<n, so single_layer_er(edges=m) creates exactly m distinct links of weight 1 without self-links, contains all the nodes, raises ValueError for larger m, and every graph with m links is produced by some sample.", "quantifier": "every n, every sample of indices", "why_tests_cant": "arithmetic identity for all n", "anchors": ["pymnet/models.py:single_layer_er"]}
{"id": "C34", "title": "G(n,p) skipping loop is safe", "statement": "For every sequence of random skips the G(n,p) loop of single_layer_er terminates, and the links created are exactly the pairs of different nodes whose number in row order is a partial sum of the skips, each once, with weight 1; every graph on the nodes is produced by some skip sequence. p=1 gives the complete graph; p=0 (with at least two nodes) and p>1 raise. er with a list of parameters does the same on every layer independently.", "quantifier": "every node list, every p, every sequence of random numbers, every list of layers", "why_tests_cant": "ranges over all random outcomes", "anchors": ["pymnet/models.py:single_layer_er"]}
{"id": "C35", "title": "full and full_multilayer", "statement": "full(nodes,layers) links every pair of distinct nodes on every layer and nothing else; full_multilayer links all pairs of distinct node-layers. All nodes and layers are present, except that full of fewer than two nodes has neither nodes nor layers.", "quantifier": "every node and layer list", "why_tests_cant": "all sizes", "anchors": ["pymnet/models.py:full", "pymnet/models.py:full_multilayer"]}
{"id": "C36", "title": "Configuration model realises the degree sequence", "statement": "Whatever the shuffle of the stubs, the edges drawn while rewiring and the order in which the set of parallel edges is iterated: when single_layer_conf returns, the network is simple and undirected, all link weights are 1, its nodes are exactly the given ones and every node has exactly the prescribed number of neighbours (for a distribution: exactly the prescribed number of nodes has each degree; conf(net) gives the nodes and degrees of net). It can only fail because the number of stubs is odd or larger than n(n-1) (AssertionError), node names cannot be ordered (TypeError) or a single self-edge has nothing to be exchanged with (ValueError); otherwise it keeps drawing. Every simple graph with the given degrees is a possible result.", "quantifier": "every degree dictionary or distribution, every outcome of shuffle and sample, every set iteration order, every number of rewiring steps", "why_tests_cant": "ranges over all random outcomes and rewiring histories", "anchors": ["pymnet/models.py:single_layer_conf", "pymnet/models.py:conf"]}
{"id": "C37", "title": "Barabasi-Albert growth adds m links per node", "statement": "In ba_total_degree every node with index i>=m has exactly m links to distinct older nodes on the layer with parameter m and the earlier nodes have none, for every random outcome; there are no self-links and no other weights than 1; the pool from which neighbours are drawn holds every node once for each link it has on any layer (preferential attachment by total degree); the function never raises and can always end. Layers with m=0 or m>=n are missing from the network.", "quantifier": "every parameter list, every random outcome", "why_tests_cant": "ranges over all random outcomes", "anchors": ["pymnet/models.py:ba_total_degree"]}
{"id": "C38", "title": "UCINET full matrix import", "statement": "read_ucinet accepts a file only if its data are complete rows: the declared number of nodes times the number of matrices, each of full length, possibly split over several lines. With several matrices the network returned is a multiplex network in which two different nodes of a layer are linked iff some entry about them in the matrix of that layer is nonzero, with the weight of the last such entry; with fullyInterconnected it has all labelled nodes and layers, and a matrix with no nonzero off-diagonal entry makes it raise KeyError. With one matrix the network is a plain network in which nodes without links do not exist. Row and column labels, given or embedded, name the rows and columns; the declared format is not checked.", "quantifier": "every matrix, size, split into lines, label list", "why_tests_cant": "all matrices, sizes and line breaks", "anchors": ["pymnet/netio.py:read_ucinet"]}
{"id": "C39", "title": "JSON export is faithful", "statement": "The structure written by write_json lists the nodes, the layers and the intra-layer links of the network exactly: every link entry decodes, by its indices into the node and layer lists, to a link with that weight, and every link has an entry (one orientation of it in an undirected network). Two networks of the same directedness written alike have the same nodes, layers and links. Directedness is not written: a directed and an undirected network that differ can be written alike.", "quantifier": "every reachable one-aspect multiplex network", "why_tests_cant": "index tables must be inverse to each other for all networks", "anchors": ["pymnet/netio.py:write_json"]}
{"id": "C40", "title": "Local clustering coefficient", "statement": "lcc(net,node) of an undirected network equals the number of ordered pairs of distinct linked neighbours divided by k(k-1) for k neighbours, lies in [0,1], and is undefined for fewer than two neighbours; the same holds for a node-layer of a network with aspects.", "quantifier": "every reachable undirected network, every node-layer", "why_tests_cant": "ranges over all networks", "anchors": ["pymnet/cc.py:lcc", "pymnet/cc.py:cc_num_den"]}
{"id": "C41", "title": "Barrett coefficient: the three implementations agree", "statement": "On a one-aspect categorical multiplex network with non-negative weights, cc_barrett, cc_barrett_optimized and cc_barrett_explicit return the same value, the published formula, for every node with at least two neighbours in the aggregated network. With one neighbour the first two are undefined and the explicit one is 0; with none all three are undefined. With negative weights the optimised one can differ.", "quantifier": "all networks without self-loops, fully interconnected or not; all non-negative weights", "why_tests_cant": "algebraic identity over unbounded sums", "anchors": ["pymnet/cc.py:cc_barrett_optimized", "pymnet/cc.py:cc_barrett", "pymnet/cc.py:cc_barrett_explicit"]}
{"id": "C42", "title": "Cycle counts equal closed walks of the supra-adjacency matrices", "statement": "The cycle vector of a node-layer, of a node, of a layer and of the whole network counts the closed walks AAA, AACAC, ACAAC, ACACA, ACACAC, AFA, AFCAC, ACFAC, ACFCA, ACFCAC, where A, C and F are the matrices of intra-layer links, of coupling links and of pairs of distinct nodes of a layer. The brute-force version and the version using the aggregated network give the same counts if the aggregated network counts layers, which aggregate does for unit weights and need not do otherwise. An absent node-layer counts zero and an unknown layer raises KeyError.", "quantifier": "all undirected one-aspect categorical multiplex networks without self-loops, fully interconnected or not; all nodes and layers", "why_tests_cant": "equality of nested loops with matrix products for every size", "anchors": ["pymnet/cc.py:cc_cycle_vector_bf", "pymnet/cc.py:cc_cycle_vector_anet", "pymnet/cc.py:elementary_cycles"]}
{"id": "C43", "title": "Required number of nodes from intersections", "statement": "Given the sizes of finite nonempty node sets and of the intersections of every two, three, ... of them, default_calculate_required_lengths returns the size of their union and the number of sets; lists of the wrong length, sizes below 1, negative or missing intersection sizes are rejected.", "quantifier": "every number of layers, every family of sets", "why_tests_cant": "all family sizes", "anchors": ["pymnet/sampling/reqs.py:default_calculate_required_lengths"]}
{"id": "C44", "title": "Subgraph acceptance test is order independent", "statement": "For an undirected one-aspect network, default_check_reqs accepts a selection of the required numbers of nodes and layers iff the induced subgraph is nonempty and connected, has no empty node or layer, and some assignment of the roles to the layers gives the required sizes and (exact or at most, as asked) intersection sizes; relaxed_check_reqs tests the first two only. The answers do not depend on the order of the lists, on storage order, or on links outside the selection.", "quantifier": "every network, selection, requirement", "why_tests_cant": "all permutations of selection and layers", "anchors": ["pymnet/sampling/reqs.py:default_check_reqs", "pymnet/sampling/reqs.py:relaxed_check_reqs"]}
{"id": "C45", "title": "Sampling is sound and exactly-once", "statement": "dumb_enumeration reports every acceptable node/layer selection exactly once. Whatever the order of set pops and whatever the random numbers, sample_multilayer_subgraphs_esu reports acceptable selections only and none twice; when every random number is below the probability (in particular with the default p) it reports all of them, hence the same as dumb_enumeration. With copy_network=True this holds for networks without self-links and without links of weight 0; with a self-link the code raises KeyError, and links of weight 0 are lost in the copy.", "quantifier": "every undirected one-aspect network, requirement, check function, order of set pops and sequence of random numbers", "why_tests_cant": "ranges over all networks and numberings", "anchors": ["pymnet/sampling/dumb.py:dumb_enumeration", "pymnet/sampling/esu.py:sample_multilayer_subgraphs_esu"]}
{"id": "C46", "title": "Auxiliary graph reduction is sound and complete", "statement": "For undirected multilayer networks with equally many aspects, is_isomorphic returns True exactly when there are bijections of the elementary layers of the allowed aspects (nothing moving in the other aspects) that take node-layers onto node-layers and links to links; get_isomorphism returns None exactly when there is none and otherwise dictionaries describing one (listing all elementary layers with include_fixed, only the moved ones without); every automorphism generator returned is an automorphism, and they generate all of them if the backend's generators do; complete invariants are equal exactly for isomorphic networks. The backend is assumed to solve the coloured graph problem. If the numbers of distinct combinations in the aspects that are not allowed differ, the call raises AssertionError instead of answering False; names that cannot be sorted in such an aspect raise TypeError.", "quantifier": "all pairs of undirected networks built through the API with at least one aspect, all aspect sets, all correct backends and all vertex mappings they may return", "why_tests_cant": "existence of isomorphisms over all bijections, for every network and every answer of the backend", "anchors": ["pymnet/isomorphisms/isomcore.py:AuxiliaryGraphBuilder._build_graph_general", "pymnet/isomorphisms/isomcore.py:AuxiliaryGraphBuilder.compare", "pymnet/isomorphisms/isomcore.py:AuxiliaryGraphBuilder.get_isomorphism", "pymnet/isomorphisms/isomcore.py:AuxiliaryGraphBuilder.get_automorphism_generators", "pymnet/isomorphisms/isomcore.py:AuxiliaryGraphBuilder.get_complete_invariant", "pymnet/isomorphisms/__init__.py:is_isomorphic"]}
{"id": "C47", "title": "Automorphism orbits from generators", "statement": "automorphism_orbits yields, for any list of generating permutations in any key order, exactly the orbits of the generated group: every node of every graphlet gets an entry, the least node that products of generators and their inverses take it to, so two nodes get equal entries iff one is taken to the other (TypeError when an orbit mixes ints and strs). automorphism_orbits_nl does the same for node-layers moved by a node map and a layer map together.", "quantifier": "every generating set, every iteration order", "why_tests_cant": "closure property of an in-place update loop for all inputs", "anchors": ["pymnet/graphlets/graphlets.py:automorphism_orbits", "pymnet/graphlets/graphlets.py:automorphism_orbits_nl"]}
{"id": "C48", "title": "Layer combinations and partitions are complete and duplicate free", "statement": "layer_combinations enumerates every non-empty set of layers exactly once. partitions(s,r) enumerates every partition of the set s into blocks of r elements exactly once, in whatever order sets are listed; it raises ZeroDivisionError for r=0 and AssertionError when r does not divide the size. partitions_with_remainder always raises NameError (xrange).", "quantifier": "all layer lists, all sets, all block sizes, all set iteration orders", "why_tests_cant": "all sizes", "anchors": ["pymnet/graphlets/graphlets.py:layer_combinations", "pymnet/graphlets/graphlets.py:partitions", "pymnet/graphlets/graphlets.py:partitions_with_remainder"]}
{"id": "C49", "title": "Strongly connected components", "statement": "SCCs(net) partitions the nodes of a directed network into its strongly connected components (two nodes are in one component iff each can be reached from the other); it raises KeyError iff some successor is not a node. The components come in an order in which no arc leads to a later one.", "quantifier": "every directed network, every iteration order", "why_tests_cant": "reachability over all paths; correctness of two depth-first searches", "anchors": ["pymnet/graphlets/independent_equations.py:SCCs", "pymnet/graphlets/independent_equations.py:explore", "pymnet/graphlets/independent_equations.py:DFS", "pymnet/graphlets/independent_equations.py:reverse"]}
{"id": "C50", "title": "networkx wrapper restores networkx after use", "statement": "A function wrapped by networkxdecorator gets views of the networks among its positional and keyword arguments and, if it returns such a view, the caller gets the network back. A call that returns leaves networkx.Graph as it found it, whatever wrapped calls failed inside it. A call with a network argument that is directed or has aspects raises AssertionError and changes nothing. A call that raises otherwise leaves the view class installed, for good: after any sequence of calls networkx.Graph() makes an ordinary graph iff no call with acceptable arguments has raised.", "quantifier": "every wrapped function (any nesting of wrapped calls, returns and exceptions), every sequence of calls", "why_tests_cant": "exceptional control flow over all call histories", "anchors": ["pymnet/nxwrap.py:networkxdecorator"]}
{"id": "C51", "title": "Nodes, layers and node-layers of a multiplex network", "statement": "The nodes and elementary layers of a MultiplexNetwork are exactly those named by the calls made so far (including rejected coupling writes), its layers are all combinations of elementary layers, and its node-layers are all combinations (fully interconnected) or exactly the ones created by a call naming them (otherwise).", "quantifier": "every history of writes, node and layer additions, every coupling list and number of aspects", "why_tests_cant": "ranges over all histories and interleavings of the entry points (network, node proxy, intra-layer networks)", "anchors": ["pymnet/net.py:MultiplexNetwork.add_layer", "pymnet/net.py:MultiplexNetwork.add_node", "pymnet/net.py:MultiplexNetwork.iter_node_layers", "pymnet/net.py:MultilayerNetworkWithParent.add_node"]}
{"id": "C52", "title": "er_multilayer decides every node pair and layer pair independently", "statement": "er_multilayer(nodes,layers,p) gives every pair of different nodes i<j and every ordered pair of layers (l,r) the link between (i,l) and (j,r) exactly when its own random draw succeeds, with the weight drawn for it; a node is never linked to itself, neither on a layer nor across layers.", "quantifier": "every number of nodes, every list of distinct layers, every outcome of the random draws and weights", "why_tests_cant": "the outcomes of the random draws are unbounded; only a proof over all of them shows that no draw overwrites another.", "anchors": ["pymnet/models.py:er_multilayer"]}
{"id": "C53", "title": "Connected node sets are enumerated exactly once", "statement": "touching_orbit_nodes(x,net,k) returns exactly the node sets of 2 to k nodes that contain x and are connected when two nodes count as adjacent iff some replicas of them are linked. orbit_counts_all examines, over all nodes, every connected node set of 2 to n nodes exactly once: for each node those that contain it and no earlier node.", "quantifier": "every network with one aspect, every node, size and node order", "why_tests_cant": "completeness over all connected subsets of all networks", "anchors": ["pymnet/graphlets/graphlet_measures.py:touching_orbit_nodes", "pymnet/graphlets/graphlet_measures.py:orbit_counts_all"]}
{"id": "C54", "title": "Orbit lists and orbit numbers", "statement": "list_orbits lists every orbit of every graphlet exactly once under its size. orbit_numbers(n,nets,auts) numbers exactly the orbits of the graphlets of 2 to n nodes with 0,1,2,... without gaps or repeats, and ordered_orbit_list holds at each position the orbit with that number.", "quantifier": "all graphlet dictionaries and orbit dictionaries", "why_tests_cant": "bijection for all inputs", "anchors": ["pymnet/graphlets/graphlets.py:list_orbits", "pymnet/graphlets/graphlet_measures.py:orbit_numbers", "pymnet/graphlets/graphlet_measures.py:ordered_orbit_list"]}
{"id": "C55", "title": "Definitely independent equations", "statement": "definitely_independent splits the equations into two disjoint groups that cover all of them; an equation is in the first iff the orbits it combines all have two nodes or it mentions an orbit that no other equation mentions.", "quantifier": "all equation dictionaries", "why_tests_cant": "relation between every pair of equations", "anchors": ["pymnet/graphlets/independent_equations.py:definitely_independent"]}
{"id": "C56", "title": "Multiplex edge iteration is exact", "statement": "Iterating net.edges of a multiplex network gives every link, intra-layer or coupling, with its weight: each one once in a directed network and once in one of the two orientations in an undirected one. len(net.edges) is their number. A self-loop written through net.A[layer] breaks this: it is iterated with weight noEdge and not counted.", "quantifier": "every reachable multiplex network, any number of aspects, categorical and ordinal couplings, fully interconnected or with one categorical aspect", "why_tests_cant": "couplings are implicit, so all histories and coupling types matter", "anchors": ["pymnet/net.py:MultilayerEdges", "pymnet/net.py:MultiplexNetwork"]}
{"id": "C57", "title": "Aggregating a multiplex network", "statement": "aggregate of a multiplex network over any set of aspects gives the network whose links carry the sums of the weights of the links mapped to them, couplings included, without links from a node-layer to itself, with all nodes and the remaining layers.", "quantifier": "every reachable multiplex network without self-loops, every set of aspects", "why_tests_cant": "sums over all links of all networks", "anchors": ["pymnet/transforms.py:aggregate", "pymnet/net.py:MultiplexNetwork"]}
{"id": "C58", "title": "Alternating-walk clustering coefficients", "statement": "lcc_aw, sncc_aw and gcc_aw return the fractions of closed alternating walks over the corresponding walks with the closing step replaced by a jump to any node of the layer; each lies in [0,1] and is 0 if there is nothing to count. With three weights the value is the weighted sum of the three fractions; with two non-negative costs it is one fraction in [0,1]. sncc_aw_layercost equals sncc_aw with costs; sncc_aw_seplayers is undefined exactly if a coefficient of positive weight has nothing to count; gcc_moreno2_seplayers counts the walks of two directions twice; avg_lcc_aw is the mean of lcc_aw over the existing node-layers and divides by zero if there are none.", "quantifier": "all undirected one-aspect categorical multiplex networks without self-loops (unit weights for gcc_aw of a fully interconnected one), all nodes, layers, weights and costs", "why_tests_cant": "bounds and identities over all networks and parameters", "anchors": ["pymnet/cc.py:lcc_aw", "pymnet/cc.py:sncc_aw", "pymnet/cc.py:gcc_aw", "pymnet/cc.py:avg_lcc_aw", "pymnet/cc.py:sncc_aw_layercost", "pymnet/cc.py:sncc_aw_seplayers", "pymnet/cc.py:gcc_moreno2_seplayers"]}
{"id": "C59", "title": "Edge files", "statement": "write_edge_files writes one file for each layer with one row for each link of the layer and its weight (one orientation in an undirected network); with numericNodes the node names are replaced by their positions in one list of the nodes. read_edge_files gives the network in which two different nodes of a layer are linked with the weight of the last line about them, and whose nodes and layers are those on lines that are not self-links; a self-link raises KeyError unless self-links are ignored. Reading back the rows written gives all links between different nodes back.", "quantifier": "every reachable one-aspect multiplex network; every list of lines, directed or not", "why_tests_cant": "round trips over all networks and files", "anchors": ["pymnet/netio.py:read_edge_files", "pymnet/netio.py:write_edge_files"]}
{"id": "C60", "title": "A plain network as networkx graph", "statement": "The adjacency mapping that networkx sees of an undirected network without aspects lists exactly its nodes; the mapping of a node lists exactly its neighbours, has their number as length, and raises KeyError for other keys; the 'weight' of an edge is the link weight; the mapping of node attributes has exactly the nodes as keys. Writing an edge or its weight sets the link in both directions and changes nothing else; removing it removes the link (raising KeyError afterwards for a self-loop); assigning a dictionary to a node adds the node and these links, keeping the others, with the first value of each attribute dictionary (1 if empty) as weight. Nodes cannot be removed. The network always remains in a state that its own methods produce.", "quantifier": "every undirected network without aspects after any history, every sequence of mapping operations", "why_tests_cant": "all histories and operation sequences", "anchors": ["pymnet/nxwrap.py:MonoplexGraphWrapper_adj", "pymnet/nxwrap.py:MonoplexGraphWrapper_adjlist", "pymnet/nxwrap.py:MonoplexGraphWrapper_singleedge"]}
{"id": "C61", "title": "Battiston's clustering coefficients", "statement": "lcc_battiston1 of a node is the number of (layer, other layer, two-step path from and to the node on the first layer closed on the other one) divided by (layers-1) times the number of such open paths, and lcc_battiston2 the same with the two steps on different layers and the closing link on a third; both are in [0,1] when defined, None when there is no open path (battiston2 also with fewer than three layers), and battiston1 raises AssertionError with fewer than two layers. On complete layers with n nodes both are (n-2)/(n-1), because the code counts paths returning to the same neighbour as open.", "quantifier": "every multiplex network with one aspect, any coupling and directedness, after any history; every node", "why_tests_cant": "all networks and histories", "anchors": ["pymnet/cc.py:lcc_battiston1", "pymnet/cc.py:lcc_battiston2"]}
{"id": "C62", "title": "Brodka's clustering coefficient", "statement": "lcc_brodka of a node with threshold t is the sum of the weights read between the nodes linked to it in either direction on at least t layers (by default all), over all layers, divided by 2 * number of these nodes * number of layers, and 0 if there are none. It scales with the weights, is n-2 on complete networks of n nodes, and the aggregated network given as argument does not change it if all weights are 0 or 1; with other weights it does, because the threshold is then compared with summed weights.", "quantifier": "every multiplex network with one aspect after any history, every node and threshold", "why_tests_cant": "all networks, histories and thresholds", "anchors": ["pymnet/cc.py:lcc_brodka"]}
{"id": "C63", "title": "Criado's clustering coefficient", "statement": "lcc_criado of a node is the number of (layer, pair of neighbours of the node on some layer that are both present on the layer) with a link on that layer divided by the number of all such triples, in [0,1], None if there is none. The aggregated network given as argument does not change it for non-negative weights. It is not the documented formula that counts links of the aggregated network.", "quantifier": "every multiplex network with one aspect and no self-links after any history, every node", "why_tests_cant": "all networks and histories", "anchors": ["pymnet/cc.py:lcc_criado"]}
{"id": "C64", "title": "Contraction clustering coefficients", "statement": "gcc_contraction_m, _m_ct and _m_full all return the weight of closed three-step walks over node-layer tuples divided by the weight of two-step walks between distinct tuples; _o2 and _o_full both return the same ratio for the network of weights summed over layers, with the denominator multiplied by the number of layers; each is None iff the denominator is 0. With weights 0 and 1 and no self-links all are in [0,1]. gcc_contraction_o subtracts the returning walks only once instead of once per layer: it agrees with _o2 on one layer, is at most _o2 for 0/1 weights, and differs in general. With coupling 'none' the m variants raise.", "quantifier": "every plain network with one aspect and every multiplex network with one aspect all of whose weights can be read (always with a categorical coupling), after any history, every iteration order", "why_tests_cant": "all networks, histories and set iteration orders", "anchors": ["pymnet/cc.py:gcc_contraction_m", "pymnet/cc.py:gcc_contraction_m_ct", "pymnet/cc.py:gcc_contraction_m_full", "pymnet/cc.py:gcc_contraction_o", "pymnet/cc.py:gcc_contraction_o_full", "pymnet/cc.py:gcc_contraction_o2"]}
{"id": "C65", "title": "Zhang's and Barrat's weighted clustering coefficients", "statement": "On an undirected single-layer network cc_zhang of a node is the sum of the products of the three weights of the triangles at the node divided by the largest weight of the network times the sum of the products of the two weights of each pair of links at the node; None with fewer than two neighbours, ValueError on a network without links, ZeroDivisionError if the denominator is 0. Without self-links it is the documented sum over all pairs of nodes. With positive weights it is in [0,1], and it equals the unweighted coefficient if all weights are equal; gcc_zhang is the ratio of the sums over all nodes. cc_barrat is the sum of the two weights to each linked pair of neighbours over 2*strength*(degree-1), None below degree 2, in [0,1] with positive weights, equal to the unweighted coefficient if the weights at the node are equal; it raises ZeroDivisionError if weights of different sign cancel.", "quantifier": "every undirected network without aspects (cc_barrat: any number of aspects) after any history, every node", "why_tests_cant": "all networks, weights and histories", "anchors": ["pymnet/cc.py:cc_zhang", "pymnet/cc.py:gcc_zhang", "pymnet/cc.py:cc_barrat"]}
{"id": "C66", "title": "Clustering of the super graph and of the separate layers", "statement": "gcc_super_graph is the fraction of all pairs of neighbours of node-layer tuples that are linked, for any number of aspects; cc_sequence lists for each layer the linked pairs and all pairs of neighbours of a node on the layer; cc_layers_wavg is the fraction of linked pairs over all layers and raises ZeroDivisionError if there is no pair; gcc_super_graph_no_couplings is the fraction over all nodes and layers, None if there is no pair. All fractions are in [0,1].", "quantifier": "every undirected plain network (gcc_super_graph) and every undirected multiplex network with any number of aspects and any coupling (the others), after any history", "why_tests_cant": "all networks and histories", "anchors": ["pymnet/cc.py:gcc_super_graph", "pymnet/cc.py:cc_sequence", "pymnet/cc.py:cc_layers_wavg", "pymnet/cc.py:gcc_super_graph_no_couplings"]}
{"id": "C67", "title": "Equality of multiplex networks", "statement": "p == q of two multiplex networks never raises and is True exactly if the networks have the same directedness, noEdge, full interconnection, couplings (kind and weight, or equal coupling networks), the same nodes, elementary layers and node-layers, and the same weights in every intra-layer network; it is an equivalence, and equal networks answer every read of a link identically.", "quantifier": "all pairs of multiplex networks with any number of aspects and any couplings (coupling networks: single-layer networks built with the public interface), after any histories", "why_tests_cant": "all pairs of networks and histories", "anchors": ["pymnet/net.py:MultiplexNetwork.__eq__"]}
{"id": "C68", "title": "Relabelling and normalizing multiplex networks", "statement": "relabel of a multiplex network with names that stay distinct gives a network with the renamed nodes, layers and node-layers in which every link reads as the original link does, except that the links of an ordinal coupling follow the new layer names (they are kept if the renaming keeps neighbouring layers); renaming nothing gives an equal network and undoing a renaming restores an equal network. normalize numbers nodes and layers consecutively in sorted order and relabels accordingly. relabel raises KeyError if two linked nodes get the same name or a node is linked to itself in a layer, and AssertionError if a coupling is given by a network.", "quantifier": "every multiplex network with at least one aspect after any history, all renaming dictionaries, all start numbers", "why_tests_cant": "all networks, histories and renamings", "anchors": ["pymnet/transforms.py:relabel", "pymnet/transforms.py:normalize"]}
{"id": "C69", "title": "Subnetworks of multiplex networks", "statement": "subnet of a multiplex network, with the selected layers being layers of the network, gives a multiplex network with the same couplings and settings whose node-layers, nodes and layers are exactly the selected ones of the original, and in which every link between remaining node-layers, intra-layer and coupling links alike, reads as it does in the original; with nolinks=True the intra-layer networks are empty. Selecting everything gives an equal network if every node is on some layer. Selecting a layer that does not exist raises KeyError (the rest of the selection not being empty); a wrong number of arguments or a coupling given by a network raises AssertionError.", "quantifier": "every multiplex network with at least one aspect after any history, all selections", "why_tests_cant": "all networks, histories and selections", "anchors": ["pymnet/transforms.py:subnet"]}
{"id": "C70", "title": "Thresholding uncoupled multiplex networks", "statement": "threshold of a fully interconnected multiplex network all of whose couplings are \"none\" keeps the nodes, layers and node-layers, keeps in every intra-layer network exactly the links whose weight passes the comparison, with their weights, and adds nothing. If the network is not fully interconnected (and has a node-layer) it raises NameError; an unknown method raises an exception exactly if there is a link.", "quantifier": "every multiplex network without couplings after any history, all thresholds and methods", "why_tests_cant": "all networks, histories and thresholds", "anchors": ["pymnet/transforms.py:threshold"]}
{"id": "C71", "title": "Randomizing the nodes of each layer", "statement": "randomize_nodes_by_layer of a one-aspect multiplex network keeps settings, couplings, layers and node-layers, and on each layer gives a network isomorphic to the original layer under the permutation of the nodes of that layer drawn by random.shuffle; nodes that are on no layer are lost. Other numbers of aspects and couplings given by a network raise AssertionError.", "quantifier": "every one-aspect multiplex network after any history, all outcomes of the random shuffles", "why_tests_cant": "all networks, histories and random outcomes", "anchors": ["pymnet/transforms.py:randomize_nodes_by_layer"]}
{"id": "C72", "title": "Thresholding and flattening coupled multiplex networks", "statement": "For a fully interconnected multiplex network with noEdge=0 and no loops inside a layer, threshold into a multilayer network keeps the nodes and layers, and the links of the result are exactly those links of the original, intra-layer and coupling links alike, whose weight passes the comparison, with their weights; if the network is not fully interconnected and has a node-layer it raises NameError. get_underlying_graph has one node for each node-layer and exactly the links of the network between them, with their weights, whenever different node-layers have different string representations.", "quantifier": "every multiplex network after any history with nonzero categorical or ordinal couplings (one categorical aspect if not fully interconnected), all thresholds, methods and representations", "why_tests_cant": "all networks, histories and thresholds", "anchors": ["pymnet/transforms.py:threshold", "pymnet/transforms.py:get_underlying_graph"]}
{"id": "C73", "title": "Supra-adjacency matrix of multiplex networks", "statement": "If get_supra_adjacency_matrix of a multiplex network returns, the node-layer list has every combination of a node and elementary layers exactly once, the matrix is square of that size, and each entry is what reading the link between the two node-layers returns, or zero for different layers when couplings are not included. Without couplings it returns whenever the names can be sorted; with couplings it returns for fully interconnected networks without \"none\" couplings whose ordinal layers are integers and whose names can be sorted, and raises if two node-layers are separated by a \"none\" coupling. The matrix of an undirected network is symmetric.", "quantifier": "every multiplex network with at least one aspect after any history", "why_tests_cant": "all networks and histories", "anchors": ["pymnet/net.py:MultilayerNetwork.get_supra_adjacency_matrix", "pymnet/net.py:MultiplexNetwork._get_link"]}
{"id": "C74", "title": "Iterating over subnetworks", "statement": "subnet_iter with remove_edges=False yields exactly one network for each choice of a nonempty set of names for every coordinate listed in remove_elayers, the subnetwork induced by the choice, for multilayer and for multiplex networks. With remove_edges=True and a multilayer network it yields exactly one network for each such choice and each set of edges of the original network: it has the links of the set between chosen node-layers, with their weights, and no other links, and the chosen nodes and layers together with the ends of all edges of the set, chosen or not (so removed nodes reappear and equal networks are yielded several times). A coordinate that does not exist raises AssertionError. A multiplex network with a coupling edge cannot be iterated over with remove_edges=True: an exception is raised.", "quantifier": "every network after any history, every list of coordinates; the coupling-edge clause for multiplex networks with noEdge=0, no loops inside a layer and nonzero categorical or ordinal couplings", "why_tests_cant": "all networks, choices and sets of edges", "anchors": ["pymnet/transforms.py:subnet_iter"]}
{"id": "C75", "title": "Diagnostics of multiplex networks", "statement": "For a multiplex network with noEdge=0, nonzero categorical or ordinal couplings and positive weights, dijkstra returns for each node-layer that can be reached the least total weight of a walk along intra-layer and coupling links from a source, and a forest whose links between different node-layers are exactly the links on shortest paths with their weights, plus a self-link of weight 0 at every source; this does not depend on which of several least entries the heap returns. multiplex_degs of an undirected network has one entry per layer, and each maps k to the number of nodes of the layer that are linked to exactly k nodes within the layer. multiplex_density has one entry per layer, the share of the ordered pairs of different nodes of the layer that are linked, 0 for a layer without nodes, and raises ZeroDivisionError if some layer has a single node (in networks without loops inside a layer).", "quantifier": "every multiplex network after any history; all sources that exist; all choices of the heap", "why_tests_cant": "all networks, histories, sources and heap orders", "anchors": ["pymnet/diagnostics.py:dijkstra", "pymnet/diagnostics.py:multiplex_degs", "pymnet/diagnostics.py:multiplex_density"]}
{"id": "C76", "title": "Shortest paths that ignore aspects", "statement": "For a network with at least one aspect and positive weights, dijkstra_mlayer_prune starts from all node-layers with a positive degree that match a source in the coordinates that are not ignored; it returns for each combination of the remaining coordinates the least distance of the node-layers with this combination, and a forest that has exactly the links on shortest paths that lead to a node-layer with the least distance of its combination, with their weights, plus self-links at the sources on such paths (with what reading the self-link returns). The result does not depend on which of several least entries the heap returns. The same holds for fully interconnected undirected multiplex networks with intra-layer and coupling links. A source that names something in an ignored coordinate raises AssertionError.", "quantifier": "every network after any history, all lists of sources, all sets of ignored aspects, all choices of the heap", "why_tests_cant": "all networks, sources and heap orders", "anchors": ["pymnet/diagnostics.py:dijkstra_mlayer_prune"]}
{"id": "C77", "title": "Erdos-Renyi model with given overlaps", "statement": "Whatever the random draws: when er_overlaps_match_aggregated returns, every combination of k>=2 layers has got k*m pairs of nodes, where m=int(round(p*edges)), that are linked with weight 1 in exactly the layers of the combination; every layer has got edges minus the m of its combinations further pairs that are linked in this layer only; no pair is drawn twice, and the nodes and layers are those that have a link. So a layer has edges+sum of (k-1)*m links (not edges, as documented), and the number of pairs linked in some layer is edges times the number of layers, if none of the counts is negative. It returns as soon as enough different pairs have been drawn; with at least two nodes it never raises, and it draws forever if more pairs are needed than exist. With fewer than two nodes it raises IndexError, and with couplings=[] it raises KeyError at the first link.", "quantifier": "every number of nodes and edges, every list of combinations with their numbers, every sequence of random draws", "why_tests_cant": "ranges over all random outcomes and parameters", "anchors": ["pymnet/models.py:er_overlaps_match_aggregated"]}
{"id": "C78", "title": "Configuration model for multiplex networks", "statement": "Whatever the shuffles, the edges drawn while rewiring and the order in which sets are iterated: when conf of a dict (or list) of degree dicts returns, the layers are exactly those asked for with the couplings asked for; the node-layers of each layer are exactly its keys, and its intra-layer network is simple and undirected with links of weight 1 in which every node has the prescribed number of neighbours (for distributions: the nodes are 0..N-1 and exactly the prescribed number of them has each degree). It fails only if one of the layers fails for one of the reasons of the single-layer model. conf of a multiplex network with one aspect has the same layers, node-layers and degrees in every layer, no self-links, and the coupling (categorical,1.0) whatever the coupling of the argument; it raises AssertionError for another number of aspects and StopIteration for a network without layers. Every family of simple graphs with the prescribed degrees is a possible result.", "quantifier": "every dict of degree dicts or distributions, every multiplex network after any history, all random outcomes and set iteration orders", "why_tests_cant": "ranges over all degree sequences, random outcomes and rewiring histories", "anchors": ["pymnet/models.py:conf", "pymnet/models.py:single_layer_conf"]}
{"id": "C79", "title": "Walk counts by matrices", "statement": "In a multiplex network with at least two nodes, without self-links, whose names are all of one kind per aspect, cc_cycle_vector_adj(net,node,layer) returns for every known node and layer the ten counts of closed walks from this node-layer along the products of matrices it names, where a holds the weights of the intra-layer links, c the weights of the coupling edges and f is 1 between different nodes of a layer; none of its assertions fails, provided that the coupling weight is 1 if the network is fully interconnected. With unit weights it returns the same as cc_cycle_vector_bf. In a fully interconnected network with several layers and a coupling weight whose square is not 1 it raises AssertionError for every node-layer from which such a walk exists. It raises TypeError if the names cannot be sorted, and ValueError if the node or the layer is unknown or there is only one node.", "quantifier": "every multiplex network with one aspect and a categorical coupling after any history without self-links, every node, layer and weight", "why_tests_cant": "ranges over all networks; the assertions are identities between matrix products that must hold for all of them", "anchors": ["pymnet/cc.py:cc_cycle_vector_adj", "pymnet/cc.py:get_full_multiplex_network"]}
{"id": "C80", "title": "Alternating-walk coefficients by matrices", "statement": "gcc_aw_vector_adj(net) returns six lists with one entry for every combination of a node and a layer: the numbers of closed walks of the three kinds (inside one layer, over two layers, over three layers) and of the same walks closed by any node; cc_aw_vector(net) returns the corresponding lists computed from the counts of C42. With unit weights gcc_aw_seplayers_adj(net,w1,w2,w3) returns the same number as gcc_aw(net,w1,w2,w3), and with returnCVector the same vector, except that with exactly two layers it ignores the flag and returns the weighted sum of the first two coefficients. The matrix functions raise TypeError if the names cannot be sorted and ValueError if there is only one node.", "quantifier": "every multiplex network with one aspect and a categorical coupling after any history without self-links, every node, layer and weight", "why_tests_cant": "ranges over all networks", "anchors": ["pymnet/cc.py:gcc_aw_vector_adj", "pymnet/cc.py:cc_aw_vector", "pymnet/cc.py:gcc_aw_seplayers_adj"]}
{"id": "C81", "title": "Moreno's coefficients by matrices", "statement": "gcc_vector_moreno(net) returns the numbers of closed walks of three links of the three kinds divided by the numbers of walks of the corresponding open kinds that do not return to their start; gcc_vector_moreno2(net) divides by the walks closed by any node, the third coefficient being 0 if there are none. A coefficient with denominator 0 is nan (inf if the numerator is not 0). gcc_moreno and gcc_moreno2 return the weighted sum (of the first two coefficients if there are exactly two layers, for gcc_moreno2), which is nan if a coefficient is nan even if its weight is 0. With unit weights gcc_moreno2 returns the same number as gcc_moreno2_seplayers if there are walks of the first two kinds; otherwise gcc_moreno2 returns nan where gcc_moreno2_seplayers returns a number. Both vectors raise ZeroDivisionError if there is no node-layer, TypeError if the names cannot be sorted, and gcc_vector_moreno2 raises ValueError if there is only one node.", "quantifier": "every multiplex network with one aspect and a categorical coupling after any history without self-links, every node, layer and weight", "why_tests_cant": "ranges over all networks", "anchors": ["pymnet/cc.py:gcc_vector_moreno", "pymnet/cc.py:gcc_moreno", "pymnet/cc.py:gcc_vector_moreno2", "pymnet/cc.py:gcc_moreno2"]}
{"id": "C82", "title": "Overlap degrees", "statement": "overlap_degs(net) raises NameError for every network with at least one aspect, because diagnostics.py does not import the functions subnet, aggregate and threshold it uses. Once these names are defined in the module: for a multiplex network without self-links in which every link has weight 1, overlap_degs(net) returns one entry for every nonempty combination of layers (in the order in which the layers are listed). The entry lists exactly the nodes on at least one of these layers, each with the number of nodes it is linked to in all layers of the combination and in no other layer. The overlap degrees of a node over the combinations with a given layer add up to the degree of the node in that layer. With other weights this does not hold: a link of weight 2 in one layer can be counted as a link shared by two layers. The function raises IndexError for networks without aspects and AssertionError for networks with several aspects or with couplings given as networks.", "quantifier": "every undirected multiplex network with one aspect and a categorical coupling after any history, fully interconnected or not, every combination of layers, every node", "why_tests_cant": "ranges over all networks and all combinations of layers; the function deletes links while it counts, so the entry of a combination depends on all larger ones", "anchors": ["pymnet/diagnostics.py:overlap_degs"]}
{"id": "C83", "title": "Configuration model with given overlap degrees", "statement": "If conf_overlaps(ol_degs, couplings) returns, with one coupling, the network consists of one simple graph per layer combination of ol_degs, in which every listed node has exactly its listed number of neighbours and only listed nodes are linked. No pair of nodes is linked in the graphs of two combinations. Two nodes are linked in a layer, with weight 1, exactly if they are neighbours in the graph of a combination with this layer; nobody is linked to itself. The nodes and layers of the network are those with at least one link: nodes of degree 0 are missing. If no two combinations have the same layers, overlap_degs of the result (with a nonzero categorical coupling, and the names that overlap_degs misses defined, see C82) gives back the degrees, and 0 for nodes and combinations that were not given. Every such family of graphs is a possible result, if the nodes of each combination can be compared. The call fails only with AssertionError for an odd or too large sum of degrees of a combination, TypeError for nodes that cannot be compared, ValueError for a combination with fewer than four stubs, or it goes on rewiring for ever. With couplings=[] it returns only if there is nothing to link.", "quantifier": "every dictionary of degrees, every outcome of random.shuffle and random.sample, every iteration order of the sets", "why_tests_cant": "ranges over all degree sequences and all random outcomes; each rewiring must keep the degrees, the simplicity of the graph and the disjointness from all earlier combinations", "anchors": ["pymnet/models.py:conf_overlaps", "pymnet/diagnostics.py:overlap_degs"]}
{"id": "C84", "title": "Random multilayer networks of the sampling package", "statement": "er_multilayer_partially_interconnected(nodes_by_layer,p) never fails. The result is an undirected network with one aspect, not fully interconnected, whose layers are 0,1,... (one per list, also for empty lists) and whose node-layers are exactly the listed ones. Every unordered pair of different node-layers is decided by one random number: it is linked, with weight 1, exactly if the number is below p; there are no self-links and no other links. So p=0 gives no links, p=1 all links, and every graph on the node-layers is possible. Where the built-in xrange exists (Python 2), random_nodelists(poolsize,nodes_per_layer,layers) gives one list per layer, each of nodes_per_layer different nodes of range(poolsize); every choice of such lists is possible; it raises ValueError exactly if layers>0 and nodes_per_layer>poolsize; together the two functions give networks with exactly nodes_per_layer nodes on each layer. In Python 3 random_nodelists raises NameError as soon as a list is requested.", "quantifier": "every sequence of node lists (with repetitions and empty lists), every outcome of the random calls, every pool size, list length and number of layers", "why_tests_cant": "ranges over all node lists and all random outcomes; a single pair drawn twice, a self-link or a lost empty layer would bias the samples that are tested", "anchors": ["pymnet/sampling/creators.py:er_multilayer_partially_interconnected", "pymnet/sampling/creators.py:random_nodelists"]}
{"id": "C85", "title": "Isomorphisms of multiplex networks", "statement": "For undirected multiplex networks without self-loops, with equally many aspects, whose couplings are categorical or ordinal with nonzero weight or none (or one categorical coupling if the network is not fully interconnected): is_isomorphic returns True exactly when there are bijections of the elementary layers of the allowed aspects, the others fixed, that take node-layers onto node-layers and links (within the layers and between them, implied by the couplings) to links; get_isomorphism returns None exactly when there is none and otherwise dictionaries describing one; automorphism generators are automorphisms and generate all of them if the backend's do; complete invariants are equal exactly for isomorphic networks. If the numbers of distinct combinations in the aspects that are not allowed differ, the comparison raises AssertionError. Directed networks raise AssertionError.", "quantifier": "all pairs of such multiplex networks with any history of API calls, all aspect sets, all exact backends and all mappings they may return", "why_tests_cant": "existence of isomorphisms over all bijections, for every network and every answer of the backend; the inter-layer links are never stored", "anchors": ["pymnet/isomorphisms/isomcore.py:AuxiliaryGraphBuilder._build_graph_general", "pymnet/isomorphisms/isomcore.py:AuxiliaryGraphBuilder.compare", "pymnet/isomorphisms/isomcore.py:AuxiliaryGraphBuilder.get_complete_invariant", "pymnet/net.py:MultiplexNetwork"]}
{"id": "C86", "title": "Enumeration of graphlets", "statement": "For different layers that are all numbers or all strings, with a categorical or ordinal coupling of nonzero weight (ordinal only between numbers) or no coupling, and allowed aspects that include the nodes: graphlets(n, layers, n_l, couplings) returns a list for each size from 2 to max(2,n). Each list holds connected, fully interconnected multiplex networks without self-links, with links of weight 1, nodes 0..k-1 and n_l of the layers; no two are isomorphic. Every such connected network with k nodes, whatever its node names and link weights, is isomorphic to exactly one network of the list. Its complete invariant is a key of the second result and gives the size and the index of that network, and the second result has no other keys.", "quantifier": "all n, layer lists, numbers of layers, couplings, allowed aspects and exact invariants; all connected networks of these sizes", "why_tests_cant": "completeness up to isomorphism over infinitely many networks; each size is built from the previous one, so a missing extension shows only for larger sizes", "anchors": ["pymnet/graphlets/graphlets.py:graphlets", "pymnet/graphlets/graphlets.py:layer_combinations", "pymnet/isomorphisms/isomcore.py:AuxiliaryGraphBuilder.get_complete_invariant"]}
{"id": "C87", "title": "Orbit counts of multiplex networks", "statement": "Take the graphlets returned by graphlets(n, layers, n_l, [coupling]), the orbits returned by automorphism_orbits and the list given by ordered_orbit_list(orbit_numbers(n, nets, auts)), with layers, coupling and allowed aspects as in C86. Two nodes of a graphlet have the same orbit exactly when an automorphism of the graphlet takes one to the other, and the list contains every orbit of every graphlet with 2 to n nodes once. For a fully interconnected undirected multiplex network without self-links, with this coupling and n_l of these layers, every connected set of 2 to n nodes that contains a node x belongs to exactly one orbit of x: an isomorphism takes the subnetwork on the set to the graphlet and x to a node of the orbit. orbit_counts(n, x, ...) stores for every listed orbit the number of connected sets of 2 to n nodes that belong to it, and leaves other entries of the dictionary alone. orbit_counts_all returns the same counts for all nodes and has no other keys; afterwards the network given by the caller has the same nodes and layers but has lost all links inside its layers.", "quantifier": "all n, layers, couplings, allowed aspects, networks, nodes and exact graph backends", "why_tests_cant": "the counts must be right for every network and do not depend on the isomorphism the backend happens to return; orbit_counts_all removes links while it counts, so that a wrong order loses subgraphs only in some networks", "anchors": ["pymnet/graphlets/graphlet_measures.py:orbit_counts", "pymnet/graphlets/graphlet_measures.py:orbit_counts_all", "pymnet/graphlets/graphlet_measures.py:touching_orbit_nodes", "pymnet/graphlets/graphlets.py:automorphism_orbits"]}
{"id": "C88", "title": "Coefficients of the orbit equations", "statement": "With graphlets, automorphism orbits and the list of orbits as in C87: coefficient(x, both, orbit1, orbit2, net), for a network with the coupling and layers of the graphlets, a node x of it, a list both of distinct nodes that contains x and is not longer than the graphlet of orbit1 has nodes, is the number of pairs of node sets that together contain all nodes of net, share len(both) nodes including x, and in which x occupies orbit1 and orbit2; it is half of that number if the orbits are equal. For the graphlet and a node of an orbit, and len(both) equal to the sizes of the graphlets of orbit1 and orbit2 minus its size, it depends only on the three orbits. The orbit counts of every node of every network satisfy the equations: if a and b are the sizes of the graphlets of two orbits and a + b - 1 <= n, the product of their counts is the sum, over the orbits of graphlets with max(a, b) to a + b - 1 nodes, of the (undivided) coefficient times the count; for one orbit with itself count * (count - 1) is the sum over the orbits of more than a nodes; for two orbits of equally large graphlets the product is the sum over the orbits of more than a nodes; for a > b the term of the size a is the count of orbit2 in the graphlet of orbit1 times the count of orbit1. orbit_name(x, net) is the only orbit that x occupies in a connected network of 2 to n nodes. subtrahend raises NameError for all orbits.", "quantifier": "all n, layers, couplings, allowed aspects, networks, nodes, orbits, shared nodes and exact graph backends", "why_tests_cant": "the equations are identities that must hold for every network and node; a coefficient that misses or repeats one way to split a graphlet is only wrong for networks that contain it", "anchors": ["pymnet/graphlets/graphlets.py:coefficient", "pymnet/graphlets/graphlets.py:coefficient_help", "pymnet/graphlets/graphlets.py:orbit_name", "pymnet/graphlets/graphlets.py:subtrahend"]}
{"id": "C89", "title": "Redundant orbits", "statement": "redundant_orbits(inds, eqs, orbit_is, orbit_list), when every equation of inds is in eqs, every orbit of it has a number, and orbit_list inverts the numbering, gives each equation of inds one orbit of its own right-hand side and no orbit to two equations: in the order in which inds is iterated, the orbit with the greatest number that has not been given away. The result lists these orbits, as many as there are equations. It raises ValueError iff it meets an equation all of whose orbits have been given away, and KeyError for an unknown equation. Whether it raises can depend on the order in which the set inds is iterated.", "quantifier": "all sets of equations in every iteration order, equations, numberings and orbit lists", "why_tests_cant": "the assignment must be injective for every set of equations and every iteration order of a Python set; a test sees one order", "anchors": ["pymnet/graphlets/independent_equations.py:redundant_orbits"]}
{"id": "C90", "title": "Independent and dependent equations of a dependency network", "statement": "independents_and_dependents, given the strongly connected components of a network of dependencies in which every successor is a node and every three-orbit equation follows from something other than itself, puts every equation in exactly one of the two groups. A dependent equation has successors and follows, in finitely many steps of the network, from the independent ones. An independent equation has no successors or depends on itself; without cycles the independent equations are exactly those without successors. all_inds_and_deps tries every choice of one dependency set for each equation that has any and returns a choice, and its split, with the greatest number of dependent equations; it raises UnboundLocalError (a NameError) iff no choice has a dependent equation. The number of independent equations can depend on the order in which a component (a set) is iterated.", "quantifier": "all dependency networks, alternatives, and iteration orders of sets", "why_tests_cant": "that the dependent equations follow from the independent ones is an invariant of the order in which components are visited and must hold for every network with cycles", "anchors": ["pymnet/graphlets/independent_equations.py:independents_and_dependents", "pymnet/graphlets/independent_equations.py:all_inds_and_deps", "pymnet/graphlets/independent_equations.py:strongly_connected_components"]}
{"id": "C91", "title": "Independent orbit equations", "statement": "find_key finds the equation for two orbits in either order iff there is one; find_equations gives the equations for the products of an orbit with all orbits of a right-hand side, or nothing if one of them is missing. eqs_in_layers keeps the equations whose first orbit belongs to a graphlet on exactly the given layers. Given graphlets, orbits and equations, if independent_equations returns for n other than 3 then for every combination of n_l layers there is a dependency network in which every nonempty dependency set is justified (for the product of three orbits: an equation for two of them and all equations for the products of its right-hand side with the third; for the product of two orbits: an equation that contains one of them, the equations for the other terms times the other orbit, and the product of the three orbits) and every equation on these layers follows from the returned ones. For n = 3 it returns all equations on combinations of n_l layers. For n >= 4 it raises whenever two different two-node orbits, one of them on exactly the layers considered, have an equation in one order only.", "quantifier": "all n, n_l, layers, graphlets, orbit lists, equations and iteration orders of sets", "why_tests_cant": "that no equation is lost must hold for every system of equations and every order; the failure with two two-node orbits is independent of the rest of the input", "anchors": ["pymnet/graphlets/independent_equations.py:independent_equations", "pymnet/graphlets/independent_equations.py:eq_network", "pymnet/graphlets/independent_equations.py:three_orbit_equations", "pymnet/graphlets/independent_equations.py:find_equations", "pymnet/graphlets/independent_equations.py:find_key", "pymnet/graphlets/independent_equations.py:too_many_nodes", "pymnet/graphlets/independent_equations.py:eqs_in_layers", "pymnet/graphlets/independent_equations.py:orbit_in_layers"]}
{"id": "C92", "title": "Handles of node-layers", "statement": "net[...] yields a handle for a complete node-layer whose restriction, if any, has one entry per dimension. Without arguments deg, deg_in, deg_out, str, str_in, str_out and len use the restriction of the handle; with aspects+1 arguments they use the arguments instead (a colon for any), and with another positive number of arguments the degrees and strengths raise AssertionError. After any history of operations the out- and in-degree count, and the strengths add the weights of, exactly the neighbours that meet the restriction; deg does so in undirected networks and whenever there is a restriction. Iterating a handle lists exactly its neighbours that meet its restriction, once each, as bare nodes in networks without aspects.", "quantifier": "all histories of operations, node-layers, restrictions and arguments", "why_tests_cant": "the counts must agree with the links after every history and for every combination of colons", "anchors": ["pymnet/net.py:MultilayerNode", "pymnet/net.py:MultilayerNetwork.__getitem__"]}
{"id": "C93", "title": "The modularity view", "statement": "ModularityMultilayerNetworkView(net, gamma) of a network with aspects raises KeyError if there is a layer but no node, and ZeroDivisionError if the weights of all pairs of node-layers add up to 0. The weight of a link inside a layer is the weight in the network minus gamma times the product of the strengths of the two nodes inside the layer over the total strength of the layer, and reading it raises ZeroDivisionError if that total is 0. Links between layers keep their weight. In an undirected network with noEdge 0 the entries of a layer, over all ordered pairs of nodes, add up to (1 - gamma) times the total strength of the layer.", "quantifier": "all histories of operations, layers, nodes, and rational gamma", "why_tests_cant": "the sum rule is an identity over all networks", "anchors": ["pymnet/net.py:ModularityMultilayerNetworkView"]}
{"id": "C94", "title": "Graphlet correlation distance", "statement": "GCD(m1, m2) raises AssertionError iff the shapes of the two matrices differ. Otherwise its square is the sum of the squared differences of the entries above the diagonal. It is a pseudometric on the matrices of one shape: never negative, symmetric, zero exactly when the matrices agree above the diagonal, and it satisfies the triangle inequality. GCD_matrix returns the square table of all distances, and raises AssertionError if two of its matrices differ in shape.", "quantifier": "all rational matrices with at least one row", "why_tests_cant": "the triangle inequality is a statement about all triples of matrices of all sizes", "anchors": ["pymnet/graphlets/graphlet_measures.py:GCD", "pymnet/graphlets/graphlet_measures.py:GCD_matrix"]}
{"id": "C95", "title": "Links added to a combined network", "statement": "add_possible_edges(both_orbit_nodes, net) of an undirected multiplex network whose nodes are integers returns networks with the nodes and layers of net, in which at least one pair of a non-negative and a negative node outside both_orbit_nodes has been linked, with weight 1, in some layers, and nothing else has changed. Every non-empty choice of such pairs and layers gives a returned network. If a node outside both_orbit_nodes is a string it raises TypeError.", "quantifier": "all histories of operations on the network, all lists both_orbit_nodes, all choices of links", "why_tests_cant": "the number of choices is exponential; tests look at a few of them", "anchors": ["pymnet/graphlets/graphlets.py:add_possible_edges"]}
{"id": "C96", "title": "Which orbit equations there are", "statement": "If orbit_equations(n, ...) returns, its keys are distinct. The square of an orbit has an equation iff the orbit is listed, has two or three nodes and 2 * nodes - 1 <= n. Two different orbits a, b of which a has two or three nodes have an equation in one of the two orders, and never in both, iff the nodes of both minus one are at most n and their graphlets have the same layers. Each right-hand side lists an orbit at most once, with a positive coefficient; it is the one that coefficient gives for a network in which the shared node has this orbit. If n >= 4 and two different two-node orbits are on exactly the layers of a combination, independent_equations has no result for these equations.", "quantifier": "all catalogues of networks, invariants and automorphism orbits, all isomorphism backends, all n", "why_tests_cant": "the order in which pairs are visited decides the keys, for every catalogue", "anchors": ["pymnet/graphlets/graphlets.py:orbit_equations", "pymnet/graphlets/graphlets.py:combine_orbits", "pymnet/graphlets/graphlets.py:merge_nodes", "pymnet/graphlets/graphlets.py:independent_equations"]}
{"id": "C97", "title": "Combining two orbits", "statement": "combine_orbits(orbit1, orbit2, nets, allowed_aspects) returns None iff the graphlets of the two orbits have different layers. Otherwise the first network it returns is the first graphlet together with a copy of the second one, in which the node of the second orbit becomes the node of the first orbit and the other nodes become new negative numbers. If layers may be permuted it also returns networks in which the layers of the copy are moved along a cycle through all layers: every such cycle occurs up to isomorphism, and no two returned networks are isomorphic. Other permutations of the layers are not tried: with three layers, none that swaps two layers.", "quantifier": "all catalogues, all pairs of orbits, all undirected fully interconnected graphlets with links of weight 1 and no negative nodes in the first, all exact canonical forms", "why_tests_cant": "the layer cycles and the identification of networks up to isomorphism range over all graphlets", "anchors": ["pymnet/graphlets/graphlets.py:combine_orbits"]}
{"id": "C98", "title": "Merging nodes", "statement": "merge_nodes(both_orbit_nodes, net, allowed_aspects) returns, each with the shared nodes extended by one node, networks obtained by merging one negative node into one non-negative node, both outside the shared nodes: the links of the removed node become links of the node that is kept, in the same layers. It does so exactly for the pairs whose links among themselves and the shared nodes are the same in every layer up to the names of the nodes; every such pair occurs up to isomorphism and no two returned networks are isomorphic. A node outside the shared nodes that is named by a string makes it raise TypeError.", "quantifier": "all undirected fully interconnected multiplex networks with one aspect and no links between the pairs that can be merged, all sets of shared nodes, all exact isomorphism backends and canonical forms", "why_tests_cant": "which pairs are merged and the identification of networks up to isomorphism range over all networks", "anchors": ["pymnet/graphlets/graphlets.py:merge_nodes"]}
{"id": "C99", "title": "The search behind the orbit equations", "statement": "For each equation that orbit_equations returns: every term is for the orbit of the shared node in a network in which the two graphlets overlap (glued at the shared node, then some pairs of alike nodes merged, at most the size of the smaller graphlet minus two), possibly with links added between nodes of the one and nodes of the other; its coefficient is the one the coefficient function gives for this network and the nodes common to both. Conversely the search is closed: the glued network is considered (with layer permutations along cycles where layers may be permuted), from each considered network each mergeable pair is merged up to isomorphism while fewer pairs have been merged, each choice of links is added, and the orbit of the shared node in each of these networks has a term unless the coefficient computed for it is not positive. The catalogues made by graphlets and automorphism_orbits satisfy what this needs.", "quantifier": "all sizes n, all catalogues whose graphlets have non-negative numbers as nodes and links of weight 1 (in particular those of graphlets), all exact backends and canonical forms, all returned equations", "why_tests_cant": "the networks that are searched grow quickly with the size; tests cover at most a few graphlets", "anchors": ["pymnet/graphlets/graphlets.py:orbit_equations", "pymnet/graphlets/graphlets.py:merge_nodes", "pymnet/graphlets/graphlets.py:add_possible_edges", "pymnet/graphlets/graphlets.py:combine_orbits"]}
{"id": "C100", "title": "Assigning a network to a layer", "statement": "net.A[layer]=val, for an existing layer of a multiplex network and a network val without aspects: afterwards every link of the layer reads as in val (links the layer had before are gone), every link of every other layer reads as before, the nodes are those the network had together with those of val, and couplings, directedness and noEdge are unchanged. If the network is fully interconnected every node is then on every layer; otherwise the nodes on the layer are exactly those of val and the other layers have the nodes they had. Neighbours, degree and strength of every node-layer then agree with the links, as in C19 for fully interconnected networks and as in C20 (one categorical aspect) for others in which all nodes that were on the layer are in val. A layer that does not exist raises and a network with aspects raises AssertionError, both leaving the network as it was. In a network that is not fully interconnected, nodes that were on the layer and are not in val are still counted in the degrees and neighbours of the node on the other layers, although they are not listed on the layer and the coupling reads as no link (refuted by an example).", "quantifier": "all histories of the multiplex network and of the assigned network (with noEdge 0, undirected if the multiplex network is), all layers, all iteration orders of the assigned network's nodes", "why_tests_cant": "depends on all previous calls on both networks and on the iteration order of sets; tests assign a few small networks", "anchors": ["pymnet/net.py:MultiplexIntraNetDict.__setitem__", "pymnet/net.py:MultiplexIntraNetDict._add_empty_network", "pymnet/transforms.py:subnet"]}
{"id": "C101", "title": "Averages of clustering coefficients", "statement": "cc_layers_avg(net,node) of an undirected multiplex network never returns in Python 3: it raises ZeroDivisionError if the node has fewer than two neighbours on some layer and TypeError (len of a map object) otherwise; if map returned a list, the second case would return the mean over the layers of the fraction of pairs of neighbours that are linked. gcc_from_lcc(net,lcc) raises TypeError for every network and function; if map and filter returned lists it would return the mean of lcc over the nodes for which it is defined, None if there is none, and with the local clustering coefficient of an undirected network without aspects a value between 0 and 1.", "quantifier": "all histories of multiplex networks with any couplings and aspects and all nodes; all histories of networks and all functions lcc", "why_tests_cant": "that a function never returns is a statement about all inputs; the mean depends on all links of the network", "anchors": ["pymnet/cc.py:cc_layers_avg", "pymnet/cc.py:gcc_from_lcc", "pymnet/cc.py:cc_sequence"]}
{"id": "C102", "title": "Onnela's weighted clustering coefficient", "statement": "cc_onnela(net,node) of an undirected network without aspects raises ValueError if the network has no edges and otherwise, with M the largest edge weight and k the number of neighbours of the node, returns undefReturn if k<2, raises ZeroDivisionError if k>=2 and M is 0, and else returns the sum over the ordered pairs (j,h) of distinct, linked neighbours of the cube root of W_ij W_ih W_jh, divided by M k (k-1). With positive weights the value is between 0 and 1; if all weights are equal it is the unweighted local clustering coefficient.", "quantifier": "all histories of undirected networks without aspects, all nodes and all functions in the place of the cube root (for the last two claims: those that are monotone below cubes, resp. exact on the cube of the common weight)", "why_tests_cant": "the value depends on all links around the node and on the largest weight of the whole network", "anchors": ["pymnet/cc.py:cc_onnela"]}
