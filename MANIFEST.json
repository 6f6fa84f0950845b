{
 "claims": [
  {
   "property": "C01",
   "status": "proved",
   "theorems": [
    "C01_read_last_write",
    "C01_reads_total"
   ],
   "note": ""
  },
  {
   "property": "C02",
   "status": "proved",
   "theorems": [
    "C02_undirected_symmetric"
   ],
   "note": ""
  },
  {
   "property": "C03",
   "status": "proved",
   "theorems": [
    "C03_full_index_bijection",
    "C03_same_link_same_effect"
   ],
   "note": ""
  },
  {
   "property": "C04",
   "status": "proved",
   "theorems": [
    "C04_malformed_index"
   ],
   "note": ""
  },
  {
   "property": "C05",
   "status": "proved",
   "theorems": [
    "C05_write_effect",
    "C05_undirected_self_loop_deletion_refuted"
   ],
   "note": "The _refuted theorem exhibits the KeyError raised when an existing undirected self-loop is deleted."
  },
  {
   "property": "C06",
   "status": "proved",
   "theorems": [
    "C06_neighbours_exact"
   ],
   "note": ""
  },
  {
   "property": "C07",
   "status": "proved",
   "theorems": [
    "C07_degrees_exact"
   ],
   "note": ""
  },
  {
   "property": "C08",
   "status": "proved",
   "theorems": [
    "C08_total_degree_exact",
    "C08_directed_degree_drift",
    "C08_directed_degree_insert_only",
    "C08_directed_degree_refuted"
   ],
   "note": "Directed networks: exact drift formula, exactness for histories without removals, and a refuting history."
  },
  {
   "property": "C09",
   "status": "proved",
   "theorems": [
    "C09_strengths_exact"
   ],
   "note": ""
  },
  {
   "property": "C10",
   "status": "proved",
   "theorems": [
    "C10_directed_edges_exact",
    "C10_undirected_edges_exact"
   ],
   "note": ""
  },
  {
   "property": "C11",
   "status": "proved",
   "theorems": [
    "C11_edge_count"
   ],
   "note": ""
  },
  {
   "property": "C12",
   "status": "proved",
   "theorems": [
    "C12_links_between_node_layers",
    "C12_nodes_and_layers_exact",
    "C12_writes_create_node_layers",
    "C12_nothing_removed"
   ],
   "note": ""
  },
  {
   "property": "C13",
   "status": "proved",
   "theorems": [
    "C13_node_layers_nodup",
    "C13_fully_interconnected",
    "C13_partially_interconnected",
    "C13_nodes_of_layer"
   ],
   "note": ""
  },
  {
   "property": "C14",
   "status": "proved",
   "theorems": [
    "C14_equality_is_structural",
    "C14_equality_equivalence",
    "C14_equality_total"
   ],
   "note": ""
  },
  {
   "property": "C15",
   "status": "proved",
   "theorems": [
    "C15_slices",
    "C15_documented_when_same",
    "C15_documented_slice_refuted"
   ],
   "note": "Exact behaviour of colon slices; the documented meaning is proved when the written names repeat the node-layer and refuted otherwise."
  },
  {
   "property": "C16",
   "status": "proved",
   "theorems": [
    "C16_supra_adjacency",
    "C16_symmetric",
    "C16_defined",
    "C16_zero_aspect_diagonal_refuted"
   ],
   "note": ""
  },
  {
   "property": "C17",
   "status": "proved",
   "theorems": [
    "C17_read_last_write",
    "C17_reads_total",
    "C17_read_through_layer",
    "C17_other_links_unchanged"
   ],
   "note": ""
  },
  {
   "property": "C18",
   "status": "proved",
   "theorems": [
    "C18_categorical",
    "C18_ordinal",
    "C18_ordinal_string",
    "C18_network",
    "C18_unrelated",
    "C18_missing_fi",
    "C18_missing_nf",
    "C18_none_raises",
    "C18_symmetric",
    "C18_none_refuted"
   ],
   "note": "Categorical, ordinal, network and \"none\" couplings; missing endpoints; the _refuted theorem exhibits that coupling \"none\" makes reading raise instead of returning noEdge."
  },
  {
   "property": "C19",
   "status": "proved",
   "theorems": [
    "C19_neighbours_exact",
    "C19_self_condition",
    "C19_self_loop_refuted",
    "C19_other_slice_refuted"
   ],
   "note": "Any number of aspects; hypotheses exclude self-loops written through net.A and restrictions the node-layer does not satisfy, both of which the _refuted theorems exhibit as real disagreements. Degree and strength: all directions for undirected, in/out for directed networks."
  },
  {
   "property": "C20",
   "status": "proved",
   "theorems": [
    "C20_one_categorical",
    "C20_ordinal_refuted",
    "C20_two_aspects_refuted"
   ],
   "note": "Positive theorem for one categorical aspect; the disagreements for ordinal coupling and several aspects are the _refuted theorems."
  },
  {
   "property": "C21",
   "status": "proved",
   "theorems": [
    "C21_rejected_write",
    "C21_accepted_write",
    "C21_not_atomic_refuted"
   ],
   "note": "Outcome, frame and structural effect of rejected writes; _refuted shows non-atomicity."
  },
  {
   "property": "C22",
   "status": "proved",
   "theorems": [
    "C22_default_zero",
    "C22_noEdge_write_stores"
   ],
   "note": ""
  },
  {
   "property": "C23",
   "status": "proved",
   "theorems": [
    "C23_aggregate",
    "C23_aggregate_self_edges",
    "C23_aspect_range_refuted",
    "C23_self_edges_refuted"
   ],
   "note": ""
  },
  {
   "property": "C24",
   "status": "proved",
   "theorems": [
    "C24_overlay",
    "C24_overlay_directed",
    "C24_mixed_names"
   ],
   "note": ""
  },
  {
   "property": "C25",
   "status": "proved",
   "theorems": [
    "C25_subnet",
    "C25_subnet_nolinks",
    "C25_select_everything",
    "C25_select_everything_refuted"
   ],
   "note": ""
  },
  {
   "property": "C26",
   "status": "proved",
   "theorems": [
    "C26_relabel",
    "C26_not_injective_refuted"
   ],
   "note": ""
  },
  {
   "property": "C27",
   "status": "proved",
   "theorems": [
    "C27_normalize",
    "C27_mixed_names",
    "C27_inverse_maps"
   ],
   "note": ""
  },
  {
   "property": "C28",
   "status": "proved",
   "theorems": [
    "C28_threshold",
    "C28_not_fully_interconnected",
    "C28_unknown_method"
   ],
   "note": ""
  },
  {
   "property": "C29",
   "status": "proved",
   "theorems": [
    "C29_underlying_graph"
   ],
   "note": ""
  },
  {
   "property": "C30",
   "status": "proved",
   "theorems": [
    "C30_distribution",
    "C30_counts_total",
    "C30_nodes",
    "C30_handshake",
    "C30_handshake_directed"
   ],
   "note": ""
  },
  {
   "property": "C31",
   "status": "proved",
   "theorems": [
    "C31_density",
    "C31_density_other"
   ],
   "note": ""
  },
  {
   "property": "C32",
   "status": "proved",
   "theorems": [
    "C32_dijkstra",
    "C32_zero_weight_refuted"
   ],
   "note": ""
  },
  {
   "property": "C33",
   "status": "proved",
   "theorems": [
    "C33_index_decoding",
    "C33_decoding_is_floor",
    "C33_er_edges",
    "C33_too_many_edges",
    "C33_every_graph"
   ],
   "note": ""
  },
  {
   "property": "C34",
   "status": "proved",
   "theorems": [
    "C34_gnp",
    "C34_p_one",
    "C34_every_graph",
    "C34_p_zero",
    "C34_er_multiplex",
    "C34_p_above_one"
   ],
   "note": ""
  },
  {
   "property": "C35",
   "status": "proved",
   "theorems": [
    "C35_full_monoplex",
    "C35_full_multiplex",
    "C35_full_multilayer",
    "C35_single_node_lost_refuted"
   ],
   "note": ""
  },
  {
   "property": "C36",
   "status": "proved",
   "theorems": [
    "C36_degrees",
    "C36_failures",
    "C36_distribution",
    "C36_same_degrees",
    "C36_every_graph"
   ],
   "note": "degstype 'nodes' and 'distribution' and conf(net) for networks with no aspects. Random outcomes are inputs; a run that uses up the outcomes it is given (the code would keep drawing) is OutOfFuel. conf of multiplex networks is not modelled."
  },
  {
   "property": "C37",
   "status": "proved",
   "theorems": [
    "C37_older_neighbours",
    "C37_nothing_else",
    "C37_pool_is_total_degree",
    "C37_never_raises",
    "C37_can_end"
   ],
   "note": ""
  },
  {
   "property": "C38",
   "status": "proved",
   "theorems": [
    "C38_several_matrices",
    "C38_connected_iff",
    "C38_empty_layer_raises",
    "C38_one_matrix",
    "C38_only_complete_files"
   ],
   "note": "files are lists of lines of fields, each field its text and its value as a number (integers); the header is taken as parsed"
  },
  {
   "property": "C39",
   "status": "proved",
   "theorems": [
    "C39_json_faithful",
    "C39_json_determines_network",
    "C39_direction_lost_refuted"
   ],
   "note": "the object passed to json.dump; noEdge 0"
  },
  {
   "property": "C40",
   "status": "proved",
   "theorems": [
    "C40_local_clustering"
   ],
   "note": "floats are rationals"
  },
  {
   "property": "C41",
   "status": "proved",
   "theorems": [
    "C41_barrett_implementations_agree",
    "C41_negative_weights_refuted"
   ],
   "note": "floats are rationals; degree is the degree in the aggregated network"
  },
  {
   "property": "C42",
   "status": "proved",
   "theorems": [
    "C42_brute_force",
    "C42_matrices_exist",
    "C42_brute_force_absent",
    "C42_elementary_cycles",
    "C42_overlap_by_aggregate",
    "C42_weights_refuted",
    "C42_self_loop_refuted"
   ],
   "note": "the numpy version cc_cycle_vector_adj is the specification rather than a modelled function"
  },
  {
   "property": "C43",
   "status": "proved",
   "theorems": [
    "C43_union_size",
    "C43_all_combinations",
    "C43_rejects"
   ],
   "note": "Entries are Python ints or None."
  },
  {
   "property": "C44",
   "status": "proved",
   "theorems": [
    "C44_default_check",
    "C44_relaxed_check",
    "C44_order_independent"
   ],
   "note": "networkx's is_connected is third-party code, modelled by its documented behaviour; str of node-layer tuples is assumed injective on the network's node-layers (the code uses it as node name of the underlying graph)."
  },
  {
   "property": "C45",
   "status": "proved",
   "theorems": [
    "C45_dumb_exactly_once",
    "C45_esu_run",
    "C45_esu",
    "C45_same_as_dumb",
    "C45_self_link_refuted",
    "C45_zero_weight_refuted"
   ],
   "note": "Set pops and random numbers are inputs of a run; a run that uses up the outcomes it is given is OutOfFuel, and for every constant draw a finished run exists. The two _refuted theorems are the KeyError on self-links and the loss of weight-0 links with copy_network=True."
  },
  {
   "property": "C46",
   "status": "proved",
   "theorems": [
    "C46_is_isomorphic",
    "C46_different_parts",
    "C46_different_aspects",
    "C46_get_isomorphism",
    "C46_automorphisms",
    "C46_generators",
    "C46_complete_invariant",
    "C46_assertion_refuted",
    "C46_mixed_names_refuted"
   ],
   "note": "Auxiliary graph built as in isomcore.py for any undirected MultilayerNetwork with at least one aspect; the backend is an arbitrary exact solver (one is constructed, so the assumption is satisfiable). C46_assertion_refuted and C46_mixed_names_refuted show the two ways the answer is replaced by an exception."
  },
  {
   "property": "C47",
   "status": "proved",
   "theorems": [
    "C47_orbits",
    "C47_orbits_mixed",
    "C47_nl_orbits",
    "C47_all_graphlets"
   ],
   "note": "automorphism generators themselves come from an external solver and are inputs"
  },
  {
   "property": "C48",
   "status": "proved",
   "theorems": [
    "C48_layer_combinations",
    "C48_partitions",
    "C48_partitions_rejects",
    "C48_remainder_refuted"
   ],
   "note": ""
  },
  {
   "property": "C49",
   "status": "proved",
   "theorems": [
    "C49_sccs",
    "C49_order",
    "C49_unknown_successor"
   ],
   "note": ""
  },
  {
   "property": "C50",
   "status": "proved",
   "theorems": [
    "C50_restored_on_return",
    "C50_installed_after_exception",
    "C50_rejected_arguments",
    "C50_sessions",
    "C50_arguments",
    "C50_later_graphs"
   ],
   "note": "wrapped functions touch networkx.Graph only through wrapped calls; tuples as keyword arguments are left out"
  },
  {
   "property": "C51",
   "status": "proved",
   "theorems": [
    "C51_nodes_layers_exact",
    "C51_node_layers_exact",
    "C51_layers_exact"
   ],
   "note": ""
  },
  {
   "property": "C52",
   "status": "proved",
   "theorems": [
    "C52_er_multilayer"
   ],
   "note": ""
  },
  {
   "property": "C53",
   "status": "proved",
   "theorems": [
    "C53_touching",
    "C53_all_sets",
    "C53_every_set_once"
   ],
   "note": "the subnets and isomorphisms computed for each set are not part of this property"
  },
  {
   "property": "C54",
   "status": "proved",
   "theorems": [
    "C54_list_orbits",
    "C54_orbit_numbers"
   ],
   "note": ""
  },
  {
   "property": "C55",
   "status": "proved",
   "theorems": [
    "C55_definitely_independent"
   ],
   "note": ""
  },
  {
   "property": "C56",
   "status": "proved",
   "theorems": [
    "C56_directed_edges_exact",
    "C56_undirected_edges_exact",
    "C56_self_loop_refuted"
   ],
   "note": "noEdge 0"
  },
  {
   "property": "C57",
   "status": "proved",
   "theorems": [
    "C57_multiplex_aggregate"
   ],
   "note": "noEdge 0; selfEdges=False"
  },
  {
   "property": "C58",
   "status": "proved",
   "theorems": [
    "C58_local",
    "C58_node",
    "C58_global",
    "C58_unit_interval",
    "C58_layercost",
    "C58_seplayers",
    "C58_moreno2",
    "C58_average",
    "C58_average_unit"
   ],
   "note": "floats are rationals"
  },
  {
   "property": "C59",
   "status": "proved",
   "theorems": [
    "C59_write_edge_files",
    "C59_numeric_nodes",
    "C59_read_edge_files",
    "C59_self_link_raises",
    "C59_round_trip"
   ],
   "note": "lines as parsed (integers); noEdge 0"
  },
  {
   "property": "C60",
   "status": "proved",
   "theorems": [
    "C60_view",
    "C60_write_edge",
    "C60_write_attribute",
    "C60_remove_edge",
    "C60_write_adjacency",
    "C60_refused",
    "C60_histories"
   ],
   "note": "networkx itself is not modelled, only the mappings it uses"
  },
  {
   "property": "C61",
   "status": "proved",
   "theorems": [
    "C61_battiston1",
    "C61_battiston2",
    "C61_complete_networks"
   ],
   "note": "noEdge 0"
  },
  {
   "property": "C62",
   "status": "proved",
   "theorems": [
    "C62_brodka",
    "C62_aggregated",
    "C62_complete_networks",
    "C62_scaling",
    "C62_weighted_aggregate_refuted",
    "C62_aggregate_scaling_refuted"
   ],
   "note": "noEdge 0; two refutations for a weighted aggregated network"
  },
  {
   "property": "C63",
   "status": "proved",
   "theorems": [
    "C63_criado",
    "C63_aggregated",
    "C63_documented_formula_refuted"
   ],
   "note": "noEdge 0; the documented formula is refuted"
  },
  {
   "property": "C64",
   "status": "proved",
   "theorems": [
    "C64_multiplex",
    "C64_categorical_reads",
    "C64_plain",
    "C64_variants_agree",
    "C64_bounds",
    "C64_o_variants_refuted",
    "C64_no_coupling_raises"
   ],
   "note": "the order of the nested loops matters only for which exception is raised first"
  },
  {
   "property": "C65",
   "status": "proved",
   "theorems": [
    "C65_zhang",
    "C65_zhang_bounds",
    "C65_zhang_equal_weights",
    "C65_zhang_documented",
    "C65_gcc_zhang",
    "C65_barrat",
    "C65_barrat_cancelling_raises"
   ],
   "note": "weights in Z, quotients in Q"
  },
  {
   "property": "C66",
   "status": "proved",
   "theorems": [
    "C66_super_graph",
    "C66_layers_wavg",
    "C66_no_couplings",
    "C66_cc_sequence",
    "C66_layers_wavg_raises"
   ],
   "note": "gcc_super_graph for plain networks"
  },
  {
   "property": "C67",
   "status": "proved",
   "theorems": [
    "C67_equality",
    "C67_never_raises",
    "C67_reflexive",
    "C67_symmetric",
    "C67_transitive",
    "C67_equal_networks_read_alike"
   ],
   "note": ""
  },
  {
   "property": "C68",
   "status": "proved",
   "theorems": [
    "C68_relabel",
    "C68_restored",
    "C68_nothing_renamed",
    "C68_merged_nodes_raise",
    "C68_coupling_network_raises",
    "C68_normalize",
    "C68_ordinal_refuted",
    "C68_no_self_links"
   ],
   "note": "C68_ordinal_refuted: ordinal coupling links follow the new layer names"
  },
  {
   "property": "C69",
   "status": "proved",
   "theorems": [
    "C69_subnet",
    "C69_subnet_nolinks",
    "C69_select_everything",
    "C69_missing_layer_raises",
    "C69_wrong_arguments"
   ],
   "note": "C69_missing_layer_raises: a selected layer that does not exist raises KeyError"
  },
  {
   "property": "C70",
   "status": "proved",
   "theorems": [
    "C70_threshold",
    "C70_not_fully_interconnected",
    "C70_unknown_method"
   ],
   "note": "C70_not_fully_interconnected: NameError (misspelt variable)"
  },
  {
   "property": "C71",
   "status": "proved",
   "theorems": [
    "C71_randomize",
    "C71_wrong_network"
   ],
   "note": "the random number generator is an arbitrary argument"
  },
  {
   "property": "C72",
   "status": "proved",
   "theorems": [
    "C72_threshold",
    "C72_threshold_not_fully_interconnected",
    "C72_underlying_graph"
   ],
   "note": "C72_threshold_not_fully_interconnected: NameError (misspelt variable); str() of a node-layer is an argument"
  },
  {
   "property": "C73",
   "status": "proved",
   "theorems": [
    "C73_supra_adjacency",
    "C73_intra_layer_defined",
    "C73_defined",
    "C73_none_raises",
    "C73_symmetric"
   ],
   "note": "C73_none_raises: None entries cannot be written to the matrix"
  },
  {
   "property": "C74",
   "status": "proved",
   "theorems": [
    "C74_induced",
    "C74_edge_removal",
    "C74_wrong_aspect",
    "C74_multiplex_induced",
    "C74_multiplex_coupling_edge_raises",
    "C74_removed_nodes_reappear_refuted"
   ],
   "note": "C74_removed_nodes_reappear_refuted: with remove_edges=True the edges of the whole network are iterated over"
  },
  {
   "property": "C75",
   "status": "proved",
   "theorems": [
    "C75_dijkstra",
    "C75_layer_degrees",
    "C75_layer_densities",
    "C75_single_node_layer"
   ],
   "note": "overlap_degs calls names that are not imported (NameError) and is not modelled"
  },
  {
   "property": "C76",
   "status": "proved",
   "theorems": [
    "C76_selection",
    "C76_prune",
    "C76_undirected_degree",
    "C76_source_rejected",
    "C76_multiplex_prune"
   ],
   "note": "the degree of directed networks is the one net[a].deg() returns (see C08); C76_undirected_degree relates it to links"
  },
  {
   "property": "C77",
   "status": "proved",
   "theorems": [
    "C77_links",
    "C77_overlap",
    "C77_counts",
    "C77_ends",
    "C77_never_fails",
    "C77_too_many",
    "C77_no_pairs",
    "C77_empty_couplings"
   ],
   "note": "int(round(p*edges)) is an input of the model; C77_edges_per_layer_refuted shows that a layer can have more links than edges"
  },
  {
   "property": "C78",
   "status": "proved",
   "theorems": [
    "C78_degrees",
    "C78_failures",
    "C78_distribution",
    "C78_distribution_failures",
    "C78_same_degrees",
    "C78_more_aspects",
    "C78_no_layers",
    "C78_every_family"
   ],
   "note": "the run on a layer is simulated by the run on a network of its own (MpxConfFacts), so that C36 carries over"
  },
  {
   "property": "C79",
   "status": "proved",
   "theorems": [
    "C79_matrix_version",
    "C79_matrices_exist",
    "C79_same_as_brute_force",
    "C79_coupling_weight_refuted",
    "C79_errors"
   ],
   "note": "matrix entries are integers instead of floats; C79_coupling_weight_refuted shows which fully interconnected networks fail the assertions"
  },
  {
   "property": "C80",
   "status": "proved",
   "theorems": [
    "C80_vectors",
    "C80_loop_version",
    "C80_same_coefficient",
    "C80_vector_flag",
    "C80_errors"
   ],
   "note": ""
  },
  {
   "property": "C81",
   "status": "proved",
   "theorems": [
    "C81_open_walks",
    "C81_closed_walks",
    "C81_weighted",
    "C81_nan",
    "C81_same_coefficient",
    "C81_errors"
   ],
   "note": "nan and infinities of numpy are values of the model"
  },
  {
   "property": "C82",
   "status": "proved",
   "theorems": [
    "C82_overlap_degrees",
    "C82_degree_sum",
    "C82_errors",
    "C82_missing_imports_refuted",
    "C82_weights_refuted"
   ],
   "note": "C82_missing_imports_refuted: the module as it is raises NameError; the other theorems assume that the missing names are defined"
  },
  {
   "property": "C83",
   "status": "proved",
   "theorems": [
    "C83_structure",
    "C83_failures",
    "C83_overlap_degrees",
    "C83_nodes_layers",
    "C83_every_network",
    "C83_empty_couplings",
    "C83_permuted_keys_refuted"
   ],
   "note": "C83_permuted_keys_refuted shows that two keys with the same layers in another order have their degrees added"
  },
  {
   "property": "C84",
   "status": "proved",
   "theorems": [
    "C84_er_partially_interconnected",
    "C84_p_zero_p_one",
    "C84_every_graph",
    "C84_nodelists",
    "C84_every_nodelists",
    "C84_nodes_per_layer",
    "C84_no_xrange_refuted"
   ],
   "note": "C84_no_xrange_refuted: random_nodelists cannot be used in Python 3"
  },
  {
   "property": "C85",
   "status": "proved",
   "theorems": [
    "C85_is_isomorphic",
    "C85_get_isomorphism",
    "C85_automorphisms",
    "C85_complete_invariant",
    "C85_directed"
   ],
   "note": "the graph backend is a parameter assumed to solve the coloured graph problem; exact backends exist (C85_backends)"
  },
  {
   "property": "C86",
   "status": "proved",
   "theorems": [
    "C86_sound",
    "C86_complete"
   ],
   "note": "the canonical form of the graph backend is a parameter assumed exact (brute_canon is one); different invariants are assumed to have different strings"
  },
  {
   "property": "C87",
   "status": "proved",
   "theorems": [
    "C87_catalogue",
    "C87_one_orbit",
    "C87_orbit_counts",
    "C87_orbit_counts_all",
    "C87_agree"
   ],
   "note": "the graph backend (isomorphism test, mapping, canonical form, automorphism generators) is a parameter assumed exact; brute-force functions meet the assumptions. The dictionary of counts has no default value in the model (the code's dictionary is only read at keys it has just set)"
  },
  {
   "property": "C88",
   "status": "proved",
   "theorems": [
    "C88_coefficient",
    "C88_coefficient_exists",
    "C88_equation",
    "C88_sizes",
    "C88_same_orbit",
    "C88_same_size",
    "C88_orbit_name",
    "C88_subtrahend_refuted"
   ],
   "note": "the graph backend is a parameter assumed exact, as in C85 to C87. The equations are about the coefficients and counts; the search of orbit_equations for the orbits that occur is not part of this claim"
  },
  {
   "property": "C89",
   "status": "proved",
   "theorems": [
    "C89_redundant",
    "C89_unique",
    "C89_unknown",
    "C89_order_refuted"
   ],
   "note": "the orbits are returned, not their str; the iteration order of sets is a parameter. C89_order_refuted: the order decides between a result and ValueError"
  },
  {
   "property": "C90",
   "status": "proved",
   "theorems": [
    "C90_split",
    "C90_acyclic",
    "C90_best",
    "C90_order_refuted"
   ],
   "note": "the iteration order of sets is a parameter. C90_order_refuted: it decides how many equations are independent"
  },
  {
   "property": "C91",
   "status": "proved",
   "theorems": [
    "C91_find_key",
    "C91_find_equations",
    "C91_layers",
    "C91_enough",
    "C91_part",
    "C91_three_nodes",
    "C91_four_nodes_refuted"
   ],
   "note": "graphlets, orbit lists and equations (without coefficients) are inputs of the model. C91_four_nodes_refuted: the triple with one of the two orbits twice needs subtrahend, which always raises (C88)"
  },
  {
   "property": "C92",
   "status": "proved",
   "theorems": [
    "C92_handle",
    "C92_degrees",
    "C92_strengths",
    "C92_wrong_number",
    "C92_iter"
   ],
   "note": "layers is the attribute; the method MultilayerNode.layers is hidden by it"
  },
  {
   "property": "C93",
   "status": "proved",
   "theorems": [
    "C93_new",
    "C93_inside",
    "C93_between",
    "C93_sum"
   ],
   "note": "rationals instead of floats; networks with at least one aspect"
  },
  {
   "property": "C94",
   "status": "proved",
   "theorems": [
    "C94_sum",
    "C94_above",
    "C94_metric",
    "C94_shapes",
    "C94_matrix",
    "C94_matrix_shapes"
   ],
   "note": "rationals instead of floats; the model computes the square of the distance (math.sqrt left out), the triangle inequality is stated with upper bounds: if p bounds the first distance and q the second then p+q bounds the third"
  },
  {
   "property": "C95",
   "status": "proved",
   "theorems": [
    "C95_add_possible_edges",
    "C95_strings"
   ],
   "note": ""
  },
  {
   "property": "C96",
   "status": "proved",
   "theorems": [
    "C96_keys",
    "C96_coefficients",
    "C96_independent_refuted"
   ],
   "note": "for the calls that return; that the search finds every orbit with a positive coefficient is not claimed. C96_independent_refuted is about layer_part, the part of independent_equations for one combination of layers"
  },
  {
   "property": "C97",
   "status": "proved",
   "theorems": [
    "C97_other_layers",
    "C97_combine",
    "C97_swaps_refuted"
   ],
   "note": "that not all permutations of layers are tried is stated by C97_swaps_refuted about the cycles of C97_combine"
  },
  {
   "property": "C98",
   "status": "proved",
   "theorems": [
    "C98_merge",
    "C98_strings",
    "C98_untied_start",
    "C98_untied_step"
   ],
   "note": "networks in which a pair that could be merged is linked are not covered by C98_merge; C98_untied_start and C98_untied_step: neither combine_orbits nor merge_nodes returns one"
  },
  {
   "property": "C99",
   "status": "proved",
   "theorems": [
    "C99_terms",
    "C99_search",
    "C99_numbered"
   ],
   "note": "about runs that return; that the equations hold for orbit counts is C88, for given coefficients; merged networks are kept up to isomorphism that need not fix the shared node, as in the code"
  },
  {
   "property": "C100",
   "status": "proved",
   "theorems": [
    "C100_assign",
    "C100_neighbours",
    "C100_neighbours_kept_nodes",
    "C100_no_layer",
    "C100_not_monoplex",
    "C100_old_nodes_refuted"
   ],
   "note": "val is a plain MultilayerNetwork with noEdge 0; C100_old_nodes_refuted: degrees still count nodes the layer no longer has"
  },
  {
   "property": "C101",
   "status": "proved",
   "theorems": [
    "C101_layers_avg",
    "C101_gcc_from_lcc_raises",
    "C101_gcc_from_lcc",
    "C101_mean_lcc_unit"
   ],
   "note": "floats are rationals; an argument of the model says whether map and filter return lists (Python 2) or iterators (Python 3, the case the library is used in)"
  },
  {
   "property": "C102",
   "status": "proved",
   "theorems": [
    "C102_onnela",
    "C102_bounds",
    "C102_equal_weights"
   ],
   "note": "the cube root is an arbitrary function argument of the model; rationals instead of floats; negative products (complex powers in Python) are not modelled; undefReturn is None in the model"
  }
 ]
}