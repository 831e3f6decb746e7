{
 "claims": [
  {
   "property": "C01",
   "status": "partial",
   "theorems": [
    "C01_resize_one",
    "C01_insert",
    "C01_insert_list",
    "C01_add",
    "C01_add_vertices_and_edges",
    "C01_reset",
    "C01_append",
    "C01_bulk_empty",
    "C01_bulk_exact",
    "C01_bulk_refuted",
    "C01_property_resize"
   ],
   "note": "Proved for every single-cell call, append, and bulk initialisation of an empty attribute, on every reachable mesh, with all other data unchanged. Bulk initialisation of a non-empty attribute violates the statement (C01_bulk_refuted); C01_bulk_exact says what it does."
  },
  {
   "property": "C02",
   "status": "partial",
   "theorems": [
    "C02_calls",
    "C02_histories",
    "C02_getters",
    "C02_refines_cell_lists",
    "C02_empty_represented",
    "C02_refuted"
   ],
   "note": "Proved for every history whose three unchecked preconditions hold (MeshHist.allowed); false without them (C02_refuted: growing with CellkDsInitialize)."
  },
  {
   "property": "C03",
   "status": "proved",
   "theorems": [
    "C03_counts",
    "C03_attributes",
    "C03_references",
    "C03_end_points",
    "C03_origins",
    "C03_has",
    "C03_neighbours"
   ],
   "note": "All attributes except sub-divisions, which are property C04. C03_has needs at most 2^32-1 cells."
  },
  {
   "property": "C04",
   "status": "partial",
   "theorems": [
    "C04_refuted",
    "C04_below_partial"
   ],
   "note": "False of the code: Cell0DRemove does not touch the sub-divisions (C04_refuted). C04_below_partial: points below the removed vertex."
  },
  {
   "property": "C05",
   "status": "proved",
   "theorems": [
    "C05_neighbours",
    "C05_origins",
    "C05_neighbours_any_history",
    "C05_origins_any_history"
   ],
   "note": "Any sequence of removals; also any history creating few enough cells."
  },
  {
   "property": "C06",
   "status": "partial",
   "theorems": [
    "C06_refuted",
    "C06_entries_partial",
    "C06_end_points_partial"
   ],
   "note": "False of the code: a dangling reference equals the new cell count and the next appended cell takes that number (C06_refuted). Proved while no cell of that dimension is created."
  },
  {
   "property": "C07",
   "status": "proved",
   "theorems": [
    "C07_replacements",
    "C07_has_replacements"
   ],
   "note": ""
  },
  {
   "property": "C08",
   "status": "proved",
   "theorems": [
    "C08_leaves",
    "C08_acyclic_terminates",
    "C08_fuel_irrelevant"
   ],
   "note": "Any acyclic genealogy; acyclicity gives the accessibility hypothesis (C08_acyclic_terminates)."
  },
  {
   "property": "C09",
   "status": "partial",
   "theorems": [
    "C09_refuted"
   ],
   "note": "False of the code: InsertUpdated accepts i = j and the query then recurses for ever (C09_refuted). Termination on acyclic genealogies is C08."
  },
  {
   "property": "C10",
   "status": "proved",
   "theorems": [
    "C10_agree"
   ],
   "note": "Histories creating at most 2^32-1 cells of the dimension."
  },
  {
   "property": "C11",
   "status": "partial",
   "theorems": [
    "C11_in_range",
    "C11_refuted",
    "C11_out_of_bounds_refuted"
   ],
   "note": "In-range writes are exact (C11_in_range); the range is not checked (C11_refuted, C11_out_of_bounds_refuted)."
  },
  {
   "property": "C12",
   "status": "partial",
   "theorems": [
    "C12_empty_attributes_partial",
    "C12_refuted"
   ],
   "note": "False of the code when the attributes are non-empty (C12_refuted); proved when they are empty."
  },
  {
   "property": "C13",
   "status": "proved",
   "theorems": [
    "C13_edge_by_end_points",
    "C13_find_in_cell",
    "C13_find_edge_in_cell",
    "C13_find_end_point",
    "C13_find_edge_refuted"
   ],
   "note": "Look-up inside a cell by end points needs the cell's edges to exist (C13_find_edge_refuted shows why)."
  },
  {
   "property": "C14",
   "status": "proved",
   "theorems": [
    "C14_succeeds",
    "C14_maps",
    "C14_attributes",
    "C14_references",
    "C14_end_points",
    "C14_origin",
    "C14_replaced",
    "C14_filter",
    "C14_reused_maps_refuted"
   ],
   "note": "Fresh extraction data; with data reused from an earlier call the maps keep stale entries (C14_reused_maps_refuted)."
  },
  {
   "property": "C15",
   "status": "proved",
   "theorems": [
    "C15_1D",
    "C15_2D",
    "C15_3D",
    "C15_reject_2D",
    "C15_reject_3D"
   ],
   "note": "FillMesh1D, FillMesh2D and FillMesh3D (matrix overload) on an empty mesh: for consistent input they succeed and every query returns exactly the input, all cells active; inconsistent input is rejected by the assertions."
  },
  {
   "property": "C16",
   "status": "proved",
   "theorems": [
    "C16_vertex_edges",
    "C16_vertex_polygons",
    "C16_vertex_polyhedra",
    "C16_edge_polyhedra",
    "C16_face_polyhedra",
    "C16_edge_polygons_space",
    "C16_edge_polygons_plane",
    "C16_recompute_plane_refuted"
   ],
   "note": "Every neighbour function. The plane edge-polygon table must be empty before the call: C16_recompute_plane_refuted."
  },
  {
   "property": "C17",
   "status": "proved",
   "theorems": [
    "C17_edge",
    "C17_polygon",
    "C17_polyhedron"
   ],
   "note": "Exact effect on every query, edges, polygons and polyhedra. A cell of several children is redirected to the first one (see C50)."
  },
  {
   "property": "C18",
   "status": "proved",
   "theorems": [
    "C18_edges",
    "C18_mesh",
    "C18_out_of_range"
   ],
   "note": "ComputeMesh2DCell1Ds: complete, duplicate-free edge list and correct edge rows for polygons without repeated consecutive vertices; the result fed to FillMesh2D; vertices out of range are not detected."
  },
  {
   "property": "C19",
   "status": "proved",
   "theorems": [
    "C19_1D",
    "C19_2D",
    "C19_3D",
    "C19_filter_1D",
    "C19_filter_2D",
    "C19_filter_3D",
    "C19_filter_extract_1D",
    "C19_filter_extract_2D",
    "C19_filter_extract_3D"
   ],
   "note": "ExtractMesh1D/2D/3D on closed duplicate-free filters: the result consists of the filtered cells in the order of the filters, the tables are the inverse of the filters and references are renamed through them.  FilterMesh1D/2D/3D return the active cells and exactly the sorted set of what they mention; filtering complete cells and extracting compose."
  },
  {
   "property": "C20",
   "status": "proved",
   "theorems": [
    "C20_depth_first_search"
   ],
   "note": "Any fuel at least the number of vertices; the result does not depend on it."
  },
  {
   "property": "C21",
   "status": "proved",
   "theorems": [
    "C21_breadth_first_search"
   ],
   "note": ""
  },
  {
   "property": "C22",
   "status": "proved",
   "theorems": [
    "C22_transpose",
    "C22_transpose_twice"
   ],
   "note": "Rows of the double transpose are permutations of the original rows."
  },
  {
   "property": "C23",
   "status": "proved",
   "theorems": [
    "C23_strongly_connected_components"
   ],
   "note": ""
  },
  {
   "property": "C24",
   "status": "proved",
   "theorems": [
    "C24_edge_list_to_adjacency",
    "C24_adjacency_to_edge_list",
    "C24_round_trip"
   ],
   "note": "Both directions, plus the round trip for directed edge lists. Too small an edge count is undefined behaviour (stated)."
  },
  {
   "property": "C25",
   "status": "proved",
   "theorems": [
    "C25_induced_subgraph"
   ],
   "note": "Filters given as the entries of the map in any iteration order; distinct keys, values a permutation of 0..m-1."
  },
  {
   "property": "C26",
   "status": "proved",
   "theorems": [
    "C26_constraints_repaired"
   ],
   "note": "Edges with both ends equal excepted, as stated. Needs one mark per connection, or none at all."
  },
  {
   "property": "C27",
   "status": "proved",
   "theorems": [
    "C27_parts_connected"
   ],
   "note": "For every iteration order of the hash maps used by the code."
  },
  {
   "property": "C28",
   "status": "partial",
   "theorems": [
    "C28_compaction_partial",
    "C28_refuted",
    "C28_without_metis_refuted"
   ],
   "note": "Proved when METIS is called and reports a non-zero cut, for every partition it can return (METIS itself is not modelled). False when the reported cut is 0 (C28_refuted: the parts are merged) and when the library is built without METIS and without a master part (C28_without_metis_refuted: parts start at 0)."
  },
  {
   "property": "C29",
   "status": "partial",
   "theorems": [
    "C29_master_partial",
    "C29_refuted",
    "C29_without_master"
   ],
   "note": "False of the code without a master part: resize on a vector that already has its size changes nothing, so every element gets part 0 (C29_refuted, C29_without_master). Proved with a master part."
  },
  {
   "property": "C30",
   "status": "proved",
   "theorems": [
    "C30_graph_round_trip",
    "C30_compressed_valid",
    "C30_compressed_round_trip",
    "C30_edge_list_network",
    "C30_dual_graph",
    "C30_dual_symmetric"
   ],
   "note": "Round trips in both directions, the network of an edge list, and the dual graph of every reachable mesh (both dimensions) with facet indices, constraint marks and weights. The sparse matrix of weights is a function defined everywhere."
  },
  {
   "property": "C31",
   "status": "partial",
   "theorems": [
    "C31_points_partial",
    "C31_types_partial",
    "C31_sentinel_refuted",
    "C31_close_points_refuted"
   ],
   "note": "Exact rational arithmetic. Points: proved for all lists without the point -1, which the code uses as a marker. Types and indices: proved when the points of each mesh are separated by the tolerance (twice the tolerance for the second mesh). False otherwise: C31_sentinel_refuted, C31_close_points_refuted."
  },
  {
   "property": "C32",
   "status": "proved",
   "theorems": [
    "C32_parent_segments"
   ],
   "note": "Exact rational arithmetic; separated points as the property asks, no point -1. Meshes without a common part make the code stop; this is the only case."
  },
  {
   "property": "C33",
   "status": "partial",
   "theorems": [
    "C33_three_way",
    "C33_strict_and_reflexive",
    "C33_order_tests",
    "C33_sign_tests",
    "C33_exchange_partial",
    "C33_exchange_refuted"
   ],
   "note": "Exact rational arithmetic. Everything proved except that exchanging the arguments exchanges the answer: proved when one value is within the tolerance, false in general (C33_exchange_refuted)."
  },
  {
   "property": "C34",
   "status": "proved",
   "theorems": [
    "C34_combinations",
    "C34_binomial",
    "C34_binomial_out"
   ],
   "note": "The list is in a fixed order with each selection written in non-increasing order. Binomial coefficients are exact naturals instead of doubles."
  },
  {
   "property": "C35",
   "status": "proved",
   "theorems": [
    "C35_split_join",
    "C35_no_separator",
    "C35_join_split",
    "C35_split_many",
    "C35_many_no_separator"
   ],
   "note": "Also the converse, and splitting by several separators (the non-empty parts are the maximal runs)."
  },
  {
   "property": "C36",
   "status": "partial",
   "theorems": [
    "C36_refuted",
    "C36_vector_partial",
    "C36_unsigned_partial",
    "C36_large_unsigned_refuted",
    "C36_empty"
   ],
   "note": "False when a space follows another separator (C36_refuted) and for unsigned numbers from 2^31 on (C36_large_unsigned_refuted). Proved when a space, if any, comes first in the gap between two numbers."
  },
  {
   "property": "C37",
   "status": "partial",
   "theorems": [
    "C37_history_partial",
    "C37_check_type_refuted",
    "C37_c_string_refuted"
   ],
   "note": "Proved for every history without the two calls which break the promise: asking the type of an absent property (C37_check_type_refuted), setting a C string to a property of another type (C37_c_string_refuted)."
  },
  {
   "property": "C38",
   "status": "partial",
   "theorems": [
    "C38_refuted",
    "C38_others_partial",
    "C38_type_partial"
   ],
   "note": "False of the code: the property is reset to its default before the text is read (C38_refuted). Other properties are unchanged; nothing changes when the type is not recognised."
  },
  {
   "property": "C39",
   "status": "partial",
   "theorems": [
    "C39_types_partial",
    "C39_case",
    "C39_names",
    "C39_matrix_refuted"
   ],
   "note": "All types but matrices; no text is recognised as a matrix (C39_matrix_refuted)."
  },
  {
   "property": "C40",
   "status": "proved",
   "theorems": [
    "C40_integers",
    "C40_vectors",
    "C40_nested_vectors",
    "C40_matrices",
    "C40_position_refuted"
   ],
   "note": "For every element type whose values are read back. With zero rows and some columns the value is restored but the stream is left too early (C40_position_refuted)."
  },
  {
   "property": "C41",
   "status": "proved",
   "theorems": [
    "C41_triangle",
    "C41_parallelogram",
    "C41_tetrahedron",
    "C41_tetrahedron_image"
   ],
   "note": "Exact rational arithmetic. Triangles and parallelograms must lie in a plane of constant third coordinate, as in the code. FInv is the inverse when the determinant is not zero; degenerate elements are not rejected by the code."
  },
  {
   "property": "C42",
   "status": "proved",
   "theorems": [
    "C42_creation",
    "C42_update",
    "C42_no_action",
    "C42_vertex_types_refuted",
    "C42_aligned_refuted"
   ],
   "note": "All sizes and all pairs of positions (two polygons, updated polygon, or nothing to do). With the optional list of aligned edges, which the library never fills, the code also ignores valid diagonals (C42_aligned_refuted); recorded types of the new vertices are wrong when both ends are inside one edge and the polygon has not 4 vertices (C42_vertex_types_refuted)."
  },
  {
   "property": "C43",
   "status": "proved",
   "theorems": [
    "C43_gauss",
    "C43_other_orders",
    "C43_literals"
   ],
   "note": "Tables read as IEEE doubles (nearest, ties to even); relative error at most 2e-15 of the integral with absolute coefficients; sums taken exactly."
  },
  {
   "property": "C44",
   "status": "proved",
   "theorems": [
    "C44_rectangle"
   ],
   "note": "CreateRectangleMesh on an empty mesh with at least two coordinates in each direction: numbers of cells, coordinates, markers, vertices of every cell, edges, conformity."
  },
  {
   "property": "C45",
   "status": "proved",
   "theorems": [
    "C45_random_array"
   ],
   "note": "std::shuffle is any function that returns a permutation."
  },
  {
   "property": "C46",
   "status": "proved",
   "theorems": [
    "C46_slope"
   ],
   "note": "Exact rational arithmetic; a zero denominator is an exception in the model, an infinity or NaN in the code."
  },
  {
   "property": "C47",
   "status": "partial",
   "theorems": [
    "C47_csv_partial",
    "C47_set_refuted",
    "C47_matrix_refuted",
    "C47_large_refuted"
   ],
   "note": "Sets, matrices and unsigned numbers from 2^31 on are written but cannot be read (C47_*_refuted). The other types are proved; for double values when the platform's text of the number determines it."
  },
  {
   "property": "C48",
   "status": "partial",
   "theorems": [
    "C48_ini_partial",
    "C48_spaces_refuted"
   ],
   "note": "As C47; values with spaces and empty values are lost silently (C48_spaces_refuted). Descriptions are written as comments and not restored."
  },
  {
   "property": "C49",
   "status": "proved",
   "theorems": [
    "C49_arguments"
   ],
   "note": "Identifier and value not empty, no separator inside the parts."
  },
  {
   "property": "C50",
   "status": "partial",
   "theorems": [
    "C50_edge",
    "C50_polygon",
    "C50_polyhedron",
    "C50_complete_refuted"
   ],
   "note": "References to the split cell never survive in the lists of the cells of its children and are replaced one for one; the lists do not stay complete (C50_complete_refuted)."
  },
  {
   "property": "C51",
   "status": "partial",
   "theorems": [
    "C51_partial",
    "C51_result_partial",
    "C51_refuted"
   ],
   "note": "The first point, the edge, the markers and the states are as specified; the second point is the sum of the two vertices, so the property holds exactly when the segment starts at the origin (C51_refuted)."
  },
  {
   "property": "C52",
   "status": "partial",
   "theorems": [
    "C52_2D_partial",
    "C52_3D_partial",
    "C52_1D_refuted"
   ],
   "note": "Proved for ExtractMesh2D and ExtractMesh3D; ExtractMesh1D sets every cell active with marker 0 (C52_1D_refuted)."
  },
  {
   "property": "C53",
   "status": "proved",
   "theorems": [
    "C53_triangles"
   ],
   "note": "CreateStructuredTriangularMesh on an empty mesh with at least two coordinates in each direction."
  },
  {
   "property": "C54",
   "status": "proved",
   "theorems": [
    "C54_parallelepiped"
   ],
   "note": "CreateParallelepipedMesh on an empty mesh with at least two coordinates in each direction."
  },
  {
   "property": "C55",
   "status": "proved",
   "theorems": [
    "C55_within_tolerance",
    "C55_found"
   ],
   "note": "Exact rational arithmetic; the norm test is modelled through the squared norm."
  },
  {
   "property": "C56",
   "status": "proved",
   "theorems": [
    "C56_quadrilateral",
    "C56_determinant"
   ],
   "note": "Exact rational arithmetic; FInv always throws and is not part of the claim."
  },
  {
   "property": "C57",
   "status": "partial",
   "theorems": [
    "C57_hexahedron",
    "C57_corners",
    "C57_straight",
    "C57_parallelepiped",
    "C57_any_start_refuted"
   ],
   "note": "Proved except that edges of the cube go to edges of the hexahedron, which is refuted: the vertices outside the first face are numbered in increasing order whatever the start and direction of the first face (C57_any_start_refuted)."
  },
  {
   "property": "C58",
   "status": "proved",
   "theorems": [
    "C58_square",
    "C58_hexahedron",
    "C58_other_orders"
   ],
   "note": "Tables read as IEEE doubles; 2e-15 on the square, 1e-15 on the cube."
  },
  {
   "property": "C59",
   "status": "partial",
   "theorems": [
    "C59_triangle_partial",
    "C59_order_21_refuted",
    "C59_order_21_partial",
    "C59_other_orders"
   ],
   "note": "All orders but 21, with 2e-13; the rule returned for order 21 is the one of order 20 and misses degree 21 by more than 1e-7 (C59_order_21_refuted)."
  },
  {
   "property": "C60",
   "status": "proved",
   "theorems": [
    "C60_tetrahedron",
    "C60_positive_weights",
    "C60_other_orders"
   ],
   "note": "Tables read as IEEE doubles; integrals of monomials by Dirichlet's formula."
  },
  {
   "property": "C61",
   "status": "partial",
   "theorems": [
    "C61_lobatto",
    "C61_end_points",
    "C61_other_orders",
    "C61_coordinates_partial",
    "C61_coordinates_refuted"
   ],
   "note": "Accuracy, end points and positivity for every order; from order 16 on the second and third coordinates are never written (C61_coordinates_refuted)."
  },
  {
   "property": "C62",
   "status": "proved",
   "theorems": [
    "C62_exact",
    "C62_tolerant",
    "C62_tolerance_refuted"
   ],
   "note": "Exact rational arithmetic; norms and their quotients are compared through squares. With the default configuration the effective tolerance is the square root of the configured one: C62_tolerance_refuted."
  },
  {
   "property": "C63",
   "status": "proved",
   "theorems": [
    "C63_position",
    "C63_convex"
   ],
   "note": "Exact rational arithmetic, zero tolerance."
  },
  {
   "property": "C64",
   "status": "proved",
   "theorems": [
    "C64_bounding_box",
    "C64_inside",
    "C64_intersect"
   ],
   "note": ""
  },
  {
   "property": "C65",
   "status": "proved",
   "theorems": [
    "C65_barycentric"
   ],
   "note": ""
  },
  {
   "property": "C66",
   "status": "proved",
   "theorems": [
    "C66_cuts",
    "C66_fan",
    "C66_rotate",
    "C66_reverse",
    "C66_map",
    "C66_rejected",
    "C66_boundary",
    "C66_internal",
    "C66_space"
   ],
   "note": "Exact rational arithmetic; the edge lengths and normals are inputs which satisfy their definition; the area in space is stated before the final norm."
  },
  {
   "property": "C67",
   "status": "proved",
   "theorems": [
    "C67_centroid",
    "C67_answers",
    "C67_map",
    "C67_mass"
   ],
   "note": "Exact rational arithmetic."
  },
  {
   "property": "C68",
   "status": "proved",
   "theorems": [
    "C68_first_vertex",
    "C68_answers",
    "C68_internal_point"
   ],
   "note": "Exact rational arithmetic with zero tolerance for the triangulation from the first vertex."
  },
  {
   "property": "C69",
   "status": "partial",
   "theorems": [
    "C69_ears_partial",
    "C69_convex_partial",
    "C69_conforming_refuted"
   ],
   "note": "Missing: that every simple polygon has an ear (the two ears theorem), so that the call answers on concave simple polygons."
  },
  {
   "property": "C70",
   "status": "proved",
   "theorems": [
    "C70_convex",
    "C70_concave_refuted"
   ],
   "note": "Before the final normalization. The concave case is refuted by a star with eight vertices."
  },
  {
   "property": "C71",
   "status": "proved",
   "theorems": [
    "C71_convex_counterclockwise",
    "C71_convex_clockwise",
    "C71_counterclockwise",
    "C71_clockwise"
   ],
   "note": "The hull itself is not part of this claim."
  },
  {
   "property": "C72",
   "status": "partial",
   "theorems": [
    "C72_corners",
    "C72_point",
    "C72_segment",
    "C72_sides",
    "C72_one_line_refuted"
   ],
   "note": "Exact arithmetic with zero tolerances. std::sort is modelled by insertion sort: the comparison is proved a strict total order on the points, so that the sorted vector is unique. Refuted for aligned points with the option to include the side points (undefined behaviour for all of them)."
  },
  {
   "property": "C73",
   "status": "partial",
   "theorems": [
    "C73_refine",
    "C73_put_off",
    "C73_put_off_only",
    "C73_two_edges_refuted"
   ],
   "note": "Proved for meshes in the plane, for any geometric decisions, when no other polygon has both split edges; refuted otherwise: the update of the second edge reads the directions of a polygon which did not exist when they were computed."
  },
  {
   "property": "C74",
   "status": "proved",
   "theorems": [
    "C74_area"
   ],
   "note": "Exact arithmetic; same hypotheses as C73."
  },
  {
   "property": "C75",
   "status": "proved",
   "theorems": [
    "C75_directions"
   ],
   "note": ""
  },
  {
   "property": "C76",
   "status": "partial",
   "theorems": [
    "C76_bisection_partial",
    "C76_neighbour_refuted"
   ],
   "note": "Proved when the split of the neighbour takes place; refuted otherwise: the result of the split of the neighbour is not looked at, and a neighbour whose halves are under the tolerance keeps an edge which is not active any more. The area is exact when the coordinates are stored without rounding."
  },
  {
   "property": "C77",
   "status": "proved",
   "theorems": [
    "C77_round_trip",
    "C77_default",
    "C77_history",
    "C77_generations_refuted",
    "C77_vertices_refuted",
    "C77_blank_refuted",
    "C77_cellless_refuted"
   ],
   "note": "Proved on meshes with edges (regular), whose properties belong to dimensions with cells and have names without white space or separator. Outside of these, and for histories with several generations, the round trip is refuted by witnesses: the generations in between lose their place in the history, a mesh of vertices only is written but cannot be read, a property name with a blank aborts the import, and a property of a dimension without cells is dropped. The encoding of doubles (17 significant digits) is assumed to be read back exactly."
  },
  {
   "property": "C78",
   "status": "proved",
   "theorems": [
    "C78_segments",
    "C78_roots",
    "C78_touching_refuted",
    "C78_gap_refuted",
    "C78_far_refuted"
   ],
   "note": "Zero tolerances, exact arithmetic; lengths enter by their squares (C78_roots shows that the comparisons are those of the code where the lengths are rational); the QR solution is modelled by the normal equations. Refuted: segments on a line with one common point are reported as 'multiple' intersections (C78_touching_refuted); with tolerances, disjoint segments with a small gap get the whole first segment as common part and a coordinate outside of the second segment (C78_gap_refuted), and the relation of reversed segments is wrong far from the origin (C78_far_refuted)."
  },
  {
   "property": "C79",
   "status": "proved",
   "theorems": [
    "C79_crossings"
   ],
   "note": "The lengths may be any upper bounds of the true lengths. Parallel segments have no crossing."
  },
  {
   "property": "C80",
   "status": "proved",
   "theorems": [
    "C80_plane"
   ],
   "note": "Zero tolerances and exact arithmetic."
  },
  {
   "property": "C81",
   "status": "proved",
   "theorems": [
    "C81_accepts",
    "C81_decides",
    "C81_neighbours_refuted",
    "C81_vertices_refuted",
    "C81_defined_refuted"
   ],
   "note": "Coordinates are tokens whose values are rational, norms are compared by their squares. Refuted: neighbours on the wrong sides or missing neighbours are accepted (C81_neighbours_refuted); a polygon with more vertices than edges is accepted although a vertex is on none of its edges (C81_vertices_refuted); the check computes a remainder by zero when a neighbour has no edges (C81_defined_refuted)."
  },
  {
   "property": "C82",
   "status": "proved",
   "theorems": [
    "C82_polygon",
    "C82_convex",
    "C82_mesh",
    "C82_star_refuted",
    "C82_flat_refuted"
   ],
   "note": "Zero tolerances. Refuted: the order of the vertices is not looked at, a star whose sides cross is accepted by all the checks (C82_star_refuted); a polygon whose corners are on one line makes the test undefined (C82_flat_refuted)."
  },
  {
   "property": "C83",
   "status": "partial",
   "theorems": [
    "C83_refuted",
    "C83_checked_partial"
   ],
   "note": "The statement is false: the loops run to the number of polyhedra, which a plane mesh does not have, so all data are accepted (C83_refuted). Proved: the lengths and areas of the active polygons whose number is below the number of polyhedra are positive (C83_checked_partial); the agreement with the integrals is not stated."
  },
  {
   "property": "C84",
   "status": "proved",
   "theorems": [
    "C84_accepts",
    "C84_ends",
    "C84_missing_vertex_refuted",
    "C84_inactive_edge_refuted"
   ],
   "note": "The convexity and the measures of faces and polyhedra are not modelled. Refuted: the check that the ends of the edges are vertices of the polyhedron compares with the number of edges and does not see a missing vertex (C84_missing_vertex_refuted; the other checks do); an active edge is rejected when an inactive edge has its ends (C84_inactive_edge_refuted)."
  },
  {
   "property": "C85",
   "status": "proved",
   "theorems": [
    "C85_round_trip",
    "C85_edges"
   ],
   "note": "The streams are assumed to read back the finite doubles they write with the given precision (codec_ok)."
  },
  {
   "property": "C86",
   "status": "partial",
   "theorems": [
    "C86_partial",
    "C86_refuted"
   ],
   "note": "Proved for meshes where all points and polygons are active and unmarked. Refuted in general (C86_refuted): all cells are written, also those replaced by a refinement, and all cells are active after the import, so that the replaced polygon lies over its parts; markers are lost."
  },
  {
   "property": "C87",
   "status": "partial",
   "theorems": [
    "C87_truncated_partial",
    "C87_empty_partial",
    "C87_one_line_refuted",
    "C87_overflow_refuted",
    "C87_vertex_refuted",
    "C87_magic_refuted"
   ],
   "note": "Proved: an empty file and a file with too few lines for the announced numbers are rejected when the sum of the numbers fits 32 bits and the lines of points can be read. Refuted: a file of one line is read beyond its end (C87_one_line_refuted); the check of the number of lines overflows (C87_overflow_refuted); a vertex that does not exist is used as an index (C87_vertex_refuted); the first line is not looked at (C87_magic_refuted)."
  },
  {
   "property": "C88",
   "status": "proved",
   "theorems": [
    "C88_mesh",
    "C88_few",
    "C88_conforming",
    "C88_checks"
   ],
   "note": "For polygons for which twice the number of points fits 32 bits; larger numbers would make the default markers wrap."
  },
  {
   "property": "C89",
   "status": "proved",
   "theorems": [
    "C89_chain",
    "C89_curve",
    "C89_branch_refuted"
   ],
   "note": "Where three or more segments meet, the chain may miss segments although another chain has all of them: C89_branch_refuted."
  },
  {
   "property": "C90",
   "status": "proved",
   "theorems": [
    "C90_cuts",
    "C90_fan",
    "C90_border",
    "C90_convex",
    "C90_agrees",
    "C90_tolerance_refuted"
   ],
   "note": "In exact arithmetic with zero tolerances, for points off the diagonals used. With tolerances a point far from the border can be misplaced: C90_tolerance_refuted."
  },
  {
   "property": "C91",
   "status": "proved",
   "theorems": [
    "C91_fan",
    "C91_border",
    "C91_area",
    "C91_few",
    "C91_mesh",
    "C91_neighbours_refuted",
    "C91_closed_refuted",
    "C91_clockwise_refuted"
   ],
   "note": "Open fans. C91_neighbours_refuted: the neighbours of the edges keep the old triangles, so the extracted mesh has edges without neighbours. C91_closed_refuted: triangles all around a vertex give a border which still has the vertex and an inner edge twice. C91_clockwise_refuted: clockwise groups (excluded by a note in the header) are not detected."
  },
  {
   "property": "C92",
   "status": "proved",
   "theorems": [
    "C92_line",
    "C92_segment",
    "C92_near_refuted"
   ],
   "note": "Exact arithmetic with zero tolerances. C92_near_refuted: with tolerances, a vertex nearer to the segment than the tolerance may be skipped, or the call fails, because the second test compares a sine and the first one a distance."
  },
  {
   "property": "C93",
   "status": "proved",
   "theorems": [
    "C93_roots",
    "C93_growing",
    "C93_cycle",
    "C93_ends_refuted"
   ],
   "note": "C93_ends_refuted: a polygon may be declared its own replacement, and the call then never returns."
  },
  {
   "property": "C94",
   "status": "proved",
   "theorems": [
    "C94_closed",
    "C94_open",
    "C94_clockwise_refuted",
    "C94_small_refuted"
   ],
   "note": "Proved with Helly's theorem for the plane (Helly.v). C94_clockwise_refuted: clockwise triangles are not detected and never overlap. C94_small_refuted: the tolerance of lengths is compared with twice an area, so triangles with twice an area under the tolerance do not overlap even with themselves."
  },
  {
   "property": "C95",
   "status": "proved",
   "theorems": [
    "C95_vertices",
    "C95_path",
    "C95_few"
   ],
   "note": "The iteration orders are parameters: any permutation. Edges whose ends do not exist are excluded."
  },
  {
   "property": "C96",
   "status": "proved",
   "theorems": [
    "C96_mesh",
    "C96_path",
    "C96_few",
    "C96_ends",
    "C96_border_refuted",
    "C96_direction_refuted",
    "C96_sides_refuted"
   ],
   "note": "C96_border_refuted: an end with no other edges keeps the inactive joined edge as its neighbour and never learns of the new one. C96_direction_refuted: which end becomes the origin depends on the order of a hash set, but the sides are copied from the joined edges, so left and right may be exchanged. C96_sides_refuted: two polygons on the same side silently replace one another. C96_path composes both calls on a path."
  },
  {
   "property": "C97",
   "status": "proved",
   "theorems": [
    "C97_mesh",
    "C97_few",
    "C97_border_refuted"
   ],
   "note": "C97_border_refuted: a vertex all of whose polygons are joined keeps the inactive polygons as neighbours and never learns of the new one."
  },
  {
   "property": "C98",
   "status": "proved",
   "theorems": [
    "C98_inside",
    "C98_outline",
    "C98_joined",
    "C98_few",
    "C98_neighbours_refuted",
    "C98_apart_refuted"
   ],
   "note": "The iteration orders are parameters: any permutation. C98_neighbours_refuted: if the vertices do not know their edges, which nothing checks, all vertices count as inner and the first element of an empty set is read. C98_apart_refuted: polygons that have only a vertex in common end the program."
  },
  {
   "property": "C99",
   "status": "proved",
   "theorems": [
    "C99_coordinates",
    "C99_increasing",
    "C99_steps",
    "C99_exact",
    "C99_few",
    "C99_step_refuted"
   ],
   "note": "Exact rationals; the inverse of a step must be under 2^32 - 2. C99_step_refuted: the step is documented as the distance of the coordinates, but a step of 2/5 gives thirds. The interface also says that sizes under two count as two: 0 gives nothing and 1 throws (C99_few)."
  },
  {
   "property": "C100",
   "status": "proved",
   "theorems": [
    "C100_random",
    "C100_distance_refuted",
    "C100_ends_refuted"
   ],
   "note": "Exact rationals; the shuffle may be any permutation. C100_distance_refuted: if 0 is drawn and the ends are wanted, a middle is put in and the minimum distance is not kept. C100_ends_refuted: without the ends 0 may still be returned."
  },
  {
   "property": "C101",
   "status": "proved",
   "theorems": [
    "C101_all",
    "C101_first",
    "C101_place",
    "C101_around",
    "C101_wrap_refuted"
   ],
   "note": "Exact rationals and zero tolerances. C101_wrap_refuted: the sum of the starting polygon and the step is an unsigned int; if it wraps around, one polygon is reported twice and another is never looked at."
  },
  {
   "property": "C102",
   "status": "proved",
   "theorems": [
    "C102_position"
   ],
   "note": "Exact rationals and zero tolerances; the rotations are orthogonal with rational entries; each face is what its plane has in common with the polyhedron. The version with a division into tetrahedra is not modelled."
  },
  {
   "property": "C103",
   "status": "proved",
   "theorems": [
    "C103_all",
    "C103_first",
    "C103_place"
   ],
   "note": "Exact rationals and zero tolerances; the boxes handed over contain the polyhedra; the version without a division into tetrahedra. The starting polyhedron plus the number of polyhedra must be at most 2^32: the sum wraps around as in C101_wrap_refuted."
  },
  {
   "property": "C104",
   "status": "proved",
   "theorems": [
    "C104_type",
    "C104_local_refuted"
   ],
   "note": "Exact arithmetic. C104_local_refuted: the two answers 'only the polygon itself' are never given; the answer is 'both' also when the other polygon is not against the split or does not exist."
  },
  {
   "property": "C105",
   "status": "proved",
   "theorems": [
    "C105_polyhedron",
    "C105_back"
   ],
   "note": "For every order of the loops over the maps."
  },
  {
   "property": "C106",
   "status": "proved",
   "theorems": [
    "C106_turned",
    "C106_faces",
    "C106_empty_refuted"
   ],
   "note": "C106_empty_refuted: for a face without vertices the behaviour is undefined."
  },
  {
   "property": "C107",
   "status": "proved",
   "theorems": [
    "C107_merge",
    "C107_inside",
    "C107_counts",
    "C107_opposite_refuted"
   ],
   "note": "C107_opposite_refuted: the points of the two faces are not compared; listed in opposite orders, they make a merged polyhedron which does not contain the second one."
  },
  {
   "property": "C108",
   "status": "proved",
   "theorems": [
    "C108_tetrahedra",
    "C108_inner",
    "C108_cone"
   ],
   "note": "Combinatorial: that the tetrahedra fill the polyhedron is not part of the statement."
  },
  {
   "property": "C109",
   "status": "proved",
   "theorems": [
    "C109_coordinates"
   ],
   "note": ""
  },
  {
   "property": "C110",
   "status": "proved",
   "theorems": [
    "C110_extrusion",
    "C110_solids"
   ],
   "note": "Combinatorial; C110_two_vertices shows that three vertices are needed."
  },
  {
   "property": "C111",
   "status": "proved",
   "theorems": [
    "C111_round",
    "C111_sum"
   ],
   "note": "Over the rationals, without rounding."
  }
 ]
}