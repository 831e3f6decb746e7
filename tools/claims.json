{
 "C01": [
  "partial",
  "Proved for every single-cell call, append, and bulk initialisation of an empty attribute, on every reachable mesh, with all other data unchanged. Bulk initialisation of a non-empty attribute violates the statement (C01_bulk_refuted); C01_bulk_exact says what it does."
 ],
 "C02": [
  "partial",
  "Proved for every history whose three unchecked preconditions hold (MeshHist.allowed); false without them (C02_refuted: growing with CellkDsInitialize)."
 ],
 "C03": [
  "proved",
  "All attributes except sub-divisions, which are property C04. C03_has needs at most 2^32-1 cells."
 ],
 "C04": [
  "partial",
  "False of the code: Cell0DRemove does not touch the sub-divisions (C04_refuted). C04_below_partial: points below the removed vertex."
 ],
 "C05": [
  "proved",
  "Any sequence of removals; also any history creating few enough cells."
 ],
 "C06": [
  "partial",
  "False of the code: a dangling reference equals the new cell count and the next appended cell takes that number (C06_refuted). Proved while no cell of that dimension is created."
 ],
 "C07": [
  "proved",
  ""
 ],
 "C08": [
  "proved",
  "Any acyclic genealogy; acyclicity gives the accessibility hypothesis (C08_acyclic_terminates)."
 ],
 "C09": [
  "partial",
  "False of the code: InsertUpdated accepts i = j and the query then recurses for ever (C09_refuted). Termination on acyclic genealogies is C08."
 ],
 "C10": [
  "proved",
  "Histories creating at most 2^32-1 cells of the dimension."
 ],
 "C11": [
  "partial",
  "In-range writes are exact (C11_in_range); the range is not checked (C11_refuted, C11_out_of_bounds_refuted)."
 ],
 "C12": [
  "partial",
  "False of the code when the attributes are non-empty (C12_refuted); proved when they are empty."
 ],
 "C13": [
  "proved",
  "Look-up inside a cell by end points needs the cell's edges to exist (C13_find_edge_refuted shows why)."
 ],
 "C20": [
  "proved",
  "Any fuel at least the number of vertices; the result does not depend on it."
 ],
 "C21": [
  "proved",
  ""
 ],
 "C22": [
  "proved",
  "Rows of the double transpose are permutations of the original rows."
 ],
 "C23": [
  "proved",
  ""
 ],
 "C24": [
  "proved",
  "Both directions, plus the round trip for directed edge lists. Too small an edge count is undefined behaviour (stated)."
 ],
 "C25": [
  "proved",
  "Filters given as the entries of the map in any iteration order; distinct keys, values a permutation of 0..m-1."
 ],
 "C26": [
  "proved",
  "Edges with both ends equal excepted, as stated. Needs one mark per connection, or none at all."
 ],
 "C27": [
  "proved",
  "For every iteration order of the hash maps used by the code."
 ],
 "C28": [
  "partial",
  "Proved when METIS is called and reports a non-zero cut, for every partition it can return (METIS itself is not modelled). False when the reported cut is 0 (C28_refuted: the parts are merged) and when the library is built without METIS and without a master part (C28_without_metis_refuted: parts start at 0)."
 ],
 "C29": [
  "partial",
  "False of the code without a master part: resize on a vector that already has its size changes nothing, so every element gets part 0 (C29_refuted, C29_without_master). Proved with a master part."
 ],
 "C30": [
  "proved",
  "Round trips in both directions, the network of an edge list, and the dual graph of every reachable mesh (both dimensions) with facet indices, constraint marks and weights. The sparse matrix of weights is a function defined everywhere."
 ],
 "C31": [
  "partial",
  "Exact rational arithmetic. Points: proved for all lists without the point -1, which the code uses as a marker. Types and indices: proved when the points of each mesh are separated by the tolerance (twice the tolerance for the second mesh). False otherwise: C31_sentinel_refuted, C31_close_points_refuted."
 ],
 "C32": [
  "proved",
  "Exact rational arithmetic; separated points as the property asks, no point -1. Meshes without a common part make the code stop; this is the only case."
 ],
 "C33": [
  "partial",
  "Exact rational arithmetic. Everything proved except that exchanging the arguments exchanges the answer: proved when one value is within the tolerance, false in general (C33_exchange_refuted)."
 ],
 "C34": [
  "proved",
  "The list is in a fixed order with each selection written in non-increasing order. Binomial coefficients are exact naturals instead of doubles."
 ],
 "C45": [
  "proved",
  "std::shuffle is any function that returns a permutation."
 ],
 "C46": [
  "proved",
  "Exact rational arithmetic; a zero denominator is an exception in the model, an infinity or NaN in the code."
 ],
 "C35": [
  "proved",
  "Also the converse, and splitting by several separators (the non-empty parts are the maximal runs)."
 ],
 "C36": [
  "partial",
  "False when a space follows another separator (C36_refuted) and for unsigned numbers from 2^31 on (C36_large_unsigned_refuted). Proved when a space, if any, comes first in the gap between two numbers."
 ],
 "C37": [
  "partial",
  "Proved for every history without the two calls which break the promise: asking the type of an absent property (C37_check_type_refuted), setting a C string to a property of another type (C37_c_string_refuted)."
 ],
 "C38": [
  "partial",
  "False of the code: the property is reset to its default before the text is read (C38_refuted). Other properties are unchanged; nothing changes when the type is not recognised."
 ],
 "C39": [
  "partial",
  "All types but matrices; no text is recognised as a matrix (C39_matrix_refuted)."
 ],
 "C40": [
  "proved",
  "For every element type whose values are read back. With zero rows and some columns the value is restored but the stream is left too early (C40_position_refuted)."
 ],
 "C47": [
  "partial",
  "Sets, matrices and unsigned numbers from 2^31 on are written but cannot be read (C47_*_refuted). The other types are proved; for double values when the platform's text of the number determines it."
 ],
 "C48": [
  "partial",
  "As C47; values with spaces and empty values are lost silently (C48_spaces_refuted). Descriptions are written as comments and not restored."
 ],
 "C49": [
  "proved",
  "Identifier and value not empty, no separator inside the parts."
 ],
 "C14": [
  "proved",
  "Fresh extraction data; with data reused from an earlier call the maps keep stale entries (C14_reused_maps_refuted)."
 ],
 "C16": [
  "proved",
  "Every neighbour function. The plane edge-polygon table must be empty before the call: C16_recompute_plane_refuted."
 ],
 "C17": [
  "proved",
  "Exact effect on every query, edges, polygons and polyhedra. A cell of several children is redirected to the first one (see C50)."
 ],
 "C50": [
  "partial",
  "References to the split cell never survive in the lists of the cells of its children and are replaced one for one; the lists do not stay complete (C50_complete_refuted)."
 ],
 "C15": [
  "proved",
  "FillMesh1D, FillMesh2D and FillMesh3D (matrix overload) on an empty mesh: for consistent input they succeed and every query returns exactly the input, all cells active; inconsistent input is rejected by the assertions."
 ],
 "C19": [
  "proved",
  "ExtractMesh1D/2D/3D on closed duplicate-free filters: the result consists of the filtered cells in the order of the filters, the tables are the inverse of the filters and references are renamed through them.  FilterMesh1D/2D/3D return the active cells and exactly the sorted set of what they mention; filtering complete cells and extracting compose."
 ],
 "C51": [
  "partial",
  "The first point, the edge, the markers and the states are as specified; the second point is the sum of the two vertices, so the property holds exactly when the segment starts at the origin (C51_refuted)."
 ],
 "C52": [
  "partial",
  "Proved for ExtractMesh2D and ExtractMesh3D; ExtractMesh1D sets every cell active with marker 0 (C52_1D_refuted)."
 ],
 "C18": [
  "proved",
  "ComputeMesh2DCell1Ds: complete, duplicate-free edge list and correct edge rows for polygons without repeated consecutive vertices; the result fed to FillMesh2D; vertices out of range are not detected."
 ],
 "C44": [
  "proved",
  "CreateRectangleMesh on an empty mesh with at least two coordinates in each direction: numbers of cells, coordinates, markers, vertices of every cell, edges, conformity."
 ],
 "C53": [
  "proved",
  "CreateStructuredTriangularMesh on an empty mesh with at least two coordinates in each direction."
 ],
 "C54": [
  "proved",
  "CreateParallelepipedMesh on an empty mesh with at least two coordinates in each direction."
 ],
 "C41": [
  "proved",
  "Exact rational arithmetic. Triangles and parallelograms must lie in a plane of constant third coordinate, as in the code. FInv is the inverse when the determinant is not zero; degenerate elements are not rejected by the code."
 ],
 "C55": [
  "proved",
  "Exact rational arithmetic; the norm test is modelled through the squared norm."
 ],
 "C56": [
  "proved",
  "Exact rational arithmetic; FInv always throws and is not part of the claim."
 ],
 "C57": [
  "partial",
  "Proved except that edges of the cube go to edges of the hexahedron, which is refuted: the vertices outside the first face are numbered in increasing order whatever the start and direction of the first face (C57_any_start_refuted)."
 ],
 "C43": [
  "proved",
  "Tables read as IEEE doubles (nearest, ties to even); relative error at most 2e-15 of the integral with absolute coefficients; sums taken exactly."
 ],
 "C58": [
  "proved",
  "Tables read as IEEE doubles; 2e-15 on the square, 1e-15 on the cube."
 ],
 "C59": [
  "partial",
  "All orders but 21, with 2e-13; the rule returned for order 21 is the one of order 20 and misses degree 21 by more than 1e-7 (C59_order_21_refuted)."
 ],
 "C60": [
  "proved",
  "Tables read as IEEE doubles; integrals of monomials by Dirichlet's formula."
 ],
 "C61": [
  "partial",
  "Accuracy, end points and positivity for every order; from order 16 on the second and third coordinates are never written (C61_coordinates_refuted)."
 ],
 "C42": [
  "proved",
  "All sizes and all pairs of positions (two polygons, updated polygon, or nothing to do). With the optional list of aligned edges, which the library never fills, the code also ignores valid diagonals (C42_aligned_refuted); recorded types of the new vertices are wrong when both ends are inside one edge and the polygon has not 4 vertices (C42_vertex_types_refuted)."
 ],
 "C62": [
  "proved",
  "Exact rational arithmetic; norms and their quotients are compared through squares. With the default configuration the effective tolerance is the square root of the configured one: C62_tolerance_refuted."
 ],
 "C63": [
  "proved",
  "Exact rational arithmetic, zero tolerance."
 ],
 "C64": [
  "proved",
  ""
 ],
 "C65": [
  "proved",
  ""
 ],
 "C66": [
  "proved",
  "Exact rational arithmetic; the edge lengths and normals are inputs which satisfy their definition; the area in space is stated before the final norm."
 ],
 "C67": [
  "proved",
  "Exact rational arithmetic."
 ],
 "C68": [
  "proved",
  "Exact rational arithmetic with zero tolerance for the triangulation from the first vertex."
 ],
 "C69": [
  "partial",
  "Missing: that every simple polygon has an ear (the two ears theorem), so that the call answers on concave simple polygons."
 ],
 "C70": [
  "proved",
  "Before the final normalization. The concave case is refuted by a star with eight vertices."
 ],
 "C71": [
  "proved",
  "The hull itself is not part of this claim."
 ],
 "C72": [
  "partial",
  "Exact arithmetic with zero tolerances. std::sort is modelled by insertion sort: the comparison is proved a strict total order on the points, so that the sorted vector is unique. Refuted for aligned points with the option to include the side points (undefined behaviour for all of them)."
 ],
 "C73": [
  "partial",
  "Proved for meshes in the plane, for any geometric decisions, when no other polygon has both split edges; refuted otherwise: the update of the second edge reads the directions of a polygon which did not exist when they were computed."
 ],
 "C74": [
  "proved",
  "Exact arithmetic; same hypotheses as C73."
 ],
 "C75": [
  "proved",
  ""
 ],
 "C76": [
  "partial",
  "Proved when the split of the neighbour takes place; refuted otherwise: the result of the split of the neighbour is not looked at, and a neighbour whose halves are under the tolerance keeps an edge which is not active any more. The area is exact when the coordinates are stored without rounding."
 ],
 "C77": [
  "proved",
  "Proved on meshes with edges (regular), whose properties belong to dimensions with cells and have names without white space or separator. Outside of these, and for histories with several generations, the round trip is refuted by witnesses: the generations in between lose their place in the history, a mesh of vertices only is written but cannot be read, a property name with a blank aborts the import, and a property of a dimension without cells is dropped. The encoding of doubles (17 significant digits) is assumed to be read back exactly."
 ],
 "C78": [
  "proved",
  "Zero tolerances, exact arithmetic; lengths enter by their squares (C78_roots shows that the comparisons are those of the code where the lengths are rational); the QR solution is modelled by the normal equations. Refuted: segments on a line with one common point are reported as 'multiple' intersections (C78_touching_refuted); with tolerances, disjoint segments with a small gap get the whole first segment as common part and a coordinate outside of the second segment (C78_gap_refuted), and the relation of reversed segments is wrong far from the origin (C78_far_refuted)."
 ],
 "C79": [
  "proved",
  "The lengths may be any upper bounds of the true lengths. Parallel segments have no crossing."
 ],
 "C80": [
  "proved",
  "Zero tolerances and exact arithmetic."
 ],
 "C81": [
  "proved",
  "Coordinates are tokens whose values are rational, norms are compared by their squares. Refuted: neighbours on the wrong sides or missing neighbours are accepted (C81_neighbours_refuted); a polygon with more vertices than edges is accepted although a vertex is on none of its edges (C81_vertices_refuted); the check computes a remainder by zero when a neighbour has no edges (C81_defined_refuted)."
 ],
 "C82": [
  "proved",
  "Zero tolerances. Refuted: the order of the vertices is not looked at, a star whose sides cross is accepted by all the checks (C82_star_refuted); a polygon whose corners are on one line makes the test undefined (C82_flat_refuted)."
 ],
 "C83": [
  "partial",
  "The statement is false: the loops run to the number of polyhedra, which a plane mesh does not have, so all data are accepted (C83_refuted). Proved: the lengths and areas of the active polygons whose number is below the number of polyhedra are positive (C83_checked_partial); the agreement with the integrals is not stated."
 ],
 "C84": [
  "proved",
  "The convexity and the measures of faces and polyhedra are not modelled. Refuted: the check that the ends of the edges are vertices of the polyhedron compares with the number of edges and does not see a missing vertex (C84_missing_vertex_refuted; the other checks do); an active edge is rejected when an inactive edge has its ends (C84_inactive_edge_refuted)."
 ],
 "C85": [
  "proved",
  "The streams are assumed to read back the finite doubles they write with the given precision (codec_ok)."
 ],
 "C86": [
  "partial",
  "Proved for meshes where all points and polygons are active and unmarked. Refuted in general (C86_refuted): all cells are written, also those replaced by a refinement, and all cells are active after the import, so that the replaced polygon lies over its parts; markers are lost."
 ],
 "C87": [
  "partial",
  "Proved: an empty file and a file with too few lines for the announced numbers are rejected when the sum of the numbers fits 32 bits and the lines of points can be read. Refuted: a file of one line is read beyond its end (C87_one_line_refuted); the check of the number of lines overflows (C87_overflow_refuted); a vertex that does not exist is used as an index (C87_vertex_refuted); the first line is not looked at (C87_magic_refuted)."
 ],
 "C88": [
  "proved",
  "For polygons for which twice the number of points fits 32 bits; larger numbers would make the default markers wrap."
 ],
 "C89": [
  "proved",
  "Where three or more segments meet, the chain may miss segments although another chain has all of them: C89_branch_refuted."
 ],
 "C90": [
  "proved",
  "In exact arithmetic with zero tolerances, for points off the diagonals used. With tolerances a point far from the border can be misplaced: C90_tolerance_refuted."
 ],
 "C91": [
  "proved",
  "Open fans. C91_neighbours_refuted: the neighbours of the edges keep the old triangles, so the extracted mesh has edges without neighbours. C91_closed_refuted: triangles all around a vertex give a border which still has the vertex and an inner edge twice. C91_clockwise_refuted: clockwise groups (excluded by a note in the header) are not detected."
 ],
 "C92": [
  "proved",
  "Exact arithmetic with zero tolerances. C92_near_refuted: with tolerances, a vertex nearer to the segment than the tolerance may be skipped, or the call fails, because the second test compares a sine and the first one a distance."
 ],
 "C93": [
  "proved",
  "C93_ends_refuted: a polygon may be declared its own replacement, and the call then never returns."
 ],
 "C94": [
  "proved",
  "Proved with Helly's theorem for the plane (Helly.v). C94_clockwise_refuted: clockwise triangles are not detected and never overlap. C94_small_refuted: the tolerance of lengths is compared with twice an area, so triangles with twice an area under the tolerance do not overlap even with themselves."
 ],
 "C95": [
  "proved",
  "The iteration orders are parameters: any permutation. Edges whose ends do not exist are excluded."
 ],
 "C96": [
  "proved",
  "C96_border_refuted: an end with no other edges keeps the inactive joined edge as its neighbour and never learns of the new one. C96_direction_refuted: which end becomes the origin depends on the order of a hash set, but the sides are copied from the joined edges, so left and right may be exchanged. C96_sides_refuted: two polygons on the same side silently replace one another. C96_path composes both calls on a path."
 ],
 "C97": [
  "proved",
  "C97_border_refuted: a vertex all of whose polygons are joined keeps the inactive polygons as neighbours and never learns of the new one."
 ],
 "C98": [
  "proved",
  "The iteration orders are parameters: any permutation. C98_neighbours_refuted: if the vertices do not know their edges, which nothing checks, all vertices count as inner and the first element of an empty set is read. C98_apart_refuted: polygons that have only a vertex in common end the program."
 ],
 "C99": [
  "proved",
  "Exact rationals; the inverse of a step must be under 2^32 - 2. C99_step_refuted: the step is documented as the distance of the coordinates, but a step of 2/5 gives thirds. The interface also says that sizes under two count as two: 0 gives nothing and 1 throws (C99_few)."
 ],
 "C100": [
  "proved",
  "Exact rationals; the shuffle may be any permutation. C100_distance_refuted: if 0 is drawn and the ends are wanted, a middle is put in and the minimum distance is not kept. C100_ends_refuted: without the ends 0 may still be returned."
 ],
 "C101": [
  "proved",
  "Exact rationals and zero tolerances. C101_wrap_refuted: the sum of the starting polygon and the step is an unsigned int; if it wraps around, one polygon is reported twice and another is never looked at."
 ],
 "C102": [
  "proved",
  "Exact rationals and zero tolerances; the rotations are orthogonal with rational entries; each face is what its plane has in common with the polyhedron. The version with a division into tetrahedra is not modelled."
 ],
 "C103": [
  "proved",
  "Exact rationals and zero tolerances; the boxes handed over contain the polyhedra; the version without a division into tetrahedra. The starting polyhedron plus the number of polyhedra must be at most 2^32: the sum wraps around as in C101_wrap_refuted."
 ],
 "C104": [
  "proved",
  "Exact arithmetic. C104_local_refuted: the two answers 'only the polygon itself' are never given; the answer is 'both' also when the other polygon is not against the split or does not exist."
 ],
 "C105": [
  "proved",
  "For every order of the loops over the maps."
 ],
 "C106": [
  "proved",
  "C106_empty_refuted: for a face without vertices the behaviour is undefined."
 ],
 "C107": [
  "proved",
  "C107_opposite_refuted: the points of the two faces are not compared; listed in opposite orders, they make a merged polyhedron which does not contain the second one."
 ],
 "C108": [
  "proved",
  "Combinatorial: that the tetrahedra fill the polyhedron is not part of the statement."
 ],
 "C109": [
  "proved",
  ""
 ],
 "C110": [
  "proved",
  "Combinatorial; C110_two_vertices shows that three vertices are needed."
 ],
 "C111": [
  "proved",
  "Over the rationals, without rounding."
 ]
}