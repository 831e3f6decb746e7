# Formal model of GeDiM in Rocq (Coq 8.16.1): design

Source: `/repo/GeDiM/src` (read only, never built or run here).  All Coq files are in
`rocq/theories`, logical prefix `Verif`.

## 1. Layout

For each modelled subsystem `X` there are up to four kinds of files:

* `XModel.v` – executable Gallina functions, one per C++ function, each with the file/lines it models;
  no proofs.
* `XSpec.v` – the independent vocabulary in which properties are stated (reachability, multisets,
  list-of-lists views, ...); never refers to the algorithms of the model.
* `XProof.v` – lemmas.
* `XProps.v` – only `Theorem Cnn_... . Proof. exact lemma. Qed.`, `Print Assumptions`, and next to each
  theorem an `Example` showing a concrete, non-trivial instance meeting the hypotheses.

## 2. Modelling conventions

* **Outcomes.**  A call returns `Ok v`, `Abort` (`Output::Assert` failing, which calls `abort()` in every
  build type, `IO/IOUtilities.hpp:126-130`), `Throw` (a C++ exception) or `UB` (out-of-range `operator[]`,
  null/invalid iterator dereference, `max_element` of an empty range, ...).  A theorem of the form
  "`f x = Ok y`" therefore also says that no assertion fails, nothing is thrown and no undefined behaviour occurs.
* **`unsigned int`.**  Values stored in mesh arrays are `N`; the sentinel
  `std::numeric_limits<unsigned int>::max()` is the number 4294967295.  Array positions and sizes are `nat`
  and are assumed to stay below 2^32 (memory would be exhausted first); where wrap-around of an
  `unsigned int` can really happen the model makes it explicit and says so.
* **`double`.**  In storage code a double is opaque (an `N`, its bit pattern).  In geometric code doubles are
  modelled by exact rationals in normal form (`Qc`): the theorems say what the algorithm computes in exact arithmetic;
  rounding errors are out of scope and this is repeated at each theorem.
* **Hash containers.** `unordered_map`/`unordered_set` are finite maps / duplicate-free collections;
  iteration order is unspecified in C++, so theorems about such iterations are stated up to permutation or
  quantify over the order.
* **Loops** are structural recursion, folds, or fuelled recursion whose exhaustion is a distinct outcome
  (`OutOfFuel`) that the theorems exclude.

## 3. Trusted base

Coq's kernel, the axioms printed under each property theorem (`Print Assumptions`; see section 6), and the
reading of the C++ recorded in the comments of the `*Model.v` files.  No axioms of our own, no admitted
proofs, no functors, no plugins.  `std++` is used as a library of definitions and lemmas (its list and finite
map theory is axiom free).  Not modelled at all: MPI, PETSc, METIS/Triangle/Tetgen/Voro++/VTK internals,
file system behaviour, Eigen's linear algebra internals, floating-point rounding, allocation failure.

## 4. Property by property plan

| id | what is modelled | how it is proved |
|---|---|---|
| C01 | the offset/value ("CSR") arrays and the three helper functions that edit them | refinement to `list (list A)`: every helper commutes with the view and touches one row |
| C02 | the whole `MeshMatrices` record, mutators of `MeshMatricesDAO` as `step` over an op type | invariant `wf`, induction on the call list; getters proved to return `Ok` on `wf` states |
| C03 | `CellkDRemove` | element-wise characterisation of every array after removal by the renumbering function |
| C04 | `Cell0DRemove` + sub-division | expected to be refuted (sub-divisions are not renumbered): witness |
| C05 | sentinels under removals | invariant "raw value >= number of cells", induction over removals |
| C06 | dangling references | expected refuted by remove-then-append; positive part for removals only |
| C07 | `AlignMapContainerHigherElements` on finite maps of finite sets | relational characterisation |
| C08 | `UpdatedCellkDs` recursion with fuel | equals leaves of the transitive closure for acyclic relations; fuel bound |
| C09 | same | expected refuted (self-update is accepted): out of fuel for every fuel |
| C10 | `InsertUpdated`, `Original` | invariant over call histories |
| C11 | property writes | expected refuted: missing bound check; positive part under the bound |
| C12 | `CellkDsInitialize` | expected refuted on non-empty attributes; positive part when attributes are empty |
| C13 | find functions | first-match characterisation |
| C14 | `ExtractActiveMesh`, `FilterActiveMesh` | induction on removals composing C03 |
| C15 | `FillMesh1D/2D/3D` (matrix overload of 3D) on the DAO model | symbolic execution lemmas over loops on the abstract mesh |
| C16 | `Compute*Neighbours` | fold lemma: grouping by key equals filtered enumeration |
| C17, C50 | `SplitCell1D/2D/3D` | loop invariants over children |
| C18 | `ComputeMesh2DCell1Ds` | sorted duplicate-free edge set + index lookup |
| C19, C52 | `FilterMesh`, `ExtractMesh` in 1D, 2D, 3D | renaming tables, composition with C15; C52 expected refuted in 1D |
| C51 | `Mesh1DFromSegment` | C15 in one dimension; expected refuted (second vertex passed as tangent) |
| C20-C25 | `GraphUtilities` on adjacency lists | DFS/BFS invariants, white-path argument, Kosaraju |
| C26-C30 | `MetisUtilities` pure parts (the METIS call itself is an arbitrary function) | scan invariants, C23, counting argument |
| C31-C32 | `UnionMeshSegment` over `Qc` | sortedness/coverage invariants, merge argument |
| C33 | `CompareValues` over `Qc` | case analysis; antisymmetry expected refuted |
| C34 | odometer loop and binomials | enumeration = lexicographic list of sorted tuples |
| C35-C36 | `Split`, `Parse` on character lists | structural induction; `", "` expected refuted |
| C37-C39 | `Configurations` store | refinement to a typed map; atomicity and `Matrix` expected refuted |
| C40 | stream operators on character lists | round trip by induction |
| C45-C46 | `RandomArrayNoRepetition`, `Slope` | any shuffle; normal equations over `Qc` |
| C47-C49 | csv, ini and command line formats of `Configurations` | round trip over the abstract map, for every iteration order |
| C41, C55 | affine maps (triangle, parallelogram, tetrahedron, parallelepiped) over `Qc` | `ring`/`field`, inverse by cofactors, search over configurations |
| C56, C57 | bilinear and trilinear maps over `Qc` | `ring`; convex combination of corner areas; C57 expected refuted for rotated first faces |
| C42 | `SplitPolygonWithSegment` index algorithm | closed form of the two boundary walks, cutting a cycle in two |
| C43, C58-C61 | all quadrature tables, generated from the source by `tools/quadrature_tables.py`; literals rounded to doubles | verified fixed-point evaluation of all moments (`QuadCheck.v`; `QuadWord.v` on native integers), lifted to all polynomials by linearity |
| C62, C63 | `PointSegmentPosition`, `PointPolygonPosition` over `Qc`; norms compared through their squares | signed areas; case analysis of the curvilinear coordinate; invariant of the loop on the edges |
| C64, C65 | bounding boxes and barycentric coordinates over `Qc` | induction on the points; `field` |
| C66, C67 | area, centroid, mass and inertia of polygons over `Qc`, in the plane and in space | sums over closed paths of antisymmetric functions: cutting along a diagonal, rotating and reversing the list; quadrature with three points |
| C68, C69 | triangulations from a vertex, from a point and by ear clipping | closed forms of the index lists; invariant of the clipping loop (the remaining points, their numbers, the area); convex position is inherited by sublists, hence the first vertex is always an ear |
| C70, C71 | `PolygonNormal` (with 32-bit index arithmetic), `PolygonOrientation` | sums of signed areas; position of the smallest element of a rotated list |
| C72 (C71) | `ConvexHull` | the comparison of the sort is a strict total order (sorted lists are unique); invariant of the scan: the stack bends to the right and sees all visited points; the points left out are strictly inside |
| C73-C75 | refinement of one polygon (`RefinePolygonCell_ByDirection`, the four `SplitPolygon_*`, `RefinePolygonCell_UpdateNeighbours`, `EdgesDirection`) with an arbitrary store/arithmetic and arbitrary geometric decisions | invariant "conforming up to pending edges": a split edge is pending until both neighbours are updated; boundaries are compared after replacing the pending edges by their halves; every step (split, cut, halve, drop, undo) keeps the invariant and the shoelace sum |
| C76 | bisection of a triangle (`RefineTriangleCell_ByEdge`, `RefineTriangleCell_UpdateNeighbours`) | the same invariant with one pending edge: the neighbours with the edge pass it against the triangle, since no edge has two polygons on one side; every neighbour in the log has been cut |
| C77 | `MeshDAOExporterToCsv::Export`, `MeshDAOImporterFromCsv::Import` and all of `MeshFromCsvUtilities` they call; files as a finite map of paths to texts; doubles through an abstract encoding | each exported file is the text of a table; each importer reads that table back; the conversions are composed as equations on the abstract mesh (`does`), giving `read_back`; a history of one generation is then kept exactly |
| C78-C80 | `IntersectionSegmentSegment`, `IntersectionsBetweenSegments`, `IntersectionSegmentPlane` with squares instead of lengths | Lagrange's identity and Cramer's rule for the crossing; on one line everything is reduced to two intervals on the line of the first segment (`common_intervals`); the loop over pairs keeps, for each segment, the list of segments it was compared with |
| C81-C84 | `CheckMesh2D`, `CheckMeshGeometricData2D`, `CheckMesh3D` (without convexity and measures of faces and cells), statement by statement | every loop is turned into a statement about all cells (`each_ok`, `actives_ok`), the look-ups into statements about first positions; convexity: a point strictly inside the hull has a vertex on the right of every line through it (`turning`, a cyclic product), a point on its border has a side |
| C85-C87 | `ObjectFileFormatInterface`, all functions, with the text of the file | fields and lines as for C77; the edges through C18; refutations for all lines, or on the refined triangle of C77 |
| C88 | `MeshUtilities::Mesh2DFromPolygon` | the program on abstract meshes, stage by stage (MeshProg.v), then read through the interface; conformity and the checks of C81 from the description alone |
| C89 | `GeometryUtilities::MakeConcatenation` | the loop with fuel; measure: unused segments times the length of a pass; then connectedness along the chain |
| C90 | `GeometryUtilities::PointPolygonPosition_RayCasting` over `Qc` | signed crossings of the ray are antisymmetric, so they add up over diagonals (C66); one triangle by cases; convex polygons by a telescoping sum outside and one upward crossing inside |
| C91 | `MeshUtilities::FindCell2DsCommonVertices/Edges`, `AgglomerateTriangles`, `AgglomerateMeshFromTriangularMesh` | common cells by sorted intersection; fans by induction over the triangles, each list up to rotation; area by the antisymmetric sums of C66; the mesh by the program calculus of C17, one group at a time |
| C92 | `MeshUtilities::SetMeshMarkersOnLine`, `SetMeshMarkersOnSegment`, `GeometryUtilities::IsPointOnLine` | the loops for any test of points, with the program calculus of C17; the tests by vanishing cross products |
| C93 | `MeshUtilities::MeshCell2DRoots` | the loop with fuel; a walk longer than the number of polygons meets one twice (pigeonhole), so acyclic histories end; cycles never end |
| C94 | `GeometryUtilities::CheckTrianglesIntersection` | the triangles as intersections of half planes; if no edge separates them, every three of the six half planes have a common point, and Helly's theorem (from Radon's relation of four points) gives one of all six |
| C95 | `MeshUtilities::AgglomerateCell1Ds` (which vertices go) | loop invariant over the edges in any order; the hash sets iterate in any permutation; paths by the position of each vertex |
| C96 | `MeshUtilities::AgglomerateCell1Ds` (the joined mesh) | the program calculus of C17; the gathered markers, neighbours and originals as an invariant of the loop over the edges; both calls composed on paths |
| C97 | `MeshUtilities::AgglomerateCell2Ds` (the joined mesh) | the program calculus of C17 as for C96; the neighbours of each edge renamed one at a time |
| C98 | `MeshUtilities::AgglomerateCell2Ds` (the information: outline, inner edges and vertices) | loops that collect cells by invariants; the outer edges as segments of a ring: at most two at a vertex, so the longest chain (C89) uses all of them and closes; all columns have the same direction by induction |
| C99 | `GeometryUtilities::EquispaceCoordinates` (both) | values by index over `Qc`; the rounded inverse as a floor |
| C100 | `GeometryUtilities::RandomCoordinates` | any shuffle (C45); the sorted draw is strictly increasing; the middle that replaces a drawn 0 |
| C101 | `MeshUtilities::FindPointCell2D`, `FindPointMeshPosition` (2D) | a point on the left of all edges of a closed line is in its box (no cyclic descent); position by C63; the steps visit every polygon once |
| C102 | `GeometryUtilities::PointPolyhedronPosition` (convex), `PointPlanePosition`, `PointPlaneDistance`, `RotatePointsFrom3DTo2D` | faces in turn with the count of negative ones as invariant; C63 in the plane of the face; the orthogonal rotation takes the answer back to space |
| C103 | `MeshUtilities::FindPointCell3D` (convex), `FindPointMeshPosition` (3D) | generic search loop; position by C102; the columns of the faces are positions in the rows of the polyhedron |
| C104 | `RefinementUtilities::RefinePolygonCell_IsCell1DToSplit` | the two loops over the neighbours are one loop with the question as a parameter; invariant on the places seen |
| C105 | `FacetsToPolyhedron`, `FacetsToVertices`, `FacetsToEdges`, `PolyhedronToFacets` | maps as lists in the order of insertion, read in any order; a key's number is its place among the first appearances |
| C106 | `ChangePolyhedronFaceOrientation`, `ChangePolyhedronFacesOrientation`, `ChangePolygonOrientation` | entry by entry |
| C107 | MergeModel: MergePolyhedronByFace and MergePolyhedrons, the same loops for vertices, edges and faces | invariant of the loops: new and old numbers are inverse; the cells in both are the common ones; counts by permutation with the lists of cells (`C107_merge`, `C107_inside`, `C107_counts`) |
| C108 | `PolyhedronTetrahedronsByFaceTriangulations`, `ExtractTetrahedronPoints`, both with and without points inside the faces | positions in flat lists of chunks |
| C109 | `PolyhedronCoordinateSystem` | the loop takes the first three other ends of the edges at vertex 0 |
| C110 | `CreateTetrahedronWithVertices`, `CreateTetrahedronWithOrigin`, `CreateParallelepipedWithOrigin`, `CreatePolyhedronWithExtrusion` | extruded polygons by the form of edges and faces, for every number of vertices; the others by a decision procedure proved right |
| C111 | `PolyhedronEdgeTangents`, `PolyhedronFaceVertices`, `PolyhedronFaceEdgeDirections`, `PolyhedronFaceEdgeTangents`, over the rationals | entry by entry from the closed faces; the sum of the differences round a list of points vanishes |
| C44, C53 | `CreateRectangleMesh`, `CreateStructuredTriangularMesh` | index arithmetic on row/column coordinates |
| C54 | `CreateParallelepipedMesh` | three families of edges and faces with an injective numbering; symbolic cells |

"Expected refuted" means that reading the code suggests the property fails; if so a theorem `..._refuted`
with a concrete witness is proved together with the strongest positive part.


## 5. Findings (properties the code violates, each with a witness theorem)

| theorem | what happens |
|---|---|
| `C01_bulk_refuted` | bulk initialisation of an attribute which is already initialised does not replace the values |
| `C02_refuted`, `C12_refuted` | growing a mesh with `CellkDsInitialize` leaves the offset arrays of the attributes short |
| `C04_refuted` | `Cell0DRemove` does not renumber the sub-divisions |
| `C06_refuted` | a dangling reference equals the number of cells and the next appended cell takes that number |
| `C09_refuted` | a cell may be updated by itself; `UpdatedCellkDs` then recurses for ever |
| `C11_refuted`, `C11_out_of_bounds_refuted` | writes of attribute values do not check the position |
| `C13_find_edge_refuted` | look-up of an edge inside a cell reads outside the arrays when the edge was removed |
| `C14_reused_maps_refuted` | `ExtractActiveMesh` inserts in the maps it is given: entries of an earlier call are not replaced |
| `C16_recompute_plane_refuted` | computing the plane edge-polygon neighbours again leaves inactive polygons in the lists |
| `C50_complete_refuted` | after a split, a vertex of several children lists only the first of them |
| `C51_refuted` | `Mesh1DFromSegment` passes the second vertex where `FillMesh1D` expects a tangent: the second point is the sum of the vertices |
| `C52_1D_refuted` | `ExtractMesh1D` does not copy markers and states |
| `C57_any_start_refuted` | `MapHexahedron` ignores where the first face starts and its direction: the unit cube is mapped with a singular Jacobian |
| `C42_vertex_types_refuted` | `SplitPolygonWithSegment` compares the number of a new vertex with 4 (the size in a test) instead of the number of vertices |
| `C42_aligned_refuted` | the test for aligned edges compares the origin with the lower end only and the end with the upper end only: a valid diagonal is ignored |
| `C59_order_21_refuted` | the triangle rule returned for order 21 is the 85-point rule of order 20 (x^8 y^13 is off by 2.5e-7) |
| `C61_coordinates_refuted` | Gauss-Lobatto rules from order 16 on leave the second and third rows of the points uninitialised (`resize` instead of `setZero`) |
| `C28_refuted`, `C28_without_metis_refuted` | merging the parts over a zero cut; one part without METIS whatever is asked |
| `C29_refuted` | cells without a part are put in part 0 (the `resize` with a default has no effect) |
| `C31_sentinel_refuted` | a coordinate -1 is taken for "no point" |
| `C31_close_points_refuted` | close points of one mesh are merged with the point of the other |
| `C33_exchange_refuted` | comparison with tolerance is relative to the first argument |
| `C36_refuted`, `C36_large_unsigned_refuted` | "[1, 2]" throws; unsigned numbers from 2^31 on throw |
| `C37_check_type_refuted` | asking the type of an absent property creates it |
| `C37_c_string_refuted` | setting a C string does not check the type of the property |
| `C38_refuted` | a failed conversion leaves the default value in the property |
| `C39_matrix_refuted` | the name "Matrix" is compared with a lower-case text |
| `C40_position_refuted` | reading a matrix without rows stops too early in the stream |
| `C47_*_refuted`, `C48_spaces_refuted` | sets, matrices and large unsigned numbers cannot be imported; ini loses values with spaces |
| `C69_conforming_refuted` | ear clipping drops a corner which becomes straight after a cut: the triangles need not be conforming |
| `C72_one_line_refuted` | `ConvexHull` with `includeCollinear` reads `structPoints[-1]` when all points are on one line |
| `C73_two_edges_refuted` | a polygon next to both edges split in one refinement: `RefinePolygonCell_UpdateNeighbours` looks up the directions of the polygon created by the first update, outside the list |
| `C76_neighbour_refuted` | `RefineTriangleCell_UpdateNeighbours` ignores that a neighbour was not split (its halves are under the area tolerance): the neighbour keeps the edge which has been replaced, the mesh is not conforming (the original call also reads the rotation of the neighbour with the position of the neighbour instead of its number; the rotation is not modelled) |
| `C77_generations_refuted` | the exporter writes only the current cells of a replaced cell: a cell between two generations loses its origin and its place after a round trip |
| `C77_vertices_refuted` | a mesh without edges is exported, but `Import` throws since it knows no dimension for it |
| `C77_blank_refuted` | a property name with white space is exported, but `Import` aborts (the name is read up to the blank) |
| `C77_cellless_refuted` | a property of a dimension without cells is dropped by the round trip |
| `C78_touching_refuted` | two segments on a line with one common point are reported with multiple intersections |
| `C78_gap_refuted` | two disjoint short segments on a line with a gap below the tolerance: the common part on the first segment is the whole segment (`OnSegmentLineAfterEnd` is moved to the origin), on the second one it ends before its begin, at a coordinate outside of the segment |
| `C78_far_refuted` | the relation of the ends of the common part is decided with a tolerance multiplied by the distance from the origin: far from it, reversed segments are matched as if they had one direction |
| `C81_neighbours_refuted` | `CheckMesh2D` accepts meshes whose neighbours are on the wrong sides of the edges, and meshes without neighbours |
| `C81_vertices_refuted` | `CheckMesh2D` walks over the edges of a polygon: a polygon with more vertices than edges is accepted |
| `C81_defined_refuted` | `CheckMesh2D` computes a remainder by zero when a neighbour of an edge has no edges |
| `C82_star_refuted` | `CheckMesh2D` with the test of convexity accepts a star, whose sides cross each other |
| `C82_flat_refuted` | the test of convexity of a polygon whose corners are on one line is undefined |
| `C83_refuted` | `CheckMeshGeometricData2D` loops over the polyhedra instead of the polygons: all data are accepted for plane meshes |
| `C84_missing_vertex_refuted` | `CheckMesh3D` compares the position of an end of an edge among the vertices with the number of edges: a missing vertex is not seen by this check |
| `C84_inactive_edge_refuted` | `CheckMesh3D` rejects an active edge when an inactive edge has the same ends |
| `C86_refuted` | an OFF file keeps neither states nor markers: after the import the polygons replaced by a refinement are active again, over their parts |
| `C87_one_line_refuted` | `StringsToOFFMesh` compares the number of lines with the number of lines already read: a file of one line is read beyond its end |
| `C87_overflow_refuted` | `StringsToOFFMesh` adds the announced numbers in 32 bits: the missing lines are not noticed when the sum overflows |
| `C87_vertex_refuted` | a polygon of an OFF file with a vertex that does not exist leads to an access out of range |
| `C87_magic_refuted` | the first line of an OFF file is not looked at |
| `C89_branch_refuted` | `MakeConcatenation` follows the first unused segment: where three or more segments meet it may miss segments although a chain through all of them exists |
| `C90_tolerance_refuted` | `PointPolygonPosition_RayCasting` compares the coordinate along the edge with the tolerance: near the end of a long edge a crossing is counted for this edge and again for the next, and a point far from the border is reported outside although it is inside |
| `C62_tolerance_refuted` | `PointSegmentPosition` compares squares with `Tolerance1DSquared()`, but no comparison uses less than `MinTolerance`: with the default configuration the effective tolerance is the square root of the configured one |
| `C91_neighbours_refuted` | `AgglomerateMeshFromTriangularMesh` does not update the neighbours of the edges: the edges of the new polygon keep the inactive triangles, and after `ExtractActiveMesh` outer edges have no neighbour at all |
| `C91_closed_refuted` | `AgglomerateTriangles` accepts triangles all around a vertex, but the polygon it gives still has this vertex and lists one inner edge twice |
| `C91_clockwise_refuted` | clockwise triangles (excluded by a comment in the header) are not detected; the lists have repeated vertices and edges |
| `C92_near_refuted` | `SetMeshMarkersOnSegment` asks first for a distance from the line (`IsPointOnLine`) and then for the sine of an angle (`PointSegmentPosition`) with the same tolerance: near the origin of the segment a vertex well within the tolerance is skipped, or the call aborts if it is off the coordinate plane, although `SetMeshMarkersOnLine` marks it |
| `C93_ends_refuted` | `MeshCell2DRoots` never returns if a polygon is its own ancestor, which `Cell2DInsertUpdatedCell2D` does not exclude |
| `C94_clockwise_refuted` | `CheckTrianglesIntersection` expects counterclockwise triangles and does not check it: a clockwise triangle does not overlap itself |
| `C94_small_refuted` | `CheckTrianglesIntersection` compares twice an area with the tolerance for lengths: a triangle with legs of 25 times the tolerance does not overlap itself |
| `C96_border_refuted` | `AgglomerateCell1Ds`: an end vertex all of whose edges are joined keeps the inactive edge as its neighbour and never gets the new one |
| `C96_direction_refuted` | `AgglomerateCell1Ds` with `mantain_neigh2D_order`: which end is the origin of the new edge depends on the order of a hash set, while the polygons keep their positions, so left and right may be exchanged |
| `C96_sides_refuted` | `AgglomerateCell1Ds` with `mantain_neigh2D_order`: two polygons on the same side of the joined edges replace one another silently |
| `C97_border_refuted` | `AgglomerateCell2Ds`: a vertex of the new polygon all of whose polygons were joined keeps the inactive polygons as neighbours and never gets the new one |
| `C98_neighbours_refuted` | `AgglomerateCell2Ds` (information): if the vertices of the mesh do not know their edges, all vertices count as inner and `*begin()` of an empty set is read |
| `C98_apart_refuted` | `AgglomerateCell2Ds` (information): polygons that share only a vertex fail the assertion on the number of columns and end the program; nothing in the interface says so |
| `C99_step_refuted` | `EquispaceCoordinates(step)`: the step is documented as the distance of the coordinates, but only the nearest whole number of intervals is kept: 2/5 gives thirds |
| `C100_distance_refuted` | `RandomCoordinates`: if 0 is drawn and the extremes are inserted, a middle point is put in at half the distance, so `minDistance` is not kept |
| `C100_ends_refuted` | `RandomCoordinates`: without extremes the value 0 may still be returned |
| `C101_wrap_refuted` | `FindPointCell2D`: `starting_cell2D_index + c` wraps around at 2^32, one polygon is found twice and another never |
| `C104_local_refuted` | `RefinePolygonCell_IsCell1DToSplit`: the `OnlyLocal…` types are overwritten by `Both…` in the same step and never reported |
| `C106_empty_refuted` | `ChangePolygonOrientation(0)` writes the first entry of an empty vector |
| `C107_opposite_refuted` | `MergePolyhedronByFace` puts the vertices of the two common faces together place by place and never compares their points; with the common face listed in opposite orders, as when the faces of both polyhedra are listed as seen from outside, the merged polyhedron does not contain the second one |
| `C70_concave_refuted` | the normal of a concave polygon can point to the other side (besides, the vertex before the first one is taken at index `(2^32 - 1) % n`) |

## 6. Assumptions of the theorems

`Print Assumptions` says "Closed under the global context" for every property theorem except
`C58_square`, `C58_hexahedron`, `C59_triangle_partial`, `C59_order_21_partial`, `C60_tetrahedron` and `C60_positive_weights`, whose moments are evaluated on
native 63-bit integers (`QuadWord.v`).  Those six list the primitives `PrimInt63.{int, add, sub, mulc,
diveucl_21, eqb, ltb, leb, land, lor, lsl, lsr}` and the standard library's axioms about them
`Uint63.{of_to_Z, add_spec, sub_spec, mulc_spec, eqb_correct, eqb_refl, ltb_spec, leb_spec, lor_spec,
lsl_spec, lsr_spec}`.  `vcheck` lists the
module-type fields `Coq.ssr.ssrunder.Under_rel.*` of the standard library, which come with libraries that load ssreflect
and are not used by any theorem here.

## 7. Not modelled

MPI and PETSc code, METIS, Triangle, Tetgen, Voro++, VTK and MEDIT writers, allocation failure, floating-point rounding
(section 2), file system errors, logging.  `IO/Configurations` and the CSV files of meshes: only the
content of the files.  How a `double` is printed and read (17 significant digits) is a parameter of the CSV model; its being read
back is a hypothesis of C77 and C85 (`codec_ok`).  `MeshMatricesDAO::Compress`
only releases memory and is the identity in the model.

Functions of `GeometryUtilities` which no file of the model names: `AlignedPolyhedronEdges`,
`CircleDivisionByPolygon`, `CreateEllipse`, `CreateParallelogram`, `CreateTriangle`, `ExportPlanteToVTU`,
`ExportPolygonToVTU`, `ExportPolyhedronToVTU`, `FindPointInPoints`, `IntersectionPolygonCircle`,
`IntersectionPolyhedronLine`, `IntersectionPolyhedronPlane`, `IntersectionPolyhedronSegment`,
`IntersectionPolyhedronsSegment`, `IntersectionSegmentCircle`, `IsPointInsideTetrahedron`, `IsPolygonCoplanar`,
`PlaneReflectionMatrix`, `PlaneReflectionTranslation`, `PlaneRotationMatrix`, `PlaneToPolygon`, `PointCirclePosition`,
`PointCirclePositions`, `PointDistances`, `PointsDistance`, `PointsMaxDistance`, `PolygonCentroidByIntegral`,
`PolygonCentroidEdgesDistance`, `PolygonCentroidVerticesDistance`, `PolygonChebyshevCenter`, `PolygonCirclePosition`,
`PolygonDivisionByCircle`, `PolygonEdgeLengths`, `PolygonEdgeNormals`, `PolygonEdgeTangents`, `PolygonEdgesCentroid`,
`PolygonInsideCircleDivisionByAngleQuadrant`, `PolygonOutsideCircleDivisionByAngleQuadrant`, `PolygonRotationMatrix`,
`PolygonTangents`, `PolygonType`, `PolyhedronCentroid`, `PolyhedronCentroidFacesDistance`, `PolyhedronEdgesCentroid`,
`PolyhedronEdgesLength`, `PolyhedronFaceBarycenter`, `PolyhedronFaceExtractTriangulationPoints`,
`PolyhedronFaceNormalDirections`, `PolyhedronFaceNormals`, `PolyhedronFaceRotatedVertices`,
`PolyhedronFaceRotationMatrices`, `PolyhedronFaceTangents`, `PolyhedronFaceTranslations`,
`PolyhedronFaceTriangulationPointsByInternalPoint`, `PolyhedronFaceTriangulations`,
`PolyhedronFaceTriangulationsByEarClipping`, `PolyhedronFaceTriangulationsByFirstVertex`,
`PolyhedronFaceTriangulationsByInternalPoint`, `PolyhedronFacesUnalignedVertices`, `PolyhedronInertia`,
`PolyhedronIsConvex`, `PolyhedronMass`, `PolyhedronVolumeByBoundaryIntegral`, `PolyhedronVolumeByInternalIntegral`,
`SplitPolygonWithCircle`, `SplitPolygonWithCircleBuildSubPolygon`, `SplitPolygonWithPlane`,
`SplitPolyhedronWithPlane`, `SplitPolyhedronWithPlaneResultToPolyhedra`, `UnalignedPolyhedronPoints`.

Functions of `MeshUtilities` which no file of the model names: `AgglomerateCell3Ds`, `ChangePolygonMeshMarkers`,
`ChangePolyhedronMeshMarkers`, `CheckMeshGeometricData3D`, `CollapseCell1D`, `ComputeMesh3DAlignedCell1Ds`,
`CreateDelaunayMesh3D`, `CreateDistortedQuadrilaterals`, `CreatePolygonIntersectionMesh`, `CreatePolygonalMesh`,
`CreatePolyhedralMesh`, `CreateQuadrilateralMeshFromTriangularMesh`, `CreateRandomlyDeformedQuadrilaterals`,
`CreateRectanglePlusHangingNodesMesh`, `CreateTetrahedralMesh`, `CreateTrianglePlusHangingNodesMesh`,
`CreateTriangularMesh`, `ExportCell2DToVTU`, `ExportCell3DToVTU`, `ExportConcaveMesh2DToCsv`,
`ExportMeshGeometricData1DToTxt`, `ExportMeshGeometricData2DToTxt`, `ExportMeshGeometricData3DToTxt`,
`ExportMeshToCsv`, `ExportMeshToMEDIT`, `ExportMeshToObjectFileFormat`, `ExportMeshToOpenVolume`, `ExportMeshToUCD`,
`ExportMeshToVTU`, `ExportMeshToWavefrontOBJ`, `FillMesh1DGeometricData`, `FillMesh2DGeometricData`,
`FillMesh3DGeometricData`, `FindConcaveCell3DFacesConvexCell2D`, `FixCell2DsOrientation`,
`ImportAgglomerationInformationFromCsv`, `ImportAgglomerationInformationFromOFF`, `ImportMeshGeometricData1DFromTxt`,
`ImportMeshGeometricData2DFromTxt`, `ImportMeshGeometricData3DFromTxt`, `ImportObjectFileFormat`,
`ImportOpenVolumeMesh`, `ImportRegnFaceMesh`, `ImportTriangularMesh`, `ImportVtkMesh3D`, `ImportWavefrontOBJ`,
`Intersect_mesh_polyhedron`, `MakeMeshTriangularFaces`, `MarkCells`, `Mesh3DFromPolyhedra`, `Mesh3DFromPolyhedron`,
`MeshCell3DToPolyhedron`, `MeshCell3DToVTPPolyhedron`, `SetMesh3DMarker`, `SetMeshMarkersByFaceNormal`,
`SetMeshMarkersOnPlane`, `SetMeshMarkersOnPolygon`, `SetPolygonMeshMarkers`.

Other source files which no file of the model names: `Eigen_Array`, `Eigen_BiCGSTABSolver`, `Eigen_CholeskySolver`,
`Eigen_LUSolver`, `Eigen_PCGSolver`, `Eigen_SparseArray`, `Eigen_Utilities`, `LAPACK_utilities`, `LPUtilities`,
`PETSc_Array`, `PETSc_KSPSolver`, `PETSc_SparseArray`, `Pardiso_CholeskySolver`, `Pardiso_LUSolver`,
`SuiteSparse_Utilities`, `MEDIT_Utilities`, `UCDUtilities`, `VTKUtilities`, `ConformMeshUtilities`,
`ConformerMeshPolygon`, `ConformerMeshSegment`, `IntersectorMesh2DSegment`, `IntersectorMesh3DSegment`,
`OpenVolumeMeshInterface`, `PlatonicSolid`, `RefinementUtilities2D_refine_triangles`, `RefinementUtilities3D`,
`TetgenInterface`, `TriangleInterface`, `VoroInterface`, `VtkMeshInterface`, `WavefrontOBJInterface`,
`MpiParallelEnvironment`, `MpiProcess`.

These three lists are made by searching for the names; the parts of the refinement of triangles, of polygons and of markers
which are modelled under other names are in section 4.
