{"id": "C01", "title": "Variable-length cell attributes are read back per cell", "statement": "Re-sizing, initialising, appending or removing the vertices / edges / faces / neighbours / sub-division list (or a double property) of one cell changes that cell's list exactly as requested (common prefix kept, new slots filled with the default, surplus dropped) and leaves the list read back for every other cell unchanged.", "quantifier": "every mesh whose attribute arrays are consistent, every cell, every new length, every attribute kind", "why_tests_cant": "The flat offset/value storage shifts all later cells; whether some other cell is disturbed depends on the position and sizes of all cells, an unbounded family.", "anchors": ["GeDiM/src/Mesh/MeshMatricesDAO.cpp: ResizeNumberVectorWithNewNumberElements, InitializeNumberVector, Cell2DInitializeVertices, Cell0DInitializeNeighbourCell1Ds"]}
{"id": "C02", "title": "The mesh store stays structurally consistent under every call history", "statement": "Starting from an empty mesh, after any sequence of successful append / remove / initialise-attributes / insert / set calls every per-cell array has exactly one entry (or the declared number of entries) per cell, so every getter called with a valid cell and slot index returns a value instead of aborting or reading out of bounds.", "quantifier": "every finite sequence of mesh-editing calls with arbitrary arguments", "why_tests_cant": "Invariant over unbounded operation histories; a test exercises a handful of histories.", "anchors": ["GeDiM/src/Mesh/MeshMatricesDAO.cpp: Cell0DAppend, Cell0DRemove, Cell1DAppend, Cell2DAppend, Cell3DRemove", "GeDiM/src/Mesh/IMeshDAO.hpp: MeshMatricesDAO getters"]}
{"id": "C03", "title": "Removing a cell renumbers every stored reference consistently", "statement": "After a cell of dimension k is removed, every vertex / edge / face / neighbour / origin reference to a surviving k-cell designates the same cell under its new number, and references to the removed cell are reported as absent by the Has-queries; the attributes of all surviving cells are those they had before.", "quantifier": "every consistent mesh, every dimension, every removed cell", "why_tests_cant": "Quantifies over all meshes and all references; a missed container is only visible for particular meshes.", "anchors": ["GeDiM/src/Mesh/MeshMatricesDAO.cpp: Cell0DRemove, Cell1DRemove, Cell2DRemove, Cell3DRemove, AlignContainerHigherElements"]}
{"id": "C04", "title": "Cell sub-divisions follow vertex removal", "statement": "After removing a 0D cell, the sub-division triangles stored for concave 2D cells designate the same points as before.", "quantifier": "every mesh with 2D-cell sub-divisions and every removed 0D cell", "why_tests_cant": "Only a mesh with both a sub-division and a removed lower-numbered vertex shows the effect.", "anchors": ["GeDiM/src/Mesh/MeshMatricesDAO.cpp: Cell0DRemove, Cell2DInitializeSubDivision", "GeDiM/src/Mesh/IMeshDAO.hpp: Cell2DInsertSubDivision"]}
{"id": "C05", "title": "An absent neighbour or origin never becomes present by itself", "statement": "A neighbour slot or origin that is reported absent stays reported absent through any later sequence of cell removals (as long as fewer than 2^32-1 minus the number of cells removals happen), until it is explicitly set.", "quantifier": "every mesh, every slot, every sequence of removals", "why_tests_cant": "The absent marker is itself renumbered by each removal, so the answer depends on the length of the whole history.", "anchors": ["GeDiM/src/Mesh/MeshMatricesDAO.cpp: AlignContainerHigherElements", "GeDiM/src/Mesh/IMeshDAO.hpp: Cell1DHasNeighbourCell2D, Cell2DHasOriginalCell2D"]}
{"id": "C06", "title": "A reference to a removed cell stays dangling", "statement": "A vertex / edge / face entry of a higher-dimensional cell that referred to a removed cell never starts designating another cell, whatever is done to the mesh afterwards, unless it is explicitly rewritten.", "quantifier": "every mesh and every later sequence of appends and removals", "why_tests_cant": "Needs a history remove-then-append; the aliasing depends on counts.", "anchors": ["GeDiM/src/Mesh/MeshMatricesDAO.cpp: Cell0DRemove, Cell0DAppend"]}
{"id": "C07", "title": "Refinement genealogy survives removals", "statement": "After removing a cell, the relation 'cell a was replaced by cell b' reported by the mesh is exactly the previous relation restricted to surviving cells and renumbered; a cell that lost all its replacements no longer reports any.", "quantifier": "every genealogy relation and every removed cell", "why_tests_cant": "Relation-level renumbering over arbitrary hash maps; tests use chains of length one or two.", "anchors": ["GeDiM/src/Mesh/MeshMatricesDAO.cpp: AlignMapContainerHigherElements, Cell2DRemove", "GeDiM/src/Mesh/IMeshDAO.hpp: Cell2DHasUpdatedCell2Ds"]}
{"id": "C08", "title": "The current descendants of a cell are exactly its leaves", "statement": "Asking for the updated cells of a cell collects exactly the descendants (through any number of replacement steps) that have not themselves been replaced, and reports 'the cell itself is current' exactly when it has not been replaced; the call terminates whenever the genealogy has no cycle.", "quantifier": "every acyclic genealogy and every cell", "why_tests_cant": "Recursion depth and fan-out are unbounded.", "anchors": ["GeDiM/src/Mesh/MeshMatricesDAO.cpp: UpdatedCell0Ds, UpdatedCell1Ds, UpdatedCell2Ds, UpdatedCell3Ds"]}
{"id": "C09", "title": "Genealogy queries terminate on every reachable mesh", "statement": "For every mesh that can be produced through the public interface, asking for the updated cells of a cell terminates.", "quantifier": "every call history", "why_tests_cant": "Non-termination cannot be observed by a test that finishes.", "anchors": ["GeDiM/src/Mesh/MeshMatricesDAO.cpp: Cell2DInsertUpdatedCell2D, UpdatedCell2Ds"]}
{"id": "C10", "title": "Origin and replacement relations agree", "statement": "For edges, faces and solids, whenever a cell reports another one as its original cell, the original reports the cell among its replacements, after any sequence of split/append/remove calls.", "quantifier": "every call history", "why_tests_cant": "Two independently stored relations kept in step over unbounded histories.", "anchors": ["GeDiM/src/Mesh/MeshMatricesDAO.cpp: Cell1DInsertUpdatedCell1D, Cell2DInsertUpdatedCell2D, Cell2DRemove"]}
{"id": "C11", "title": "A double property write changes only the addressed value", "statement": "Writing value i of property p of cell c succeeds only when i is within the declared size of that property for that cell, and changes no value of another cell.", "quantifier": "every mesh, cell, property and value index", "why_tests_cant": "A stray index silently lands in the next cell; only the exact layout exposes it.", "anchors": ["GeDiM/src/Mesh/IMeshDAO.hpp: Cell0DInsertDoublePropertyValue, Cell0DDoublePropertyValue", "GeDiM/src/Mesh/MeshMatricesDAO.cpp: Cell0DDoublePropertyInitialize"]}
{"id": "C12", "title": "Growing the number of cells in place keeps the data of existing cells", "statement": "Re-initialising the number of k-cells to a larger value keeps the variable-length attributes of the existing cells and gives empty ones to the new cells.", "quantifier": "every mesh with existing attributes and every larger number of cells", "why_tests_cant": "Depends on whether the existing cells own variable-length data at the time of the call.", "anchors": ["GeDiM/src/Mesh/MeshMatricesDAO.cpp: Cell0DsInitialize, Cell1DsInitialize, Cell2DsInitialize, Cell3DsInitialize"]}
{"id": "C13", "title": "Edge look-up by end points is exact", "statement": "Looking up an edge by its two end points returns the first edge with exactly this ordered pair of end points when one exists, and the number of edges otherwise; looking up a vertex or edge inside a 2D or 3D cell returns a local position holding it, or the local count when there is none.", "quantifier": "every mesh and every pair of vertices", "why_tests_cant": "Universal over meshes; includes the not-found case.", "anchors": ["GeDiM/src/Mesh/MeshMatricesDAO.cpp: Cell1DByExtremes, Cell2DFindVertex, Cell2DFindEdge, Cell2DFindEdgeByExtremes, Cell3DFindVertex"]}
{"id": "C14", "title": "Extracting the active mesh keeps exactly the active cells", "statement": "Extracting the active mesh leaves exactly the active cells of each dimension, in their original relative order, with all their attributes; the returned old-to-new and new-to-old index maps are inverse bijections between active old indices and new indices, and every surviving reference to a surviving cell is the image of the old reference under the old-to-new map.", "quantifier": "every consistent mesh and every choice of active flags", "why_tests_cant": "All subsets of cells in all meshes; index shifting while removing is history dependent.", "anchors": ["GeDiM/src/Mesh/MeshUtilities.cpp: ExtractActiveMesh, FilterActiveMesh"]}
{"id": "C15", "title": "Mesh filling stores exactly the given connectivity", "statement": "Filling a 1D or 2D mesh from arrays of points, edges and polygons succeeds for consistent input on an empty mesh and then reads back exactly the given coordinates, extremes, polygon vertices and polygon edges, with all cells active.", "quantifier": "all inputs", "why_tests_cant": "Unbounded sizes; off-by-one errors in offset tables only show for mixed polygon sizes.", "anchors": ["GeDiM/src/Mesh/MeshUtilities1D.cpp: FillMesh1D", "GeDiM/src/Mesh/MeshUtilities2D.cpp: FillMesh2D"]}
{"id": "C16", "title": "Neighbour computation is the exact inverse of the incidence relation", "statement": "After computing the neighbours of 0D (or 1D/2D) cells, the neighbour list of a cell is exactly the increasing list of active higher-dimensional cells having it as vertex/edge/face (with multiplicity), and nothing else changes in the mesh.", "quantifier": "every mesh with valid references and every set of active cells", "why_tests_cant": "Completeness and exactness over all meshes.", "anchors": ["GeDiM/src/Mesh/MeshUtilities2D.cpp: ComputeCell0DCell1DNeighbours, ComputeCell0DCell2DNeighbours, ComputeCell0DCell3DNeighbours, ComputeCell1DCell2DNeighbours", "GeDiM/src/Mesh/MeshUtilities3D.cpp: ComputeCell1DCell3DNeighbours, ComputeCell2DCell3DNeighbours"]}
{"id": "C17", "title": "Splitting a cell replaces it by its children everywhere", "statement": "Splitting an edge / polygon into sub-cells deactivates the parent, appends exactly the given children as active cells inheriting the marker and the parent's neighbours, records the parent as their origin, and redirects neighbour references to the parent held by vertices (edges) of a child to a child; other cells are unaffected.", "quantifier": "every mesh, every cell and every list of sub-cells", "why_tests_cant": "Interaction of several shared tables for arbitrary lists of children.", "anchors": ["GeDiM/src/Mesh/MeshUtilities1D.cpp: SplitCell1D", "GeDiM/src/Mesh/MeshUtilities2D.cpp: SplitCell2D", "GeDiM/src/Mesh/MeshUtilities3D.cpp: SplitCell3D"]}
{"id": "C18", "title": "Edges computed from polygons are complete, unique and correctly indexed", "statement": "The edge list computed from polygon vertex lists contains every undirected pair of consecutive polygon vertices exactly once and nothing else, and entry v of each polygon's edge row is the index of the edge joining vertex v and v+1.", "quantifier": "every list of polygons with distinct consecutive vertices", "why_tests_cant": "All polygon soups, any sharing pattern.", "anchors": ["GeDiM/src/Mesh/MeshUtilities2D.cpp: ComputeMesh2DCell1Ds"]}
{"id": "C19", "title": "Sub-mesh extraction is a faithful renaming", "statement": "Extracting a 2D sub-mesh from filters closed under taking vertices and edges yields a mesh whose cells are the filtered ones in the filter order, with connectivity renamed through the returned maps, which are mutually inverse.", "quantifier": "every mesh and every duplicate-free closed filter", "why_tests_cant": "All sub-meshes of all meshes.", "anchors": ["GeDiM/src/Mesh/MeshUtilities2D.cpp: FilterMesh2D, ExtractMesh2D", "GeDiM/src/Mesh/MeshUtilities1D.cpp: FilterMesh1D, ExtractMesh1D"]}
{"id": "C20", "title": "Depth-first search visits exactly the reachable vertices, once", "statement": "Starting from an unvisited vertex, depth-first search returns each vertex reachable through unvisited vertices exactly once, starting with the source, marks exactly those as visited, and terminates on every graph.", "quantifier": "every directed graph, every start vertex, every set of already visited vertices", "why_tests_cant": "All finite graphs.", "anchors": ["GeDiM/src/MpiTools/GraphUtilities.cpp: DepthFirstSearch"]}
{"id": "C21", "title": "Breadth-first search visits exactly the reachable vertices in distance order", "statement": "Breadth-first search returns each vertex reachable from the source exactly once, in non-decreasing order of distance from the source.", "quantifier": "every directed graph and every start vertex", "why_tests_cant": "All finite graphs.", "anchors": ["GeDiM/src/MpiTools/GraphUtilities.cpp: BreadthFirstSearch"]}
{"id": "C22", "title": "Graph transposition reverses every edge with multiplicity", "statement": "The transposed adjacency contains the edge (v,u) as many times as the input contains (u,v); transposing twice gives back the same multigraph.", "quantifier": "every directed graph", "why_tests_cant": "All finite graphs.", "anchors": ["GeDiM/src/MpiTools/GraphUtilities.cpp: ComputeAdjacencyTranspose"]}
{"id": "C23", "title": "Strongly connected components are exact", "statement": "The computed components partition the vertices, and two vertices are in the same component iff each is reachable from the other.", "quantifier": "every directed graph", "why_tests_cant": "All finite graphs; Kosaraju's correctness relies on a global ordering argument.", "anchors": ["GeDiM/src/MpiTools/GraphUtilities.cpp: ComputeStronglyConnectedComponents, FillOrder"]}
{"id": "C24", "title": "Adjacency and edge-list representations agree", "statement": "Converting an edge list to adjacency lists records each edge exactly once at its origin (and, for undirected graphs, once at its end), and the edge-index maps designate an edge with these end points; converting adjacency back to an edge list yields every adjacency entry exactly once.", "quantifier": "every graph", "why_tests_cant": "All finite graphs including parallel edges and loops.", "anchors": ["GeDiM/src/MpiTools/GraphUtilities.cpp: GraphConnectivityToGraphAdjacency, GraphAdjacencyToGraphConnectivity"]}
{"id": "C25", "title": "Sub-graph extraction is the induced sub-graph", "statement": "Extracting a sub-graph through an injective vertex filter onto 0..m-1 gives exactly the edges of the original graph between kept vertices, renamed.", "quantifier": "every graph and every filter", "why_tests_cant": "All graphs and subsets.", "anchors": ["GeDiM/src/MpiTools/GraphUtilities.cpp: ExtractSubGraph"]}
{"id": "C26", "title": "Constrained partition repair separates every constrained pair", "statement": "After the constraint check, the two ends of every constrained edge (other than a loop) are in different parts, and vertices in different parts before are never merged into one part.", "quantifier": "every network, constraint set and initial partition", "why_tests_cant": "A repaired pair could be re-merged by a later repair; needs an argument over the whole scan.", "anchors": ["GeDiM/src/MpiTools/MetisUtilities.cpp: PartitionCheckConstraints"]}
{"id": "C27", "title": "Connected-component partition repair yields connected parts", "statement": "After the connectivity check, two vertices are in the same part iff they were in the same part before and are connected to each other in both directions inside that part.", "quantifier": "every network and initial partition", "why_tests_cant": "All graphs and partitions.", "anchors": ["GeDiM/src/MpiTools/MetisUtilities.cpp: PartitionCheckConnectedComponents"]}
{"id": "C28", "title": "Part numbers are compacted without merging parts", "statement": "The final renumbering of a partition uses consecutive part numbers starting at 0 (with a master part) or 1 (without), and two elements share a final part iff they shared an initial part.", "quantifier": "every partition into at most the requested number of parts, produced by the partitioner", "why_tests_cant": "All partitions including those with several empty parts.", "anchors": ["GeDiM/src/MpiTools/MetisUtilities.cpp: NetworkPartition"]}
{"id": "C29", "title": "Single-part partitions respect the master-part convention", "statement": "When one part is requested without a master part, every element is assigned to part 1, and to part 0 when there is a master part.", "quantifier": "every network", "why_tests_cant": "Convention for every network size.", "anchors": ["GeDiM/src/MpiTools/MetisUtilities.cpp: NetworkPartition"]}
{"id": "C30", "title": "Compressed network adjacency round-trips", "statement": "Converting adjacency lists to the compressed row format and back is the identity, and the network built from a mesh has an entry (a,b) for each face/edge shared by the cells a and b and the symmetric entry (b,a).", "quantifier": "every graph and every mesh", "why_tests_cant": "All graphs.", "anchors": ["GeDiM/src/MpiTools/MetisUtilities.cpp: GraphAdjacencyToMetisAdjacency, MetisAdjacencyToGraphAdjacency, MeshToGraph, Mesh2DToDualGraph"]}
{"id": "C31", "title": "Union of two segment meshes is sorted and covers both", "statement": "The union of two sorted point lists on a segment contains, in strictly increasing order, a point within tolerance of every input point and no point that is not an input point; each point's type says which mesh it comes from and its indices designate a matching point of that mesh.", "quantifier": "every pair of point lists and tolerance", "why_tests_cant": "All real coordinate sequences, including nearly coincident ones.", "anchors": ["GeDiM/src/Mesh/UnionMeshSegment.cpp: CreateUnionPoints, InsertNewIntersection"]}
{"id": "C32", "title": "Union segments know their parent segments", "statement": "For two meshes each with at least two well separated points, every union segment records for each mesh the segment of that mesh which contains it (or none when the mesh does not cover it).", "quantifier": "every pair of meshes", "why_tests_cant": "Depends on the interleaving of two unbounded sequences.", "anchors": ["GeDiM/src/Mesh/UnionMeshSegment.cpp: CreateUnionSegments"]}
{"id": "C33", "title": "Tolerance comparison is a consistent three-way comparison", "statement": "Comparing two values with a tolerance gives exactly one of equal / first smaller / second smaller, strict answers agree with the exact order, equal values always compare equal, and exchanging the arguments exchanges the answer.", "quantifier": "all values and tolerances (exact arithmetic)", "why_tests_cant": "All real values.", "anchors": ["GeDiM/src/Geometry/GeometryUtilities.cpp: CompareValues"]}
{"id": "C34", "title": "Combinations with repetition are enumerated completely and without duplicates", "statement": "The list of combinations with repetition of k elements out of n contains every multiset of size k over 0..n-1 exactly once, and its length is the binomial coefficient C(n+k-1,k).", "quantifier": "all n and k", "why_tests_cant": "All sizes.", "anchors": ["GeDiM/src/Common/CommonUtilities.cpp: CombinationWithRepetition, BinomialCoefficient"]}
{"id": "C35", "title": "String splitting inverts joining", "statement": "Splitting by a separator the concatenation of separator-free tokens gives back the tokens, except that one trailing empty token is dropped; no returned token contains the separator.", "quantifier": "all token lists and separators", "why_tests_cant": "All strings.", "anchors": ["GeDiM/src/IO/StringsUtilities.cpp: Split"]}
{"id": "C36", "title": "Vector values written in the documented formats are parsed back", "statement": "Every list of integers written as '[a,b,c]' with any of the supported separators (comma, semicolon, space, and combinations such as comma followed by space) is parsed back to the same list.", "quantifier": "all integer lists and supported separator styles", "why_tests_cant": "All lists and separator styles.", "anchors": ["GeDiM/src/IO/StringsUtilities.cpp: Parse"]}
{"id": "C37", "title": "The configuration store behaves as a typed map", "statement": "After any sequence of add / set / remove / reset calls, the number of properties equals the number of distinct existing identifiers, reading a property with the type of its last successful write returns that value, reading with another type or an absent identifier fails, and operations on one identifier do not affect others.", "quantifier": "every call history", "why_tests_cant": "Unbounded histories over a global mutable store.", "anchors": ["GeDiM/src/IO/Configurations.hpp: AddProperty, SetPropertyValue, GetPropertyValue, RemoveProperty", "GeDiM/src/IO/Configurations.cpp: Reset, RemoveProperty"]}
{"id": "C38", "title": "A failed configuration update leaves the store unchanged", "statement": "If loading a property from text fails because the value cannot be parsed, the previously stored properties are unchanged.", "quantifier": "every store content and every malformed input", "why_tests_cant": "Crash-point property over all states.", "anchors": ["GeDiM/src/IO/Configurations.cpp: ConvertPropertyFromString"]}
{"id": "C39", "title": "Exported property types are recognised on import", "statement": "Converting a supported property type to its name and back yields the same type.", "quantifier": "all supported property types", "why_tests_cant": "Must hold for every type an exporter can write.", "anchors": ["GeDiM/src/IO/ConfigurationPropertySupportedTypes.hpp: TypeToString, StringToType"]}
{"id": "C40", "title": "Numeric vectors and matrices written to a stream are read back", "statement": "Reading from the text produced by writing a vector or matrix of numbers yields the same dimensions and the same entries.", "quantifier": "all sizes (including zero rows or columns) and entries", "why_tests_cant": "All shapes including degenerate ones.", "anchors": ["GeDiM/src/IO/ImportExportUtilities.hpp: operator<<, operator>>"]}
{"id": "C41", "title": "Reference-element maps are invertible affine bijections", "statement": "For every non-degenerate triangle, parallelogram or tetrahedron, the map sends the reference vertices to the given vertices, the inverse map composed with the map is the identity on all points, and the reported Jacobian determinant is non-zero and equals the signed measure ratio.", "quantifier": "all non-degenerate elements and points (exact arithmetic)", "why_tests_cant": "All real inputs.", "anchors": ["GeDiM/src/Geometry/MapTriangle.cpp: Compute, F, FInv", "GeDiM/src/Geometry/MapTetrahedron.cpp: Compute", "GeDiM/src/Geometry/MapParallelogram.cpp: Compute"]}
{"id": "C42", "title": "Splitting a polygon by a segment produces a consistent subdivision", "statement": "Splitting a polygon by a segment between two boundary points returns polygons that together use every boundary edge exactly once and the new segment exactly twice (once in each direction), each polygon being a closed chain of its listed edges.", "quantifier": "all polygon sizes and all pairs of boundary positions", "why_tests_cant": "All sizes and position pairs.", "anchors": ["GeDiM/src/Geometry/GeometryUtilities_Split.cpp: SplitPolygonWithSegment"]}
{"id": "C43", "title": "Gauss quadrature tables integrate polynomials of the declared order", "statement": "For every order offered by the one-dimensional Gauss rule, the returned points and weights integrate every polynomial of degree at most that order over [0,1] up to a relative error of machine-precision size.", "quantifier": "every order and every polynomial of admissible degree with arbitrary coefficients", "why_tests_cant": "All polynomials; a wrong digit in a table may pass a particular integrand.", "anchors": ["GeDiM/src/Quadrature/Quadrature_Gauss1D.hpp: FillPointsAndWeights"]}
{"id": "C44", "title": "Structured rectangle meshes are conforming", "statement": "For every pair of admissible coordinate lists, the structured rectangle mesh has the announced numbers of points, edges and cells (Euler characteristic 1), every polygon's edge row joins its consecutive vertices, and every edge is used by one (boundary) or two (interior) cells.", "quantifier": "all numbers of subdivisions in the two directions", "why_tests_cant": "All mesh sizes.", "anchors": ["GeDiM/src/Mesh/MeshUtilities_MeshGenerators.cpp: CreateRectangleMesh"]}
{"id": "C45", "title": "Random arrays have no repetitions", "statement": "Asking for n random numbers below a bound at least n gives exactly n pairwise different numbers, all below the bound.", "quantifier": "all n and bounds, and every permutation the random engine can produce", "why_tests_cant": "Every seed and size.", "anchors": ["GeDiM/src/Common/CommonUtilities.cpp: RandomArrayNoRepetition"]}
{"id": "C46", "title": "The regression slope is the least-squares one", "statement": "For points whose abscissae are not all equal the slope is that of a line which minimises the sum of squared vertical distances; it is undefined only when all abscissae are equal.", "quantifier": "all finite point sets (exact arithmetic)", "why_tests_cant": "All real data sets, and optimality over all lines.", "anchors": ["GeDiM/src/Common/CommonUtilities.hpp: Slope"]}
{"id": "C47", "title": "A configuration exported to csv is restored by importing it", "statement": "For any configuration reached by any call history, exporting it to csv and importing the file into an empty configuration restores every identifier, type, value and description, whatever the order in which properties are written.", "quantifier": "every call history, every separator, every iteration order of the store", "why_tests_cant": "All contents and orders.", "anchors": ["GeDiM/src/IO/Configurations.cpp: ExportToCsv, InitializeFromCsv, GetPropertyForExport, ConvertPropertyFromString"]}
{"id": "C48", "title": "A configuration exported to ini is restored by importing it", "statement": "For any configuration reached by any call history, exporting it to ini and importing the file into an empty configuration restores every identifier, type and value.", "quantifier": "every call history, every section name, every iteration order of the store", "why_tests_cant": "All contents and orders.", "anchors": ["GeDiM/src/IO/Configurations.cpp: ExportToIni, InitializeFromIni"]}
{"id": "C49", "title": "Command line arguments set exactly the named properties", "statement": "For every argument list whose arguments follow the format, the properties named are set one after the other with the given type and text, and nothing else changes.", "quantifier": "all argument lists and all pairs of distinct separator characters", "why_tests_cant": "All argument lists and formats.", "anchors": ["GeDiM/src/IO/Configurations.cpp: Initialize", "GeDiM/src/IO/StringsUtilities.cpp: FindSeparator, Split"]}
{"id": "C50", "title": "Neighbour lists stay right when a cell is split", "statement": "After a cell is split, no vertex, edge or face belonging to a child still lists the replaced cell as neighbour; every such reference has become a reference to a child having that vertex, edge or face; and if the lists contained every active cell before the split, they contain every active cell after it.", "quantifier": "every mesh, every cell and every list of children made of existing vertices, edges and faces", "why_tests_cant": "Depends on how arbitrary children share their vertices and on arbitrary previous neighbour lists.", "anchors": ["GeDiM/src/Mesh/MeshUtilities1D.cpp: SplitCell1D", "GeDiM/src/Mesh/MeshUtilities2D.cpp: SplitCell2D", "GeDiM/src/Mesh/MeshUtilities3D.cpp: SplitCell3D"]}
{"id": "C51", "title": "The mesh of a segment has the segment's end points", "statement": "The 1D mesh created from the two vertices of a segment has exactly these two points, in order, with the given markers, and one edge between them.", "quantifier": "all pairs of points and markers, on an empty mesh", "why_tests_cant": "The existing tests only use segments starting at the origin of the coordinates, where a wrong second point cannot be seen.", "anchors": ["GeDiM/src/Mesh/MeshUtilities1D.cpp: Mesh1DFromSegment, FillMesh1D"]}
{"id": "C52", "title": "Sub-mesh extraction keeps markers and states", "statement": "Every cell of an extracted sub-mesh has the marker and the active state of the cell it was taken from, in one, two and three dimensions.", "quantifier": "every mesh and every duplicate-free closed filter", "why_tests_cant": "All sub-meshes of all meshes; tests compare a few meshes with default markers.", "anchors": ["GeDiM/src/Mesh/MeshUtilities1D.cpp: ExtractMesh1D", "GeDiM/src/Mesh/MeshUtilities2D.cpp: ExtractMesh2D", "GeDiM/src/Mesh/MeshUtilities3D.cpp: ExtractMesh3D"]}
{"id": "C53", "title": "Structured triangular meshes are conforming", "statement": "For every pair of admissible coordinate lists, the structured triangular mesh has the announced numbers of points, edges and triangles (Euler characteristic 1), splits every rectangle of the grid in two triangles along the same diagonal, every triangle's edge row joins its consecutive vertices, and every edge is used by one (marked, boundary) or two (unmarked, interior) triangles.", "quantifier": "all numbers of subdivisions in the two directions and all coordinates", "why_tests_cant": "All mesh sizes.", "anchors": ["GeDiM/src/Mesh/MeshUtilities_MeshGenerators.cpp: CreateStructuredTriangularMesh"]}
{"id": "C54", "title": "Structured parallelepiped meshes are conforming", "statement": "For every triple of admissible coordinate lists, the structured hexahedral mesh has the announced numbers of cells (Euler characteristic 1), points are where the coordinates say, every face is a closed quadrilateral, every cell is closed (each of its 12 edges is in exactly two of its 6 faces), every face is used by one (marked, boundary) or two (unmarked, interior) cells, and every point, edge and face carries the marker of the part of the box it lies on.", "quantifier": "all numbers of subdivisions in the three directions and all coordinates", "why_tests_cant": "All mesh sizes; index arithmetic over three families of edges and faces.", "anchors": ["GeDiM/src/Mesh/MeshUtilities_MeshGenerators.cpp: CreateParallelepipedMesh"]}
{"id": "C55", "title": "Parallelepiped map respects the vertices whatever the order of the neighbours", "statement": "Mapping the unit cube to eight vertices either reports that they cannot be mapped or returns an affine map whose images of the cube's corners are the vertices up to the configured tolerance; every exact parallelepiped is accepted for any order in which the three neighbours of its first vertex are given, and the map is then exact unless two of its edge vectors are closer than the tolerance.", "quantifier": "all vertex lists, coordinate systems, parallelepipeds and tolerances (exact arithmetic)", "why_tests_cant": "All real inputs and all six neighbour orders, including degenerate boxes.", "anchors": ["GeDiM/src/Geometry/MapParallelepiped.cpp: Compute, TestMapConfiguration"]}
{"id": "C56", "title": "Quadrilateral map interpolates its vertices with a correct Jacobian", "statement": "For every quadrilateral in a horizontal plane the bilinear map sends the corners of the reference square to the vertices and the square into their convex hull; the returned Jacobian is exactly its derivative in both directions, the returned inverse Jacobian is its inverse where it is not singular, and for convex counter-clockwise quadrilaterals the determinant is positive on the whole square.", "quantifier": "all quadrilaterals and all reference points (exact arithmetic)", "why_tests_cant": "All real inputs; positivity on a continuum of points.", "anchors": ["GeDiM/src/Geometry/MapQuadrilateral.cpp: F, J, JInv, DetJ", "GeDiM/src/Geometry/MapQuadrilateral.hpp: Psi, dPsi"]}
{"id": "C57", "title": "Hexahedron map interpolates its vertices with a correct Jacobian", "statement": "For every list of eight vertices and first face the trilinear map sends the corners of the reference cube one to one to the vertices, the first four corners to the vertices of the first face in their order, and the edges of the cube to edges of the hexahedron; the returned Jacobian is exactly its derivative in the three directions, the stored coefficients are those of the map in the monomial basis, and on a parallelepiped the map is affine with the signed volume as determinant.", "quantifier": "all vertex lists, all first faces, all reference points (exact arithmetic)", "why_tests_cant": "All real inputs and all rotations and orientations of the first face.", "anchors": ["GeDiM/src/Geometry/MapHexahedron.cpp: Compute, F, J, JInv, DetJ", "GeDiM/src/Geometry/MapHexahedron.hpp: Psi, dPsi"]}
{"id": "C58", "title": "Gauss rules on the square and the cube integrate polynomials of the declared order", "statement": "For every order offered by the rules on the unit square and the unit cube, the points lie inside, all their coordinates are set, the weights are positive, and every polynomial of total degree at most the order is integrated with a relative error of machine-precision size; other orders are refused.", "quantifier": "every order and every polynomial of admissible degree with arbitrary coefficients", "why_tests_cant": "All polynomials; a wrong digit in a table may pass a particular integrand.", "anchors": ["GeDiM/src/Quadrature/Quadrature_Gauss2D_Square.cpp: FillPointsAndWeights", "GeDiM/src/Quadrature/Quadrature_Gauss3D_Hexahedron.cpp: FillPointsAndWeights"]}
{"id": "C59", "title": "Rules on the triangle integrate polynomials of the declared order", "statement": "For every order offered by the rules on the unit triangle, the points lie inside, the weights are positive, and every polynomial of total degree at most the order is integrated with a relative error of at most 2e-13; other orders are refused.", "quantifier": "every order and every polynomial of admissible degree with arbitrary coefficients", "why_tests_cant": "All polynomials; a rule of smaller degree passes all integrands of that degree.", "anchors": ["GeDiM/src/Quadrature/Quadrature_Gauss2D_Triangle.cpp: FillPointsAndWeights"]}
{"id": "C60", "title": "Rules on the tetrahedron integrate polynomials of the declared order", "statement": "For every order offered by the two families of rules on the unit tetrahedron, the points lie inside and every polynomial of total degree at most the order is integrated with a relative error of at most 5e-14 (1e-14 for the family with positive weights, whose weights are all positive); other orders are refused.", "quantifier": "every order and every polynomial of admissible degree with arbitrary coefficients", "why_tests_cant": "All polynomials.", "anchors": ["GeDiM/src/Quadrature/Quadrature_Gauss3D_Tetrahedron.cpp: FillPointsAndWeights", "GeDiM/src/Quadrature/Quadrature_Gauss3D_Tetrahedron_PositiveWeights.cpp: FillPointsAndWeights"]}
{"id": "C61", "title": "Gauss-Lobatto rules contain the end points and integrate polynomials of the declared order", "statement": "For every order offered by the Gauss-Lobatto rule, the first point is 0, the last is 1, all coordinates of all points are set, the weights are positive and every polynomial of degree at most the order is integrated with a relative error of machine-precision size; other orders are refused.", "quantifier": "every order and every polynomial of admissible degree with arbitrary coefficients", "why_tests_cant": "All polynomials; indeterminate memory is often zero in a test.", "anchors": ["GeDiM/src/Quadrature/Quadrature_GaussLobatto1D.hpp: FillPointsAndWeights"]}
{"id": "C62", "title": "The position of a point with respect to a segment is the true one", "statement": "For a segment of the plane with distinct ends and a point of the plane, in exact arithmetic with zero tolerance, the reported position (before the origin, on the origin, inside, on the end, after the end, left, right) is the true one and the only one; with any tolerance between 0 and 1 the call answers, left and right are never swapped, and a point reported on the line is within the tolerance of it.", "quantifier": "every point, every segment, every tolerance", "why_tests_cant": "All real positions, including those arbitrarily close to the line or to the ends.", "anchors": ["GeDiM/src/Geometry/GeometryUtilities_Point.cpp: PointSegmentPosition, PointCurvilinearCoordinate"]}
{"id": "C63", "title": "The position of a point with respect to a convex polygon is the true one", "statement": "For a convex counterclockwise polygon of the plane, possibly with vertices inside its sides, and any point of the plane, the answer is: outside exactly when the point is strictly on the right of some edge; inside exactly when it is strictly on the left of all of them; otherwise the border vertex or border edge with the reported number does contain the point.", "quantifier": "every convex polygon of any size, every point", "why_tests_cant": "All sizes and all points, including those on the line of a side split into several edges.", "anchors": ["GeDiM/src/Geometry/GeometryUtilities_Point.cpp: PointPolygonPosition"]}
{"id": "C64", "title": "Bounding boxes are the smallest ones; inclusion and intersection tests have no false negatives", "statement": "The bounding box of a non-empty set of points contains all of them and is contained in every box that does. A point of a box is never rejected and two boxes with a common point are never reported disjoint, whatever the tolerance; with zero tolerance nothing else is accepted.", "quantifier": "every non-empty list of points, every pair of boxes, every tolerance", "why_tests_cant": "Rejections are used as shortcuts in searches: one false negative loses an intersection.", "anchors": ["GeDiM/src/Geometry/GeometryUtilities_Point.cpp: PointsBoundingBox", "GeDiM/src/Geometry/GeometryUtilities.hpp: IsPointInBoundingBox, BoundingBoxesIntersects"]}
{"id": "C65", "title": "Barycentric coordinates in a triangle and their inverse", "statement": "For a triangle not judged degenerate the coordinates of a point are the signed areas of the triangles it forms with the sides over the area of the triangle; from the coordinates the point is found again, and from a point given by coordinates with sum one these coordinates are found again.", "quantifier": "every triangle that is not degenerate, every point, every triple with sum one", "why_tests_cant": "All real positions.", "anchors": ["GeDiM/src/Geometry/GeometryUtilities_Point.cpp: PointToBarycentricCoordinates2D, BarycentricCoordinatesToPoint2D"]}
{"id": "C66", "title": "The area of a polygon is the sum of the signed areas of any of its triangulations", "statement": "For a polygon of the plane with at least three vertices the computed area equals the sum of the signed areas of the triangles of every decomposition by diagonals, and of the triangles from any point of the plane to the edges; it does not depend on the first vertex, changes sign with the order, is multiplied by the determinant under an affine map, agrees with the boundary and the internal integral, and is the one of the vector computed for polygons in space. Anything else is rejected.", "quantifier": "every polygon of any size, convex or not; every decomposition, point and affine map", "why_tests_cant": "All polygons and all decompositions.", "anchors": ["GeDiM/src/Geometry/GeometryUtilities_Polygon.cpp: PolygonArea, PolygonAreaByBoundaryIntegral, PolygonAreaByInternalIntegral, PolygonArea3D"]}
{"id": "C67", "title": "Centroid, mass and inertia of a polygon are exact moments", "statement": "The area times the centroid is the first moment of every decomposition of the polygon in triangles, the centroid moves with the polygon under invertible affine maps, and the entries of the mass and of the inertia are the exact integrals of the products of the coordinates over the given triangles.", "quantifier": "every polygon with nonzero area, every decomposition, every affine map, every list of triangles", "why_tests_cant": "All polygons and decompositions; the three-point rule must be exact for all quadratic functions.", "anchors": ["GeDiM/src/Geometry/GeometryUtilities_Polygon.cpp: PolygonCentroid, PolygonMass, PolygonInertia"]}
{"id": "C68", "title": "Triangulations of a polygon from a vertex or from a point cover its area", "statement": "The triangulation from the first vertex answers exactly for polygons with at least three vertices; its triangles are (0, k, k+1) for ascending k, have together the area of the polygon, and are all counterclockwise and not degenerate if the polygon is convex. The triangulation from a point has one triangle for each edge, with together the area of the polygon.", "quantifier": "every polygon of the plane of any size", "why_tests_cant": "All sizes and shapes.", "anchors": ["GeDiM/src/Geometry/GeometryUtilities_Polygon.cpp: PolygonTriangulationByFirstVertex, PolygonTriangulationByInternalPoint", "GeDiM/src/Geometry/GeometryUtilities.cpp: ExtractTriangulationPoints, ExtractTriangulationPointsByInternalPoint"]}
{"id": "C69", "title": "Ear clipping triangulates every simple polygon", "statement": "For every simple polygon ear clipping answers, with triangles obtained by clipping ears, which have together the area of the polygon. Proved: for every polygon with distinct vertices the answer, when there is one, is a sequence of clipped ears with the area of the polygon, and the call stops otherwise only because a polygon without ears, or with fewer than three corners, is reached; for every convex polygon, also with vertices inside its sides, it answers with as many counterclockwise triangles as the corners less two. Refuted: the triangles need not be conforming, since a corner that becomes straight after a cut is dropped.", "quantifier": "every polygon with distinct vertices, of any size", "why_tests_cant": "All polygons; the loop depends on the shape.", "anchors": ["GeDiM/src/Geometry/GeometryUtilities_Polygon.cpp: PolygonTriangulationByEarClipping", "GeDiM/src/Geometry/GeometryUtilities_Point.cpp: UnalignedPoints"]}
{"id": "C70", "title": "The normal of a convex polygon has the right direction", "statement": "For a convex polygon of a plane in space, with vertices counterclockwise with respect to the normal of the plane, the computed vector is a positive multiple of that normal. Refuted for concave polygons: the vector can be opposite.", "quantifier": "every convex polygon with less than 2^32 vertices, every plane", "why_tests_cant": "All polygons; the index of the previous vertex of the first one wraps around at 2^32, which is wrong unless the number of vertices is a power of two.", "anchors": ["GeDiM/src/Geometry/GeometryUtilities_Polygon.cpp: PolygonNormal"]}
{"id": "C71", "title": "The orientation of a polygon is read from its convex hull", "statement": "If the indices of the hull, read from any of them on, are a rotation of a strictly ascending list, the answer is counterclockwise; if of a strictly descending one, clockwise. Hence for a strictly convex polygon of the plane the orientation computed from its convex hull is the true one.", "quantifier": "every list of at least three indices that is a rotation of a monotone one; every strictly convex polygon, in either order", "why_tests_cant": "All sizes and rotations.", "anchors": ["GeDiM/src/Geometry/GeometryUtilities_Polygon.cpp: PolygonOrientation", "GeDiM/src/Geometry/GeometryUtilities.cpp: ConvexHull"]}
{"id": "C72", "title": "The convex hull encloses all the points with a counterclockwise convex polygon of them", "statement": "For distinct points of the plane, not all on one line, the returned indices select, counterclockwise, the corners of a strictly convex polygon which has no point outside; with the option to include the points on the sides the polygon has no reflex corner and every point is one of its vertices or strictly inside. For at least two points all on one line the result is the ends of the smallest segment with all of them; with the option, the same call must return as well.", "quantifier": "every list of distinct points of the plane, in any order", "why_tests_cant": "All point sets, all orders and all ways to be aligned with the starting point of the scan.", "anchors": ["GeDiM/src/Geometry/GeometryUtilities.cpp: ConvexHull"]}
{"id": "C73", "title": "Refining a polygon keeps the mesh conforming", "statement": "Splitting an active polygon of a conforming plane mesh along a direction and updating the neighbours of the split edges gives again a conforming mesh: every active polygon is a closed chain of active edges through active vertices and every active edge knows the polygon on each side. The polygon is replaced by exactly two polygons, on both sides of the new edge, which together follow its boundary with the split edges replaced by their halves through the middle points. When the split does not take place the mesh is as before. When splits may extend to neighbours, a split is put off if one edge would be split only for the neighbour and the other one not for the polygon itself.", "quantifier": "all reachable conforming meshes with the room for the new cells, all active polygons, all answers of the geometric tests (tolerances, areas, qualities, rounding of the coordinates), all four kinds of split, all requests with two different edges of the polygon", "why_tests_cant": "the result depends on all combinations of edge directions, neighbours, kinds of split and answers of tests with tolerances; a dangling reference shows only later in the refinement", "anchors": ["GeDiM/src/Mesh/RefinementUtilities2D.cpp: RefinePolygonCell_ByDirection", "GeDiM/src/Mesh/RefinementUtilities2D.cpp: RefinePolygonCell_UpdateNeighbours", "GeDiM/src/Mesh/RefinementUtilities2D.cpp: SplitPolygon_NoNewVertices, SplitPolygon_NewVertexFrom, SplitPolygon_NewVertexTo, SplitPolygon_NewVertices", "GeDiM/src/Mesh/RefinementUtilities2D.cpp: SplitPolygon_CheckSplitType", "GeDiM/src/Mesh/RefinementUtilities.cpp: SplitCell1D"]}
{"id": "C74", "title": "Refining a polygon keeps the covered area", "statement": "The sum of the signed areas of the active polygons is the same before and after the split of a polygon with the update of its neighbours, and after a split which is undone.", "quantifier": "all reachable conforming meshes, polygons, kinds of split and answers of the geometric tests, when the coordinates of the middle points are stored without rounding", "why_tests_cant": "overlaps and holes appear only for particular combinations of directions and kinds of split", "anchors": ["GeDiM/src/Mesh/RefinementUtilities2D.cpp: RefinePolygonCell_ByDirection", "GeDiM/src/Mesh/RefinementUtilities2D.cpp: RefinePolygonCell_UpdateNeighbours", "GeDiM/src/Mesh/RefinementUtilities.hpp: SplitCell1D_MiddlePoint"]}
{"id": "C75", "title": "The edge directions of a polygon tell how it passes its edges", "statement": "The list of directions computed for a polygon has one entry for every edge, true exactly when the polygon passes the edge from its origin to its end.", "quantifier": "all active polygons of all reachable conforming meshes", "why_tests_cant": "the directions come from a search among the edges of the cell by their ends, which must not find another edge, for any numbering", "anchors": ["GeDiM/src/Mesh/RefinementUtilities2D.cpp: ComputeGeometricData (Cell2Ds.EdgesDirection)", "GeDiM/src/Mesh/MeshMatricesDAO.cpp: Cell2DFindEdgeByExtremes"]}
{"id": "C76", "title": "Bisecting a triangle with its neighbour keeps the mesh conforming and the area", "statement": "Bisecting a triangle of a conforming plane mesh at one of its edges and updating the neighbour on the other side gives again a conforming mesh with the same covered area: the triangle and its neighbour are both replaced by two polygons meeting the new vertex half way of the edge. When the bisection does not take place the mesh is as before.", "quantifier": "all reachable conforming meshes with the room for the new cells, all triangles and edges whose polygons are triangles, all answers of the geometric tests", "why_tests_cant": "the result depends on the directions of the edges and on tests with tolerances for two triangles of any shape", "anchors": ["GeDiM/src/Mesh/RefinementUtilities2D.cpp: RefineTriangleCell_ByEdge", "GeDiM/src/Mesh/RefinementUtilities2D.cpp: RefineTriangleCell_UpdateNeighbours", "GeDiM/src/Mesh/RefinementUtilities2D.cpp: SplitPolygon_NewVertexTo", "GeDiM/src/Mesh/RefinementUtilities.hpp: SplitCell1D_MiddlePoint"]}
{"id": "C77", "title": "A mesh saved to CSV files and loaded again is the same mesh", "statement": "Exporting a mesh to CSV files succeeds, importing the files into an empty mesh succeeds, and every query of the new mesh gives the answer of the old one: dimension, numbers of cells, coordinates, extremes, markers, active flags, vertices, edges and faces of the cells, sub-divisions, neighbours (a neighbour which is no cell of the mesh becomes 'none'), properties with their names, sizes and values, and for every cell whether it was replaced and by which current cells. With a history of one generation the direct children and the origin of every cell are kept as well.", "quantifier": "all reachable meshes of dimension 1, 2 or 3 which are completely described, all configurations with different file names and a separator that is not part of a number, all encodings of doubles that are read back exactly, all earlier contents of the file system", "why_tests_cant": "the files mix lists of different lengths, separators and line ends: that every text is cut at the right places depends on all numbers, names and sizes at once", "anchors": ["GeDiM/src/Mesh/MeshDAOExporterToCsv.cpp: Export", "GeDiM/src/Mesh/MeshDAOImporterFromCsv.cpp: Import", "GeDiM/src/Mesh/MeshFromCsvUtilities.cpp: ExportCell0Ds, ExportCell1Ds, ExportCell2Ds, ExportCell3Ds, ExportCell*DProperties, ExportCell*DNeighbours, ExportCell2DSubDivisions, ExportCell*DUpdatedCells", "GeDiM/src/Mesh/MeshFromCsvUtilities.cpp: ImportCell*Ds, ImportCell*DNeighbours, ImportCellProperty, ImportCellDoubleProperties, ImportCellUpdatedCells, Convert*"]}
{"id": "C78", "title": "The intersection of two segments is found and described exactly", "statement": "With zero tolerances, intersecting two segments tells whether their lines are parallel, cross in one point or lie on different planes, whether the segments have no common point, cross, or overlap, and gives the coordinates of the crossing of the lines on both segments, or the ends of the common part on both segments, in ascending order, with the relation that matches the ends.", "quantifier": "all pairs of segments of positive length with rational coordinates in space", "why_tests_cant": "the answer depends on two directions, two intervals and their order; the cases meet in boundaries (touching, contained, reversed segments) of which tests pick a few", "anchors": ["GeDiM/src/Geometry/GeometryUtilities_Intersection.cpp: AreLineCoplanar, IntersectionSegmentSegment"]}
{"id": "C79", "title": "The crossings between many segments are complete", "statement": "Intersecting a list of segments succeeds and gives for each segment the coordinates of its crossings with the other segments: exactly one coordinate for each other segment which crosses it, in the order of the segments.", "quantifier": "all lists of segments with rational ends, given with their middles and lengths, zero tolerances", "why_tests_cant": "pairs are excluded by spheres around the middles, and each pair is visited once for both segments: a lost or doubled crossing shows only for particular positions", "anchors": ["GeDiM/src/Geometry/GeometryUtilities_Intersection.cpp: IntersectionsBetweenSegments", "GeDiM/src/Geometry/GeometryUtilities.hpp: CheckNoSpheresIntersection"]}
{"id": "C80", "title": "The intersection of a segment and a plane is exact", "statement": "Intersecting the line of a segment with a plane tells whether the line is apart from the plane, inside of it, or meets it in one point, and gives the coordinate of this point with its position on the segment.", "quantifier": "all segments of positive length and all planes with unit normals, rational coordinates, zero tolerances", "why_tests_cant": "the parallel cases are thin sets that random tests never meet", "anchors": ["GeDiM/src/Geometry/GeometryUtilities_Intersection.cpp: IntersectionSegmentPlane"]}
{"id": "C81", "title": "The check of plane meshes accepts exactly the sound meshes", "statement": "When the polygons have as many edges as vertices, the check of a plane mesh (without convexity) succeeds exactly when: the dimension is two; the points are in the plane and apart from each other; every edge joins two different existing vertices which no other edge joins; every edge has room for neighbours and every neighbour has the edge at a position where it joins two consecutive vertices; the edges of every polygon exist, are different and each joins the vertex at its position with the next one; no two polygons have the same vertices or the same edges; the edges have positive lengths and the polygons positive areas. When every polygon has edges and they exist, the check ends by accepting or rejecting the mesh.", "quantifier": "all meshes reachable through the interface, all settings of the checks with the check of double edges on, all non-negative tolerances", "why_tests_cant": "a check is trusted for all meshes it accepts; tests only see that it accepts some sound meshes", "anchors": ["GeDiM/src/Mesh/MeshUtilities2D.cpp: MeshUtilities::CheckMesh2D"]}
{"id": "C82", "title": "The check of convexity accepts the polygons whose corners are in convex position", "statement": "With zero tolerances the test of a flat polygon, whose corners are different and not on one line, succeeds exactly when through every corner there is a line with no corner on its right; convex polygons of both orientations are accepted. A mesh passes all the checks exactly when it is sound (C81) and its polygons have this property.", "quantifier": "all polygons with rational coordinates and all reachable meshes of such polygons", "why_tests_cant": "the test goes through the removal of aligned vertices, the convex hull and the position of points in it; that no other polygon is accepted is a statement about all polygons", "anchors": ["GeDiM/src/Mesh/MeshUtilities2D.cpp: MeshUtilities::CheckMesh2D", "GeDiM/src/Geometry/GeometryUtilities_Polygon.cpp: PolygonIsConvex", "GeDiM/src/Geometry/GeometryUtilities_ConvexHull.cpp: ConvexHull"]}
{"id": "C83", "title": "The check of the geometric data of a plane mesh", "statement": "When the check of the geometric data of a plane mesh succeeds, the lengths of the edges and the areas of the active polygons are positive and agree with the integrals over the border and over the triangles.", "quantifier": "all plane meshes and all data given for them", "why_tests_cant": "tests give the check right data; that it rejects wrong data needs wrong data of every kind", "anchors": ["GeDiM/src/Mesh/MeshUtilities2D.cpp: MeshUtilities::CheckMeshGeometricData2D"]}
{"id": "C84", "title": "The check of solid meshes accepts exactly the sound meshes", "statement": "The check of a solid mesh, whose faces have as many edges as vertices and whose active polyhedra have more edges than vertices, succeeds exactly when: the active points are apart; no two active edges join the same vertices, no edge at all goes backwards between the ends of an active edge and no earlier edge has the same ends; the active edges have positive length; the edges of an active face exist, are different, and each joins the vertex at its position with the next one; no two active faces or polyhedra have the same vertices, edges or faces; the edges of an active polyhedron are active, different, and are exactly the edges of its faces; the faces of an active polyhedron are active and their vertices and edges belong to it. The ends of the edges of an accepted polyhedron are vertices of it.", "quantifier": "all meshes reachable through the interface, all settings of the modelled checks, all non-negative tolerances", "why_tests_cant": "a check is trusted for all meshes it accepts; tests only see that it accepts some sound meshes", "anchors": ["GeDiM/src/Mesh/MeshUtilities3D_CheckMesh.cpp: MeshUtilities::CheckMesh3D"]}
{"id": "C85", "title": "Points and polygons survive an OFF file", "statement": "A mesh exported to an OFF file and imported into an empty mesh gives a mesh of dimension two with the same points at the same coordinates and the same polygons with the same vertices in the same order. Its edges are the sides of the polygons, each exactly once, and each polygon has at each position the edge from that vertex to the next. If the edges of the exported mesh were the sides of its polygons, each once, there are as many edges as before.", "quantifier": "all reachable meshes with fewer than 2^31 points, finite coordinates, polygons over existing vertices without a side from a vertex to itself; all file contents before the export", "why_tests_cant": "the file goes through text in both directions; that nothing is lost or merged for any numbers and any polygons is not settled by a few meshes", "anchors": ["GeDiM/src/Mesh/ObjectFileFormatInterface.cpp: ExportMeshToFile, ImportMeshFromFile, MeshDAOToOFFMesh, OFFMeshToStrings, StringsToOFFMesh, OFFMeshToMeshDAO", "GeDiM/src/Mesh/MeshUtilities2D.cpp: MeshUtilities::ComputeMesh2DCell1Ds"]}
{"id": "C86", "title": "An OFF file keeps which cells are active and their markers", "statement": "After export to an OFF file and import, the active points and polygons are those that were active before and the markers are the same.", "quantifier": "all meshes of C85", "why_tests_cant": "holds for fresh meshes and fails for refined meshes: it depends on the history of the mesh", "anchors": ["GeDiM/src/Mesh/ObjectFileFormatInterface.cpp: MeshDAOToOFFMesh, OFFMeshToMeshDAO"]}
{"id": "C87", "title": "A damaged OFF file is rejected", "statement": "When lines are missing, when the file is empty, when it does not begin with the word OFF, or when a polygon mentions a point that does not exist, the import stops with an error.", "quantifier": "all lists of lines", "why_tests_cant": "the ways in which a file can be damaged are unbounded", "anchors": ["GeDiM/src/Mesh/ObjectFileFormatInterface.cpp: StringsToOFFMesh, OFFMeshToMeshDAO"]}
{"id": "C88", "title": "A polygon becomes a mesh of one polygon", "statement": "Building a plane mesh from at least three points gives a mesh with exactly these points in the given order, one edge from each point to the next and from the last to the first, and one polygon with these vertices and edges. All cells are active. Every edge has the polygon on its left and nothing on its right. Vertices and edges have the given markers if there are as many of them as points; otherwise the markers 1, 2, ... for the vertices, continued for the edges. The mesh is conforming, and it passes the checks of plane meshes when the points are flat and apart and the polygon is counterclockwise and not too small. Fewer than three points are rejected.", "quantifier": "all lists of points, all lists of markers, all meshes without cells", "why_tests_cant": "polygons and marker lists of any length, including lists of the wrong length; the refinement and the checks rely on it for every polygon", "anchors": ["GeDiM/src/Mesh/MeshUtilities2D.cpp: MeshUtilities::Mesh2DFromPolygon"]}
{"id": "C89", "title": "Segments are concatenated to the longest chain", "statement": "Concatenating segments from a starting vertex ends for every list of segments and gives a chain: the first column starts at the given vertex, every column names a segment that has the column's vertex as an end, and the next column starts at its other end. No segment is used twice, and no unused segment touches the last vertex. If the segments form curves - two different ends each, at most two segments at a vertex - the chain from the first vertex of an open curve, or from any vertex of a closed one, contains every segment of the curve.", "quantifier": "all lists of segments between numbered vertices, in any order and direction, and all starting vertices", "why_tests_cant": "the order and direction of the segments is arbitrary and the loop revisits the list until a full pass finds nothing; that it neither stops early nor runs forever is a property of all lists", "anchors": ["GeDiM/src/Geometry/GeometryUtilities_Point.cpp: GeometryUtilities::MakeConcatenation"]}
{"id": "C90", "title": "The ray test finds the position of a point in any polygon", "statement": "With zero tolerances, the position of a point with respect to a polygon of any shape, given by ray casting, is right: points on the border - and no others - are reported there, with the number of the vertex or side they are on; any other point is inside exactly if it is inside an odd number of the triangles into which the polygon is cut along diagonals, or of the triangles from any other point to its sides. For strictly convex polygons inside means on the left of every side, and the answer is always the same as that of the test for convex polygons.", "quantifier": "all polygons of the plane with at least three vertices and no side of length zero, all points of the plane, all ways to cut the polygon along diagonals", "why_tests_cant": "rays through vertices, along sides and touching corners are where ray casting goes wrong; they are special cases for every shape and every number of sides", "anchors": ["GeDiM/src/Geometry/GeometryUtilities_Point.cpp: GeometryUtilities::PointPolygonPosition_RayCasting"]}
{"id": "C91", "title": "Joining triangles around a vertex gives the polygon they cover", "statement": "Three or more consecutive triangles, counterclockwise around a common vertex, are joined into the polygon around them: its vertices are the common vertex and the outer vertices in order, its edges join consecutive vertices, its area is the sum of the areas of the triangles, and the removed edges are exactly the ones between consecutive triangles. In a mesh, each group becomes one new active polygon with marker zero, which is recorded as the replacement of its triangles; the triangles and the edges inside are no longer active and are reported in increasing order; every other cell, coordinate, marker, state and list of the mesh is unchanged. One or two triangles are rejected.", "quantifier": "all meshes reachable by calls, all groups of active triangles which are fans and share no triangle or inner edge, wherever their vertex lists start", "why_tests_cant": "two groups on one mock mesh are tested; the result depends on where each triangle's list starts, the number of triangles and the order of the groups", "anchors": ["GeDiM/src/Mesh/MeshUtilities2D.cpp:FindCell2DsCommonVertices", "GeDiM/src/Mesh/MeshUtilities2D.cpp:FindCell2DsCommonEdges", "GeDiM/src/Mesh/MeshUtilities2D.cpp:AgglomerateTriangles", "GeDiM/src/Mesh/MeshUtilities2D.cpp:AgglomerateMeshFromTriangularMesh"]}
{"id": "C92", "title": "Marking along a line or a segment marks exactly the cells on it", "statement": "Marking along a line gives the marker to exactly the vertices of the line and to the edges with both ends on it; marking along a segment gives it to exactly the vertices between the two ends, ends included, and to the edges with both ends there. Every other marker, and every state, coordinate, list and history of the mesh, is unchanged, and the call succeeds also for lines outside the coordinate plane.", "quantifier": "all meshes reachable by calls whose edges have ends, all origins, all tangents which are not zero, all positive squared lengths, all markers, zero tolerances", "why_tests_cant": "a few markers of one mesh of a square are tested; which vertices are found depends on their coordinates and on the order of the two tests", "anchors": ["GeDiM/src/Mesh/MeshUtilities2D.cpp:SetMeshMarkersOnLine", "GeDiM/src/Mesh/MeshUtilities2D.cpp:SetMeshMarkersOnSegment", "GeDiM/src/Geometry/GeometryUtilities_Point.cpp:IsPointOnLine"]}
{"id": "C93", "title": "The roots of the polygons are their first ancestors", "statement": "If no polygon is its own ancestor, the call returns for every polygon its only ancestor which was not made from another polygon (itself if it was not made from one). This is so if every polygon was made from one with a smaller index. Otherwise the call never returns.", "quantifier": "all meshes reachable by calls, any depth of refinement", "why_tests_cant": "one mesh with a few refined cells is tested; termination depends on the whole history", "anchors": ["GeDiM/src/Mesh/MeshUtilities2D.cpp:MeshCell2DRoots"]}
{"id": "C94", "title": "The overlap test of triangles is right", "statement": "For two triangles of the plane with corners in counterclockwise order, the overlap test with the border says yes exactly if the triangles have a common point, and the test without the border exactly if some point is strictly inside both.", "quantifier": "all pairs of counterclockwise triangles with rational coordinates, zero tolerances", "why_tests_cant": "seven pairs are tested; that only the six edges need to be tried as separating lines is a theorem about all pairs", "anchors": ["GeDiM/src/Geometry/GeometryUtilities_Polygon.cpp:CheckTrianglesIntersection"]}
{"id": "C95", "title": "Which vertices disappear when edges are joined", "statement": "Asked about a set of edges to be joined, the mesh utilities split the vertices of these edges in those that stay and those that are removed: a vertex is removed exactly if it has at least two edges and all of them are joined. Of a path whose inner vertices have no other edges the two ends stay and the inner vertices are removed, whatever the order in which the set is visited. For fewer than two edges both lists are empty.", "quantifier": "all reachable meshes, all sets of existing edges, all iteration orders of the hash sets", "why_tests_cant": "the iteration order of the hash sets is unspecified; two paths are tested", "anchors": ["GeDiM/src/Mesh/MeshUtilities1D.cpp:AgglomerateCell1Ds"]}
{"id": "C96", "title": "Joining edges replaces them by one edge and leaves the rest alone", "statement": "Joining two or more edges appends one active edge between the two given vertices, with the greatest marker of the joined edges, the polygons and polyhedra around them as neighbours (each once; with sides kept, each polygon on its side) and the original edges of all of them. The joined edges and the given inner vertices become inactive, the ends that have other edges know the new edge in place of the joined ones, and nothing else changes: no replacement is recorded and the polygons still list the joined edges. Fewer than two edges change nothing; other than two ends are rejected.", "quantifier": "all reachable meshes, all sets of existing edges, all pairs of ends and lists of inner vertices, all iteration orders of the hash sets; both settings of the side option", "why_tests_cant": "two paths are tested, and only for the new edge; that the other cells and properties stay as they are is about every mesh", "anchors": ["GeDiM/src/Mesh/MeshUtilities1D.cpp:AgglomerateCell1Ds"]}
{"id": "C97", "title": "Joining polygons replaces them by one polygon and leaves the rest alone", "statement": "Joining two or more polygons appends one active polygon with the given vertices and edges, the greatest marker of the joined polygons, the polyhedra around them, each once, and the original polygons of all of them. The joined polygons and the given inner vertices and edges become inactive. Every edge of the new polygon has it as neighbour in the places of the joined ones, and every vertex that has other polygons knows it in place of the joined ones. Nothing else changes: no replacement is recorded and polyhedra still list the joined polygons. Fewer than two polygons change nothing.", "quantifier": "all reachable meshes, all sets of existing polygons, all outlines and lists of inner cells, all iteration orders of the hash sets", "why_tests_cant": "one group of polygons is tested, and only for the new polygon; that the other cells and properties stay as they are is about every mesh", "anchors": ["GeDiM/src/Mesh/MeshUtilities2D.cpp:AgglomerateCell2Ds"]}
{"id": "C98", "title": "The outline of a group of polygons is its boundary line, in the direction of the polygons", "statement": "The information for joining a group of two or more polygons names as inner edges exactly the edges of the group with two or more neighbours, all in the group, and as inner vertices exactly the vertices of the group all of whose edges are inner, each once. If the other edges and vertices of the group are those of one closed line, the call succeeds and returns that line: every vertex and edge once, every edge joining its vertex with the next one, in the direction in which the polygons have their edges, whatever the order of the hash tables. The result can be handed to the call that joins the polygons. Fewer than two polygons give an empty answer.", "quantifier": "all reachable meshes with at most 2^31 vertices, all groups of existing polygons, all iteration orders of the hash tables", "why_tests_cant": "the result depends on the iteration order of hash tables and on the direction in which the chain of edges happens to be found; one group is tested", "anchors": ["GeDiM/src/Mesh/MeshUtilities2D.cpp:AgglomerateCell2Ds", "GeDiM/src/Geometry/GeometryUtilities_Point.cpp:MakeConcatenation"]}
{"id": "C99", "title": "Equispaced coordinates go from one end to the other in equal steps", "statement": "Asking for a number of equispaced coordinates returns exactly that many, in equal steps from the first end to the second; if the ends are left out, they complete the coordinates to such a line. If the first end is smaller the coordinates increase. Asking for a step not greater than 1 divides the unit interval into as many equal parts as the whole number nearest to its inverse, and has exactly that step if the inverse is whole. No coordinates give an empty answer; one coordinate with both ends throws.", "quantifier": "all sizes, ends, steps and tolerances, with and without the ends", "why_tests_cant": "a few sizes are tested; equal steps and the number of values are about every size and both ends", "anchors": ["GeDiM/src/Geometry/GeometryUtilities.cpp:EquispaceCoordinates"]}
{"id": "C100", "title": "Random coordinates are as many as asked for, increasing and apart", "statement": "Random coordinates on the unit interval, if at most the inverse of the minimum distance are asked for, are exactly as many as asked for, increasing, between 0 and 1, and contain both ends if these are wanted. Without the ends neighbouring coordinates are at least the minimum distance apart, with them at least half of it.", "quantifier": "all sizes, distances and tolerances, all outcomes of the shuffle", "why_tests_cant": "the result depends on a random draw; a test sees one seed", "anchors": ["GeDiM/src/Geometry/GeometryUtilities.cpp:RandomCoordinates", "GeDiM/src/Common/CommonUtilities.cpp:RandomArrayNoRepetition"]}
{"id": "C101", "title": "Finding a point in a mesh of polygons finds exactly the polygons that contain it", "statement": "For a mesh of convex counterclockwise polygons, the search for a point returns exactly the active polygons that contain it, each once, going around from the starting polygon; asked for the first only, it returns the first of these and nothing if there is none. The boxes never hide a polygon. The cell named for each polygon found is the polygon or one of its edges or vertices, and the point lies inside the polygon, between the ends of the edge or on the vertex.", "quantifier": "all reachable meshes whose active polygons are convex, all places of their vertices, all points, all starting polygons, all of them or the first only", "why_tests_cant": "tests look for a few points in one mesh; that no polygon is missed is about every point, in particular those on common edges and vertices", "anchors": ["GeDiM/src/Mesh/MeshUtilities2D.cpp:FindPointCell2D", "GeDiM/src/Mesh/MeshUtilities2D.cpp:FindPointMeshPosition"]}
{"id": "C102", "title": "The position of a point with respect to a convex polyhedron is the true one", "statement": "For a convex polyhedron whose faces are given with their rotations to the plane, the position of a point is outside exactly if it is beyond the plane of some face, inside exactly if it is strictly on the inner side of all faces, and otherwise on the border: the face reported contains the point in its interior, the edge reported has the point strictly between its ends, the vertex reported is the point.", "quantifier": "all convex polyhedra with any number of faces, all points", "why_tests_cant": "tests try a few points of a cube; the answer must be right for every point and polyhedron, in particular on planes of faces outside of the faces", "anchors": ["GeDiM/src/Geometry/GeometryUtilities_Point.cpp:PointPolyhedronPosition", "GeDiM/src/Geometry/GeometryUtilities_Point.cpp:PointPlanePosition", "GeDiM/src/Geometry/GeometryUtilities.hpp:RotatePointsFrom3DTo2D"]}
{"id": "C103", "title": "Finding a point in a mesh of polyhedra finds exactly the polyhedra that contain it", "statement": "For a mesh of convex polyhedra, the search for a point returns exactly the active polyhedra that contain it, each once, going around from the starting polyhedron; asked for the first only, it returns the first of these and nothing if there is none. The cell named for each polyhedron found is the polyhedron or one of its faces, edges or vertices, and the point lies inside the polyhedron, inside the face, between the ends of the edge or on the vertex.", "quantifier": "all reachable meshes whose active polyhedra are convex, all places of their vertices, all points, all starting polyhedra, all of them or the first only", "why_tests_cant": "tests look for a few points in one mesh; that no polyhedron is missed is about every point, in particular those on common faces, edges and vertices", "anchors": ["GeDiM/src/Mesh/MeshUtilities3D.cpp:FindPointCell3D", "GeDiM/src/Mesh/MeshUtilities3D.cpp:FindPointMeshPosition"]}
{"id": "C104", "title": "An edge is reported as to be split exactly when both its polygons allow it, and otherwise with the reason", "statement": "Asked whether an edge of a polygon crossed by a cut is to be split, the library always answers. The edge is to be split exactly when the crossing is inside the edge, the edge has a length, half of it is at least the weighted quality of each polygon around the edge, and half of it is at least the weighted mean of the edges of each of these polygons on the same line, counting one edge more. Otherwise the reason reported is the true one: the crossing is not inside; the edge has no length; another polygon alone is against it; the polygon itself is against it. The flags reported for the neighbours are true.", "quantifier": "all meshes built through the interface, edges, crossings, lengths, qualities, lines and weights", "why_tests_cant": "the answer depends on the order and number of the neighbours, on holes among them and on all the lengths; a test looks at a few configurations", "anchors": ["GeDiM/src/Mesh/RefinementUtilities2D.cpp: RefinePolygonCell_IsCell1DToSplit", "GeDiM/src/Mesh/RefinementUtilities.hpp: Cell1DToSplit"]}
{"id": "C105", "title": "A polyhedron built from the vertices of its faces is that polyhedron, and can be turned back", "statement": "From points and, for each face, the list of the points around it, the library builds a polyhedron whose vertices are exactly the points used, numbered in the order in which the faces name them, whose faces are the given ones, closed by edges joining each vertex of the face with the next, and whose edges are sides of faces, each there once whatever the direction. The lists of vertices read back name the same points; they are equal to the given lists when the faces name all the points in order.", "quantifier": "all lists of points and of faces naming points of the list, with any number of vertices", "why_tests_cant": "the numbering depends on which vertices and sides are shared and in which order they first appear; a test tries a few solids", "anchors": ["GeDiM/src/Geometry/GeometryUtilities_Polyhedron.cpp: FacetsToVertices, FacetsToEdges, FacetsToPolyhedron, PolyhedronToFacets"]}
{"id": "C106", "title": "Turning the faces of a polyhedron round keeps vertices and edges together", "statement": "A face turned round has the same vertices in the opposite order from the same first vertex; if each edge of the face joined a vertex with the next one, it still does; turned round again it is the face it was. Of all the faces of a polyhedron exactly those asked for are turned.", "quantifier": "all polyhedra, faces with at least one vertex, and choices of faces", "why_tests_cant": "the edges are shifted by one with respect to the vertices, with a special case for the first; a test tries a few sizes", "anchors": ["GeDiM/src/Geometry/GeometryUtilities_Polyhedron.cpp: ChangePolyhedronFaceOrientation, ChangePolyhedronFacesOrientation", "GeDiM/src/Geometry/GeometryUtilities.hpp: ChangePolygonOrientation"]}
{"id": "C107", "title": "Two polyhedra merged along a common face both sit inside the merged one", "statement": "Merging two polyhedra along one face of each makes one vertex and one edge of the vertices and edges at the same places of the two faces, and keeps everything else apart; the common face goes away or is there once, as asked. The numberings from old to new cells and from new to old ones are inverse to each other. Both polyhedra sit inside the merged one with their points, edges and faces when the two faces have the same points at the same places. The numbers of vertices, edges and faces are the sums less what is shared.", "quantifier": "all pairs of polyhedra, faces with the same number of vertices without repetition, and both choices for the common face", "why_tests_cant": "new numbers depend on which cells are shared and on their order in both polyhedra; a test merges a few solids", "anchors": ["GeDiM/src/Geometry/GeometryUtilities_merged_polyhedrons.cpp: MergePolyhedronByFace, MergePolyhedrons"]}
{"id": "C108", "title": "A polyhedron is cut into one tetrahedron for each triangle of its faces", "statement": "Given the triangles of every face and a point inside the polyhedron, the library lists one tetrahedron for each triangle of each face, in that order, made of the vertices of the triangle and the point inside; given a point inside each face too, that point takes the place of the first vertex of the triangle. The points then extracted for these lists are the points of these vertices, of the points inside the faces and of the point inside.", "quantifier": "all polyhedra, all lists of triangles of their faces and all points", "why_tests_cant": "faces, triangles and points are read from flat lists by computed positions and offsets; a test tries a few solids", "anchors": ["GeDiM/src/Geometry/GeometryUtilities_Polyhedron.cpp: PolyhedronTetrahedronsByFaceTriangulations, ExtractTetrahedronPoints"]}
{"id": "C109", "title": "The coordinate system of a polyhedron is at its first vertex, along three edges", "statement": "The four vertices returned are the first vertex and the other ends of the first three edges at it; the assertion fails exactly when fewer than three edges are there. If no edge is listed twice and none joins a vertex with itself, the four vertices are different.", "quantifier": "all lists of edges", "why_tests_cant": "the edges at the first vertex may be anywhere in the list and in any direction; a test tries a few solids", "anchors": ["GeDiM/src/Geometry/GeometryUtilities_Polyhedron.cpp: PolyhedronCoordinateSystem"]}
{"id": "C110", "title": "The polyhedra the library creates are closed", "statement": "Tetrahedra, parallelepipeds and extruded polygons as created by the library are closed: all numbers are in range, the faces go round along edges without coming back to a vertex, no edge is listed twice or joins a vertex with itself, and every edge is in exactly two faces. An extruded polygon has twice the vertices, with the polygon first and the moved polygon after it, three times the edges and two faces more than the polygon has sides.", "quantifier": "all points, all polygons with at least three vertices and all height vectors", "why_tests_cant": "the numbers of edges and faces of an extruded polygon are computed modulo its size, which is arbitrary", "anchors": ["GeDiM/src/Geometry/GeometryUtilities_Polyhedron.cpp: CreateTetrahedronWithOrigin, CreateTetrahedronWithVertices, CreateParallelepipedWithOrigin, CreatePolyhedronWithExtrusion"]}
{"id": "C111", "title": "The tangents of the edges of a face lead round the face", "statement": "The directions of the edges of a face say for each edge whether it begins at the vertex of the face at the same place. The tangents of the edges turned by these directions lead from each vertex of the face to the next one, and from the last to the first; they add up to zero.", "quantifier": "all polyhedra whose faces go round along their edges, in any directions of the edges", "why_tests_cant": "every edge may be listed in either direction and is shared by faces which go along it in opposite directions; a test tries a few solids", "anchors": ["GeDiM/src/Geometry/GeometryUtilities_Polyhedron.cpp: PolyhedronEdgeTangents, PolyhedronFaceVertices, PolyhedronFaceEdgeDirections, PolyhedronFaceEdgeTangents"]}
