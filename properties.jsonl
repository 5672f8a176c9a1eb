{"id": "C01", "title": "Index sets mean the same thing in both representations", "statement": "An indexlist built from a range [lo,hi] or from an explicit list denotes the integers returned by list(); shift(i), append, +, [k] and size act on that denotation exactly as integer-list operations do (shift adds i to every element, append and + concatenate, size is the length of list() whenever hi >= lo-1), and shift/+ leave their operands unchanged. A range and a list together are refused.", "quantifier": "all index lists, all ranges lo,hi, all shifts i", "why_tests_cant": "the two representations have to agree on unboundedly many lists and ranges, including empty ranges and negative shifts", "anchors": ["cfdtools/meshbase/_connectivity.py:indexlist"]}
{"id": "C02", "title": "compress() is loss-free and complete", "statement": "compress() never changes list(); after it the object is a range exactly when the listed integers are consecutive increasing; on the empty list it raises IndexError instead of producing a bogus range.", "quantifier": "all integer lists", "why_tests_cant": "the broadcast comparison against arange must be right for every length and content", "anchors": ["cfdtools/meshbase/_connectivity.py:indexlist.compress"]}
{"id": "C03", "title": "Default numbering of elements is a bijection", "statement": "After any sequence of add_elems(type, rows) calls without explicit index on a fresh elem_connectivity, nelem is the total number of rows, the indices of all types together are a permutation of 0..nelem-1, the i-th row ever added carries index i, and the rows of each type are kept in the order they were added.", "quantifier": "all sequences of additions, all interleavings of element types", "why_tests_cant": "interleavings of types force the range-to-list fallback; the histories are unbounded", "anchors": ["cfdtools/meshbase/_connectivity.py:elem_connectivity.add_elems", "cfdtools/meshbase/_connectivity.py:elem_connectivity.all_index"]}
{"id": "C04", "title": "elem_connectivity.check() is sound but rejects legitimate numberings", "statement": "If check() returns True the numbers carried by all types, concatenated in type order, are exactly 0,1,..,n-1 in that order (in particular unique and complete). The converse reading 'check() accepts every unique and complete numbering' is false: adding quad, tri, quad produces a valid permutation that check() rejects.", "quantifier": "all element connectivities", "why_tests_cant": "soundness quantifies over all numberings; the counter-example needs an interleaving no test uses", "anchors": ["cfdtools/meshbase/_connectivity.py:elem_connectivity.check"]}
{"id": "C05", "title": "Compressed (CSR) export is a faithful, ordered flattening", "statement": "exportto_compressedindex() yields index with index[0]=0, non-decreasing, last entry equal to the number of values, one interval per element, and the k-th interval of values is exactly the node list of the element with the k-th smallest number. check() accepts exactly the tables whose offsets begin with 0 and whose largest offset is the number of values (so also decreasing offsets), and raises otherwise.", "quantifier": "all element connectivities with pairwise distinct numbers", "why_tests_cant": "any number of elements, any mix of element sizes and any numbering", "anchors": ["cfdtools/meshbase/_connectivity.py:elem_connectivity.exportto_compressedindex", "cfdtools/meshbase/_connectivity.py:elem_connectivity.index_elem_tuples", "cfdtools/meshbase/_connectivity.py:compressed_listofindex"]}
{"id": "C06", "title": "CSR import then export is the identity", "statement": "importfrom_compressedindex(z) into a fresh connectivity followed by exportto_compressedindex() returns z again (same index, same values) for every CSR structure whose elements have 1 to 4 nodes; any other element size raises KeyError and nothing is exported.", "quantifier": "all CSR structures", "why_tests_cant": "requires the type split, argwhere and re-sorting to cancel for every mix of sizes", "anchors": ["cfdtools/meshbase/_connectivity.py:elem_connectivity.importfrom_compressedindex", "cfdtools/meshbase/_connectivity.py:elem_connectivity.exportto_compressedindex", "cfdtools/meshbase/_elements.py:face_from_nnode"]}
{"id": "C07", "title": "Exporting then importing CSR loses nothing but the grouping", "statement": "Importing the CSR export of a face connectivity numbered 0..n-1 with faces of 1 to 4 nodes gives a connectivity holding exactly the same (number, node list) pairs.", "quantifier": "all face connectivities numbered 0..n-1", "why_tests_cant": "all mixes of face types", "anchors": ["cfdtools/meshbase/_connectivity.py:elem_connectivity.importfrom_compressedindex", "cfdtools/meshbase/_connectivity.py:elem_connectivity.exportto_compressedindex"]}
{"id": "C08", "title": "Merging two connectivities shifts only the second", "statement": "importfrom_merge([a,b]) contains every (number, nodes) pair of a unchanged, every pair of b with its number increased by the number of elements of a, nothing else; if a is numbered 0..na-1 and b 0..nb-1 the result is numbered by a permutation of 0..na+nb-1.", "quantifier": "all pairs of connectivities sharing or not sharing element types", "why_tests_cant": "all overlaps of element types between the operands", "anchors": ["cfdtools/meshbase/_connectivity.py:elem_connectivity.importfrom_merge", "cfdtools/meshbase/_mesh.py:Mesh.export_mixedfaces"]}
{"id": "C09", "title": "Merging three or more connectivities does not keep numbers unique", "statement": "The general reading of importfrom_merge ('a list of connectivities is merged with unique numbers') is false as soon as three operands are given: each operand is shifted by the size of the one before it only, so that with three operands or more numbers always collide (if the first and third are not empty and operands are numbered from 0). It holds for lists of length at most two.", "quantifier": "all lists of connectivities", "why_tests_cant": "needs lists of three operands", "anchors": ["cfdtools/meshbase/_connectivity.py:elem_connectivity.importfrom_merge"]}
{"id": "C10", "title": "Node sets of element selections", "statement": "nodes_of_indexlist(L) returns, without duplicates, exactly the nodes of the elements numbered in L (raising TypeError if some number is unknown and L is consumed), and nodelist() returns exactly the set of nodes used by some element. all_index() lists the numbers in the order of index_elem_tuples().", "quantifier": "all connectivities and selections", "why_tests_cant": "set and dict semantics over arbitrary numberings and repeated numbers", "anchors": ["cfdtools/meshbase/_connectivity.py:elem_connectivity.nodes_of_indexlist", "cfdtools/meshbase/_connectivity.py:elem_connectivity.nodelist", "cfdtools/meshbase/_connectivity.py:elem_connectivity.all_index"]}
{"id": "C11", "title": "Face extraction: every cell side appears exactly once, internal xor boundary", "statement": "create_faces_from_elems(): when it returns and no node set is shared by three cell sides, each side of each cell (as a node set) is exactly one created face; it is internal iff two sides share that node set and boundary iff one does; per face type #sides = 2*#internal + #boundary.", "quantifier": "all mixed-element meshes, any numbering of cells and nodes", "why_tests_cant": "pairing must be right for arbitrary meshes, not for the tested boxes", "anchors": ["cfdtools/meshbase/_connectivity.py:elem_connectivity.create_faces_from_elems"]}
{"id": "C12", "title": "Face extraction: face to cell and orientation are coherent", "statement": "Row f of the face-to-cell table belongs to face number f; its first entry is a cell having that face as a side and the stored node order is the reverse of that cell's tabulated side (hence outward), the second entry is the other cell for internal faces and -1 for boundary faces.", "quantifier": "all meshes, all faces", "why_tests_cant": "alignment between two separately filled tables across several face types", "anchors": ["cfdtools/meshbase/_connectivity.py:elem_connectivity.create_faces_from_elems", "cfdtools/meshbase/_connectivity.py:indexindirection"]}
{"id": "C13", "title": "Face extraction: refused and mishandled meshes", "statement": "A mesh in which some face type has no shared side (a single cell, two tetrahedra plus a lonely pyramid base, ...) is refused with AssertionError. A side shared by three cells is NOT refused in general: the third neighbour silently disappears from the face-to-cell table.", "quantifier": "all meshes", "why_tests_cant": "the second part needs non-manifold meshes", "anchors": ["cfdtools/meshbase/_connectivity.py:elem_connectivity.create_faces_from_elems"]}
{"id": "C14", "title": "Element side tables describe closed oriented surfaces", "statement": "For every volume element type of both node-ordering conventions each tabulated side uses valid distinct local nodes and every directed edge of the sides occurs exactly once in each direction (closed, consistently oriented surface); consequently the sum of side contributions of any antisymmetric edge quantity vanishes for every cell. The converting permutations between GMSH and CGNS node orders are mutually inverse, and those of surface elements are the identity.", "quantifier": "all element types; all node coordinates for the geometric corollary", "why_tests_cant": "the geometric consequence is over all coordinates", "anchors": ["cfdtools/meshbase/_elements.py:cgns_elem2faces", "cfdtools/meshbase/_elements.py:gmsh_elem2faces", "cfdtools/meshbase/_elements.py:gmsh2cgns", "cfdtools/meshbase/_elements.py:cgns2gmsh", "cfdtools/meshbase/_elements.py:set_inward_normal"]}
{"id": "C15", "title": "Result of face extraction depends on what was read before", "statement": "The side table is process-global: reading any GMSH file switches it for all later meshes. For quad4, tetra4, pyra5, prism6 and hexa8 cells the switch has no observable effect; for tri3 cells face extraction raises KeyError before and works as for other cells after; for hexa27 the produced faces differ.", "quantifier": "all histories of reads followed by a face extraction", "why_tests_cant": "the property ranges over histories of the process", "anchors": ["cfdtools/meshbase/_elements.py:elem2faces", "cfdtools/gmsh/reader.py:reader.read_data", "cfdtools/meshbase/_connectivity.py:elem_connectivity.create_faces_from_elems"]}
{"id": "C16", "title": "Node marks become exactly the faces they span", "statement": "bocomarks_set_node_to_face() turns every node mark into the bdface mark listing, in connectivity order, exactly the boundary faces all of whose nodes are marked; face marks, their order and everything else in the mesh are untouched; without a 'boundary' face set it raises AssertionError.", "quantifier": "all meshes and all mark sets", "why_tests_cant": "arbitrary node sets and face sets", "anchors": ["cfdtools/meshbase/_mesh.py:Mesh.bocomarks_set_node_to_face"]}
{"id": "C17", "title": "make_unmarked_BC() completes the marking, once", "statement": "With a 'boundary' face set and only face marks, make_unmarked_BC(name) returns exactly the boundary faces in no mark and, if there are any and no mark is called name, adds one mark with exactly these so that every boundary face is marked; a second call returns nothing and changes nothing. If a mark called name already exists it is overwritten and its faces become unmarked.", "quantifier": "all meshes, marks and names", "why_tests_cant": "needs arbitrary partial markings and name collisions", "anchors": ["cfdtools/meshbase/_mesh.py:Mesh.make_unmarked_BC", "cfdtools/meshbase/_mesh.py:Mesh.list_boco_index"]}
{"id": "C18", "title": "Mesh.check() changes the mesh", "statement": "check() on a mesh with an unmarked boundary face raises AssertionError but has already added the mark, so calling it again returns True (unless a mark already had that name, when it may fail for ever): the verdict depends on the history of calls, not on the mesh given. If all boundary faces are marked it returns True and changes nothing. A mesh without cells or nodes, or whose number of cells is not that of its connectivity, is refused and left as it is.", "quantifier": "all meshes, all call histories", "why_tests_cant": "needs a sequence of calls on the same object", "anchors": ["cfdtools/meshbase/_mesh.py:Mesh.check", "cfdtools/meshbase/_mesh.py:Mesh.make_unmarked_BC"]}
{"id": "C19", "title": "Reindexing boundary faces: contiguous marks, nothing lost", "statement": "reindex_boundaryfaces(), when the marks partition 0..nb-1, renumbers the boundary faces so that each mark is one contiguous range, ranges follow the order of the marks from 0 to nb-1, and the association face nodes -> mark -> adjacent cells is preserved for every face.", "quantifier": "all partitions of all boundary face sets", "why_tests_cant": "permutations of any size applied to three tables", "anchors": ["cfdtools/meshbase/_mesh.py:Mesh.reindex_boundaryfaces"]}
{"id": "C20", "title": "Reindexing refuses inconsistent marks", "statement": "If some face is in two marks, or face 0 is unmarked, or a number is beyond the marked count, or a mark is not face based, or has no index, reindex_boundaryfaces() raises and no face connectivity has been changed. Failing is not always free of effects: when the last faces are unmarked it raises after the marks (and possibly some faces) have been renumbered, and when the boundary faces have no table of cells (or none at all) after the marks and the faces have been.", "quantifier": "all markings", "why_tests_cant": "all ways of being inconsistent, including lengths that broadcast", "anchors": ["cfdtools/meshbase/_mesh.py:Mesh.reindex_boundaryfaces"]}
{"id": "C21", "title": "Mixed face export puts boundary first", "statement": "export_mixedfaces() numbers boundary faces as before and internal faces after them, and row f of the merged face-to-cell table is the row of the face now numbered f. It raises KeyError without boundary or internal faces, and AttributeError or ValueError when a table of cells is missing.", "quantifier": "all meshes with boundary and internal faces numbered from 0", "why_tests_cant": "alignment of two merged tables", "anchors": ["cfdtools/meshbase/_mesh.py:Mesh.export_mixedfaces", "cfdtools/meshbase/_connectivity.py:elem_connectivity.importfrom_merge"]}
{"id": "C22", "title": "Face counter", "statement": "Faces are mixed, internal or boundary; add_faces of one of these kinds replaces the faces of that kind and no other, another kind raises RuntimeError and changes nothing, and pop_faces of another kind does nothing. After any sequence of add_faces the public counter nface equals the total number of faces held. After pop_faces it does not (it keeps the old total). make_face_connectivity replaces whatever faces a mesh held by the internal and boundary faces of its cells: none is left under mixed, the counter is right, nothing else changes and doing it again changes nothing.", "quantifier": "all histories of add_faces/pop_faces", "why_tests_cant": "histories", "anchors": ["cfdtools/meshbase/_mesh.py:Mesh.add_faces", "cfdtools/meshbase/_mesh.py:Mesh.pop_faces", "cfdtools/meshbase/_mesh.py:Mesh.make_face_connectivity"]}
{"id": "C23", "title": "Coordinates: size discipline, scaling and morphing", "statement": "set_nodescoord_xyz/nd accept only arrays with nnode entries and leave the mesh unchanged otherwise (set_nodescoord_xyz), nodescoord returns what was set, scale multiplies each coordinate axis by its factor, scale twice is scale by the product, morph with the identity changes nothing; connectivity and marks are never touched.", "quantifier": "all meshes, factors, morphing functions", "why_tests_cant": "all arrays and functions", "anchors": ["cfdtools/meshbase/_mesh.py:Mesh.set_nodescoord_nd", "cfdtools/meshbase/_mesh.py:Mesh.set_nodescoord_xyz", "cfdtools/meshbase/_mesh.py:Mesh.scale", "cfdtools/meshbase/_mesh.py:Mesh.morph", "cfdtools/meshbase/_mesh.py:Mesh.nodescoord"]}
{"id": "C24", "title": "Cube: numbering of nodes and cells is a bijection", "statement": "For every nx,ny,nz >= 1 Cube.nodeglobindex_ijk maps [0..nx]x[0..ny]x[0..nz] bijectively onto 0..nnode-1 in the order of nodes_ijk, elemglobindex_ijk maps cells bijectively onto 0..ncell-1, and the exported mesh has ncell hexahedra with 8 distinct valid nodes, cell c at position c, coordinates (i/nx,j/ny,k/nz).", "quantifier": "all nx,ny,nz >= 1", "why_tests_cant": "three unbounded size parameters", "anchors": ["cfdtools/meshbase/simple.py:Cube.nodeglobindex_ijk", "cfdtools/meshbase/simple.py:Cube.elemglobindex_ijk", "cfdtools/meshbase/simple.py:Cube.export_mesh"]}
{"id": "C25", "title": "Cube: faces and marks", "statement": "For every nx,ny,nz >= 1 with at least two cells, face creation on the exported cube gives exactly the grid faces: 2(nx ny + ny nz + nx nz) boundary faces and (nx-1)ny nz + nx(ny-1)nz + nx ny(nz-1) internal ones; after conversion each boundary face is in exactly one of the six marks and it is the side of the cube it lies on. With one cell in total face creation raises AssertionError.", "quantifier": "all nx,ny,nz", "why_tests_cant": "three unbounded size parameters", "anchors": ["cfdtools/meshbase/simple.py:Cube.export_mesh", "cfdtools/meshbase/_connectivity.py:elem_connectivity.create_faces_from_elems", "cfdtools/meshbase/_mesh.py:Mesh.bocomarks_set_node_to_face"]}
{"id": "C26", "title": "Cube written to IC3 and read back", "statement": "Writing any cube (at least two cells) as IC3 V2 or V3 in any byte order and reading the file gives back the same counts, coordinates, faces, face-to-cell table, six boundary zones of the right sizes followed by the internal zone.", "quantifier": "all nx,ny,nz, byte orders and versions", "why_tests_cant": "composition of the whole pipeline on unbounded sizes", "anchors": ["cfdtools/meshbase/simple.py:Cube", "cfdtools/ic3/writerV2.py:writer", "cfdtools/ic3/writerV3.py:writer", "cfdtools/ic3/reader_legacy.py:reader"]}
{"id": "C27", "title": "Extrusion geometry", "statement": "export_extruded with n>=2 planes gives n*nnode nodes (plane p = base nodes translated by extrude[p]*direction), (n-1)*ncell cells, cell c of layer i having the nodes of the base cell in planes i and i+1, node marks replicated on every plane (without their periodic values) and two extra marks with the first and last plane; it raises AssertionError for n<2 or face marks.", "quantifier": "all 2D meshes, plane positions and numbers of planes", "why_tests_cant": "any number of planes and elements", "anchors": ["cfdtools/meshbase/_mesh.py:Mesh.export_extruded", "cfdtools/meshbase/_connectivity.py:elem_connectivity.extrude"]}
{"id": "C28", "title": "Extrusion does not keep cell numbers unique or complete", "statement": "The numbers given to extruded cells are base number + layer * (number of nodes per plane) instead of layer * (number of cells): they are not 0..n-1, and two cells share a number whenever the base has two cells whose numbers differ by nnode. (They are pairwise distinct if all base numbers lie in [0,nnode).)", "quantifier": "all 2D meshes", "why_tests_cant": "needs more cells than nodes, or a completeness check", "anchors": ["cfdtools/meshbase/_connectivity.py:elem_connectivity.extrude"]}
{"id": "C29", "title": "Extruded element types", "statement": "Extruding quad4 gives valid hexa8 (top and bottom sides are the base quad in consistent orientation); extruding tri3 gives type 'penta6' for which face creation always raises KeyError; extruding bar2 gives quad4 whose sides cross (consecutive nodes are not joined by extrusion edges); volume types raise KeyError.", "quantifier": "all base cells", "why_tests_cant": "element names must be consistent across tables for every mesh", "anchors": ["cfdtools/meshbase/_elements.py:extruded_face", "cfdtools/meshbase/_elements.py:elem2faces", "cfdtools/meshbase/_connectivity.py:elem_connectivity.extrude"]}
{"id": "C30", "title": "IC3 section header encodes and decodes exactly", "statement": "A section header written with any name, id, skip, 8 integers and 16 reals takes exactly 256 bytes in each byte order and is read back identically (name up to 52 ASCII characters without NUL; longer names are cut at 52); out of range numbers raise struct.error instead of being wrapped; non-ASCII names raise struct.error.", "quantifier": "all names, ids, integers, real bit patterns, all byte orders", "why_tests_cant": "2^(8*256) headers", "anchors": ["cfdtools/ic3/_ic3.py:restartSectionHeader.write", "cfdtools/ic3/_ic3.py:restartSectionHeader.readVar", "cfdtools/ic3/_ic3.py:BinaryRead", "cfdtools/ic3/_ic3.py:BinaryWrite"]}
{"id": "C31", "title": "Section search works for any section order", "statement": "On a well-formed file readVar(ids) positions the reader just after the header of the first section (from the start, or from the current section boundary if reset_offset is False) whose id is in ids, skipping the payload of all others; if none comes before the EOF section it returns False (RuntimeError when required).", "quantifier": "all sequences of sections with any payload sizes", "why_tests_cant": "format documentation promises arbitrary order; unbounded sequences", "anchors": ["cfdtools/ic3/_ic3.py:restartSectionHeader.readVar", "cfdtools/ic3/_ic3.py:restartSectionHeader.readReqVar"]}
{"id": "C32", "title": "Reading always terminates", "statement": "Reading any byte sequence whatsoever as an IC3 file (headers only or full) stops: with a result or an exception. No section chain (zero, negative or backward skips included) can make the section search loop forever.", "quantifier": "all byte strings", "why_tests_cant": "all malformed files", "anchors": ["cfdtools/ic3/_ic3.py:restartSectionHeader.readVar", "cfdtools/ic3/_ic3.py:binreader.read_headers", "cfdtools/ic3/reader_legacy.py:reader.read_data"]}
{"id": "C33", "title": "Byte order and version detection", "statement": "For a file written in byte order b with version v the reader recovers v and reads all later data in b, without being told; 'native' is one of the two orders. A file written by writer 2 or 3 starts with the magic number 123581321 and the number 2 or 3, four bytes each in the order asked for.", "quantifier": "all byte orders, versions", "why_tests_cant": "combination with all the data that follows", "anchors": ["cfdtools/ic3/_ic3.py:binreader._ReadRestartHeader", "cfdtools/ic3/_ic3.py:BinaryWrite"]}
{"id": "C34", "title": "IC3 file round trip", "statement": "Reading the file written by the V2 or V3 writer for any consistent mesh returns the same node, face and cell counts, coordinates (bit for bit), face node lists in order, face-to-cell table, boundary marks (name, type, range, transformation), partition, step/dt/time and cell data; the counts put among the parameters (nodes, faces, cells, nodes of faces, marks, boundary and periodic faces) are those of the mesh.", "quantifier": "all consistent meshes, data and byte orders", "why_tests_cant": "all mesh sizes and contents", "anchors": ["cfdtools/ic3/writerV2.py:writer.write_data", "cfdtools/ic3/writerV3.py:writer", "cfdtools/ic3/reader_legacy.py:reader.read_data", "cfdtools/ic3/reader_legacy.py:reader.export_mesh"]}
{"id": "C35", "title": "A truncated IC3 file is never accepted", "statement": "If writing is interrupted at any byte, reading the resulting strict prefix raises an exception; it never yields a mesh (provided no written name begins with 'DEOF').", "quantifier": "all written files, all crash points", "why_tests_cant": "crash points are unbounded", "anchors": ["cfdtools/ic3/writerV2.py:writer.write_data", "cfdtools/ic3/reader_legacy.py:reader.read_data", "cfdtools/ic3/_ic3.py:BinaryRead"]}
{"id": "C36", "title": "Names beginning with DEOF end the file early", "statement": "A variable or mark whose name begins with 'DEOF' makes the reader stop its search there: data written after it is silently absent from the result; a mark with such a name makes the file unreadable.", "quantifier": "all files with such a name", "why_tests_cant": "unusual names are not tested", "anchors": ["cfdtools/ic3/_ic3.py:restartSectionHeader.readVar"]}
{"id": "C37", "title": "Zones written to IC3 partition the faces", "statement": "If the marks are contiguous ranges tiling 0..nb-1 with nb >= 1, the zones written (marks plus internal-domain) tile 0..nface-1 exactly. If there is no mark at all the internal zone starts at 1 and face 0 is in no zone.", "quantifier": "all meshes and mark sets", "why_tests_cant": "all range configurations including none", "anchors": ["cfdtools/ic3/writerV2.py:writer.__WriteRestartConnectivity"]}
{"id": "C38", "title": "Data location is guessed from sizes", "statement": "Cell data written by the writers is read back as cell data when the cell count differs from both the node and the face count; if the number of cells equals the number of nodes, cell scalars are read back as node data and cell vectors vanish from the exported mesh.", "quantifier": "all meshes and data sets", "why_tests_cant": "needs coinciding counts", "anchors": ["cfdtools/ic3/reader_legacy.py:reader._ReadRestartVar", "cfdtools/ic3/writerV2.py:writer.__WriteRestartVar", "cfdtools/ic3/writerV3.py:writer.__WriteRestartVar"]}
{"id": "C39", "title": "What a read-write cycle loses", "statement": "Node vectors, face data and statistics weights present in an IC3 file are not in the exported mesh (weights are, but under names that the writer ignores), so that reading and writing the file again drops them. Names of weights are written in capitals and read in small letters: ASCII letters change case, other characters do not.", "quantifier": "all files containing such sections", "why_tests_cant": "round trips of particular sections", "anchors": ["cfdtools/ic3/reader_legacy.py:reader._ReadRestartVar", "cfdtools/ic3/reader_legacy.py:reader._ReadInformativeValues", "cfdtools/ic3/writerV2.py:writer.__WriteInformativeValues", "cfdtools/ic3/writerV2.py:writer.set_simstate"]}
{"id": "C40", "title": "Rewriting a file that was read reaches a fixed point", "statement": "For a complete mesh, write -> read -> write -> read -> write produces byte-identical files from the first rewrite on, and writing does not modify a mesh that was read; the first file may differ from its rewriting (node vectors and weights are lost).", "quantifier": "all meshes accepted by the writers", "why_tests_cant": "composition of reader and writer on all inputs", "anchors": ["cfdtools/ic3/reader_legacy.py:reader.export_mesh", "cfdtools/ic3/writerV2.py:writer", "cfdtools/ic3/writerV3.py:writer"]}
{"id": "C41", "title": "Numbers that do not fit are refused", "statement": "Writing never wraps: node, cell and face numbers, counts or partitions outside int32 raise struct.error, and section integers outside int64 raise struct.error or OverflowError; no complete file is produced (C81 says what is left).", "quantifier": "all integers", "why_tests_cant": "range limits for every written field", "anchors": ["cfdtools/ic3/_ic3.py:BinaryWrite", "cfdtools/ic3/writerV2.py:writer"]}
{"id": "C42", "title": "Integrity check option", "statement": "On files written by the V2 writer reading with cIntegrity=True succeeds iff reading without does and returns the same; on V3 files it changes nothing; a V2 file whose node, face or cell list is altered (in its first 100000 entries, where np.allclose is exact on integers) is refused.", "quantifier": "all written files", "why_tests_cant": "all files and alterations", "anchors": ["cfdtools/ic3/reader_legacy.py:reader._ReadRestartConnectivity", "cfdtools/ic3/writerV2.py:writer.__WriteRestartConnectivity_check"]}
{"id": "C43", "title": "IC3 V4 boundaries round trip", "statement": "Reading a mesh written by the V4 writer gives its marks and the internal domain sorted by first face, each zone ending where the next one begins. For marks that are ranges tiling 0..nb-1 in any order, nb >= 1, this gives back the same named, typed ranges (with the first three numbers of periodic transformations) and the internal domain nb..nface-1. A mark followed by unmarked faces is read back enlarged; of two marks starting at the same face one comes back empty; without marks the internal domain starts at face 1. The file stores for each mark, and for the internal domain, the first 128 characters of the name without NULs at their end; names that are not ASCII are refused.", "quantifier": "all meshes and mark sets that the writer accepts", "why_tests_cant": "sorting and telescoping offsets over any number of marks", "anchors": ["cfdtools/ic3/writerV4.py:writer._write_boundaries", "cfdtools/ic3/readerV4.py:reader._read_connectivity"]}
{"id": "C44", "title": "IC3 V4 mesh and solution round trip", "statement": "Meshes meeting the listed limits are written; reading the V4 mesh file gives the same counts, coordinates, faces and face-to-cell table; with RHO, RHOU and RHOE present the solution file gives these and the statistics variables (upper case, flattened to one row per cell), step, time and, when there are statistics, the weights, and nothing else; if one of the three is missing none is written and reading the solution raises KeyError. A mesh read from V4 files can never be written by the V2 or V3 writer.", "quantifier": "all meshes and data", "why_tests_cant": "all sizes and data", "anchors": ["cfdtools/ic3/writerV4.py:writer", "cfdtools/ic3/readerV4.py:reader"]}
{"id": "C45", "title": "Safe output names", "statement": "find_safe_newfile() terminates on any finite file system, ends with a path that does not exist, in the same folder and with the same suffix (unless the name ends with a dot), equal to the requested path when that is free, otherwise stem(n)suffix with the smallest n >= 1 free; it returns whether the name changed.", "quantifier": "all finite sets of existing files and all paths", "why_tests_cant": "any number of existing numbered files", "anchors": ["cfdtools/api.py:_files.find_safe_newfile"]}
{"id": "C46", "title": "Safe output names are not reserved", "statement": "Two processes both calling find_safe_newfile() before either writes obtain the same name, so the second write overwrites the first; when the calls and writes do not interleave every write goes to a fresh file and no existing file is modified, for any number of processes.", "quantifier": "all schedules of any number of processes", "why_tests_cant": "interleavings", "anchors": ["cfdtools/api.py:_files.find_safe_newfile", "cfdtools/_cli.py:write_generic"]}
{"id": "C47", "title": "Path manipulation", "statement": "remove_dir, change_dir and change_suffix affect only their part of the path: change_dir keeps the file name, remove_dir is change_dir to the empty directory, change_suffix replaces only the last suffix (or appends one), is idempotent for suffixes with one dot (not with two) and rejects suffixes not starting with a dot.", "quantifier": "all paths and suffixes", "why_tests_cant": "all strings", "anchors": ["cfdtools/api.py:_files.change_dir", "cfdtools/api.py:_files.remove_dir", "cfdtools/api.py:_files.change_suffix"]}
{"id": "C48", "title": "Format registry and detection", "statement": "After any sequence of registrations the entry of a format holds the last registered reader, writer and extension of that name; detection by extension succeeds iff exactly one registered format has the extension and otherwise stops with an error; an explicit format is always used as is. In the command line tools the suffixes .ic3, .msh, .cgns and .vtu give IC3 (read, written by the V3 writer), GMSH and CGNS (read only) and VTK (written only), and any other suffix is refused.", "quantifier": "all registration sequences and file names", "why_tests_cant": "histories of registrations", "anchors": ["cfdtools/api.py:fileformat_reader", "cfdtools/api.py:fileformat_writer", "cfdtools/_cli.py:cli_argparser.parse_filenameformat"]}
{"id": "C49", "title": "Timer protocol", "statement": "A Timer alternates start and pause/stop: start while running and pause/stop while not running raise TimerError and leave the state unchanged (stop(nelem) still records nelem); elapsed is the sum of completed intervals since the last stop or reset and never decreases while the clock is monotone.", "quantifier": "all call sequences and monotone clocks", "why_tests_cant": "histories of calls", "anchors": ["cfdtools/api.py:Timer"]}
{"id": "C50", "title": "memoize is transparent", "statement": "A memoized function returns what the function returns, calls it once per distinct argument tuple, and cache_info() gives hits + misses = number of calls, misses = currsize = number of distinct arguments when the function does not raise; if the function raises, nothing is cached and a miss is counted.", "quantifier": "all call sequences", "why_tests_cant": "histories", "anchors": ["cfdtools/api.py:memoize"]}
{"id": "C51", "title": "DataSet bookkeeping", "statement": "ndof can differ from 1 only while the representation is 'spectralcell' at the time it is set; the invariant 'ndof = 1 or spectralcell' is preserved by ndof updates but not by changing Xrep afterwards. add_data replaces by name; a time stamp equal to 0 is silently dropped.", "quantifier": "all histories of setter calls", "why_tests_cant": "histories", "anchors": ["cfdtools/data.py:DataSetBase", "cfdtools/data.py:DataSet.add_data", "cfdtools/data.py:DataSetList.add_datalist"]}
{"id": "C52", "title": "--remove-cell-data does not remove", "statement": "pop_celldata(name) returns the data but leaves it in the mesh (KeyError if absent), so the file written by cfdwrite_* --remove-cell-data still contains it.", "quantifier": "all meshes and names", "why_tests_cant": "checks only look at exit status", "anchors": ["cfdtools/meshbase/_mesh.py:Mesh.pop_celldata", "cfdtools/_cli.py:write_generic"]}
{"id": "C53", "title": "Spectra: axis and data lengths", "statement": "dataSet_spectrum gives a frequency axis of the length of every transformed signal when no sub-range is selected; with imin/imax the frequency axis is shorter than the data. dataSet_spectrogram gives as many frequencies as columns for window >= 2, and for an even window 2h either as many times as rows, or ValueError because the last window overruns the signal (exactly when h divides a signal longer than h); for an odd window it always succeeds on long enough signals but has more times than rows for all long signals. Without a window, signals shorter than 100 raise ZeroDivisionError. Names without 'time' are refused (ValueError), and the caller's list is then left as it was.", "quantifier": "all signal lengths and windows", "why_tests_cant": "integer arithmetic on two unbounded lengths", "anchors": ["cfdtools/data.py:DataSet.dataSet_spectrum", "cfdtools/data.py:DataSet.dataSet_spectrogram", "cfdtools/data.py:DataSet.dtstats"]}
{"id": "C54", "title": "Polynomial interpolation and derivative weights are exact", "statement": "For any order n and n distinct nodes, sum_i w_i(x) p(x_i) = p(x) and sum_i w'_i(x) p(x_i) = p'(x) for every polynomial p of degree < n and every x; the weights sum to 1 (resp. 0), equal delta_ij at the nodes and do not depend on the basis (Legendre or monomial).", "quantifier": "all orders, nodes, x and polynomials", "why_tests_cant": "all polynomials and points", "anchors": ["cfdtools/utils/polybase.py:poly1d"]}
{"id": "C55", "title": "Probe data dependencies", "statement": "check_data(v) terminates; it succeeds iff v is loaded, or its file exists, or v is derivable from variables for which check_data succeeds; otherwise it raises NameError. After success v and everything it was derived from are loaded and nothing already loaded is changed.", "quantifier": "all sets of available files and loaded variables", "why_tests_cant": "all subsets of files", "anchors": ["cfdtools/probes/data.py:phydata.check_data", "cfdtools/probes/data.py:phydata.read_data"]}
{"id": "C56", "title": "GMSH 4 nodes: all blocks are read", "statement": "For a well-formed version 4 $Nodes section with nodes numbered 1..n, every node gets its coordinates, in any order of blocks and numbers, when the last non-empty block has two nodes or more; when it has exactly one, this node is silently skipped and stays undefined. Largest number exceeding the node count by two or more (holes) raises IndexError. In version 2 nodes are taken in line order whatever their numbers. The exported mesh has these coordinates.", "quantifier": "all well-formed node sections", "why_tests_cant": "all block structures", "anchors": ["cfdtools/gmsh/reader.py:reader.__read_sections_V4"]}
{"id": "C57", "title": "GMSH elements: cells and boundary patches", "statement": "For version 2 and version 4 files (2-D or 3-D): every element of maximal dimension becomes exactly one cell with its nodes shifted by one; cells are numbered 0..ncell-1, type after type, in file order within a type; every boundary mark contains exactly the nodes of the elements of codimension 1 whose entity is in the physical group of that name (the last group given to the entity); groups named 'fluid' (when names are given) or 'int_fluid' give no mark; loading fails, with KeyError, exactly when the group of a boundary entity has no name. A file without elements, with an element that is not of first order, or with neither surfaces nor volumes is refused (ValueError, KeyError, RuntimeError). Nodes are not repeated in a mark when every entity has one type of elements.", "quantifier": "all element lists", "why_tests_cant": "all mixes of elements, tags and groups", "anchors": ["cfdtools/gmsh/reader.py:reader.read_data", "cfdtools/gmsh/reader.py:reader.export_mesh", "cfdtools/gmsh/reader.py:reader.__create_bnd"]}
{"id": "C58", "title": "GMSH 4 physical groups are looked up in the wrong table range", "statement": "The physical group of an element block is searched by entity number among the last curve and the surfaces only, whatever the dimension of the block: a surface gets its own group; a curve block with the number of a surface gets the surface's group; other curves get group 0, so that 2-D files with named groups fail with KeyError; a surface without a group gets the number of its bounding curves as group.", "quantifier": "all entity tables", "why_tests_cant": "entity number collisions", "anchors": ["cfdtools/gmsh/reader.py:reader.__read_sections_V4"]}
{"id": "C59", "title": "CGNS cells and boundary marks", "statement": "The CGNS reader turns element sections of the cell dimension into cells keeping their file numbers minus one (if no such section starts at 1 the cells are rejected by check), BCs given by vertices into node marks with these vertices, BCs given by faces into node marks with exactly the nodes of these faces; it drops BCs covering all vertices or as many elements as cells, and of several BCs with one family name keeps only the last. A section of an unsupported type of any dimension makes the zone unreadable (KeyError), and so does a connectivity of the wanted dimension that cannot be cut into elements of its type (ValueError). A zone is exported exactly when every BC is on vertices, cells, or faces present in the sections. Without the name of a zone the last base must have exactly one (AssertionError otherwise), and that one is read.", "quantifier": "all zones", "why_tests_cant": "all section orders and BC kinds", "anchors": ["cfdtools/cgns/cgns.py:cgnszone.elemcon", "cfdtools/cgns/cgns.py:cgnszone.export_BC", "cfdtools/cgns/cgns.py:cgnsMesh.export_mesh"]}
{"id": "C60", "title": "Cell extraction keeps geometry", "statement": "vtk_extract_cells(ids) returns a mesh whose k-th cell has the type and, vertex by vertex, the coordinates of cell ids[k]; its points are exactly the used points, each once; this holds whatever the iteration order of Python sets and whatever uninitialised memory holds. Sizes are kept in unsigned bytes: with a cell of more than 255 vertices (254 for the first) the call fails or returns other cells. No id: ValueError; an id too large: IndexError.", "quantifier": "all meshes, selections with repetitions, set iteration orders", "why_tests_cant": "hash order nondeterminism", "anchors": ["cfdtools/vtk/_vtk.py:vtkMesh.vtk_extract_cells"]}
{"id": "C61", "title": "Reordering a list of VTK files", "statement": "vtkList.read, when it accepts a file with as many cells as the first file and no two of the file's centres are within tol of the same reference centre, gives for every name and reference cell the value of a file cell within tol of it, each file cell being used once. It accepts every file whose centres are all within tol of a reference centre and refuses a file with a cell farther away, or another number of cells if neither is 1. Without separation it silently gives some reference cell the value of a cell whose nearest reference is another one, and a one-cell file near the first reference cell is accepted with arrays of length 1. check_order is true exactly when all files agree position by position within tol.", "quantifier": "all lists of files, cell orders, tolerances and distance functions", "why_tests_cant": "all permutations and positions", "anchors": ["cfdtools/vtk/_vtkList.py:vtkList.read", "cfdtools/vtk/_vtkList.py:vtkList.check_order"]}
{"id": "C62", "title": "HDF5 mesh dump and XDMF references", "statement": "vtkMesh.dumphdf then importhdfgroup gives back the same points and, type by type, the same cells in order; the types come in the alphabetical order of their names (bar2, hexa8, prism6, pyra5, quad4, tetra4, tri3), whatever their order in the grid. vtkList.dumphdf, for any number of data sets with plain names, writes an HDF5 file whose mesh can be imported again and which has every array of every time step under its own path (steps never collide) with its time value; every path in the XDMF file opens a data set of that file with as many values as the announced dimensions, and all nodes, cells and arrays are referenced. The XDMF file is refused for arrays of more than two dimensions; array entries match the dumped cells when the cells come by increasing type.", "quantifier": "all meshes, any number of time steps", "why_tests_cant": "any number of time steps (also beyond six digits)", "anchors": ["cfdtools/hdf5/_hdf5.py:h5File.write_unsmesh", "cfdtools/vtk/_vtk.py:vtkMesh.importhdfgroup", "cfdtools/vtk/_vtk.py:vtkMesh.xdmf_content", "cfdtools/data.py:DataSetList._dumphdfgroup", "cfdtools/data.py:DataSetList.xdmf_content"]}
{"id": "C63", "title": "Spanwise averaging uses each cell once", "statement": "In vtk_zconvolution the planes found are the classes of cells whose positions along the direction are joined by steps within the tolerance, in order; they cover all cells, are at least two and equally sized. When no two cells of a plane are close to the same place, every plane is matched cell by cell to the first one, so each column of the averaged data has exactly one cell of each plane and these are within the tolerance; the new mesh has the cells of the first plane and the arrays are exactly those asked for. A mesh made of copies of one plane is accepted, as many modes as planes are not, planes that do not match are a ValueError and no other error, unknown names in the selection are a ValueError, and each option of a selected array is the last value given to it or the general one.", "quantifier": "all meshes", "why_tests_cant": "all splittings", "anchors": ["cfdtools/vtk/_vtk.py:vtkMesh.vtk_zconvolution"]}
{"id": "C64", "title": "Converters never overwrite an existing file, the cube generator does", "statement": "write_generic writes only to a path that did not exist when the name was chosen, whatever --outpath and the input name; cfdwritecube writes to the given path even if it exists, and refuses a format without writer (TypeError) before anything is written. What write_generic leaves at the path is what the writer makes of the mesh read, extruded then scaled as asked; an input format without a reader is refused (TypeError) and nothing is written. An input whose reader counts no cell (such as a readable IC3 file without cells) is refused with ZeroDivisionError, from the time per cell, and nothing is written. With --info the result is the same, unless the mesh cannot be shown: then nothing is written.", "quantifier": "all file systems and arguments", "why_tests_cant": "all file system states", "anchors": ["cfdtools/_cli.py:write_generic", "cfdtools/_cli.py:cfdwritecube", "cfdtools/api.py:_files"]}
{"id": "C65", "title": "Nine-node faces of 27-node hexahedra", "statement": "Each of the six 9-node faces of a 27-node hexahedron carries the mid-edge nodes of its own four edges, and the node in the middle of its own corners, in the numbering of CGNS for the default table and in that of GMSH for the table set by its reader; but none of them lists the mid-edge nodes in the order of its corners: reversing the corners to get outward normals did not reverse the mid-edge nodes.", "quantifier": "all faces of all 27-node hexahedra", "why_tests_cant": "needs the CGNS edge numbering as an independent specification", "anchors": ["cfdtools/meshbase/_elements.py:connectivity_hexa27"]}
{"id": "C66", "title": "A cube is ready for the writers", "statement": "For every cube of at least two cells, make_face_connectivity, bocomarks_set_node_to_face, make_unmarked_BC, check and reindex_boundaryfaces all succeed: no face is left unmarked, the six marks become consecutive ranges of ny nz, ny nz, nx nz, nx nz, nx ny, nx ny faces, every boundary face has a number in the range of the side it lies on and its row gives the adjacent cell, and export_mixedfaces gives all the faces of the grid.", "quantifier": "all nx,ny,nz and set iteration orders", "why_tests_cant": "composition of five operations on unbounded sizes", "anchors": ["cfdtools/meshbase/simple.py:Cube.export_mesh", "cfdtools/meshbase/_mesh.py:Mesh.reindex_boundaryfaces", "cfdtools/meshbase/_mesh.py:Mesh.export_mixedfaces"]}
{"id": "C67", "title": "Meshes to VTK grids and back", "statement": "The VTK writer's grid has the cells of the mesh type after type in order, with the same vertices and coordinates; export_mesh of a grid keeps the cells of each type in order and all coordinates, renumbers cells by increasing VTK code (numbers are kept exactly when the grid's types are sorted), and has no face nor mark. A type without VTK code is a KeyError.", "quantifier": "all meshes and grids", "why_tests_cant": "all cell orders", "anchors": ["cfdtools/vtk/_vtk.py:vtkMesh.set_mesh", "cfdtools/vtk/_vtk.py:vtkMesh.export_mesh"]}
{"id": "C68", "title": "Cell volumes can be asked for once", "statement": "vtkMesh.volumes() gives the volumes the first time; on a mesh of at least two cells every later call on the same object raises ValueError, with at most one cell every call works. Giving the object another grid (set_mesh, set_pvmesh, read) makes the next call give the volumes of that grid; changing the grid itself does not: after a call with one cell of non-zero volume all calls give that volume.", "quantifier": "all meshes, any number of calls", "why_tests_cant": "sequences of calls of any length", "anchors": ["cfdtools/vtk/_vtk.py:vtkMesh.volumes"]}
{"id": "C69", "title": "Any conforming mesh of cells converts to IC3", "statement": "For a conforming mesh of linear cells (largest cell number one less than the number of cells, at most two cells along a face, for each kind of face some on the boundary and some inside, numbers below 2^31) with marks on nodes, the IC3 writers of versions 2 and 3 succeed in every byte order and the reader gives back the same counts and coordinates, every side of every cell as exactly one face with the cells along it (boundary faces first), one zone for each mark with its name, type and periodic values, made of the boundary faces whose nodes are all in the mark, one zone 'unmarked' for the boundary faces of no mark if there are any, and the internal zone with all the other faces. If a mark has all the nodes of no boundary face, or two marks have all the nodes of the same boundary face, the writer raises.", "quantifier": "all conforming meshes of linear cells, marks, versions, byte orders and set iteration orders", "why_tests_cant": "composition of face extraction, marking, renumbering, writing and reading on unbounded meshes", "anchors": ["cfdtools/ic3/writerV2.py:writer", "cfdtools/ic3/writerV3.py:writer", "cfdtools/ic3/reader_legacy.py:reader.read_data", "cfdtools/meshbase/_mesh.py:Mesh.make_face_connectivity", "cfdtools/meshbase/_mesh.py:Mesh.bocomarks_set_node_to_face", "cfdtools/meshbase/_mesh.py:Mesh.reindex_boundaryfaces"]}
{"id": "C70", "title": "Cell numbers with gaps, and extruded meshes, give unreadable IC3 files", "statement": "A conforming mesh of linear cells whose largest cell number is not the number of cells minus one is written by the IC3 writers of versions 2 and 3 without any error, but the reader then raises AssertionError. In particular a conforming planar mesh of quadrangles with marks on boundary edges, extruded over two planes or more, is always written; the file is read back (as in C69) when there is one layer, or as many cells as nodes in the plane, and in every other case it cannot be read.", "quantifier": "all conforming meshes; all planar meshes of quadrangles, planes, directions, versions, byte orders", "why_tests_cant": "composition of extrusion, face extraction, marking, writing and reading on unbounded meshes", "anchors": ["cfdtools/meshbase/_connectivity.py:elem_connectivity.extrude", "cfdtools/meshbase/_mesh.py:Mesh.export_extruded", "cfdtools/ic3/writerV2.py:writer", "cfdtools/ic3/writerV3.py:writer", "cfdtools/ic3/reader_legacy.py:reader.read_data"]}
{"id": "C71", "title": "Marks are kept by name", "statement": "After any sequence of add_boco and remove_boco calls each name has the last mark added under it and not removed since, names stay unique, a new name comes last and a known one keeps its place, and nothing else of the mesh changes. Removing a name that is not there raises KeyError and changes nothing.", "quantifier": "all meshes and call sequences", "why_tests_cant": "call sequences of any length", "anchors": ["cfdtools/meshbase/_mesh.py:Mesh.add_boco", "cfdtools/meshbase/_mesh.py:Mesh.remove_boco"]}
{"id": "C72", "title": "CGNS zones of hexahedra become IC3 files that can be read if the cells come first", "statement": "A conforming unstructured CGNS zone of hexahedra (at most two along a face) whose boundary conditions, on points or listed faces, have different names, cover some boundary face each and never the same one, is exported with one mark per condition and written to IC3 in any version and byte order. When the cells are the first elements of the CGNS file, reading the IC3 file gives the counts, the coordinates, one face per side of the hexahedra with the cells along it, and one zone per boundary condition with the boundary faces it covers; when other elements come first the IC3 file is written all the same but reading it raises AssertionError.", "quantifier": "all such zones, section orders, versions and byte orders", "why_tests_cant": "any number of cells, sections and conditions; goes through two formats", "anchors": ["cfdtools/cgns/cgns.py:cgnszone.elemcon", "cfdtools/cgns/cgns.py:cgnszone.export_BC", "cfdtools/cgns/cgns.py:cgnsMesh.export_mesh", "cfdtools/ic3/writerV2.py:writer.write_data", "cfdtools/ic3/reader_legacy.py:reader.read_data"]}
{"id": "C73", "title": "Maps of probe lines: only one-letter variables, only long records", "statement": "ic3probe_plotline with a coordinate axis never draws a variable whose name has several letters (RHO, U-X, Mach, ...): it looks up the first letter. For a one-letter variable stored as a table of at least 2 lines and 2 points, the time map has the coordinates of the axis file, the times of the second column and the values of the file. The frequency map has the modes 1 to n//200-1 of the n samples and is refused (TypeError) when n < 600. An axis that has several lines is never accepted.", "quantifier": "all files, prefixes, names, sizes", "why_tests_cant": "depends on record lengths (400, 600 samples) and names; figures are not compared by tests", "anchors": ["cfdtools/_cli.py:ic3probe_plotline", "cfdtools/probes/plot.py:plot_timemap", "cfdtools/probes/plot.py:plot_freqmap", "cfdtools/probes/plot.py:check_axis"]}
{"id": "C74", "title": "Gmsh files become IC3 files when each boundary element has a named group", "statement": "A Gmsh file (version 2 or 4) of linear cells that share nodes conformingly, whose boundary elements carry named groups, and whose groups each contain all the nodes of some boundary face and never two of them the same one, is loaded with one mark per name and written to IC3 in any version and byte order. Reading the IC3 file gives back the counts, the coordinates in the order of the file, one face per side of the cells with the cells along it, and one zone per named group with the boundary faces whose nodes all belong to elements of the group (even faces that are in no element of the group). When a group covers no boundary face, or two groups cover the same one (a channel one cell high whose upper and lower walls share a name), the writer raises.", "quantifier": "all such files, both format versions, IC3 versions, byte orders", "why_tests_cant": "any number of nodes, elements and groups; goes through two formats", "anchors": ["cfdtools/gmsh/reader.py:reader.read_data", "cfdtools/gmsh/reader.py:reader.export_mesh", "cfdtools/ic3/writerV2.py:writer.write_data", "cfdtools/ic3/reader_legacy.py:reader.read_data"]}
{"id": "C75", "title": "The list of the sections of an IC3 file", "statement": "ic3brief shows, in the order of the file, the header of every section that has a known code, up to and including the EOF section; sections with unknown codes are passed over and a section whose name begins with DEOF ends the list without being shown. A file that stops before raises TypeError. For a file written in version 2 or 3 the list is: the counts, the three checks (version 2 only), faces, cells of faces, the zones, internal-domain, partition, coordinates, DATA, STEP, DT, TIME, the weights, the node scalars and vectors, the cell scalars, vectors and tensors, EOF, with names cut at 52 characters.", "quantifier": "all chains of sections, all meshes that can be written", "why_tests_cant": "any number of sections, names and payloads", "anchors": ["cfdtools/ic3/_ic3.py:binreader.read_headers", "cfdtools/_cli.py:ic3brief", "cfdtools/ic3/writerV2.py:writer.write_data", "cfdtools/ic3/writerV3.py:writer"]}
{"id": "C76", "title": "Opening an HDF5 file: what is read, what is lost", "statement": "Modes 'r' and 'r+' never change the file and report the kind and versions its attributes give (version 0 if there is a kind without version). Modes 'w', 'w-' and 'x' leave a file with exactly the version of cfdtools, the kind and the version of the data; 'w-' and 'x' leave an existing file alone, but 'w' loses the previous content even when open then fails (unknown kind: an empty file is left). 'a', allowed by the documentation, always fails and creates the missing file; other modes fail and change nothing. A file opened for writing reports the kind of data of the last file the same object read, and printinfo on a new object opened for writing raises AttributeError. vtkMesh.dumphdf(overwrite=True) loses the previous file even when it fails: with a cell type unknown to cfdtools only three attributes are left.", "quantifier": "all contents of the file, modes, kinds, versions, object states and grids", "why_tests_cant": "interplay of failures and file contents", "anchors": ["cfdtools/hdf5/_hdf5.py:h5File.open", "cfdtools/hdf5/_hdf5.py:h5File.printinfo", "cfdtools/vtk/_vtk.py:vtkMesh.dumphdf"]}
{"id": "C77", "title": "A DataSetList keeps the dictionaries themselves", "statement": "A DataSetList is made, empty, for 'instant', 'timeevol' or 'pod' times and 'nodal', 'cellaverage' or 'spectralcell' values, with one value per cell unless spectral; otherwise AssertionError. DataSetList.add_datalist keeps one entry per call in the order of the calls, whatever number of data sets was announced, and the entry is the caller's dictionary itself. A time that is given and not zero is written in that dictionary under 'time': entries with a dictionary of their own have their own time (none for a time of zero), while all the entries made from one dictionary show the last time given; whatever the caller writes later in a dictionary shows in its entries. DataSetList.dataSet always raises: AttributeError without a filter, ValueError with a filter without 'time', and AttributeError otherwise, after 'time' has been taken out of the caller's list.", "quantifier": "all sequences of additions and of changes by the caller, all dictionaries, times and filters", "why_tests_cant": "aliasing between any number of entries and calls", "anchors": ["cfdtools/data.py:DataSetList.add_datalist", "cfdtools/data.py:DataSetList.dataSet"]}
{"id": "C78", "title": "Lazy properties are computed once and never again", "statement": "For a class whose lazy properties do not need themselves: in any sequence of reads and changes of attributes the function of a lazy property returns at most once; the first value obtained is given forever, whatever the attributes become; a read that raises leaves nothing, the next read computes again; and as long as the attributes do not change, every read gives what the function would give without any cache. Reading changes no attribute, and a property first read after changes has the value of the changed attributes. For poly1d: once the Vandermonde matrix or weights have been asked for, all weights are those of the roots at that time, and if that matrix has no inverse they all raise, even after the roots have been corrected.", "quantifier": "all classes of lazy properties, all sequences of reads and changes", "why_tests_cant": "histories of any length, nested properties", "anchors": ["cfdtools/utils/_dev.py:lazyprop", "cfdtools/utils/polybase.py:poly1d"]}
{"id": "C79", "title": "cfdinfo shows any IC3 file that can be read, and no CGNS file", "statement": "Mesh.printinfo succeeds exactly when the three coordinates are there and not empty and no index of cells, faces or marks is unset or an empty list; it then shows the counts and, in order, for each kind of cell, kind of face and mark its name, the shape of its table and what its numbers are (first and last of a range; least, greatest and number of a list), and for each coordinate its least and greatest values. Every IC3 file that the reader accepts is shown when it has a node, and raises ValueError after the first line when it has none. cfdinfo chooses the reader by the suffix; for CGNS files (and VTK files) it raises TypeError before reading anything, since it gives the reader an argument that it does not take.", "quantifier": "all meshes, all files, all file names", "why_tests_cant": "arbitrary meshes and files", "anchors": ["cfdtools/meshbase/_mesh.py:Mesh.printinfo", "cfdtools/meshbase/_connectivity.py:indexlist.__str__", "cfdtools/meshbase/_connectivity.py:elem_connectivity.print", "cfdtools/_cli.py:cfdinfo", "cfdtools/cgns/cgns.py:cgnsMesh.__init__"]}
{"id": "C80", "title": "What conversion to VTK keeps, and why no IC3 file can be converted", "statement": "vtk.vtkMesh(mesh) of the mesh of a Gmsh file (elements of known types, named patches) has one cell per element of the largest dimension, with the VTK code of its type and its nodes counted from 0: one type after the other in the order of the first element of each, the elements of one type in the order of the file; points are the nodes of the mesh in order. The same for a CGNS zone with its sections (ValueError if no section has the dimension of the base), and for the cube, cell by cell with their coordinates. A node number outside the mesh raises ValueError. An IC3 file that can be read always gives a mesh without cells: vtkMesh raises AttributeError, also after scaling, and cfdwrite_vtk fails on any such file whatever its options, without creating any file.", "quantifier": "all files, all cube sizes, all options and file systems", "why_tests_cant": "arbitrary files and meshes", "anchors": ["cfdtools/vtk/_vtk.py:vtkMesh.set_mesh", "cfdtools/vtk/_vtk.py:vtkMesh.write_data", "cfdtools/_cli.py:cfdwrite_vtk", "cfdtools/_cli.py:write_generic", "cfdtools/gmsh/reader.py:reader.export_mesh", "cfdtools/cgns/cgns.py:cgnsMesh.export_mesh", "cfdtools/ic3/reader_legacy.py:reader.export_mesh"]}
{"id": "C81", "title": "A failed IC3 write leaves nothing that can be mistaken for a mesh", "statement": "The V2 and V3 writers raise iff the file they leave is not complete. If the constructor raises (byte order, preparation of the mesh, coordinates, faces) no file is created or truncated. If write_data raises, for whatever reason and at whatever section, the file holds the beginning of an IC3 file of this version and the reader raises on it, with or without integrity check, provided no name given by the user begins with DEOF. A converter to IC3 that raises leaves the existing files as they were, and at most one new file, which the reader refuses.", "quantifier": "all meshes with values of their types, all failures, all byte orders, all options and file systems", "why_tests_cant": "every place where a writer can raise, on every mesh", "anchors": ["cfdtools/ic3/writerV2.py:writer.write_data", "cfdtools/ic3/writerV3.py:writer.write_data", "cfdtools/ic3/writerV2.py:writer.set_mesh", "cfdtools/ic3/_ic3.py:BinaryWrite", "cfdtools/ic3/reader_legacy.py:reader.read_data", "cfdtools/_cli.py:write_generic"]}
{"id": "C82", "title": "A failed write of HDF5 IC3 files: broken meshes are refused, truncated statistics are not", "statement": "writerV4 opens no file when its constructor raises, and opens the solution file only once the mesh file is complete. When the mesh file could not be completed, the reader raises on it, with or without a solution file. When the solution could not be completed the mesh file is complete and is read. The solution file is then refused (KeyError) if step or time could not be stored or a conserved variable is missing; in all other cases (a weight that is not a number, two statistics whose names differ only by case) it is read without an error, with RHO, RHOU, RHOE and only those statistics that precede the failure. The reader raises FileExistsError for a file that does not exist; its ncell is the number of cells with a solution file, and AttributeError without one.", "quantifier": "all meshes, parameters and variables; every failure of the writer", "why_tests_cant": "every place where the writer can raise, on every mesh", "anchors": ["cfdtools/ic3/writerV4.py:writer.write_data", "cfdtools/ic3/writerV4.py:writer._write_boundaries", "cfdtools/ic3/writerV4.py:writer._write_solution_stats", "cfdtools/ic3/readerV4.py:reader.read_data"]}
{"id": "C83", "title": "vtkpack: one new file with all arrays, or nothing", "statement": "If a file of the list is missing, vtkpack refuses (RuntimeError) and changes nothing. It never writes more than one file, under a name that did not exist: dumped.h5, or dumped(n).h5 with the first free n, and the name returned is that of this file. A file whose cells are not at the places of those of the first file (a cell too far from all of them, or another number of cells, more than one) is a ValueError and nothing is written. Otherwise the file written has the points of the first file and its cells type by type, the time of each file that has a non-zero one and, for each input file, each cell array with every value used once, value j being that of a cell of this file at the place of cell j of the first file. The arrays follow the mesh imported again from the file when there is one type of cell; with several types the mesh may come in another order than the arrays.", "quantifier": "all lists of files and file systems, any number of files and arrays", "why_tests_cant": "any number of files, any reordering of the cells, any state of the folder", "anchors": ["cfdtools/_cli.py:vtkpack", "cfdtools/vtk/_vtkList.py:vtkList.allexist", "cfdtools/vtk/_vtkList.py:vtkList.read", "cfdtools/vtk/_vtkList.py:vtkList.dumphdf", "cfdtools/data.py:DataSetList.dumphdf"]}
{"id": "C84", "title": "Which lists and index lists are shared", "statement": "list(), range(), shift() and + leave their operands, all lists and all connectivities unchanged; an index list is changed only by set_range, set_list, append and compress called on it, or by add_elems of a connectivity that holds it, and a list only by its user. The list given to indexlist(ilist=) or set_list, and the list range() returns, are shared with the index list: the user changes the list and has changed the index list. What indexlist(irange=), shift, +, set_range and append make is the index list's own and no later change of a list by the user alters it; changing what list() returned alters nothing else. A program that does not change a list shared in this way and does not use an index list once it was given to add_elems behaves, if its calls of add_elems succeed, as if every variable had its own value. An index list given to two connectivities gets new numbers in both when elements are added to one of them. A failed add_elems leaves the number of elements increased and, when the rows do not match those of the type, the type with more numbers than rows.", "quantifier": "all programs of any length over these methods, all states of the memory", "why_tests_cant": "all programs, with any aliasing", "anchors": ["cfdtools/meshbase/_connectivity.py:indexlist", "cfdtools/meshbase/_connectivity.py:indexlist.set_list", "cfdtools/meshbase/_connectivity.py:indexlist.range", "cfdtools/meshbase/_connectivity.py:indexlist.append", "cfdtools/meshbase/_connectivity.py:elem_connectivity.add_elems"]}
{"id": "C85", "title": "XMF files are XML documents that say what was dumped", "statement": "The text that vtkList.dumphdf(xdmf=True) writes in the XMF file is a well-formed XML document, provided the name of the file and the names of the arrays need no escape. Read as a tree it is Xdmf > Domain > a temporal collection of grids with, for time step k, one grid holding the number k, the points, one topology per type of cell that occurs, by increasing VTK code, with the XDMF name of the type, the number of cells and the number of node numbers, and one attribute per array other than time, Scalar for one dimension and Vector for two; each refers to its place in the HDF5 file. A text is at most one such tree. With a line among the cells the HDF5 file is written but KeyError is raised instead of the XMF file.", "quantifier": "all grids, time steps, array names and file names", "why_tests_cant": "all grids, names and numbers of steps", "anchors": ["cfdtools/vtk/_vtkList.py:vtkList.dumphdf", "cfdtools/vtk/_vtkList.py:vtkList._dumpxdmf", "cfdtools/vtk/_vtk.py:vtkMesh.xdmf_content", "cfdtools/data.py:DataSetList.xdmf_content"]}
{"id": "C86", "title": "What a command line means", "statement": "The words given to a cfdwrite_... tool are options in any order around one file name. Each option has its meaning whatever its place, as two words or joined by '='; of an option given twice the last counts; --check, --log and the data of nodes and faces to remove change nothing. The words that do not begin with a dash, '-' alone and negative numbers such as -2 or -.5 are values; '-1e3' or '-1.' are not and are refused. A list of names to remove goes on to the next option, so that a file name just after it is taken for a name and the command is refused, unless '--' comes between; after '--' any word is the file name. Also refused, without touching any file: no file name, two file names, a format without reader, a number that is not one, a missing value, a value given to a flag, the beginning of several option names, and, wherever it stands before '--' and whatever the other words, a word that looks like an option and is none; the beginning of one name is this option. '--=word' is accepted and does nothing; asking for the help, also with letters behind -h, does nothing else. cfdwritecube takes the format and the sizes, 10 by default, in the same way; vtkpack takes the files in the order given, at least one; both refuse unknown options too.", "quantifier": "all lists of words, all formats registered, all files", "why_tests_cant": "all command lines", "anchors": ["cfdtools/_cli.py:cli_argparser.addarg_filenameformat", "cfdtools/_cli.py:cli_argparser.addarg_removedata", "cfdtools/_cli.py:cli_argparser.addarg_transform", "cfdtools/_cli.py:cli_argparser.parse_cli_args", "cfdtools/_cli.py:write_generic", "cfdtools/_cli.py:cfdwritecube", "cfdtools/_cli.py:vtkpack"]}
{"id": "C87", "title": "Meshes exported by one IC3 reader share their parameters, data and marks", "statement": "export_mesh gives the mesh the reader's own dictionary of parameters, data sets and marks. In any program of readers, readings, exports and changes of meshes: update_params of one mesh changes the parameters of all meshes exported from the same reading (version 2 and 3) or by the same reader (version 4), and so does a variable added to its cell data, unless one of the two was given others by set_params or set_celldata; a change of a mark obtained by seekmark is seen in all meshes exported after one and the same read_data, unless one of them has got another mark of this name or removed it. Exporting again sets the parameters of the simulation back in all of them and gives a mesh with the parameters and data as changed by the user. What one mesh is given (parameters, data, marks added or removed, coordinates) is seen in this mesh only. Nothing else changes a mesh: in particular reading again with a reader of version 2 or 3 does not, while reading again with one of version 4 adds the number of zones to nboco of the meshes already exported and replaces their solution. The first mesh exported after reading with version 2 or 3, and the first of a reader of version 4, is what reading the file by values gives (C34 to C44).", "quantifier": "all programs of any length over any number of readers, files and meshes", "why_tests_cant": "all programs, with any aliasing", "anchors": ["cfdtools/ic3/reader_legacy.py:reader.export_mesh", "cfdtools/ic3/reader_legacy.py:reader.read_data", "cfdtools/ic3/readerV4.py:reader.read_data", "cfdtools/ic3/readerV4.py:reader.export_mesh", "cfdtools/meshbase/_mesh.py:Mesh.set_params", "cfdtools/meshbase/_mesh.py:Mesh.update_params", "cfdtools/meshbase/_mesh.py:Mesh.set_celldata", "cfdtools/meshbase/_mesh.py:Mesh.seekmark", "cfdtools/meshbase/_mesh.py:Mesh.add_boco"]}
{"id": "C88", "title": "Meshes converted to the HDF5 files of IC3", "statement": "A conforming mesh of linear cells (as in C69, periodic marks with three reals or more and not named labels, offsets or kinds) is written to a version 4 mesh file in every byte order, with one table of nodes for each kind of cell; when its largest cell number is one less than the number of cells the file is read back with the same counts and coordinates, every side of every cell as one face with the cells along it, one zone per mark with the first three reals of its periodic values and none where there were none, the unmarked faces and the inside, no data, step and time 0; otherwise the file is written all the same and reading it raises AssertionError. If a mark covers no boundary face, or two marks the same one, nothing is written. This applies to boxes of hexahedra, to CGNS zones of hexahedra (read back exactly when the cells come first in the CGNS file) and to Gmsh files (all zones then have three zeros). A mesh read from a file of version 2 or 3 and written to version 4 comes back with its mesh and zones (three zeros as periodic values where there were none), without cell tables; without a solution file it has lost its data, step and time; with one, RHO, RHOU, RHOE and the statistics have the values, the step and the time those of before the first file, and the weights too when there are statistics; other variables and node data are lost. When RHO, RHOU or RHOE is missing, the solution file is written but reading it raises KeyError.", "quantifier": "all such meshes, files, versions, byte orders and set iteration orders", "why_tests_cant": "composition of readers, face extraction, marking, writing and reading in up to three formats on unbounded meshes", "anchors": ["cfdtools/ic3/writerV4.py:writer.write_data", "cfdtools/ic3/readerV4.py:reader.read_data", "cfdtools/ic3/readerV4.py:reader.export_mesh", "cfdtools/ic3/reader_legacy.py:reader.read_data", "cfdtools/cgns/cgns.py:cgnsMesh.export_mesh", "cfdtools/gmsh/reader.py:reader.export_mesh"]}
{"id": "C89", "title": "HDF5 files of IC3 written again from what was read", "statement": "A mesh that was read from a version 4 mesh file and its solution file is written again, on any machine and in any byte order, to files with the same contents: the counts, coordinates, connectivities, zones (names, first faces, kinds, periodic values), attributes, weights, conserved variables and statistics; only the cells, which are not read back, are missing. Writing it does not change it, the new files give the same mesh, and any number of further rewritings gives the same files. Read without its solution file and written with one, the new solution file has step and time 0 and no variable, and cannot be read (KeyError).", "quantifier": "all meshes, variables, machines, byte orders and numbers of rewritings", "why_tests_cant": "fixed point of writer and reader over unbounded meshes and unbounded sequences of rewritings", "anchors": ["cfdtools/ic3/writerV4.py:writer.write_data", "cfdtools/ic3/writerV4.py:writer._write_boundaries", "cfdtools/ic3/readerV4.py:reader.read_data", "cfdtools/ic3/readerV4.py:reader.export_mesh"]}
{"id": "C90", "title": "The converters to IC3 as whole commands", "statement": "cfdwrite_ic3v2 and cfdwrite_ic3v3, from the words of the command line and the contents of the files to the bytes of the new file. A conforming Gmsh file (version 2 or 4, all nodes read), whatever the order of the words and with --scale or not, gives one more file, under a name that was free, built on the stem of the input in the folder of --outpath; the reader reads it back with the faces of the cells, one zone for each patch and the coordinates multiplied by the scale. With --extrude n a planar file of quadrangles gives a file with n layers, which can be read again only if n is 1 or if there are as many nodes as quadrangles. A CGNS file of hexahedra gives a file that can be read if and only if its cells are numbered first. An IC3 file written by the library is converted to a file of the same mesh, and converting that one gives the same bytes. cfdwritecube --nx --ny --nz with an IC3 name gives the file of the cube. Whatever the words and the files, all existing files keep their contents, at most one file is added, and the command ends with its name or an error, or stops with status 2, or 0 when help was asked for.", "quantifier": "all command lines, file systems, Gmsh, CGNS and IC3 inputs of the given forms, sizes, scales, numbers of layers, byte orders of the machine", "why_tests_cant": "the command line, the registry, the readers, the transformations, the side tables and the writers interact; each input is unbounded", "anchors": ["cfdtools/_cli.py:cfdwrite_ic3v2", "cfdtools/_cli.py:cfdwrite_ic3v3", "cfdtools/_cli.py:write_generic", "cfdtools/_cli.py:cfdwritecube", "cfdtools/gmsh/reader.py:reader.read_data", "cfdtools/cgns/cgns.py:cgnsMesh.read_data", "cfdtools/ic3/reader_legacy.py:reader.read_data", "cfdtools/ic3/writerV3.py:writer.write_data"]}
{"id": "C91", "title": "The converter to VTK as a whole command", "statement": "cfdwrite_vtk, from the words of the command line and the contents of the files to the grid of the new file. A Gmsh file whose nodes were all read, whatever the order of the words and with --scale or not, gives one more file, under a name that was free, built on the stem of the input in the folder of --outpath, that holds the elements of the largest dimension, type by type, on the nodes of the file multiplied by the scale; an element with a node that does not exist makes the command fail and write nothing. With --extrude n a planar file of quadrangles gives n layers of hexahedra on n + 1 copies of the nodes; a planar file with a triangle makes it fail and write nothing. A negative number of layers always fails. An IC3 input always fails. A CGNS file gives the elements of the sections of the dimension of its base; it fails if there is none, or if a node does not exist. cfdwritecube with a VTK name gives the grid of the cube. Whatever the words and the files, existing files keep their contents, a command that fails or stops adds none, and one that ends with a name has added the file of that name and no other.", "quantifier": "all command lines, file systems, Gmsh, CGNS and IC3 inputs, scales, numbers of layers, sizes of cubes", "why_tests_cant": "the command line, the registry, the readers, the transformations and the VTK conversion interact; each input is unbounded", "anchors": ["cfdtools/_cli.py:cfdwrite_vtk", "cfdtools/_cli.py:write_generic", "cfdtools/_cli.py:cfdwritecube", "cfdtools/gmsh/reader.py:reader.read_data", "cfdtools/cgns/cgns.py:cgnsMesh.read_data", "cfdtools/vtk/_vtk.py:vtkMesh.set_mesh", "cfdtools/vtk/_vtk.py:vtkMesh.write_data"]}
{"id": "C92", "title": "What a converter to IC3 that fails leaves on the disk, as a whole command", "statement": "cfdwrite_ic3 and cfdwrite_ic3v3, from the words of the command line and the contents of the files. Whatever the words and whatever the Gmsh, CGNS or IC3 inputs, provided that no name in them begins with the letters DEOF: if the command raises an exception, either the files are unchanged, or there is one more file, under a name that was free, and the IC3 reader refuses it, whatever its integrity check; a partial result is never taken for a mesh. If the command ends normally, there is one more file, under the name it gives, that was free; its first words give the version asked for, and reading its headers one after the other gives the whole list of the sections of a mesh, up to EOF. A conforming Gmsh file with a patch that covers no boundary face, or with two patches that cover the same one (as the inlet of a channel between two walls of the same name), makes the command fail and write nothing, with --scale or not.", "quantifier": "all command lines, file systems, contents of files, versions, scales, numbers of layers, exceptions at any point of the writing", "why_tests_cant": "the exception may come at any call of any section of a file of any size, for a mesh made by any reader and any transformation", "anchors": ["cfdtools/_cli.py:cfdwrite_ic3", "cfdtools/_cli.py:cfdwrite_ic3v3", "cfdtools/_cli.py:write_generic", "cfdtools/ic3/writerV2.py:writer.write_data", "cfdtools/ic3/writerV3.py:writer.write_data", "cfdtools/ic3/reader_legacy.py:reader.read_data"]}
{"id": "C93", "title": "The commands that only read, as whole programs, and what they show after a conversion", "statement": "cfdinfo and ic3brief, from the words of the command line and the contents of the files. The options --fmt, --outpath, --check, --info and --log may come before or after the file name; the format said last counts, a format that cannot be read ends both commands with status 2, and a word that looks like an option and is none of theirs, --scale for instance, also ends them. ic3brief lists the headers of the file, read as an IC3 file whatever the format said. cfdinfo reads the file in the format said last or, if none is said, that of its suffix, with the integrity check of IC3 files only if --check is there, and shows the mesh read or raises the exception of the reader, without showing anything; a CGNS file is always refused. After a converter to IC3 that ended normally, whatever it read, ic3brief of the file it named lists the sections of a mesh, up to EOF. After a converter that failed, either there is no new file, or cfdinfo refuses the new file, with --check or not. After the conversion of a conforming Gmsh file, with --scale or not, cfdinfo of the result shows the number of nodes and cells of the Gmsh file, the number of faces of its cells, the least and greatest (scaled) coordinates, and for each patch the range of exactly those boundary faces that it covers.", "quantifier": "all command lines, file systems, contents of files, versions, scales, options in any order and number", "why_tests_cant": "two commands in sequence on inputs of any size; the second must accept all that the first produces, and refuse all that it leaves when it fails", "anchors": ["cfdtools/_cli.py:cfdinfo", "cfdtools/_cli.py:ic3brief", "cfdtools/_cli.py:cli_argparser", "cfdtools/_cli.py:cfdwrite_ic3", "cfdtools/ic3/_ic3.py:binreader.read_headers", "cfdtools/meshbase/_mesh.py:Mesh.printinfo"]}
{"id": "C94", "title": "The map of a line of probes, as a whole command", "statement": "ic3probe_plotline, from the words of the command line and the files of the probes to the figure. The options --data, --axis, --map, --cmap, --cmaplevels, -v and --check may come before or after the prefix, with their value apart or joined by =; of several, the last counts. The command draws the map asked for of the variable and the axis asked for, by default the time map of P along X in the map turbo with 30 levels; --check changes nothing, and -v never changes a figure that is drawn (only which exception is raised). A command line without a prefix, with a map other than time and freq, or with a number of levels that is not an integer ends with status 2. A variable with a name of several letters is never drawn along a coordinate. For a variable of one letter, the time map shows the values of its file, without their first three columns, against the coordinates and the times of that file; the map of frequencies fails with fewer than 600 samples, and otherwise shows the modes 1 to n // 200 - 1 of the n samples.", "quantifier": "all command lines, prefixes, files, numbers of probes and samples; the means, transforms and arithmetic of numpy as parameters", "why_tests_cant": "options in any order, number and spelling, files of any size; tests plot one line with the default options", "anchors": ["cfdtools/_cli.py:ic3probe_plotline", "cfdtools/probes/data.py:phydata.check_data", "cfdtools/probes/plot.py:plot_timemap", "cfdtools/probes/plot.py:plot_freqmap"]}
{"id": "C95", "title": "Packing VTK files, as a whole command and after a conversion", "statement": "vtkpack, from the words of the command line and the files to the HDF5 file. Whatever the words, no file is changed and at most one is added: dumped.h5, or dumped(n).h5 with the first n that is free; the name given back is that of the file added, and a command line that is not understood adds nothing. Without a file the command ends with status 2; if one of the files is missing it raises RuntimeError and writes nothing; two files without data, of different numbers of cells, neither being 1, raise ValueError and write nothing. The files are packed in the order of the words, the mesh being that of the first. A Gmsh file converted by cfdwrite_vtk and then packed gives an HDF5 file whose mesh has, type by type, the elements of the Gmsh file in its order on its nodes, scaled if asked for; a cube written by cfdwritecube and then packed gives the cells of the cube, numbered as in the cube, on its nodes.", "quantifier": "all command lines, files, meshes and numbers of cells; the distances, the nearest neighbour and the centres of pyvista and scipy as parameters", "why_tests_cant": "two commands chained over meshes of any size with several types of cells; tests pack a few fixed files", "anchors": ["cfdtools/_cli.py:vtkpack", "cfdtools/_cli.py:cfdwrite_vtk", "cfdtools/_cli.py:cfdwritecube", "cfdtools/vtk/_vtkList.py:vtkList.dumphdf"]}
{"id": "C96", "title": "vtkbrief as a whole command, alone and after a conversion", "statement": "vtkbrief, from the words of the command line and the files to what is shown. Whatever the options, and whatever the suffix of the file or the format given by --fmt, the file is read by pyvista; the command shows its numbers of cells and points, the bounds of all its points, and the names of its cell data and field data. A missing file raises FileNotFoundError. Without a file, or with a format other than IC3, GMSH and CGNS (be it VTK, the default), the command ends with status 2; an unknown option ends it too; it always ends. After cfdwrite_vtk on a Gmsh file it shows the number of elements of the highest dimension of that file, its number of nodes, the bounds of its coordinates, scaled if asked for, and no data; after cfdwritecube it shows nx*ny*nz cells and (nx+1)*(ny+1)*(nz+1) points.", "quantifier": "all command lines, files, meshes and sizes of the cube; the bounds computed by pyvista from the points as a parameter", "why_tests_cant": "options in any order and number, meshes of any size; tests run it on one file and check nothing of what is shown", "anchors": ["cfdtools/_cli.py:vtkbrief", "cfdtools/vtk/_vtk.py:vtkMesh.brief", "cfdtools/vtk/_vtk.py:vtkMesh.read"]}
{"id": "C97", "title": "Every byte of an IC3 file", "statement": "A file written by the writers 2 and 3 holds, in the byte order asked for, the magic number 123581321 and the version, then the sections in this order: counts (code 10: nodes, faces, cells, nodes of the faces), the checks of writer 2 (codes 30, 20, 40), nodes of the faces (21: sizes then nodes), cells of the faces (22), one zone a mark (23: kind 1 to 5, first and last face, the numbers of a periodicity), the internal zone (23, kind 6, from the face after the last mark to the last face), the parts of the cells (41), the coordinates node by node (31), DATA (50), STEP (11), DT and TIME (12), one weight a section (12, the name in capitals with _WGT), the scalars and vectors of the nodes (32 or 34, 33) and the scalars, vectors and tensors of the cells (42 or 45, 43, 44), and EOF (51). Each section is its name on 52 bytes, its code, its total size, 8 integers, 16 floats and its data, all numbers given by their base-256 digits. Files of the writer 4 hold the same counts, coordinates, nodes and cells of the faces, the labels, first faces and kinds of the zones, the internal one among them, sorted by first face, then the number of faces, and the first three numbers of each periodicity; and step, time, rho, rhou, rhoe, the statistics under small letters and their weights.", "quantifier": "all meshes, data, parameters, byte orders and versions", "why_tests_cant": "files are read by a solver that is not in the repository: tests read back what was written with the same constants, so a wrong code or a swapped field on both sides is never seen", "anchors": ["cfdtools/ic3/_ic3.py:restartSectionHeader.write", "cfdtools/ic3/writerV2.py:writer.write_data", "cfdtools/ic3/writerV3.py:writer.write_data", "cfdtools/ic3/writerV4.py:writer.write_data"]}
{"id": "C98", "title": "What the IC3 readers print of themselves", "statement": "printinfo of the readers of IC3 files, line by line. For versions 1 to 3: before read_data it raises AttributeError and prints nothing; after read_data it shows the file name, the names of the simulation state, the keys, then the counts of the file (nodes, faces, cells, nodes of the faces, zones), the numbers of faces with one cell and of periodic faces among its faces, the shapes of the connectivity and of the coordinates, with the values of arrays of at most ten items, and the partition; then the variables on nodes and on faces, each under its name once, each with the numbers of a section of the file of that name, of the right code and of the right count; if every scalar and vector section has the size of its numbers, every one on nodes or faces is shown. A variable on cells is never shown. After export_mesh it also shows the simulation state among the parameters, because they are the dictionary of the mesh. The reader of version 4 can print before it has read (all counts 0, no array, two counts that go away later), and never shows a variable, even after a solution file was read.", "quantifier": "all files, names, stages of the reader; the text of numbers and arrays is not modelled", "why_tests_cant": "what is shown depends on sections in any number and order, on arrays of any size, and on which calls were made before", "anchors": ["cfdtools/ic3/reader_legacy.py:reader.printinfo", "cfdtools/ic3/reader_legacy.py:reader.__str__", "cfdtools/ic3/reader_legacy.py:reader._ReadRestartVar", "cfdtools/ic3/readerV4.py:reader.printinfo", "cfdtools/ic3/readerV4.py:reader.__str__", "cfdtools/api.py:_printreadable"]}
{"id": "C99", "title": "Taking data of the nodes out of a mesh", "statement": "Mesh.pop_nodedata on a mesh whose node data is a dictionary (a mesh made by hand) gives the array of that name, or None if there is none, and takes that name away: all the rest of the mesh and the order of the other names are kept. A sequence of calls, with any names and repetitions, gives each array once and leaves exactly the names that were not asked for. On a mesh read from an IC3 file (version 1 to 3) it never takes anything away: it raises AttributeError if the name is there and gives None if not; on a mesh read from version 4 files it always gives None.", "quantifier": "all meshes, names, sequences of names and files", "why_tests_cant": "sequences of calls of any length on data of any kind; whether the data is a dictionary depends on where the mesh comes from", "anchors": ["cfdtools/meshbase/_mesh.py:Mesh.pop_nodedata", "cfdtools/ic3/reader_legacy.py:reader.export_mesh", "cfdtools/ic3/readerV4.py:reader.export_mesh"]}
