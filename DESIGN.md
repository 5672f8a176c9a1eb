# Formal model of jgressier/cfdtools in Rocq

`properties.jsonl` lists what is claimed, `MANIFEST.json` the theorems that prove it,
`rocq/theories` holds the model and the proofs, `seeded/LOG.jsonl` the wrong programs the
theorems were tried against.

## 1. Layout

For each part of the code there are up to four kinds of files:

* `X.v`: the model. Each definition has a comment with the file and lines of `/repo` it mirrors.
* `XSpec.v`: the vocabulary of the statements (what a mesh, a face, a file *is*). It does not use the
  functions of the model, only its data types.
* `X...Proofs.v`, `XThm.v`, ...: lemmas.
* `XProps.v`: the theorems `Cnn_...` named in the manifest, each followed by `Print Assumptions`, and
  concrete cases (`Example`) that meet the hypotheses and show that they are not empty.

`Py.v` is the common base: results, exceptions, dictionaries, numpy indexing. `PyFacts.v` its lemmas.

## 2. Trusted base

* The kernel of Coq 8.16.1 and the `coqc`/`vcheck` tool chain (`vm_compute` is used; no
  `native_compute`, no plugin of our own, no disabled check).
* Axioms. There are none of our own. `Print Assumptions` gives "Closed under the global context" for
  every theorem named in the manifest except the four theorems of C49 (`C49_refused`,
  `C49_protocol`, `C49_monotone`, `C49_with`). They speak about real durations, and depend on axioms of
  the standard library, through its real numbers:
  `ClassicalDedekindReals.sig_not_dec`, `ClassicalDedekindReals.sig_forall_dec`,
  `FunctionalExtensionality.functional_extensionality_dep`, `Classical_Prop.classic`.
  `vcheck` also lists parameters of sealed modules of the standard library (`Rdefinitions`,
  `ssrunder`) and of mathcomp (`finset`, `perm`, `finfun`, `fintype`, `bigop`, ...): these are
  abstract names with a body in the library, not axioms; they come with `Require`.
* The model itself: that the definitions of `X.v` say what Python, numpy and the other libraries do
  with the code. Sections 3 to 5 say what was simplified.
* The statements: that `XSpec.v` and the theorems say what the sentences of `properties.jsonl` say.

## 3. Conventions of the model

* Python integers are `Z`. numpy int64 arrays are lists of `Z`; overflow of in-memory arithmetic is
  not modelled, overflow at the file boundary is (struct codes, int32 datasets).
* Exceptions are values: `res A := Ok a | Err e`, with `e : exn` the Python class. `api.error_stop`
  is `RuntimeError`. Messages are dropped. Functions are mirrored in source order, so that the first
  exception is the one of the program.
* Python dicts are association lists in order of insertion (overwriting keeps the place).
* The order of iteration of Python sets is an argument `enum`; theorems quantify over all functions
  that enumerate a set (`set_enum`).
* Memory that is not initialised (`np.empty`) is an argument `junk`; theorems hold for all values.
* numpy indexing wraps negative indices and raises `IndexError` out of range.
* 64-bit floats are bit patterns in `[0, 2^64)` where they are only moved around (files). Where
  arithmetic matters it is a parameter (`add`, `mul`, ...) or an exact field; rounding is not
  modelled, except in `Timer`, which uses Flocq.
* Objects are records, methods are functions from a state to a result and a state. When a method
  changes the object before raising, the model returns the changed state next to the error.
* Loops are structural or carry fuel. Running out of fuel is the separate outcome `OutOfFuel`;
  theorems show that it cannot happen with the fuel given (C32 for the IC3 reader).
* Concurrent processes (C46) are an interleaving transition system.

## 4. What is modelled

| code | model | not modelled |
|------|-------|--------------|
| `meshbase/_connectivity.py` | `IndexList`, `Conn`, `Extrude`: all classes and methods by values; `IndexHeap`: `indexlist` and `add_elems` again with shared objects (C84) | sharing of the arrays of nodes |
| `meshbase/_elements.py` | `Elements`: all tables, both side tables and the switch between them | |
| `meshbase/_mesh.py` | `Mesh`, `Extrude`: marks, face sets, coordinates, checks, `reindex_boundaryfaces`, `export_mixedfaces`, `export_extruded`, `pop_celldata` (`Cli`), `pop_nodedata` (`PopData`), `printinfo` (`Info`); parameters, data and marks as shared objects (`ReaderHeap`, C87) | `set_facedata`, `exportmark_asmesh` (returns an empty mesh) |
| `meshbase/simple.py` | `Simple`: `Cube` | |
| `ic3/_ic3.py` | `Ic3Bytes`, `Ic3`: packing, headers, section search, type tables; every byte of a file stated apart from these constants in `Ic3LayoutSpec` (C97), so that an error made by the writer and the reader alike is seen | |
| `ic3/reader_legacy.py` | `Ic3`: whole reader; `ReaderHeap`: what it shares with the meshes it exports; `ReaderInfo`: `variables`, `__str__`, `printinfo` | text of `print_stats_*` |
| `ic3/writerV2.py`, `writerV3.py` | `Ic3`: both writers, including the preparation of the mesh; `Ic3Fail`: what is left in the file by a failure | `check` (calls `Mesh.check`, not called by `write_data`) |
| `ic3/writerV4.py`, `readerV4.py` | `Ic3V4`: meshes and solutions on an abstract HDF5 tree; contents of the files stated apart in `Ic3LayoutV4Spec` (C97); `Ic3V4Fail`: the files at every step of the writer; `ReaderHeap`: what the reader shares with its meshes; `ReaderInfo`: `printinfo` of the reader | `_write_mesh_vars` (never called), `print_stats_scalar` |
| `gmsh/reader.py`, `_gmsh.py` | `Gmsh`: versions 2 and 4, from the lines of the file split in words | opening the file, logging |
| `cgns/cgns.py` | `Cgns`: from the tree of HDF5 nodes to the mesh | `open`, `printinfo`, `list_bases` |
| `vtk/_vtk.py` | `Vtk`, `Zconv`, `Hdf5`: `vtkMesh`, extraction, volumes, `vtk_zconvolution`, `dumphdf`, XDMF | plotting |
| `vtk/_vtkList.py` | `VtkList`, `Hdf5`, `VtkPack` | |
| `hdf5/_hdf5.py` | `Hdf5`, `Hdf5Open`: `h5File`, with what `open` leaves on disk | `h5_str` |
| `data.py` | `Data`, `DataList`, `Spectrum`, `Hdf5` (`DataSetList` output) | transforms themselves |
| `probes/data.py` | `Probes` | parsing of numbers |
| `probes/plot.py`, `plot.py` | `ProbePlot`: which data is drawn, the shapes `contourf` accepts | colours (`normalizeCmap`), matplotlib itself |
| `utils/polybase.py` | `Poly`; the caches in `Lazy` | scipy's root finder (a parameter) |
| `utils/_dev.py` | `Lazy`: `lazyprop` | |
| `utils/maths.py` | `minavgmax` (`Info`), `distance` (a parameter of `VtkList`) | |
| `api.py` | `Files`, `Race`, `Cli` (registry), `Timer`, `Memo`, `ReaderInfo` (`_printreadable`) | log set-up |
| `_cli.py` | `Cli`: reader and writer choice, `cfdwrite...` converters, `cfdwritecube`, `ic3probe_plotline`; the list shown by `ic3brief` (C75), `cfdinfo` (`Info`), `vtkpack` (`VtkPack`); `CmdLine`: the command lines, through a model of `argparse` (3.11) for these parsers; `Whole`: the converters to IC3 and `cfdwritecube` from the words and the files to the bytes (C90), and what is left of them after an exception (C92); `VtkWhole`: `cfdwrite_vtk` and `cfdwritecube` to the grid (C91); `InfoWhole`: `cfdinfo` and `ic3brief` from the words and the files to what is shown (C93); `ProbeWhole`: `ic3probe_plotline` from the words and the files to the figure (C94); `PackWhole`: `vtkpack` from the words and the files to the HDF5 file, alone and after a conversion to VTK (C95); `VtkBrief`: `vtkbrief` from the words and the files to what is shown (C96) | texts of the help and of messages |
| `physics/dicovar.py` | nothing (tables of names without code) | |

## 5. Simplifications

* Names and texts are strings of code points below 256. Memory is unbounded.
* Files: `Ic3.v` gives the outcome of the IC3 writers; what is on disk after one raised is in `Ic3Fail.v` (V2 and V3) and `Ic3V4Fail.v` (V4).
  A failed call of `BinaryWrite` writes nothing: `struct.pack` raises before `write`.
  `Path.exists` never raises. `pathlib` is that of Python up to 3.13.
* numpy: integer division by zero and negative `np.zeros` sizes are not reached in the model.
  `np.allclose` is a parameter where it is used. Transforms of `Spectrum` are known by their
  lengths only, and the integer quotients are exact below 2^52.
* `Poly` computes with exact numbers; `Probes`, `Zconv` and `VtkList` leave arithmetic, distances and
  the KD-tree as parameters (`nearest` is any function with the contract of the tree). NaN is excluded
  from comparisons in `VtkList`.
* `Gmsh`: the conversions of words to numbers are parameters.
* `Cgns`: children of a node are in a given order; a dataset of the wrong kind is a `TypeError`; the
  content of `BCtype` is dropped.
* pyvista is modelled by contract: arrays of an unstructured grid, construction from a dict,
  `cells_dict`; numpy 2 arithmetic on uint8.
* h5py is modelled by contract: creation of an existing name raises `ValueError`, children are listed
  by name, lists beyond int32 raise `OverflowError`, arrays are converted by a parameter `narrow`,
  labels are ASCII, cut at 128 characters and stripped of trailing NULs. Names that are HDF5 paths are
  treated only in C62. XDMF is a list of lines; C85 reads their text as XML with the grammar of `XmlSpec`.
* `ReaderHeap`: coordinates and connectivities are values (the package changes no such array in place); `wgt` and
  `partition` are not objects of their own; a mesh has one name; data sets and dictionaries given to a setter are new ones.
* `Timer`: layout of messages is dropped.
* `Whole`: a file is seen as bytes, as lines of words (Gmsh) or as the tree that h5py gives (CGNS), by three parameters; real sums, products,
  quotients and `np.linspace` are parameters that give 64-bit patterns. `VtkWhole`: the bytes that pyvista saves for a grid are a parameter.
  `PackWhole`, `VtkBrief`: the theorems on a conversion followed by `vtkpack` or `vtkbrief` take as hypotheses that pyvista reads back the grid it saved, that a grid has one centre
  per cell, and that a centre is within the tolerance of itself.
  C92 supposes that no name in the inputs begins with `DEOF` (a section with that name ends the list that the reader follows, finding of C75) and that floating point
  operations give 64-bit patterns.
* `CmdLine` follows `argparse` of Python 3.11 (the treatment of '--' changed in later versions) on ASCII words; it was compared
  with the real one on 9000 random command lines. `int` and `float` of a word are parameters.

## 6. Findings

The theorems include refutations: these are proved to happen for all inputs of the given form.

Connectivity and faces
* `elem_connectivity.check` rejects permuted numberings such as quad, tri, quad (C04); merging three or
  more connectivities repeats numbers (C09); `compressed_listofindex.check` accepts decreasing
  offsets (C05).
* Lists given to index lists, and index lists given to connectivities, are shared; a failed `add_elems` leaves
  numbers without elements (C84).
* A face of three cells silently loses one (C13); one cell, or no face shared, raises
  `AssertionError` (C13). The mid-edge nodes of 27-node hexahedra do not match those of 9-node
  quadrangles (C65). What was read before changes the side table in force (C15).
Marks
* `make_unmarked_BC` overwrites a mark named "unmarked" (C17); `check` adds a mark and then raises (C18);
  `reindex_boundaryfaces` is not atomic (C20); `pop_faces` leaves the face counter (C22).
* A mark spanning no face, or two marks spanning one face, make the IC3 writers raise (C69).
Extrusion
* Numbers are shifted by the number of nodes, not of cells (C28): with two layers or more the
  IC3 file of an extruded mesh is written but cannot be read (C70). Marks named like the end planes
  are overwritten and periodic values dropped (C27); triangles give an unknown type, bars give twisted
  quadrangles (C29).
IC3
* A name beginning with DEOF ends the file (C36). Cell data is read as node data when the counts agree
  (C38). Node vectors, face data and weights are lost in a read-write cycle (C39). Without marks the
  internal zone starts at face 1 (C37). V3 files of variables with several values per cell and
  `cv=no`, or with different numbers per variable, are wrong or refused (C34, C39).
* V4: only three periodic reals are kept, gaps and overlaps of marks are lost, node numbers beyond
  int32 are stored as other numbers, names and shapes of solutions restricted (C43, C44). A mesh read
  from V4 cannot be written in V2 or V3 (no partition). A solution that fails in its statistics leaves
  a file that is read without an error (C82).
* Any mesh whose largest cell number is not the number of cells minus one is written but cannot be
  read (C70), hence any CGNS file whose cells do not come first (C72).
* A Gmsh channel one cell high whose upper and lower walls share a name cannot be written to IC3: the
  inlet has all its nodes on the walls (C74).
* The meshes exported by one reader share parameters, data and marks: a change of one is seen in the others, and
  exporting again resets `step` and `time` in all. With version 4, reading again doubles `nboco` of the meshes already
  exported and replaces their solution (C87).
* In an HDF5 file of IC3 a mesh that comes from Gmsh or from an older IC3 file gets three zeros as
  periodic values in every zone; a zone named labels, offsets or kinds cannot be written then. Files of meshes
  whose cells do not come first cannot be read, and neither can solution files without RHO, RHOU or RHOE
  (C88).
* Files of version 4 written again from what was read keep everything but the cells, but a mesh read without its
  solution file and written with one gives a solution file that cannot be read (C89).
HDF5
* `h5File.open` in mode 'w' empties the file before it checks its arguments, and `vtkMesh.dumphdf` with
  `overwrite=True` before it checks the cells; mode 'a' is documented but refused; `printinfo` fails on a
  file opened for writing (C76).
Data
* All entries of a `DataSetList` made from one dictionary show its last time; `dataSet` always fails, after changing
  the caller's list (C77). Weights of `poly1d` stay those of the first roots, and stay failures (C78).
Readers
* GMSH 4: the last block with one node can be skipped (C56); node tags with gaps raise or misplace
  (C56); physical groups are looked up in the wrong range and without dimension (C58). GMSH 2 ignores
  node numbers; elements of one elementary tag in several groups all go to the last (C57).
* CGNS: cell numbers keep the element range (C59), conditions with the same family overwrite each other,
  an element list as long as the number of cells is dropped, other locations raise.
VTK, HDF5
* Extraction adds sizes in uint8 (C60); volumes can be asked for once (C68); cells are renumbered by type
  in a mixed mesh, so that dumped data is not aligned (C62, C67, C83). Reordering with nearest neighbours
  that are not one to one misplaces data silently (C61). `Time` in XDMF is an index (C62, C85);
  names are not escaped in XMF files, and there is none for a grid with lines (C85).
  Averaging with inconsistent planes leaves cell 0 (C63). No IC3 file can be converted to VTK (C80), and no
  extrusion of triangles: it gives `penta6` cells, where VTK has `prism6` (C91).
  A writer of IC3 files that fails leaves a truncated file, which the reader refuses (C81).
Others
* Safe names are not reserved (C46); `cfdwritecube` overwrites (C64); `--remove-cell-data` does not remove
  (C52), and takes the file name that follows it for a name; `--scale` refuses -1e3 and -1. (C86); some formats have no reader or writer (C48); `cfdinfo` fails on every CGNS file, and on any mesh
  with an empty mark (C79). `with Timer()` binds None (C49); `memoize` mixes 1, 1.0 and True (C50); changing `Xrep` breaks
  the bookkeeping of `DataSet` (C51); time 0 is dropped; spectra change the caller's filter (C53). Probe
  data of one prefix is served for another (C55). Of the variable to draw only the first letter is
  used, an axis file of several lines is refused, and so are frequency maps of less than 600 samples (C73).

## 7. Wrong programs

`seeded/LOG.jsonl` has one line per attempt. In a copy of the development the model is edited the way a
bug would change the program, and everything the edited definition can reach is rebuilt. A proof that
fails is admitted *in the copy* and the build goes on, so that all theorems that depend on the edit
are found (`Print Assumptions` in the copy). Attempts after which no theorem failed led to a stronger or
a new theorem; they were tried again afterwards.
