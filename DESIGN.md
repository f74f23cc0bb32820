# Design

Formal model of MaterSDK (Python package `matersdk/` and C++ headers under `source/`) in Rocq
(Coq 8.16.1, standard library only), with theorems for the properties in `properties.jsonl`.

## Layout

Every area has up to four files in `rocq/theories/`:

* `XModel.v`  – Gallina functions that mirror the code function by function. Every definition cites
  file and lines in `/repo` and says what it simplifies. No proofs.
* `XSpec.v`   – small independent specification vocabulary (no reference to model helpers).
* `XProofs.v` – lemmas.
* `XProps.v`  – nothing but property theorems, each closed by `exact lemma`, followed by
  `Print Assumptions`, and examples showing that the hypotheses are met by a concrete case.

`Base.v` holds the exception monad and list/text helpers shared by the models.

## Modelling decisions

* Python exceptions are values (`result A = Ok a | Err e`).
* C++ undefined behaviour that matters (out-of-bounds write, double free, uninitialised read) is a
  value as well, never a default.
* Floating point numbers are modelled as exact reals (`R`) when the property is about geometry or
  analysis, as an arbitrary type when they are only moved around, and as `Q`/`Z` where only their order
  matters. Rounding is therefore *not* modelled; no theorem speaks about rounding error.
* `float(token)` / `int(token)` in the text readers is an arbitrary parser (a section variable,
  universally quantified in the closed theorem) unless the property needs digits.
* Calls into pymatgen/numpy/torch are modelled by their documented mathematical meaning at the call site.

## Where the code violates a property

The property is then stated so that it describes what the code does (for example "succeeds exactly
when all factors are odd"), and the negative half is a theorem with a concrete witness or a
universally quantified failure, named `..._refuted` or `..._fails`. The list of findings is at the end.

## Plan per property

| id | modelled | how proved |
|----|----------|------------|
| C01, C02 | line locator, chunk sizes/slices, frame text by slice and by readline | lists of lines, induction over separator positions |
| C03, C04 | string frame extractor, optional-field marks, both frame readers | case analysis on parser results, order of the optional fields |
| C05 | `from_str` attribute look-ups | every branch ends in an exception |
| C06 | token positions of both header readers | computation on symbolic tokens |
| C07 | the virial accumulation loop | induction over frames |
| C08 | `DStructure.to` and `ACExtractor` on lines of text | tokenisation lemmas, round trip |
| C09, C10 | `make_supercell_` grid, shift, mask, assertion | counting lemma for the integer grid |
| C11 | stable sort of indices, key indices | permutation algebra |
| C12 | `reformat_elements_` | stable sort specification |
| C13 | `reformat_elements` | characterisation by stability |
| C14 | `remove_vacanies` loop | induction over the repeated removal |
| C15 | `get_natoms` | first-occurrence order and counts |
| C16 | `get_site_index` | first-match search |
| C17 - C19 | distance tables, row building, index lists | lists, sorting |
| C20 | registry | histories of registrations |
| C21, C22 | weight and derivative formulas | real analysis |
| C23 | extraction and padding | lists |
| C24 | statistics | reals |
| C25, C26 | slices of frames | arithmetic + list partition |
| C27, C28 | merging | lists |
| C29 | index guard | lists |
| C30, C31 | band edges | min/max over tables |
| C32 | cumulative distances | reals / lists |
| C33 | k-mesh formula | reals |
| C34 | adjacency | lists |
| C35 | tables as data | exhaustive computation over finite tables |
| C36 | script text | strings |
| C37, C38 | supercell loops and index arithmetic | integer arithmetic |
| C39 | heads/nexts arrays | invariant by induction over inserted atoms |
| C40 - C44 | bins, search, supercell extent | real geometry |
| C45, C46 | sorting, flattened table | lists/arrays |
| C47, C48 | switching function, descriptor entries | derivatives in `R` |
| C49, C50 | slot arithmetic | arrays, induction |
| C51, C52 | recursions | induction, derivatives |
| C53 - C56 | recursive enumeration | induction on the level |
| C57 | binary search | loop invariant with fuel |
| C58 | pointer arithmetic | `Z` bit operations |
| C59 | heap with ownership | step semantics |
| C60 | recursion | induction |
| C61 | radial operator forward and backward | derivatives in `R` |
| C62 | voxel table construction, folding and insertion | floor arithmetic in `R`; witnesses for the failures |
| C63 | assembly loops of `TildeRNormalizer.normalize` over arbitrary blocks | induction over the loops; witness for the lost columns |
| C64 | type files of a collection | strings |
| C65 | the text scan, block slicing, flattening and reshaping | lists |
| C66 | `judge_vacuum_exist` | max/min of lists, images of atoms |
| C84 | nested arrays | ownership of blocks as a tree over the heap, contents as a function of the index; loop invariants |
| C85 | batches | each structure's part by induction over the batch; the single structure from C49 and C50 |
| C86 | structures in memory | an invariant gives each variable its own blocks; each command keeps it and follows the values; induction over programs; counting of blocks |
| C87 | input of a force field | closed forms of all blocks over one neighbour table, concatenated; slot by slot comparison with the neighbours; derivatives from the proof of C22 |
| C88 | saved force field parameters | the loops as one fold over a list of names, names injective in network, part and numbers (decimal strings), file contents by NoDup of names |
| C89 | Python binding of the neighbour list | reading of buffers by induction; supercell indices to atoms and lattice vectors, one to one because the lattice vectors are independent; C42 - C46; memory by computation and induction over calls |
| C90 | neighbour lists in memory | assertions with the blocks they own, joined without overlap; each operation has a triple over its own blocks and keeps the others; an invariant over all variables, induction over programs; counting of blocks |
| C91 | vectors of three numbers | identities of polynomials (`ring`, `field`); the cross product is determined by three vectors; objects in a list, case by case whether the operand is the object itself |
| C92 | input files and shared default list | lists as objects with identity in the state of a program; the reader that drops comments is a separate definition; induction over programs for what is shared |
| C93 | statistics of a set | on top of the models of the neighbour table, environment matrix and sample statistics; closed form of the rows of one structure, then permutations for concatenation; free columns by comparing sums |
| C94 | memory of radial functions | one generic simulation between programs over objects and programs over values (owned blocks disjoint, all others freed), instantiated for four classes; failing programs by computing from any reachable state |
| C95 | radial basis of mtpMRadial_de.h | the loops fill one array each from the polynomials of C51; the switching function is joined at the two radii as for se.h; programs by simulation with values, where every recalculation writes what is already there |
| C96 | forces from the moment tensor descriptor | one lemma about time-dependent neighbours and coefficients, by induction over directions, neighbours and members of a combination (each step the product rule in the form of an adjoint pair); partial derivatives, no torque and the turned forces are its special motions |
| C97 | training gradient | the same lemma with one moving coefficient |
| C98 | feature row | the table of a pair of elements (C23, C87) padded to its width; position of a number in nested concatenations by induction |
| C99 | features of all pairs | the same lemma about a pair, for every pair of the listed set |
| C100 | batch writers | binding of keyword arguments against the parameter list of `DStructure.to`; the directory is followed up to the failing call |
| C101 | counts of a collection | counts of a frame (C18) and a maximum over frames; invariant of the loop that merges dictionaries; widths compared with those needed by C19 and C23 |
| C102 | memory of `TildeR` | as C86: a heap whose blocks are never reused; values without memory as specification; invariant of all variables (who owns which block), induction over programs |
| C103 | objects against static functions | each centre of an object is a centre of the static loop without its check; the results for enough room from C50; for too little room an invariant (row lengths) and that only indexing can fail |
| C104 | working memory | each loop of the heap program is simulated by the loop of C50's model (forward simulation, ownership of nested arrays from C84); blocks of the scratch arrays are dead after each pair; programs by induction with the count of blocks in use |
| C105 | repeated reading | readers are state transformers of disk and kept lines; every reader leaves the disk and what the cache would give as they are and depends on its own path only (compositional); histories by induction |
| C106 | IN.KPT tables | induction over the lines |
| C107 | series of average bonds | induction over the frames on top of C70 |
| C108 | single data files | formulas are uniquely decodable (no symbol followed by a digit begins another symbol), induction over the files; on top of the C26 and C27 lemmas |
| C109 | trajectory to collection to sets | composition of the C07 lemma on the bulk reader, the constructor and the C25 lemma on saving; energies and stresses are specified on the words of the frame text |
| C81 - C83 | projected densities and weights | sums as an inductive relation over columns; splitting by division with remainder |
| C79 - C80 | path in reciprocal space | dictionaries as association lists, selection as an inductive relation; quadratic forms compared at six vectors |
| C77 - C78 | perturbation of structures | orthonormal triples, Gram determinant, sign bookkeeping; diagonal dominance for the handedness; uniqueness of the standard cell |
| C74 - C76 | enumeration, reduction and arrangement of combinations | induction on the number of moments; counting occurrences; positions as a permutation |
| C70 - C73 | averages over tables and frames | table rows to bonds of the crystal (C17), flipping bonds for symmetry, sums over lists, acos/cos |
| C67 - C69 | moments, running product, coefficient look-up | multilinear sums over index lists, orthogonality, permutations |

## Trusted base

* Coq's kernel.
* The assumptions printed by `Print Assumptions`, listed for every theorem in ASSUMPTIONS.md:
  theorems about lists, integers and text are axiom-free; theorems over `R` rest on the standard
  library's `sig_forall_dec`, `sig_not_dec` and `functional_extensionality_dep` (and a few on
  `classic`). There are no axioms of our own and none of another library.
* The reading of the code: no part of the code is executed; the citations in the model files are the link.

## What is modelled, per area

| area (files) | modelled code | not modelled |
|----|----|----|
| Movement*, Extractor* (C01-C07) | lineLocator.py, mvextractor.py, movement.py frame cutting, header energies, virial accumulation; acextractor.py string readers | file system, numpy dtype, warnings |
| AtomConfig* (C08) | `DStructure.to`/`from_file` text, `ACExtractor` | number formatting (arbitrary printer/parser) |
| Struct*, SiteIndex* (C09-C16) | structure.py supercell, reformat, vacancies, counts, site lookup | pymatgen internals beyond their documented meaning, rounding |
| Nb* (C37-C46) | structure.h supercell/planes/projections, binLinkedList.h, neighborList.h search, sort, counts, `find_info4mlff` | rounding, copy/assign of the classes, the Python binding's ownership flags |
| MtpLevel* (C53-C56) | mtpLevel.h/.cc enumeration of combinations, contraction test, radial channels | copy/assign of the pair classes (their `operator=` lacks a `return`) |
| RDeriv, Se* (C21, C22, C47, C48) | se.h switching function, weight, rows and derivatives; envMatrix.h and se4pw.h rows; basis.h switching function; se_pair.py weight, rows, derivatives | rounding |
| Arr, Slot* (C49) | envMatrix.h `find_value_deriv`, se4pw.h `generate`, `get_prim_indices`: slot arithmetic and loops | batch loop of the torch operator, rounding |
| Tilde* (C50) | se.h static `PairTildeR::generate/deriv`, `TildeR::generate/deriv`, `calc_num_neigh_atoms_lst`; cells not yet initialised are a value of their own | the member functions (same loops without the assertion), copy constructor of TildeR, rounding |
| Cheb* (C51, C52, C61) | basis.h `RB_Chebyshev::build`, `RQ_Chebyshev::build`; mtpMRadial.h switch functions, `ChebyshevPoly::build`, `MtpQ::build`; mtpMRadialOp.cc forward and backward for one neighbour | the loop over neighbours (independent), float32/float64 choice, rounding |
| Voxel* (C57, C62) | CpuNeighborList.cc `Voxels` constructor (periodic branch), `getVoxelIndex`, `insert`, `sortItems`, `findLowerBound`, `findUpperBound` | the non-periodic branch (its table sizes are never initialised), rounding; `std::sort` is any function that sorts |
| Heap, Param* (C59) | mtpParam.cc constructors, copy and move construction and assignment, destructor, and the allocation and filling part of `_load`, over a heap with released, null and uninitialised memory as distinct errors | parsing of the parameter file, failing allocation, negative counts |
| Align* (C58) | AlignedArray.h constructors, `resize`, destructor, `operator[]`, `allocate`; failing allocation in `resize` | element constructors, negative sizes |
| Outer* (C60) | vec3Operation.h `RecursionOuterProduct` for nju >= 1, over any type with any multiplication | nju < 1 (does not terminate), the release of the lower table (never released), integer overflow |
| neighbour tables, `NeighModel.v` | `matersdk/io/publicLayer/neigh.py` (StructureNeighborsV1, get_max_num_nbrs_real, ..._element, _get_nbrs_indices, get_nbrs_indices, both registries) and `matersdk/feature/deepmd/premise.py` (extract_feature_pair, expand_rc) | `np.argsort` is any function returning a permutation that sorts; distances and positions are of arbitrary type, then real for the structure theorems; slice assignment of a wrong length is ValueError; pickling, plotting and the v2/v3 table variants are not modelled |
| Stats* (C24, C63) | preprocess.py `calc_stats`, `_calc_std`, `normalize`, `normalize_derivative`, `TildeRNormalizer._normalize` / `normalize` | rounding; the extraction of the environment matrices themselves (C21); the mean and deviation lists are indexed by pair |
| Element* (C35) | the two dictionaries of constant_utils / element tables, as data; lookups as dictionary lookups | nothing else of these files |
| Data* (C25–C29, C64) | struct_collection.py `__init__`, `__getitem__` (slices), `to`, `from_indices`; infoset.py `from_file`, `to_dir`; infosets.py `from_dir`, `get_num_frames`, `to_dir` | the extractors and os.walk (their results are inputs, shapes stated as hypotheses); numpy dtypes; file permissions; num_frames / part_size is taken exactly |
| Band* (C30, C31, C65) | report.py: reading NUM_KPT, NUM_BAND and the eigenvalue blocks, the spin split, the metal test, `get_cbm`, `get_vbm`, `get_bandgap`, `get_bandgap_type` | the other fields of REPORT; printing; energies are rationals, Python rounding modelled exactly |
| Kpt* (C32, C33, C66) | inkpt.py: coordinates, labelled lines, distances, splitting and joining; kmesh.py `get_kmesh`; structure.py `judge_vacuum_exist` | reading the atom.config; the reciprocal lattice is an arbitrary triple of vectors |
| Adj* (C34) | edge.py: assertions, shifts, broadcasting, counting loop, subtraction of the identity | structures without atoms (numpy shapes) |
| Job* (C36) | job.py `Job.to` as the text written | file system |
| moment values, `MtpValueModel.v` | `mtpMAngularOp.cc`, `mtpMModule.cc`, `mtpBModule.cc`: forward passes | tensors are functions of index lists; `tensordot`, `dot`, tensor indexing and `ParameterList` look-ups by their documented meaning; shape errors are `ValueError`; gradients are in `MtpGradModel.v`; dtypes and devices are not modelled |
| averages, `AvgModel.v` | `feature/avg/avgbond.py`, `avgangle.py`, `msd.py`, `structure.py:578-599` | real numbers; nan of an empty mean is `None`; process pool = map that needs at least one process; frames are lists of Cartesian coordinates; in floating point the cosine of a neighbour with itself can exceed 1, the resulting nan is then dropped for equal elements (not modelled) |
| combinations of moments, `LevModel.v` | `source/descriptor/mtp/include/level.h` | natural numbers (negative levels and overflow not modelled); a fresh `MTPLevel` whose level is the argument of the enumeration; the hash map is a list of pairs; `std::sort` is not modelled, only its comparison and any sorted result; `show` not modelled |
| perturbation, `PertModel.v` | `adalearn/generator/perturbation.py:10-110` | real numbers; random numbers are arguments; `np.linalg.qr` is any routine that returns a decomposition for matrices of non-zero determinant (strained cells of volume exactly zero are not covered); a structure is lattice, species, Cartesian coordinates; `batch_perturb` (files) not modelled |
| path in reciprocal space, `KpathModel.v` | `calculation/kpath/kpathSampler.py:39-251` | the symmetry table and paths of pymatgen and the reciprocal lattice are inputs; lines are records (text layout not modelled); a partly written file is represented by the exception |
| projected densities and weights, `ProjModel.v` | `io/pwmat/output/dostotalspin.py:21-156`, `fatabandstructureTxt.py:22-201` | `read_csv` for tables whose rows have as many fields as the heading; repeated headings keep their text; order of sets is an argument; orbital names without special characters of regular expressions; the backup file and its removal not modelled |
| nested arrays, `NestModel.v` | `core/include/arrayUtils.h:29-220` | the loops of three, four and five dimensions are written once by recursion on the sizes; sizes are natural numbers; `malloc` never fails; elements are integers; printing gives pairs instead of text |
| batches, `BatchModel.v` | `deepmd/src/envMatrixOp.cc:23-126`, `se4pw_op.cc:30-144` | a tensor is a flat list with positions in place of pointers; reading behind the row of a structure is an error; both element types are real numbers; the backward functions, which give undefined gradients, are not modelled |
| structures in memory, `LifeModel.v` | `nblist/include/structure.h:93-627` | a pointer never assigned has no value; coordinates are integers (only moved, added, multiplied); numbers of atoms and factors are natural numbers; `malloc` never fails |
| input of a force field, `InferModel.v` | `matersdk/infer/pwmatmlff/deepmd/preprocess.py:12-116`, `inference.py:83-115`, `matersdk/feature/deepmd/preprocess.py:260-379`, `se_pair.py:244-262,488-495` | the leading axis of length 1 and the tensors are left out; the trained network is not modelled; numbers are real |
| saved force field parameters, `FieldModel.v` | `matersdk/infer/pwmatmlff/deepmd/extractor.py:60-183` | tensors are any type with a shape; the HDF5 file is a list of named data sets, each name once; element types and reading the checkpoint are left out; `int(a / b)` is the integer quotient |
| Python binding of the neighbour list, `BindModel.v` | `source/nblist/bind/nblist_bind.cc:30-177`, `structure.h:212-257,450-472`, `neighborList.h:163-176` | buffers are lists of numbers (atomic numbers as 32 bit words); the memory model covers the blocks of the binding itself, not those of the C++ objects |
| memory of neighbour lists, `OwnModel.v` | `source/nblist/include/binLinkedList.h:178-203,305-493,568-832`, `neighborList.h:126-324`, `structure.h:319-384` | numbers calculated from other numbers are arbitrary functions of what was read from memory; working memory is allocated and freed, not written; a `std::vector` is one block; coordinates and cutoffs are integers |
| vectors of three numbers, `Vec3Model.v` | `source/core/include/vecx.h` | real numbers without rounding, infinities and NaN; nothing is said about a division by 0; output to a stream is a definition without a theorem |
| two input files of PWmat, `InputModel.v` | `matersdk/io/pwmat/input/dos_input.py`, `gen_vext.py` | formatting of numbers is a parameter (any text without blanks and `#`); the encoding of the Chinese comments is not modelled (bytes as in the source); types of potentials are integers, so `True` and `1.0`, which Python takes for 1, are left out |
| statistics of a set of structures, `SetStatsModel.v` | `matersdk/feature/deepmd/preprocess.py` lines 26-255 and 614-700 | numbers are real; the class of the set is not in the repository, only its list of structures is used; an HDF5 file is a list of named data and the types numpy gives on reading are not modelled; printing (81-101) is left out |
| memory of radial functions, `RadModel.v`, `RadNum.v` | `source/descriptor/mtpr/include/basis.h` RB_Chebyshev, RQ_Chebyshev; `source/descriptor/mtp/include/mtpMRadial.h` ChebyshevPoly, MtpQ | numbers and their operations are arbitrary (real in `RadNum.v`); `malloc(0)` gives a block; an `operator=` that lacks its return statement is taken to return; reading memory before it was written by `build` gives the zeros of the constructor; pointers into the MtpSwitchFunc object are not modelled, its values are |
| radial basis with its own memory, `RadDeModel.v` | `source/descriptor/mtp/include/mtpMRadial_de.h` | real numbers, no rounding; `malloc` fails only for a negative size; the operations written by the compiler copy the fields; printing is one look at an object; the highest degree is small enough for `hmju + 1` not to overflow |
| gradients of the moments, `MtpGradModel.v` | `mtpMAngularOp.cc`, `mtpMRadialOp.cc`, `mtpMModule.cc`, `mtpBModule.cc`: backward passes | the hand-written backward passes as they are; the gradient rules of `tensordot`, `dot`, products, sums and copies of libtorch by their documented meaning; one atom at a time; data types, devices and graph objects are not modelled; a coefficient row that is never used has gradient zero here and an undefined gradient in libtorch |
| features of a whole structure, `FlatModel.v` | `matersdk/feature/deepmd/se.py`, `matersdk/infer/pwmatmlff/deepmd/inference_depre.py` | real numbers; the order of a set is an argument; dictionary keys are pairs of numbers instead of their text; the network parameters loaded by `FFInfer` are not modelled |
| frames of a collection, batch writers, `CollModel.v` | `matersdk/data/struct_collection.py` 317-572, `matersdk/adalearn/generator/perturbation.py` 113-131, the parameters of `DStructure.to` | worker processes are a map over the frames; the lines after the failing calls are arbitrary functions, the theorems hold whatever they do; a directory is a list of entries |
| trajectory to collection, `CollTrajModel.v` | `matersdk/data/struct_collection.py` 146-177 on top of `MovementModel.v` and `DataModel.v` | the builder of structures and the number reader are arbitrary functions; a tensor is the list of its numbers; tensors of unequal shapes raise ValueError (NumPy 1.24 and later) |
| memory of the descriptor object, `TildeMemModel.v` | `source/descriptor/deepmd/include/se.h` 1281-1681 (constructors, assignment, destructor, counting, `show`) | the memory of the neighbour list is the subject of `OwnModel.v` and is a value here; the values of the descriptor are in `TildeModel.v` |
| descriptor objects, `ObjModel.v` | `source/descriptor/deepmd/include/se.h` 451-610, 742-850, 977-1109, 1575-1611, 1759-1857, 2106-2206; `source/nblist/include/neighborList.h` 333-336, 454-485 | the neighbour list is a value (its construction is in the models of C++ neighbour lists, its memory in `OwnModel.v`); what is computed per neighbour is a parameter (`SeModel.v`); the zeros in the derivatives' memory before copying are not modelled |
| working memory of the static descriptor functions, `ScratchModel.v` | `source/descriptor/deepmd/include/se.h` 853-968, 1116-1271, 1862-2096, 2209-2457 | arguments are lists; elements are integers (only moved; which element is stored is a parameter); arrays of counts are made in one step; the numbers in `diff_cart_coord` are not followed; `malloc` never fails |
| repeated reading, `FreshModel.v` | `matersdk/io/pwmat/output/outfermi.py`, `report.py` 17-84, 142-158, `input/inkpt.py` 28-224, `utils/acextractor.py` 71-88; `linecache.getline` of Python's library | files are texts by absolute path; `linecache` keeps the lines of a path for ever (no code of the repository calls `checkcache`); its added final newline is a blank; reading of numbers is a parameter; FileNotFoundError is written PlainException; rows of different length make no array (ValueError) |
| average bonds of a trajectory, `SeriesModel.v` | `matersdk/feature/avg/avgbond.py` 35-79, 270-288 | frames are given (the reader is `MovementModel.v`); a pool of processes is a map in order (`multiprocessing` keeps the order); nan is `None` |

## Findings (proved)

* C03/C04: magnetic moments of trajectory frames are never delivered.
* C05: structures can never be built from frame text.
* C06: the single-frame energy reader drops the last character of the third energy and rejects old headers.
* C07: bulk virials lose their frame when some frame lacks stress.
* C08: re-reading after writing can return stale cached text. A file cut off among its atom rows is
  accepted: the reported number of atoms is that of the first line, the atoms are those present.
* C09: supercells with an even factor fail an assertion.
* C13: regrouping elements detaches species from coordinates.
* C14: vacancy removal can delete a real atom.
* C38: with an even factor the owned atoms are not the original copy (not reachable through the neighbour list).
* C40: when no lattice vector has a positive component along a Cartesian axis, an atom on the far face is put
  into the wrong bin and its neighbours are missed; an atom outside the unit cell causes an out-of-bounds write.
* C41: different atoms closer than sqrt(0.001) are not neighbours.
* C43: custom bin sizes, or default sizes with unaligned partial periodicity, list a neighbour twice.
* C46: a row width below the longest list writes past the array or into the next row.
* C54: from maximal level 18 on the basis contains the same combination more than once.
* C55: some combinations that multiply out to scalars are not kept.
* C56: for levels below 2 one radial channel is reported though nothing is kept.
* C21/C22: the Python weight jumps from 0 to 1/rcut at the cutoff and stays 1/r beyond; the derivative table
  does not match it there.
* C49: a neighbour beyond the reservation of its type is not rejected: it overwrites the first slot of the next type, the next centre, or memory after the table.
* C52: the MTP switching factor is 0 instead of the documented 1 below the inner radius; every radial value jumps from 0 to 1 or -1 there.
* C62: the voxel width of the third axis overwrites that of the second one, so rows of voxels are not equal slabs; too large a requested width leaves no voxels and insertion writes outside the table; images of a box that is not lower triangular can be put into different voxels.
* C58: an implicitly copied array shares its block and both destructors release it; an allocation that throws inside `resize` leaves a dangling pointer which the destructor releases again.
* C59: move assignment stores the source's basic table in the slot of the times table, so tables are wrong and a block is released twice; assigning an object to itself empties it and releases twice; copy-assigning an object with an empty table onto one with a table keeps a dangling pointer; assigning over a copy of an empty object leaks its blocks.
* C17: with `reformat_mark=False` the table is built from the unsorted supercell but with the key indices of the sorted one, so rows are centred on atoms that are not the structure's sites. A supercell that does not reach the cutoff silently loses images.
* C18/C23: the advertised number of neighbours uses `< rcut`, the table `<= rcut`; with an atom exactly on the cutoff the advertised width is too small and `expand_rc` stops with AssertionError.
* C19: padding columns are passed through `get_site_index` as the origin, so an atom on a lattice point appears as a phantom neighbour in every shorter row. The default `max_num_nbrs=False` of `get_nbrs_indices` raises TypeError, and width 0 works only if all elements have equally wide rows (`C19_unpadded_refuted`).
* C20: the decorators return None, so the decorated class names cannot be called; only `create` works.
* C63: the assembly of normalised features loops over the centre elements twice, so columns of neighbour elements that are not centre elements are lost and a centre element that is not a neighbour element raises KeyError.
* C24: the radial mean is off by the factor N/(N + 1e-15).
* C25: set size 0 raises only after the old directory has been deleted; a negative set size writes nothing silently. C26: the same for negative part sizes up to the number of frames.
* C27: the element counts recorded with a merged set are those of the last file read (`C27_counts_refuted`: a set named H2O0 recorded with no H and one O).
* C28: an element that appears in a file only after its first frame makes reading the whole directory fail with ValueError.
* C29: the guard lets an index equal to the number of frames through; missing virials become ten zeros, so a selection cannot be saved unless its size divides ten.
* C64: type_map.raw of a collection holds 0, 1, 2, ... instead of element names.
* C30: the Fermi energy is rounded to three decimals before comparing, so an occupied level can be reported as conduction-band minimum (`C30_file_fermi_refuted`).
* C31: the further band-edge entries come from the k-point after the extremum; degenerate bands are missed, unrelated ones listed, and a direct gap can be called indirect (`C31_*_refuted`).
* C65: for two spins the final check compares an array shape with array contents and fails for one or two bands (`C65_two_spins_fail`).
* C32: a segment between two labelled k-points without a point in between is taken for a jump and gets length 0 (`C32_short_segment_refuted`).
* C33: the density is a spacing, larger values give coarser meshes (`C33_growing_refuted`); density 0 gives one point; negative densities give negative counts.
* C66: vacuum in the middle of the cell is missed, and permuted or skewed cells are flagged without vacuum (`C66_*_refuted`).
* C34: the test for odd scaling factors (`x / 2 != 0`) accepts every positive factor; with factors 1 and 2 the counts are multiplied (`C34_phantom_refuted`: an isolated atom with seven neighbours).
* C36: three of seven directives share a line for every parameter set (`C36_last_three_refuted`).
* C68: with inner cutoff 0 every padding entry of a neighbour row is counted as a neighbour on top of the centre (`C68_padding_counts_refuted`).
* C69: species numbers are not checked; atomic numbers make different species pairs share a coefficient row (`C69_unchecked_species_refuted`).
* C71: the mean squared displacement is taken between consecutive frames, not from the origin as documented; no minimum image; fails on machines with at most two processors (`C71_origin_refuted`, `C71_periodic_refuted`, `C71_few_processors`).
* C72: for equal neighbour elements every neighbour is paired with itself; mean angle and order parameter are wrong (`C72_mean_refuted`, `C72_order_refuted`).
* C73: the pair distance ignores periodic images (`C73_periodic_refuted`).
* C74: for an even level the combination of level/2 scalar moments is not enumerated (`C74_missing`).
* C75: the removal of duplicates keeps one copy per ordered neighbouring pair: singles vanish, triples are doubled, reorderings survive; the empty combination, always enumerated, is read out of bounds (`C75_kept_once_refuted`, `C75_orders_refuted`, `C75_enumerated_fails`).
* C76: arranging reduces again, so copies multiply (`C76_arranged`, `C76_case`).
* C78: structures in left-handed cells cannot be perturbed at all (`C78_handedness`); from fraction 1/2 on, random failures (`C78_half_refuted`).
* C79: in two dimensions removed points leave their neighbours joined by a segment of no given path (`C79_shortcut_refuted`); no paths at all is a `NameError` (`C79_rejected`).
* C80: segment lengths are wrong for every lattice not along the axes (`C80_exactly_aligned`, `C80_hexagonal`, `C80_spacing_refuted`).
* C81: element sums go by the beginning of headings (`C81_excess`, `C81_sulfur_silicon_refuted`).
* C82: potassium weights include the k-point distance (`C82_potassium_refuted`); orbital names match inside others (`C82_sulfur_osmium_refuted`).
* C83: files with a single band cannot be opened (`C83_one_band_refuted`); bands of different length are mixed (`C83_uneven_refuted`).
* C69: a negative species number takes another species' coefficients for every radial function but the first (`C69_negative_species`).
* C84: an array allocated without `init_mark` has no values until assigned (`C84_life`, `C84_case_plain`); sizes other than those of the allocation leak or fail (`C84_other_sizes`).
* C85: `EnvMatrixFunction::forward` takes the width of the output from the first structure and the numbering of slots from each one; structures with fewer slots have rows of other atoms (`C85_narrower_refuted`), with more slots they are cut or written outside (`C85_wider_refuted`, `C85_env_last_wider`).
* C86: `structure.h:319-384`, assigning a structure to itself releases it and leaves it without atoms (`C86_self_assignment_breaks`).
* C86: `structure.h:483-601`, enlarging with a factor of zero leaves an object that releases nothing (`C86_zero_factor_breaks`); a second enlargement overwrites the origin of the first, so that atoms lie outside the cell that starts at the origin (`C86_enlarged_twice_refuted`).
* C87: `matersdk/feature/deepmd/preprocess.py:361-379`, the columns of the descriptor follow the centre elements, those of relative positions and site numbers the neighbour elements: with different orders column k is a different neighbour (`C87_columns_differ_refuted`); a neighbour element that is no centre element is missing from the descriptor altogether.
* C87: `infer/.../preprocess.py:93-104`, site numbers count the sites of the structure as given while rows are sorted by element, so that they name the wrong rows for structures that are not grouped (`C87_rows_not_sites_refuted`); padded columns can carry the number of the atom at the origin.
* C88: `extractor.py:65`, the embedding networks are written with the number of fitting layers: with fewer fitting layers the last embedding layers are missing from the file without notice (`C88_layers_lost_refuted`), with more a complete checkpoint is a KeyError (`C88_not_saved_refuted`).
* C89: `nblist_bind.cc:142` sets the ownership flag of `numneigh` a second time instead of that of `firstneigh`, so that every call leaks 4 * n * umax bytes (`C89_leak_refuted`, `C89_leak_grows`).
* C89: `nblist_bind.cc:42-76` reads buffers without looking at type, layout or shape (the checks are commented out): `C89_int64_refuted`, `C89_fortran_refuted`, `C89_too_short`. `demo/v2/fromcc/nblist_demo.py:30-38` calls the function with seven of its eight arguments.
* C90: `neighborList.h:210-233`, `binLinkedList.h:396-429,744-780`: assigning a list with atoms to itself frees its arrays and then copies the new, unwritten arrays to themselves (`C90_self_assignment_breaks`).
* C90: `binLinkedList.h:703-796` uses the cutoff as the mark of an empty bin list: a list made with cutoff 0 shows nothing and three blocks (heads, nexts, array of vectors) are never released (`C90_zero_cutoff_breaks`).
* C90: `binLinkedList.h:242-260`, the assignment operator of `BasicStructureInfo` has no return statement. This is undefined behaviour in C++, and every construction, copy and assignment of a supercell runs it (lines 307, 335, 363, 370, 405, 412). All theorems about the C++ neighbour lists (C37 - C46, C89, C90) read it as a normal return; with a compiler that does otherwise they say nothing. The tests have the assignments of lists with atoms commented out (`test_neighborList.cc:195,197`).
* C91: `vecx.h:217-225` defines two functions in a header without `inline`; two source files that include it cannot be linked together (seen by reading, not part of the model).
* C92: `dos_input.py:22` has a list as default value; changing the grid of one object changes the default of all later ones (`C92_default_refuted`). `dos_input.py:37-40` opens the file before it knows that the numbers can be formatted: an exception leaves a file of two lines (`C92_dos_broken_file`). `gen_vext.py:57` checks the type but never the number of details (`C92_vext_count_refuted`).
* C24, C63, C87, C93: `feature/deepmd/preprocess.py:5` imports `matersdk.data.deepmd.data_system`, which is not in the repository (`matersdk/data` has infoset.py, infosets.py and struct_collection.py only). As the repository stands the module cannot be imported, nor can `infer/pwmatmlff/deepmd/preprocess.py` and `inference.py`, which use it, nor the tests of all three. The theorems are about the code that would run once that module is there; only the list of structures of the missing class is used.
* C93: the averages depend on the number of free columns (`C93_free_columns`, `C93_widths_refuted`), so statistics made with one choice of `max_num_nbrs` do not fit another. Structures with different numbers of atoms of an element cannot be put into one set (`C93_rejected`); in the array they are joined along the neighbour axis.
* C94: `MtpQ()` leaves its two pointers without a value, so destroying or assigning over a default object frees an arbitrary address (`C94_default_breaks`). `ChebyshevPoly`, `MtpQ` and `RQ_Chebyshev` lose their values when assigned to themselves (`C94_to_itself_loses`); `RB_Chebyshev` then frees its blocks twice (`C94_to_itself_breaks`), also after an assignment from an empty object (`C94_from_empty_breaks`). An empty `RQ_Chebyshev`, made without arguments or moved from, cannot be copied, assigned or built: a null pointer is followed (`C94_empty_breaks`). Blocks are lost after some of these programs (`C94_memory_refuted`). Several `operator=` have no return statement, which is undefined behaviour in C++; the theorems assume that they return.
* C95: `RadialBasisChebyshev` (mtpMRadial_de.h) has no destructor, so each object made with arguments keeps four arrays for ever (`C95_memory_refuted`, exact count in `C95_programs`); a negative `hmju` is not refused and writes outside of the arrays (`C95_arguments`); the methods of a default object follow a null pointer (`C95_blank_fails`). Below the inner radius the values are not damped: with radii 2 and 6 and distance 0 they are 1, -2, 7, -26 (`C95_tables`, `C95_case_below`). The comment at line 106 gives the scaled distance without the factor 2 of the code.
* C96: exactly at the inner radius the radial values jump from zero to their full size, and the backward pass still returns the gradient of the outer side (`C96_inner_radius_fails`).
* C98: with more than one neighbour element the row of `get_tildeR` (se.py) cannot be read as one block per atom (`C98_atoms_together_fails`); a width of 0 loses a single neighbour silently (`C98_zero_width_refuted`), since numpy stretches one column over an empty slice.
* C99: `FFInfer` (inference_depre.py) stores averages and deviations and never uses them: the step named Normalize in `calc_tildeR` is empty, so the entries of `C99_dictionary` are not normalised, other than those of `DpInfer` (C87). Its test imports `FFInfer` from `inference.py`, where it no longer is.
* C100: `save_all_info` and `batch_perturb` call `DStructure.to(output_file_path=..., output_file_format=...)`, whose parameters are `file_path` and `file_format`: TypeError on every input (`C100_save_fails`, `C100_batch_fails`). `save_all_info` has by then deleted the folder of the first frame of an earlier save.
* C101: the process pools of `struct_collection.py` have `os.cpu_count()-2` workers, so that all three methods fail on machines with one or two processors (`C101_refused`).
* C102: the copy constructor of `TildeR` allocates `sizeof(this->num_center_atomic_numbers)` bytes, the size of one integer, for arrays with one integer per species: copies of objects with two species write outside their memory (`C102_copy_breaks`). Copies of empty objects leak four blocks (`C102_empty_copy_breaks`); self-assignment reads released memory (`C102_self_assignment_breaks`); the assignment frees the arrays of neighbouring species whenever there are central ones, even if they were never allocated anew (`C102_no_neighbours_breaks`).
* C103: `PairTildeR::generate()` and `deriv()` of an object do not compare the neighbours with the reservation; with too small a reservation they write outside their memory (`C103_short_block_breaks`, `C103_short_table_breaks`), where the static functions assert. `deriv()` also lacks the final assertion on the number of centres (`C103_extra_centres_refuted`).
* C104: the static `TildeR::deriv` that fills an array of the caller (se.h:2345-2457) does not free `cstart_idxs` and `nstart_idxs`: two blocks are lost at each call (`C104_deriv_into_refuted`, `C104_memory_refuted`); its three siblings free them.
* C105: `linecache` never looks at a file again: Fermi energy, IN.KPT header and atom count stay those of the first reading (`C105_header_refuted`, `C105_fermi_refuted`), an IN.KPT object can show two k-points and three positions (`C105_kpoints_refuted`), and a REPORT file can give the old number of k-points as the number of bands (`C105_report_refuted`). A missing file is an IndexError.
* C106: the first line's number is not checked (`C106_number_refuted`); an empty last line makes positions and weights unreadable (`C106_blank_refuted`).
* C33: `KMesh(file_format, file_path)` always raises TypeError, since it passes `coords_are_cartesian` to `DStructure.from_file`, which has no such parameter (`C33_object_refuted`).
* C107: `get_frames_avg_bond` accepts `reformat_mark` and `coords_are_cartesian` and ignores both (`C107_options_refuted`); with one or two processors it always fails.
* C108: sets read by themselves number their elements separately, so the same index means different elements in two directories saved side by side (`C108_case_saved`); type_map.raw of each directory has to be read with it. `InfoSets.from_dir` avoids this (C28).
* C109: frames without stress are left out of the virials, and saving deals the remaining numbers out over all frames: with three frames, one of which has a stress, a wrong virial.npy is written without an error (`C109_virials_refuted`); with two frames saving fails with ValueError (`C109_case_uneven`). With the repository's own structure builder no collection can be made at all (`C109_unavailable_refuted`, see C05).
