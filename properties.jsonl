{"id": "C01", "title": "Trajectory frames partition the file", "statement": "Cutting a MOVEMENT file into frames loses, repeats and reorders nothing: concatenating the text of frames 0..n-1 gives exactly the file up to and including its last separator line, every frame's text ends with the only separator line in it, and anything after the last separator belongs to no frame. A file with no separator line is rejected with IndexError.", "quantifier": "for every file (any list of lines, any number and position of separator lines)", "why_tests_cant": "A test fixes one trajectory; the claim is about every arrangement of separators, including frames of different lengths, adjacent separators and trailing junk.", "anchors": ["matersdk/io/pwmat/utils/mvextractor.py: MVExtractor.get_chunksizes, get_chunkslices, get_frame_str", "matersdk/io/pwmat/output/movement.py: Movement.get_chunksize, get_chunkslice, _get_frame_str", "matersdk/io/pwmat/utils/lineLocator.py: LineLocator.locate_all_lines"]}
{"id": "C02", "title": "Random access and sequential reading return the same frame", "statement": "Reading frame k on its own gives the same text as the k-th chunk obtained by reading the whole trajectory sequentially with readline, and reading past the last frame raises IndexError.", "quantifier": "for every file and every frame index k >= 0", "why_tests_cant": "The two readers use different bookkeeping (absolute slices vs running readline counts); agreement on sample files says nothing about other chunk-size sequences.", "anchors": ["matersdk/io/pwmat/utils/mvextractor.py: MVExtractor.get_frame_str, get_frames_info", "matersdk/io/pwmat/output/movement.py: Movement._get_frame_str, get_all_frame_structures"]}
{"id": "C03", "title": "Single-frame and all-frames extraction agree field by field", "statement": "Whenever extracting all frames succeeds, extracting frame k alone succeeds and returns the same fields in the same order as the k-th row of the all-frames result. The fields are what the text of the frame says. Whether there is a virial and whether there are atomic energies is decided by the first frame alone.", "quantifier": "for every trajectory text, every numeric parser and every frame index", "why_tests_cant": "The two functions append the optional fields in different orders; whether that is observable depends on which optional blocks can be present together, over all files.", "anchors": ["matersdk/io/pwmat/utils/mvextractor.py: MVExtractor.get_frame_info, get_frames_info, _find_extra_properties", "matersdk/io/pwmat/utils/acextractor.py: ACstrExtractor"]}
{"id": "C04", "title": "Magnetic moments of a trajectory frame are never delivered", "statement": "Asking a trajectory frame for its magnetic moments raises 'No magmoms' whatever the frame contains, so no trajectory extraction result ever has a magnetic-moment field.", "quantifier": "for every frame text, including those with a well-formed magnetic block", "why_tests_cant": "A test on a frame without moments looks correct; the failure must be shown for all frames that do contain them.", "anchors": ["matersdk/io/pwmat/utils/acextractor.py: ACstrExtractor.get_magmoms", "matersdk/io/pwmat/utils/mvextractor.py: MVExtractor._find_extra_properties"]}
{"id": "C05", "title": "Structures can never be built from pwmat text", "statement": "Constructing a structure from a string raises for every string and every format argument (AttributeError for the supported format, ValueError for any other), hence every trajectory accessor that returns structures raises on every file that has at least one frame.", "quantifier": "for every string content and format name, and every trajectory file", "why_tests_cant": "Needs the claim over all inputs, not one failing sample.", "anchors": ["matersdk/io/publicLayer/structure.py: DStructure.from_str", "matersdk/io/pwmat/output/movement.py: Movement.get_all_frame_structures, get_frame_structure, get_all_frame_structures_info"]}
{"id": "C06", "title": "Frame energies are read from the right columns", "statement": "On a header of the form 'N atoms,Iteration (fs) = t, Etot,Ep,Ek (eV) = a b c, ...' the single-frame energy reader returns (a,b,c), the same as the bulk reader; on the older header 'N atoms,Iteration= t, Etot,Ep,Ek= a b c' only the bulk reader does and the single-frame reader raises or returns different columns.", "quantifier": "for every header line of either layout and every numeric tokens a, b, c, t", "why_tests_cant": "Fixed column numbers pass on a sample with one header layout; the claim ranges over both layouts and all tokens.", "anchors": ["matersdk/io/pwmat/output/movement.py: Movement.get_frame_energy, get_all_frame_structures_info"]}
{"id": "C07", "title": "Bulk virial list lines up with the frames exactly when every frame carries stress", "statement": "The k-th virial in the bulk result belongs to the k-th frame if and only if no frame lacks stress columns before a frame that has them; its length equals the number of frames iff every frame has stress columns. The single-frame accessor returns zeros exactly when the first lattice row has three words and otherwise the last words of the three rows, and raises when those are unequally many.", "quantifier": "for every sequence of frames with or without stress columns", "why_tests_cant": "A sample with stress in all frames or in none passes; mixed trajectories are what breaks.", "anchors": ["matersdk/io/pwmat/output/movement.py: Movement.get_all_frame_structures_info, get_frame_virial", "matersdk/data/struct_collection.py: StructCollection.from_indices"]}
{"id": "C08", "title": "Structure file written is the structure file read", "statement": "Writing a structure to an atom.config file and extracting it again returns the same number of atoms, atomic numbers in order, lattice and coordinates up to the printed precision, for files with and without the magnetic block. Any file at all is read exactly when it has the headings, a leading numeral and equally long rows, and then what is read is what those rows say; a file with fewer rows than its first line announces is accepted, with fewer atoms than the reported number.", "quantifier": "for every structure (any number of sites, any coordinates) and every formatting function that prints a number as one blank-free token; for every text", "why_tests_cant": "Round trips over one sample cannot cover all sizes and all printed numbers (e.g. keyword lines found by substring search).", "anchors": ["matersdk/io/publicLayer/structure.py: DStructure.to", "matersdk/io/pwmat/utils/acextractor.py: ACExtractor"]}
{"id": "C09", "title": "Enlarging a structure succeeds exactly for odd scaling factors", "statement": "Building an a x b x c supercell of a non-empty structure succeeds exactly when a, b and c are all positive and odd, the result then having n*a*b*c sites; every other scaling fails the length assertion.", "quantifier": "for every lattice, every structure with at least one site and every integer a, b, c", "why_tests_cant": "Tests use (3,3,1)-like scalings; the failure set is infinite and the success claim must hold for all odd sizes.", "anchors": ["matersdk/io/publicLayer/structure.py: DStructure.make_supercell_"]}
{"id": "C10", "title": "Supercell sites are exactly the lattice translates", "statement": "For odd a, b, c the supercell contains, for each original site and each integer triple with |i|<=(a-1)/2, |j|<=(b-1)/2, |k|<=(c-1)/2, exactly one site of that species at the site's position plus i*A+j*B+k*C, and nothing else; before element reordering the original sites come first in their original order.", "quantifier": "for every structure, lattice and odd scaling", "why_tests_cant": "Exactness over all sizes (no missing or doubled image) is not testable by sampling.", "anchors": ["matersdk/io/publicLayer/structure.py: DStructure.make_supercell_"]}
{"id": "C11", "title": "Key indices locate the original atoms in the enlarged structure", "statement": "After enlarging with element reordering, the returned key indices are strictly increasing, there is one per original site, and the supercell sites they select are exactly the original sites (reordered by element).", "quantifier": "for every structure and odd scaling", "why_tests_cant": "Index bookkeeping through a stable sort; a single structure cannot settle it for every species arrangement.", "anchors": ["matersdk/io/publicLayer/structure.py: DStructure.get_key_idxs, _get_bidx2aidx_supercell, make_supercell_"]}
{"id": "C12", "title": "Reordering by element keeps site data together", "statement": "In-place element reordering permutes whole sites: the result is a permutation of the sites, ordered by atomic number, and sites of one element keep their relative order; doing it twice changes nothing.", "quantifier": "for every list of sites", "why_tests_cant": "Stability and permutation over all lists.", "anchors": ["matersdk/io/publicLayer/structure.py: DStructure.reformat_elements_"]}
{"id": "C13", "title": "Reordering by a user element list detaches species from coordinates", "statement": "Reordering by an explicit element list leaves every atom on its coordinates exactly when the species sequence is already in the requested grouping; otherwise some site gets another atom's species.", "quantifier": "for every structure and element list covering its species", "why_tests_cant": "A structure that is already grouped passes and hides the defect; the characterisation is over all inputs.", "anchors": ["matersdk/io/publicLayer/structure.py: DStructure.reformat_elements"]}
{"id": "C14", "title": "Removing vacancies", "statement": "Removing vacancies leaves exactly the real atoms if and only if there is at most one vacancy or every vacancy sits at an index not below the number of real atoms; in every other structure some real atom is deleted too (the whole index list is removed once per vacancy). No vacancy ever stays and no atom changes its place.", "quantifier": "for every structure and vacancy list", "why_tests_cant": "Only multi-vacancy histories show it; a single-vacancy test passes.", "anchors": ["matersdk/io/publicLayer/structure.py: DStructure.remove_vacanies"]}
{"id": "C15", "title": "Atom counts per element", "statement": "The count list starts with the number of sites, its remaining entries are the counts of each distinct element in order of first appearance (each element once, none zero) and they sum to the number of sites; with an explicit element list the entries are the counts of the listed elements in the listed order.", "quantifier": "for every structure", "why_tests_cant": "Order claim in the documentation holds only for sorted structures.", "anchors": ["matersdk/io/publicLayer/structure.py: DStructure.get_natoms"]}
{"id": "C16", "title": "Looking up the site at a position", "statement": "Site lookup returns k>0 exactly when site k is the first site whose position differs from the query by a lattice vector (within tolerance in each lattice component), and 0 exactly when there is none.", "quantifier": "for every lattice, site list and query point", "why_tests_cant": "First-match and periodicity over all inputs.", "anchors": ["matersdk/io/publicLayer/structure.py: DStructure.get_site_index"]}
{"id": "C17", "title": "Neighbour table rows", "statement": "Each row of the neighbour table lists the centre followed by the supercell atoms within the cutoff (inclusive), nearest first, padded with zeros to the longest row. The rows are those of the structure's sites sorted by element. When the supercell reaches the cutoff in each direction the row holds exactly the images of the infinite crystal within the cutoff. Without the sorting option rows are centred on other atoms.", "quantifier": "for every structure without coinciding sites, every cutoff, every odd supercell", "why_tests_cant": "All row-length profiles and ties.", "anchors": ["matersdk/io/publicLayer/neigh.py: StructureNeighborsV1"]}
{"id": "C18", "title": "Neighbour counts used for padding vs table width", "statement": "The advertised maximal neighbour count is computed with a strict cutoff while the table uses an inclusive one: the count equals table width minus one exactly when some widest row has no atom on the cutoff; the table is never narrower than advertised. The per-element counts are the largest numbers of other atoms of that element strictly within the cutoff.", "quantifier": "for every distance table and cutoff", "why_tests_cant": "Only exact-cutoff configurations separate the two.", "anchors": ["matersdk/io/publicLayer/neigh.py: StructureNeighborsUtils.get_max_num_nbrs_real, get_max_num_nbrs_real_element, StructureNeighborsV1"]}
{"id": "C19", "title": "Neighbour index lists and padding", "statement": "Index lists give, for every real neighbour of the chosen element pair, the 1-based index of the site it is an image of, and 0 for padding, provided no atom sits on a lattice point; if one does, padding is reported as that atom.", "quantifier": "for every structure, neighbour table and element pair", "why_tests_cant": "Atoms on lattice points are a special case that a sample structure need not contain.", "anchors": ["matersdk/io/publicLayer/neigh.py: StructureNeighborsUtils._get_nbrs_indices, get_nbrs_indices"]}
{"id": "C20", "title": "Registering an implementation", "statement": "After any sequence of registrations, creating by name yields the most recently registered class for that name, an unknown name raises KeyError, and the decorated class name itself is bound to nothing usable.", "quantifier": "for every sequence of registrations and lookups", "why_tests_cant": "Histories of registrations.", "anchors": ["matersdk/io/publicLayer/neigh.py: StructureNeighborsDescriptor.register, create"]}
{"id": "C21", "title": "Python descriptor weight is smooth at the inner radius and jumps at the cutoff", "statement": "The radial weight is 1/r up to the inner radius, continuous with continuous derivative at the inner radius, but at the cutoff it jumps from 0 back to 1/rcut, and a neighbour exactly on the cutoff is kept by the neighbour table.", "quantifier": "for every 0 < rs < rc and every distance r > 0", "why_tests_cant": "Continuity is a statement about all real distances.", "anchors": ["matersdk/feature/deepmd/se_pair.py: DpseTildeRPairV1._get_s", "matersdk/io/publicLayer/neigh.py: StructureNeighborsV1"]}
{"id": "C22", "title": "Python descriptor derivatives are the derivatives", "statement": "The derivative table returned for a neighbour equals the partial derivatives of its four descriptor entries with respect to the centre's coordinates for every distance strictly between 0 and the cutoff.", "quantifier": "for every relative position and radii 0 < rs < rc", "why_tests_cant": "Finite-difference tests sample points; the claim is for all reals.", "anchors": ["matersdk/feature/deepmd/se_pair.py: DpseTildeRPairDerivativeV1/_calc_derivative, _get_tildeR"]}
{"id": "C23", "title": "Padding the pair features", "statement": "Extracting a pair's features keeps exactly the neighbours of the requested element for exactly the centres of the requested element, in order, padded with zero rows to the requested width, and fails if the width is too small. The advertised width suffices if no atom sits on the cutoff, and may fail otherwise.", "quantifier": "for every neighbour table, element pair and width", "why_tests_cant": "All shapes.", "anchors": ["matersdk/feature/deepmd/premise.py: DpFeaturePairPremiseV1.extract_feature_pair, expand_rc"]}
{"id": "C24", "title": "Normalisation statistics are usable as divisors", "statement": "Every standard deviation delivered for normalisation is at least 0.01, equals the sample deviation when that is larger, and the mean vector has zeros in its three directional slots.", "quantifier": "for every sample set, including empty and constant ones", "why_tests_cant": "Corner samples (empty, constant) over all reals.", "anchors": ["matersdk/feature/deepmd/preprocess.py: TildeRNormalizer.calc_stats, _calc_std"]}
{"id": "C25", "title": "Saving a collection into numbered sets", "statement": "Saving n frames in sets of s > 0 replaces the directory by ceil(n/s) numbered sets whose contents concatenated in order are exactly the n frames; every set except possibly the last has s frames and no set is empty; virials and atomic energies are written for all sets or, if all zero, for none. s = 0 raises after the old directory has been deleted and before any set is written; a negative s writes no set and raises nothing.", "quantifier": "for every consistent collection and every integer set size", "why_tests_cant": "All pairs (n, s) including exact multiples.", "anchors": ["matersdk/data/struct_collection.py: StructCollection.to"]}
{"id": "C26", "title": "Saving an information set into numbered parts", "statement": "Saving n frames in parts of size p > 0 writes parts whose contents concatenated in order are exactly the n frames, no part is empty, and every part except the last has p frames. p = 0, or a formula already present in the directory, raises and writes nothing; a negative p with |p| <= n writes no frame and raises nothing.", "quantifier": "for every data set and every integer part size, and without one", "why_tests_cant": "All pairs, including exact multiples where the extra part must be skipped.", "anchors": ["matersdk/data/infoset.py: InfoSet.to_dir"]}
{"id": "C27", "title": "Merging information sets by formula conserves frames", "statement": "Merging data directories keeps, for every chemical formula in order of first appearance, one set whose frames are the concatenation of all frames with that formula, in file order, so the total number of frames is preserved; optional per-frame data survive only if every merged set has them. The element counts recorded with a merged set are those of the last set read, whatever its formula.", "quantifier": "for every list of information sets", "why_tests_cant": "All multiplicities of formulas and all presence patterns.", "anchors": ["matersdk/data/infosets.py: InfoSets.from_dir, get_num_frames"]}
{"id": "C28", "title": "Type indices are consistent across merged sets", "statement": "With the element order shared by all files, the type index of every atom in every merged set points to that atom's element in the one shared list. A file with an element that its first frame lacks makes reading the whole directory fail.", "quantifier": "for every collection of files and any order of discovery", "why_tests_cant": "Order of discovery (os.walk) is arbitrary.", "anchors": ["matersdk/data/infoset.py: InfoSet.from_file", "matersdk/data/infosets.py: InfoSets.from_dir"]}
{"id": "C29", "title": "Selecting frames by index", "statement": "Selecting frames by an index list returns exactly those frames in order when every index is between -n and n-1; the built-in guard accepts an index equal to the number of frames and the failure then surfaces as a bare IndexError instead of the guard's error. If the virials are missing they are replaced by ten zeros whatever the number of frames, so the selection usually cannot be saved.", "quantifier": "for every collection size and non-empty index list", "why_tests_cant": "Boundary value for every size.", "anchors": ["matersdk/data/struct_collection.py: StructCollection.from_indices"]}
{"id": "C30", "title": "Band edges", "statement": "For a non-metal, the reported conduction-band minimum is the lowest eigenvalue at or above, and the valence-band maximum the highest at or below, the Fermi level (which is rounded to three decimals; the energies to four), over all k-points and spins; the gap is non-negative and it is positive exactly when no level sits on the Fermi level. For a metal both are None and asking for the gap raises TypeError. Because of the rounding, an occupied level between the true and the rounded Fermi energy can be reported as conduction-band minimum.", "quantifier": "for every eigenvalue table and Fermi energy", "why_tests_cant": "All tables.", "anchors": ["matersdk/io/pwmat/output/report.py: Report.get_cbm, get_vbm, get_bandgap, _is_metal"]}
{"id": "C31", "title": "Further band-edge entries and directness", "statement": "The further entries listed for a band edge are taken from the k-point after the one at which the extremum is found: bands sharing the extremum at the same k-point are missed, unrelated levels can be listed, valence bands are counted from zero there, and nothing is added when the extremum is at the last k-point. The gap is called direct exactly when the first k-points of the two edges are equal, so a direct gap at a degenerate maximum can be called indirect.", "quantifier": "for every table with the extremum at the last k-point; exists a table for each defect", "why_tests_cant": "Needs a witness plus a universally quantified failure at the last k-point.", "anchors": ["matersdk/io/pwmat/output/report.py: Report.get_cbm, get_vbm"]}
{"id": "C32", "title": "Distances along a k-path", "statement": "The distances along a k-path have one entry per k-point, start at zero and never decrease; from each point to the next they grow by the length of the reciprocal-space vector between them, except between two neighbouring labelled lines (a jump), where they stay equal, so the segments are joined end to end. A segment without points between its labelled ends is therefore given length zero. A line that does not start with three numbers makes the call fail.", "quantifier": "for every list of k-point lines, lattice and number parser", "why_tests_cant": "All paths.", "anchors": ["matersdk/io/pwmat/input/inkpt.py: Inkpt.get_distance_from_gamma_A, _split_distances_from_gamma_lst"]}
{"id": "C33", "title": "Automatic k-mesh", "statement": "Along a flagged vacuum direction the mesh count is 1, otherwise it is the integer nearest to the reciprocal length over 2 pi times the density, at least 1. The density is really a spacing: counts get no larger as it grows, exceed every bound as it goes to zero, yet density 0 gives one point. Counts are at least 1 for non-negative densities; a negative density is accepted and gives negative counts.", "quantifier": "for every lattice, atom list and real density", "why_tests_cant": "All reals.", "anchors": ["matersdk/calculation/kpoints/kmesh.py: KMesh"]}
{"id": "C34", "title": "Adjacency matrix of a structure", "statement": "The adjacency matrix is symmetric. With odd scaling factors entry (i,j) is the number of translations in the box that bring atom j within the cutoff (inclusive) of atom i, less one on the diagonal; if the box reaches the cutoff this is the number of neighbours in the infinite crystal. Even factors are not rejected as documented: factors 1 and 2 multiply every count by their product, other even factors fail with ValueError.", "quantifier": "for every lattice, cutoff, atom list and integer factors", "why_tests_cant": "All structures.", "anchors": ["matersdk/feature/graph/edge.py"]}
{"id": "C35", "title": "Element tables are inverse to each other", "statement": "Mapping an atomic number to its symbol and back is the identity for every number in the table and symbol to number and back for every symbol; unknown keys raise KeyError.", "quantifier": "for every key of either table", "why_tests_cant": "Exhaustive over the finite tables.", "anchors": ["matersdk/io/pwmat/utils/parameters.py: atomic_number2specie, specie2atomic_number"]}
{"id": "C36", "title": "Job scripts keep their directives apart", "statement": "Of the seven scheduler directives of a job script only the first four are on lines of their own; threads per core, GPUs and GPUs per task always share one line, so the scheduler sees five directive lines.", "quantifier": "for every parameter set without line breaks", "why_tests_cant": "All parameter values.", "anchors": ["matersdk/hpc/slurm/job.py"]}
{"id": "C37", "title": "C++ supercell copies", "statement": "Scaling a cell by (s0,s1,s2) yields n*s0*s1*s2 atoms: for each integer triple in the code's range and each primitive atom exactly one atom with that atom's element at its position plus the lattice shift; the ranges contain 0, have s_i values each, and are symmetric for odd s_i.", "quantifier": "for every structure and every positive scaling", "why_tests_cant": "All scalings.", "anchors": ["source/nblist/include/structure.h: Structure::make_supercell"]}
{"id": "C38", "title": "Owned atoms are the unshifted copy", "statement": "The atoms the supercell calls its own are the zero-shift copy of the primitive cell for every all-odd scaling (the only scalings the neighbour list builds); for scalings with even factors they can be another copy.", "quantifier": "for every primitive cell and all-odd scaling; exists an even scaling", "why_tests_cant": "Index arithmetic over all scalings (two different linearisation orders).", "anchors": ["source/nblist/include/binLinkedList.h: Supercell::calc_prim_cell_idx_xyz, calc_prim_cell_idx, calc_owned_atom_idxs", "source/nblist/include/structure.h: Structure::make_supercell"]}
{"id": "C39", "title": "Cell linked list", "statement": "After building the cell linked list, following the chain of a bin terminates and visits exactly the atoms assigned to that bin, each once; every atom is in exactly one chain.", "quantifier": "for every assignment of atoms to bins", "why_tests_cant": "A data-structure invariant over all inputs.", "anchors": ["source/nblist/include/binLinkedList.h: BinLinkedList::_build, get_neigh_atoms"]}
{"id": "C40", "title": "Bin indices stay in range", "statement": "When the atoms' fractional coordinates lie in [0,1) and along each Cartesian axis some lattice vector has a positive component, every atom of every copy gets a bin within the allocated bins. On one axis the exact exception is an atom on the far face of a box that is a whole number of bins long. If no vector has a positive component along an axis a true neighbour can be missed, and an atom outside the unit cell makes the code write outside its arrays.", "quantifier": "for every lattice, positions and bin size", "why_tests_cant": "Geometry over all reals.", "anchors": ["source/nblist/include/binLinkedList.h: BinLinkedList::get_bin_idx, _build"]}
{"id": "C41", "title": "Neighbour search is exact inside the supercell", "statement": "The neighbours found for an atom are exactly the supercell atoms whose squared distance is above 0.001 (the self threshold) and below the squared cutoff; hence two different atoms closer than about 0.032 are not neighbours.", "quantifier": "for every structure with fractional coordinates in [0,1) in a non-degenerate cell that has a positive component along each Cartesian axis, every cutoff and bin size", "why_tests_cant": "Completeness of a spatial search over all configurations.", "anchors": ["source/nblist/include/binLinkedList.h: BinLinkedList::get_neigh_bins, get_neigh_atoms"]}
{"id": "C42", "title": "Periodic completeness", "statement": "For a central-cell atom every periodic image of every atom within the cutoff is present in the constructed supercell, so the neighbour list misses no periodic neighbour.", "quantifier": "for every structure with fractional coordinates in [0,1) in a non-degenerate cell that has a positive component along each Cartesian axis, every cutoff and bin size", "why_tests_cant": "A geometric fact over all lattices (including very skewed ones).", "anchors": ["source/nblist/include/binLinkedList.h: BinLinkedList constructor", "source/nblist/include/structure.h: get_interplanar_distances"]}
{"id": "C43", "title": "No neighbour is listed twice", "statement": "When the number of bins along each periodic axis is at least twice the search width plus one, no neighbour is listed twice. The default bin sizes always achieve this for fully periodic cells, non-periodic cells, and partially periodic cells whose non-periodic vectors have no component along the periodic Cartesian axes. Duplicates occur with other bin sizes, and with default sizes for a partially periodic cell that is not aligned in this way.", "quantifier": "for every configuration with enough bins; exists a configuration with too few", "why_tests_cant": "All bin grids.", "anchors": ["source/nblist/include/binLinkedList.h: BinLinkedList::get_neigh_bins, get_num_neigh_bins"]}
{"id": "C44", "title": "Neighbour relation is symmetric", "statement": "If an image of atom j with displacement d is a neighbour of atom i, then an image of i with displacement -d is a neighbour of j.", "quantifier": "for every structure with fractional coordinates in [0,1) in a non-degenerate cell that has a positive component along each Cartesian axis, every cutoff and bin size", "why_tests_cant": "Follows from exactness and completeness; cannot be sampled.", "anchors": ["source/nblist/include/neighborList.h: NeighborList::_build"]}
{"id": "C45", "title": "Sorting a neighbour list", "statement": "With sorting enabled each atom's list is a rearrangement of the unsorted one with non-decreasing distances.", "quantifier": "for every structure with fractional coordinates in [0,1) in a non-degenerate cell that has a positive component along each Cartesian axis, every cutoff and bin size, every sorting routine that meets its contract", "why_tests_cant": "All lists, including ties.", "anchors": ["source/nblist/include/neighborList.h: NeighborList::_build"]}
{"id": "C46", "title": "Flattened neighbour table for force fields", "statement": "In the flattened table, row i holds the primitive indices and relative coordinates of atom i's periodic neighbours in order, then -1/0 padding, when every list fits in the row width; the widest-list query is the least such width and the by-element query is the largest number of neighbours of that element. When the last list does not fit the write leaves the array; when another does not fit its tail spills into the next row.", "quantifier": "for every structure with fractional coordinates in [0,1) in a non-degenerate cell that has a positive component along each Cartesian axis, every cutoff and bin size; every row width", "why_tests_cant": "All shapes and the overflow case.", "anchors": ["source/nblist/include/neighborList.h: NeighborList::find_info4mlff"]}
{"id": "C47", "title": "C++ switching function is twice continuously differentiable", "statement": "The switching function is 1 up to the inner radius, 0 from the cutoff on, between 0 and 1 and non-increasing in between, and the returned derivative is its derivative at every real distance (including both radii) and is continuous.", "quantifier": "for every 0 <= rs < rc and every real distance", "why_tests_cant": "Real analysis.", "anchors": ["source/descriptor/deepmd/include/se.h: SwitchFunc", "source/descriptor/mtpr/include/basis.h: SwitchFunction"]}
{"id": "C48", "title": "C++ descriptor derivatives are the derivatives", "statement": "The twelve derivative entries stored per neighbour are the partial derivatives of the four descriptor entries with respect to the centre position (pair and plane-wave variants) or the neighbour position (environment matrix variant), and the two variants are each other's negatives.", "quantifier": "for every relative position other than zero and radii 0 <= rs < rc", "why_tests_cant": "Real analysis over all positions.", "anchors": ["source/descriptor/deepmd/include/se.h: PairTildeR::generate, deriv", "source/descriptor/deepmd/include/envMatrix.h: EnvMatrix::find_value_deriv", "source/descriptor/deepmd/include/se4pw.h: Se4pw::generate"]}
{"id": "C49", "title": "Typed slot layout", "statement": "In the environment matrix every neighbour of type t of a centre occupies its own slot inside the block of type t in neighbour order, all other slots keep their initial zeros, and different centres never share a slot, provided no centre has more neighbours of a type than reserved; otherwise the surplus lands in the next type's block or next centre's row.", "quantifier": "for every neighbour table, type assignment and reservation", "why_tests_cant": "Address arithmetic over all shapes.", "anchors": ["source/descriptor/deepmd/include/envMatrix.h: EnvMatrix::find_value_deriv", "source/descriptor/deepmd/include/se4pw.h: Se4pw::generate, get_prim_indices_from_matersdk"]}
{"id": "C50", "title": "Full descriptor is the block matrix of pair descriptors", "statement": "The full descriptor consists of the pair descriptors placed side by side: row and column offsets are the prefix sums of the block sizes, blocks do not overlap and cover everything.", "quantifier": "for every list of element types and block sizes", "why_tests_cant": "All shapes.", "anchors": ["source/descriptor/deepmd/include/se.h: TildeR::generate, deriv"]}
{"id": "C51", "title": "Chebyshev radial basis", "statement": "The n-th radial basis value is the n-th Chebyshev polynomial of the scaled distance (cos(n theta) at cos theta), bounded by 1 in absolute value on the interval, and both derivative tables are its derivatives.", "quantifier": "for every degree n and distance in the interval", "why_tests_cant": "All degrees, all reals.", "anchors": ["source/descriptor/mtpr/include/basis.h: RB_Chebyshev::build, RQ_Chebyshev::build", "source/descriptor/mtp/include/mtpMRadial.h: ChebyshevPoly::build, MtpQ::build"]}
{"id": "C52", "title": "Moment switching function in the MTP module drops to zero inside", "statement": "The MTP switching function is documented as 1 below the inner radius but returns 0 there, so it jumps from 0 to 1 at the inner radius.", "quantifier": "for every 0 < rs < rc", "why_tests_cant": "Real analysis.", "anchors": ["source/descriptor/mtp/include/mtpMRadial.h: MtpSwitchFunc2::get_result"]}
{"id": "C53", "title": "Enumeration of moment combinations is sound and complete", "statement": "The combinations enumerated for a level are, up to order, exactly the multisets of moments (mu,nu) whose levels 2+4mu+nu add up to that level.", "quantifier": "for every level", "why_tests_cant": "Combinatorial enumeration for all levels.", "anchors": ["source/descriptor/mtp/src/mtpLevel.cc: get_all_schemes4lev"]}
{"id": "C54", "title": "Enumeration repeats combinations", "statement": "A combination containing two different moments of equal level is listed more than once, so the basis is redundant from a certain level on; combinations without such a pair are listed exactly once.", "quantifier": "for every level; exists a level", "why_tests_cant": "Counting over all levels.", "anchors": ["source/descriptor/mtp/src/mtpLevel.cc: get_all_schemes4lev, get_contracted_combs"]}
{"id": "C55", "title": "Every kept combination contracts to a scalar", "statement": "Multiplying out any combination kept as contractible, in the stored order, never trips the dimension assertion and ends in a scalar.", "quantifier": "for every combination of any level", "why_tests_cant": "All combinations.", "anchors": ["source/descriptor/mtp/src/mtpLevel.cc: get_contracted_combs", "source/descriptor/mtp/src/mtpBModule.cc: MtpBModuleImpl::forward"]}
{"id": "C56", "title": "Number of radial channels", "statement": "The advertised number of radial channels equals one more than the largest mu occurring in the kept combinations, for every maximal level of at least 2; below that it is 1 although nothing is kept.", "quantifier": "for every maximal level", "why_tests_cant": "All levels.", "anchors": ["source/descriptor/mtp/src/mtpLevel.cc: MtpMCoeffPairCombs::nmus, nmus_check"]}
{"id": "C57", "title": "Voxel binary searches", "statement": "The lower-bound search returns the first position whose coordinate is not below x and the upper-bound search the first position whose coordinate is above x, for every sorted voxel, and both terminate.", "quantifier": "for every sorted list and query", "why_tests_cant": "Loop invariant over all lists.", "anchors": ["source/nblist/src/CpuNeighborList.cc: Voxels::findLowerBound, findUpperBound"]}
{"id": "C58", "title": "Aligned array memory", "statement": "The data pointer of an aligned array is a multiple of 16 and the whole data area lies inside the allocated block, for every address the allocator may return; any history of constructing, resizing, accessing in range and destroying arrays is free of memory errors. Copying an array object, or an allocation that throws while resizing, leads to a double release.", "quantifier": "for every base address, element size and count; for every history of operations; exists a failing history with a copy and one with a failing resize", "why_tests_cant": "All addresses.", "anchors": ["source/core/include/AlignedArray.h: AlignedArray::allocate"]}
{"id": "C59", "title": "Ownership of potential parameters", "statement": "Loading, copying, moving and destroying parameter objects in any order is free of memory errors, and a copy is equal to and independent of its source. Move assignment gives the target an alias of the wrong table and destroying it releases the same memory twice; so do assigning an object to itself and copy-assigning an object without tables onto one with tables.", "quantifier": "for every program of loads, copies, moves and destructions; every non-empty source of a move assignment; exists a failing self assignment and shrinking assignment", "why_tests_cant": "Heap histories.", "anchors": ["source/descriptor/mtpr/src/mtpParam.cc: MtpParam copy/move constructors and assignments, destructor"]}
{"id": "C60", "title": "Outer products", "statement": "The rank-nu outer power of a vector has 3^nu entries and the entry with base-3 digits (d1..dnu) is the product of the corresponding components.", "quantifier": "for every vector and nu >= 1", "why_tests_cant": "All ranks.", "anchors": ["source/core/include/vec3Operation.h: RecursionOuterProduct"]}
{"id": "C61", "title": "Radial features have correct gradients", "statement": "The forward pass of the radial operator stores the partial derivatives of each radial value with respect to the three relative coordinates, and its backward pass returns the gradient of the weighted sum of the values, for every neighbour whose distance is not exactly the inner radius (and, for a padded neighbour at the origin, when the inner radius is positive).", "quantifier": "for every number of basis functions, radii rs < rc, relative position and incoming gradient", "why_tests_cant": "All reals; finite differences only sample points.", "anchors": ["source/descriptor/mtp/src/mtpMRadialOp.cc: MtpQFunction::forward, backward"]}
{"id": "C62", "title": "Voxel of a position", "statement": "Every position gets a voxel inside the table as soon as the table is not empty, and periodic images get the same voxel when the box is lower triangular; but the row does not divide the box into equal slabs, because the width for the third axis overwrites the width for the second one, and a requested width above twice the box makes every insertion write outside the table.", "quantifier": "for every box, requested widths and position", "why_tests_cant": "All real positions and boxes; the existing test prints the voxels of a few positions and asserts nothing.", "anchors": ["source/nblist/src/CpuNeighborList.cc: Voxels::Voxels, getVoxelIndex, insert"]}
{"id": "C63", "title": "Assembling the normalised features of all element pairs", "statement": "When the normaliser for several centre elements puts the normalised features of a structure together, the result has the rows of every centre atom exactly once, grouped by centre element in the order given, and every row consists of the blocks for the neighbour elements in order. The code walks the centre elements a second time instead of the neighbour elements: neighbour elements that are not centre elements are silently left out, and a centre element that is not a neighbour element raises KeyError.", "quantifier": "All lists of centre elements and neighbour elements, all per-pair statistics and feature blocks.", "why_tests_cant": "The test uses the same element list for centres and neighbours, where both loops agree, and cannot run, as a module it imports is not in the repository; that the columns are right for every pair of lists is a statement about all of them.", "anchors": ["matersdk/feature/deepmd/preprocess.py: TildeRNormalizer.normalize", "matersdk/feature/deepmd/preprocess.py: TildeRNormalizer._normalize"]}
{"id": "C64", "title": "Type files saved with a collection name the elements", "statement": "A saved collection comes with one file listing the elements and one giving each atom's position in that list. The positions are right (distinct elements in order of first appearance), but the list holds the numbers 0, 1, 2, ... instead of the elements, so collections of different elements have identical type files.", "quantifier": "for every collection and every set size; exists a pair of collections", "why_tests_cant": "A test comparing with stored output would not notice; the loss shows only when two compounds are compared.", "anchors": ["matersdk/data/struct_collection.py: StructCollection.to"]}
{"id": "C65", "title": "Reading the eigenvalues of a report", "statement": "Reading a REPORT file yields, for every spin, k-point and band, the eigenvalue printed at that place: the printed blocks of five values per line are re-assembled in order, the first NUM_KPT blocks are spin up and the rest spin down. For two spins the final consistency check itself fails when there are fewer than three bands (or a NumPy that refuses unequal-shape comparison), because it compares a shape with array contents.", "quantifier": "for every number of k-points, bands and spins and every table of values printed in the report's layout; every two-spin report of fewer than three bands for the failure", "why_tests_cant": "The block width depends on the number of bands modulo five, and the number of k-points and spins is unbounded.", "anchors": ["matersdk/io/pwmat/output/report.py: Report.get_eigen_energies, get_num_kpts, get_num_bands"]}
{"id": "C66", "title": "Vacuum detection", "statement": "A direction is flagged as vacuum exactly when its lattice vector is more than 10 longer than the extent of the Cartesian coordinates with the same number. For a cell with its vectors along x, y and z a flag means that the infinite crystal has an empty slab wider than 10 across that direction. The converse fails (vacuum in the middle of the cell is missed), and for other orientations a crystal without any empty slab can be flagged. A structure without atoms raises ValueError.", "quantifier": "for every lattice and every list of atoms; exists a structure for each failure", "why_tests_cant": "All lattices and atom positions; the slab statement is about infinitely many images.", "anchors": ["matersdk/io/publicLayer/structure.py: DStructure.judge_vacuum_exist"]}
{"id": "C67", "title": "Moment tensor descriptor values are physical", "statement": "The descriptor value of an atom for any combination of moments does not change when all its neighbours are rotated or reflected, nor when they are listed in another order. For a combination whose later members use up the directions of the first, it equals the closed sum over neighbours of radial factors times powers of scalar products; a value exists exactly when the contractions leave no direction over, otherwise there is an error.", "quantifier": "for every list of neighbours, every length-preserving linear map, every reordering, every combination of moments, every coefficient table", "why_tests_cant": "The invariance is an identity of real polynomials in all neighbour coordinates and for all orthogonal maps; a test sees finitely many rotations up to a tolerance.", "anchors": ["source/descriptor/mtp/src/mtpBModule.cc: MtpBModuleImpl::forward", "source/descriptor/mtp/src/mtpMModule.cc: MtpMModuleImpl::forward", "source/descriptor/mtp/src/mtpMAngularOp.cc: MtpMAngularOp"]}
{"id": "C68", "title": "Unused neighbour slots do not enter the moment tensor descriptor", "statement": "Neighbour rows are filled up with index -1 and zero coordinates. With a positive inner cutoff any number of such entries leaves every descriptor value as it is. With inner cutoff zero each of them counts as a neighbour sitting on the centre, with the species of the last atom.", "quantifier": "for every well-formed input and every number of unused entries; exists an input for the failure", "why_tests_cant": "The number of unused entries depends on the densest atom of the batch and is unbounded.", "anchors": ["source/descriptor/mtp/src/mtpMModule.cc: MtpMModuleImpl::forward", "source/descriptor/mtp/src/mtpMRadialOp.cc"]}
{"id": "C69", "title": "Each species pair has its own radial coefficients", "statement": "The coefficient row used for a radial function, centre species and neighbour species is the one stored for these three, no two triples share a row, and a radial function that does not exist is an error. This needs species numbered below the number of species: atomic numbers are accepted silently and make different pairs share a row.", "quantifier": "for every number of species and radial functions and every triple; exists a clash for unnumbered species", "why_tests_cant": "Index arithmetic over all species counts.", "anchors": ["source/descriptor/mtp/src/mtpMModule.cc: MtpMModuleImpl::forward"]}
{"id": "C70", "title": "The average bond length averages every bond once", "statement": "For a structure whose supercell reaches the cutoff, the average bond length between two elements is the mean distance over all bonds of the infinite crystal that start at a site of the cell: each pair of a site of the first element and an atom of the second, at a positive distance up to the cutoff, enters once. Exchanging the two elements gives the same value. It is above zero and at most the cutoff; without such bonds it is not a number.", "quantifier": "for every lattice, every list of distinct sites in the cell, every cutoff and every supercell reaching it, every pair of elements", "why_tests_cant": "Quantifies over all crystals; padding, the centre itself and periodic images must all be treated right at once.", "anchors": ["matersdk/feature/avg/avgbond.py: AvgBond.get_avg_bond_length", "matersdk/io/publicLayer/neigh.py: StructureNeighborsV1"]}
{"id": "C71", "title": "Mean squared displacements along a trajectory", "statement": "The list of displacements has one value per step, each the mean squared distance the atoms moved since the frame before; it is not negative and zero only when nothing moved. The variant without drift equals it minus the squared displacement of the centroid and does not see translations of frames. The diffraction intensity is in (0,1]. Documented is the displacement from the first frame: this holds for the first value only. Atoms crossing the cell boundary count as jumping back, one or two processors make every call fail, and a frame with one atom is accepted next to any other.", "quantifier": "for every trajectory with a fixed number of atoms; witnesses for the failures", "why_tests_cant": "Identities over all coordinates of all frames.", "anchors": ["matersdk/feature/avg/msd.py: Msd.calc_msd, Msd.calc_msd_sub_centroid, DiffractionIntensity.calc_di", "matersdk/io/publicLayer/structure.py: DStructure.get_centroid"]}
{"id": "C72", "title": "Average bond angle and order parameter", "statement": "For two different neighbour elements, the mean angle and the tetrahedral order parameter are those of all pairs of neighbours of the same centre, one of each element. For equal elements each neighbour is also paired with itself: the mean is too small by the factor (n-1)/(n+1) for a centre with n neighbours, and the order parameter too low by 2/3 per neighbour. The bond list filtered by angle holds exactly the pairs within the tolerance, shorter bond first.", "quantifier": "for every neighbour table, whatever its padding; witnesses for the failures", "why_tests_cant": "The claim relates angle sums over all tables; a test of one crystal sees only one factor.", "anchors": ["matersdk/feature/avg/avgangle.py: AvgAngle.get_avg_angle", "matersdk/feature/avg/avgbond.py: get_bond_lengths_according2angle"]}
{"id": "C73", "title": "Pair distance along a trajectory", "statement": "The distance list has one entry per frame, the distance between the two chosen atoms as written in the frame, and does not depend on their order. The periodic image is not chosen: an atom written one cell further gives another distance.", "quantifier": "for every trajectory and pair of atom numbers within it; witness for the failure", "why_tests_cant": "Any trajectory, any length; periodic wrapping appears only in long runs.", "anchors": ["matersdk/feature/avg/avgbond.py: PairBond.get_frames_pair_bond"]}
{"id": "C74", "title": "Every combination of moments up to a level is enumerated once, except one", "statement": "The enumeration for a maximum level lists no sequence of moments twice, and lists every sequence whose total level is at most the maximum, with one exception: for an even maximum the product of max/2 moments (0,0), which has exactly the maximum level, is missing. For an odd maximum nothing is missing.", "quantifier": "for every maximum level and every sequence of moments", "why_tests_cant": "The set of sequences grows exponentially with the level; a test compares one small level.", "anchors": ["source/descriptor/mtp/include/level.h: MTPLevel::calc_redundant_combinations, MTPLevel::calc_redundant_combination, MTPLevel::get_max_num_M"]}
{"id": "C75", "title": "What the reduction of combinations keeps, and how often", "statement": "Without reduction the list is stored as given. With reduction, a combination in which some non-zero tensor rank occurs an odd number of times disappears; every other is kept as often as it was listed times the number of its neighbouring moments that are in non-descending order of level. Hence single moments vanish, triples in order are doubled and several orders of the same moments survive. A list with an empty combination makes the code read outside an array, and the enumeration of every positive level contains one.", "quantifier": "for every list of combinations; witnesses for the failures", "why_tests_cant": "Multiplicities for all lists; with pairs only the defect is invisible.", "anchors": ["source/descriptor/mtp/include/level.h: Combinations::Combinations, Combinations::remove_duplicates, Combinations::remove_cannot_contract"]}
{"id": "C76", "title": "Arranging combinations by level", "statement": "The comparison used for sorting is 'strictly lower total level'. Arranged with sorted positions, the result is in non-descending order of level; it is no permutation, because the reduction runs again and multiplies every count by the number of neighbouring moments in order.", "quantifier": "for every list of non-empty combinations and every sorted arrangement of its positions", "why_tests_cant": "Any list, any of the possible results of an unstable sort.", "anchors": ["source/descriptor/mtp/include/level.h: CombinationsSortBasis, CombinationsArrangement::arrange"]}
{"id": "C77", "title": "A perturbed structure is the given one strained, displaced and rotated", "statement": "Perturbing returns as many structures as asked for. Each is the given structure under a symmetric strain, with every atom displaced, turned by a proper rotation so that the first lattice vector lies along x and the second in the xy plane, both with positive components. Elements and order of atoms stay; fractional coordinates stay up to the random displacement of the requested size; no cell edge changes by more than twice the fraction; the result does not depend on which QR decomposition the linear algebra library picks.", "quantifier": "for every cell, every list of atoms, every fraction and distance, all random numbers for which the strained cell stays right-handed, every routine that returns some QR decomposition", "why_tests_cant": "Random input and a library routine whose signs are not specified; a test sees one draw.", "anchors": ["matersdk/adalearn/generator/perturbation.py: PerturbStructure.perturb, get_cell_perturb_matrix, get_atom_perturb_vector, rot_lower_triangular"]}
{"id": "C78", "title": "When perturbing fails", "statement": "A negative fraction, or a negative distance for a structure with atoms, is refused. For a fraction below one half, a structure in a right-handed cell can always be perturbed and one in a left-handed cell never (assertion error), whatever is drawn. One half is sharp: above it, some draws make a right-handed cell fail.", "quantifier": "for every structure, every draw of random numbers; witness draws above one half", "why_tests_cant": "Failure depends on rare draws and on the handedness of the cell, which a test with one crystal does not vary.", "anchors": ["matersdk/adalearn/generator/perturbation.py: PerturbStructure.perturb, rot_lower_triangular"]}
{"id": "C79", "title": "The special points and the path of a band calculation are the ones of the lattice", "statement": "The file of special points lists every point of the symmetry table once, Gamma as G, with its own coordinates; for a two-dimensional material those at height zero and no others. The path file has one block for each pair of neighbours of each path, with the names and coordinates of both ends. It can be written for every table, in two dimensions whatever the paths name. In two dimensions neighbours are joined across removed points, so a block may belong to no given path.", "quantifier": "for every symmetry table without a point called G, every list of paths, every reciprocal lattice and density; witness for the joined points", "why_tests_cant": "The tables come from another library and differ for each lattice type; tests use a single crystal.", "anchors": ["matersdk/calculation/kpath/kpathSampler.py: KpathSampler._get_kpoints, _get_kpaths, output_gen_kpt, output_HIGHK_file"]}
{"id": "C80", "title": "The number of k-points of a path segment follows from its length", "statement": "For a reciprocal lattice along the axes the number of points of a block is the least for which the spacing does not exceed the requested one. Exactly for such lattices are the lengths right: the code multiplies entry by entry instead of forming the matrix product, and for every hexagonal cell the segment Gamma-M is taken too short and M-K too long, so that spacings exceed the requested one.", "quantifier": "for every lattice, every pair of points, every positive density; for every edge of a hexagonal cell", "why_tests_cant": "The characterisation is an equivalence over all lattices; the numbers look plausible for any single one.", "anchors": ["matersdk/calculation/kpath/kpathSampler.py: KpathSampler.output_gen_kpt"]}
{"id": "C81", "title": "Densities of states by element are sums over the element's orbitals", "statement": "The table by elements has the energies and one column for each element; when no element's name begins another heading, each entry is the sum of the element's own orbitals and the entries of a row add up to all orbitals. Otherwise foreign columns are added: with sulfur and silicon the silicon density counts twice. The total density and the table by orbitals are the columns their headings promise, in either spelling of the total.", "quantifier": "for every table, every reader of numbers, every enumeration order of sets; witness for sulfur and silicon", "why_tests_cant": "The fault needs two elements of which one's symbol begins the other's; a test with one compound does not see it.", "anchors": ["matersdk/io/pwmat/output/dostotalspin.py: Dostotalspin._preprocess, get_tdos, get_pdos_elements, get_pdos_orbitals"]}
{"id": "C82", "title": "Band weights by element are sums over the element's orbitals", "statement": "Every row of the table by elements keeps distance, energy and total weight and has for each element the sum of its own orbitals, when no element's name begins another heading. The heading KPOINT begins with the symbol of potassium, whose weights therefore always include the distance along the path. Asking for an orbital returns every column in which the name occurs in either case of letters, so S-3S also returns Os-3S. Distances are converted with 0.529177249.", "quantifier": "for every file, every reader of numbers, every enumeration order of sets; for every file with potassium", "why_tests_cant": "Depends on which symbols occur together; weights stay plausible numbers.", "anchors": ["matersdk/io/pwmat/output/fatabandstructureTxt.py: FatbandStructure._preprocess, _get_elements_lst, get_element_dfs_lst, get_orbital_dfs_lst"]}
{"id": "C83", "title": "A file of band weights is split at its bands", "statement": "When all bands have as many rows, there is one table for each band and it is what the band alone would give; the number of bands is the number of titles, and the number of k-points is right when one blank line ends the first band. A file with one band cannot be opened. Bands of different length are mixed.", "quantifier": "for every file of at least two bands of equal length with any blank lines; every file with fewer than two bands; witness for different lengths", "why_tests_cant": "The split is by counting rows, so only the arithmetic over all sizes shows that bands and tables coincide.", "anchors": ["matersdk/io/pwmat/output/fatabandstructureTxt.py: FatbandStructure._get_num_bands, _get_num_kpoints, _preprocess, get_total_dfs_lst"]}
{"id": "C84", "title": "Nested arrays hold what is assigned and are released completely with their own sizes", "statement": "Allocating an array of any sizes leaves older memory alone and makes one block for each prefix of an index. Each element reads as the last value assigned to it; before that as zero when zeros were asked for and as no value at all otherwise. Indices outside the sizes are memory errors. Releasing with the sizes of the allocation gives back exactly the blocks of the array; with any other sizes of the same number there is a memory error or a leak. Printing lists every index once, in order, with its value.", "quantifier": "for every heap, every number of dimensions (three, four and five among them), all sizes including zero, every sequence of assignments; positive sizes for the release with others", "why_tests_cant": "A leak or a stray release is invisible to assertions on values and depends on the sizes.", "anchors": ["source/core/include/arrayUtils.h: allocate3dArray, free3dArray, show3dArray, allocate4dArray, free4dArray, show4dArray, allocate5dArray, free5dArray, show5dArray"]}
{"id": "C85", "title": "A batch of structures gives each structure the descriptor it has alone", "statement": "The part of every structure in the output of the batch operators holds what the structure gives alone, whatever the other structures are. The operators with one list of reserved slots for the batch always do this. The operator that takes the list of each structure does it when all reserve as many slots as the first one; with fewer slots the values of later atoms move into the rows of earlier ones, with more slots the values run over the next structure's part or outside the output.", "quantifier": "for every batch of any length, all neighbour tables, coordinates and reserved numbers, every cutoff, structures that can be treated alone; and for the first that cannot", "why_tests_cant": "A test runs one batch, the existing ones a batch of one structure; the effect of a structure on the others needs all pairs.", "anchors": ["source/descriptor/deepmd/src/envMatrixOp.cc: EnvMatrixFunction::forward, EnvMatrixOp", "source/descriptor/deepmd/src/se4pw_op.cc: Se4pwOp::forward, get_prim_indices_from_matersdk", "source/descriptor/deepmd/include/envMatrix.h: EnvMatrix::find_value_deriv", "source/descriptor/deepmd/include/se4pw.h: Se4pw::generate"]}
{"id": "C86", "title": "C++ structures behave as values and give their memory back", "statement": "Any sequence of constructions, copies, assignments, enlargements by positive factors and destructions of C++ structures runs exactly when the values it asks for exist. Then every variable shows the value it would have if structures were plain values, what is done to one variable never shows in another, and the memory in use is what the structures still held need. Exceptions: a structure assigned to itself loses its atoms, a factor of zero loses memory, and a second enlargement forgets the origin of the first.", "quantifier": "for every program of any length over any number of variables, all numbers of atoms, arguments and factors", "why_tests_cant": "Tests run a few sequences and see neither leaks nor released memory that happens to keep its content.", "anchors": ["source/nblist/include/structure.h: Structure, operator=, ~Structure, calc_cart_coords, make_supercell, show"]}
{"id": "C87", "title": "Every column of a force field's input describes the neighbour it should", "statement": "Preparing a structure for a force field gives one row per atom of the listed elements, grouped by element. In every row, column by column, the relative position, the site number, the normalised environment entries and their derivatives are those of the neighbours within the cutoff, nearest first, element by element, with padding after them; too few columns for some atom are reported. The four arrays agree column by column when centre and neighbour elements are listed in the same order, and site numbers are row numbers when the structure lists its atoms in that order too; neither holds otherwise.", "quantifier": "for every cell, structure without coinciding atoms, odd supercell, cutoffs, element lists, column widths and statistics", "why_tests_cant": "The existing test prints shapes and asserts nothing (and cannot run, as a module it imports is not in the repository), so shifted columns, wrong derivatives and site numbers that refer to another order go unseen.", "anchors": ["matersdk/infer/pwmatmlff/deepmd/preprocess.py: InferPreprocessor", "matersdk/infer/pwmatmlff/deepmd/inference.py: DpInfer._preprocess", "matersdk/feature/deepmd/preprocess.py: TildeRNormalizer.normalize", "matersdk/feature/deepmd/se_pair.py: DpTildeRPairDescriptor", "matersdk/io/publicLayer/structure.py: DStructure.get_natoms"]}
{"id": "C88", "title": "Saving a force field keeps every parameter", "statement": "Saving the parameters of a trained force field and reading the file back gives exactly the weights and biases of every layer of every network under their names, the residual scales of the layers that have them, the widths of the descriptor and the layer sizes; a missing weight or bias is reported. This holds when embedding and fitting networks have equally many layers; with fewer fitting layers the last embedding layers are left out without notice, with more the save fails.", "quantifier": "for every checkpoint, numbers of networks, layer counts and tensor shapes", "why_tests_cant": "The one model used in the existing test has three layers in both kinds of network, which is the case in which the wrong loop bound does no harm.", "anchors": ["matersdk/infer/pwmatmlff/deepmd/extractor.py: FFExtractor.save_hdf5_file", "matersdk/infer/pwmatmlff/deepmd/extractor.py: FFExtractor.get_hdf5_dict"]}
{"id": "C89", "title": "The neighbour list called from Python describes the structure passed to it", "statement": "Called with C-contiguous arrays of the right types, the Python function returns for every atom its periodic neighbours within the cutoff with their numbers and relative positions, in Cartesian or fractional coordinates, nearest first when asked for, padded to the requested width; without atoms an assertion fails. Arrays of other types or layouts are not refused: 64 bit atomic numbers give every second atom type 0, a lattice stored by columns gives the neighbours of the transposed lattice, short arrays are read past their end. Dropping the result does not release the table of neighbour numbers.", "quantifier": "for every cell with atoms inside it, cutoff, periodicity, width, sorting, kind of coordinates; for every sequence of calls", "why_tests_cant": "A call with one structure and arrays converted beforehand shows none of the failures, and leaked memory cannot be observed in the result.", "anchors": ["source/nblist/bind/nblist_bind.cc: find_info4mlff", "source/nblist/include/structure.h: Structure", "source/nblist/include/neighborList.h: NeighborList"]}
{"id": "C90", "title": "Neighbour lists in memory behave like values and give their memory back", "statement": "Neighbour lists can be constructed, copied, assigned and destroyed in any order: each shows the list of its own structure whatever happens to the others, a copy shows what the original shows, and the memory in use is exactly that of the lists alive, all the way through bin list, supercell and structure and the temporary objects of the construction. Without atoms the construction ends the program. A list with atoms assigned to itself reads memory that was freed and never written again. With cutoff 0 the result is an empty list, and three blocks of memory are never released. All this reads the assignment operator of the basic structure information, which lacks its return statement, as if it returned.", "quantifier": "for every sequence of constructions, copies, assignments and destructions over any number of variables; for every structure, cutoff, bin size, periodicity and sorting; for every function that calculates lengths, bins and neighbours", "why_tests_cant": "The existing tests copy and assign once each, without looking at the result, and the assignments of lists with atoms are commented out; leaks, shared pointers and double releases show only in other orders of operations.", "anchors": ["source/nblist/include/neighborList.h: NeighborList", "source/nblist/include/binLinkedList.h: BinLinkedList, Supercell, BasicStructureInfo", "source/nblist/include/structure.h: Structure"]}
{"id": "C91", "title": "Vectors of three numbers obey the laws of space", "statement": "Sum, difference, multiples and quotients of vectors obey the laws of a vector space; the dot product is symmetric, linear and positive, with the inequality of Schwarz; the cross product is the one vector whose dot product with any other is the signed volume, perpendicular to both factors, zero exactly for vectors on one line, right-handed. Operators that change their object give it the value of the plain operator and leave every other object alone, also when an operand is the object itself. Exactly the indices 0, 1, 2 exist; others fail an assertion. == and != decide equality.", "quantifier": "for all vectors and numbers, with a divisor other than 0; for every list of objects and every choice of operands among them", "why_tests_cant": "The tests compare each operator on one or two fixed vectors; the laws speak about all vectors, and about all other objects staying as they are.", "anchors": ["source/core/include/vecx.h: Vec3"]}
{"id": "C92", "title": "The input files of densities of states and of external potentials hold the data of the object", "statement": "The file written for a density of states reads back, comments removed, as the five lines of data of the object, and the file of an external potential as its centre, type, details and flag; no other file or object changes. When the number of energies is not an integer or the width cannot be formatted there is an exception and the file that stood there before is replaced by two lines. Changing the grid of one object changes exactly the objects that hold the same list; objects made without a grid all hold one list, so after a change a new object need not have the documented default 6 6 6. A potential is made exactly for types 1, 2, 3; the number of its details is never compared with its type.", "quantifier": "for every program that makes lists and objects, changes lists and writes files, for every object, path and value whose text is one word", "why_tests_cant": "The class for densities of states has no test; the one test of the other writes a single file and asserts nothing about it. Sharing between objects shows only in programs that change one and then make another.", "anchors": ["matersdk/io/pwmat/input/dos_input.py: DosInput", "matersdk/io/pwmat/input/gen_vext.py: GenVext"]}
{"id": "C93", "title": "Averages and deviations of a set of structures are those of all environments of an element, free columns included", "statement": "For every centre element the stored averages and deviations are those of one sample: the environments of all neighbours of all atoms of that element in all chosen structures, and one row of zeros for each free column. So widening the columns changes the averages although the structures are the same; what stays is the average times the number of columns. The order of the chosen indices does not matter. Everything delivered has one row per centre element and deviations of at least 0.01. Too few columns, structures with different numbers of atoms of a centre element, no structure or no centre element give ValueError, an index outside the set IndexError. Written to a file and read back the object is the same; a file with a part missing gives KeyError.", "quantifier": "for every set of structures (cells with volume, no two atoms images of each other), every list of indices, centre and neighbour elements, widths, cutoffs and odd supercell", "why_tests_cant": "The only test prints the statistics of one set and asserts nothing; it also cannot run, since the class of the set is imported from a module that is not in the repository. Which rows enter a sum does not show in its shape.", "anchors": ["matersdk/feature/deepmd/preprocess.py: TildeRNormalizer.calc_stats", "matersdk/feature/deepmd/preprocess.py: TildeRNormalizer.from_dp_labeled_system", "matersdk/feature/deepmd/preprocess.py: TildeRNormalizer.to", "matersdk/feature/deepmd/preprocess.py: TildeRNormalizer.from_file", "matersdk/feature/deepmd/preprocess.py: NormalizerPremise.concat_tildeRs4calc_stats"]}
{"id": "C94", "title": "Objects of radial functions behave like values in memory, except in named programs", "statement": "The objects of radial functions (Chebyshev polynomials and polynomials times switch, with and without checked radii) own several blocks each. Every program of constructions, copies, moves, assignments, calls of build and destructions that has a meaning for plain values runs without memory errors, every variable shows the size, radii and tables of its own value, commands do not change other variables, and the memory in use is exactly what the values need, so nothing is left when all are destroyed. A distance outside the radii stops the classes with assertions. Programs without such a meaning go wrong: a default MtpQ cannot be destroyed, assigning an object to itself loses its values or frees them twice, assigning an empty RB_Chebyshev frees twice, an empty RQ_Chebyshev cannot be copied, assigned or built, and some of these programs lose memory.", "quantifier": "for every program over any number of variables, every size, radii and distance, and every kind of number; with real numbers the tables are those of C51 and C52", "why_tests_cant": "The tests construct one object of each class and print; which blocks are shared or lost after a sequence of copies, moves and assignments does not show in printed values, and the number of programs is unbounded.", "anchors": ["source/descriptor/mtpr/include/basis.h: RB_Chebyshev, RQ_Chebyshev (constructors, operator=, destructors, build)", "source/descriptor/mtp/include/mtpMRadial.h: ChebyshevPoly, MtpQ (constructors, operator=, destructors, build)"]}
{"id": "C95", "title": "A radial basis object holds its values and their derivatives at every distance, and copies of it may be used freely", "statement": "An object of the radial basis RadialBasisChebyshev made for two radii in order, a highest degree and a distance shows the Chebyshev polynomials of the scaled distance, their derivatives with respect to the distance, their products with the switching function and the derivatives of these products, at every distance, the two radii included. The products are at most one in size from the inner radius on, and zero with their derivatives from the outer radius on; below the inner radius they are the bare polynomials and exceed one. From the inner radius on they are those of MtpQ. In every program of constructions, copies, assignments, recalculations and destructions no memory error occurs, every object shows its own tables, and an array never changes or disappears once filled, though copies share it. The memory is never given back, a negative degree writes outside of the arrays, and recalculating an object made without arguments follows a null pointer.", "quantifier": "for all radii, degrees and distances, and all programs over any number of objects", "why_tests_cant": "The tests compare the switching function at three distances and print the tables of single objects; derivatives at every distance, the size of polynomials of every degree and the sharing of memory after a sequence of copies are not in reach of examples.", "anchors": ["source/descriptor/mtp/include/mtpMRadial_de.h: SwitchFunc, RadialBasisChebyshev"]}
{"id": "C96", "title": "The forces obtained from the moment tensor descriptor are the derivatives of the energy", "statement": "Running the backward pass of the moment tensor descriptor of an atom, with any weights on its values, gives for every neighbour and every axis the partial derivative of the weighted sum of the values with respect to that relative coordinate, provided that no neighbour sits exactly at the inner radius. If neighbours and coefficients move together in any way, the sum changes at the rate given by both gradients. The forces have no total moment about the atom and turn with the neighbours; a neighbour outside the range of the radial functions, such as an unused entry of the neighbour list, gets none. Exactly at the inner radius the value jumps and a gradient is returned nevertheless.", "quantifier": "for all numbers of radial functions, species, neighbours and moments, all combinations that leave no direction over, all coefficients, weights and positions, and all motions", "why_tests_cant": "The tests run the module once and print the shapes of what comes out; no example shows that the chain of a hand-written backward pass, tensor products of every rank and contractions of every number of members is the derivative at every position.", "anchors": ["source/descriptor/mtp/src/mtpMAngularOp.cc: OuterNu0Function::backward, MtpMAngularOp", "source/descriptor/mtp/src/mtpMRadialOp.cc: MtpQFunction::backward", "source/descriptor/mtp/src/mtpMModule.cc: MtpMModuleImpl::forward", "source/descriptor/mtp/src/mtpBModule.cc: MtpBModuleImpl::forward"]}
{"id": "C97", "title": "The training gradient of the moment tensor descriptor is the derivative with respect to every coefficient", "statement": "The backward pass of the moment tensor descriptor of an atom gives, in rows shaped as the coefficients, the partial derivative of the weighted sum of the values with respect to each coefficient, also for coefficients used by several members of one combination, by several neighbours or by no neighbour at all (zero).", "quantifier": "for all numbers of radial functions, species and neighbours, all combinations that leave no direction over, and all coefficients, weights and positions not at the inner radius", "why_tests_cant": "A combination that uses a coefficient several times is a polynomial in it; that the accumulated gradient is right for every combination and every number of neighbours cannot be seen from the one untrained module that is run in the tests.", "anchors": ["source/descriptor/mtp/src/mtpMModule.cc: MtpMModuleImpl::forward", "source/descriptor/mtp/src/mtpBModule.cc: MtpBModuleImpl::forward", "source/descriptor/mtp/src/mtpMRadialOp.cc: MtpQFunction"]}
{"id": "C98", "title": "The feature row of a structure has every number at its place", "statement": "The feature of a structure as one row of numbers has four numbers for each column of each atom of the centre elements. The number for a component of a column of an atom stands at a place that depends only on how many atoms the elements have and on the widths; no place is used twice. The columns show the neighbours of one element, nearest first, and then zeros. Atoms with more neighbours than columns are refused with a ValueError if all widths are positive, and so are missing elements, missing widths and negative widths. With two neighbour elements the numbers of one atom are not together, and a width of zero drops a single neighbour without notice.", "quantifier": "for all cells, structures, numbers of copies, cutoffs, lists of elements and widths, and every way of ordering equal distances", "why_tests_cant": "A test shows the length of one row; where every number of every atom ends up, for any number of elements and widths, and that nothing is lost or written twice, is a statement about all of them.", "anchors": ["matersdk/feature/deepmd/se.py: DpseTildeRPairV1.get_tildeR", "matersdk/feature/deepmd/se_pair.py: DpseTildeRPairV1"]}
{"id": "C99", "title": "The features of all pairs of elements are complete and do not depend on the order of a set", "statement": "FFInfer.calc_tildeR returns one entry for every ordered pair of elements of the structure. An entry has one row for every atom of the first element, with its neighbours of the second element, nearest first, in as many columns as were asked for. The order in which Python lists the set of elements does not change the entries. Too few columns are refused with a ValueError if all widths are positive, an element without a width is an error. The averages and deviations given to FFInfer have no influence.", "quantifier": "for all cells, structures, numbers of copies, cutoffs, widths and orders of sets", "why_tests_cant": "The order of a set is not fixed by the language and one run shows one order only; the contents of all entries for all structures are not in reach of examples.", "anchors": ["matersdk/infer/pwmatmlff/deepmd/inference_depre.py: FFInfer.calc_tildeR, FFInfer._get_atomic_numbers", "matersdk/feature/deepmd/se_pair.py: DpseTildeRPairV1.get_tildeR"]}
{"id": "C100", "title": "Saving image folders and writing perturbed structures", "statement": "A user expects StructCollection.save_all_info to write one folder per frame and BatchPerturbStructure.batch_perturb to write every perturbed structure. Neither ever does: both hand DStructure.to keyword arguments that it does not have. save_all_info ends with a TypeError at the first frame of every collection; before that it deletes the folder of the first frame and makes it anew, so what an earlier program had saved there is lost, while all other entries of the directory stay. batch_perturb ends with a TypeError at the first system that can be read and perturbed, unless no copies were asked for; no folder that existed is changed and new folders stay empty.", "quantifier": "for all collections that can be built, all directory contents, all lists of systems, numbers of copies and random numbers", "why_tests_cant": "There is no test for either. One run would show the error; that no input at all avoids it, and what is lost in the directory, are statements about all inputs.", "anchors": ["matersdk/data/struct_collection.py: StructCollection.save_all_info", "matersdk/adalearn/generator/perturbation.py: BatchPerturbStructure.batch_perturb", "matersdk/io/publicLayer/structure.py: DStructure.to"]}
{"id": "C101", "title": "Neighbour counts of a collection hold for every frame", "statement": "StructCollection.get_max_num_nbrs_real returns one less than the largest number of atoms closer than the cutoff around a site, over all frames; get_max_num_nbrs_real_element returns for exactly the elements asked for the largest number of other atoms of the element closer than the cutoff around a site, over all frames. Padding the index lists and relative coordinates of any frame to these numbers succeeds, if no atom of that frame is exactly at the cutoff. Names that are not elements are a KeyError. With one or two processors every query is a ValueError.", "quantifier": "for all collections of frames with cells of nonzero volume and without coinciding sites, all odd numbers of copies, cutoffs, lists of elements, and all numbers of processors", "why_tests_cant": "A test compares one number for one file; that the number bounds every frame and is reached, and that padding then never fails, ranges over all collections.", "anchors": ["matersdk/data/struct_collection.py: StructCollection.get_max_num_nbrs_real, StructCollection.get_max_num_nbrs_real_element", "matersdk/io/publicLayer/neigh.py: StructureNeighborsUtils"]}
{"id": "C102", "title": "Descriptor objects of the C++ library can be made, assigned, copied and destroyed", "statement": "In any program of constructions (with at least one central and one neighbouring species), copies, assignments and destructions of TildeR objects, every object shows the species, cutoffs, counts and shapes it was given, or that it took from the source of its last assignment or copy; what happens to other objects never shows. An assignment between different objects always works, and all memory is given back in programs without copies. But the copy constructor reserves room for one central and one neighbouring species: a copy of an object with two of either writes outside its memory, always. An object with central atoms assigned to itself is read after release, always. Copies of empty objects lose memory, and without neighbouring species two assignments release memory twice.", "quantifier": "for all programs over any number of objects, all neighbour lists, species lists, counts and cutoffs", "why_tests_cant": "Writes outside a block and memory read after release usually go unnoticed by a test; the order of copies, assignments and destructions is unbounded.", "anchors": ["source/descriptor/deepmd/include/se.h: TildeR::TildeR, TildeR::operator=, TildeR::~TildeR, TildeR::calc_num_center_atoms_lst, TildeR::calc_num_neigh_atoms_lst, TildeR::show"]}
{"id": "C103", "title": "Descriptor objects give the same table as the functions that are given tables", "statement": "An object made from a neighbour list gives, for its values and for its derivatives, one row per atom of the primitive cell of each central species, with the neighbours of each neighbouring species in the order of the list, measured from the atom's place in the primitive copy, then zeros: exactly what the static functions give for the same neighbours. Made without a reservation it has exactly the room it needs and never fails. Made with a reservation too small for one of its centres it writes outside its memory, where the static functions stop with an assertion. Made with a number of centres of its own, it never gives values for a wrong number, but it does give derivatives with rows for centres that do not exist.", "quantifier": "for all neighbour lists that fit their supercell, all lists of species, all reservations, whatever is computed per neighbour", "why_tests_cant": "A write outside memory usually goes unnoticed by a test, and agreement of two implementations on some structures says nothing about the others.", "anchors": ["source/descriptor/deepmd/include/se.h: PairTildeR::PairTildeR, PairTildeR::calc_num_center_atoms, PairTildeR::get_max_num_neigh_atoms, PairTildeR::generate, PairTildeR::deriv, TildeR::generate, TildeR::deriv, TildeR::calc_num_center_atoms_lst, TildeR::calc_num_neigh_atoms_lst", "source/nblist/include/neighborList.h: NeighborList::get_max_num_neigh_atoms_ssss"]}
{"id": "C104", "title": "The descriptor functions give back all their working memory", "statement": "Each of the four static functions (new array of values, new array of derivatives, filling an array of values, filling an array of derivatives) ends with exactly the elements of the block descriptor in its array, does not touch other memory, and leaves no memory in use besides that array, so a program that releases its arrays can call them any number of times. This holds for three of them. The function that fills an array of derivatives keeps two blocks at each call, without bound.", "quantifier": "for all states of the memory, all tables that fit together with enough places, all elements, all earlier contents of the caller's array, all programs of calls", "why_tests_cant": "A few lost bytes per call do not show in a test; they end a simulation after many steps. A test cannot try all programs.", "anchors": ["source/descriptor/deepmd/include/se.h: TildeR::generate (static), TildeR::deriv (static), PairTildeR::generate (static), PairTildeR::deriv (static)", "source/core/include/arrayUtils.h: allocate3dArray, free3dArray, allocate4dArray, free4dArray"]}
{"id": "C105", "title": "Reading a file again gives what the file now says", "statement": "Asking an OUT.FERMI, IN.KPT, REPORT or atom.config reader gives at every moment what a new process would read from the file. This holds as long as the file does not change after the first question that was asked while it was there, and always for the positions, weights and names of an IN.KPT file. Otherwise it does not hold: the Fermi energy and the header of an IN.KPT file are those of the first reading for ever, also after the file was rewritten or removed, and for a REPORT file an answer may belong to neither version.", "quantifier": "for all sequences of writing, removing and asking, all files, all paths, all ways to read a number", "why_tests_cant": "A test reads each file once in a fresh process; stale lines only show in a long process that repeats a calculation.", "anchors": ["matersdk/io/pwmat/output/outfermi.py: OutFermi.get_efermi", "matersdk/io/pwmat/input/inkpt.py: Inkpt", "matersdk/io/pwmat/output/report.py: Report.get_num_bands, Report.get_num_kpts, Report.get_in_atom", "matersdk/io/pwmat/utils/acextractor.py: ACExtractor"]}
{"id": "C106", "title": "The tables of an IN.KPT file agree", "statement": "When the positions of the k-points can be read, the numbered names and the named points can be read too, list exactly the lines that carry a name, in order and with the same names, and the position of a named point is the position with its number; there is one position, and one weight, for each line after the first two. The number of k-points of the first line is not compared with them, and an empty last line makes positions and weights unreadable.", "quantifier": "for all files and all ways to read a number", "why_tests_cant": "Files differ in which lines carry names; a test tries a few files. The plots of a band structure use one table for the ticks and another for the curve.", "anchors": ["matersdk/io/pwmat/input/inkpt.py: Inkpt.get_num_kpts, Inkpt.get_kpt_coords_frac, Inkpt.get_kpt_weights, Inkpt.get_hsp, Inkpt._get_idx2hsp"]}
{"id": "C107", "title": "The average bonds of a trajectory, frame by frame", "statement": "For two elements the object gives one value for each frame, in the order of the frames: the average length of all bonds of that frame's crystal between the two elements that are not longer than the cutoff, and no number for a frame without such bonds. Exchanging the elements changes nothing; every number is positive and at most the cutoff. Unknown elements, an empty trajectory, fewer than three processors and a frame that cannot be evaluated are errors. The options for unsorted atoms and fractional coordinates have no effect.", "quantifier": "for all trajectories whose frames have a volume, distinct atoms in the cell and a supercell that reaches the cutoff; all elements, cutoffs and scalings; all sorting procedures", "why_tests_cant": "A series is compared with a plot by eye; whether every frame has its own value at its own place, for all trajectories and numbers of processors, cannot be tried out.", "anchors": ["matersdk/feature/avg/avgbond.py: AvgBond.__init__, AvgBond.get_frames_avg_bond, ParallelFunction.get_avg_bond_length"]}
{"id": "C108", "title": "Data files read and saved one at a time keep apart what is different", "statement": "A data file read by itself lists its elements by increasing atomic number with their numbers of atoms, contains all frames, and every type index points to the atom's element in that list; a file with an element that its first frame lacks is refused. Two files get the same name exactly if they have equally many atoms of every element. Files of pairwise different composition can be saved one after another into one directory and each is there completely; the first one whose composition was saved before fails with FileExistsError and leaves everything saved as it was.", "quantifier": "for all lists of files with known elements and every positive part size", "why_tests_cant": "That no two of all conceivable compositions are spelt the same (H, He, Ho, ... followed by counts) is a statement about infinitely many names.", "anchors": ["matersdk/data/infoset.py: InfoSet.from_file, InfoSet.to_dir", "matersdk/io/pwmat/utils/parameters.py: atomic_number2specie"]}
{"id": "C109", "title": "A trajectory file turned into a collection keeps the data of every frame together", "statement": "With a working builder of structures, the collection made from a trajectory file has one structure and one triple of energies per frame, read from the text of that frame and in the order of the file. If all frames have a stress or none has, saving the collection writes cells, positions, forces, energies and stresses frame by frame. If only some frames have a stress, saving should not attribute stresses to other frames: it fails with ValueError if the numbers cannot be dealt out evenly, and otherwise silently saves wrong values. With the builder of the repository every call raises AttributeError.", "quantifier": "for all files that can be opened, number readers, builders of structures and positive set sizes", "why_tests_cant": "Whether the frame a number was read from is the frame it is saved under depends on the whole file; tests look at files in which every frame has a stress.", "anchors": ["matersdk/data/struct_collection.py: StructCollection.from_trajectory_s, StructCollection.to", "matersdk/io/pwmat/output/movement.py: Movement.get_all_frame_structures_info"]}
