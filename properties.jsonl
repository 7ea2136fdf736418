{"id": "C01", "title": "Accepted user arguments are well formed", "statement": "If PreProcess.set_user_arg(dict) returns without exception then user_arg.enlargement has exactly three integers, user_arg.periodicity has exactly three flags, and every direction whose flag is false has enlargement 1.", "quantifier": "every argument dictionary (any keys, any order, any duplicated substring matches), every prior state of the argument object", "why_tests_cant": "the dictionary is an arbitrary sequence of arbitrary strings and keys are matched by substring; a test tries a handful", "anchors": ["InterPhon/core/pre_check.py:PreArgument.set_user_argument", "InterPhon/core/pre_check.py:PreArgument.check_user_argument", "InterPhon/core/pre_process.py:PreProcess.set_user_arg"]}
{"id": "C02", "title": "Rejected user arguments are rejected for the documented reason", "statement": "For a dictionary giving displacement, enlargement, periodicity in this order, set_user_arg succeeds exactly when enlargement parses to 3 integers, periodicity has 3 tokens and non-periodic directions have enlargement 1; otherwise the error is the documented one for the first violated condition.", "quantifier": "every triple of argument strings", "why_tests_cant": "unbounded set of strings and token counts", "anchors": ["InterPhon/core/pre_check.py:PreArgument.enlargement", "InterPhon/core/pre_check.py:PreArgument.periodicity", "InterPhon/error/error.py"]}
{"id": "C03", "title": "Setting arguments forgets the past", "statement": "The state of the argument object after set_user_argument (or the exception raised) depends only on the dictionary, never on any earlier state of the object, and the order of the enlargement entry relative to displacement is irrelevant.", "quantifier": "every pair of prior states and every dictionary", "why_tests_cant": "needs all histories of previous calls", "anchors": ["InterPhon/core/pre_check.py:PreArgument.initialization", "InterPhon/core/pre_check.py:PreArgument.set_user_argument"]}
{"id": "C04", "title": "Displacement and enlargement domain", "statement": "set_user_arg never raises because of a negative displacement or a non-positive enlargement: a negative displacement silently leaves displacement unset (None) and any integer enlargement, including 0 and negative ones, is stored. (The documented intent, rejection, is refuted.)", "quantifier": "every negative displacement, every integer enlargement", "why_tests_cant": "the claim ranges over all numbers", "anchors": ["InterPhon/core/pre_check.py:PreArgument.displacement", "InterPhon/core/pre_check.py:PreArgument.enlargement"]}
{"id": "C05", "title": "Unit-cell setters validate and are atomic", "statement": "Each UnitCell property setter either stores a value satisfying its documented shape condition relative to the other fields currently set or raises ValueError and leaves every field of the object exactly as before.", "quantifier": "every object state, every value", "why_tests_cant": "all states x all values", "anchors": ["InterPhon/core/unit_cell.py:UnitCell"]}
{"id": "C06", "title": "Selections are sorted and in range", "statement": "After atom_true is set successfully on a cell with atom_type known, the stored selection is a sorted permutation of the given indices and every index is a valid atom index; an out-of-range index is always rejected.", "quantifier": "every index list and every atom count", "why_tests_cant": "unbounded lists", "anchors": ["InterPhon/core/unit_cell.py:UnitCell.atom_true", "InterPhon/core/unit_cell.py:UnitCell.xyz_true"]}
{"id": "C07", "title": "Direct/Cartesian consistency", "statement": "Setting atom_direct and reading atom_direct back gives the same coordinates, and atom_cart is then direct x lattice, whenever the lattice matrix is non-singular; reading atom_direct on a singular lattice is an error.", "quantifier": "every non-singular lattice and every list of direct positions", "why_tests_cant": "needs algebra over all lattices", "anchors": ["InterPhon/core/unit_cell.py:UnitCell.atom_direct"]}
{"id": "C08", "title": "Supercell content and order", "statement": "For valid arguments set_super_cell(N1,N2,N3) yields exactly N1*N2*N3 copies of each unit-cell atom, grouped by parent atom in parent order; atom E*i+k has the type of parent i and position r_i + x a + y b + z c where k enumerates (x,y,z) with z fastest, each (x,y,z) exactly once; copy 0 is the original atom.", "quantifier": "every unit cell, lattice, enlargement and periodicity accepted by the argument check", "why_tests_cant": "arbitrary atom counts and enlargement factors", "anchors": ["InterPhon/core/super_cell.py:SuperCell.set_super_cell"]}
{"id": "C09", "title": "Supercell lattice and atom counts", "statement": "The supercell lattice rows are the unit-cell rows scaled by the enlargement and its per-species atom counts are the unit-cell counts times the number of copies, summing to the number of supercell atoms.", "quantifier": "every unit cell and accepted arguments", "why_tests_cant": "all sizes", "anchors": ["InterPhon/core/super_cell.py:SuperCell.set_super_cell"]}
{"id": "C10", "title": "Supercell periodicity", "statement": "The set of supercell atoms modulo supercell translations equals the infinite crystal modulo the same: every atom r_i + n1 a + n2 b + n3 c (integer n on periodic directions) of the crystal is congruent to exactly one supercell atom.", "quantifier": "every integer lattice translation", "why_tests_cant": "infinite set of translations", "anchors": ["InterPhon/core/super_cell.py:SuperCell.set_super_cell"]}
{"id": "C11", "title": "Supercell selection", "statement": "The supercell selection marks exactly the copies of the selected unit-cell atoms, in order, and the xyz index list repeats each selected index three times.", "quantifier": "every selection and enlargement", "why_tests_cant": "all selections", "anchors": ["InterPhon/core/super_cell.py:SuperCell.set_super_ind_true"]}
{"id": "C12", "title": "Unvalidated supercell requests fail loudly", "statement": "If a non-periodic direction has enlargement other than 1 (argument check bypassed), set_super_cell never silently builds a wrong supercell: it raises whenever the number of generated translations exceeds the number of copies.", "quantifier": "every enlargement/periodicity pair", "why_tests_cant": "all integers", "anchors": ["InterPhon/core/super_cell.py:SuperCell.set_super_cell"]}
{"id": "C13", "title": "Displaced cells: what is displaced", "statement": "Without symmetry, write_displace_cell writes exactly 6 files per selected atom; file 6i+2j+1 (6i+2j+2) contains the undisplaced supercell with exactly one atom - copy 0 of the i-th selected atom - moved by +d (-d) along Cartesian axis j and nothing else changed.", "quantifier": "every supercell, selection, displacement", "why_tests_cant": "all structures", "anchors": ["InterPhon/core/pre_process.py:PreProcess.write_displace_cell"]}
{"id": "C14", "title": "Displaced cells with symmetry", "statement": "With symmetry, the files written are, per required atom and in order, a forward and a backward displacement (+d, -d) along the first independent direction and each additional direction, numbered consecutively from 1, each moving only copy 0 of that atom.", "quantifier": "every list of required atoms and displacement directions returned by the search", "why_tests_cant": "all structures", "anchors": ["InterPhon/core/pre_process.py:PreProcess.write_displace_cell"]}
{"id": "C15", "title": "Displaced cell names sort in displacement order", "statement": "The generated file suffixes are pairwise distinct and their lexicographic order is their numeric order for up to 9999 files; beyond that lexicographic order differs (10000 sorts before 9999).", "quantifier": "every file index", "why_tests_cant": "unbounded numbers of files", "anchors": ["InterPhon/core/pre_process.py:PreProcess.write_displace_cell"]}
{"id": "C16", "title": "Write_displace_cell leaves the supercell displaced", "statement": "After write_displace_cell without symmetry and at least one selected atom, process.super_cell is not the equilibrium supercell: its last selected atom is at -d along z and selective is False; a second call therefore writes displaced cells relative to a wrong reference. (Idempotence is refuted.)", "quantifier": "every supercell with non-empty selection and d<>0", "why_tests_cant": "state after a call on any structure", "anchors": ["InterPhon/core/pre_process.py:PreProcess.write_displace_cell"]}
{"id": "C17", "title": "Fixed-point coordinate text accuracy", "statement": "Every coordinate x is written with 16 decimals as text that parses back to a number within 0.5e-16 of x, and exactly to x when x has at most 16 decimals.", "quantifier": "every rational number x", "why_tests_cant": "all numbers", "anchors": ["InterPhon/inout/vasp.py:write_input_lines", "InterPhon/inout/espresso.py:write_input_lines", "InterPhon/inout/aims.py:write_input_lines"]}
{"id": "C18", "title": "VASP structure round trip", "statement": "Reading a POSCAR written by write_unit_cell gives back the same atom types, counts, selective flag, selection (all atoms if not selective) and lattice/positions within 0.5e-16.", "quantifier": "every well-formed cell (types grouped by num_atom, blank-free names, one-line comment)", "why_tests_cant": "unbounded structures", "anchors": ["InterPhon/inout/vasp.py:read_input_lines", "InterPhon/inout/vasp.py:write_input_lines", "InterPhon/core/unit_cell.py:UnitCell.read_unit_cell"]}
{"id": "C19", "title": "Quantum ESPRESSO structure round trip", "statement": "Same as the VASP round trip for Quantum ESPRESSO input; the selection survives whenever selective is set.", "quantifier": "every well-formed cell over known elements, any order of the species block", "why_tests_cant": "unbounded structures; set order is arbitrary", "anchors": ["InterPhon/inout/espresso.py:read_input_lines", "InterPhon/inout/espresso.py:write_input_lines"]}
{"id": "C20", "title": "FHI-aims structure round trip", "statement": "Same as the VASP round trip for FHI-aims geometry files.", "quantifier": "every well-formed cell", "why_tests_cant": "unbounded structures", "anchors": ["InterPhon/inout/aims.py:read_input_lines", "InterPhon/inout/aims.py:write_input_lines"]}
{"id": "C21", "title": "Run-length atom counts", "statement": "For ESPRESSO and aims files the atom counts returned by the reader are the run-length encoding of the type sequence: positive, summing to the number of atoms, and consecutive runs have different types.", "quantifier": "every non-empty type sequence", "why_tests_cant": "all sequences", "anchors": ["InterPhon/inout/espresso.py:read_input_lines", "InterPhon/inout/aims.py:read_input_lines"]}
{"id": "C22", "title": "Force parser returns the force block", "statement": "For a file containing a force block for n atoms after the first occurrence of the tag, read_output_lines returns row i = unit factor x the three force columns of atom i, for each of vasprun.xml, OUTCAR, ESPRESSO and aims; text before the tag (not containing it) and after the block has no influence.", "quantifier": "every number of atoms, any surrounding text", "why_tests_cant": "arbitrary files", "anchors": ["InterPhon/inout/vasp.py:read_output_lines", "InterPhon/inout/espresso.py:read_output_lines", "InterPhon/inout/aims.py:read_output_lines"]}
{"id": "C23", "title": "Force parser failure modes", "statement": "A file without the tag is always rejected; a block cut off by the end of file yields fewer rows than atoms rather than an error.", "quantifier": "every file", "why_tests_cant": "arbitrary truncation points (crash points of the DFT run)", "anchors": ["InterPhon/inout/vasp.py:read_output_lines", "InterPhon/inout/espresso.py:read_output_lines", "InterPhon/inout/aims.py:read_output_lines"]}
{"id": "C24", "title": "Pre/post argument match", "statement": "check_match_argument accepts the supercell produced from the same unit cell and enlargement (also after rounding to 16 decimals in the file), and if it accepts (as set_user_arg of a PostProcess must, which otherwise raises) then every supercell lattice row equals unit row x enlargement within the numpy tolerance.", "quantifier": "every unit cell and enlargement", "why_tests_cant": "all lattices", "anchors": ["InterPhon/core/post_check.py:PostArgument.check_match_argument"]}
{"id": "C25", "title": "File-order check is sound and complete", "statement": "check_file_order accepts the files written by write_displace_cell for the same cell, and acceptance implies each file's positions agree, within the numpy tolerance, with the position expected for its place in the list; if 2d exceeds the tolerance a swapped forward/backward pair is rejected.", "quantifier": "every structure, displacement and permutation of files", "why_tests_cant": "all orders of files", "anchors": ["InterPhon/interphon.py:check_file_order", "InterPhon/core/pre_process.py:PreProcess.write_displace_cell"]}
{"id": "C26", "title": "Gamma-centred grid", "statement": "A Gamma-centred N1xN2xN3 file with shifts s produces, for a consistent periodicity, exactly the points whose component along each periodic direction is (i+s)/N and along each non-periodic direction 0, in order with the last index fastest, N1*N2*N3 in number and pairwise inequivalent modulo reciprocal vectors; the unshifted grid contains Gamma and is closed under q -> -q modulo 1.", "quantifier": "every grid size and shift", "why_tests_cant": "all grid sizes", "anchors": ["InterPhon/util/k_points.py:gamma_centered", "InterPhon/core/post_process.py:PostProcess.set_k_points"]}
{"id": "C27", "title": "Monkhorst-Pack grid", "statement": "A Monkhorst-Pack grid is the Gamma grid shifted by half a step, contains N1*N2*N3 points and is closed under q -> -q modulo 1.", "quantifier": "every grid size", "why_tests_cant": "all grid sizes", "anchors": ["InterPhon/util/k_points.py:monkhorst_pack", "InterPhon/core/post_process.py:PostProcess.set_k_points"]}
{"id": "C28", "title": "K-grid respects periodicity", "statement": "Automatic grids are rejected exactly when some non-periodic direction has a count other than 1.", "quantifier": "every grid size and periodicity", "why_tests_cant": "all inputs", "anchors": ["InterPhon/util/k_points.py:gamma_centered", "InterPhon/util/k_points.py:monkhorst_pack"]}
{"id": "C29", "title": "Line path interpolation", "statement": "A line-mode file with 2m special points and n points per segment gives m*n k-points; segment s runs linearly from its first to its last special point inclusive; an odd number of special points is always rejected.", "quantifier": "every number of segments and points", "why_tests_cant": "all lists of points", "anchors": ["InterPhon/util/k_points.py:line_path"]}
{"id": "C30", "title": "Line path periodicity check", "statement": "Line-mode rejects a path when a segment start point has a non-zero component along a non-periodic direction, but never looks at the end points (refuting the intended check). With three periodic directions every non-empty path fails with IndexError.", "quantifier": "every path", "why_tests_cant": "all paths", "anchors": ["InterPhon/util/k_points.py:line_path"]}
{"id": "C31", "title": "Finite-difference force constants", "statement": "Without symmetry, column 3i+j of the force-constant matrix is -(F(+d)-F(-d))/(2d) (SI units) of displacement (atom i, axis j); for forces that are linear in the displacement it equals the exact harmonic force constant for every d<>0, and even-order anharmonic terms cancel exactly.", "quantifier": "every structure, every harmonic force field, every displacement", "why_tests_cant": "for all force fields", "anchors": ["InterPhon/core/post_process.py:PostProcess.set_force_constant"]}
{"id": "C32", "title": "Symmetry-reduced force constants equal the full ones", "statement": "For a force field invariant under the symmetry operations used, the symmetry path reproduces exactly the same force constants as the exact ones on all selected atoms, provided the displacement triples are independent.", "quantifier": "every symmetric harmonic force field, every group element assignment found by the search", "why_tests_cant": "all crystals", "anchors": ["InterPhon/core/post_process.py:PostProcess.set_force_constant", "InterPhon/util/symmetry.py:Symmetry2D"]}
{"id": "C33", "title": "Reciprocal lattice duality", "statement": "The reciprocal lattice satisfies a_i . b_j = 2 pi delta_ij for every lattice of non-zero volume.", "quantifier": "every non-degenerate lattice", "why_tests_cant": "all lattices", "anchors": ["InterPhon/core/post_process.py:PostProcess.set_reciprocal_lattice"]}
{"id": "C34", "title": "Minimum-image vectors", "statement": "Inter-atomic vectors used in the phase factor differ from the raw ones by a supercell lattice vector along periodic directions only and are never longer than the raw vector; with one periodic direction they are the shortest of all periodic images if the raw vector is within one and a half periods, but for atoms further out of the cell the shortest image is missed (refuted).", "quantifier": "every pair of atoms and every lattice", "why_tests_cant": "all geometries", "anchors": ["InterPhon/core/post_process.py:PostProcess.eval_phonon"]}
{"id": "C35", "title": "Dynamical matrix at -q", "statement": "D(-q) is the complex conjugate of D(q) for every q; D(Gamma) is real.", "quantifier": "every q-point and force-constant matrix", "why_tests_cant": "continuum of q", "anchors": ["InterPhon/core/post_process.py:PostProcess.eval_phonon"]}
{"id": "C36", "title": "Acoustic sum rule", "statement": "If force constants sum to zero over all supercell atoms (translation invariance), the three uniform translations (mass weighted) are zero modes of D(Gamma).", "quantifier": "every translation-invariant force-constant matrix", "why_tests_cant": "all matrices", "anchors": ["InterPhon/core/post_process.py:PostProcess.eval_phonon"]}
{"id": "C37", "title": "Hermitian dynamical matrix", "statement": "If the force constants are symmetric under atom exchange and translationally invariant, and q is commensurate with the supercell, D(q) is the Fourier sum over lattice translations, does not depend on the choice of periodic images and is Hermitian; at incommensurate q Hermiticity fails (a single nearest image is kept on ties).", "quantifier": "every commensurate q, every symmetric translation-invariant force field", "why_tests_cant": "all q and matrices", "anchors": ["InterPhon/core/post_process.py:PostProcess.eval_phonon"]}
{"id": "C38", "title": "Frequencies: sign convention and order", "statement": "Reported frequencies are sqrt(lambda)/2pi in THz for non-negative eigenvalues and minus sqrt(|lambda|)/2pi for negative ones, a strictly increasing function of the eigenvalue, so reported lists are sorted and real/imaginary modes never mix.", "quantifier": "every eigenvalue list", "why_tests_cant": "all reals", "anchors": ["InterPhon/core/post_process.py:PostProcess.eval_phonon"]}
{"id": "C39", "title": "Mode/frequency pairing", "statement": "Frequencies are stored sorted but the eigenvector matrix keeps the raw order (and orientation) of the solver, while the analysis modules take row m of it as the displacement pattern of frequency m. The pairing is correct if the solver returns ascending, distinct frequencies and a symmetric eigenvector matrix; it is refuted for a correct solver with ascending eigenvalues (eigenvectors are columns, not rows) and for a correct solver with descending eigenvalues.", "quantifier": "every solver output", "why_tests_cant": "solver order is unspecified", "anchors": ["InterPhon/core/post_process.py:PostProcess.eval_phonon"]}
{"id": "C40", "title": "Point-group candidate completeness", "statement": "The operations tried are exactly the integer 2x2 matrices with entries in {-1,0,1} and determinant +-1, each once. On a reduced in-plane cell (2|a.b| <= |a|^2, |b|^2) every isometry of the planar lattice is among those kept by the metric test. On a skewed cell this fails (refuted).", "quantifier": "every planar lattice metric", "why_tests_cant": "continuum of metrics", "anchors": ["InterPhon/util/symmetry.py:Symmetry2D"]}
{"id": "C41", "title": "Point-group classification is total", "statement": "On a reduced cell whose periodic vectors are at least 1 Angstrom long every operation kept by the tolerance test, and on any cell every exact isometry tried, has order 1, 2, 3, 4 or 6, has a class in the look-up table, and its order loop ends with exactly its different powers. Without the length condition this fails (refuted), and the order loop does not end for a shear.", "quantifier": "every metric-preserving operation of every positive definite metric", "why_tests_cant": "continuum of metrics", "anchors": ["InterPhon/util/symmetry.py:Symmetry2D.search_point_group"]}
{"id": "C42", "title": "Space-group operations map atoms to atoms", "statement": "When selected atoms of one type are more than sqrt(12)*1e-4 Angstrom apart, every reported operation (W,w) with its index map sends the position of each selected atom to the position of the atom its map names, of the same type, modulo lattice translations and within 1e-4 per Cartesian component; if W is an isometry of the cell the map is a permutation. Every exact symmetry whose translation is among the candidates (in particular without translation) is reported. Refuted: without the distance condition, and for symmetries with other translations.", "quantifier": "every structure", "why_tests_cant": "all structures", "anchors": ["InterPhon/util/symmetry.py:Symmetry2D"]}
{"id": "C43", "title": "Image atoms partition the selection", "statement": "The required and the derived atoms together are the selected atoms, each once; each derived atom is carried by the recorded operation to an earlier required atom; no operation carries a required atom to an earlier required one. After a successful point-group search on well separated atoms this step does not fail.", "quantifier": "every structure and operation list", "why_tests_cant": "all structures", "anchors": ["InterPhon/util/symmetry.py:Symmetry2D.search_image_atom"]}
{"id": "C44", "title": "Independent displacements are independent", "statement": "For a slab (lattice vectors a,b in the xy plane, c along z, periodicity 1 1 0) whose found operations are exact lattice symmetries that do not mix vectors of different lengths, the displacement directions chosen for a symmetry-unique atom are exactly three linearly independent Cartesian directions (so three force calculations determine the atom's force-constant columns). For the other two-dimensional periodicities the guarantee does not hold: with periodicity 1 0 1 any three images of the seed direction that get chosen are coplanar, and with 0 1 1 a diagonal mirror gives three dependent directions.", "quantifier": "every set of in-plane isometries", "why_tests_cant": "continuum of lattices", "anchors": ["InterPhon/util/symmetry.py:Symmetry2D.search_independent_displacement", "InterPhon/util/symmetry.py:Symmetry2D.gen_additional_displacement"]}
{"id": "C45", "title": "Band path length", "statement": "The band-plot abscissa starts at 0, is non-decreasing, and increases between consecutive points by the Euclidean distance of their FRACTIONAL coordinates; this is proportional to the Cartesian distance for an isotropic reciprocal lattice, and the claim that it is in general is refuted. High-symmetry ticks are the abscissas of 0, of every repeated consecutive point and of the last point. A path needs two points. Setting twice repeats the ticks. The projected band weights are the squared moduli of the eigenvector components.", "quantifier": "every k-path", "why_tests_cant": "all paths", "anchors": ["InterPhon/analysis/band.py:Band.set"]}
{"id": "C46", "title": "Tetrahedron weights form a partition", "statement": "For the 1D, 2D and 3D linear simplex, at a frequency inside the cell the vertex weights and density used are finite, non-negative, the weights sum to one and interpolate the vertex frequencies to the frequency asked for; outside the cell the contribution is zero. The only exception is the 3D case where the frequency equals a doubly (but not triply) degenerate lowest vertex: there the result is not finite.", "quantifier": "all vertex frequencies including degenerate ones", "why_tests_cant": "continuum incl. degeneracies", "anchors": ["InterPhon/util/linear_tetrahedron_method.py"]}
{"id": "C47", "title": "DOS counts every state once", "statement": "On an automatic grid with at least two points along every periodic direction and normalised modes, the linear-method total DOS is finite and non-negative, equals the sum of the projections, and integrates over frequency to the number of degrees of freedom minus the share of simplices whose corner frequencies all coincide; in 3D times floor(n2/n3), so it is right only if n3 <= n2 < 2 n3 and identically zero if n2 < n3; Gamma-centred odd chains with time reversal always lose at least 1/n of the states. Projections of a falling segment are taken from the exchanged corners (correct projection refuted). Without periodic direction the sum rule fails; after a line path, or with one point along the first of two directions, the linear method raises IndexError. With smearing the total is the average of normalised Gaussians and has the sign of sigma. The six tetrahedra tile the mesh cell.", "quantifier": "all meshes, modes and frequencies", "why_tests_cant": "integral over continuum", "anchors": ["InterPhon/util/linear_tetrahedron_method.py", "InterPhon/analysis/dos.py:DOS.set"]}
{"id": "C48", "title": "Repeated DOS evaluation", "statement": "Calling DOS.set k times multiplies total and projected DOS of the first call by k (both methods); idempotence is refuted.", "quantifier": "every number of calls", "why_tests_cant": "all histories", "anchors": ["InterPhon/analysis/dos.py:DOS.set"]}
{"id": "C49", "title": "Free energy identity", "statement": "For non-negative temperatures (at most one of them zero) and no frequency exactly zero, the reported Helmholtz free energy per atom at T>0 is the k-average of kT ln(2 sinh(h nu/2kT)) over the real modes, at T=0 it is the zero-point energy; it tends to the zero-point energy as T -> 0+ and is strictly decreasing in T when there is a real mode.", "quantifier": "every positive frequency and temperature", "why_tests_cant": "continuum", "anchors": ["InterPhon/analysis/thermal_properties.py:ThermalProperty.set"]}
{"id": "C50", "title": "Entropy is minus the temperature derivative", "statement": "At every T>0 the reported entropy equals minus the derivative with respect to T of the reported free energy, it is positive when there is a real mode, and it is reported as 0 at T=0.", "quantifier": "every positive frequency and temperature", "why_tests_cant": "derivative over continuum", "anchors": ["InterPhon/analysis/thermal_properties.py:ThermalProperty.set"]}
{"id": "C51", "title": "Imaginary modes are ignored with a warning", "statement": "Imaginary (negative) frequencies contribute nothing: changing one imaginary value into another changes no reported number; and, with at most one zero temperature, the caution is printed iff there is an imaginary frequency.", "quantifier": "every frequency table", "why_tests_cant": "all tables", "anchors": ["InterPhon/analysis/thermal_properties.py:ThermalProperty.set"]}
{"id": "C52", "title": "Mode selection", "statement": "Mode.set(inds, k) stores inds and k, and selects the eigenvectors of the LAST listed k-point that agrees with k within numpy's default tolerances; if none agrees it raises Not_Specified_Kpath_Error, and then the new indices and k are already stored while the eigenvectors are still the previous ones.  Bad indices leave the object unchanged; a successful selection does not depend on earlier ones.", "quantifier": "every list of k-points, eigenvectors, previous selection, index argument and k", "why_tests_cant": "the last match among all lists and all previous states", "anchors": ["InterPhon/analysis/mode.py:Mode.set"]}
{"id": "C53", "title": "Mode trajectory", "statement": "Mode.write writes, for every selected mode index (negative indices count from the end), a file with the seven header lines of the structure and 30 numbered images; in image j every selected atom stands at its equilibrium position plus sin(2 pi j/30) times the real part of its eigenvector entries over sqrt(mass/largest mass), and unselected atoms never move.  Images 0 and 15 are the equilibrium, images j and j+15 are opposite.  An index out of range raises IndexError after the files of the earlier indices.", "quantifier": "every structure, selection, masses, eigenvectors, list of indices", "why_tests_cant": "in-place update of one cell object over all images and all modes", "anchors": ["InterPhon/analysis/mode.py:Mode.write"]}
{"id": "C54", "title": "Atomic weights are consistent across spellings", "statement": "Symbol, full name and atomic number of each of the 118 elements give, irrespective of letter case, the element's standard atomic weight; a name that is no spelling of a table entry gives NameError (the table's own header titles are, unintentionally, accepted and give None); the masses set for a cell are the weights of the types of the selected atoms, each three times.", "quantifier": "every string, every element and every capitalisation", "why_tests_cant": "2^n capitalisations, all strings", "anchors": ["InterPhon/util/atomic_weight.py:get_atomic_weight", "InterPhon/core/unit_cell.py:UnitCell.set_mass_true"]}
{"id": "C55", "title": "Command-line precedence over the record", "statement": "In a post-process, unit cell file, supercell file, code, displacement, enlargement and periodicity are taken from pre_process.yaml exactly when the value given equals the default, even if the user typed the default explicitly; any other value overrides the record; no other option is affected by the record.", "quantifier": "every combination of options and record", "why_tests_cant": "all combinations", "anchors": ["InterPhon/interphon.py:main"]}
{"id": "C56", "title": "Dictionary entry order", "statement": "If a non-periodic periodicity entry precedes the enlargement entry of the dictionary, set_user_arg always fails with TypeError (the comparison reads an unset enlargement) even when the values are mutually consistent; the same entries in the other order succeed, so entry order matters.", "quantifier": "every dictionary in which a periodicity entry with at least one non-periodic direction comes before any enlargement entry", "why_tests_cant": "the failure is about all values and all prefixes of the dictionary, not one example", "anchors": ["InterPhon/core/pre_check.py:PreArgument.set_user_argument"]}
{"id": "C57", "title": "Truncated structure files", "statement": "A POSCAR written by InterPhon and cut off anywhere inside its position block is rejected with ValueError (leaving an object without positions), whereas the Quantum ESPRESSO file cut off the same way is accepted silently as the structure of the atoms that remain (at least one).", "quantifier": "every structure and every cut point inside the position block", "why_tests_cant": "ranges over all structures and all crash points of the writer", "anchors": ["InterPhon/inout/vasp.py:read_input_lines", "InterPhon/inout/espresso.py:read_input_lines", "InterPhon/core/unit_cell.py:UnitCell.read_unit_cell"]}
{"id": "C58", "title": "K-point file dispatch", "statement": "set_k_points chooses the scheme by the first letter of the third line in either case; an unknown letter silently gives no k-points; an explicit list gives its points in order without any periodicity check and accepts fewer points than announced; whatever was loaded before, a call that raises leaves no k-points; a blank fifth line makes every automatic grid of a periodic system fail with IndexError instead of meaning no shift.", "quantifier": "every k-points file and periodicity", "why_tests_cant": "all file contents", "anchors": ["InterPhon/core/post_process.py:PostProcess.set_k_points", "InterPhon/util/k_points.py:explicit_reciprocal"]}
{"id": "C59", "title": "Cartesian form of symmetry operations", "statement": "The Cartesian matrix that the symmetry path uses to rotate forces and force constants represents the operation found by the search exactly when the operation does not mix lattice vectors of different length; for cells with |a| different from |b| it can be a non-isometry although the operation is a symmetry of the lattice, and the derived force constants are then wrong.", "quantifier": "every lattice of non-zero volume and every operation given in direct coordinates", "why_tests_cant": "The bundled examples have equal or orthogonal lattice vectors; the fault needs an accepted axis-mixing operation on a cell with unequal lengths.", "anchors": ["InterPhon/core/post_process.py: PostProcess.set_force_constant", "InterPhon/util/symmetry.py: Symmetry2D.search_independent_displacement"]}
{"id": "C60", "title": "Unknown point group: symmetry fallback", "statement": "The documented fallback (if the point group is not in the look-up table, continue without symmetry) never happens: the pre-process raises AttributeError in that case, and such structures exist. Symmetry is off exactly on request or when the number of periodic directions is not two.", "quantifier": "every structure, every periodicity", "why_tests_cant": "all structures with an unlisted operation count", "anchors": ["InterPhon/core/pre_process.py:PreProcess.write_displace_cell", "InterPhon/error/error.py:Cannot_Search_Point_Group"]}
{"id": "C61", "title": "Image atoms in the supercell are a rigid motion, for equal enlargements only", "statement": "When both periodic directions are enlarged equally and the crystal has the accepted operations exactly, the search gives for every operation and every selected atom i a permutation of the selected supercell atoms: each atom goes to the atom of its own type found at its place after the rigid motion of space that turns the crystal by the operation and carries the first copy of i to the first copy of its image, up to a supercell translation. The supercell the program builds lists its atoms the way the search expects. In general a reported row is this motion carried out in the supercell's own direct coordinates; with unequal enlargements operations that exchange the axes can lose their rows.", "quantifier": "every lattice, enlargement, selection and accepted operation list", "why_tests_cant": "all structures and all supercell sizes", "anchors": ["InterPhon/util/symmetry.py:Symmetry2D.search_cell_image_index", "InterPhon/util/symmetry.py:Symmetry2D.find_point_group_index", "InterPhon/util/symmetry.py:Symmetry2D.search_image_atom"]}
{"id": "C62", "title": "Thermal evaluation corner cases", "statement": "Evaluating n times without a zero temperature gives n times the free energy and entropy (not idempotent), while with exactly one zero temperature it is idempotent; with two or more zero temperatures nothing is computed and no caution is printed; a frequency exactly zero makes every entry at non-zero temperature non-finite.", "quantifier": "every frequency table, temperature list and number of calls", "why_tests_cant": "all call histories and tables", "anchors": ["InterPhon/analysis/thermal_properties.py:ThermalProperty.set"]}
{"id": "C63", "title": "Option file", "statement": "Each line 'key = value' (blanks around key and value dropped, key in any letter case, text from '#' or a second '=' dropped) sets the option with that key; blank and comment lines and unknown keys are ignored; a line with text but no '=' is an IndexError; the last value of a key counts, but of two spellings of one option the one first mentioned later wins; an option none of whose keys occurs keeps its command line value; the on/off switches cannot be set; the file is accepted iff every known key's value converts.", "quantifier": "every file, every command line", "why_tests_cant": "unbounded files and orders", "anchors": ["InterPhon/interphon.py:main"]}
{"id": "C64", "title": "Symmetry flag of the post-process", "statement": "Whether the post-process symmetrises is determined by the presence of a point group in the record alone; --sym/--nosym has no effect.", "quantifier": "every command line, option file and record", "why_tests_cant": "all combinations", "anchors": ["InterPhon/interphon.py:main"]}
{"id": "C65", "title": "The record restores the arguments", "statement": "If a pre-process with displacement not negative succeeds, a post-process whose displacement, enlargement and periodicity are each left at the default or repeated gets exactly the same stored arguments; after a negative displacement, a post-process that does not give one fails with TypeError.", "quantifier": "every accepted argument set and every such second command line", "why_tests_cant": "unbounded values", "anchors": ["InterPhon/interphon.py:main", "InterPhon/core/pre_check.py"]}
{"id": "C66", "title": "What the program runs", "statement": "Pre-process iff no force files and the process switch is on; in a post-process DOS and band each run iff switched on or given a k-point file, thermal and mode iff switched on; thermal properties without a DOS k-point file never complete; without any k-point file, without force files or with an unmatched pattern the post-process is refused with the specific exception; an amplitude given in the option file arrives as text.", "quantifier": "every command line, option file, record and directory content", "why_tests_cant": "all combinations", "anchors": ["InterPhon/interphon.py:main"]}
{"id": "C67", "title": "Order of the force files on the command line", "statement": "Two or more force files are used in the given order; a single argument is a pattern whose matches are used in alphabetical order, which for the suffixes -0001..-9999 written by the pre-process is the order of displacements.", "quantifier": "every argument list, every directory content, up to 9999 displacements", "why_tests_cant": "all directories", "anchors": ["InterPhon/interphon.py:main"]}
{"id": "C68", "title": "Commensurate enlargement", "statement": "Mode.write_mode_displace enlarges each periodic direction by the denominator (1..100) of the fraction closest to the k component among those with denominator at most 100 (the smaller denominator on a tie), other directions by 1; k times the enlargement is an integer iff k is a fraction with denominator at most 100; a k closer than 1/(200 s) to the reduced fraction r/s gives s.", "quantifier": "every rational k component and periodicity flag", "why_tests_cant": "best approximation among all fractions; all numbers", "anchors": ["InterPhon/analysis/mode.py:Mode.write_mode_displace"]}
{"id": "C69", "title": "Commensurate pattern", "statement": "The displacement factor cos(q.r) repeats under the supercell vector of a periodic direction for all r iff that k component is a fraction with denominator at most 100.", "quantifier": "every lattice, k-point and position", "why_tests_cant": "all positions and k-points", "anchors": ["InterPhon/analysis/mode.py:Mode.write_mode_displace"]}
{"id": "C70", "title": "Displaced commensurate supercell", "statement": "Each file of Mode.write_mode_displace holds the supercell of the commensurate enlargement in which copy (x,y,z) of selected atom a stands at r + amplitude cos(q.r) Re(v_a)/sqrt(m_a/m_max), with r its undisplaced position, and all other atoms are undisplaced.  This is the real Bloch displacement Re(e^{iq.r} v) exactly where sin(q.r) Im v = 0; the result depends on the arbitrary phase of the eigenvector (a real eigenvector times i gives no displacement at all).", "quantifier": "every complete unit cell of known elements, selection, k-point, eigenvectors, indices, amplitude", "why_tests_cant": "index arithmetic over all cells, enlargements and selections", "anchors": ["InterPhon/analysis/mode.py:Mode.write_mode_displace", "InterPhon/core/super_cell.py:SuperCell"]}
{"id": "C71", "title": "Operations used for one atom fix it; the plane is that of the periodic directions", "statement": "The two-dimensional symmetry search is set up in the plane of the two periodic directions (first two indices: the periodic directions in increasing order, third: the other one) and is not available unless exactly two directions are periodic. For a symmetry-inequivalent atom the operations from which its displacement directions are generated are exactly the found operations whose (first) atom map fixes that atom, in the order found.", "quantifier": "every periodicity flag triple; every list of found operations and every selected atom", "why_tests_cant": "depends on the crystal; a wrong site operation silently gives dependent displacement directions or wrong force constants only for crystals with several equivalent atoms", "anchors": ["InterPhon/util/symmetry.py: Symmetry2D.search_self_image_atom, search_point_group", "InterPhon/core/pre_process.py: PreProcess.write_displace_cell"]}
{"id": "C72", "title": "A whole run with symmetry reproduces the true force constants", "statement": "For a slab with a primitive selected layer, whose accepted symmetry operations are exact, and an equal in-plane enlargement: pre-processing with the symmetry flag writes displaced structures; if the force files returned for them come from a harmonic law with the symmetry of the crystal, post-processing with the symmetry flag sets, for every selected atom (also those never displaced) and every selected supercell atom, exactly the true force constants in the code's unit. For a centred (non-primitive) cell the run can succeed with wrong force constants.", "quantifier": "every slab lattice, list of atoms, selection, enlargement n x n x N, displacement length, harmonic law invariant under the crystal's operations, and every outcome of the symmetry search on them", "why_tests_cant": "A test checks one crystal and one set of forces; the claim composes search, displacement choice, structure writing, file reading, least squares and transfer to equivalent atoms for all of them.", "anchors": ["InterPhon/core/pre_process.py: PreProcess.write_displace_cell", "InterPhon/core/post_process.py: PostProcess.set_force_constant", "InterPhon/util/symmetry.py: Symmetry2D.search_independent_displacement"]}
{"id": "C73", "title": "Process objects share nothing only when given their own objects", "statement": "A process whose user_arg, unit_cell and super_cell are held by no other process is unaffected by any later session that neither uses it nor passes one of its objects; three newly created objects passed to the constructor give such a process. Processes constructed without passing objects share all three for the whole session (reading a structure into one changes the others; constructing a second PostProcess replaces the first one's structures), so isolation is refuted for them. copy.deepcopy(process) shows what the original shows, shares no object with anything, and work on either side is never seen by the other (the documented dos/band workflow).", "quantifier": "all sessions (sequences of constructions, assignments, method calls, direct edits of objects, deep copies, failing or not)", "why_tests_cant": "Aliasing shows up only for particular interleavings of calls on several objects; a test fixes one session.", "anchors": ["InterPhon/core/pre_process.py: PreProcess.__init__, __deepcopy__", "InterPhon/core/post_process.py: PostProcess.__init__", "docs/source/post_process.rst"]}
{"id": "C74", "title": "Assigning to user_arg, unit_cell, super_cell", "statement": "process.user_arg = x, process.unit_cell = x, process.super_cell = x with x of a wrong class raise nothing and change nothing (a UnitCell is a wrong class for super_cell, a SuperCell is accepted as unit_cell). An accepted assignment rebinds that attribute only; a new process holds the objects passed to it and its sym the same ones; process.sym goes on using the objects it was built with until write_displace_cell or set_force_constant with symmetry builds a new one.", "quantifier": "all sessions, processes and assigned objects", "why_tests_cant": "Silent acceptance and stale references are visible only in the sequence of later calls.", "anchors": ["InterPhon/core/pre_process.py: user_arg, unit_cell, super_cell setters", "InterPhon/util/symmetry.py: Symmetry2D.__init__"]}
{"id": "C75", "title": "Frequencies belong to the current wave vectors, except after an unrecognised k-point file", "statement": "A successful eval_phonon with wave vectors stores, for each of them in order, what is computed from the process's current cells, arguments, reciprocal matrix and force constants; a failing one leaves the rows before the failing wave vector and unset rows after it, and no row of an earlier evaluation survives any attempt, also one that fails for missing arguments. An unopenable k-point file changes nothing; a rejected one has already dropped the previous wave vectors; one with an unknown style letter raises nothing, empties the wave vectors, and the next eval_phonon succeeds leaving the old frequencies in place. The discrete-frequency file is written exactly when no direction is periodic, from the first wave vector; with no wave vector the call fails after emptying the file.", "quantifier": "all session states, k-point files and evaluations (for any outcome of the computation at each wave vector)", "why_tests_cant": "Depends on the history of the object and on which of several calls failed.", "anchors": ["InterPhon/core/post_process.py: PostProcess.set_k_points, eval_phonon"]}
{"id": "C76", "title": "What set_super_cell and set_unit_cell leave behind", "statement": "set_super_cell of a process whose two cells are different objects builds the supercell from that process's own unit cell and arguments, raises the same exception otherwise, and changes no other object; with one object used as both cells it fails with TypeError and has erased the structure. With a code name other than vasp, espresso, aims set_unit_cell raises nothing and leaves an empty unit cell whatever the file, and a PostProcess cannot be constructed.", "quantifier": "all session states, cells, arguments and code names", "why_tests_cant": "Quantifies over all reachable object graphs, including aliased ones.", "anchors": ["InterPhon/core/pre_process.py: set_super_cell, set_unit_cell", "InterPhon/core/super_cell.py: set_super_cell, set_super_ind_true", "InterPhon/core/unit_cell.py: read_unit_cell"]}
{"id": "C77", "title": "A VASP structure file written by the user is read as its POSCAR meaning, except the scale of Cartesian positions", "statement": "For every VASP 5 file (comment, scale, three vectors, species, counts, optional line beginning with S or s, a line beginning with D/d or C/c/K/k, one line per atom, anything afterwards; extra words and blanks allowed) read_unit_cell succeeds: the lattice is the scale times the vectors, the species are expanded by the counts, direct positions are x a + y b + z c with the scaled vectors, and the selected atoms are all atoms, or in selective mode those whose line holds the word T anywhere after the coordinates, each three times in xyz_true. Cartesian positions are taken as written: they are not multiplied by the scale (VASP does multiply them). A file with fewer position lines than atoms, or without the species line (VASP 4), is refused. Whatever the format, a successful read leaves a consistent cell: lattice, species, positions of the same positive number, sorted selection within range.", "quantifier": "all file contents of that grammar, all numbers, all lengths, all earlier contents of the object; the last clause: all readers and texts", "why_tests_cant": "unbounded files and layouts; the repository's tests read a handful of fixed files", "anchors": ["InterPhon/inout/vasp.py: read_input_lines", "InterPhon/core/unit_cell.py: UnitCell.read_unit_cell"]}
{"id": "C78", "title": "A Quantum ESPRESSO input written by the user is read as its sections say, with the units ignored and zero coordinates read as constraints", "statement": "For every input with one line holding the letters nat (third word: the number of atoms), one CELL_PARAMETERS and one ATOMIC_POSITIONS line, in any order and with blank lines after the headers, read_unit_cell succeeds: the lattice vectors and the positions are the numbers as written (as Cartesian, whatever unit the header names), species are the first words, counts are the maximal runs, an atom is fixed exactly when the word 0 stands anywhere on its line (also as a coordinate), and the cell is selective when some atom is fixed. An input in which another line contains the letters nat (such as a comment with 'coordinates') and whose third word is missing or no integer is refused.", "quantifier": "all inputs of that grammar, all numbers and lengths", "why_tests_cant": "unbounded files and layouts; the repository's tests read a handful of fixed files", "anchors": ["InterPhon/inout/espresso.py: read_input_lines", "InterPhon/core/unit_cell.py: UnitCell.read_unit_cell"]}
{"id": "C79", "title": "An FHI-aims geometry file written by the user: atom lines count, atom_frac lines and late constraints do not", "statement": "For every geometry file whose lines are lattice_vector lines (three), atom lines, and others, read_unit_cell returns the lattice and the atoms as written in file order; an atom is fixed exactly when 'constrain_relaxation .true.' stands on its own line or on the next line. atom_frac lines are passed over without notice (a file with only such atoms is refused), and a constraint separated from its atom by another tag is lost.", "quantifier": "all files of that grammar, all numbers and lengths", "why_tests_cant": "unbounded files and layouts; the repository's tests read a handful of fixed files", "anchors": ["InterPhon/inout/aims.py: read_input_lines", "InterPhon/core/unit_cell.py: UnitCell.read_unit_cell"]}
{"id": "C80", "title": "band.dat holds every k-point and mode, in order, to nine decimals", "statement": "After a band calculation, writing it produces <folder>/band.dat: two header lines, then one line per k-point in path order, each with the path coordinate followed by the frequency of every mode. Every word reads back as a decimal number with at most nine decimals that differs from the calculated value by at most 5e-10; the first path coordinate is 0; of two values in the file the smaller one is never printed as the larger number. A number exactly half way between two printable ones is printed as the one with the even last digit.", "quantifier": "every calculated band structure (any number of k-points and modes, any real values), every output folder and any text used for a number that is not finite", "why_tests_cant": "column merging, truncation and rounding depend on the values; a test sees only a few of them", "anchors": ["InterPhon/analysis/band.py: Band.write, Band.set"]}
{"id": "C81", "title": "the two DOS files are complete, labelled by atom and consistent with each other", "statement": "Writing a DOS produces total_dos.dat and projected_dos.dat, whose first line names the method (and the smearing width to six decimals). total_dos.dat has a line (frequency, total) per frequency; projected_dos.dat has header labels naming the atom of each column, two columns having the same label exactly when they belong to the same atom, and a line with one value per component for each frequency. For a system with a periodic direction or a smearing width both files have the same frequencies line by line and the printed projections of a line sum to its printed total within (n+1)*5e-10. For an isolated system without smearing the total is 1 at each frequency, all projections are 0, and the write stops with an IndexError - total file complete, projected file cut after num_dos lines - exactly when there are more frequencies than num_dos.", "quantifier": "every processed system, smearing width, number of DOS points, list of atom indices, and any text used for a number that is not finite", "why_tests_cant": "agreement between two files line by line for every system, and the failing case, cannot be enumerated", "anchors": ["InterPhon/analysis/dos.py: DOS.__init__, DOS.set, DOS.write", "InterPhon/inout/vasp.py: read_input_lines"]}
{"id": "C82", "title": "thermal_properties.dat is the harmonic thermodynamics, one line per temperature", "statement": "Writing the thermal properties produces thermal_properties.dat with one line per temperature in the order given: temperature, free energy per atom in eV and entropy per atom in meV/K (1000 times the calculated entropy), each to nine decimals. When no frequency is exactly zero and at most one temperature is zero these are the harmonic oscillator values averaged over k-points, with the zero point energy and entropy 0 at T = 0.", "quantifier": "every set of frequencies and list of temperatures", "why_tests_cant": "values and unit conversion hold for all spectra and temperatures", "anchors": ["InterPhon/analysis/thermal_properties.py: ThermalProperty.write, ThermalProperty.set"]}
{"id": "C83", "title": "a system without periodic directions gets its frequencies in a file, others do not", "statement": "After the frequencies are calculated, the file freqency_at_gamma_point.dat is written exactly when no direction is periodic; it then has one line per frequency of the first k-point in order, to nine decimals. If there is no k-point the two header lines are written and an IndexError is raised.", "quantifier": "every calculated system and periodicity", "why_tests_cant": "holds for all spectra and periodicities", "anchors": ["InterPhon/core/post_process.py: PostProcess.eval_phonon"]}
{"id": "C84", "title": "each option of the option file sets its own variable, with its own check", "statement": "One assignment in an option file sets exactly one variable of the program and leaves every other unchanged: sigma takes a decimal number, the number of DOS points and the three temperatures take integers (a ValueError otherwise), the six options with a fixed list of answers accept exactly the answers of that list (an Exception otherwise), the remaining options take the text as it is, and an unknown key changes nothing.", "quantifier": "every file whose only assignment is key = value, for all keys, texts and command line values", "why_tests_cant": "all keys and texts; a wrong spelling or a missing check concerns one of sixty names", "anchors": ["InterPhon/interphon.py: main (option file)"]}
{"id": "C85", "title": "the option texts mean what they say to the analyses", "statement": "Temperatures are tmin, tmin+tstep, ... strictly below tmax (above it for a negative step), in that order, and a zero step is refused; the energy window is absent or exactly two integers and the same for DOS and band; atom groups are the integers between commas, the legends are trimmed, as many as groups, and dropped for plain plots; without atoms the plot is plain; a mode calculation has three coordinates. Anything else is refused before anything is computed.", "quantifier": "every environment of option values, force file list and record", "why_tests_cant": "ranges, counts and texts of any length", "anchors": ["InterPhon/interphon.py: main (530-637)"]}
{"id": "C86", "title": "what a pre-process leaves behind can be read back", "statement": "A successful pre-process leaves, in the directory of the unit cell file, a file SUPERCELL and one file per displacement (the unit cell's name followed by -0001, -0002, ...), and a record in the working directory. Read back by the program, SUPERCELL is the exact supercell of the unit cell up to half a unit of the 16th decimal with the selection of all copies; file 6i+2j+1 (6i+2j+2) is that supercell with copy 0 of the i-th selected atom moved by +d (-d) along axis j and nothing else moved; with symmetry there is one such pair per required direction of each required atom. No other file and no other record changes. This holds for the three file formats.", "quantifier": "every file system content, unit cell file, option file, command line, displacement, enlargement and periodicity accepted by the program, any number of atoms", "why_tests_cant": "it composes argument parsing, cell construction, displacement, number formatting and parsing for all inputs", "anchors": ["InterPhon/interphon.py: main (640-693)", "InterPhon/core/pre_process.py: PreProcess.write_displace_cell", "InterPhon/core/unit_cell.py: UnitCell.read_unit_cell, write_unit_cell"]}
{"id": "C87", "title": "from the pre-process through the DFT runs to the force constants", "statement": "If the files of the pre-process are kept, each displaced structure is copied beside its force file, the force files are listed in order and every option is repeated or left out, then the later post-process accepts them all and prepares: the same arguments, the same unit cell with masses, the supercell up to the 16th decimal, and force constants whose column 3i+j is the difference of the forces in files 6i+2j and 6i+2j+1 divided by twice the displacement. If moreover the coordinates have at most 16 decimals and the DFT forces follow a harmonic law with any even part, the force constants equal those of the law exactly.", "quantifier": "every history of two runs with arbitrary other changes to the file system in between, every force law of that form, all sizes", "why_tests_cant": "two program runs and the user's files between them, for all inputs", "anchors": ["InterPhon/interphon.py: main (300-745), check_file_order", "InterPhon/core/post_process.py: PostProcess.set_force_constant", "InterPhon/core/unit_cell.py: UnitCell"]}
{"id": "C88", "title": "which files a run opens", "statement": "A plain name denotes a file of the working directory. For a force file DIR/NAME the order check opens the unit cell's base name in DIR, however DIR is written. Two surprises are stated as theorems: for a force file named without a directory the check opens the structure in the root directory of the file system, and after a pre-process on a unit cell outside the working directory a post-process that relies on the record stops with a missing file, because the record keeps only the base name.", "quantifier": "every working directory, directory text and name", "why_tests_cant": "path texts of any form: slashes, dots, absolute and relative", "anchors": ["InterPhon/interphon.py: check_file_order (50-113), main (418, 485-486, 684-690)"]}
{"id": "C89", "title": "a pre-process touches only its own files, however it ends", "statement": "Whatever the options, the unit cell file and the outcome, a pre-process changes at most SUPERCELL and files named after the unit cell file with a numbered suffix, all in the unit cell's directory; no record changes unless the run ends without an exception, and then only the one of the working directory.", "quantifier": "every world, option value and outcome, including every exception", "why_tests_cant": "quantifies over all failure points and all other files", "anchors": ["InterPhon/interphon.py: main (640-693)", "InterPhon/core/pre_process.py: PreProcess.write_displace_cell"]}
{"id": "C90", "title": "what the picture of the density of states shows", "statement": "dos.png shows, over all frequencies, the total density ('plain'), or for each given set of atoms the sum of the densities of the components of exactly those atoms ('line'; the total too when asked for), or these sums on top of each other ('stack'); with vertical orientation frequency and density swap axes and the k-th layer is filled up to the sum of the first k sets. The bulk density is drawn scaled by the given factor. Each curve has its set's legend, or its atoms as text. If every selected atom is in exactly one set the sets add up to the total and the top of the stack is the stored total. A smeared density is always finite, so its picture is always made. An unknown option or orientation makes no picture; missing sets raise TypeError; too few legends raise IndexError (not for horizontal stacks); the projected picture of a molecule without smearing raises ValueError.", "quantifier": "every finite density, frequency list, number of components, list of atom sets, legends, bulk density and option text", "why_tests_cant": "the sums range over arbitrary sets of atoms, modes and frequencies, and the picture is never compared by tests", "anchors": ["InterPhon/analysis/dos.py: DOS.plot"]}
{"id": "C91", "title": "the frequency range of a picture", "statement": "Without an explicit range a picture's frequency axis runs between two whole numbers that enclose every frequency with a margin of at least 1 and less than 2 at the extreme ones, so no mode is cut off or touches the frame; with an explicit range exactly that range is used; fewer than two limits raise IndexError, no frequency at all ValueError.", "quantifier": "every list of frequencies and every given range", "why_tests_cant": "floor and ceiling of arbitrary reals, including negative (imaginary) frequencies", "anchors": ["InterPhon/analysis/band.py: Band.plot (106-111)", "InterPhon/analysis/dos.py: DOS.plot (206-211)"]}
{"id": "C92", "title": "what the band picture shows", "statement": "band.png shows for every branch the curve through its frequency at each k-point over the path length of that k-point, from the beginning to the end of the path, with a tick at each high-symmetry point; the texts are the given ones as formulas (G and g the letter Gamma, with an overline exactly for two periodic directions). Texts must be as many as the ticks, or none, otherwise ValueError. With 'projection' the colour of branch j at k-point i is the sum over the components of the given atoms of the squared moduli of mode j there: between 0 and 1 for normalised modes, and for two complementary sets adding up to 1. Other options make no picture; projection without atoms raises TypeError, an unknown colour bar location UnboundLocalError.", "quantifier": "every path, every number of branches and k-points, all modes, labels and sets of atoms", "why_tests_cant": "the correspondence holds for every index pair of arbitrary large arrays", "anchors": ["InterPhon/analysis/band.py: Band.plot"]}
{"id": "C93", "title": "the combined picture and the thermal picture", "statement": "Whenever the band picture and the vertical density picture with total exist, band_dos.png shows exactly these two side by side over the frequency range of the band picture. thermal_properties.png shows free energy and 1000 times the entropy (meV/K) at every temperature, between the lowest and the highest temperature.", "quantifier": "every pair of pictures, every option, every list of temperatures", "why_tests_cant": "the combined method is a copy of the other two; agreement has to hold for all options and data", "anchors": ["InterPhon/analysis/band.py: Band.plot_with_dos", "InterPhon/analysis/thermal_properties.py: ThermalProperty.plot"]}
{"id": "C94", "title": "the meaning of a command line", "statement": "For any sequence of words made of force files, options with a value (as next word, after '=', or directly after -c) and switches, long or short and in any order, optionally ended by '--' and more files, the program starts with the files in order, for every option the value given last (text, number, whole number, one of the listed words, existing file) or its documented default, and for every switch the one given last. If any of these values is not acceptable the program does not start. The default unit cell POSCAR must exist too when no unit cell is given.", "quantifier": "every command line built of such groups, every set of existing files", "why_tests_cant": "the words can come in any number and order; later ones override earlier ones", "anchors": ["InterPhon/interphon.py: main (click declarations, 116-306)", "docs/source/option_tags.rst"]}
{"id": "C95", "title": "refused command lines and help", "statement": "A word with a dash that is no documented flag, an option without its value and a switch with '=value' are usage errors whatever stands before or after; --help shows the help text whatever values other options have, even unacceptable ones.", "quantifier": "every command line prefix, every continuation, every unknown flag text", "why_tests_cant": "unknown words are an infinite set and may occur at any position", "anchors": ["InterPhon/interphon.py: main (click declarations, 116-306)"]}
{"id": "C96", "title": "an option file means the same as the command line", "statement": "For any list of options, each at most once, whose keys in an option file are their long or short names without dashes: giving them in an option file and giving them on the command line are either both rejected or start the program with the same value of every option and switch.", "quantifier": "every list of options and texts, every layout of the option file that gives these entries", "why_tests_cant": "two separately written parsers (click and parse_arguments) must agree on every text", "anchors": ["InterPhon/interphon.py: main (116-306, 307-480)"]}
{"id": "C97", "title": "the documented workflow from command line to force constants", "statement": "After any command line without force files that prepares the displaced structures, and DFT runs on these structures in their own directories whose forces follow a harmonic law (with any residual forces and any even anharmonic terms; coordinates with at most 16 decimals), the command line 'interphon FORCE_FILES -c UNITCELL -kdos KPOINTS' in the same directory ends well, changes no file, and has exactly the force constants of the law; no other option has to be repeated.", "quantifier": "every first command line, unit cell, code, displacement, enlargement, periodicity, force law and force file names without leading dash", "why_tests_cant": "it composes argument parsing, file round trips, the record and finite differences for all inputs", "anchors": ["InterPhon/interphon.py: main", "InterPhon/core/pre_process.py: PreProcess", "InterPhon/core/post_process.py: PostProcess"]}
{"id": "C98", "title": "both analyses in one run", "statement": "A run that computes the density of states and the bands writes exactly the result files and pictures that a run with the first analysis and a run with the second one write, with the same contents and in the same order, plus band_dos.png; the left part of that picture is the picture of the bands, its right part shares the frequency axis and, for an upright density of states, shows what dos.png shows; the record is the same. (Both analyses must succeed on their own; labels, orientation and picture options as the program accepts them.)", "quantifier": "every working directory contents, set of user arguments, unit cell, forces, k-point files, options, symmetry on or off", "why_tests_cant": "the second analysis works on a copy of the process the first one used, so every evaluation runs twice on its own results", "anchors": ["InterPhon/interphon.py: main (697-863)", "InterPhon/core/post_process.py: PostProcess.set_force_constant, eval_phonon", "InterPhon/analysis/band.py: Band.plot_with_dos"]}
{"id": "C99", "title": "the files of a post-process", "statement": "A successful post-process creates exactly these files in this order: for the density of states (the frequencies at the zone centre first, when no direction is periodic) total_dos.dat, projected_dos.dat, dos.png unless the picture option is unknown, the thermal properties and their picture when asked for; for the bands band.dat, band.png, band_dos.png when both were asked for; one trajectory and one animation per selected mode, one commensurate structure per mode when asked for and the code is known; post_process.yaml. A failure in the first analysis ends the run with what was written so far; a failure in the second leaves all results of the first.", "quantifier": "every combination of analyses, options, files and failures", "why_tests_cant": "the set of files depends on every option at once, and failures may occur at any step", "anchors": ["InterPhon/interphon.py: main (697-907)", "InterPhon/analysis/mode.py: Mode", "InterPhon/analysis/dos.py: DOS", "InterPhon/analysis/band.py: Band"]}
{"id": "C100", "title": "the record tells that the run succeeded", "statement": "post_process.yaml is written exactly when the whole post-process succeeds, once, as the last file, with the accepted user arguments; a run that fails at any step writes none.", "quantifier": "every post-process, every failure at any step", "why_tests_cant": "the failure may happen at any step of any analysis", "anchors": ["InterPhon/interphon.py: main (865-907)"]}
{"id": "C101", "title": "the animation shows the trajectory", "statement": "For every selected mode Mode.plot stores an animation of thirty structures, one period: selected atoms are displaced from the positions read by amplitude times sine, heavier atoms less, the others stay. When ASE reads the positions of the unit cell these are exactly the structures printed in the trajectory file of the same mode.", "quantifier": "every cell, selection without repetition, masses, set of modes, mode numbers from either end", "why_tests_cant": "each animation starts from the array that the previous one changed in place", "anchors": ["InterPhon/analysis/mode.py: Mode.plot, Mode.write"]}
{"id": "C102", "title": "the displacement amplitude of an option file", "statement": "When the amplitude of commensurate structures comes from the option file it reaches the mode analysis as a text, and the run always fails before any MPOSCAR file is written, whatever the text is (a defect of the program: on the command line the same amplitude works).", "quantifier": "every post-process with modes and commensurate structures, every text", "why_tests_cant": "the failure must occur for every input", "anchors": ["InterPhon/interphon.py: main (397-398, 637, 854-857)", "InterPhon/analysis/mode.py: Mode.write_mode_displace"]}
{"id": "C103", "title": "plain post-processes finish", "statement": "When the structures are accepted, fit together (the dynamical matrix at the zone centre can be built, at least one atom selected), the k-point files hold at least one point (two for bands) and plain pictures, a non-zero smearing width and, for thermal properties, at least one temperature are chosen, then the density of states with its thermal properties, the bands, or both in one run finish without an exception, for any numbers in the force files and any results of the eigenvalue routine of the right size.", "quantifier": "every input with these shapes, every eigenvalue result", "why_tests_cant": "no test covers all numbers and sizes", "anchors": ["InterPhon/interphon.py: main (697-907)", "InterPhon/core/post_process.py: PostProcess.eval_phonon", "InterPhon/analysis"]}
{"id": "C104", "title": "from the command line to the bands of the force law", "statement": "If the DFT forces follow a harmonic law (residual forces and even anharmonic terms allowed), the unit cell and displacement have at most 16 decimals, and structures were prepared by any command line without force files, then `interphon FORCE_FILES -c UNITCELL -kband KPOINTS` in the same directory finishes and writes band.dat next to the unit cell: one line per k-point holding the length of the path so far and, in increasing order, the frequencies (rounded to the printed digits) of the eigenvalues of the dynamical matrix of that law: its force constants with the phases of the minimum-image vectors, divided by the square roots of the tabulated masses.", "quantifier": "every unit cell, supercell size, set of selected atoms, harmonic law, file names, k-point file with at least two points, and every eigenvalue routine returning as many values as the matrix has rows", "why_tests_cant": "it composes all stages (command line, structure files, record, force files, force constants, dynamical matrix, bands, text) for every law and cell", "anchors": ["InterPhon/interphon.py: main", "InterPhon/core/pre_process.py: PreProcess", "InterPhon/core/post_process.py: PostProcess", "InterPhon/analysis/band.py: Band.set, Band.write"]}
{"id": "C105", "title": "what the files and the band picture of an analysis contain", "statement": "Every post-process that succeeds, whatever else it was asked for: (i) with a smeared density of states, total_dos.dat names the width and has num_dos lines, the i-th holding the i-th of num_dos evenly spaced frequencies from 2 THz below the lowest to 2 THz above the highest frequency of the k-point file, and the sum of normal distributions around all frequencies there divided by the number of k-points; projected_dos.dat has one column per selected coordinate of the unit cell, named after its atom, in order; (ii) thermal_properties.dat has one line per temperature with the free energy and entropy per atom of independent oscillators at the frequencies of the same k-points; (iii) band.dat has one line per k-point of the path file, distance and then its frequencies, and band.png shows these points, plain or coloured by the share of the given atoms, in the requested range, the texts at the high-symmetry points being the words of the labels option (a wrong number of words, a missing atom list or an unknown colour bar place never succeed). A run with an option file is the run with the options changed by it; a call without force files leaves nothing of a post-process.", "quantifier": "every setting, environment of options, structures, force files, k-point files, eigenvalue and sorting routine", "why_tests_cant": "it ties the printed numbers to the k-point file, the prepared structures and the options for every run", "anchors": ["InterPhon/interphon.py: main", "InterPhon/analysis/dos.py: DOS.set, DOS.write", "InterPhon/analysis/thermal_properties.py: ThermalProperty.set, ThermalProperty.write", "InterPhon/analysis/band.py: Band.set, Band.write, Band.plot"]}
{"id": "C106", "title": "every analysis of forces that follow a harmonic law", "statement": "A structure is prepared for force calculations with any options or option file; forces that follow a harmonic law with force constants Phi are computed for the displaced files; then the program is run on the force files with any options or option file that do not contradict the first run. Whatever analysis is asked for, if the run succeeds: total_dos.dat is the smeared density of states, thermal_properties.dat the free energy and entropy per atom, and band.dat the bands, of the frequencies that the dynamical matrix of the law (Phi, the masses of the atoms and the periodic directions) has at the k-points of the file given for it. With plain pictures, a non-zero smearing, k-point files that can be read (one point for a density of states, two for bands) and no label texts, the run does succeed.", "quantifier": "every crystal whose coordinates the files can carry, every enlargement and displacement, every harmonic law, every option text, k-point file, eigenvalue routine", "why_tests_cant": "it composes both runs with the physics they are meant to reproduce", "anchors": ["InterPhon/interphon.py: main", "InterPhon/core/pre_process.py: PreProcess.set_user_arg, PreProcess.set_super_cell, PreProcess.write_displace_cell", "InterPhon/core/post_process.py: PostProcess.set_force_constant, PostProcess.set_k_points, PostProcess.eval_phonon", "InterPhon/analysis/dos.py: DOS.set, DOS.write", "InterPhon/analysis/thermal_properties.py: ThermalProperty.set", "InterPhon/analysis/band.py: Band.set, Band.write"]}
{"id": "C107", "title": "the smeared density of states counts every mode once", "statement": "For every post-process with a smeared density of states (sigma > 0) that succeeds, the second column of total_dos.dat holds the values, at the frequencies of the first column, of a positive density whose integral over the whole frequency axis is exactly the number of selected coordinates of the unit cell (all its modes, none lost or counted twice, whatever the k-points), and the integral over the printed range of frequencies misses at most the share exp(-2/sigma^2) of it.", "quantifier": "every setting, option, k-point file, positive smearing width, number of printed points, unit-norm eigenvalue routine", "why_tests_cant": "an integral over the real axis for every set of frequencies; a numeric sum over a few points would only approximate it for one case", "anchors": ["InterPhon/analysis/dos.py: DOS.set, DOS.write", "InterPhon/interphon.py: main"]}
