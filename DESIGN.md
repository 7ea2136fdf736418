# InterPhon in Rocq: design

## Approach

The Python code is modelled function by function as total Gallina functions.
Exceptions are values (`result`), loops are folds or structural recursion, numpy
arrays are lists of rows (3-vectors), mutation is state passing: a method that
changes its object returns the new object, and where the code leaves an object
half changed when it raises, the model does too ("object view").  Numbers:

* indices and counts: `nat`; Python ints: `Z`;
* algebraic float code (supercells, displacements, force constants, 3x3
  matrices, symmetry search): exact arithmetic, generic over a class `Fld` of
  fields with decidable equality, plus `Num` (order, floor) for the symmetry
  search; instances `Qc` (executable) and `R`;
* text input and output: `string` and exact rationals `Qc`;
* transcendental code (phases, roots, exp, log, integrals): Coq reals `R`;
  numpy's nan and inf are `None`.

Each part has a model file `X.v` (every definition cites the file and lines it
models), a file `XFacts.v` of lemmas where needed, and `PropsX.v` with the
specification predicates, the theorems named in MANIFEST.json, non-vacuity
Examples beside them, and `Print Assumptions`.  Theorems named `..._refuted`
state that a plausible reading of the documentation is false of the code; the
property then also has theorems saying what is true instead.

## Layout (rocq/theories)

| part | model | lemmas | theorems |
|---|---|---|---|
| Python strings, numbers, exceptions | Base, Dec, Field, Order | (same files) | |
| arguments (pre_check.py) | Args | ArgsFacts | PropsArgs |
| unit cell, supercell, displaced cells (unit_cell.py, super_cell.py, pre_process.py) | Cell, Super, Displace | CellFacts, SuperFacts, DisplaceFacts | PropsCell |
| structure and force files (inout/*.py) | Text | TextFacts, TextRound | PropsText, PropsRead |
| checks before the post-process (post_check.py, interphon.py 32-113) | Check | CheckFacts | PropsCheck |
| k-points (k_points.py) | KPoints | | PropsKPoints |
| force constants (post_process.py 78-345) | Force | ForceFacts | PropsForce |
| dynamical matrix, frequencies (post_process.py 391-470) | Phonon | PhononFacts | PropsPhonon, PropsModes |
| symmetry search (symmetry.py) | Sym | SymFacts | PropsLattice, PropsSym, PropsSuperSym, PropsDisp, PropsPoint |
| a whole run with symmetry (pre_process.py, post_process.py) | SymRun | SymTransfer, SymExample | PropsSymRun, PropsNonPrim |
| a session: objects, sharing, order of calls (pre_process.py, post_process.py) | Session | | PropsSession |
| thermal properties | Thermal | | PropsThermal |
| band | Band | | PropsBand |
| density of states (dos.py, linear_tetrahedron_method.py) | Dos | DosFacts | PropsTetra, PropsDos, PropsSmear |
| written tables (band.dat, *_dos.dat, thermal_properties.dat, gamma point) | Output | OutputFacts | PropsOutput |
| atomic weights | Weight | | PropsWeight |
| command line (interphon.py) | Cli | | PropsCli, PropsOptions |
| whole runs: files, record, two runs (interphon.py) | Run | RunFacts | PropsRun |
| command line words (interphon.py 116-306, click) | Click | | PropsClick, PropsWorkflow |
| the post-process as a whole (interphon.py 697-907, mode.py 107-145) | Report | ReportFacts | PropsReport, PropsFinish, PropsBands, PropsContent, PropsLaw, PropsGauss (Gauss: the integral of the normal distribution) |
| pictures (band.py, dos.py, thermal_properties.py) | Plot | | PropsPlot |
| phonon modes (mode.py) | Frac, Mode | | PropsFrac, PropsMode |

## What is modelled and what is not

Modelled: every function of core/, inout/, util/, analysis/ and interphon.py
except those listed here.

Not modelled:
* the look of pictures (colours, fonts, line styles, place of legends, rounded tick
  texts), the ASE window `Mode.plot` opens (its files are modelled); printing to the terminal; in `Mode` a deep copy is the value itself (`Session` models it on the heap);
* of click: its messages, exit codes and completion, environment variables, directories
  as values of path options (Click.v models words, conversion, defaults and --help);
* YAML syntax: the record is the list of its entries (`Cli.record`), and the
  copy of the lattice and atoms in it (interphon.py 16-29), which nothing reads;
* opening files: a file is its text; only `Session` has files that cannot be opened
  (structure and k-point files);
* the test files, docs/, example/, scripts/, setup.py.

Simplifications, each also stated at the definition:
* doubles are exact numbers: rounding, overflow, signed zero and the resulting
  ties are not modelled.  Tolerances (numpy.allclose) are modelled exactly as
  inequalities;
* float("nan"), "inf", digit separators "_" and non-ASCII text are not numbers;
* numpy.linalg.eig and the order among equal keys of numpy.argsort are
  parameters (with hypotheses where a theorem needs them);
* in `Mode` the decimal text of a real number is a parameter;
* while loops whose termination depends on data (orders of operations) carry a
  fuel argument; a theorem says when the loop ends and when it does not;
* `np.empty` gives unset entries (`None`).

## Trusted base

* Coq 8.16.1: the kernel and its standard library.  No axiom is declared here,
  no kernel check is switched off, no plugin is used.
* `Print Assumptions` of every theorem of the manifest is listed in
  ASSUMPTIONS.md (generated by `python3 tools/design.py --axioms`).  The only
  axioms are those of the standard library's real numbers and classical logic:
  `ClassicalDedekindReals.sig_forall_dec`, `ClassicalDedekindReals.sig_not_dec`,
  `FunctionalExtensionality.functional_extensionality_dep`,
  `Classical_Prop.classic`; they occur only where the model uses `R`.
  (Opaque constants of the standard library modules `RbaseSymbolsImpl`,
  `RinvImpl` and `ssrunder.Under_rel`, which Coquelicot loads, are module-sealed
  definitions, not assumptions.)
* The reading of the Python code by the model: what numpy and Python do is as
  written in the comments of the model.

## How the theorems are tested

`seeded/LOG.jsonl` records edits of the model that imitate bugs: for each edit
the build was repeated and the failing theorems noted; where nothing failed the
theorem was tightened (`theorems_tightened`).  `tools/mutlog.py` writes it.

## Plan per property

<!-- table -->
| id | property | modelled, and how proved | theorems in |
|---|---|---|---|
| C01 | Accepted user arguments are well formed | Args: the argument object as a state; keys matched by substring, values parsed from strings. Induction on the dictionary entries. | PropsArgs |
| C02 | Rejected user arguments are rejected for the documented reason | Args: the three setters on canonical dictionaries; case analysis on each check in program order. | PropsArgs |
| C03 | Setting arguments forgets the past | Args: object view (a failing call keeps what was set) against the value view; induction over call histories. | PropsArgs |
| C04 | Displacement and enlargement domain | Args: the built but never raised ValueError is modelled as it stands; the documented rule is refuted by a computed case. *(actual behaviour proved; documented intent refuted)* | PropsArgs |
| C05 | Unit-cell setters validate and are atomic | Cell: record of optional fields, one setter each, histories of assignments with caught exceptions; invariant by induction. | PropsCell |
| C06 | Selections are sorted and in range | Cell: sorted() as insertion sort; permutation and order by induction. | PropsCell |
| C07 | Direct/Cartesian consistency | Field, Cell: 3x3 inverse by adjugate over any field; matrix identities with `field`. | PropsCell |
| C08 | Supercell content and order | Super: the block of copies of every atom, position formula; list induction. | PropsCell |
| C09 | Supercell lattice and atom counts | Super: lattice rows, counts, order of types. | PropsCell |
| C10 | Supercell periodicity | Super: every translated atom is a supercell atom up to a supercell lattice vector, exactly once; Euclidean division in Z. | PropsCell |
| C11 | Supercell selection | Super: selected indices of the supercell against the definition "copy of a selected atom". | PropsCell |
| C12 | Unvalidated supercell requests fail loudly | Super: outcomes for enlargements that bypass the argument check (zero, negative, non-periodic and enlarged). | PropsCell |
| C13 | Displaced cells: what is displaced | Displace: the sequence of files (name, comment, positions) and the final state, as state passing; induction on the selection. | PropsCell |
| C14 | Displaced cells with symmetry | Displace: same with the requests of the symmetry search. | PropsCell |
| C15 | Displaced cell names sort in displacement order | Displace, Dec: zero padded numbers as strings and the lexicographic order; digit induction. | PropsCell |
| C16 | Write_displace_cell leaves the supercell displaced | Displace: the shared supercell after the call. | PropsCell |
| C17 | Fixed-point coordinate text accuracy | Text: the %.16f formatter over exact rationals and the float parser; digit induction, error bound 10^-16/2. | PropsText |
| C18 | VASP structure round trip | Text: writer and reader of a POSCAR character by character; induction on the lines. | PropsText |
| C19 | Quantum ESPRESSO structure round trip | Text: same for Quantum ESPRESSO input. *(selective flag is inferred: set iff an atom is fixed)* | PropsText |
| C20 | FHI-aims structure round trip | Text: same for FHI-aims geometry.in. *(selective flag is inferred: set iff an atom is fixed)* | PropsText |
| C21 | Run-length atom counts | Text: the run length loop; uniqueness and totality by induction. | PropsText |
| C22 | Force parser returns the force block | Text: force blocks of vasprun.xml, OUTCAR, espresso and aims output inside any surrounding text. | PropsText |
| C23 | Force parser failure modes | Text: missing tag, unknown file name, truncated block. | PropsText |
| C24 | Pre/post argument match | Check: numpy.allclose as a rational inequality; characterisation of acceptance. *(atom counts are not compared (commented out in the source))* | PropsCheck, PropsSession |
| C25 | File-order check is sound and complete | Check: the order test of the command line, with and without symmetry; characterisation, and acceptance of the written files. | PropsCheck |
| C26 | Gamma-centred grid | KPoints: grid loops over rationals; classes modulo 1 by number theory in Z. | PropsKPoints |
| C27 | Monkhorst-Pack grid | KPoints: same with half steps. | PropsKPoints |
| C28 | K-grid respects periodicity | KPoints: exact condition of rejection. | PropsKPoints |
| C29 | Line path interpolation | KPoints: linspace and the pairing of the lines. | PropsKPoints |
| C30 | Line path periodicity check | KPoints: which end of a segment is checked; intended rule refuted. *(intended check of end points refuted)* | PropsKPoints |
| C31 | Finite-difference force constants | Force: column by column assignment into an array with unset entries; harmonic law as an arbitrary matrix over any field. | PropsForce |
| C32 | Symmetry-reduced force constants equal the full ones | Force: rotation of forces, 3x3 inverse, derived atoms; linear algebra over any field from symmetry of the law. PropsSymRun composes it with the search. | PropsForce |
| C33 | Reciprocal lattice duality | Force: cross products over R. | PropsForce |
| C34 | Minimum-image vectors | Phonon: the loop over 3, 9 or 27 shifts; soundness in all dimensions, minimality in 1D, refuted in 2D. | PropsPhonon |
| C35 | Dynamical matrix at -q | Phonon: conjugation of phase sums over R. | PropsPhonon |
| C36 | Acoustic sum rule | Phonon: sums at Gamma from the sum rule of the law. | PropsPhonon |
| C37 | Hermitian dynamical matrix | Phonon: commensurate Fourier sums over the torus of cells. *(commensurate k only; refuted elsewhere)* | PropsPhonon |
| C38 | Frequencies: sign convention and order | Phonon: principal complex square root; sign, monotonicity, sortedness for any sorting permutation. | PropsModes |
| C39 | Mode/frequency pairing | Phonon: solver and argsort are parameters with their specifications; row/column pairing. *(the intended pairing is refuted)* | PropsModes |
| C40 | Point-group candidate completeness | Sym: the candidate list computed; reduced bases by inequalities over an ordered field. | PropsLattice |
| C41 | Point-group classification is total | Sym: trace/determinant table; finite enumeration and metric invariance. | PropsLattice, PropsPoint |
| C42 | Space-group operations map atoms to atoms | Sym: acceptance test of one operation; geometry of close points over an ordered field. *(completeness refuted for translations outside the candidate list)* | PropsSym, PropsPoint |
| C43 | Image atoms partition the selection | Sym: the loop that selects required atoms; induction with invariant. | PropsSym |
| C44 | Independent displacements are independent | Sym: powers of operations, Cauchy-Schwarz test, additional directions; determinants for the 10 point groups over R. *(holds for a slab with a,b in the xy plane and c along z; other periodic orientations are refuted)* | PropsDisp |
| C45 | Band path length | Band: cumulative length; induction on the path. *(Cartesian reading refuted)* | PropsBand |
| C46 | Tetrahedron weights form a partition | Dos: corner weights of segment, triangle, tetrahedron; identities and integrals of the density over R. | PropsTetra |
| C47 | DOS counts every state once | Dos: whole loops over bands and cells; Riemann integrals of piecewise rational densities (Coquelicot). *(projection per corner and normalisation on elongated 3D meshes are refuted)* | PropsDos, PropsTetra, PropsSmear |
| C48 | Repeated DOS evaluation | Dos: the accumulation starts from the stored array. | PropsSmear |
| C49 | Free energy identity | Thermal: formulae over R with non-finite numpy values as None; limits with Coquelicot. | PropsThermal |
| C50 | Entropy is minus the temperature derivative | Thermal: derivative of the free energy. | PropsThermal |
| C51 | Imaginary modes are ignored with a warning | Thermal: the branch for negative frequencies. | PropsThermal |
| C52 | Mode selection | Mode: the last matching k-point wins; index checks. | PropsMode |
| C53 | Mode trajectory | Mode: the thirty images; text layout through the POSCAR writer with number formatting as a parameter. *(formatting of real numbers is a parameter; vasp_lines_write links the lines to the verified writer)* | PropsMode |
| C54 | Atomic weights are consistent across spellings | Weight: the table as data, capitalize(); finite checks lifted to every spelling by induction. | PropsWeight |
| C55 | Command-line precedence over the record | Cli: merge of the options with the record. | PropsCli |
| C56 | Dictionary entry order | Args: order of dictionary entries. | PropsArgs |
| C57 | Truncated structure files | Text: prefix of a written file. | PropsText |
| C58 | K-point file dispatch | KPoints: first letter dispatch and the reset of the stored points. | PropsKPoints |
| C59 | Cartesian form of symmetry operations | Sym, Force: cart_op; when it is the cartesian matrix of the operation. | PropsForce |
| C60 | Unknown point group: symmetry fallback | Sym, Displace: exception during the search and the second evaluation. *(the documented fallback is refuted)* | PropsSym |
| C61 | Image atoms in the supercell are a rigid motion, for equal enlargements only | Sym (search_cell_image_index), Super: rows of the table against rigid motions of the crystal; counting argument; unequal enlargement refuted. *(exact crystal symmetry is assumed: with approximate positions the tolerance of the supercell test can be exceeded)* | PropsSuperSym |
| C62 | Thermal evaluation corner cases | Thermal: repeated calls, repeated zero temperature, zero frequency. | PropsThermal |
| C63 | Option file | Cli: splitting of lines, table of keys, conversion. *(the natural 'last line wins' is refuted for two spellings of one option)* | PropsCli |
| C64 | Symmetry flag of the post-process | Cli: decision table of the flag. | PropsCli |
| C65 | The record restores the arguments | Cli, Args: printing and parsing back. | PropsCli |
| C66 | What the program runs | Cli: what is executed for every combination of options. | PropsCli |
| C67 | Order of the force files on the command line | Cli: glob + sort against explicit list; digit induction on names. | PropsCli |
| C68 | Commensurate enlargement | Frac: Fraction.limit_denominator as continued fraction loop; best approximation by Farey neighbours. | PropsFrac |
| C69 | Commensurate pattern | Mode: periodicity of the cosine pattern iff the k-point is commensurate. | PropsMode |
| C70 | Displaced commensurate supercell | Mode, Super: content of the written structure; when it is a Bloch wave. | PropsMode |
| C71 | Operations used for one atom fix it; the plane is that of the periodic directions | Sym: choice of the plane and of the operations that fix an atom; list induction. | PropsPoint |
| C72 | A whole run with symmetry reproduces the true force constants | SymRun: the two phases of a run composed; isometry group algebra, least squares, permutation of atoms. *(hypotheses: primitive selected layer, exact operations, slab, equal in-plane enlargement; refuted for centred cells)* | PropsSymRun, PropsNonPrim |
| C73 | Process objects share nothing only when given their own objects | Session: heap of objects, processes as references; frame lemma per statement, induction over sessions. *(isolation is refuted for objects constructed with the default arguments)* | PropsSession |
| C74 | Assigning to user_arg, unit_cell, super_cell | Session: case analysis of the setters; induction over sessions for the symmetry object. | PropsSession |
| C75 | Frequencies belong to the current wave vectors, except after an unrecognised k-point file | Session: case analysis of set_k_points and eval_phonon, induction over the wave vectors. | PropsSession |
| C76 | What set_super_cell and set_unit_cell leave behind | Session, Super: statement-by-statement supercell construction refines the value-level one. | PropsSession |
| C77 | A VASP structure file written by the user is read as its POSCAR meaning, except the scale of Cartesian positions | Text, Cell: grammar of the file as a predicate on its lines; the reader computed on it, then the setters. *(Cartesian positions times scale is refuted)* | PropsRead |
| C78 | A Quantum ESPRESSO input written by the user is read as its sections say, with the units ignored and zero coordinates read as constraints | Text, Cell: as C77; the tag scan by induction over the lines. *(units and zero coordinates: the documented meaning is refuted)* | PropsRead |
| C79 | An FHI-aims geometry file written by the user: atom lines count, atom_frac lines and late constraints do not | Text, Cell: inductive grammar of geometry.in, induction on it. *(atom_frac and constraints after other tags are refuted)* | PropsRead |
| C80 | band.dat holds every k-point and mode, in order, to nine decimals | Output.v: Band.write and '%16.9f' over exact reals; split/parse of the written lines proved by induction on rows (PropsOutput). | PropsOutput |
| C81 | the two DOS files are complete, labelled by atom and consistent with each other | Output.v: DOS.write with the IndexError; composed with dos_init/dos_set of Dos.v; sum of roundings by induction on the components (PropsOutput). | PropsOutput |
| C82 | thermal_properties.dat is the harmonic thermodynamics, one line per temperature | Output.v: ThermalProperty.write composed with the closed forms of PropsThermal (PropsOutput). | PropsOutput |
| C83 | a system without periodic directions gets its frequencies in a file, others do not | Output.v: the file of post_process.py 462-470 (PropsOutput). | PropsOutput |
| C84 | each option of the option file sets its own variable, with its own check | Cli.v: with_option_file of a file with one entry, against separate tables of keys; case analysis on the option table (PropsOptions). | PropsOptions |
| C85 | the option texts mean what they say to the analyses | Cli.v: post_plan inverted stage by stage; range by division with remainder, comma groups by induction on the text (PropsOptions). | PropsOptions |
| C86 | what a pre-process leaves behind can be read back | Run.v: pre_run/main_run over a file system of texts; round trips of the three formats, distinct names (suffix injective), frame of write_all (PropsRun). | PropsRun |
| C87 | from the pre-process through the DFT runs to the force constants | Run.v: main_run twice with an arbitrary world in between; composition of C11, C13, C18-C20, C24, C25, C31, C55, C65 (RunFacts, PropsRun). | PropsRun |
| C88 | which files a run opens | Run.v: resolve, dirname, beside; induction over path texts (PropsRun). | PropsRun |
| C89 | a pre-process touches only its own files, however it ends | Run.v: case analysis of pre_run, every written name has the form of a suffix (PropsRun). | PropsRun |
| C90 | what the picture of the density of states shows | Plot.v: a figure is its list of artists; sums over sets against picked (PropsPlot). | PropsPlot |
| C91 | the frequency range of a picture | Plot.v: window; floor and ceiling as Int_part; fold of Rmin and Rmax (PropsPlot). | PropsPlot |
| C92 | what the band picture shows | Plot.v: band_plot; uses C45 for path and ticks (PropsPlot). | PropsPlot |
| C93 | the combined picture and the thermal picture | Plot.v: plot_with_dos, thermal_plot; refinement by the two single pictures (PropsPlot). | PropsPlot |
| C94 | the meaning of a command line | Click.v: words to settings and files, conversion, defaults; induction over groups against asks/given/turned (PropsClick). | PropsClick |
| C95 | refused command lines and help | Click.v: read_word rejects; induction over the groups before (PropsClick). | PropsClick |
| C96 | an option file means the same as the command line | Click.v and Cli.v: with_option_file against command; both equal the manual's reading (PropsClick). | PropsClick |
| C97 | the documented workflow from command line to force constants | Click.v and Run.v: program twice; C94 for both command lines and C87 (PropsWorkflow). *(Runs without symmetry (the search finds none or is switched off), as C87.)* | PropsWorkflow |
| C98 | both analyses in one run | Report.v: the run as a writer with exceptions; the steps of the second stage repeated on their own result (settle_twice, also with symmetry), picture of both from the two pictures (PropsReport). | PropsReport |
| C99 | the files of a post-process | Report.v: names of the events of each step (PropsReport). | PropsReport |
| C100 | the record tells that the run succeeded | Report.v: no step but the last writes the record; set_user_arg is idempotent (PropsReport). | PropsReport |
| C101 | the animation shows the trajectory | Report.v animate/images_of: assignments overwrite the same rows; against is_frame of C53 (PropsReport). | PropsReport |
| C102 | the displacement amplitude of an option file | Report.v mode_part: a text amplitude fails after the trajectories (PropsReport, with C66). | PropsReport |
| C103 | plain post-processes finish | Report.v: every step total under these shapes; success of dyn_at does not depend on the wave vector (PropsFinish). | PropsFinish |
| C104 | from the command line to the bands of the force law | Click.v, Run.v, Report.v composed: end_to_end_exact (structures and force constants of C87/C97), dynamical_matrix_phase_sum (C34-C37) on the exact supercell, bands of C103, text of C80 (PropsBands). | PropsBands |
| C105 | what the files and the band picture of an analysis contain | Report.v: inversion of a successful run (evaluate, dos_part, thermal_part, band_part), then C47 (gaussian_dos_total), C80-C82 (files) and C92 (band picture) at the evaluated frequencies (PropsContent). | PropsContent |
| C106 | every analysis of forces that follow a harmonic law | Composition of C87 (exact force constants), C104's law_matrix (dynamical matrix of the law), C98-C100 (the second run is analyses of one preparation), C105 (contents) and C103 (plain runs finish); PropsLaw. | PropsLaw |
| C107 | the smeared density of states counts every mode once | Gauss.v: the Gauss integral (differentiation under the integral sign, G(t)^2 + H(t) = pi/4) with a tail bound; then C105 (dos_files_of_a_run) and linearity of the improper integral (PropsGauss). | PropsGauss |
<!-- end table -->
