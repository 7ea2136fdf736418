{
 "C01": "Args: the argument object as a state; keys matched by substring, values parsed from strings. Induction on the dictionary entries.",
 "C02": "Args: the three setters on canonical dictionaries; case analysis on each check in program order.",
 "C03": "Args: object view (a failing call keeps what was set) against the value view; induction over call histories.",
 "C04": "Args: the built but never raised ValueError is modelled as it stands; the documented rule is refuted by a computed case.",
 "C05": "Cell: record of optional fields, one setter each, histories of assignments with caught exceptions; invariant by induction.",
 "C06": "Cell: sorted() as insertion sort; permutation and order by induction.",
 "C07": "Field, Cell: 3x3 inverse by adjugate over any field; matrix identities with `field`.",
 "C08": "Super: the block of copies of every atom, position formula; list induction.",
 "C09": "Super: lattice rows, counts, order of types.",
 "C10": "Super: every translated atom is a supercell atom up to a supercell lattice vector, exactly once; Euclidean division in Z.",
 "C11": "Super: selected indices of the supercell against the definition \"copy of a selected atom\".",
 "C12": "Super: outcomes for enlargements that bypass the argument check (zero, negative, non-periodic and enlarged).",
 "C13": "Displace: the sequence of files (name, comment, positions) and the final state, as state passing; induction on the selection.",
 "C14": "Displace: same with the requests of the symmetry search.",
 "C15": "Displace, Dec: zero padded numbers as strings and the lexicographic order; digit induction.",
 "C16": "Displace: the shared supercell after the call.",
 "C17": "Text: the %.16f formatter over exact rationals and the float parser; digit induction, error bound 10^-16/2.",
 "C18": "Text: writer and reader of a POSCAR character by character; induction on the lines.",
 "C19": "Text: same for Quantum ESPRESSO input.",
 "C20": "Text: same for FHI-aims geometry.in.",
 "C21": "Text: the run length loop; uniqueness and totality by induction.",
 "C22": "Text: force blocks of vasprun.xml, OUTCAR, espresso and aims output inside any surrounding text.",
 "C23": "Text: missing tag, unknown file name, truncated block.",
 "C24": "Check: numpy.allclose as a rational inequality; characterisation of acceptance.",
 "C25": "Check: the order test of the command line, with and without symmetry; characterisation, and acceptance of the written files.",
 "C26": "KPoints: grid loops over rationals; classes modulo 1 by number theory in Z.",
 "C27": "KPoints: same with half steps.",
 "C28": "KPoints: exact condition of rejection.",
 "C29": "KPoints: linspace and the pairing of the lines.",
 "C30": "KPoints: which end of a segment is checked; intended rule refuted.",
 "C31": "Force: column by column assignment into an array with unset entries; harmonic law as an arbitrary matrix over any field.",
 "C32": "Force: rotation of forces, 3x3 inverse, derived atoms; linear algebra over any field from symmetry of the law. PropsSymRun composes it with the search.",
 "C33": "Force: cross products over R.",
 "C34": "Phonon: the loop over 3, 9 or 27 shifts; soundness in all dimensions, minimality in 1D, refuted in 2D.",
 "C35": "Phonon: conjugation of phase sums over R.",
 "C36": "Phonon: sums at Gamma from the sum rule of the law.",
 "C37": "Phonon: commensurate Fourier sums over the torus of cells.",
 "C38": "Phonon: principal complex square root; sign, monotonicity, sortedness for any sorting permutation.",
 "C39": "Phonon: solver and argsort are parameters with their specifications; row/column pairing.",
 "C40": "Sym: the candidate list computed; reduced bases by inequalities over an ordered field.",
 "C41": "Sym: trace/determinant table; finite enumeration and metric invariance.",
 "C42": "Sym: acceptance test of one operation; geometry of close points over an ordered field.",
 "C43": "Sym: the loop that selects required atoms; induction with invariant.",
 "C44": "Sym: powers of operations, Cauchy-Schwarz test, additional directions; determinants for the 10 point groups over R.",
 "C45": "Band: cumulative length; induction on the path.",
 "C46": "Dos: corner weights of segment, triangle, tetrahedron; identities and integrals of the density over R.",
 "C47": "Dos: whole loops over bands and cells; Riemann integrals of piecewise rational densities (Coquelicot).",
 "C48": "Dos: the accumulation starts from the stored array.",
 "C49": "Thermal: formulae over R with non-finite numpy values as None; limits with Coquelicot.",
 "C50": "Thermal: derivative of the free energy.",
 "C51": "Thermal: the branch for negative frequencies.",
 "C52": "Mode: the last matching k-point wins; index checks.",
 "C53": "Mode: the thirty images; text layout through the POSCAR writer with number formatting as a parameter.",
 "C54": "Weight: the table as data, capitalize(); finite checks lifted to every spelling by induction.",
 "C55": "Cli: merge of the options with the record.",
 "C56": "Args: order of dictionary entries.",
 "C57": "Text: prefix of a written file.",
 "C58": "KPoints: first letter dispatch and the reset of the stored points.",
 "C59": "Sym, Force: cart_op; when it is the cartesian matrix of the operation.",
 "C60": "Sym, Displace: exception during the search and the second evaluation.",
 "C61": "Sym (search_cell_image_index), Super: rows of the table against rigid motions of the crystal; counting argument; unequal enlargement refuted.",
 "C62": "Thermal: repeated calls, repeated zero temperature, zero frequency.",
 "C63": "Cli: splitting of lines, table of keys, conversion.",
 "C64": "Cli: decision table of the flag.",
 "C65": "Cli, Args: printing and parsing back.",
 "C66": "Cli: what is executed for every combination of options.",
 "C67": "Cli: glob + sort against explicit list; digit induction on names.",
 "C68": "Frac: Fraction.limit_denominator as continued fraction loop; best approximation by Farey neighbours.",
 "C69": "Mode: periodicity of the cosine pattern iff the k-point is commensurate.",
 "C70": "Mode, Super: content of the written structure; when it is a Bloch wave.",
 "C71": "Sym: choice of the plane and of the operations that fix an atom; list induction.",
 "C72": "SymRun: the two phases of a run composed; isometry group algebra, least squares, permutation of atoms.",
 "C73": "Session: heap of objects, processes as references; frame lemma per statement, induction over sessions.",
 "C74": "Session: case analysis of the setters; induction over sessions for the symmetry object.",
 "C75": "Session: case analysis of set_k_points and eval_phonon, induction over the wave vectors.",
 "C76": "Session, Super: statement-by-statement supercell construction refines the value-level one.",
 "C77": "Text, Cell: grammar of the file as a predicate on its lines; the reader computed on it, then the setters. *(Cartesian positions times scale is refuted)*",
 "C78": "Text, Cell: as C77; the tag scan by induction over the lines. *(units and zero coordinates: the documented meaning is refuted)*",
 "C79": "Text, Cell: inductive grammar of geometry.in, induction on it. *(atom_frac and constraints after other tags are refuted)*",
 "C80": "Output.v: Band.write and '%16.9f' over exact reals; split/parse of the written lines proved by induction on rows (PropsOutput).",
 "C81": "Output.v: DOS.write with the IndexError; composed with dos_init/dos_set of Dos.v; sum of roundings by induction on the components (PropsOutput).",
 "C82": "Output.v: ThermalProperty.write composed with the closed forms of PropsThermal (PropsOutput).",
 "C83": "Output.v: the file of post_process.py 462-470 (PropsOutput).",
 "C84": "Cli.v: with_option_file of a file with one entry, against separate tables of keys; case analysis on the option table (PropsOptions).",
 "C85": "Cli.v: post_plan inverted stage by stage; range by division with remainder, comma groups by induction on the text (PropsOptions).",
 "C86": "Run.v: pre_run/main_run over a file system of texts; round trips of the three formats, distinct names (suffix injective), frame of write_all (PropsRun).",
 "C87": "Run.v: main_run twice with an arbitrary world in between; composition of C11, C13, C18-C20, C24, C25, C31, C55, C65 (RunFacts, PropsRun).",
 "C88": "Run.v: resolve, dirname, beside; induction over path texts (PropsRun).",
 "C89": "Run.v: case analysis of pre_run, every written name has the form of a suffix (PropsRun).",
 "C90": "Plot.v: a figure is its list of artists; sums over sets against picked (PropsPlot).",
 "C91": "Plot.v: window; floor and ceiling as Int_part; fold of Rmin and Rmax (PropsPlot).",
 "C92": "Plot.v: band_plot; uses C45 for path and ticks (PropsPlot).",
 "C93": "Plot.v: plot_with_dos, thermal_plot; refinement by the two single pictures (PropsPlot).",
 "C94": "Click.v: words to settings and files, conversion, defaults; induction over groups against asks/given/turned (PropsClick).",
 "C95": "Click.v: read_word rejects; induction over the groups before (PropsClick).",
 "C96": "Click.v and Cli.v: with_option_file against command; both equal the manual's reading (PropsClick).",
 "C97": "Click.v and Run.v: program twice; C94 for both command lines and C87 (PropsWorkflow).",
 "C98": "Report.v: the run as a writer with exceptions; the steps of the second stage repeated on their own result (settle_twice, also with symmetry), picture of both from the two pictures (PropsReport).",
 "C99": "Report.v: names of the events of each step (PropsReport).",
 "C100": "Report.v: no step but the last writes the record; set_user_arg is idempotent (PropsReport).",
 "C101": "Report.v animate/images_of: assignments overwrite the same rows; against is_frame of C53 (PropsReport).",
 "C102": "Report.v mode_part: a text amplitude fails after the trajectories (PropsReport, with C66).",
 "C103": "Report.v: every step total under these shapes; success of dyn_at does not depend on the wave vector (PropsFinish).",
 "C104": "Click.v, Run.v, Report.v composed: end_to_end_exact (structures and force constants of C87/C97), dynamical_matrix_phase_sum (C34-C37) on the exact supercell, bands of C103, text of C80 (PropsBands).",
 "C105": "Report.v: inversion of a successful run (evaluate, dos_part, thermal_part, band_part), then C47 (gaussian_dos_total), C80-C82 (files) and C92 (band picture) at the evaluated frequencies (PropsContent).",
 "C106": "Composition of C87 (exact force constants), C104's law_matrix (dynamical matrix of the law), C98-C100 (the second run is analyses of one preparation), C105 (contents) and C103 (plain runs finish); PropsLaw.",
 "C107": "Gauss.v: the Gauss integral (differentiation under the integral sign, G(t)^2 + H(t) = pi/4) with a tail bound; then C105 (dos_files_of_a_run) and linearity of the improper integral (PropsGauss)."
}