{"id": "C01", "title": "Wilson coefficient values survive the value encoding", "statement": "Encoding any dictionary of complex numbers with WC.dict2values and reading it back through the `dict` property of a WC returns the same keys, in the same order, with the same numbers; a coefficient with zero imaginary part is stored as a plain number and any other as a Re/Im mapping; looking up a key that is not stored gives 0.", "quantifier": "all coefficient dictionaries (any length, any string keys, any complex values)", "why_tests_cant": "an unbounded set of dictionaries and values; a test samples a few", "anchors": ["wilson/wcxf/classes.py: WC.dict2values, WC._to_complex_dict, WC._to_number, WC.dict, WC.__getitem__"]}
{"id": "C02", "title": "Translation and matching keep the metadata and drop exact zeros", "statement": "For every registered translator function f, wc.translate(b) has the EFT and scale of wc, basis b, contains no zero values, and looking up any key gives what f returned for it (0 if f did not return it). Matching does the same with the target EFT and basis. If the target equals the current basis (and EFT) the very same object is returned, and if no function is registered for the pair a ValueError is raised and nothing changes.", "quantifier": "all WC objects, all registries, all translator/matcher functions (also user-defined ones), all parameter and sector arguments", "why_tests_cant": "translators are user-extensible functions; the claim is about every such function", "anchors": ["wilson/wcxf/classes.py: WC.translate, WC.match, Translator.translate, Matcher.match"]}
{"id": "C03", "title": "validate accepts exactly the well-formed coefficient sets", "statement": "WC.validate raises nothing iff the EFT is registered, the basis is registered for that EFT, and every stored key is one of the coefficients of that basis; a missing EFT or basis gives ValueError, an unknown key AssertionError. Hence Wilson(...) construction succeeds exactly in that case.", "quantifier": "all WC objects and all EFT/basis registries", "why_tests_cant": "universally quantified over registries and key sets, both directions of an iff", "anchors": ["wilson/wcxf/classes.py: WC.validate", "wilson/classes.py: Wilson.__init__"]}
{"id": "C04", "title": "A child basis inherits its parent's sectors and a failed construction leaves no trace", "statement": "Creating a Basis with a registered parent yields, for each sector named in the child, the child's coefficients, for every other sector of the parent the parent's coefficients, and leaves the parent unchanged; creating a Basis whose parent is not registered raises ValueError and leaves the registry as it was.", "quantifier": "all registries, parents, children and sector tables", "why_tests_cant": "needs every registry history; the atomicity half is about the failure path", "anchors": ["wilson/wcxf/classes.py: Basis.__init__, NamedInstanceClass.__init__"]}
{"id": "C05", "title": "The registries behave like maps from names to the latest instance", "statement": "After any sequence of creating, deleting and clearing named instances, looking up a name returns the last instance created under it since its last deletion, and fails with KeyError if there is none; the listing (known_bases / known_translators) contains exactly the live names that match, without duplicates.", "quantifier": "all finite histories of registry operations", "why_tests_cant": "quantifies over all operation sequences", "anchors": ["wilson/wcxf/classes.py: NamedInstanceClass, EFT.known_bases, EFT.known_translators, Basis.known_translators"]}
{"id": "C06", "title": "A basis passes structural validation iff its sectors are known and no coefficient is listed twice", "statement": "Basis.validate (apart from the LaTeX check) succeeds iff the EFT is registered, every sector is a sector of the EFT and no coefficient name occurs in two sectors; in that case all_wcs lists every coefficient exactly once and every coefficient belongs to exactly one sector.", "quantifier": "all bases and EFT registries", "why_tests_cant": "iff over unbounded tables", "anchors": ["wilson/wcxf/classes.py: Basis.validate, Basis.all_wcs"]}
{"id": "C07", "title": "dump followed by load gives back the same file object", "statement": "For every EFT, Basis or WC object, the dictionary written by dump contains exactly the public attributes, and constructing the class from that dictionary again gives an object with the same public attributes (for a basis with parent: the same effective sectors).", "quantifier": "all objects including arbitrary extra metadata attributes", "why_tests_cant": "unbounded attribute sets", "anchors": ["wilson/wcxf/classes.py: WCxf.dump, WCxf.load, WC.__init__, EFT.__init__, Basis.__init__"]}
{"id": "C08", "title": "match_run results do not depend on the history of earlier calls", "statement": "For a Wilson object, the coefficients returned by match_run(scale, eft, basis, sectors) are the same whatever match_run, set_option or clear_cache calls came before, as long as the options currently in force are the same: the cache is invisible.", "quantifier": "all finite histories of match_run / set_option / clear_cache calls and all requests", "why_tests_cant": "history property; the reachable cache states are unbounded", "anchors": ["wilson/classes.py: Wilson.match_run, _get_from_cache, _set_cache, clear_cache, ConfigurableClass.set_option"]}
{"id": "C09", "title": "Options are always valid and private to the instance", "statement": "After any sequence of set_option / set_default_option calls on any number of Wilson objects, get_option returns the value of the last successful set_option of that key on that object, or else the class default in force when the object was created; a value outside the schema, or an unknown key, raises an error and changes nothing; the value returned always satisfies the schema.", "quantifier": "all histories of instance creation, set_option, set_default_option over any number of instances", "why_tests_cant": "history and aliasing property", "anchors": ["wilson/classes.py: ConfigurableClass.set_default_option, set_option, get_option, Wilson._option_schema"]}
{"id": "C10", "title": "The deprecated parameter name delta is an exact alias of gamma", "statement": "Setting the option 'parameters' with a key 'delta' has the same effect on later results as setting it with 'gamma' instead, for every dictionary; a dictionary without 'delta' is left untouched.", "quantifier": "all parameter dictionaries", "why_tests_cant": "unbounded dictionaries, also those containing both names", "anchors": ["wilson/classes.py: ConfigurableClass.set_option, set_default_option"]}
{"id": "C11", "title": "The hash of a Wilson object changes when its options change", "statement": "Two Wilson objects that share the coefficients but differ in the value of an option have different hashes (assuming the tuple hash itself is injective), as documented.", "quantifier": "all option settings", "why_tests_cant": "claim over all pairs of option states", "anchors": ["wilson/classes.py: Wilson.__hash__"]}
{"id": "C12", "title": "match_run answers in the requested EFT, basis and scale, through the right thresholds", "statement": "Whenever match_run returns, the result has the requested eft, basis and scale (the input object itself if all three already agree); going from SMEFT to WET-3 matches exactly once each at the electroweak, mb and mc scales set in the options, in that order, WET to WET-4 exactly once at mb, and never matches upwards: a request from a lower to a higher EFT raises ValueError.", "quantifier": "all inputs, requests, option values and all behaviours of the running/matching/translation steps", "why_tests_cant": "covers all EFT pairs, scales and any translator/matcher behaviour", "anchors": ["wilson/classes.py: Wilson.match_run"]}
{"id": "C13", "title": "User parameters set on a Wilson object reach every step of match_run", "statement": "For every request, each translation, matching and running step carried out by match_run is given the parameters set by the user option 'parameters' (defaults where not set).", "quantifier": "all parameter settings and requests", "why_tests_cant": "universal over requests; a numeric test cannot see a default silently used", "anchors": ["wilson/classes.py: Wilson.match_run, Wilson.parameters, Wilson.matching_parameters", "wilson/run/wet/classes.py: WETrunner.__init__"]}
{"id": "C14", "title": "Symmetrization imposes exactly the operator's flavour symmetry", "statement": "For each symmetry class, the array returned by symmetrize satisfies all the index relations of the operator (hermiticity, exchange of identical currents, Fierz, (anti)symmetry), for every input array.", "quantifier": "all complex arrays of shape 3, 3x3 or 3x3x3x3 (i.e. every assignment of complex numbers to the entries), all symmetry classes", "why_tests_cant": "81 complex entries with hand-written index assignments; random tests can miss single wrong index pairs that they do not compare", "anchors": ["wilson/util/common.py: EFTutil.symmetrize_2, symmetrize_4, symmetrize_41, symmetrize_5, symmetrize_6, symmetrize_7, symmetrize_71, symmetrize_8, symmetrize_9, symmetrize"]}
{"id": "C15", "title": "Symmetrization keeps the non-redundant entries and is idempotent", "statement": "symmetrize does not change any entry belonging to the non-redundant basis (for entries declared real: up to dropping the imaginary part), leaves arrays that already have the symmetry unchanged, and applying it twice is the same as once.", "quantifier": "all complex arrays, all symmetry classes", "why_tests_cant": "as C14", "anchors": ["wilson/util/common.py: EFTutil.symmetrize, symmetrize_2..symmetrize_9"]}
{"id": "C16", "title": "Symmetry factors: symmetrize_nonred and arrays2wcxf_nonred are mutually inverse", "statement": "For each symmetry class, dividing by the symmetry factors and symmetrizing, then multiplying back and reading off the non-redundant entries, returns the original coefficients; and for an array with the full symmetry the opposite composition is the identity.", "quantifier": "all coefficient values, all symmetry classes", "why_tests_cant": "class 8 involves fractional linear combinations on 81 entries", "anchors": ["wilson/util/common.py: EFTutil.symmetrize_nonred, scale_8, unscale_8, unscale_dict, _get_scale_dict, arrays2wcxf_nonred, wcxf2arrays_symmetrized"]}
{"id": "C17", "title": "The effective Lagrangian is preserved by symmetrization with symmetry factors", "statement": "The symmetry factor of each entry is the number of entries related to it by the operator's symmetry without conjugation, so that the sum over all flavour indices of the symmetrized coefficients times any tensor with the operator's symmetry equals the sum over the non-redundant entries only (plus hermitian conjugates).", "quantifier": "all index quadruples and all tensors with the symmetry", "why_tests_cant": "an identity between sums for all tensors", "anchors": ["wilson/util/common.py: EFTutil._get_scale_dict, symmetrize_nonred"]}
{"id": "C18", "title": "Flat arrays and coefficient dictionaries convert without loss", "statement": "C_dict2array followed by C_array2dict gives back the same dictionary, and conversely, for every dictionary holding all keys with the right shapes; the layout is the fixed key order, so two coefficients never overlap.", "quantifier": "all dictionaries of arrays / all flat arrays of the right length", "why_tests_cant": "position bookkeeping over thousands of slots", "anchors": ["wilson/util/common.py: EFTutil.C_array2dict, C_dict2array, pad_C, unpad_C"]}
{"id": "C19", "title": "wcxf2arrays and arrays2wcxf are inverse", "statement": "Turning a dictionary of labelled coefficients ('name_1213': value) into arrays and back returns every coefficient unchanged (other entries 0); distinct labels never collide.", "quantifier": "all label/value dictionaries with 1-based single-digit indices", "why_tests_cant": "string parsing for every label", "anchors": ["wilson/util/common.py: EFTutil.arrays2wcxf, wcxf2arrays"]}
{"id": "C20", "title": "JMS redundant keys are mapped to the basis key of the same operator", "statement": "symmetrize_JMS_dict maps every coefficient whose key is not in the basis to the key related to it by the operator's symmetry, conjugating or negating exactly when that relation does, and keeps basis keys unchanged; no coefficient is lost.", "quantifier": "all JMS operator names, indices and values", "why_tests_cant": "all index combinations and symmetry classes", "anchors": ["wilson/util/wet_jms.py: symmetrize_JMS_dict, C_symm_keys"]}
{"id": "C21", "title": "JMS arrays are completely filled with the symmetric values", "statement": "JMS_to_array returns, for every dictionary of non-redundant JMS coefficients, arrays that contain no undefined entries and satisfy the symmetry of each operator.", "quantifier": "all JMS coefficient dictionaries", "why_tests_cant": "as above", "anchors": ["wilson/util/wet_jms.py: JMS_to_array, _scalar2array, _symm_herm, _symm_current, _antisymm_12"]}
{"id": "C22", "title": "JMS symmetry factors are undone exactly", "statement": "unscale_dict_wet(scale_dict_wet(C)) == C and conversely for every dictionary of JMS arrays, and the factors are 1, 2 or 4 on every entry.", "quantifier": "all dictionaries of JMS arrays", "why_tests_cant": "all entries", "anchors": ["wilson/util/wet_jms.py: scale_dict_wet, unscale_dict_wet, _scale_dict"]}
{"id": "C23", "title": "Flavour rotations form a group action", "statement": "flavor_rotation with identity matrices is the identity; rotating by U and then by W equals rotating by U W; rotating by a unitary U and then by its inverse returns the original coefficients; a rotation preserves hermiticity and exchange symmetry of each coefficient tensor.", "quantifier": "all coefficient tensors and all 3x3 (unitary where stated) matrices", "why_tests_cant": "continuous group, 50+ operators each with its own index pattern", "anchors": ["wilson/util/smeft_warsaw.py: flavor_rotation", "wilson/run/smeft/classes.py: SMEFT._flavor_rotation"]}
{"id": "C24", "title": "Warsaw and Warsaw-up translations are inverse to each other", "statement": "Translating any set of SMEFT coefficients from Warsaw to Warsaw up and back returns the same coefficients, for every unitary CKM matrix.", "quantifier": "all coefficients, all unitary CKM matrices", "why_tests_cant": "numeric round trips only sample", "anchors": ["wilson/translate/smeft.py: warsaw_to_warsaw_up, warsaw_up_to_warsaw"]}
{"id": "C25", "title": "Higgs-Warsaw up and Warsaw up translations are inverse to each other", "statement": "Translating from the Higgs-Warsaw up basis to Warsaw up and back, and in the other direction, returns the same coefficients, for all electroweak input parameters for which both are defined and every unitary CKM matrix.", "quantifier": "all coefficients, all input parameters with g' != g", "why_tests_cant": "identity between rational functions of many variables", "anchors": ["wilson/translate/smeft_higgs.py: higgslike_to_warsaw_up, warsaw_up_to_higgslike"]}
{"id": "C26", "title": "JMS, Bern, flavio and FlavorKit translations are inverse to each other", "statement": "Translating coefficients from one of the bases JMS, Bern, flavio, FlavorKit to another and back is the identity on the coefficients both bases have, for every value of the coefficients and all real non-zero parameters; the direct translation between two of the bases agrees with the one via the third.", "quantifier": "all coefficient values, flavours and parameters with nonzero normalisation", "why_tests_cant": "identities with conjugation and rational mixing for every flavour combination", "anchors": ["wilson/translate/wet.py: JMS_to_Bern, Bern_to_JMS, JMS_to_flavio, flavio_to_JMS, Bern_to_flavio, flavio_to_Bern, FlavorKit_to_JMS, JMS_to_FlavorKit and the block functions they call", "wilson/wcxf/classes.py: Translator.translate"]}
{"id": "C27", "title": "WET translations are real-linear and map zero to zero", "statement": "Every WET translator is additive and homogeneous under real scaling in the coefficients, and all values of the translation of a coefficient set without non-zero entries are zero.", "quantifier": "all coefficient sets", "why_tests_cant": "linearity over all inputs", "anchors": ["wilson/translate/wet.py"]}
{"id": "C28", "title": "FormFlavor translation conjugates Delta F = 2 charm coefficients consistently and keeps each neutrino coefficient", "statement": "In the translation to FormFlavor each output coefficient of the sector 'cu' is built either only from conjugated or only from unconjugated inputs, the s-d neutrino coefficients are those of the s-d transition, photon dipoles are divided by e and gluon dipoles by g_s, and all other coefficients have their expected values.", "quantifier": "all coefficient values", "why_tests_cant": "a wrong conjugation is invisible for real inputs", "anchors": ["wilson/translate/wet.py: _BernI_to_FormFlavor_I, JMS_to_FormFlavor_lep, JMS_to_FormFlavor_chrom"]}
{"id": "C29", "title": "SMEFT beta functions respect flavour covariance", "statement": "Rotating the fields of an arbitrary parameter point by U(3)^5 and computing the beta functions gives the rotated beta functions of the original point.", "quantifier": "all parameter points and all unitary rotations", "why_tests_cant": "continuous symmetry over ~2500 complex parameters and ~60 beta functions; tests use a handful of points", "anchors": ["wilson/run/smeft/beta.py: beta"]}
{"id": "C30", "title": "SMEFT beta functions of dimension-6 coefficients are homogeneous and vanish in the SM", "statement": "If all higher-dimensional coefficients vanish, so do their beta functions (new physics is not generated by running), dimension-6 beta functions are linear in the dimension-6 coefficients at fixed SM parameters, and with new physics switched off the SM beta functions are those at zero coefficients and the others vanish.", "quantifier": "all SM parameters and coefficients", "why_tests_cant": "polynomial identities in thousands of variables", "anchors": ["wilson/run/smeft/beta.py: beta, beta_array"]}
{"id": "C31", "title": "SMEFT running preserves baryon and lepton number selection", "statement": "The beta functions of baryon-number-conserving coefficients do not depend on baryon-number-violating ones, and vice versa: each block evolves on its own.", "quantifier": "all parameter points", "why_tests_cant": "independence claim for all values", "anchors": ["wilson/run/smeft/beta.py: beta"]}
{"id": "C32", "title": "SMEFT beta functions preserve hermiticity and index symmetry of the coefficients", "statement": "If all coefficients satisfy the operator symmetries (hermiticity, exchange), then so do their beta functions, so running never leaves the physical parameter space.", "quantifier": "all symmetric parameter points", "why_tests_cant": "hundreds of einsum index strings", "anchors": ["wilson/run/smeft/beta.py: beta"]}
{"id": "C33", "title": "Leading-log running is the identity for equal scales, additive in the logarithm, and touches every coefficient", "statement": "smeft_evolve_leadinglog with scale_out = scale_in returns the input; the change is beta/(16 pi^2) log(scale_out/scale_in) for each parameter; the input dictionary is not modified.", "quantifier": "all parameter points and scales", "why_tests_cant": "all inputs", "anchors": ["wilson/run/smeft/rge.py: smeft_evolve_leadinglog"]}
{"id": "C34", "title": "WET running is linear, sector by sector, and neutral at zero distance", "statement": "Running in WET is linear in the coefficients; the coefficients of one sector never influence another; running to the same scale returns the coefficients unchanged; sectors without anomalous dimension do not run; running a-to-b-to-c in pure QCD equals running a-to-c.", "quantifier": "all coefficient sets, scales, options", "why_tests_cant": "linear maps over all inputs", "anchors": ["wilson/run/wet/rge.py: run_sector, getUs, getUe", "wilson/run/wet/classes.py: WETrunner.run"]}
{"id": "C35", "title": "Switching off QCD running leaves QED running in place", "statement": "With qcd_order=0 and qed_order=1, coefficients with a QED anomalous dimension still run.", "quantifier": "all coefficients, scales and parameters", "why_tests_cant": "a universally quantified statement about the evolution matrices", "anchors": ["wilson/run/wet/rge.py: run_sector, getUe"]}
{"id": "C36", "title": "Unchanged WET coefficients: only requested sectors and basis keys appear in the output", "statement": "The output of WETrunner.run(scale, sectors) contains only nonzero coefficients that belong to the JMS basis of the EFT and to one of the requested sectors, and for those it has the same values as running with sectors='all'.", "quantifier": "all coefficient sets and sector selections", "why_tests_cant": "all subsets of sectors", "anchors": ["wilson/run/wet/classes.py: WETrunner.run, _run_dict"]}
{"id": "C37", "title": "Threshold matching keeps exactly the coefficients of the lower theory", "statement": "Matching from WET to WET-4 to WET-3 keeps every coefficient whose name is in the lower basis with its value and removes all others; matching is idempotent and monotone, and two-step matching equals filtering by both bases.", "quantifier": "all coefficient sets and bases", "why_tests_cant": "all sets", "anchors": ["wilson/match/__init__.py"]}
{"id": "C38", "title": "No new physics in, no new physics out of SMEFT-WET matching", "statement": "At tree level and at one loop the matching contributions vanish if all SMEFT coefficients vanish, and the tree-level contribution is real-linear.", "quantifier": "all SM parameters", "why_tests_cant": "sum of hundreds of terms must cancel for all parameter values", "anchors": ["wilson/match/smeft.py: match_all", "wilson/match/smeft_tree.py", "wilson/match/smeft_loop.py"]}
{"id": "C39", "title": "The Higgs potential parameters and the physical vev and mass determine each other", "statement": "Whenever m2Lambda_to_vMh2 succeeds on the result of vMh2_to_m2Lambda(v, Mh2) it returns v and Mh2 again, and it succeeds under the stated positivity conditions; otherwise it raises ValueError.", "quantifier": "all real v, Mh2 and Wilson coefficients", "why_tests_cant": "real-analysis identity with square roots and branch choice", "anchors": ["wilson/run/smeft/smpar.py: m2Lambda_to_vMh2, vMh2_to_m2Lambda"]}
{"id": "C40", "title": "QCD parameter functions reject unphysical arguments before computing", "statement": "alpha_s, m_b, m_c and m_s raise ValueError for non-positive scales or flavour numbers outside their supported range, before calling the external running code; for the reference scale and flavour number they return the reference value unchanged.", "quantifier": "all scales and flavour numbers", "why_tests_cant": "all numbers", "anchors": ["wilson/util/qcd.py: _sane, alpha_s, m_b, m_c, m_s"]}
{"id": "C41", "title": "SMEFTsim cards determine the coefficients", "statement": "Two coefficient sets that differ in a coefficient supported by SMEFTsim produce different parameter cards.", "quantifier": "all pairs of coefficient sets", "why_tests_cant": "injectivity over all values, including signs and phases", "anchors": ["wilson/wcxf/converters/smeftsim.py: smeftsim_card_text"]}
{"id": "C42", "title": "DsixTools conversion is lossless", "statement": "Writing coefficients in the DsixTools SLHA format and reading them back returns the same coefficients for every non-redundant set.", "quantifier": "all coefficient sets", "why_tests_cant": "index bookkeeping for all operators", "anchors": ["wilson/wcxf/converters/dsixtools.py"]}
{"id": "C43", "title": "plotdata samples the requested interval", "statement": "RGsolution.plotdata returns x from the lower to the upper scale with the requested number of points, each y being the requested part of the solution at that x; run_continuous always builds it with scale_min < scale_max and rejects equal scales.", "quantifier": "all solutions, scales, numbers of steps", "why_tests_cant": "all functions and step counts", "anchors": ["wilson/classes.py: RGsolution.plotdata", "wilson/run/wet/classes.py: WETrunner.run_continuous", "wilson/run/smeft/classes.py: SMEFT.run_continuous"]}
{"id": "C44", "title": "beta_array has the layout of C_array2dict", "statement": "The flat array returned by beta.beta_array is ordered like smeftutil's flat arrays: reading it with C_array2dict gives every parameter its own beta function.", "quantifier": "all points with all parameters, newphys on or off", "why_tests_cant": "beta_array stacks the entries in the order in which beta() assigns them, C_array2dict uses the order of C_keys; agreement must hold for every parameter", "anchors": ["wilson/run/smeft/beta.py: beta_array", "wilson/run/smeft/rge.py: _smeft_evolve", "wilson/util/common.py: C_array2dict"]}
{"id": "C45", "title": "smeft_evolve integrates the RGE", "statement": "The right-hand side given to the ODE solver is beta/(16 pi^2) at the point represented by the flat real array; if the solver solves its equation, smeft_evolve's result is the endpoint at scale_out of a solution of 16 pi^2 dC/dlog(mu) = beta(C) starting from the input at scale_in; running to the same scale returns the input.", "quantifier": "all points, scales, layouts, solvers", "why_tests_cant": "a statement about all points and about derivatives of the solution", "anchors": ["wilson/run/smeft/rge.py: _smeft_evolve, smeft_evolve"]}
{"id": "C46", "title": "The Standard Model parameters read off an initialised SMEFT point are the ones put in", "statement": "smpar applied to the parameters computed by smeftpar (together with the Wilson coefficients) returns the input values of GF, alpha_e, alpha_s, Vus, Vub, Vcb, gamma, m_W, m_h and of all quark and charged-lepton masses, for any values of the Wilson coefficients; and the parameters in the Warsaw and Warsaw up bases are related by the CKM rotation of the quark doublet.", "quantifier": "all positive input parameters with distinct masses, all Wilson coefficients with nonvanishing field normalisations, both bases, all functions meeting the contracts of brentq, msvd, ckm_tree and phase", "why_tests_cant": "a statement about all coefficient values involving square roots, matrix decompositions unique only up to phases, and rephasing-invariant extraction", "anchors": ["wilson/run/smeft/smpar.py: smeftpar, smpar, get_gpbar"]}
{"id": "C47", "title": "QCD parameters are computed in the requested flavour scheme", "statement": "If rundec converts couplings and masses between n and n-1 flavours as documented, alpha_s(scale, f), m_b, m_c and m_s return the coupling and mass of the theory with f flavours at that scale: every intermediate conversion uses the coupling, mass and threshold of the matching number of flavours.", "quantifier": "all scales, supported flavour numbers, reference values, loop orders and idealised theories", "why_tests_cant": "a wrong threshold or flavour number changes the values only slightly", "anchors": ["wilson/util/qcd.py: alpha_s, m_b, m_c, m_s"]}
{"id": "C48", "title": "Composite matchers and translators equal the steps they are composed of", "statement": "Matching from Warsaw directly to flavio, EOS or Bern gives the same object as matching to JMS and translating; matching from Warsaw gives the same as translating to Warsaw up and matching; the translators Higgs-Warsaw up to Warsaw, Warsaw to Higgs-Warsaw up and FlavorKit to flavio equal the two-step translations.", "quantifier": "all coefficient sets, parameters and functions that do not distinguish a zero coefficient from an absent one", "why_tests_cant": "all coefficient sets; the object-level steps drop zero coefficients in between", "anchors": ["wilson/match/__init__.py", "wilson/translate/__init__.py"]}
{"id": "C49", "title": "WET evolution matrices solve the leading-order renormalisation group equations", "statement": "For a strong coupling running at one loop, the matrix returned by getUs solves dU/dt = alpha_s/(4 pi) A^T U with U=1 at the start, and the matrix returned by getUe solves dU/dt = alpha_s/(4 pi) A^T U + alpha_e/(4 pi) B^T Us with U=0 at the start, for the QCD and QED anomalous dimension matrices A and B of the class.", "quantifier": "all classes of operators, numbers of flavours, parameters, diagonalisable anomalous dimension matrices (degenerate eigenvalues and the resonance included) and coupling trajectories", "why_tests_cant": "a differential equation for all parameters; the degenerate and resonant branches of the QED kernel are rarely hit by tests", "anchors": ["wilson/run/wet/rge.py: getUs, getUe, admeig, get_permissible_wcs"]}
{"id": "C50", "title": "WET running does not depend on the eigenvectors numpy returns", "statement": "Order and normalisation of eigenvectors and the choice of basis within a degenerate eigenspace do not change the result of the running.", "quantifier": "all eigendecompositions of all anomalous dimension matrices, all inputs", "why_tests_cant": "a test sees only the decomposition of one LAPACK build", "anchors": ["wilson/run/wet/rge.py: admeig, getUs, getUe"]}
{"id": "C51", "title": "WET operators have their known one-loop QCD anomalous dimensions", "statement": "Under pure QCD running, vector (0), scalar (-8), tensor (8/3) semileptonic operators, leptonic operators (0) and baryon number violating operators (-4) are rescaled by eta^(gamma/(2 b0)) and do not mix; the three-gluon operators are rescaled by eta^((36-3 b0)/(2 b0)).", "quantifier": "all coefficients of all sectors, all numbers of flavours, couplings and inputs", "why_tests_cant": "a statement about every entry of 22 large tables and about all couplings", "anchors": ["wilson/run/wet/adm.py", "wilson/run/wet/rge.py: run_sector", "wilson/run/wet/definitions.py"]}
{"id": "C54", "title": "WET running never fails for physical parameters", "statement": "With positive couplings and masses WETrunner.run returns a result for every coefficient set, scale, order and selection of sectors.", "quantifier": "all coefficient sets, scales, orders, selections and bases", "why_tests_cant": "all inputs; requires consistency of the sector tables with the sizes of all matrices", "anchors": ["wilson/run/wet/classes.py: WETrunner.run", "wilson/run/wet/rge.py", "wilson/run/wet/adm.py", "wilson/run/wet/definitions.py"]}
{"id": "C55", "title": "Restricting a translation to sectors does not change the coefficients of these sectors", "statement": "JMS_to_flavio and flavio_to_JMS called with sectors return values of the full translation, for all coefficients of these sectors; translators to the other bases accept the same argument.", "quantifier": "all lists of sectors, coefficient values and parameters", "why_tests_cant": "2^117 combinations of sectors, all values", "anchors": ["wilson/translate/wet.py: JMS_to_flavio, flavio_to_JMS, JMS_to_Bern, JMS_to_EOS, JMS_to_FormFlavor", "wilson/util/wet_jms.py: JMS_to_array", "wilson/classes.py: match_run"]}
{"id": "C56", "title": "Tree-level SMEFT-WET matching agrees with the Lagrangian", "statement": "For every WET operator the matched coefficient is the one obtained from the SMEFT Lagrangian by inserting the vacuum expectation value and integrating out W and Z, to first order in the SMEFT coefficients; match_all returns these in the basis of the output with rotated down quarks and symmetry factors.", "quantifier": "all operators, flavour indices, coefficient values and electroweak parameters", "why_tests_cant": "72 operators with up to 81 entries each, continuous coefficients and parameters", "anchors": ["wilson/match/smeft_tree.py: match_all_array", "wilson/match/smeft.py: match_all"]}
{"id": "C57", "title": "Electroweak input parameters keep their meaning in the presence of new physics", "statement": "With vT and g1 as computed by the matching, the muon decay coefficient VnueLL_2112 equals -4GF/sqrt2 exactly and new physics does not contribute to it, m_W = g2 vT/2, m_Z is the Z mass including phiD and phiWB, and the electric charge is sqrt(4 pi alpha_e) up to second order in phiWB.", "quantifier": "all symmetric coefficient sets and parameters with positive masses and couplings", "why_tests_cant": "continuous coefficients and parameters", "anchors": ["wilson/match/smeft_tree.py: match_all_array", "wilson/match/smeft.py: match_all"]}
{"id": "C58", "title": "rotate_down changes the basis of left-handed down quarks only", "statement": "Every JMS operator is multiplied by the CKM matrix (conjugated for barred fields) once per left-handed down quark; operators without such a field are unchanged; the inverse unitary matrix undoes the rotation.", "quantifier": "all operators, coefficient values and matrices", "why_tests_cant": "hand-written index strings for 72 operators, continuous matrices", "anchors": ["wilson/util/wet_jms.py: rotate_down"]}
{"id": "C59", "title": "Matched WET coefficients have the symmetries of the JMS operators", "statement": "For SMEFT coefficients with the symmetries of the Warsaw basis all arrays of the tree-level matching obey the permutation and hermiticity relations of their WET operators.", "quantifier": "all symmetric coefficient sets, all operators and indices", "why_tests_cant": "continuous values, thousands of index relations", "anchors": ["wilson/match/smeft_tree.py: match_all_array", "wilson/util/wet_jms.py: symm_keys"]}
{"id": "C60", "title": "WET running with fewer flavours and dipole normalisation", "statement": "In WET-3 and WET-4 the running uses exactly the coefficients of each sector that exist in the lower theory, with the corresponding rows and columns of the anomalous dimension matrices; in all other cases all coefficients. Dipole coefficients are normalised with couplings and the mass of the heavier of the two fermions.", "quantifier": "all bases, sectors, numbers of flavours, parameters and pairs of generations", "why_tests_cant": "bases are external data; matrices of size up to 323; continuous parameters", "anchors": ["wilson/run/wet/rge.py: get_permissible_wcs, admeig, getUe, get_m, scale_C, run_sector", "wilson/run/wet/adm.py"]}
{"id": "C61", "title": "Warsaw mass translation diagonalises only what it claims", "statement": "The translation to the Warsaw mass basis multiplies the coefficient matrices of uphi, uG, uW and uB with the CKM matrix exactly as the translation to the Warsaw up basis does, replaces the Weinberg coefficients by the singular values of their symmetric matrix (which do not depend on the lepton basis), leaves everything else unchanged and, once zero values are dropped, produces only coefficients of the basis.", "quantifier": "all coefficient dictionaries of the Warsaw basis, all (unitary) CKM matrices, all lepton doublet rotations", "why_tests_cant": "continuous values and matrices; basis independence is a universal statement", "anchors": ["wilson/translate/smeft.py: smeft_toarray, smeft_fromarray, warsaw_to_warsawmass"]}
{"id": "C62", "title": "EOS conversion adds the new physics to the right parameters", "statement": "The EOS parameter dictionary has the names of the SM dictionary; for each coefficient the parameters Re{..} and Im{..} are the SM value plus its real and imaginary part, so that the coefficient can be recovered; charged-current parameters for a generic lepton are only written for lepton-universal coefficients, otherwise the conversion fails.", "quantifier": "all coefficient dictionaries, all SM dictionaries, all names", "why_tests_cant": "names and values range over infinite sets", "anchors": ["wilson/wcxf/converters/eos.py: get_sm_wcs, get_eos_np, wcxf2eos"]}
{"id": "C63", "title": "The SMEFT class returns one and the same basis whatever basis the parameters are in", "statement": "The rotation that the class SMEFT applies to its results is a unitary flavour rotation after which down-quark and charged-lepton masses are diagonal and ascending and the CKM matrix is in its standard form; two parameter points that differ by a flavour rotation give the same result up to one common quark phase and one phase per lepton generation (so pure quark operators are identical); a point that is already in this basis stays there.  The SM parameters that the class determines at the electroweak scale reproduce the input values, the Wilson coefficients are those of the input file, and wrong bases or methods are rejected.", "quantifier": "all parameter points, all unitary flavour rotations, all factorisations that meet the contract of the external functions", "why_tests_cant": "unitary matrices and coefficients form a continuum", "anchors": ["wilson/run/smeft/classes.py: SMEFT._rotate_defaultbasis, _set_initial_wcxf, _run_sm_scale_in, _get_sm_scale_in, run, get_smpar"]}
{"id": "C64", "title": "The one-loop matching onto the WET is covariant: fermion phases, units, operator symmetries", "statement": "The one-loop matching conditions are defined whenever the masses of W, Z, Higgs and top are positive and different; a change of the phases of the fermion fields that leaves the masses invariant (with the CKM matrix changed accordingly) changes every matched coefficient by the phase of its operator; in other units of mass every matched coefficient changes by the power of mass of its operator; and the matched coefficients have the hermiticity and exchange symmetries of the WET operators.  With loop_order=1 the matching result is tree level plus one loop minus the one loop contribution of the SM, and has these symmetries.", "quantifier": "all coefficients, masses, couplings, scales, CKM matrices, fermion phases and units of mass", "why_tests_cant": "1.7 MB of formulas with continuous arguments; a wrong index, a missing complex conjugation or a wrong power of a mass in one term shows up only for that term", "anchors": ["wilson/match/smeft_loop.py: _match_all_array, match_all_array", "wilson/match/smeft.py: match_all_array, match_all"]}
{"id": "C65", "title": "The matching conserves lepton flavour and baryon number", "statement": "If every SMEFT coefficient of an operator that violates a charge (lepton flavour, lepton number, baryon number) is zero, every matched WET coefficient of an operator that violates this charge is zero, at tree level and with loop_order=1, including the rotation to the mass basis of the down quarks.  At tree level and before the rotation this holds for any charges of the fermion fields, and the matching is covariant under all changes of the phases of the fields.", "quantifier": "all charges, all coefficients and parameters", "why_tests_cant": "tests can only look at a few points of a continuum of coefficients", "anchors": ["wilson/match/smeft.py: match_all, match_all_array", "wilson/match/smeft_tree.py: _match_all_array", "wilson/match/smeft_loop.py: _match_all_array", "wilson/match/smeft.py: rotate_down"]}
{"id": "C52", "title": "The WET translators preserve the Lagrangian", "statement": "The Lagrangian written with the Bern coefficients and the Bern operators (with all normalisations, CKM factors and implicit hermitian conjugates) equals the Lagrangian written with the translated JMS coefficients and the JMS operators, as a polynomial in the anticommuting components of the quark and lepton fields (spin, colour and flavour), including all Fierz identities; the same for flavio to JMS and JMS to Bern.  JMS to flavio preserves the Lagrangian apart from the semileptonic tensor operators, which it drops.  The index symmetries imposed on JMS coefficients are identities of the operators and the coefficients called real belong to the hermitian operators.", "quantifier": "all values of all coefficients, all admissible parameters, all monomials in the field components", "why_tests_cant": "unit tests check that a translation followed by its inverse gives back the input, which a wrong but invertible translation passes; the physical meaning of the coefficients is not in the code", "anchors": ["wilson/translate/wet.py: Bern_to_JMS, flavio_to_JMS, JMS_to_Bern, JMS_to_flavio, _Fierz*", "wilson/util/wet_jms.py: symmetrize"]}
{"id": "C53", "title": "The running in WET respects parity and CP", "statement": "QCD and QED conserve P and CP, so the running below the electroweak scale commutes with both.  CP: running the complex conjugate coefficients (with the sign of the CP-odd three-gluon coefficient flipped) gives the complex conjugate of the result; real coefficients stay real.  P: in every sector whose operators have mirror images (all except the charged currents and the three-quark operators with a neutrino), running the mirror image of a set of coefficients (left and right exchanged in each operator, with the complex conjugations this needs in the non-redundant basis) gives the mirror image of the result; every coefficient has exactly one mirror image in its sector.", "quantifier": "all sectors, all admissible numbers of flavours, all scales, orders in QCD and QED, coefficients, and SM parameters; for every external linear algebra that meets its contract", "why_tests_cant": "A test compares a few coefficients with reference numbers; one wrong entry in one of the anomalous dimension matrices (thousands of entries, typed in per sector) breaks the relation between two coefficients of one sector only.", "anchors": ["wilson/run/wet/rge.py:run_sector", "wilson/run/wet/rge.py:getUs", "wilson/run/wet/rge.py:getUe", "wilson/run/wet/rge.py:scale_C / unscale", "wilson/run/wet/adm.py:all functions", "wilson/data/run_wet_definitions_coeffs.json"]}
{"id": "C66", "title": "The anomalous dimension matrices of WET are those of one gluon or photon exchange", "statement": "The matrices in adm.py that mix the four-fermion coefficients are the one-loop QCD and QED anomalous dimensions: take the Lagrangian of a sector, let one gluon (or photon) be exchanged between any two of the fields, or close two fields to a loop that emits a gluon (or photon) ending in the current of any charged fermion; the result is the Lagrangian with the coefficients A^T C, for every C, with any number of active flavours.  The coefficients of the class inv, which are not evolved, are not renormalised.", "quantifier": "all sectors, those that violate baryon number included, QCD and QED, all numbers of flavours, all complex coefficients (real for the hermitian operators), all monomials in the fields", "why_tests_cant": "The matrices have thousands of entries typed in per sector and flavour structure; a test compares a few evolved coefficients with numbers from the same or another code.  Here every entry between four-fermion operators is derived from the operators (Dirac and colour algebra, Fierz identities, hermitian conjugation) and the Feynman rules.", "anchors": ["wilson/run/wet/adm.py:all functions adm_s_*, adm_e_*", "wilson/run/wet/rge.py:get_permissible_wcs", "wilson/run/wet/rge.py:admeig", "wilson/run/wet/definitions.py:classes", "wilson/data/run_wet_definitions_coeffs.json"]}
{"id": "C67", "title": "The command line tools deliver exactly what the library computes", "statement": "`wcxf translate` and `wcxf match` exit with 0 and write to the output exactly the JSON or YAML text of the set of coefficients that WC.translate / WC.match returns for the input file, and reading that text gives the set back; `wcxf convert` writes the same document in the other format; `wcxf validate` says 'Validation successful.' exactly for valid files; wcxf2eos, wcxf2smeftsim and wcxf2dsixtools convert only sets of coefficients that load and validate; no file other than the output is changed. When a command fails the exit status is not 0 and an existing output file is left alone.", "quantifier": "all commands and arguments, all contents of the file system and standard input, all registered EFTs, bases, translators and matchers, all converters", "why_tests_cant": "The tests run each command once on a good file; they cannot cover all inputs, failing translators, missing files and combinations of arguments, nor that all other files stay as they are.", "anchors": ["wilson/wcxf/cli.py:wcxf_cli", "wilson/wcxf/cli.py:convert", "wilson/wcxf/cli.py:translate", "wilson/wcxf/cli.py:match", "wilson/wcxf/cli.py:validate", "wilson/wcxf/cli.py:eos", "wilson/wcxf/cli.py:smeftsim", "wilson/wcxf/cli.py:wcxf2dsixtools", "wilson/wcxf/converters/yamljson.py:convert_json / convert_yaml", "wilson/wcxf/classes.py:WCxf.load / dump"]}
