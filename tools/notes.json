{
 "C04": {
  "status": "partial",
  "note": "Inheritance and the ValueError are proved; the atomicity half is false of the code and is refuted (C04_failure_atomic_refuted)."
 },
 "C06": {
  "note": "LaTeX string checks of metadata (none in the code path) not involved."
 },
 "C07": {
  "note": "JSON/YAML text encoding is not modelled: dump/load are modelled on the attribute dictionaries handed to json/yaml."
 },
 "C03": {
  "note": "C03_construct covers the Wilson constructor (coefficient side)."
 },
 "C08": {
  "status": "partial",
  "note": "Exact for input below the electroweak scale. For SMEFT input proved up to key order under three explicit hypotheses on the registered functions (dictionaries read by key, SMEFT translators ignore sectors, zero-distance WET evolution returns the matched coefficients); without the last one the statement is false (C08_cache_visible_refuted)."
 },
 "C09": {
  "status": "partial",
  "note": "Proved for every history without in-place mutation of a returned option dictionary; with mutation privacy is false (C09_private_refuted). voluptuous.Coerce is an oracle on strings."
 },
 "C11": {
  "status": "partial",
  "note": "The property is false of the code: C11_hash_ignores_options_refuted proves the hash never changes when options change."
 },
 "C13": {
  "status": "partial",
  "note": "Translations and matchings get the merged parameters except in SMEFT->SMEFT requests at another scale; running steps never do (C13_every_step_refuted)."
 },
 "C14": {
  "status": "partial",
  "note": "Proved for all classes except 71. Class 71: proved off the diagonal, and completely when the diagonal of the input vanishes; false otherwise since the code never clears a[i,i,k,l] (C14_antisymmetric_refuted). C14_dictionary: the same for EFTutil.symmetrize on dictionaries of any basis (2 or 3 generations, padding included)."
 },
 "C15": {
  "note": "All classes, 3-generation arrays (C15_*), and for dictionaries of any basis C14_dictionary (symmetric input is a fixed point) and C15_basis_detected (classes and shapes found whatever the order of the basis file)."
 },
 "C17": {
  "status": "partial",
  "note": "Proved for all classes except 9, for which the code applies no symmetry factor and the claim is false (C17_class9_refuted)."
 },
 "C18": {
  "note": "Numbers and arrays in e_shape order; dtype conversion not modelled."
 },
 "C19": {
  "note": "Labels with single-digit one-based indices inside the shape."
 },
 "C16": {
  "note": "Array level for all classes; C16_coefficients_roundtrip and C16_arrays_roundtrip for whole dictionaries of any basis. The bases are parameters (bases submodule absent); the Warsaw and JMS operator lists are shown to satisfy the hypotheses."
 },
 "C20": {
  "status": "partial",
  "note": "Proved for classes 4, 41, 5, 71 and unflavoured/basis keys. 'No coefficient is lost' is false: redundant keys of class 6 (VeeLL, VeeRR, VnunuLL) are dropped (C20_nothing_lost_refuted)."
 },
 "C21": {
  "status": "partial",
  "note": "Proved for all operators except class 6, and for antisymmetric operators off the diagonal. Completeness is false for class 6 and antisymmetric diagonals, where nan remains (C21_completely_filled_refuted). Arrays have dimension 3; entries outside the shape of the operator (top quark) stay nan."
 },
 "C29": {
  "status": "partial",
  "note": "Proved for all 72 parameters except dphi, for all unitary rotations and all points. For dphi the claim is false of the code: the term -12 einsum('tprs,pt', quqd1, Gu Gu^dagger Gu) is not covariant (C29_dphi_refuted); the rest of dphi is (C29_dphi_rest)."
 },
 "C30": {
  "status": "partial",
  "note": "Linearity, no generation of new physics and newphys=False proved. 'Switched off = zero coefficients' is false if the input has nonzero coefficients: the m2/HIGHSCALE^2 terms stay (C30_newphys_off_refuted)."
 },
 "C31": {
  "note": "Blocks of equal baryon and lepton number, all points."
 },
 "C32": {
  "status": "partial",
  "note": "Hermiticity relations and exchange symmetries of every operator except the ones named in C32_symmetry_partial; the Fierz symmetry of ee and the qqql relation with duql/qque present are not preserved by the code (C32_ee_exchange_refuted, C32_qqql_refuted)."
 },
 "C33": {
  "note": "Over the complex numbers of Coq's Reals; includes that the input dictionary is not changed and that an unknown parameter raises KeyError."
 },
 "C44": {
  "note": "For every layout with the parameters in the order of smeftutil; C44_order_needed shows that the order matters."
 },
 "C45": {
  "note": "scipy's solve_ivp is an oracle: C45_solves assumes that it returns a solution of the equation it is given."
 },
 "C23": {
  "note": "Any 3x3 matrices (unitary for the inverse), any subset of the coefficients; both util/smeft_warsaw.py flavor_rotation and SMEFT._flavor_rotation are modelled; einsum and @ are modelled with exact arithmetic."
 },
 "C24": {
  "note": "For smeftutil built from any basis file listing the Warsaw coefficients and any unitary matrix V (the value of ckmutil.ckm.ckm_tree, an oracle); coefficients declared real lose their imaginary part and zero coefficients are left out, as in C16."
 },
 "C39": {
  "status": "partial",
  "note": "Proved when the Higgs kinetic term stays positive (1 - 2 Ckin v^2 > 0) and Cphi is 0 or at least 1e-16 in absolute value; without that the claim is false of the code (C39_roundtrip_refuted: with a negative kinetic term the recovered vacuum differs; C39_small_phi: the recovered vacuum is 2 m2/Lambda for smaller nonzero Cphi). Real arithmetic, no rounding."
 },
 "C46": {
  "note": "brentq, msvd, ckm_tree and cmath.phase are oracles with the contracts stated in SmparProps.v; C39's positivity condition is assumed. m_Z is a prediction and is not compared. Real arithmetic, no rounding. C46_any_flavour_basis: the inputs are returned from every unitary flavour basis."
 },
 "C40": {
  "status": "partial",
  "note": "All guards proved, for all rational scales and flavour numbers. False of the code: m_c returns mcmc without looking at f or the sign when scale == mcmc (C40_m_c_refuted), and m_c/m_s reject f = 6 only after calling rundec (C40_late_refuted)."
 },
 "C47": {
  "status": "partial",
  "note": "rundec is an oracle with the contract rundec_ok/mass_ok. False of the code for m_c at scale == mcmc with f other than 4, where the four-flavour mass is returned (C47_m_c_refuted); proved otherwise."
 },
 "C48": {
  "note": "The functions called are arguments; the theorems assume that they do not distinguish zero from absent coefficients (hypothesis blind)."
 },
 "C37": {
  "note": "The bases are the entries of the registry of bases (the bases submodule is absent from the repository)."
 },
 "C43": {
  "note": "Two or more steps; with one step only the lower scale is sampled (C43_single_step). Real arithmetic; np.linspace, np.logspace and np.vectorize are modelled."
 },
 "C34": {
  "status": "partial",
  "note": "Linearity, independence of sectors, zero distance and inert sectors are proved. Composition is proved for classes whose anomalous dimensions do not depend on masses (C34_compose_partial); where they do (mass ratios frozen at the input scale) it is false (C34_compose_refuted). np.linalg.eig/inv are oracles with contract adm_ok; run_continuous is not modelled."
 },
 "C35": {
  "status": "partial",
  "note": "False of the code: with qcd_order=0 nothing runs (C35_qcd0_switches_off_qed_refuted) and qed_order is ignored (C35_qed_order_ignored_refuted). With QCD on the QED part does run (C35_qed_runs_with_qcd)."
 },
 "C49": {
  "note": "The anomalous dimension matrices are transcribed from adm.py by tools/gen_adm.py; np.linalg is an oracle with contract adm_ok."
 },
 "C51": {
  "status": "partial",
  "note": "Proved for all current-current, scalar, tensor, leptonic and baryon number violating coefficients; false for the three-gluon operators, whose diagonal entry misses -b0 (C51_three_gluon_refuted)."
 },
 "C54": {
  "note": "For f<5 the JMS basis of the EFT has to list the sectors (hypothesis); for f=5 no such hypothesis is needed. The running of the parameters (running f scale) is an input."
 },
 "C26": {
  "status": "partial",
  "note": "Exact for Bern-JMS-Bern, JMS-Bern-JMS, flavio-JMS-flavio, FlavorKit-JMS-FlavorKit and for WC objects. False of the code in three places: the semileptonic tensors q q' l l' are set to zero on the way to flavio (C26_tensors_lost_refuted), flavio_to_Bern drops s -> d l l' with l <> l' (C26_sd_lfv_lost_refuted), Bern_to_flavio drops the coefficients 7, 7' of q q' l l' (C26_Bern_tensors_changed_refuted); the _partial theorems say exactly what comes back. Sectors=None."
 },
 "C27": {
  "note": "All ten translators with sectors=None; FlavorKit on its known keys (other keys raise)."
 },
 "C28": {
  "status": "partial",
  "note": "All other FormFlavor coefficients are as expected (C28_FormFlavor_values_partial). False of the code for the scalar and tensor coefficients of cucu (C28_charm_refuted), s -> d nu nu (C28_sdnn_refuted: the b-d coefficients are used, array index -1) and CAL of leptons (C28_lepton_dipole_refuted)."
 },
 "C55": {
  "status": "partial",
  "note": "Proved for JMS_to_flavio and flavio_to_JMS and every list of sectors of the table in definitions.py (sectors_ok: the basis has these sectors). False for JMS_to_Bern, JMS_to_EOS and JMS_to_FormFlavor, which fail when sectors without sbsb are given (C55_other_bases_refuted)."
 },
 "C38": {
  "status": "partial",
  "note": "Vanishing is proved for match_all at tree level and for one loop with the one-loop formulas as an arbitrary function (C38_zero, C38_zero_total). The real-linear half is false of the code: vT depends on the coefficients and is not expanded (C38_linear_refuted); the first-order statement that does hold is C56_first_order."
 },
 "C42": {
  "note": "The coefficients come back whenever a file of Standard Model parameters is read with them; wcxf2dsixtools does not write the parameters (C42_parameters_needed). With another high scale the returned scale is the high scale (C42_scale_refuted), and the arrays carry no symmetry factors (C42_symmetry_factor_refuted). The text layer (pylha) is external."
 },
 "C41": {
  "note": "Refuted as stated: for the 22 (set A) / 21 (set B) real coefficients in sign_lost only the absolute value is written (C41_sign_refuted). For all others the card determines the coefficient and Lambda (C41_card_determines, an equivalence). The rounding of the numbers to seven digits (.6e) and the text around the blocks are not modelled.",
  "status": "partial"
 },
 "C61": {
  "note": "The CKM matrix and the singular values are oracles (ckmutil); the masses theorem assumes the contract of msvd at the two matrices concerned."
 },
 "C62": {
  "note": "Universality is refuted for the tau: only electron and muon are compared (C62_tau_universality_refuted). The rest is proved. File access is not modelled; regular expression and string replacement are modelled.",
  "status": "partial"
 },
 "C63": {
  "note": "msvd, mtakfac and the rephasings of ckmutil are oracles; their contracts are required at the mass matrices of the point. Masses must be different and nonzero for uniqueness. The statement about the electroweak scale is for Wilson coefficients given at 91.1876 GeV with vanishing uphi, dphi and ephi (for the others the SM parameters are rotated with a fixed v and the coefficients are not rotated along)."
 },
 "C64": {
  "note": "All formulas of smeft_loop.py are in LoopData.v (generated by tools/gen_loop.py). The functions of the masses are in a normal form: products of powers and of sums of squares of masses. No defect was found in the formulas."
 },
 "C65": {
  "note": ""
 },
 "C52": {
  "note": "Bern->JMS, flavio->JMS and JMS->Bern are proved in full (1018 and 1639 coefficients, all values).  JMS->flavio is C52_JMS_to_flavio_partial: exact apart from the semileptonic tensor operators of flavour-changing quark transitions, which the code drops; C52_JMS_to_flavio_refuted exhibits a non-zero Lagrangian that becomes zero.",
  "status": "partial"
 },
 "C53": {
  "note": "The mirror image is specified in ParSpec from the operator definitions, independently of the matrices. ParData (generated) is only a certificate for the positions of the mirror images and is checked.",
  "status": "proved"
 },
 "C66": {
  "note": "The specification (GammaSpec) is written from the Feynman rules, on polynomials in anticommuting field components; it does not mention adm.py.  Proved for all sectors but sb for all complex coefficients (C66_one_loop, C66_five_flavours; the class inv in C66_inv), for sb with real coefficients (C66_sb_real_partial).  C66_sb_refuted: for complex coefficients the property fails in the sector sb, because its list of coefficients contains VddLL_1231 and VddRR_1231, which belong to b -> s while all others belong to s -> b; the matrix mixes C where it should mix C^*, so the CP violating part is evolved with the wrong sign.  The four classes that violate baryon number are in C66_baryon_number, with their operators defined in GammaBnvSpec.  Not covered: entries of the matrices that involve dipole or three-gluon coefficients (C66_covered says that nothing else is left out).",
  "status": "partial"
 },
 "C67": {
  "note": "What the commands deliver when they succeed is proved.  Four expectations are refuted: the exit status is 0 for an unknown TYPE (the returned 1 is dropped, cli.py:79) and for every AttributeError, e.g. values given as a list (taken for a missing subcommand, cli.py:80); wcxf convert exits with 0 and writes nothing for an unknown format or an unparsable input; a failing command empties an existing output file (also EOSHOME/parameters/wcxf.yaml); converting a file in place destroys it.  The json/yaml/pylha texts are a parameter; reading back is proved for texts the library reads back.  C67_validate_status_partial: an invalid file gives exit status 1 except when the error is an AttributeError.",
  "status": "partial"
 }
}