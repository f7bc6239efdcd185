{
 "claims": [
  {
   "property": "C01",
   "status": "proved",
   "theorems": [
    "C01_values_roundtrip",
    "C01_encoding_shape",
    "C01_missing_is_zero"
   ],
   "note": ""
  },
  {
   "property": "C02",
   "status": "proved",
   "theorems": [
    "C02_translate",
    "C02_match",
    "C02_identity",
    "C02_errors"
   ],
   "note": ""
  },
  {
   "property": "C03",
   "status": "proved",
   "theorems": [
    "C03_validate",
    "C03_validate_value_error",
    "C03_validate_unknown_key",
    "C03_construct"
   ],
   "note": "C03_construct covers the Wilson constructor (coefficient side)."
  },
  {
   "property": "C04",
   "status": "partial",
   "theorems": [
    "C04_inheritance",
    "C04_parent_missing_error",
    "C04_failure_atomic_refuted"
   ],
   "note": "Inheritance and the ValueError are proved; the atomicity half is false of the code and is refuted (C04_failure_atomic_refuted)."
  },
  {
   "property": "C05",
   "status": "proved",
   "theorems": [
    "C05_registry_last_wins",
    "C05_known_bases",
    "C05_known_translators"
   ],
   "note": ""
  },
  {
   "property": "C06",
   "status": "proved",
   "theorems": [
    "C06_basis_validate"
   ],
   "note": "LaTeX string checks of metadata (none in the code path) not involved."
  },
  {
   "property": "C07",
   "status": "proved",
   "theorems": [
    "C07_wc_dump_load",
    "C07_eft_dump_load",
    "C07_basis_dump_load"
   ],
   "note": "JSON/YAML text encoding is not modelled: dump/load are modelled on the attribute dictionaries handed to json/yaml."
  },
  {
   "property": "C08",
   "status": "partial",
   "theorems": [
    "C08_cache_transparent_partial",
    "C08_cache_transparent_wet",
    "C08_cache_visible_refuted"
   ],
   "note": "Exact for input below the electroweak scale. For SMEFT input proved up to key order under three explicit hypotheses on the registered functions (dictionaries read by key, SMEFT translators ignore sectors, zero-distance WET evolution returns the matched coefficients); without the last one the statement is false (C08_cache_visible_refuted)."
  },
  {
   "property": "C09",
   "status": "partial",
   "theorems": [
    "C09_options_last_set",
    "C09_options_valid",
    "C09_rejected_changes_nothing",
    "C09_private_refuted"
   ],
   "note": "Proved for every history without in-place mutation of a returned option dictionary; with mutation privacy is false (C09_private_refuted). voluptuous.Coerce is an oracle on strings."
  },
  {
   "property": "C10",
   "status": "proved",
   "theorems": [
    "C10_delta_is_gamma",
    "C10_same_parameters",
    "C10_no_delta_untouched"
   ],
   "note": ""
  },
  {
   "property": "C11",
   "status": "partial",
   "theorems": [
    "C11_hash_ignores_options_refuted",
    "C11_hash_of_coefficients_partial"
   ],
   "note": "The property is false of the code: C11_hash_ignores_options_refuted proves the hash never changes when options change."
  },
  {
   "property": "C12",
   "status": "proved",
   "theorems": [
    "C12_requested_metadata_and_thresholds",
    "C12_never_upwards"
   ],
   "note": ""
  },
  {
   "property": "C13",
   "status": "partial",
   "theorems": [
    "C13_parameters_partial",
    "C13_every_step_refuted"
   ],
   "note": "Translations and matchings get the merged parameters except in SMEFT->SMEFT requests at another scale; running steps never do (C13_every_step_refuted)."
  },
  {
   "property": "C14",
   "status": "partial",
   "theorems": [
    "C14_dictionary",
    "C14_symmetrize_imposes_symmetry",
    "C14_symmetrize_nonred_imposes_symmetry",
    "C14_antisymmetric_partial",
    "C14_antisymmetric_zero_diagonal",
    "C14_antisymmetric_refuted"
   ],
   "note": "Proved for all classes except 71. Class 71: proved off the diagonal, and completely when the diagonal of the input vanishes; false otherwise since the code never clears a[i,i,k,l] (C14_antisymmetric_refuted). C14_dictionary: the same for EFTutil.symmetrize on dictionaries of any basis (2 or 3 generations, padding included)."
  },
  {
   "property": "C15",
   "status": "proved",
   "theorems": [
    "C15_basis_detected",
    "C15_keeps_nonredundant",
    "C15_fixes_symmetric",
    "C15_idempotent",
    "C15_nonredundant_determine",
    "C15_class_table",
    "C15_class_table_complete"
   ],
   "note": "All classes, 3-generation arrays (C15_*), and for dictionaries of any basis C14_dictionary (symmetric input is a fixed point) and C15_basis_detected (classes and shapes found whatever the order of the basis file)."
  },
  {
   "property": "C16",
   "status": "proved",
   "theorems": [
    "C16_coefficients_roundtrip",
    "C16_arrays_roundtrip",
    "C16_unscale_symmetrize_nonred",
    "C16_symmetrize_nonred_unscale"
   ],
   "note": "Array level for all classes; C16_coefficients_roundtrip and C16_arrays_roundtrip for whole dictionaries of any basis. The bases are parameters (bases submodule absent); the Warsaw and JMS operator lists are shown to satisfy the hypotheses."
  },
  {
   "property": "C17",
   "status": "partial",
   "theorems": [
    "C17_lagrangian_preserved",
    "C17_class9_refuted",
    "C17_factor_counts"
   ],
   "note": "Proved for all classes except 9, for which the code applies no symmetry factor and the claim is false (C17_class9_refuted)."
  },
  {
   "property": "C18",
   "status": "proved",
   "theorems": [
    "C18_array_roundtrip",
    "C18_short_array_rejected",
    "C18_dict_roundtrip",
    "C18_no_overlap"
   ],
   "note": "Numbers and arrays in e_shape order; dtype conversion not modelled."
  },
  {
   "property": "C19",
   "status": "proved",
   "theorems": [
    "C19_labels_distinct",
    "C19_wcxf_roundtrip",
    "C19_arrays_roundtrip"
   ],
   "note": "Labels with single-digit one-based indices inside the shape."
  },
  {
   "property": "C20",
   "status": "partial",
   "theorems": [
    "C20_keys_of_the_basis",
    "C20_same_tensor",
    "C20_nothing_lost_refuted"
   ],
   "note": "Proved for classes 4, 41, 5, 71 and unflavoured/basis keys. 'No coefficient is lost' is false: redundant keys of class 6 (VeeLL, VeeRR, VnunuLL) are dropped (C20_nothing_lost_refuted)."
  },
  {
   "property": "C21",
   "status": "partial",
   "theorems": [
    "C21_related_entries",
    "C21_symmetric_arrays",
    "C21_completely_filled_refuted",
    "C21_sectors"
   ],
   "note": "Proved for all operators except class 6, and for antisymmetric operators off the diagonal. Completeness is false for class 6 and antisymmetric diagonals, where nan remains (C21_completely_filled_refuted). Arrays have dimension 3; entries outside the shape of the operator (top quark) stay nan."
  },
  {
   "property": "C22",
   "status": "proved",
   "theorems": [
    "C22_factors",
    "C22_unscale_scale",
    "C22_scale_unscale"
   ],
   "note": ""
  },
  {
   "property": "C23",
   "status": "proved",
   "theorems": [
    "C23_rotation",
    "C23_identity",
    "C23_composition",
    "C23_inverse",
    "C23_symmetries",
    "C23_parameter_point"
   ],
   "note": "Any 3x3 matrices (unitary for the inverse), any subset of the coefficients; both util/smeft_warsaw.py flavor_rotation and SMEFT._flavor_rotation are modelled; einsum and @ are modelled with exact arithmetic."
  },
  {
   "property": "C24",
   "status": "proved",
   "theorems": [
    "C24_warsaw_roundtrip",
    "C24_warsaw_up_roundtrip",
    "C24_rotation"
   ],
   "note": "For smeftutil built from any basis file listing the Warsaw coefficients and any unitary matrix V (the value of ckmutil.ckm.ckm_tree, an oracle); coefficients declared real lose their imaginary part and zero coefficients are left out, as in C16."
  },
  {
   "property": "C25",
   "status": "proved",
   "theorems": [
    "C25_higgs_roundtrip_field",
    "C25_warsaw_roundtrip_field",
    "C25_parameters",
    "C25_higgs_roundtrip",
    "C25_warsaw_roundtrip"
   ],
   "note": ""
  },
  {
   "property": "C26",
   "status": "partial",
   "theorems": [
    "C26_Bern_JMS_Bern",
    "C26_JMS_Bern_JMS",
    "C26_flavio_JMS_flavio",
    "C26_JMS_flavio_JMS_partial",
    "C26_flavio_Bern_flavio_partial",
    "C26_Bern_flavio_Bern_partial",
    "C26_JMS_Bern_flavio",
    "C26_flavio_JMS_Bern",
    "C26_Bern_JMS_flavio",
    "C26_FlavorKit_JMS_FlavorKit",
    "C26_JMS_FlavorKit_JMS",
    "C26_WC_Bern_JMS_Bern",
    "C26_WC_flavio_JMS_flavio",
    "C26_tensors_lost_refuted",
    "C26_sd_lfv_lost_refuted",
    "C26_Bern_tensors_changed_refuted"
   ],
   "note": "Exact for Bern-JMS-Bern, JMS-Bern-JMS, flavio-JMS-flavio, FlavorKit-JMS-FlavorKit and for WC objects. False of the code in three places: the semileptonic tensors q q' l l' are set to zero on the way to flavio (C26_tensors_lost_refuted), flavio_to_Bern drops s -> d l l' with l <> l' (C26_sd_lfv_lost_refuted), Bern_to_flavio drops the coefficients 7, 7' of q q' l l' (C26_Bern_tensors_changed_refuted); the _partial theorems say exactly what comes back. Sectors=None."
  },
  {
   "property": "C27",
   "status": "proved",
   "theorems": [
    "C27_linear",
    "C27_linear_FlavorKit",
    "C27_zero"
   ],
   "note": "All ten translators with sectors=None; FlavorKit on its known keys (other keys raise)."
  },
  {
   "property": "C28",
   "status": "partial",
   "theorems": [
    "C28_FormFlavor_values_partial",
    "C28_charm_values",
    "C28_charm_refuted",
    "C28_sdnn_refuted",
    "C28_lepton_dipole_refuted"
   ],
   "note": "All other FormFlavor coefficients are as expected (C28_FormFlavor_values_partial). False of the code for the scalar and tensor coefficients of cucu (C28_charm_refuted), s -> d nu nu (C28_sdnn_refuted: the b-d coefficients are used, array index -1) and CAL of leptons (C28_lepton_dipole_refuted)."
  },
  {
   "property": "C29",
   "status": "partial",
   "theorems": [
    "C29_total",
    "C29_covariance_partial",
    "C29_dphi_rest",
    "C29_dphi_refuted"
   ],
   "note": "Proved for all 72 parameters except dphi, for all unitary rotations and all points. For dphi the claim is false of the code: the term -12 einsum('tprs,pt', quqd1, Gu Gu^dagger Gu) is not covariant (C29_dphi_refuted); the rest of dphi is (C29_dphi_rest)."
  },
  {
   "property": "C30",
   "status": "partial",
   "theorems": [
    "C30_linear",
    "C30_no_new_physics",
    "C30_newphys_off",
    "C30_newphys_off_refuted"
   ],
   "note": "Linearity, no generation of new physics and newphys=False proved. 'Switched off = zero coefficients' is false if the input has nonzero coefficients: the m2/HIGHSCALE^2 terms stay (C30_newphys_off_refuted)."
  },
  {
   "property": "C31",
   "status": "proved",
   "theorems": [
    "C31_blocks",
    "C31_which_blocks",
    "C31_no_bnv_generated"
   ],
   "note": "Blocks of equal baryon and lepton number, all points."
  },
  {
   "property": "C32",
   "status": "partial",
   "theorems": [
    "C32_symmetry_partial",
    "C32_hermiticity",
    "C32_qqql_partial",
    "C32_ee_exchange_refuted",
    "C32_qqql_refuted"
   ],
   "note": "Hermiticity relations and exchange symmetries of every operator except the ones named in C32_symmetry_partial; the Fierz symmetry of ee and the qqql relation with duql/qque present are not preserved by the code (C32_ee_exchange_refuted, C32_qqql_refuted)."
  },
  {
   "property": "C33",
   "status": "proved",
   "theorems": [
    "C33_leadinglog",
    "C33_equal_scales",
    "C33_additive",
    "C33_newphys_off",
    "C33_unknown_parameter"
   ],
   "note": "Over the complex numbers of Coq's Reals; includes that the input dictionary is not changed and that an unknown parameter raises KeyError."
  },
  {
   "property": "C34",
   "status": "partial",
   "theorems": [
    "C34_linear",
    "C34_sectors_independent",
    "C34_same_scale",
    "C34_no_anomalous_dimension",
    "C34_compose_partial",
    "C34_compose_refuted"
   ],
   "note": "Linearity, independence of sectors, zero distance and inert sectors are proved. Composition is proved for classes whose anomalous dimensions do not depend on masses (C34_compose_partial); where they do (mass ratios frozen at the input scale) it is false (C34_compose_refuted). np.linalg.eig/inv are oracles with contract adm_ok; run_continuous is not modelled."
  },
  {
   "property": "C35",
   "status": "partial",
   "theorems": [
    "C35_qcd0_switches_off_qed_refuted",
    "C35_qed_order_ignored_refuted",
    "C35_qed_runs_with_qcd"
   ],
   "note": "False of the code: with qcd_order=0 nothing runs (C35_qcd0_switches_off_qed_refuted) and qed_order is ignored (C35_qed_order_ignored_refuted). With QCD on the QED part does run (C35_qed_runs_with_qcd)."
  },
  {
   "property": "C36",
   "status": "proved",
   "theorems": [
    "C36_selected_sectors"
   ],
   "note": ""
  },
  {
   "property": "C37",
   "status": "proved",
   "theorems": [
    "C37_threshold",
    "C37_two_thresholds",
    "C37_linear",
    "C37_no_basis",
    "C37_nothing_else"
   ],
   "note": "The bases are the entries of the registry of bases (the bases submodule is absent from the repository)."
  },
  {
   "property": "C38",
   "status": "partial",
   "theorems": [
    "C38_zero",
    "C38_zero_total",
    "C38_linear_refuted"
   ],
   "note": "Vanishing is proved for match_all at tree level and for one loop with the one-loop formulas as an arbitrary function (C38_zero, C38_zero_total). The real-linear half is false of the code: vT depends on the coefficients and is not expanded (C38_linear_refuted); the first-order statement that does hold is C56_first_order."
  },
  {
   "property": "C39",
   "status": "partial",
   "theorems": [
    "C39_vacuum",
    "C39_potential",
    "C39_physical_roundtrip",
    "C39_potential_roundtrip",
    "C39_complete",
    "C39_small_phi",
    "C39_invalid_input",
    "C39_errors",
    "C39_roundtrip_refuted"
   ],
   "note": "Proved when the Higgs kinetic term stays positive (1 - 2 Ckin v^2 > 0) and Cphi is 0 or at least 1e-16 in absolute value; without that the claim is false of the code (C39_roundtrip_refuted: with a negative kinetic term the recovered vacuum differs; C39_small_phi: the recovered vacuum is 2 m2/Lambda for smaller nonzero Cphi). Real arithmetic, no rounding."
  },
  {
   "property": "C40",
   "status": "partial",
   "theorems": [
    "C40_rejected",
    "C40_rejected_positive_reference",
    "C40_only_value_error",
    "C40_unsupported_flavour",
    "C40_reference",
    "C40_nonzero",
    "C40_m_c_refuted",
    "C40_late_refuted"
   ],
   "note": "All guards proved, for all rational scales and flavour numbers. False of the code: m_c returns mcmc without looking at f or the sign when scale == mcmc (C40_m_c_refuted), and m_c/m_s reject f = 6 only after calling rundec (C40_late_refuted)."
  },
  {
   "property": "C41",
   "status": "partial",
   "theorems": [
    "C41_card_made",
    "C41_other_sets_refused",
    "C41_positions_distinct",
    "C41_card_determines",
    "C41_sign_refuted",
    "C41_card_contents",
    "C41_card_complete"
   ],
   "note": "Refuted as stated: for the 22 (set A) / 21 (set B) real coefficients in sign_lost only the absolute value is written (C41_sign_refuted). For all others the card determines the coefficient and Lambda (C41_card_determines, an equivalence). The rounding of the numbers to seven digits (.6e) and the text around the blocks are not modelled."
  },
  {
   "property": "C42",
   "status": "proved",
   "theorems": [
    "C42_wcxf_roundtrip",
    "C42_parameters_needed",
    "C42_high_scale",
    "C42_arrays_roundtrip",
    "C42_parameters_roundtrip",
    "C42_dimensionless_arrays",
    "C42_scale_refuted",
    "C42_symmetry_factor_refuted"
   ],
   "note": "The coefficients come back whenever a file of Standard Model parameters is read with them; wcxf2dsixtools does not write the parameters (C42_parameters_needed). With another high scale the returned scale is the high scale (C42_scale_refuted), and the arrays carry no symmetry factors (C42_symmetry_factor_refuted). The text layer (pylha) is external."
  },
  {
   "property": "C43",
   "status": "proved",
   "theorems": [
    "C43_plotdata",
    "C43_single_step",
    "C43_errors",
    "C43_run_continuous",
    "C43_wet_plot",
    "C43_smeft_plot"
   ],
   "note": "Two or more steps; with one step only the lower scale is sampled (C43_single_step). Real arithmetic; np.linspace, np.logspace and np.vectorize are modelled."
  },
  {
   "property": "C44",
   "status": "proved",
   "theorems": [
    "C44_layout",
    "C44_order_needed"
   ],
   "note": "For every layout with the parameters in the order of smeftutil; C44_order_needed shows that the order matters."
  },
  {
   "property": "C45",
   "status": "proved",
   "theorems": [
    "C45_rhs",
    "C45_same_scale",
    "C45_solves"
   ],
   "note": "scipy's solve_ivp is an oracle: C45_solves assumes that it returns a solution of the equation it is given."
  },
  {
   "property": "C46",
   "status": "proved",
   "theorems": [
    "C46_any_flavour_basis",
    "C46_extraction",
    "C46_bases_agree"
   ],
   "note": "brentq, msvd, ckm_tree and cmath.phase are oracles with the contracts stated in SmparProps.v; C39's positivity condition is assumed. m_Z is a prediction and is not compared. Real arithmetic, no rounding. C46_any_flavour_basis: the inputs are returned from every unitary flavour basis."
  },
  {
   "property": "C47",
   "status": "partial",
   "theorems": [
    "C47_alpha_s",
    "C47_masses",
    "C47_m_c_refuted"
   ],
   "note": "rundec is an oracle with the contract rundec_ok/mass_ok. False of the code for m_c at scale == mcmc with f other than 4, where the four-flavour mass is returned (C47_m_c_refuted); proved otherwise."
  },
  {
   "property": "C48",
   "status": "proved",
   "theorems": [
    "C48_match_then_translate",
    "C48_translate_then_match",
    "C48_composite_translators",
    "C48_elementary_translators",
    "C48_no_other_translators"
   ],
   "note": "The functions called are arguments; the theorems assume that they do not distinguish zero from absent coefficients (hypothesis blind)."
  },
  {
   "property": "C49",
   "status": "proved",
   "theorems": [
    "C49_evolution_solves_rge"
   ],
   "note": "The anomalous dimension matrices are transcribed from adm.py by tools/gen_adm.py; np.linalg is an oracle with contract adm_ok."
  },
  {
   "property": "C50",
   "status": "proved",
   "theorems": [
    "C50_independent_of_eigenvectors"
   ],
   "note": ""
  },
  {
   "property": "C51",
   "status": "partial",
   "theorems": [
    "C51_qcd_scaling",
    "C51_three_gluon_scaling",
    "C51_three_gluon_refuted"
   ],
   "note": "Proved for all current-current, scalar, tensor, leptonic and baryon number violating coefficients; false for the three-gluon operators, whose diagonal entry misses -b0 (C51_three_gluon_refuted)."
  },
  {
   "property": "C54",
   "status": "proved",
   "theorems": [
    "C54_total",
    "C54_total_five_flavours"
   ],
   "note": "For f<5 the JMS basis of the EFT has to list the sectors (hypothesis); for f=5 no such hypothesis is needed. The running of the parameters (running f scale) is an input."
  },
  {
   "property": "C55",
   "status": "partial",
   "theorems": [
    "C55_JMS_to_flavio",
    "C55_flavio_to_JMS",
    "C55_other_bases_refuted"
   ],
   "note": "Proved for JMS_to_flavio and flavio_to_JMS and every list of sectors of the table in definitions.py (sectors_ok: the basis has these sectors). False for JMS_to_Bern, JMS_to_EOS and JMS_to_FormFlavor, which fail when sectors without sbsb are given (C55_other_bases_refuted)."
  },
  {
   "property": "C56",
   "status": "proved",
   "theorems": [
    "C56_first_order",
    "C56_baryon_number",
    "C56_match_all"
   ],
   "note": ""
  },
  {
   "property": "C57",
   "status": "proved",
   "theorems": [
    "C57_inputs",
    "C57_fermi_constant",
    "C57_electric_charge"
   ],
   "note": ""
  },
  {
   "property": "C58",
   "status": "proved",
   "theorems": [
    "C58_rotation",
    "C58_other_fields",
    "C58_inverse"
   ],
   "note": ""
  },
  {
   "property": "C59",
   "status": "proved",
   "theorems": [
    "C59_symmetries"
   ],
   "note": ""
  },
  {
   "property": "C60",
   "status": "proved",
   "theorems": [
    "C60_coefficients_kept",
    "C60_all_coefficients",
    "C60_restricted_matrices",
    "C60_dipole_normalisation",
    "C60_number_of_flavours"
   ],
   "note": ""
  },
  {
   "property": "C61",
   "status": "proved",
   "theorems": [
    "C61_translation",
    "C61_agrees_with_warsaw_up",
    "C61_neutrino_masses"
   ],
   "note": "The CKM matrix and the singular values are oracles (ckmutil); the masses theorem assumes the contract of msvd at the two matrices concerned."
  },
  {
   "property": "C62",
   "status": "partial",
   "theorems": [
    "C62_structure",
    "C62_real_and_imaginary_part",
    "C62_charged_currents",
    "C62_tau_universality_refuted",
    "C62_sm_values"
   ],
   "note": "Universality is refuted for the tau: only electron and muon are compared (C62_tau_universality_refuted). The rest is proved. File access is not modelled; regular expression and string replacement are modelled."
  },
  {
   "property": "C63",
   "status": "proved",
   "theorems": [
    "C63_default_basis",
    "C63_basis_independence",
    "C63_default_form_kept",
    "C63_sm_run_up",
    "C63_run_result",
    "C63_two_passes",
    "C63_input_errors",
    "C63_initial_values",
    "C63_smpar_consistent"
   ],
   "note": "msvd, mtakfac and the rephasings of ckmutil are oracles; their contracts are required at the mass matrices of the point. Masses must be different and nonzero for uniqueness. The statement about the electroweak scale is for Wilson coefficients given at 91.1876 GeV with vanishing uphi, dphi and ephi (for the others the SM parameters are rotated with a fixed v and the coefficients are not rotated along)."
  },
  {
   "property": "C64",
   "status": "proved",
   "theorems": [
    "C64_total",
    "C64_phases",
    "C64_units",
    "C64_symmetries",
    "C64_match"
   ],
   "note": "All formulas of smeft_loop.py are in LoopData.v (generated by tools/gen_loop.py). The functions of the masses are in a normal form: products of powers and of sums of squares of masses. No defect was found in the formulas."
  },
  {
   "property": "C65",
   "status": "proved",
   "theorems": [
    "C65_tree_phases",
    "C65_tree_charges",
    "C65_loop_charges",
    "C65_match_all"
   ],
   "note": ""
  },
  {
   "property": "C52",
   "status": "partial",
   "theorems": [
    "C52_every_coefficient_has_one_operator",
    "C52_Bern_to_JMS",
    "C52_flavio_to_JMS",
    "C52_JMS_to_Bern",
    "C52_JMS_to_flavio_partial",
    "C52_symmetry_classes_are_operator_identities",
    "C52_real_coefficients",
    "C52_JMS_to_flavio_refuted"
   ],
   "note": "Bern->JMS, flavio->JMS and JMS->Bern are proved in full (1018 and 1639 coefficients, all values).  JMS->flavio is C52_JMS_to_flavio_partial: exact apart from the semileptonic tensor operators of flavour-changing quark transitions, which the code drops; C52_JMS_to_flavio_refuted exhibits a non-zero Lagrangian that becomes zero."
  },
  {
   "property": "C53",
   "status": "proved",
   "theorems": [
    "C53_cp",
    "C53_real_stays_real",
    "C53_parity",
    "C53_mirror_image_exists"
   ],
   "note": "The mirror image is specified in ParSpec from the operator definitions, independently of the matrices. ParData (generated) is only a certificate for the positions of the mirror images and is checked."
  },
  {
   "property": "C66",
   "status": "partial",
   "theorems": [
    "C66_one_loop",
    "C66_five_flavours",
    "C66_sb_real_partial",
    "C66_sb_refuted",
    "C66_inv",
    "C66_baryon_number",
    "C66_baryon_number_five_flavours",
    "C66_covered"
   ],
   "note": "The specification (GammaSpec) is written from the Feynman rules, on polynomials in anticommuting field components; it does not mention adm.py.  Proved for all sectors but sb for all complex coefficients (C66_one_loop, C66_five_flavours; the class inv in C66_inv), for sb with real coefficients (C66_sb_real_partial).  C66_sb_refuted: for complex coefficients the property fails in the sector sb, because its list of coefficients contains VddLL_1231 and VddRR_1231, which belong to b -> s while all others belong to s -> b; the matrix mixes C where it should mix C^*, so the CP violating part is evolved with the wrong sign.  The four classes that violate baryon number are in C66_baryon_number, with their operators defined in GammaBnvSpec.  Not covered: entries of the matrices that involve dipole or three-gluon coefficients (C66_covered says that nothing else is left out)."
  },
  {
   "property": "C67",
   "status": "partial",
   "theorems": [
    "C67_formats",
    "C67_translate",
    "C67_match",
    "C67_read_back",
    "C67_translate_same",
    "C67_translate_failure",
    "C67_no_translator",
    "C67_match_failure",
    "C67_no_matcher",
    "C67_missing_input",
    "C67_convert",
    "C67_convert_roundtrip",
    "C67_validate",
    "C67_validate_status_partial",
    "C67_only_output",
    "C67_eos",
    "C67_eos_exclusive",
    "C67_smeftsim",
    "C67_eos_success",
    "C67_eos_path",
    "C67_smeftsim_success",
    "C67_dsixtools2wcxf",
    "C67_wcxf2dsixtools",
    "C67_exit_status_refuted",
    "C67_convert_silent_refuted",
    "C67_failure_keeps_output_refuted",
    "C67_in_place_refuted"
   ],
   "note": "What the commands deliver when they succeed is proved.  Four expectations are refuted: the exit status is 0 for an unknown TYPE (the returned 1 is dropped, cli.py:79) and for every AttributeError, e.g. values given as a list (taken for a missing subcommand, cli.py:80); wcxf convert exits with 0 and writes nothing for an unknown format or an unparsable input; a failing command empties an existing output file (also EOSHOME/parameters/wcxf.yaml); converting a file in place destroys it.  The json/yaml/pylha texts are a parameter; reading back is proved for texts the library reads back.  C67_validate_status_partial: an invalid file gives exit status 1 except when the error is an AttributeError."
  }
 ]
}