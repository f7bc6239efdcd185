# Formal model of wilson-eft/wilson in Rocq (Coq 8.16.1)

## 1. Approach

* Shallow, total Gallina functions mirror the Python functions branch by branch;
  exceptions are values (`res`, `Ok`/`Err`, `PyBase.v`).  Every definition cites
  the file and lines of `/repo` it models and states its simplifications.
* Numbers.  The code works with IEEE doubles/complexes.  The model works with an
  arbitrary *star field* `K` (commutative field of characteristic 0 with a
  conjugation and an imaginary unit, `Num.v`).  Where only field operations occur,
  theorems are proved for all such `K`; the Gaussian rationals `QI` are an executable,
  axiom-free instance used for examples and refutations.  Where the code calls
  `log`, `sqrt`, `exp`, powers or pi, the model uses the complex numbers `CR` over
  the standard library's reals (`RealC.v`).  **Rounding is not modelled.**
* Dictionaries are insertion-ordered association lists with Python's update
  semantics (`PyBase.v`).
* Large hand-written tables and formulas (symmetrize_N, the beta functions, the
  tree-level matching, the anomalous dimension matrices, the WET translators) are
  transcribed into Gallina data by scripts that read the text of `/repo`
  (`/verif/tools/gen_*.py`); the result is committed and readable next to the cited
  lines.  Claims over such tables are proved by reflection: a checker is proved
  sound for all values of the coefficients, and the kernel then runs it on the
  table (`vm_compute`).
* External code (scipy `solve_ivp`, `ckmutil`, `rundec`, `numpy.linalg.eig`, `svd`,
  `json`/`yaml`) appears as function arguments (oracles) of the model; any law
  required of it is an explicit hypothesis of the theorem.
* The WCxf basis files (git submodule `bases`) are absent from `/repo`: bases are
  parameters of the model; what is required of them is a hypothesis, met by an
  example basis built in the model.
* Where the code violates a property the theorem is named `..._refuted` and exhibits
  the witness; where only part is proved, `..._partial`.

File layout in `rocq/theories`: `XModel.v` (definitions mirroring the code), generated
data (`SymTables`, `BetaProg`, `AdmData`, `TrData`, `TrBlocks`, `TreeProg`),
`XSpec.v` (specification vocabulary independent of the model), `XProps.v` (the theorems
`Cnn_...` with `Print Assumptions` and non-vacuity examples); all other files contain
lemmas.  A reader who wants to check a claim reads `XProps.v`, the `XSpec.v` file it
imports and the `XModel.v` file.

## 2. Properties, models and proof methods

| id | model | proof method |
|----|-------|--------------|
| C01-C07 | wcxf/classes.py over dictionaries and a registry (`WcxfModel`) | induction on dictionaries and on histories of registrations; C04 atomicity refuted |
| C08-C13 | classes.py as a state machine over run/match/translate oracles (`WilsonModel`) | refinement to the semantics without cache, invariants over histories; refutations for C08, C09, C11, C13 |
| C14-C17 | symmetrize_N as generated assignment lists over arrays index -> K (`SymModel`, `SymTables`, `SymClass`) | symbolic evaluation + reflection |
| C18, C19 | dictionaries of arrays, flat arrays, labels (`EftModel`) | induction on layouts, string lemmas |
| C20-C22 | util/wet_jms.py (`JmsModel`) | per-class case analysis, arbitrary values |
| C23, C24 | util/smeft_warsaw.py, translate/smeft.py (`RotModel`) | finite sums in K, reflection of einsum strings |
| C25 | translate/smeft_higgs.py (`HiggsModel`) | field |
| C26-C28, C55 | translate/wet.py (`TrLang`, `TrBlocks`, `TrModel`) | symbolic evaluation to linear forms, comparison by the kernel |
| C29-C32 | run/smeft/beta.py (`BetaModel`, `BetaProg`) | normal forms of all monomials, typing under U(3)^5, reflection |
| C33, C44, C45 | run/smeft/rge.py (`RgeModel`) | algebra, solver contract |
| C34-C36, C49-C51, C54 | run/wet (`WetModel`, `AdmData`) | matrix algebra, real analysis (derivatives of powers), reflection on the matrices |
| C53 | the same, with mirror images specified in `ParSpec` | covariance of all matrices checked by reflection (certificate `ParData`, generated by tools/gen_par.py), uniqueness of the matrix functions |
| C66 | matrices of adm.py (`AdmData`), `adm_reduced`; one gluon or photon exchanged, penguins: `GammaSpec`, on the polynomials of `FermiSpec` | tables of the Dirac and colour algebra checked by reflection (`GammaTab`), dressed operators as combinations of operators (`GammaOps`), normal forms by Fierz identities (`GammaCanon`), row by row comparison (`GammaSect`), restriction to f flavours (`GammaRun`); operators that violate baryon number: `GammaBnvSpec`, `GammaBnv`, `GammaBnvSect` |
| C37, C48 | match/__init__.py, translate/__init__.py (`RegModel`) | dictionary filters, composition |
| C38, C56-C59 | match/smeft.py, match/smeft_tree.py, rotate_down (`TreeModel`, `TreeProg`) | evaluator for single entries, field, reflection, real analysis |
| C64, C65 | match/smeft_loop.py (`LoopModel`, `LoopData`), phases in smeft_tree.py (`TreePhase`) | type systems for phases, dimensions and index symmetries, checked once by reflection and proved sound |
| C52 | operators of the JMS, Bern and flavio bases as polynomials in anticommuting fields (`FermiSpec`: spec, independent of the code), translators of `TrModel` | normal forms of Grassmann monomials, renaming of flavours, memoised check of all coefficients, proved sound |
| C39, C46 | run/smeft/smpar.py (`SmparModel`) | real analysis, uniqueness of the singular value decomposition |
| C61 | translate/smeft.py: warsaw_to_warsawmass (`MassModel`) | dictionaries as arrays, uniqueness of singular values |
| C62 | converters/eos.py (`EosModel`) | induction over strings and dictionaries |
| C63 | run/smeft/classes.py (`SmeftModel`) | matrix algebra over C, uniqueness of the singular value decomposition, rigidity of the standard CKM form |
| C41 | converters/smeftsim.py: smeftsim_card_fill (`SimModel`) | the lines of the card, generated into `SimData`, are compared with the list of coefficients; modulus and argument determine a complex number |
| C42 | converters/dsixtools.py: LHA blocks, SMEFTio (`DsixModel`) | line-by-line invariants of the written blocks, symmetry uniqueness (C14, C15) |
| C40, C47 | util/qcd.py with rundec oracle (`QcdModel`) | case analysis |
| C43 | RGsolution, run_continuous (`PlotModel`) | list/real lemmas |

## 3. What is modelled and what is not

| file in /repo/wilson | modelled | not modelled / simplified |
|---|---|---|
| wcxf/classes.py | WCxf, WC, Basis, EFT, Translator, Matcher, registries, validate, dump/load on attribute dictionaries | text encoding by json/yaml, pandas `df`, LaTeX checks of metadata |
| classes.py | ConfigurableClass options, Wilson constructors, match_run with cache, get_wcxf, RGsolution | voluptuous schema objects (their decision is a function), matplotlib |
| util/common.py | EFTutil completely: symmetrize_N, unscale, padding, wcxf<->arrays, flat arrays | `flavio` style LaTeX; construction of numpy dtype |
| util/wet_jms.py | get_missing/related/filled wcs, JMS_to_array, symmetrize, scale/unscale, rotate_down | |
| util/smeft_warsaw.py | flavor_rotation | |
| util/qcd.py | alpha_s, m_b, m_c, m_s, mass helpers | `rundec` (oracle), lru caches |
| translate/smeft.py | completely (`RotModel`, `MassModel`) | ckmutil (oracle) |
| translate/smeft_higgs.py | both directions completely | |
| translate/wet.py | all block functions and final dictionaries | ckmutil (parameter), the numerical defaults of parameters |
| translate/__init__.py, match/__init__.py | all registered translators and matchers | |
| match/smeft.py, match/smeft_tree.py | completely | |
| match/smeft_loop.py | completely (`LoopModel`, `LoopData`, C64, C65); the formulas are generated by tools/gen_loop.py, functions of masses are written as products of powers and of sums of squares of masses | in C38 and C56 it is an arbitrary function |
| run/smeft/beta.py | completely (1800 lines of expressions) | caching of einsum paths |
| run/smeft/rge.py | completely; solve_ivp is an oracle | step size control |
| run/smeft/smpar.py | smeftpar, smpar, vMh2_to_m2Lambda and inverse | |
| run/wet/*.py | completely; numpy.linalg.eig/inv are oracles | |
| wcxf/converters/dsixtools.py | `DsixModel` (all but rotate_defaultbasis; the text layer pylha is external), tables generated in `DsixData` by tools/gen_dsix.py | |
| wcxf/converters/eos.py | `EosModel` (not the reading of files) | |
| run/smeft/classes.py | `SmeftModel`, `PlotModel` (run_continuous) | oracles for msvd, mtakfac, rephasings and the ODE solver |
| wcxf/converters/smeftsim.py | `SimModel` (initialize, card_fill; not the number format and smeftsim_card_text), lines generated in `SimData` by tools/gen_smeftsim.py | |
| wcxf/cli.py, wcxf/converters/yamljson.py | `CliModel`: all five commands, with files, standard streams and exit status (C67) | argparse itself apart from the opening of files, standard error, the texts of json/yaml/pylha (a parameter); the converters are arbitrary functions there |
| match/_smeft_old.py | | dead code |

## 4. Trusted base

* Coq's kernel (including its virtual machine, which evaluates the reflective checks;
  `coqchk` re-checks all of them without the virtual machine).
* The reading of the code recorded in the comments of the models, including
  the semantics of the numpy operations used (`NpModel.v`), and the scripts
  `tools/gen_*.py` (their output is ordinary Gallina data that can be compared with
  the source).
* Axioms: only those of Coq's standard library, listed below.  They enter through the
  real numbers (`sig_forall_dec`, `sig_not_dec`, `functional_extensionality_dep`) and
  through derivatives/continuity lemmas on the reals (`classic`).  No axiom, admitted
  lemma, section-less variable, functor or module type is defined in `/verif`.
* Contracts of external code are hypotheses of theorems, not axioms: `eig`/`inv` return an
  eigen-decomposition (WetSpec), `solve_ivp` returns samples of a solution (RgeModel),
  `svd` returns singular value decompositions (SmparProofs), `ckm_tree` returns a
  3x3 matrix (unitary where stated).

## 5. Print Assumptions of every theorem

Generated by `tools/assumptions.py`.

* **No axioms** ("Closed under the global context") — 207 theorems:
  * BasisProps: C14_dictionary, C15_basis_detected, C16_coefficients_roundtrip, C16_arrays_roundtrip
  * BetaProps: C29_total, C29_covariance_partial, C29_dphi_rest, C29_dphi_refuted, C30_linear, C30_no_new_physics, C30_newphys_off, C30_newphys_off_refuted, C31_blocks, C31_which_blocks, C31_no_bnv_generated
  * BetaSymProps: C32_symmetry_partial, C32_hermiticity, C32_qqql_partial, C32_ee_exchange_refuted, C32_qqql_refuted
  * CliProps: C67_formats, C67_translate, C67_match, C67_read_back, C67_translate_same, C67_translate_failure, C67_no_translator, C67_match_failure, C67_no_matcher, C67_missing_input, C67_convert, C67_convert_roundtrip, C67_validate, C67_validate_status_partial, C67_only_output, C67_eos, C67_eos_exclusive, C67_smeftsim, C67_eos_success, C67_eos_path, C67_smeftsim_success, C67_dsixtools2wcxf, C67_wcxf2dsixtools, C67_exit_status_refuted, C67_convert_silent_refuted, C67_failure_keeps_output_refuted, C67_in_place_refuted
  * DsixProps: C42_wcxf_roundtrip, C42_parameters_needed, C42_high_scale, C42_arrays_roundtrip, C42_parameters_roundtrip, C42_dimensionless_arrays, C42_scale_refuted, C42_symmetry_factor_refuted
  * EftProps: C18_array_roundtrip, C18_short_array_rejected, C18_dict_roundtrip, C18_no_overlap, C19_labels_distinct, C19_wcxf_roundtrip, C19_arrays_roundtrip
  * EosProps: C62_structure, C62_real_and_imaginary_part, C62_charged_currents, C62_tau_universality_refuted, C62_sm_values
  * FermiProps: C52_every_coefficient_has_one_operator, C52_Bern_to_JMS, C52_flavio_to_JMS, C52_JMS_to_Bern, C52_JMS_to_flavio_partial, C52_symmetry_classes_are_operator_identities, C52_real_coefficients, C52_JMS_to_flavio_refuted
  * GammaProps: C66_covered
  * HiggsProps: C25_higgs_roundtrip_field, C25_warsaw_roundtrip_field
  * JmsProps: C20_keys_of_the_basis, C20_same_tensor, C20_nothing_lost_refuted, C21_related_entries, C21_symmetric_arrays, C21_completely_filled_refuted, C21_sectors, C22_factors, C22_unscale_scale, C22_scale_unscale
  * MassProps: C61_translation, C61_agrees_with_warsaw_up
  * QcdProps: C40_rejected, C40_rejected_positive_reference, C40_only_value_error, C40_unsupported_flavour, C40_reference, C40_nonzero, C40_m_c_refuted, C40_late_refuted, C47_alpha_s, C47_masses, C47_m_c_refuted
  * RegProps: C37_threshold, C37_two_thresholds, C37_linear, C37_no_basis, C37_nothing_else, C48_match_then_translate, C48_translate_then_match, C48_composite_translators, C48_elementary_translators, C48_no_other_translators
  * RgeProps: C44_layout, C44_order_needed
  * RotProps: C23_rotation, C23_identity, C23_composition, C23_inverse, C23_symmetries, C23_parameter_point
  * SymProps: C14_symmetrize_imposes_symmetry, C14_symmetrize_nonred_imposes_symmetry, C14_antisymmetric_partial, C14_antisymmetric_zero_diagonal, C14_antisymmetric_refuted, C15_keeps_nonredundant, C15_fixes_symmetric, C15_idempotent, C15_nonredundant_determine, C15_class_table, C15_class_table_complete, C16_unscale_symmetrize_nonred, C16_symmetrize_nonred_unscale, C17_lagrangian_preserved, C17_class9_refuted, C17_factor_counts
  * TrProps: C26_Bern_JMS_Bern, C26_JMS_Bern_JMS, C26_flavio_JMS_flavio, C26_JMS_flavio_JMS_partial, C26_flavio_Bern_flavio_partial, C26_Bern_flavio_Bern_partial, C26_JMS_Bern_flavio, C26_flavio_JMS_Bern, C26_Bern_JMS_flavio, C26_FlavorKit_JMS_FlavorKit, C26_JMS_FlavorKit_JMS, C26_WC_Bern_JMS_Bern, C26_WC_flavio_JMS_flavio, C26_tensors_lost_refuted, C26_sd_lfv_lost_refuted, C26_Bern_tensors_changed_refuted, C27_linear, C27_linear_FlavorKit, C27_zero, C28_FormFlavor_values_partial, C28_charm_values, C28_charm_refuted, C28_sdnn_refuted, C28_lepton_dipole_refuted
  * TrSectProps: C55_JMS_to_flavio, C55_flavio_to_JMS, C55_other_bases_refuted
  * TreeProps: C56_first_order, C56_baryon_number, C58_rotation, C58_other_fields, C58_inverse
  * UpProps: C24_warsaw_roundtrip, C24_warsaw_up_roundtrip, C24_rotation
  * WcxfProps: C01_values_roundtrip, C01_encoding_shape, C01_missing_is_zero, C02_translate, C02_match, C02_identity, C02_errors, C03_validate, C03_validate_value_error, C03_validate_unknown_key, C04_inheritance, C04_parent_missing_error, C04_failure_atomic_refuted, C05_registry_last_wins, C05_known_bases, C05_known_translators, C06_basis_validate, C07_wc_dump_load, C07_eft_dump_load, C07_basis_dump_load
  * WilsonProps: C03_construct, C08_cache_transparent_partial, C08_cache_transparent_wet, C08_cache_visible_refuted, C09_options_last_set, C09_options_valid, C09_rejected_changes_nothing, C09_private_refuted, C10_delta_is_gamma, C10_same_parameters, C10_no_delta_untouched, C11_hash_ignores_options_refuted, C11_hash_of_coefficients_partial, C12_requested_metadata_and_thresholds, C12_never_upwards, C13_parameters_partial, C13_every_step_refuted
* **functional_extensionality_dep, sig_forall_dec** — 15 theorems:
  * GammaProps: C66_one_loop, C66_five_flavours, C66_sb_real_partial, C66_sb_refuted, C66_inv, C66_baryon_number, C66_baryon_number_five_flavours
  * MassProps: C61_neutrino_masses
  * ParProps: C53_mirror_image_exists
  * PlotProps: C43_run_continuous
  * PotentialProps: C39_potential, C39_invalid_input
  * WetFlavProps: C60_coefficients_kept, C60_all_coefficients, C60_restricted_matrices
* **functional_extensionality_dep, sig_forall_dec, sig_not_dec** — 28 theorems:
  * HiggsProps: C25_parameters, C25_higgs_roundtrip, C25_warsaw_roundtrip
  * LoopProps: C65_tree_phases, C65_tree_charges
  * PotentialProps: C39_vacuum, C39_physical_roundtrip, C39_potential_roundtrip, C39_complete, C39_small_phi, C39_errors, C39_roundtrip_refuted
  * RgeProps: C45_rhs
  * SmeftProps: C63_default_basis, C63_basis_independence, C63_default_form_kept
  * SmparProps: C46_any_flavour_basis, C46_extraction, C46_bases_agree
  * TreeProps: C38_zero, C38_zero_total, C38_linear_refuted, C56_match_all, C57_inputs, C57_fermi_constant, C57_electric_charge, C59_symmetries
  * WetFlavProps: C60_dipole_normalisation
* **classic, functional_extensionality_dep, sig_forall_dec, sig_not_dec** — 53 theorems:
  * LoopProps: C64_total, C64_phases, C64_units, C64_symmetries, C64_match, C65_loop_charges, C65_match_all
  * ParProps: C53_cp, C53_real_stays_real, C53_parity
  * PlotProps: C43_plotdata, C43_single_step, C43_errors, C43_wet_plot, C43_smeft_plot
  * RgeProps: C33_leadinglog, C33_equal_scales, C33_additive, C33_newphys_off, C33_unknown_parameter, C45_same_scale, C45_solves
  * SimProps: C41_card_made, C41_other_sets_refused, C41_positions_distinct, C41_card_determines, C41_sign_refuted, C41_card_contents, C41_card_complete
  * SmeftRunProps: C63_sm_run_up, C63_run_result, C63_two_passes
  * SmeftSmProps: C63_input_errors, C63_initial_values, C63_smpar_consistent
  * WetFlavProps: C60_number_of_flavours
  * WetProps: C34_linear, C34_sectors_independent, C34_same_scale, C34_no_anomalous_dimension, C34_compose_partial, C34_compose_refuted, C35_qcd0_switches_off_qed_refuted, C35_qed_order_ignored_refuted, C35_qed_runs_with_qcd, C36_selected_sectors, C49_evolution_solves_rge, C50_independent_of_eigenvectors, C51_qcd_scaling, C51_three_gluon_scaling, C51_three_gluon_refuted, C54_total, C54_total_five_flavours
