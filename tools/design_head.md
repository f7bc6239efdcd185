# Formal model of wilson-eft/wilson in Rocq (Coq 8.16.1)

## 1. Approach

* Shallow, total Gallina functions mirror the Python functions branch by branch;
  exceptions are values (`res`, `Ok`/`Err`, `PyBase.v`).  Every definition cites
  the file and lines of `/repo` it models and states its simplifications.
* Numbers.  The code works with IEEE doubles/complexes.  The model works with an
  arbitrary *star field* `K` (commutative field of characteristic 0 with a
  conjugation and an imaginary unit, `Num.v`).  Where only field operations occur,
  theorems are proved for all such `K`; the Gaussian rationals `QI` are an executable,
  axiom-free instance used for examples and refutations.  Where the code calls
  `log`, `sqrt`, `exp`, powers or pi, the model uses the complex numbers `CR` over
  the standard library's reals (`RealC.v`).  **Rounding is not modelled.**
* Dictionaries are insertion-ordered association lists with Python's update
  semantics (`PyBase.v`).
* Large hand-written tables and formulas (symmetrize_N, the beta functions, the
  tree-level matching, the anomalous dimension matrices, the WET translators) are
  transcribed into Gallina data by scripts that read the text of `/repo`
  (`/verif/tools/gen_*.py`); the result is committed and readable next to the cited
  lines.  Claims over such tables are proved by reflection: a checker is proved
  sound for all values of the coefficients, and the kernel then runs it on the
  table (`vm_compute`).
* External code (scipy `solve_ivp`, `ckmutil`, `rundec`, `numpy.linalg.eig`, `svd`,
  `json`/`yaml`) appears as function arguments (oracles) of the model; any law
  required of it is an explicit hypothesis of the theorem.
* The WCxf basis files (git submodule `bases`) are absent from `/repo`: bases are
  parameters of the model; what is required of them is a hypothesis, met by an
  example basis built in the model.
* Where the code violates a property the theorem is named `..._refuted` and exhibits
  the witness; where only part is proved, `..._partial`.

File layout in `rocq/theories`: `XModel.v` (definitions mirroring the code), generated
data (`SymTables`, `BetaProg`, `AdmData`, `TrData`, `TrBlocks`, `TreeProg`),
`XSpec.v` (specification vocabulary independent of the model), `XProps.v` (the theorems
`Cnn_...` with `Print Assumptions` and non-vacuity examples); all other files contain
lemmas.  A reader who wants to check a claim reads `XProps.v`, the `XSpec.v` file it
imports and the `XModel.v` file.

## 2. Properties, models and proof methods

| id | model | proof method |
|----|-------|--------------|
| C01-C07 | wcxf/classes.py over dictionaries and a registry (`WcxfModel`) | induction on dictionaries and on histories of registrations; C04 atomicity refuted |
| C08-C13 | classes.py as a state machine over run/match/translate oracles (`WilsonModel`) | refinement to the semantics without cache, invariants over histories; refutations for C08, C09, C11, C13 |
| C14-C17 | symmetrize_N as generated assignment lists over arrays index -> K (`SymModel`, `SymTables`, `SymClass`) | symbolic evaluation + reflection |
| C18, C19 | dictionaries of arrays, flat arrays, labels (`EftModel`) | induction on layouts, string lemmas |
| C20-C22 | util/wet_jms.py (`JmsModel`) | per-class case analysis, arbitrary values |
| C23, C24 | util/smeft_warsaw.py, translate/smeft.py (`RotModel`) | finite sums in K, reflection of einsum strings |
| C25 | translate/smeft_higgs.py (`HiggsModel`) | field |
| C26-C28, C55 | translate/wet.py (`TrLang`, `TrBlocks`, `TrModel`) | symbolic evaluation to linear forms, comparison by the kernel |
| C29-C32 | run/smeft/beta.py (`BetaModel`, `BetaProg`) | normal forms of all monomials, typing under U(3)^5, reflection |
| C33, C44, C45 | run/smeft/rge.py (`RgeModel`) | algebra, solver contract |
| C34-C36, C49-C51, C54 | run/wet (`WetModel`, `AdmData`) | matrix algebra, real analysis (derivatives of powers), reflection on the matrices |
| C53 | the same, with mirror images specified in `ParSpec` | covariance of all matrices checked by reflection (certificate `ParData`, generated by tools/gen_par.py), uniqueness of the matrix functions |
| C66 | matrices of adm.py (`AdmData`), `adm_reduced`; one gluon or photon exchanged, penguins: `GammaSpec`, on the polynomials of `FermiSpec` | tables of the Dirac and colour algebra checked by reflection (`GammaTab`), dressed operators as combinations of operators (`GammaOps`), normal forms by Fierz identities (`GammaCanon`), row by row comparison (`GammaSect`), restriction to f flavours (`GammaRun`); operators that violate baryon number: `GammaBnvSpec`, `GammaBnv`, `GammaBnvSect` |
| C37, C48 | match/__init__.py, translate/__init__.py (`RegModel`) | dictionary filters, composition |
| C38, C56-C59 | match/smeft.py, match/smeft_tree.py, rotate_down (`TreeModel`, `TreeProg`) | evaluator for single entries, field, reflection, real analysis |
| C64, C65 | match/smeft_loop.py (`LoopModel`, `LoopData`), phases in smeft_tree.py (`TreePhase`) | type systems for phases, dimensions and index symmetries, checked once by reflection and proved sound |
| C52 | operators of the JMS, Bern and flavio bases as polynomials in anticommuting fields (`FermiSpec`: spec, independent of the code), translators of `TrModel` | normal forms of Grassmann monomials, renaming of flavours, memoised check of all coefficients, proved sound |
| C39, C46 | run/smeft/smpar.py (`SmparModel`) | real analysis, uniqueness of the singular value decomposition |
| C61 | translate/smeft.py: warsaw_to_warsawmass (`MassModel`) | dictionaries as arrays, uniqueness of singular values |
| C62 | converters/eos.py (`EosModel`) | induction over strings and dictionaries |
| C63 | run/smeft/classes.py (`SmeftModel`) | matrix algebra over C, uniqueness of the singular value decomposition, rigidity of the standard CKM form |
| C41 | converters/smeftsim.py: smeftsim_card_fill (`SimModel`) | the lines of the card, generated into `SimData`, are compared with the list of coefficients; modulus and argument determine a complex number |
| C42 | converters/dsixtools.py: LHA blocks, SMEFTio (`DsixModel`) | line-by-line invariants of the written blocks, symmetry uniqueness (C14, C15) |
| C40, C47 | util/qcd.py with rundec oracle (`QcdModel`) | case analysis |
| C43 | RGsolution, run_continuous (`PlotModel`) | list/real lemmas |

## 3. What is modelled and what is not

| file in /repo/wilson | modelled | not modelled / simplified |
|---|---|---|
| wcxf/classes.py | WCxf, WC, Basis, EFT, Translator, Matcher, registries, validate, dump/load on attribute dictionaries | text encoding by json/yaml, pandas `df`, LaTeX checks of metadata |
| classes.py | ConfigurableClass options, Wilson constructors, match_run with cache, get_wcxf, RGsolution | voluptuous schema objects (their decision is a function), matplotlib |
| util/common.py | EFTutil completely: symmetrize_N, unscale, padding, wcxf<->arrays, flat arrays | `flavio` style LaTeX; construction of numpy dtype |
| util/wet_jms.py | get_missing/related/filled wcs, JMS_to_array, symmetrize, scale/unscale, rotate_down | |
| util/smeft_warsaw.py | flavor_rotation | |
| util/qcd.py | alpha_s, m_b, m_c, m_s, mass helpers | `rundec` (oracle), lru caches |
| translate/smeft.py | completely (`RotModel`, `MassModel`) | ckmutil (oracle) |
| translate/smeft_higgs.py | both directions completely | |
| translate/wet.py | all block functions and final dictionaries | ckmutil (parameter), the numerical defaults of parameters |
| translate/__init__.py, match/__init__.py | all registered translators and matchers | |
| match/smeft.py, match/smeft_tree.py | completely | |
| match/smeft_loop.py | completely (`LoopModel`, `LoopData`, C64, C65); the formulas are generated by tools/gen_loop.py, functions of masses are written as products of powers and of sums of squares of masses | in C38 and C56 it is an arbitrary function |
| run/smeft/beta.py | completely (1800 lines of expressions) | caching of einsum paths |
| run/smeft/rge.py | completely; solve_ivp is an oracle | step size control |
| run/smeft/smpar.py | smeftpar, smpar, vMh2_to_m2Lambda and inverse | |
| run/wet/*.py | completely; numpy.linalg.eig/inv are oracles | |
| wcxf/converters/dsixtools.py | `DsixModel` (all but rotate_defaultbasis; the text layer pylha is external), tables generated in `DsixData` by tools/gen_dsix.py | |
| wcxf/converters/eos.py | `EosModel` (not the reading of files) | |
| run/smeft/classes.py | `SmeftModel`, `PlotModel` (run_continuous) | oracles for msvd, mtakfac, rephasings and the ODE solver |
| wcxf/converters/smeftsim.py | `SimModel` (initialize, card_fill; not the number format and smeftsim_card_text), lines generated in `SimData` by tools/gen_smeftsim.py | |
| wcxf/cli.py, wcxf/converters/yamljson.py | `CliModel`: all five commands, with files, standard streams and exit status (C67) | argparse itself apart from the opening of files, standard error, the texts of json/yaml/pylha (a parameter); the converters are arbitrary functions there |
| match/_smeft_old.py | | dead code |

## 4. Trusted base

* Coq's kernel (including its virtual machine, which evaluates the reflective checks;
  `coqchk` re-checks all of them without the virtual machine).
* The reading of the code recorded in the comments of the models, including
  the semantics of the numpy operations used (`NpModel.v`), and the scripts
  `tools/gen_*.py` (their output is ordinary Gallina data that can be compared with
  the source).
* Axioms: only those of Coq's standard library, listed below.  They enter through the
  real numbers (`sig_forall_dec`, `sig_not_dec`, `functional_extensionality_dep`) and
  through derivatives/continuity lemmas on the reals (`classic`).  No axiom, admitted
  lemma, section-less variable, functor or module type is defined in `/verif`.
* Contracts of external code are hypotheses of theorems, not axioms: `eig`/`inv` return an
  eigen-decomposition (WetSpec), `solve_ivp` returns samples of a solution (RgeModel),
  `svd` returns singular value decompositions (SmparProofs), `ckm_tree` returns a
  3x3 matrix (unitary where stated).

## 5. Print Assumptions of every theorem

Generated by `tools/assumptions.py`.

