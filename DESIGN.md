# Formal model of calkulate (v23.7.0) in Rocq

Source: `/repo` (mvdh7/calkulate at the pinned commit), read as text; never run.
Model and proofs: `/verif/rocq/theories` (logical name `Verif`), Coq 8.16.1, its standard library and, in five files (PropDrift.v, PropDilution64.v, PropMean64.v, PropOffset64.v and PropWindow64.v), Flocq.

## 1. Approach

Every function of calkulate that computes something is transcribed into a small total Gallina function
with a comment citing file and lines (section 7 lists them all). Python exceptions are values
(`res A := Ok a | Err e`), Python dicts are insertion-ordered association lists with string keys, numpy
arrays are lists, a DataFrame is a column list plus a list of row dicts, and everything dynamic
(kwargs, row cells) is a tagged value `val`.

*Numbers.* The model is polymorphic in a number type `T` with an operations record `Num T`
(`+ - * / exp log log10 10** sqrt **1.5 < <= == isnan isfinite round`, exact rational literals). Two instances:

* `XR` — the reals extended with `+inf`, `-inf` and `NaN` with IEEE-style special-case rules
  (unsigned zero, no rounding, no overflow). Analytical theorems are stated on it.
* `SFNum` — IEEE-754 binary64 from `Coq.Floats.SpecFloat`, with the transcendental functions as
  parameters. Used for bit-level statements (C43) and for witnesses that compute.

Theorems about control flow, settings, datasets, files and plots are stated for *every* `T` and every
`Num T` record, so they hold for real floating point as well.

*Externals are parameters, never axioms.* The environment record `env` holds the file system (path to
contents), Excel files, PyCO2SYS (`salts.assemble`, `equilibria.assemble`, `sys` of the salts) and the
least-squares optimiser; other oracles are arguments of the functions that use them: scipy's
`pchip_interpolate` (loss.py), `PyCO2SYS.sys` (simulate.py, classes.py), and the text of a dbs row's date.
Theorems quantify over all of them, or state what they need of them as a hypothesis
(e.g. "the interpolator passes through its knots").
The optimiser is an arbitrary deterministic *strategy*: a function from the history of evaluated
points and residuals to the next point, plus a choice of which evaluated point to return. The residual
function is run in a state (the `totals` dict that calkulate mutates), so "for every optimiser" is a
quantification over every sequence of evaluations the solver might make.

*Object identity.* Dicts and arrays are values in most files. `Heap.v` models `files.solve` with the
dict of totals and its arrays as heap cells, `copy` vs aliasing and in-place `+=` made explicit, for C86.

*Specifications.* `Spec*.v` files contain the textbook side (mass action, Nernst, OLS, means,
maximal blocks, which setting is in force, what a figure must show, ...) on plain reals and lists, written without
the helpers of the part of the model they judge. `Prop*.v` files contain the property theorems,
non-vacuity `Example`s and `Print Assumptions`.

*False properties.* Where the code violates a property the full statement is kept in
`properties.jsonl`, a `..._refuted` theorem gives a witness in the model, and a `..._partial` theorem
proves the part that is true. All properties with status `partial` are of this kind; the notes in MANIFEST.json say what is missing.

## 2. Files

| file | models |
|---|---|
| `Base.v` | exceptions, results, dicts, `val`, string helpers (lower/upper/prefix/split), pd.isnull |
| `Num.v`, `XR.v`, `SFNum.v` | number operations and the two instances |
| `Meta.v` | meta.py |
| `Density.v`, `Convert.v` | density.py; constants.py, default.py, convert.py |
| `Interface.v` | interface.py and the environment |
| `Simulate.v`, `SimTitration.v` | simulate.py: speciation; simulated titrations |
| `Lsq.v` | scipy.optimize.least_squares (strategy oracle), scipy.stats.linregress (formula), numpy mean/std/max |
| `Core.v` | core.py |
| `Text.v`, `Titrations.v` | decimal parsing/formatting; read/titrations.py |
| `Files.v` | files.py |
| `Dataset.v` | dataset.py on a DataFrame model |
| `Metadata.v` | read/metadata.py (dbs files) |
| `Loss.v` | loss.py |
| `Classes.v` | classes.py |
| `Attributes.v` | attribute access in classes.py (`__getattr__`), and the part of Python's copying protocol that uses it |
| `Heap.v` | core.add_titrant_totals and files.solve with object identities |
| `Plot.v` | plot/titration.py and plot/\_\_init\_\_.py: what is drawn, in data coordinates |
| `Spec*.v` | specifications |
| `*Proofs.v`, `*Lemmas.v`, `SimMono.v`, `Witness.v` | lemmas; a small titration that solves |
| `Prop*.v` | property theorems |

## 3. Plan per property

| id | what is modelled | how it is proved |
|---|---|---|
| C01-C03 | convert.emf_to_h/emf_to_pH/h_to_emf/pH_to_emf/f_to_demf0 on XR | exp/ln algebra on reals |
| C04 | get_dilution_factor | field arithmetic; induction over the list of additions |
| C05, C06, C07, C87 | dilute_totals*, add_titrant_totals on dicts | induction over the dict, field |
| C08 | totals_to_pyco2 + dilute_totals_pyco2 | refuted by witness (total_alpha); partial theorem for the other keys |
| C09-C11 | amount_units with val-typed settings | case analysis, field |
| C12-C14 | density functions with warnings as outputs | field, bounds by hand |
| C15-C17, C20, C24 | alkalinity_components | field on each branch |
| C18, C19 | alkalinity | monotonicity of each term; IVT |
| C21 | alkalinity with opt_pH_scale 1 vs 3 | exact difference computed; equality refuted by witness; equality proved when no sulfate |
| C22, C23, C92 | alkalinity on arbitrary dicts | dict lemmas; error characterisation; sum over the listed species |
| C25-C28 | gran_* and linregress | OLS on collinear data; list induction |
| C29 | solve_emf with gran_logic | refuted by witness: result independent of gran_logic after double; partial for double=False |
| C30-C34, C40, C45 | solve_pH, solve_pH_gran, calibration residuals | algebra over lists |
| C35-C39 | solve_emf over every strategy | unfolding + invariants of the optimiser run |
| C41-C44 | add_titrant_totals, _lsqfun_calibrate_*, least_squares with state | induction over optimiser history; SF witness; error witness |
| C46, C47, C83 | _get_kwargs_for, _backcompat | list/dict induction, permutation |
| C48-C59, C61 | dataset functions, Titration | induction over rows, dict equivalence; refutations by witness |
| C60 | calibrate then solve on the same file; a dataset whose batch has one good reference | the root of the calibration residual is the molinity at which solving returns the certified value; batch mean of one |
| C62-C64 | Titration | symbolic evaluation, NaN propagation; refutations by witness |
| C65-C71, C85 | text readers/writers on string contents | induction on strings/digits; refutations by witness |
| C72-C75, C91 | VINDTA names, dbs rows, dbs dates | injectivity of decimal printing, induction over rows |
| C76-C80, C90 | loss.py | induction over steps; affine dependence on k; refutations by witness for every shape-preserving interpolator |
| C81-C82 | simulate._titration with pyco2.sys as oracle | induction over steps |
| C84 | solve_emf with an empty window | refuted by witness, partial for pH modes |
| C86 | files.solve on a heap | frame conditions: every cell written was allocated by the call |
| C88, C93 | get_totals / get_k_constants / totals_ks / files.solve | dict algebra; C88 under an explicit "assemble keeps given entries" hypothesis, C93 for any PyCO2SYS |
| C89 | alkalinity_components, extra acids | refuted by witness |
| C94, C95 | solve_pH on two pH series / compositions | monotonicity of each alkalinity term, then of the mean over the used points |
| C96 | solve_pH, solve_pH_gran, gran_guesses under a permutation of the points | permutation invariance of masked sums; witness for the default Gran logic |
| C97 | the solvers with two titrants of equal product | each use of molinity occurs multiplied by normality |
| C98 | residuals of solve_emf | exact quadratic in the alkalinity; completing the square |
| C99, C100, C103 | plots of a Titration | which attributes exist for each mode; masks partition the points |
| C101, C102 | Gran plot, alkalinity plot | regression formulas; ratio of the two standard deviations |
| C104-C106 | dataset plots | partition of rows by flag and batch; batch means from C53; witness for the missing column |
| C107, C108 | get_dic_loss_hires, get_dic_loss | recurrence of the profile by induction; grid arithmetic; knots of the interpolator |
| C109 | solve_pH, solve_pH_gran, solve_emf | mask of the kept points commutes with the selection; the initial Gran regression fails on NaN |
| C110 | files.solve with and without titrant_total_* | the two loads agree; add_titrant_totals by induction over the dict |
| C111 | dataset.solve/calibrate against files.solve/calibrate | row equation, then the settings of the row are those of its own columns |
| C112 | read_dat for text files and PC-LIMS reports | splitting inverts joining for any delimiter; columns by induction over the lines |
| C113 | files.solve/calibrate on two file systems | both calls equal the call in a world with one file |
| C114 | solve_emf on exact readings of a sample with only k_water | a second perfect pair scales [H+] by q; q /= 1 makes every mass a root of one quadratic with nonzero leading coefficient; two-point counterexample |
| C115 | working table (assignments, solves, calibrations) against the untouched table with the same assignments | simulation invariant crel through prepare, calibrate_row, batch means and solve; refuted without a reference_good column |
| C116 | calibrate on a table and on its rows permuted | calibrate as one function applied to every row; batch means are invariant because addition on XR is commutative and associative |
| C117 | calibrate, then the results of a row whose batch has no references | the mean of no numbers is NaN (C53), and a row with a missing molinity is left blank (C52) |
| C118 | get_dilution_factor and dilute_totals on binary64 numbers | the model instantiated at SpecFloat; each operation is one correctly rounded operation (Flocq), and rounding is monotone |
| C119 | the residual function of solve_emf over the reals | eliminate the alkalinity (weighted mean), show the remaining function of EMF0 is continuous and grows without bound in both directions, take its minimum on an interval |
| C120 | H2SO4_25C_EAIM against the table in density_estimator.py | complete the square of the misfit (exact rationals); the claim about molinity is false: the table is by molality |
| C121 | files.solve and files.calibrate with volumes and with masses | two environments whose files hold volumes and the corresponding masses; the masses computed from the settings are the promised ones and nothing else reads those settings |
| C122 | files.solve in pH mode with titrant settings | run with and without titrant_normality=2, titrant_total_sulfate=1 on the same file; exactness from C30 with normality 2; strict inequality per point because less than all of the added sulfate takes up a proton |
| C123 | files.solve with arbitrary services | follow the constants through load and the solvers: they are read from the temperatures, the salinity and the composition settings only; point-by-point services give equal constants at equal temperatures |
| C124 | files.solve, files.calibrate and Dataset.solve with analyte_volume | rewrite the run with the mass into the run with the volume, the conversion being the only reader of both settings; the column is followed through a whole Dataset.solve |
| C125 | solve_pH and simulate.alkalinity over the extended reals | each contribution to the alkalinity is monotone and Lipschitz in the pH (its slope is at most ln 10 times a quarter of the total, by a mean value argument); sum, then average over the window |
| C126 | write_dat, read_dat, files.solve | C65 gives the readings to half a unit of the last decimal, C50 which solver runs, and the Lipschitz bound of C125 against the exact titration gives the distance to A |
| C127 | files.solve and files.calibrate in the two pH modes, arbitrary optimiser | the estimate of each point is affine in the molinity with slope m/M, so the mean is; a zero residual means the reference is solved at its certified value (C60), which fixes the difference of the molinities |
| C128 | dataset.calibrate on a whole table, pH and pH Gran modes, arbitrary optimiser that ends at residual zero | a zero residual means the reference is solved at its certified value (C60); the alkalinity depends strictly on the molinity (C127), so the molinity found is the true one; all references agree, so does their mean (C53); the rows report what files.solve gives (C111), which is exact (C30, C34) |
| C129 | core.solve_emf at any molinity and core.calibrate_emf without titrant totals, arbitrary optimiser, water-only chemistry | with q the ratio of fitted to true [H+], each perfect point gives a quadratic equation in the titrant mass; three masses make its coefficients zero; expanded about minus the sample mass this forces A + c n = 0 unless q = 1, and then two points give c' n' = c n and A' = A |
| C130 | get_VINDTA_filenames with int() of integers, floats and text | int() is shown to give the whole part of floats and the number of signed, zero-padded, blank-surrounded text; then as C72 |
| C131 | calibrate_row, solve_row, prepare | relation between tables that differ only in how the flags are written, kept by the preparation, by each row's result, by the batch means and by the write-back |
| C132 | files.solve in pH mode, totals_ks, dilute_totals | totals diluted with two masses are proportional at each point and the alkalinity model is linear in the totals, so everything but the titrant's share cancels; mean over the same points |
| C133 | the text readers, files.solve, files.calibrate | inductive relation between a text and its lines; every reader sees the text through its lines only; numpy's line splitter characterised on lines with spaces and comments |
| C134 | dataset.calibrate and solve with pH and pH-Gran mode | the response of a file to the molinity (C127), the exactness of the calibration (C60) and the mean of the batch (C53) give each offset; the references' indices are a permutation of the rows the mean is taken over |
| C135 | dataset.calibrate and solve_pH run in binary64 (SpecFloat) | invariant of the running sum (k terms, error at most k^2 ulp-halves of the largest), whole numbers below 2^53 exact, division with Flocq's error_N_FLT; C53 carries it to the table |
| C136 | dataset.calibrate on a table and on the same table with one flag changed | the two runs side by side: calibrate_row does not read reference_good, so the rows at the time the batches are formed differ in one flag; the references of the batch lose one element (lists), C53 gives the means |
| C137 | dataset.calibrate on a table and on the same table with one certified value changed | as C136: the two runs differ in one molinity of the batch; C111 ties the rows to files.calibrate and files.solve, C60 gives the certified value at the calibrated molinity and C127 the slope of alkalinity in molinity; C53 the means |
| C138 | dataset.calibrate on a table and on a selection of its rows | calibrate as three row-wise passes and a mean per batch (CalProofs); the selection commutes with the passes, and rows that took no part contribute nothing to the references of any batch |
| C139 | files.solve, files.calibrate, solve_row and calibrate_row; the defaults are a list copied from docs/metadata.md | follow an added keyword argument through every filter and every call that reads it; a service whose constants depend on the option refutes the default of opt_k_carbonic |
| C140 | calibrate and solve on stacked tables | a run is a map over rows apart from the batch means; the mean of a batch filters the rows by batch, and the filter drops every row of the other table |
| C141 | the columns of the Titration table at one point, over the extended reals | read the three columns off the run of do_CO2SYS and get_alkalinity_from_acid, then field arithmetic |
| C142 | results of solve_pH and solve_emf with an arbitrary optimiser | the residuals are the diluted distances of the estimates (C98); a best fit has no larger sum of squares than the mean of the estimates would have, and the variance is the least mean square |
| C143 | results of solve_pH | the alkalinity is the mean of the used estimates (C32); Cauchy-Schwarz on the other points, and Chebyshev's inequality by induction over the points |
| C144 | Attributes.v: Python's attribute lookup on an instance, __getattr__ with a recursion limit, and the copying protocol up to the question for __setstate__ | case analysis on the lookup; induction on the recursion limit for an instance without a row |
| C145 | Interrupt.v: the programs of Dataset.v once more, as writers that also list the caller's table after each assignment (each assignment to a column is taken to be atomic; the files and the optimiser answer as before when asked again) | each program refines a list of steps with declared footprints; no step undoes an earlier one, so every prefix is idempotent on the table it leaves; induction over the number of interruptions |
| C146 | PropCrashWrite.v: the files write_dat can leave behind, one for each beginning of the text it writes | induction on the lines for a beginning of a text; case analysis on the field in which the last line is cut |
| C147 | PropAppend.v: a sequence of write_dat calls with mode 'a' on the file system of Titrations.v | induction on the sequence for the lines of the file; two lines of different width make genfromtxt raise |
| C148 | the text reader of Titrations.v | from C112_text_columns: every value is what its own field says; two tables that agree on a field agree on its value |

Nothing in properties.jsonl is marked not applicable.

## 4. Wrong programs

`seeded/LOG.jsonl` records edits of the model that a realistic bug would make, the claim each one
breaks, the theorems that then fail, and the theorems that were added or tightened because the edit
was not caught at first.

## 5. Trusted base

* Coq 8.16.1 kernel and coqchk.
* Axioms, from the standard library only and as listed by `Print Assumptions` (section 8 says which
  theorem depends on them): `ClassicalDedekindReals.sig_forall_dec`,
  `ClassicalDedekindReals.sig_not_dec`, `FunctionalExtensionality.functional_extensionality_dep`,
  `Classical_Prop.classic`. All four come with `Coq.Reals`; theorems that do not mention `XR` are closed under
  the global context. None of our own. PropDrift.v, PropDilution64.v, PropMean64.v, PropOffset64.v and PropWindow64.v (the binary64
  results of C43, C118, C135, C59 and C31) use Flocq 4.1: its definition of the real value of a binary64 number (`SF2R`) and its theorems
  about rounding. Flocq has no axioms of its own; no other library is used.
* The faithfulness of the transcription, including that of the Python, numpy, pandas and scipy
  behaviour it relies on (dict order, broadcasting, `pd.isnull`, boolean masks, `np.arange`, `genfromtxt`,
  `float(str)`, `format`, `linregress`). Simplifications are listed in section 6 and in the comment of
  each definition.

## 6. Not modelled, and simplifications

* Rounding, overflow and signed zero in `XR` theorems (they hold in exact arithmetic only); numpy's
  pairwise summation order; floating-point warnings.
* The internals of PyCO2SYS, of scipy's least-squares algorithm and of PCHIP interpolation (only their interfaces).
* pandas: dtype coercion, row labels (rows are known by position), `apply` on a frame with no rows, and the
  contents of a frame after a function has raised (Interrupt.v models them for C145 only, one whole column at a time).
* Interrupted files (C146): the characters reach the file in the order in which they were written, so what is left
  is a beginning of the text; a file system that loses or reorders blocks after a power failure is not modelled.
* Text: decoding (identity), line breaks other than newline, carriage return and their pair, underscores in numbers,
  delimiters longer than a character, backslash escapes in the PC-LIMS file.
* Plots: colours, labels, legends, axis limits, tick formats, the smooth curves of the component plot, the
  rounding of numbers in titles.
* `meta.hello`, the metadata readers that only call pandas (clipboard, CSV, Excel, fixed width, table),
  `Dataset.to_pandas`, `plot.add_credit`.
* Concurrency: the code has none.

## 7. Coverage of the source, function by function

Generated from the citations in the model's comments. "–" means not modelled.

| function | model |
|---|---|
| `classes.py:12-30` to_Titration | `Classes.to_Titration` |
| `classes.py:69-85` Dataset.to_Titration | `Classes.to_Titration` |
| `classes.py:92-94` Dataset.to_pandas | – (the identity on tables of the model) |
| `classes.py:171-204` Titration.__init__ | `Attributes.raised`, `Attributes.class_names`, `Attributes.object_of`, `Classes.table_dict`, `Classes.data_frame`, `Classes.Titration`, `Plot.sr_used` |
| `classes.py:206-214` Titration.__getattr__ | `Attributes.raised`, `Attributes.class_names`, `Attributes.lookup`, `Classes.getattr` |
| `classes.py:216-221` Titration.__getitem__ | `Attributes.raised`, `Attributes.class_names` |
| `classes.py:223-228` Titration.__str__ | `Attributes.raised`, `Attributes.class_names`, `Classes.str_titration` |
| `classes.py:230-235` Titration.__repr__ | `Attributes.raised`, `Attributes.class_names` |
| `classes.py:237-241` Titration.get_alkalinity_from_acid | `Attributes.raised`, `Attributes.class_names`, `Classes.get_alkalinity_from_acid` |
| `classes.py:243-301` Titration.do_CO2SYS | `Attributes.raised`, `Attributes.class_names`, `Classes.co2sys_totals`, `Classes.ks_for_sys`, `Classes.store`, `Classes.species`, `Classes.estimate`, `Classes.do_CO2SYS` |
| `convert.py:24-26` get_dilution_factor | `Convert.get_dilution_factor` |
| `convert.py:29-32` dilute_totals | `Convert.dilute_totals`, `Heap.alloc_entries` |
| `convert.py:35-57` dilute_totals_pyco2 | `Convert.pyco2_diluted_keys`, `Convert.dilute_totals_pyco2` |
| `convert.py:60-67` totals_to_pyco2 | `Convert.totals_to_pyco2` |
| `convert.py:70-82` dilute_totals_H2SO4 | `Convert.dilute_totals_H2SO4` |
| `convert.py:85-114` dilute_totals_pyco2_H2SO4 | `Convert.pyco2_H2SO4_diluted_keys`, `Convert.dilute_totals_pyco2_H2SO4` |
| `convert.py:117-121` emf_to_h | `Convert.emf_to_h` |
| `convert.py:124-126` emf_to_pH | `Convert.emf_to_pH` |
| `convert.py:129-132` h_to_emf | `Convert.h_to_emf` |
| `convert.py:135-138` pH_to_emf | `Convert.pH_to_emf` |
| `convert.py:141-144` f_to_demf0 | `Convert.f_to_demf0` |
| `convert.py:147-253` amount_units | `Convert.cau_titrant_mass`, `Convert.cau_analyte_mass`, `Convert.amount_units`, `Titrations.amount_units_dat` |
| `core.py:143-166` gran_function | `Core.gran_function` |
| `core.py:169-230` gran_alkalinity | `Core.used_from_first`, `Core.gran_used`, `Core.gran_alkalinity` |
| `core.py:233-283` gran_emf0s | `Core.gran_emf0` |
| `core.py:286-352` gran_guesses | `Core.gran_guesses` |
| `core.py:355-466` totals_ks | `Core.keys_kwargs_totals`, `Core.keys_kwargs_k_constants`, `Core.totals_ks`, `Heap.alloc_entries` |
| `core.py:469-518` add_titrant_totals | `Core.titrant_addition`, `Core.add_titrant_totals`, `Heap.obj`, `Heap.iadd_entry`, `Heap.add_titrant_totals_at` |
| `core.py:521-541` _lsqfun_solve_emf | `Core.lsqfun_solve_emf` |
| `core.py:544-713` solve_emf | `Core.in_window`, `Core.alkalinity_all`, `Core.solve_emf_once`, `Core.solve_emf`, `Files.call_solve_emf`, `Heap.files_solve_at` |
| `core.py:716-793` solve_pH | `Core.in_window`, `Core.solve_pH`, `Files.call_solve_pH`, `Heap.files_solve_at` |
| `core.py:796-863` solve_pH_gran | `Core.in_window`, `Core.solve_pH_gran`, `Files.call_solve_pH`, `Heap.files_solve_at` |
| `core.py:866-918` _lsqfun_calibrate_emf | `Core.lsqfun_calibrate` |
| `core.py:921-1006` calibrate_emf | `Core.calibrate_emf`, `Files.titrant_totals_of` |
| `core.py:1009-1055` _lsqfun_calibrate_pH | Core.lsqfun_calibrate (one definition for the three modes) |
| `core.py:1058-1126` calibrate_pH | `Core.calibrate_pH`, `Files.titrant_totals_of` |
| `core.py:1129-1175` _lsqfun_calibrate_pH_gran | Core.lsqfun_calibrate (one definition for the three modes) |
| `core.py:1178-1246` calibrate_pH_gran | `Core.calibrate_pH_gran`, `Files.titrant_totals_of` |
| `dataset.py:16-39` get_total_salts | `Dataset.fill_salt`, `Dataset.get_total_salts`, `Interrupt.fill_col_w`, `Interrupt.get_total_salts_w` |
| `dataset.py:42-57` _backcompat | `Classes.Titration`, `Dataset.backcompat_dict`, `Dataset.backcompat` |
| `dataset.py:60-83` calibrate_row | `Dataset.calibrate_row_try`, `Dataset.calibrate_row` |
| `dataset.py:86-97` get_group_calibration | `Dataset.good_molinities`, `Dataset.batch` |
| `dataset.py:100-107` get_batches | `Dataset.batch_molinity`, `Plot.distinct` |
| `dataset.py:110-127` prepare | `Dataset.prepare`, `Interrupt.prepare_w` |
| `dataset.py:130-167` calibrate | `Dataset.calibrate_only`, `Interrupt.calibrate_only_w`, `Interrupt.calibrate_w` |
| `dataset.py:170-191` add_solve_results | `Dataset.add_solve_results` |
| `dataset.py:194-227` solve_row | `Dataset.blank`, `Dataset.solve_row_try`, `Dataset.solve_row` |
| `dataset.py:230-267` solve | `Dataset.solve_ignored`, `Dataset.set_results`, `Dataset.offset_of`, `Dataset.solve`, `Interrupt.set_results_w`, `Interrupt.solve_w` |
| `dataset.py:270-288` calkulate | `Dataset.calkulate`, `Interrupt.calkulate_w` |
| `density.py:12-47` seawater_1atm_MP81 | `Density.seawater_1atm_MP81` |
| `density.py:50-86` HCl_NaCl_25C_DSC07 | `Density.HCl_NaCl_25C_DSC07` |
| `density.py:89-99` H2SO4_25C_EAIM | `Density.H2SO4_25C_EAIM` |
| `files.py:62-176` calibrate | `Files.calibrate_ignored`, `Files.full_name`, `Files.load`, `Files.dispatch_calibrate`, `Files.files_calibrate` |
| `files.py:179-289` solve | `Files.full_name`, `Files.load`, `Files.dispatch_solve`, `Files.files_solve`, `Heap.files_solve_at` |
| `interface.py:45-104` get_totals | `Interface.keys_get_totals`, `Interface.set_given`, `Interface.copy_if_pos`, `Interface.get_totals` |
| `interface.py:107-186` get_k_constants | `Interface.keys_get_k_constants`, `Interface.given_ks`, `Interface.select_ks`, `Interface.get_k_constants` |
| `loss.py:11-24` dic_loss_model_fitted | `Loss.fitted_steps`, `Loss.dic_loss_model_fitted` |
| `loss.py:27-46` _lsqfun_dic_loss_model | `Loss.lsqfun_dic_loss_model` |
| `loss.py:49-54` get_fCO2_from_dic_pH | `Loss.get_fCO2_from_dic_pH` |
| `loss.py:57-105` dic_loss_model_future | `Loss.future_steps`, `Loss.dic_loss_model_future` |
| `loss.py:108-210` get_dic_loss_hires | `Loss.get_dic_loss_hires` |
| `loss.py:213-257` get_dic_loss | `Loss.get_dic_loss` |
| `meta.py:16-30` hello | – (prints the version) |
| `meta.py:33-35` _get_kwarg_keys | the tables `keys_*` (Core.v, Interface.v, Files.v, Convert.v), read off the signatures |
| `meta.py:38-46` _get_kwargs_for | `Meta.get_kwargs_for` |
| `plot/__init__.py:12-63` titrant_molinity | `Plot.plot_x`, `Plot.plot_titrant_molinity` |
| `plot/__init__.py:66-127` alkalinity_offset | `Plot.plot_alkalinity_offset` |
| `plot/misc.py:4-17` add_credit | – (decoration) |
| `plot/titration.py:11-14` Styler.__init__ | – (styles) |
| `plot/titration.py:16-23` Styler.scatter | – (styles) |
| `plot/titration.py:25-29` Styler.plot | – (styles) |
| `plot/titration.py:31-37` Styler.fill_between | – (styles) |
| `plot/titration.py:44-49` scatter_both | Plot.both |
| `plot/titration.py:52-61` emf | `Plot.plot_emf` |
| `plot/titration.py:64-113` pH | `Plot.plot_pH_gran`, `Plot.limit`, `Plot.plot_pH` |
| `plot/titration.py:116-139` gran_emf0 | `Plot.plot_emf0_gran` |
| `plot/titration.py:142-182` gran_alkalinity | `Plot.plot_alkalinity_gran` |
| `plot/titration.py:185-216` alkalinity | `Plot.plot_alkalinity` |
| `plot/titration.py:219-274` dic_loss | `Plot.plot_loss` |
| `plot/titration.py:277-323` fCO2_loss | Plot.plot_loss |
| `plot/titration.py:365-421` components | `Plot.component_values`, `Plot.plot_components` |
| `read/metadata.py:8-10` read_clipboard | – (calls pandas) |
| `read/metadata.py:13-15` read_csv | – (calls pandas) |
| `read/metadata.py:18-20` read_excel | – (calls pandas) |
| `read/metadata.py:23-25` read_fwf | – (calls pandas) |
| `read/metadata.py:28-30` read_table | – (calls pandas) |
| `read/metadata.py:33-35` add_func_cols | `Metadata.read_dbs` |
| `read/metadata.py:38-53` dbs_datetime | `Metadata.dbs_datetime` |
| `read/metadata.py:56-77` get_VINDTA_filenames | `Metadata.default_filename_format`, `Metadata.vindta_row`, `Metadata.get_VINDTA_filenames` |
| `read/metadata.py:80-130` read_dbs | `Metadata.read_dbs` |
| `read/titrations.py:18-34` read_dat_genfromtxt | `Titrations.read_dat_genfromtxt` |
| `read/titrations.py:37-68` read_dat_pclims | `SpecText.data_line`, `Titrations.take_while`, `Titrations.read_dat_pclims` |
| `read/titrations.py:71-97` read_dat_orgalk_excel | `Convert.DatData`, `Titrations.read_dat_orgalk_excel` |
| `read/titrations.py:100-123` _read_tiamo_de_df | `Titrations.read_tiamo_de` |
| `read/titrations.py:126-149` read_tiamo_de | Titrations.read_tiamo_de |
| `read/titrations.py:171-177` read_dat | `Titrations.read_dat_type` |
| `read/titrations.py:180-213` write_dat | `PropCrashWrite.write_left`, `Titrations.dat_line`, `Titrations.wmode` |
| `simulate.py:11-96` alkalinity_components | `Simulate.zlp`, `Simulate.base_form`, `Simulate.acid_form`, `Simulate.zlp_form`, `Simulate.alkalinity_components` |
| `simulate.py:122-129` alkalinity | `Simulate.zlp`, `Simulate.weighted_sum`, `Simulate.alkalinity` |
| `simulate.py:132-278` _titration | `SimTitration.default_options`, `SimTitration.add_default_options`, `SimTitration.diluted_totals`, `SimTitration.dilute_into`, `SimTitration.dilute_all`, `SimTitration.kwargs_at`, `SimTitration.sim_loss_steps`, `SimTitration.sim_params`, `SimTitration.named`, `SimTitration.alkalinity_titration`, `SimTitration.sim_titration` |
| `simulate.py:281-360` titration | `SimTitration.simulate_globals` |

## 8. Theorems, where they are, and their axioms

`R` = the four axioms listed in section 5; `–` = "Closed under the global context". Read off `Print Assumptions`, which also follows (almost) every theorem in the sources.

| property | status | theorem | file | axioms |
|---|---|---|---|---|
| C01 | proved | `C01_emf_pH_mutually_inverse` | PropConvert | R |
|  |  | `C01_refuted_at_absolute_zero` | PropConvert | R |
|  |  | `C01_nernst` | PropConvert | R |
| C02 | proved | `C02_pH_decreasing_and_offset_free` | PropConvert | R |
| C03 | proved | `C03_f_factor_is_emf0_shift` | PropConvert | R |
| C04 | proved | `C04_dilution_factor` | PropConvert | R |
|  |  | `C04_dilution_composes` | PropConvert | R |
| C05 | proved | `C05_dilution_conserves_moles` | PropConvert | R |
|  |  | `C05_H2SO4_adds_exactly_the_sulfate` | PropConvert | R |
| C06 | proved | `C06_H2SO4_is_dilution_plus_titrant_sulfate` | PropConvert | R |
| C07 | proved | `C07_pyco2_dilutes_exactly_the_ten_salts` | PropConvert | R |
| C08 | partial | `C08_refuted` | PropConvert | R |
|  |  | `C08_seven_salts_partial` | PropConvert | R |
|  |  | `C08_other_three_never_diluted` | PropSharp | R |
| C09 | proved | `C09_titrant_units_interchangeable` | PropAmount | R |
| C10 | proved | `C10_mass_takes_precedence` | PropAmount | – |
|  |  | `C10_neither_raises` | PropAmount | – |
|  |  | `C10_bad_unit_or_titrant_raises` | PropAmount | – |
|  |  | `C10_mass_from_volume` | PropAmount | R |
| C11 | proved | `C11_temperature_override` | PropAmount | – |
| C12 | proved | `C12_HCl_NaCl_density` | PropDensity | R |
|  |  | `C12_defaults` | PropDensity | R |
|  |  | `C12_zero_raises` | PropDensity | R |
| C13 | proved | `C13_seawater_warnings` | PropDensity | R |
|  |  | `C13_seawater_density_range` | PropDensity | R |
|  |  | `C13_unesco_check_values` | PropDensity | R |
| C14 | proved | `C14_H2SO4_warning` | PropDensity | R |
|  |  | `C14_H2SO4_density_increasing` | PropDensity | R |
| C15 | proved | `C15_carbonate_speciation` | PropSimulate | R |
| C16 | proved | `C16_species_bounds` | PropSimulate | R |
| C17 | proved | `C17_monoprotic` | PropSimulate | R |
|  |  | `C17_phosphate` | PropSimulate | R |
| C18 | proved | `C18_alkalinity_increases_with_pH` | PropSimulate | R |
| C19 | proved | `C19_unique_pH` | PropSimulate | R |
| C20 | proved | `C20_components_do_not_depend_on_scale` | PropSimulate | R |
| C21 | partial | `C21_scale_difference_partial` | PropSimulate | R |
|  |  | `C21_scales_disagree_refuted` | PropSimulate | R |
| C22 | proved | `C22_zero_totals_can_be_dropped` | PropSimulate | R |
| C23 | proved | `C23_raises_exactly_when` | PropSimulate | – |
|  |  | `C23_multipliers_complete` | PropSimulate | – |
|  |  | `C23_which_exception` | PropSimulate | – |
| C24 | proved | `C24_extra_acids` | PropSimulate | R |
| C25 | proved | `C25_gran_alkalinity_exact` | PropGran | R |
| C26 | proved | `C26_gran_emf0_and_pH_exact` | PropGran | R |
| C27 | proved | `C27_points_used` | PropGran | R |
|  |  | `C27_legacy_subset_of_default` | PropGran | R |
|  |  | `C27_raises` | PropGran | R |
| C28 | proved | `C28_gran_emf_offset` | PropGran | R |
| C29 | partial | `C29_double_solve_refuted` | PropFindings | R |
|  |  | `C29_calibration_ignores_gran_logic` | PropGranReported | – |
|  |  | `C29_single_solve_uses_requested_logic_partial` | PropSolve | R |
|  |  | `C29_double_solve_reports_default_logic` | PropSolve | R |
|  |  | `C29_files_solve_partial` | PropWhichFile | – |
| C30 | proved | `C30_solve_pH_exact` | PropSolve | R |
| C31 | proved | `C31_used_is_closed_window` | PropSolve | R |
|  |  | `C31_other_points_are_irrelevant` | PropSolve | R |
|  |  | `C31_gran_other_points_are_irrelevant` | PropSolve | R |
|  |  | `C31_window_must_be_ordered` | PropSolve | R |
|  |  | `C31_window_in_binary64` | PropWindow64 | R |
| C32 | proved | `C32_alkalinity_is_mean_of_used` | PropSolve | R |
| C33 | proved | `C33_one_molinity_fits` | PropCalibrate | R |
|  |  | `C33_self_calibration` | PropCalibrate | R |
| C34 | proved | `C34_pH_gran_exact` | PropCalibrate | R |
|  |  | `C34_pH_gran_proportional` | PropCalibrate | R |
|  |  | `C34_self_calibration` | PropCalibrate | R |
| C35 | proved | `C35_truth_zeroes_residual` | PropEmf | R |
| C36 | proved | `C36_zero_residual_means_agreement` | PropEmf | R |
| C37 | proved | `C37_double_is_two_single_solves` | PropSolve | R |
| C38 | proved | `C38_used_is_window_at_start` | PropEmf | R |
|  |  | `C38_used_can_differ_from_returned_pH` | PropEmf | R |
| C39 | proved | `C39_residual_offset_invariant` | PropInvariance | R |
|  |  | `C39_solve_emf_offset` | PropInvariance | R |
| C40 | proved | `C40_solve_pH_mass_scaling` | PropInvariance | R |
|  |  | `C40_solve_pH_gran_mass_scaling` | PropInvariance | R |
|  |  | `C40_solve_emf_mass_scaling` | PropInvariance | R |
| C41 | proved | `C41_amounts_added` | PropCalibrate | R |
|  |  | `C41_bad_names_raise` | PropCalibrate | R |
|  |  | `C41_which_exception` | PropCalibrate | R |
| C42 | proved | `C42_any_solver` | PropCalibrate | R |
|  |  | `C42_calibrations_restore_totals` | PropCalibrate | R |
| C43 | partial | `C43_drift_is_bounded_partial` | PropDrift | R |
|  |  | `C43_totals_drift_refuted` | PropFloat | – |
|  |  | `C43_no_titrant_totals_partial` | PropFloat | – |
| C44 | partial | `C44_failed_calibration_refuted` | PropCalibrate | R |
|  |  | `C44_no_titrant_totals_partial` | PropCalibrate | – |
|  |  | `C44_what_a_failure_leaves_partial` | PropLeftover | R |
|  |  | `C44_empty_window_leaves_titrant` | PropLeftover | R |
| C45 | partial | `C45_total_scale_refuted` | PropFindings | R |
|  |  | `C45_without_sulfate_partial` | PropFindings | R |
| C46 | proved | `C46_solve_uses_chosen_settings` | PropSettings | – |
|  |  | `C46_calibrate_uses_chosen_settings` | PropSettings | – |
|  |  | `C46_row_value_wins` | PropSettings | – |
|  |  | `C46_kwarg_fills_null_cell` | PropSettings | – |
|  |  | `C46_null_cell_is_no_cell` | PropSettings | – |
|  |  | `C46_unrecognised_kwarg_has_no_effect` | PropSettings | – |
|  |  | `C46_default_values` | PropSettings | – |
| C47 | partial | `C47_pH_range` | PropKwargs | – |
|  |  | `C47_read_dat_kwargs` | PropKwargs | – |
|  |  | `C47_read_dat_method` | PropKwargs | – |
|  |  | `C47_read_dat_method_in_row` | PropKwargs | – |
|  |  | `C47_null_read_dat_method_refuted` | PropKwargs | R |
| C48 | proved | `C48_extra_columns_ignored` | PropTables | – |
| C49 | partial | `C49_gran_logic_is_reported` | PropGranReported | – |
|  |  | `C49_gran_logic_refuted` | PropGranReported | R |
|  |  | `C49_reported_is_ignored_partial` | PropIgnored | – |
|  |  | `C49_unreported_is_recognised` | PropIgnored | – |
|  |  | `C49_read_dat_method_refuted` | PropIgnored | R |
| C50 | proved | `C50_mode_is_case_insensitive` | PropKwargs | – |
|  |  | `C50_other_modes_raise` | PropKwargs | – |
|  |  | `C50_pH_adjust_ignores_emf0_init` | PropKwargs | – |
|  |  | `C50_mode_selects_solver` | PropModes | – |
|  |  | `C50_mode_selects_calibrator` | PropModes | – |
| C51 | proved | `C51_rows_independent` | PropDataset | – |
|  |  | `C51_split` | PropDataset | – |
|  |  | `C51_permute` | PropDataset | – |
|  |  | `C51_solve_never_raises` | PropDataset | – |
| C52 | proved | `C52_solve_ignores_bad_files` | PropDataset | – |
|  |  | `C52_calibrate_ignores_bad_files` | PropDataset | – |
| C53 | proved | `C53_batch_mean` | PropBatch | – |
|  |  | `C53_batch_mean_real` | PropBatch | R |
|  |  | `C53_other_batches_irrelevant` | PropBatch | R |
| C54 | partial | `C54_calibrate_completes_partial` | PropBatch | – |
|  |  | `C54_null_batch_stops_everything` | PropBatch | – |
|  |  | `C54_null_batch_refuted` | PropBatch | R |
| C55 | proved | `C55_solve_idempotent` | PropDataset | – |
|  |  | `C55_calibrate_idempotent` | PropDataset | – |
|  |  | `C55_calkulate_is_calibrate` | PropDataset | – |
| C56 | proved | `C56_total_salts` | PropTables | – |
|  |  | `C56_prepare` | PropTables | – |
| C57 | partial | `C57_history_irrelevant_partial` | PropHistory | – |
|  |  | `C57_stale_totals_refuted` | PropHistory | R |
|  |  | `C57_totals_of_the_first_solve` | PropStale | – |
| C58 | proved | `C58_other_columns_untouched` | PropTables | – |
| C59 | proved | `C59_offset_real` | PropIgnored | R |
|  |  | `C59_offset_null` | PropIgnored | R |
|  |  | `C59_offset_in_binary64` | PropOffset64 | R |
|  |  | `C59_offset` | PropTables | – |
| C60 | proved | `C60_file_solved_at_certified` | PropReference | R |
|  |  | `C60_single_reference_exact` | PropReference | R |
| C61 | partial | `C61_titration_is_row_partial` | PropTitration | – |
|  |  | `C61_null_pH_min_refuted` | PropTitrationWitness | R |
|  |  | `C61_file_good_refuted` | PropTitrationWitness | R |
| C62 | partial | `C62_solved_volume_row_is_nan` | PropTable | R |
|  |  | `C62_unsolved_volume_row_raises` | PropTable | R |
|  |  | `C62_with_mass_partial` | PropTable | R |
|  |  | `C62_refuted` | PropTitrationWitness | R |
| C63 | partial | `C63_estimate_vs_solver` | PropTable | R |
|  |  | `C63_normality_one_partial` | PropTitrationWitness | R |
|  |  | `C63_normality_refuted` | PropTitrationWitness | R |
| C64 | partial | `C64_with_file_path_partial` | PropTable | – |
|  |  | `C64_without_file_path_raises` | PropTable | – |
|  |  | `C64_refuted` | PropTitrationWitness | R |
| C65 | proved | `C65_write_then_read` | PropText | R |
| C66 | partial | `C66_two_rows_partial` | PropText | – |
|  |  | `C66_single_row_refuted` | PropText | – |
| C67 | proved | `C67_no_overwrite` | PropText | – |
|  |  | `C67_history` | PropText | – |
| C68 | proved | `C68_first_block` | PropReaders | – |
|  |  | `C68_rest_ignored` | PropReaders | – |
| C69 | partial | `C69_negative_dropped_refuted` | PropReaders | – |
|  |  | `C69_unsigned_kept_partial` | PropReaders | – |
| C70 | partial | `C70_fallback_partial` | PropReaders | – |
|  |  | `C70_warning_refuted` | PropReaders | – |
| C71 | proved | `C71_tiamo_offset` | PropReaders | – |
| C72 | proved | `C72_bottle_names` | PropMetadata | – |
| C73 | partial | `C73_same_width_partial` | PropMetadata | – |
|  |  | `C73_names_collide_refuted` | PropMetadata | – |
|  |  | `C73_collide_exactly` | PropSharp | – |
| C74 | proved | `C74_file_good` | PropMetadata | – |
|  |  | `C74_other_run_types_blank` | PropMetadata | – |
| C75 | proved | `C75_dates` | PropMetadata | – |
|  |  | `C75_missing_date` | PropMetadata | – |
|  |  | `C75_stamps_differ` | PropMetadata | – |
| C76 | proved | `C76_no_loss_is_dilution` | PropLoss | R |
| C77 | proved | `C77_affine_in_k` | PropLoss | R |
|  |  | `C77_nonincreasing_in_k` | PropLoss | R |
| C78 | proved | `C78_fCO2_is_CO2_over_k0` | PropLoss | – |
|  |  | `C78_fCO2_equilibrium` | PropLoss | R |
|  |  | `C78_fCO2_falls_with_pH` | PropLoss | R |
| C79 | partial | `C79_one_crossing_partial` | PropAlign | R |
|  |  | `C79_alignment_refuted` | PropAlign | R |
| C80 | partial | `C80_later_steps_partial` | PropLoss | – |
|  |  | `C80_first_step_refuted` | PropLoss | R |
|  |  | `C80_first_step_uses_start` | PropSharp | – |
|  |  | `C80_first_step_too_low` | PropSharp | R |
| C81 | partial | `C81_mixture` | PropSimTitration | R |
|  |  | `C81_truth_zeroes_residual` | PropSimTitration | R |
|  |  | `C81_zero_loss_partial` | PropSimTitration | R |
|  |  | `C81_start_not_diluted` | PropSimTitration | R |
|  |  | `C81_start_refuted` | PropSimTitration | R |
| C82 | partial | `C82_titration_refuted` | PropSimTitration | – |
| C83 | proved | `C83_key_order_irrelevant` | PropSettings | – |
|  |  | `C83_kwarg_order_irrelevant` | PropSettings | – |
| C84 | partial | `C84_pH_modes_partial` | PropFindings | R |
|  |  | `C84_emf_mode_refuted` | PropFindings | R |
|  |  | `C84_emf_mode_never_blank` | PropSharp | R |
| C85 | partial | `C85_orgalk_excel_refuted` | PropReaders | – |
|  |  | `C85_other_types_partial` | PropReaders | R |
| C86 | proved | `C86_history_irrelevant` | PropPure | – |
|  |  | `C86_same_call_same_result` | PropPure | – |
|  |  | `C86_earlier_results_stay` | PropPure | – |
| C87 | proved | `C87_pyco2_H2SO4` | PropConvert | R |
| C88 | partial | `C88_supplied_totals_reach_solver` | PropSupplied | – |
|  |  | `C88_supplied_constants_reach_solver` | PropSupplied | – |
|  |  | `C88_k_fluoride_total_scale_refuted` | PropSupplied | – |
| C89 | partial | `C89_changes_by_the_total_partial` | PropExtraAcid | R |
|  |  | `C89_extra_acid_depends_on_scale_refuted` | PropSimulate | R |
| C90 | proved | `C90_unique_best_fit` | PropLoss | R |
| C91 | proved | `C91_read_dbs` | PropMetadata | – |
| C92 | proved | `C92_alkalinity_is_acceptors_minus_donors` | PropDickson | R |
| C93 | proved | `C93_constants_come_from_pyco2` | PropPyCO2 | – |
|  |  | `C93_salts_come_from_pyco2` | PropPyCO2 | – |
| C94 | proved | `C94_higher_pH_higher_alkalinity` | PropMonotone | R |
| C95 | proved | `C95_alkalinity_follows_contents` | PropMonotone | R |
| C96 | proved | `C96_solve_pH_order` | PropOrder | R |
|  |  | `C96_solve_pH_gran_order` | PropOrder | R |
|  |  | `C96_legacy_gran_order` | PropOrder | R |
|  |  | `C96_default_gran_depends_on_order` | PropOrder | R |
| C97 | proved | `C97_solve_emf_product` | PropProduct | R |
|  |  | `C97_solve_pH_product` | PropProduct | R |
|  |  | `C97_solve_pH_gran_product` | PropProduct | R |
| C98 | proved | `C98_alkalinity_near_weighted_mean` | PropFit | R |
|  |  | `C98_best_fit_is_weighted_mean` | PropFit | R |
|  |  | `C98_residual_of_a_point` | PropFit | R |
| C99 | proved | `C99_every_point_drawn_once` | PropPlot | – |
|  |  | `C99_gran_points_drawn_once` | PropPlot | – |
| C100 | proved | `C100_available_plots` | PropPlot | – |
| C101 | proved | `C101_gran_line` | PropPlotReal | R |
| C102 | partial | `C102_title_spread_partial` | PropPlotReal | R |
|  |  | `C102_title_spread_refuted` | PropPlotReal | R |
| C103 | proved | `C103_band_is_the_window` | PropPlot | – |
| C104 | proved | `C104_every_analysis_drawn_once` | PropPlotData | – |
| C105 | proved | `C105_batch_lines` | PropPlotData | R |
|  |  | `C105_can_draw_after_calibrate` | PropPlotData | R |
| C106 | partial | `C106_without_flags_partial` | PropPlotData | – |
|  |  | `C106_batches_need_flags` | PropPlotData | – |
|  |  | `C106_default_call_refuted` | PropPlotData | R |
| C107 | proved | `C107_profile` | PropProfile | R |
| C108 | partial | `C108_points_on_profile_partial` | PropProfile | R |
|  |  | `C108_last_point_refuted` | PropProfile | R |
| C109 | partial | `C109_deleting_points_pH_partial` | PropMissing | R |
|  |  | `C109_deleting_points_pH_gran_partial` | PropMissing | R |
|  |  | `C109_missing_emf_raises` | PropMissing | R |
|  |  | `C109_missing_emf_refuted` | PropMissing | R |
| C110 | partial | `C110_titrant_share_partial` | PropTitrantShare | – |
|  |  | `C110_absent_phosphate_raises` | PropTitrantShare | – |
|  |  | `C110_phosphate_refuted` | PropTitrantShare | – |
| C111 | proved | `C111_rows_report_solutions` | PropReport | – |
|  |  | `C111_rows_report_calibrations` | PropReport | – |
|  |  | `C111_spread_real` | PropReport | R |
| C112 | proved | `C112_text_columns` | PropReadSettings | – |
|  |  | `C112_pclims_columns` | PropReadSettings | – |
|  |  | `C112_n_cols_needs_pclims` | PropReadSettings | – |
| C113 | proved | `C113_one_file_is_read` | PropWhichFile | – |
|  |  | `C113_missing_file_raises` | PropWhichFile | – |
| C114 | proved | `C114_perfect_fit_is_the_truth` | PropUnique | R |
|  |  | `C114_two_additions_do_not_suffice` | PropUnique | R |
| C115 | partial | `C115_history_irrelevant_partial` | PropCalHistory | – |
|  |  | `C115_first_calibration_decides` | PropCalHistory | – |
|  |  | `C115_flags_are_kept` | PropCalHistory | – |
|  |  | `C115_late_certificate_refuted` | PropCalHistory | – |
| C116 | proved | `C116_calibrate_permute` | PropRowOrder | R |
| C117 | proved | `C117_no_reference_no_result` | PropRowOrder | R |
| C118 | proved | `C118_factor_in_binary64` | PropDilution64 | R |
|  |  | `C118_totals_in_binary64` | PropDilution64 | R |
| C119 | proved | `C119_best_fit_exists` | PropBestFit | R |
| C120 | partial | `C120_best_quadratic_partial` | PropAcidDensity | R |
|  |  | `C120_molinity_is_not_molality_refuted` | PropAcidDensity | R |
| C121 | proved | `C121_unused_settings` | PropTitrantDensity | – |
|  |  | `C121_volume_to_mass` | PropTitrantDensity | R |
| C122 | partial | `C122_sulfuric_settings_partial` | PropSulfuric | R |
|  |  | `C122_name_alone_is_too_low` | PropSulfuric | R |
| C123 | proved | `C123_temperature_only` | PropTemperature | – |
|  |  | `C123_same_at_equal_temperature` | PropTemperature | – |
| C124 | partial | `C124_volume_counts_as_mass_partial` | PropSampleVolume | – |
|  |  | `C124_volume_of_a_weighed_sample` | PropSampleVolume | – |
|  |  | `C124_column_is_not_filled` | PropSampleVolume | R |
|  |  | `C124_refuted` | PropSampleVolume | R |
| C125 | proved | `C125_buffering_limits_alkalinity` | PropSensitive | R |
|  |  | `C125_pH_error_bound` | PropSensitive | R |
| C126 | proved | `C126_accuracy` | PropAccuracy | R |
|  |  | `C126_written_file` | PropAccuracy | R |
| C127 | proved | `C127_molinity_error` | PropTransfer | R |
|  |  | `C127_certified_error` | PropTransfer | R |
|  |  | `C127_gran_certified_error` | PropTransfer | R |
| C128 | proved | `C128_true_values` | PropWorkflow | R |
| C129 | proved | `C129_perfect_fit_fixes_the_titrant` | PropVouch | R |
|  |  | `C129_wrong_certified_value_shows` | PropVouch | R |
| C130 | proved | `C130_spelling_does_not_matter` | PropSpelling | R |
|  |  | `C130_always_named` | PropSpelling | R |
|  |  | `C130_missing_number_stops` | PropSpelling | R |
| C131 | proved | `C131_only_truth_of_flag_matters` | PropFlag | – |
|  |  | `C131_how_missing_flags_count` | PropFlag | R |
| C132 | proved | `C132_mass_error` | PropSampleMass | R |
|  |  | `C132_heavier_is_less_alkaline` | PropSampleMass | R |
| C133 | proved | `C133_line_ends` | PropLineEnds | – |
|  |  | `C133_blank_lines_and_comments` | PropLineEnds | – |
| C134 | proved | `C134_offset` | PropOffsets | R |
|  |  | `C134_offsets_cancel` | PropOffsets | R |
| C135 | proved | `C135_mean_in_binary64` | PropMean64 | R |
|  |  | `C135_batch_molinity_in_binary64` | PropMean64 | R |
|  |  | `C135_one_reference_in_binary64` | PropMean64 | R |
|  |  | `C135_alkalinity_in_binary64` | PropMean64 | R |
| C136 | proved | `C136_only_its_batch` | PropLeaveOut | – |
|  |  | `C136_leave_one_out` | PropLeaveOut | R |
| C137 | proved | `C137_only_its_batch` | PropShared | R |
|  |  | `C137_shared` | PropShared | R |
| C138 | proved | `C138_drop_rows` | PropDrop | – |
| C139 | partial | `C139_documented_defaults_partial` | PropDefaults | – |
|  |  | `C139_rows_partial` | PropDefaults | – |
|  |  | `C139_carbonic_default_is_10` | PropDefaults | – |
|  |  | `C139_refuted` | PropDefaults | R |
| C140 | proved | `C140_solve_stacked` | PropStack | – |
|  |  | `C140_calibrate_stacked` | PropStack | – |
| C141 | partial | `C141_excess` | PropCurves | R |
|  |  | `C141_curves_meet` | PropCurves | R |
|  |  | `C141_acid_balance_partial` | PropCurves | R |
|  |  | `C141_normality_left_out` | PropCurves | R |
| C142 | partial | `C142_pH_partial` | PropSpread | R |
|  |  | `C142_emf_understates` | PropSpread | R |
|  |  | `C142_emf_never_exact` | PropSpread | R |
| C143 | proved | `C143_spread_bounds_points` | PropSpread | R |
| C144 | partial | `C144_attributes_are_items_partial` | PropAttributes | – |
|  |  | `C144_taken_names` | PropAttributes | – |
|  |  | `C144_copies_fail` | PropAttributes | – |
|  |  | `C144_given_values_partial` | PropAttributes | R |
|  |  | `C144_refuted` | PropAttributes | R |
| C145 | proved | `C145_same_outcome` | PropInterrupt | – |
|  |  | `C145_solve_again` | PropInterrupt | – |
|  |  | `C145_calibrate_again` | PropInterrupt | – |
|  |  | `C145_calkulate_again` | PropInterrupt | – |
|  |  | `C145_nothing_lost` | PropInterrupt | – |
| C146 | partial | `C146_first_points_partial` | PropCrashWrite | R |
|  |  | `C146_short_refuted` | PropCrashWrite | R |
|  |  | `C146_again` | PropCrashWrite | – |
|  |  | `C146_complete` | PropCrashWrite | – |
|  |  | `C146_old_content_refuted` | PropCrashWrite | – |
|  |  | `C146_cut_number_refuted` | PropCrashWrite | – |
| C147 | partial | `C147_never_mixed_partial` | PropAppend | – |
|  |  | `C147_plain_headers_partial` | PropAppend | – |
|  |  | `C147_other_files` | PropAppend | – |
|  |  | `C147_comments_refuted` | PropAppend | – |
| C148 | proved | `C148_each_value_from_its_field` | PropDamaged | – |
|  |  | `C148_only_its_value` | PropDamaged | – |
|  |  | `C148_damaged_is_nan` | PropDamaged | – |

Non-vacuity examples: `C01_nonvacuous`, `C02_nonvacuous`, `C03_nonvacuous`, `C04_nonvacuous`, `C04_composes_example`, `C05_nonvacuous`, `C06_nonvacuous`, `C07_nonvacuous`, `C08_partial_nonvacuous`, `C08_other_three_nonvacuous`, `C09_nonvacuous`, `C10_nonvacuous`, `C10_from_volume_nonvacuous`, `C10_cases_nonvacuous`, `C11_nonvacuous`, `C12_nonvacuous`, `C13_nonvacuous`, `C14_nonvacuous`, `C15_nonvacuous`, `C16_nonvacuous`, `C17_monoprotic_nonvacuous`, `C17_phosphate_nonvacuous`, `C18_nonvacuous`, `C19_nonvacuous`, `C20_nonvacuous`, `C21_nonvacuous`, `C22_nonvacuous`, `C23_nonvacuous_ok`, `C23_nonvacuous_scale`, `C23_nonvacuous_key`, `C24_nonvacuous`, `C25_C26_nonvacuous`, `C27_nonvacuous`, `C28_nonvacuous`, `C29_files_solve_nonvacuous`, `C29_nonvacuous`, `C30_nonvacuous`, `C31_binary64_nonvacuous`, `C31_nonvacuous`, `C31_gran_nonvacuous`, `C31_window_nonvacuous`, `C32_nonvacuous`, `C33_nonvacuous`, `C34_nonvacuous`, `C34_proportional_nonvacuous`, `C34_self_calibration_nonvacuous`, `C35_nonvacuous`, `C36_nonvacuous`, `C37_nonvacuous`, `C38_nonvacuous`, `C39_nonvacuous`, `C40_pH_nonvacuous`, `C40_pH_gran_nonvacuous`, `C40_nonvacuous`, `C41_nonvacuous`, `C41_raises_nonvacuous`, `C42_nonvacuous`, `C43_nonvacuous`, `C43_drift_nonvacuous`, `C44_empty_window_nonvacuous`, `C45_nonvacuous`, `C46_nonvacuous`, `C46_null_cell_nonvacuous`, `C46_defaults_nonvacuous`, `C47_nonvacuous`, `C47_old_names_nonvacuous`, `C48_nonvacuous`, `C49_nonvacuous`, `C49_gran_logic_nonvacuous`, `C50_nonvacuous`, `C50_cases_nonvacuous`, `C51_nonvacuous`, `C51_two_rows_nonvacuous`, `C52_nonvacuous`, `C53_nonvacuous`, `C53_real_nonvacuous`, `C54_nonvacuous`, `C55_nonvacuous`, `C55_calibrate_nonvacuous`, `C56_nonvacuous`, `C57_first_solve_nonvacuous`, `C57_nonvacuous`, `C58_nonvacuous`, `C59_nonvacuous`, `C59_binary64_nonvacuous`, `C59_offset_nonvacuous`, `C60_nonvacuous`, `C61_nonvacuous`, `C62_C64_nonvacuous`, `C62_unsolved_nonvacuous`, `C64_nonvacuous`, `C65_nonvacuous`, `C66_nonvacuous`, `C67_nonvacuous`, `C67_history_nonvacuous`, `C68_nonvacuous`, `C69_nonvacuous`, `C70_nonvacuous`, `C71_nonvacuous`, `C72_nonvacuous`, `C73_nonvacuous_partial`, `C74_nonvacuous`, `C75_nonvacuous`, `C76_nonvacuous`, `C77_nonvacuous`, `C78_nonvacuous`, `C79_nonvacuous`, `C79_nonvacuous_partial`, `C80_nonvacuous_partial`, `C81_nonvacuous`, `C81_nonvacuous_partial`, `C83_nonvacuous`, `C84_never_blank_nonvacuous`, `C84_nonvacuous`, `C85_nonvacuous`, `C86_nonvacuous`, `C87_nonvacuous`, `C88_nonvacuous`, `C89_nonvacuous`, `C90_nonvacuous`, `C91_nonvacuous`, `C92_nonvacuous`, `C93_nonvacuous`, `C94_nonvacuous`, `C95_nonvacuous`, `C96_nonvacuous`, `C96_gran_nonvacuous`, `C97_nonvacuous`, `C98_nonvacuous`, `C99_case`, `C100_nonvacuous`, `C101_case`, `C103_nonvacuous`, `C104_nonvacuous`, `C105_nonvacuous`, `C107_nonvacuous`, `C108_nonvacuous`, `C109_nonvacuous`, `C110_nonvacuous`, `C111_nonvacuous`, `C111_calibration_nonvacuous`, `C112_nonvacuous`, `C112_pclims_nonvacuous`, `C112_n_cols_nonvacuous`, `C113_nonvacuous`, `C114_nonvacuous`, `C115_nonvacuous`, `C116_nonvacuous`, `C117_nonvacuous`, `C118_nonvacuous`, `C118_tiny_addition_is_lost`, `C118_totals_nonvacuous`, `C119_nonvacuous`, `C120_nonvacuous`, `C121_densities`, `C121_nonvacuous`, `C121_unused_nonvacuous`, `C122_nonvacuous`, `C123_nonvacuous`, `C123_diluting`, `C124_nonvacuous`, `C125_nonvacuous`, `C126_nonvacuous`, `C127_nonvacuous`, `C127_gran_nonvacuous`, `C128_nonvacuous`, `C128_gran_nonvacuous`, `C129_nonvacuous`, `C129_calibrate_nonvacuous`, `C130_nonvacuous`, `C130_missing_nonvacuous`, `C131_nonvacuous`, `C132_nonvacuous`, `C133_nonvacuous`, `C134_nonvacuous`, `C135_nonvacuous`, `C135_one_nonvacuous`, `C135_alkalinity_nonvacuous`, `C136_nonvacuous`, `C137_nonvacuous`, `C138_nonvacuous`, `C139_nonvacuous`, `C140_nonvacuous`, `C141_nonvacuous`, `C142_nonvacuous`, `C143_nonvacuous`, `C144_nonvacuous`, `C145_nonvacuous`, `C146_nonvacuous`, `C147_nonvacuous`, `C148_nonvacuous`. Refutation theorems are their own witnesses.
