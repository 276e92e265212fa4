{"id": "C01", "title": "EMF and pH conversions are mutually inverse", "statement": "convert.emf_to_pH and convert.pH_to_emf undo each other exactly (real arithmetic) whatever the EMF0, at every temperature above absolute zero; the same holds for convert.emf_to_h and convert.h_to_emf on positive [H+].", "quantifier": "all finite emf, emf0, pH, all h > 0, all temperatures > -273.15 C", "why_tests_cant": "A test samples a handful of inputs; the claim is about every point of a continuous input space.", "anchors": ["calkulate/convert.py: emf_to_h, emf_to_pH, h_to_emf, pH_to_emf"]}
{"id": "C02", "title": "pH falls strictly as EMF rises and only the difference emf - emf0 matters", "statement": "At a fixed temperature a higher EMF always gives a strictly lower pH, [H+] is always positive, and adding the same offset to EMF and EMF0 never changes pH or [H+].", "quantifier": "all finite emf1 < emf2, emf0, offsets, temperatures > -273.15 C", "why_tests_cant": "A test samples a handful of inputs; the claim is about every point of a continuous input space.", "anchors": ["calkulate/convert.py: emf_to_h, emf_to_pH"]}
{"id": "C03", "title": "Dickson's f factor is an EMF0 shift", "statement": "Lowering EMF0 by convert.f_to_demf0(f, T) multiplies the [H+] computed from every EMF by exactly f.", "quantifier": "all f > 0, all finite emf, emf0, temperatures > -273.15 C", "why_tests_cant": "A test samples a handful of inputs; the claim is about every point of a continuous input space.", "anchors": ["calkulate/convert.py: f_to_demf0, emf_to_h"]}
{"id": "C04", "title": "Dilution factors lie in (0,1], equal 1 only with no titrant, and compose", "statement": "For a positive analyte mass the dilution factor is in (0, 1], is 1 exactly when no titrant was added, strictly decreases with titrant mass, and diluting in successive steps equals diluting once by the total.", "quantifier": "all analyte masses > 0, all titrant masses >= 0, every sequence of additions", "why_tests_cant": "A test samples a handful of inputs; the claim is about every point of a continuous input space.", "anchors": ["calkulate/convert.py: get_dilution_factor"]}
{"id": "C05", "title": "Diluting totals conserves moles", "statement": "After convert.dilute_totals every substance keeps its key and its moles: content x (titrant + analyte mass) equals original content x analyte mass; with the H2SO4 variant the sulfate gains exactly titrant molinity x titrant mass and nothing else changes.", "quantifier": "all totals dictionaries, all titrant arrays, all positive analyte masses", "why_tests_cant": "A test samples a handful of inputs; the claim is about every point of a continuous input space.", "anchors": ["calkulate/convert.py: dilute_totals, dilute_totals_H2SO4"]}
{"id": "C06", "title": "H2SO4 dilution equals ordinary dilution plus the titrant's own sulfate", "statement": "convert.dilute_totals_H2SO4 gives the same totals as convert.dilute_totals followed by core.add_titrant_totals with titrant_total_sulfate=1.", "quantifier": "all totals containing total_sulfate, all molinities, masses", "why_tests_cant": "A test samples a handful of inputs; the claim is about every point of a continuous input space.", "anchors": ["calkulate/convert.py: dilute_totals, dilute_totals_H2SO4", "calkulate/core.py: add_titrant_totals"]}
{"id": "C07", "title": "PyCO2SYS totals: exactly the ten salts are diluted", "statement": "convert.dilute_totals_pyco2 multiplies exactly TB, TF, TSO4, TCa, alpha, beta, TPO4, TSi, TNH3 and TH2S by the dilution factor and leaves every other entry (e.g. Sal) untouched.", "quantifier": "all dictionaries, keys, masses", "why_tests_cant": "The key space is unbounded; a test checks only the keys it thought of.", "anchors": ["calkulate/convert.py: dilute_totals_pyco2"]}
{"id": "C08", "title": "Calkulate-to-PyCO2SYS totals conversion is compatible with PyCO2SYS dilution", "statement": "Every substance emitted by convert.totals_to_pyco2 (other than salinity) is diluted by convert.dilute_totals_pyco2, and values are carried over unchanged with absent ones set to zero.", "quantifier": "all totals dictionaries", "why_tests_cant": "Depends on two key tables agreeing for every key.", "anchors": ["calkulate/convert.py: totals_to_pyco2, dilute_totals_pyco2", "calkulate/interface.py: calk_to_pyco2__totals"]}
{"id": "C09", "title": "Titrant amount units are interchangeable", "statement": "convert.amount_units returns the same titrant masses whether the amounts are given in kg, in g (x1000), or in ml with an explicit density (g = ml x density); the unit name is case-insensitive.", "quantifier": "all titration data, densities, unit spellings", "why_tests_cant": "A test samples a handful of inputs; the claim is about every point of a continuous input space.", "anchors": ["calkulate/convert.py: amount_units"]}
{"id": "C10", "title": "Analyte mass takes precedence over volume; one of them is required", "statement": "If analyte_mass is non-null it is returned unchanged whatever analyte_volume is; if it is null the mass is volume x seawater density at the first temperature x 1e-3; if both are null (or the unit or titrant is not recognised) the call raises.", "quantifier": "all data, masses, volumes, kwargs", "why_tests_cant": "A test samples a handful of inputs; the claim is about every point of a continuous input space.", "anchors": ["calkulate/convert.py: amount_units"]}
{"id": "C11", "title": "temperature_override replaces every temperature and nothing else", "statement": "With temperature_override set, every returned temperature equals it, the number of points is unchanged, and titrant masses and measurements are the ones obtained without it.", "quantifier": "all titration data and override values", "why_tests_cant": "A test samples a handful of inputs; the claim is about every point of a continuous input space.", "anchors": ["calkulate/convert.py: amount_units"]}
{"id": "C12", "title": "HCl-NaCl titrant density is the DSC07 mixture and exceeds water's", "statement": "For non-negative molinities with 0 < total <= 100 mol/kg the density equals the closed DSC07 formula and is greater than 0.99704 g/ml; with both molinities zero the call raises ZeroDivisionError.", "quantifier": "all molinities in range", "why_tests_cant": "A test samples a handful of inputs; the claim is about every point of a continuous input space.", "anchors": ["calkulate/density.py: HCl_NaCl_25C_DSC07"]}
{"id": "C13", "title": "Seawater density: range warnings and sane values", "statement": "density.seawater_1atm_MP81 warns exactly when temperature is outside 0-40 or salinity outside 0.5-43, and inside that range its value is strictly between 0.98 and 1.04 kg/l.", "quantifier": "all real temperatures and salinities", "why_tests_cant": "A test samples a handful of inputs; the claim is about every point of a continuous input space.", "anchors": ["calkulate/density.py: seawater_1atm_MP81"]}
{"id": "C14", "title": "H2SO4 titrant density: range warning and monotonicity", "statement": "density.H2SO4_25C_EAIM warns exactly outside 0.05-3 mol/kg and is strictly increasing in molinity over that range.", "quantifier": "all molinities", "why_tests_cant": "A test samples a handful of inputs; the claim is about every point of a continuous input space.", "anchors": ["calkulate/density.py: H2SO4_25C_EAIM"]}
{"id": "C15", "title": "Carbonate speciation closes the DIC balance and satisfies both equilibria", "statement": "The CO2, HCO3 and CO3 returned by simulate.alkalinity_components sum to dic, and [H][HCO3] = K1[CO2], [H][CO3] = K2[HCO3].", "quantifier": "all pH, dic, positive constants and any other totals present", "why_tests_cant": "A test samples a handful of inputs; the claim is about every point of a continuous input space.", "anchors": ["calkulate/simulate.py: alkalinity_components"]}
{"id": "C16", "title": "Every species content is non-negative and at most its total", "statement": "For non-negative totals and positive constants, H and OH are positive and each of CO2, HCO3, CO3, BOH4, H3PO4, HPO4, PO4, H3SiO4, NH3, HS, HF, HSO4 lies between 0 and its total.", "quantifier": "all pH, totals, constants, pH scales", "why_tests_cant": "A test samples a handful of inputs; the claim is about every point of a continuous input space.", "anchors": ["calkulate/simulate.py: alkalinity_components"]}
{"id": "C17", "title": "Phosphate, borate, silicate, ammonia, sulfide, fluoride, sulfate mass-action", "statement": "The returned species are the unique solution of the mass-action and mass-balance equations of each acid (for phosphate with the undisplayed H2PO4 as the remainder).", "quantifier": "all pH, totals, constants", "why_tests_cant": "A test samples a handful of inputs; the claim is about every point of a continuous input space.", "anchors": ["calkulate/simulate.py: alkalinity_components"]}
{"id": "C18", "title": "Simulated alkalinity strictly increases with pH", "statement": "For fixed non-negative totals and positive constants simulate.alkalinity is strictly increasing in pH.", "quantifier": "all pH1 < pH2, totals, constants, any subset of substances present", "why_tests_cant": "A test samples a handful of inputs; the claim is about every point of a continuous input space.", "anchors": ["calkulate/simulate.py: alkalinity"]}
{"id": "C19", "title": "Every alkalinity value corresponds to exactly one pH", "statement": "With k_water present, for every target alkalinity there is exactly one pH with that simulated alkalinity (titration curves are well defined).", "quantifier": "all real alkalinities, totals, constants", "why_tests_cant": "A test samples a handful of inputs; the claim is about every point of a continuous input space.", "anchors": ["calkulate/simulate.py: alkalinity"]}
{"id": "C20", "title": "Non-H components do not depend on the pH scale", "statement": "Re-expressing pH and all constants on another scale (h and every K multiplied by one factor) leaves every component unchanged other than H and the extra acids' contributions; those are unchanged too unless the extra acid's pK crosses 4.5 in the change of scale (see C89).", "quantifier": "all scale factors > 0, pH, totals, constants", "why_tests_cant": "A test samples a handful of inputs; the claim is about every point of a continuous input space.", "anchors": ["calkulate/simulate.py: alkalinity_components"]}
{"id": "C21", "title": "Alkalinity agrees between Free and Total pH scales", "statement": "simulate.alkalinity gives the same value for the same solution described on the Free scale (opt_pH_scale=3) and on the Total scale (opt_pH_scale=1, constants and pH converted).", "quantifier": "all solutions", "why_tests_cant": "A test samples a handful of inputs; the claim is about every point of a continuous input space.", "anchors": ["calkulate/simulate.py: alkalinity_components, alkalinity", "calkulate/interface.py: get_k_constants"]}
{"id": "C22", "title": "Omitting a substance equals giving it a zero total", "statement": "simulate.alkalinity is unchanged when a substance with zero total is dropped from totals, so interface.get_totals may drop zero nutrients.", "quantifier": "all totals, constants, pH, all subsets of zero totals", "why_tests_cant": "A test samples a handful of inputs; the claim is about every point of a continuous input space.", "anchors": ["calkulate/simulate.py: alkalinity", "calkulate/interface.py: get_totals"]}
{"id": "C23", "title": "Every component has a multiplier; missing constants and bad scales are errors", "statement": "simulate.alkalinity never fails for want of a multiplier; it raises exactly when opt_pH_scale is not 1, 2 or 3 or a present substance lacks one of its constants.", "quantifier": "all totals and constants dictionaries (every key set), all scale values", "why_tests_cant": "There are 2^n key subsets; tests try one or two.", "anchors": ["calkulate/simulate.py: alkalinity_components, component_multipliers, alkalinity"]}
{"id": "C24", "title": "Zero-level-of-protons rule for the extra acids", "statement": "alk_alpha (and alk_beta) is the deprotonated form when pK > 4.5 and minus the protonated form otherwise, and both forms sum to the total.", "quantifier": "all totals, constants, pH", "why_tests_cant": "A test samples a handful of inputs; the claim is about every point of a continuous input space.", "anchors": ["calkulate/simulate.py: alkalinity_components"]}
{"id": "C25", "title": "Gran alkalinity is exact on ideal data", "statement": "If past the equivalence point free acid is the only proton acceptor/donor (h = (m c n - M A)/(m+M)) at constant temperature for every point Gran uses, core.gran_alkalinity returns exactly A.", "quantifier": "all point counts >= 2, masses, molinities, normalities, EMF0, temperatures", "why_tests_cant": "A test samples a handful of inputs; the claim is about every point of a continuous input space.", "anchors": ["calkulate/core.py: gran_function, gran_alkalinity"]}
{"id": "C26", "title": "Gran EMF0 and pH are exact on ideal data", "statement": "Under the same conditions core.gran_guesses returns exactly the true EMF0, and its pH is the true pH at every point.", "quantifier": "as C25", "why_tests_cant": "A test samples a handful of inputs; the claim is about every point of a continuous input space.", "anchors": ["calkulate/core.py: gran_emf0s, gran_guesses"]}
{"id": "C27", "title": "Which points Gran uses", "statement": "Default logic uses exactly the points from the first one exceeding 10% of the maximum onward (never none, always including the maximum, when the Gran function is positive); legacy uses exactly the points strictly between 10% and 90%; legacy's points are always a subset of the default's; any other name raises.", "quantifier": "all Gran function arrays", "why_tests_cant": "A test samples a handful of inputs; the claim is about every point of a continuous input space.", "anchors": ["calkulate/core.py: gran_alkalinity"]}
{"id": "C28", "title": "Gran results do not depend on the electrode offset", "statement": "Adding a constant to every EMF at uniform temperature leaves the Gran alkalinity and the used points unchanged and shifts the Gran EMF0 by that constant.", "quantifier": "all titrations, offsets", "why_tests_cant": "A test samples a handful of inputs; the claim is about every point of a continuous input space.", "anchors": ["calkulate/core.py: gran_alkalinity, gran_guesses"]}
{"id": "C29", "title": "gran_logic is honoured by the results the user sees", "statement": "When gran_logic='legacy' is requested the reported Gran results (gran_alkalinity, gran_emf0) are the legacy ones, in both calibration and solving.", "quantifier": "all calls with gran_logic and any double setting", "why_tests_cant": "Requires tracing every path of the recursive solve.", "anchors": ["calkulate/core.py: solve_emf, _lsqfun_calibrate_emf", "calkulate/dataset.py: add_solve_results"]}
{"id": "C30", "title": "solve_pH recovers the exact alkalinity of consistent data", "statement": "If at every point in the pH window the measured pH is consistent with alkalinity A (simulate.alkalinity equals (M A - m c n)/(M + m)), core.solve_pH returns exactly 1e6 A with zero standard deviation.", "quantifier": "all titrations, totals, constants, windows", "why_tests_cant": "A test samples a handful of inputs; the claim is about every point of a continuous input space.", "anchors": ["calkulate/core.py: solve_pH"]}
{"id": "C31", "title": "Only points inside the closed pH window count", "statement": "core.solve_pH (and solve_pH_gran) use exactly the points with pH_min <= pH <= pH_max; changing the data at any other point changes neither alkalinity nor its standard deviation; a window with pH_min >= pH_max raises.  In double precision there is no tolerance at the ends of the window.", "quantifier": "all titrations and windows", "why_tests_cant": "A test samples a handful of inputs; the claim is about every point of a continuous input space.", "anchors": ["calkulate/core.py: solve_pH, solve_pH_gran"]}
{"id": "C32", "title": "Alkalinity is between the extremes of the per-point estimates", "statement": "The alkalinity from core.solve_pH is the mean of alkalinity_all over used points, lies between their minimum and maximum, and is NaN exactly when no point is used.", "quantifier": "all titrations", "why_tests_cant": "A test samples a handful of inputs; the claim is about every point of a continuous input space.", "anchors": ["calkulate/core.py: solve_pH"]}
{"id": "C33", "title": "pH-mode calibration has exactly one solution and self-calibration is exact", "statement": "Without titrant totals the calibrate_pH residual is strictly increasing and affine in titrant molinity, so exactly one molinity reproduces the certified alkalinity, and solving with it returns the certified value.", "quantifier": "all titrations with a used point of positive titrant mass, all certified values", "why_tests_cant": "A test samples a handful of inputs; the claim is about every point of a continuous input space.", "anchors": ["calkulate/core.py: _lsqfun_calibrate_pH, calibrate_pH, solve_pH"]}
{"id": "C34", "title": "pH_gran recovers exact alkalinity and calibrates uniquely", "statement": "On data where (m+M) 10^-pH is proportional to (m c n - M A) at the used points core.solve_pH_gran returns exactly 1e6 A; its alkalinity is proportional to titrant molinity, so calibration has exactly one solution when the intercept is non-zero.", "quantifier": "all titrations with two distinct used masses", "why_tests_cant": "A test samples a handful of inputs; the claim is about every point of a continuous input space.", "anchors": ["calkulate/core.py: solve_pH_gran, _lsqfun_calibrate_pH_gran"]}
{"id": "C35", "title": "The true alkalinity and EMF0 zero the solver residual", "statement": "For data simulated from alkalinity A and EMF0 E (pH_to_emf of the pH whose simulated alkalinity is (M A - m c n)/(M + m)), the core.solve_emf residual is exactly zero at (A, E) at every point.", "quantifier": "all simulated titrations", "why_tests_cant": "A test samples a handful of inputs; the claim is about every point of a continuous input space.", "anchors": ["calkulate/core.py: _lsqfun_solve_emf", "calkulate/simulate.py: _titration"]}
{"id": "C36", "title": "Zero residual means every used point agrees", "statement": "In a core.solve_emf result whose final residuals are all zero, alkalinity_all equals alkalinity at every used point and alkalinity_std is zero.", "quantifier": "all titrations, all optimisers", "why_tests_cant": "A test samples a handful of inputs; the claim is about every point of a continuous input space.", "anchors": ["calkulate/core.py: solve_emf, _lsqfun_solve_emf"]}
{"id": "C37", "title": "Double solving is two single solves and terminates", "statement": "core.solve_emf(double=True) equals a second double=False solve started from the first solve's alkalinity and EMF0 (with default Gran logic); it never recurses further.", "quantifier": "all inputs, all optimisers", "why_tests_cant": "Recursion depth must be bounded for every input.", "anchors": ["calkulate/core.py: solve_emf"]}
{"id": "C38", "title": "Points used by solve_emf", "statement": "used is exactly the closed pH window evaluated with the starting EMF0 (Gran's, or emf0_init), which need not be the window evaluated with the returned pH, even with double=True.", "quantifier": "all titrations, optimisers", "why_tests_cant": "A test samples a handful of inputs; the claim is about every point of a continuous input space.", "anchors": ["calkulate/core.py: solve_emf"]}
{"id": "C39", "title": "EMF offset equivariance of the solver residual", "statement": "Adding the same constant to every EMF and to EMF0 leaves the solve residual unchanged, so electrode offset only moves EMF0.", "quantifier": "all titrations, offsets", "why_tests_cant": "A test samples a handful of inputs; the claim is about every point of a continuous input space.", "anchors": ["calkulate/core.py: _lsqfun_solve_emf"]}
{"id": "C40", "title": "Scaling both masses leaves alkalinity unchanged", "statement": "Multiplying titrant and analyte masses by one positive factor changes none of the solve_pH / solve_pH_gran results.", "quantifier": "all titrations, factors > 0", "why_tests_cant": "A test samples a handful of inputs; the claim is about every point of a continuous input space.", "anchors": ["calkulate/core.py: solve_pH, solve_pH_gran"]}
{"id": "C41", "title": "add_titrant_totals touches only the named totals and adds the exact amount", "statement": "Each named total gains m (c - c_prev) f / (m + M) at every point, no other entry changes, and a name that is not of the form titrant_total_* or not in totals raises.", "quantifier": "all dictionaries, factor sets, masses", "why_tests_cant": "A test samples a handful of inputs; the claim is about every point of a continuous input space.", "anchors": ["calkulate/core.py: add_titrant_totals"]}
{"id": "C42", "title": "Calibration residuals are path-independent and leave totals intact", "statement": "Whatever sequence of trial molinities the optimiser evaluates, every evaluation sees the caller's original totals and totals are unchanged afterwards (real arithmetic).", "quantifier": "all optimiser histories, titrations, titrant totals", "why_tests_cant": "Depends on the whole history of calls / evaluation points, which a test can only sample.", "anchors": ["calkulate/core.py: _lsqfun_calibrate_emf, _lsqfun_calibrate_pH, _lsqfun_calibrate_pH_gran, add_titrant_totals"]}
{"id": "C43", "title": "The same holds in double precision", "statement": "In IEEE-754 binary64 the totals are restored bit-for-bit after each calibration residual evaluation.", "quantifier": "all optimiser histories, all binary64 totals", "why_tests_cant": "Depends on the whole history of calls / evaluation points, which a test can only sample.", "anchors": ["calkulate/core.py: _lsqfun_calibrate_pH, add_titrant_totals"]}
{"id": "C44", "title": "A failed calibration leaves the caller's totals untouched", "statement": "If core.calibrate_* raises (for instance because pH_min >= pH_max), the totals dictionary passed in is unchanged.", "quantifier": "all failure points", "why_tests_cant": "Depends on the whole history of calls / evaluation points, which a test can only sample.", "anchors": ["calkulate/core.py: _lsqfun_calibrate_pH, _lsqfun_calibrate_emf, add_titrant_totals"]}
{"id": "C45", "title": "Solving honours the pH scale of the constants", "statement": "solve_pH evaluated with pH and constants on the Total scale gives the alkalinity of the Total-scale equation.", "quantifier": "all Total-scale titrations", "why_tests_cant": "A test samples a handful of inputs; the claim is about every point of a continuous input space.", "anchors": ["calkulate/core.py: solve_pH", "calkulate/simulate.py: alkalinity"]}
{"id": "C46", "title": "Row values beat keyword arguments unless null", "statement": "For every recognised setting: a non-null value in the row wins, else the keyword argument applies, else the default; unrecognised names never get through.", "quantifier": "all key sets, kwargs, rows", "why_tests_cant": "Every combination of present/absent/null per key.", "anchors": ["calkulate/meta.py: _get_kwargs_for"]}
{"id": "C47", "title": "Old-style kwargs mean the same as new ones", "statement": "pH_range=(a,b) acts as pH_min=a, pH_max=b; read_dat_kwargs entries act as direct kwargs; read_dat_method acts as file_type; a null read_dat_method in a row is ignored.", "quantifier": "all kwargs and rows", "why_tests_cant": "Every combination of old and new keys.", "anchors": ["calkulate/dataset.py: _backcompat"]}
{"id": "C48", "title": "Extra columns are ignored", "statement": "Adding columns whose names are not recognised settings or outputs changes no result of solve or calibrate for any row.", "quantifier": "all datasets, all extra columns", "why_tests_cant": "Tests run one fixed spreadsheet; the claim is about every dataset, every row content and every failure pattern.", "anchors": ["calkulate/dataset.py: solve, calibrate, solve_row, calibrate_row", "docs/metadata.md"]}
{"id": "C49", "title": "A kwarg reported as ignored is ignored", "statement": "Every keyword that dataset.solve warns it is ignoring has no effect on the results, and every keyword it does not warn about is a recognised setting.", "quantifier": "all kwargs", "why_tests_cant": "All subsets of kwargs.", "anchors": ["calkulate/dataset.py: solve", "calkulate/files.py: keys_calibrate, keys_solve"]}
{"id": "C50", "title": "solve_mode dispatch", "statement": "files.solve and files.calibrate select emf / pH_adjust / pH / pH_gran case-insensitively, raise for any other name, and pH_adjust always starts from EMF0 = 0 whatever emf0_init is given.", "quantifier": "all mode strings, kwargs", "why_tests_cant": "A test samples a handful of inputs; the claim is about every point of a continuous input space.", "anchors": ["calkulate/files.py: solve, calibrate"]}
{"id": "C51", "title": "Rows are solved independently", "statement": "Each row's solve output is a function of that row and the kwargs only: a failing row yields a blank result and never affects another, permuting rows permutes results, and appending rows leaves earlier results alone.", "quantifier": "all datasets, all failure patterns", "why_tests_cant": "Tests run one fixed spreadsheet; the claim is about every dataset, every row content and every failure pattern.", "anchors": ["calkulate/dataset.py: solve, solve_row"]}
{"id": "C52", "title": "Files marked bad are never imported", "statement": "For a row with file_good False or a null titrant_molinity (alkalinity_certified for calibrate) the outcome is the blank result whatever the file contains or whether it exists.", "quantifier": "all rows, all file systems", "why_tests_cant": "Tests run one fixed spreadsheet; the claim is about every dataset, every row content and every failure pattern.", "anchors": ["calkulate/dataset.py: solve_row, calibrate_row"]}
{"id": "C53", "title": "Batch molinity is the mean of that batch's good references only", "statement": "titrant_molinity of every row equals the arithmetic mean of titrant_molinity_here over rows of the same analysis_batch with reference_good true and a non-null value; other batches never matter; a batch without any gets NaN.", "quantifier": "all datasets, batches, flags", "why_tests_cant": "Tests run one fixed spreadsheet; the claim is about every dataset, every row content and every failure pattern.", "anchors": ["calkulate/dataset.py: get_group_calibration, get_batches, calibrate"]}
{"id": "C54", "title": "A row with a missing analysis_batch does not stop the calibration", "statement": "calibrate completes for every dataset with the required columns, whatever is missing in individual rows.", "quantifier": "all datasets", "why_tests_cant": "Tests run one fixed spreadsheet; the claim is about every dataset, every row content and every failure pattern.", "anchors": ["calkulate/dataset.py: calibrate, get_batches"]}
{"id": "C55", "title": "Re-running changes nothing", "statement": "solve(solve(ds)) = solve(ds), calibrate(calibrate(ds)) = calibrate(ds), and calkulate(ds) = calibrate(ds), for a deterministic optimiser.", "quantifier": "all datasets, kwargs", "why_tests_cant": "Depends on the whole history of calls / evaluation points, which a test can only sample.", "anchors": ["calkulate/dataset.py: solve, calibrate, calkulate"]}
{"id": "C56", "title": "Estimating total salts never overwrites given values", "statement": "After prepare, every non-null total_sulfate/borate/fluoride is unchanged, every null one holds the PyCO2SYS value, null opt_total_borate becomes 1, and doing it again changes nothing.", "quantifier": "all datasets", "why_tests_cant": "Tests run one fixed spreadsheet; the claim is about every dataset, every row content and every failure pattern.", "anchors": ["calkulate/dataset.py: get_total_salts, prepare"]}
{"id": "C57", "title": "Solving depends only on the current metadata", "statement": "After editing a metadata column (e.g. salinity) and re-solving, the results equal those of a fresh dataset with the edited values.", "quantifier": "all edit histories", "why_tests_cant": "Depends on the whole history of calls / evaluation points, which a test can only sample.", "anchors": ["calkulate/dataset.py: get_total_salts, solve"]}
{"id": "C58", "title": "No API call alters the user's other columns", "statement": "Any sequence of solve / calibrate / calkulate keeps the number and order of rows and every column other than the documented outputs and null-filled settings.", "quantifier": "all datasets, all call sequences", "why_tests_cant": "Depends on the whole history of calls / evaluation points, which a test can only sample.", "anchors": ["calkulate/dataset.py: solve, calibrate, calkulate, prepare"]}
{"id": "C59", "title": "alkalinity_offset is measured minus certified", "statement": "After solve, alkalinity_offset exists exactly when alkalinity_certified exists and equals alkalinity - alkalinity_certified in every row (NaN if either is null).  In double precision it is that difference up to one rounding, is zero exactly when the two are equal and otherwise has the right sign.", "quantifier": "all datasets", "why_tests_cant": "Tests run one fixed spreadsheet; the claim is about every dataset, every row content and every failure pattern.", "anchors": ["calkulate/dataset.py: solve"]}
{"id": "C60", "title": "A batch with one good reference reproduces its certified value", "statement": "With an optimiser that returns an exact root and gran_logic left at its default (calibrate does not accept it), after calibrate the alkalinity of a row that is the only good reference in its batch equals alkalinity_certified.", "quantifier": "all datasets, all four solve modes and their settings; finite data if the titrant contributes to the totals", "why_tests_cant": "Tests run one fixed spreadsheet; the claim is about every dataset, every row content and every failure pattern.", "anchors": ["calkulate/dataset.py: calibrate", "calkulate/files.py: calibrate, solve"]}
{"id": "C61", "title": "to_Titration reproduces the dataset row", "statement": "A Titration made from a solved dataset row has the same alkalinity (and emf0) as that row.", "quantifier": "all rows, including rows with null optional columns", "why_tests_cant": "Tests run one fixed spreadsheet; the claim is about every dataset, every row content and every failure pattern.", "anchors": ["calkulate/classes.py: Titration.__init__", "calkulate/dataset.py: solve_row"]}
{"id": "C62", "title": "Titration tables are filled when only the analyte volume is known", "statement": "Titration.titration columns alkalinity_from_acid, dilution_factor and alkalinity_estimate are finite for a row given by analyte_volume.", "quantifier": "all rows with analyte_volume only", "why_tests_cant": "Tests run one fixed spreadsheet; the claim is about every dataset, every row content and every failure pattern.", "anchors": ["calkulate/classes.py: get_alkalinity_from_acid, do_CO2SYS"]}
{"id": "C63", "title": "Titration's alkalinity estimates match the solver's", "statement": "alkalinity_estimate in the Titration table equals the solver's alkalinity_all at each point (PyCO2SYS agreeing with simulate.alkalinity), for every titrant normality.", "quantifier": "all rows, normalities", "why_tests_cant": "A test samples a handful of inputs; the claim is about every point of a continuous input space.", "anchors": ["calkulate/classes.py: do_CO2SYS", "calkulate/core.py: solve_emf"]}
{"id": "C64", "title": "A Titration can always be printed", "statement": "str() and repr() of any Titration succeed.", "quantifier": "all titrations with or without file_path", "why_tests_cant": "Tests run one fixed spreadsheet; the claim is about every dataset, every row content and every failure pattern.", "anchors": ["calkulate/classes.py: Titration.__str__, Titration.__repr__"]}
{"id": "C65", "title": "write_dat then read_dat returns the data", "statement": "Writing n >= 2 rows with write_dat and reading the file back yields n rows, each value within half a unit of the last written decimal.", "quantifier": "all arrays, precisions", "why_tests_cant": "A test samples a handful of inputs; the claim is about every point of a continuous input space.", "anchors": ["calkulate/read/titrations.py: write_dat, read_dat_genfromtxt"]}
{"id": "C66", "title": "Any written file can be read", "statement": "Every file produced by write_dat, including one with a single data row, is readable with read_dat.", "quantifier": "all data lengths", "why_tests_cant": "Edge lengths.", "anchors": ["calkulate/read/titrations.py: write_dat, read_dat_genfromtxt"]}
{"id": "C67", "title": "write_dat never overwrites by default and never touches other files", "statement": "With the default mode an existing file is left as it was and an error is raised; a new file is created otherwise; no other file changes.", "quantifier": "all file systems, paths, data", "why_tests_cant": "Depends on the whole history of calls / evaluation points, which a test can only sample.", "anchors": ["calkulate/read/titrations.py: write_dat"]}
{"id": "C68", "title": "PC-LIMS import takes exactly the first contiguous block of data lines", "statement": "read_dat(file_type='pclims') returns the rows of the first maximal run of consecutive lines matching the data pattern and ignores everything before and after.", "quantifier": "all report files", "why_tests_cant": "A test samples a handful of inputs; the claim is about every point of a continuous input space.", "anchors": ["calkulate/read/titrations.py: read_dat_pclims"]}
{"id": "C69", "title": "PC-LIMS import keeps rows with negative measurements", "statement": "No titration row of a PC-LIMS report is dropped, whatever the sign of its measurement.", "quantifier": "all reports", "why_tests_cant": "A test samples a handful of inputs; the claim is about every point of a continuous input space.", "anchors": ["calkulate/read/titrations.py: read_dat_pclims"]}
{"id": "C70", "title": "Unknown file types fall back to genfromtxt with a warning naming them", "statement": "read_dat with an unrecognised file_type behaves as 'genfromtxt' and the warning names the unrecognised method.", "quantifier": "all type names", "why_tests_cant": "A test samples a handful of inputs; the claim is about every point of a continuous input space.", "anchors": ["calkulate/read/titrations.py: read_dat"]}
{"id": "C71", "title": "Tiamo volumes are offset by the pre-titration volume", "statement": "Every volume returned for a tiamo_de file is the listed volume plus the volume of the last pre-titration line; pH and temperature are unchanged.", "quantifier": "all files", "why_tests_cant": "A test samples a handful of inputs; the claim is about every point of a continuous input space.", "anchors": ["calkulate/read/titrations.py: _read_tiamo_de_df, read_tiamo_de"]}
{"id": "C72", "title": "VINDTA bottle file names identify the sample", "statement": "The default file name format maps different (station, cast, niskin, depth, bottle) to different names, and never to a name given to a CRM row.", "quantifier": "all integer fields and bottle names", "why_tests_cant": "A test samples a handful of inputs; the claim is about every point of a continuous input space.", "anchors": ["calkulate/read/metadata.py: get_VINDTA_filenames"]}
{"id": "C73", "title": "VINDTA CRM file names identify the sample", "statement": "Different (batch, bottle) pairs of CRM rows get different file names.", "quantifier": "all batches and bottles", "why_tests_cant": "A test samples a handful of inputs; the claim is about every point of a continuous input space.", "anchors": ["calkulate/read/metadata.py: get_VINDTA_filenames"]}
{"id": "C74", "title": "dbs rows of unknown run type are excluded from processing", "statement": "A row that is neither bottle nor CRM gets file_good False and therefore a blank result from solve, whatever its other contents; bottle and CRM rows keep their file_good.", "quantifier": "all dbs tables", "why_tests_cant": "Tests run one fixed spreadsheet; the claim is about every dataset, every row content and every failure pattern.", "anchors": ["calkulate/read/metadata.py: get_VINDTA_filenames", "calkulate/dataset.py: solve_row"]}
{"id": "C75", "title": "dbs dates are month/day/two-digit-year", "statement": "mm/dd/yy plus hh:mm becomes 20yy-mm-ddThh:mm, different dates give different stamps, and a missing date gives NaT.", "quantifier": "all date and time strings", "why_tests_cant": "A test samples a handful of inputs; the claim is about every point of a continuous input space.", "anchors": ["calkulate/read/metadata.py: dbs_datetime"]}
{"id": "C76", "title": "Without gas exchange DIC only dilutes", "statement": "With k_dic_loss = 0 the fitted DIC model on the uniform grid equals dic_start x dilution factor at every step.", "quantifier": "all grids, masses, dic_start", "why_tests_cant": "Closed form for every step count.", "anchors": ["calkulate/loss.py: dic_loss_model_fitted"]}
{"id": "C77", "title": "Modelled DIC is affine and decreasing in k_dic_loss", "statement": "At every step the fitted DIC is affine in k_dic_loss, and non-increasing in it when delta fCO2 >= 0.", "quantifier": "all grids, delta fCO2 histories, k", "why_tests_cant": "Induction over the step count.", "anchors": ["calkulate/loss.py: dic_loss_model_fitted"]}
{"id": "C78", "title": "fCO2 in the loss model is the CO2 species of the speciation model", "statement": "loss.get_fCO2_from_dic_pH equals the CO2 of simulate.alkalinity_components divided by k0.", "quantifier": "all dic, pH, constants", "why_tests_cant": "A test samples a handful of inputs; the claim is about every point of a continuous input space.", "anchors": ["calkulate/loss.py: get_fCO2_from_dic_pH", "calkulate/simulate.py: alkalinity_components"]}
{"id": "C79", "title": "High-resolution DIC-loss arrays are aligned with titrant mass", "statement": "In the result of get_dic_loss_hires the j-th dic and delta_fCO2 belong to the j-th titrant_mass.", "quantifier": "all pH series", "why_tests_cant": "A test samples a handful of inputs; the claim is about every point of a continuous input space.", "anchors": ["calkulate/loss.py: get_dic_loss_hires"]}
{"id": "C80", "title": "Forecast fCO2 uses the pH of its own step", "statement": "In dic_loss_model_future every delta_fCO2 is computed from the DIC, pH and constants of the same titrant mass.", "quantifier": "all forecasts", "why_tests_cant": "A test samples a handful of inputs; the claim is about every point of a continuous input space.", "anchors": ["calkulate/loss.py: dic_loss_model_future"]}
{"id": "C81", "title": "Simulated titrations conserve alkalinity and dilute everything", "statement": "In simulate._titration the alkalinity at each step is (M A - m c)/(M + m), totals are diluted by M/(M+m), and with k_dic_loss = 0 the DIC equals the no-loss DIC at every step.", "quantifier": "all parameters, step counts", "why_tests_cant": "Induction over steps.", "anchors": ["calkulate/simulate.py: _titration"]}
{"id": "C82", "title": "simulate.titration returns a titration", "statement": "simulate.titration(alkalinity) returns a solved titration for valid parameters.", "quantifier": "all parameters", "why_tests_cant": "A test samples a handful of inputs; the claim is about every point of a continuous input space.", "anchors": ["calkulate/simulate.py: titration"]}
{"id": "C83", "title": "Results do not depend on hash seeds", "statement": "Python iterates the sets of recognised keyword names in an arbitrary order; whatever that order, settings resolution, titrant-total additions and hence solve/calibrate results are the same.", "quantifier": "all orders of every key set, all kwargs and rows", "why_tests_cant": "The order changes from process to process and is outside the tester's control.", "anchors": ["calkulate/meta.py: _get_kwargs_for", "calkulate/core.py: add_titrant_totals"]}
{"id": "C84", "title": "A blank window gives a blank alkalinity", "statement": "A titration with no data point inside the pH window (alkalinity_npts = 0) reports a null alkalinity.", "quantifier": "all titrations, windows, solve modes", "why_tests_cant": "A test samples a handful of inputs; the claim is about every point of a continuous input space.", "anchors": ["calkulate/core.py: solve_emf, solve_pH, solve_pH_gran", "calkulate/dataset.py: add_solve_results"]}
{"id": "C85", "title": "Every registered file type can be used by solve and calibrate", "statement": "For every entry of the file_types table, a well-formed file of that type can be imported and converted to masses.", "quantifier": "all registered file types and file contents", "why_tests_cant": "Finite table times unbounded file contents.", "anchors": ["calkulate/read/titrations.py: file_types, read_dat_orgalk_excel", "calkulate/convert.py: amount_units"]}
{"id": "C86", "title": "files.solve is a pure function of its inputs", "statement": "Two calls of files.solve with the same arguments and file give the same result, because the totals it modifies are freshly created by each call.", "quantifier": "all call sequences", "why_tests_cant": "Depends on the whole history of calls / evaluation points, which a test can only sample.", "anchors": ["calkulate/files.py: solve", "calkulate/core.py: totals_ks, add_titrant_totals"]}
{"id": "C87", "title": "PyCO2SYS H2SO4 dilution conserves sulfate and skips what the plain variant skips", "statement": "convert.dilute_totals_pyco2_H2SO4 dilutes the nine other salts, sets TSO4 to the mixed content, leaves other entries untouched and raises if TSO4 is absent.", "quantifier": "all dictionaries, masses", "why_tests_cant": "A test samples a handful of inputs; the claim is about every point of a continuous input space.", "anchors": ["calkulate/convert.py: dilute_totals_pyco2_H2SO4"]}
{"id": "C88", "title": "User-supplied totals and constants reach the solver", "statement": "A total (borate, fluoride, sulfate, alpha, beta, dic, nutrients) or equilibrium constant supplied by the user is what simulate uses (x 1e-6, diluted), provided PyCO2SYS keeps the entries it is given.", "quantifier": "all settings", "why_tests_cant": "A test samples a handful of inputs; the claim is about every point of a continuous input space.", "anchors": ["calkulate/interface.py: get_totals, get_k_constants", "calkulate/core.py: totals_ks"]}
{"id": "C89", "title": "The extra acids' contribution does not depend on the pH scale", "statement": "Re-expressing pH and all constants on another scale leaves the contribution of the extra acids alpha and beta to the alkalinity unchanged.", "quantifier": "all scale factors > 0, pH, totals, constants", "why_tests_cant": "A test samples a handful of inputs; the claim is about every point of a continuous input space.", "anchors": ["calkulate/simulate.py: alkalinity_components"]}
{"id": "C90", "title": "The DIC-loss fit has one best value", "statement": "The sum of squared differences between measured DIC and the fitted DIC-loss model is a strictly convex parabola in k_dic_loss whenever the model depends on k at some measured point, so the least-squares value is unique and is the one given by the normal equation.", "quantifier": "all grids, delta fCO2 histories, measurements", "why_tests_cant": "A numerical fit shows one minimum, not that there is no other.", "anchors": ["calkulate/loss.py: dic_loss_model_fitted, _lsqfun_dic_loss_model, get_dic_loss"]}
{"id": "C91", "title": "read_dbs keeps the table", "statement": "read_dbs keeps the number and order of the rows and every column it does not document as its own; 'run type' becomes run_type with its values; exactly one of analyte_mass and analyte_volume is set, to the given value.", "quantifier": "all dbs tables and arguments", "why_tests_cant": "Tests run one fixed spreadsheet; the claim is about every dataset, every row content and every failure pattern.", "anchors": ["calkulate/read/metadata.py: read_dbs"]}
{"id": "C92", "title": "Simulated alkalinity is Dickson's proton acceptors minus proton donors", "statement": "simulate.alkalinity is [HCO3]+2[CO3]+[B(OH)4]+[OH]+[HPO4]+2[PO4]+[H3SiO4]+[NH3]+[HS]-[H]-[HSO4]-[HF]-[H3PO4] plus the extra acids' contributions, over the species that alkalinity_components lists, with [H] = 10^-pH and [OH] = kw/[H].", "quantifier": "all pH, totals, constants, scales", "why_tests_cant": "A test samples a handful of inputs; the claim is about every point of a continuous input space.", "anchors": ["calkulate/simulate.py: alkalinity, alkalinity_components, component_multipliers"]}
{"id": "C93", "title": "What the user does not supply is what PyCO2SYS gives for this titration", "statement": "The borate, fluoride and sulfate totals and the equilibrium constants of a solved titration are the results, under the corresponding names, of PyCO2SYS called with the titration's salinity, temperatures, nutrients and option settings (or their defaults) and with exactly the totals and constants that the user supplied; salts are diluted with the titrant, and on the Total scale k_fluoride is converted with 1 + TSO4/k_bisulfate.", "quantifier": "all files, settings, PyCO2SYS behaviours, solve modes", "why_tests_cant": "Every combination of supplied and omitted settings and whatever PyCO2SYS returns.", "anchors": ["calkulate/interface.py: get_totals, get_k_constants", "calkulate/core.py: totals_ks", "calkulate/files.py: solve"]}
{"id": "C94", "title": "A higher pH reading never lowers the alkalinity", "statement": "In pH mode, if the pH of the points inside the pH range is raised (the same points staying inside), the reported alkalinity does not fall, and it rises if any of those readings rose.", "quantifier": "all titrations, pH series, totals and constants that are positive finite numbers", "why_tests_cant": "Ranges over all pairs of pH series and all compositions.", "anchors": ["calkulate/core.py: solve_pH", "calkulate/simulate.py: alkalinity_components, alkalinity"]}
{"id": "C95", "title": "Alkalinity follows the contents of the sample in the right direction", "statement": "In pH mode with the pH series fixed, raising the total of a proton acceptor (DIC, borate, silicate, ammonia, sulfide) or lowering that of a proton donor (fluoride, sulfate) never lowers the reported alkalinity, and raises it if any of these changes is at a used point. Phosphate, whose sign depends on the pH, is kept fixed.", "quantifier": "all titrations, pairs of compositions, constants", "why_tests_cant": "Ranges over all pairs of compositions.", "anchors": ["calkulate/core.py: solve_pH", "calkulate/simulate.py: alkalinity_components"]}
{"id": "C96", "title": "The order in which points are listed matters only to the default Gran logic", "statement": "In pH and pH_gran modes, and for the legacy Gran guesses, listing the data points (with their temperatures, totals and constants) in another order gives the same alkalinity, the same spread and the same EMF0, and the per-point columns in the new order. The default Gran logic, which cuts the titration off after the maximum of the Gran function, does depend on the order.", "quantifier": "all titrations, all permutations of their points", "why_tests_cant": "Ranges over all permutations and lengths.", "anchors": ["calkulate/core.py: solve_pH, solve_pH_gran, gran_guesses, gran_alkalinity"]}
{"id": "C97", "title": "Only molinity times normality matters", "statement": "All three solvers give the same alkalinity, EMF0, spread, used points, per-point values and errors for two titrants with the same product of molinity and normality.", "quantifier": "all titrations, settings, optimisers, titrants", "why_tests_cant": "Ranges over all titrations and all ways to split the product.", "anchors": ["calkulate/core.py: solve_emf, solve_pH, solve_pH_gran, gran_guesses"]}
{"id": "C98", "title": "The fitted alkalinity is the dilution-weighted mean of the used estimates", "statement": "In emf mode the residual of a used point is its own estimate minus the alkalinity, times its dilution factor. If no other alkalinity lowers the sum of squared residuals by more than eps, the alkalinity is within sqrt(10^12 eps / sum of weights) of the mean of the used estimates with weights (M/(m+M))^2, and equal to it (so between the smallest and largest used estimate) at an exact optimum.", "quantifier": "all titrations, settings, optimisers, tolerances eps", "why_tests_cant": "Ranges over all titrations and every optimiser.", "anchors": ["calkulate/core.py: solve_emf, _lsqfun_solve_emf"]}
{"id": "C99", "title": "Every titration point is drawn exactly once", "statement": "In the pH, alkalinity, component and Gran plots of a Titration every data point appears exactly once: filled if the solver (or, in the Gran plots, the Gran step) used it, open if not; and the number of filled points is the reported alkalinity_npts.", "quantifier": "all titrations, settings, solve modes", "why_tests_cant": "Which points are used varies with the data; only a proof covers every mask and length.", "anchors": ["calkulate/plot/titration.py: pH, alkalinity, components, emf0_gran, alkalinity_gran"]}
{"id": "C100", "title": "Which plots a Titration can draw", "statement": "Once a Titration is made, the pH, alkalinity and component plots can always be drawn; the EMF and both Gran plots in the EMF modes; the Gran alkalinity plot but not the EMF plots in pH_gran mode; none of these three in pH mode, where they stop with AttributeError. The DIC-loss and fCO2-loss plots can never be drawn.", "quantifier": "all titrations, solve modes, data", "why_tests_cant": "Absence of exceptions for every titration.", "anchors": ["calkulate/plot/titration.py", "calkulate/classes.py: Titration"]}
{"id": "C101", "title": "The Gran line is the regression of the filled points", "statement": "The line of the Gran plot is the least-squares line through exactly the filled points, it meets zero at the vertical line drawn, and the Gran alkalinity in the title is that titrant mass times molinity times normality over the analyte mass.", "quantifier": "all titrations with finite, non-degenerate Gran points", "why_tests_cant": "Ranges over all data sets.", "anchors": ["calkulate/plot/titration.py: alkalinity_gran", "calkulate/core.py: gran_guesses, solve_pH_gran"]}
{"id": "C102", "title": "The spread in the title of the alkalinity plot is the reported spread", "statement": "The alkalinity plot's title reports the same plus-or-minus value as the titration's alkalinity_std.", "quantifier": "all titrations", "why_tests_cant": "Ranges over all data sets.", "anchors": ["calkulate/plot/titration.py: alkalinity", "calkulate/core.py: solve_emf, solve_pH"]}
{"id": "C103", "title": "The band in the pH plot is the pH range in force", "statement": "The pH plot draws exactly one band, from the pH_min to the pH_max that the solver used (settings or defaults), and in the pH modes the filled points are exactly the points inside it.", "quantifier": "all titrations, settings", "why_tests_cant": "Ranges over all settings and data.", "anchors": ["calkulate/plot/titration.py: pH", "calkulate/core.py: solve_pH, solve_pH_gran"]}
{"id": "C104", "title": "Every analysis is drawn exactly once in the dataset plots", "statement": "plot.titrant_molinity and plot.alkalinity_offset draw each row of the table exactly once, at its analysis number or chosen x variable: filled if it is a good reference, as a cross if not (and left out only with show_bad=False); all rows count as good where there is no reference_good column.", "quantifier": "all datasets and plot arguments", "why_tests_cant": "Tests run one fixed spreadsheet; the claim is about every dataset, every row content and every failure pattern.", "anchors": ["calkulate/plot/__init__.py: titrant_molinity, alkalinity_offset"]}
{"id": "C105", "title": "Batch lines show the batch means", "statement": "After calibrate both dataset plots can be drawn, each line of the titrant molinity plot is horizontal at the mean molinity of the good references of one batch, and each analysis is on exactly one line.", "quantifier": "all datasets, batches, solver behaviours", "why_tests_cant": "Tests run one fixed spreadsheet; the claim is about every dataset, every row content and every failure pattern.", "anchors": ["calkulate/plot/__init__.py: titrant_molinity", "calkulate/dataset.py: calibrate, get_batches"]}
{"id": "C106", "title": "Dataset plots do not need a reference_good column", "statement": "A table without a reference_good column can be plotted, all of its analyses counting as good.", "quantifier": "all datasets without the column, plot arguments", "why_tests_cant": "Tests run one fixed spreadsheet; the claim is about every dataset, every row content and every failure pattern.", "anchors": ["calkulate/plot/__init__.py: titrant_molinity, alkalinity_offset", "calkulate/dataset.py: get_batches"]}
{"id": "C107", "title": "The DIC-loss profile follows its loss equation throughout", "statement": "For a titration whose pH passes the split value once, the high-resolution profile of loss.get_dic_loss_hires starts at the given DIC with no titrant and, from each titrant mass to the next (0, s/10, 2s/10, ... below the largest titrant mass, s the median dose), the DIC is diluted by one step of titrant and loses k_dic_loss * (fCO2 - fCO2_air) * step, in the fitted part, in the forecast and from the one to the other.", "quantifier": "all titrations, interpolators, optimisers, steps", "why_tests_cant": "Induction over the steps of a profile of any length, for every optimiser answer.", "anchors": ["calkulate/loss.py: get_dic_loss_hires, dic_loss_model_fitted, dic_loss_model_future"]}
{"id": "C108", "title": "The reported DIC loss at a titration point is the profile there", "statement": "loss.get_dic_loss reports, at every titration point, the profile's DIC (in mol/kg) and fCO2 at that titrant mass, the given DIC at the start, the measured fCO2 in the fitted part, and flags exactly the points with pH at or above the split as fitted.", "quantifier": "all titrations, interpolators that pass through their knots, optimisers", "why_tests_cant": "A test samples a handful of inputs; the claim is about every point of a continuous input space.", "anchors": ["calkulate/loss.py: get_dic_loss"]}
{"id": "C109", "title": "A missing reading costs only its own point", "statement": "If the reading at some titration point is missing (NaN) or lies outside the pH window, the analysis gives the alkalinity, its spread and the number of points used that it gives with that point deleted from the titration.", "quantifier": "all titrations, sets of deleted points, modes", "why_tests_cant": "A test samples a handful of inputs; the claim is about every point of a continuous input space.", "anchors": ["calkulate/core.py: solve_pH, solve_pH_gran, solve_emf, gran_guesses"]}
{"id": "C110", "title": "What the titrant brings is added to the sample's totals, whatever the sample contains", "statement": "Setting titrant_total_sulfate, titrant_total_phosphate or titrant_total_fluoride changes, of the totals and constants that the solver works with, only the named total, and raises it at each titration point by titrant_mass * titrant_molinity * value / (titrant_mass + analyte_mass), whether or not the sample itself contains that solute.", "quantifier": "all titration files, settings, molinities, numbers", "why_tests_cant": "A test samples a handful of inputs; the claim is about every point of a continuous input space.", "anchors": ["calkulate/files.py: solve", "calkulate/core.py: add_titrant_totals, get_totals"]}
{"id": "C111", "title": "The results in a table are those of its files", "statement": "After solving a table, each row shows what solving that row's own file with its own molinity, salinity and settings gives: alkalinity, number of points used, their population standard deviation, EMF0, the Gran estimates (alkalinity in umol/kg), and the first pH and temperature.  If the row has no molinity, is marked bad or its solve raises, all of these are blank.  After calibrating, titrant_molinity_here is what calibrating the row's own file against its certified alkalinity gives, and NaN otherwise.", "quantifier": "all tables, rows, files, settings, numbers", "why_tests_cant": "Tests run one fixed spreadsheet; the claim is about every dataset, every row content and every failure pattern.", "anchors": ["calkulate/dataset.py: solve, solve_row, calibrate, calibrate_row", "calkulate/files.py: solve, calibrate"]}
{"id": "C112", "title": "Reading settings choose the lines and columns of a file", "statement": "For a text file of skip_header header lines followed by data lines with fields separated by the delimiter, the titrant amounts, measurements and temperatures are exactly the fields of the columns given by col_titrant_amount, col_measurement and col_temperature (each with its documented default, negative numbers counting from the right), one point per data line, with nan where a field is not a number.  The same holds of the data lines of a PC LIMS report, recognised by their first n_cols fields.  Giving n_cols with any other file type stops the import.", "quantifier": "all files of that layout with any number of lines and columns, delimiters and settings", "why_tests_cant": "A test samples a handful of inputs; the claim is about every point of a continuous input space.", "anchors": ["calkulate/read/titrations.py: read_dat, read_dat_genfromtxt, read_dat_pclims"]}
{"id": "C113", "title": "Only the named file is read", "statement": "Solving and calibrating a file read the file at file_path joined with file_name (file_name alone if it is absolute or no file_path is given; one separator whether or not file_path ends with one), and nothing else of the file system: the same contents give the same result wherever the file is and whatever other files exist, and if there is no such file the call raises.", "quantifier": "all file systems, directories, file names, file types, settings, numbers", "why_tests_cant": "A test samples a handful of inputs; the claim is about every point of a continuous input space.", "anchors": ["calkulate/files.py: solve, calibrate", "calkulate/read/titrations.py: read_dat"]}
{"id": "C114", "title": "A perfect fit to three additions is the only one", "statement": "If the complete-calculation solver fits a strong-acid titration at one temperature perfectly, and three of the points it used were taken after different additions, then the alkalinity and EMF0 it returns are the true ones: no other pair explains the readings. Two different additions do not suffice: the same data can be fitted perfectly by different alkalinities, depending on the initial guesses.", "quantifier": "all titrations of a sample with only water's own ions at one temperature, all readings, initial guesses, windows, optimiser schedules, water constants and acids", "why_tests_cant": "A test samples a handful of inputs; the claim is about every point of a continuous input space.", "anchors": ["calkulate/core.py: solve_emf, _lsqfun_solve_emf"]}
{"id": "C115", "title": "Calibrating depends on the current metadata, not on the history", "statement": "After any sequence of column assignments, solves and calibrations, calibrating a table gives the same values as calibrating a fresh table holding the same assigned metadata; in particular a certified alkalinity entered after a first calibration counts in the next one.", "quantifier": "all tables, all sequences of assignments, solves and calibrations with any settings, all files and optimiser schedules", "why_tests_cant": "A test samples a handful of inputs; the claim is about every point of a continuous input space.", "anchors": ["calkulate/dataset.py: calibrate, get_batches, prepare, solve"]}
{"id": "C116", "title": "The order of the rows does not matter to calibrate", "statement": "Listing the rows of a table in another order lists the results of calibrate in that order: each row keeps its molinity and its results (real arithmetic).", "quantifier": "all tables, all permutations of the rows, settings, files and optimiser schedules", "why_tests_cant": "Tests run one fixed spreadsheet; the claim is about every dataset, every row content and every failure pattern.", "anchors": ["calkulate/dataset.py: calibrate, get_batches, get_group_calibration"]}
{"id": "C117", "title": "A batch without a good reference gets no results", "statement": "After calibrate, the titrations of a batch that has no good reference with a molinity have a missing titrant_molinity and blank results, whatever the other batches contain and whatever the table held before.", "quantifier": "all tables, batches, settings and files", "why_tests_cant": "Tests run one fixed spreadsheet; the claim is about every dataset, every row content and every failure pattern.", "anchors": ["calkulate/dataset.py: calibrate, get_group_calibration, solve_row"]}
{"id": "C118", "title": "Dilution stays safe in double precision", "statement": "With the floating-point numbers the code really uses, the dilution factor is finite, lies in [0, 1], is exactly 1 when no titrant was added, never increases as titrant is added, and is within 3 x 2^-53 (relative) of the exact quotient unless it is tiny; every diluted total is finite, keeps its sign, never exceeds the undiluted total in size, equals it where no titrant was added, and never increases with the titrant.", "quantifier": "all binary64 analyte masses > 0, titrant masses >= 0 with a sum up to 2^1001, all dictionaries of finite totals", "why_tests_cant": "Rounding could break a bound or an ordering at some pair of the 2^128 arguments; no test visits them.", "anchors": ["calkulate/convert.py: get_dilution_factor, dilute_totals"]}
{"id": "C119", "title": "The EMF fit has a best solution", "statement": "Whatever the sample contains, the sum of squares that solve_emf minimises is least at some alkalinity and EMF0, provided two of the points used were taken at one temperature and neither [H+] x mass nor [H+] / mass is equal at both: no other pair fits better, and no result can.", "quantifier": "all titrations, totals and constants with two such points; all pairs of alkalinity and EMF0", "why_tests_cant": "That a minimum over a plane exists cannot be seen from any number of evaluations.", "anchors": ["calkulate/core.py: _lsqfun_solve_emf, solve_emf"]}
{"id": "C120", "title": "The density of an H2SO4 titrant is E-AIM's", "statement": "density.H2SO4_25C_EAIM(titrant_molinity) is the best quadratic through the E-AIM densities of solutions with that molinity.", "quantifier": "all quadratics; all tabulated solutions", "why_tests_cant": "That no quadratic fits better is a statement about all triples of coefficients.", "anchors": ["calkulate/density.py: H2SO4_25C_EAIM", "density_estimator.py"]}
{"id": "C121", "title": "Titrant volumes become masses with the documented density", "statement": "If titrant amounts are volumes (the default), files.solve and files.calibrate give exactly what they would give for the same titration with the masses volume x density x 0.001 in kg, where the density is titrant_density if that is given, else the DSC07 density of HCl (default) with molinity_HCl (default 0.1) and molinity_NaCl (default 0.6), or for titrant='H2SO4' the E-AIM quadratic at molinity_H2SO4 (default 0.1). Settings that do not concern the kind of titrant (e.g. any density or molinity if the titrant was weighed) have no effect.", "quantifier": "all files, volumes, densities, molinities, other settings and values of the settings without effect", "why_tests_cant": "Depends on every combination of seven optional settings and on arbitrary volumes; the effect is in every later step of the solve.", "anchors": ["calkulate/convert.py: amount_units", "calkulate/files.py: solve, calibrate", "docs/metadata.md: titrant_amount_unit, titrant_density"]}
{"id": "C122", "title": "A sulfuric acid titrant is treated as sulfuric acid", "statement": "If the titrant is said to be sulfuric acid, the alkalinity that files.solve reports for pH data (solve_mode pH) is the one for which the measured pH is that of the sample plus the acid: each mole of acid brings two protons and one sulfate, and any set of such data from a sample of alkalinity A gives A. With titrant_normality=2 and titrant_total_sulfate=1 also given, that holds; titrant='H2SO4' alone always gives a lower alkalinity (whenever acid was added).", "quantifier": "all files, samples, molinities, pH ranges and other settings", "why_tests_cant": "A bias that depends on the sulfate equilibrium at every point, in every titration; a test would need a reference solution for each.", "anchors": ["calkulate/files.py: solve", "calkulate/core.py: solve_pH, add_titrant_totals", "calkulate/convert.py: amount_units", "docs/metadata.md: titrant"]}
{"id": "C123", "title": "Equilibrium constants vary through a titration with temperature only", "statement": "Unless dilute_totals_for_ks is set, the equilibrium constants that files.solve uses and reports depend on the temperatures, the salinity and the settings that describe the composition of the sample and the choice of constants, and on nothing else: two titrations that agree in these have the same constants, whatever their amounts, readings, titrant, mode or fitting range; and two points of one titration at the same temperature have the same constants, provided the service that computes the constants works point by point.", "quantifier": "all services, files, amounts, readings and settings", "why_tests_cant": "A dependence on the amount of titrant would be a small drift that no single example excludes; the claim is about every pair of titrations.", "anchors": ["calkulate/core.py: totals_ks", "calkulate/interface.py: get_k_constants", "docs/versions.md: 23.7", "docs/metadata.md: dilute_totals_for_ks"]}
{"id": "C124", "title": "A sample measured by volume counts as the mass it has", "statement": "If a sample is given by its volume V in ml (analyte_volume) and no mass, files.solve and files.calibrate do exactly what they do with the analyte_mass V times the density of seawater at the salinity of the sample and the temperature at which the titration starts (the override, if given); a volume given besides a mass plays no part; and Dataset.solve fills in the column analyte_mass with that mass.", "quantifier": "all services, files, volumes, temperatures, salinities and other settings", "why_tests_cant": "An equality of runs for all inputs, errors included; a test compares a few.", "anchors": ["calkulate/convert.py: amount_units", "calkulate/files.py: solve, calibrate", "calkulate/dataset.py: solve, solve_row", "docs/versions.md: 23.5", "docs/metadata.md: analyte_volume"]}
{"id": "C125", "title": "A small error in the pH readings makes a small error in the alkalinity", "statement": "If two pH titrations differ only in their readings, the same points lie in the pH window and no used reading differs by more than d, then their alkalinities differ by at most 1e6 ln(10) d B, where B bounds, over the used points, (1 + m/M) times the buffer capacity of the mixture between the two readings: hydrogen plus hydroxide plus a quarter of each total (n squared quarters for an n-protic acid).", "quantifier": "all titrations with non-negative totals and positive constants, all readings, all d", "why_tests_cant": "A bound over all pairs of titrations and all compositions; a test perturbs one reading in one file.", "anchors": ["calkulate/core.py: solve_pH", "calkulate/simulate.py: alkalinity"]}
{"id": "C126", "title": "Solving a written titration gives back the alkalinity, up to the decimals written", "statement": "If every used reading is within d of the true pH, the pH at which the mixture has the alkalinity that a sample of alkalinity A has left after the acid added, then the result of a pH solve is within 1e6 ln(10) d B of 1e6 A, with B as in C125; in particular, if a titration is written by write_dat with k decimals for the readings and the file is solved with default reading settings, the result is within 1e6 ln(10) B times half a unit of the k-th decimal of the alkalinity that was titrated.", "quantifier": "all files, paths, compositions, true titrations, numbers of decimals and windows", "why_tests_cant": "An end-to-end bound over all titrations and all roundings; tests compare a few files with a tolerance chosen by hand.", "anchors": ["calkulate/core.py: solve_pH", "calkulate/titrations.py: write_dat, read_dat", "calkulate/files.py: solve", "calkulate/simulate.py: alkalinity"]}
{"id": "C127", "title": "Errors of the molinity and of the certified value reach the samples in a known proportion", "statement": "If one titration is solved in pH mode with two titrant molinities, the alkalinities differ by 1e6 times the normality times the difference of the molinities times the mass of acid added per kg of sample, averaged over the points used. If a reference is calibrated exactly against two certified values, a sample solved with the two molinities found changes by the difference of the certified values times the ratio of the acid per kg of sample to the acid per kg of reference; with pH Gran plots the two alkalinities of the sample are in the ratio of the certified values. (Titrants that add to the totals are excluded.)", "quantifier": "all services, optimisers, files, settings, molinities and certified values", "why_tests_cant": "An exact relation between four runs, for all titrations; a test sees one pair of numbers.", "anchors": ["calkulate/core.py: solve_pH, calibrate_pH, solve_pH_gran, calibrate_pH_gran", "calkulate/files.py: solve, calibrate"]}
{"id": "C128", "title": "Calibrated against true references, ideal titrations give back the truth", "statement": "Suppose that, read with the settings of their rows, all files of an analysis batch that are not marked bad hold ideal titrations (in pH, or by pH Gran plot) of samples of alkalinities A_i with one and the same acid of molinity c, that the certified values of the references are their true alkalinities, that at least one reference of the batch was calibrated, and that the least-squares searches of the references end with residual zero. Then after calibrate the titrant molinity of the batch is exactly c and the alkalinity of every such row, reference or sample, is exactly A_i, however many references and samples there are and however much they differ in mass, composition and settings. (Titrants that add to the totals are excluded; the EMF mode needs assumptions on the optimiser that no code provides.)", "quantifier": "all services, optimisers, tables, batches, keyword arguments, molinities and alkalinities", "why_tests_cant": "The end-to-end claim of the package over all tables; a test has one table and a tolerance.", "anchors": ["calkulate/dataset.py: calibrate, solve, get_batches", "calkulate/files.py: solve, calibrate", "calkulate/core.py: solve_pH, calibrate_pH, solve_pH_gran, calibrate_pH_gran"]}
{"id": "C129", "title": "A perfect EMF fit vouches for the titrant and for the certified value", "statement": "Take a strong-acid titration (a sample with no weak acids or bases, one temperature) recorded without error with acid of true molinity c. Solve it in EMF mode with any molinity c' and any normality. If the fit leaves no residuals and used three points after different additions, then the molinity times normality put in is the true one, and the alkalinity and EMF0 that come out are the true ones: solving with a wrong molinity never gives a perfect fit. Likewise, if calibrate_emf reproduces its certified value exactly and the titration fits perfectly at the molinity it returns, then that molinity is the true one and the certified value was the sample's true alkalinity: a wrong certified value always leaves residuals. (The excluded case is a total alkalinity of sample plus titrant A + c n of zero.)", "quantifier": "all optimisers, molinities, normalities, alkalinities, EMF0 values, temperatures, sample masses, titration lengths, water constants, windows and initial guesses", "why_tests_cant": "Rules out a continuum of wrong molinities and certified values with any reading; a test tries a few.", "anchors": ["calkulate/core.py: solve_emf, calibrate_emf, _lsqfun_solve_emf, _lsqfun_calibrate_emf"]}
{"id": "C130", "title": "VINDTA file names do not depend on how the numbers are written", "statement": "The station, cast, Niskin and depth numbers of a bottle row may be integers, floats, or text with blanks, a sign and leading zeros. The file name is always the one of the whole numbers they stand for, so two bottle rows get the same file name exactly when these whole numbers and the bottle texts agree; digits after the point are dropped, so depths of 10.2 and 10.7 give one file name. A table whose rows are all of this kind always gets its names. A bottle row where one of the four numbers is missing or infinite stops the reading of the whole table with an error.", "quantifier": "all tables, all whole numbers, all floats with that whole part, all texts of that form", "why_tests_cant": "Ranges over all tables and all spellings of all numbers.", "anchors": ["calkulate/read/metadata.py: get_VINDTA_filenames"]}
{"id": "C131", "title": "Only the truth of file_good matters", "statement": "How a file_good verdict is written has no effect: replacing any value by another one of the same truth (True, 1, 'yes' and NaN are true; False, 0, None and empty text are false), or leaving the column out when every verdict is true, changes neither the results of solve nor those of calibrate in any other column. In particular a missing flag counts as good when it is a NaN and as bad when it is None.", "quantifier": "all tables, all keyword arguments, all files and optimisers, all ways of writing each flag", "why_tests_cant": "Ranges over all tables and all values of the column.", "anchors": ["calkulate/dataset.py: calibrate_row, solve_row, prepare"]}
{"id": "C132", "title": "How an error in the sample mass reaches the alkalinity", "statement": "Solving the same pH titration with two different sample masses uses the same points, and the two alkalinities differ by exactly the difference of the inverse masses times the moles of acid consumed (acid added, less the free acid in the titrant's share of the mixture), averaged over the points used: what the titrant did not bring is not affected by the mass. So a sample taken to be heavier than it is always comes out less alkaline, as long as the acid is stronger than the mixtures it makes.", "quantifier": "all files, all molinities and normalities, all pairs of positive sample masses, all pH windows, all compositions and constants (constants not following the dilution), all runs with finite data", "why_tests_cant": "Ranges over all titrations and all pairs of masses; a test compares two numbers.", "anchors": ["calkulate/files.py: solve", "calkulate/core.py: solve_pH, totals_ks", "calkulate/convert.py: dilute_totals, amount_units"]}
{"id": "C133", "title": "Line ends, blank lines and comments play no part", "statement": "Solving and calibrating a text file give the same result (or the same error) whether its lines end with line feeds, with carriage returns and line feeds, or with a mixture, and whether or not the last line is ended, for every file type.  In a text table (genfromtxt, vindta and unrecognised types) the same holds of what the skipped header lines say, of blank lines and comment lines after them, of comments at the end of data lines and of spaces at either end of a line.", "quantifier": "all texts, all ways of ending each line, all placements of blank lines, comments and spaces, all keyword arguments and optimisers", "why_tests_cant": "Ranges over all texts and all ways of marking lines; tests read a few files from one machine.", "anchors": ["calkulate/read/titrations.py: read_dat, read_dat_genfromtxt, read_dat_pclims, read_tiamo_de", "calkulate/files.py: solve, calibrate"]}
{"id": "C134", "title": "Offsets of references mirror the spread of the batch and cancel out", "statement": "In pH and pH-Gran mode, if each reference of a batch was calibrated exactly (residual zero) and solved, the alkalinity_offset calibrate reports for it equals its response times the difference between the batch's titrant_molinity and its own titrant_molinity_here, where the response is 10^6 times the normality factor times the mean acid used per mass of sample (pH mode) or the certified value over titrant_molinity_here (pH-Gran).  Hence the offsets of a batch's references, each divided by its response, add up to zero: non-zero offsets in one direction alone cannot occur.", "quantifier": "all datasets, batches, files, settings, certified values and optimisers that reach residual zero", "why_tests_cant": "Ranges over all sets of references and their disagreements.", "anchors": ["calkulate/dataset.py: calibrate, calibrate_row, get_batches, solve, solve_row", "calkulate/core.py: calibrate_pH, solve_pH, solve_pH_gran"]}
{"id": "C135", "title": "Reported means are right in double precision", "statement": "With the binary64 numbers the program computes with, the titrant_molinity that calibrate gives to the rows of a batch is a finite number that differs from the exact mean of the n titrant_molinity_here values of the batch's references by at most (n+3) times 2^-53 times the largest of them, and so lies between the smallest and the largest up to that error; with one reference it is that reference's molinity exactly.  The same bound holds for the alkalinity of pH mode against the exact mean of the estimates at the points used.  (Three references that agree exactly need not give exactly their value: for 0.1 the result is 0.10000000000000002.)", "quantifier": "all numbers of references or points (up to 2^40) and all finite binary64 values of ordinary size (largest between 2^-1000 and 2^900)", "why_tests_cant": "Rounding errors differ for every set of numbers; tests compare a few with a tolerance.", "anchors": ["calkulate/dataset.py: get_group_calibration, get_batches, calibrate", "calkulate/core.py: solve_pH"]}
{"id": "C136", "title": "Marking a reference as bad takes exactly that reference out of its batch", "statement": "Setting reference_good to False in one row of a table and calibrating again leaves the titrant_molinity_here and analysis_batch of every row as they were, and every value of every row of another batch.  In the batch of the marked reference, which had n references of mean molinity m, titrant_molinity moves from m to m + (m - x)/(n - 1), where x is the molinity of the reference left out: the mean of the others.  With n = 1 it becomes missing.", "quantifier": "all tables with a reference_good column, settings, files and optimisers", "why_tests_cant": "Tests mark one reference of one table; whether a row of another batch can be affected is a question about all tables.", "anchors": ["calkulate/dataset.py: get_group_calibration, get_batches, calibrate"]}
{"id": "C137", "title": "An error in one certified value is shared out over the references of its batch", "statement": "Changing alkalinity_certified from x to x' in one row of a table and calibrating again leaves the titrant_molinity_here of every other row, and every value of every row of another batch, as they were.  If the row is one of n references of its batch, is calibrated exactly both times (in pH or pH-Gran mode) and its alkalinity grows by k per unit of titrant molinity, then its own molinity moves by (x' - x)/k, the molinity of the batch by (x' - x)/(k n), and the alkalinity of every titration of the batch with growth k_i by (k_i/k)(x' - x)/n: with similar titrations every sample moves by an n-th of the error.", "quantifier": "all tables, settings, files, optimisers and values x and x'", "why_tests_cant": "Tests calibrate with one set of certified values; how an error in one of them spreads is a relation between two runs on arbitrary tables.", "anchors": ["calkulate/dataset.py: calibrate_row, get_group_calibration, get_batches, calibrate", "calkulate/files.py: calibrate, solve", "calkulate/core.py: calibrate_pH, calibrate_pH_gran, solve_pH, solve_pH_gran"]}
{"id": "C138", "title": "Rows that are not references play no part in the calibration of the others", "statement": "Take any rows out of a table that took no part in its calibration, that is rows without reference_good or without a titrant molinity of their own: samples, references marked bad, bad files, failed references.  Calibrating what is left gives exactly the same table with those rows taken out, column by column.  So samples can be added, dropped or moved between tables without touching any other result.", "quantifier": "all tables, settings, files, optimisers and selections of such rows", "why_tests_cant": "Tests calibrate whole tables; independence from arbitrary subsets of rows is a claim about all subsets.", "anchors": ["calkulate/dataset.py: get_total_salts, calibrate_row, get_group_calibration, get_batches, calibrate, solve"]}
{"id": "C139", "title": "A setting that is left out has the default that the guide names", "statement": "For every setting for which the user guide names a default (dic and the nutrients 0, dilute_totals_for_ks False, double True, file_type genfromtxt, gran_logic v23.7+, molinity_HCl 0.1, molinity_NaCl 0.6, molinity_H2SO4 0.1, opt_k_bisulfate 1, opt_k_carbonic 16, opt_k_fluoride 1, opt_total_borate 1, solve_mode emf, titrant HCl, titrant_amount_unit ml), leaving it out has exactly the effect of giving that value, in files.solve, files.calibrate and for the rows of a table.", "quantifier": "all services, files, tables, other settings and modes", "why_tests_cant": "An equality of runs for all inputs, errors included; tests always spell out the settings they care about.", "anchors": ["docs/metadata.md", "calkulate/interface.py: get_totals, get_k_constants", "calkulate/convert.py: amount_units", "calkulate/core.py: totals_ks, solve_emf", "calkulate/files.py: solve, calibrate", "calkulate/default.py"]}
{"id": "C140", "title": "Tables without a batch in common can be processed together or apart", "statement": "If two tables have the same columns, among them analysis_batch, and no batch in common, then calibrating the two stacked into one succeeds exactly if calibrating each of them succeeds, and gives the stacked results. Solving has this property whatever the batches.", "quantifier": "all services, pairs of tables and keyword arguments", "why_tests_cant": "It compares three whole runs for all pairs of tables; grouping over the whole table, as pandas does it, could leak from one group into another.", "anchors": ["calkulate/dataset.py: calibrate, solve, get_batches, get_group_calibration"]}
{"id": "C141", "title": "The two alkalinity curves in the table of a Titration meet where the estimate is the result", "statement": "At every point of a Titration, what the alkalinity estimate exceeds the result by is what the alkalinity from the pH exceeds the alkalinity from the acid by, undiluted; so the two curves meet exactly where the estimate is the result, and the curve from the pH is the upper one exactly where the estimate is too high. The curve from the acid is the alkalinity of the sample, diluted, less the acid added (titrant mass times molinity times normality).", "quantifier": "all services, rows, keyword arguments and points", "why_tests_cant": "An algebraic identity between three columns for all inputs; a sign or dilution error in one column leaves plausible plots.", "anchors": ["calkulate/classes.py: Titration.get_alkalinity_from_acid, Titration.do_CO2SYS", "calkulate/plot/titration.py: alkalinity"]}
{"id": "C142", "title": "The reported alkalinity_std is the standard deviation of the used estimates", "statement": "The alkalinity_std in a result of core.solve_pH or core.solve_emf is, as documented, the standard deviation of the alkalinity estimates at the used points.", "quantifier": "all titrations and, for the EMF, all optimisers that find a best alkalinity for their EMF0", "why_tests_cant": "It compares two statistics for all data; with little titrant they are close, so that tests with a tolerance pass.", "anchors": ["calkulate/core.py: solve_emf, solve_pH, _lsqfun_solve_emf"]}
{"id": "C143", "title": "The reported spread bounds the used points", "statement": "In a result of core.solve_pH, alkalinity_std is zero exactly if all used points give the reported alkalinity; no used point is further from it than alkalinity_std times the square root of one less than the number of used points; and at most n/k^2 of the n used points are k or more spreads away.", "quantifier": "all titrations with non-negative totals and positive constants", "why_tests_cant": "A statistical bound over all data sets and all k.", "anchors": ["calkulate/core.py: solve_pH"]}
{"id": "C144", "title": "The values of a Titration can be read as attributes or as items, also from a copy", "statement": "For every name, t.name and t['name'] give the same value of the titration's row, and an AttributeError if the row has none; values the user gave read back as given. A copy of a Titration (copy.copy, copy.deepcopy, pickle) can be made and reads the same.", "quantifier": "all titrations, names and recursion limits", "why_tests_cant": "It ranges over all column names, and attribute access on a half-built object happens only inside the copying protocol.", "anchors": ["calkulate/classes.py: Titration.__getattr__, Titration.__getitem__, Titration.__init__"]}
{"id": "C145", "title": "An interrupted call can be made again", "statement": "dataset.solve, calibrate and calkulate change the caller's table column by column. If a call is interrupted (Ctrl-C or an exception) after any of its assignments, and however often that happens, making the call again on the table that is left has exactly the outcome that an undisturbed call on the original table has, errors included. On the way no row is added or dropped and no value the user has entered is lost, outside the columns of results.", "quantifier": "all tables, settings, files and optimisers, all points of interruption and any number of interruptions", "why_tests_cant": "The point of interruption is any of some thirty assignments, and each kind of table (with or without salts, masses, units, flags, batches) takes other branches.", "anchors": ["calkulate/dataset.py: get_total_salts, prepare, calibrate, solve, calkulate"]}
{"id": "C146", "title": "An interrupted write_dat leaves either the old file or the complete new one", "statement": "If write_dat is stopped at any point, the file afterwards holds what it held before or the complete titration, no other file has changed, and the call can simply be made again. In particular read_dat never returns a titration that is not the one that was being written.", "quantifier": "all titrations, formats, headers, modes, earlier contents of the file and points of interruption (after any character)", "why_tests_cant": "A test stops the write at chosen points; the claim is about every character of every file at which the process may end.", "anchors": ["calkulate/read/titrations.py: write_dat, read_dat, read_dat_genfromtxt"]}
{"id": "C147", "title": "Titrations appended to one file are never read as one titration", "statement": "After any sequence of write_dat calls with mode 'a' that writes two or more titrations to the same file, read_dat with its default settings raises instead of returning their points as one titration. No other file is touched.", "quantifier": "all sequences of appended titrations, formats and header lines", "why_tests_cant": "It ranges over every history of appended titrations and all their values.", "anchors": ["calkulate/read/titrations.py: write_dat, read_dat, read_dat_genfromtxt"]}
{"id": "C148", "title": "A damaged number in a file changes only its own value", "statement": "If two titration files differ in one field only, read_dat (with its default settings) returns the same number of points for both and every value agrees except that of the field. Every value comes from its own field alone; a field that is not a number becomes nan without an error.", "quantifier": "all tables of at least two rows and three columns of plain fields, header lines, positions and contents of the damaged field", "why_tests_cant": "A test damages chosen fields; the claim is about any content in any field of any file.", "anchors": ["calkulate/read/titrations.py: read_dat, read_dat_genfromtxt"]}
