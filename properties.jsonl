{"id": "C01", "title": "Unit conversion round trip", "statement": "Converting a value from unit a to unit b and the result back from b to a, with the same exponent, returns the original value, for every physical quantity the units module knows.", "quantifier": "every quantity (length, time, mass, force, molar, temperature difference, energy, volume, pressure), every ordered pair of its units, every integer exponent or no exponent, every real value, and every positive choice of the setup() constants", "why_tests_cant": "The value, exponent and setup() constants range over infinite sets; a test fixes a few of each.", "anchors": ["src/pyromat/units.py::Conversion.__call__", "src/pyromat/units.py::setup"]}
{"id": "C02", "title": "Unit conversion composes and is linear", "statement": "Converting a to b and then b to c equals converting a to c directly; converting a to a is the identity; conversion is linear in the value; converting with exponent n+m is the composition of converting with n and with m.", "quantifier": "every quantity, every triple of its units, all integer exponents (nonzero where the code treats zero specially), every pair of values, every positive setup()", "why_tests_cant": "Law over infinitely many values, exponents and re-configurable tables.", "anchors": ["src/pyromat/units.py::Conversion.__call__", "src/pyromat/units.py::setup"]}
{"id": "C03", "title": "Unit tables are physically coherent for every setup()", "statement": "After any call setup(Tstd,pstd,g,dh2o,dhg) with positive arguments, every unit factor is strictly positive, volume units are the cube of the length units, psi is one pound-force per square inch, one slug accelerated at 1 ft/s2 is one pound-force, one atm is pstd bar and 760 Torr, 1 kmol/kg and 1 mol/g scale together, and one Nm3 is the ideal-gas amount p*V/(R*T) at (Tstd,pstd).", "quantifier": "all positive real values of the five setup() arguments", "why_tests_cant": "setup() can be re-run with any constants; tests only see the default ones.", "anchors": ["src/pyromat/units.py::setup"]}
{"id": "C04", "title": "Temperature scales: round trip, composition and anchors", "statement": "temperature_scale from a to b and back to a is the identity, a to b to c equals a to c, 0 C is 273.15 K, Rankine is 1.8 times Kelvin, and passing 'abs' as target and then as source is the identity.", "quantifier": "every real temperature and every pair/triple of the scales K, C, F, R, eV, with or without configured defaults", "why_tests_cant": "Universally quantified over real temperatures and unit triples.", "anchors": ["src/pyromat/units.py::temperature_scale"]}
{"id": "C05", "title": "Temperature differences agree with temperature()", "statement": "For two temperatures the difference of their temperature_scale() conversions equals the temperature() conversion of their difference.", "quantifier": "every pair of real temperatures, every pair of scales among K, C, F, R, eV, every setup()", "why_tests_cant": "Relates two independently written conversion routines on all inputs.", "anchors": ["src/pyromat/units.py::temperature_scale", "src/pyromat/units.py::setup (temperature table)"]}
{"id": "C06", "title": "Gauge and absolute pressure are inverse", "statement": "abs_to_gauge(gauge_to_abs(x,u,patm),u,patm) = x and vice versa, and gauge_to_abs adds the same physical atmosphere whatever pressure unit is used.", "quantifier": "every real pressure, every pressure unit, every atmospheric pressure, every setup()", "why_tests_cant": "All real pressures and re-configurable tables.", "anchors": ["src/pyromat/units.py::gauge_to_abs", "src/pyromat/units.py::abs_to_gauge"]}
{"id": "C07", "title": "matter() converts between mass and molar units consistently", "statement": "For positive molecular weight, matter() round-trips, composes through any intermediate unit (mass or molar), agrees with mass() and molar() inside each family, and 1 kmol of a substance is mw kilograms.", "quantifier": "every positive molecular weight, every triple of mass/molar units, every exponent, every value, every positive setup()", "why_tests_cant": "Law over an infinite product of inputs that mixes two tables.", "anchors": ["src/pyromat/units.py::matter", "src/pyromat/units.py::ismass"]}
{"id": "C08", "title": "The exponent argument means a power of the unit", "statement": "conversion(value, a, b, exponent=n) multiplies the value by (factor a to b) to the power n for every integer n, including n = 0 (a dimensionless quantity is unchanged).", "quantifier": "every integer n, unit pair and value", "why_tests_cant": "Integers are unbounded and the defect sits at a single point (n=0) that no existing test visits.", "anchors": ["src/pyromat/units.py::Conversion.__call__", "src/pyromat/units.py::matter"]}
{"id": "C09", "title": "Unknown units are rejected", "statement": "A unit string that is not in the table of the quantity leads to an exception, never to a number.", "quantifier": "every string that is not a known unit, every value", "why_tests_cant": "The set of strings is infinite.", "anchors": ["src/pyromat/units.py::Conversion.__call__", "src/pyromat/units.py::temperature_scale", "src/pyromat/units.py::matter", "src/pyromat/units.py::ismass"]}
{"id": "C10", "title": "setup() reaches every conversion", "statement": "After setup(pstd=P) every routine that documents 'standard pressure' as its default uses P.", "quantifier": "every positive P", "why_tests_cant": "Depends on the history of setup() calls.", "anchors": ["src/pyromat/units.py::setup", "src/pyromat/units.py::gauge_to_abs", "src/pyromat/units.py::abs_to_gauge"]}
{"id": "C11", "title": "Read-only configuration never changes", "statement": "No sequence of assignments, updates, deletions, restores or configuration loads through the public mapping interface changes the value of a read-only configuration entry.", "quantifier": "every history of configuration operations of any length", "why_tests_cant": "History property: unbounded operation sequences.", "anchors": ["src/pyromat/utility.py::PMConfigEntry.write", "src/pyromat/utility.py::PMConfig.__setitem__"]}
{"id": "C12", "title": "Append-mode configuration entries only grow", "statement": "For an append entry (search directories, config files) every write leaves the previous list as a prefix; only restoring the default can drop elements.", "quantifier": "every history of writes, every value written (scalar, list or nested list)", "why_tests_cant": "History property with arbitrary nested values.", "anchors": ["src/pyromat/utility.py::PMConfigEntry.write", "src/pyromat/utility.py::PMConfigEntry.restore_default"]}
{"id": "C13", "title": "Configuration values always have their declared type", "statement": "After any history of operations, every typed entry holds a value of its declared type (every element, for append entries).", "quantifier": "every history, every attempted value", "why_tests_cant": "Invariant over unbounded histories.", "anchors": ["src/pyromat/utility.py::PMConfigEntry"]}
{"id": "C14", "title": "The set of configuration keys is fixed", "statement": "Unknown keys are rejected on read and write and no operation other than adding an entry explicitly creates or removes a key; a write to one key never changes another.", "quantifier": "every history and every key string", "why_tests_cant": "Frame property over all keys and histories.", "anchors": ["src/pyromat/utility.py::PMConfig.__getitem__", "src/pyromat/utility.py::PMConfig.__setitem__", "src/pyromat/utility.py::PMConfig.update"]}
{"id": "C15", "title": "Configuration load executes each file at most once and terminates", "statement": "Loading the configuration follows the growing list of configuration files, executes no file twice even when files name each other cyclically, executes every file reachable from the initial list, and terminates.", "quantifier": "every finite graph of configuration files that add further files", "why_tests_cant": "Graph-shaped unbounded input with cycles.", "anchors": ["src/pyromat/utility.py::PMConfig.load"]}
{"id": "C16", "title": "restore_default restores the default", "statement": "Restoring an entry puts back its default value unless it is read only, and leaves all other entries alone; restoring everything does so for every entry.", "quantifier": "every configuration state", "why_tests_cant": "All states.", "anchors": ["src/pyromat/utility.py::PMConfig.restore_default", "src/pyromat/utility.py::PMConfigEntry.restore_default"]}
{"id": "C17", "title": "Data load precedence", "statement": "After a load of the data directories the substance stored under an id is the one from the last file defining it (overwrite mode), from the first one (ignore mode), or the load fails (fatal mode), where files are taken in directory order, each directory in sorted name order, sub-directories in their sorted place.", "quantifier": "every directory tree, every redundancy configuration", "why_tests_cant": "Unbounded trees and duplicate patterns.", "anchors": ["src/pyromat/dat.py::load"]}
{"id": "C18", "title": "Only well-formed data files are loaded, one bad file does not stop the load", "statement": "Only names ending in .hpd (longer than the extension) are read; unreadable or mandatory-field-less files are skipped and all other files are still loaded; suppressed .hpd~ files are never loaded.", "quantifier": "every directory tree and every pattern of bad files", "why_tests_cant": "Unbounded trees and failure patterns.", "anchors": ["src/pyromat/dat.py::load", "src/pyromat/utility.py::load_file"]}
{"id": "C19", "title": "Check mode never modifies the collection and reports exactly the differences", "statement": "load(check=True) leaves the loaded substances unchanged and reports a file as changed exactly when its contents differ from the loaded substance, added exactly when a loaded id has no file, removed exactly when a file's id is not loaded, redundant exactly when two files carry the id, and lists the malformed and the suppressed files.", "quantifier": "every directory tree and every in-memory collection", "why_tests_cant": "Unbounded trees and states.", "anchors": ["src/pyromat/dat.py::load"]}
{"id": "C20", "title": "The collection is keyed by identifier", "statement": "After any sequence of loads and clears, every substance in the collection is stored under its own id, its class is a registered class, and get(id) returns it; get fails for every other string.", "quantifier": "every history of loads over arbitrary trees, every string", "why_tests_cant": "History property; strings are infinite.", "anchors": ["src/pyromat/dat.py::load", "src/pyromat/dat.py::clear", "src/pyromat/__init__.py::get"]}
{"id": "C21", "title": "Registry load precedence", "statement": "regload() rebuilds the registry from scratch; for redundant class names the last definition wins in overwrite mode, the first in ignore mode, and fatal mode fails exactly when some class name is defined twice; files whose names start with '_' or '.' or do not end in .py contribute nothing.", "quantifier": "every list of registry directories with arbitrary files, every previous registry", "why_tests_cant": "Unbounded inputs and histories.", "anchors": ["src/pyromat/reg.py::regload"]}
{"id": "C22", "title": "search() is exactly the conjunction of its criteria", "statement": "search returns exactly the members that satisfy every supplied criterion; refining the result of one search by a second equals one search with both sets of criteria; results do not depend on order; no criteria returns everything.", "quantifier": "every collection of substances, every combination of criteria", "why_tests_cant": "Unbounded collections, strings and combinations.", "anchors": ["src/pyromat/__init__.py::search"]}
{"id": "C23", "title": "search(collection=c) selects the collection c", "statement": "The collection criterion selects exactly the substances whose collection() is c.", "quantifier": "every collection string and substance id", "why_tests_cant": "Strings are infinite; the defect shows only for prefixes such as 'i'.", "anchors": ["src/pyromat/__init__.py::search", "src/pyromat/reg.py::__basedata__.collection"]}
{"id": "C24", "title": "Hill formula is canonical", "statement": "hill() lists carbon, then hydrogen, then all other elements in alphabetical order, each exactly once with its quantity (omitted when 1), followed by the charge, and does not depend on the order in which the atoms were entered; it never fails for a substance with atoms.", "quantifier": "every finite atom dictionary with integer quantities", "why_tests_cant": "Dictionaries are unbounded; permutations are factorially many.", "anchors": ["src/pyromat/reg.py::__basedata__.hill"]}
{"id": "C25", "title": "info() does not modify its argument", "statement": "Calling info(members) leaves the collection passed in unchanged.", "quantifier": "every collection passed in", "why_tests_cant": "State property over all collections.", "anchors": ["src/pyromat/__init__.py::info"]}
{"id": "C26", "title": "Suppressing and reviving a file are inverse", "statement": "Suppressing a data file and reviving it (or the reverse) restores the original file system, touches no other file, and after suppression the file is not loaded.", "quantifier": "every file system state and file name", "why_tests_cant": "All file systems.", "anchors": ["src/pyromat/utility.py::suppress_file", "src/pyromat/utility.py::revive_file", "src/pyromat/dat.py::load"]}
{"id": "C27", "title": "Text wrapping loses nothing", "statement": "Wrapping a text for display keeps every word in order, and no produced line is longer than the width when every word fits.", "quantifier": "every text, every width", "why_tests_cant": "Strings are unbounded.", "anchors": ["src/pyromat/utility.py::split_lines"]}
{"id": "C28", "title": "Shomate ideal gas thermodynamic consistency", "statement": "For the ig class, cp is the temperature derivative of h, cp/T that of s, -s that of g; g = h - T*s, e = h - R*T, f = e - T*s; and every derivative value returned internally with diff=True is the true derivative.", "quantifier": "every coefficient set, every positive temperature inside a validity interval", "why_tests_cant": "Real-analysis identity over all reals and all coefficient sets.", "anchors": ["src/pyromat/registry/ig.py::ig._cp", "src/pyromat/registry/ig.py::ig._h", "src/pyromat/registry/ig.py::ig._s", "src/pyromat/registry/ig.py::ig._e", "src/pyromat/registry/ig.py::ig._g", "src/pyromat/registry/ig.py::ig._f"]}
{"id": "C29", "title": "NASA polynomial ideal gas thermodynamic consistency", "statement": "Same as C28 for the ig2 class.", "quantifier": "every coefficient set, every positive temperature inside a validity interval", "why_tests_cant": "Real-analysis identity over all reals and all coefficient sets.", "anchors": ["src/pyromat/registry/ig2.py::ig2._cp", "src/pyromat/registry/ig2.py::ig2._h", "src/pyromat/registry/ig2.py::ig2._s", "src/pyromat/registry/ig2.py::ig2._e", "src/pyromat/registry/ig2.py::ig2._g", "src/pyromat/registry/ig2.py::ig2._f"]}
{"id": "C30", "title": "State specification respects the ideal-gas law", "statement": "Whatever two legal properties specify the state, the temperature, pressure, density and specific volume reported satisfy p = d*R*T and v*d = 1, and each specified T, p, d or v is reported back.", "quantifier": "every legal pair of arguments and every pair of positive values", "why_tests_cant": "All values of two real arguments and all legal pairs.", "anchors": ["src/pyromat/registry/ig.py::ig._argparse", "src/pyromat/registry/ig2.py::ig2._argparse", "src/pyromat/registry/igmix.py::igmix._argparse"]}
{"id": "C31", "title": "Which argument combinations are accepted", "statement": "An ideal gas property call is accepted exactly when at most two properties are given, all legal, at most one of T/e/h, at most one of d/v (after defaults), no duplicate positional/keyword; the internal 'please report a bug' branches are unreachable.", "quantifier": "every set of positional and keyword arguments", "why_tests_cant": "Combinatorial space of argument dictionaries with arbitrary extra keywords.", "anchors": ["src/pyromat/registry/ig.py::ig._argparse", "src/pyromat/registry/ig2.py::ig2._argparse", "src/pyromat/registry/igmix.py::igmix._argparse"]}
{"id": "C32", "title": "Entropy with temperature determines pressure and back", "statement": "Specifying T and s gives the pressure at which s(T,p) is the given entropy; s(T,p) then p from (T,s) returns p.", "quantifier": "every T in range, every entropy, every positive pressure", "why_tests_cant": "Real inputs.", "anchors": ["src/pyromat/registry/ig.py::ig.s", "src/pyromat/registry/ig.py::ig.p", "src/pyromat/registry/ig2.py::ig2.s", "src/pyromat/registry/ig2.py::ig2._argparse"]}
{"id": "C33", "title": "Reported ideal-gas properties satisfy the textbook relations in every unit system", "statement": "In whatever units are configured, cp - cv = R, gam = cp/cv, h - e = R*T (absolute temperature), g = h - T*s and f = e - T*s for the reported values, and changing the unit configuration changes every reported property by exactly the corresponding conversion factor.", "quantifier": "every unit configuration, every state, every substance", "why_tests_cant": "Product of unit choices and real states.", "anchors": ["src/pyromat/registry/ig.py::ig.cp", "src/pyromat/registry/ig.py::ig.cv", "src/pyromat/registry/ig.py::ig.gam", "src/pyromat/registry/ig.py::ig.h", "src/pyromat/registry/ig.py::ig.e", "src/pyromat/registry/ig.py::ig.s", "src/pyromat/registry/ig.py::ig.g", "src/pyromat/registry/ig.py::ig.f", "src/pyromat/registry/ig.py::ig.R"]}
{"id": "C34", "title": "Validity intervals partition the temperature range", "statement": "For increasing interval limits, every temperature between the lowest and highest limit is evaluated with exactly one coefficient set, interior limits belonging to the upper interval and the top limit to the last; temperatures outside are flagged out of range.", "quantifier": "every strictly increasing list of limits and every temperature", "why_tests_cant": "Unbounded lists and reals.", "anchors": ["src/pyromat/registry/ig.py::ig._crange", "src/pyromat/registry/ig2.py::ig2._crange"]}
{"id": "C35", "title": "Temperature inversion stays in bounds and is accurate when it converges", "statement": "The iterative inversion used for T(h), T(s) only ever evaluates the property inside the validity interval, terminates within its iteration budget, returns a temperature inside the interval, and a converged result satisfies the requested tolerance at the last evaluated point.", "quantifier": "every property function, target, bounds and starting guess", "why_tests_cant": "All real functions; iteration history.", "anchors": ["src/pyromat/registry/ig.py::ig._iter1", "src/pyromat/registry/ig2.py::ig2._iter1", "src/pyromat/registry/igmix.py::igmix._iter1"]}
{"id": "C36", "title": "Mixture composition is normalised and mass/mole consistent", "statement": "For an ideal gas mixture the reported mole fractions and mass fractions are non-negative and sum to one, y_i = x_i*mw_i/mw, mw is the mole-weighted mean, specifying the same mixture by mass or by mole gives the same fractions, and scaling all amounts changes nothing.", "quantifier": "every non-empty list of constituents with positive amounts and molecular weights", "why_tests_cant": "Unbounded list length and real amounts.", "anchors": ["src/pyromat/registry/igmix.py::igmix._bootstrap", "src/pyromat/registry/igmix.py::igmix.X", "src/pyromat/registry/igmix.py::igmix.Y", "src/pyromat/registry/igmix.py::igmix.mw"]}
{"id": "C37", "title": "Mixture properties are those of an ideal mixture", "statement": "h, e, cp of the mixture are mole-weighted means of the constituents at T; s at (T,p) is the mole-weighted sum of constituent entropies at their partial pressures; mixing entropy is non-negative; g = h - T*s; a one-component mixture is the component; the derivative values are the true derivatives.", "quantifier": "every mixture, every temperature and pressure", "why_tests_cant": "Unbounded lists, real states.", "anchors": ["src/pyromat/registry/igmix.py::igmix._s", "src/pyromat/registry/igmix.py::igmix._h", "src/pyromat/registry/igmix.py::igmix._g", "src/pyromat/registry/igmix.py::igmix._f"]}
{"id": "C38", "title": "A mixture with a missing constituent always reports it", "statement": "Every property call on a mixture whose constituent list names a substance that is not loaded raises the data error.", "quantifier": "every history of calls on the mixture", "why_tests_cant": "History property: the first call differs from later ones.", "anchors": ["src/pyromat/registry/igmix.py::igmix._bootstrap"]}
{"id": "C39", "title": "Mixture arithmetic", "statement": "For igtools mixtures: adding mixtures adds amounts constituent by constituent (missing counted as zero) and is commutative and associative, total amounts add, scaling scales all amounts, X() and Y() are non-negative fractions summing to one, mass() and molar() totals agree through the molecular weights.", "quantifier": "every pair/triple of mixtures with arbitrary constituent lists", "why_tests_cant": "Unbounded constituent lists.", "anchors": ["src/pyromat/igtools.py::IgtMix.__iadd__", "src/pyromat/igtools.py::IgtMix.__imul__", "src/pyromat/igtools.py::IgtMix.X", "src/pyromat/igtools.py::IgtMix.Y", "src/pyromat/igtools.py::IgtMix.mass", "src/pyromat/igtools.py::IgtMix.molar"]}
{"id": "C40", "title": "Mixture temperature limits", "statement": "Tlim() of an igtools mixture is the range over which every constituent is valid.", "quantifier": "every mixture", "why_tests_cant": "Unbounded constituent lists.", "anchors": ["src/pyromat/igtools.py::IgtMix.Tlim", "src/pyromat/registry/igmix.py::igmix.Tlim"]}
{"id": "C41", "title": "Mixture strings", "statement": "Parsing a mixture string yields exactly the constituents and quantities listed; a quantity omitted counts as one; malformed strings are rejected.", "quantifier": "every string", "why_tests_cant": "Strings are infinite.", "anchors": ["src/pyromat/igtools.py::parse_mixstr"]}
{"id": "C42", "title": "Argument broadcasting follows numpy rules", "statement": "The shape computed for combining mixture amounts with property arguments equals the numpy broadcast shape.", "quantifier": "every pair of shapes", "why_tests_cant": "Unbounded shape lists.", "anchors": ["src/pyromat/igtools.py::IgtMix._broadcast_shape"]}
{"id": "C43", "title": "Polynomial evaluators are exact", "statement": "The one- and two-variable polynomial evaluators return the exact sum of coefficient times powers and its exact first and second derivatives for any coefficient group ordered as documented.", "quantifier": "every coefficient list (any length, gaps, any non-negative integer exponents, any pre/post exponent), every positive argument", "why_tests_cant": "Unbounded lists and reals.", "anchors": ["src/pyromat/registry/mp1.py::mp1._poly1", "src/pyromat/registry/mp1.py::mp1._poly2"]}
{"id": "C44", "title": "Bracketed inversion keeps its bracket", "statement": "The hybrid bisection/secant solver never evaluates outside the starting interval, keeps a sign change inside a shrinking interval, terminates within its budget and returns a value whose residual met the tolerance or a bracket containing a root.", "quantifier": "every continuous function and bracket", "why_tests_cant": "All real functions; iteration history.", "anchors": ["src/pyromat/registry/mp1.py::mp1._hybrid1"]}
{"id": "C45", "title": "Helmholtz free energy derivatives are true derivatives", "statement": "The ideal and residual Helmholtz energy routines return the exact first and second partial derivatives of the function they evaluate.", "quantifier": "every coefficient group, every positive reduced density and temperature", "why_tests_cant": "Real-analysis identity over all coefficient sets.", "anchors": ["src/pyromat/registry/mp1.py::mp1._ao", "src/pyromat/registry/mp1.py::mp1._ar"]}
{"id": "C46", "title": "Saturation fits and their derivatives", "statement": "The saturation curve fits return the exact first and second temperature derivatives of the fitted function for each of the four functional forms.", "quantifier": "every coefficient list, every temperature below critical", "why_tests_cant": "Real analysis over all coefficients.", "anchors": ["src/pyromat/registry/mp1.py::mp1._satfit", "src/pyromat/registry/mp1.py::mp1._ps", "src/pyromat/registry/mp1.py::mp1._dsl", "src/pyromat/registry/mp1.py::mp1._dsv"]}
{"id": "C47", "title": "Multi-phase thermodynamic identities", "statement": "For one-phase states h = e + p/d, g = h - T*s, f = e - T*s, s = -df/dT at constant density, p = d^2 df/dd, cv = de/dT and cp - cv equals the general relation, from the values the model reports.", "quantifier": "every state, every coefficient group", "why_tests_cant": "Real analysis over all coefficient sets.", "anchors": ["src/pyromat/registry/mp1.py::mp1._e", "src/pyromat/registry/mp1.py::mp1._h", "src/pyromat/registry/mp1.py::mp1._s", "src/pyromat/registry/mp1.py::mp1._f", "src/pyromat/registry/mp1.py::mp1._g", "src/pyromat/registry/mp1.py::mp1._cp", "src/pyromat/registry/mp1.py::mp1._cv", "src/pyromat/registry/mp1.py::mp1._p"]}
{"id": "C48", "title": "Quality and two-phase mixtures", "statement": "For a density between the saturated vapor and liquid densities the reported quality lies strictly between 0 and 1, the density recomputed from the quality is the given one, every mixture property lies between its phase values, x=0 and x=1 give the saturated phases; outside the dome the reported quality is -1.", "quantifier": "every density and saturation pair with vapor density below liquid density", "why_tests_cant": "Real inputs.", "anchors": ["src/pyromat/registry/mp1.py::mp1._argparse", "src/pyromat/registry/mp1.py::mp1.d", "src/pyromat/registry/mp1.py::mp1.x", "src/pyromat/registry/mp1.py::mp1.h", "src/pyromat/registry/mp1.py::mp1.s"]}
{"id": "C49", "title": "Which argument combinations the multi-phase class accepts", "statement": "A multi-phase property call is accepted exactly for the documented combinations: up to two of T,p,d/v,x,e,h,s with the documented exclusions, or T,p,x together; out of range temperature, pressure or quality is rejected.", "quantifier": "every argument dictionary", "why_tests_cant": "Combinatorial space with arbitrary keywords.", "anchors": ["src/pyromat/registry/mp1.py::mp1._argparse", "src/pyromat/registry/mp1.py::mp1._sat_argparse"]}
{"id": "C50", "title": "hsd() agrees with h(), s() and d()", "statement": "The combined routine returns the same enthalpy, entropy and density as the three separate ones in every unit system.", "quantifier": "every unit configuration, every state", "why_tests_cant": "Product of unit configurations and states.", "anchors": ["src/pyromat/registry/mp1.py::mp1.hsd", "src/pyromat/registry/mp1.py::mp1.h", "src/pyromat/registry/mp1.py::mp1.s"]}
{"id": "C51", "title": "IF-97 polynomial evaluation is exact or fails", "statement": "The IF-97 polynomial evaluator either raises or returns the exact polynomial and its exact derivatives, for any term list, including negative exponents.", "quantifier": "every list of terms, every nonzero argument pair", "why_tests_cant": "Unbounded lists and reals.", "anchors": ["src/pyromat/registry/if97.py::if97._peval"]}
{"id": "C52", "title": "IF-97 region map", "statement": "Every (T,p) gets exactly one region; states outside the documented temperature and pressure limits are rejected.", "quantifier": "every real pair (T,p)", "why_tests_cant": "Real inputs.", "anchors": ["src/pyromat/registry/if97.py::if97._region"]}
{"id": "C53", "title": "IF-97 saturation curve is one curve", "statement": "The saturation pressure at T and the saturation temperature at p satisfy the same implicit equation, and Ts(ps(T)) = T on the liquid-vapor branch.", "quantifier": "every temperature and pressure on the branch", "why_tests_cant": "Real inputs.", "anchors": ["src/pyromat/registry/if97.py::if97._ps", "src/pyromat/registry/if97.py::if97._Ts"]}
{"id": "C54", "title": "IF-97 region 3 density bisection", "statement": "The density returned for region 3 stays in its bracket, and the bracket always contains a root of the pressure equation and has width 2.3/2^14.", "quantifier": "every continuous pressure function with a sign change", "why_tests_cant": "All functions.", "anchors": ["src/pyromat/registry/if97.py::if97._f3"]}
{"id": "C55", "title": "solve1n returns a solution or signals failure", "statement": "The generic solver, when it stops before the iteration limit, returns a point where the function is within the tolerance; it signals when it did not converge; it stays inside the limits.", "quantifier": "every function, target and starting point", "why_tests_cant": "All functions; iteration history.", "anchors": ["src/pyromat/solve.py::solve1n.__call__"]}
{"id": "C56", "title": "Property calls do not modify the caller's arrays", "statement": "Arrays passed as arguments to property methods hold the same values after the call.", "quantifier": "every array argument and every unit configuration", "why_tests_cant": "Aliasing depends on unit configuration and values.", "anchors": ["src/pyromat/registry/ig.py::ig._argparse", "src/pyromat/registry/ig2.py::ig2._argparse", "src/pyromat/registry/mp1.py::mp1._argparse", "src/pyromat/units.py::Conversion.__call__"]}
{"id": "C57", "title": "Assigning a configuration entry completes", "statement": "Assigning any value to a configuration entry returns, including the value that was just read from the same entry.", "quantifier": "every append entry and every stored list", "why_tests_cant": "Termination: a test that fails does not come back.", "anchors": ["src/pyromat/utility.py::PMConfigEntry.write", "src/pyromat/utility.py::PMConfig.__setitem__"]}
{"id": "C58", "title": "The default state does not depend on the configured units", "statement": "def_T() and def_p() return the same physical temperature and pressure, expressed in the configured units, whatever temperature and pressure units are configured.", "quantifier": "every configuration of default values, default units and working units", "why_tests_cant": "All pairs of units and all values.", "anchors": ["src/pyromat/utility.py::PMConfig.def_T", "src/pyromat/utility.py::PMConfig.def_p"]}
{"id": "C59", "title": "info() tabulates every substance once, in order", "statement": "The table printed for a collection of substances has exactly one row per member, in alphabetical order of identifier, and 'no substances matched' is printed only for an empty collection.", "quantifier": "every collection of substances", "why_tests_cant": "Unbounded collections.", "anchors": ["src/pyromat/__init__.py::info"]}
{"id": "C60", "title": "Every wrapped line carries its lead and fits", "statement": "When text is wrapped with a lead (as in error and warning messages), every produced line begins with the lead and is no longer than the width.", "quantifier": "every text, lead and width", "why_tests_cant": "Strings are unbounded; the defect shows only for long words and several paragraphs.", "anchors": ["src/pyromat/utility.py::split_lines"]}
{"id": "C61", "title": "Array calls agree element by element with scalar calls", "statement": "Calling an ideal gas property with array arguments gives, at every position, what the call with the scalars at that position gives; where the scalar call is refused because its temperature is out of range, the array call reports nan for the temperature there. (Finding: with one entropy and several pressures the pressures overwrite each other and every element is wrong but the last.)", "quantifier": "every pair of legal arguments, every array length, every position", "why_tests_cant": "Unbounded arrays; all argument pairs.", "anchors": ["src/pyromat/registry/ig.py::ig._argparse", "src/pyromat/registry/ig.py::ig.T", "src/pyromat/registry/ig2.py::ig2._argparse"]}
{"id": "C62", "title": "Temperature from a single argument uses the default pressure", "statement": "T(x) with one argument other than pressure is the temperature at the configured default pressure. It holds when the default pressure is written in the configured pressure unit. (Findings: otherwise the raw number is used without conversion; and the other properties called with the same single argument use the default temperature instead, so reported values do not satisfy the gas law.)", "quantifier": "every argument, unit configuration and default state", "why_tests_cant": "All unit pairs and real values.", "anchors": ["src/pyromat/registry/ig.py::ig.T", "src/pyromat/registry/ig.py::ig._argparse", "src/pyromat/registry/ig2.py::ig2.T"]}
{"id": "C63", "title": "Mixture answers do not depend on earlier calls", "statement": "Whatever calls were made on a mixture object before, in whatever order, each call returns what it would return on a fresh object.", "quantifier": "every mixture whose constituents are loaded, every finite sequence of calls of every kind with any arguments", "why_tests_cant": "History property; the object is built lazily by the first call.", "anchors": ["src/pyromat/registry/igmix.py::igmix._bootstrap"]}
{"id": "C64", "title": "Mixture atom counts", "statement": "atoms() of a mixture lists exactly the elements of its constituents, with the mole-fraction weighted count of each.", "quantifier": "every mixture of species with atomic data", "why_tests_cant": "Unbounded constituent and element lists.", "anchors": ["src/pyromat/registry/igmix.py::igmix.atoms"]}
{"id": "C65", "title": "Items of a dynamic mixture can be read, assigned, inserted and removed", "statement": "m[s] is the amount of s in the configured unit of matter; m[s]=q sets it, leaves every other substance alone, stretches to the common shape and reads back as q; insert adds a new substance and remove takes one out, inverse to each other; absent, present or unknown substances are rejected with a parameter error. (Findings: assigning one element never succeeds; m[:]=m rescales all amounts unless kmol is configured; mass units are wrong when the configured units of mass and molar amount are of different size.)", "quantifier": "every mixture of every shape, every substance, every quantity and unit", "why_tests_cant": "All shapes, amounts and units.", "anchors": ["src/pyromat/igtools.py::IgtMix.__getitem__", "src/pyromat/igtools.py::IgtMix.__setitem__", "src/pyromat/igtools.py::IgtMix.insert", "src/pyromat/igtools.py::IgtMix.remove"]}
{"id": "C66", "title": "A failed update leaves the mixture unchanged", "statement": "When a += b or m[s] = q raises, the mixture is what it was before. (Findings: a failed sum leaves the names of b in a without amounts; a failed assignment with fewer dimensions has already reshaped the mixture.)", "quantifier": "every pair of mixtures and every assigned quantity", "why_tests_cant": "The state after an exception, for every way of failing.", "anchors": ["src/pyromat/igtools.py::IgtMix.__iadd__", "src/pyromat/igtools.py::IgtMix.__setitem__"]}
{"id": "C67", "title": "A new dynamic mixture holds the amounts it was given", "statement": "A mixture built from a dictionary has exactly the named substances, the common shape of the quantities, and the given amount of each substance converted from the given or configured unit; an unknown substance is rejected.", "quantifier": "every dictionary of substances, every shape, every unit", "why_tests_cant": "Unbounded dictionaries, all units.", "anchors": ["src/pyromat/igtools.py::IgtMix.__init__"]}
{"id": "C68", "title": "Extensive properties of a dynamic mixture are sums over its constituents", "statement": "cp, cv, h, e, s, g and f of a dynamic mixture at a temperature and pressure are the sums over the constituents of amount times the constituent's own property at the temperature and its partial pressure; a constituent of amount zero contributes nothing. (Findings: arrays of temperatures make s, g, f fail for a single mixture; one temperature out of range raises.)", "quantifier": "every mixture array, temperature, pressure and unit configuration", "why_tests_cant": "All real states and compositions.", "anchors": ["src/pyromat/igtools.py::IgtMix._propeval", "src/pyromat/igtools.py::IgtMix._argparse", "src/pyromat/igtools.py::IgtMix.s", "src/pyromat/igtools.py::IgtMix._sp"]}
{"id": "C69", "title": "Array evaluation is element by element", "statement": "The properties a multi-phase substance reports at one element of an array do not depend on the other elements of the array. (Finding: with critical point terms, as shipped for water and carbon dioxide, one element near the critical density changes the results of the others.)", "quantifier": "every array, every element, every coefficient group", "why_tests_cant": "The array contents are unbounded; the defect shows only with one element next to the critical density.", "anchors": ["src/pyromat/registry/mp1.py::mp1._ar", "src/pyromat/registry/mp1.py::mp1._p", "src/pyromat/registry/mp1.py::mp1._h", "src/pyromat/registry/mp1.py::mp1._cp"]}
{"id": "C70", "title": "IF-97 properties come from one free energy per region", "statement": "In each region the enthalpy, entropy, density, internal energy and heat capacities the methods return are the derivatives of that region's free energy in the IF-97 release, so they satisfy the thermodynamic identities exactly.", "quantifier": "every state of every region, every coefficient set", "why_tests_cant": "Real inputs, derivatives.", "anchors": ["src/pyromat/registry/if97.py::if97.h", "src/pyromat/registry/if97.py::if97.s", "src/pyromat/registry/if97.py::if97.d", "src/pyromat/registry/if97.py::if97.e", "src/pyromat/registry/if97.py::if97.cp", "src/pyromat/registry/if97.py::if97.cv", "src/pyromat/registry/if97.py::if97._g1", "src/pyromat/registry/if97.py::if97._g2", "src/pyromat/registry/if97.py::if97._g5", "src/pyromat/registry/if97.py::if97._f3"]}
{"id": "C71", "title": "IF-97 saturated states", "statement": "With a quality, every property is the quality-weighted mean of the two phases on the saturation curve, the density that of the volumes, and hsd() reports what h(), s() and d() report. (Finding: hsd() with a temperature and a quality evaluates the phases at the default pressure.)", "quantifier": "every temperature or pressure and every quality", "why_tests_cant": "Real inputs.", "anchors": ["src/pyromat/registry/if97.py::if97.h", "src/pyromat/registry/if97.py::if97.hsd"]}
{"id": "C72", "title": "IF-97 temperature from enthalpy", "statement": "T_h returns a state with the enthalpy asked for: the part of the release that answers is the one whose boundaries enclose the enthalpy at that pressure, the quality is the fraction of vapor inside the dome, in regions 3 and 5 the iteration has met the enthalpy (and pressure) to its tolerance, and the enthalpy of a mixture gives its temperature and quality back; every enthalpy of a state of the release is answered, and enthalpies and pressures outside its range are refused.", "quantifier": "every enthalpy and pressure", "why_tests_cant": "Real inputs; the iteration count depends on the data.", "anchors": ["src/pyromat/registry/if97.py::if97.T_h", "src/pyromat/registry/if97.py::if97._th5", "src/pyromat/registry/if97.py::if97._ts5", "src/pyromat/registry/if97.py::if97._th3", "src/pyromat/registry/if97.py::if97._ts3"]}
{"id": "C73", "title": "Solver call conventions", "statement": "A solver refuses calls in which the target is given twice or not at all, and iterables of different lengths; every documented way to construct one can be called; element i of an array call is the answer of the call with the i-th target and arguments.", "quantifier": "every solver, target and set of keywords", "why_tests_cant": "Any function and any dictionary of arguments.", "anchors": ["src/pyromat/solve.py::solve1n.__init__", "src/pyromat/solve.py::solve1n.__call__", "src/pyromat/solve.py::_vectorize_args"]}
{"id": "C74", "title": "state() and Tlim() agree with the property methods", "statement": "The dictionary returned by state() of an ideal gas has exactly the documented entries, each equal to what the method of that name returns for the same arguments, and state() fails exactly when, and as, the methods do; Tlim() reports the validity interval in the configured temperature unit.", "quantifier": "every species or mixture, unit configuration and argument list", "why_tests_cant": "All array lengths, argument combinations and units.", "anchors": ["src/pyromat/registry/ig.py::ig.state", "src/pyromat/registry/ig.py::ig.Tlim", "src/pyromat/registry/ig2.py::ig2.state", "src/pyromat/registry/igmix.py::igmix.state"]}
{"id": "C80", "title": "Temperatures found from e, h or s reproduce them", "statement": "When T(h=,p=), T(e=,p=), T(s=,p=), T(s=,d=), T_h(), T_s() return without the convergence warning, evaluating the property at the returned temperature gives back the requested value within the tolerance times the spread of the slope; p_s() returns a pressure at which s() is the requested entropy.", "quantifier": "every species, unit configuration and arrays of equal lengths", "why_tests_cant": "Iteration histories over all reals, units and records.", "anchors": ["src/pyromat/registry/ig.py::ig.T", "src/pyromat/registry/ig.py::ig.T_s", "src/pyromat/registry/ig.py::ig.T_h", "src/pyromat/registry/ig.py::ig.p_s", "src/pyromat/registry/ig.py::ig._iter1", "src/pyromat/registry/ig.py::ig._sditer"]}
{"id": "C75", "title": "cv of the multi-phase class is the slope of e along the isochore", "statement": "At any temperature and density, inside or outside the saturation dome, the cv reported by a multi-phase substance is the derivative with respect to temperature, at that density, of the internal energy e() reports, in the configured units; a call on an array of states returns a value for each.", "quantifier": "every substance record, unit configuration, array of states with T and density or specific volume", "why_tests_cant": "Two-phase slopes combine the saturation fits, the lever rule and the energies of both phases for all states and units.", "anchors": ["src/pyromat/registry/mp1.py::mp1.cv", "src/pyromat/registry/mp1.py::mp1.e", "src/pyromat/registry/mp1.py::mp1._dsl", "src/pyromat/registry/mp1.py::mp1._dsv"]}
{"id": "C79", "title": "The density found from T and p has that pressure", "statement": "For every temperature and pressure in range, the density a multi-phase substance reports for T and p has the requested pressure to one part in a million (or differs by at most one part in a million from a density that has it exactly), lies in the search interval of the phase the pressure selects, and the other methods called with the same arguments describe exactly that state; a state that cannot be found is nan or an error, never silently wrong, and the search ends.", "quantifier": "every substance record, unit configuration, array of temperatures and pressures", "why_tests_cant": "A numerical search over a nonlinear equation of state: correctness must hold for all states, not for sampled ones.", "anchors": ["src/pyromat/registry/mp1.py::mp1._d", "src/pyromat/registry/mp1.py::mp1._hybrid1", "src/pyromat/registry/mp1.py::mp1.d", "src/pyromat/registry/mp1.py::mp1._argparse"]}
{"id": "C81", "title": "A state found from e, h or s has that e, h or s", "statement": "For every value of internal energy, enthalpy or entropy given together with density, specific volume, temperature or pressure, the state a multi-phase substance finds has that value to one part in a million (or is enclosed to one part in a million), keeps the other argument exactly, and the methods of the same call describe one state, inside or outside the saturation dome; a state that cannot be found is nan or an error.", "quantifier": "every substance record, unit configuration, array of arguments", "why_tests_cant": "A numerical search over a piecewise function with a phase change: correctness must hold for all states.", "anchors": ["src/pyromat/registry/mp1.py::mp1._argparse", "src/pyromat/registry/mp1.py::mp1._tditer", "src/pyromat/registry/mp1.py::mp1._hybrid1", "src/pyromat/registry/mp1.py::mp1.T", "src/pyromat/registry/mp1.py::mp1.h", "src/pyromat/registry/mp1.py::mp1.s", "src/pyromat/registry/mp1.py::mp1.e"]}
{"id": "C82", "title": "The saturation curve is one curve for all saturation methods", "statement": "ps(T) is the vapor pressure at T and is refused exactly outside the triple and critical points; Ts(p), when it does not warn, is a temperature at which the vapor pressure is p, so ps(Ts(p)) is p; es, hs, ss, ds and vs given p are those given Ts(p); critical(), triple(), Tlim() and plim() are the substance's constants; p with a quality means Ts(p) with that quality; all in the configured units. (Finding: with a quality and a pressure below the triple point, which Ts() refuses, the methods silently use the temperature half way between the triple and critical points.)", "quantifier": "every substance record, unit configuration, array of temperatures or pressures", "why_tests_cant": "The inverse is a numerical search; it must be right for all pressures, fits and units.", "anchors": ["src/pyromat/registry/mp1.py::mp1.ps", "src/pyromat/registry/mp1.py::mp1.Ts", "src/pyromat/registry/mp1.py::mp1._Ts", "src/pyromat/registry/mp1.py::mp1._sat_argparse", "src/pyromat/registry/mp1.py::mp1.critical", "src/pyromat/registry/mp1.py::mp1.triple", "src/pyromat/registry/mp1.py::mp1.Tlim", "src/pyromat/registry/mp1.py::mp1.plim", "src/pyromat/registry/mp1.py::mp1.es", "src/pyromat/registry/mp1.py::mp1.hs", "src/pyromat/registry/mp1.py::mp1.ss", "src/pyromat/registry/mp1.py::mp1.ds", "src/pyromat/registry/mp1.py::mp1.vs"]}
{"id": "C83", "title": "Saving the collection makes the files agree with it", "statement": "After updatefiles(verbose=False) the data files say what the collection in memory says: loading them into an empty collection gives the same substances with the same data, each from one file, and a check reports nothing added, removed or redundant. Files of substances that were not changed are left alone, also when writes fail or the update is interrupted at any point, and an interruption leaves at most one file that is neither as before nor as after.", "quantifier": "all collections in memory, all data directory trees, all patterns of failing file operations, and every point at which the update can be interrupted", "why_tests_cant": "a test runs one collection against one directory; it cannot cover all mixtures of added, changed, removed, redundant and unreadable entries, all failing operations and every crash point", "anchors": ["src/pyromat/dat.py:updatefiles", "src/pyromat/dat.py:load", "src/pyromat/utility.py:suppress_file"]}
{"id": "C84", "title": "Repairing redundant files never loses a substance", "statement": "red_repair on the redundancies a check reports keeps exactly one file of each redundant substance (the first, quietly) and touches no others; interactively, whatever is typed and whatever file operations fail, every substance still has at least one of its files.", "quantifier": "all data directory trees, all sequences of answers, all patterns of failing operations, every index", "why_tests_cant": "a test can type only a few answers into the menus for a few directories", "anchors": ["src/pyromat/utility.py:red_repair", "src/pyromat/dat.py:updatefiles"]}
{"id": "C78", "title": "state() of a multi-phase substance reports what the separate methods return", "statement": "For the same arguments the dictionary returned by state() of a multi-phase substance holds the same temperature, pressure, density, specific volume, quality, energy, enthalpy, entropy, free and Gibbs energies, heat capacities and heat capacity ratio as T(), p(), d(), v(), x(), e(), h(), s(), f(), g(), cp(), cv() and gam() return (cv is NaN at saturated states, as documented), and state() fails exactly when they do.", "quantifier": "all multi-phase data sets, configured units, positional and keyword arguments, argument arrays of any length mixing saturated and single-phase elements, and every element of the result", "why_tests_cant": "state() evaluates everything with its own formulas from one second-order expansion; agreement must hold for every state, unit and array, and a test compares a few points", "anchors": ["src/pyromat/registry/mp1.py:mp1.state", "src/pyromat/registry/mp1.py:mp1.T", "src/pyromat/registry/mp1.py:mp1.f", "src/pyromat/registry/mp1.py:mp1.gam"]}
{"id": "C76", "title": "The state and the properties of a dynamic gas mixture fit together", "statement": "For a dynamic mixture built with igtools and any accepted arguments that are numbers or arrays with as many dimensions as the mixture, T(), p() and d() return arrays of one shape that obey the ideal gas law element by element in the configured units, v() is 1/d(), h()-e() is N R T, cp()-cv() is N R, gam() is cp()/cv(), g() is h()-T s() and f() is e()-T s(); a temperature, pressure, density, or an entropy given with a temperature, enthalpy or internal energy, is returned unchanged by the method of that name.", "quantifier": "all mixtures, amounts, units and argument combinations", "why_tests_cant": "Mixtures of any number of constituents and of any array shape, with every pair of arguments, cannot be enumerated.", "anchors": ["src/pyromat/igtools.py:IgtMix._argparse", "src/pyromat/igtools.py:IgtMix._sp", "src/pyromat/igtools.py:IgtMix._pref", "src/pyromat/igtools.py:IgtMix.T", "src/pyromat/igtools.py:IgtMix.p", "src/pyromat/igtools.py:IgtMix.d", "src/pyromat/igtools.py:IgtMix.s"]}
{"id": "C85", "title": "A mixture keeps its composition and properties when converted", "statement": "toigmix() turns a dynamic mixture into one static mixture per index, in memory order and with distinct names, that has the composition and, for every temperature and pressure, the specific properties the dynamic mixture has at that index; fromigmix() turns a static mixture into a dynamic mixture of one configured unit of matter with the same mole fractions, in mass and in molar units; converting there and back keeps the proportions.", "quantifier": "every dynamic mixture of any shape and every static mixture by mass or by mole, every unit configuration, temperature and pressure", "why_tests_cant": "The two kinds of mixture compute their properties by different formulas (sums over amounts at partial pressures, weighted means plus a stored mixing entropy), so agreement at sampled points says nothing about other compositions, shapes or units.", "anchors": ["src/pyromat/igtools.py:IgtMix.toigmix", "src/pyromat/igtools.py:fromigmix", "src/pyromat/registry/igmix.py:igmix._bootstrap", "src/pyromat/registry/igmix.py:igmix.X", "src/pyromat/registry/igmix.py:igmix.Y"]}
{"id": "C77", "title": "Atoms are counted and conserved", "statement": "atoms() of a dynamic mixture names exactly the sorts of atoms its constituents contain and gives, at every index, the number of moles of each in the configured molar unit; adding two mixtures adds their atoms, scaling scales them, and a static mixture of the same composition reports the same atoms per mole of mixture.", "quantifier": "every dynamic mixture of any shape, every composition of the constituents (ions with negative electron counts included), every molar unit and every pair of mixtures that can be added", "why_tests_cant": "Conservation is a statement about all pairs of mixtures and all compositions; a test compares a few fixed recipes, and an error that depends on which constituents share an atom or on the array shape escapes it.", "anchors": ["src/pyromat/igtools.py:IgtMix.atoms", "src/pyromat/igtools.py:IgtMix.items", "src/pyromat/reg.py:__basedata__.atoms", "src/pyromat/registry/igmix.py:igmix.atoms"]}
{"id": "C86", "title": "A mixture survives being written to a dictionary and being reshaped", "statement": "todict(units) lists every constituent with its amounts in the unit asked for, and IgtMix(m.todict(units), units) is the same mixture in every unit configuration; reshape() accepts exactly the shapes for the same number of mixtures, leaves every mixture unchanged at its place in memory order and can be undone.", "quantifier": "every dynamic mixture, every unit of matter (configured or given) and every new shape", "why_tests_cant": "Both are round trips over arbitrary shapes, constituents and units; a test can only try a few of each.", "anchors": ["src/pyromat/igtools.py:IgtMix.todict", "src/pyromat/igtools.py:IgtMix.reshape", "src/pyromat/igtools.py:IgtMix.__init__", "src/pyromat/units.py:matter"]}
{"id": "C87", "title": "Temperature and quality of the multi-phase class from pressure and density", "statement": "For a pressure and a density (or specific volume) in range, T() reports the temperature at which the equation of state has that pressure at that density to one part in a million, or the saturation temperature and the quality of the mixture when the density lies between those of the saturated phases; d() and p() of the same call report the state found, and a state without a solution is nan.", "quantifier": "every substance, unit configuration, argument form and state in range, including arrays", "why_tests_cant": "The temperature comes out of a Newton search nested in a bracketed search over the dome; no finite set of states covers the cases of liquid, vapor, mixture, supercritical and below the triple point.", "anchors": ["src/pyromat/registry/mp1.py:mp1._T", "src/pyromat/registry/mp1.py:mp1._tditer", "src/pyromat/registry/mp1.py:mp1._hybrid1", "src/pyromat/registry/mp1.py:mp1._argparse", "src/pyromat/registry/mp1.py:mp1.T"]}
{"id": "C88", "title": "The reported properties change together as thermodynamics requires", "statement": "Along any smooth change of state of a substance in one phase the numbers that h(), s(), p(), e(), d() and T() report change as dh = T ds + dp/d and de = T ds + (p/d2) dd; at constant reported pressure cp() is the change of h() per unit of temperature, and at constant reported entropy the square of the speed a() is the change of p() per unit of density, whatever units are configured.", "quantifier": "every substance, unit configuration, single-phase state in range and smooth curve of states through it", "why_tests_cant": "The relations tie the derivatives of five separately coded methods to each other at every state; finite differences at sampled states see neither exact slopes nor all states.", "anchors": ["src/pyromat/registry/mp1.py:mp1.h", "src/pyromat/registry/mp1.py:mp1.s", "src/pyromat/registry/mp1.py:mp1.p", "src/pyromat/registry/mp1.py:mp1.e", "src/pyromat/registry/mp1.py:mp1.cp", "src/pyromat/registry/mp1.py:mp1.a"]}
{"id": "C89", "title": "Multi-phase property methods do not modify the arrays they are given", "statement": "A call of a property method of a multi-phase substance leaves the arrays passed as arguments with their contents, whether it returns or raises, so that the same arrays can be used again; and the answers do not depend on whether arguments are numbers, arrays, views, or arrays shared with the results.", "quantifier": "every substance, unit configuration, method, combination of arguments and memory", "why_tests_cant": "Whether an array is copied or written into depends on units, shapes, ranges, phases and on whether the array is a view; a test sees one combination, and the damage appears in a later call.", "anchors": ["src/pyromat/registry/mp1.py:mp1._argparse", "src/pyromat/registry/mp1.py:mp1.d", "src/pyromat/registry/mp1.py:mp1.hsd", "src/pyromat/registry/mp1.py:mp1.state", "src/pyromat/units.py:Conversion.__call__"]}
{"id": "C90", "title": "Multi-phase array calls agree element by element with scalar calls", "statement": "Element i of what a property method, state() or hsd() of a multi-phase substance returns for arrays is what the scalar call with the elements i returns, whichever properties give the state and however the arguments are broadcast; where the scalar call is refused as out of range, the array call shows nan for the temperature or density of that element.", "quantifier": "every substance, unit configuration, method, admissible combination of argument arrays of any length, and index", "why_tests_cant": "The iterative inversions run over all elements at once, stop when the last one has converged and mask the others; whether one element disturbs another depends on all elements together, and the combinations are infinite.", "anchors": ["src/pyromat/registry/mp1.py:mp1._argparse", "src/pyromat/registry/mp1.py:mp1._iter1", "src/pyromat/registry/mp1.py:mp1._hybrid1", "src/pyromat/registry/mp1.py:mp1._T", "src/pyromat/registry/mp1.py:mp1._d", "src/pyromat/registry/mp1.py:mp1.state", "src/pyromat/registry/mp1.py:mp1.hsd"]}
{"id": "C91", "title": "A state given by temperature, pressure and quality together", "statement": "For a multi-phase substance, a call with T, p and x means the call with T and p if the quality is negative, and the call with T and x otherwise: same values and same errors, so that the T, p and x which state() reports can be passed back.", "quantifier": "every substance, unit configuration, property method, arrays of temperatures and pressures, and quality", "why_tests_cant": "Both branches run over masked arrays; that no element is evaluated in the wrong branch, with the wrong density or with a lost error has to hold for all lengths and all values.", "anchors": ["src/pyromat/registry/mp1.py:mp1._argparse", "src/pyromat/registry/mp1.py:mp1._d"]}
{"id": "C92", "title": "Unit conversions of arrays change only what they are asked to change", "statement": "A unit conversion called without inplace leaves every existing array as it is and returns the converted numbers; with inplace=True it stores the converted numbers in the array given, which may be any view, returns that array and changes nothing else; the numbers are the same either way, a call that raises changes nothing, and converting in place and back restores the memory.", "quantifier": "every conversion function of the units module, setup and configuration, pair of units, exponent, array (any view of any length) and state of memory", "why_tests_cant": "In-place results alias the argument and each other; which cells change has to be known for every view and every other array that shares its memory, also when a conversion of several steps fails.", "anchors": ["src/pyromat/units.py:Conversion.__call__", "src/pyromat/units.py:temperature_scale", "src/pyromat/units.py:gauge_to_abs", "src/pyromat/units.py:abs_to_gauge", "src/pyromat/units.py:matter"]}
{"id": "C93", "title": "Dynamic mixtures share memory only when one is a view of the other", "statement": "Copies, sums, differences, products and quotients of dynamic mixtures are independent objects: in a session of any length, a statement changes only the mixture or array it names, unless the session takes slices, m[s] in kmol, or arrays of items(); with those, a mixture still keeps its value as long as nothing that came from the same mixture by such views is changed, and a slice shows the current amounts of its mixture as long as both are changed in place.", "quantifier": "every session of constructions, copies, arithmetic, in-place arithmetic (also of a mixture with itself or with its slice), assignments, insertions, removals, reshapes, slices and views, of any length, for mixtures of any shape and any unit configuration, also sessions that end in an exception", "why_tests_cant": "Aliasing appears only for particular shapes, unit configurations and orders of statements; a test tries a few sessions and cannot range over all of them.", "anchors": ["src/pyromat/igtools.py:IgtMix.__init__", "src/pyromat/igtools.py:IgtMix.__iadd__", "src/pyromat/igtools.py:IgtMix.__imul__", "src/pyromat/igtools.py:IgtMix.__getitem__", "src/pyromat/igtools.py:IgtMix.__setitem__", "src/pyromat/igtools.py:IgtMix.items"]}
{"id": "C94", "title": "Steam methods mean the same state in every configuration of units", "statement": "h, e, cp, cv, d and s of steam, hs, es, ds and ss, hsd, Ts, ps, T_h and the limits read their arguments in the configured units, take an omitted argument from the default state in its own units, and report the answer in the configured units, so that the same physical state gives the same physical answer in every configuration; arrays answer element by element.", "quantifier": "every configuration of units, every scale of temperature, every state, given or default, every array of states of any length that fits, and every data of the release", "why_tests_cant": "A test fixes one configuration, often the default one in bar, K and kg, where most conversions are by 1; wrong exponents, missing conversions and default states in other units only show in others.", "anchors": ["src/pyromat/registry/if97.py:h", "src/pyromat/registry/if97.py:s", "src/pyromat/registry/if97.py:d", "src/pyromat/registry/if97.py:e", "src/pyromat/registry/if97.py:cp", "src/pyromat/registry/if97.py:cv", "src/pyromat/registry/if97.py:hsd", "src/pyromat/registry/if97.py:hs", "src/pyromat/registry/if97.py:ss", "src/pyromat/registry/if97.py:Ts", "src/pyromat/registry/if97.py:ps", "src/pyromat/registry/if97.py:T_h", "src/pyromat/registry/if97.py:Tlim", "src/pyromat/registry/if97.py:plim", "src/pyromat/registry/if97.py:critical", "src/pyromat/registry/if97.py:triple", "src/pyromat/registry/if97.py:mw", "src/pyromat/registry/if97.py:gam"]}
{"id": "C95", "title": "The temperature of steam at an entropy is that of a state with this entropy", "statement": "T_s(s,p) returns the temperature and quality of a state with entropy s at p: a saturated mixture gives its temperature and quality back exactly, and in regions 3 and 5 the state found has the entropy within the tolerance; it answers wherever s(T,p) does and refuses entropies and pressures outside the range, in every configuration of units; an array is answered element by element, and refused as one of its elements is.", "quantifier": "every entropy and pressure, all data of the release, every configuration of units", "why_tests_cant": "The answer depends on the region, on nested calls of other methods and on the configured units; tests try a few states in the default units.", "anchors": ["src/pyromat/registry/if97.py:T_s", "src/pyromat/registry/if97.py:s", "src/pyromat/registry/if97.py:Ts"]}
{"id": "C96", "title": "A dynamic mixture lists its substances correctly through every history of changes", "statement": "Whatever sequence of insert, remove, +=, -=, assignments, scalings and reshapings a mixture goes through, whether they return or raise, tolist() and iteration show each substance once, in the order of entry, and `s in m` is true exactly when the last change that concerns s brought it in; however the mixture is described (keywords, string, substance, list, dictionary of names or objects) it lists what was named with the amounts given; remove and insert refuse exactly the absent, respectively the present and the unknown; len() is the number of mixtures and reshape with -1 keeps it.", "quantifier": "every mixture, every sequence of changes with any outcomes, every description and every new shape", "why_tests_cant": "Histories and descriptions are unbounded sequences; a test can only follow a few of them.", "anchors": ["src/pyromat/igtools.py:IgtMix.__init__", "src/pyromat/igtools.py:IgtMix.__contains__", "src/pyromat/igtools.py:IgtMix.tolist", "src/pyromat/igtools.py:IgtMix.insert", "src/pyromat/igtools.py:IgtMix.remove", "src/pyromat/igtools.py:IgtMix.__len__", "src/pyromat/igtools.py:IgtMix.reshape"]}
