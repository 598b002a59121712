# Formal model of openap: design and trusted base

Source under study: `/repo` (package `openap`, pure Python). The code was read as
text; it was never run. All line numbers refer to that tree.

## 1. What is modelled, and how

### 1.1 The numeric code is generic over a backend, and so is the model

Every numeric class of openap (`Aero`, `Geo`, `Thrust`, `Drag`, `FuelFlow`,
`Emission`) is written against a *math backend* `b` (`openap/backends/protocol.py`):
`b.sqrt`, `b.exp`, `b.power`, `b.where`, ... plus Python's operators. The model
copies that structure: `theories/Num.v` declares a record `backend` (carrier,
condition type, one field per operation used), and each function of the model is a
Gallina function *over an arbitrary backend*, mirroring the Python function line by
line. The backends defined are:

| backend | file | carrier | stands for |
|---|---|---|---|
| `NP` | `Num.v` | `ext` = finite real / +inf / -inf / NaN | `NumpyBackend` on scalars |
| `RB` | `Num.v` | `R` (Coq's total functions) | proof device: the plain real formula |
| `VB` | `Vec.v` | arrays with length-1 broadcasting | `NumpyBackend` on 1-d arrays |
| `MB` | `VecFacts.v` | functions of a row index | proof device: one backend per array row |
| `CA` | `Sym.v` | expression trees | `CasadiBackend` |
| `AB` | `Nd.v` | arrays of up to two dimensions, or an exception | `NumpyBackend` on arrays with `column=True` |
| `FB` | `NdFacts.v` | functions of a row and a column index | proof device for `AB` |
| `JB` | `Jax.v` | number, tangent and pullback | `JaxBackend` |
| `FL rd` | `Fl.v` | `ext`, every operation followed by the rounding `rd` | `NumpyBackend` in floating point |
| `SH` | `JaxShape.v` | kind (NumPy or JAX) and shape of a value | `JaxBackend`, results' kinds only |

Theorems about numeric code are stated about `NP`. Because `NP` returns NaN where
NumPy does (square root or logarithm of a negative number, fractional power of a
negative number, division by zero, arcsine outside [-1,1], `exp` beyond 709.78 gives
+inf, inf-inf gives NaN), a theorem whose conclusion is `... = Fin x` really says
that the code's domain checks are met. Coq's total `sqrt`, `ln`, `Rpower`, `/` never
make a statement true by accident. `Hom.v` proves that every function of the model
commutes with backend homomorphisms; C52 (arrays) and C53 (CasADi) follow from it.

### 1.2 Numbers

* In all backends but `FL rd` floats are modelled by exact reals (plus special values),
  and decimal literals of the source are exact rationals (`288.15` is 28815/100).
* `FL rd` (C112 and later) rounds the exact result of every operation and every literal with
  a function `rd` that may depend on the operation and its operands. Theorems hold for
  every `rd` with relative error at most 2^-50 (NumPy documents at most four units in the
  last place for its vector functions) or for correct rounding to 53 bits (Flocq).
  Parameters that a constructor computes from file data (cruise altitude in feet, default
  cruise thrust) count as literals: the value is within 2^-50 of the exact one.
* Underflow, signed zeros and overflow of operations other than `exp` are **not** modelled.
* Division by zero yields `NaN` in the model ("NaN or an infinity whose sign depends on
  the sign of zero"); comparisons with `NaN` yield "unknown", which makes `where` yield
  `NaN`. Both are conservative: they never make a claimed `Fin` result appear.
* `np.pi` is the real number PI.

### 1.3 Sequential and data code

* Python exceptions are values (`inl e`), `None` is `option` (`Py.v`).
* `while True` loops of `gen.py` are step functions iterated any number of times;
  termination is a theorem, never built into the definition.
* Text data (`openap/data`) used by the lookup theorems is transcribed by a script
  into `theories/Data*.v` (generated, committed); that these are what the files say is
  proved in C129-C131 from the texts of the files (`Text*.v`, copied character by character). Theorems about shipped data
  quantify over `ships d`: any database whose tables are permutations of those
  files, in any directory order and install location.
* The random number generator is abstract (`GenRng.v`): a state, a standard uniform
  draw and a standard normal draw, all universally quantified. In `Gen.v` the drawn
  values are parameters; C87 relates the two.
* `functools.lru_cache` is modelled with a heap of mutable objects (`Cache.v`).
* Python strings are ASCII strings (`Str.v`).
* Python's `re` (`Regex.v`): backtracking with Python's order of attempts. A Python transcription of `Regex.v` was
  compared with `re` on 300000 random texts for the patterns of the package (a check of the trusted reading, not a proof).
* Python's import statement (`Import.v`): one interpreter, one thread, no reloading, no import hooks, `sys.modules` not changed
  by hand, data files readable. A Python transcription of `Import.v` was compared with CPython 3.11 on 40000 random
  packages with cyclic imports, errors and repeated imports (results and the contents of `sys.modules`).

### 1.4 Not modelled

pandas/numpy internals (only the documented effect of the calls used), plotting,
file-system errors, YAML and CSV text outside the subset of `FileText.v`, the rounding of decimal numerals by pandas and PyYAML, warnings,
logging, matplotlib (`extra/statistics.fitplot`), reading of netCDF files (`contrail.load_olr` is modelled on the opened file), the distributions of scipy
used by `extra/statistics.py`, the spline fit of `extra/filters.py` (scipy), scripts outside the package.
For JAX: `Jax.v` models values and first derivatives of scalar programs.  The derivative rules of the primitives
(`jax/_src/lax/lax.py`) are a trusted reading, single precision (JAX's default; `exp` overflows at 88 instead of 709)
and compilation (`jit`) are not modelled, contributions of several uses of one value are added at the input, and a
derivative that JAX returns as a signed infinity appears as `NaN` (both are "not finite").

### 1.5 Source file to model file

| source | model | property files |
|---|---|---|
| `aero.py` | `Aero.v` | `P_Aero.v` |
| `geo.py` | `Geo.v` | `P_Geo.v`, `P_Sun.v` |
| `thrust.py` | `Thrust.v`, `Build.v`, `Params.v` | `P_Thrust.v`, `P_Laws.v`, `P_Data.v` |
| `drag.py` | `Drag.v`, `Build.v`, `Params.v` | `P_Drag.v`, `P_Laws.v`, `P_Data.v`, `P_Cruise.v` |
| `fuel.py` | `Fuel.v`, `Build.v`, `Params.v` | `P_Fuel.v`, `P_Laws.v`, `P_FuelModel.v`, `P_Data.v` |
| `emission.py` | `Emission.v`, `Build.v`, `Params.v` | `P_Emission.v`, `P_BFFM.v`, `P_Data.v` |
| `mass.py` | `Mass.v` | `P_Emission.v`, `P_Data.v` |
| `contrail.py` | `Contrail.v` | `P_Contrail.v`, `P_Contrail2.v` |
| `extra/fuzzy.py` | `Fuzzy.v`, `Fuzzy2.v` | `P_Phase.v`, `P_Phase2.v` |
| `phase.py` | `Phase.v` | `P_Phase.v`, `P_Phase2.v` |
| `gen.py` | `Gen.v`, `GenRng.v` | `P_Gen.v`, `P_Gen2.v`, `P_Gen3.v`, `P_DataGen.v`, `P_GenRng.v` |
| `kinematic.py` | `Kinematic.v`, `Build.v` | `P_Kin.v` |
| `prop.py` | `PropPy.v`, `Cache.v`, `Str.v` | `P_Prop.v`, `P_Prop2.v`, `P_Prop3.v`, `P_Cache.v`, `P_Eng.v` |
| `extra/__init__.py` | `Vec.v`, `Functions.v` | `P_Vec.v` |
| `backends/*.py` | `Num.v`, `Vec.v`, `Sym.v` | `P_Vec.v`, `P_Sym.v` |
| `extra/nav.py` | `Nav.v`, `DataNav.v` (airports only) | `P_Nav.v` |
| `extra/filters.py` | `Filters.v` | `P_Filters.v`, `P_Filters2.v`, `P_Filters3.v` |
| `addon/bada3.py` | `Bada3.v`, `Regex.v` (backtracking regular expressions), `Bada3Text.v` (text files; ASCII, numbers without rounding, newlines already translated) | `P_Bada3.v`, `P_Bada3Thr.v`, `P_Bada3Fuel.v`, `P_Bada3Data.v`, `P_Bada3Text.v`, `P_Bada3Syn.v` |
| `addon/bada4.py`, `extra/__init__.py` (`column=True`) | `Nd.v` (arrays of up to two dimensions), `Bada4.v` (XML trees as given; text to number abstracted) | `P_Bada4.v`, `P_Bada4Drag.v`, `P_Bada4Thr.v`, `P_Bada4Fuel.v`, `P_Bada4Shape.v`, `P_Bada4Xml.v` |
| `jax.py`, `backends/jax_backend.py` | `Jax.v` (values with tangent and pullback; JAX's rules for its primitives are a trusted reading) | `P_Jax.v`, `P_JaxDrag.v`, `P_JaxFuel.v`, `P_JaxPrim.v` |
| `aero.py`, `geo.py`, `drag.py`, `thrust.py`, `fuel.py`, `emission.py`, `backends/numpy_backend.py` in floating point | `Fl.v` (the backend `FL rd`), `SpecFl.v` | `P_Fl.v`, `P_FlCas.v`, `P_FlGeo.v`, `P_FlSun.v`, `P_FlDrag.v`, `P_FlThrust.v`, `P_FlFuel.v`, `P_FlEmis.v` |
| `extra/statistics.py` (`fit`) | `Stats.v` (scipy's distributions are arbitrary functions that may raise; the percentile is computed in exact arithmetic) | `P_Stats.v` |
| `extra/__init__.py` with the JAX models | `JaxShape.v` (the backend `SH`: kind and shape of every value; method bodies with the decorated methods as parameters) | `P_JaxShape.v` |
| `contrail.py` (`load_olr`) | `Olr.v` (the opened file as given; xarray's orthogonal linear interpolation is a trusted reading) | `P_Olr.v` |
| `geo.py` (`solar_zenith_angle`: timestamps) | `Timestamp.v` (Python's calendar from CPython's `Lib/datetime.py`; `np.asarray` of pandas containers is a trusted reading) | `P_Timestamp.v` |
| `base.py`, `casadi.py`, `jax.py`, `backends/__init__.py` and the constructors of the four classes | `Wire.v` (Python's binding of arguments, backends as tokens; the data part is that of `Build.v`) | `P_Wire.v` |
| top level of all 30 files | `Import.v` (CPython's import statement: `sys.modules`, parents first, binding in the parent afterwards, `from` falling back to submodules, removal after an error), `ImportSrc.v` (generated: the statements of every file with the names they look up) | `P_Import.v` |
| functions of `aero.py`, `geo.py` (lines 335-414, 258-320) | `Call.v` (generated tables of the methods and functions with their parameters; binding of arguments for values of any type, the body of the methods a parameter) | `P_Call.v` |
| `data/` and the calls that read it (`yaml.safe_load`, `pd.read_csv`, `pd.read_fwf`) | `FileText.v` (the subset of YAML, CSV and fixed width tables that the files use, from the documented behaviour of PyYAML and pandas; other text is rejected), `FileLoad.v` (from files to the records of `PropPy.v`), `TextAc.v`, `TextPolar.v`, `TextWrap.v`, `TextEng.v` (generated: the files character by character) | `P_Yaml.v`, `P_Csv.v`, `P_Fwf.v`, `P_Numeral.v` |
| `extra/__init__.py` (types of the arguments), `backends/numpy_backend.py` on integers | `IntArg.v` (the backend `IB`: NumPy's integer types, promotion, wrap around, Python integers that adapt to the array; whole-valued float literals are read as integers, so heights in `Geo` are floats there and direct calls of `Aero` with integers are left out; single precision arrays not modelled) | `P_IntArg.v` |
| `data/**` | `DataAc.v`, `DataEng.v`, `DataPolar.v`, `DataWrap.v` | those above |

## 2. Trusted base

* Coq 8.16.1's kernel (all files are also re-checked by `coqchk`).
* The axioms that `Print Assumptions` lists for each property theorem. The full
  per-theorem listing is in `ASSUMPTIONS.txt` (generated; it is kept out of the `.v`
  files because printing takes several seconds per theorem). They are all from the
  standard library:
  - real numbers: `ClassicalDedekindReals.sig_forall_dec`,
    `ClassicalDedekindReals.sig_not_dec`,
    `FunctionalExtensionality.functional_extensionality_dep`;
  - `Classical_Prop.classic` (Coquelicot / coq-interval based proofs);
  - for proofs by the `interval` tactic: the standard library's primitive 63-bit
    integers and binary64 floats with their specification axioms (`Coq.Numbers.Cyclic.Int63`,
    `Coq.Floats`).
  The development adds no axiom, parameter or admitted proof.
* The reading of the Python source that the comments in the model files cite, and the
  semantics assumed for NumPy/CasADi/pandas primitives in section 1.
* The script that copied the texts of the data files into `Text*.v`, and the reading of PyYAML and pandas in
  `FileText.v`.

## 3. Kinds of file

Model files (definitions only, each citing file and lines); `*Facts.v` lemmas;
`Spec*.v` and the "Specification" sections of `P_*.v`: specifications written
independently of the model's helpers; `P_*.v` the property theorems `Cnn_...` and,
beside them, concrete instances `Cnn_ex...` that meet their hypotheses.

## 4. Plan per property

For all: the theorem quantifies over all inputs; no bound on sizes.

| id | modelled | how it is proved |
|---|---|---|
| C01-C03 | `Aero.atmos` over `NP` | definedness by sign analysis; monotonicity of `Rmax`, `Rpower`, `exp` |
| C04 | same, against a separate ISA specification | ratio of the two laws is a power with tiny exponent; bounded with `interval` |
| C05-C07 | conversions | algebra of `Rpower`/`sqrt`; strict monotonicity |
| C08 | conversions | mean-value / convexity argument on (1+x)^3.5 |
| C09-C11 | `h_isa`, `crossover_alt` | algebra + `interval` bounds; refutations by witness |
| C12-C17 | `Geo` | unit vectors on the sphere: haversine = (1-u.v)/2; spherical triangle inequality via Gram determinant; spherical trigonometry for the destination formula |
| C18, C72 | `Geo.solar_zenith_angle` after calendar decoding | Cauchy-Schwarz, periodicity of cos; `interval` on the Fourier series of the almanac |
| C19-C22, C58-C60, C73 | `Thrust` | definedness; algebra; `interval` for numeric facts |
| C23, C36-C40, C70, C71, C85 | `PropPy`, constructors, caches | strings; finite tables by computation lifted to all strings; heap model for caches with induction on histories |
| C24-C27, C75, C84 | `FuelFlow` | monotonicity of softplus difference; `exp` overflow in `NP` |
| C28-C31, C74 | `Drag` | algebra (AM-GM) |
| C32-C34, C76 | `Emission` | algebra, interpolation bounds |
| C35 | `mass.from_range` | linear arithmetic; witness from shipped data |
| C41-C44, C64-C66, C80 | `FlightPhase` | induction over windows and over index loops |
| C42 | fuzzy inference | lower bound on the strongest rule, level-cut of Gaussians |
| C45 | `fuzzy` | algebra |
| C46-C51, C67-C69, C82, C83 | `FlightGenerator` | loop invariants, ranking functions |
| C52, C53 | all generic functions | logical relation between backends (homomorphism) |
| C54-C57, C61-C63, C81 | `contrail` | algebra, derivative sign, `interval` |
| C77-C79, C86 | shipped data | finite check by computation over the transcribed tables, lifted to every accepted argument |
| C87, C88 | `GenRng` | refinement of the oracle model; induction on draws |
| C87, C88 | `FlightGenerator` with random generator | draws threaded as state; per-method commutation |
| C89, C90 | `nav` | list lemmas on `filter`/`argmin`; computation over the shipped table on integers; haversine lower bound outside the square |
| C91, C92, C93 | `filters` | stable-sort uniqueness; weights of the recursion as rows of a matrix; normal equations and roots of polynomials for the least-squares fit; convex combinations |
| C94 to C98 | `addon/bada3` | model with a flag for the missing attribute `sci`; formulas through `NP`; structural induction on nested dictionaries |
| C99 to C104 | `addon/bada4` | array backend with shapes and errors; a homomorphism from arrays to rows reduces array calls to number calls; formulas through `NP` |
| C105 to C111 | JAX backend | dual-number backend `JB`; homomorphism to `NP` for the numbers; the predicate `exact` (value, tangent and pullback belong to one differentiable function) is preserved by every primitive away from its kinks, and then by every function; infinite local derivatives spread to the gradient |
| C112 to C115 | rounded arithmetic | backend `FL rd` for an arbitrary accurate rounding function; calculus of relative and absolute errors (`FlFacts.v`); Flocq for binary64; evaluation of single roundings with `interval` |
| C116 | `statistics.fit` | counting characterisation of the interpolated percentile on a sorted permutation; the scipy functions are section parameters |
| C117 | JAX result shapes | the models run on the backend `SH` of kinds and shapes with the decorator explicit at every call; all subsets of traced arguments by computation |
| C118 | `load_olr` | neighbours in a sorted list; uniqueness of the cell up to shared nodes |
| C119 | timestamps | `ord2ymd` against a calendar characterised by its recursion; broadcasting homomorphism; spherical triangle inequality for the change per second |
| C120, C121 | rounded drag and thrust | relative error calculus at a rounded altitude (`FlAtmFacts.v`), absolute errors where terms cancel, interval arithmetic for the ranges, parameter ranges of the shipped files by computation |
| C122 | rounded fuel flow | absolute errors of the forces relative to the rated thrust, then the limiter's and the exponentials' sensitivities; coefficient ranges of the shipped table by computation |
| C123 | rounded emissions | induction over the interpolation table: chords in rounded arithmetic, closeness where rounded and exact comparison disagree; spacing of the engine databank by computation |
| C124 | constructors | binding of arguments as a function on association lists; keyword dictionaries related by what they say about the known names; nested calls reduced to the constructors of `Build.v` |
| C125 | OPF files | row layouts and sections specified on texts without patterns (`SpecText.v`); sequences of greedy runs over disjoint classes are deterministic, so the engine is a scanner; first places are unique |
| C126 | synonym file | declarative matching (`matches`) sound and complete for the backtracking engine gives what is accepted; for clear lines each lazy repetition fails on every shorter choice because names have no two blanks in a row |
| C127 | import order | the interpreter states that any session can reach are the empty one and 80 others (optional modules loaded or not): closedness under every import by evaluation in the kernel, lifted to all sessions by induction; what a name means is defined declaratively from the files (`means`) and shown equal to what every reachable state gives |
| C128 | functions and methods | binding shown equivalent to a declarative relation (`understood`); the two bindings in a row compose to the one of the method; the table is checked row by row |
| C129 | YAML files | layouts specified without the reader (`SpecFile.v`); induction over the nesting with the rest of the file as context; shipped texts by evaluation in the kernel |
| C130 | CSV tables | automaton of the quoted cells run over any written cell; insertion of a column commutes with lookup; shipped texts by evaluation, the engine table in pieces |
| C131 | fixed width files | a column is specified as a longest run of inked positions; the reader's spans shown to be exactly these, sorted, hence unique; a cell is what a strip leaves of its zone; shipped texts by evaluation with the column types computed once |
| C132 | cruise feasibility | closed form at the cruise altitude (pressure ratio 1, so the logarithm vanishes); x^-0.11 bounded by convexity of exp, pressure by interval arithmetic at the three altitudes that occur, then one rational comparison per type, lifted to all masses by monotonicity |
| C133 | integer arguments | backend `IB` with typed integers; values without integer arrays are related to `NP` by a homomorphism (all model functions respect it); an integer that meets a fractional constant is a float, so each function is rewritten to its float arguments; the four remaining places in closed form (difference of the climb law, factor of the NOx law) |

## 5. Claims that are false of the code

Where the natural statement fails, a theorem with suffix `_refuted` proves the
failure with a witness (or for a whole family of inputs), next to the part that holds.

| theorem | what fails |
|---|---|
| `C09_exact_inverse_refuted` | `h_isa(pressure(h))` is not exactly `h` |
| `C09_off_isa_refuted` | with a temperature shift `h_isa` does not invert `pressure` even approximately |
| `C101_hot_refuted` | BADA4 thrust does not change with temperature beyond the kink: the temperature ratio is taken at dT = 0 |
| `C102_shape_refuted` | BADA4 drag of several points is a column, not an array of the shape of the arguments |
| `C102_thrust_points_refuted` | BADA4 thrust of n points is an n by n array, not one number per point |
| `C103_floor_refuted` | BADA4 `FuelFlow.enroute` can be below idle: no lower bound is applied |
| `C104_exact_refuted` | `load_bada4`: a folder with exactly the asked name is not preferred over a longer one |
| `C106_zero_speed_refuted` | JAX: at zero speed the gradient of `tas2cas` by altitude is not finite although the derivative is zero |
| `C107_standstill_refuted` | JAX: at zero speed and zero vertical rate the gradient of clean drag by speed is not finite although the derivative is zero (`arctan2(0, 0)`) |
| `C10_global_monotone_refuted` | `h_isa` is not monotone across the 22630 Pa switch |
| `C110_coincident_refuted` | JAX: the gradient of the distance of two points that stay together is not finite although the distance is constant |
| `C111_where_refuted` | JAX: `where(x > 0, sqrt(x), 2 x)` at zero has no finite `jax.grad` although the chosen branch has slope 2 |
| `C113_tiny_refuted` | binary64: the calibrated airspeed of a true airspeed of 1e-9 m/s is exactly zero |
| `C114_pole_refuted` | binary64: the destination 4230713 m due north of latitude 52 at 8000 m (the pole to within a centimetre) is NaN, NaN, because the sine of the latitude rounds to 1 + 2^-52 |
| `C116_split_refuted` | `statistics.fit` announces a 50-50 split into training and test data, but trains on all values except the last and tests on the same values without the first |
| `C117_grad_refuted` | `jax.grad` of non-clean drag by the flap angle, of clean drag with wave drag by the vertical rate, of en-route fuel flow by the acceleration and of take-off fuel flow by the throttle raises: an inner decorated call sees plain numbers only and turns them into arrays of length 1, so the result is no scalar |
| `C117_scalar_refuted` | with plain numbers the JAX models return one-element arrays; `to_scalar` of the decorator only looks for NumPy arrays |
| `C118_longitude_refuted` | `load_olr` on a grid from 0 to 360 degrees returns NaN for a longitude of -5 degrees and a number for 355 |
| `C118_points_refuted` | `load_olr` with arrays of n latitudes, longitudes and times returns n x n x n values (the grid they span), not one value per point of a trajectory |
| `C119_pandas_refuted` | `solar_zenith_angle` raises TypeError for a pandas index or series of dates without a time zone (and for numpy arrays of dates), although "array of timestamps" is documented |
| `C119_zone_refuted` | `solar_zenith_angle` uses the clock of an aware datetime as if it showed UTC: the same instant in two time zones gives different angles |
| `C124_backend_by_name_refuted` | `Drag('A320', backend='jax')` is accepted; the object holds the text instead of a backend |
| `C124_misspelt_refuted` | a misspelt keyword (`use_synonyms=True`) is accepted by every constructor and has no effect |
| `C124_positional_refuted` | the second positional argument of `Drag` switches wave drag, whatever it is: `Drag('A320', 'CFM56-5B4')` and `Drag('A320', CasadiBackend())` compute wave drag with NumPy |
| `C125_columns_refuted` | in a drag row without a configuration name the columns are shifted: CD0 is the induced drag coefficient |
| `C125_engine_refuted` | an aircraft code with `jet` in it (JETP) makes a piston aircraft a turbofan |
| `C125_exponent_refuted` | an exponent written with a lower-case e is cut off: `3.8e-02` is read as 3.8 |
| `C125_name_refuted` | a drag row whose configuration name has two words is passed over without an error: CD0 and CD2 are zero |
| `C125_section_refuted` | a mass row without its last column is passed over in favour of the next row of five numbers: the maximum take-off mass becomes the ceiling in feet times 1000 kg |
| `C126_one_blank_refuted` | with one blank between a long manufacturer and the model, the flag after the synonym is taken as the synonym |
| `C126_one_letter_refuted` | a manufacturer of one letter is joined with the model; the word after the synonym is taken as the synonym |
| `C126_slash_refuted` | an entry with a blank after the closing slash is not found (ValueError) |
| `C126_synonym_refuted` | of the synonym `A320NEO` only `A320` counts, and `A320__.OPF` is loaded |
| `C127_aero_refuted` | `openap.aero`, `from openap import aero` and `import openap.aero as x` give openap/extra/aero.py, which has no `Aero`; only `from openap.aero import …` reads openap/aero.py |
| `C127_late_refuted` | `openap.mass` (also `contrail`, `casadi`, `jax`, `addon`) is no attribute after `import openap`, but is once any code imported it |
| `C127_retry_refuted` | without matplotlib `from openap.aero import Aero` fails at first and succeeds when tried again |
| `C129_numerals_refuted` | in a YAML file `1e5` is a string and `010` is eight, whereas `float` makes 100000 and 10 of them |
| `C131_models_refuted` | `statmodel_params` of the maximum cruise Mach number of A333, A388 and B788 is a gamma distribution of scale 0.00 |
| `C131_position_refuted` | one more column in a file of the kinematic model makes every accessor raise, another order of columns swaps default and minimum |
| `C131_rows_refuted` | a cell after line 100 of a fixed width file that is longer than those before is cut |
| `C131_words_refuted` | the phase `initial climb` (with a blank) would make nine columns of eight and every accessor raise |
| `C132_cruise_refuted` | with its maximum take-off mass an A388 needs more thrust at its cruise altitude and Mach number than its engines have; a C550 needs more even with nothing on board |
| `C133_climb_refuted` | a rate of climb of 3000 ft/min stored in 16 bits: its square wraps around and climb thrust below 10000 ft is too high, for every engine |
| `C133_co2_refuted` | 11 kg/s stored in 16 bits give a CO2 flow of -30776 g/s |
| `C133_enroute_refuted` | 20000 kg and 2 m/s2 stored in 16 bits: the needed thrust is taken 65536 N too small, the fuel flow with it |
| `C133_nox_refuted` | an unsigned altitude below 12900 ft wraps around in `alt - 12900`: NOx too high by a factor given in closed form, more than 1.12 at sea level in 16 bits |
| `C17_longitude_normalised_refuted` | `latlon` can return longitudes beyond 180 degrees |
| `C22_climb_thrust_continuous_at_30000_refuted` | climb thrust jumps at 30000 ft |
| `C25_upper_limit_refuted` | the limiter lets the thrust ratio exceed 1 |
| `C26_default_altitude_refuted` | `FuelFlow.takeoff` without altitude raises, although the altitude is documented as optional |
| `C30_flaps_add_drag_refuted` | flaps can reduce drag (the induced-drag factor drops) |
| `C35_mass_at_most_mtow_refuted` | `mass.from_range` exceeds MTOW for a shipped aircraft (A332) |
| `C36_wildcard_rejected_refuted` | glob metacharacters in an aircraft name match files |
| `C37_exact_name_refuted` | `prop.engine` with an exact name may return a different engine (first prefix match) |
| `C38_case_insensitive_refuted` | `search_engine` cannot find engine names containing lower-case letters |
| `C43_unsorted_loses_alignment_refuted` | phase labels of unsorted input are not aligned with the samples |
| `C44_landing_at_cruise_refuted` | a landing can be reported at cruise altitude |
| `C45_degenerate_refuted` | `smf` with coinciding corners, which its assertion admits, is NaN |
| `C49_negative_crossover_never_ends_refuted` | a descent whose CAS is faster than its Mach at sea level never ends |
| `C53_all_methods_refuted` | the symbolic interpolation differs outside the table |
| `C56_zero_depth_net_refuted` | a contrail of zero optical depth has a non-zero net forcing |
| `C57_low_pressure_refuted` | below about 700 Pa the critical temperature decreases with pressure, then is NaN |
| `C58_hot_day_within_rating_refuted` | static take-off thrust exceeds the rating on a hot day |
| `C65_phase_order_refuted` | reported phase start indices can be out of flight order |
| `C67_slow_mach_retakeoff_refuted` | with a slow Mach number a climb returns to the take-off segment at altitude |
| `C70_explicit_default_refuted` | spelling out the documented default `use_synonym=False` changes what `FuelFlow` accepts |
| `C76_published_method_refuted` | the emission correction is not the published Boeing Fuel Flow Method 2 at any positive speed |
| `C77_forced_engine_refuted` | `force=True` accepts an engine without thrust data; thrust is then NaN |
| `C78_negative_range_limit_refuted` | the shipped cruise range of A343 has a negative lower limit |
| `C78_random_cruise_range_refuted` | a random flight with negative range is a single point |
| `C79_default_within_limits_refuted` | three shipped defaults lie outside their limits |
| `C83_slow_cas_taken_in_random_mode_refuted` | the floor on climb CAS is missing in random mode |
| `C85_one_domain_refuted` | the constructors do not accept the same aircraft types |
| `C88_altitude_below_zero_refuted` | noisy altitudes can be negative |
| `C89_country_refuted` | airports in Namibia (country code "NA") are returned without a country |
| `C89_longitude_wrap_refuted` | `closest_airport` at longitude 180 and -180 differ |
| `C89_nearest_on_the_sphere_refuted` | at 64N 20W `closest_airport` returns BIMK although BIGH is nearer |
| `C90_longitude_wrap_refuted` | `closest_fix` does not see across the antimeridian |
| `C90_own_name_refuted` | fixes named "NA" or with small letters cannot be looked up |
| `C91_closest_previous_refuted` | `simplefill` ignores samples that are not at whole seconds and starts with 0 |
| `C91_twf_range_refuted` | `TWF` with the default window leaves the range of the samples |
| `C91_twf_window_three_refuted` | `TWF(window_size=3)` with one sample per second divides by zero |
| `C92_derivative_sign_refuted` | `SavitzkyGolay(deriv=1)` returns minus the derivative |
| `C92_falling_line_refuted` | `SavitzkyGolay` changes a falling line at its ends |
| `C92_short_series_refuted` | `SavitzkyGolay` returns 11 values for a series of one sample |
| `C94_usable_refuted` | the shipped BADA3 `FuelFlow.enroute` raises for every aircraft and argument (`self.sci` is never set) |
| `C95_gear_refuted` | BADA3 `Drag.nonclean`: lowering the gear adds no drag when the landing coefficients are zero |
| `C96_descent_altitude_refuted` | BADA3 `Thrust`: the 8000 ft floor of the descent altitude is applied when no non-clean data exist, not when they do |
| `C97_floor_refuted` | BADA3 `FuelFlow.nominal` can be below idle: kg/min compared with kg/s |
| `C98_limits_refuted` | `bada3_aircraft`: `limits["MTOW"]` and `mtow` differ after merging |
| `C98_missing_refuted` | an OPF file without sections is accepted; the aircraft has no drag |

Also visible in theorems without that suffix: C06 (CAS/TAS conversion loses the sign of
negative speeds), C37 (engines that no name reaches), C47 (climb overshoots a cruise altitude below the
crossover altitude), C50 (cruise range in metres although documented in kilometres), C51
(`complete` raises TypeError for documented keywords), C52 (`latlon` returns a single latitude for an array of start longitudes),
C64 (a parked aircraft at an elevated airport is labelled as flying), C81 (cirrus above a
contrail strengthens its cooling for a high sun), C84 (synonym types get the default fuel model).

## 6. Tests against wrong programs

`seeded/LOG.jsonl` has one line per attempt: the model definition edited in a scratch copy,
the edit, the claim it breaks, the lemmas and theorems that failed on rebuilding, and what
was tightened. "Killed" by a helper lemma (an equation between the model and the real
formula) was not accepted as sufficient: each such attempt was judged by whether the
property theorems as stated exclude the edited behaviour, and where they did not a
property was tightened or added (C45, C44 restated; C72-C76, C80-C86 added for this reason).
