{"id": "C01", "title": "The standard atmosphere is defined and physical everywhere", "statement": "For every finite altitude and every finite ISA temperature shift, aero.atmos returns three finite numbers (no NaN, no infinity), all strictly positive, that satisfy the ideal-gas law p = rho*R*T; the temperature is never below 191.65 K; aero.vsound is finite and strictly positive.", "quantifier": "all finite real altitudes h (below and above sea level, any magnitude) and all finite dT", "why_tests_cant": "The claim ranges over a continuum of inputs; any test suite samples finitely many points and cannot exclude a bad interval between them.", "anchors": ["openap/aero.py:Aero.atmos", "openap/aero.py:Aero.vsound", "openap/aero.py:Aero.temperature", "openap/aero.py:Aero.pressure", "openap/aero.py:Aero.density"]}
{"id": "C02", "title": "The ISA temperature shift saturates at [-25, 15] K and shifts temperature additively", "statement": "aero.atmos with any shift dT gives the same result as with dT limited to [-25, 15]; the returned temperature is the zero-shift temperature plus the limited shift, and density at sea level is 1.225 kg/m3 whatever the shift.", "quantifier": "all finite h and dT", "why_tests_cant": "The claim ranges over a continuum of inputs; any test suite samples finitely many points and cannot exclude a bad interval between them.", "anchors": ["openap/aero.py:Aero.atmos"]}
{"id": "C03", "title": "Air gets thinner with altitude", "statement": "At any fixed temperature shift, pressure and density strictly decrease with altitude, temperature never increases with altitude, and temperature is exactly constant from 11000 m upwards.", "quantifier": "all pairs of finite altitudes h1 < h2, all dT", "why_tests_cant": "The claim ranges over a continuum of inputs; any test suite samples finitely many points and cannot exclude a bad interval between them.", "anchors": ["openap/aero.py:Aero.atmos", "openap/aero.py:Aero.pressure", "openap/aero.py:Aero.density"]}
{"id": "C04", "title": "The atmosphere agrees with the published ISA law", "statement": "For dT = 0 and every altitude between 0 and 20 km, temperature equals the ISA temperature exactly, and pressure and density are within 0.1 % of the textbook barometric law (linear lapse to 11 km with exponent g0/(R*L), exponential above).", "quantifier": "all real altitudes in [0, 20000] m", "why_tests_cant": "The claim ranges over a continuum of inputs; any test suite samples finitely many points and cannot exclude a bad interval between them.", "anchors": ["openap/aero.py:Aero.atmos", "openap/aero.py (constants, lines 29-46)"]}
{"id": "C05", "title": "TAS/Mach and TAS/EAS conversions are exact inverses and order preserving", "statement": "For every finite speed, altitude and temperature shift: mach2tas(tas2mach(v)) = v, tas2mach(mach2tas(m)) = m, eas2tas(tas2eas(v)) = v and tas2eas(eas2tas(v)) = v; each of the four conversions is defined and strictly increasing in the speed.", "quantifier": "all finite speeds (including negative), altitudes, temperature shifts", "why_tests_cant": "The claim ranges over a continuum of inputs; any test suite samples finitely many points and cannot exclude a bad interval between them.", "anchors": ["openap/aero.py:Aero.tas2mach", "openap/aero.py:Aero.mach2tas", "openap/aero.py:Aero.eas2tas", "openap/aero.py:Aero.tas2eas"]}
{"id": "C06", "title": "CAS/TAS conversion is an exact inverse pair on non-negative speeds", "statement": "For every v >= 0 and every h, dT: tas2cas and cas2tas are defined, non-negative, strictly increasing in v, map 0 to 0, and tas2cas(cas2tas(v,h,dT),h,dT) = v = cas2tas(tas2cas(v,h,dT),h,dT). For negative speeds both return the value for |v| (the sign is lost), so the round trip fails there.", "quantifier": "all finite v, h, dT", "why_tests_cant": "The claim ranges over a continuum of inputs; any test suite samples finitely many points and cannot exclude a bad interval between them.", "anchors": ["openap/aero.py:Aero.cas2tas", "openap/aero.py:Aero.tas2cas"]}
{"id": "C07", "title": "CAS/Mach conversion is an exact inverse pair on non-negative speeds", "statement": "For every Mach number m >= 0 and CAS v >= 0 and every h, dT: cas2mach(mach2cas(m)) = m and mach2cas(cas2mach(v)) = v, and both are strictly increasing.", "quantifier": "all finite m, v >= 0, all h, dT", "why_tests_cant": "The claim ranges over a continuum of inputs; any test suite samples finitely many points and cannot exclude a bad interval between them.", "anchors": ["openap/aero.py:Aero.mach2cas", "openap/aero.py:Aero.cas2mach"]}
{"id": "C08", "title": "Airspeeds are ordered EAS <= CAS <= TAS above sea level", "statement": "At ISA temperature and any altitude of at least 1 m, for every v >= 0: the CAS of a TAS never exceeds that TAS and is never below its EAS.", "quantifier": "all h >= 1 m, all v >= 0, dT = 0", "why_tests_cant": "The claim ranges over a continuum of inputs; any test suite samples finitely many points and cannot exclude a bad interval between them.", "anchors": ["openap/aero.py:Aero.tas2cas", "openap/aero.py:Aero.cas2tas", "openap/aero.py:Aero.tas2eas"]}
{"id": "C09", "title": "Pressure altitude inverts the pressure function only approximately, and not at all off ISA", "statement": "At dT = 0, h_isa(pressure(h)) is within 10 m of h for every h in [0, 20000] m but is not exactly h (it differs for every h in [0, 10990] m); with a non-zero temperature shift the two functions are not inverse even approximately (pressure(0, dT=10) is mapped to an altitude more than 250 m below sea level).", "quantifier": "all h in [0, 20000]; existence of a failing dT", "why_tests_cant": "The claim ranges over a continuum of inputs; any test suite samples finitely many points and cannot exclude a bad interval between them.", "anchors": ["openap/aero.py:Aero.h_isa", "openap/aero.py:Aero.pressure"]}
{"id": "C10", "title": "Pressure altitude is defined for positive pressures and monotone on each side of the 22630 Pa switch", "statement": "For every p > 0 and dT > -216.65 h_isa is defined; it is strictly decreasing in p on (22630, inf) and on (0, 22630]; at the switch it jumps, at ISA temperature by less than 1 m and with a 10 K shift by more than 300 m, and the jump is in the wrong direction so that global monotonicity fails.", "quantifier": "all pressures p > 0", "why_tests_cant": "The claim ranges over a continuum of inputs; any test suite samples finitely many points and cannot exclude a bad interval between them.", "anchors": ["openap/aero.py:Aero.h_isa"]}
{"id": "C11", "title": "The crossover altitude is where constant CAS and constant Mach meet", "statement": "For every CAS in the airline range and Mach number whose crossover altitude lies in the troposphere, flying that CAS at crossover_alt gives that Mach number to within 0.2 %; the crossover altitude strictly decreases with CAS and strictly increases with Mach.", "quantifier": "all CAS in [50,250] m/s and Mach in [0.3,0.95] with crossover altitude in [0,11000] m; monotonicity for all positive values", "why_tests_cant": "The claim ranges over a continuum of inputs; any test suite samples finitely many points and cannot exclude a bad interval between them.", "anchors": ["openap/aero.py:Aero.crossover_alt", "openap/aero.py:Aero.cas2mach"]}
{"id": "C12", "title": "Great-circle distance is a defined, bounded, symmetric pseudo-metric", "statement": "For all coordinates (any real degrees) geo.distance is defined (the square root and arcsine arguments never leave their domains), 0 for identical points, symmetric, invariant under adding 360 degrees to a longitude, and between 0 and pi*(R+h) when R+h >= 0.", "quantifier": "all real lat/lon pairs, all h >= -R", "why_tests_cant": "The claim ranges over a continuum of inputs; any test suite samples finitely many points and cannot exclude a bad interval between them.", "anchors": ["openap/geo.py:Geo.distance"]}
{"id": "C13", "title": "Great-circle distance satisfies the triangle inequality", "statement": "For any three points at the same altitude, distance(A,C) <= distance(A,B) + distance(B,C).", "quantifier": "all triples of real coordinates", "why_tests_cant": "The claim ranges over a continuum of inputs; any test suite samples finitely many points and cannot exclude a bad interval between them.", "anchors": ["openap/geo.py:Geo.distance"]}
{"id": "C14", "title": "Bearings are always in [0, 360)", "statement": "geo.bearing is defined for all coordinates and its result is >= 0 and < 360.", "quantifier": "all real coordinates", "why_tests_cant": "The claim ranges over a continuum of inputs; any test suite samples finitely many points and cannot exclude a bad interval between them.", "anchors": ["openap/geo.py:Geo.bearing"]}
{"id": "C15", "title": "The destination point is at the requested distance", "statement": "For a start latitude in [-90,90], any longitude, any bearing and any distance d in [0, pi*(R+h)], the point returned by geo.latlon is at geo.distance exactly d from the start.", "quantifier": "all starts, bearings and distances up to half the circumference, all h > -R", "why_tests_cant": "The claim ranges over a continuum of inputs; any test suite samples finitely many points and cannot exclude a bad interval between them.", "anchors": ["openap/geo.py:Geo.latlon", "openap/geo.py:Geo.distance"]}
{"id": "C16", "title": "The destination point lies on the requested bearing", "statement": "For a start latitude strictly between the poles, distance strictly between 0 and half the circumference and bearing in [0,360), geo.bearing from the start to the point returned by geo.latlon is exactly the requested bearing.", "quantifier": "all such starts, bearings, distances", "why_tests_cant": "The claim ranges over a continuum of inputs; any test suite samples finitely many points and cannot exclude a bad interval between them.", "anchors": ["openap/geo.py:Geo.latlon", "openap/geo.py:Geo.bearing"]}
{"id": "C17", "title": "Destination latitude is valid; longitude is not normalised", "statement": "geo.latlon always returns a latitude in [-90,90] and a longitude within 180 degrees of the start longitude; it does not return a longitude in [-180,180] (crossing the antimeridian gives values beyond 180).", "quantifier": "all finite inputs with R+h /= 0; existence of an antimeridian witness", "why_tests_cant": "The claim ranges over a continuum of inputs; any test suite samples finitely many points and cannot exclude a bad interval between them.", "anchors": ["openap/geo.py:Geo.latlon"]}
{"id": "C18", "title": "Solar zenith angle is well defined, in [0,180], and 360-degree periodic in longitude", "statement": "For every latitude, longitude and timestamp the cosine is already in [-1,1] before clipping, the zenith angle is in [0,180], adding 360 degrees to the longitude does not change it, and shifting the clock by one hour equals moving 15 degrees in longitude on the same day.", "quantifier": "all real latitudes, longitudes, days of year and hours", "why_tests_cant": "The claim ranges over a continuum of inputs; any test suite samples finitely many points and cannot exclude a bad interval between them.", "anchors": ["openap/geo.py:Geo.solar_zenith_angle"]}
{"id": "C19", "title": "Static sea-level take-off thrust is the rated thrust", "statement": "Thrust.takeoff at zero speed, sea level and ISA equals number-of-engines times rated thrust to within 1e-6 relative, for every engine with non-negative bypass ratio; it is defined for every speed, altitude and dT; at zero speed it strictly decreases with altitude (from 2000 ft below sea level upwards), and it is proportional to rated thrust and number of engines.", "quantifier": "all engines (bpr >= 0, any rated thrust), all speeds/altitudes", "why_tests_cant": "The claim ranges over a continuum of inputs; any test suite samples finitely many points and cannot exclude a bad interval between them.", "anchors": ["openap/thrust.py:Thrust.takeoff"]}
{"id": "C20", "title": "Climb thrust: continuity at 10000 ft, symmetry, low-speed floor and reference point", "statement": "For every engine with positive reference Mach number and cruise thrust: Thrust.climb is even in the vertical rate; any speed below 10 kt gives the value at 10 kt; Thrust.cruise equals Thrust.climb at zero vertical rate; thrust is continuous in altitude everywhere except at 30000 ft, in particular at the 10000 ft formula switch; and at the reference Mach number and cruise altitude (above 30000 ft) thrust equals number-of-engines times cruise thrust.", "quantifier": "all engines, all speeds, altitudes, rates, temperature shifts", "why_tests_cant": "The claim ranges over a continuum of inputs; any test suite samples finitely many points and cannot exclude a bad interval between them.", "anchors": ["openap/thrust.py:Thrust.climb", "openap/thrust.py:Thrust.cruise"]}
{"id": "C21", "title": "Climb thrust is defined over the whole envelope", "statement": "For every engine with positive reference Mach number and non-zero cruise thrust, Thrust.climb and Thrust.cruise return a finite value (no NaN from logs or fractional powers) for every finite speed, altitude, vertical rate and dT.", "quantifier": "all finite tas (including zero and negative), alt, roc, dT", "why_tests_cant": "The claim ranges over a continuum of inputs; any test suite samples finitely many points and cannot exclude a bad interval between them.", "anchors": ["openap/thrust.py:Thrust.climb"]}
{"id": "C22", "title": "Climb thrust is discontinuous at 30000 ft", "statement": "The thrust model switches formula at 30000 ft; for the default A320 engine data the two formulas differ there, so thrust jumps as altitude passes 30000 ft (continuity is refuted by a concrete witness).", "quantifier": "existence; continuity would have to hold at all altitudes", "why_tests_cant": "A discontinuity exactly at a switch point is a limit statement; tests compare finitely many points and a tolerance.", "anchors": ["openap/thrust.py:Thrust.climb"]}
{"id": "C23", "title": "An accepted engine really belongs to the aircraft", "statement": "If Thrust(ac, eng) is constructed without force_engine, some engine option listed for the aircraft occurs (case-insensitively) inside the requested engine string, and the engine row used starts with the requested string; hence an abbreviation shorter than every option is rejected.", "quantifier": "all engine strings, all option lists, all engine tables", "why_tests_cant": "The set of possible engine strings is infinite.", "anchors": ["openap/thrust.py:Thrust.__init__", "openap/prop.py:engine"]}
{"id": "C24", "title": "Fuel flow at a thrust is positive, increasing and bounded", "statement": "With positive fuel coefficients and scale, FuelFlow.at_thrust is strictly increasing in thrust from -10.5 times rated thrust upwards, strictly positive there, never below the flow at 3 % thrust ratio, and always below number-of-engines*scale*c1, for every thrust at which the exponentials do not overflow.", "quantifier": "all coefficient triples c1,c2,c3 > 0, all thrust values", "why_tests_cant": "The claim ranges over a continuum of inputs; any test suite samples finitely many points and cannot exclude a bad interval between them.", "anchors": ["openap/fuel.py:FuelFlow.at_thrust", "openap/fuel.py:FuelFlow._load_fuel_model"]}
{"id": "C25", "title": "The thrust-ratio limiter does not limit at 1, and overflows to NaN", "statement": "The documented intent 'limit the lowest/highest ratio to 0.03/1' holds at the low end but not at the high end: from 1.05 times rated thrust on, the flow exceeds the flow at ratio 1, and at 14 times rated thrust it exceeds the flow at ratio 2; between 14.3 and 16.9 times rated thrust one exponential overflows and the flow is exactly the asymptote n*scale*c1; from 17 times rated thrust it is NaN.", "quantifier": "all thrust values; existence witnesses", "why_tests_cant": "The claim ranges over a continuum of inputs; any test suite samples finitely many points and cannot exclude a bad interval between them.", "anchors": ["openap/fuel.py:FuelFlow.at_thrust"]}
{"id": "C26", "title": "Take-off fuel flow: linear in throttle, but the documented default altitude fails", "statement": "FuelFlow.takeoff with an altitude is throttle times the full-thrust fuel flow (linear in throttle); called without altitude (documented default: sea level) it always raises TypeError.", "quantifier": "all speeds, altitudes, throttle values", "why_tests_cant": "The default-argument failure must be shown for every speed and object; linearity ranges over a continuum.", "anchors": ["openap/fuel.py:FuelFlow.takeoff", "openap/extra/__init__.py:ndarrayconvert"]}
{"id": "C27", "title": "En-route fuel flow follows the point-mass balance and ignores `limit`", "statement": "FuelFlow.enroute equals at_thrust of (clean drag + m*9.81*sin(gamma) + m*acc); the `limit` argument never changes the result; in level unaccelerated flight it is at_thrust(clean drag); it is non-decreasing in acceleration and, when not descending, in mass.", "quantifier": "all masses >= 0, speeds > 0, altitudes, rates, accelerations", "why_tests_cant": "The claim ranges over a continuum of inputs; any test suite samples finitely many points and cannot exclude a bad interval between them.", "anchors": ["openap/fuel.py:FuelFlow.enroute", "openap/drag.py:Drag.clean"]}
{"id": "C28", "title": "Clean drag is positive and never below the polar's minimum drag", "statement": "For cd0, k > 0 and every flight condition, Drag.clean is defined, strictly positive, and at least 2*L*sqrt(cd0*k) where L = m*g0*cos(gamma); once dynamic pressure times wing area is at least 0.001 N it is exactly cd0*q*S + k*L^2/(q*S).", "quantifier": "all masses, speeds (including 0), altitudes, rates, dT; all polars with positive coefficients", "why_tests_cant": "The claim ranges over a continuum of inputs; any test suite samples finitely many points and cannot exclude a bad interval between them.", "anchors": ["openap/drag.py:Drag.clean", "openap/drag.py:Drag._cl", "openap/drag.py:Drag._calc_drag"]}
{"id": "C29", "title": "Clean drag: symmetric in vertical rate, increasing in mass", "statement": "Without wave drag, Drag.clean is unchanged when the vertical rate changes sign and strictly increases with mass (mass >= 0, not flying vertically).", "quantifier": "all conditions", "why_tests_cant": "The claim ranges over a continuum of inputs; any test suite samples finitely many points and cannot exclude a bad interval between them.", "anchors": ["openap/drag.py:Drag.clean"]}
{"id": "C30", "title": "Non-clean drag: zero flap and no gear equals clean drag; gear always adds drag; flaps need not", "statement": "Drag.nonclean with flap angle 0 and gear up equals Drag.clean without wave drag; extending the gear strictly increases drag at every condition; extending flaps can reduce total drag at high lift coefficient (witness), so monotonicity in flap angle is refuted; the value is that of the parabolic polar with the published flap, gear and Oswald-factor increments.", "quantifier": "all flight conditions; all aircraft with positive polar and geometry data", "why_tests_cant": "The claim ranges over a continuum of inputs; any test suite samples finitely many points and cannot exclude a bad interval between them.", "anchors": ["openap/drag.py:Drag.nonclean"]}
{"id": "C31", "title": "Wave drag only adds drag", "statement": "With wave_drag enabled, Drag.clean is never smaller than without, and equal whenever the Mach number does not exceed the critical Mach number computed from the level-flight lift coefficient.", "quantifier": "all flight conditions", "why_tests_cant": "The claim ranges over a continuum of inputs; any test suite samples finitely many points and cannot exclude a bad interval between them.", "anchors": ["openap/drag.py:Drag.clean"]}
{"id": "C32", "title": "CO2, H2O, soot and SOx are proportional to fuel flow", "statement": "Emission.co2/h2o/soot/sox are additive and homogeneous in fuel flow with factors 3160, 1230, 0.03 and 1.2 g/kg, hence zero at zero flow and non-negative for non-negative flow.", "quantifier": "all fuel flows", "why_tests_cant": "The claim ranges over a continuum of inputs; any test suite samples finitely many points and cannot exclude a bad interval between them.", "anchors": ["openap/emission.py:Emission.co2", "openap/emission.py:Emission.h2o", "openap/emission.py:Emission.soot", "openap/emission.py:Emission.sox"]}
{"id": "C33", "title": "NOx, CO and HC rates are defined, non-negative and bounded by the databank indices", "statement": "For every non-negative fuel flow, speed, and altitude below 145442 ft, the NOx/CO/HC rates are finite and non-negative, and the interpolated sea-level index lies between the smallest and largest of the four databank values; zero fuel flow gives zero emission.", "quantifier": "all such inputs, all engines with increasing fuel-flow points and non-negative indices", "why_tests_cant": "The claim ranges over a continuum of inputs; any test suite samples finitely many points and cannot exclude a bad interval between them.", "anchors": ["openap/emission.py:Emission.nox", "openap/emission.py:Emission.co", "openap/emission.py:Emission.hc", "openap/emission.py:Emission._fl2sl"]}
{"id": "C34", "title": "Emission correction breaks down above 145442 ft", "statement": "The BFFM2 pressure ratio uses a troposphere-only law in feet; for altitudes above 288.15/0.0019812 ft the fractional power of a negative number makes NOx, CO and HC NaN.", "quantifier": "all altitudes above the threshold", "why_tests_cant": "The claim ranges over a continuum of inputs; any test suite samples finitely many points and cannot exclude a bad interval between them.", "anchors": ["openap/emission.py:Emission._fl2sl"]}
{"id": "C35", "title": "Mass from range stays between its documented limits", "statement": "For non-negative fuel capacity and payload room and load factor in [0,1], mass.from_range lies between OEW plus 20 % of maximum fuel and MTOW, is non-decreasing in distance and load factor, and the fraction option divides by MTOW; for aircraft whose MTOW is less than OEW plus full fuel (A332 in the data) the mass decreases with load factor and can exceed MTOW.", "quantifier": "all distances, load factors, aircraft records", "why_tests_cant": "The claim ranges over a continuum of inputs; any test suite samples finitely many points and cannot exclude a bad interval between them.", "anchors": ["openap/mass.py:from_range", "openap/data/aircraft/a332.yml"]}
{"id": "C36", "title": "Aircraft lookup resolves exactly the known types and synonyms", "statement": "prop.aircraft(ac) without synonyms succeeds exactly for strings that name a data file (case-insensitively); with synonyms it additionally succeeds for exactly the strings in the synonym table, every synonym resolves to an existing file; every other string free of glob metacharacters raises ValueError.", "quantifier": "all strings without glob metacharacters, both settings of use_synonym", "why_tests_cant": "The set of strings is infinite.", "anchors": ["openap/prop.py:aircraft", "openap/prop.py:available_aircraft", "openap/data/aircraft/_synonym.csv"]}
{"id": "C37", "title": "Engine lookup returns the first row with the requested prefix, not the exact match", "statement": "prop.engine(e) returns the first database row whose upper-cased name starts with the stripped upper-cased request, with its name replaced by the request, and raises ValueError exactly when there is none; consequently exactly three engines of the shipped database (PW1923G, PW4X58, Trent XWB-79) can never be obtained by any request (a row whose name extends theirs precedes them), and every other one is obtained by its exact name.", "quantifier": "all request strings; all engine tables", "why_tests_cant": "The set of strings is infinite.", "anchors": ["openap/prop.py:engine", "openap/data/engine/engines.csv"]}
{"id": "C38", "title": "Engine search cannot find names containing lower-case letters", "statement": "prop.search_engine never returns an engine whose name differs from the request's upper-cased prefix in case: any non-empty request returns only names that literally start with the upper-cased request; so e.g. no request of letters 'Trent...' finds the Trent engines although prop.engine does.", "quantifier": "all request strings; all engine tables", "why_tests_cant": "The set of strings is infinite.", "anchors": ["openap/prop.py:search_engine", "openap/prop.py:engine"]}
{"id": "C39", "title": "Which aircraft can be built", "statement": "FuelFlow(ac) without options succeeds exactly for the 26 shipped types that have both an aircraft file and a drag polar (and a kinematic model or synonym) and a matching default engine; with use_synonym=True it succeeds for every listed type and every aircraft synonym; every other string raises ValueError.", "quantifier": "all strings without glob metacharacters", "why_tests_cant": "The set of strings is infinite.", "anchors": ["openap/fuel.py:FuelFlow.__init__", "openap/drag.py:Drag.load_drag_model", "openap/kinematic.py:WRAP.__init__", "openap/thrust.py:Thrust.__init__"]}
{"id": "C40", "title": "Cached lookups alias mutable state", "statement": "prop.engine, prop.available_aircraft and prop.aircraft_engine_options return the same mutable object on repeated calls with fewer than 128 other arguments in between, so for any history of calls and caller-side mutations a later call observes the mutations; after 128 other successful arguments a new object is returned; prop.aircraft never does (fresh object per call). Without caller mutations every call returns the same content.", "quantifier": "all histories of calls and mutations", "why_tests_cant": "Histories are unbounded sequences.", "anchors": ["openap/prop.py:engine", "openap/prop.py:available_aircraft", "openap/prop.py:aircraft_engine_options", "openap/prop.py:aircraft"]}
{"id": "C41", "title": "Phase labels: one label per sample, but the last time window is never labelled", "statement": "For time-sorted trajectories phaselabel returns exactly one label per sample; every sample outside the last time window gets one of GND, CL, DE, CR, LVL, constant on each window, and every sample of the last window is 'NA' (a trajectory shorter than one window is labelled entirely NA).", "quantifier": "all trajectories of any length, all window sizes > 0", "why_tests_cant": "Trajectories are unbounded sequences of reals.", "anchors": ["openap/phase.py:FlightPhase.phaselabel"]}
{"id": "C42", "title": "Phase labelling never fails and picks the strongest fuzzy rule", "statement": "For every window mean (altitude, speed, rate), the defuzzified state is within 0.5 of the state with the largest rule activation (ties go to the later state), so the label is that state's and the lookup never fails. The five activations are the documented ones: each is the minimum of an altitude, a rate and a speed membership, read by linear interpolation from bells and splines with the published centres and widths sampled every foot, knot and 0.1 ft/min, after limiting the means to 0-39999 ft, 0-599 kt and -4000..3999.9 ft/min.", "quantifier": "all finite mean altitudes, speeds and rates", "why_tests_cant": "The claim ranges over a continuum of inputs; any test suite samples finitely many points and cannot exclude a bad interval between them.", "anchors": ["openap/phase.py:FlightPhase.phaselabel", "openap/extra/fuzzy.py:defuzz", "openap/extra/fuzzy.py:interp_membership"]}
{"id": "C43", "title": "With unsorted timestamps phase labels lose their alignment", "statement": "If timestamps are not sorted the slice assignment can shorten the label list: there are trajectories for which the number of labels differs from the number of samples.", "quantifier": "existence; the alignment guarantee would have to hold for all trajectories", "why_tests_cant": "Requires an adversarial ordering; the guarantee quantifies over all orders.", "anchors": ["openap/phase.py:FlightPhase.phaselabel"]}
{"id": "C44", "title": "Take-off and landing indices are ordered and in range", "statement": "Whenever flight_phase_indices reports take-off/initial-climb indices they satisfy 0 <= TO, TO+5 <= IC, IC+2 <= CL <= number of samples, the take-off chunk lasts at most 300 s, every altitude before CL is below 1500 ft, the last of them at least 200 ft, and lift-off is the first altitude jump above 10 ft; whenever it reports landing, FA+5 <= LD, LD+6 <= END <= number of samples, speeds from FA to END are at least 30 kt, touch-down is the last altitude jump above 10 ft, and, provided the data ends below 1500 ft, all altitudes from FA on are below 1500 ft. Without that proviso the last part fails: an aircraft still at 35000 ft when the data ends can be reported to land. Both reports are characterised exactly (if and only if): start of the rolling stretch, at least ten samples, at most 300 s, first altitude jump; start of the final low run, end of braking, last altitude jump.", "quantifier": "all trajectories of any length", "why_tests_cant": "Trajectories are unbounded sequences.", "anchors": ["openap/phase.py:FlightPhase._get_to_ic", "openap/phase.py:FlightPhase._get_fa_ld", "openap/phase.py:FlightPhase.flight_phase_indices"]}
{"id": "C45", "title": "Fuzzy membership functions are valid", "statement": "gaussmf, zmf and smf take values in [0,1]; zmf is non-increasing from 1 to 0, smf non-decreasing from 0 to 1, and smf(a,b) = 1 - zmf(a,b) pointwise for a < b; interpolated membership of an in-range point lies between the neighbouring samples, of a point outside the table it is 0 (or the end value, with zero_outside_x=False). gaussmf is exp(-((x-m)/s)^2/2), zmf the two-parabola spline through 1/2 at the midpoint. defuzz returns the smallest, largest or a mean of the points of maximal membership according to its mode (any letter case) and raises ValueError exactly for unequal lengths, empty input or an unknown mode.", "quantifier": "all real x, all a < b, all means and sigma > 0", "why_tests_cant": "The claim ranges over a continuum of inputs; any test suite samples finitely many points and cannot exclude a bad interval between them.", "anchors": ["openap/extra/fuzzy.py:gaussmf", "openap/extra/fuzzy.py:zmf", "openap/extra/fuzzy.py:smf", "openap/extra/fuzzy.py:interp_membership", "openap/extra/fuzzy.py:defuzz"]}
{"id": "C46", "title": "Generated climbs obey the kinematics and terminate", "statement": "For positive step, accelerations and climb rates, the climb generator terminates; consecutive rows satisfy t' = t+dt, s' = s+v*dt, h' = h+vs*dt; time, distance and altitude never decrease, all speeds are >= 0.", "quantifier": "all positive parameter values and all trajectory lengths", "why_tests_cant": "The loop runs for unboundedly many steps; parameters are continuous.", "anchors": ["openap/gen.py:FlightGenerator.climb"]}
{"id": "C47", "title": "Generated climb overshoots the requested cruise altitude when it is below the crossover altitude", "statement": "If the target altitude is at least the crossover altitude and constant-CAS altitude, the final altitude is at least the target and exceeds it by less than one step of climb; otherwise the climb continues to the crossover (or constant-CAS) altitude, so the requested altitude is exceeded by an arbitrary amount.", "quantifier": "all parameter values", "why_tests_cant": "Depends on continuous parameters and unboundedly many steps.", "anchors": ["openap/gen.py:FlightGenerator.climb"]}
{"id": "C48", "title": "Generated climbs hold the advertised speeds", "statement": "In every row of a generated climb the CAS of the row's speed at the altitude where it was computed does not exceed the constant-CAS target while below crossover (given target CAS at least take-off speed), equals it in CAS rows, and the Mach number equals the constant-Mach target in MACH and CR rows.", "quantifier": "all parameter values, all rows", "why_tests_cant": "Unbounded number of steps and continuous parameters.", "anchors": ["openap/gen.py:FlightGenerator.climb", "openap/aero.py:Aero.tas2cas"]}
{"id": "C49", "title": "Generated descents terminate on the ground, provided constant CAS is not faster than constant Mach at sea level", "statement": "For a positive step, negative descent rates and deceleration and a constant CAS not above the constant Mach speed at sea level, the descent generator terminates; consecutive rows satisfy t' = t+dt, s' = s+v*dt, h' = max(0, h+vs*dt); altitude never increases and is never negative, speed is never negative, and (when one time step of braking cannot consume the whole flying speed) the last row is on the ground. If the constant CAS exceeds the constant Mach speed at sea level the crossover altitude is negative and the generator loops for ever.", "quantifier": "all such parameter values, all trajectory lengths", "why_tests_cant": "Unbounded number of steps and continuous parameters; non-termination cannot be observed by a test at all.", "anchors": ["openap/gen.py:FlightGenerator.descent", "openap/aero.py:Aero.crossover_alt"]}
{"id": "C50", "title": "Generated cruise covers the distance in metres, although documented in kilometres", "statement": "For positive speed and step the cruise generator terminates; its last row is at a distance <= the requested range and the next step would exceed it; the user-supplied range_cr (documented km) is used as metres while the default is converted from km to metres.", "quantifier": "all parameter values", "why_tests_cant": "Unbounded number of steps and continuous parameters.", "anchors": ["openap/gen.py:FlightGenerator.cruise"]}
{"id": "C51", "title": "The complete-flight generator rejects its own documented keywords", "statement": "FlightGenerator.complete called with mach_const_cl or mach_const_de (both documented) always raises TypeError for a duplicated keyword; otherwise, with climb, cruise and descent parameters valid in the sense of C46, C49 and C50, it succeeds and the joined time and distance columns are non-decreasing, with the time stamp duplicated at the two joins.", "quantifier": "all keyword dictionaries and parameter values", "why_tests_cant": "Quantifies over all keyword combinations and trajectories.", "anchors": ["openap/gen.py:FlightGenerator.complete"]}
{"id": "C52", "title": "Array calls equal elementwise scalar calls", "statement": "For every numeric function of the aero, geo, thrust, drag, fuel, emission, mass and contrail modules, calling with arrays gives at each position exactly the result of the scalar call on the elements at that position, with scalars and length-1 arrays broadcast; arrays of different lengths make the call fail; results have the common length, except that geo.latlon returns a single latitude for an array of start longitudes; the methods of the Thrust, Drag, FuelFlow and Emission classes (except Thrust.descent_idle) return plain scalars for scalars and 1-element arrays, plain functions return 1-element arrays for 1-element arrays.", "quantifier": "all arrays of any length", "why_tests_cant": "The claim ranges over a continuum of inputs; any test suite samples finitely many points and cannot exclude a bad interval between them.", "anchors": ["openap/backends/numpy_backend.py", "openap/extra/__init__.py:ndarrayconvert", "openap/aero.py", "openap/thrust.py", "openap/drag.py"]}
{"id": "C53", "title": "Symbolic evaluation equals numeric evaluation", "statement": "Building a symbolic expression with the CasADi backend and evaluating it at numbers equals calling the NumPy backend at those numbers, whenever the latter is not NaN, for every method written with backend operations; the methods that interpolate in the engine databank (NOx, CO, HC) agree while the equivalent sea-level fuel flow is inside the table and differ outside it (CasADi prolongs the end segments, NumPy holds the end values).", "quantifier": "all inputs; all expressions", "why_tests_cant": "The claim ranges over a continuum of inputs; any test suite samples finitely many points and cannot exclude a bad interval between them.", "anchors": ["openap/backends/casadi_backend.py", "openap/backends/numpy_backend.py", "openap/emission.py:Emission.nox"]}
{"id": "C54", "title": "Relative humidity conversions are consistent", "statement": "contrail.rhw2rhi applied to the humidity over water equals the humidity over ice computed directly, for every specific humidity, pressure and temperature at which the formulas are defined.", "quantifier": "all such inputs", "why_tests_cant": "The claim ranges over a continuum of inputs; any test suite samples finitely many points and cannot exclude a bad interval between them.", "anchors": ["openap/contrail.py:relative_humidity", "openap/contrail.py:rhw2rhi"]}
{"id": "C55", "title": "Saturation pressures are positive and increasing, and lower over ice than over water", "statement": "Both saturation vapour pressures are finite and positive for every temperature in (0, 10000] K; the ice one strictly increases on (0, 1000] K, the water one on its documented range [123, 332] K; the pressure over ice is strictly below that over liquid water on [110, 273.15] K and strictly above it on [273.17, 332] K.", "quantifier": "all temperatures in the ranges", "why_tests_cant": "The claim ranges over a continuum of inputs; any test suite samples finitely many points and cannot exclude a bad interval between them.", "anchors": ["openap/contrail.py:saturation_pressure_over_ice", "openap/contrail.py:saturation_pressure_over_water"]}
{"id": "C56", "title": "Contrail radiative forcing has the right sign", "statement": "Shortwave forcing is exactly zero when the sun is below the horizon and never positive by day for non-negative optical depth; longwave forcing is never negative and never increases with temperature, but does not depend on optical depth, so the net forcing of a contrail of zero optical depth equals the longwave forcing instead of zero.", "quantifier": "all zenith angles, optical depths, temperatures in the stated ranges", "why_tests_cant": "The claim ranges over a continuum of inputs; any test suite samples finitely many points and cannot exclude a bad interval between them.", "anchors": ["openap/contrail.py:rf_shortwave", "openap/contrail.py:rf_longwave", "openap/contrail.py:rf_net"]}
{"id": "C57", "title": "Critical contrail temperature increases with pressure and efficiency", "statement": "For every pressure from 1200 Pa up and every efficiency in [0, 1) the Schmidt-Appleman critical temperature over water is a finite number and strictly increasing in pressure and propulsion efficiency; close to the lower end of the formula's domain (below about 700 Pa at the default efficiency) it is not increasing, and below that it is NaN.", "quantifier": "all pressures and efficiencies in the range", "why_tests_cant": "The claim ranges over a continuum of inputs; any test suite samples finitely many points and cannot exclude a bad interval between them.", "anchors": ["openap/contrail.py:critical_temperature_water"]}
{"id": "C58", "title": "Static take-off thrust rises with temperature", "statement": "At zero speed and any altitude >= 0, Thrust.takeoff strictly increases with the temperature shift on [-25, 15] K; hence the expectation that thrust never exceeds the rating on a hot day is refuted (A320 at ISA+15 exceeds its rating by more than 2 %).", "quantifier": "all engines with non-negative bypass ratio, all altitudes >= 0, all temperature shifts in the clip range", "why_tests_cant": "The claim ranges over a continuum of inputs; any test suite samples finitely many points and cannot exclude a bad interval between them.", "anchors": ["openap/thrust.py:Thrust.takeoff", "openap/aero.py:Aero.atmos"]}
{"id": "C59", "title": "Take-off thrust lapses with speed", "statement": "For bypass ratios up to 40, Thrust.takeoff strictly decreases with true airspeed on [0, 280] kt at every altitude and temperature shift.", "quantifier": "all such engines, all altitudes, all temperature shifts, all pairs of speeds", "why_tests_cant": "The claim ranges over a continuum of inputs; any test suite samples finitely many points and cannot exclude a bad interval between them.", "anchors": ["openap/thrust.py:Thrust.takeoff"]}
{"id": "C60", "title": "Take-off and idle thrust are positive at every speed", "statement": "For bypass ratios up to 100 and altitudes from -2000 ft upwards, Thrust.takeoff is strictly positive for every finite speed (the quadratic in Mach number has no real root), and Thrust.descent_idle is exactly 7 % of it.", "quantifier": "all such engines, all speeds, altitudes and temperature shifts", "why_tests_cant": "The claim ranges over a continuum of inputs; any test suite samples finitely many points and cannot exclude a bad interval between them.", "anchors": ["openap/thrust.py:Thrust.takeoff", "openap/thrust.py:Thrust.descent_idle"]}
{"id": "C61", "title": "The ice critical temperature is well defined", "statement": "For pressures from 50 to 1050 hPa and efficiencies up to 0.7, the bracket [100 K, water threshold] handed to the root finder always has a sign change, and the bracket contains exactly one root; so critical_temperature_water_and_ice never fails and its ice threshold is unique and strictly below the water threshold.", "quantifier": "all pressures and efficiencies in the range", "why_tests_cant": "The claim ranges over a continuum of inputs; any test suite samples finitely many points and cannot exclude a bad interval between them.", "anchors": ["openap/contrail.py:critical_temperature_water_and_ice"]}
{"id": "C62", "title": "A thicker contrail always cools more by day", "statement": "At every zenith angle below 90 degrees and every background cirrus depth in [0, 4000], shortwave forcing strictly decreases (more cooling) as the contrail optical depth grows from 0 without bound.", "quantifier": "all zenith angles in [0, 90), all pairs of optical depths", "why_tests_cant": "The claim ranges over a continuum of inputs; any test suite samples finitely many points and cannot exclude a bad interval between them.", "anchors": ["openap/contrail.py:rf_shortwave"]}
{"id": "C63", "title": "Contrail optical properties follow the documented table at every age", "statement": "contrail_optical_properties returns the documented row for every real age (bins closed on the left, open on the right, negative ages in the first bin); depth, width and cirrus depth never decrease with age, and the cirrus depth is below the depth.", "quantifier": "all ages", "why_tests_cant": "The claim ranges over a continuum of inputs; any test suite samples finitely many points and cannot exclude a bad interval between them.", "anchors": ["openap/contrail.py:contrail_optical_properties"]}
{"id": "C64", "title": "A parked aircraft above a few hundred feet elevation is labelled as flying", "statement": "A window with zero speed, zero vertical rate and mean altitude of at least 201 ft is labelled LVL (level flight), never GND, because the ground rule is evaluated on altitude above sea level.", "quantifier": "all altitudes of at least 201 ft", "why_tests_cant": "The claim ranges over a continuum of inputs; any test suite samples finitely many points and cannot exclude a bad interval between them.", "anchors": ["openap/phase.py:FlightPhase.phaselabel"]}
{"id": "C65", "title": "Reported phase start indices need not be in flight order", "statement": "flight_phase_indices does not order its answers: there are time-sorted trajectories for which the reported start of descent precedes the reported start of cruise.", "quantifier": "existence; order would have to hold for all trajectories", "why_tests_cant": "The ordering guarantee quantifies over all trajectories.", "anchors": ["openap/phase.py:FlightPhase.flight_phase_indices", "openap/phase.py:FlightPhase._get_cl", "openap/phase.py:FlightPhase._get_de"]}
{"id": "C66", "title": "Phase labels are physically plausible", "statement": "Of a window with given mean altitude, speed and rate: CL implies a rate above 9.9 ft/min, DE a rate below -9.9 ft/min, GND an altitude below 201 ft, speed below 160 kt and |rate| below 310 ft/min, CR a speed above 290 kt and |rate| < 310, LVL |rate| < 310; conversely rate >= 310 gives CL and rate <= -310 gives DE.", "quantifier": "all finite mean altitudes, speeds and rates", "why_tests_cant": "The claim ranges over a continuum of inputs; any test suite samples finitely many points and cannot exclude a bad interval between them.", "anchors": ["openap/phase.py:FlightPhase.phaselabel", "openap/extra/fuzzy.py:defuzz"]}
{"id": "C67", "title": "Climb segments appear in flight order", "statement": "In a generated climb whose take-off speed is non-negative, below the constant-CAS target (by 0.1%) and below 295 m/s times the constant Mach target, the segment labels never go backwards: take-off, initial climb, pre-CAS, CAS, Mach, cruise. With a slower Mach target the generator re-enters the take-off segment in flight.", "quantifier": "all parameter values, all pairs of rows", "why_tests_cant": "Unbounded number of steps and continuous parameters.", "anchors": ["openap/gen.py:FlightGenerator.climb"]}
{"id": "C68", "title": "Generated descents hold the advertised speeds", "statement": "In every row of a generated descent: in cruise and constant-Mach rows the Mach number equals the target, in constant-CAS rows the CAS equals the target, in post-CAS rows the CAS is at least the approach speed, in final approach the speed is the approach speed, on the ground the altitude and rate are zero; each segment's rows lie in its altitude band and carry its descent rate.", "quantifier": "all parameter values, all rows", "why_tests_cant": "Unbounded number of steps and continuous parameters.", "anchors": ["openap/gen.py:FlightGenerator.descent", "openap/aero.py:Aero.tas2cas"]}
{"id": "C69", "title": "Integer columns of generated trajectories are within one unit", "statement": "The altitude (ft), vertical_rate (ft/min) and groundspeed (kt) columns are integers less than one unit away from the converted SI columns, and truncated towards zero (a descent slower than 1 ft/min is reported as level).", "quantifier": "all finite rows", "why_tests_cant": "The claim ranges over a continuum of inputs; any test suite samples finitely many points and cannot exclude a bad interval between them.", "anchors": ["openap/gen.py:FlightGenerator.climb", "openap/gen.py:FlightGenerator.descent", "openap/gen.py:FlightGenerator.cruise"]}
{"id": "C70", "title": "Spelling out the default of use_synonym changes what can be built", "statement": "The documented default of use_synonym is False, but FuelFlow(ac) and FuelFlow(ac, use_synonym=False) differ: for ten shipped types (a20n, a359, b38m, b734, b748, b772, c550, e195, e75l, glf6) the first succeeds and the second raises ValueError; whenever the second succeeds the first builds the same model.", "quantifier": "all strings without glob metacharacters; any directory order and install location", "why_tests_cant": "The set of strings is infinite and the outcome depends on the listing order of three directories.", "anchors": ["openap/fuel.py:FuelFlow.__init__", "openap/kinematic.py:WRAP.__init__"]}
{"id": "C71", "title": "Every listed engine option can be used", "statement": "For every aircraft file, each engine returned by prop.aircraft_engine_options is accepted by Thrust and found by prop.engine, except exactly LEAP-1A30, LEAP-1A32 and LEAP-1A33 of the A21N, which raise ValueError; the default engine is always accepted by Thrust and Emission.", "quantifier": "all aircraft names without glob metacharacters, all listed options", "why_tests_cant": "Combination of name matching, prefix lookup and substring checks over all spellings of the aircraft name and any directory order.", "anchors": ["openap/prop.py:aircraft_engine_options", "openap/prop.py:engine", "openap/thrust.py:Thrust.__init__", "openap/emission.py:Emission.__init__"]}
{"id": "C72", "title": "The solar zenith angle obeys the spherical law with an almanac-conforming sun", "statement": "For every date there are a declination (within 23.5 degrees, northern between the equinoxes, southern otherwise, extreme at the solstices) and an equation of time (between -14.5 and 16.5 minutes, with the sign changes of the calendar), independent of place and hour, such that the returned angle z satisfies cos z = sin lat sin d + cos lat cos d cos(15(hour-12) + lon + e/4). Hence the sun is highest at solar noon, at zenith distance |lat - d|; it never sets north of 67.5 degrees around the June solstice and never rises there around the December solstice; the fractional hour of a timestamp is seconds since midnight over 3600, in [0,24).", "quantifier": "all days in [1,366], all latitudes, longitudes and hours; all clock fields", "why_tests_cant": "The claim ranges over a continuum of inputs; any test suite samples finitely many points and cannot exclude a bad interval between them.", "anchors": ["openap/geo.py:Geo.solar_zenith_angle"]}
{"id": "C73", "title": "Thrust follows the published take-off and climb laws, with the documented choice of cruise data", "statement": "Thrust.takeoff equals number-of-engines times rated thrust times the Bartel-Young ratio at the sea-level Mach number and the pressure ratio of the altitude. Thrust.climb equals cruise thrust times the three-segment law (above 30000 ft, 10000 to 30000 ft, below). The constructor takes cruise Mach number and thrust from the engine row when its cruise Mach number is positive, and otherwise the aircraft's Mach number and 0.2*rated + 890 N; at that Mach number and the aircraft's cruise height (above 30000 ft) the thrust is that value times the number of engines.", "quantifier": "all engines and aircraft with positive data, all speeds, altitudes, rates, temperature shifts", "why_tests_cant": "The claim ranges over a continuum of inputs; any test suite samples finitely many points and cannot exclude a bad interval between them.", "anchors": ["openap/thrust.py:Thrust.__init__", "openap/thrust.py:Thrust.takeoff", "openap/thrust.py:Thrust.climb"]}
{"id": "C74", "title": "Drag is exactly the parabolic polar, clean and with flaps and gear", "statement": "Drag.clean without wave drag equals cd0*qS + k*(m*g0*cos gamma)^2/qS with qS the dynamic pressure times wing area, at least 1e-3 N; Drag.nonclean is the same polar with cd0 increased by lambda_f*(cf/c)^1.38*Sf/S*sin^2(flap) and by the gear term, and with the induced-drag factor lowered by the flap gain (0.0046 per degree rear-mounted, 0.0026 otherwise).", "quantifier": "all aircraft with positive polar and geometry data, all flight conditions, all non-negative flap angles", "why_tests_cant": "The claim ranges over a continuum of inputs; any test suite samples finitely many points and cannot exclude a bad interval between them.", "anchors": ["openap/drag.py:Drag.clean", "openap/drag.py:Drag.nonclean", "openap/drag.py:Drag._cl"]}
{"id": "C75", "title": "Between 15 % and 100 % of rated thrust the fuel-flow limiter is transparent", "statement": "For every thrust t between 15 % and 100 % of total rated thrust, FuelFlow.at_thrust is the fuel law evaluated at a ratio within 1e-4 of t / rated thrust; at zero thrust the law is evaluated at a ratio between 3 % and 3.5 %.", "quantifier": "all coefficient triples, all thrusts in the band", "why_tests_cant": "The claim ranges over a continuum of inputs; any test suite samples finitely many points and cannot exclude a bad interval between them.", "anchors": ["openap/fuel.py:FuelFlow.at_thrust"]}
{"id": "C76", "title": "NOx, CO and HC follow the fuel-flow method in closed form, which is not the published one at speed", "statement": "With theta = T/288.15, delta the ISA pressure ratio and M the Mach number, the emission index is read off the databank table at ff/n*theta^3.8/delta*exp(0.14 M^2); CO and HC are scaled by theta^3.3/delta^1.02*exp(0.054 M^2), NOx by sqrt(delta^1.02/theta^3.3)*exp(-0.027 M^2) and the humidity factor. The method named in the source (Boeing Fuel Flow Method 2) has exp(0.2 M^2) in the first place and no Mach term in the others: equality with it is refuted for every positive speed.", "quantifier": "all databank tables with increasing fuel flows, all fuel flows, speeds and altitudes below 145442 ft", "why_tests_cant": "The claim ranges over a continuum of inputs; any test suite samples finitely many points and cannot exclude a bad interval between them.", "anchors": ["openap/emission.py:Emission._fl2sl", "openap/emission.py:Emission.nox", "openap/emission.py:Emission.co", "openap/emission.py:Emission.hc"]}
{"id": "C77", "title": "Objects built from the shipped data compute finite, physically signed values", "statement": "On the data files of the package: every Thrust object constructed without force=True has positive take-off and idle thrust and defined climb and cruise thrust; every Drag object has positive clean drag (with or without wave drag) and positive non-clean drag, computed from the wing area, span, maximum take-off mass and engine mount of the aircraft file and the coefficients of the polar file; every FuelFlow object constructed without force=True gives a positive fuel flow below the ceiling of its law for every thrust up to 14.2 times the rated one, en route included; every Emission object gives non-negative NOx, CO and HC; the mass estimate of every aircraft except A332 and CRJ9 lies between its empty and its maximum take-off mass. With force=True a piston or turboprop engine without thrust data is accepted and the thrust is not a number (refuted).", "quantifier": "all aircraft and engine arguments accepted by the constructors on the shipped data, in any directory order; all flight conditions", "why_tests_cant": "The claim ranges over a continuum of inputs; any test suite samples finitely many points and cannot exclude a bad interval between them.", "anchors": ["openap/thrust.py:Thrust.__init__", "openap/drag.py:Drag.__init__", "openap/fuel.py:FuelFlow.__init__", "openap/emission.py:Emission.__init__", "openap/mass.py:from_range"]}
{"id": "C78", "title": "Flights generated from the shipped kinematic models come to an end", "statement": "For every aircraft for which a FlightGenerator can be constructed and for every outcome of the random generator: climb() terminates above the requested cruise altitude and passes through take-off, initial climb, constant-CAS and constant-Mach segments in order; descent() terminates, with the aircraft on the ground for time steps up to 30 s; complete() terminates and joins the three parts without gaps in time or distance. Random flights of A343, B744 and B789 can draw a negative cruise range, and the cruise is then a single point (refuted for those).", "quantifier": "all shipped kinematic models, all draws within their limits, all positive time steps (up to 30 s resp. 200 s where stated)", "why_tests_cant": "The claim ranges over a continuum of inputs; any test suite samples finitely many points and cannot exclude a bad interval between them.", "anchors": ["openap/gen.py:FlightGenerator.climb", "openap/gen.py:FlightGenerator.descent", "openap/gen.py:FlightGenerator.complete", "openap/kinematic.py:WRAP"]}
{"id": "C79", "title": "Kinematic model accessors return the documented quantity with ordered limits", "statement": "Each of the 33 accessors of WRAP reads the row whose flight phase and name are those it documents. On every model that can be constructed each accessor returns, minimum < maximum, climb and speed quantities have positive defaults and maxima, rates of descent and braking are negative, the default lies between the limits except for three entries (A333 maximum cruise altitude, B737 initial cruise altitude, B752 cruise range), and the minimum is positive except for the cruise range of A343, B744 and B789. Defaults are ordered as in a flight (crossover altitudes below cruise altitude, approach speed below descent speed, lift-off speed below climb speed). The flight generator works with the default, minimum and maximum of exactly the 21 rows it names.", "quantifier": "all accessors, all accepted aircraft types, with and without synonyms", "why_tests_cant": "The claim ranges over a continuum of inputs; any test suite samples finitely many points and cannot exclude a bad interval between them.", "anchors": ["openap/kinematic.py:WRAP", "openap/kinematic.py:WRAP._get_var"]}
{"id": "C80", "title": "Phase start indices come from the documented events", "statement": "flight_phase_indices returns: TO, IC, CL from the take-off chunk if there is one, else TO = IC = None and CL = first sample labelled CL; CR = last sample labelled CL; DE = first sample labelled DE; FA, LD, END from the landing chunk if there is one, else LD = None, FA = last sample labelled DE and END = number of samples. None is returned exactly when the event does not occur. The descent is flagged continuous exactly when no sample between its first and last DE label is LVL, and a cruise stretch is reported exactly from the last CL to the first DE label if at least 200 samples long.", "quantifier": "all trajectories of any length and all label sequences", "why_tests_cant": "Trajectories and label sequences are unbounded.", "anchors": ["openap/phase.py:FlightPhase.flight_phase_indices", "openap/phase.py:FlightPhase._get_cl", "openap/phase.py:FlightPhase._get_de", "openap/phase.py:FlightPhase._get_cr"]}
{"id": "C81", "title": "Contrail formulas equal the published closed forms", "statement": "Saturation pressures over ice and water are the Murphy-Koop formulas; relative humidity is the vapour pressure of an ideal mixture over the saturation pressure; the mixing-line slope, the water threshold (NaN when the slope is at most 0.053) and the equation defining the ice threshold are Schumann's; shortwave forcing is minus solar flux times squared transmittance margin times contrail albedo times a cirrus factor, longwave forcing is max(0, OLR - 1.935 (T - 152)), net forcing is their sum. Natural cirrus above a contrail weakens its cooling when the sun is 39 to 90 degrees from overhead but strengthens it within 38 degrees of overhead.", "quantifier": "all temperatures in (0, 10000] K, all pressures and humidities, efficiencies below 1, zenith angles in [0, 90), depths >= 0", "why_tests_cant": "The claim ranges over a continuum of inputs; any test suite samples finitely many points and cannot exclude a bad interval between them.", "anchors": ["openap/contrail.py:saturation_pressure_over_ice", "openap/contrail.py:saturation_pressure_over_water", "openap/contrail.py:relative_humidity", "openap/contrail.py:critical_temperature_water", "openap/contrail.py:rf_shortwave", "openap/contrail.py:rf_longwave", "openap/contrail.py:rf_net"]}
{"id": "C82", "title": "Each generated row follows from the previous one by the documented flight law", "statement": "In a generated climb the segment of a row is determined by the previous speed and the altitude reached (take-off below lift-off speed, then initial climb below 1500 ft, pre-CAS, constant CAS up to the crossover altitude, constant Mach up to the cruise altitude, then level); on the runway the speed grows by the take-off acceleration times dt, in initial climb and pre-CAS by 0.5 m/s2 times dt until the constant CAS is reached and then holds that CAS. The climb ends with one contiguous level stretch whose duration is 60 s up to one time step. In a generated descent the segment is determined by time and altitude, the post-CAS part slows down by 0.2 m/s2 until the approach CAS is reached, the roll-out by the landing acceleration, and the rows end exactly when one more step would stop the aircraft.", "quantifier": "all valid parameter sets, all time steps, all rows", "why_tests_cant": "Loops of unbounded length over real-valued state.", "anchors": ["openap/gen.py:FlightGenerator.climb", "openap/gen.py:FlightGenerator.descent"]}
{"id": "C83", "title": "The generator flies the numbers of the kinematic model, in SI units, unless a keyword says otherwise", "statement": "Every loop parameter of climb, descent and cruise is the keyword if given and otherwise the model default (or the draw if random=True), converted from km to m and from m/s to kt; the cruise altitude is rounded to the nearest hundred feet (at most 50 ft away) and a whole flight level is kept. Without random the climb CAS is never below the lift-off speed; with random=True a slower keyword is taken as it is (refuted). complete() flies the same Mach number, flight level and time step in all three parts and concatenates their altitude, speed and vertical-rate columns unchanged.", "quantifier": "all kinematic models, all keyword combinations, all draws", "why_tests_cant": "The claim ranges over a continuum of inputs; any test suite samples finitely many points and cannot exclude a bad interval between them.", "anchors": ["openap/gen.py:FlightGenerator.climb", "openap/gen.py:FlightGenerator.descent", "openap/gen.py:FlightGenerator.cruise", "openap/gen.py:FlightGenerator.complete"]}
{"id": "C84", "title": "Fuel models are chosen by type as written and scaled by databank take-off fuel flow", "statement": "FuelFlow takes the coefficient row of the aircraft type as written by the user, else the default row, also when a synonym with a row of its own is used. The scale is the engine's take-off fuel flow over that of the row's reference engine (1 for the default row). Hence two engines on the same aircraft burn, at equal fractions of rated thrust, in proportion to their databank take-off fuel flows; at rated thrust the modelled flow is between 81 % and 104 % of the databank's, at zero thrust between 3.6 % and 9.2 %.", "quantifier": "all aircraft and engine arguments accepted on the shipped data without force=True, in any directory order", "why_tests_cant": "The claim ranges over a continuum of inputs; any test suite samples finitely many points and cannot exclude a bad interval between them.", "anchors": ["openap/fuel.py:FuelFlow._load_fuel_model", "openap/fuel.py:FuelFlow.at_thrust"]}
{"id": "C85", "title": "Lookups ignore letter case; each constructor accepts exactly the documented types", "statement": "Results of aircraft, engine, search_engine, Thrust, Drag, WRAP, FuelFlow, Emission and FlightGenerator do not depend on the letter case of the aircraft or engine name; white space around an engine name does not change the engine found. upper/lower change the 26 letters only, strip removes exactly the surrounding white space. On the shipped data, with the default engine: Thrust and Emission accept a type exactly when it has an aircraft file (or is listed as a synonym and use_synonym=True); Drag in addition needs a drag polar (or polar synonym); WRAP needs a kinematic model, and uses synonyms unless use_synonym=False; FlightGenerator needs both; every other type raises ValueError. The domains differ: without keywords A306 has a kinematic model but no Thrust, A318 a Thrust but no Drag (a single domain is refuted).", "quantifier": "all pairs of texts that differ in letter case only, all data sets; all type names without wildcard characters, any directory order", "why_tests_cant": "Names are unbounded strings; keyword combinations and directory orders multiply.", "anchors": ["openap/prop.py:aircraft", "openap/prop.py:engine", "openap/prop.py:search_engine", "openap/thrust.py:Thrust.__init__", "openap/drag.py:Drag.load_drag_model", "openap/kinematic.py:WRAP.__init__", "openap/emission.py:Emission.__init__"]}
{"id": "C86", "title": "The fuel flow correction factor of an engine links its take-off and cruise consumption", "statement": "engine(...)['fuel_ch'] is, for engines with cruise data, the difference of cruise and take-off specific fuel consumption (kg/s per kN) divided by the cruise altitude in metres, rounded to the nearest 1e-8 with ties to even; hence take-off consumption plus factor times altitude gives the databank's cruise consumption up to 0.5e-8 per metre. Without cruise data it is 6.7e-7. On the shipped databank it is always a number between 1e-7 and 1e-6.", "quantifier": "all databanks with positive rated thrust and cruise altitude, all engine names", "why_tests_cant": "The claim ranges over a continuum of inputs; any test suite samples finitely many points and cannot exclude a bad interval between them.", "anchors": ["openap/prop.py:engine"]}
{"id": "C87", "title": "Generated flights are reproducible and their constant columns describe their rows", "statement": "Without random and without noise, climb, descent, cruise and complete do not touch the random generator and do not depend on its state, so calls can be repeated and reordered. With random=True each method draws the same number of values whatever keywords are given, so overriding one parameter leaves the other drawn parameters and all later draws unchanged; every drawn parameter lies between the limits of the kinematic model. Every complete flight of a shipped model ends, for any random generator (A343, B744, B789 only without random). The columns cas_const, mach_const, h_const_cas, h_const_mach, alt_cr, v_app and the rates describe the rows: constant-CAS rows have that calibrated airspeed, constant-Mach and cruise rows that Mach number, segments change at the reported altitudes. Passing the reported speeds and altitude back as keywords reproduces the frame.", "quantifier": "all random generators with uniform draws in [0,1], all generator states, all keyword combinations as stated, all shipped kinematic models", "why_tests_cant": "Random states and keyword combinations are unbounded; tests sample single seeds.", "anchors": ["openap/gen.py:FlightGenerator.climb", "openap/gen.py:FlightGenerator.descent", "openap/gen.py:FlightGenerator.cruise", "openap/gen.py:FlightGenerator.complete"]}
{"id": "C88", "title": "Noise adds independent errors of fixed size to four columns and nothing else", "statement": "After enable_noise each method returns the frame it would have returned without noise with errors 7.5 m, 5 m, 0.5 m/s and 0.75 m/s times consecutive normal draws added to altitude, distance, speed and vertical speed, row by row; row count, times, segments and constant columns are unchanged, 4 draws per row are consumed after the flight parameters were drawn, and the time column of a complete flight with fixed parameters is exact. Noise cannot be lost by later calls and enabling it twice is the same as once. Altitudes of a noisy climb need not be non-negative: a negative first draw puts the first row below the runway (refuted).", "quantifier": "all random generators and states, all keyword combinations, all row counts", "why_tests_cant": "The outcome depends on an unbounded stream of random numbers.", "anchors": ["openap/gen.py:FlightGenerator.enable_noise", "openap/gen.py:FlightGenerator.climb", "openap/gen.py:FlightGenerator.descent", "openap/gen.py:FlightGenerator.cruise", "openap/gen.py:FlightGenerator.complete"]}
{"id": "C89", "title": "Airport lookups return the first matching row; the closest airport is the nearest in degrees within a two-degree square", "statement": "airport(name) returns the first row whose code equals the name up to letter case (codes with small letters or codes that pandas reads as missing are never found), None otherwise; every one of the 13795 shipped airports is found by its code with its position and altitude, and with its country unless the country code is 'NA' (Namibia), which is reported as missing (refuted). closest_airport(lat, lon) is None exactly when no airport lies within 2 degrees of latitude and 2 degrees of longitude; otherwise it is the airport in that square with the smallest distance in the latitude-longitude plane, the first one on ties; an airport at most 2 degrees away that is nearest in the whole table is always the answer. At the position of any shipped airport the answer is that airport (except SJJX and SNNF, which share a position with another). The answer is not always the nearest airport on the sphere (refuted at 64N 20W) and depends on whether a longitude is written as 180 or -180 (refuted).", "quantifier": "all names, all airport tables, all places; all rows of the shipped table", "why_tests_cant": "Places are a continuum and names are unbounded; the shipped table has 13795 rows.", "anchors": ["openap/extra/nav.py:airport", "openap/extra/nav.py:closest_airport"]}
{"id": "C90", "title": "Fix lookups return the first row of that name; the closest fix minimises the distance along the sphere within a one-degree square", "statement": "fix(name) returns position and name of the first fix whose name equals the given one up to letter case and raises IndexError exactly when there is none; fixes whose name contains small letters or is 'NA' can never be found (refuted that every fix is found by its own name). closest_fix(lat, lon) raises ValueError exactly when no fix lies within one degree of latitude and longitude, otherwise returns the fix in that square with the smallest great-circle distance, the first one on ties, with that distance rounded down to whole metres; it raises nothing else. If the distance returned is below 111.19 km times cos(|lat| + 1 degree) the fix is the nearest of the whole table (latitudes up to 89 degrees, no longitude difference beyond 359 degrees). At the position of a fix the distance returned is 0. Across the antimeridian a fix two kilometres away is not seen (refuted).", "quantifier": "all names, all fix tables, all places", "why_tests_cant": "Places are a continuum, tables and names are unbounded.", "anchors": ["openap/extra/nav.py:fix", "openap/extra/nav.py:closest_fix"]}
{"id": "C91", "title": "Filters do not depend on sample order; filling repeats the last whole-second sample; the time-weighted filter is a causal weighted sum", "statement": "sortxy returns the samples sorted by time, equal times in input order, ValueError when there is none; with different time stamps the order in which samples are given does not matter to any filter. simplefill returns one value per second from the truncated first time to the truncated last time, each the value of the latest sample taken exactly at a whole second so far, or 0 when there is none; for whole-second samples this is the closest previous sample, otherwise not (refuted). TWF.filter (increasing times, window at least 2, weights not adding up to zero) returns for each sample a weighted sum of the samples up to then whose weights depend only on the times and add up to 1; the newest sample counts one half and the one before it not at all; constants are unchanged; the values follow the stated recurrence. The result can leave the range of the samples with the default window (refuted), a window of 3 with one sample per second divides by zero (refuted), a window below 2 raises IndexError, one sample IndexError, none ValueError.", "quantifier": "all lists of samples and all window sizes", "why_tests_cant": "Series and windows are unbounded; a unit test checks single series.", "anchors": ["openap/extra/filters.py:BaseFilter.sortxy", "openap/extra/filters.py:BaseFilter.simplefill", "openap/extra/filters.py:TWF.filter"]}
{"id": "C92", "title": "The Savitzky-Golay filter returns the least-squares polynomial at the window centre", "statement": "SavitzkyGolay(window_size, order) accepts exactly odd windows with |order| + 2 <= |window_size| and raises TypeError otherwise. For every series longer than half a window the output has one value per sample, and away from the ends it is (-1)^deriv times the coefficient of order deriv of the unique polynomial of degree at most order that minimises the squared differences to the samples in the window; so samples on such a polynomial are returned unchanged for deriv 0. Rising lines (order at least 1) and constants are returned unchanged including the ends. deriv above order raises IndexError, an empty series ValueError. deriv=1 returns the negative of the derivative (refuted); a falling line is changed at the ends (refuted); a series shorter than half a window yields a different number of values (refuted).", "quantifier": "all odd windows, orders, derivatives and series; np.linalg.pinv assumed to return the Moore-Penrose inverse", "why_tests_cant": "Windows, orders and series are unbounded.", "anchors": ["openap/extra/filters.py:SavitzkyGolay.__init__", "openap/extra/filters.py:SavitzkyGolay.filter"]}
{"id": "C93", "title": "Spline weights come from a bell-shaped moving average and are always defined", "statement": "Spline.kernel returns the moving average of the series (mirrored at the ends) with 25 bell-shaped weights, and the same average of the squared deviations with 1 in place of 0. Averages stay within the range of the samples and follow a change of unit and offset; every variance is positive and, unless it is 1, at most the squared range, so the weights 1/sqrt(variance) given to the spline fit are defined and positive; a constant series is its own average with all variances 1.", "quantifier": "all series and all non-zero sigma", "why_tests_cant": "Series are unbounded and real-valued.", "anchors": ["openap/extra/filters.py:Spline.kernel", "openap/extra/filters.py:Spline.filter"]}
{"id": "C94", "title": "BADA3 add-on as shipped: every method that needs `sci` raises AttributeError", "statement": "No class of the BADA3 add-on has the attribute sci that its methods read. Drag.clean always raises AttributeError, nonclean too (ValueError first for a phase other than AP and LD); all four Thrust methods raise AttributeError for a known engine type and ValueError otherwise; FuelFlow.nominal and enroute always raise AttributeError, approach too for jets and turboprops and ValueError for the rest; only FuelFlow.idle returns a number. The constructors of Thrust and FuelFlow raise exactly when all approach, landing and gear coefficients are zero. That a fuel flow can be computed with the shipped class is false for every aircraft and every argument (refuted).", "quantifier": "all aircraft dictionaries, all arguments, all backends", "why_tests_cant": "The failure holds for every input, which single calls cannot show; the BADA data are not public, so no test runs the code.", "anchors": ["openap/addon/bada3.py:Drag", "openap/addon/bada3.py:Thrust", "openap/addon/bada3.py:FuelFlow", "openap/base.py:DragBase"]}
{"id": "C95", "title": "BADA3 drag with `sci` set: polar, mass, configurations", "statement": "With sci set to NumPy, clean drag is cd0 q S + cd2 (m g)^2 / (q S) with the density of the standard atmosphere whenever q S is at least 0.001 N, and the lift coefficient is capped below that; it is positive and strictly grows with mass. Approach and landing use their own coefficients, or the clean ones when both are zero; the gear adds its coefficient in landing configuration. When the landing coefficients are missing, lowering the gear adds nothing (refuted).", "quantifier": "all aircraft dictionaries, masses, speeds and altitudes", "why_tests_cant": "Real-valued inputs and arbitrary aircraft data.", "anchors": ["openap/addon/bada3.py:Drag.clean", "openap/addon/bada3.py:Drag.nonclean", "openap/addon/bada3.py:Drag._cl"]}
{"id": "C96", "title": "BADA3 thrust with `sci` set: climb, temperature, cruise, idle", "statement": "With sci set to NumPy, climb and take-off thrust are the ISA thrust of the engine type times one minus the temperature loss, cruise 95 % of it. The loss is between 0 and 40 %, zero up to the threshold deviation and for a non-positive coefficient, 40 % from the saturation temperature on, and hotter never gives more. Idle thrust is a fraction of climb thrust chosen by altitude and configuration; a missing or other configuration raises ValueError although the argument is optional; two or more altitudes in one call raise ValueError. The descent altitude is raised to 8000 ft exactly when no non-clean data are given, the opposite of the BADA3 rule (refuted).", "quantifier": "all aircraft dictionaries, speeds, altitudes, temperatures, configurations, arrays of any length", "why_tests_cant": "Real-valued inputs, arbitrary aircraft data and array lengths.", "anchors": ["openap/addon/bada3.py:Thrust.climb", "openap/addon/bada3.py:Thrust.cruise", "openap/addon/bada3.py:Thrust.takeoff", "openap/addon/bada3.py:Thrust.idle", "openap/addon/bada3.py:Thrust.__init__"]}
{"id": "C97", "title": "BADA3 fuel flow with `sci` set: nominal, idle, phases", "statement": "With sci set to NumPy, nominal fuel flow of jets and turboprops is specific consumption times the thrust that holds the path (at most climb thrust), piston and electric aircraft burn a constant; en-route is the cruise factor times nominal, approach the larger of nominal and idle; a heavier aircraft that does not descend never burns less. Approach is never below idle. Nominal is at least one sixtieth of idle, and exactly that when no thrust is needed: that it is at least idle, as the code says, is false (refuted) because kilograms per minute are compared with kilograms per second.", "quantifier": "all aircraft dictionaries with non-zero divisors, masses, speeds, altitudes and vertical rates", "why_tests_cant": "Real-valued inputs and arbitrary aircraft data.", "anchors": ["openap/addon/bada3.py:FuelFlow.nominal", "openap/addon/bada3.py:FuelFlow.enroute", "openap/addon/bada3.py:FuelFlow.idle", "openap/addon/bada3.py:FuelFlow.approach"]}
{"id": "C98", "title": "Combining an aircraft file with BADA3 data", "statement": "bada3_aircraft merges nested dictionaries: every plain value of the BADA data is in the result at its path, wherever the BADA data are silent the aircraft file is kept, no key occurs twice, and merging again changes nothing. Masses, speeds and engine type are then those of BADA, engine names and the maximum landing mass those of OpenAP. limits and the top level agree in an aircraft file but not after merging (refuted): limits keeps the OpenAP values. A section missing from the OPF file is not an error: its numbers become zero, the engine a turbofan; without a wing area the drag is zero at every speed and mass (refuted that such files are refused).", "quantifier": "all nested dictionaries; all outcomes of the searches in the OPF file (the searches are those of C125)", "why_tests_cant": "Dictionaries are unbounded and nested.", "anchors": ["openap/addon/bada3.py:bada3_aircraft", "openap/addon/bada3.py:load_bada3", "openap/addon/bada3.py:parse_opf_content", "openap/prop.py:aircraft"]}
{"id": "C99", "title": "BADA4 add-on as shipped: no Drag, no FuelFlow, and every Thrust method raises", "statement": "No class of the BADA4 add-on has the attribute sci. Whatever the folder holds, Drag(...) and FuelFlow(...) raise, with a complete XML file AttributeError; a Thrust object can be made, but climb, cruise, takeoff and idle raise for all arguments, with numbers AttributeError. A rating other than MCRZ, MCMB and LIDL (any case) fails an assertion.", "quantifier": "all folders and XML trees, all aircraft codes, all arguments including arrays", "why_tests_cant": "The failure holds for every input; the BADA data are not public, so no test runs the code.", "anchors": ["openap/addon/bada4.py:Drag.__init__", "openap/addon/bada4.py:FuelFlow.__init__", "openap/addon/bada4.py:Thrust.climb", "openap/addon/bada4.py:Thrust.cT"]}
{"id": "C100", "title": "BADA4 drag with `sci` set: formula, continuity, monotonicity", "statement": "With sci set, the drag coefficient is the polynomial in 1/sqrt(1-M^2) and the lift coefficient up to the highest Mach number and its 3/2-power continuation from there on; it is finite for every Mach number, also supersonic, and continuous, also at the highest Mach number. Beyond it the coefficient does not fall if it does not fall over the last 0.01; with non-negative coefficients it never falls with Mach number or lift. Drag is the coefficient times dynamic pressure times area, zero at rest, never negative and never smaller for a heavier aircraft.", "quantifier": "all drag models with at least 15 coefficients and highest Mach number between 0.01 and 1; all lift coefficients, Mach numbers, masses, speeds and altitudes", "why_tests_cant": "Real-valued inputs and arbitrary aircraft data; continuity is a statement about limits.", "anchors": ["openap/addon/bada4.py:Drag._cd_base", "openap/addon/bada4.py:Drag._cd", "openap/addon/bada4.py:Drag._cl", "openap/addon/bada4.py:Drag.clean"]}
{"id": "C101", "title": "BADA4 thrust with `sci` set: formula and temperature", "statement": "With sci set, climb, cruise and take-off thrust are pressure ratio times reference weight times the rated coefficient (flat-rated up to the kink temperature, temperature-rated above), idle thrust the idle coefficient; every call with numbers gives a finite number. Take-off thrust is climb thrust for all arguments. Idle thrust ignores the temperature deviation; for the rated thrusts the deviation only selects the formula, so beyond the kink thrust does not decrease as it gets hotter (refuted).", "quantifier": "all thrust models with complete coefficients, all speeds, altitudes and deviations", "why_tests_cant": "Real-valued inputs and arbitrary aircraft data.", "anchors": ["openap/addon/bada4.py:Thrust.cT", "openap/addon/bada4.py:Thrust.climb", "openap/addon/bada4.py:Thrust.cruise", "openap/addon/bada4.py:Thrust.takeoff", "openap/addon/bada4.py:Thrust.idle"]}
{"id": "C102", "title": "BADA4 calls with several points", "statement": "With sci set, drag and fuel flow of n > 1 points give a column (n by 1 array) whose entries are the results of the single points, not an array of the shape of the arguments (refuted). The thrust methods with an array of altitudes give an n by n array: the single results are on the diagonal, entry (i, j) is the thrust of point j scaled with the pressure of point i; so there is not one number per point (refuted). One altitude with several speeds gives a row of single results, or ValueError when the temperature deviation is beyond the kink; an array of deviations raises ValueError except for idle. Arrays of different lengths raise ValueError.", "quantifier": "all numbers of points, all mixtures of numbers and arrays, all aircraft data", "why_tests_cant": "Array lengths are unbounded.", "anchors": ["openap/addon/bada4.py:Drag.clean", "openap/addon/bada4.py:Thrust.climb", "openap/addon/bada4.py:FuelFlow.enroute", "openap/addon/bada4.py:FuelFlow.idle", "openap/extra/__init__.py:ndarrayconvert"]}
{"id": "C103", "title": "BADA4 fuel flow with `sci` set: formula, idle descents, monotonicity", "statement": "With sci set, idle fuel flow is the idle coefficient and en-route fuel flow the coefficient of the thrust that balances drag and weight, both scaled with pressure and the root of temperature; every call with numbers gives a finite number. Descents faster than 250 ft/min burn the idle fuel whatever the mass, so the fuel flow jumps there. Leaving out the vertical rate is the same as level flight. With non-negative coefficients a heavier aircraft in level flight or climb, and a steeper climb, never burn less. En-route fuel flow is not bounded below by idle fuel flow (refuted). A heating value of zero raises ZeroDivisionError.", "quantifier": "all fuel models with complete coefficients, all masses, speeds, altitudes and vertical rates", "why_tests_cant": "Real-valued inputs and arbitrary aircraft data.", "anchors": ["openap/addon/bada4.py:FuelFlow.idle", "openap/addon/bada4.py:FuelFlow.enroute", "openap/addon/bada4.py:FuelFlow._calc_fuel"]}
{"id": "C104", "title": "Which BADA4 file is read for an aircraft code, and what is taken from it", "statement": "load_bada4 reads the XML file of the first folder whose name starts with the upper-case code; upper and lower case of the code do not matter; no matching folder raises; with a single matching folder the order of the directory does not matter. A folder with exactly the asked name is not preferred (refuted): with A320 and A320-271N, which one is read depends on the directory order. Every attribute of the drag, thrust and fuel flow objects is the number written in its own element (climb ratings from MCMB, cruise ratings from MCRZ); elements with other tags, and repeated elements after a single number, change nothing.", "quantifier": "all directories and all codes without glob characters; all file contents of the documented structure", "why_tests_cant": "Directories and names are unbounded; a test sees one directory order.", "anchors": ["openap/addon/bada4.py:load_bada4", "openap/addon/bada4.py:Drag.__init__", "openap/addon/bada4.py:Thrust.__init__", "openap/addon/bada4.py:FuelFlow.__init__"]}
{"id": "C105", "title": "The JAX backend gives the NumPy numbers", "statement": "For every function of aero, geo (distance, bearing, destination), thrust, drag, fuel flow and emission, the number of the result computed with the JAX backend is the NumPy result on the numbers of the arguments, whether or not an argument is traced by jax.grad or jax.jvp.", "quantifier": "all arguments (including NaN and infinities), all aircraft, engine and emission parameters", "why_tests_cant": "Real-valued inputs; any subset of arguments may be traced.", "anchors": ["openap/backends/jax_backend.py:JaxBackend", "openap/jax.py:Drag", "openap/jax.py:aero"]}
{"id": "C106", "title": "jax.grad of the atmosphere and speed functions is the derivative of the NumPy function", "statement": "For arguments that depend in any differentiable way on the differentiated input, jax.grad and jax.jvp of temperature, pressure, density, speed of sound, all speed conversions, h_isa and the crossover altitude give the derivative of the NumPy function composed with the arguments, provided the altitude is not exactly 11000 m, the temperature deviation not exactly -25 or 15, the speed not 0 for conversions to or from calibrated airspeed, and the Mach number not the floor 1e-4 (only where traced). At the tropopause the temperature has no derivative and JAX returns the mean slope -0.00325 K/m. At zero speed JAX returns no finite number although the derivative by altitude is zero (refuted).", "quantifier": "all differentiable argument functions, all points outside the listed kinks", "why_tests_cant": "A gradient test samples points and compares finite differences; compositions are unbounded.", "anchors": ["openap/aero.py:Aero.atmos", "openap/aero.py:Aero.tas2cas", "openap/aero.py:Aero.cas2tas", "openap/aero.py:Aero.h_isa", "openap/aero.py:Aero.crossover_alt", "openap/backends/jax_backend.py:JaxBackend", "openap/jax.py:aero"]}
{"id": "C107", "title": "jax.grad of drag is the derivative of drag", "statement": "jax.grad and jax.jvp of clean drag (with or without the wave drag model) and of non-clean drag are the derivatives by mass, speed, altitude, vertical rate, flap angle or temperature deviation, or any differentiable combination of them (where jax.grad accepts the result, see C117), for positive speed away from the tropopause and from the floor of the dynamic pressure; the switch-on of wave drag needs no exception. At standstill in level attitude the derivative by speed is zero but JAX returns no finite number (refuted).", "quantifier": "all aircraft parameters in the stated ranges, all differentiable argument functions", "why_tests_cant": "Real-valued inputs and compositions; the switch-on point of wave drag has measure zero.", "anchors": ["openap/drag.py:Drag.clean", "openap/drag.py:Drag.nonclean", "openap/jax.py:Drag"]}
{"id": "C108", "title": "jax.grad of thrust is the derivative of thrust", "statement": "jax.grad and jax.jvp of take-off and idle thrust are exact away from the tropopause; those of climb and cruise thrust away from 10000 ft, 30000 ft and the tropopause, 10 kt and zero vertical rate (each only where that argument is traced).", "quantifier": "all engines with non-negative bypass ratio, positive cruise Mach number and non-zero cruise thrust; all differentiable argument functions", "why_tests_cant": "Real-valued inputs and compositions.", "anchors": ["openap/thrust.py:Thrust.takeoff", "openap/thrust.py:Thrust.climb", "openap/thrust.py:Thrust.cruise", "openap/thrust.py:Thrust.descent_idle", "openap/jax.py:Thrust"]}
{"id": "C109", "title": "jax.grad of fuel flow and emissions is the derivative", "statement": "jax.grad and jax.jvp of fuel flow at a thrust, of en-route fuel flow (drag, path angle, acceleration and the smooth limits on the thrust ratio included; where jax.grad accepts the result, see C117), of CO2, H2O, soot, SOx, NOx, CO and HC are exact: for thrust up to 14.2 times the rated thrust, positive speed, away from the tropopause and the floor of the dynamic pressure, and for NOx, CO and HC when the corrected fuel flow is not one of the four table points.", "quantifier": "all fuel models and emission tables in the stated ranges; all differentiable argument functions", "why_tests_cant": "Real-valued inputs and compositions of several models.", "anchors": ["openap/fuel.py:FuelFlow.at_thrust", "openap/fuel.py:FuelFlow.enroute", "openap/emission.py:Emission.nox", "openap/emission.py:Emission.co", "openap/emission.py:Emission.hc", "openap/jax.py:FuelFlow", "openap/jax.py:Emission"]}
{"id": "C110", "title": "jax.grad of distance, bearing and destination", "statement": "jax.grad and jax.jvp of the great-circle distance are exact unless the two points coincide or are antipodal, those of the bearing unless the bearing is exactly north (due south included), those of the destination unless it is a pole (and for its longitude: the start is a pole or the destination lies on the opposite meridian). Two points that move together keep distance zero but JAX returns no finite number (refuted).", "quantifier": "all points and all differentiable argument functions", "why_tests_cant": "Real-valued inputs and compositions.", "anchors": ["openap/geo.py:Geo.distance", "openap/geo.py:Geo.bearing", "openap/geo.py:Geo.latlon", "openap/backends/jax_backend.py:JaxBackend"]}
{"id": "C111", "title": "Every function of JaxBackend carries the exact derivative, kinks get the mean slope", "statement": "If the operands carry the derivatives of two functions of the differentiated input, then sin, cos, arctan, sums, products, negation and integer powers carry the derivative of the result; so do sqrt, log and power for a positive base, exp below overflow, tan off its poles, arcsin and arccos inside (-1, 1), division by a non-zero number, arctan2 off the negative x axis, abs off zero, maximum, minimum and where when the compared operands differ, clip off its limits, fmod when the quotient is no integer, and interp off its table points. On a tie maximum and minimum return half the slope and abs returns zero. A branch that where does not choose must be finite too: where(x > 0, sqrt(x), 2 x) at zero has jvp 2 but no finite grad (refuted).", "quantifier": "all differentiable operand functions, all points, all tables", "why_tests_cant": "Real-valued inputs and all compositions.", "anchors": ["openap/backends/jax_backend.py:JaxBackend", "openap/backends/protocol.py:MathBackend"]}
{"id": "C112", "title": "Rounding error of the atmosphere and of the Mach and EAS conversions", "statement": "If every floating-point operation is accurate to 2^-50 (binary64 with round-to-nearest is, and so are libraries within four units in the last place), pressure and density are within 1e-13, temperature and speed of sound within 1e-14 of the exact formula, relatively; Mach and EAS conversions within 1e-13; TAS to Mach and back returns the speed within 2e-15, TAS to EAS and back within 5e-15. If rounding also respects order, the computed pressure, density and temperature never increase with altitude and stay positive, at all altitudes.", "quantifier": "all altitudes from -1000 to 50000 m (all altitudes for the order), all temperature deviations, all speeds, all rounding functions of the stated accuracy", "why_tests_cant": "Floating-point inputs are too many to try, and the order of neighbouring floats is exactly what sampling misses.", "anchors": ["openap/aero.py:Aero.atmos", "openap/aero.py:Aero.vsound", "openap/aero.py:Aero.tas2mach", "openap/aero.py:Aero.tas2eas", "openap/backends/numpy_backend.py:NumpyBackend"]}
{"id": "C113", "title": "Rounding error of the calibrated airspeed conversions", "statement": "With operations accurate to 2^-50, TAS to CAS and CAS to TAS are within 3e-10 (relative) of the exact formulas for speeds from 10 to 700 m/s, and TAS to CAS to TAS returns the speed within 2e-9 when the calibrated airspeed lies between 11 and 690 m/s. For tiny speeds the claim fails (refuted): in binary64 the calibrated airspeed of 1e-9 m/s is exactly zero.", "quantifier": "all altitudes from -1000 to 20000 m, all temperature deviations, all speeds in the range, all rounding functions of the stated accuracy", "why_tests_cant": "Cancellation in (1+x)^3.5 - 1 loses digits; a test cannot bound the loss over all floats.", "anchors": ["openap/aero.py:Aero.tas2cas", "openap/aero.py:Aero.cas2tas", "openap/backends/numpy_backend.py:NumpyBackend"]}
{"id": "C114", "title": "Rounding error of the great-circle distance; a destination at the pole", "statement": "With operations accurate to 2^-50 the distance is a number and within 0.02 mm of the great-circle distance for all points up to 18000 km apart, latitudes up to 90 degrees included (points closer than 1 mm: up to 89.999 degrees). The destination formula has no such guarantee (refuted): from 52 degrees north, 4230713 m due north at 8000 m altitude ends at the pole to within a centimetre, and in binary64 latlon returns NaN for latitude and longitude because the sine comes out as 1 + 2^-52; with exact arithmetic both are finite.", "quantifier": "all pairs of points, longitudes between -360 and 360 degrees, altitudes from -1000 to 20000 m, all rounding functions of the stated accuracy", "why_tests_cant": "The failing inputs are isolated floats; the error bound is over all pairs of points.", "anchors": ["openap/geo.py:Geo.distance", "openap/geo.py:Geo.latlon", "openap/backends/numpy_backend.py:NumpyBackend"]}
{"id": "C115", "title": "Rounding error of the solar position; the computed bearing is always in range", "statement": "With operations accurate to 2^-50 the computed cosine of the solar zenith angle is within 1e-12 of the exact formula and the computed zenith angle is a number of at least 0 within 2e-4 degrees of the exact one, at every place and time (the arccosine amplifies errors near the zenith). The bearing computed with such operations is a number in [0, 360) for all finite coordinates.", "quantifier": "all latitudes, all longitudes up to 360 degrees, all days and hours, all rounding functions of the stated accuracy; for the bearing all finite coordinates", "why_tests_cant": "A sum rounded to exactly 360 or an arccosine argument rounded above 1 occurs for isolated floats only.", "anchors": ["openap/geo.py:Geo.solar_zenith_angle", "openap/geo.py:Geo.bearing", "openap/backends/numpy_backend.py:NumpyBackend"]}
{"id": "C116", "title": "Which data statistics.fit fits, and what its error is", "statement": "fit drops NaN and infinite values, then the values with at most (n-1)/4000 smaller ones, then those with at most (n'-1)/4000 larger ones among the rest; with up to 4000 finite values exactly all copies of the smallest and of the largest are dropped. The parameters are those of scipy's fit to the remaining data, with no parameter pinned for norm, the location for gamma, location and scale otherwise, and the remaining data lie strictly inside the pinned interval. Several models do not influence each other, the result lists them in the order asked; a model name scipy does not know, a wrong type of models, and data with at most two different finite values raise. The reported error is not that of a 50-50 split as the comment says (refuted): every test value is also a training value.", "quantifier": "all data lists (with NaN and infinities) and all lists of models; any behaviour of scipy", "why_tests_cant": "Data of any length and values; ties and percentile interpolation make sampled cases unrepresentative.", "anchors": ["openap/extra/statistics.py:fit"]}
{"id": "C117", "title": "Which calls of the JAX models give a number, and for which arguments jax.grad works", "statement": "Called with plain numbers, every drag, thrust and fuel flow method and nox, co, hc of the JAX models returns a JAX array with one element (co2, h2o, soot and sox return a number), although the decorator says one-element outputs become scalars (refuted). With some arguments traced by jax.grad the result is a number, as jax.grad requires, exactly when: for thrust, fuel flow at a thrust and emissions at least one argument is traced; for clean drag one is, and with wave drag not the vertical rate alone; for non-clean drag one other than the flap angle; for take-off fuel flow speed or altitude; for en-route fuel flow one of mass, speed, altitude, temperature deviation, or the vertical rate without wave drag. So jax.grad by the flap angle, the acceleration or the throttle alone raises (refuted).", "quantifier": "all aircraft and engine parameters, all subsets of traced arguments, optional arguments given or not", "why_tests_cant": "The number of combinations of traced and plain arguments is finite but no test goes through them; the failures come from decorated calls inside decorated calls.", "anchors": ["openap/extra/__init__.py:ndarrayconvert", "openap/jax.py:Drag", "openap/jax.py:FuelFlow", "openap/drag.py:Drag.clean", "openap/drag.py:Drag.nonclean", "openap/drag.py:Drag._calc_drag", "openap/fuel.py:FuelFlow.enroute", "openap/fuel.py:FuelFlow.takeoff", "openap/thrust.py:Thrust.climb", "openap/emission.py:Emission.nox"]}
{"id": "C118", "title": "What load_olr returns", "statement": "For one place and time inside the grid, load_olr returns the trilinear interpolation in the cell around it: the stored value on a grid point, never outside the range of the data, exact for data that vary linearly; outside the grid NaN. Variables are looked up in the order olr, OLR, olr_avg, toa_lw_all_daily, other variables and the order of the labels in the file do not matter; without such a variable, or without latitude or longitude labels under the two usual names, it raises. Arrays of places and times do not give one value per point (refuted): n latitudes, n longitudes and n times give n x n x n values. Longitudes are not periodic (refuted): on a grid from 0 to 360 degrees, 355 gives a value and -5 gives NaN.", "quantifier": "all grids, all data, all places and times", "why_tests_cant": "Grids and data are unbounded; the tests do not read a file.", "anchors": ["openap/contrail.py:load_olr"]}
{"id": "C119", "title": "Timestamps of the solar zenith angle", "statement": "A unix timestamp is read as seconds since 1970 in the Gregorian calendar, rounded to microseconds and cut to whole seconds; a naive or UTC datetime gives exactly what its unix timestamp gives. A list of datetimes or of numbers gives the array of the single results, places being single values or as many as timestamps. Numbers beyond the years 1 to 9999 (milliseconds, for instance) raise, as do an empty list, strings, np.datetime64 values, lists that mix datetimes and numbers, and wrong lengths. From one second to the next the angle changes by less than 0.65 degrees, also at midnight and at new year; the last day of a leap year counts as the first day of a year. Arrays of dates from numpy, or from pandas without a time zone, raise (refuted). Datetimes in another time zone are not converted: the same instant gives different angles (refuted).", "quantifier": "all timestamps, dates, lists, places", "why_tests_cant": "Dates, lists and places are unbounded; the calendar cycle is 400 years.", "anchors": ["openap/geo.py:Geo.solar_zenith_angle"]}
{"id": "C120", "title": "Rounding error of drag", "statement": "With operations accurate to 2^-50, clean drag and drag with flaps and gear are within 5e-13 (relative) of the exact formula, clean drag with the wave drag model within 5e-12, although the wave drag is the fourth power of a difference of Mach numbers. This holds for every Drag object that can be built from the shipped aircraft and drag polar files, at all masses, positive speeds and vertical rates up to a 45 degree path (wave drag: up to 1000 kt and a lift coefficient up to 3).", "quantifier": "all rounding functions of the stated accuracy, all shipped aircraft, altitudes from -3000 to 60000 ft, all temperature deviations, flap angles 0 to 90 degrees", "why_tests_cant": "Cancellation in the difference of Mach number and critical Mach number; floats and aircraft are too many to try.", "anchors": ["openap/drag.py:Drag.clean", "openap/drag.py:Drag.nonclean", "openap/drag.py:Drag._calc_drag", "openap/backends/numpy_backend.py:NumpyBackend"]}
{"id": "C121", "title": "Rounding error of thrust", "statement": "With operations accurate to 2^-50, take-off thrust is within 1e-11 and idle thrust within 1e-12 of the rated thrust of all engines from the exact formula. Climb and cruise thrust are within 1e-12 of the total cruise thrust above 30000 ft, within 1e-8 (relative) between 10000 and 30000 ft, and within 2e-7 of the total cruise thrust below 10000 ft; the segment taken is the exact one, because the altitude is compared before any rounding. This holds for every Thrust object that can be built from the shipped files without force.", "quantifier": "all rounding functions of the stated accuracy, all shipped aircraft with their engines, speeds from 20 to 600 kt (take-off: from 0), altitudes from -3000 to 60000 ft, vertical rates up to 10000 ft/min, all temperature deviations", "why_tests_cant": "The loss of digits in the calibrated airspeed enters an exponent; a test cannot bound it over all floats.", "anchors": ["openap/thrust.py:Thrust.takeoff", "openap/thrust.py:Thrust.climb", "openap/thrust.py:Thrust.cruise", "openap/thrust.py:Thrust.descent_idle", "openap/backends/numpy_backend.py:NumpyBackend"]}
{"id": "C122", "title": "Rounding error of fuel flow", "statement": "With operations accurate to 2^-50, the fuel flow at a given thrust is within 6e-12 (relative) of the exact formula for thrusts up to three times the rated thrust, positive or negative; take-off fuel flow is within 1.2e-9; en-route fuel flow within 3e-10, with the wave drag model within 2e-9, although the required thrust is a difference of large forces in descent. This holds for every FuelFlow object that can be built from the shipped files without force.", "quantifier": "all rounding functions of the stated accuracy, all shipped aircraft with their engines, altitudes from -3000 to 60000 ft, speeds up to 600 kt at take-off, path angles up to 45 degrees, weight up to ten times the rated thrust, accelerations up to 1 g, drag and required thrust up to three times the rated thrust", "why_tests_cant": "Errors of drag, weight and acceleration terms pass through a logistic limiter and two exponentials; a test cannot bound them over all floats.", "anchors": ["openap/fuel.py:FuelFlow.at_thrust", "openap/fuel.py:FuelFlow.takeoff", "openap/fuel.py:FuelFlow.enroute", "openap/backends/numpy_backend.py:NumpyBackend"]}
{"id": "C123", "title": "Rounding error of emissions", "statement": "With operations accurate to 2^-50, CO2, H2O, soot and SOx rates are within 2e-15 (relative) of the exact formula. The NOx rate is within 6e-10 (relative) for every Emission object that can be built from the shipped files. CO and HC rates, whose emission indices may be zero at some settings, are within 3.3e-11 of the rate the engine would have with its largest emission index at every setting; this holds although the rounded fuel flow may select another segment of the interpolation table than the exact one.", "quantifier": "all rounding functions of the stated accuracy, all shipped aircraft and engines in any combination, all fuel flows, speeds up to 1000 kt, altitudes from -3000 to 60000 ft, all temperature deviations", "why_tests_cant": "Near a table point the rounded fuel flow falls on the other side; sampled floats do not hit this.", "anchors": ["openap/emission.py:Emission.nox", "openap/emission.py:Emission.co", "openap/emission.py:Emission.hc", "openap/emission.py:Emission._fl2sl", "openap/emission.py:Emission.co2", "openap/backends/numpy_backend.py:NumpyBackend.interp"]}
{"id": "C124", "title": "Arguments of the constructors, and one backend throughout each object", "statement": "Drag, Thrust, FuelFlow and Emission of openap, openap.casadi and openap.jax understand exactly the calls with at most the documented number of positional values, no argument given twice, an aircraft and, in openap.casadi and openap.jax, no backend; every other call raises TypeError. Position or name and the order of keywords do not matter, and the classes of the two packages are those of openap with their backend added. What is built from the data is determined by ac, eng, use_synonym and force_engine alone; the object, its aero and, for FuelFlow, the thrust and drag inside with their aero all hold the same backend: the one given unless it counts as false, else NumPy; FuelFlow hands wave_drag to its drag. get_backend knows exactly the three names and raises ValueError otherwise. Unknown keywords are ignored (refuted that a misspelt use_synonyms is noticed); whatever is given as second positional value of Drag, an engine or a backend, switches wave drag on (refuted); a backend given by name is stored as text, neither looked up nor rejected (refuted).", "quantifier": "all databases, all positional values and keyword dictionaries of any length, all backends including user-defined ones", "why_tests_cant": "Argument lists are unbounded combinations handed through up to four nested calls with **kwargs; tests build a few objects.", "anchors": ["openap/base.py:DragBase.__init__", "openap/base.py:FuelFlowBase.__init__", "openap/drag.py:Drag.__init__", "openap/thrust.py:Thrust.__init__", "openap/fuel.py:FuelFlow.__init__", "openap/emission.py:Emission.__init__", "openap/casadi.py:Drag", "openap/casadi.py:FuelFlow", "openap/jax.py:Drag", "openap/jax.py:FuelFlow", "openap/backends/__init__.py:get_backend", "openap/backends/__init__.py:default_backend", "openap/aero.py:Aero.__init__", "openap/geo.py:Geo.__init__"]}
{"id": "C125", "title": "What is read from a BADA3 OPF file", "statement": "Every entry of the dictionary that parse_opf_content returns is the number in the stated column of the first row of the stated form after the first occurrence of the section's heading (drag rows: of the first row with the phase), masses times 1000, the ceiling converted from feet; a row of another form or none gives the default. Numbers are decimal with sign, point and exponent. In a file of lines, with the heading in one line and the next line with CD being the row, that row is read. The engine type is the first of turboprop, jet, piston, electric that is mentioned in the type block, else turbofan; the engine count is the number before the word engine, else None. The only error is ValueError, exactly when a column that is read holds something that is not a number. False: that numbers never come from another section (a short row is replaced by the next row of enough columns), that a configuration with a name of two words or without name is read, that a lower-case exponent is read as such, that an aircraft name with jet in it does not change the engine type (refuted).", "quantifier": "all texts of any length (ASCII; numbers without rounding)", "why_tests_cant": "Files are unbounded texts, and lazy and greedy repetitions backtrack across sections; BADA files are not public.", "anchors": ["openap/addon/bada3.py:parse_opf_content"]}
{"id": "C126", "title": "The synonym file and the choice of the OPF file", "statement": "read_synonym returns manufacturer, model and the first four characters of the synonym from the first line of SYNONYM.NEW that can be read as an entry for the code, in any letter case; if that line is a clear entry (names with single blanks only, columns two blanks apart, a manufacturer of at least two characters, the slash at the end) exactly those columns. It raises FileNotFoundError exactly when there is no file, ValueError exactly when no line is an entry for the code. load_bada3 reads the OPF file with the name of the synonym, returns its entries together with typecode, aircraft, manufacturer, model and synonym, and raises exactly what the three steps raise. False: that the synonym is the column after the model (a manufacturer of one letter, or one blank after a long one, shifts the columns), that a line with a blank after the slash is found, that more than four characters of the synonym matter (refuted).", "quantifier": "all files of any number of lines of any length, all codes (ASCII)", "why_tests_cant": "The lines are unbounded texts matched by a backtracking pattern with nested lazy repetitions.", "anchors": ["openap/addon/bada3.py:read_synonym", "openap/addon/bada3.py:load_bada3"]}
{"id": "C127", "title": "Modules can be imported in any order", "statement": "With numpy, scipy, pandas, PyYAML and matplotlib installed every module of the package can be imported, whatever modules were imported before, by any sequence of import statements; casadi, jax and xarray are not needed for that. The result of an import statement does not depend on the history: `from m import n` gives what the last statement of the file of m that binds n says (its own definition, the library, or the same name followed through the other files), else the module n of the package m, and raises ImportError otherwise; all names of the lists `__all__` are found. The attributes of imported modules are those names too, except that openap.contrail, openap.mass, openap.casadi, openap.jax, openap.addon and the two modules of openap.addon are attributes only once something imported them. The names exported by openap.extra.aero are the very objects of openap/aero.py and openap/geo.py; the classes of openap.casadi and openap.jax are separate from those of openap. If one of the five libraries is missing, the first import of any module raises ModuleNotFoundError, and import openap does so however often it is repeated. False: that openap.aero is openap/aero.py (`from openap import aero` and `import openap.aero as x` give openap/extra/aero.py, which has no Aero); that those late attributes, openap.mass for instance, exist after `import openap`; that an import that failed once fails again (refuted).", "quantifier": "all finite sequences of import statements about modules of the package, all names, all sets of installed libraries", "why_tests_cant": "The import graph has cycles (aero and geo, drag and the package itself), so the outcome depends on the order of the statements of all files and on the module asked for first; a test imports in one order, in one interpreter.", "anchors": ["openap/__init__.py", "openap/extra/aero.py", "openap/aero.py:369", "openap/casadi.py", "openap/jax.py", "openap/backends/__init__.py"]}
{"id": "C128", "title": "The functions of openap.aero and openap.geo are the methods of a default object", "statement": "openap.aero and openap.geo have one function for every public method of Aero and Geo, with the same name and parameters, and no others that hand calls on. For all positional and keyword arguments a call of the function has the same outcome as the call of that method of the default object: the same result, or the same error. The arguments understood are exactly those with no name twice, at most as many positional values as parameters, keywords that name parameters not given by position, and every parameter without default given; parameters get the positional value, else the keyword's, else the default 0; every other call raises TypeError. The results are those of the formulas of the other claims (with dT = 0 or h = 0 when left out), by position or by keyword in any order.", "quantifier": "all values of any type, all lists of positional arguments, all keyword arguments, all behaviours of the methods; formulas for all backends", "why_tests_cant": "Argument lists are unbounded combinations of position, keyword and default over 19 functions written by hand twice; a swapped pair of arguments of the same kind goes unnoticed in a test with symmetric values or defaults.", "anchors": ["openap/aero.py:335", "openap/aero.py:Aero", "openap/geo.py:258", "openap/geo.py:Geo"]}
{"id": "C129", "title": "What an aircraft or drag polar file says", "statement": "A file of lines that spell a mapping (names with values, nested mappings at any deeper indentation, lists at any indentation not smaller than that of their name, blank lines, comments, any number of blanks before and after colons and at the ends of lines) is read as that mapping: whole numbers, decimal numbers with and without a signed exponent, the words for null and truth values, and names stand for themselves. A name that stands twice keeps its first place and takes its last value, without any warning. A numeral with an exponent but without a point, or without a sign in the exponent, is a string. Digits after a leading zero are read in base eight, and make a string if one of them is 8 or 9. A colon with neither a blank nor the end of the line behind it belongs to the name. prop.aircraft adds the entry limits with the seven limits of the file, null for those the file does not have, and changes no other entry; a file without a mapping raises. The engine options are the values of the mapping or the items of the list in the order of the file; a single name is no list of one engine but raises UnboundLocalError. Read this way, the texts of all 37 aircraft files and 26 drag polar files are exactly the data that the claims on shipped aircraft are about. False: that a numeral in a file is the number Python's float makes of it (1e5 is a string, 010 is eight; refuted).", "quantifier": "all files of any number of lines and any depth (printable ASCII), all names and numerals; the texts of all shipped files, character by character", "why_tests_cant": "Layout, comments and indentation of files are unbounded; a misread column of data is a plausible number, so nothing fails.", "anchors": ["openap/prop.py:aircraft", "openap/prop.py:aircraft_engine_options", "openap/drag.py:Drag.load_drag_model", "openap/data/aircraft", "openap/data/dragpolar"]}
{"id": "C130", "title": "What the engine table, the fuel models and the synonym tables say", "statement": "A table of lines whose cells are written bare or between quotation marks (those inside doubled) is read as those cells, whatever characters they hold; blank lines do not count. Columns are found by name: one more column, anywhere, with another name changes no other column. A column whose cells are numerals or missing (empty, NA, nan, ...) is a column of these numbers; one cell that is neither makes the whole column strings. A cell is a numeral exactly if it is written as blanks, sign, digits with or without a point (at least one), perhaps e or E with a sign and at least one digit, blanks; its value is the number written. Read this way, the texts of engines.csv (426 engines), fuel_models.csv and the three _synonym.csv are exactly the data that the claims on shipped engines, fuel models and synonyms are about.", "quantifier": "all tables of any number of rows, columns and characters; the texts of all shipped tables, character by character", "why_tests_cant": "Cells are unbounded texts, and engine names contain commas and quotation marks; a shifted column is a plausible number.", "anchors": ["openap/prop.py:engine", "openap/prop.py:search_engine", "openap/prop.py:aircraft", "openap/fuel.py:FuelFlow._load_fuel_model", "openap/drag.py:Drag.load_drag_model", "openap/kinematic.py:WRAP.__init__", "openap/data/engine/engines.csv", "openap/data/fuel/fuel_models.csv"]}
{"id": "C131", "title": "What the files of the kinematic model say", "statement": "The columns of a file are exactly the longest runs of positions at which one of the first hundred lines has a character, from left to right; a file whose cells stand anywhere inside such columns is read as the table of its cells, blank lines left out. The accessors of WRAP return default, minimum, maximum, model and parameters from the first row with the variable's name, whatever the other rows hold, and raise ValueError for a name that no row has; the numbers are those the other claims on WRAP and the trajectory generator are about. Read this way, the texts of all 17 files are exactly those data, with 35 different variables each. Every variable has a model usable with scipy (norm with mean and deviation, gamma with shape, location and scale, beta with two shapes, location and scale; shapes, scale and deviation positive; minimum below maximum, both inside the support), except the maximum cruise Mach number of A333, A388 and B788, whose gamma distribution has scale 0.00 (refuted that all are usable). False as well: that every cell is read in full (after line 100 longer cells are cut), that one more column or another order of columns changes no result (columns are taken by position: one more raises ValueError, another order swaps the numbers), that the words of a cell stay together (phase initial climb instead of initial_climb makes nine columns and every accessor raise) (refuted).", "quantifier": "all files of any number of lines and any layout, all names; the texts of all shipped files, character by character", "why_tests_cant": "Whether a column is found depends on the blanks of all lines together; nothing fails when a column is cut or shifted, the numbers are just others.", "anchors": ["openap/kinematic.py:WRAP.__init__", "openap/kinematic.py:WRAP._get_var", "openap/data/wrap"]}
{"id": "C132", "title": "Can the aircraft hold the cruise altitude and Mach number of their files", "statement": "At the cruise altitude the available thrust is the number of engines times the cruise thrust of one engine times (M / reference Mach number)^-0.11, the drag in level flight follows the polar with the dynamic pressure 0.7 p M^2, so the drag is at most the thrust exactly up to one mass, which the claim gives in closed form (or at no mass). For the aircraft as shipped, with default engine and standard temperature, at cruise altitude and Mach number of the aircraft file: of the 58 names that can be built, 34 need less than the available thrust at every mass up to the maximum take-off mass; 20 (A321, A332, A333, A343, A359, A388, B38M, B39M, B3XM, B744, B748, B772, B773, B77W, B788, B789, and A124, A306, B77L, MD11, which stand for one of them) at every mass up to the operating empty mass, but more from the maximum take-off mass on; 4 (C550 and C25A, C525, C56X, which stand for it) more even at the operating empty mass. A name that stands for another type gets the polar that this type gets, except PC24, which flies the airframe of C550 with the polar of GLF6. False: that every aircraft can fly level at its cruise altitude and Mach number with its maximum take-off mass, or at least with its operating empty mass (refuted). FuelFlow.enroute takes the drag as thrust whatever the engines deliver (C27).", "quantifier": "all thrust and drag parameters, speeds, masses and temperature deviations (closed form); all 58 names, all masses, both settings of use_synonym (as shipped)", "why_tests_cant": "The three data sources (aircraft file, drag polar, engine table) are joined only at run time; a test sees one mass and one type, and no code compares thrust with drag.", "anchors": ["openap/drag.py:Drag.clean", "openap/thrust.py:Thrust.cruise", "openap/thrust.py:Thrust.__init__", "openap/fuel.py:FuelFlow.enroute", "openap/data/aircraft", "openap/data/dragpolar"]}
{"id": "C133", "title": "Arguments stored as integers", "statement": "Arguments may be NumPy integers of any width, signed or not; ndarrayconvert keeps their type. Drag (clean and non-clean), take-off, idle and cruise thrust, fuel flow at a thrust and at take-off, CO, HC, soot and SOx, and distance, bearing and destination of positions in whole degrees are then those of the floats of the same value, whatever the mix of types; no step is computed in half or single precision. Four places compute in integers, where numbers wrap around: climb thrust squares the rate of climb (as with floats if the square fits the type; else the thrust below 10000 ft is too high by 8.8889e-9 times the lost multiple of 2^bits times (p - p10)/pcr times the cruise thrust, above 10000 ft it is right); FuelFlow.enroute multiplies mass and acceleration (as with floats if the product fits their common type, which is the narrowest type that holds both or float64 if there is none, in particular for the default acceleration 0); Emission.nox subtracts 12900 from the altitude (as with floats for signed altitudes of 16 bits or more from -19868 ft on); co2 and h2o multiply the fuel flow by 3160 and 1230 (as with floats if the product fits). With 8 bit numbers the last two give no number. False: that integers give the results of floats. A rate of climb of 3000 ft/min in 16 bits gives too much thrust for every engine below 10000 ft, 20000 kg and 2 m/s2 in 16 bits too little fuel, an unsigned altitude below 12900 ft too much NOx (12 % at sea level in 16 bits), 11 kg/s in 16 bits a negative CO2 flow (refuted).", "quantifier": "all integer types of 8 to 64 bits and floats in any mix, all values, aircraft, engines and databank rows", "why_tests_cant": "The result depends on the storage type of the caller's columns; tests pass Python floats or int64, where nothing wraps.", "anchors": ["openap/extra/__init__.py:ndarrayconvert", "openap/thrust.py:Thrust.climb", "openap/thrust.py:Thrust._mfunc", "openap/fuel.py:FuelFlow.enroute", "openap/emission.py:Emission.nox", "openap/emission.py:Emission.co2", "openap/drag.py:Drag.clean", "openap/geo.py:Geo.distance", "openap/backends/numpy_backend.py:NumpyBackend"]}
