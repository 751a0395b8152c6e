{"id": "C01", "title": "Trapezoid matrix indexing is a bijection", "statement": "For a trapezoid 2-D matrix with any number of rows and columns, the storage offsets of the stored elements (row r, column c with c <= r, c < cols) are pairwise distinct, all lie inside the allocated storage, and together use every allocated slot; num_elements() is the number of stored elements, slice(r) points at element (r,0), and the elements of a row are contiguous.", "quantifier": "all rows >= 0, cols >= 0 and all pairs of stored index pairs", "why_tests_cant": "Tests only sample a few sizes/inputs; the claim ranges over all of them. An off-by-one only shows for particular shapes (e.g. more columns than rows).", "anchors": ["src/cmat2d.hpp: StorageImplementation<Trapezoid>::num_elements, pts_in_row, slice, element_offset"]}
{"id": "C02", "title": "Row-wise and column-wise matrix indexing are bijections", "statement": "For dense matrices with row-wise or column-wise storage, element offsets of all (r,c) with r<rows, c<cols are pairwise distinct, inside the storage and cover it; slice(i) is the first element of row (column) i and successive elements of the slice follow at +1.", "quantifier": "all matrix shapes and all index pairs", "why_tests_cant": "Tests only sample a few sizes/inputs; the claim ranges over all of them.", "anchors": ["src/cmat2d.hpp: StorageImplementation<RowWise>, StorageImplementation<ColumnWise>"]}
{"id": "C03", "title": "A 2-D matrix behaves as independent cells", "statement": "After construction, any sequence of element writes, slice writes and fills on a 2-D matrix leaves every element equal to the value most recently written to that element (or filled); no write changes any other element, and no write touches memory outside the storage.", "quantifier": "all shapes, all three storage kinds and all finite sequences of in-domain operations", "why_tests_cant": "Quantifies over unbounded operation histories and sizes.", "anchors": ["src/cmat2d.hpp: Mat2D::operator(), slice, fill_with, constructor"]}
{"id": "C04", "title": "Every debug-legal trapezoid access addresses its own storage", "statement": "Every access (i,j) admitted by the access assertion (0<=i<rows, 0<=j<cols) of a trapezoid matrix stays inside the storage and does not alias an element with a different unordered index pair (an upper-triangle access (i,j), j>i, denotes the mirrored element).", "quantifier": "all shapes and all index pairs accepted by the assertion", "why_tests_cant": "The failing pairs (upper triangle) depend on shape; tests that only use the lower triangle never see them.", "anchors": ["src/cmat2d.hpp: StorageImplementation<Trapezoid>::element_offset, Mat2D::operator()"]}
{"id": "C05", "title": "Harmonic coefficient cells are disjoint and in bounds", "statement": "In a HarmonicCoeffs object of degree n, the cells returned by C(i,j) (0<=j<=i<=n) and S(i,j) (1<=j<=i<=n) are pairwise distinct, every one lies inside the rows allocated, and together they are exactly the (n+1)x(n+1) allocated cells.", "quantifier": "all degrees n >= 0 and all legal (degree, order) pairs of both kinds", "why_tests_cant": "Tests only sample a few sizes/inputs; the claim ranges over all of them. The S block is stored upside-down in the gaps of the C block, aliasing shows only for specific pairs.", "anchors": ["src/harmonic_coeffs.hpp: C_row, C, S_row, S", "src/gravity/harmonic_coeffs.cpp: allocate"]}
{"id": "C06", "title": "Harmonic coefficients behave as two independent triangular tables", "statement": "After construction with degree n, for any sequence of writes through C(i,j) and S(i,j) reading any coefficient gives the last value written to that very coefficient (initially the unspecified allocation content), and J2() is minus the current C(2,0).", "quantifier": "all degrees and all finite write histories", "why_tests_cant": "Quantifies over unbounded histories.", "anchors": ["src/harmonic_coeffs.hpp: C, S, J2"]}
{"id": "C07", "title": "Resizing a coefficient set keeps the object usable", "statement": "After any sequence of constructions, resize(n) calls and moves, degree() equals the last requested degree, all legal C/S accesses are inside live memory, and destruction releases exactly the memory acquired (no leak, no double free).", "quantifier": "all finite histories of construct/resize/move/destroy with degrees >= 0", "why_tests_cant": "Memory ownership bugs appear only for particular histories (shrinking, default construction followed by resize(0), move assignment over a live object).", "anchors": ["src/gravity/harmonic_coeffs.cpp: allocate, deallocate, resize, move constructor, move assignment", "src/harmonic_coeffs.hpp: constructors, destructor"]}
{"id": "C08", "title": "De-normalisation scales each coefficient by the documented factor exactly once", "statement": "On normalised coefficients denormalize(order) with 0<=order<=degree (or negative = degree) returns 0, multiplies every C(n,m), S(n,m) with n>=1, m<=order by sqrt((n-m)! (2n+1) (2-delta_0m)/(n+m)!), leaves everything else unchanged and marks the set un-normalised; a second call changes nothing; order > degree returns an error and changes nothing.", "quantifier": "all degrees, orders and coefficient values (exact real arithmetic)", "why_tests_cant": "Tests only sample a few sizes/inputs; the claim ranges over all of them.", "anchors": ["src/gravity/harmonic_coeffs.cpp: _sum, denormalize"]}
{"id": "C09", "title": "The normalised flag tells the truth", "statement": "Whenever normalized() is false after a successful denormalize call on a normalised set, no coefficient of the set is still in normalised form.", "quantifier": "all degrees/orders, all coefficient values", "why_tests_cant": "The violation needs order < degree.", "anchors": ["src/gravity/harmonic_coeffs.cpp: denormalize"]}
{"id": "C10", "title": "Factorials and factorial ratios are exact", "statement": "factorial(n) is n!; factorialRatio(N,D) is N!/D! for all N, D (in exact arithmetic).", "quantifier": "all non-negative N and D", "why_tests_cant": "Unbounded range; off-by-one shows at the boundary N = D or N < D.", "anchors": ["src/factorial.hpp: factorial, factorialRatio"]}
{"id": "C11", "title": "Enum bit sets behave as finite sets", "statement": "For any sequence of set/clear operations on an EnumBitset, check(e) is true exactly when the last operation mentioning e was set; is_clean() is true exactly when no member is set.", "quantifier": "all finite operation histories over all enumerators", "why_tests_cant": "Unbounded histories.", "anchors": ["src/enum_bitset.hpp: set, clear, check, is_clean"]}
{"id": "C12", "title": "EOP table columns are independent and in bounds", "statement": "For an Earth-orientation table of any capacity, the eight data columns occupy disjoint parts of the arena, each row index below capacity stays inside the arena, and any history of column writes reads back the last value per (column,row).", "quantifier": "all capacities, all columns/rows and all histories", "why_tests_cant": "A wrong stride only corrupts other columns for particular rows.", "anchors": ["src/eop.hpp: EopLookUpTable accessors, resize"]}
{"id": "C13", "title": "Copying or moving an EOP table preserves its contents", "statement": "After copy construction/assignment or move construction/assignment of an Earth-orientation table, the destination has the same number of records and returns the same values in every column and row as the source had.", "quantifier": "all table contents, sizes <= capacity", "why_tests_cant": "A copy that moves sz bytes instead of sz doubles, or a changed stride, is invisible for empty tables or when capacity equals size.", "anchors": ["src/eop.hpp: EopLookUpTable copy/move constructors and assignments"]}
{"id": "C14", "title": "EOP file reader stores exactly the requested days", "statement": "When the C04 reader succeeds for [start,end), the table contains exactly the records of the file whose day lies in [start,end), in file order, one per day requested; it never writes beyond the table's capacity.", "quantifier": "all file contents and date ranges", "why_tests_cant": "Depends on arbitrary file contents (gaps, duplicates, ordering).", "anchors": ["src/iers/parse_c04.cpp: parse_iers_C04"]}
{"id": "C15", "title": "Gravity model data reader fills exactly the requested coefficients", "statement": "When the ICGEM data reader succeeds for degree l and order m, every C(i,j), S(i,j) with i<=l, j<=min(i,m) equals the value on the file's (last) matching gfc line - or 0 for absent degree-1 terms - whatever the order of the lines; malformed numeric fields make it fail.", "quantifier": "all files, all degrees and orders", "why_tests_cant": "Arbitrary line orders and truncations.", "anchors": ["src/gravity/icgemio_rddata.cpp: parse_data", "src/gravity/parse_coefficients.cpp"]}
{"id": "C16", "title": "Gravity model header reader resolves keyword/value pairs independently of blank padding", "statement": "For a header line consisting of a keyword, blanks and a value, the reader delivers exactly the value, whatever the amount of padding before or after it; the normalised flag is true exactly when the norm value is 'fully_normalized' (or absent).", "quantifier": "all keyword/value strings and paddings", "why_tests_cant": "Padding variations are unbounded.", "anchors": ["src/gravity/icgemio_rdhead.cpp: resolve_header_keyword, parse_header", "src/icgemio.hpp: is_normalized"]}
{"id": "C17", "title": "RINEX beacon records use ceil(observables/5) lines", "statement": "The number of lines assigned to a beacon record equals the least number of 5-field lines that holds all observables of the file.", "quantifier": "all numbers of observables >= 1", "why_tests_cant": "Tests only sample a few sizes/inputs; the claim ranges over all of them.", "anchors": ["src/doris_rinex.hpp: lines_per_beacon", "src/rinex/read_rnx_header.cpp"]}
{"id": "C18", "title": "Skipping and reading a RINEX data block advance the file equally", "statement": "Whenever reading a data block succeeds, skipping that block from the same position would have consumed exactly the same lines and succeeded, so skipping and reading can be mixed freely.", "quantifier": "all file contents, beacon counts and observable counts", "why_tests_cant": "Arbitrary file contents.", "anchors": ["src/rinex/doris_rinex.cpp: skip_data_block, read_data_block"]}
{"id": "C19", "title": "RINEX data block round trip", "statement": "If a data block is formatted as the format prescribes (3-character beacon ids, 14-wide values with two flag characters, five per line), reading it returns exactly those beacon ids, values divided by the scale factors of their observable and flags, in order.", "quantifier": "all numbers of beacons and observables, all values representable in a field, all flags, all scale factors", "why_tests_cant": "Round trip over all contents.", "anchors": ["src/rinex/doris_rinex.cpp: read_data_block"]}
{"id": "C20", "title": "A missing observation is reported as missing", "statement": "A blank or zero observation field is reported with the documented missing-value marker, whatever the scale factor of the observable.", "quantifier": "all scale factors and field positions", "why_tests_cant": "Only shows for scale factors different from one.", "anchors": ["src/rinex/doris_rinex.cpp: read_data_block", "src/doris_system_info.hpp: OBSERVATION_VALUE_MISSING"]}
{"id": "C21", "title": "RINEX values never come from an earlier line", "statement": "Every value and flag reported for a beacon derives from that beacon's own lines in the file, even when lines are shorter than the nominal 80 columns.", "quantifier": "all file contents including lines stripped of trailing blanks", "why_tests_cant": "Needs particular pairs of consecutive lines of differing length.", "anchors": ["src/rinex/doris_rinex.cpp: read_data_block"]}
{"id": "C22", "title": "RINEX epoch line round trip", "statement": "A data-epoch line formatted as prescribed is accepted and yields exactly its epoch, flag, number of stations and clock offset (missing marker when blank); lines not starting with '>' or with an unreadable field are rejected with a non-zero code.", "quantifier": "all dates, flags, station counts and clock offsets", "why_tests_cant": "Round trip over all contents.", "anchors": ["src/rinex/doris_rinex.cpp: resolve_data_epoch"]}
{"id": "C23", "title": "The RINEX block iterator delivers every block once, in order", "statement": "Starting after the header of a well-formed file with k data blocks, k successive next() calls deliver the blocks in file order and return 0; the following call returns the end-of-file code; malformed blocks give a positive error code.", "quantifier": "all files (any number of blocks, beacons, observables)", "why_tests_cant": "Unbounded files/histories.", "anchors": ["src/rinex/rnx_datablock_iterator.cpp: next", "src/doris_rinex.hpp: RinexDataBlockIterator"]}
{"id": "C24", "title": "Scale factors given on several header lines accumulate", "statement": "After reading the header, every observable listed on some SCALE FACTOR line has that factor and all the others have factor 1.", "quantifier": "all headers with any number of scale factor lines", "why_tests_cant": "Needs headers with more than one scale-factor line.", "anchors": ["src/rinex/read_rnx_header.cpp: read_header (SYS / SCALE FACTOR)"]}
{"id": "C25", "title": "Observation codes round trip and reject invalid frequencies", "statement": "Translating an observation type to its letter and back is the identity, distinct types have distinct letters, every other letter is rejected; an observation code can be built exactly when its frequency is 1 or 2 for types that carry a frequency (and is 0 otherwise).", "quantifier": "all observation types, characters and frequencies", "why_tests_cant": "Finite but complete domain: 256 characters x frequencies.", "anchors": ["src/doris/doris_system_info.cpp: ObservationType_to_char, char_to_observationType, ObservationCode"]}
{"id": "C26", "title": "Beacon and observation lookups return the first match or report absence", "statement": "Looking up an observation code, a beacon id or a beacon's internal code returns the position/value of the first matching entry, and reports absence exactly when nothing matches.", "quantifier": "all tables and keys", "why_tests_cant": "Tests only sample a few sizes/inputs; the claim ranges over all of them.", "anchors": ["src/doris_rinex.hpp: get_observation_code_index", "src/rinex/doris_rinex.cpp: beacon lookups"]}
{"id": "C27", "title": "Filter parameter layout is a bijection", "statement": "In the estimation filter with Np force parameters and n beacons the indices of state components, force parameters, and each beacon's tropospheric and frequency-offset (and drift) parameters are pairwise distinct and exactly fill [0, num_params).", "quantifier": "all n, Np, both relative-frequency-offset models", "why_tests_cant": "Tests only sample a few sizes/inputs; the claim ranges over all of them.", "anchors": ["src/filters/filters.hpp: num_params and index functions"]}
{"id": "C28", "title": "Setting the a-priori tropospheric value for all beacons touches exactly the tropospheric parameters", "statement": "Setting a-priori values for all beacons sets every beacon's tropospheric estimate and variance to the given values and changes no other parameter; for a single beacon only that beacon's.", "quantifier": "all n, Np, both models and all filter contents", "why_tests_cant": "Only shows with a linear frequency model and several beacons.", "anchors": ["src/filters/filters.hpp: set_tropo_apriori"]}
{"id": "C29", "title": "The EKF keeps a valid covariance", "statement": "Every time update and every observation update of the extended Kalman filter maps a symmetric positive semi-definite covariance to a symmetric positive semi-definite one; with the optimal gain the observation update equals (I-KH)P, and the state moves by K times the innovation.", "quantifier": "all state dimensions, all transition matrices, observation rows, positive observation variances and all update histories (exact arithmetic)", "why_tests_cant": "Quantifies over all dimensions, matrices, and histories.", "anchors": ["src/filters/ekf.hpp: time_update, observation_update"]}
{"id": "C30", "title": "The frequency-offset fit is the least-squares line", "statement": "After any sequence of measurements the two-parameter frequency-offset filter holds exactly the solution of the a-priori-regularised weighted least-squares problem on all measurements so far and its covariance is the inverse normal matrix (hence positive definite).", "quantifier": "all measurement sequences, prior sigmas > 0 (exact arithmetic)", "why_tests_cant": "Quantifies over unbounded measurement histories.", "anchors": ["src/doris/fit_rfo.cpp: LinearKalman::update, value_at"]}
{"id": "C31", "title": "Polynomial model evaluation", "statement": "value_at(t) of a polynomial model of any order is the sum of coefficient times power of (t - reference); copies are independent objects and every model's storage is released exactly once.", "quantifier": "all orders, coefficients, times and object histories", "why_tests_cant": "Unbounded orders; ownership bugs depend on history.", "anchors": ["src/filters/models.hpp: PolynomialModel"]}
{"id": "C32", "title": "Doppler counting keeps exactly the latest record per beacon", "statement": "After processing any sequence of data blocks, the table holds, for each beacon seen so far and for no other, exactly one entry with the observation and epoch of the last block (entry) containing that beacon; and every Doppler count printed pairs consecutive observations of the same beacon.", "quantifier": "all sequences of data blocks", "why_tests_cant": "Unbounded histories.", "anchors": ["src/doris/extract_doppler_count.cpp: update, compute_ndop, get_doppler_counts"]}
{"id": "C33", "title": "Satellite mass/centre-of-gravity corrections use the last entry before the epoch", "statement": "The correction delivered for an epoch is the one on the last file line not later than that epoch (file sorted by time).", "quantifier": "all correction files and epochs", "why_tests_cant": "Needs epochs whose day and second-of-day compare differently.", "anchors": ["src/satellites/satellite_corrections.cpp"]}
{"id": "C34", "title": "Quaternion lookup brackets the requested epoch", "statement": "For a time-ordered quaternion file, whenever the attitude lookup for epoch t succeeds, the two quaternions interpolated are consecutive file records with t1 <= t < t2 and the interpolation fraction is in [0,1).", "quantifier": "all files, all histories of lookups", "why_tests_cant": "Depends on the history of earlier lookups (sliding buffer).", "anchors": ["src/satellites/jason3_quaternions.hpp: find_interval, left_shift", "src/satellites/jason3_quaternions.cpp: get_next, set_at, get_at"]}
{"id": "C35", "title": "Quaternion reader reports failures", "statement": "Reading n quaternion records returns 0 only when n records were actually read.", "quantifier": "all files and n", "why_tests_cant": "Fails only when the very first record is unreadable.", "anchors": ["src/satellites/jason3_quaternions.cpp: get_next"]}
{"id": "C36", "title": "Space-weather CSV lines are decoded column by column", "statement": "For a CSV line of the documented layout the eight 3-hourly Ap values, the daily sum/average and the three flux values delivered are those of the corresponding columns; a line that lacks them is rejected.", "quantifier": "all column contents/widths", "why_tests_cant": "Arbitrary texts.", "anchors": ["src/var/celestrak_swdata.cpp: resolve_csv_line_records, resolve_csv_line_date"]}
{"id": "C37", "title": "Space-weather retrieval is all-or-nothing", "statement": "When retrieval of k consecutive days starting at a date returns success, all k requested days have been delivered from the file's lines for precisely these days.", "quantifier": "all files, dates and k", "why_tests_cant": "Fails only when the file ends inside the requested span.", "anchors": ["src/var/celestrak_swdata.cpp: parse_csv_for_date"]}
{"id": "C38", "title": "Geomagnetic history fed to the atmosphere model", "statement": "For every second of the day the Ap history handed to the density model consists of the daily average, the 3-hour values at 0, 3, 6 and 9 hours before, and the averages of the eight 3-hour values from 12 to 33 and 36 to 57 hours before the current time, all read inside the four-day window.", "quantifier": "every second of day and all Ap tables", "why_tests_cant": "All 8 slots crossing day boundaries; arbitrary data.", "anchors": ["src/atmosphere/nrlmsise00_get_flux_data.cpp: init"]}
{"id": "C39", "title": "Flux feed stays synchronised with the file over any update history", "statement": "After any history of update calls, the flux window always holds the four consecutive days ending on the day of the last successful update; a failed update leaves the feed as it was.", "quantifier": "all histories of update calls (including failing ones)", "why_tests_cant": "Quantifies over histories with failures.", "anchors": ["src/atmosphere/nrlmsise00_get_flux_data.cpp: constructor, update"]}
{"id": "C40", "title": "Antenna phase-centre interpolation", "statement": "For a zenith angle z in [0,90) degrees the phase correction on the 2 GHz frequency is the linear interpolation between the two neighbouring 5-degree table values: equal to table entries at the nodes, between the two neighbours elsewhere; the table is never read outside its bounds for any angle in [0,90].", "quantifier": "all zenith angles and all three antenna types", "why_tests_cant": "Continuum of angles, boundary at exactly 90 degrees.", "anchors": ["src/antenna_pcv.hpp: AntennaOffset<...>::pcv"]}
{"id": "C41", "title": "Out-of-range zenith angles are flagged", "statement": "The phase-correction functions set the out-of-bounds flag exactly when the zenith angle lies outside [0,90] degrees.", "quantifier": "all angles, antennas, frequencies", "why_tests_cant": "Boundary and per-specialisation behaviour.", "anchors": ["src/antenna_pcv.hpp: AntennaOffset<...>::pcv"]}
{"id": "C42", "title": "Beacon nominal frequencies", "statement": "The two nominal beacon frequencies are always in the ratio 543/107, equal the system frequencies for shift factor 0 and increase strictly with the shift factor.", "quantifier": "all shift factors", "why_tests_cant": "Tests only sample a few sizes/inputs; the claim ranges over all of them.", "anchors": ["src/doris_system_info.hpp: beacon_nominal_frequency"]}
{"id": "C43", "title": "Ionosphere-free phase correction removes first-order delay", "statement": "For any geometric range and any dispersive delay proportional to 1/f^2, adding the computed correction to the 2 GHz phase count gives exactly the delay-free phase.", "quantifier": "all ranges and delays", "why_tests_cant": "Continuum.", "anchors": ["src/doris_observation_equations.hpp: carrier_iono_correction"]}
{"id": "C44", "title": "Kepler solver contract", "statement": "The Kepler-equation solver always terminates within the iteration limit, never divides by zero for eccentricity in [0,1), and when it reports success the returned anomaly is one Newton step from an iterate whose residual is within tolerance.", "quantifier": "all mean anomalies and eccentricities in [0,1)", "why_tests_cant": "Continuum; iteration counts.", "anchors": ["src/astrodynamics/kepler.cpp: kepler"]}
{"id": "C45", "title": "State vectors computed from Keplerian elements lie on the stated conic", "statement": "For any elements with a>0, 0<=e<1, the position/velocity computed satisfies |r| = a(1-e cos E), the vis-viva equation, r.v = sqrt(GM a) e sin E, and |r x v|^2 = GM a (1-e^2), and the orbit normal has the stated inclination and node.", "quantifier": "all element sets (exact real arithmetic)", "why_tests_cant": "Continuum.", "anchors": ["src/astrodynamics/state2kepler.cpp: elements2state"]}
{"id": "C46", "title": "All element-to-state functions agree", "statement": "The overloads converting elements to a state, and the perifocal/equatorial transformations, agree with one another and are inverse rotations.", "quantifier": "all element sets", "why_tests_cant": "Continuum; errors vanish for special angles.", "anchors": ["src/astrodynamics/state2kepler.cpp", "src/astrodynamics/perifocal.cpp", "src/astrodynamics/propagate_state.cpp"]}
{"id": "C47", "title": "Celestial/terrestrial transformations are inverse", "statement": "Transforming a state (position and velocity) from the celestial to the terrestrial frame and back gives the original state; positions keep their length.", "quantifier": "all orthogonal rotation matrices, rotation rates and states", "why_tests_cant": "Continuum.", "anchors": ["src/itrs2gcrs.cpp: rcel2ter, rter2cel, ycel2ter, yter2cel"]}
{"id": "C48", "title": "Drag acceleration opposes the relative velocity and overloads agree", "statement": "The drag acceleration is a non-positive multiple of the velocity relative to the co-rotating atmosphere, scales linearly with the drag coefficient, its partial w.r.t. the coefficient times the coefficient is the acceleration and all overloads give the same acceleration.", "quantifier": "all states, densities, coefficients", "why_tests_cant": "Continuum.", "anchors": ["src/astrodynamics/drag.cpp"]}
{"id": "C49", "title": "Third-body acceleration and its partials", "statement": "The third-body acceleration is the direct minus the indirect term of Newton's law, vanishes at the central body and its returned partial matrix is the derivative of the returned acceleration.", "quantifier": "all positions", "why_tests_cant": "Continuum; wrong sign conventions.", "anchors": ["src/gravity/point_mass_acceleration.cpp"]}
{"id": "C50", "title": "Integrator call contract", "statement": "For every right-hand side and every behaviour of the step routine the integrator call terminates within its step limit; it returns success exactly when the solution was delivered at the requested time and reports one of the documented failure codes otherwise.", "quantifier": "all inputs and all step outcomes", "why_tests_cant": "All interleavings of step outcomes.", "anchors": ["src/integrators/sgode_de.cpp: de"]}
{"id": "C51", "title": "Integrator order stays within table bounds", "statement": "Over any sequence of steps (successful or not) the order stays in 1..12 and all work-array indices used stay in bounds.", "quantifier": "all error-estimate outcomes and step histories", "why_tests_cant": "All histories.", "anchors": ["src/integrators/sgode_step.cpp: step"]}
{"id": "C52", "title": "Exponential atmosphere layer selection", "statement": "For every altitude >= 0 exactly one layer contains it, the one used, the density is positive and within the layer strictly decreasing with altitude.", "quantifier": "all altitudes", "why_tests_cant": "Continuum, boundaries.", "anchors": ["src/atmosphere/exponential_atmospheric_model.cpp"]}
{"id": "C53", "title": "Spline interpolation passes through its nodes", "statement": "The cubic spline evaluation used in the atmosphere model locates the bracketing interval for every abscissa in range, terminates, and returns exactly the tabulated ordinate at every node; the spline integral is the exact integral of the interpolant.", "quantifier": "all node tables (strictly increasing) and abscissae", "why_tests_cant": "All table sizes and abscissae.", "anchors": ["src/atmosphere/nrlmsise00_splint.cpp", "src/atmosphere/nrlmsise00_splini.cpp", "src/atmosphere/nrlmsise_spline.cpp"]}
{"id": "C54", "title": "Atmosphere model results do not depend on call history", "statement": "The value of the model for given input does not depend on earlier calls or on other model instances.", "quantifier": "all call histories, over all instances", "why_tests_cant": "Needs particular sequences of calls/instances (static caches).", "anchors": ["src/atmosphere/nrlmsise00_globe7.cpp", "src/atmosphere/nrlmsise00_glob7s.cpp"]}
{"id": "C55", "title": "Beacon table loading filters by time span", "statement": "Loading a beacon observation table returns exactly the rows whose epoch lies in the half-open span, in file order, for every table; the result does not depend on the process error number left over from earlier calls.", "quantifier": "all tables, spans and prior process states", "why_tests_cant": "Histories (stale errno) and arbitrary files.", "anchors": ["src/beacon_tbl/beacon_tbl.cpp"]}
{"id": "C56", "title": "Station coordinate extrapolation", "statement": "Coordinates delivered for a station at epoch t are the estimate plus velocity times elapsed years; stations appear in request order; a call tolerant of missing stations succeeds with the stations that exist.", "quantifier": "all solution files, station lists and epochs", "why_tests_cant": "Arbitrary files and subsets of missing stations.", "anchors": ["src/ids/get_pdop_crd.cpp"]}
{"id": "C57", "title": "Downloads never destroy an existing file on failure", "statement": "A download that reports failure leaves a file that existed before the call as it was; a non-forced call never touches an existing file; success implies the local file holds the downloaded content.", "quantifier": "all file-system states and transfer outcomes", "why_tests_cant": "Failure points in the middle of the call.", "anchors": ["src/web/http_get.cpp"]}
{"id": "C58", "title": "Kernel loading is idempotent and complete", "statement": "After asking for a kernel to be loaded if not yet loaded, that kernel is in the pool, and it is loaded at most once.", "quantifier": "all pools of already loaded kernels", "why_tests_cant": "Needs kernels whose names are prefixes of one another.", "anchors": ["src/planets/cspice_utils.cpp: load_if_unloaded_lsk, load_if_unloaded_spk, load_if_unloaded_pck"]}
{"id": "C59", "title": "Associated Legendre recursion", "statement": "The V and W tables used for the gravity field equal (Re/r)^(n+1) P_nm(sin phi) cos(m lambda) and sin(m lambda) for all requested degrees and orders.", "quantifier": "all degrees/orders and positions", "why_tests_cant": "Unbounded degrees, continuum.", "anchors": ["src/gravity/lagrange_poly.cpp"]}
{"id": "C60", "title": "Analytical Sun and Moon positions have the stated distance", "statement": "The Sun and Moon position functions return a vector whose length is exactly the series distance, for every epoch.", "quantifier": "all epochs", "why_tests_cant": "Continuum.", "anchors": ["src/planets/sunpos.cpp", "src/planets/moonpos.cpp"]}
{"id": "C61", "title": "Station reference records round trip", "statement": "A station record line laid out as the format prescribes is accepted and delivers exactly the internal code, 4-character id, name and DOMES number (trailing blanks removed), beacon type and signed shift factor of the line, whatever ran before in the process; shorter lines are rejected leaving the station unchanged; the antenna type is the one denoted by the last letter of the id.", "quantifier": "all codes, ids, names, DOMES numbers, types, shift factors and prior process states", "why_tests_cant": "The result depends on column layout for all field widths and on the process-wide error number left by unrelated earlier calls; tests start from a clean process.", "anchors": ["src/doris/doris_system_info.cpp:BeaconStation::set_from_rinex_line", "src/doris/doris_system_info.cpp:BeaconStation::type"]}
{"id": "C62", "title": "Beacon description fits its documented buffer", "statement": "Formatting the description of any station read from a record line writes at most the documented buffer length and reads only the station's own fields.", "quantifier": "all station records accepted by the reader", "why_tests_cant": "Overruns appear only for names that fill the whole field and usually go unnoticed at run time.", "anchors": ["src/doris/doris_system_info.cpp:BeaconStation::to_str"]}
{"id": "C63", "title": "Emission epochs: the two corrected-epoch functions agree", "statement": "The corrected L1 epoch is the proper time plus the receiver clock offset (truncated to nanoseconds, nothing when the offset is missing or already applied), both overloads give the same L1 epoch, and the L2 epoch differs from it by exactly the header's L2/L1 date offset.", "quantifier": "all epochs, clock offsets, header flags and date offsets", "why_tests_cant": "Depends on an unbounded set of offsets including the missing-value marker; tests sample a few epochs.", "anchors": ["src/doris_rinex.hpp: corrected_l1_epoch", "src/rinex/rnx_datablock_iterator.cpp: corrected_l12_epoch"]}
{"id": "C64", "title": "Observation-type header line round trip", "statement": "A SYS / # / OBS TYPES header line formatted as prescribed yields exactly its observation codes, in order, whatever bytes earlier lines left in the buffer.", "quantifier": "all lists of 1 to 12 observation codes, all buffer contents", "why_tests_cant": "Every combination and order of codes must be recovered and stale buffer bytes must not matter.", "anchors": ["src/rinex/read_rnx_header.cpp: read_header (SYS / # / OBS TYPES)"]}
{"id": "C65", "title": "State vectors and Keplerian elements are inverse", "statement": "The elements computed from a bound, non-rectilinear state reproduce that state, elements in their usual ranges are recovered from their state, and the alternative element sets (h, i, Omega, e, omega, theta) locate the orbit plane, the perigee and the satellite of the given state.", "quantifier": "all bound states and all elements in range (exact real arithmetic)", "why_tests_cant": "Continuum of states, quadrant decisions in every angle.", "anchors": ["src/astrodynamics/state2kepler.cpp: state2elements, state2kepler, state2kepler_vallado, state2kepler_montenbruck"]}
{"id": "C66", "title": "Right ascension and declination give back the position", "statement": "For every position off the polar axis the angles returned satisfy pos = |pos| (cos d cos a, cos d sin a, sin d) with 0 <= a <= 2 pi and |d| < pi/2.", "quantifier": "all positions off the polar axis", "why_tests_cant": "Continuum; quadrant logic.", "anchors": ["src/astrodynamics/pos2ra.cpp: pos2ad"]}
{"id": "C67", "title": "Partials of the Keplerian state", "statement": "state_partials returns the derivative of position and velocity of a Keplerian orbit with respect to each orbital element, and the state transition matrix of propagate_state is the derivative of the propagated state with respect to the initial one.", "quantifier": "all elliptic elements and time differences", "why_tests_cant": "Continuum; a wrong partial only degrades convergence.", "anchors": ["src/astrodynamics/state_partials.cpp", "src/astrodynamics/propagate_state.cpp:45-99"]}
{"id": "C68", "title": "Solar radiation pressure and its partials", "statement": "The acceleration points away from the Sun and falls with the square of the distance; both overloads agree; the returned partials with respect to position and coefficient are the derivatives of the returned acceleration.", "quantifier": "all satellite and Sun positions, areas, masses and nonzero coefficients", "why_tests_cant": "Continuum; a wrong partial only degrades convergence.", "anchors": ["src/astrodynamics/solar_radiation.cpp"]}
{"id": "C69", "title": "Sun and Moon accelerations are in the documented units", "statement": "SunMoon returns the third-body accelerations of Sun and Moon on the satellite in m/s^2 and the position of the Sun in m, for GM in km^3/s^2 and the satellite in m, at the TT epoch of the TAI date.", "quantifier": "all positions, GM values and epochs", "why_tests_cant": "A unit slip in a small term stays within any tolerance on positions.", "anchors": ["src/sunmoon.cpp: SunMoon"]}
{"id": "C70", "title": "Shadow functions tell when the Sun is hidden", "statement": "The cylindrical models return 0 exactly when the Earth lies between satellite and Sun and 1 otherwise; the conical models return the visible fraction of the Sun: a number in [0,1], 1 outside the penumbra, 0 in the umbra.", "quantifier": "all satellite and Sun positions outside the bodies", "why_tests_cant": "The penumbra is a thin region of a continuum.", "anchors": ["src/astrodynamics/occultation.cpp"]}
{"id": "C71", "title": "Gravity acceleration is the gradient of the field", "statement": "grav_potential_accel returns, for every degree and order, the exact gradient at the given position of the potential GM/r * sum (Re/r)^n P_nm(sin phi) (C_nm cos m lambda + S_nm sin m lambda) truncated at that degree and order; too small work tables stop the program.", "quantifier": "all degrees, orders <= degree, coefficients, positions but the centre", "why_tests_cant": "Unbounded degrees and coefficients over a continuum of positions.", "anchors": ["src/gravity/gravity_acceleration.cpp", "src/egravity.hpp"]}
{"id": "C72", "title": "Gravity partials are the derivative of the acceleration", "statement": "The 3x3 matrix returned along with the gravity acceleration is the derivative of that acceleration with respect to the position, in all nine elements and independent of what the caller left in the matrix.", "quantifier": "all degrees, orders, coefficients and positions", "why_tests_cant": "Unbounded degrees over a continuum; derivative property.", "anchors": ["src/gravity/gravity_acceleration.cpp:65-223"]}
{"id": "C73", "title": "Atmosphere densities are consistent with each other and in the units asked for", "statement": "For mass 48 the total mass density returned by gtd7 is the atomic mass unit times the sum of the number densities of He, O, N2, O2, Ar, H and N times their weights, gtd7d adds anomalous oxygen; asking for metres multiplies number densities by 10^6, the mass density by 10^3 and changes nothing else; the number densities are positive at and above 72.5 km.", "quantifier": "all inputs, all states of the instance, all callers' structures", "why_tests_cant": "A test compares with tabulated values of a few inputs; the relation must hold for every input and switch setting.", "anchors": ["src/atmosphere/nrlmsise00_gtd7.cpp", "src/atmosphere/nrlmsise00_gtd7d.cpp", "src/atmosphere/nrlmsise00_gts7.cpp"]}
{"id": "C74", "title": "The atmosphere expansion is in associated Legendre functions of the latitude", "statement": "After any calls the stored polynomials plg[m][n] are the associated Legendre functions (no Condon-Shortley phase) of the sine of the latitude recorded in the cache, for all stored orders and degrees.", "quantifier": "all latitudes, all histories of calls", "why_tests_cant": "A wrong polynomial of high degree changes temperatures by a fraction of a percent at particular latitudes.", "anchors": ["src/atmosphere/nrlmsise00_globe7.cpp"]}
{"id": "C75", "title": "Atmosphere outputs are computed from the input", "statement": "No output of gtd7 depends on uninitialised members or locals, or on what the caller's output structure held.", "quantifier": "all inputs, all contents of uninitialised memory", "why_tests_cant": "Uninitialised memory usually happens to hold zero in a test.", "anchors": ["src/atmosphere/nrlmsise00_gtd7.cpp", "src/atmosphere/nrlmsise00.hpp"]}
{"id": "C76", "title": "The integrator takes steps of the variable-step Adams method", "statement": "An accepted pass of order k advances the time by the step size; its predicted value is the old value plus the integral of the polynomial through the derivatives at the last k accepted points, its result the old value plus the integral of the polynomial that also goes through the derivative at the predicted value (order k+1), and the derivative is then evaluated at the result; it is accepted exactly when the results of orders k and k+1 differ by no more than the tolerance in the weighted norm.", "quantifier": "all right-hand sides, all sequences of accepted and rejected passes with any step sizes and orders", "why_tests_cant": "Tests integrate a few problems to a tolerance: a wrong coefficient at a high order after a particular sequence of order and step changes is absorbed by the error control.", "anchors": ["src/integrators/sgode_step.cpp"]}
{"id": "C77", "title": "Dense output evaluates the polynomial of the step", "statement": "After any accepted step intrp returns, for every output time, the new value plus the integral of the polynomial through the derivatives at the last kold+1 accepted points, and the value of this polynomial as derivative.", "quantifier": "all states after accepted steps, all output times", "why_tests_cant": "The error of a wrong interpolation is of the size of the tolerance at the times a test looks at.", "anchors": ["src/integrators/sgode_intrp.cpp", "src/integrators/sgode_de.cpp"]}
{"id": "C78", "title": "Failing steps are retried by the documented policy and end", "statement": "A failed pass restores time, state and history and shortens the step; the first two failures of a step halve it, the third goes to order one, later ones use the optimal step; a step ends for every right-hand side, and its result depends on the object's data only.", "quantifier": "all right-hand sides, all states, all contents of uninitialised memory", "why_tests_cant": "Smooth test problems rarely fail twice in a row and uninitialised counters usually look harmless.", "anchors": ["src/integrators/sgode_step.cpp"]}
{"id": "C79", "title": "Equations of motion of the orbit integrator", "statement": "For every epoch and state VariationalEquations delivers the velocity and the acceleration: Earth gravity at the Earth-fixed position turned back to the inertial frame, third-body attraction of Sun and Moon, and drag with the area of the plates facing the flow and the density at the satellite's Earth-fixed position and UTC date; when an external routine fails no derivative is delivered.", "quantifier": "all epochs, states, Earth orientations, attitudes, macro models, gravity and density models", "why_tests_cant": "A test orbit compares a few positions; a wrong frame, unit or epoch changes the acceleration by amounts below its tolerance, for orientations it does not have.", "anchors": ["src/variational_equations.cpp:9-187", "src/sunmoon.cpp"]}
{"id": "C80", "title": "Variational equations are the derivative of the equations of motion", "statement": "The columns of the state-transition and sensitivity matrix delivered by VariationalEquations are the derivatives of the delivered state derivative along the columns given, with respect to initial state and drag coefficient.", "quantifier": "all epochs, states, columns, curves through the state", "why_tests_cant": "An orbit test looks at the trajectory, not at the partials, and a filter converges slowly with wrong partials without failing.", "anchors": ["src/variational_equations.cpp:189-245"]}
{"id": "C81", "title": "Relativistic clock correction", "statement": "For every position and velocity the clock correction times the speed of light is the gravity potential at the position plus half the squared speed; the version with J2 uses the potential of the oblate Earth (degree two zonal harmonic).", "quantifier": "all positions, velocities and constants", "why_tests_cant": "The oblateness term is a thousandth of the correction; a wrong latitude changes it by parts in ten thousand, below any test tolerance on the sum.", "anchors": ["src/relativity/relativistic_clock_correction.cpp:16-69"]}
{"id": "C82", "title": "Earth orientation at a date", "statement": "interpolate delivers for every date the interpolated parameters plus the tidal corrections of that date, reports every failure of the interpolation, and does not depend on memory nobody wrote; regularizing a table and interpolating at one of its dates returns the tabulated values plus the sub-daily tides.", "quantifier": "all tables built by any history, all dates, all interpolation and tide routines", "why_tests_cant": "A test interpolates a few dates inside the table, with records on a zeroed stack.", "anchors": ["src/iers/eop_interpolate.cpp", "src/eop.hpp"]}
{"id": "C83", "title": "The polynomial fitted to the receiver's frequency offsets", "statement": "fit_relative_frequency_offset, given RINEX files, a range of dates and a group size, averages the relative frequency offset over consecutive epochs of the range, places each average at the middle of the dates (TAI or proper time as asked) of its first and last epoch, and returns the polynomial, in seconds from the reference epoch of the first file, whose sum of squared differences from the averages is the least possible. Every epoch of the range counts, whatever is left after the last complete group included; a file without epochs in the range adds nothing; a file that cannot be read makes the function return a nonzero code and leaves the polynomial alone.", "quantifier": "for all lists of files, numbers and dates of epochs, ranges, group sizes and polynomial orders", "why_tests_cant": "The number of epochs modulo the group size, the dates and the values are unbounded; that no other polynomial does better is a statement about all polynomials; reading past the buffer does not have to show in a run.", "anchors": ["src/rinex/fit_rfo.cpp:11-200", "src/filters/models.hpp:20-80"]}
{"id": "C84", "title": "Doppler counts of the orbit determination program", "statement": "The program test/rinex_pod.cpp forms a Doppler count for an observation exactly when the observation is usable (no flag raised, above the elevation cut-off, troposphere known) and there is an earlier usable observation of the same beacon, at most five minutes before, with no flagged observation of that beacon in between; the count is the difference of the two phases, the interval the difference of the two proper times, which is positive when data blocks come in order and name a beacon once. Beacons are numbered in the order of their first usable observation, different beacons have different numbers, all below the number of stations the filter was made for; arcs are counted per beacon at gaps of more than five minutes. The positions of the measurements are found in the header's list or a nonzero code is returned.", "quantifier": "for all station lists, all sequences of data blocks and observations of any length, all flags, phases, elevations and times", "why_tests_cant": "The decision depends on the whole history of each of arbitrarily many interleaved beacons; a test follows a few passes.", "anchors": ["test/rinex_pod.cpp:75-127", "test/rinex_pod.cpp:614-1060", "test/rinex_pod.cpp:1065-1096"]}
{"id": "C85", "title": "Running statistics and rejection of residuals", "statement": "RunningStatistics delivers the number, the mean and the variance of the values it was updated with, as the method it cites; the orbit determination program takes a residual when it is small compared with the spread of the residuals taken before (a kilometre per second for the first six), keeps statistics of exactly the residuals taken, and does not refuse residuals that are like the ones it took.", "quantifier": "for all sequences of residuals and elevations", "why_tests_cant": "The statistics are an invariant over unbounded sequences; the states in which every later residual is refused are reached by particular sequences only.", "anchors": ["test/rinex_pod.cpp:47-63", "test/rinex_pod.cpp:936-943"]}
{"id": "C86", "title": "Orbit propagation with the antenna offset in the orbit determination program", "statement": "SatelliteState::integrate, started with the satellite's centre of gravity, delivers at every later epoch the terrestrial state of the antenna reference point that belongs to the orbit of the centre of gravity, however many epochs are asked for one after the other; the eccentricity vector turned into the satellite frame by the attitude is the difference of the two points; it returns 0 at the epoch asked for, or 1 leaving the object alone; this holds for every satellite object of the program.", "quantifier": "for all orbits an integrator may follow, attitudes (not normalised ones too), antenna offsets, Earth rotations and sequences of epochs", "why_tests_cant": "An invariant over unbounded sequences of epochs, alternating between two reference points and two frames; a single satellite in a single program run does not show the call counter shared by all objects.", "anchors": ["test/rinex_pod.cpp:130-272"]}
{"id": "C87", "title": "The state transition matrix handed to the filter of the orbit determination program", "statement": "The matrix SatelliteState::integrate leaves in Phi is the derivative of the final state with respect to the initial one, and S the one with respect to the drag coefficient; the filter that uses it corrects all components of the state from the observations that depend on them.", "quantifier": "for all motions, epochs and observations", "why_tests_cant": "The matrix is a derivative with respect to all initial states; a filter with a wrong one still runs and converges to something on particular data.", "anchors": ["test/rinex_pod.cpp:190-201", "test/rinex_pod.cpp:257-267", "test/rinex_pod.cpp:686-692"]}
{"id": "C88", "title": "Partials and weight of a Doppler measurement in the orbit determination program", "statement": "What the program hands to the filter's measurement update is consistent: the vector of partials is the gradient of the prediction -Utheo with respect to the filter's parameters (position, velocity, drag, wet zenith delay and frequency offset of the beacon, all others zero), and the standard deviation does not grow with the elevation and exists at the zenith.", "quantifier": "for all parameter vectors, pairs of observations of any beacon number, elevations", "why_tests_cant": "Derivatives with respect to all parameters at all points; a filter with wrong partials still runs.", "anchors": ["test/rinex_pod.cpp:929-984", "src/filters/filters.hpp:85-127"]}
{"id": "C89", "title": "Observation equation of the Doppler count", "statement": "For observations that obey the law of the Doppler count (cycles received less cycles of the receiver, or the opposite; emitter offset, range and troposphere) the residual Uobs + Utheo the program forms vanishes but for terms of second order, and the ionospheric correction of the phases is applied to them.", "quantifier": "for all ranges, delays, frequencies and offsets", "why_tests_cant": "A statement about all physically consistent inputs; real data do not tell the first order terms from the offsets being estimated.", "anchors": ["test/rinex_pod.cpp:883-936", "src/doris_observation_equations.hpp:16"]}
{"id": "C90", "title": "Beacon coordinates at the antenna in the orbit determination program", "statement": "prepare_beacon_coordinates raises every beacon by the height of its first entry in the table along the local vertical and returns 0, or returns 1 when a beacon has no entry, leaving the coordinates alone; beacon_coordinates finds the beacon of the name; beacon_arp2ion adds the phase centre offset in the local frame.", "quantifier": "for all lists of beacons and tables, all places", "why_tests_cant": "All lists, including beacons without entry in the middle.", "anchors": ["test/rinex_pod.cpp:1098-1108", "test/rinex_pod.cpp:1137-1195"]}
{"id": "C91", "title": "Delays of an observation in the orbit determination program", "statement": "get_tropo and get_tropo_vmf deliver with code 0 the zenith delays and the mapping functions at the zenith distance given in radians, and otherwise a code other than 0 and nothing; relativity_corrections delivers the difference of the clock rates of satellite and beacon times the speed of light.", "quantifier": "for all mapping functions, meteorological data, angles, states", "why_tests_cant": "Independent of the external mapping function; all angles and error paths.", "anchors": ["test/rinex_pod.cpp:1110-1132", "test/rinex_pod.cpp:1197-1290"]}
{"id": "C92", "title": "Frequency offset line over RINEX files", "statement": "fit_relative_frequency_offset over a list of RINEX files feeds the value of F of every block of every file, in order, to the filter and prints the least squares line for them; it returns 0 only if every file was read to its end and every block has one value of F, and otherwise 1, whatever is wrong with the files.", "quantifier": "for all lists of files, of any number of blocks and beacons, readable or not", "why_tests_cant": "Optimality among all lines, and all combinations of unreadable files, blocks without beacons and ends of files.", "anchors": ["src/doris/fit_rfo.cpp:87-280", "src/doris_rinex.hpp:319-322"]}
{"id": "C93", "title": "Altitude of a pressure", "statement": "Nrlmsise00::ghp7 returns 0 with the atmosphere at an altitude where the pressure is the one asked for, within 0.00043 decades, and otherwise a code other than 0; whenever some altitude has that pressure it is found.", "quantifier": "for all atmospheres, input parameters and pressures", "why_tests_cant": "A test tries one pressure; the claim is about every atmosphere model and every pressure, including those that have no logarithm.", "anchors": ["src/atmosphere/nrlmsise00_ghp7.cpp:6-87"]}
{"id": "C94", "title": "Configuration lookups", "statement": "A lookup of a value under two or three keys returns 0 and the value the document holds there, or a code other than 0 and leaves the output alone; no exception leaves it, and a text is never written past the end of the array given for it.", "quantifier": "for all documents, keys, types of value and arrays", "why_tests_cant": "Tests use well formed documents; the claim covers all documents, including those of another shape and texts of any length.", "anchors": ["src/var_utils.hpp:15-116", "src/var/yaml_utils.cpp:3-15"]}
{"id": "C95", "title": "A DORIS RINEX header is read as the format says", "statement": "DorisObsRinex(file) ends for every file. An object it makes has a scale factor (not zero) for every observation code, known codes only, as many stations as announced, and reference beacons that are stations and are fewer than them; the data starts behind whole lines. A header printed as the format says is accepted, every member holds the value of the last record giving it, and stations and reference beacons keep their order. A header it cannot read is refused without undefined behaviour.", "quantifier": "all files (byte strings), all lists of header records, all contents of the line buffer before the call", "why_tests_cant": "headers are free sequences of records of twenty kinds with arbitrary field contents; a test reads a few files, and undefined behaviour on odd lines is not visible in a result", "anchors": ["src/rinex/read_rnx_header.cpp:28-364", "src/rinex/doris_rinex.cpp:14-33", "src/doris_rinex.hpp:21-29"]}
{"id": "C96", "title": "The celestial to terrestrial matrices are those of the date given", "statement": "gcrs2itrs(mjd_tai, eop_lut, ...) takes a TAI date. For a date that the Earth orientation table covers, the celestial pole and the locator are those of TT = TAI + 32.184 s to the nanosecond, the rotation angle is that of UT1 = TAI - leap seconds + (UT1-UTC) of the table with the tidal corrections, polar motion and the pole offsets are those interpolated for TT, the length of day handed back is the table's with its corrections, and 0 is returned. The result does not depend on what the caller's variables held. A date the table does not cover is reported.", "quantifier": "all tables built by the library, all dates, all contents of the output variables and of the local record before the call, all interpolation, precession and nutation functions", "why_tests_cant": "a test compares a few dates with a reference to some digits; a leap second or a time scale mixed up shows only as microradians, and reading an uninitialised record shows only with an unlucky stack", "anchors": ["src/itrs2gcrs.cpp:157-219", "src/eop.hpp", "test/rinex_pod.cpp:140-160"]}
{"id": "C97", "title": "The switches of the atmosphere model do what their documentation says", "statement": "set_switch, set_null and set_on write the two values of the switch given and no other; an index outside the 25 switches is a precondition violation. After use_aparray() the result of the model does not depend on the daily magnetic index, without it (as constructed) it does not depend on the Ap array. With every switch off the result depends on altitude, latitude and units only: not on date, time, longitude, solar flux, magnetic indices or the calls before. With switch 1 off gravity does not vary with latitude.", "quantifier": "all inputs, masses, altitudes, coefficient tables, states of the instance and of the shared caches", "why_tests_cant": "independence of an argument is a statement about all pairs of inputs; a leak through a cached value shows only in one order of calls", "anchors": ["src/atmosphere/nrlmsise00.hpp:71-130", "src/atmosphere/nrlmsise00.hpp:208-233", "src/atmosphere/nrlmsise00_gtd7.cpp:20-24", "src/atmosphere/nrlmsise00_globe7.cpp:35-246"]}
{"id": "C98", "title": "The density used for drag depends on date and place only", "statement": "update_params(mjd, secday) hands the atmosphere model the day of the year of mjd and the second of the day to the millisecond, together with the solar and magnetic indices of that time, and set_spatial_from_cartesian the position in degrees and kilometers; the density then obtained is the same whatever dates and places were asked for before, and whatever the memory held in which the object was constructed. A failed update leaves the indices of before.", "quantifier": "all space weather tables, dates, positions, histories of earlier requests, contents of memory before construction, coefficient tables and states of the model", "why_tests_cant": "a test constructs one object in one memory and asks in one order; an uninitialised member shows as a value that is right on one run", "anchors": ["src/atmosphere/nrlmsise00.hpp:311-341", "src/atmosphere/nrlmsise00_params.cpp:3-13", "src/atmosphere/nrlmsise00_globe7.cpp:78-86", "src/variational_equations.cpp:139-143", "test/rinex_pod.cpp:524-530"]}
{"id": "C99", "title": "The lower layers of the atmosphere model", "statement": "As documented, gtd7 gives no atomic oxygen, hydrogen and nitrogen below 72.5 km and the global average for the exospheric temperature below 120 km; up to 62.5 km helium, molecular oxygen and argon are in fixed proportions to nitrogen, which go linearly over to those of the thermosphere at 72.5 km; below 62.5 km nitrogen and temperatures do not depend on the species asked for.", "quantifier": "all altitudes, dates, places, indices, switches, states of the instance and of the shared caches, contents of the output before the call", "why_tests_cant": "the proportions and the absence of a species are claims about every input; a member that is not written shows only when the output object was used before", "anchors": ["src/atmosphere.hpp:86-101", "src/atmosphere/nrlmsise00_gtd7.cpp:29-50", "src/atmosphere/nrlmsise00_gtd7.cpp:87-135", "src/atmosphere/nrlmsise00_gts7.cpp:26-35"]}
{"id": "C100", "title": "Temperature and densities with height", "statement": "In the thermosphere the temperature gtd7 gives for one place and time tends to the exospheric temperature: where it once rises with height it rises at all greater heights and never reaches it. Where it does, the number density of every species and the total mass density, with and without anomalous oxygen, strictly fall with height and stay positive.", "quantifier": "all pairs and triples of altitudes, dates, places, indices, switches, states of the instance and of the shared caches", "why_tests_cant": "monotonicity is a statement about all pairs of altitudes; a sampled profile cannot exclude a bump between the samples", "anchors": ["src/atmosphere/nrlmsise00_densu.cpp:11-106", "src/atmosphere/nrlmsise00_gts7.cpp:107-419", "src/atmosphere/nrlmsise00_gtd7d.cpp:5-24", "src/atmosphere/nrlmsise00_ccor2.cpp"]}
{"id": "C101", "title": "A DORIS RINEX file read to its end gives every printed value, scaled by its factor", "statement": "Making a DorisObsRinex and calling next() until it is not zero ends for every file, with the end-of-file code or a positive one. Every block delivered has as many beacons as its epoch line announces, each with an identifier and one value for every observable of the header. On a file printed as the format says all blocks come in order; looking a beacon up with contains_beacon and an observable with get_observation_code_index gives the number printed in that field divided by the factor the header states for the observable (the missing marker when blank or zero), a beacon without data in the block is reported absent, and the identifier leads to the first station record bearing it.", "quantifier": "all files (byte strings), all lists of header records and blocks, all previous contents of the static and local buffers", "why_tests_cant": "the header's order of observables, its factors, the stations and the blocks interact over files of any length; a test reads one or two real files", "anchors": ["src/doris_rinex.hpp:347-382", "src/rinex/rnx_datablock_iterator.cpp:3-33", "src/rinex/fit_rfo.cpp:37-45", "test/rinex_pod.cpp:619-722", "test/rinex_pod.cpp:1067-1086"]}
{"id": "C102", "title": "The row-wise Lagrange polynomials equal the column-wise ones", "statement": "The row-wise overload of lagrange_polynomials fills its two tables with the same solid harmonics (Re/r)^(n+1) P_nm(sin phi) cos(m lambda) and sin(m lambda), for every degree and order and every position but the centre, as the overload used by the force model, with the same code and the same accesses.", "quantifier": "all positions, radii, degrees, orders and previous table contents", "why_tests_cant": "the two recursions agree in whole planes of positions and at low orders, so a comparison at chosen positions can pass while they differ elsewhere; agreement has to hold for every degree and order", "anchors": ["src/gravity/lagrange_poly.cpp:5-65", "src/egravity.hpp:48-93"]}
{"id": "C103", "title": "The parameters of the integration own their work tables", "statement": "However IntegrationParameters objects are made, copied, destroyed and used for gravity evaluations, memory is used correctly (no use after free, no double free, two tables held by each live object), each evaluation gives the acceleration of the object's own field independently of earlier evaluations, of other objects and of what fresh memory contained, and the GM of the Sun and the Moon are set after construction, in builds with and without assertions.", "quantifier": "all sequences of constructions, copies, destructions and evaluations over any number of objects", "why_tests_cant": "interleavings of object lives are unbounded, a double free or a read of uninitialised memory often goes unnoticed in a run, and tests are built in one configuration only", "anchors": ["src/orbit_integration.hpp:18-64", "src/variational_equations.cpp:51-53", "src/egravity.hpp:181-195"]}
{"id": "C104", "title": "Doppler counts of a RINEX file pair each beacon's phases with its last sighting", "statement": "get_doppler_counts on any file ends. It returns 0 only if at least one block was read and every line up to the end of the file belongs to a block. For every beacon of a block that was seen in an earlier block it prints one line: the difference of the L1 and of the L2 phase (number printed in the file over the factor of the observable) from those of the last sighting, and the time between the two. Missing values are left out.", "quantifier": "all files (bytes), all numbers of blocks, beacons and observables, every previous content of the arrays", "why_tests_cant": "the pairing depends on the whole history of sightings and on the order of the observables in the header; tests look at single files of one satellite and cannot see what is compared behind unterminated identifiers", "anchors": ["src/doris/extract_doppler_count.cpp:65-160", "test/test_ndop.cpp"]}
{"id": "C105", "title": "The frequency-offset line of a set of RINEX files is the least-cost line through the F values printed in them", "statement": "fit_relative_frequency_offset on any list of files ends. It returns 0 only if every file can be opened, has F among its observables, and consists behind its header and up to its end of blocks of at least one beacon with one value of F for all beacons; the line printed is then the only one of least cost for all these values (number printed over the factor of F) with the first value and a slope of 3 per day as prior. Otherwise it returns 1. Missing values are left out and nothing that a file does not hold is used for it.", "quantifier": "all lists of files (bytes), all numbers of blocks and beacons, all positive standard deviations, every previous content of the arrays", "why_tests_cant": "the optimum depends on the whole sequence of blocks of all files and is compared with all other lines; what is left in static arrays from one file to the next is invisible to a test of one file", "anchors": ["src/doris/fit_rfo.cpp:87-281", "test/test_rnx_fit_rfo.cpp"]}
{"id": "C106", "title": "The frequency-offset polynomial of a set of RINEX files fits the offsets printed in them", "statement": "fit_relative_frequency_offset (polynomial version) on any list of files ends. It returns 0 only if every file was opened and read to its end or to the end of the range of dates, 1 when a file could not be read. With 0 the polynomial has the least sum of squares against the averages of the printed F values (number over factor, first beacon of each block) of every group of consecutive blocks inside the range, at the middle of the dates of the group, in seconds from the reference epoch of the first file. Missing values are left out; an incomplete group counts with the blocks it has; a file without F is refused.", "quantifier": "all lists of files (bytes), all ranges, group sizes and degrees, every previous content of the arrays", "why_tests_cant": "the optimum is compared with all polynomials, and depends on all blocks of all files; the undefined cases show only for particular counts of blocks", "anchors": ["src/rinex/fit_rfo.cpp:11-200", "test/fit_rfo_values.cpp", "test/rinex_pod.cpp:366"]}
{"id": "C107", "title": "Printed times and phases keep their precision in double arithmetic", "statement": "The receiver clock offset printed on an epoch line (nine decimals of a second) shifts the L1 epoch by exactly the printed number of nanoseconds, and the L2/L1 date offset (three decimals of a microsecond) the L2 epoch likewise; two phases read as the same double were printed as the same number, and the difference of two phases is that of the printed numbers to far below their last decimal; the date rebuilt from a modified Julian day in a double is the day and the nanoseconds of the rest of it, and a date passed on as a modified Julian day comes back unchanged.", "quantifier": "every epoch line and every observable field printed as the format says, every scale factor, every double between 2^15 and 2^16 (the years 1948 to 2038)", "why_tests_cant": "Whether a decimal survives two roundings and a truncation depends on the last bit of the product; three offsets in a hundred are wrong by a nanosecond and the example of the documentation is not one of them.", "anchors": ["src/doris_rinex.hpp:306-312", "src/doris_rinex.hpp:391-404", "src/rinex/doris_rinex.cpp:179-191", "src/doris/extract_doppler_count.cpp:27-28", "src/itrs2gcrs.cpp:163-169"]}
{"id": "C108", "title": "Rounding never makes an angle or a shadow factor something that is not a number", "statement": "In double arithmetic, for every state with a position up to 10^9 m and a velocity up to 10^6 m/s, state2kepler delivers an angular momentum, an inclination in [0, pi] and (unless the orbit is equatorial) a node in [0, 2 pi], because a component over the computed norm of its vector never rounds beyond 1, and the argument of the arc cosine is the exact one up to the error of the cross product; the assertion in pos2ad never fails and its declination is finite; montebruck_shadow says what the exact cylinder says for every satellite at least 0.1 mm away from its border. The same should hold of the argument of perigee, the true anomaly, the eccentricity of the montenbruck variant and the other three shadow functions, on the axis of the shadow in particular.", "quantifier": "all finite doubles in the stated ranges; all implementations of acos, asin and sin with the domains of the C standard", "why_tests_cant": "A quotient that rounds to 1 + 2^-52 occurs for single states among billions; a test passes next to every one of them, and NaN compares false silently.", "anchors": ["src/astrodynamics/state2kepler.cpp:175-207", "src/astrodynamics/state2kepler.cpp:264-354", "src/astrodynamics/pos2ra.cpp:7-32", "src/astrodynamics/occultation.cpp:17-99"]}
{"id": "C109", "title": "Table indices and interpolation parameters computed in doubles stay in range", "statement": "For every double zenith angle from 0 up to and including pi/2, AntennaOffsetTraits<T, 1>::pcv reads inside its table of 19 values and returns the piecewise linear function of the published corrections to 1e-11 mm, also where rounding selects the neighbouring interval; outside that range it returns 0 and sets the flag. For every interval of two attitude epochs and every epoch in it, the parameter that get_at hands to slerp lies in [0, 1] (the assertion never fails) and is the exact fraction of the interval up to its last digit.", "quantifier": "all finite doubles in the stated ranges, all antenna types, both orders of computing degrees", "why_tests_cant": "The index is the floor of a rounded quotient: whether the last double below 90 degrees rounds up to the next index is a matter of one value in 2^60, and the assertion compares with the size of the table in bytes.", "anchors": ["src/antenna_pcv.hpp:48-61", "src/antenna_pcv.hpp:101-114", "src/antenna_pcv.hpp:153-166", "src/satellites/jason3_quaternions.cpp:195-225"]}
{"id": "C110", "title": "In double precision a filter's variance is never negative: true of the one-parameter Joseph form, not of the frequency-offset filter", "statement": "ExtendedKalmanFilter with one parameter keeps a variance that is not negative through any list of predictions and observations, whatever doubles they hold, as long as it stays finite, so its root is a number. LinearKalman of fit_relative_frequency_offset keeps both variances through any number of observations at the reference epoch and, for the offset, through the first one at another epoch; for the drift too if the deviation of the observation is at least a 2^24th of what the deviation of the drift amounts to by then, and otherwise the variance of the drift can be negative and NaN is printed for its deviation. One observation at any epoch gives the estimates, variances and covariance of the exact filter up to 16 units in the last place of their parts; the observation the filter was started with changes no estimate; with no deviations at all the estimates are NaN.", "quantifier": "for all doubles and all lists of steps (one parameter); for all starting values and deviations of an ordinary size (0 or between 2^-100 and 2^100), all lists of observations at the reference epoch and any further one up to 2^53 ns away (two parameters)", "why_tests_cant": "whether a variance goes negative depends on the last bits of the epochs and deviations; the tests do not run the filters and none could try all of them", "anchors": ["src/doris/fit_rfo.cpp:8", "src/doris/fit_rfo.cpp:29", "src/doris/fit_rfo.cpp:202", "src/filters/ekf.hpp:41", "src/filters/ekf.hpp:58"]}
{"id": "C111", "title": "Nominal beacon frequencies in double precision", "statement": "beacon_nominal_frequency returns, in double precision, exactly 543 and 107 times 5 MHz (3/4 + 87 k / (5 2^26)) for every shift factor k up to nine million in size: no rounding takes place. So the frequencies increase strictly with k, are 2036.25 MHz and 401.25 MHz for k = 0, and the double quotient of the two is GAMMA_FACTOR_SQRT to the last bit whatever k. For every int they are numbers within six units in the last place of the parts, and not always exact.", "quantifier": "all shift factors up to 9 000 000 in size; all ints for the last sentence", "why_tests_cant": "a test samples shift factors; that no operation rounds is a statement about the binary expansions of all of them", "anchors": ["src/doris_system_info.hpp:24", "src/doris_system_info.hpp:46"]}
{"id": "C112", "title": "Ionosphere correction in double precision", "statement": "carrier_iono_correction, in double precision, is a number for all phases up to 2^900 cycles, within twelve units in the last place of (|L1| + 543/107 |L2|)/((543/107)^2 - 1) of the exact correction; for phases below 10^9 cycles this is less than a millionth of a cycle, so that a delay of i cycles on 2 GHz (and 543/107 i on 400 MHz) is returned as i to a millionth of a cycle. It never decreases in L1 and never increases in L2, and a signal without dispersion leaves at most one unit in the last place of L1.", "quantifier": "all pairs of finite doubles up to 2^900, all delays", "why_tests_cant": "the two phases nearly cancel and GAMMA_FACTOR is itself rounded; an error bound and monotonicity over all pairs of doubles cannot be sampled", "anchors": ["src/doris_observation_equations.hpp:16", "src/doris_system_info.hpp:24"]}
{"id": "C113", "title": "Relativistic clock correction in double precision", "statement": "Both forms of relativistic_clock_correction, in double precision, return a positive number for every position at least 1 m and at most 2^30 m (per component) from the centre, every velocity up to 2^20 m/s, every GM between 2^30 and 2^60, |J2| up to 1/500 and Re up to twice the distance: for the point mass within ten, with the J2 term within thirteen units in the last place of (U + v^2/2)/c for the same inputs (sine of the latitude given). The difference satellite less beacon that the orbit program uses (Drel_c) is exact to fifteen units in the last place of the sum of the two.", "quantifier": "all doubles within the bounds", "why_tests_cant": "a relative error bound over all positions and velocities; tests only sample them", "anchors": ["src/relativity/relativistic_clock_correction.cpp:17", "src/relativity/relativistic_clock_correction.cpp:45", "test/rinex_pod.cpp:1125"]}
{"id": "C114", "title": "Observed and theoretical range rate in double precision", "statement": "For emitter and receiver frequencies between 1 and 4 GHz, phases and ionospheric corrections up to 10^9 cycles, relativity terms up to 1000 and at least one second between the two epochs, the observed range rate that the filter is given (Uobs) is, in double precision, a number within two micrometres per second of the exact value, so that cycles that follow the Doppler law for a rate give that rate to two micrometres per second. Without elapsed time it is never a number, whatever the observations. The theoretical value (Utheo) for lines of sight of 1 m to 2^24 m per component, zenith delays up to 10 m, mapping factors up to 100 and a frequency offset up to 10^-3 is a number within a tenth of a micrometre per second, and the residual that decides whether an observation is kept within 2.5 micrometres per second of the exact one.", "quantifier": "all doubles within the bounds; all doubles for the last sentence", "why_tests_cant": "frequencies of 2 GHz cancel in the difference; the error left must be bounded for every pair of observations", "anchors": ["test/rinex_pod.cpp:883", "test/rinex_pod.cpp:896", "test/rinex_pod.cpp:910", "test/rinex_pod.cpp:929", "test/rinex_pod.cpp:932", "test/rinex_pod.cpp:936"]}
