# Formal model of xanthospap/doris – design

Source under study: `/repo` (C++). The code is only read; nothing is built or
run. Model and proofs are in Rocq/Coq 8.16.1 under `/verif/rocq/theories`.

## 1. Method

* One *model* file per area (`<Area>_model.v`), containing only computable
  Gallina definitions (over `R`: definitions, no proofs). Every definition
  carries a comment naming file and lines of the code it models;
  simplifications are named at that place.
* *Proof* files per area (`<Area>_proofs.v` and, for the large areas, further
  files named in section 3), containing the *specification* (small definitions
  that do not use the model's helpers), the lemmas and the example objects.
* One *property* file per area (`<Area>_props.v`): only `Theorem` statements
  closed by `exact lemma`, `Print Assumptions` beneath each, and `Example`s
  that show a concrete case meeting the hypotheses.
* Undefined behaviour (out-of-range access, use of an indeterminate value,
  null dereference, signed division by zero) is a distinct outcome of the model
  (`UB`), never a default value. Loops without an obvious bound take fuel, and
  running out of it is a third outcome that a theorem excludes.
* If the unchanged code violates a property, the faithful model is kept, a
  theorem `..._refuted` gives a concrete witness, and a theorem `..._partial`
  gives the strongest statement found that does hold. What is missing is named
  in the MANIFEST note and in section 4.
* Properties of derivatives are stated along curves: "for every curve r(s) with
  derivative u, f(r(s)) has derivative P u" (`Calc.v`), never as a restatement
  of the formula.
* Every model is attacked with realistic bugs (`seeded/LOG.jsonl`): definition
  edited, edit, claim broken, theorems that failed, theorems tightened.

## 2. Trusted base

* Coq's kernel (8.16.1), including its virtual machine (`vm_compute`).
* The axioms listed by `Print Assumptions` beneath each property theorem;
  section 5 lists them theorem by theorem. None is declared in this
  development. All come from the standard library:
  `ClassicalDedekindReals.sig_forall_dec`, `ClassicalDedekindReals.sig_not_dec`
  and `FunctionalExtensionality.functional_extensionality_dep` (the
  construction of `R`), and `Classical_Prop.classic` (used by parts of `Reals`
  and by Coquelicot).
* `coqchk -o` and `vcheck` also name the fields of mathcomp's sealed modules
  (`fintype.CardDef`, `bigop.BigOp.BigOpUnlocked`, ...), because coqchk
  treats a module sealed by a signature as opaque. They come in with
  Coquelicot, which loads parts of mathcomp; no theorem depends on them.
* Coquelicot is used for `Legendre.v`, `LegendreAlg.v`, `GravHarm.v` and the
  splines (integrals), everything else uses the standard library.
* The reading of the code: the model is tied to the code by inspection only.
* Models of library behaviour that is not in the repository:
  `CLib_model.v` (character classes, C strings in fixed buffers, `strtol`,
  `strtod` without hexadecimal, inf and nan, `std::from_chars`),
  `Stream_model.v` (`std::istream`: remaining characters, eof and fail bits,
  `getline`, `read`, `tellg`, which is −1 once failed), `Lines_model.v` (the
  loop `while (fin.getline(...))`), `Vec_model.v` (3-vectors and 3×3 matrices
  as in Eigen/matvec).

Idealisations applying everywhere (repeated at the definitions concerned):

* `double` arithmetic is exact arithmetic on `Q` or `R` (no rounding,
  overflow, NaN, infinities, signed zero). A division by zero over `R` is either an
  explicit outcome or has an arbitrary real value; the model file says which.
* `int`, `long`, `size_t` are unbounded integers unless stated.
* Memory allocation never fails. The code is single threaded.
* Assertions with side effects are modelled as executed (a build with
  `NDEBUG` would skip them: `assert(!gravity_acceleration(...))`,
  `assert(!lagrange_polynomials(...))`, `assert(!feed.update_params(...))`).

External libraries (datetime, iers2010/SOFA, geodesy, matvec, Eigen, CSPICE,
sinex, yaml-cpp, libcurl, iostreams). What is assumed of each is written next
to the definition that uses it: either a model of documented behaviour or an
argument standing for any behaviour ("oracle"):

| Library | Treatment |
|---|---|
| datetime (`strptime_*`, `utc2tai`, `ymd` conversions, `modified_julian_day`) | oracles; dates are integers (ns or days) or `R` |
| iers2010 constants (GM, Re, AU, OmegaEarth, C, pi) | arguments (pi is `PI` or, over `Q`, an argument) |
| SOFA/iers2010 routines (`rc2i`, `rpom`, fundamental arguments, `interp_pole`) | arguments; hypotheses such as orthogonality are stated |
| Eigen, matvec | exact linear algebra; aliasing and dead temporaries considered by hand (below) |
| CSPICE kernel pool | append-only list of file names with kinds |
| libcurl, `std::filesystem` | status and the bytes that reached the disk, arbitrary |
| sinex reader | lists it delivers, arbitrary, or an error code |

## 3. Areas: what is modelled, what is not

| Area (files) | Code modelled | Not modelled / simplified |
|---|---|---|
| `Mat2D` | `cmat2d.hpp` storage classes, element access, slices, fill | copy construction/assignment (calls `memset(double*, double*, n)`, ill-formed when instantiated); move assignment has no `return`; negative sizes |
| `Harmonics` | `harmonic_coeffs.hpp`, `gravity/harmonic_coeffs.cpp`: storage, ownership ledger, (de)normalisation | printing |
| `Util` | `factorial.hpp`, `enum_bitset.hpp` | overflow of the chosen number type |
| `Eop` | `eop.hpp`: table, arena, copy/move/resize | `interpolate`: see `EopInterp` when present |
| `C04` | `iers/parse_c04.cpp`, character level | `utc2tai` is an oracle |
| `Icgem` | `icgemio.hpp`, `gravity/icgemio_rdhead.cpp`, `icgemio_rddata.cpp`, `parse_coefficients.cpp`, character level | copying GM, Re into the coefficient object; failed asserts are outcome `Abort` |
| `Sci` | lemmas on Fortran/scientific number fields shared by readers | |
| `Rinex` | `doris_rinex.hpp`, `rinex/doris_rinex.cpp`, `rinex/rnx_datablock_iterator.cpp`, character level | `strptime` oracle |
| `RnxHead` | observation-code and scale-factor records of `rinex/read_rnx_header.cpp` | the other header records (see `RnxFile`) |
| `SysInfo` | `doris_system_info.hpp/.cpp`, iono-free correction of `doris_observation_equations.hpp` | |
| `Doppler` | `doris/extract_doppler_count.cpp` | reading of the file is a sequence of read results; memory behind the 3-char ids is a parameter |
| `Filter` | `filters/filters.hpp` layout and setters | yaml configuration |
| `Poly` | `filters/models.hpp` | copy assignment of `PolynomialModel` (uses members that do not exist: ill-formed when instantiated) |
| `Ekf` | `filters/ekf.hpp` | doubles are rationals, matrices functions of their indices; the time stamp is opaque |
| `Kalman2` | `LinearKalman` of `doris/fit_rfo.cpp` | |
| `SatCorr` | `satellites/satellite_corrections.cpp`, `mass_cog` of `jason3.hpp`, `cryosat2.hpp` | |
| `Quat` | `satellites/jason3_quaternions.hpp/.cpp` | Eigen's slerp (the arguments given to it are the observable) |
| `SpaceWeather` | `var/celestrak.hpp`, `celestrak_swdata.cpp`, `atmosphere/nrlmsise00_get_flux_data.cpp` | calendar oracle |
| `Pcv` | `antenna_pcv.hpp` | debug assertion |
| `Kepler` | `astrodynamics/kepler.cpp`, `perifocal.cpp`, `state2kepler.cpp`, `propagate_state.cpp` (state), `pos2ra.cpp`; `norm_angle` is external | |
| `Partials` | `astrodynamics/state_partials.cpp`, `propagate_state.cpp` (transition matrix) | |
| `Frames` | `itrs2gcrs.cpp` without `ABCD` | `gcrs2itrs` (calls SOFA only); Eigen lifetime (below) |
| `Forces` | `astrodynamics/drag.cpp`, `solar_radiation.cpp`, `gravity/point_mass_acceleration.cpp`, `sunmoon.cpp` | |
| `Shadow` | `astrodynamics/occultation.cpp` | |
| `SunMoon` | `planets/sunpos.cpp`, `moonpos.cpp` | SOFA arguments |
| `Gravity` (`Legendre`, `LegendreAlg`, `GravHarm`) | `gravity/lagrange_poly.cpp` (trapezoid version), `gravity/gravity_acceleration.cpp`, `egravity.hpp` | the row-wise debugging version |
| `ExpAtm` | `atmosphere/exponential_atmospheric_model.cpp` | |
| `Spline` | `atmosphere/nrlmsise_spline.cpp`, `nrlmsise00_splint.cpp`, `nrlmsise00_splini.cpp` | |
| `Msis` (`_data`, `_model`, `_facts`, `_spline`, `_code`, `_history`, `_refute`) | `atmosphere/nrlmsise00*.cpp/.hpp` with all coefficients | `nrlmsise00_ghp7.cpp` (see `Ghp7`); powers of nonpositive bases have an arbitrary positive value |
| `Sgode` (`Adams`, `_adams`, `_run`, `_refute`) | `integrators/sgode.hpp`, `sgode_de.cpp`, `sgode_step.cpp`, `sgode_intrp.cpp` | steps with `nornd == false` are `UB` (below); `params` is part of the right-hand side |
| `Kernels` | `planets/cspice_utils.cpp` | |
| `HttpGet` | `web/http_get.cpp` | |
| `SinexCrd` | `ids/get_pdop_crd.cpp` | SINEX reader; members xs, ys, zs of the results are never written by the code |
| `BeaconTbl` | `beacon_tbl.hpp`, `beacon_tbl/beacon_tbl.cpp` | |
| `Variational` | `variational_equations.cpp` (without `ABCD`) | Earth rotation, planets, attitude, leap seconds and the density function are arguments; a failed `assert` is the result `None` |
| `Relativity` | `relativity/relativistic_clock_correction.cpp` | the geodetic latitude (`dso::car2ell`) is an argument |
| `EopInterp` | `iers/eop_interpolate.cpp` | `lagint`, `rg_zont2`, `pmut1_oceans`, `pm_gravi` are arguments; doubles are rationals |
| `RfoFit` | `rinex/fit_rfo.cpp` | the blocks come from the iterator of `Rinex_model.v`; Eigen's `ldlt().solve` is an argument, asked only to solve positive definite equations; doubles are rationals; that `y` outlives the decomposition it refers to is not modelled |
| `PodArc` | `test/rinex_pod.cpp`: bookkeeping of observations, `RunningStatistics`, rejection of residuals, `get_rinex_indexes` | elevation and zenith wet delay are attributes of an observation; the look up of the beacon's coordinates is taken to succeed; the residual test is done on squares |
| `PodState`, `PodFilter` | `test/rinex_pod.cpp`: `SatelliteState`, time update of the filter | the integrator, the Earth rotation and the attitude are arguments; doubles are reals (the filter: rationals); the branch without attitude is not modelled |
| `PodObs` | `test/rinex_pod.cpp`: observation equation, partials, `get_tropo`, `get_tropo_vmf`, `relativity_corrections`, `prepare_beacon_coordinates`, `beacon_coordinates`, `beacon_arp2ion` | the topocentric matrix (external), the mapping functions and delays (external), the meteorological data and the beacon table are arguments; doubles are reals; infinite quotients are a separate outcome |
| `RfoKalman` | `src/doris/fit_rfo.cpp` 87-280 | a file is what the readers of `Rinex_model.v` deliver (a list of attempts); the printed table of values is not modelled |
| `Ghp7` | `src/atmosphere/nrlmsise00_ghp7.cpp` | `gtd7` is an argument; doubles are reals with infinities and NaN of the logarithm kept apart; zero divisors in the next altitude are not told apart |
| `Yaml` | `src/var_utils.hpp`, `src/var/yaml_utils.cpp` | yaml-cpp is an argument: indexing and conversion yield a value or throw |
| `RnxFile` | `src/rinex/read_rnx_header.cpp` (whole), the constructor in `src/rinex/doris_rinex.cpp` | `dso::strptime_ymd_hms` is an argument; numbers are rationals (no rounding, no `ERANGE` of `strtod`); the position `tellg` returns is the stream behind the header; DEBUG messages are left out |
| `FrameTime` | `gcrs2itrs` in `src/itrs2gcrs.cpp` 157-219 | rationals; the SOFA functions (`xys06a`, `s06`, `era00`, `pom00`, `sp00`, `c2ixys`), the leap second table, the tidal corrections and the Lagrange kernel are arguments; dates are nanoseconds of a day as in `dso::datetime` |
| `MsisSwitch` | `Switches` and the switch functions of `InParamsCore` in `atmosphere/nrlmsise00.hpp` | the arrays are functions of the index; the `double` of `InParamsCore::set_switch` is given as the `int` it is converted to |
| `AirParams` | `InParams<ST_CSV_SW>` in `atmosphere/nrlmsise00.hpp`, `nrlmsise00_params.cpp`, the call in `variational_equations.cpp` | the calendar and `car2ell` are arguments; the product with 1e3 before the cast to milliseconds is exact; indices read from the file are rationals turned into reals |
| `MsisLayers` | (no model of its own: further theorems about `Msis`) | none |
| `RnxWhole` | the loop over a whole file as in `src/rinex/fit_rfo.cpp` 37-45 and `test/rinex_pod.cpp` 619-722, `contains_beacon` in `src/doris_rinex.hpp` 364-372 | both kinds of date are read by one external function; what a program does with the blocks is left out |
| `GravRow` | the row-wise `lagrange_polynomials` in `src/gravity/lagrange_poly.cpp` | as `Gravity` |
| `IntParams` | `IntegrationParameters` in `src/orbit_integration.hpp` 18-64 and its use in `src/variational_equations.cpp` 51-53 | the heap holds the two tables; the members that point elsewhere are left out; the harmonics outlive the object |
| `DopFile` (`BlockRead`) | `src/doris/extract_doppler_count.cpp:65-160`, `test/test_ndop.cpp` on bytes | the reading of `Rinex`/`RnxFile` in front of the counting of `Doppler`; all is read first (the counting changes nothing that is read); values are rationals |
| `RfoFile` | `src/doris/fit_rfo.cpp:87-281` on bytes | the reading of `Rinex`/`RnxFile` in front of the filter of `Kalman2`; the static array is carried from file to file; uninitialised bytes, errno and the members of a fresh header are arbitrary but the same for all files; values of F rational, filter real; printing not modelled |
| `PolyFile` | `src/rinex/fit_rfo.cpp:11-200` on bytes | the reading of `Rinex`/`RnxFile` in front of the equations of `RfoFit`, up to the block where the loop breaks; the static array is carried from file to file; doubles are rationals, LDLT an argument |
| `FloatTime` | `src/doris_rinex.hpp:306-312, 391-404`, `src/rinex/doris_rinex.cpp:191`, `src/doris/extract_doppler_count.cpp:27-28`, `src/itrs2gcrs.cpp:163-169`, in binary64 | Flocq's binary64 stands for the processor's (round to nearest even, no extended precision, no fused operations); `strtod` rounds correctly and is modelled for numbers of at most 15 digits; the sign of zero is lost |
| `FloatAngle` | `state2kepler.cpp:190-195,264-354`, `pos2ra.cpp:7-20`, `occultation.cpp:17-99` in binary64 | `Vector3` (external) is taken to compute dot products from left to right, norms as their root, and to scale and divide by component; no fused operations; `<cmath>` is an argument with the domains of the C standard; constants computed by `gcem` are arguments |
| `FloatRange` | `antenna_pcv.hpp:48-61,101-114,153-166`, `jason3_quaternions.cpp:214-218` in binary64 | `dso::rad2deg` (external) in both orders; no fused operations; the hunt for the interval is in `Quat` |
| `FloatKalman` | `doris/fit_rfo.cpp` 8-46, 200-204; `filters/ekf.hpp` 41-75 for one parameter, both in binary64 | Flocq arithmetic for the processor's, no fused operations; the elapsed time is one rounded quotient (`fractional_days` is external) |
| `FloatFreq` | `doris_system_info.hpp` 24-56, `doris_observation_equations.hpp` 16-19 in binary64 | Flocq arithmetic for the processor's, no fused operations; `std::pow(2, 26)` exact |
| `FloatRel` | `relativistic_clock_correction.cpp` 16-69, `test/rinex_pod.cpp` 1110-1131 in binary64 | Flocq arithmetic for the processor's, no fused operations; Eigen's `norm` and `squaredNorm` from left to right; the sine of the latitude is an argument |
| `FloatObs` | `test/rinex_pod.cpp` 65-69, 883-936 (`NdopDt`, `Dion`, `Drel`, `Dtropo`, `Uobs`, `Utheo`, `oc`) in binary64 | Flocq arithmetic for the processor's, no fused operations; the elapsed time in seconds is an argument (`to_fractional_seconds` is external) |

Not modelled at all: the programs under `test/` but `rinex_pod.cpp`, `unit_test/`, `doc/`, the
older copies under `var/`, `planetpos.hpp` inline wrappers around CSPICE.

Runtime matters no model here exhibits: floating-point rounding, thread
interleavings, network behaviour beyond "these bytes arrived, this status",
performance.

## 4. Findings (each is a theorem unless marked *reading*)

Storage and coefficients
* Trapezoid access is checked against `column <= rows`, not `column <= row`:
  accesses alias the next row (C04).
* Coefficient sets leak and double free on shrink-then-free and move
  assignment over an owner (C07); a de-normalisation of truncated order clears
  the flag while higher orders stay normalised (C09).
* The factorial ratio is `D!/N!`-safe only for `D <= N` (C10).
* EOP table copies pass a record count to `memcpy` as a byte count (C13).

Readers
* C04 reader: files repeating a day overflow the table (C14). ICGEM: repeated
  lines, absent S(1,1), absent degree-1 terms with order 0, degree 0,
  unterminated last line (C15); blank after a text value enters the value (C16).
* RINEX: the missing-value marker is divided by the scale factor (C20);
  stripped lines pick up values of the previous beacon (C21); truncated
  files are delivered with code 0 (C23); scale-factor lines reset each other
  (C24). `strcmp` on unterminated 3-char ids (C32).
* Satellite corrections: the first character of a field is lost, entries of
  other days with fewer seconds are taken or skipped, the entry at the epoch is
  skipped, an empty line is read past (C33).
* Quaternions: three of five buffer entries uninitialised (C34), 0 returned
  with nothing read (C35).
* Space weather: short lines read past their end, an empty CP column shifts the
  flux columns (C36); a file ending inside the span returns 0 (C37); updates near the end (C39).
* Beacon table: stale errno, overlong and short lines (C55, C61); 30-character
  names are not terminated (C62). SINEX: missing velocities are undefined,
  duplicates (C56). Downloads destroy the existing file on failure (C57).
  Kernels: a name that is a prefix of a loaded name counts as loaded (C58).

Orbits and forces
* The Eigen overload exchanges node and perigee, the perifocal matrix has a wrong
  last row (C46); equatorial and circular orbits divide by zero (C65, C67).
* The two drag overloads disagree for a tilted pole (C48); third-body partials
  are not the derivative (C49); the Sun acceleration is 10⁻⁶ of its value (C69);
  `vallado_shadow` reports penumbra as light (C70).
* Gravity partials: elements above the diagonal are assigned to themselves,
  (2,0) and (2,1) miss the order-one terms, order zero reads column 3 of
  3-column tables (C72); the Legendre routine overruns one-row tables (C59).
* *Reading*: `ycel2ter`/`yter2cel` (itrs2gcrs.cpp:108-116, 144-152) and
  drag.cpp:33 keep Eigen expressions of temporaries in `auto`.

Atmosphere
* Scale height 29740 instead of 29.740 (C52); splint with two nodes below the
  first returns 1e-30 (C53).
* NRLMSISE-00: function statics are shared by all instances (C54), the caches
  accept latitudes closer than 10⁻⁶ (C54), `tn3[0]` is never assigned and
  d[0], d[5] keep the caller's value below 72.5 km for masses other than 48 (C75);
  gtd7d divides d[5] by 1000 again for mass ≠ 48 with `meters` (*reading*);
  `std::abs(sw[1]) < 0` is never true (*reading*).

Integrator
* `const auto tau = h*p() - Phi.col(14)` (sgode_step.cpp:218) keeps the
  temporary `Eigen::Ref` that `p()` returns; the expression is evaluated after
  its end of life. Eigen is not available here, so this is a reading of the
  library; the author's remark at line 343 about errors in optimised builds
  agrees with it. The model gives `UB` when `nornd` is false (C51).
* The continuation after an extrapolated arrival (negative flag) lacks the
  original's restart and fails with flag 3 (C50); two zero tolerances are
  accepted and divide by zero (C50); flags above 5 are kept (C50).
* The failure policy is inverted with respect to its comment; `ifail` is
  uninitialised after the first step; at time zero a step ends only by
  underflow (C78).
* When the order is lowered and raised again at one step size the coefficient
  table is wrong (also in the original STEP; SLATEC's STEPS corrects it); an
  order-one failure that returns to the last step size leaves psi(0) stale
  (C76, C77).
* *Reading*: `*params` is dereferenced when `params` is null (test_ode_example);
  `told`, `delsgn` are read uninitialised at the first call (their value does
  not matter then: `de_outcomes` holds for every value).
* *VariationalEquations* (`variational_equations.cpp`): the gravity gradient is
  turned into the inertial frame with the matrix and its transpose exchanged
  (`transition_rotation_refuted`); both samples of the z difference of the
  density are taken at +1 m, so the z gradient is always zero
  (`transition_density_refuted`); the Sun has no partials
  (`transition_sun_refuted`); `else if (utc_fday < 1e0)` should be `< 0e0`, so
  nearly every epoch is handed over as the previous day with more than 86400
  seconds (`density_epoch_refuted`); the density is taken at the inertial
  coordinates (`density_place_refuted`).
* *Relativity*: the J2 term takes the geodetic instead of the geocentric
  latitude (`clock_correction_oblate_refuted`).
* *EopLookUpTable::interpolate* ignores the status of `interpolate_lagrange`
  and always returns 0 (`eop_failure_refuted`); `eopr.omega += domega` reads a
  member that nobody wrote (`eop_omega_unwritten`), `regularize` does the same
  with the omega cells after `parse_iers_C04` (`eop_regularize_refuted`).
* *fit_relative_frequency_offset*: epochs left after the last complete group
  are summed up to `fs.end()+j`, past the buffer, and divided by `j`, one less
  than their number (`offset_remainder_undefined`,
  `offset_single_remainder_undefined`); their date is in days where the others
  are in seconds; a file with no epoch in the range adds a point
  (`offset_no_data_adds`); with `every == 1` the date of the first epoch of the
  group is never set (`offset_every_epoch_refuted`).  By reading: `const auto y
  = (...).ldlt().solve(...)` keeps references to temporaries that are gone when
  `y(i)` is evaluated.
* *rinex_pod*: a beacon listed twice in a data block gives a Doppler count over
  zero seconds (`doppler_interval_refuted`); the residual test compares with
  the spread around the mean but not with the mean, so residuals like the ones
  taken are refused (`residual_mean_refuted`), and six equal residuals stop
  the filter for good (`residual_shut`).
* *rinex_pod, SatelliteState::integrate*: `Phi` and `S` are copied from the
  start values `yPhi` instead of the solution `sol`, and the start values are
  five columns of the identity only; the transition matrix is therefore the
  same for every motion (`transition_fixed`, `transition_matrix_refuted`) and
  the filter never corrects the velocity along z (`velocity_never_corrected`).
  The counter of calls is static: a second object is treated as if it started
  with the antenna (`second_satellite_refuted`).
* *rinex_pod, measurement*: the partials of the position belong to a previous
  position moving along, which the prediction does not do
  (`position_partials_refuted`); the partial of the drag coefficient is -1
  though the prediction does not depend on it (`drag_partial_refuted`); in the
  build `RANDOM_RFO` the sign of the offset's partial is wrong
  (`random_offset_sign_refuted`); the standard deviation `obs_sigma / cos(el)`
  grows towards the zenith (`sigma_elevation_refuted`); the residual is the
  sum of `Uobs` and `Utheo`, which are equal, not opposite, for the count the
  equations are made for (`residual_sum_refuted`); the ionospheric correction
  is counted twice instead of removed (`ionosphere_sign_refuted`).
* *rinex_pod, helpers*: `get_tropo_vmf` passes `deg2rad(zd)` of an angle in
  radians (`site_delay_refuted`); `relativity_corrections` neglects the
  rotation of the Earth (`relativity_rotation_refuted`);
  `prepare_beacon_coordinates` fails half way with beacons already raised
  (`beacons_failure_refuted`).
* *doris/fit_rfo.cpp*: `get_starting_rfo` is `noexcept` but constructs a
  `DorisObsRinex`, which throws: an unreadable first file ends the program
  (`first_file_refuted`); `obsvec[0]` is read of blocks without beacons, and
  `rinex_fns[0]` without looking at the number of files
  (`empty_block_refuted`); the first value is used as prior and as observation
  (`first_value_twice_refuted`).
- `Nrlmsise00::ghp7` updates its local `z` but never hands it to `gtd7`: all
  twelve rounds evaluate the same altitude, and the pressure is only found if
  the altitude of the call already has it (`pressure_altitude_refuted`); for a
  negative pressure `z` is read without having been assigned
  (`negative_pressure_refuted`).
- `get_yaml_value_depth3` makes its first lookup outside of a `try` block: a
  document that is not a map makes it throw instead of returning a code
  (`configured_value_deep_refuted`); the lookup of a text uses `strcpy` into an
  array of unknown size (`configured_text_refuted`).
- `count_length_reverse` reads `str[-1]` when the columns are blank: a header
  with an empty satellite name is undefined (`rinex_header_blank_name_refuted`).
- `read_header` never clears its line buffer: a line shorter than 60 characters
  is interpreted under the label of an earlier one
  (`rinex_header_stale_label_refuted`); observation types repeated behind the
  factors change which code a factor belongs to
  (`rinex_header_factor_order_refuted`).
- A header without satellite, dates, observation types or frequency offset is
  accepted (`rinex_header_mandatory_refuted`), one without scale factors, which
  the format allows, is refused (`rinex_header_no_factor_refuted`); `errno` left
  by an earlier call refuses a good one (`rinex_header_errno_refuted`).
- `gcrs2itrs` hands an uninitialised `EopRecord` to `EopLookUpTable::interpolate`,
  which adds to its member `omega`: undefined behaviour on every call
  (`frame_unwritten_rate`). It never reports a failure, so the callers'
  `assert(!gcrs2itrs(...))` cannot fire; outside the table the frame is built
  from the contents of the stack (`frame_never_reports`, `frame_outside_refuted`).
- `gtd7` means to use the gravity of 45 degrees when switch 1 is off, but tests
  `std::abs(sw[1]) < 0`, which never holds: gravity always varies with latitude
  (`gravity_switch_refuted`).
- Nothing in the library sets the local solar time `lst` of the atmosphere model's
  input (`InParamsCore` leaves it uninitialised and only the test programs assign
  it), yet `globe7` uses it: the atmosphere at one date and place depends on what
  the memory held before (`air_local_time_unset`, `air_local_time_refuted`).
* `gtd7` clears `d[1]` where it means `d[0]`: below 72.5 km a call for a species
  other than helium leaves the old helium density in the output
  (`layer_left_over`, `layer_output_refuted`).
* The row-wise `lagrange_polynomials` multiplies only the first product of the
  sectorial recursion by 2m-1, so it is wrong from order two on
  (`row_polynomials_agree_refuted`).
* `IntegrationParameters` has the implicit copy constructor over owning pointers:
  a copy leads to a double delete (`params_copy_refuted`).  Its `assert`s and the
  ones around the polynomials have side effects, so that a build with `NDEBUG`
  reads uninitialised tables and GM (`params_ndebug_refuted`).
* `get_doppler_counts` takes the first two observables of the header for L1 and L2 whatever they are, and differences missing values with the marker (`doppler_file_phases_refuted`, `doppler_file_missing_refuted`); it compares and prints identifiers that are not terminated (`doppler_file_terminator_refuted`).
* `fit_relative_frequency_offset` fits its line through the marker of missing values when F is blank (`frequency_files_missing_refuted`), and a line of data that is cut short is completed with the numbers of the last line of the file before (`frequency_files_left_over_refuted`).
* The polynomial fit of the frequency offsets (`src/rinex/fit_rfo.cpp`) ends the program when any file cannot be read, indexes with -1 when a file has no F, averages the marker of missing values, and returns 0 without a finite polynomial when one block is left over (`offset_files_unreadable_refuted`, `offset_files_no_f_refuted`, `offset_files_missing_refuted`, `offset_files_remainder_refuted`).
* (C107) The clock offset of an epoch is multiplied by 1e9 and truncated, not rounded: 0.000000015 s becomes 14 ns, and about three in a hundred of the offsets that occur lose a nanosecond (`doris_rinex.hpp:400`); the same for the L2/L1 offset, where 1.001 µs becomes 1000 ns. A date passed on as a modified Julian day in one double is off by up to 0.3 µs.
* In double arithmetic the cosine given to `std::acos` can be 1 + 2^-52: `state2kepler` then has no true anomaly (a NaN) for a satellite at apogee of an ordinary ellipse (`state2kepler_anomaly_double_refuted`), `vallado_shadow` calls a satellite exactly opposite the Sun fully lit, `conical_shadow` gives NaN, and `bernese_shadow1` takes the root of a negative difference and says fully lit (`*_shadow_axis_refuted`). The montenbruck eccentricity of a circular orbit can be the root of -2^-52 (`circular_eccentricity_double_refuted`).
* `fit_relative_frequency_offset` prints NaN for the deviation of the drift when its variance is rounded below zero (sigmas 0.1, 100 and 1e-8, second epoch 4900 s after the first); with all sigmas zero both estimates are NaN (C110).

## 5. Properties, theorems, assumptions

Assumption classes: *closed* = closed under the global context; *R* = the three
axioms of the construction of the reals named in section 2; *R+classic* = these
and `Classical_Prop.classic`; *classic* alone where listed; *fe* =
`functional_extensionality_dep` alone; otherwise the axioms by name.

**C01** Trapezoid matrix indexing is a bijection — *proved*. all shapes
  - `trapezoid_indexing_is_bijective` (closed)
  - `stored_elements_never_alias` (closed)

**C02** Row-wise and column-wise matrix indexing are bijections — *proved*. all shapes
  - `rowwise_indexing_is_bijective` (closed)
  - `columnwise_indexing_is_bijective` (closed)
  - `stored_elements_never_alias` (closed)

**C03** A 2-D matrix behaves as independent cells — *proved*. construction, element writes, slice writes, fill; copy construction/assignment do not compile when instantiated and are not modelled
  - `matrix_behaves_as_independent_cells` (closed)

**C04** Every debug-legal trapezoid access addresses its own storage — *partial*. the property is false of the code (element_offset tests column<=rows instead of column<=row); witness given, extent of the failure characterised for cols<=rows+1
  - `trapezoid_admitted_accesses_refuted` (closed)
  - `trapezoid_upper_access_aliases_partial` (closed)

**C05** Harmonic coefficient cells are disjoint and in bounds — *proved*. all degrees
  - `harmonic_cells_disjoint_in_bounds_and_covering` (closed)
  - `harmonic_allocation_is_square` (closed)

**C06** Harmonic coefficients behave as two independent triangular tables — *proved*. all histories of C/S writes
  - `harmonic_coefficients_are_independent` (closed)
  - `J2_is_minus_C20_coefficient` (sig_forall_dec)

**C07** Resizing a coefficient set keeps the object usable — *partial*. memory safety of all histories; no leak only for histories that never shrink-then-free or move-assign over an owner; the full ownership claim is refuted
  - `coefficient_histories_memory_safe_partial` (closed)
  - `degree_is_last_requested` (closed)
  - `careful_histories_do_not_leak_partial` (closed)
  - `coefficient_ownership_refuted` (closed)

**C08** De-normalisation scales each coefficient by the documented factor exactly once — *proved*. exact reals
  - `denormalize_scales_each_coefficient_once` (R)
  - `denormalize_unnormalized_is_noop` (R)
  - `denormalize_twice_is_noop` (R)
  - `denormalize_rejects_large_order` (R)

**C09** The normalised flag tells the truth — *partial*. truncated order leaves normalised coefficients behind a cleared flag: refuted; full order proved
  - `normalized_flag_full_order_partial` (R)
  - `normalized_flag_refuted` (R)

**C10** Factorials and factorial ratios are exact — *partial*. table proved; the ratio is the documented N!/D! only for D<=N
  - `factorial_table_is_exact` (closed)
  - `factorial_ratio_exact_partial` (closed)
  - `factorial_ratio_reciprocal` (closed)
  - `factorial_ratio_refuted` (closed)

**C11** Enum bit sets behave as finite sets — *proved*. enumerators are distinct single bits
  - `flag_sets_behave_as_finite_sets` (closed)
  - `flag_set_from_list` (closed)
  - `flag_set_equality_is_extensional` (closed)

**C12** EOP table columns are independent and in bounds — *proved*. Any history of writes (rows below capacity) and resizes, eight columns; no undefined access.
  - `eop_table_behaves_as_independent_columns` (closed)
  - `eop_columns_are_disjoint_and_in_bounds` (closed)

**C13** Copying or moving an EOP table preserves its contents — *partial*. Moves preserve everything. Copies pass the record count as a byte count to memcpy, so only the first size/8 rows arrive; the full claim is refuted.
  - `eop_move_preserves_contents_partial` (closed)
  - `eop_copy_keeps_an_eighth_partial` (closed)
  - `eop_copy_assignment_partial` (closed)
  - `eop_copy_refuted` (closed)
  - `eop_copy_after_move_refuted` (closed)

**C14** EOP file reader stores exactly the requested days — *partial*. Proved for chronological files (and any order with at most one record per requested day); refuted for files that repeat a day.
  - `c04_reader_stores_requested_days_partial` (closed)
  - `c04_reader_stores_records_in_file_order_partial` (closed)
  - `c04_reader_ends` (closed)
  - `c04_repeated_day_overflow_refuted` (closed)
  - `c04_missing_day_accepted_refuted` (closed)

**C15** Gravity model data reader fills exactly the requested coefficients — *partial*. Proved for files without repeated coefficient lines and degree >= 1. Refuted: repeated lines, absent S(1,1), absent degree-1 terms with order 0, degree 0, unterminated last line.
  - `icgem_data_complete_partial` (closed)
  - `icgem_data_success_partial` (closed)
  - `icgem_malformed_field_fails` (closed)
  - `icgem_bad_request_fails` (closed)
  - `icgem_data_reader_ends` (closed)
  - `gravity_model_file_partial` (closed)
  - `gravity_model_codes_partial` (closed)
  - `gravity_model_malformed_fails` (closed)
  - `icgem_repeated_line_refuted` (closed)
  - `icgem_absent_s11_refuted` (closed)
  - `icgem_absent_zonal_refuted` (closed)
  - `icgem_degree_zero_refuted` (closed)
  - `icgem_last_line_refuted` (closed)

**C16** Gravity model header reader resolves keyword/value pairs independently of blank padding — *partial*. Proved for values followed directly by the line end. Refuted: a blank behind a text value is copied into it and changes the normalisation flag.
  - `icgem_header_partial` (closed)
  - `icgem_header_bad_number_fails` (closed)
  - `icgem_header_needs_end_mark` (closed)
  - `gravity_model_file_partial` (closed)
  - `gravity_model_codes_partial` (closed)
  - `icgem_trailing_blank_refuted` (closed)

**C17** RINEX beacon records use ceil(observables/5) lines — *proved*. Least number of five-field lines, for every observable count.
  - `lines_per_beacon_least` (closed)

**C18** Skipping and reading a RINEX data block advance the file equally — *proved*. Whenever read_data_block returns 0, skip_data_block leaves the identical stream.
  - `skip_equals_read` (closed)

**C19** RINEX data block round trip — *proved*. Any number of beacons and observables, any previous buffer content, any file remainder; doubles are exact rationals.
  - `data_block_roundtrip` (closed)

**C20** A missing observation is reported as missing — *partial*. Holds where the scale factor is 1; for other factors the marker itself is divided (refuted).
  - `missing_marker_partial` (closed)
  - `missing_marker_refuted` (closed)

**C21** RINEX values never come from an earlier line — *partial*. Holds when every line is as long as its own fields; stripped lines pick up values of the previous beacon (refuted).
  - `own_lines_only_partial` (closed)
  - `own_lines_only_refuted` (closed)

**C22** RINEX epoch line round trip — *proved*. strptime_ymd_hms (ggdatetime) is a parameter.
  - `epoch_line_roundtrip` (closed)
  - `epoch_line_accepted_is_readable` (closed)

**C23** The RINEX block iterator delivers every block once, in order — *partial*. Delivery of well-formed files and return codes proved; a file truncated inside a beacon is delivered with code 0 (refuted).
  - `block_iterator_partial` (closed)
  - `block_iterator_codes` (closed)
  - `block_iterator_refuted` (closed)

**C24** Scale factors given on several header lines accumulate — *partial*. The last line wins and resets earlier factors (refuted); the blank-count form is rejected (refuted).
  - `scale_factors_partial` (closed)
  - `scale_factors_refuted` (closed)
  - `scale_all_observables_refuted` (closed)

**C25** Observation codes round trip and reject invalid frequencies — *proved*. all types, characters, frequencies
  - `observation_letters_round_trip` (closed)
  - `observation_code_construction` (closed)
  - `observation_code_strings_are_unique` (closed)

**C26** Beacon and observation lookups return the first match or report absence — *proved*. First match or absence, for all tables and keys.
  - `observation_lookup` (closed)
  - `beacon_id_lookup` (closed)
  - `beacon_code_lookup` (closed)
  - `beacon_station_lookup` (closed)
  - `beacon_shift_lookup` (closed)

**C27** Filter parameter layout is a bijection — *proved*. all Np, n, both models
  - `filter_layout_is_bijective` (closed)
  - `linear_offset_estimate_reads_offset_and_drift` (closed)

**C28** Setting the a-priori tropospheric value for all beacons touches exactly the tropospheric parameters — *partial*. all-beacons setter of the Linear model uses stride 2 instead of 3: refuted; everything else proved
  - `set_tropo_one_beacon` (closed)
  - `set_tropo_all_beacons_partial` (closed)
  - `set_tropo_single_station_linear_partial` (closed)
  - `set_tropo_all_beacons_linear_refuted` (closed)
  - `set_tropo_all_beacons_linear_overwrites` (closed)
  - `set_rfoff_all_beacons_linear` (closed)
  - `set_rfoff_one_beacon_linear` (closed)
  - `set_rfoff_all_beacons_none` (closed)
  - `set_rfoff_one_beacon_none` (closed)
  - `set_drag_touches_only_drag` (closed)

**C29** The EKF keeps a valid covariance — *proved*. For every number of parameters, over the rationals (exact arithmetic).
  - `ekf_covariance_invariant` (closed)
  - `ekf_observation_update` (closed)
  - `ekf_observation_information` (closed)
  - `ekf_sequential_is_batch` (closed)
  - `ekf_time_update` (closed)
  - `ekf_updates_accumulate` (closed)

**C30** The frequency-offset fit is the least-squares line — *proved*. LinearKalman over R; the surrounding file-reading loop is not modelled.
  - `rfo_filter_is_least_squares` (functional_extensionality_dep+sig_forall_dec)
  - `rfo_covariance_is_inverse_normal` (functional_extensionality_dep+sig_forall_dec)
  - `rfo_prediction` (functional_extensionality_dep+sig_forall_dec)

**C31** Polynomial model evaluation — *partial*. Value and independence proved for histories without moves; moves double free and order-0 objects leak (refuted).
  - `polynomial_histories_partial` (functional_extensionality_dep+sig_forall_dec)
  - `polynomial_ownership_refuted` (closed)
  - `linear_model_value` (functional_extensionality_dep+sig_forall_dec)

**C32** Doppler counting keeps exactly the latest record per beacon — *partial*. Holds when the byte after the id arrays is NUL; strcmp on the unterminated array is UB (refuted).
  - `doppler_latest_record_partial` (closed)
  - `doppler_latest_unique` (closed)
  - `doppler_latest_record_refuted` (closed)

**C33** Satellite mass/centre-of-gravity corrections use the last entry before the epoch — *partial*. Proved for files whose fields carry one padding character and in which later days do not have fewer seconds. Refuted otherwise, with witnesses.
  - `latest_correction_partial` (closed)
  - `correction_scan_partial` (closed)
  - `mass_cog_adds_corrections` (closed)
  - `correction_unreadable_fails` (closed)
  - `correction_file_missing_fails` (closed)
  - `mass_cog_fails_with_corrections` (closed)
  - `correction_scan_ends` (closed)
  - `correction_first_character_lost_refuted` (closed)
  - `correction_of_next_day_refuted` (closed)
  - `correction_at_epoch_refuted` (closed)
  - `correction_empty_line_refuted` (closed)

**C34** Quaternion lookup brackets the requested epoch — *partial*. Holds once the five-entry buffer has been filled with readable records, for every later lookup. The full statement is false: the constructor initialises two of five entries, and a record that fails to parse leaves its epoch with the previous quaternion.
  - `attitude_lookup_partial` (closed)
  - `attitude_lookup_succeeds` (closed)
  - `attitude_history_partial` (closed)
  - `attitude_lookup_ends` (closed)
  - `attitude_uninitialised_refuted` (closed)
  - `attitude_mixed_record_refuted` (closed)

**C35** Quaternion reader reports failures — *partial*. Holds for files with at least one record; false when the first record cannot be read, where 0 is returned with nothing read.
  - `quaternion_count_partial` (closed)
  - `quaternion_zero_partial` (closed)
  - `quaternion_none_read_refuted` (closed)

**C36** Space-weather CSV lines are decoded column by column — *partial*. Accepted lines deliver the columns' values, full lines are accepted. False of the code: a line without the columns is read past its end, an empty CP column shifts the flux columns.
  - `csv_line_sound` (closed)
  - `csv_line_complete_partial` (closed)
  - `csv_short_line_refuted` (closed)
  - `csv_empty_cp_refuted` (closed)

**C37** Space-weather retrieval is all-or-nothing — *partial*. Days delivered are those of consecutive lines of the file, all of them unless the file ends inside the span; when it does, 0 is returned with days missing (refuted).
  - `retrieval_days_partial` (closed)
  - `retrieval_ends` (closed)
  - `retrieval_table` (closed)
  - `retrieval_end_of_file_refuted` (closed)

**C38** Geomagnetic history fed to the atmosphere model — *proved*. Every second of the day, every window of four days.
  - `ap_history` (closed)

**C39** Flux feed stays synchronised with the file over any update history — *partial*. Proved for histories of updates on a table of consecutive days that avoid the three days after its end; failed jumps on other files and jumps just past the end break the claim (refuted).
  - `feed_constructed` (closed)
  - `feed_update_partial` (closed)
  - `feed_update_defined` (closed)
  - `feed_history_partial` (closed)
  - `feed_last_day_refuted` (closed)
  - `feed_failed_jump_refuted` (closed)
  - `feed_jump_past_end_refuted` (closed)

**C40** Antenna phase-centre interpolation — *partial*. Proved on [0,90). At exactly 90 degrees the table is read out of bounds.
  - `pcv_interpolates_partial` (closed)
  - `interpolation_between_neighbours` (closed)
  - `interpolation_at_nodes` (closed)
  - `interpolation_unique` (closed)
  - `pcv_reads_past_table_refuted` (closed)

**C41** Out-of-range zenith angles are flagged — *partial*. Proved for Starec antennas and for frequency 2. Refuted for Alcatel on frequency 1.
  - `pcv_flags_out_of_range_partial` (closed)
  - `alcatel_out_of_range_refuted` (closed)
  - `alcatel_flag_always_zero_refuted` (closed)

**C42** Beacon nominal frequencies — *proved*. exact rationals
  - `nominal_frequencies_ratio_base_and_growth` (closed)
  - `nominal_frequencies_value` (closed)

**C43** Ionosphere-free phase correction removes first-order delay — *proved*. exact rationals
  - `iono_correction_removes_dispersive_delay` (closed)
  - `iono_free_phase_centre_weights` (closed)

**C44** Kepler solver contract — *proved*. Real arithmetic; accuracy of a successful result bounded.
  - `kepler_contract` (R)
  - `kepler_accuracy` (R+classic)
  - `kepler_solution_unique` (R+classic)
  - `kepler_vallado_contract` (R+classic)

**C45** State vectors computed from Keplerian elements lie on the stated conic — *proved*. Real arithmetic.
  - `state_on_conic` (R+classic)
  - `conic_directions` (R)

**C46** All element-to-state functions agree — *partial*. elements2state and propagate_state agree; the Eigen overload exchanges node and perigee and the perifocal matrix has a wrong last row (both refuted).
  - `propagation_agrees_partial` (R)
  - `eigen_overload_partial` (R)
  - `equatorial_agrees_partial` (R)
  - `eigen_overload_refuted` (R)
  - `perifocal2equatorial_refuted` (R)
  - `equatorial2perifocal_refuted` (R)

**C47** Celestial/terrestrial transformations are inverse — *proved*. Over the reals, for orthogonal rc2i and rpom (computed by the external SOFA routines). gcrs2itrs itself, which calls them, is not modelled.
  - `positions_round_trip` (R)
  - `states_round_trip` (R)
  - `terrestrial_velocity` (R)
  - `earth_fixed_point` (R)
  - `rotation_rate` (functional_extensionality_dep+sig_forall_dec)

**C48** Drag acceleration opposes the relative velocity and overloads agree — *partial*. Drag acceleration and its partials with respect to position (through the density), velocity and coefficient are proved as derivatives along every curve; the two overloads are shown to disagree once the true pole is tilted, so the clause that they compute the same acceleration is refuted.
  - `drag_acceleration` (R)
  - `drag_of_date` (R)
  - `drag_overloads_refuted` (R)
  - `drag_partials_exact` (R)
  - `drag_coefficient_times_partial_derivative` (R)

**C49** Third-body acceleration and its partials — *partial*. The acceleration is proved for every geometry. The matrix of partials is proved to be what the code computes and is shown not to be the derivative (refuted) in general.
  - `third_body_acceleration` (R)
  - `third_body_partials_partial` (R)
  - `third_body_partials_refuted` (R)

**C50** Integrator call contract — *partial*. For every right-hand side and every routine in the place of step (that returns) a call of de ends within 500 steps; every outcome is characterised (steps taken, flag, time, values, tolerances, 5 exactly after fifty consecutive steps of order at most four). The codes are the documented ones for flags up to 5; flags beyond 5 are kept when the time equals the last one, two zero tolerances are not refused, and the call after an extrapolated arrival always fails.
  - `de_terminates` (functional_extensionality_dep+sig_forall_dec)
  - `de_outcomes` (functional_extensionality_dep+sig_forall_dec)
  - `de_codes_partial` (functional_extensionality_dep+sig_forall_dec)
  - `de_flag_refuted` (functional_extensionality_dep+sig_forall_dec)
  - `de_zero_tolerance_refuted` (functional_extensionality_dep+sig_forall_dec)
  - `de_continue_refuted` (R+classic)

**C51** Integrator order stays within table bounds — *partial*. For every sequence of calls of step (any right-hand side, any changes of step size and weights in between) and of de: order 1..12, all array accesses inside the documented sizes, no undefined behaviour, except first steps whose tolerance is within a factor 100 of the rounding error, where the code evaluates an Eigen expression of dead temporaries (refuted for a position of 7000 km and a tolerance of 1e-7 m).
  - `step_in_bounds_partial` (R+classic)
  - `de_sessions_defined_partial` (R+classic)
  - `step_rounding_undefined` (R+classic)
  - `de_defined_refuted` (R+classic)

**C52** Exponential atmosphere layer selection — *partial*. The layer 180-200 km has scale height 29740 instead of 29.740 km (refuted there); all other layers agree with the published table.
  - `one_layer` (functional_extensionality_dep+sig_forall_dec)
  - `density_published_partial` (R)
  - `published_density_unique` (R)
  - `density_published_refuted` (R+classic)
  - `density_defined` (R)
  - `density_positive` (R)
  - `density_below_ground` (R)
  - `density_falls` (R+classic)

**C53** Spline interpolation passes through its nodes — *proved*. Over real numbers, strictly increasing nodes, n >= 3 (or two nodes and x not below the first; with two nodes and x below the first the function returns 1e-30, refuted).
  - `splint_interval` (functional_extensionality_dep+sig_forall_dec)
  - `splint_interval_unique` (functional_extensionality_dep+sig_forall_dec)
  - `splint_at_nodes` (functional_extensionality_dep+sig_forall_dec)
  - `splini_is_integral` (R+classic)
  - `spline_total` (functional_extensionality_dep+sig_forall_dec)
  - `spline_is_smooth` (R+classic)
  - `splint_two_nodes_refuted` (functional_extensionality_dep+sig_forall_dec)

**C54** Atmosphere model results do not depend on call history — *partial*. One instance, inputs whose latitudes and local times are equal or further apart than the cache tolerance: proved for all histories. False for two instances (shared function statics) and for closer latitudes: refuted with the coefficients of the code.
  - `gtd7_history_free_partial` (R+classic)
  - `gtd7_two_instances_refuted` (R+classic)
  - `gtd7_close_latitudes_refuted` (R+classic)

**C55** Beacon table loading filters by time span — *partial*. Complete rows read with a clear error number: exactly the rows whose span holds the epoch; the independence from errno is false (refuted), as are overlong and short rows.
  - `table_rows_partial` (closed)
  - `table_errors` (closed)
  - `table_total_calls` (closed)
  - `table_stale_errno` (closed)
  - `table_errno_refuted` (closed)
  - `table_overlong_refuted` (closed)
  - `table_short_refuted` (closed)

**C56** Station coordinate extrapolation — *partial*. Every returned coordinate is the extrapolation of estimates of the right solution, and complete when every site has all its estimates once; missing velocities are UB, duplicates and tolerated misses are refuted. The SINEX parser itself is external.
  - `coordinates_sound` (closed)
  - `coordinates_complete_partial` (closed)
  - `coordinates_errors` (closed)
  - `coordinates_tolerant_refuted` (closed)
  - `coordinates_no_velocity_refuted` (closed)
  - `coordinates_duplicate_refuted` (closed)
  - `beacon_codes` (closed)

**C57** Downloads never destroy an existing file on failure — *partial*. Skipping, return codes and the effect on the disk are proved for every transfer; that failures leave an existing file alone is false (refuted). libcurl and the file system are oracles.
  - `download_skipped` (closed)
  - `download_codes` (closed)
  - `download_failure_partial` (closed)
  - `download_failure_refuted` (closed)
  - `failed_transfer_destroys` (closed)
  - `download_directory_refuted` (closed)
  - `download_content_refuted` (closed)

**C58** Kernel loading is idempotent and complete — *partial*. Loading a kernel of a known kind puts it into the pool once and keeps the others; a name that is a prefix, a text PCK and an overlong name are the refuted cases. The CSPICE pool is modelled as an append-only list of names.
  - `kernel_loaded_partial` (closed)
  - `kernels_kept` (closed)
  - `kernel_prefix_refuted` (closed)
  - `kernel_text_pck_refuted` (closed)
  - `kernel_long_name_refuted` (closed)

**C59** Associated Legendre recursion — *proved*. For every point but the centre and tables with at least two rows: the degree-one row is always written, so one-row tables for degree zero are overrun (refuted).
  - `lagrange_polynomials_right` (R+classic)
  - `lagrange_order_refused` (R)
  - `longitude_of_every_point` (R+classic)
  - `lagrange_degree_zero_refuted` (R)

**C60** Analytical Sun and Moon positions have the stated distance — *proved*. The low-precision Sun and Moon positions equal the published series, for every date.
  - `ecliptic_distance` (R)
  - `sun_montenbruck_position` (R)
  - `sun_vallado_position` (R)
  - `sun_curtis_position` (R)
  - `moon_montenbruck_position` (R)
  - `moon_vallado_position` (R)

**C61** Station reference records round trip — *partial*. round trip proved for a clear errno; a stale errno makes valid lines fail: refuted
  - `station_record_round_trip_partial` (closed)
  - `station_record_error_number_refuted` (closed)
  - `station_short_line_rejected` (closed)
  - `antenna_type_is_last_id_letter` (closed)

**C62** Beacon description fits its documented buffer — *partial*. 30-character names are not NUL terminated: refuted; shorter names proved
  - `station_description_fits_partial` (closed)
  - `station_description_refuted` (closed)

**C63** Emission epochs: the two corrected-epoch functions agree — *proved*. Over exact rationals.
  - `l1_epoch_correction` (closed)
  - `l12_epoch_agrees` (closed)

**C64** Observation-type header line round trip — *proved*. Up to the asserted limit of 12 codes.
  - `observation_types_roundtrip` (closed)

**C65** State vectors and Keplerian elements are inverse — *partial*. Proved for bound states off the equator and for elements in range; equatorial orbits and the Montenbruck variant are refuted.
  - `elements_of_state_partial` (R+classic)
  - `elements_round_trip` (R+classic)
  - `equatorial_orbit_refuted` (R+classic)
  - `vallado_elements` (R+classic)
  - `curtis_elements` (R+classic)
  - `montenbruck_elements_partial` (R+classic)
  - `montenbruck_elements_refuted` (R+classic)

**C66** Right ascension and declination give back the position — *proved*. 
  - `ascension_declination` (R+classic)

**C67** Partials of the Keplerian state — *partial*. Partials proved to be the derivative along every differentiable change of the elements, for all elliptic orbits with inclination strictly between 0 and 180 degrees; for equatorial orbits the code divides by zero (refuted). The transition matrix is proved the derivative of the propagated state for orbits that are not circular, equatorial or exactly polar; those three divide by zero in the code's Poisson brackets.
  - `partials_exact` (R+classic)
  - `partials_returned` (R+classic)
  - `partials_equator_refuted` (R)
  - `elements_by_state` (R)
  - `transition_matrix_partial` (R+classic)
  - `transition_returned` (R+classic)

**C68** Solar radiation pressure and its partials — *proved*. Radiation pressure acceleration and both its partials, as derivatives along every curve of positions.
  - `radiation_acceleration` (R)
  - `radiation_partials` (R)

**C69** Sun and Moon accelerations are in the documented units — *partial*. Unit handling proved for the Moon; the Sun acceleration is a million times too small (sunmoon.cpp:32), refuted.
  - `sun_moon_partial` (R)
  - `sun_acceleration_scale` (R)
  - `sun_acceleration_refuted` (R)

**C70** Shadow functions tell when the Sun is hidden — *partial*. Cylindrical, flattened and conical shadow functions against geometric definitions; vallado_shadow reports penumbra as full light (refuted).
  - `cylinder_shadow` (R)
  - `flattened_shadow` (R)
  - `conical_fraction` (R+classic)
  - `lens_is_common_area` (R+classic)
  - `conical_fraction_refuted` (R+classic)
  - `cone_shadow_partial` (R+classic)
  - `cone_shadow_refuted` (R+classic)

**C71** Gravity acceleration is the gradient of the field — *proved*. Doubles as reals; Re not zero.
  - `acceleration_is_gradient` (R+classic)
  - `acceleration_at_is_gradient` (R+classic)
  - `acceleration_small_tables` (R)

**C72** Gravity partials are the derivative of the acceleration — *partial*. Four elements are right for order >= 1. The elements above the diagonal are assigned to themselves (caller's values kept), the elements (2,0), (2,1) lack the order-one terms, and order zero reads outside the tables.
  - `gravity_partials_partial` (R+classic)
  - `gravity_jacobian_unique` (functional_extensionality_dep+sig_forall_dec)
  - `gravity_partials_last_row_partial` (R+classic)
  - `gravity_partials_last_row_refuted` (R+classic)
  - `gravity_partials_upper_refuted` (R+classic)
  - `gravity_partials_zonal_undefined` (R+classic)

**C73** Atmosphere densities are consistent with each other and in the units asked for — *proved*. Over real numbers. Units below 72.5 km for mass 48 with the turbopause switch on.
  - `gtd7_mass_density` (R+classic)
  - `gtd7d_mass_density` (R+classic)
  - `gtd7_units_si` (R+classic)
  - `gtd7_densities_positive` (R+classic)

**C74** The atmosphere expansion is in associated Legendre functions of the latitude — *proved*. Rodrigues definition of the Legendre functions; calls on latitudes not closer than the cache tolerance.
  - `gtd7_legendre` (R+classic)

**C75** Atmosphere outputs are computed from the input — *partial*. Holds at and above 72.5 km and, for mass 48, above 32.5 km. False: tn3[0] is never assigned, and d[0], d[5] keep the caller's value below 72.5 km for other masses (d[1] is cleared twice, d[0] never).
  - `gtd7_history_free_partial` (R+classic)
  - `gtd7_unset_node` (R+classic)
  - `gtd7_unset_node_refuted` (R+classic)
  - `gtd7_caller_value_refuted` (R+classic)
  - `layer_left_over` (R+classic)
  - `layer_output_refuted` (R+classic)

**C76** The integrator takes steps of the variable-step Adams method — *partial*. Proved for every pass reachable by accepted and rejected passes with any step sizes, except where the order is raised at a step size at which it was lowered before (there the code uses a wrong coefficient: 499/1440 instead of 251/720) and repeated passes of order one that return to the last step size.
  - `adams_pass_partial` (R+classic)
  - `adams_polynomials` (functional_extensionality_dep+sig_forall_dec)
  - `adams_error_test_partial` (R+classic)
  - `adams_first_step` (R+classic)
  - `adams_next_step` (R+classic)
  - `adams_coefficients_refuted` (functional_extensionality_dep+sig_forall_dec)

**C77** Dense output evaluates the polynomial of the step — *partial*. intrp evaluates the polynomial through the accepted points for every state whose differences and spacings belong to them, which holds after every accepted pass covered by C76; after a repeated pass of order one that returns to the last step size the spacing is stale and the interpolated values are wrong.
  - `interpolation_polynomial` (R+classic)
  - `adams_pass_partial` (R+classic)
  - `interpolation_refuted` (R+classic)

**C78** Failing steps are retried by the documented policy and end — *partial*. Failed passes restore time, state and history and at least halve the step; away from time zero a step ends, with an explicit bound on the number of passes. At time zero only underflow ends it, the policy is applied the wrong way round (first failure: order one and optimal step), and the failure count is uninitialised after the first step.
  - `failed_pass_retries_partial` (R+classic)
  - `step_ends_partial` (R+classic)
  - `step_passes_partial` (R+classic)
  - `step_ends_refuted` (R+classic)
  - `failures_reset_order` (R)
  - `failure_step_refuted` (R)
  - `step_uninitialised_refuted` (R+classic)

**C79** Equations of motion of the orbit integrator — *partial*. State derivative, gravity in inertial coordinates, facing area and failures proved. False of the code and refuted: the Sun a million times too weak (see C69), the density taken at the inertial position, and on the day before with more seconds than a day has.
  - `equations_of_motion_partial` (R)
  - `inertial_gravity_gradient` (R+classic)
  - `projected_area` (R)
  - `projected_area_turning` (functional_extensionality_dep+sig_forall_dec)
  - `density_epoch_partial` (functional_extensionality_dep+sig_forall_dec)
  - `density_epoch_refuted` (functional_extensionality_dep+sig_forall_dec)
  - `density_place_refuted` (R)
  - `failure_stops` (R)

**C80** Variational equations are the derivative of the equations of motion — *partial*. The columns are the derivative when the Earth's rotation commutes with the gravity gradient, without the Sun, across the direction of the Moon, with a density gradient equal to its differences and a constant facing area. Refuted: gradient turned the wrong way, density gradient without z component, no partials of the Sun.
  - `transition_partial` (R)
  - `transition_rotation_refuted` (R)
  - `transition_density_refuted` (R)
  - `transition_sun_refuted` (R)
  - `density_differences_partial` (functional_extensionality_dep+sig_forall_dec)

**C81** Relativistic clock correction — *partial*. Proved for the point mass and for geocentric latitudes (with the potential of the gravity model as specification). False of the code: the J2 version takes the geodetic latitude; the documentation has the sign of the speed term wrong.
  - `clock_correction_central` (R)
  - `clock_correction_oblate_partial` (R+classic)
  - `clock_correction_sphere` (R)
  - `clock_correction_equator` (R+classic)
  - `clock_correction_oblate_refuted` (R+classic)
  - `clock_correction_documented_refuted` (R)

**C82** Earth orientation at a date — *partial*. Values, regularization and round trip proved for any library routines that are functions of the date. False of the code: failures of the interpolation are ignored; the rotation rate is added to uninitialised members and cells.
  - `eop_at_date_partial` (closed)
  - `eop_lagrange_reports` (closed)
  - `eop_never_reports` (closed)
  - `eop_failure_refuted` (closed)
  - `eop_omega_unwritten` (closed)
  - `eop_regularized_partial` (closed)
  - `eop_regularize_unwritten` (closed)
  - `eop_regularize_refuted` (closed)
  - `eop_round_trip` (closed)

**C83** The polynomial fitted to the receiver's frequency offsets — *partial*. Proved for files whose epochs of the range make complete groups of two or more. Refuted otherwise: two or more epochs left over read past the buffer, one left over divides by zero and reports success, an empty file adds a false point, groups of one get the wrong date, and a file denser than assumed overruns the matrices. The dangling decomposition behind y is not modelled.
  - `offset_fit_partial` (closed)
  - `offset_points_partial` (closed)
  - `offset_fit_reports` (closed)
  - `offset_remainder_undefined` (closed)
  - `offset_remainder_refuted` (closed)
  - `offset_single_remainder_undefined` (closed)
  - `offset_single_remainder_refuted` (closed)
  - `offset_no_data_adds` (closed)
  - `offset_no_data_refuted` (closed)
  - `offset_every_epoch_refuted` (closed)
  - `offset_room_overflow` (closed)
  - `offset_room_refuted` (closed)

**C84** Doppler counts of the orbit determination program — *proved*. elevation and troposphere of an observation are attributes of the observation; doppler_interval_refuted shows that the order of the blocks is needed for positive intervals: a beacon twice in one block gives an interval of zero
  - `doppler_counts` (closed)
  - `doppler_formed` (closed)
  - `beacon_numbers` (closed)
  - `doppler_interval` (closed)
  - `doppler_interval_refuted` (closed)
  - `measurement_indexes` (closed)

**C85** Running statistics and rejection of residuals — *partial*. refuted: the variance is not the sample variance of the cited method; residuals equal to the mean of those taken may be refused, and six equal residuals stop the filter
  - `running_statistics` (closed)
  - `running_variance_refuted` (closed)
  - `residual_test_early` (closed)
  - `residual_test_late` (closed)
  - `residual_statistics` (closed)
  - `residual_shut` (closed)
  - `residual_mean_refuted` (closed)

**C86** Orbit propagation with the antenna offset in the orbit determination program — *partial*. Proved for the first satellite object of a program; the last clause is false (second_satellite_refuted): the call counter is static, so a second object starts as if it held the antenna. Over the reals.
  - `antenna_follows_orbit` (R)
  - `antenna_offset` (R)
  - `integration_codes` (R)
  - `second_satellite_refuted` (R)

**C87** The state transition matrix handed to the filter of the orbit determination program — *partial*. False of the code: Phi and S are copied from the start values, with five columns of the identity; refuted, and what the filter does with it is characterised for all data.
  - `transition_fixed` (R)
  - `transition_matrix_refuted` (R)
  - `velocity_never_corrected` (closed)
  - `time_update_keeps_partial` (closed)

**C88** Partials and weight of a Doppler measurement in the orbit determination program — *partial*. Proved for velocity, wet delay, frequency offset and drift, and all parameters of other beacons; false for the position (right only if the previous position moves along), the drag coefficient, the offset in the RANDOM_RFO build and the standard deviation.
  - `measurement_partials_partial` (R)
  - `measurement_partials_common` (R)
  - `position_partials_refuted` (R)
  - `drag_partial_refuted` (R)
  - `random_offset_sign_refuted` (R)
  - `sigma_elevation_refuted` (R)

**C89** Observation equation of the Doppler count — *partial*. Uobs = Utheo up to second order is proved; the sum the program uses is refuted for one sign of the count and characterised for the other, where the receiver's frequency difference enters twice; the ionospheric correction has the wrong sign.
  - `observation_equation` (R)
  - `residual_sum_refuted` (R)
  - `residual_opposite_count` (R)
  - `ionosphere_sign_refuted` (functional_extensionality_dep+sig_forall_dec)

**C90** Beacon coordinates at the antenna in the orbit determination program — *partial*. Proved but for the last part of the first clause: a failing call leaves the beacons before the missing one raised.
  - `beacons_raised` (functional_extensionality_dep+sig_forall_dec)
  - `beacons_failure_refuted` (functional_extensionality_dep+sig_forall_dec)
  - `beacon_found` (closed)
  - `beacon_phase_center` (functional_extensionality_dep+sig_forall_dec)

**C91** Delays of an observation in the orbit determination program — *partial*. get_tropo proved; get_tropo_vmf converts an angle in radians to radians once more; the relativistic correction neglects the rotation of the Earth (both refuted).
  - `grid_delay` (R)
  - `site_delay_partial` (R)
  - `site_delay_refuted` (R)
  - `relativity_difference_partial` (R+classic)
  - `relativity_rotation_refuted` (R)

**C92** Frequency offset line over RINEX files — *partial*. Proved but for: an unreadable first file ends the program (noexcept), a block without beacons or an empty list is undefined, and the first value enters twice (all refuted).
  - `frequency_line` (functional_extensionality_dep+sig_forall_dec)
  - `frequency_line_complete` (functional_extensionality_dep+sig_forall_dec)
  - `frequency_line_codes` (functional_extensionality_dep+sig_forall_dec)
  - `frequency_line_defined` (functional_extensionality_dep+sig_forall_dec)
  - `first_file_refuted` (functional_extensionality_dep+sig_forall_dec)
  - `empty_block_refuted` (functional_extensionality_dep+sig_forall_dec)
  - `first_value_twice_refuted` (functional_extensionality_dep+sig_forall_dec)

**C93** Altitude of a pressure — *partial*. Codes and tolerance are proved; the altitude is never searched (z is not handed to gtd7) and a negative pressure reads an unset altitude, both refuted with witnesses.
  - `pressure_altitude_partial` (R+classic)
  - `pressure_altitude_not_searched` (R+classic)
  - `pressure_altitude_refuted` (R+classic)
  - `negative_pressure_refuted` (R+classic)

**C94** Configuration lookups — *partial*. Two-key lookups of values are fully proved; three-key lookups can throw and texts that do not fit overflow the array, both refuted.
  - `configured_value` (closed)
  - `configured_value_deep_partial` (closed)
  - `configured_value_deep_refuted` (closed)
  - `configured_text_partial` (closed)
  - `configured_text_deep_partial` (closed)
  - `configured_text_refuted` (closed)

**C95** A DORIS RINEX header is read as the format says — *partial*. Termination and soundness for every file; the round trip for headers whose factors come from records after the observation types, with the error number clear; definedness for lines of 60 characters or more. The rest is false of the code (refuted).
  - `rinex_header_ends` (closed)
  - `rinex_header_sound` (closed)
  - `rinex_header_round_trip_partial` (closed)
  - `rinex_header_defined_partial` (closed)
  - `rinex_header_failure` (closed)
  - `rinex_header_blank_name_refuted` (closed)
  - `rinex_header_many_types_refuted` (closed)
  - `rinex_header_mandatory_refuted` (closed)
  - `rinex_header_no_factor_refuted` (closed)
  - `rinex_header_stale_label_refuted` (closed)
  - `rinex_header_factor_order_refuted` (closed)
  - `rinex_header_errno_refuted` (closed)

**C96** The celestial to terrestrial matrices are those of the date given — *partial*. Over Q with the SOFA functions, the tidal corrections and the Lagrange kernel as oracles. frame_of_date_partial holds when the member omega of the local record happens to hold a value: as declared it holds none and the interpolation adds to it, which is undefined (frame_unwritten_rate). The claim about dates outside the table is false (frame_outside_refuted, frame_never_reports).
  - `frame_of_date_partial` (closed)
  - `frame_memory_free` (closed)
  - `frame_unwritten_rate` (closed)
  - `frame_never_reports` (closed)
  - `frame_outside_refuted` (closed)
  - `frame_date_overflow` (closed)

**C97** The switches of the atmosphere model do what their documentation says — *partial*. Over R on the model of gtd7 and gtd7d with arbitrary coefficient tables. The last sentence is false: the test of switch 1 is std::abs(...) < 0, never true, so gravity varies with latitude with the switch off (gravity_switch_refuted, coefficients of the code).
  - `switch_set` (functional_extensionality_dep+sig_forall_dec)
  - `switch_outside` (sig_forall_dec)
  - `aparray_switch` (sig_forall_dec)
  - `aparray_ignores_daily` (R+classic)
  - `daily_ignores_array` (R+classic)
  - `switched_off_result` (R+classic)
  - `gravity_switch_refuted` (R+classic)
  - `switch_on_off` (sig_forall_dec)
  - `new_parameters` (sig_forall_dec)
  - `new_parameters_daily` (R+classic)

**C98** The density used for drag depends on date and place only — *partial*. The request is independent of earlier requests on a table; the claim fails for the local solar time, which nothing sets: with it uninitialised the result depends on the memory (refuted through the exospheric temperature).
  - `air_date` (functional_extensionality_dep+sig_forall_dec)
  - `air_place` (R)
  - `air_request_partial` (R+classic)
  - `air_indices_partial` (functional_extensionality_dep+sig_forall_dec)
  - `air_failed_update_partial` (functional_extensionality_dep+sig_forall_dec)
  - `air_local_time_unset` (R)
  - `air_local_time_refuted` (R+classic)

**C99** The lower layers of the atmosphere model — *proved*. the layers, for all inputs
  - `layer_absent` (R+classic)
  - `layer_composition` (R+classic)
  - `layer_transition` (R+classic)
  - `layer_any_species` (R+classic)
  - `layer_average` (R+classic)

**C100** Temperature and densities with height — *partial*. the temperature proved at all heights above 123.435 km (except nitrogen asked for alone); the densities between 550 and 2500 km, for fluxes up to 10000 units from 150 and exospheric temperatures up to 5000 K
  - `layer_temperature_partial` (R+classic)
  - `layer_temperature_rises` (R+classic)
  - `layer_density_falls_partial` (R+classic)
  - `layer_drag_falls_partial` (R+classic)

**C101** A DORIS RINEX file read to its end gives every printed value, scaled by its factor — *partial*. end of the loop and shape of the blocks for every file; the round trip under the header restrictions of C95 (refuted there) and for files printed as the format says (blocks cut short are refuted in C23)
  - `rinex_file_ends` (closed)
  - `rinex_file_shape` (closed)
  - `rinex_file_round_trip_partial` (closed)
  - `rinex_file_refused` (closed)

**C102** The row-wise Lagrange polynomials equal the column-wise ones — *partial*. false from order two on outside the plane y = 0 (row_polynomials_agree_refuted): the factor 2m-1 multiplies the first product only
  - `row_polynomials_right_partial` (R+classic)
  - `row_polynomials_agree_partial` (R)
  - `row_polynomials_agree_refuted` (R)

**C103** The parameters of the integration own their work tables — *partial*. proved for programs that make no copies in builds with assertions; a copy is a double delete (params_copy_refuted), without assertions nothing is computed (params_ndebug_refuted)
  - `params_history_partial` (R+classic)
  - `params_copy_refuted` (R)
  - `params_ndebug_refuted` (R)
  - `params_degree_check` (R)

**C104** Doppler counts of a RINEX file pair each beacon's phases with its last sighting — *partial*. Ends, codes, shape of the blocks and end of the file: every file. Counts: files printed as the format says (headers as in C95), with the first two observables, missing values included and a NUL behind the identifiers; that these are L1 and L2, that missing values are left out and that identifiers are terminated is refuted.
  - `doppler_file_ends` (closed)
  - `doppler_file_codes` (closed)
  - `doppler_file_blocks` (closed)
  - `doppler_file_last_byte` (closed)
  - `doppler_file_counts_partial` (closed)
  - `doppler_file_terminator_refuted` (closed)
  - `doppler_file_phases_refuted` (closed)
  - `doppler_file_missing_refuted` (closed)

**C105** The frequency-offset line of a set of RINEX files is the least-cost line through the F values printed in them — *partial*. End, codes and least cost of what was read: every list of files. The printed numbers: files printed as the format says (headers as in C95), missing values included. That an unreadable first file gives a code, that missing values are left out and that nothing but the file's own bytes is used is refuted.
  - `frequency_files_end` (functional_extensionality_dep+sig_forall_dec)
  - `frequency_files_codes` (functional_extensionality_dep+sig_forall_dec)
  - `doppler_file_blocks` (closed)
  - `doppler_file_last_byte` (closed)
  - `frequency_files_line_partial` (functional_extensionality_dep+sig_forall_dec)
  - `frequency_files_unreadable_refuted` (functional_extensionality_dep+sig_forall_dec)
  - `frequency_files_missing_refuted` (functional_extensionality_dep+sig_forall_dec)
  - `frequency_files_left_over_refuted` (functional_extensionality_dep+sig_forall_dec)

**C106** The frequency-offset polynomial of a set of RINEX files fits the offsets printed in them — *partial*. End and codes: every list of files. The fit: files printed as the format says (headers as in C95) whose blocks of the range fall into complete groups of two or more, missing values included. Incomplete groups, missing values, files without F and unreadable files are refuted.
  - `offset_files_end` (closed)
  - `offset_files_codes` (closed)
  - `offset_files_fit_partial` (closed)
  - `offset_files_unreadable_refuted` (closed)
  - `offset_files_remainder_refuted` (closed)
  - `offset_files_missing_refuted` (closed)
  - `offset_files_no_f_refuted` (closed)

**C107** Printed times and phases keep their precision in double arithmetic — *partial*. In binary64 (Flocq). The offsets become the printed nanoseconds or one less; that they are the printed ones is refuted (0.000000015 s gives 14 ns). A date passed on as the nearest modified Julian day comes back within 316 ns; that it comes back unchanged is refuted.
  - `clock_offset_nanosecond_partial` (R+classic)
  - `clock_offset_nanosecond_refuted` (R+classic)
  - `l21_offset_nanosecond_partial` (R+classic)
  - `l21_offset_nanosecond_refuted` (R+classic)
  - `phase_distinct` (R+classic)
  - `phase_difference` (R+classic)
  - `julian_day_nanosecond` (R+classic)
  - `julian_day_roundtrip_partial` (R+classic)
  - `julian_day_roundtrip_refuted` (R+classic)

**C108** Rounding never makes an angle or a shadow factor something that is not a number — *partial*. In Flocq's binary64. Proved: inclination, node, declination and the cylindrical shadow, for all states in the stated ranges. False, with witnesses: the true anomaly at apogee is NaN, the eccentricity of a circular orbit (montenbruck variant) is NaN, and a satellite exactly opposite the Sun is fully lit (vallado, bernese) or lit by NaN (conical), because the quotient rounds to just beyond 1 (or the difference under the root below 0). Vector3's order of operations is assumed; no fused multiply-add.
  - `state2kepler_inclination_double` (R+classic)
  - `state2kepler_node_double` (R+classic)
  - `state2kepler_anomaly_double_refuted` (R+classic)
  - `circular_eccentricity_double_refuted` (R+classic)
  - `pos2ad_declination_double` (R+classic)
  - `cylinder_shadow_double` (R+classic)
  - `vallado_shadow_axis_refuted` (R+classic)
  - `bernese_shadow_axis_refuted` (R+classic)
  - `conical_shadow_axis_refuted` (R+classic)

**C109** Table indices and interpolation parameters computed in doubles stay in range — *partial*. In Flocq's binary64. Proved for every zenith angle below pi/2 and for the slerp parameter. False at pi/2 itself: the index is 18 and plarray[19] is read (pcv_horizon_double_refuted); the Alcatel antenna never sets the flag (pcv_outside_double). dso::rad2deg is external: both orders of multiplication and division are covered.
  - `pcv_in_table_double` (R+classic)
  - `pcv_horizon_double_refuted` (R+classic)
  - `pcv_outside_double` (R+classic)
  - `slerp_parameter_double` (R+classic)
  - `slerp_fraction_double` (R+classic)

**C110** In double precision a filter's variance is never negative: true of the one-parameter Joseph form, not of the frequency-offset filter — *partial*. binary64 (Flocq). Missing for the two-parameter filter: correlated states, i.e. the second and later observations away from the reference epoch, and the drift's variance when the observation is more precise than stated (there it is refuted). The filter of ekf.hpp is modelled for one parameter only.
  - `ekf_variance_double` (R+classic)
  - `rfo_reference_double` (R+classic)
  - `rfo_offset_double` (R+classic)
  - `rfo_drift_double_partial` (R+classic)
  - `rfo_drift_double_refuted` (R+classic)
  - `rfo_first_double` (R+classic)
  - `rfo_no_deviation_double_refuted` (R+classic)
  - `rfo_update_double` (R+classic)
  - `rfo_start_double` (R+classic)

**C111** Nominal beacon frequencies in double precision — *proved*. binary64 (Flocq), no fused operations; std::pow(2, 26) taken as exact. The refuted theorem shows that exactness does not extend to every int.
  - `beacon_frequency_exact_double` (R+classic)
  - `beacon_frequency_order_double` (R+classic)
  - `beacon_frequency_ratio_double` (R+classic)
  - `gamma_factor_double` (R+classic)
  - `beacon_frequency_near_double` (R+classic)
  - `beacon_frequency_inexact_double_refuted` (R+classic)

**C112** Ionosphere correction in double precision — *proved*. The five Flocq operations of carrier_iono_correction, with the rounded GAMMA constants; no fused operations.
  - `iono_correction_double` (R+classic)
  - `iono_correction_cycle_double` (R+classic)
  - `iono_correction_law_double` (R+classic)
  - `iono_correction_order_double` (R+classic)
  - `iono_correction_none_double` (R+classic)

**C113** Relativistic clock correction in double precision — *proved*. Flocq's operations in the order of the source; sin and car2ell are external, the sine of the latitude is an argument; no fused operations.
  - `clock_correction_double` (R+classic)
  - `clock_correction_J2_double` (R+classic)
  - `clock_correction_positive_double` (R+classic)
  - `relativity_difference_double` (R+classic)

**C114** Observed and theoretical range rate in double precision — *proved*. Flocq's operations in the order of the source; to_fractional_seconds is external, the elapsed time is an argument, as are the filter's estimates; no fused operations.
  - `range_rate_double` (R+classic)
  - `range_rate_law_double` (R+classic)
  - `range_rate_no_time_double` (R+classic)
  - `theory_double` (R+classic)
  - `residual_double` (R+classic)

