# Formal model of pyspectral: design

Source modelled: `/repo/pyspectral/*.py`, `/repo/bin/*.py` and part of
`/repo/rsr_convert_scripts` (pinned commit, read as text; nothing was run).
Prover: Rocq/Coq 8.16.1, files in `rocq/theories`.

## 1. Shape of the model

* **Shallow, function by function.**  Every Python function becomes a Gallina
  function with the same branches, in a file `M_<module>.v`.  Each definition
  cites file and lines.
* **Exceptions are values**: `res A := Ok a | Err e` with `e` one of the Python
  exception classes (`KeyError`, `ValueError`, ...).  Stateful objects are
  records; a method returns `state * res A`, so "the object is left half
  updated" is expressible.
* **Numbers** are abstract: a record `Num` of operations (arithmetic,
  comparisons that are false on NaN, exp/log/cos/acos, decimal literals,
  truncation).  All numeric code is written once over any `Num`.  Two instances:
  * `XR`: extended reals (`Fin r | PInf | NInf | NaN`) with IEEE rules for
    infinities and NaN but no rounding and a single zero.  Universal theorems
    are about this instance.
  * `B64`: IEEE binary64 (stdlib `SpecFloat`), executable by `vm_compute`; used
    for statements about actual double arithmetic (C13, C74, C75) and for the
    conformance tests.
* **Files, network, environment** are explicit state: a file system is a finite
  map, a download is a list of atomic steps, a crash is a prefix of that list.
* **External libraries** (scipy spline, numpy sort, geotiepoints interpolation,
  dask scheduling, YAML parser, tar format) are either parameters that the
  theorem quantifies over, or small explicit definitions flagged as such below.

File groups: `Base`, `NumSig`, `XR`, `B64` (foundations); `M_*` (model);
`S_*` (specification vocabulary, independent of the model); `P_*` (lemmas);
`T_*` (property theorems only: statement, `exact`, `Print Assumptions`,
and `Example`s with concrete non-trivial instances); `Samples*` (data for the
examples); `Conf_Data`, `Conformance`, `Conformance2` (tests: the model run in
binary64 on the numbers of the repository's own unit tests).

## 2. Trusted base

* Coq's kernel (and `vm_compute`).
* Axioms reported by `Print Assumptions` under each theorem: at most the three
  of the standard library's classical reals
  (`ClassicalDedekindReals.sig_forall_dec`, `ClassicalDedekindReals.sig_not_dec`,
  `FunctionalExtensionality.functional_extensionality_dep`) and
  `Classical_Prop.classic` where Coquelicot/Rtrigo lemmas pull it in.  Theorems
  not about real numbers are axiom free.  Section 5 lists them per theorem.
* That the model says what the Python code does (line citations).  Evidence, not
  proof: `Conformance*.v` runs the model on the inputs of the repository's unit
  tests and compares with their expected values, within the tests' tolerances or
  tighter ones.  All agree but one (emissive part at 85.1 degrees), which the unit
  test does not check either because its relative tolerance is 6.

## 3. Plan per property

| id | modelled by | proof method |
|----|-------------|--------------|
| C01-C03 | `M_Blackbody` elementwise functions over `XR` | algebra, `exp`/`ln` inverses |
| C04 | same | monotonicity of `exp`, `e^x > 1+x` |
| C05 | same | algebra |
| C06 | same, incl. NaN/inf branches | case analysis on `XR` |
| C07 | list-level `planck` (reshape(-1,1) and broadcasting) | list induction |
| C08 | `use_map_blocks_on` over array kinds with chunk lists | induction over chunks |
| C09-C11 | `M_RadTb` tb2radiance + `trapz` | induction: trapezoid is monotone/linear/antisymmetric |
| C12 | LUT path with int16 wrap and clip; float-to-int cast of out-of-range values is an unknown function quantified over | floor arithmetic |
| C13 | same functions on `B64` | exhaustive computation over the whole finite domain, lifted to a `forall` |
| C14 | `M_Seviri` | as C01 |
| C15 | table + name maps | table case analysis over arbitrary strings |
| C16 | converter constructor as staged `res` computation | case analysis / list induction |
| C17-C21 | per-pixel `r3x` and image-level map | algebra on `XR` |
| C22 | `derive_rad39_corr` | algebra |
| C23-C24 | `Calculator` object state and command histories | invariant over histories |
| C25 | `_set_lutfile` string functions | string lemmas |
| C26 | file system with calculators as commands, crash inside savez | invariant + counterexamples |
| C27 | constructor stages | case analysis |
| C28-C32 | `M_Solar`; spline = arbitrary function parameter | trapezoid lemmas, rounding arithmetic |
| C33-C39 | `M_Rayleigh`; MultilinearInterpolator written out explicitly | convexity, trigonometric monotonicity |
| C40-C42, C45-C47 | name tables and download state machine | invariants, all prefixes |
| C43-C44, C48-C49, C51, C54-C55 | `M_Rsr`, dictionaries as association lists | list induction |
| C50 | `get_central_wave` | trapezoid lemmas |
| C52 | `sort_data` for any argsort meeting its contract | list induction |
| C53 | writer and reader of an abstract HDF5 tree | computation + characterisation |
| C56-C58 | index searches | list induction |
| C59-C62, C70 | strings and tables | case analysis |
| C63 | logger state machine | invariant over histories |
| C64-C65 | configuration trees | tree induction |
| C66-C67 | `viewzen_corr` per pixel and masked arrays | `Rpower` monotonicity, limits |
| C68 | environment as state, bodies as arbitrary state transformers | case analysis, nesting |
| C69, C72 | fake file creation + version check | table computation lifted, invariants |
| C71 | as C17, on int64 arrays | algebra |
| C73 | `effective_wavelength` | trapezoid lemmas |
| C74, C75 | `sort_data`, `linspace` on `B64` | correctness of Flocq's operations, monotonicity of rounding |
| C93, C94 | `M_Blackbody`, `M_RadTb` on `B64`; exp and log are parameters assumed monotone (and accurate) | monotonicity of each rounded operation on numbers without a sign, powers of two as magnitude bounds; `P_B64lib` shows that a correctly rounding library meets the assumptions |
| C95, C96 | the same; exp and log assumed accurate | a calculus of relative errors of products, quotients and sums of positive numbers; subtraction of neighbouring waves via the spacing of doubles; list induction for the sum |
| C97 | `M_Procs`: names and files apart as in POSIX, processes as trees of system calls, arbitrary schedules | simulation between `M_Procs` and `M_Download` for one process; for two, an invariant that follows the generations of the archive's name (who created it, who may still remove it); for many, an ownership invariant (every file written to was opened under an allowed name) |
| C98, C99 | `M_Dtype`: the formulas once more, with the element type of every intermediate result | case analysis over types, list induction for the integral; refinement to the other models on doubles |
| C100 | `RadTbConverter`, `Calculator` (M_RadTb, M_Nir) | the candidates of C51; the two objects differ in the remembered argument only |
| C101 | `M_Books`: FCI, OLCI, SLSTR, METimage; NetCDF files are an oracle | inversion of the monadic code, `Forall2` over the bands, round trip through the writer |
| C102 | `M_Books`: EPIC, GOCI-2, MSI, OLI/TIRS, MSU-GSA, AATSR; tables read by pandas and xlrd are an oracle | as C101; counterexamples for the findings |
| C103, C104 | `M_Books`: AVHRR/1, AHI | invariant of the loop over the sheets (last sheet counts); text functions characterised by their results |
| C105 | `M_Books`: split_metop, old2star | induction over the blocks with the position in the file; list induction |
| C107 | `M_NirKinds` | pixelwise refinement of `M_Nir` |
| C108 | `M_Fake` | file names by induction; tables of band names by exhaustion; constant rows through C34, C37 and C73 |
| C109 | `M_Nir` over binary64 | error analysis of the pixel formula with Flocq; order by monotone rounding |
| C110 | `M_Tables`, `RSRDict_getitem`, `check_and_adjust_instrument_name` | rules as inductive relations, equal to the tables by exhaustion lifted to all texts |
| C111 | `get_reflectance`, `relax`, `reduce_rayleigh_highzenith` over binary64 | rounding is monotone and fixes 0, 1, 80; error bounds step by step |
| C112 | `interp_by_angles`, `minterp`, `axis_cell` over binary64 | truncation of a rounded position stays in the axis; each linear interpolation is a rounded convex combination |
| C113 | `tau0`, `tau`, `delta`, `viewzen_corr`, `get_correction` over binary64 | error of a power under small changes of base and exponent; monotone rounding |
| C114 | `seviri_tb2radiance`, `seviri_radiance2tb` over binary64 and over the reals | multiplicative error factors (as C95) through the regression; table of coefficients by computation |
| C115 | `emissive_part_3x` after `reflectance_from_tbs` over binary64 | correct rounding of the two operations, monotone rounding for signs and bounds, accuracy of C109 for the balance |
| C116 | `solar_constant`, `band_calculations`, `interpolate`, `linspace`, `n_points` over binary64 | rounding errors of the grid points and monotone rounding; error factors through the trapezoidal rule (as C96) |
| C117 | `get_central_wave` over binary64, without weights and with the weights of the Rayleigh correction | error factors through the products and the trapezoidal rule (as C116); ordering from the real-number theorems |
| C106 | `M_Books`: modis_old2new over a disk | dictionary lemmas, reading depends on the bands only |
| C76-C79, C82, C83 | `M_Raw`: raw readers, converters | list induction, refinement by C53-C55 |
| C80, C81 | `M_Raw`: MODIS, VIIRS | list induction, round trip through the writer and reader |
| C84 | `integral` | list induction |
| C85, C86 | `M_RadTb` | as C01-C04 |
| C87 | `get_solarflux` | case analysis, trapezoid lemmas |
| C88-C90, C92 | `M_Scripts`; the constructor of RelativeSpectralResponse is arbitrary | invariant of the scanning loop, list induction |
| C91 | `M_Scripts` on the download state machine | as C45, C63 |

Properties that turn out false for the unchanged code are kept as
`..._refuted` theorems (a concrete counterexample) next to the part that holds.

## 4. What is modelled, what is not, and where the model simplifies

Modelled (file: model file): `blackbody.py`: `M_Blackbody`; element types of all formulas: `M_Dtype`; `utils.py`: `M_Tables`
(name tables), `M_Utils` (pure functions), `M_Download` (downloads), `M_Procs` (several processes downloading at once), `M_Hdf5`
(writing RSR files), `M_Logging`; `rsr_reader.py`: `M_Rsr`, `M_Hdf5`, `M_Download`;
`radiance_tb_conversion.py`: `M_RadTb`; `near_infrared_reflectance.py`: `M_Nir`, `M_NirKinds`;
`solar.py`: `M_Solar`; `rayleigh.py`: `M_Rayleigh`, `M_Download`;
`atm_correction_ir.py`: `M_AtmIR`; `config.py`: `M_Config`, `M_World`;
`testing.py`: `M_Testing`, `M_Fake` (contents of the fake files); `raw_reader.py` and the scripts `abi_rsr`, `agri_rsr`,
`ami_reader`, `avhrr_rsr`, `cocts_rsr`, `ghi_rsr`, `mersi1_rsr`, `mersi2_rsr`,
`mersi3_rsr`, `mersirm_rsr`, `modis_rsr`, `msu_gs_reader`, `seviri_rsr`,
`slstr_rsr_txt`, `viirs_rsr`, `virr_rsr` in `rsr_convert_scripts`: `M_Raw`; the
other scripts there: `M_Books`;
`bin/*`: `M_Scripts` (what is drawn, not how).

Not modelled at all: `solar.plot`, axes, colours and legends of the plots, texts of
log messages, tqdm progress bars, docs.

Simplifications, per file:

* *All numeric files.*  Universal theorems are about exact arithmetic on extended
  reals: no rounding, one zero.  Theorems in `T_B64`, `T_Doubles`,
  `T_Monotone`, `T_Accuracy`, `T_NirDoubles`, `T_RayDoubles`, `T_RayDoubles2`, `T_AtmDoubles`, `T_SevDoubles`,
  `T_EmisDoubles`, `T_SolarDoubles` and `T_CentralDoubles` are about
  binary64.
  float32 values are not modelled (except as the storage oracle `f32` of `M_Hdf5`);
  which element type comes out is, in `M_Dtype`.
* *M_Blackbody.*  dask is trusted to apply the function block by block.  Memory
  errors are not modelled.
* *M_RadTb.*  A float-to-integer cast that does not fit is an unknown function
  `oob`, quantified over.  Reading response data is the oracle `load`.
* *M_NirKinds.*  Masked and dask temperatures, for calls without a CO2 channel and
  with a table.  What numpy.ma writes under the mask is any function; that numpy
  indexing and `numpy.where` ignore masks is read off numpy's documentation.
* *M_Nir.*  float64 and int64 arrays only; the wrapping of results for dask
  and masked arrays is in `M_NirKinds`; overflow of int64 powers is ignored; the
  `.npz` format is a pair of oracles (encode, decode).
* *M_Solar.*  The spline is an arbitrary function of its data or an exception.
  The solar spectrum file is given by its two columns.
* *M_Rayleigh.*  geotiepoints' `MultilinearInterpolator` is compiled code outside
  the repository; it is written out from its published source.  It is assumed to
  raise TypeError for integer arrays.  `map_blocks` is one call on the whole array.
  The look-up table does not change during a call; a missing row is IndexError.
* *M_AtmIR.*  Images are flattened and of equal shape.
* *M_World, M_Config, M_Download.*  Paths are compared as strings (not
  normalised); parents created by `makedirs` or by tar members are not recorded;
  text is decoded as a whole; only ASCII white space is stripped; a crash is a
  prefix of the list of file system events in program order, so reordering by the
  operating system is not covered; a malformed `content-length` header and a full
  disk are not modelled; YAML, tar, `expanduser`, the network and permissions are
  oracles.
* *M_Procs.*  Each system call is atomic and the directory exists; permissions and
  full disks are not modelled.  `unpack_all` reads the archive at one go;
  `C97_one_after_the_other` and `C97_others_untouched` hold for any way of unpacking.
* *M_Books.*  What xarray, netCDF4, pandas and xlrd return for a file is an
  oracle (a function from paths); values a NetCDF file marks as missing are
  ordinary numbers; a curve of one point stays an array (`numpy.squeeze` makes it
  a scalar); h5py rejects a dictionary's view; a text cell among the responses of
  an AVHRR/1 sheet is noticed when it is loaded, not when it is used.
* *M_Hdf5.*  Not modelled: group names containing `/`, datasets that are not
  one-dimensional, a detector named like a dataset, a `number_of_detectors` that is
  not an integer, the partial file left by a failed write, numpy broadcasting of
  arrays of length one.  `str.upper` and 32-bit storage are oracles.
* *M_Dtype.*  One element at a time; promotion is that of NumPy 2 (Python numbers
  adapt, numpy scalars do not); unsigned, half and extended types are left out.
  Rounding to single precision, the single-precision functions and the result of
  a cast that does not fit are parameters.  The interpolator of geotiepoints is
  taken to return the type of the table (rayleigh.py:224-228).
* *M_Logging.*  Levels, filters and propagate flags set by hand on named loggers
  are not modelled.
* *M_Testing.*  A symbolic link is a copy; `yaml.dump` and `mkdtemp` are oracles
  with stated contracts; the
  variants that create their own temporary directory are not modelled.
* *M_Fake.*  The fake responses are computed without rounding to single
  precision; the contents of an own table are passed through unread; strings are ASCII.
* *M_Raw.*  Parsing of text files, HDF4, NetCDF and work books is given by oracles
  (columns, lines, int(), float()); a curve of one point stays an array.
* *M_Scripts.*  Parsed arguments are given; drawing is a list of curves; the
  constructor of RelativeSpectralResponse is an oracle.
* *B64.*  Sums are left to right and integer powers are repeated products; numpy
  adds pairwise and calls pow, so last digits can differ; the argument for C93 and C94 uses only that each
  operation is monotone, which holds in any order of summation, and the bounds of C95 and C96 leave room for it
  (one rounding per term and power is what a faithful pow and any order of n-1 additions commit).  exp, log, cos, acos and pow are parameters (IEEE 754 does not fix them).

## 5. Print Assumptions, per theorem

Generated by `tools/gen_axioms.py` from the output of the `Print Assumptions`
command below each theorem (472 theorems).  Every axiom listed belongs to Coq's
standard library.

* **Closed under the global context (no axioms)** (228):
  `C07_empty_arrays`, `C07_shape_lost`, `C07_table_entries`, `C08_chunking_irrelevant`, `C08_keyword_fails`, `C08_python_float_radiance_refuted`, `C08_rad2temp_chunking`, `C08_unknown_chunked`, `C09_units`, `C101_fci`, `C101_fci_succeeds`, `C101_olci`, `C101_olci_missing`, `C101_olci_succeeds`, `C101_slstr`, `C101_slstr_bands`, `C101_slstr_succeeds`, `C102_aatsr`, `C102_output`, `C103_fallback_never_opened`, `C103_succeeds`, `C104_holds`, `C104_missing_file`, `C104_no_file_written`, `C104_succeeds`, `C105_old`, `C105_old_lengths`, `C105_split`, `C106_missing`, `C106_renamed`, `C107_kind`, `C107_plain`, `C107_result_mask`, `C107_values`, `C110_addresses`, `C110_aerosol_types`, `C110_atmospheres`, `C110_band_stays`, `C110_every_scheme_in_use_refuted`, `C110_indexing`, `C110_luts`, `C110_name_once`, `C110_no_other_luts`, `C110_one_band_each`, `C110_other_instruments`, `C110_own_names`, `C110_own_names_found_refuted`, `C110_platforms`, `C110_schemes_in_use`, `C110_shared_scheme`, `C110_version_files`, `C111_percent`, `C12_lookup_stays_in_table`, `C13_multiples_hit_their_row`, `C13_stored_temperatures_off_by_one`, `C15_water_vapour_alias_refuted`, `C16_no_calculator_in_wavenumber`, `C16_wavenumber_by_name`, `C16_wavenumber_by_number_fails`, `C16_wavenumber_radiance2tb_fails`, `C16_wavespace_accepted`, `C16_wavespace_checked_first`, `C17_call_succeeds`, `C17_pixels_are_independent`, `C23_history_free`, `C24_without_a_call`, `C25_calculator`, `C25_file_name`, `C26_after_crash`, `C26_first_come`, `C26_own_table`, `C27_co2_shape`, `C27_shape_mismatch`, `C27_sun_shape`, `C40_sensor_name`, `C41_construction`, `C41_download_setting`, `C41_tables`, `C41_unsupported_rejected`, `C42_bad_type_requests_nothing`, `C42_dry_run_requests_nothing`, `C42_requests_the_outdated_types`, `C42_setting_respected_refuted`, `C43_get_never_raises_refuted`, `C43_get_with_default`, `C43_indexing`, `C43_list_instrument`, `C43_membership_follows_indexing_refuted`, `C43_standard_name_unique`, `C44_filename_never_downloads`, `C44_names_read_the_standard_file`, `C44_other_combinations_rejected`, `C45_download_setting`, `C45_downloads_exactly_when`, `C45_other_destination_repeats`, `C45_quiet_after_download`, `C45_returns_true_iff_outdated`, `C45_setting_is_enabled`, `C46_nothing_else_touched`, `C46_version_early_is_unsafe`, `C46_version_last_is_safe`, `C47_chunking_irrelevant`, `C47_http_error_changes_nothing`, `C47_lost_connection`, `C47_success`, `C53_multi`, `C53_other_names`, `C53_single`, `C53_single_writes`, `C53_wavelengths_lost`, `C54_contents`, `C54_reads_or_KeyError`, `C55_bad_name`, `C55_determined`, `C55_instrument`, `C55_platform`, `C55_translation_idempotent`, `C59_convert2str`, `C59_idempotent`, `C59_only_value_error_refuted`, `C59_utf8`, `C60_adjusted_name`, `C60_idempotent_refuted`, `C60_several_instruments`, `C60_single_instrument_idempotent`, `C61_identical_iff`, `C61_identity`, `C61_non_strings`, `C61_symmetric_refuted`, `C62_aerosol_type_selection`, `C63_debug_on`, `C63_get_logger`, `C63_off`, `C63_on`, `C63_on_after_off_is_silent`, `C63_printed_at_most_once`, `C64_conflict_fails`, `C64_idempotent`, `C64_into_empty`, `C64_leaves_set`, `C64_only_conflicts_fail`, `C64_rest_kept`, `C65_empty_file_raises`, `C65_environment_then_builtin`, `C65_explicit_file_wins`, `C65_missing_file_raises`, `C65_only_directories_appear`, `C65_result`, `C67_atmosphere_argument`, `C68_given_path`, `C68_nesting`, `C68_restored`, `C68_temporary_file`, `C69_disabled`, `C69_mocked_downloads`, `C69_mocked_rayleigh`, `C69_mocked_rsr`, `C69_mocked_tb_conversion`, `C69_outdated_responses_request`, `C69_outdated_tables_request`, `C69_rsr_disabled`, `C70_generic_numbers`, `C70_generic_numbers_only`, `C70_targets_fixed`, `C70_translation_idempotent`, `C72_ban`, `C76_all_bands_needed`, `C76_columns`, `C76_complete`, `C76_known_bands`, `C76_no_data_no_file`, `C76_output_directory`, `C76_own_file`, `C77_other_columns`, `C77_own_column_refuted`, `C77_virr_refuted`, `C80_back`, `C80_names`, `C80_odd_names`, `C80_own_wavelengths_refuted`, `C80_rows`, `C80_writes`, `C81_other_format`, `C81_same_lengths_refuted`, `C82_columns`, `C82_infrared`, `C82_visible_refuted`, `C82_wavenumber_refuted`, `C83_same_name`, `C83_same_name_refuted`, `C87_given_flux`, `C87_own_detector_refuted`, `C89_accepted_names_tried_refuted`, `C89_own_sensors_tried`, `C89_tried`, `C91_all_types`, `C91_dry_run`, `C91_empty_destination`, `C91_installs`, `C91_setting_respected_refuted`, `C91_success_means_installed_refuted`, `C91_types`, `C91_verbose`, `C92_other_names`, `C92_unknown_names`, `C97_alone`, `C97_both_succeed_refuted`, `C97_complete_refuted`, `C97_one_after_the_other`, `C97_others_untouched`, `C98_band_radiance`, `C98_doubles`, `C98_doubles_emissive`, `C98_doubles_limb`, `C98_emissive`, `C98_limb`, `C98_limb_integers`, `C98_lut`, `C98_lut_value`, `C98_planck`, `C98_rad2temp`, `C98_rayleigh`, `C98_rayleigh_integers_refuted`, `C98_reduce`, `C98_reflectance`, `C98_seviri`, `C98_wn_rad2temp`, `C99_wavenumber_integers`.

* **`Classical_Prop.classic`** (2):
  `C108_band_table`, `C76_instrument`.

* **`ClassicalDedekindReals.sig_forall_dec`, `FunctionalExtensionality.functional_extensionality_dep`** (12):
  `C103_misprint`, `C105_increasing`, `C113_zones_cover`, `C22_increasing`, `C48_order`, `C48_same_pairs`, `C66_zones_cover`, `C73_normalisation`, `C86_every_channel`, `C88_inside`, `C88_outside`, `C92_points`.

* **`ClassicalDedekindReals.sig_forall_dec`, `ClassicalDedekindReals.sig_not_dec`, `Classical_Prop.classic`, `FunctionalExtensionality.functional_extensionality_dep`** (230):
  `C01_wavelength_roundtrip_temperature`, `C02_wavelength_roundtrip_radiance`, `C03_wavenumber_roundtrip_radiance`, `C03_wavenumber_roundtrip_temperature`, `C04_brightness_temperature_increasing`, `C04_wavelength_radiance`, `C04_wavenumber_radiance`, `C05_spaces_agree_radiance`, `C05_spaces_agree_temperature`, `C06_negative_temperature`, `C06_nonpositive_radiance`, `C06_python_zero_radiance`, `C06_undefined_temperature`, `C09_band_radiance_is_weighted_mean`, `C100_calculator`, `C100_no_band`, `C100_one_band`, `C100_several_bands`, `C101_metimage`, `C101_metimage_file`, `C102_epic`, `C102_epic_succeeds`, `C102_gaps_refuted`, `C102_goci2`, `C102_goci2_succeeds`, `C102_msi`, `C102_msi_missing`, `C102_msi_succeeds`, `C102_msugsa`, `C102_msugsa_succeeds`, `C102_oli`, `C102_oli_bands_refuted`, `C102_oli_missing`, `C102_oli_succeeds`, `C102_tirs_units_refuted`, `C103_every_sheet_refuted`, `C103_file`, `C103_file_incomplete`, `C103_file_succeeds`, `C103_holds`, `C105_last_row_refuted`, `C105_own_rows_refuted`, `C105_wavelengths`, `C107_mask_kept_refuted`, `C107_mask_lost`, `C108_avhrr_user_names_refuted`, `C108_correction`, `C108_correction_bounds`, `C108_fake_responses`, `C108_mocked_correction`, `C108_names_from_file`, `C108_names_from_file_refuted`, `C108_no_correction_outside`, `C108_same_wavelength`, `C108_table_in_use`, `C108_user_names`, `C109_accuracy`, `C109_masked`, `C109_order`, `C109_range`, `C109_temperature_order`, `C10_band_radiance_increases`, `C111_high_zenith`, `C111_high_zenith_order`, `C111_red_band`, `C111_red_band_order`, `C111_wavelength`, `C112_bounds`, `C112_interpolation`, `C113_dask_array`, `C113_masked_array`, `C114_channels`, `C114_exact`, `C114_radiance`, `C114_round_trip`, `C114_temperature`, `C115_balance`, `C115_pixels`, `C116_constant`, `C116_in_band`, `C117_mean`, `C117_order`, `C117_rayleigh`, `C11_response_scale`, `C11_reversed_grid`, `C12_lookup_accuracy`, `C12_lookup_monotone`, `C13_every_double`, `C13_monotone_refuted`, `C13_wraparound`, `C14_seviri_increasing`, `C14_seviri_roundtrip_radiance`, `C14_seviri_roundtrip_temperature`, `C15_band_must_be_a_name`, `C15_refused_requests`, `C15_which_channels_convert`, `C17_default_limits`, `C17_masked_exactly`, `C18_energy_closure`, `C19_between_0_and_1_refuted`, `C19_negative_when_colder`, `C19_range`, `C20_monotone`, `C21_decreasing_in_zenith`, `C21_solar_radiance`, `C22_correction`, `C22_factor_used`, `C24_after_a_call`, `C24_mixed_after_failure`, `C27_accepted_band`, `C27_refused_band`, `C28_conversion_conserves_energy`, `C28_no_second_conversion`, `C29_no_coordinate`, `C29_solar_constant_both_spaces`, `C30_irradiance_is_a_mean`, `C30_other_detectors_ignored`, `C30_scaling`, `C31_grids_agree`, `C31_narrow_band_refuted`, `C32_calls_do_not_interfere`, `C32_resolution_sticks`, `C33_angles_are_clipped`, `C34_wavelength_blending`, `C34_wavelength_index`, `C35_outside_is_zero`, `C36_call_succeeds`, `C36_number`, `C36_percent`, `C37_affine`, `C37_call_bounds`, `C37_interpolation_bounds`, `C37_node`, `C38_cloud_relaxation`, `C38_red_band`, `C39_high_zenith`, `C48_conversion`, `C49_empty_keeps_unit`, `C49_failed_conversion_changes_nothing_refuted`, `C49_first_convert`, `C49_histories`, `C50_axis_change`, `C50_central_within_band`, `C50_rayleigh_weight_within_band`, `C50_reversing_the_samples`, `C50_scaling_the_response`, `C50_symmetric_response`, `C50_weighted_within_band`, `C51_candidates`, `C51_missing_first_detector`, `C51_name_is_a_band_refuted`, `C52_empty`, `C52_sort_data`, `C53_wavelengths_refuted`, `C56_fwhm`, `C56_scale_invariance_refuted`, `C57_threshold_monotone`, `C57_wave_range`, `C58_defined`, `C58_energy_bounds`, `C58_lower_below_upper_refuted`, `C58_percentage_monotone`, `C58_scale_invariant`, `C66_caller_arrays_untouched`, `C66_dask_pixelwise`, `C66_masked_array_pixelwise`, `C66_never_lowers_off_nadir`, `C66_nonfinite_becomes_masked`, `C66_plain_numpy_refuted`, `C67_jump_at_nadir`, `C67_one_pixel`, `C71_integer_temperatures`, `C73_name_is_wavelength`, `C73_nanometres`, `C73_towards_blue`, `C73_unknown_name`, `C73_unreadable`, `C74_sort_doubles`, `C75_band_result`, `C75_grid_stays_in_band`, `C78_wavenumbers`, `C79_fractions_refuted`, `C79_mersi1`, `C79_trimmed`, `C80_alike`, `C80_all_missing`, `C80_load`, `C81_back`, `C82_pairs`, `C84_converter_integral`, `C84_freshly_loaded`, `C84_integral`, `C85_radiance2tb_inverts_planck`, `C85_roundtrip_keeps_order`, `C86_planck_at_the_channel`, `C87_derived_flux`, `C88_only_the_range_refuted`, `C88_range`, `C88_termination_refuted`, `C89_by_wavelength`, `C89_file_name`, `C89_first_untried`, `C89_labels`, `C89_nothing_readable`, `C89_other_errors`, `C89_own_data_refuted`, `C89_platforms`, `C89_range_in_name_refuted`, `C90_all_bands`, `C90_stops`, `C92_no_single_band`, `C92_plot_rsr`, `C93_planck_monotone`, `C93_rad2temp_monotone`, `C93_wn_rad2temp_monotone`, `C94_band_radiance_monotone`, `C94_seviri_monotone`, `C94_table_monotone`, `C95_radiance`, `C95_round_trip`, `C95_temperature`, `C96_band_radiance`, `C98_doubles_reflectance`, `C98_limb_same_type_refuted`, `C98_wn_rad2temp_refuted`, `C99_rad2temp_integers`, `C99_radiance2tb_integers`, `C99_rayleigh_no_correction`, `C99_rayleigh_table`, `C99_same_value_refuted`.
