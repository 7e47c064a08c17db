{
 "C77": {
  "note": "Findings: VirrRSR always raises (C77_virr_refuted); MERSI-1 FY-3B ch4 and ch8 share a column (C77_own_column_refuted)."
 },
 "C79": {
  "note": "Finding C79_fractions_refuted: fractions with a peak above 1 are divided by 100."
 },
 "C82": {
  "note": "Findings C82_visible_refuted (IndexError for any work book with a non-infrared channel) and C82_wavenumber_refuted."
 },
 "C83": {
  "note": "Finding C83_same_name_refuted: instruments with '-' in their name."
 },
 "C80": {
  "note": "Finding C80_own_wavelengths_refuted: detectors whose wavelengths nearly agree all get those of the first detector."
 },
 "C81": {
  "note": "Finding C81_same_lengths_refuted: NaN wavelength, one detector. C81_back is about tables of real numbers."
 },
 "C87": {
  "note": "Finding: the in-band solar flux is always that of det-1 (the default of inband_solarflux), whichever detector the calculator is for (C87_own_detector_refuted)."
 },
 "C88": {
  "note": "Findings: C88_termination_refuted (resolution <= 0 never ends), C88_only_the_range_refuted (resolution is in micrometres, help says nanometres)."
 },
 "C89": {
  "note": "Findings: C89_own_data_refuted (stale object drawn again), C89_first_untried (NameError), C89_accepted_names_tried_refuted (avhrr-3 not tried for NOAA-19). The constructor of RelativeSpectralResponse is an arbitrary function."
 },
 "C91": {
  "note": "Findings: C91_success_means_installed_refuted, C91_setting_respected_refuted."
 },
 "C97": {
  "note": "Findings: C97_both_succeed_refuted, C97_complete_refuted (no locking, one fixed temporary name in the target directory)."
 },
 "C98": {
  "note": "Promotion rules of NumPy 2. Findings: C98_wn_rad2temp_refuted, C98_limb_same_type_refuted, C98_rayleigh_integers_refuted."
 },
 "C99": {
  "note": "Findings: C99_rad2temp_integers, C99_radiance2tb_integers, C99_same_value_refuted (blackbody.py:38-40 casts the wavelength to the radiance's integer type); C99_rayleigh_no_correction."
 },
 "C100": {
  "note": "Over exact numbers. Wavenumber space: see C16 (a number never works there)."
 },
 "C101": {
  "note": "NetCDF files are an oracle; masked values are ordinary numbers. SLSTR: no success theorem (the script opens a fixed path)."
 },
 "C102": {
  "note": "pandas and xlrd are oracles. Findings: C102_gaps_refuted (rows dropped per column mispair), C102_oli_bands_refuted, C102_tirs_units_refuted (micrometres divided by 1000)."
 },
 "C103": {
  "note": "Findings: C103_every_sheet_refuted (a sheet with an unknown name ends the loop), C103_fallback_never_opened (avhrr1_rsr.py:51 sets another attribute), C103_succeeds (wavenumber: AttributeError)."
 },
 "C104": {
  "note": "Findings: C104_no_file_written (a dictionary's view has no HDF5 type), C104_missing_file (AttributeError instead of IOError)."
 },
 "C105": {
  "note": "Findings: C105_last_row_refuted, C105_own_rows_refuted."
 },
 "C107": {
  "note": "C107_mask_kept_refuted is a finding: masked pixels are not masked in the result (numpy indexing and numpy.where ignore masks; masked_invalid marks only non-finite values). Calls with a CO2 channel or without a table on masked arrays are not covered."
 },
 "C108": {
  "note": "Two findings: C108_avhrr_user_names_refuted (the adjusted instrument name 'avhrr3' is no key of BANDNAMES, so '3b' is not translated; the same holds for real files) and C108_names_from_file_refuted. Exact arithmetic; the single precision of the fake responses is left out. plain excludes names with '_' or '/'."
 },
 "C109": {
  "note": "Float temperatures only; the radiances, the CO2 factor and the solar radiance are taken as stored by the call (their own accuracy is C95-C96). C109_temperature_order is for calls without a CO2 channel."
 },
 "C110": {
  "note": "The rules in S_Tables.v are written from the naming schemes, not generated from the tables. Findings: the schemes filed as 'avhrr-3' and 'VII' belong to no instrument of a platform ('avhrr/3', opened as 'avhrr3', and 'metimage')."
 },
 "C111": {
  "note": "The C code of the interpolation is modelled as in C37; its rounding errors are bounded in C112. Rounding to nearest, ties to even."
 },
 "C112": {
  "note": "The interpolator is C code outside the repository, modelled as in C37 and evaluated in doubles without fused operations. Secants beyond an axis by a rounding error are not covered: the code then extrapolates."
 },
 "C113": {
  "note": "The fourth power of the temperature ratio is modelled as repeated multiplication (numpy calls C pow with exponent 4). Dask arrays stand for their computed values. Rounding to nearest, ties to even."
 },
 "C114": {
  "note": "vc**3 is modelled as repeated multiplication (numpy calls C pow with exponent 3), as in C95. Order preservation of the same conversions is C94."
 },
 "C115": {
  "note": "Over binary64, for 64-bit input arrays of one shape. The NaN test is on the product: a reflectance that is NaN is what makes it NaN for ordinary data."
 },
 "C116": {
  "note": "The spline is any function of the data, as in C30 and C31. Data are zero or from 1e-12 to 1e6. numpy.trapezoid sums in the order of the model (numpy may add pairwise; the error bound holds for the modelled order). Bands narrower than one step: C31_narrow_band_refuted."
 },
 "C117": {
  "note": "Waves as doubles from 1e-12 to 1e12, responses zero or from 1e-12 to 1e6, at most 10000 samples. wvl**4 is modelled as repeated multiplication; numpy's power of an array differs from it by a few units in the last place."
 }
}