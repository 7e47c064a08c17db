{"id": "C01", "title": "Planck inversion recovers the temperature (wavelength)", "statement": "For every wavelength lambda > 0 m and every temperature T > 1e-6 K, converting T to spectral radiance with blackbody(lambda, T) and back with blackbody_rad2temp(lambda, .) gives exactly T (exact real arithmetic, no rounding).", "quantifier": "all real wavelengths > 0 and temperatures > 1e-6", "why_tests_cant": "The claim ranges over a continuum of real inputs; a test samples finitely many points.", "anchors": ["pyspectral/blackbody.py:blackbody", "pyspectral/blackbody.py:planck", "pyspectral/blackbody.py:blackbody_rad2temp"]}
{"id": "C02", "title": "Planck inversion recovers the radiance (wavelength)", "statement": "For every wavelength lambda > 0 and radiance L > 0 whose brightness temperature exceeds the 1e-6 K cut-off, blackbody(lambda, blackbody_rad2temp(lambda, L)) = L in exact arithmetic.", "quantifier": "all real wavelengths and radiances > 0", "why_tests_cant": "The claim ranges over a continuum of real inputs; a test samples finitely many points.", "anchors": ["pyspectral/blackbody.py:blackbody", "pyspectral/blackbody.py:blackbody_rad2temp"]}
{"id": "C03", "title": "Planck inversion in wavenumber space", "statement": "For every wavenumber nu > 0 and T > 1e-6 K, blackbody_wn_rad2temp(nu, blackbody_wn(nu, T)) = T, and conversely the radiance is recovered from the temperature, in exact arithmetic.", "quantifier": "all real wavenumbers > 0, temperatures > 1e-6, radiances > 0", "why_tests_cant": "The claim ranges over a continuum of real inputs; a test samples finitely many points.", "anchors": ["pyspectral/blackbody.py:blackbody_wn", "pyspectral/blackbody.py:blackbody_wn_rad2temp"]}
{"id": "C04", "title": "Planck radiance is positive, strictly increasing and below the Rayleigh-Jeans law", "statement": "In both spectral spaces the radiance of a black body warmer than 1e-6 K is strictly positive, strictly increasing with temperature, and strictly smaller than the Rayleigh-Jeans value; brightness temperature is strictly increasing with positive radiance.", "quantifier": "all wave > 0, all pairs of temperatures/radiances", "why_tests_cant": "The claim ranges over a continuum of real inputs; a test samples finitely many points.", "anchors": ["pyspectral/blackbody.py:planck", "pyspectral/blackbody.py:blackbody_rad2temp", "pyspectral/blackbody.py:blackbody_wn_rad2temp"]}
{"id": "C05", "title": "Wavelength and wavenumber radiances describe the same energy", "statement": "For every nu > 0 and T > 1e-6, the wavenumber radiance at nu equals the wavelength radiance at 1/nu divided by nu^2 (i.e. B_nu dnu = B_lambda dlambda), and both inverse functions return the same brightness temperature for radiances related that way.", "quantifier": "all nu > 0, T > 1e-6, L > 0", "why_tests_cant": "The claim ranges over a continuum of real inputs; a test samples finitely many points.", "anchors": ["pyspectral/blackbody.py:planck", "pyspectral/blackbody.py:blackbody_rad2temp", "pyspectral/blackbody.py:blackbody_wn_rad2temp"]}
{"id": "C06", "title": "Undefined inputs of the Planck pair are reported as NaN, never as a plausible number", "statement": "A temperature that is NaN or within 1e-6 of zero gives NaN radiance. A zero radiance inverts to exactly 0 K. A negative radiance of magnitude below C2/lambda^5 (about 1.3e11 at 3.9 um) inverts to NaN; only an absurdly negative radiance beyond that inverts to a number, which is then negative - no non-positive radiance ever yields a positive temperature.", "quantifier": "all temperatures incl. NaN/inf, all non-positive radiances, all wavelengths > 0", "why_tests_cant": "The claim ranges over a continuum of real inputs; a test samples finitely many points.", "anchors": ["pyspectral/blackbody.py:planck", "pyspectral/blackbody.py:blackbody_rad2temp"]}
{"id": "C07", "title": "Shape of the Planck result", "statement": "For N temperatures (of any shape) and M wavelengths the result is an N x M table whose entry (i,j) is the radiance of temperature i (flattened order) at wavelength j; no entry depends on any other temperature or wavelength. Consequently a 2-D temperature image loses its shape: converting an R x C image without a LUT returns R*C values. With numpy arrays, no wavelengths or no temperatures is a ValueError, not an empty table.", "quantifier": "all lists of temperatures and wavelengths", "why_tests_cant": "Sizes and contents are unbounded.", "anchors": ["pyspectral/blackbody.py:planck", "pyspectral/radiance_tb_conversion.py:RadTbConverter.tb2radiance"]}
{"id": "C08", "title": "Chunking does not change brightness temperatures", "statement": "For any way of cutting the radiance array into chunks, blackbody_rad2temp/blackbody_wn_rad2temp on the chunked (dask or xarray) array give exactly the values of the unchunked call, in the same order; the xarray input object is not modified. An object that has chunks but is neither a dask nor an xarray array is refused with NotImplementedError. A Python float as radiance fails with AttributeError in blackbody_rad2temp, although the documentation accepts scalars. Passing the radiance by keyword fails with IndexError whatever its value.", "quantifier": "all arrays, all chunkings, all element-wise functions", "why_tests_cant": "There are infinitely many chunkings.", "anchors": ["pyspectral/utils.py:use_map_blocks_on", "pyspectral/blackbody.py:blackbody_rad2temp"]}
{"id": "C09", "title": "Band radiance is a weighted mean of the Planck function", "statement": "With a non-negative response having positive integral over increasing wavelengths, the normalised band radiance lies between the smallest and the largest Planck radiance over the band's wavelengths, and the non-normalised radiance equals the normalised one times the response integral. The unit string is per metre or per inverse metre for normalised radiances, without a spectral unit for integrated ones.", "quantifier": "all responses, wavelength grids, temperatures > 1e-6", "why_tests_cant": "The claim ranges over a continuum of real inputs; a test samples finitely many points.", "anchors": ["pyspectral/radiance_tb_conversion.py:RadTbConverter.tb2radiance"]}
{"id": "C10", "title": "Band radiance increases with temperature", "statement": "With a non-negative, not identically zero response over strictly increasing positive wavelengths (or wavenumbers), tb2radiance is strictly increasing in brightness temperature, normalised or not.", "quantifier": "all responses, grids and temperature pairs", "why_tests_cant": "The claim ranges over a continuum of real inputs; a test samples finitely many points.", "anchors": ["pyspectral/radiance_tb_conversion.py:RadTbConverter.tb2radiance"]}
{"id": "C11", "title": "Band radiance does not depend on the response's scale or the grid's direction", "statement": "Multiplying the response by any non-zero constant leaves the normalised radiance unchanged and scales the integrated radiance by it; reversing the (wavelength, response) samples leaves the normalised radiance unchanged.", "quantifier": "all responses, grids, constants", "why_tests_cant": "The claim ranges over a continuum of real inputs; a test samples finitely many points.", "anchors": ["pyspectral/radiance_tb_conversion.py:RadTbConverter.tb2radiance"]}
{"id": "C12", "title": "LUT lookup never leaves the table and is accurate to one table step", "statement": "For every input value (including NaN and infinities) the LUT lookup returns an entry of the table. In exact arithmetic, for the default 150-360 K table any temperature T in range gets the entry of the largest table temperature <= T (so the temperature error is in [0, 0.1 K)), temperatures below/above the table get the first/last entry, and the looked-up radiance is non-decreasing in T up to 3276.7 K.", "quantifier": "all input values; all non-empty tables", "why_tests_cant": "The claim ranges over a continuum of real inputs; a test samples finitely many points.", "anchors": ["pyspectral/radiance_tb_conversion.py:RadTbConverter.tb2radiance", "pyspectral/radiance_tb_conversion.py:RadTbConverter.make_tb2rad_lut"]}
{"id": "C13", "title": "LUT lookup in binary64 and its int16 overflow", "statement": "Computed in IEEE binary64 exactly as the code does, every temperature that is a multiple of 0.1 K from 150.0 to 359.9 hits its own table row, and every double from 150 to 360 gets the radiance of a table temperature less than 0.1 K plus rounding below it; but the temperatures stored in the generated table itself (np.arange) are slightly low, so looking up a stored table temperature returns the row before for all but the first three rows. With 16-bit wrap-around, temperatures from 3426.8 K to 6703.6 K get the coldest row's radiance, so monotonicity fails there.", "quantifier": "all 2100 table rows (complete finite domain) and all doubles; all reals for the wrap-around", "why_tests_cant": "Which rows are off by one cannot be seen from exact-arithmetic reasoning or a handful of samples.", "anchors": ["pyspectral/radiance_tb_conversion.py:RadTbConverter.tb2radiance", "pyspectral/radiance_tb_conversion.py:RadTbConverter.make_tb2rad_lut"]}
{"id": "C14", "title": "SEVIRI regression conversion round trip", "statement": "For every band/satellite pair in the SEVIRI table, radiance2tb(tb2radiance(T)) = T for every T >= 0, tb2radiance(radiance2tb(L)) = L for L > 0, and the radiance is positive and strictly increasing in T (exact arithmetic).", "quantifier": "all table entries, all T and L", "why_tests_cant": "The claim ranges over a continuum of real inputs; a test samples finitely many points.", "anchors": ["pyspectral/radiance_tb_conversion.py:SeviriRadTbConverter.tb2radiance", "pyspectral/radiance_tb_conversion.py:SeviriRadTbConverter.radiance2tb", "pyspectral/radiance_tb_conversion.py:SEVIRI"]}
{"id": "C15", "title": "Which SEVIRI channels can be converted", "statement": "The converter works for exactly Meteosat-8 and Meteosat-9 with the eight internal band names or those of their standard aliases that translate to them; the aliases WV_062 and WV_073 translate to names absent from the coefficient table and always fail with KeyError, Meteosat-10 IR3.9 fails with IndexError and every other satellite with KeyError. Supplying a LUT or asking for integrated radiance raises NotImplementedError and a non-string band AttributeError.", "quantifier": "all platform and band strings", "why_tests_cant": "Strings are unbounded; the claim says nothing else works.", "anchors": ["pyspectral/radiance_tb_conversion.py:SeviriRadTbConverter", "pyspectral/radiance_tb_conversion.py:SEVIRI", "pyspectral/bandnames.py:BANDNAMES"]}
{"id": "C16", "title": "Wave-space argument of the converter", "statement": "Construction fails with AttributeError exactly when wavespace is neither 'wavelength' nor 'wavenumber' and before any response data are read. In wavenumber space a converter built from a band name works, but selecting the band by a number, converting radiance back to brightness temperature, or building a NIR calculator always fails with KeyError, because the central wavelength is dropped.", "quantifier": "all wavespace strings, all response data", "why_tests_cant": "Ranges over all strings and response dictionaries.", "anchors": ["pyspectral/radiance_tb_conversion.py:RadTbConverter.__init__", "pyspectral/radiance_tb_conversion.py:RadTbConverter._get_rsr", "pyspectral/radiance_tb_conversion.py:RadTbConverter.radiance2tb", "pyspectral/near_infrared_reflectance.py:Calculator"]}
{"id": "C17", "title": "Exactly which pixels of the 3.x um reflectance are masked", "statement": "A pixel of the reflectance is NaN if the sun zenith angle is below 0 or above the masking limit (when one is set), if the 3.x um temperature is NaN, or if solar radiance minus (corrected) thermal radiance is below 0.005; otherwise, if the sun angle and both radiances are finite it is a finite number (so a NaN thermal temperature, which the table lookup turns into the radiance of its first row, is not masked). Pixels do not influence each other. With the default arguments the limit is 85 degrees and between 0 and 85 degrees the sun angle is used as it is.", "quantifier": "all images, all limits", "why_tests_cant": "The claim ranges over a continuum of real inputs; a test samples finitely many points.", "anchors": ["pyspectral/near_infrared_reflectance.py:Calculator.reflectance_from_tbs", "pyspectral/near_infrared_reflectance.py:Calculator._calculate_r3x"]}
{"id": "C18", "title": "Energy closure of the 3.x um reflectance", "statement": "For every unmasked pixel with finite inputs the measured radiance equals r times the solar radiance plus (1 - r) times the corrected thermal radiance.", "quantifier": "all finite pixels", "why_tests_cant": "The claim ranges over a continuum of real inputs; a test samples finitely many points.", "anchors": ["pyspectral/near_infrared_reflectance.py:Calculator._calculate_r3x"]}
{"id": "C19", "title": "Range of the 3.x um reflectance", "statement": "For unmasked pixels the reflectance lies in [0, 1] exactly when the measured radiance lies between the corrected thermal radiance and the solar radiance. The documented promise 'should be between 0 and 1' therefore does not hold in general: there are inputs with unmasked values below 0 and above 1.", "quantifier": "all finite pixels", "why_tests_cant": "The claim ranges over a continuum of real inputs; a test samples finitely many points.", "anchors": ["pyspectral/near_infrared_reflectance.py:Calculator.reflectance_from_tbs"]}
{"id": "C20", "title": "Monotonicity of the 3.x um reflectance", "statement": "For unmasked pixels, with the other inputs fixed, the reflectance is strictly increasing in the measured 3.x radiance, and non-increasing in the thermal radiance as long as the measured radiance does not exceed the solar one.", "quantifier": "all pairs of finite pixels", "why_tests_cant": "The claim ranges over a continuum of real inputs; a test samples finitely many points.", "anchors": ["pyspectral/near_infrared_reflectance.py:Calculator._calculate_r3x"]}
{"id": "C21", "title": "Sun zenith clipping of the solar term", "statement": "The solar radiance used for a pixel is flux*cos(z)/pi with z clipped to [0, sunz_threshold]: it never changes beyond the threshold, is non-increasing in the zenith angle on [0, 180], and for thresholds up to 90 degrees lies between 0 and flux/pi; with masking disabled (None) no pixel is lost because of its sun zenith angle.", "quantifier": "all sun zenith angles, all thresholds in [0, 90]", "why_tests_cant": "The claim ranges over a continuum of real inputs; a test samples finitely many points.", "anchors": ["pyspectral/near_infrared_reflectance.py:Calculator._calculate_solar_radiance"]}
{"id": "C22", "title": "CO2 correction factor", "statement": "For 0 < T13 <= T11 the Rosenfeld factor lies between (3/4)^4 and 1, equals 1 iff T13 = T11, and is increasing in T13. Any other method is rejected with AttributeError leaving the previously stored factor unchanged. A call without a CO2 channel uses factor 1 whatever was used before.", "quantifier": "all temperature pairs, all method strings, all previous states", "why_tests_cant": "The claim ranges over a continuum of real inputs; a test samples finitely many points.", "anchors": ["pyspectral/near_infrared_reflectance.py:Calculator.derive_rad39_corr", "pyspectral/near_infrared_reflectance.py:Calculator._calculate_rad3x_correction"]}
{"id": "C23", "title": "Reflectance calls are independent of the object's history", "statement": "The result of reflectance_from_tbs depends only on the calculator's configuration and that call's arguments, never on earlier calls (successful, with or without CO2, or failed).", "quantifier": "all sequences of earlier method calls", "why_tests_cant": "Histories are unbounded sequences.", "anchors": ["pyspectral/near_infrared_reflectance.py:Calculator.reflectance_from_tbs", "pyspectral/near_infrared_reflectance.py:Calculator.derive_rad39_corr", "pyspectral/near_infrared_reflectance.py:Calculator.emissive_part_3x"]}
{"id": "C24", "title": "Emissive part", "statement": "After a reflectance call the emissive radiance per pixel is thermal*(1-r) where r is a number and the measured 3.x radiance where it is masked. Without any reflectance call it is None (tb=False) or AttributeError (tb=True). If a reflectance call fails half way, a following emissive_part_3x mixes the new radiances with the old reflectance.", "quantifier": "all histories and pixels", "why_tests_cant": "Histories are unbounded sequences.", "anchors": ["pyspectral/near_infrared_reflectance.py:Calculator.emissive_part_3x"]}
{"id": "C25", "title": "Name and location of the cached radiance table", "statement": "If the configuration names no file, the cache path is tb2rad_dir/tb2rad_lut_<platform>_<instrument>_<band>.npz in lower case. A configured name gets '.npz' appended exactly once, and if its directory does not exist the base name is placed in tb2rad_dir. A per-band dictionary is consulted by exact or lower-case band name, falling back to the default name.", "quantifier": "all configurations, all platform/instrument/band strings", "why_tests_cant": "Configurations are unbounded.", "anchors": ["pyspectral/near_infrared_reflectance.py:Calculator._set_lutfile", "pyspectral/near_infrared_reflectance.py:Calculator._lutfile_from_config", "pyspectral/near_infrared_reflectance.py:Calculator._lutfile_from_dict"]}
{"id": "C26", "title": "Reuse of the cached radiance table", "statement": "Along any history of calculators with the same response data, each gets the table it would have generated itself. But the file name ignores the detector, so a calculator for another detector silently reuses the first one's table; and a crash while the table is being written leaves a partial file that every later calculator tries to read instead of regenerating.", "quantifier": "all histories of constructor calls, all crash points", "why_tests_cant": "Histories and crash points.", "anchors": ["pyspectral/near_infrared_reflectance.py:Calculator._set_lut", "pyspectral/near_infrared_reflectance.py:Calculator._set_lutfile", "pyspectral/radiance_tb_conversion.py:RadTbConverter.make_tb2rad_lut"]}
{"id": "C27", "title": "Accepted NIR bands", "statement": "A calculator can only be built for a band whose wavelength (given number, or central wavelength of the first detector) lies in [3.5, 3.95] um; (NaN passes the test), others raise NotImplementedError and no cache file is written. Mismatching temperature shapes raise ValueError and leave the object unchanged. A sun zenith or CO2 array whose shape numpy cannot broadcast against the image raises ValueError and the reflectance of the last call stays.", "quantifier": "all wavelengths and shapes", "why_tests_cant": "The claim ranges over a continuum of real inputs; a test samples finitely many points.", "anchors": ["pyspectral/near_infrared_reflectance.py:Calculator._set_bandname_and_wavelength", "pyspectral/near_infrared_reflectance.py:Calculator.reflectance_from_tbs"]}
{"id": "C28", "title": "Solar spectrum conversion to wavenumber conserves energy", "statement": "Every sample of the converted spectrum satisfies E_nu * nu = 1000 * E_lambda * lambda in the documented units (mW vs W) at nu = 1e4/lambda, samples stay paired, and increasing positive wavelengths become increasing wavenumbers.", "quantifier": "all spectra", "why_tests_cant": "The claim ranges over a continuum of real inputs; a test samples finitely many points.", "anchors": ["pyspectral/solar.py:SolarIrradianceSpectrum.convert2wavenumber"]}
{"id": "C29", "title": "Solar constant in both spaces", "statement": "For a spectrum with non-negative irradiance over increasing positive wavelengths whose consecutive ratio is at most q, the wavenumber-space solar constant (mW) is between 1000/q and 1000*q times the wavelength-space one. With neither coordinate loaded TypeError is raised.", "quantifier": "all spectra", "why_tests_cant": "The claim ranges over a continuum of real inputs; a test samples finitely many points.", "anchors": ["pyspectral/solar.py:SolarIrradianceSpectrum.solar_constant"]}
{"id": "C30", "title": "In-band irradiance is a mean; flux is its product with the equivalent width", "statement": "For any band the in-band irradiance equals flux / equivalent width; it lies between the minimum and maximum of the resampled spectrum when the resampled response is non-negative; scaling the solar spectrum scales both; adding detectors does not affect detector 1.", "quantifier": "all spectra, responses, interpolation results", "why_tests_cant": "The claim ranges over a continuum of real inputs; a test samples finitely many points.", "anchors": ["pyspectral/solar.py:SolarIrradianceSpectrum._band_calculations", "pyspectral/solar.py:SolarIrradianceSpectrum.inband_solarflux", "pyspectral/solar.py:SolarIrradianceSpectrum.inband_solarirradiance"]}
{"id": "C31", "title": "Resampling grids always agree", "statement": "The response and the solar spectrum are always resampled on the same number of points from band start to band end inclusive, so no shape mismatch can occur and no sample is masked away; the step differs from the requested one dl by at most dl/(2n), n being the number of steps. Exception: a band narrower than dl/2 is resampled on a single point, so its flux is 0 and its irradiance NaN, without an error.", "quantifier": "all start < end, all positive resolutions", "why_tests_cant": "The claim ranges over a continuum of real inputs; a test samples finitely many points.", "anchors": ["pyspectral/solar.py:SolarIrradianceSpectrum._band_calculations", "pyspectral/solar.py:SolarIrradianceSpectrum.interpolate"]}
{"id": "C32", "title": "In-band calculations do not interfere", "statement": "Any sequence of inband_solarflux / inband_solarirradiance / solar_constant calls on one spectrum object gives each call the value it has on a fresh object. An explicit interpolate(dlambda=x) call, however, changes the resolution of all later calls.", "quantifier": "all call sequences", "why_tests_cant": "Histories are unbounded sequences.", "anchors": ["pyspectral/solar.py:SolarIrradianceSpectrum.interpolate", "pyspectral/solar.py:SolarIrradianceSpectrum._band_calculations"]}
{"id": "C33", "title": "Zenith angles are always clipped into the LUT", "statement": "For every zenith angle (finite, infinite or NaN) and every LUT maximum secant > 1 the clipped angle is in [0, arccos(1/secmax)] degrees, its secant is in [1, secmax], angles already inside are unchanged, NaN becomes 0, clipping is idempotent and monotone.", "quantifier": "all angles incl. NaN/inf, all secmax", "why_tests_cant": "The claim ranges over a continuum of real inputs; a test samples finitely many points.", "anchors": ["pyspectral/rayleigh.py:_clip_angles_inside_coordinate_range"]}
{"id": "C34", "title": "Wavelength interpolation in the Rayleigh LUT", "statement": "For every increasing wavelength axis and every wavelength strictly inside it, neighbouring indices are valid, the weights are in [0,1] and sum to 1, the two nodes bracket the wavelength, and the blended LUT lies between the two neighbours and reproduces a node exactly.", "quantifier": "all increasing axes, all wavelengths", "why_tests_cant": "The claim ranges over a continuum of real inputs; a test samples finitely many points.", "anchors": ["pyspectral/rayleigh.py:_get_wavelength_index_and_factor", "pyspectral/rayleigh.py:_get_wavelength_adjusted_lut_rayleigh_reflectance"]}
{"id": "C35", "title": "Bands outside the LUT wavelength range", "statement": "A wavelength outside or exactly on the ends of the LUT axis (or NaN) gives zero correction for every pixel (NaN where a given red band is NaN or infinite), so the correction jumps at the end nodes. But when dask is installed and the inputs are plain numpy arrays and no red band is given, such a band raises AttributeError instead.", "quantifier": "all wavelengths, all pixel values, with/without dask, with/without red band", "why_tests_cant": "Combination of unbounded values with environment.", "anchors": ["pyspectral/rayleigh.py:Rayleigh.get_reflectance"]}
{"id": "C36", "title": "Rayleigh correction is between 0 and 100 percent", "statement": "For every LUT and all angles, the returned correction of a pixel is in [0, 100] or NaN, and is NaN only if the azimuth difference, the LUT values or the red band value are not finite numbers.", "quantifier": "all LUT contents, angles, red band values", "why_tests_cant": "The claim ranges over a continuum of real inputs; a test samples finitely many points.", "anchors": ["pyspectral/rayleigh.py:Rayleigh.get_reflectance"]}
{"id": "C37", "title": "Angle interpolation stays within the LUT values", "statement": "For any zenith angles and an azimuth difference in [0,180], the interpolated reflectance (before the red-band step) lies between the smallest and largest LUT value (times 100), and equals a node's value at the node of a table with equidistant axes; azimuth differences outside [0,180] extrapolate.", "quantifier": "all grids, all angles", "why_tests_cant": "The claim ranges over a continuum of real inputs; a test samples finitely many points.", "anchors": ["pyspectral/rayleigh.py:Rayleigh._interp_rayleigh_refl_by_angles"]}
{"id": "C38", "title": "Cloud relaxation with the red band", "statement": "Red reflectance below 20% leaves the correction untouched, at or above 100% it becomes 0, in between it decreases linearly and continuously; a larger red reflectance never gives a larger correction (for non-negative LUT values). Without red band the clipped value is returned unchanged.", "quantifier": "all red-band and correction values", "why_tests_cant": "The claim ranges over a continuum of real inputs; a test samples finitely many points.", "anchors": ["pyspectral/rayleigh.py:Rayleigh._relax_rayleigh_refl_correction_where_cloudy", "pyspectral/rayleigh.py:Rayleigh.get_reflectance"]}
{"id": "C39", "title": "High-zenith reduction", "statement": "The reduction multiplies the correction by a factor in [0,1]: exactly 1 below the threshold, non-increasing in zenith angle, reaching 0 at maxzen when strength is 1 and staying 0 beyond; strength 0 changes nothing.", "quantifier": "all zenith angles, thresholds < maxzen, strengths >= 0", "why_tests_cant": "The claim ranges over a continuum of real inputs; a test samples finitely many points.", "anchors": ["pyspectral/rayleigh.py:Rayleigh.reduce_rayleigh_highzenith"]}
{"id": "C40", "title": "Sensor name normalisation for Rayleigh", "statement": "For every platform and sensor: unknown platforms keep the sensor, single-sensor platforms override it, multi-sensor platforms accept exactly their sensors (with every '/' deleted from the accepted name) and otherwise raise ValueError; the result never contains '/'.", "quantifier": "all platform and sensor strings", "why_tests_cant": "Strings are unbounded.", "anchors": ["pyspectral/rayleigh.py:normalize_sensor", "pyspectral/utils.py:INSTRUMENTS"]}
{"id": "C41", "title": "Rayleigh construction: validation and downloading", "statement": "Construction fails with AttributeError exactly when the atmosphere or the aerosol type is unsupported (atmosphere checked first) or ValueError for the sensor rule, with no download attempted; otherwise LUTs are downloaded exactly when the version file is not the expected version and downloading is enabled (the option download_from_internet is present and true), and only for the requested aerosol type. Every supported aerosol type has a version entry, a distinct version file name and a distinct URL.", "quantifier": "all names, all file system contents, all configurations", "why_tests_cant": "Ranges over all names and file system states.", "anchors": ["pyspectral/rayleigh.py:RayleighConfigBaseClass.__init__", "pyspectral/rayleigh.py:Rayleigh.__init__", "pyspectral/utils.py:AEROSOL_TYPES", "pyspectral/utils.py:ATM_CORRECTION_LUT_VERSION", "pyspectral/utils.py:HTTPS_RAYLEIGH_LUTS"]}
{"id": "C42", "title": "Checking and downloading Rayleigh LUTs", "statement": "check_and_download requests exactly the aerosol types among those asked for whose version is not current, once each per mention and in order, and nothing at all in dry-run mode or when all are current; after it succeeds, a second check requests nothing provided each archive contains its current version file. An unsupported type or an undecodable version file makes it fail before any request. (Finding: the download_from_internet setting is not consulted here, so it downloads even when downloading is disabled.)", "quantifier": "all file system states, all aerosol type lists, all archives", "why_tests_cant": "Histories of file system states.", "anchors": ["pyspectral/rayleigh.py:check_and_download", "pyspectral/utils.py:download_luts"]}
{"id": "C43", "title": "Band lookup with alternative names", "statement": "Indexing a response dictionary returns the band stored under the given name if present; otherwise the band under the instrument's standard translation, or (only if the instrument has no translation for it) the generic translation; otherwise KeyError. get() returns the default exactly when indexing would raise, and does not raise itself - except that a response object whose instrument is a list of names (the default for a platform with several instruments) raises TypeError for every name not stored, from indexing as well as from get(). Membership ('in') does not follow translations.", "quantifier": "all dictionaries, instruments, keys", "why_tests_cant": "All dictionaries and strings.", "anchors": ["pyspectral/rsr_reader.py:RSRDict.__getitem__", "pyspectral/rsr_reader.py:RSRDict.get"]}
{"id": "C44", "title": "Arguments of RelativeSpectralResponse", "statement": "Exactly these argument combinations are accepted: a filename alone, or both platform and instrument. All others raise ValueError before any download and before any response file is opened (only the configuration is read). With a filename no download ever happens.", "quantifier": "all eight presence combinations and all values", "why_tests_cant": "Covers every argument value and file system state.", "anchors": ["pyspectral/rsr_reader.py:RelativeSpectralResponse._sanitize_inputs", "pyspectral/rsr_reader.py:RelativeSpectralResponse.__init__"]}
{"id": "C45", "title": "When RSR data are downloaded", "statement": "download_rsr_updates returns True exactly when the version file is missing or its first line (stripped) differs from the required version (an undecodable version file raises instead); it downloads exactly when additionally downloading is enabled and it is not a dry run; downloading is enabled exactly when the configuration has the option download_from_internet with a true value, and is off when the option is absent. After a successful download of an archive containing the current version file into the RSR directory, any number of later checks download nothing; if dest_dir differs from the RSR directory every later check downloads again.", "quantifier": "all file system contents, options, and histories of checks", "why_tests_cant": "Histories and file contents.", "anchors": ["pyspectral/rsr_reader.py:_RSRDataBase.download_rsr_updates", "pyspectral/rsr_reader.py:check_and_download", "pyspectral/utils.py:download_rsr"]}
{"id": "C46", "title": "Interrupted downloads", "statement": "A download interrupted at any point (between or inside writes) leaves files outside the archive's members and the tarball untouched. If the version file is the last archive member, a later check re-downloads whenever anything is missing, so a completed later run always ends in the fully extracted state. If the version file is not last, there is a crash point after which every later check believes the data are current although files are missing.", "quantifier": "all archives, all crash points, all prior file system states", "why_tests_cant": "Crash points cannot be enumerated by unit tests.", "anchors": ["pyspectral/utils.py:_download_tarball_and_extract", "pyspectral/utils.py:download_rsr", "pyspectral/rsr_reader.py:_RSRDataBase.rsr_data_version_uptodate"]}
{"id": "C47", "title": "Download transfer", "statement": "The tarball written is the exact concatenation of the received chunks, independent of how they are cut and of empty keep-alive chunks; after success the tarball is gone and every archive member has its content; an HTTP error status leaves the file system unchanged.", "quantifier": "all chunk sequences and archives", "why_tests_cant": "All chunkings.", "anchors": ["pyspectral/utils.py:_download_tarball_and_extract"]}
{"id": "C48", "title": "Wavenumber conversion of responses", "statement": "Conversion yields for each band and detector wavenumber = 1e4/wavelength(um) in reversed order with responses reversed alike: the same (wave, response) pairs, increasing wavelengths give increasing wavenumbers, length preserved, the original dictionary unchanged, detectors already in wavenumber space copied as they are; all other entries (e.g. central wavelength) are dropped.", "quantifier": "all response dictionaries", "why_tests_cant": "All dictionaries.", "anchors": ["pyspectral/utils.py:convert2wavenumber"]}
{"id": "C49", "title": "In-place conversion of a response object", "statement": "The first convert() switches to wavenumbers, adds the central wavenumber and removes wavelengths; every further convert() raises NotImplementedError and changes nothing; after conversion integral() raises KeyError.", "quantifier": "all response data, all call histories", "why_tests_cant": "Histories are unbounded sequences.", "anchors": ["pyspectral/rsr_reader.py:RelativeSpectralResponse.convert", "pyspectral/rsr_reader.py:RelativeSpectralResponse.integral"]}
{"id": "C50", "title": "Central wavelength", "statement": "For a non-negative response with positive integral over increasing wavelengths, the central wave lies within [first, last] wavelength, is unchanged by scaling the response or reversing the samples, scales/shifts with the wavelength axis, and for a symmetric response is the centre of symmetry. The Rayleigh weighting (1/wavelength^4) also stays within the band.", "quantifier": "all responses and grids", "why_tests_cant": "The claim ranges over a continuum of real inputs; a test samples finitely many points.", "anchors": ["pyspectral/utils.py:get_central_wave"]}
{"id": "C51", "title": "Band name from wavelength", "statement": "The candidates are exactly the bands whose first detector's central wavelength is closer than both epsilon and 2.0 um; none gives None, one gives its (translated) name, several raise AttributeError or, on request, give all in file order. The translated name is not always a key of the response dictionary.", "quantifier": "all response dictionaries, wavelengths, epsilons", "why_tests_cant": "All dictionaries.", "anchors": ["pyspectral/utils.py:get_bandname_from_wavelength"]}
{"id": "C52", "title": "Sorting and de-duplicating responses", "statement": "The result has strictly increasing wavelengths, exactly the distinct input wavelengths, every (wavelength, response) pair comes from the input, and already strictly increasing input is unchanged; this holds for any sorting algorithm (stable or not).", "quantifier": "all finite arrays, all sort implementations", "why_tests_cant": "All arrays and tie orders.", "anchors": ["pyspectral/utils.py:sort_data"]}
{"id": "C53", "title": "Written RSR files and reading them back", "statement": "After the converter wrote a file, the reader returns the bands, the responses (as 32-bit floats) and the central wavelengths that were computed when writing; but the wavelength dataset is filled with a response array, so two conversions with equal responses and different wavelengths read back the same wavelengths, and the original wavelengths are lost. A file with several detectors is readable exactly when the detectors are named det-1..det-n; it then carries the last detector's responses as everyone's wavelengths.", "quantifier": "all sensors' response data", "why_tests_cant": "All data sets.", "anchors": ["pyspectral/utils.py:convert2hdf5", "pyspectral/utils.py:_save_wavelengths", "pyspectral/rsr_reader.py:_get_relative_spectral_responses"]}
{"id": "C54", "title": "Reading RSR files: detectors and units", "statement": "For every file layout (per-detector or flat), the reader returns exactly det-1..det-n (n=1 when not stated), each with the detector's own data when present and the band's shared data otherwise, and wavelengths in micrometres equal to stored value * scale * 1e6. It fails, with KeyError, exactly when some needed data is missing (given readable text attributes).", "quantifier": "all file contents", "why_tests_cant": "All file layouts.", "anchors": ["pyspectral/rsr_reader.py:_get_relative_spectral_responses", "pyspectral/rsr_reader.py:_get_band_wavelengths_per_detector", "pyspectral/rsr_reader.py:_detector_names"]}
{"id": "C55", "title": "Platform and instrument names from files", "statement": "Platform name comes from 'platform_name', else 'platform'-'sat_number', else None, then the OSCAR translation; the instrument from 'sensor' else the platform's default entry (which may be a list, or None). Translation is idempotent. A 'platform_name' that is not text is an error even when the fallback attributes exist.", "quantifier": "all attribute sets", "why_tests_cant": "All attribute values.", "anchors": ["pyspectral/rsr_reader.py:_get_platform_name", "pyspectral/rsr_reader.py:_get_instrument"]}
{"id": "C56", "title": "Full width at half maximum", "statement": "The FWHM is the distance between the outermost samples whose response is at least 0.5; it is defined (no ValueError) exactly when two samples reach 0.5; for a response whose maximum is 1 that is half of the maximum, but for any other maximum it is not: scaling the response changes the result.", "quantifier": "all responses", "why_tests_cant": "The claim ranges over a continuum of real inputs; a test samples finitely many points.", "anchors": ["pyspectral/utils.py:get_fullwidth_halfmax"]}
{"id": "C57", "title": "Wave range above a threshold", "statement": "get_wave_range returns the first and last wavelengths whose response exceeds the threshold, with all responses outside that span at or below the threshold; for increasing wavelengths min <= max, and raising the threshold never widens the range; if no sample exceeds it IndexError is raised.", "quantifier": "all responses, thresholds", "why_tests_cant": "The claim ranges over a continuum of real inputs; a test samples finitely many points.", "anchors": ["pyspectral/utils.py:get_wave_range"]}
{"id": "C58", "title": "Integrated energy bounds", "statement": "For a non-negative response with positive sum over increasing wavelengths, the lower bound is the first wavelength whose cumulated energy reaches p percent and the upper the last whose cumulated energy is at most 100-p; scaling the response does not change them; raising p never moves the lower bound down or the upper bound up. IndexError is raised exactly when no sample qualifies for one of the bounds. The lower bound may exceed the upper one.", "quantifier": "all responses, percentages in (0, 50]", "why_tests_cant": "The claim ranges over a continuum of real inputs; a test samples finitely many points.", "anchors": ["pyspectral/utils.py:get_bounds_integrated_energy"]}
{"id": "C59", "title": "Text conversion", "statement": "convert2str returns a str unchanged, decodes valid UTF-8 bytes, unwraps one-element string/bytes arrays, raises UnicodeDecodeError for bytes that are not UTF-8 and AttributeError for a one-element object array holding something that is not text, and ValueError for anything else, never returns anything but text, and is idempotent. Bytes are decoded exactly if they are the UTF-8 form of some Unicode text (overlong forms, surrogates and truncated sequences are refused).", "quantifier": "all values", "why_tests_cant": "All values.", "anchors": ["pyspectral/utils.py:convert2str", "pyspectral/utils.py:np2str", "pyspectral/utils.py:bytes2string"]}
{"id": "C60", "title": "Instrument name adjustment", "statement": "The result is lower case without '/' or '-' and always denotes an instrument of the platform if the platform is known. For single-instrument platforms the adjustment is idempotent and ignores the given name. For multi-instrument platforms with a dash in a name it is not idempotent: adjusting FY-3A 'mersi-1' twice gives 'virr'.", "quantifier": "all platform and instrument strings", "why_tests_cant": "All strings.", "anchors": ["pyspectral/utils.py:check_and_adjust_instrument_name", "pyspectral/utils.py:INSTRUMENTS"]}
{"id": "C61", "title": "Instrument identity test", "statement": "Two names are identical exactly when equal or when the second is the dash form of the first's slash form; it is reflexive, but not symmetric; non-strings raise ValueError.", "quantifier": "all pairs of values", "why_tests_cant": "All strings.", "anchors": ["pyspectral/utils.py:are_instruments_identical"]}
{"id": "C62", "title": "Aerosol type selection", "statement": "The deprecated singular argument, if given, wins and a list/tuple/set is used as is; otherwise the plural argument; otherwise all types in table order.", "quantifier": "all argument combinations", "why_tests_cant": "All values.", "anchors": ["pyspectral/utils.py:_get_aerosol_types"]}
{"id": "C63", "title": "Turning logging on and off", "statement": "Along any history the root logger has at most one console handler added by logging_on; no record is printed twice; after logging_on(level), if logging was never switched off, exactly the records of that level or above are printed (debug_on: level 10); after logging_off nothing is printed, and handlers that other code had attached to the root logger are gone too. However once logging was switched on and off, switching it on again prints nothing.", "quantifier": "all sequences of logging_on / debug_on / logging_off / get_logger", "why_tests_cant": "Histories are unbounded sequences.", "anchors": ["pyspectral/utils.py:logging_on", "pyspectral/utils.py:logging_off", "pyspectral/utils.py:get_logger"]}
{"id": "C64", "title": "Configuration merging", "statement": "Merging a configuration tree into another sets every leaf of the new one, keeps every path of the old one that the new one does not touch, is idempotent, and merging into an empty dictionary reproduces the tree; a non-empty mapping over a non-mapping is the only failure, raising TypeError, or AttributeError when the first item of that mapping is itself a mapping.", "quantifier": "all configuration trees", "why_tests_cant": "All trees.", "anchors": ["pyspectral/config.py:recursive_dict_update"]}
{"id": "C65", "title": "Configuration selection", "statement": "An explicit file wins over PSP_CONFIG_FILE, which wins over the built-in file; a dangling PSP_CONFIG_FILE raises IOError (never silently the built-in). The result always has rsr_dir and rayleigh_dir, existing on disk, equal to the configured value (home-expanded) or the user data directory; all other options are untouched. An empty configuration file raises AttributeError.", "quantifier": "all environments, files", "why_tests_cant": "All environments.", "anchors": ["pyspectral/config.py:get_config", "pyspectral/config.py:_get_env_or_builtin_config_path"]}
{"id": "C66", "title": "Limb-cooling correction per pixel", "statement": "Each pixel depends only on its own temperature and zenith angle: +tau0(T) at exactly 0 degrees, +tau(T)*delta(z) for 0<z<90, unchanged otherwise (incl. NaN angle). For 0<z<90 it never lowers the temperature and is non-decreasing in z; dask and numpy paths agree on unmasked data; the caller's array is not modified. A plain numpy array (neither masked nor dask) is refused with AttributeError; a non-finite temperature in a masked array becomes masked.", "quantifier": "all images", "why_tests_cant": "The claim ranges over a continuum of real inputs; a test samples finitely many points.", "anchors": ["pyspectral/atm_correction_ir.py:viewzen_corr", "pyspectral/atm_correction_ir.py:AtmosphericalCorrection.get_correction"]}
{"id": "C67", "title": "Limb-cooling correction is discontinuous at nadir", "statement": "As the zenith angle tends to 0 the correction tends to 0, but at exactly 0 it is tau0(T), which is positive above 210 K and negative below: the correction can lower the temperature at nadir and jumps for every T != 210 K. A truthy atmosphere argument raises AttributeError.", "quantifier": "all temperatures", "why_tests_cant": "The claim ranges over a continuum of real inputs; a test samples finitely many points.", "anchors": ["pyspectral/atm_correction_ir.py:viewzen_corr", "pyspectral/atm_correction_ir.py:AtmosphericalCorrection.__init__"]}
{"id": "C68", "title": "Configuration override is scoped", "statement": "override_config restores PSP_CONFIG_FILE to its previous value (or absence) for every body, whether it returns or raises; other variables, files and directories are as the body left them, except that the temporary configuration directory is gone; the outcome is the body's, unless the variable was unset before and the body itself deletes it (then KeyError). Overrides nest: the innermost file is in force and with two levels the outcome is always the body's.", "quantifier": "all bodies, nestings, environments", "why_tests_cant": "All bodies.", "anchors": ["pyspectral/testing.py:override_config"]}
{"id": "C69", "title": "Mocked data are never re-downloaded", "statement": "Inside mock_pyspectral_downloads or mock_rayleigh with default versions, every sequence of checks and constructions leaves the world unchanged, so no network request is made even if an extra option enables downloading; with existing_version=False or an old version (tables) or no or an old version (responses) and downloads enabled, a request is made, unless an exception is raised before. Every table file a corrector can be constructed for exists inside the mock. Inside mock_rsr and mock_tb_conversion the configuration read shows exactly the directories and the download setting that were asked for, the version file holds the version asked for, and the body's requests and result are passed through; with downloads off mock_rsr never requests anything, whatever version is mocked. With the default options the mock never requests responses, whatever version is mocked.", "quantifier": "all aerosol types, all sequences of checks", "why_tests_cant": "All histories.", "anchors": ["pyspectral/testing.py:mock_rayleigh_luts", "pyspectral/testing.py:mock_rsr_files", "pyspectral/testing.py:forbid_pyspectral_downloads"]}
{"id": "C70", "title": "Band name translation tables", "statement": "Every instrument-specific translation target is a fixed point or unmapped (translating twice equals translating once), and generic numeric names '1'..'36' map to 'chN' exactly.", "quantifier": "all instruments and all strings", "why_tests_cant": "All strings, including those not in the table.", "anchors": ["pyspectral/bandnames.py:BANDNAMES"]}
{"id": "C71", "title": "Integer temperatures destroy the 3.x um reflectance", "statement": "If both temperature arrays of reflectance_from_tbs (or single values) have an integer dtype, then every pixel with finite radiances is NaN or 0, whatever the temperatures, because the in-band integral is cast to that dtype and is below 1.", "quantifier": "all integer images, all bands whose in-band integral is below 1", "why_tests_cant": "Ranges over all images, bands and tables; a test fixes one.", "anchors": ["pyspectral/near_infrared_reflectance.py:Calculator.reflectance_from_tbs", "pyspectral/near_infrared_reflectance.py:Calculator._calculate_r3x"]}
{"id": "C72", "title": "Forbidden downloads fail loudly and harmlessly", "statement": "Under forbid_pyspectral_downloads every check, constructor and download function either behaves exactly as without it (and makes no request) or ends with RuntimeError at the point of its first request, with no file written.", "quantifier": "all operations, arguments, configurations, file systems", "why_tests_cant": "Ranges over every call path that could reach the network.", "anchors": ["pyspectral/testing.py:forbid_pyspectral_downloads", "pyspectral/utils.py:_download_tarball_and_extract"]}
{"id": "C73", "title": "A band name stands for its 1/w^4-weighted wavelength in the Rayleigh correction", "statement": "Rayleigh.get_reflectance called with a band name whose first detector has wavelengths ws and responses rs gives, for every lookup table and image, exactly the result of calling it with the number c = (integral of r/w^3)/(integral of r/w^4); c lies inside the band and never above the mean wavelength of the band, it does not depend on the scale of the responses, and it is looked up in nanometres. A name that is not in the response file, or responses that cannot be read, give KeyError (only OSErrors are turned into KeyError).", "quantifier": "all strictly increasing positive wavelengths, all non-negative responses not all zero, all lookup tables, images and names", "why_tests_cant": "An ordering of two weighted means over all possible response curves, and an equality of calls over all images and tables.", "anchors": ["pyspectral/rayleigh.py:Rayleigh._get_effective_wavelength_and_band_name", "pyspectral/rayleigh.py:_get_rsr_wavelength_from_band_name", "pyspectral/rsr_reader.py:RSRDict.__getitem__", "pyspectral/utils.py:get_central_wave"]}
{"id": "C74", "title": "sort_data loses no wavelength to rounding", "statement": "For arrays of finite IEEE doubles sort_data returns exactly one point per distinct wavelength in strictly increasing order, each with a response that stood at that wavelength in the input, and returns strictly increasing input unchanged: although it decides with rounded differences (numpy.diff(x) > 0), no two distinct doubles are merged and -0.0/0.0 are.", "quantifier": "all non-empty arrays of finite doubles with responses of the same length, whatever order argsort gives to ties", "why_tests_cant": "Depends on gradual underflow for the difference of every pair of doubles.", "anchors": ["pyspectral/utils.py:sort_data"]}
{"id": "C75", "title": "The resampled solar spectrum never leaves the band in double precision", "statement": "With IEEE double arithmetic every point of the grid that inband_solarflux/inband_solarirradiance build with numpy.linspace lies between the first and the last wavelength of the band, in non-decreasing order, starting and ending exactly there; hence the mask applied to the interpolated spectrum keeps every point, the two resampled arrays always have the same length and the call never fails with a shape mismatch; the stored interpolated spectrum is the whole grid.", "quantifier": "all bands whose width is between 1e-100 and 1e100, all step sizes giving at most 2^50 points, all splines", "why_tests_cant": "Each point is rounded three times; whether one of them overshoots the band depends on every combination of ends and step.", "anchors": ["pyspectral/solar.py:SolarIrradianceSpectrum._band_calculations", "pyspectral/solar.py:SolarIrradianceSpectrum.interpolate"]}
{"id": "C76", "title": "A raw reader reads the file configured for the band and no other", "statement": "For every text-file RSR reader class (ABI, AVHRR, COCTS, MERSI-1/2/3/RM, AMI, MSU-GS, SLSTR, AGRI, GHI), every configuration, band and platform: if construction succeeds, the curve depends only on the content of path/<entry of that band> in the section '<platform>-<instrument>', wavelengths come from the first column (scaled to micrometres as the reader's layout says) and responses from the reader's own column; every other band of the reader must have an entry in the same section, otherwise no band at all can be read; a missing file is an OSError for ABI and SLSTR, whereas the other readers return an object without a curve, after which convert2hdf5 writes no file; the output directory is the configured rsr_dir, else the current directory. The instrument's name is the reader's own for ABI, MERSI-3, AMI, MSU-GS and SLSTR, otherwise the platform's entry in the table of instruments or, if there is none (or, for MERSI-1, AGRI and GHI, a list), the reader's own. A reader succeeds only for the instrument's bands (MERSI-1 on FY-3B has no channel 5), and with entries for all of them and a file with enough columns it does succeed for each.", "quantifier": "all readers, configurations, file systems, file contents, bands, platforms", "why_tests_cant": "needs the agencies' raw files, none of which are in the repository; non-interference with all other files is a statement about pairs of runs", "anchors": ["pyspectral/raw_reader.py:15-52", "rsr_convert_scripts/abi_rsr.py:20-59", "rsr_convert_scripts/avhrr_rsr.py:18-63", "rsr_convert_scripts/cocts_rsr.py:20-60", "pyspectral/utils.py:280-353"]}
{"id": "C77", "title": "Raw readers give every band its own curve", "statement": "Expected: the VIRR and MERSI-1 readers return for each band the response of that band. Finding: VirrRSR raises for every configuration and file (TypeError for FY-3B/FY-3C, KeyError otherwise), because INSTRUMENTS gives a list; for FY-3B MERSI-1, bands ch4 and ch8 read the same column (off by one), so they get identical curves; no other two bands of that file share a column.", "quantifier": "all configurations, file systems, file contents", "why_tests_cant": "no raw files and no tests for these scripts; the failure for all inputs is universal", "anchors": ["rsr_convert_scripts/virr_rsr.py:18-60", "rsr_convert_scripts/mersi1_rsr.py:28-94", "pyspectral/utils.py:33-91"]}
{"id": "C78", "title": "Responses given over wavenumber are converted with their pairs kept", "statement": "For AMI, MSU-GS and SLSTR text files with positive, strictly increasing wavenumbers nu: the resulting curve has strictly increasing wavelengths 10000/nu and each response stays with its own wavenumber.", "quantifier": "all files with positive increasing wavenumbers, all bands and configurations", "why_tests_cant": "a reversal of only one of the arrays is invisible for symmetric test curves; statement about all curves", "anchors": ["rsr_convert_scripts/ami_reader.py:19-72", "rsr_convert_scripts/msu_gs_reader.py:18-68", "rsr_convert_scripts/slstr_rsr_txt.py:22-61"]}
{"id": "C79", "title": "Trimming keeps exactly the significant points", "statement": "AGRI, GHI and MERSI-1: the curve consists of exactly the points of the file with response (as a fraction) above 0.001, in file order, each response with its own wavelength in micrometres (nanometre files divided by 1000); for AGRI and GHI, if some response exceeds 1 all are divided by 100. Finding: a curve already given as fractions with a peak slightly above 1 is divided by 100 too.", "quantifier": "all real-valued files, bands and configurations", "why_tests_cant": "the decision on percent depends on the data; pairs and exactness concern all curves", "anchors": ["rsr_convert_scripts/agri_rsr.py:47-105", "rsr_convert_scripts/ghi_rsr.py:15-80", "rsr_convert_scripts/mersi1_rsr.py:55-94"]}
{"id": "C82", "title": "SEVIRI work book to RSR files", "statement": "Every channel sheet is loaded with each satellite's own column (three layouts: HRV, infrared at 95 K and 85 K, others) and the central wavelength computed from it. For a work book with infrared channels only, the file generated for a Meteosat satellite reads back, for each channel, as the 95 K response column of that satellite and the channel's wavelengths (in 32-bit storage); converting to wavenumbers reverses all curves together with the coordinate, keeping pairs and order. Finding: with any non-infrared channel (as in the real work book) generate_seviri_file raises IndexError for every satellite, since array['95'] raises IndexError and only ValueError is caught; in wavenumber space it always raises TypeError.", "quantifier": "all work books, satellites", "why_tests_cant": "needs an Excel work book that is not distributed and xlrd; failure for all work books with a visible channel is universal", "anchors": ["rsr_convert_scripts/seviri_rsr.py:20-233"]}
{"id": "C83", "title": "A converted file is found by the reader", "statement": "For every platform and every instrument it carries (or any instrument of an unknown platform): the file name under which convert2hdf5 writes equals the one RelativeSpectralResponse(platform, instrument) opens if and only if the instrument name is lower case and contains no '-'. Finding: for mersi-1, mersi-2, mersi-3, mersi-rm, msu-gs, goci-2 the names differ.", "quantifier": "all platforms and instrument names", "why_tests_cant": "tests use ready-made files; agreement of two naming schemes over all strings", "anchors": ["pyspectral/utils.py:289-293", "pyspectral/rsr_reader.py:182-202", "pyspectral/utils.py:622-651"]}
{"id": "C80", "title": "MODIS files: every detector keeps its own rows, and reads back", "statement": "A MODIS response file is readable iff every line is a comment ('#') or has four fields with an integer detector and two numbers. Then each detector named in the file gets exactly its own rows, in file order, without rows whose response is -99, wavelengths scaled to micrometres (nanometres for bands 1-19 and 26, and for all Aqua bands); distinct detector numbers have distinct names. After loading a band (finite values, any valid argsort) the wavelengths are strictly increasing, exactly those of the rows, each point is one of the rows; a detector with only -99 rows makes the band fail with IndexError. Whatever convert2hdf5 writes can be read back iff the detector names of each band are det-1..det-n (KeyError otherwise), responses and central wavelengths are each detector's own, wavelengths too unless all detectors agree with the first to 1e-8+1e-5|w|, in which case all get the first one's. Finding: so a detector's own wavelengths are not preserved.", "quantifier": "all file contents, configurations, platforms, valid argsorts; writing and reading for every number type", "why_tests_cant": "the raw files are not available; statement about all files and the composition of writer and reader", "anchors": ["rsr_convert_scripts/modis_rsr.py:13-185", "pyspectral/utils.py:260-277", "pyspectral/rsr_reader.py:254-365"]}
{"id": "C81", "title": "VIIRS files: every detector keeps its own points, and reads back", "statement": "For VIIRS tables of real numbers, after the leading '%' lines, in which every detector from 1 to the highest has a row: create_viirs_rsr succeeds, the file it writes can be read, instrument 'viirs', all 22 bands, detectors det-1..det-n, and each detector's curve is its own rows sorted by wavelength (nm/1000), of several rows with one wavelength the first, with its own responses. A file in the five-column format is read only for Suomi-NPP (ValueError for NOAA-20, KeyError for NOAA-21). Finding: a wavelength that is NaN in a band with one detector gives wavelength and response arrays of different lengths.", "quantifier": "all tables of real numbers, all headers, all three platforms", "why_tests_cant": "the raw files are not available; statement about all files and the composition of writer and reader", "anchors": ["rsr_convert_scripts/viirs_rsr.py:25-232", "pyspectral/rsr_reader.py:254-365"]}
{"id": "C84", "title": "Response integrals", "statement": "integral(band) returns one number per detector of the band, for exactly the band's detectors: the trapezoid integral of that detector's response over its own wavelengths. A converter's rsr_integral is that integral times the SI scale of the wavelengths, i.e. a millionth of it for responses as they are loaded.", "quantifier": "all response data with finite curves, all bands and detectors", "why_tests_cant": "A test has one data set; the claim is for every number of detectors and every curve.", "anchors": ["pyspectral/rsr_reader.py:RelativeSpectralResponse.integral", "pyspectral/radiance_tb_conversion.py:RadTbConverter._get_rsr"]}
{"id": "C85", "title": "radiance2tb inverts Planck's law at the central wavelength", "statement": "RadTbConverter.radiance2tb (wavelength space) of the monochromatic Planck radiance at the detector's central wavelength is the temperature, and of any positive radiance it is the temperature whose Planck radiance it is. Converting two temperatures to band radiances and back keeps their order.", "quantifier": "all converters, positive temperatures and radiances (exact arithmetic)", "why_tests_cant": "Ranges over a continuum of temperatures, wavelengths and response curves.", "anchors": ["pyspectral/radiance_tb_conversion.py:RadTbConverter.radiance2tb"]}
{"id": "C86", "title": "SEVIRI radiances are Planck radiances of the channel", "statement": "For every supported satellite and channel name the SEVIRI converter's radiance of T is Planck's radiance at one wavenumber, within 0.11 um of the wavelength the channel is named after, of a temperature a*T + b with 0.995 <= a <= 1 and 0 <= b <= 3.5 K; radiance2tb is the corresponding inverse.", "quantifier": "all supported channels and names, all positive temperatures and radiances", "why_tests_cant": "Ranges over all temperatures, for each of the 28 combinations.", "anchors": ["pyspectral/radiance_tb_conversion.py:SeviriRadTbConverter.tb2radiance", "pyspectral/radiance_tb_conversion.py:SEVIRI"]}
{"id": "C87", "title": "The solar flux of a reflectance calculator", "statement": "A calculator built with a solar flux keeps it. Without one it uses the integral over the band of the solar spectrum times the response, both interpolated on an even grid of about 0.0005 um from the first to the last wavelength of detector det-1. The flux of the calculator's own detector is not used if that is another one.", "quantifier": "all response data, spectra and interpolations, all requests", "why_tests_cant": "Ranges over all spectra and responses.", "anchors": ["pyspectral/near_infrared_reflectance.py:Calculator._get_solarflux"]}
{"id": "C88", "title": "Plotting a wavelength range", "statement": "composite_rsr_plot with --range lo hi draws, for each object found and a positive resolution, every band that is not excluded and whose central wavelength is within the resolution (and 2 um) of one of the wavelengths lo, lo + res/5, ... below hi, each exactly once, and no other; it ends. With a resolution of at most 10 um every band with lo <= central wavelength < hi is among them, and no band lies outside by the resolution or more. (Findings: a resolution of zero or less never ends; the resolution is in micrometres though the help text says nanometres, so 5 draws bands far outside the range.)", "quantifier": "all response data with distinct band names, all ranges, resolutions and exclusions", "why_tests_cant": "Termination and the no-duplicates invariant of a floating while loop range over all inputs.", "anchors": ["bin/composite_rsr_plot.py:96-223", "pyspectral/rsr_reader.py:RelativeSpectralResponse"]}
{"id": "C89", "title": "Curves belong to the platforms asked for", "statement": "composite_rsr_plot draws, for each platform in the order given, the curves of the first sensor that is on the platform and whose data can be read; a platform whose data cannot be read is left out, and if none can be read no file is written. A sensor of the platform according to the table is always tried, any sensor is for a platform not in the table, and otherwise only names that are part of the name of the platform's only sensor; an error other than failing to get the data ends the script. Asked by wavelength, it draws exactly the bands within 0.25 um, each once. The file name is the one given, or is made of the band, of the wavelength in hundredths of a micrometre with four digits, or of the two ends of the range. (Findings: a platform for which none of the given sensors is tried is drawn again with the data of the platform before it, or ends the script with a NameError if it is the first; sensor names that the reader accepts but are not part of the name in the table are not tried; the plot of a range starting at 0 goes to rsr_band_None.png.)", "quantifier": "all lists of platforms and sensors, all outcomes of reading", "why_tests_cant": "Ranges over all argument lists and reader outcomes.", "anchors": ["bin/composite_rsr_plot.py:96-223"]}
{"id": "C90", "title": "Wavelength ranges for satpy", "statement": "find_wavelengths_for_satpy prints for each band, in order, the first and last wavelength at which the response of the detector exceeds the threshold, and the response-weighted central wavelength. At the first band without the detector (KeyError) or nowhere above the threshold (IndexError) it stops: the bands before it have been printed, the bands after it have not.", "quantifier": "all response data, thresholds, bands and detectors", "why_tests_cant": "Ranges over all response data.", "anchors": ["bin/find_wavelengths_for_satpy.py"]}
{"id": "C91", "title": "The download scripts", "statement": "With --dry-run neither download script makes a request or changes a file. Naming no aerosol type after -a, or all of them, is the same as leaving -a out; an empty destination is the configured directory. If downloading is enabled and the data are out of date, a run that ends normally has made exactly one request and put the archive's members into the destination, changing no other file; the LUT script requests the outdated ones of the types given, in order, up to the first failure. With -v every message from debug level up is printed exactly once, without -v nothing is. (Findings: with downloading disabled in the configuration download_rsr ends normally whatever its options without having downloaded anything, while download_atm_correction_luts downloads nevertheless.)", "quantifier": "all machine states, configurations and options", "why_tests_cant": "Ranges over all machine states.", "anchors": ["bin/download_rsr.py", "bin/download_atm_correction_luts.py"]}
{"id": "C92", "title": "What plot_rsr draws", "statement": "plot_rsr draws one curve per detector of the band, in order, consisting of exactly the points whose response is above the minimum, and names the file after platform, sensor and band. Asked by wavelength it takes the only band within 0.1 um; with no band in reach it ends with a KeyError, with several with an AttributeError. A name that is not in the data but has a standard name there shows, in all three scripts, the data of that name under the name given; any other name ends with a KeyError.", "quantifier": "all response data, minima and wavelengths", "why_tests_cant": "Ranges over all response data.", "anchors": ["bin/plot_rsr.py"]}
{"id": "C93", "title": "Rounding never reverses the order of radiances and temperatures", "statement": "Computed in IEEE doubles, Planck's function at one wavelength or wavenumber never gives a smaller radiance for a higher temperature, and blackbody_rad2temp and blackbody_wn_rad2temp never give a lower temperature for a higher radiance, however close the two arguments are and even where intermediate values overflow or underflow. No result is NaN. All that is asked of the exp and log of the platform is that they are themselves monotone.", "quantifier": "all doubles: waves from 1e-12 to 1e12, temperatures from 1 mK up, radiances from 0 to infinity; all mathematical libraries with monotone exp and log", "why_tests_cant": "Neighbouring doubles are too many to enumerate and rounding errors depend on the library.", "anchors": ["pyspectral/blackbody.py: planck, blackbody_rad2temp, blackbody_wn_rad2temp"]}
{"id": "C94", "title": "Rounding never reverses the order of band radiances and brightness temperatures", "statement": "Computed in IEEE doubles, RadTbConverter.tb2radiance, by integration or from a table made by make_tb2rad_lut, and SeviriRadTbConverter.tb2radiance never give a smaller radiance for a higher temperature; SeviriRadTbConverter.radiance2tb never gives a lower temperature for a higher radiance.", "quantifier": "all response curves in physical range with ascending waves, temperatures from 1 K to 1e6 K (0 to 3276.7 K from the table); all SEVIRI channels and satellites; all mathematical libraries with monotone exp and log, exp right to 1e-13", "why_tests_cant": "Neighbouring doubles are too many to enumerate; sums of rounded terms depend on every response value.", "anchors": ["pyspectral/radiance_tb_conversion.py: RadTbConverter.tb2radiance, make_tb2rad_lut, SeviriRadTbConverter"]}
{"id": "C95", "title": "Accuracy of radiances and temperatures in doubles", "statement": "Computed in IEEE doubles, every entry of planck's result is right to a relative 2e-13, blackbody_rad2temp and blackbody_wn_rad2temp are right to 5e-14, and converting a temperature to radiance (blackbody, blackbody_wn) and back returns it to 3e-13. All results are finite.", "quantifier": "all wavelengths and wavenumbers from 1e-12 to 1e12 SI units, temperatures from 0.01 K to 1e6 K with photon energies from 0.1 to 100 kT, radiances from 1e-100 to 1e40; all mathematical libraries with exp and log right to 1e-15", "why_tests_cant": "The rounding errors of all pairs of doubles cannot be enumerated; cancellation in exp(x)-1 and log(1+x) shows only at particular arguments.", "anchors": ["pyspectral/blackbody.py: planck, blackbody, blackbody_wn, blackbody_rad2temp, blackbody_wn_rad2temp"]}
{"id": "C96", "title": "Accuracy of band radiances in doubles", "statement": "Computed in IEEE doubles, RadTbConverter.tb2radiance by integration, normalised or not, returns one radiance per temperature that is right to a relative 5e-12 compared with the exact trapezoidal integral of Planck's law times the response.", "quantifier": "all converters with at most 10000 ascending waves and responses that are zero or from 1e-12 to 1000, not zero everywhere; temperatures from 0.01 K to 1e6 K with photon energies from 0.1 to 100 kT; all mathematical libraries with exp right to 1e-15", "why_tests_cant": "Ranges over all response curves and temperatures.", "anchors": ["pyspectral/radiance_tb_conversion.py: RadTbConverter.tb2radiance"]}
{"id": "C97", "title": "Several processes downloading into one directory", "statement": "A single process run through its system calls does exactly what the download properties say. If two processes download the same archive into one directory at the same time and both return normally, then one began only after the other had finished, so the outcome is that of one after the other. However many processes run, files other than the archive and its members are never touched. It is not guaranteed that both succeed (one may get FileNotFoundError because the other removed the archive), nor that the members are complete once both have ended and the version file is current (a half-written archive may have been unpacked over them).", "quantifier": "all schedules of system calls, all server replies and archives, all initial contents of the directory; any number of processes for untouched files", "why_tests_cant": "Interleavings of system calls of separate processes cannot be enumerated or forced by a unit test.", "anchors": ["pyspectral/utils.py: _download_tarball_and_extract, download_rsr, download_luts"]}
{"id": "C98", "title": "Element types of the results", "statement": "Single-precision images stay in single precision. blackbody_rad2temp returns the float type of the radiances whatever the type of the wavelength (the wavenumber version does so only for Python and single-precision wavenumbers: a numpy double wavenumber makes the result double). Planck radiances and integrated band radiances are single precision only if all of their arguments are; radiances from the look-up table have the type of the temperatures, a single one being a Python float; the 3.x reflectance and its emissive part are single precision iff both the near-infrared and the thermal temperatures are, whatever sun zenith angles, solar flux and CO2 band; the SEVIRI conversions keep the type; the infrared limb correction keeps the type of the data for masked arrays but takes the wider of data and angles for dask arrays; the Rayleigh correction has the float type of the red band (or sun zenith angles), and that is also the type announced to dask (for an integer red band the announced and computed types differ). On doubles the typed formulas give the values of the other properties.", "quantifier": "all values, all combinations of int16, int32, int64, float32, float64 and Python numbers, any single-precision arithmetic", "why_tests_cant": "The combinations of argument types times branches are many, and tests compare values with tolerances rather than types.", "anchors": ["pyspectral/blackbody.py: blackbody_rad2temp, blackbody_wn_rad2temp, planck", "pyspectral/radiance_tb_conversion.py", "pyspectral/near_infrared_reflectance.py: Calculator", "pyspectral/atm_correction_ir.py: viewzen_corr", "pyspectral/rayleigh.py: get_reflectance, reduce_rayleigh_highzenith"]}
{"id": "C99", "title": "Integer arrays", "statement": "Integer radiances make blackbody_rad2temp and RadTbConverter.radiance2tb return NaN for every wavelength below one metre, without an exception, although the same values as floats give temperatures; the wavenumber version gives the same result for integers as for floats. An integer red band (or integer sun zenith angles) turns the Rayleigh look-up table into zeros, so that the correction is zero everywhere.", "quantifier": "all integer types and values, all float wavelengths below one metre, all tables with reflectances below one", "why_tests_cant": "Tests use float arrays; the failure is silent and depends on the type, not on the values.", "anchors": ["pyspectral/blackbody.py: blackbody_rad2temp, blackbody_wn_rad2temp", "pyspectral/radiance_tb_conversion.py: radiance2tb", "pyspectral/rayleigh.py: get_reflectance, _do_interp"]}
{"id": "C100", "title": "Selecting a band by wavelength is the same as by name", "statement": "For every response file whose bands all have a central wavelength: RadTbConverter (wavelength space) given a number converts exactly as the one given the name of the only band whose first detector's central wavelength is within 0.1 um (the same error if that fails); with no such band construction raises KeyError, with several AttributeError. A NIR Calculator that can be built by the band's name can be built by every such number in [3.5, 3.95] um, leaves the same file system behind and computes the same reflectances.", "quantifier": "all response data, platforms, instruments, detectors, wavelengths, resolutions, calculator arguments and file systems", "why_tests_cant": "Tests use one sensor and one nominal wavelength; the equivalence is over all wavelengths in the interval and all band layouts, including overlapping bands.", "anchors": ["pyspectral/radiance_tb_conversion.py:109-138", "pyspectral/utils.py:239-257", "pyspectral/near_infrared_reflectance.py:74-86"]}
{"id": "C101", "title": "Readers of NetCDF response files (FCI, OLCI, SLSTR, METimage)", "statement": "A reader object built for a band holds that band's own data: FciRSR the column of the variables wavelength (times 1e6) and srf at the place of the band in channel_id of the configured file (no responses iff the band is not listed there); OlciRSR the row of the band's number, wavelengths divided by 1000, and OSError if the file is missing; SlstrRSR (bands ch1 to ch9, all of which must have an entry) the vectors of the file configured for the band, and OSError if that file is missing; MetImageRSR the columns 0 and 1 of the variable of the band's wavelength in the group of its spectral region, responses divided by their maximum (no responses iff the file is missing). The file that the METimage script writes lists the 20 bands and, read by RelativeSpectralResponse, gives for each band the points of that band with distinct ascending wavelengths and the relative responses.", "quantifier": "all configurations, file contents, platforms and bands", "why_tests_cant": "The scripts have no tests and need vendor files; the claim ranges over all contents of the files.", "anchors": ["rsr_convert_scripts/fci_rsr.py", "rsr_convert_scripts/olci_rsr.py", "rsr_convert_scripts/slstr_rsr.py", "rsr_convert_scripts/metimage_rsr.py"]}
{"id": "C102", "title": "Readers of work books (EPIC, GOCI-2, MSI, OLI/TIRS, MSU-GS/A, AATSR)", "statement": "A reader object built for a band holds the wavelengths and responses of that band's sheet and columns: for EPIC and GOCI-2 the column named after the band and the column to the left of it without blank cells, nm to um, responses relative to the greatest; for MSI the points of the platform's sheet that lie within 2 nm of the points with a response above 1e-5; for OLI/TIRS the points with a response above 0.002 of the sheet and column of the platform and band; for MSU-GS/A one curve per instrument from that instrument's own sheet; for AATSR the two first fields of rows 4-258 of the sheet of the band (no responses iff there is no such sheet). A missing file is OSError for MSI and OLI/TIRS. Each of these objects, and of those of C101, is to be written for its own instrument to the configured rsr_dir, or the current directory without one. (Findings: blank cells at different rows pair a wavelength with the response of another row; OLI bands B6-B9 are read from the sheets of other bands; TIRS wavelengths in um are divided by 1000.)", "quantifier": "all configurations, work book contents, platforms and bands", "why_tests_cant": "The scripts have no tests and need vendor work books; the claim ranges over all contents of the sheets.", "anchors": ["rsr_convert_scripts/epic_reader.py", "rsr_convert_scripts/goci2_rsr.py", "rsr_convert_scripts/msi_reader.py", "rsr_convert_scripts/oli_tirs_reader.py", "rsr_convert_scripts/msu_gsa_reader.py", "rsr_convert_scripts/aatsr_reader.py"]}
{"id": "C103", "title": "AVHRR/1 response files", "statement": "AVHRR1RSR in wavelength space holds for each satellite and channel the curve of the last sheet for them (the satellite from the header, the channel from the sheet's name), wavelengths in um by the unit in the header, without the comments at the end, and with the misprint 640 corrected only for TIROS-N and only where the wavelengths would decrease. The file written for a satellite reads back these curves channel by channel; it can be written iff there is a sheet for each of its channels. (Findings: a sheet with an unknown name hides all sheets after it; the configured fallback file is never opened; wavenumbers are impossible.)", "quantifier": "all configurations and work books", "why_tests_cant": "The script has no tests and needs a work book; the claim ranges over all orders and contents of the sheets.", "anchors": ["rsr_convert_scripts/avhrr1_rsr.py"]}
{"id": "C104", "title": "AHI response work book", "statement": "AhiRSR holds for each sheet other than Title, under the name of the channel, the first column as wavelengths and the third as responses, rows 6 to 5453. (Findings: the script's convert2hdf5 fails with TypeError for every work book, so no file is ever complete; a missing work book raises AttributeError instead of the intended IOError.)", "quantifier": "all configurations and work books", "why_tests_cant": "The script has no tests and needs a work book.", "anchors": ["rsr_convert_scripts/ahi_reader.py"]}
{"id": "C105", "title": "Splitting and converting old AVHRR text files", "statement": "split_metop_avhrr_rsrfile writes, for a file of six blocks each made of a header line starting with AVHRR, a second line and rows of two numbers, followed by other text, one file per channel with exactly the rows of its block in reverse order, wavenumbers turned into wavelengths, which increase if the wavenumbers do. convert_avhrr_old2star writes for each pair of columns the wavelengths with their own responses divided by 100 if both columns have '-' in the same rows, and fails with ValueError if they have different numbers of values. (Findings: the last line of the file is never read, so a last block without trailing text loses its last row; '-' in different rows pairs values of different rows.)", "quantifier": "all files", "why_tests_cant": "The scripts have no tests; the claim ranges over all lengths of the blocks and all values.", "anchors": ["rsr_convert_scripts/split_metop_avhrr_rsrfile.py", "rsr_convert_scripts/convert_avhrr_old2star.py"]}
{"id": "C106", "title": "Renaming the old MODIS response files", "statement": "modis_old2new_rsr leaves the old files and all other files as they are, writes for each platform the file that RelativeSpectralResponse opens for that platform and 'modis', and reading it gives exactly what reading the old file gives except for the platform and instrument names, which are the new ones. Running it again changes nothing. A missing old file ends it with FileNotFoundError.", "quantifier": "all contents of the disk and of the old files", "why_tests_cant": "The script has no tests; the claim compares two readings for all file contents.", "anchors": ["rsr_convert_scripts/modis_old2new_rsr.py"]}
{"id": "C107", "title": "Masked and lazy temperatures in the 3.x um reflectance", "statement": "For reflectance_from_tbs without a CO2 channel and with a table: the result is a masked array exactly if one of the temperatures is a numpy masked array, otherwise a dask array exactly if dask is installed and one of the temperatures is a dask array; wherever neither temperature is masked the value equals that of the call with plain arrays; the mask of the result marks exactly the values that are not finite. The wish that masked pixels stay masked is false: whatever numpy.ma leaves under the mask, by day a masked pixel comes out as an ordinary unmasked number unless the value under the mask is NaN (finding). Without masks, lazy or not, the call gives exactly the values of the plain call and fails exactly as it does.", "quantifier": "all images, masks, kinds of arrays, tables and calculators; any values under the mask after masked arithmetic", "why_tests_cant": "The tests use a masked array in which nothing is masked.", "anchors": ["pyspectral/near_infrared_reflectance.py:Calculator.reflectance_from_tbs", "pyspectral/near_infrared_reflectance.py:get_as_array", "pyspectral/radiance_tb_conversion.py:RadTbConverter.tb2radiance"]}
{"id": "C108", "title": "Fake data of the testing helpers", "statement": "Inside mock_rsr a response object offers exactly the standard band names of its instrument's table (generic names for an unknown instrument), each with one detector whose thousand wavelengths run evenly from 0.02 um below to 0.02 um above the central wavelength asked for (0.46 um if none was), responses rising evenly from 0.0009 to 1; a user's name of the table finds its band; opened by file name the object takes platform and instrument from the file name. Without wavelengths asked for, searching a band at 0.46 um never gives a single one. With the fake Rayleigh table the correction at any wavelength between 400 and 800 nm is 66.8 - 55.3*(w-400)/400 percent for all angles (also NaN zenith angles), times the cloud factor of the red band, and zero outside; by band name it is that of the band's effective wavelength. Two wishes are false: the names of the AVHRR table ('3b') are not understood although their bands are there, and an instrument name with an underscore (Landsat's oli_tirs) is cut when the object is opened by file name (findings).", "quantifier": "all platforms, instruments, band names, requested wavelengths, directories, images, angles, red bands, kinds of arrays; exact arithmetic", "why_tests_cant": "Tests written with these helpers assume the fake data; the package's own tests check a few values for a few instruments.", "anchors": ["pyspectral/testing.py:_fake_rsr_info_factory", "pyspectral/testing.py:_default_rayleigh_lut_data", "pyspectral/testing.py:_create_fake_rayleigh_file", "pyspectral/testing.py:mock_rsr_files", "pyspectral/rayleigh.py:Rayleigh.get_reflectance"]}
{"id": "C109", "title": "The 3.x um reflectance in doubles", "statement": "Computed in IEEE doubles, a pixel of reflectance_from_tbs is NaN if its 3.x um temperature is NaN, its sun zenith angle is negative or beyond the masking limit, or the solar radiance minus the CO2-corrected thermal energy is below 0.005 by more than 10^-9; it is a finite number if none of these holds and that contrast exceeds 0.005 by 10^-9; it is never an infinity. A number differs from the exact quotient of the attributes the call stored by at most 10^-15*(1+|x|) times the ratio of all energies to the contrast. Signs and bounds survive rounding: non-negative when the measured radiance is at least the thermal one and the factor at most 1, non-positive in the opposite case, at most 1 when the measured energy is at most the solar radiance and at least 1 when it is not smaller. More measured radiance never gives a smaller reflectance, and neither does a higher 3.x um temperature looked up in the band's table.", "quantifier": "all calls that return, images, states, libraries of elementary functions (monotone and accurate exp for the last clause), band integrals up to 10^6, radiances up to 10^12, factors up to 1000, solar radiances up to 10^6", "why_tests_cant": "Rounding errors, cancellation next to the masking limit and order over all pairs of doubles cannot be sampled.", "anchors": ["pyspectral/near_infrared_reflectance.py:Calculator.reflectance_from_tbs", "pyspectral/near_infrared_reflectance.py:Calculator._calculate_r3x", "pyspectral/radiance_tb_conversion.py:RadTbConverter.tb2radiance"]}
{"id": "C110", "title": "The constant tables of names, platforms and look-up tables", "statement": "A band name of an instrument's published scheme (ABI and AGRI C01.., AHI B01.., AMI VI004.., FCI vis_04.., SEVIRI IR_108.., SLSTR S1.. and F1, F2, VIIRS I01../M01.., AVHRR 3b.., MODIS and METimage) is understood as the band of the response files that the scheme's rule gives, any other text stays as it is, and all other instruments share one scheme (numbers 1 to 36 and the names of SEVIRI, VIIRS and ABI). Indexing the responses finds the band of that name or the one meant and otherwise raises KeyError. Two names of an instrument are two bands except for the fire channels of SLSTR, and the shared scheme never contradicts an instrument's own except for MODIS. The platform table lists exactly the instruments of each platform. The schemes of AVHRR/3 and METimage are filed under names that no platform's instrument has, so their names are not found. Each aerosol type has its own version file, named after its initials, and its own address; no other type has; the atmospheres are numbered from four.", "quantifier": "all instruments, texts, platforms, aerosol types, response dictionaries", "why_tests_cant": "A test looks at a few entries; it says neither that all entries follow the rule nor that nothing else is in the tables.", "anchors": ["pyspectral/bandnames.py:BANDNAMES", "pyspectral/rsr_reader.py:RSRDict", "pyspectral/utils.py:INSTRUMENTS", "pyspectral/utils.py:check_and_adjust_instrument_name", "pyspectral/utils.py:ATM_CORRECTION_LUT_VERSION", "pyspectral/utils.py:HTTPS_RAYLEIGH_LUTS", "pyspectral/utils.py:ATMOSPHERES"]}
{"id": "C111", "title": "The Rayleigh correction in IEEE doubles", "statement": "Computed in IEEE double precision, every element of a Rayleigh correction is NaN or a number in [0, 100]. Where the correction without red band is between 0 and 100, a red band below 20 percent leaves it bit for bit, one of 100 percent or more removes it, one in between leaves what the linear formula gives to a relative error of 1e-15, and a brighter red band never leaves more. Reducing at high zenith angles leaves a value exactly as it is up to the threshold, removes it beyond the maximum angle at full strength, never enlarges it or turns its sign, never leaves more at a higher angle, and is within a relative error of 1e-14 of exact arithmetic. The table at a wavelength between two nodes is their linear interpolation to 1e-15 of the two values, and the row of the upper node exactly at that node.", "quantifier": "all tables, angles, red bands, thresholds and strengths held in doubles (angles and red band up to a million, thresholds at least 0.001 apart), any library functions, numpy or dask arrays", "why_tests_cant": "Rounding errors occur at some inputs only; that no input leads out of range, breaks the order or exceeds the error bound cannot be seen from samples.", "anchors": ["pyspectral/rayleigh.py:Rayleigh.get_reflectance", "pyspectral/rayleigh.py:Rayleigh._relax_rayleigh_refl_correction_where_cloudy", "pyspectral/rayleigh.py:Rayleigh.reduce_rayleigh_highzenith"]}
{"id": "C112", "title": "Interpolation in the Rayleigh table in IEEE doubles", "statement": "Inside the wavelengths of the table, a call without red band succeeds in double precision, and for every pixel whose secants (as the C library gives them) and azimuth difference are on the axes the result is a finite double. It differs by at most 1e-12 of the largest value of the table (at that wavelength) from 100 times the trilinear interpolation, limited to 0..100, at a point whose place on each axis is right to 2e-15 of the number of nodes. If all values of the table are between lo and hi (within 0..1), no correction is below 100 lo or above 100 hi by more than 2e-12 percent.", "quantifier": "all tables in doubles with increasing axes (azimuths from 0 to 180), all wavelengths inside them, all images, any library functions, numpy or dask arrays, any out-of-range cast", "why_tests_cant": "The cell is found by truncating a rounded number: near a node the rounding decides which cell is used and a wrong cell or a position just outside it would show at isolated angles only.", "anchors": ["pyspectral/rayleigh.py:Rayleigh._interp_rayleigh_refl_by_angles", "pyspectral/rayleigh.py:Rayleigh.get_reflectance", "pyspectral/rayleigh.py:_clip_angles_inside_coordinate_range"]}
{"id": "C113", "title": "The infrared limb correction in IEEE doubles", "statement": "get_correction on masked or dask arrays of doubles: every pixel between 100 and 400 K gets a finite double that is within 1e-11 K of the exact correction for its temperature and zenith angle; no unmasked pixel becomes masked and masked ones (or ones with a masked angle) keep temperature and mask. Off nadir (angles above 0 and below 90) the result is never below the temperature; at exactly 0 degrees it is not below it from 210 K on and not above it up to 210 K; for other angles, infinities and NaN it is the temperature itself. Rounding never reverses an order: of two pixels off nadir with the same temperature (or, from 170 K on, increasing temperatures) the one farther from nadir is not corrected to a lower temperature, and at nadir a warmer pixel is not corrected to a lower temperature than a colder one.", "quantifier": "all arrays, temperatures from 100 to 400 K, all zenith angles including NaN and infinities, all libraries whose pow is right to 1e-15, non-decreasing in the exponent and 1 for a zero exponent (for bases from 1 to 100, exponents from -10 to 10)", "why_tests_cant": "Near 170 and 210 K and near nadir the increments are differences of almost equal numbers; whether rounding turns a tiny warming into a cooling cannot be sampled.", "anchors": ["pyspectral/atm_correction_ir.py:AtmosphericalCorrection.get_correction", "pyspectral/atm_correction_ir.py:viewzen_corr"]}
{"id": "C114", "title": "The SEVIRI conversions in IEEE doubles", "statement": "The SEVIRI channels that convert are exactly those of Meteosat-8 and -9 with published coefficients (central wavenumber, alpha, beta), under their short or standard names. With exact arithmetic tb2radiance is Planck's law at the central wavenumber for alpha * t + beta, radiance2tb its inverse. On doubles from 100 to 1000 K tb2radiance returns finite doubles within 2 parts in 10^13 of that; radiance2tb returns, wherever the exact temperature is from 100 to 1000 K, a finite double within 5 parts in 10^14 of it; and a temperature converted to a radiance and back in doubles returns to 2 parts in 10^13.", "quantifier": "all 28 supported pairs of satellite and band name, all lists of doubles in the range, all libraries whose exp and log are right to 1e-15", "why_tests_cant": "The unit tests compare a few temperatures to a tolerance; that no double in the range loses digits in exp(x) - 1, log(x + 1) or in the subtraction of beta / alpha is a statement about all of them.", "anchors": ["pyspectral/radiance_tb_conversion.py:SeviriRadTbConverter.tb2radiance", "pyspectral/radiance_tb_conversion.py:SeviriRadTbConverter.radiance2tb"]}
{"id": "C115", "title": "The emissive part of the 3.x um radiance in IEEE doubles", "statement": "After a call of reflectance_from_tbs on one image of doubles, emissive_part_3x returns at every pixel of ordinary data the measured radiance where the reflectance is NaN, and elsewhere a finite double within 3 parts in 10^16 of the thermal radiance times one minus the returned reflectance. It is never negative for a reflectance up to 1 and never above the thermal radiance for a reflectance from 0. Asked for temperatures, it returns radiance2tb of these values. Without CO2 correction, where the measured radiance is at least the thermal one and carries at most the energy the sun sends, the reflectance is from 0 to 1, the emissive part from 0 to the thermal radiance, and reflected plus emitted energy equals the measured one to 3 parts in 10^15 of the energies involved.", "quantifier": "all calculators, arrays, pixels and earlier states; all libraries; data in the ranges of C109", "why_tests_cant": "Tests compare single pixels to a tolerance; that no rounding makes the emitted radiance negative, larger than a black body's, or breaks the energy balance is a statement about all doubles.", "anchors": ["pyspectral/near_infrared_reflectance.py:Calculator.emissive_part_3x", "pyspectral/near_infrared_reflectance.py:Calculator.reflectance_from_tbs"]}
{"id": "C116", "title": "Solar constant and in-band calculations in IEEE doubles", "statement": "On doubles solar_constant returns a finite double within 5 parts in 10^12 of the trapezoidal integral of irradiance over the axis. inband_solarflux and inband_solarirradiance of a band at least one resolution step wide (and at most 9990) always return: the common grid is made of doubles in order from the first to the last sample, both included, in equal steps to 1 part in 10^15, their number being the nearest integer to width / step plus one; rounding never puts a point outside the band, so no sample is masked away and no shapes disagree; and flux and irradiance are within 5 parts in 10^12 of the integral, or quotient of integrals, of the resampled data.", "quantifier": "all spectra and responses of up to 10000 samples or steps, all interpolating functions, all scales and resolutions, wavelength and wavenumber space", "why_tests_cant": "Whether linspace in doubles can step outside the band for some pair of limits and some number of points, which would raise a shape error, ranges over all pairs of doubles.", "anchors": ["pyspectral/solar.py:SolarIrradianceSpectrum.solar_constant", "pyspectral/solar.py:SolarIrradianceSpectrum._band_calculations", "pyspectral/solar.py:SolarIrradianceSpectrum.interpolate"]}
{"id": "C117", "title": "Central wavelength of a band in IEEE doubles", "statement": "On doubles get_central_wave of a usable response curve (increasing positive wavelengths, nonnegative responses, not all zero) returns a finite double within 5 parts in 10^12 of the mean wavelength of the curve; with the weights 1/wavelength**4 of the Rayleigh correction it is within 5 parts in 10^12 of the mean weighted that way. Both lie between the first and the last wavelength and the weighted one does not exceed the unweighted one, up to that rounding.", "quantifier": "all response curves of up to 10000 samples, wavelengths from 1e-12 to 1e12 (any unit), responses zero or from 1e-12 to 1e6", "why_tests_cant": "The rounding error accumulates over the number of samples and depends on their spacing and values; tests try a few curves.", "anchors": ["pyspectral/utils.py:get_central_wave", "pyspectral/rayleigh.py:_get_rsr_wavelength_from_band_name"]}
