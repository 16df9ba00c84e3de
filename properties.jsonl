{"id": "C01", "title": "gaussian_filter is a causal moving average of the last L samples", "statement": "gaussian_filter(x, fl) returns one value per input sample; with L = 2*floor(fl/2)+1 weights w, output i is sum_{j<L} w[L-1-j]*x[i-j], samples before the start counting as 0. It fails (assertion) exactly when len(x) <= fl.", "quantifier": "every finite input series and every filter length fl >= 1", "why_tests_cant": "the ring buffer is a loop-carried state: a test fixes one length and one series", "anchors": ["shipgrav/utils.py:gaussian_filter"]}
{"id": "C02", "title": "gaussian weights are a normalised symmetric window of odd length", "statement": "The weights used by gaussian_filter number 2*floor(fl/2)+1, are all positive, read the same backwards and sum to 1.", "quantifier": "every fl >= 1", "why_tests_cant": "one statement for each fl; tests try one or two lengths", "anchors": ["shipgrav/utils.py:_gaussian_coeffs"]}
{"id": "C03", "title": "the gaussian window peaks at its centre", "statement": "The centre weight of the gaussian window is its largest. (The code violates this: the two neighbours of the centre are strictly larger, for each fl >= 2.)", "quantifier": "every fl >= 2", "why_tests_cant": "needs a comparison of transcendental weights for all fl", "anchors": ["shipgrav/utils.py:_gaussian_coeffs"]}
{"id": "C04", "title": "gaussian_filter is linear, keeps constants and never overshoots", "statement": "gaussian_filter is linear in x; once L samples have been seen a constant series is returned unchanged; every output lies between min(0, min x) and max(0, max x).", "quantifier": "every series, filter length and index", "why_tests_cant": "range statement over all real series", "anchors": ["shipgrav/utils.py:gaussian_filter"]}
{"id": "C05", "title": "decode_dgs_status_bits is the 16-bit big-endian decoding", "statement": "For an int 0 <= s < 2^16 the returned dict has exactly the 16 documented flags in order and flag number i is the character of bit 15-i of s; the dict determines s.", "quantifier": "every 16-bit status word", "why_tests_cant": "bijection over 65536 words and 16 flags, including the flag order", "anchors": ["shipgrav/utils.py:decode_dgs_status_bits"]}
{"id": "C06", "title": "decode_dgs_status_bits on words outside 16 bits", "statement": "Flag i reports bit 15-i for any int. (The code violates this: for s >= 2^16 the flags are the 16 most significant bits, and for s < 0 the first flag is '-'.)", "quantifier": "every Python int outside [0, 2^16)", "why_tests_cant": "unbounded integers", "anchors": ["shipgrav/utils.py:decode_dgs_status_bits"]}
{"id": "C07", "title": "decode_dgs_status_bits on a DataFrame agrees with the scalar decoding row by row", "statement": "For a DataFrame the 16 flag columns are inserted at positions 1..16 in flag order, row r holding the scalar decoding of status[r]; every other column keeps its values and relative order; a second call on the result raises.", "quantifier": "every table with at least one column, every number of rows", "why_tests_cant": "all table shapes", "anchors": ["shipgrav/utils.py:decode_dgs_status_bits"]}
{"id": "C08", "title": "clean_ini_to_toml names its output x.toml for input x.ini and never overwrites the input", "statement": "For any path x + '.ini' the output path is x + '.toml'; for any path at all the output path differs from the input path.", "quantifier": "every path string", "why_tests_cant": "rstrip('ini') strips a character set, so the danger is in unusual names", "anchors": ["shipgrav/utils.py:clean_ini_to_toml"]}
{"id": "C09", "title": "clean_ini_to_toml is line-by-line and keeps every line", "statement": "When it does not raise, the output has, in order, one line for each input line (split at newline after the // , tab and TRUE/FALSE substitutions); lines that start with '[' or '#', empty lines, booleans, numbers and already quoted strings are written unchanged.", "quantifier": "every file content", "why_tests_cant": "all file contents", "anchors": ["shipgrav/utils.py:clean_ini_to_toml"]}
{"id": "C10", "title": "clean_ini_to_toml quotes bare strings", "statement": "A key=value line whose value is not a number, boolean or quoted string becomes key= \"value\" with the value stripped, and applying the line rule again changes nothing.", "quantifier": "every key and value without '=' or '#'", "why_tests_cant": "all strings", "anchors": ["shipgrav/utils.py:clean_ini_to_toml"]}
{"id": "C11", "title": "clean_ini_to_toml keeps trailing comments and values containing '='", "statement": "A trailing comment on a bare string value is kept in the output. (The code violates this: the comment is always dropped, and so is anything after a second '='.)", "quantifier": "every line", "why_tests_cant": "universally false: no input keeps its comment", "anchors": ["shipgrav/utils.py:clean_ini_to_toml"]}
{"id": "C12", "title": "clean_ini_to_toml failure point", "statement": "A line that has no '=' and is not empty, a header or a comment makes the call raise; by then the output file has been truncated and holds exactly the rewritten lines before the offending one.", "quantifier": "every file content and position of the first offending line", "why_tests_cant": "crash point quantified over positions", "anchors": ["shipgrav/utils.py:clean_ini_to_toml"]}
{"id": "C13", "title": "the picker's click history is a stack of consistent picks", "statement": "After any sequence of mouse events the three pick lists have equal length, entry k of the lon/lat lists is the lon/lat of the data row whose index is entry k of the index list, and the lists equal those of an abstract undo stack (left click pushes the row nearest in time, right click pops).", "quantifier": "every event sequence and data table", "why_tests_cant": "every history of events", "anchors": ["shipgrav/utils.py:_SnappingCursor.on_mouse_click"]}
{"id": "C14", "title": "a right click with no picks raises and changes nothing", "statement": "With no picks a right click raises IndexError and all pick lists stay empty, so later events behave as if it never happened.", "quantifier": "every history ending in an empty pick list", "why_tests_cant": "history", "anchors": ["shipgrav/utils.py:_SnappingCursor.on_mouse_click"]}
{"id": "C15", "title": "the picker's cross hair is on a data point and consistent with the cursor", "statement": "After any sequence of move events, if the cursor is in the axis then the cross hair is at the first data point with x >= cursor x (the last point if none), the dot is at the row nearest in time to that point and the cross hair is visible; outside it is invisible.", "quantifier": "every sequence of move/click events", "why_tests_cant": "the early return on an unchanged index makes this a history property", "anchors": ["shipgrav/utils.py:_SnappingCursor.on_mouse_move"]}
{"id": "C16", "title": "the cross hair snaps to the closest point", "statement": "The cross hair is at a data point of minimal distance in x to the cursor. (The code violates this: it takes the next point to the right.)", "quantifier": "every cursor position and sorted x", "why_tests_cant": "counterexample found by proof", "anchors": ["shipgrav/utils.py:_SnappingCursor.on_mouse_move"]}
{"id": "C17", "title": "latlon_to_EN output shape and NaN edges", "statement": "For equal-length inputs of n >= 11 finite samples both outputs have n entries; entries 0..4 and n-5..n-1 are NaN and all others finite. Unequal lengths or n < 11 raise AssertionError.", "quantifier": "every n and every pair of series", "why_tests_cant": "all lengths", "anchors": ["shipgrav/nav.py:latlon_to_EN"]}
{"id": "C18", "title": "latlon_to_EN differentiates polynomial tracks exactly", "statement": "If latitude is a polynomial of degree <= 10 in the sample index, the interior north velocity is exactly (meridional radius of curvature)*(dlat/dt) with t = index/freq; the same for longitude and east velocity with the parallel radius.", "quantifier": "every polynomial of degree <= 10, every freq, every interior index", "why_tests_cant": "identity over all polynomials", "anchors": ["shipgrav/nav.py:latlon_to_EN"]}
{"id": "C19", "title": "latlon_to_EN symmetries", "statement": "Velocities do not change when a constant is added to all longitudes, are proportional to freq, change sign when the track is run backwards, and are 0 for a ship that does not move.", "quantifier": "every track", "why_tests_cant": "all tracks", "anchors": ["shipgrav/nav.py:latlon_to_EN"]}
{"id": "C20", "title": "ENvel_to_course_heading is the polar form of the velocity", "statement": "vel >= 0, vel*sin(heading) = ve and vel*cos(heading) = vn (heading in degrees clockwise from north) and -180 < heading <= 180.", "quantifier": "every pair of real velocities", "why_tests_cant": "all real pairs including the axes", "anchors": ["shipgrav/nav.py:ENvel_to_course_heading"]}
{"id": "C21", "title": "rotate_acceleration_EN_to_cl is a rotation aligned with the heading", "statement": "The rotation keeps the magnitude, is undone by the rotation with the opposite heading, and sends a vector pointing along the heading to (cross, long) = (0, length).", "quantifier": "every heading and acceleration", "why_tests_cant": "all reals", "anchors": ["shipgrav/nav.py:rotate_acceleration_EN_to_cl"]}
{"id": "C22", "title": "the tidal zenith cosines are cosines", "statement": "In longman_tide_prediction the lunar and solar zenith cosines are dot products of the zenith direction with the directions of moon and sun (unit vectors), so always in [-1,1]; each predicted value is the degree 2+3 lunar plus degree 2 solar tide of Longman's theory for that position and UTC instant. The quotient for the moon's node is never 0/0: at no timestamp is the node at 180 degrees.", "quantifier": "every latitude, longitude and time", "why_tests_cant": "trigonometric identity over reals", "anchors": ["shipgrav/grav.py:longman_tide_prediction"]}
{"id": "C23", "title": "the tide is periodic in longitude and decomposes into moon and sun", "statement": "Adding 360 to the longitude does not change the prediction; with return_components the total is the sum of the two components; the result has one entry per sample and unequal lengths raise.", "quantifier": "every position, time, altitude", "why_tests_cant": "all reals", "anchors": ["shipgrav/grav.py:longman_tide_prediction"]}
{"id": "C24", "title": "the tidal time argument counts days since noon on 31 December 1899", "statement": "For UTC timestamps the time argument is (seconds since 1899-12-31T12:00Z rounded down)/86400/36525 centuries and the hour argument is the time of day in hours in [0,24).", "quantifier": "every datetime", "why_tests_cant": "calendar arithmetic over all dates", "anchors": ["shipgrav/grav.py:_convert_datetime_tidetime"]}
{"id": "C25", "title": "the tide depends only on the instant", "statement": "Two timezone-aware timestamps for the same instant give the same prediction. (The code violates this: it uses the local hour.)", "quantifier": "every pair of representations of an instant", "why_tests_cant": "time zones", "anchors": ["shipgrav/grav.py:_convert_datetime_tidetime"]}
{"id": "C26", "title": "the tide is bounded", "statement": "At sea level the predicted tide is at most 0.2251 mGal in size (moon 0.1625, sun 0.0626) for every timestamp Python can represent.", "quantifier": "every position and time in range", "why_tests_cant": "maximum over a continuum", "anchors": ["shipgrav/grav.py:longman_tide_prediction"]}
{"id": "C27", "title": "Eotvos correction of a stationary ship is zero, and shape", "statement": "eotvos_full returns one value per sample, the first two and last two values being equal; for a ship that does not move (constant lat, lon, height) every value is 0.", "quantifier": "every n >= 3, every position", "why_tests_cant": "all positions and lengths", "anchors": ["shipgrav/grav.py:eotvos_full"]}
{"id": "C28", "title": "Eotvos correction does not depend on the longitude origin", "statement": "Adding a constant to all longitudes (for instance 360) leaves the correction unchanged.", "quantifier": "every track", "why_tests_cant": "all tracks", "anchors": ["shipgrav/grav.py:eotvos_full"]}
{"id": "C29", "title": "Eotvos correction is the vertical component of Harlan's acceleration", "statement": "For tracks quadratic in time every interior value is 1e5 times the downward acceleration of the ship seen from inertial space less that of a body at rest on the rotating earth (real second derivatives of the inertial position; plumb-line angle as in Harlan); the misprint in the first component of w' has no effect. A value depends only on its sample and the two neighbours.", "quantifier": "every track", "why_tests_cant": "algebraic identity over all inputs", "anchors": ["shipgrav/grav.py:eotvos_full"]}
{"id": "C30", "title": "Eotvos correction on the equator and its sign", "statement": "On the equator at constant height and longitude rate q the correction is ((q+We)^2-We^2)*(a+h)*1e5; it is positive sailing east and negative sailing west (|q| < 2We).", "quantifier": "every rate and height", "why_tests_cant": "all rates", "anchors": ["shipgrav/grav.py:eotvos_full"]}
{"id": "C31", "title": "free-air correction", "statement": "free_air_second_order is 0 at height 0, is strictly decreasing in height for heights up to 1000 km, the free_water option differs from the default by 0.0863491*height exactly, and the default agrees with the second-order height change of WGS84 normal gravity up to the rounding of the printed coefficients.", "quantifier": "every latitude and height", "why_tests_cant": "all reals", "anchors": ["shipgrav/grav.py:free_air_second_order"]}
{"id": "C32", "title": "WGS84 normal gravity", "statement": "wgs_grav is symmetric about the equator, increases with |latitude|, is 978032.53359 at the equator, at most 983218.4938 anywhere, and agrees with Somigliana's closed formula for the WGS84 ellipsoid within 0.00001 mGal.", "quantifier": "every latitude", "why_tests_cant": "continuum", "anchors": ["shipgrav/grav.py:wgs_grav"]}
{"id": "C33", "title": "center_diff is exact on low-degree polynomials", "statement": "center_diff(y,1,s) is the exact derivative at the interior samples if y samples a polynomial of degree <= 2 at rate s, center_diff(y,2,s) the exact second derivative for degree <= 3; the result has len(y)-2 entries; any other order returns -999.", "quantifier": "every polynomial, rate and length", "why_tests_cant": "all polynomials", "anchors": ["shipgrav/grav.py:center_diff"]}
{"id": "C34", "title": "cross-coupling segments never straddle a gap", "statement": "Every run of samples that calc_cross_coupling_coefficients differentiates is a contiguous range of the input with no time step above 5*samplerate inside, has at least 1000 samples, ranges are disjoint and in order, and all six series use the same ranges.", "quantifier": "every time vector", "why_tests_cant": "all gap patterns", "anchors": ["shipgrav/grav.py:calc_cross_coupling_coefficients"]}
{"id": "C35", "title": "cross-coupling uses every long continuous run", "statement": "Every maximal gap-free run of >= 1000 samples contributes. (The code violates this: when there is any gap, all samples after the last gap are ignored, and so is the last sample before each gap.)", "quantifier": "every time vector with a gap", "why_tests_cant": "all gap patterns", "anchors": ["shipgrav/grav.py:calc_cross_coupling_coefficients"]}
{"id": "C36", "title": "cross-coupling trimming removes all edge effects", "statement": "Each row used in the fit comes from 220 consecutive real samples (no zero padding): it is their low-passed second derivative (11-point Taylor derivative applied twice, then the 200-tap Blackman low-pass with unit gain), and a segment of n samples gives n-420 rows; the rows of the six columns are aligned.", "quantifier": "every segment", "why_tests_cant": "all lengths", "anchors": ["shipgrav/grav.py:calc_cross_coupling_coefficients"]}
{"id": "C37", "title": "cross-coupling coefficients are recovered from noise-free data", "statement": "If faa = smooth - (c_ve*ve + c_vcc*vcc + c_al*al + c_ax*ax + c_lev*lev) with smooth a polynomial of degree <= 2 in the sample index and the design matrix has full column rank, the least-squares fit returns exactly those coefficients.", "quantifier": "all monitors, coefficients and segmentations", "why_tests_cant": "identity through the whole pipeline", "anchors": ["shipgrav/grav.py:calc_cross_coupling_coefficients"]}
{"id": "C38", "title": "up_vecs returns unit vectors", "statement": "Every column returned by up_vecs has length 1, and a positive third component; with zero accelerations every column is (0,0,1).", "quantifier": "all accelerations, gravity, periods and dampings", "why_tests_cant": "all reals", "anchors": ["shipgrav/grav.py:up_vecs", "shipgrav/grav.py:_calc_up_vecs"]}
{"id": "C39", "title": "the platform tilt filter is stable with the documented static gain", "statement": "For 0 < 2*dt < per and damping >= 0 the tilt filter solves the trapezoidal discretisation of the damped platform equation, its output is bounded by a fixed multiple of the input bound for inputs of any length, sinusoidal inputs settle to the platform response at the warped frequency, and the DC gain is (omS^2-om0^2)/om0^2; damping 0 or False means sqrt(2)/2. (For per/2 < dt < per it is unstable.)", "quantifier": "every period, step, damping and bounded input of any length", "why_tests_cant": "bounded-input bounded-output over all histories", "anchors": ["shipgrav/grav.py:_tilt_filter", "shipgrav/grav.py:up_vecs"]}
{"id": "C40", "title": "up_vecs tolerates NaN and flagged samples", "statement": "NaN accelerations and samples with on_off > 0 act as zero acceleration; the result never contains NaN; the caller's acceleration arrays are overwritten with the cleaned values.", "quantifier": "all arrays", "why_tests_cant": "all NaN patterns", "anchors": ["shipgrav/grav.py:up_vecs"]}
{"id": "C41", "title": "grav1d_padded: flat topography has no anomaly, linear in density contrast", "statement": "The anomaly has one value per input point, is 0 for constant topography and is proportional to rho.", "quantifier": "every profile length, level, spacing", "why_tests_cant": "all lengths", "anchors": ["shipgrav/grav.py:grav1d_padded"]}
{"id": "C42", "title": "grav1d_padded wavenumbers match the FFT bins", "statement": "Bin m of the padded FFT gets wavenumber min(m, n-m)*2*pi/(n*dx). Holds exactly for profiles with an even number of points. (The code violates this for odd profile lengths.)", "quantifier": "every profile length", "why_tests_cant": "parity of all lengths", "anchors": ["shipgrav/grav.py:grav1d_padded"]}
{"id": "C43", "title": "grav2d_folding: shape, flat surface, proportionality, wavenumbers", "statement": "The result has the shape of the input grid, is 0 for a flat surface and proportional to drho; with folding the wavenumber of every FFT bin is the true one for all grid sizes; without folding it is so for even sizes and an odd size raises.", "quantifier": "every grid size", "why_tests_cant": "parity of all sizes", "anchors": ["shipgrav/grav.py:grav2d_folding"]}
{"id": "C44", "title": "grav2d_layer_variable_density: uniform layer, linearity", "statement": "The result is linear in rho, 0 for a uniform density and 0 for a layer of zero thickness.", "quantifier": "every grid", "why_tests_cant": "all grids", "anchors": ["shipgrav/grav.py:grav2d_layer_variable_density"]}
{"id": "C45", "title": "layer wavenumbers match the FFT bins", "statement": "Bin j of an nx-point axis gets wavenumber of size min(j, nx-j)*dkx. (The code violates this at the bins just above the Nyquist bin.)", "quantifier": "every nx >= 3", "why_tests_cant": "off-by-one at one bin for each size", "anchors": ["shipgrav/grav.py:_kvalue"]}
{"id": "C46", "title": "half-space temperature is physical", "statement": "For positive ages therm_halfspace temperatures lie in [0,Tm], are 0 at the sea floor, increase with depth and decrease with age; subsidence is proportional to the square root of age.", "quantifier": "all ages, depths and positive parameters", "why_tests_cant": "continuum", "anchors": ["shipgrav/grav.py:therm_halfspace"]}
{"id": "C47", "title": "isotherm depth inverts the half-space temperature", "statement": "therm_halfspace evaluated at the depth therm_Z_halfspace gives for isotherm T returns T, and both return the same subsidence; distance and age inputs agree when age = |distance|/u.", "quantifier": "all isotherms 0 < T < Tm, all positive ages", "why_tests_cant": "inverse functions over a continuum", "anchors": ["shipgrav/grav.py:therm_Z_halfspace", "shipgrav/grav.py:therm_halfspace"]}
{"id": "C48", "title": "plate model boundary conditions", "statement": "therm_plate gives 0 at the sea floor, Tm at the plate base and everywhere below it, tends to the linear profile as age grows, and subsidence increases with age towards its asymptote.", "quantifier": "all ages and depths", "why_tests_cant": "continuum", "anchors": ["shipgrav/grav.py:therm_plate"]}
{"id": "C49", "title": "therm_Z_plate returns the best grid depth", "statement": "Each returned depth is on the depth grid, no other grid depth has a temperature closer to the isotherm, and the shallowest is returned among ties.", "quantifier": "all isotherms, distances and grids", "why_tests_cant": "argmin over all grids", "anchors": ["shipgrav/grav.py:therm_Z_plate"]}
{"id": "C50", "title": "crustal_thickness_2D output is in input order", "statement": "Output n is the crustal thickness at input point n. (The code violates this: without back the output is point-reversed, n -> (-n) mod N; with back it is shifted by one sample.)", "quantifier": "every N and every spectrum", "why_tests_cant": "index arithmetic of a double forward FFT for all N", "anchors": ["shipgrav/grav.py:crustal_thickness_2D"]}
{"id": "C51", "title": "crustal_thickness_2D wavenumbers match the FFT bins", "statement": "FFT bin i has wavenumber min(i,nx-i)*2*pi/(nx*dx); in particular bin 0 (the mean) has wavenumber 0. (The code violates this: wavenumbers are displaced by one bin.)", "quantifier": "every nx", "why_tests_cant": "all sizes", "anchors": ["shipgrav/grav.py:crustal_thickness_2D"]}
{"id": "C52", "title": "crustal_thickness_2D taper", "statement": "The taper weight is 1 up to the long cutoff, 0 beyond the short cutoff, in [0,1] and non-increasing in between and continuous at both ends; wlarge <= wsmall raises.", "quantifier": "every wavenumber and pair of cutoffs", "why_tests_cant": "continuum", "anchors": ["shipgrav/grav.py:crustal_thickness_2D"]}
{"id": "C53", "title": "recovered gravity equals the input gravity when nothing is tapered", "statement": "With back=True and all bins inside the pass band the recovered gravity is the input gravity (up to the one-sample cyclic shift of C50), whatever zdown and rho.", "quantifier": "every signal, depth, density", "why_tests_cant": "needs DFT inversion for all N", "anchors": ["shipgrav/grav.py:crustal_thickness_2D"]}
{"id": "C54", "title": "NMEA positions decode to signed decimal degrees", "statement": "For every line that contains the talker followed by time,ddmm.m,N|S,dddmm.m,E|W fields the coordinates read are +-(degrees + minutes/60), negative exactly for S and W; rows are in file order, one for each talker line.", "quantifier": "all degrees, minutes, hemispheres, prefixes and suffixes", "why_tests_cant": "all strings", "anchors": ["shipgrav/io.py:_navcoords"]}
{"id": "C55", "title": "missing NMEA coordinates become NaN", "statement": "A talker line with an empty latitude or longitude field gives NaN for both coordinates and does not disturb other rows.", "quantifier": "all such lines", "why_tests_cant": "all files", "anchors": ["shipgrav/io.py:_navcoords"]}
{"id": "C56", "title": "clock times are read to the microsecond", "statement": "The microseconds read from hhmmss.f are those of the decimal fraction. (True when the fraction has two significant decimals; the code violates it for one decimal (0.2 s is read as 0.02 s) and raises on three or more.)", "quantifier": "all clock strings", "why_tests_cant": "all digit strings", "anchors": ["shipgrav/io.py:_clock_time"]}
{"id": "C57", "title": "ship timestamps decode to the UTC instant written in the file", "statement": "For each supported ship the timestamp is the UTC instant given by the date in the line prefix and the clock in the talker string (or the logger stamp for Ride and Langseth).", "quantifier": "all dates and clocks in the ship's format", "why_tests_cant": "calendar over all dates", "anchors": ["shipgrav/io.py:_navdate_Atlantis", "shipgrav/io.py:_navdate_NBP", "shipgrav/io.py:_navdate_Thompson", "shipgrav/io.py:_navdate_Revelle", "shipgrav/io.py:_navdate_Ride", "shipgrav/io.py:_navdate_Langseth"]}
{"id": "C58", "title": "timestamps are right across midnight", "statement": "The timestamp is within a few seconds of the logger time. (The code violates this: when the GPS clock has passed midnight and the logger has not, the result is a day early.)", "quantifier": "all line pairs around midnight", "why_tests_cant": "one instant per day", "anchors": ["shipgrav/io.py:_navdate_Atlantis", "shipgrav/io.py:_navdate_NBP", "shipgrav/io.py:_navdate_Thompson"]}
{"id": "C59", "title": "Revelle dates come from the closest earlier dated line of the same block", "statement": "The date of a talker line is that of the last dated line strictly between the previous talker line and it; with none, no timestamp is produced and read_nav raises.", "quantifier": "every file", "why_tests_cant": "all interleavings of lines", "anchors": ["shipgrav/io.py:_navdate_Revelle"]}
{"id": "C60", "title": "read_nav returns strictly increasing times with first-seen positions", "statement": "The returned time column is strictly increasing, holds exactly the distinct (decimated) times of all files, and each row's position is that of the first row with this time in its file (first file holding it).", "quantifier": "every list of files", "why_tests_cant": "duplicates and order over all files", "anchors": ["shipgrav/io.py:read_nav"]}
{"id": "C61", "title": "read_nav re-samples to the requested rate", "statement": "The output times are spaced by the sampling argument. (The code violates this: the result does not depend on sampling at all.)", "quantifier": "every input", "why_tests_cant": "the argument is dead: equality for all values", "anchors": ["shipgrav/io.py:read_nav"]}
{"id": "C62", "title": "read_nav refuses exactly the unsupported requests", "statement": "-999 is returned exactly when the ship is unknown and no reader is given, when no talker can be determined, for Sikuliaq with a talker other than GPGGA, or when Ride-format files lack the talker; otherwise a table or an exception results.", "quantifier": "every ship name, talker, reader", "why_tests_cant": "decision table over all strings", "anchors": ["shipgrav/io.py:read_nav"]}
{"id": "C63", "title": "decimation keeps every d-th fix of each file", "statement": "With decimate=d>0 the fixes kept from a file are those with index 0, d, 2d, ... in file order; d=0 keeps all.", "quantifier": "every file length and d", "why_tests_cant": "all lengths", "anchors": ["shipgrav/io.py:read_nav"]}
{"id": "C64", "title": "date-line cleaning", "statement": "For a track near the antimeridian with true steps <= 1 degree, cleaning changes longitudes only by multiples of 360 and leaves no step > 1; it never raises; longitudes on the majority side are unchanged.", "quantifier": "every track", "why_tests_cant": "all tracks", "anchors": ["shipgrav/io.py:_clean_180cross", "shipgrav/io.py:read_nav"]}
{"id": "C65", "title": "date-line cleaning only repairs the antimeridian", "statement": "Longitudes are changed by multiples of 360 and no new jump is created. (The code violates this: with a data gap > 1 degree a track crossing Greenwich gets a 360-degree jump.)", "quantifier": "every track with a jump", "why_tests_cant": "counterexample", "anchors": ["shipgrav/io.py:_clean_180cross"]}
{"id": "C66", "title": "read_bgm_raw scales counts and concatenates files in order", "statement": "Row k's rgrav is scale*counts with scale the argument if given, else the database value of the ship; rows are those of the files in the given order; unknown ship without scale, or without reader, gives -999.", "quantifier": "every file list, ship, scale", "why_tests_cant": "all inputs", "anchors": ["shipgrav/io.py:read_bgm_raw"]}
{"id": "C67", "title": "BGM despike removes exactly the isolated spikes", "statement": "If at least two isolated one-sample spikes (in/out jumps above the threshold) are present and no other jump, exactly the spike samples are removed and the order kept; if the jumps do not pair up nothing changes.", "quantifier": "every series and threshold", "why_tests_cant": "all series", "anchors": ["shipgrav/io.py:_despike_bgm_serial"]}
{"id": "C68", "title": "BGM despike removes a single spike", "statement": "A single isolated spike is removed. (The code violates this: with exactly one spike nothing is removed.)", "quantifier": "every series with one spike", "why_tests_cant": "all series", "anchors": ["shipgrav/io.py:_despike_bgm_serial"]}
{"id": "C69", "title": "Langseth laptop reader keeps exactly the 26-field lines", "statement": "The table has one row per line with exactly 26 comma separated fields after the optional 'dgsdata stamp' prefix, in file order, column c holding the documented field; the number of skipped lines is reported.", "quantifier": "every file content", "why_tests_cant": "all files", "anchors": ["shipgrav/io.py:_dgs_laptop_Langseth"]}
{"id": "C70", "title": "read_dgs_raw rescales exactly the four monitors", "statement": "With scale_ccp the columns ve, vcc, al, ax are multiplied by 1e-5 once and no other column changes; without it nothing changes; rows are concatenated in file order.", "quantifier": "every file list", "why_tests_cant": "all tables", "anchors": ["shipgrav/io.py:read_dgs_raw"]}
{"id": "C71", "title": "gravimeter reader dispatch", "statement": "read_dgs_laptop, read_dgs_raw, read_bgm_raw and read_bgm_rgs use the documented reader for each ship, a user reader always takes precedence where offered, and -999 is returned exactly for unsupported ships.", "quantifier": "every ship name", "why_tests_cant": "all strings", "anchors": ["shipgrav/io.py:read_dgs_laptop", "shipgrav/io.py:read_dgs_raw", "shipgrav/io.py:read_bgm_rgs"]}
{"id": "C72", "title": "read_other_stuff returns every line of the feed", "statement": "The table has one row for each line containing the tag. (The code violates this: the last line of the file is never read.) It has exactly one row for each tagged line other than the last line of the file, in order.", "quantifier": "every data file", "why_tests_cant": "boundary of a read loop", "anchors": ["shipgrav/io.py:read_other_stuff"]}
{"id": "C73", "title": "read_other_stuff splits fields faithfully", "statement": "For a line pre + '$TAG' + ',' + fields joined by commas, the row holds the fields in order under the yaml column names and 'mystery' holds pre. (The code violates this when the first field is empty: it is dropped and the others move up one column; it holds for all lines whose first field is not empty.) With or without leading '$' the tag argument gives the same result.", "quantifier": "all field values", "why_tests_cant": "all strings", "anchors": ["shipgrav/io.py:read_other_stuff"]}
{"id": "C74", "title": "grav1d_padded does not depend on the height datum", "statement": "Adding a constant to the topography and to the observation level leaves the anomaly unchanged. (The code violates this: powers of two and above use the topography without its mean removed.)", "quantifier": "every profile and offset", "why_tests_cant": "the difference is a small systematic bias no fixture shows", "anchors": ["shipgrav/grav.py:grav1d_padded"]}
{"id": "C75", "title": "cooling models solve the heat equation", "statement": "The temperatures of therm_halfspace, and those of therm_plate within the plate, as functions of age in seconds and depth, satisfy dT/dt = k d2T/dz2; the half space starts at the mantle temperature and keeps 0 at the sea floor, the plate keeps 0 at the top and Tm at the base.", "quantifier": "all positive ages, all depths, all parameters", "why_tests_cant": "derivatives of a continuum field", "anchors": ["shipgrav/grav.py:therm_halfspace", "shipgrav/grav.py:therm_plate"]}
{"id": "C76", "title": "subsidence is the isostatic response to cooling", "statement": "The subsidence returned with a temperature field is rhom*a/(rhom-rhow) times the depth integral of Tm - T: exactly for the half space, and for the plate up to the two series terms (7th and 9th) which the subsidence leaves out.", "quantifier": "all positive ages and parameters", "why_tests_cant": "improper integral of a continuum field", "anchors": ["shipgrav/grav.py:therm_halfspace", "shipgrav/grav.py:therm_plate"]}
{"id": "C77", "title": "the line picker writes the picked segments", "statement": "The accepted picks, taken two by two in click order, give one file per pair, named after its number and its first and last row; a lone last pick is dropped; other files survive unless the user clears the directory; nothing is written before the picks are accepted. Both picked points are in the file. (The code violates the last sentence: the later one is left out, the file holds rows a to b-1.)", "quantifier": "every table, history of mouse events, answers and directory contents", "why_tests_cant": "interactive", "anchors": ["example-scripts/interactive_line_pick.py", "shipgrav/utils.py:_SnappingCursor"]}
{"id": "C78", "title": "navigation drop-outs are removed", "statement": "The cleaning step of the example scripts drops exactly the fixes followed by a longitude more than one degree further east. A single fix far to the west of its successor is removed. After cleaning no two neighbouring fixes are more than a degree apart. (The code violates the last sentence: a drop-out to the east stays in the table and the good fix before it is dropped.)", "quantifier": "every table of fixes, with missing values", "why_tests_cant": "the fixture has one kind of drop-out", "anchors": ["example-scripts/dgs_bgm_comp.py"]}
{"id": "C79", "title": "positions are interpolated linearly between the neighbouring fixes", "statement": "For every time there is exactly one pair of fixes used; the position is on the straight line through them, between them within the record, missing exactly if one of the two is; uniform motion is reproduced exactly, also outside the record. At the time of a fix the position is that fix. (The code violates the last sentence if the fix before is missing.)", "quantifier": "every increasing sequence of fix times, all positions with missing values, all times", "why_tests_cant": "all inputs", "anchors": ["example-scripts/dgs_bgm_comp.py"]}
{"id": "C80", "title": "free-air anomaly of the example scripts", "statement": "A ship lying still gets reading + bias - normal gravity + tide within 1e-5 mGal; along the equator the Eotvos effect of the speed is added exactly; the bias shifts anomaly and full field; a full turn of longitude changes nothing; anomaly and full field differ by normal gravity within 1e-5; the tide contributes at most 0.2251 mGal; fewer than three samples raise IndexError and naive times TypeError.", "quantifier": "every navigation table, all readings, times, biases and sampling rates", "why_tests_cant": "all inputs, real-valued identities", "anchors": ["example-scripts/dgs_bgm_comp.py", "shipgrav/grav.py:eotvos_full", "shipgrav/grav.py:longman_tide_prediction", "shipgrav/grav.py:wgs_grav"]}
{"id": "C81", "title": "low-pass filter of the example scripts", "statement": "The filter applies 480 fixed Blackman-windowed weights forwards and backwards to the series continued by point reflection at both ends; at most 1440 samples raise ValueError; it is linear, keeps straight lines, commutes with time reversal, keeps the phase of waves and reaches 479 samples to either side. The part which the scripts keep is free of the continuation. (The code violates the last sentence: at the end only 240 of the 479 affected samples are cut off.)", "quantifier": "every series of any length", "why_tests_cant": "all series, real-valued identities", "anchors": ["example-scripts/dgs_bgm_comp.py", "example-scripts/dgs_ccp_calc.py", "example-scripts/dgs_raw_comp.py", "example-scripts/interactive_line_pick.py"]}
{"id": "C82", "title": "cross and long accelerations from navigation", "statement": "For at least 11 positions the accelerations are missing exactly at the ten samples at either end; elsewhere their size is that of the acceleration of the ellipsoidal velocities, the long one is the component along the velocity and the cross one the component to its right. A ship keeping its latitude and longitude rate has none.", "quantifier": "every track of at least 11 positions, all sampling rates", "why_tests_cant": "real-valued identities", "anchors": ["example-scripts/dgs_ccp_calc.py", "shipgrav/nav.py:latlon_to_EN", "shipgrav/nav.py:rotate_acceleration_EN_to_cl"]}
{"id": "C83", "title": "level error of the cross-coupling example", "statement": "The level error is g(1-z) - long*x + cross*y, (x,y,z) being the up vector of the damped platform; a steady ship has none. It is gravity less what the tilted sensor sees of gravity and the two accelerations. (The code violates the last sentence: each acceleration is multiplied by the component of the other axis, so a pure cross acceleration contributes nothing directly.)", "quantifier": "every gravity and acceleration series, all sampling rates above 1/120", "why_tests_cant": "real-valued identities", "anchors": ["example-scripts/dgs_ccp_calc.py", "shipgrav/grav.py:up_vecs"]}
{"id": "C84", "title": "cross-coupling fit and correction of the example", "statement": "The fit needs 1002 samples. For a noise-free field the correction removes the four monitors and leaves the contribution of the level error. Each row of the fit compares the same samples. (The code violates the last sentence: the level error is not shortened with the table and is two samples early.)", "quantifier": "all series", "why_tests_cant": "an offset of two samples no fixture shows", "anchors": ["example-scripts/dgs_ccp_calc.py", "shipgrav/grav.py:calc_cross_coupling_coefficients"]}
{"id": "C85", "title": "cleaning of the serial files", "statement": "Beside each serial file a file clean_<name> is made that holds, in order, exactly the lines with AT1M and 19 fields. Existing files are never changed, a missing serial file raises FileNotFoundError at that file, the names come sorted, a second run changes nothing, and cleaning is idempotent. The raw reader finds one 19-field row per line of a clean file; it can fail only on an empty file or its time stamps. Each clean file is up to date with its serial file. (The code violates the last sentence: an old clean file is kept.)", "quantifier": "every set of files, every list of paths, all texts", "why_tests_cant": "depends on what files are there before the run", "anchors": ["example-scripts/dgs_raw_comp.py", "shipgrav/io.py:read_dgs_raw"]}
{"id": "C86", "title": "extension of a line segment", "statement": "The segment keeps its points in the middle of the extended line. Both ends are continued along the geodesic at the mean spacing of the segment: by 500 km, or by n-1 points if the segment is shorter than that. An empty segment raises IndexError; one point, or a segment ending where it began, ValueError.", "quantifier": "every segment and every geodesic solver", "why_tests_cant": "arbitrary geometry and lengths", "anchors": ["example-scripts/RMBA_calc.py"]}
{"id": "C87", "title": "embedding of the free-air anomaly", "statement": "Sample i of the segment's low-passed anomaly replaces the tracked value at the row of its own position, for all samples but 480 at either end; other rows are unchanged, and no embedded value depends on how the record is continued beyond its ends. A record of at most 1440 samples raises ValueError, and so does a table that ends before the last embedded row unless it has exactly as many rows as there are values.", "quantifier": "every record, every table, every extension", "why_tests_cant": "an offset by one row is invisible in a plot", "anchors": ["example-scripts/RMBA_calc.py"]}
{"id": "C88", "title": "mantle Bouguer anomaly and residual anomaly", "statement": "The mantle Bouguer anomaly is the free-air anomaly less Parker's gravity of sea floor, basement and base of the crust; the residual anomaly lacks that of 27 half-space isotherms below the crust too. The density contrasts add up to 3300 - 1000 and each isotherm has -4.95. Flat inputs leave the anomaly unchanged. One missing depth or thickness makes both anomalies missing everywhere, one missing or negative age the residual anomaly.", "quantifier": "every even number of points (flat and missing inputs: any number from 2)", "why_tests_cant": "real-valued identities", "anchors": ["example-scripts/RMBA_calc.py", "shipgrav/grav.py:grav1d_padded", "shipgrav/grav.py:therm_Z_halfspace"]}
{"id": "C89", "title": "resampling to even spacing", "statement": "The line is resampled to 1000 positions at equal steps from its start to its end; at a tracked distance the value is the tracked one, whatever its neighbours are, elsewhere it is on the straight line between the tracked values around it, missing if one of them is; linear series are reproduced and the end values, missing or not, kept. The distances may come in any order: the values around a position are those of the nearest distances below and above it. A series of another length, and distances all above or all below zero, raise ValueError; nothing else does.", "quantifier": "every line whose distances differ, in any order", "why_tests_cant": "arbitrary spacing and order", "anchors": ["example-scripts/RMBA_calc.py"]}
{"id": "C90", "title": "envelope of the ship's motion", "statement": "What is compared with a monitor is the largest of the last 1000 samples of the motion, on the straight line between two such maxima at times between samples; it is 0 wherever a sample is missing among the last 1000 and before the motion was recorded; after the record it stays at the last maximum. With complete samples it is at least every one of the last 999 samples. It is never below the motion at the same time. (The code violates the last sentence: in the first 999 samples and after a missing one it is 0.) Empty motion or times of another length raise ValueError.", "quantifier": "every series of motion with times in order, all times of the gravimeter", "why_tests_cant": "depends on gaps and on the start of a record", "anchors": ["example-scripts/mru_coherence.py"]}
{"id": "C91", "title": "coherence of motion and monitors", "statement": "The plotted values are the magnitude-squared coherence over 256-sample Hann segments with half overlap; they lie in [0,1], are missing exactly where one series has no power, and do not depend on units, offsets or the order of the two. They are 1 exactly where one complex factor takes one spectrum to the other in every segment, so 1 for linear dependence, and 0 if in each segment one series is constant. Below 384 samples there is one segment and the value is 1 whatever the data. A constant series gives only missing values.", "quantifier": "every two series of equal length", "why_tests_cant": "real-valued identities", "anchors": ["example-scripts/mru_coherence.py"]}
{"id": "C92", "title": "cleaned ini files load as TOML with the same values", "statement": "A file of comments, section headers and key=value lines, whose values are true/false, TOML numbers, quoted texts or bare texts without quotes, backslashes, '=' or '#', loads after cleaning and gives exactly these values, in their sections; a number has the value float() gives it. A key or section given twice raises ValueError. Number texts that float() reads are accepted except those with leading zeros, with no digit on one side of the point, or other spellings of inf and nan; one of these makes the load raise ValueError. Nothing is raised but FileNotFoundError for a missing file, IndexError for a line without a value, and ValueError. Every cleaned file loads, and every text loads as itself. (The code violates the last sentence: 'GravCal = 1.' is left unquoted and does not load, a backslash in a path is read as an escape or fails, and '//' in a quoted text becomes '#'.)", "quantifier": "every file of such lines, in any number and order", "why_tests_cant": "the number grammars of Python and TOML differ in rare forms", "anchors": ["shipgrav/utils.py:clean_ini_to_toml", "example-scripts/dgs_raw_comp.py"]}
{"id": "C93", "title": "calibration of the raw DGS channels", "statement": "With the loaded settings in section Sensor, gravity, long, cross and beam counts become count*gain/8388607 + zero, and the two temperatures and the pressure count*gain + zero, each with its own pair of settings; gravity then gets the meter bias. A full-scale count gives gain plus zero. It succeeds exactly when all fourteen settings are present and not texts; otherwise the first unusable one in reading order decides, KeyError if absent, TypeError if a text.", "quantifier": "every configuration with distinct names and every raw columns", "why_tests_cant": "one swapped setting changes one column only", "anchors": ["example-scripts/dgs_raw_comp.py"]}
{"id": "C94", "title": "missing positions in the free-air anomaly", "statement": "The anomaly and the full field at a sample are missing exactly if its reading or position is, or a latitude around the centre of the three samples used for its motion, or the longitude before or after that centre; the first and last sample use the centre of their neighbour. For fixes without position this means: exactly if one of the two fixes used for one of these three samples has none. All other samples have the value which they have with any numbers in place of the missing ones; anomaly and full field still differ by normal gravity.", "quantifier": "every record of at least three samples, every pattern of missing values", "why_tests_cant": "each pattern of gaps is a different case", "anchors": ["example-scripts/dgs_bgm_comp.py", "shipgrav/grav.py:eotvos_full", "shipgrav/grav.py:longman_tide_prediction"]}
{"id": "C95", "title": "missing samples in the low-pass filter", "statement": "A filtered value is missing exactly if a sample within 479 samples of it is missing: one missing sample removes 959 values. All others are the forward-backward filter of the record with any values in place of the missing ones. Without missing samples the result is that of C81, and a record of at most 1440 samples raises ValueError.", "quantifier": "every record, every pattern of missing values", "why_tests_cant": "each pattern of gaps is a different case", "anchors": ["example-scripts/dgs_bgm_comp.py"]}
{"id": "C96", "title": "order of the ship's motion records", "statement": "The motion table consists of the feed's tables of all files, in order of file names, one under the other; the text before the tag becomes date_time and tsec, and the column holding it is dropped. If no file is given, a file is missing or unreadable, or a time cannot be converted, the call raises, for the first such file in order. If every path is one text followed by the date as YYYY-MM-DD, one file for each day, holding that day's records in order, then tsec is in order, as the interpolation needs. Sorting by file name accomplishes this whenever the paths have dates. (The last sentence is false: it fails if the paths differ before the date.)", "quantifier": "every number of files, every names, dates and contents", "why_tests_cant": "depends on the set of files", "anchors": ["example-scripts/mru_coherence.py", "shipgrav/io.py:read_other_stuff"]}
{"id": "C97", "title": "no time or position is invented", "statement": "Whatever the lines contain, if a date function of the navigation readers returns, it returns one entry for each talker line, in order, and each entry is the instant of the first date of the ship's format in the text before the first talker and of the clock in the first field after the last talker (hours and minutes the first two pairs of characters as int() reads them, seconds the rest as float() reads it, decimals counted as hundredths; Thompson: whole seconds; Revelle: the last dated line since the previous talker line, None only if there is none; Langseth: the year, day and clock in the second column after seapath, of the right number of digits; Ride: the posix seconds before $INGGA to the nearest microsecond, the ISO stamp cut to microseconds), a calendar date and a time of day in range. If navcoords returns, a position is missing only if its field is empty or its minutes are not finite, and is otherwise the degrees and minutes of the fields, negative exactly for S or W.", "quantifier": "every file content and talker", "why_tests_cant": "the readers accept many texts that no test writes; what they make of them is a statement about all texts", "anchors": ["shipgrav/io.py:_navdate_Atlantis", "shipgrav/io.py:_navdate_NBP", "shipgrav/io.py:_navdate_Thompson", "shipgrav/io.py:_navdate_Revelle", "shipgrav/io.py:_navdate_Ride", "shipgrav/io.py:_navdate_Langseth", "shipgrav/io.py:_navcoords"]}
{"id": "C98", "title": "the gaussian filter in double precision", "statement": "When every operation is rounded to the nearest double and the exponential is good to one unit in the last place, gaussian_filter(x, fl) with 1 <= fl <= 2000000 and len(x) > fl returns a value for each sample that differs from the exact weighted moving sum by at most (2n+311)*2^-53*max|x| + n*2^-1073, n = 2*floor(fl/2)+1; for fl <= 10000 and |x| <= 1e6 mGal that is below 3e-6 mGal; a constant comes back within that bound once the window is full; and rounding changes neither which calls raise nor what they raise.", "quantifier": "every series, filter length and exponential of that quality", "why_tests_cant": "a test compares a few numbers with a tolerance; the bound is over all series and lengths", "anchors": ["shipgrav/utils.py:gaussian_filter", "shipgrav/utils.py:_gaussian_coeffs"]}
{"id": "C99", "title": "the corrections in double precision", "statement": "When every operation is rounded to the nearest double and sin, cos and arctan are good to 2^-52, wgs_grav(lat) is within 7e-10 mGal of the exact formula for |lat| <= 90, free_air_second_order(lat, ht) within 2e-12 mGal for |ht| <= 10 km, and every entry of eotvos_full(lon, lat, ht, samp) with the default axes within 5e-3 mGal of the exact one for samp <= 10 and within 5e-5 mGal for samp <= 1, for tracks with |lat| <= 90, |lon| <= 360, |ht| <= 1000 whose central differences are those of a ship (below 1e-5 and 1e-4 rad/s in latitude and longitude, 1e-5 and 1e-3 rad/s^2, 10 m/s, 10 m/s^2).", "quantifier": "every latitude, height and track of any length", "why_tests_cant": "the second differences of positions in degrees cancel almost all digits; how much survives is a statement about all tracks", "anchors": ["shipgrav/grav.py:wgs_grav", "shipgrav/grav.py:free_air_second_order", "shipgrav/grav.py:eotvos_full", "shipgrav/grav.py:center_diff"]}
{"id": "C100", "title": "crustal thickness along the line", "statement": "The script passes the spacing of the 1000 resampled positions, in km, and gets two curves. Every anomaly of 1000 values is a mean and harmonics 1 to 500. In the recovered anomaly and in the thickness each harmonic has one gain: half the gain belonging to the next lower and half that belonging to the next higher harmonic. Harmonics whose neighbours are longer than 30 km are recovered in full, and their thickness is the downward continued slab thickness times cosh(10 pi/P), P the length in km; those whose neighbours are shorter than 5 km are removed. One missing value makes everything missing; a wrong number of values raises ValueError; a constant anomaly has no thickness. The recovered anomaly lies on the given one for long waves. (The code violates the last sentence: both curves are one sample early.)", "quantifier": "every line of positive length and every anomaly", "why_tests_cant": "the shift is a thousandth of the plot, and the factor close to one", "anchors": ["shipgrav/grav.py:crustal_thickness_2D", "example-scripts/RMBA_calc.py"]}
{"id": "C101", "title": "the tide in double precision", "statement": "When every operation is rounded to the nearest double, sin, cos and arctan are good to 2^-52, arcsin and arccos to 2^-51 and powers to a relative 2^-52, every entry of longman_tide_prediction(lon, lat, times, alt), both with and without return_components, is within 1e-10 mGal of the tide of the specification, for UTC times from 1900 to 2099, |lon| <= 360, |lat| <= 90 and |alt| <= 10 km, if the moon's node is at least 9 degrees from 180 degrees, and within 1e-6 mGal if it is at least one arcsecond from it.", "quantifier": "every number of samples, every position and time in these ranges", "why_tests_cant": "the formulas chain some sixty operations through arcsin and a quotient that degenerates when the node nears 180 degrees, every 18.6 years", "anchors": ["shipgrav/grav.py:longman_tide_prediction", "shipgrav/grav.py:_convert_datetime_tidetime"]}
{"id": "C102", "title": "the free-air anomaly in double precision", "statement": "With rounding as in C101, the free-air anomaly grav - (wgs_grav + free_air_second_order) + eotvos_full + longman_tide_prediction of the scripts, and the full field, are within 5.2e-5 mGal of the exact sums at up to one sample per second and within 0.00501 mGal at up to ten, for every track a ship can sail, readings up to 1e6 mGal and UTC times from 1900 to 2099 (moon's node an arcsecond or more from 180 degrees). For a ship lying still the anomaly is the reading minus normal gravity plus the tide to 6.2e-5 mGal.", "quantifier": "every track of three or more samples, every sample of it", "why_tests_cant": "errors of differences of nearly equal positions and of numbers of size 1e6 add up along the whole chain", "anchors": ["example-scripts/dgs_bgm_comp.py", "shipgrav/grav.py:eotvos_full", "shipgrav/grav.py:longman_tide_prediction", "shipgrav/grav.py:wgs_grav"]}
{"id": "C103", "title": "from the files to the free-air anomaly", "statement": "The part of the example scripts from read_nav and read_dgs_laptop (and read_bgm_raw) to the column faa, taken together: rows come out sorted by date_time with every column rearranged alike; every row's time is the instant its file gives; for a ship lying still the anomaly of each row is its own reading plus bias minus normal gravity plus the tide of its own instant to 1e-5 mGal, and the anomalies of two meters at the same instant differ by their readings and biases; for a moving ship full_field - faa is normal gravity on the line between the fixes around the reading; for a ship steaming steadily along the equator, read at even intervals, the anomaly is the reading plus bias minus equatorial gravity plus the Eotvos effect ((q + earth_rate)^2 - earth_rate^2) * 6378137 m of its rate q plus the tide at its position, exactly. If no two rows have the same time, neither the order in which the meter's files are listed nor the sorting algorithm changes the result. Unknown ships give AttributeError, a missing date ValueError, text among the readings TypeError, fewer than three rows IndexError, and exceptions of the readers pass through.", "quantifier": "every set of files, every order of files and rows, every sorting function", "why_tests_cant": "examples read two or three files that are already in order; a row paired with the time or position of another row gives plausible anomalies", "anchors": ["example-scripts/dgs_bgm_comp.py", "example-scripts/dgs_raw_comp.py", "example-scripts/dgs_ccp_calc.py", "shipgrav/io.py:read_nav", "shipgrav/io.py:read_dgs_laptop", "shipgrav/io.py:read_bgm_raw"]}
{"id": "C104", "title": "order and repetition of navigation files", "statement": "read_nav gives the same table for two lists of paths whenever the files give the same first position for every time. So the order of the files and files listed twice do not matter if files agree on the times which they share; a file listed a second time never matters; the same holds of the scripts. If two files disagree about a time the order does matter: the file listed first wins.", "quantifier": "every ship, talker, user function and decimation; every list of files", "why_tests_cant": "tests read the files in sorted order", "anchors": ["shipgrav/io.py:read_nav", "example-scripts/dgs_bgm_comp.py"]}
{"id": "C105", "title": "times and positions in double precision", "statement": "Rounding whole microseconds to POSIX times in double precision, up to 2038, never changes between which two fixes a reading lies, and the position which interp1d computes in double precision is on the straight line between these two fixes up to 1e-12 degrees plus the way made in two microseconds (at the time of a fix up to 1e-12 degrees); it is missing exactly if one of the two is. A ship lying still gets exactly its position at every time. So for such a ship the whole chain from fixes, readings and times to faa in double precision gives the reading plus bias minus normal gravity plus tide to 6.3e-5 mGal.", "quantifier": "every list of fixes in order, every instant, every rounding as good as binary64", "why_tests_cant": "POSIX times have a spacing of a quarter of a microsecond, and their differences are divided by each other", "anchors": ["example-scripts/dgs_bgm_comp.py", "shipgrav/io.py:read_nav"]}
{"id": "C106", "title": "cross-coupling fit of changed readings", "statement": "Whatever the readings are, if a combination of the four monitors and the level error and a parabola in the sample number are subtracted from and added to them, the coefficients fitted by calc_cross_coupling_coefficients change by exactly those of the combination (constant: minus twice the parabola's), provided the columns of the fit and a constant are linearly independent; and the corrected anomaly of the script changes by the parabola alone, provided that no combination of the four monitors with a constant and the level error vanishes. A fit exists for every table.", "quantifier": "every series of readings, noise included, every monitors", "why_tests_cant": "a test knows the true coefficients only of data without noise", "anchors": ["shipgrav/grav.py:calc_cross_coupling_coefficients", "example-scripts/dgs_ccp_calc.py"]}
{"id": "C107", "title": "cross-coupling correction from the files", "statement": "The part of dgs_ccp_calc.py from the files to faa_ccp, taken together: for two sets of meter files with the same times and monitors, whose readings differ by a constant and a combination of the monitors, the corrected anomalies differ by the constant only, whatever the navigation. For a ship on a steady course along a parallel, read at even intervals, rows and files in any order, the table has the anomaly of the other scripts and the monitors of each row in order of time, the level error is 0 throughout, and a table of 11 to 1001 rows is refused with ValueError.", "quantifier": "every set of files, every order of rows, every sorting function", "why_tests_cant": "a monitor paired with the reading of another row still gives plausible coefficients", "anchors": ["example-scripts/dgs_ccp_calc.py", "shipgrav/grav.py:calc_cross_coupling_coefficients", "shipgrav/io.py:read_dgs_laptop", "shipgrav/io.py:read_nav", "shipgrav/grav.py:up_vecs"]}
{"id": "C108", "title": "exceptions of the navigation reader", "statement": "Whatever the files contain, the int and float of a text raise nothing but ValueError; the positions of the lines raise nothing but IndexError and ValueError, and not IndexError if every line of the talker has five fields; and read_nav without a function of the user raises FileNotFoundError, and apart from it only: IndexError and ValueError for the known ships (for Sikuliaq only if the talker is GPGGA), OverflowError for all of these but Langseth, AttributeError for Revelle and for Ride with a talker other than INGGA and GPGGA, OSError for Ride with INGGA. For the talkers of the ships each of these is raised for some file.", "quantifier": "every contents of the files, every path list, talker, sampling and decimation", "why_tests_cant": "no set of broken files covers all the ways in which a line can be broken", "anchors": ["shipgrav/io.py:read_nav", "shipgrav/io.py:_navcoords", "shipgrav/io.py:_clock_time", "shipgrav/io.py:_navdate_Ride", "shipgrav/io.py:_navdate_Revelle", "shipgrav/io.py:_navdate_Langseth"]}
{"id": "C109", "title": "the package's database", "statement": "database.toml loads; with it read_nav and read_bgm_raw use the talkers and scales of C62 and C66, the calibration factor is 2^23-1, every known ship has a DGS bias, exactly those with a BGM scale have a BGM bias and the others have -999 instead; other ships raise KeyError. With an edited database: naming a ship and its talker in nav-talkers is not enough, read_nav without a function of the user still returns -999; a file that is not TOML makes both readers raise ValueError, a missing table KeyError.", "quantifier": "every other database text, every ship, all arguments of the readers", "why_tests_cant": "the tests use the constants of one database and of three ships", "anchors": ["shipgrav/io.py:read_nav", "shipgrav/io.py:read_bgm_raw", "shipgrav/database.toml", "example-scripts/dgs_bgm_comp.py"]}
{"id": "C110", "title": "two meters compared, from the files on", "statement": "If the files of the DGS and of the BGM hold the same times, in any order and distributed over any files, row k of both sorted tables has the same time, the two anomalies (and full fields) are missing together, and where present differ exactly as the readings with their biases do, however the ship moves. The low-passed anomalies are missing together too and differ by the low-passed difference of the readings; meters whose readings differ by a constant have filtered anomalies which differ by that constant and the difference of the biases. With at most 1440 rows the filter raises ValueError.", "quantifier": "all navigation and gravimeter files, sorting methods and biases", "why_tests_cant": "depends on the whole chain for two inputs; no test runs the script", "anchors": ["example-scripts/dgs_bgm_comp.py"]}
{"id": "C111", "title": "arguments that the numerical functions refuse", "statement": "Each numerical function raises exactly on the listed arguments and with the listed exception, and returns a value on all others: crustal_thickness_2D (AssertionError if the cut-off wavelengths are not in order; otherwise ZeroDivisionError for a zero wavelength, grid size, density or dx; otherwise ValueError for an array of another length than the grid), the four thermal functions (equal densities, no depths, Tm = 0, a spacing of zero or pointing away from the end), longman_tide_prediction (lengths, then times without zone, then altitudes), eotvos_full, latlon_to_EN, up_vecs, gaussian_filter, grav1d_padded, grav2d_folding (an empty grid, an odd number of 3 or more points along an axis without folding, rows that do not fit), calc_cross_coupling_coefficients (no run of 1000 samples) and decode_dgs_status_bits on a table (KeyError without the column; ValueError if it is there twice, has a cell that is no integer, or a flag column exists). Only in the last case does the failed call change the table: the flags before the first existing one are then in.", "quantifier": "all arguments", "why_tests_cant": "refused arguments come in combinations; tests try a few one at a time", "anchors": ["shipgrav/grav.py:crustal_thickness_2D", "shipgrav/grav.py:therm_halfspace", "shipgrav/grav.py:therm_Z_halfspace", "shipgrav/grav.py:therm_plate", "shipgrav/grav.py:therm_Z_plate", "shipgrav/grav.py:longman_tide_prediction", "shipgrav/grav.py:eotvos_full", "shipgrav/grav.py:up_vecs", "shipgrav/grav.py:grav1d_padded", "shipgrav/grav.py:grav2d_folding", "shipgrav/grav.py:calc_cross_coupling_coefficients", "shipgrav/utils.py:gaussian_filter", "shipgrav/utils.py:decode_dgs_status_bits", "shipgrav/nav.py:latlon_to_EN"]}
{"id": "C112", "title": "from the files of a cruise to the picked segments and into the profile", "statement": "interactive_line_pick.py, started from the navigation and gravimeter files: every row of its table holds all columns of a row of the gravimeter files in time order, its time in seconds, its reading with the bias, the position on the line between the fixes before and after it (missing if a coordinate of these is), anomaly and full field as in the other scripts, and the low-passed anomaly, missing exactly where an anomaly within 479 samples is; the accepted picks give files with the rows between them. A segment file has date_time as its seventeenth column, which RMBA_calc.py reads as a date, except for Thompson, whose files have fifteen columns. RMBA_calc.py filters the anomaly of the segment again, but what it places at the segment's positions, 480 samples from its ends, is exactly the low-passed anomaly of the whole cruise in column faa_filt, missing values included: nothing of the cut at the ends enters. All other values of the profile are kept; a segment of 1440 rows or fewer raises ValueError.", "quantifier": "all files, ships, picks and segments with known positions, all geodesics and tracked profiles", "why_tests_cant": "the two scripts run apart, on downloaded files and with a human picking", "anchors": ["example-scripts/interactive_line_pick.py", "example-scripts/RMBA_calc.py", "shipgrav/io.py:read_dgs_laptop", "shipgrav/io.py:read_nav"]}
{"id": "C113", "title": "from the files of a cruise to the coherence curves", "statement": "mru_coherence.py, started from the files of navigation, gravimeter and motion sensor: it completes with one figure each for Pitch, Roll and Heave, with curves for vcc, ve, al and ax in each. A curve is the magnitude squared coherence (at frequencies f/N) of the monitor's records in order of time with the envelope of the motion at the times of these records: the largest of the last 1000 samples, on the line between the times of the sensor, 0 before its first record and wherever one of those samples is missing. If a record of the monitor is missing in any segment, no value of the curve is left; a value is also missing where one of the two powers is 0. The order in which the files are listed does not matter, nor the sorting method if the gravimeter's times differ; positions and bias have no part in the curves. The script stops with the exceptions of C103 and C96, with ValueError for fewer than 1441 records or a sensor without records, with KeyError for a missing motion or monitor.", "quantifier": "all files, file lists, sorting methods, biases, numbers of records", "why_tests_cant": "the script needs three downloaded data sets; no test runs it", "anchors": ["example-scripts/mru_coherence.py", "shipgrav/io.py:read_dgs_laptop", "shipgrav/io.py:read_other_stuff", "shipgrav/io.py:read_nav"]}
{"id": "C114", "title": "from the files of a cruise to the comparison of laptop and serial records", "statement": "dgs_raw_comp.py, started from the navigation, the laptop's files, the serial files and the meter's ini file: it completes if there are more than 1440 laptop records and all settings and channels are there. The first plot shows the laptop's readings between its first and its 501st time in order of time (these two excluded; 499 readings if all times differ), and of the serial records those between the same two times, calibrated with gain and zero of the ini file. The serial table gets all seven calibrated channels and column grav (with the bias); records get positions on the line between the fixes before and after. The second plot shows the steps of time of the serial records, the third the filtered anomaly of the laptop's records, missing within 479 records of a missing anomaly. Navigation and bias have no part in the first two plots; the serial files may be listed in any order if they all exist, but not in general. The first channel that cannot be calibrated stops the script: KeyError for a missing channel or setting, TypeError for a text. At most 500 laptop records raise IndexError, a serial table without times AttributeError, a missing serial time ValueError.", "quantifier": "all files, file lists, sorting methods, settings, biases, numbers of records", "why_tests_cant": "the script needs four downloaded data sets and writes files; no test runs it", "anchors": ["example-scripts/dgs_raw_comp.py", "shipgrav/io.py:read_dgs_raw", "shipgrav/io.py:read_dgs_laptop", "shipgrav/utils.py:clean_ini_to_toml"]}
{"id": "C115", "title": "anomalies and satellite gravity are drawn row by row of the sorted records", "statement": "The last plots of dgs_bgm_comp.py, dgs_raw_comp.py and dgs_ccp_calc.py. The satellite file gives one value per row (column 4 between commas below one heading line; in dgs_raw_comp.py column 3 of words), comments and empty lines left out; a row without a number there raises ValueError, and so does a number with underscores. With more than 1440 records (of each meter) and as many satellite rows as laptop records, the plot completes: each curve has 720 points fewer than there are records, its point k is at the time of record 480 + k in order of time and shows the low-passed anomaly of that record or the value of satellite row 480 + k: satellite rows are matched by their number, not by time or position. In dgs_ccp_calc.py the first two records and satellite rows are left out as well: the points belong to records and rows 482 + k, and at most 1442 records raise ValueError. Any other number of satellite rows raises ValueError, a single row IndexError, a missing file FileNotFoundError.", "quantifier": "all files, file lists, texts of satellite files, sorting methods, biases, fitted parameters, numbers of records", "why_tests_cant": "the scripts need downloaded data sets; no test runs them", "anchors": ["example-scripts/dgs_bgm_comp.py", "example-scripts/dgs_raw_comp.py", "example-scripts/dgs_ccp_calc.py"]}
{"id": "C116", "title": "the profile of anomalies and crustal thickness from a segment and its tracked line", "statement": "RMBA_calc.py as a whole, for a segment of more than 1440 rows, all with positions, and a file of tracked values (six columns between tabs: longitude, latitude, depth, anomaly, sediment, age; values may be missing) with at least as many rows as the part of the extended line that receives the segment's anomaly, distances from its first point all different and the last one positive. The run completes. The anomaly along the line is the low-passed one of the segment from 480 samples after its first to 480 before its last row, and the tracked one everywhere else. Anomaly, depth, sediment and age become 1000 values at even steps over the whole distance, at a tracked distance the tracked value, elsewhere on the straight line between the values at the nearest distances below and above and missing if one of these is. If nothing is missing and no age is negative, the mantle Bouguer anomaly lacks the gravity of sea floor, basement and base of the crust, and the residual one that of 27 isotherms as well; one missing depth or sediment leaves both anomalies without values, one missing or negative age the residual one, and one missing value of that leaves no thickness; otherwise thickness and recovered anomaly are the filtered harmonics of C100. Adding a constant to the anomalies of segment and file adds it to both anomalies and to the recovered one and leaves the thickness as it is. With constant depth, sediment and age nothing is corrected. A missing file raises FileNotFoundError; fewer than six columns, at most 1440 rows in the segment or too few rows in the file raise ValueError.", "quantifier": "all segments, geodesics, texts of track files, positions of missing values", "why_tests_cant": "the script needs downloaded data sets; no test runs it", "anchors": ["example-scripts/RMBA_calc.py"]}
