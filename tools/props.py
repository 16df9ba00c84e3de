#!/usr/bin/env python3
"""Source of /verif/properties.jsonl (run: python3 tools/props.py)."""
import json, os
P = []
def p(id, title, statement, quantifier, why, *anchors):
    P.append(dict(id=id, title=title, statement=statement, quantifier=quantifier,
                  why_tests_cant=why, anchors=list(anchors)))

U, N, G, I = "shipgrav/utils.py", "shipgrav/nav.py", "shipgrav/grav.py", "shipgrav/io.py"

# ---------------------------------------------------------------- utils.py
p("C01", "gaussian_filter is a causal moving average of the last L samples",
  "gaussian_filter(x, fl) returns one value per input sample; with L = 2*floor(fl/2)+1 weights w, output i is sum_{j<L} w[L-1-j]*x[i-j], samples before the start counting as 0. It fails (assertion) exactly when len(x) <= fl.",
  "every finite input series and every filter length fl >= 1",
  "the ring buffer is a loop-carried state: a test fixes one length and one series", f"{U}:gaussian_filter")
p("C02", "gaussian weights are a normalised symmetric window of odd length",
  "The weights used by gaussian_filter number 2*floor(fl/2)+1, are all positive, read the same backwards and sum to 1.",
  "every fl >= 1", "one statement for each fl; tests try one or two lengths", f"{U}:_gaussian_coeffs")
p("C03", "the gaussian window peaks at its centre",
  "The centre weight of the gaussian window is its largest. (The code violates this: the two neighbours of the centre are strictly larger, for each fl >= 2.)",
  "every fl >= 2", "needs a comparison of transcendental weights for all fl", f"{U}:_gaussian_coeffs")
p("C04", "gaussian_filter is linear, keeps constants and never overshoots",
  "gaussian_filter is linear in x; once L samples have been seen a constant series is returned unchanged; every output lies between min(0, min x) and max(0, max x).",
  "every series, filter length and index", "range statement over all real series", f"{U}:gaussian_filter")
p("C05", "decode_dgs_status_bits is the 16-bit big-endian decoding",
  "For an int 0 <= s < 2^16 the returned dict has exactly the 16 documented flags in order and flag number i is the character of bit 15-i of s; the dict determines s.",
  "every 16-bit status word", "bijection over 65536 words and 16 flags, including the flag order", f"{U}:decode_dgs_status_bits")
p("C06", "decode_dgs_status_bits on words outside 16 bits",
  "Flag i reports bit 15-i for any int. (The code violates this: for s >= 2^16 the flags are the 16 most significant bits, and for s < 0 the first flag is '-'.)",
  "every Python int outside [0, 2^16)", "unbounded integers", f"{U}:decode_dgs_status_bits")
p("C07", "decode_dgs_status_bits on a DataFrame agrees with the scalar decoding row by row",
  "For a DataFrame the 16 flag columns are inserted at positions 1..16 in flag order, row r holding the scalar decoding of status[r]; every other column keeps its values and relative order; a second call on the result raises.",
  "every table with at least one column, every number of rows", "all table shapes", f"{U}:decode_dgs_status_bits")
p("C08", "clean_ini_to_toml names its output x.toml for input x.ini and never overwrites the input",
  "For any path x + '.ini' the output path is x + '.toml'; for any path at all the output path differs from the input path.",
  "every path string", "rstrip('ini') strips a character set, so the danger is in unusual names", f"{U}:clean_ini_to_toml")
p("C09", "clean_ini_to_toml is line-by-line and keeps every line",
  "When it does not raise, the output has, in order, one line for each input line (split at newline after the // , tab and TRUE/FALSE substitutions); lines that start with '[' or '#', empty lines, booleans, numbers and already quoted strings are written unchanged.",
  "every file content", "all file contents", f"{U}:clean_ini_to_toml")
p("C10", "clean_ini_to_toml quotes bare strings",
  "A key=value line whose value is not a number, boolean or quoted string becomes key= \"value\" with the value stripped, and applying the line rule again changes nothing.",
  "every key and value without '=' or '#'", "all strings", f"{U}:clean_ini_to_toml")
p("C11", "clean_ini_to_toml keeps trailing comments and values containing '='",
  "A trailing comment on a bare string value is kept in the output. (The code violates this: the comment is always dropped, and so is anything after a second '='.)",
  "every line", "universally false: no input keeps its comment", f"{U}:clean_ini_to_toml")
p("C12", "clean_ini_to_toml failure point",
  "A line that has no '=' and is not empty, a header or a comment makes the call raise; by then the output file has been truncated and holds exactly the rewritten lines before the offending one.",
  "every file content and position of the first offending line", "crash point quantified over positions", f"{U}:clean_ini_to_toml")
p("C13", "the picker's click history is a stack of consistent picks",
  "After any sequence of mouse events the three pick lists have equal length, entry k of the lon/lat lists is the lon/lat of the data row whose index is entry k of the index list, and the lists equal those of an abstract undo stack (left click pushes the row nearest in time, right click pops).",
  "every event sequence and data table", "every history of events", f"{U}:_SnappingCursor.on_mouse_click")
p("C14", "a right click with no picks raises and changes nothing",
  "With no picks a right click raises IndexError and all pick lists stay empty, so later events behave as if it never happened.",
  "every history ending in an empty pick list", "history", f"{U}:_SnappingCursor.on_mouse_click")
p("C15", "the picker's cross hair is on a data point and consistent with the cursor",
  "After any sequence of move events, if the cursor is in the axis then the cross hair is at the first data point with x >= cursor x (the last point if none), the dot is at the row nearest in time to that point and the cross hair is visible; outside it is invisible.",
  "every sequence of move/click events", "the early return on an unchanged index makes this a history property", f"{U}:_SnappingCursor.on_mouse_move")
p("C16", "the cross hair snaps to the closest point",
  "The cross hair is at a data point of minimal distance in x to the cursor. (The code violates this: it takes the next point to the right.)",
  "every cursor position and sorted x", "counterexample found by proof", f"{U}:_SnappingCursor.on_mouse_move")

# ---------------------------------------------------------------- nav.py
p("C17", "latlon_to_EN output shape and NaN edges",
  "For equal-length inputs of n >= 11 finite samples both outputs have n entries; entries 0..4 and n-5..n-1 are NaN and all others finite. Unequal lengths or n < 11 raise AssertionError.",
  "every n and every pair of series", "all lengths", f"{N}:latlon_to_EN")
p("C18", "latlon_to_EN differentiates polynomial tracks exactly",
  "If latitude is a polynomial of degree <= 10 in the sample index, the interior north velocity is exactly (meridional radius of curvature)*(dlat/dt) with t = index/freq; the same for longitude and east velocity with the parallel radius.",
  "every polynomial of degree <= 10, every freq, every interior index", "identity over all polynomials", f"{N}:latlon_to_EN")
p("C19", "latlon_to_EN symmetries",
  "Velocities do not change when a constant is added to all longitudes, are proportional to freq, change sign when the track is run backwards, and are 0 for a ship that does not move.",
  "every track", "all tracks", f"{N}:latlon_to_EN")
p("C20", "ENvel_to_course_heading is the polar form of the velocity",
  "vel >= 0, vel*sin(heading) = ve and vel*cos(heading) = vn (heading in degrees clockwise from north) and -180 < heading <= 180.",
  "every pair of real velocities", "all real pairs including the axes", f"{N}:ENvel_to_course_heading")
p("C21", "rotate_acceleration_EN_to_cl is a rotation aligned with the heading",
  "The rotation keeps the magnitude, is undone by the rotation with the opposite heading, and sends a vector pointing along the heading to (cross, long) = (0, length).",
  "every heading and acceleration", "all reals", f"{N}:rotate_acceleration_EN_to_cl")

# ---------------------------------------------------------------- grav.py: tide
p("C22", "the tidal zenith cosines are cosines",
  "In longman_tide_prediction the lunar and solar zenith cosines are dot products of the zenith direction with the directions of moon and sun (unit vectors), so always in [-1,1]; each predicted value is the degree 2+3 lunar plus degree 2 solar tide of Longman's theory for that position and UTC instant. The quotient for the moon's node is never 0/0: at no timestamp is the node at 180 degrees.",
  "every latitude, longitude and time", "trigonometric identity over reals", f"{G}:longman_tide_prediction")
p("C23", "the tide is periodic in longitude and decomposes into moon and sun",
  "Adding 360 to the longitude does not change the prediction; with return_components the total is the sum of the two components; the result has one entry per sample and unequal lengths raise.",
  "every position, time, altitude", "all reals", f"{G}:longman_tide_prediction")
p("C24", "the tidal time argument counts days since noon on 31 December 1899",
  "For UTC timestamps the time argument is (seconds since 1899-12-31T12:00Z rounded down)/86400/36525 centuries and the hour argument is the time of day in hours in [0,24).",
  "every datetime", "calendar arithmetic over all dates", f"{G}:_convert_datetime_tidetime")
p("C25", "the tide depends only on the instant",
  "Two timezone-aware timestamps for the same instant give the same prediction. (The code violates this: it uses the local hour.)",
  "every pair of representations of an instant", "time zones", f"{G}:_convert_datetime_tidetime")
p("C26", "the tide is bounded",
  "At sea level the predicted tide is at most 0.2251 mGal in size (moon 0.1625, sun 0.0626) for every timestamp Python can represent.",
  "every position and time in range", "maximum over a continuum", f"{G}:longman_tide_prediction")
# ---------------------------------------------------------------- grav.py: eotvos / latitude
p("C27", "Eotvos correction of a stationary ship is zero, and shape",
  "eotvos_full returns one value per sample, the first two and last two values being equal; for a ship that does not move (constant lat, lon, height) every value is 0.",
  "every n >= 3, every position", "all positions and lengths", f"{G}:eotvos_full")
p("C28", "Eotvos correction does not depend on the longitude origin",
  "Adding a constant to all longitudes (for instance 360) leaves the correction unchanged.",
  "every track", "all tracks", f"{G}:eotvos_full")
p("C29", "Eotvos correction is the vertical component of Harlan's acceleration",
  "For tracks quadratic in time every interior value is 1e5 times the downward acceleration of the ship seen from inertial space less that of a body at rest on the rotating earth (real second derivatives of the inertial position; plumb-line angle as in Harlan); the misprint in the first component of w' has no effect. A value depends only on its sample and the two neighbours.",
  "every track", "algebraic identity over all inputs", f"{G}:eotvos_full")
p("C30", "Eotvos correction on the equator and its sign",
  "On the equator at constant height and longitude rate q the correction is ((q+We)^2-We^2)*(a+h)*1e5; it is positive sailing east and negative sailing west (|q| < 2We).",
  "every rate and height", "all rates", f"{G}:eotvos_full")
p("C31", "free-air correction",
  "free_air_second_order is 0 at height 0, is strictly decreasing in height for heights up to 1000 km, the free_water option differs from the default by 0.0863491*height exactly, and the default agrees with the second-order height change of WGS84 normal gravity up to the rounding of the printed coefficients.",
  "every latitude and height", "all reals", f"{G}:free_air_second_order")
p("C32", "WGS84 normal gravity",
  "wgs_grav is symmetric about the equator, increases with |latitude|, is 978032.53359 at the equator, at most 983218.4938 anywhere, and agrees with Somigliana's closed formula for the WGS84 ellipsoid within 0.00001 mGal.",
  "every latitude", "continuum", f"{G}:wgs_grav")
p("C33", "center_diff is exact on low-degree polynomials",
  "center_diff(y,1,s) is the exact derivative at the interior samples if y samples a polynomial of degree <= 2 at rate s, center_diff(y,2,s) the exact second derivative for degree <= 3; the result has len(y)-2 entries; any other order returns -999.",
  "every polynomial, rate and length", "all polynomials", f"{G}:center_diff")
# ---------------------------------------------------------------- grav.py: cross coupling, tilt
p("C34", "cross-coupling segments never straddle a gap",
  "Every run of samples that calc_cross_coupling_coefficients differentiates is a contiguous range of the input with no time step above 5*samplerate inside, has at least 1000 samples, ranges are disjoint and in order, and all six series use the same ranges.",
  "every time vector", "all gap patterns", f"{G}:calc_cross_coupling_coefficients")
p("C35", "cross-coupling uses every long continuous run",
  "Every maximal gap-free run of >= 1000 samples contributes. (The code violates this: when there is any gap, all samples after the last gap are ignored, and so is the last sample before each gap.)",
  "every time vector with a gap", "all gap patterns", f"{G}:calc_cross_coupling_coefficients")
p("C36", "cross-coupling trimming removes all edge effects",
  "Each row used in the fit comes from 220 consecutive real samples (no zero padding): it is their low-passed second derivative (11-point Taylor derivative applied twice, then the 200-tap Blackman low-pass with unit gain), and a segment of n samples gives n-420 rows; the rows of the six columns are aligned.",
  "every segment", "all lengths", f"{G}:calc_cross_coupling_coefficients")
p("C37", "cross-coupling coefficients are recovered from noise-free data",
  "If faa = smooth - (c_ve*ve + c_vcc*vcc + c_al*al + c_ax*ax + c_lev*lev) with smooth a polynomial of degree <= 2 in the sample index and the design matrix has full column rank, the least-squares fit returns exactly those coefficients.",
  "all monitors, coefficients and segmentations", "identity through the whole pipeline", f"{G}:calc_cross_coupling_coefficients")
p("C38", "up_vecs returns unit vectors",
  "Every column returned by up_vecs has length 1, and a positive third component; with zero accelerations every column is (0,0,1).",
  "all accelerations, gravity, periods and dampings", "all reals", f"{G}:up_vecs", f"{G}:_calc_up_vecs")
p("C39", "the platform tilt filter is stable with the documented static gain",
  "For 0 < 2*dt < per and damping >= 0 the tilt filter solves the trapezoidal discretisation of the damped platform equation, its output is bounded by a fixed multiple of the input bound for inputs of any length, sinusoidal inputs settle to the platform response at the warped frequency, and the DC gain is (omS^2-om0^2)/om0^2; damping 0 or False means sqrt(2)/2. (For per/2 < dt < per it is unstable.)",
  "every period, step, damping and bounded input of any length", "bounded-input bounded-output over all histories", f"{G}:_tilt_filter", f"{G}:up_vecs")
p("C40", "up_vecs tolerates NaN and flagged samples",
  "NaN accelerations and samples with on_off > 0 act as zero acceleration; the result never contains NaN; the caller's acceleration arrays are overwritten with the cleaned values.",
  "all arrays", "all NaN patterns", f"{G}:up_vecs")
# ---------------------------------------------------------------- grav.py: Fourier
p("C41", "grav1d_padded: flat topography has no anomaly, linear in density contrast",
  "The anomaly has one value per input point, is 0 for constant topography and is proportional to rho.",
  "every profile length, level, spacing", "all lengths", f"{G}:grav1d_padded")
p("C42", "grav1d_padded wavenumbers match the FFT bins",
  "Bin m of the padded FFT gets wavenumber min(m, n-m)*2*pi/(n*dx). Holds exactly for profiles with an even number of points. (The code violates this for odd profile lengths.)",
  "every profile length", "parity of all lengths", f"{G}:grav1d_padded")
p("C43", "grav2d_folding: shape, flat surface, proportionality, wavenumbers",
  "The result has the shape of the input grid, is 0 for a flat surface and proportional to drho; with folding the wavenumber of every FFT bin is the true one for all grid sizes; without folding it is so for even sizes and an odd size raises.",
  "every grid size", "parity of all sizes", f"{G}:grav2d_folding")
p("C44", "grav2d_layer_variable_density: uniform layer, linearity",
  "The result is linear in rho, 0 for a uniform density and 0 for a layer of zero thickness.",
  "every grid", "all grids", f"{G}:grav2d_layer_variable_density")
p("C45", "layer wavenumbers match the FFT bins",
  "Bin j of an nx-point axis gets wavenumber of size min(j, nx-j)*dkx. (The code violates this at the bins just above the Nyquist bin.)",
  "every nx >= 3", "off-by-one at one bin for each size", f"{G}:_kvalue")
# ---------------------------------------------------------------- grav.py: thermal
p("C46", "half-space temperature is physical",
  "For positive ages therm_halfspace temperatures lie in [0,Tm], are 0 at the sea floor, increase with depth and decrease with age; subsidence is proportional to the square root of age.",
  "all ages, depths and positive parameters", "continuum", f"{G}:therm_halfspace")
p("C47", "isotherm depth inverts the half-space temperature",
  "therm_halfspace evaluated at the depth therm_Z_halfspace gives for isotherm T returns T, and both return the same subsidence; distance and age inputs agree when age = |distance|/u.",
  "all isotherms 0 < T < Tm, all positive ages", "inverse functions over a continuum", f"{G}:therm_Z_halfspace", f"{G}:therm_halfspace")
p("C48", "plate model boundary conditions",
  "therm_plate gives 0 at the sea floor, Tm at the plate base and everywhere below it, tends to the linear profile as age grows, and subsidence increases with age towards its asymptote.",
  "all ages and depths", "continuum", f"{G}:therm_plate")
p("C49", "therm_Z_plate returns the best grid depth",
  "Each returned depth is on the depth grid, no other grid depth has a temperature closer to the isotherm, and the shallowest is returned among ties.",
  "all isotherms, distances and grids", "argmin over all grids", f"{G}:therm_Z_plate")
p("C50", "crustal_thickness_2D output is in input order",
  "Output n is the crustal thickness at input point n. (The code violates this: without back the output is point-reversed, n -> (-n) mod N; with back it is shifted by one sample.)",
  "every N and every spectrum", "index arithmetic of a double forward FFT for all N", f"{G}:crustal_thickness_2D")
p("C51", "crustal_thickness_2D wavenumbers match the FFT bins",
  "FFT bin i has wavenumber min(i,nx-i)*2*pi/(nx*dx); in particular bin 0 (the mean) has wavenumber 0. (The code violates this: wavenumbers are displaced by one bin.)",
  "every nx", "all sizes", f"{G}:crustal_thickness_2D")
p("C52", "crustal_thickness_2D taper",
  "The taper weight is 1 up to the long cutoff, 0 beyond the short cutoff, in [0,1] and non-increasing in between and continuous at both ends; wlarge <= wsmall raises.",
  "every wavenumber and pair of cutoffs", "continuum", f"{G}:crustal_thickness_2D")
p("C53", "recovered gravity equals the input gravity when nothing is tapered",
  "With back=True and all bins inside the pass band the recovered gravity is the input gravity (up to the one-sample cyclic shift of C50), whatever zdown and rho.",
  "every signal, depth, density", "needs DFT inversion for all N", f"{G}:crustal_thickness_2D")
# ---------------------------------------------------------------- io.py: nav
p("C54", "NMEA positions decode to signed decimal degrees",
  "For every line that contains the talker followed by time,ddmm.m,N|S,dddmm.m,E|W fields the coordinates read are +-(degrees + minutes/60), negative exactly for S and W; rows are in file order, one for each talker line.",
  "all degrees, minutes, hemispheres, prefixes and suffixes", "all strings", f"{I}:_navcoords")
p("C55", "missing NMEA coordinates become NaN",
  "A talker line with an empty latitude or longitude field gives NaN for both coordinates and does not disturb other rows.",
  "all such lines", "all files", f"{I}:_navcoords")
p("C56", "clock times are read to the microsecond",
  "The microseconds read from hhmmss.f are those of the decimal fraction. (True when the fraction has two significant decimals; the code violates it for one decimal (0.2 s is read as 0.02 s) and raises on three or more.)",
  "all clock strings", "all digit strings", f"{I}:_clock_time")
p("C57", "ship timestamps decode to the UTC instant written in the file",
  "For each supported ship the timestamp is the UTC instant given by the date in the line prefix and the clock in the talker string (or the logger stamp for Ride and Langseth).",
  "all dates and clocks in the ship's format", "calendar over all dates", f"{I}:_navdate_Atlantis", f"{I}:_navdate_NBP", f"{I}:_navdate_Thompson", f"{I}:_navdate_Revelle", f"{I}:_navdate_Ride", f"{I}:_navdate_Langseth")
p("C58", "timestamps are right across midnight",
  "The timestamp is within a few seconds of the logger time. (The code violates this: when the GPS clock has passed midnight and the logger has not, the result is a day early.)",
  "all line pairs around midnight", "one instant per day", f"{I}:_navdate_Atlantis", f"{I}:_navdate_NBP", f"{I}:_navdate_Thompson")
p("C59", "Revelle dates come from the closest earlier dated line of the same block",
  "The date of a talker line is that of the last dated line strictly between the previous talker line and it; with none, no timestamp is produced and read_nav raises.",
  "every file", "all interleavings of lines", f"{I}:_navdate_Revelle")
p("C60", "read_nav returns strictly increasing times with first-seen positions",
  "The returned time column is strictly increasing, holds exactly the distinct (decimated) times of all files, and each row's position is that of the first row with this time in its file (first file holding it).",
  "every list of files", "duplicates and order over all files", f"{I}:read_nav")
p("C61", "read_nav re-samples to the requested rate",
  "The output times are spaced by the sampling argument. (The code violates this: the result does not depend on sampling at all.)",
  "every input", "the argument is dead: equality for all values", f"{I}:read_nav")
p("C62", "read_nav refuses exactly the unsupported requests",
  "-999 is returned exactly when the ship is unknown and no reader is given, when no talker can be determined, for Sikuliaq with a talker other than GPGGA, or when Ride-format files lack the talker; otherwise a table or an exception results.",
  "every ship name, talker, reader", "decision table over all strings", f"{I}:read_nav")
p("C63", "decimation keeps every d-th fix of each file",
  "With decimate=d>0 the fixes kept from a file are those with index 0, d, 2d, ... in file order; d=0 keeps all.",
  "every file length and d", "all lengths", f"{I}:read_nav")
p("C64", "date-line cleaning",
  "For a track near the antimeridian with true steps <= 1 degree, cleaning changes longitudes only by multiples of 360 and leaves no step > 1; it never raises; longitudes on the majority side are unchanged.",
  "every track", "all tracks", f"{I}:_clean_180cross", f"{I}:read_nav")
p("C65", "date-line cleaning only repairs the antimeridian",
  "Longitudes are changed by multiples of 360 and no new jump is created. (The code violates this: with a data gap > 1 degree a track crossing Greenwich gets a 360-degree jump.)",
  "every track with a jump", "counterexample", f"{I}:_clean_180cross")
# ---------------------------------------------------------------- io.py: gravimeters
p("C66", "read_bgm_raw scales counts and concatenates files in order",
  "Row k's rgrav is scale*counts with scale the argument if given, else the database value of the ship; rows are those of the files in the given order; unknown ship without scale, or without reader, gives -999.",
  "every file list, ship, scale", "all inputs", f"{I}:read_bgm_raw")
p("C67", "BGM despike removes exactly the isolated spikes",
  "If at least two isolated one-sample spikes (in/out jumps above the threshold) are present and no other jump, exactly the spike samples are removed and the order kept; if the jumps do not pair up nothing changes.",
  "every series and threshold", "all series", f"{I}:_despike_bgm_serial")
p("C68", "BGM despike removes a single spike",
  "A single isolated spike is removed. (The code violates this: with exactly one spike nothing is removed.)",
  "every series with one spike", "all series", f"{I}:_despike_bgm_serial")
p("C69", "Langseth laptop reader keeps exactly the 26-field lines",
  "The table has one row per line with exactly 26 comma separated fields after the optional 'dgsdata stamp' prefix, in file order, column c holding the documented field; the number of skipped lines is reported.",
  "every file content", "all files", f"{I}:_dgs_laptop_Langseth")
p("C70", "read_dgs_raw rescales exactly the four monitors",
  "With scale_ccp the columns ve, vcc, al, ax are multiplied by 1e-5 once and no other column changes; without it nothing changes; rows are concatenated in file order.",
  "every file list", "all tables", f"{I}:read_dgs_raw")
p("C71", "gravimeter reader dispatch",
  "read_dgs_laptop, read_dgs_raw, read_bgm_raw and read_bgm_rgs use the documented reader for each ship, a user reader always takes precedence where offered, and -999 is returned exactly for unsupported ships.",
  "every ship name", "all strings", f"{I}:read_dgs_laptop", f"{I}:read_dgs_raw", f"{I}:read_bgm_rgs")
p("C72", "read_other_stuff returns every line of the feed",
  "The table has one row for each line containing the tag. (The code violates this: the last line of the file is never read.) It has exactly one row for each tagged line other than the last line of the file, in order.",
  "every data file", "boundary of a read loop", f"{I}:read_other_stuff")
p("C73", "read_other_stuff splits fields faithfully",
  "For a line pre + '$TAG' + ',' + fields joined by commas, the row holds the fields in order under the yaml column names and 'mystery' holds pre. (The code violates this when the first field is empty: it is dropped and the others move up one column; it holds for all lines whose first field is not empty.) With or without leading '$' the tag argument gives the same result.",
  "all field values", "all strings", f"{I}:read_other_stuff")
# ---------------------------------------------------------------- added as the model grew
p("C74", "grav1d_padded does not depend on the height datum",
  "Adding a constant to the topography and to the observation level leaves the anomaly unchanged. (The code violates this: powers of two and above use the topography without its mean removed.)",
  "every profile and offset", "the difference is a small systematic bias no fixture shows", f"{G}:grav1d_padded")

p("C75", "cooling models solve the heat equation",
  "The temperatures of therm_halfspace, and those of therm_plate within the plate, as functions of age in seconds and depth, satisfy dT/dt = k d2T/dz2; the half space starts at the mantle temperature and keeps 0 at the sea floor, the plate keeps 0 at the top and Tm at the base.",
  "all positive ages, all depths, all parameters", "derivatives of a continuum field", f"{G}:therm_halfspace", f"{G}:therm_plate")
p("C76", "subsidence is the isostatic response to cooling",
  "The subsidence returned with a temperature field is rhom*a/(rhom-rhow) times the depth integral of Tm - T: exactly for the half space, and for the plate up to the two series terms (7th and 9th) which the subsidence leaves out.",
  "all positive ages and parameters", "improper integral of a continuum field", f"{G}:therm_halfspace", f"{G}:therm_plate")

E = "example-scripts"
p("C77", "the line picker writes the picked segments",
  "The accepted picks, taken two by two in click order, give one file per pair, named after its number and its first and last row; a lone last pick is dropped; other files survive unless the user clears the directory; nothing is written before the picks are accepted. Both picked points are in the file. (The code violates the last sentence: the later one is left out, the file holds rows a to b-1.)",
  "every table, history of mouse events, answers and directory contents", "interactive", f"{E}/interactive_line_pick.py", "shipgrav/utils.py:_SnappingCursor")

p("C78", "navigation drop-outs are removed",
  "The cleaning step of the example scripts drops exactly the fixes followed by a longitude more than one degree further east. A single fix far to the west of its successor is removed. After cleaning no two neighbouring fixes are more than a degree apart. (The code violates the last sentence: a drop-out to the east stays in the table and the good fix before it is dropped.)",
  "every table of fixes, with missing values", "the fixture has one kind of drop-out", f"{E}/dgs_bgm_comp.py")
p("C79", "positions are interpolated linearly between the neighbouring fixes",
  "For every time there is exactly one pair of fixes used; the position is on the straight line through them, between them within the record, missing exactly if one of the two is; uniform motion is reproduced exactly, also outside the record. At the time of a fix the position is that fix. (The code violates the last sentence if the fix before is missing.)",
  "every increasing sequence of fix times, all positions with missing values, all times", "all inputs", f"{E}/dgs_bgm_comp.py")
p("C80", "free-air anomaly of the example scripts",
  "A ship lying still gets reading + bias - normal gravity + tide within 1e-5 mGal; along the equator the Eotvos effect of the speed is added exactly; the bias shifts anomaly and full field; a full turn of longitude changes nothing; anomaly and full field differ by normal gravity within 1e-5; the tide contributes at most 0.2251 mGal; fewer than three samples raise IndexError and naive times TypeError.",
  "every navigation table, all readings, times, biases and sampling rates", "all inputs, real-valued identities", f"{E}/dgs_bgm_comp.py", f"{G}:eotvos_full", f"{G}:longman_tide_prediction", f"{G}:wgs_grav")

p("C81", "low-pass filter of the example scripts",
  "The filter applies 480 fixed Blackman-windowed weights forwards and backwards to the series continued by point reflection at both ends; at most 1440 samples raise ValueError; it is linear, keeps straight lines, commutes with time reversal, keeps the phase of waves and reaches 479 samples to either side. The part which the scripts keep is free of the continuation. (The code violates the last sentence: at the end only 240 of the 479 affected samples are cut off.)",
  "every series of any length", "all series, real-valued identities", f"{E}/dgs_bgm_comp.py", f"{E}/dgs_ccp_calc.py", f"{E}/dgs_raw_comp.py", f"{E}/interactive_line_pick.py")
p("C82", "cross and long accelerations from navigation",
  "For at least 11 positions the accelerations are missing exactly at the ten samples at either end; elsewhere their size is that of the acceleration of the ellipsoidal velocities, the long one is the component along the velocity and the cross one the component to its right. A ship keeping its latitude and longitude rate has none.",
  "every track of at least 11 positions, all sampling rates", "real-valued identities", f"{E}/dgs_ccp_calc.py", "shipgrav/nav.py:latlon_to_EN", "shipgrav/nav.py:rotate_acceleration_EN_to_cl")
p("C83", "level error of the cross-coupling example",
  "The level error is g(1-z) - long*x + cross*y, (x,y,z) being the up vector of the damped platform; a steady ship has none. It is gravity less what the tilted sensor sees of gravity and the two accelerations. (The code violates the last sentence: each acceleration is multiplied by the component of the other axis, so a pure cross acceleration contributes nothing directly.)",
  "every gravity and acceleration series, all sampling rates above 1/120", "real-valued identities", f"{E}/dgs_ccp_calc.py", f"{G}:up_vecs")
p("C84", "cross-coupling fit and correction of the example",
  "The fit needs 1002 samples. For a noise-free field the correction removes the four monitors and leaves the contribution of the level error. Each row of the fit compares the same samples. (The code violates the last sentence: the level error is not shortened with the table and is two samples early.)",
  "all series", "an offset of two samples no fixture shows", f"{E}/dgs_ccp_calc.py", f"{G}:calc_cross_coupling_coefficients")

p("C85", "cleaning of the serial files",
  "Beside each serial file a file clean_<name> is made that holds, in order, exactly the lines with AT1M and 19 fields. Existing files are never changed, a missing serial file raises FileNotFoundError at that file, the names come sorted, a second run changes nothing, and cleaning is idempotent. The raw reader finds one 19-field row per line of a clean file; it can fail only on an empty file or its time stamps. Each clean file is up to date with its serial file. (The code violates the last sentence: an old clean file is kept.)",
  "every set of files, every list of paths, all texts", "depends on what files are there before the run", f"{E}/dgs_raw_comp.py", f"{I}:read_dgs_raw")

p("C86", "extension of a line segment",
  "The segment keeps its points in the middle of the extended line. Both ends are continued along the geodesic at the mean spacing of the segment: by 500 km, or by n-1 points if the segment is shorter than that. An empty segment raises IndexError; one point, or a segment ending where it began, ValueError.",
  "every segment and every geodesic solver", "arbitrary geometry and lengths", f"{E}/RMBA_calc.py")
p("C87", "embedding of the free-air anomaly",
  "Sample i of the segment's low-passed anomaly replaces the tracked value at the row of its own position, for all samples but 480 at either end; other rows are unchanged, and no embedded value depends on how the record is continued beyond its ends. A record of at most 1440 samples raises ValueError, and so does a table that ends before the last embedded row unless it has exactly as many rows as there are values.",
  "every record, every table, every extension", "an offset by one row is invisible in a plot", f"{E}/RMBA_calc.py")
p("C88", "mantle Bouguer anomaly and residual anomaly",
  "The mantle Bouguer anomaly is the free-air anomaly less Parker's gravity of sea floor, basement and base of the crust; the residual anomaly lacks that of 27 half-space isotherms below the crust too. The density contrasts add up to 3300 - 1000 and each isotherm has -4.95. Flat inputs leave the anomaly unchanged. One missing depth or thickness makes both anomalies missing everywhere, one missing or negative age the residual anomaly.",
  "every even number of points (flat and missing inputs: any number from 2)", "real-valued identities", f"{E}/RMBA_calc.py", f"{G}:grav1d_padded", f"{G}:therm_Z_halfspace")
p("C89", "resampling to even spacing",
  "The line is resampled to 1000 positions at equal steps from its start to its end; at a tracked distance the value is the tracked one, whatever its neighbours are, elsewhere it is on the straight line between the tracked values around it, missing if one of them is; linear series are reproduced and the end values, missing or not, kept. The distances may come in any order: the values around a position are those of the nearest distances below and above it. A series of another length, and distances all above or all below zero, raise ValueError; nothing else does.",
  "every line whose distances differ, in any order", "arbitrary spacing and order", f"{E}/RMBA_calc.py")

p("C90", "envelope of the ship's motion",
  "What is compared with a monitor is the largest of the last 1000 samples of the motion, on the straight line between two such maxima at times between samples; it is 0 wherever a sample is missing among the last 1000 and before the motion was recorded; after the record it stays at the last maximum. With complete samples it is at least every one of the last 999 samples. It is never below the motion at the same time. (The code violates the last sentence: in the first 999 samples and after a missing one it is 0.) Empty motion or times of another length raise ValueError.",
  "every series of motion with times in order, all times of the gravimeter", "depends on gaps and on the start of a record", f"{E}/mru_coherence.py")
p("C91", "coherence of motion and monitors",
  "The plotted values are the magnitude-squared coherence over 256-sample Hann segments with half overlap; they lie in [0,1], are missing exactly where one series has no power, and do not depend on units, offsets or the order of the two. They are 1 exactly where one complex factor takes one spectrum to the other in every segment, so 1 for linear dependence, and 0 if in each segment one series is constant. Below 384 samples there is one segment and the value is 1 whatever the data. A constant series gives only missing values.",
  "every two series of equal length", "real-valued identities", f"{E}/mru_coherence.py")

p("C92", "cleaned ini files load as TOML with the same values",
  "A file of comments, section headers and key=value lines, whose values are true/false, TOML numbers, quoted texts or bare texts without quotes, backslashes, '=' or '#', loads after cleaning and gives exactly these values, in their sections; a number has the value float() gives it. A key or section given twice raises ValueError. Number texts that float() reads are accepted except those with leading zeros, with no digit on one side of the point, or other spellings of inf and nan; one of these makes the load raise ValueError. Nothing is raised but FileNotFoundError for a missing file, IndexError for a line without a value, and ValueError. Every cleaned file loads, and every text loads as itself. (The code violates the last sentence: 'GravCal = 1.' is left unquoted and does not load, a backslash in a path is read as an escape or fails, and '//' in a quoted text becomes '#'.)",
  "every file of such lines, in any number and order", "the number grammars of Python and TOML differ in rare forms", f"{U}:clean_ini_to_toml", f"{E}/dgs_raw_comp.py")
p("C93", "calibration of the raw DGS channels",
  "With the loaded settings in section Sensor, gravity, long, cross and beam counts become count*gain/8388607 + zero, and the two temperatures and the pressure count*gain + zero, each with its own pair of settings; gravity then gets the meter bias. A full-scale count gives gain plus zero. It succeeds exactly when all fourteen settings are present and not texts; otherwise the first unusable one in reading order decides, KeyError if absent, TypeError if a text.",
  "every configuration with distinct names and every raw columns", "one swapped setting changes one column only", f"{E}/dgs_raw_comp.py")

p("C94", "missing positions in the free-air anomaly",
  "The anomaly and the full field at a sample are missing exactly if its reading or position is, or a latitude around the centre of the three samples used for its motion, or the longitude before or after that centre; the first and last sample use the centre of their neighbour. For fixes without position this means: exactly if one of the two fixes used for one of these three samples has none. All other samples have the value which they have with any numbers in place of the missing ones; anomaly and full field still differ by normal gravity.",
  "every record of at least three samples, every pattern of missing values", "each pattern of gaps is a different case", f"{E}/dgs_bgm_comp.py", f"{G}:eotvos_full", f"{G}:longman_tide_prediction")
p("C95", "missing samples in the low-pass filter",
  "A filtered value is missing exactly if a sample within 479 samples of it is missing: one missing sample removes 959 values. All others are the forward-backward filter of the record with any values in place of the missing ones. Without missing samples the result is that of C81, and a record of at most 1440 samples raises ValueError.",
  "every record, every pattern of missing values", "each pattern of gaps is a different case", f"{E}/dgs_bgm_comp.py")

p("C96", "order of the ship's motion records",
  "The motion table consists of the feed's tables of all files, in order of file names, one under the other; the text before the tag becomes date_time and tsec, and the column holding it is dropped. If no file is given, a file is missing or unreadable, or a time cannot be converted, the call raises, for the first such file in order. If every path is one text followed by the date as YYYY-MM-DD, one file for each day, holding that day's records in order, then tsec is in order, as the interpolation needs. Sorting by file name accomplishes this whenever the paths have dates. (The last sentence is false: it fails if the paths differ before the date.)",
  "every number of files, every names, dates and contents", "depends on the set of files", f"{E}/mru_coherence.py", f"{I}:read_other_stuff")

p("C97", "no time or position is invented",
  "Whatever the lines contain, if a date function of the navigation readers returns, it returns one entry for each talker line, in order, and each entry is the instant of the first date of the ship's format in the text before the first talker and of the clock in the first field after the last talker (hours and minutes the first two pairs of characters as int() reads them, seconds the rest as float() reads it, decimals counted as hundredths; Thompson: whole seconds; Revelle: the last dated line since the previous talker line, None only if there is none; Langseth: the year, day and clock in the second column after seapath, of the right number of digits; Ride: the posix seconds before $INGGA to the nearest microsecond, the ISO stamp cut to microseconds), a calendar date and a time of day in range. If navcoords returns, a position is missing only if its field is empty or its minutes are not finite, and is otherwise the degrees and minutes of the fields, negative exactly for S or W.",
  "every file content and talker", "the readers accept many texts that no test writes; what they make of them is a statement about all texts", f"{I}:_navdate_Atlantis", f"{I}:_navdate_NBP", f"{I}:_navdate_Thompson", f"{I}:_navdate_Revelle", f"{I}:_navdate_Ride", f"{I}:_navdate_Langseth", f"{I}:_navcoords")

p("C98", "the gaussian filter in double precision",
  "When every operation is rounded to the nearest double and the exponential is good to one unit in the last place, gaussian_filter(x, fl) with 1 <= fl <= 2000000 and len(x) > fl returns a value for each sample that differs from the exact weighted moving sum by at most (2n+311)*2^-53*max|x| + n*2^-1073, n = 2*floor(fl/2)+1; for fl <= 10000 and |x| <= 1e6 mGal that is below 3e-6 mGal; a constant comes back within that bound once the window is full; and rounding changes neither which calls raise nor what they raise.",
  "every series, filter length and exponential of that quality", "a test compares a few numbers with a tolerance; the bound is over all series and lengths", f"{U}:gaussian_filter", f"{U}:_gaussian_coeffs")
p("C99", "the corrections in double precision",
  "When every operation is rounded to the nearest double and sin, cos and arctan are good to 2^-52, wgs_grav(lat) is within 7e-10 mGal of the exact formula for |lat| <= 90, free_air_second_order(lat, ht) within 2e-12 mGal for |ht| <= 10 km, and every entry of eotvos_full(lon, lat, ht, samp) with the default axes within 5e-3 mGal of the exact one for samp <= 10 and within 5e-5 mGal for samp <= 1, for tracks with |lat| <= 90, |lon| <= 360, |ht| <= 1000 whose central differences are those of a ship (below 1e-5 and 1e-4 rad/s in latitude and longitude, 1e-5 and 1e-3 rad/s^2, 10 m/s, 10 m/s^2).",
  "every latitude, height and track of any length", "the second differences of positions in degrees cancel almost all digits; how much survives is a statement about all tracks", f"{G}:wgs_grav", f"{G}:free_air_second_order", f"{G}:eotvos_full", f"{G}:center_diff")

p("C100", "crustal thickness along the line",
  "The script passes the spacing of the 1000 resampled positions, in km, and gets two curves. Every anomaly of 1000 values is a mean and harmonics 1 to 500. In the recovered anomaly and in the thickness each harmonic has one gain: half the gain belonging to the next lower and half that belonging to the next higher harmonic. Harmonics whose neighbours are longer than 30 km are recovered in full, and their thickness is the downward continued slab thickness times cosh(10 pi/P), P the length in km; those whose neighbours are shorter than 5 km are removed. One missing value makes everything missing; a wrong number of values raises ValueError; a constant anomaly has no thickness. The recovered anomaly lies on the given one for long waves. (The code violates the last sentence: both curves are one sample early.)",
  "every line of positive length and every anomaly", "the shift is a thousandth of the plot, and the factor close to one", f"{G}:crustal_thickness_2D", f"{E}/RMBA_calc.py")

p("C101", "the tide in double precision",
  "When every operation is rounded to the nearest double, sin, cos and arctan are good to 2^-52, arcsin and arccos to 2^-51 and powers to a relative 2^-52, every entry of longman_tide_prediction(lon, lat, times, alt), both with and without return_components, is within 1e-10 mGal of the tide of the specification, for UTC times from 1900 to 2099, |lon| <= 360, |lat| <= 90 and |alt| <= 10 km, if the moon's node is at least 9 degrees from 180 degrees, and within 1e-6 mGal if it is at least one arcsecond from it.",
  "every number of samples, every position and time in these ranges", "the formulas chain some sixty operations through arcsin and a quotient that degenerates when the node nears 180 degrees, every 18.6 years", f"{G}:longman_tide_prediction", f"{G}:_convert_datetime_tidetime")

p("C102", "the free-air anomaly in double precision",
  "With rounding as in C101, the free-air anomaly grav - (wgs_grav + free_air_second_order) + eotvos_full + longman_tide_prediction of the scripts, and the full field, are within 5.2e-5 mGal of the exact sums at up to one sample per second and within 0.00501 mGal at up to ten, for every track a ship can sail, readings up to 1e6 mGal and UTC times from 1900 to 2099 (moon's node an arcsecond or more from 180 degrees). For a ship lying still the anomaly is the reading minus normal gravity plus the tide to 6.2e-5 mGal.",
  "every track of three or more samples, every sample of it", "errors of differences of nearly equal positions and of numbers of size 1e6 add up along the whole chain", f"{E}/dgs_bgm_comp.py", f"{G}:eotvos_full", f"{G}:longman_tide_prediction", f"{G}:wgs_grav")

p("C103", "from the files to the free-air anomaly",
  "The part of the example scripts from read_nav and read_dgs_laptop (and read_bgm_raw) to the column faa, taken together: rows come out sorted by date_time with every column rearranged alike; every row's time is the instant its file gives; for a ship lying still the anomaly of each row is its own reading plus bias minus normal gravity plus the tide of its own instant to 1e-5 mGal, and the anomalies of two meters at the same instant differ by their readings and biases; for a moving ship full_field - faa is normal gravity on the line between the fixes around the reading; for a ship steaming steadily along the equator, read at even intervals, the anomaly is the reading plus bias minus equatorial gravity plus the Eotvos effect ((q + earth_rate)^2 - earth_rate^2) * 6378137 m of its rate q plus the tide at its position, exactly. If no two rows have the same time, neither the order in which the meter's files are listed nor the sorting algorithm changes the result. Unknown ships give AttributeError, a missing date ValueError, text among the readings TypeError, fewer than three rows IndexError, and exceptions of the readers pass through.",
  "every set of files, every order of files and rows, every sorting function", "examples read two or three files that are already in order; a row paired with the time or position of another row gives plausible anomalies", f"{E}/dgs_bgm_comp.py", f"{E}/dgs_raw_comp.py", f"{E}/dgs_ccp_calc.py", f"{I}:read_nav", f"{I}:read_dgs_laptop", f"{I}:read_bgm_raw")

p("C104", "order and repetition of navigation files",
  "read_nav gives the same table for two lists of paths whenever the files give the same first position for every time. So the order of the files and files listed twice do not matter if files agree on the times which they share; a file listed a second time never matters; the same holds of the scripts. If two files disagree about a time the order does matter: the file listed first wins.",
  "every ship, talker, user function and decimation; every list of files", "tests read the files in sorted order", f"{I}:read_nav", f"{E}/dgs_bgm_comp.py")

p("C105", "times and positions in double precision",
  "Rounding whole microseconds to POSIX times in double precision, up to 2038, never changes between which two fixes a reading lies, and the position which interp1d computes in double precision is on the straight line between these two fixes up to 1e-12 degrees plus the way made in two microseconds (at the time of a fix up to 1e-12 degrees); it is missing exactly if one of the two is. A ship lying still gets exactly its position at every time. So for such a ship the whole chain from fixes, readings and times to faa in double precision gives the reading plus bias minus normal gravity plus tide to 6.3e-5 mGal.",
  "every list of fixes in order, every instant, every rounding as good as binary64", "POSIX times have a spacing of a quarter of a microsecond, and their differences are divided by each other", f"{E}/dgs_bgm_comp.py", f"{I}:read_nav")

p("C106", "cross-coupling fit of changed readings",
  "Whatever the readings are, if a combination of the four monitors and the level error and a parabola in the sample number are subtracted from and added to them, the coefficients fitted by calc_cross_coupling_coefficients change by exactly those of the combination (constant: minus twice the parabola's), provided the columns of the fit and a constant are linearly independent; and the corrected anomaly of the script changes by the parabola alone, provided that no combination of the four monitors with a constant and the level error vanishes. A fit exists for every table.",
  "every series of readings, noise included, every monitors", "a test knows the true coefficients only of data without noise", f"{G}:calc_cross_coupling_coefficients", f"{E}/dgs_ccp_calc.py")

p("C107", "cross-coupling correction from the files",
  "The part of dgs_ccp_calc.py from the files to faa_ccp, taken together: for two sets of meter files with the same times and monitors, whose readings differ by a constant and a combination of the monitors, the corrected anomalies differ by the constant only, whatever the navigation. For a ship on a steady course along a parallel, read at even intervals, rows and files in any order, the table has the anomaly of the other scripts and the monitors of each row in order of time, the level error is 0 throughout, and a table of 11 to 1001 rows is refused with ValueError.",
  "every set of files, every order of rows, every sorting function", "a monitor paired with the reading of another row still gives plausible coefficients", f"{E}/dgs_ccp_calc.py", f"{G}:calc_cross_coupling_coefficients", f"{I}:read_dgs_laptop", f"{I}:read_nav", f"{G}:up_vecs")

p("C108", "exceptions of the navigation reader",
  "Whatever the files contain, the int and float of a text raise nothing but ValueError; the positions of the lines raise nothing but IndexError and ValueError, and not IndexError if every line of the talker has five fields; and read_nav without a function of the user raises FileNotFoundError, and apart from it only: IndexError and ValueError for the known ships (for Sikuliaq only if the talker is GPGGA), OverflowError for all of these but Langseth, AttributeError for Revelle and for Ride with a talker other than INGGA and GPGGA, OSError for Ride with INGGA. For the talkers of the ships each of these is raised for some file.",
  "every contents of the files, every path list, talker, sampling and decimation", "no set of broken files covers all the ways in which a line can be broken", f"{I}:read_nav", f"{I}:_navcoords", f"{I}:_clock_time", f"{I}:_navdate_Ride", f"{I}:_navdate_Revelle", f"{I}:_navdate_Langseth")

p("C109", "the package's database",
  "database.toml loads; with it read_nav and read_bgm_raw use the talkers and scales of C62 and C66, the calibration factor is 2^23-1, every known ship has a DGS bias, exactly those with a BGM scale have a BGM bias and the others have -999 instead; other ships raise KeyError. With an edited database: naming a ship and its talker in nav-talkers is not enough, read_nav without a function of the user still returns -999; a file that is not TOML makes both readers raise ValueError, a missing table KeyError.",
  "every other database text, every ship, all arguments of the readers", "the tests use the constants of one database and of three ships", f"{I}:read_nav", f"{I}:read_bgm_raw", "shipgrav/database.toml", f"{E}/dgs_bgm_comp.py")
p("C110", "two meters compared, from the files on",
  "If the files of the DGS and of the BGM hold the same times, in any order and distributed over any files, row k of both sorted tables has the same time, the two anomalies (and full fields) are missing together, and where present differ exactly as the readings with their biases do, however the ship moves. The low-passed anomalies are missing together too and differ by the low-passed difference of the readings; meters whose readings differ by a constant have filtered anomalies which differ by that constant and the difference of the biases. With at most 1440 rows the filter raises ValueError.",
  "all navigation and gravimeter files, sorting methods and biases", "depends on the whole chain for two inputs; no test runs the script", f"{E}/dgs_bgm_comp.py")

p("C111", "arguments that the numerical functions refuse",
  "Each numerical function raises exactly on the listed arguments and with the listed exception, and returns a value on all others: crustal_thickness_2D (AssertionError if the cut-off wavelengths are not in order; otherwise ZeroDivisionError for a zero wavelength, grid size, density or dx; otherwise ValueError for an array of another length than the grid), the four thermal functions (equal densities, no depths, Tm = 0, a spacing of zero or pointing away from the end), longman_tide_prediction (lengths, then times without zone, then altitudes), eotvos_full, latlon_to_EN, up_vecs, gaussian_filter, grav1d_padded, grav2d_folding (an empty grid, an odd number of 3 or more points along an axis without folding, rows that do not fit), calc_cross_coupling_coefficients (no run of 1000 samples) and decode_dgs_status_bits on a table (KeyError without the column; ValueError if it is there twice, has a cell that is no integer, or a flag column exists). Only in the last case does the failed call change the table: the flags before the first existing one are then in.",
  "all arguments", "refused arguments come in combinations; tests try a few one at a time", f"{G}:crustal_thickness_2D", f"{G}:therm_halfspace", f"{G}:therm_Z_halfspace", f"{G}:therm_plate", f"{G}:therm_Z_plate", f"{G}:longman_tide_prediction", f"{G}:eotvos_full", f"{G}:up_vecs", f"{G}:grav1d_padded", f"{G}:grav2d_folding", f"{G}:calc_cross_coupling_coefficients", f"{U}:gaussian_filter", f"{U}:decode_dgs_status_bits", "shipgrav/nav.py:latlon_to_EN")

p("C112", "from the files of a cruise to the picked segments and into the profile",
  "interactive_line_pick.py, started from the navigation and gravimeter files: every row of its table holds all columns of a row of the gravimeter files in time order, its time in seconds, its reading with the bias, the position on the line between the fixes before and after it (missing if a coordinate of these is), anomaly and full field as in the other scripts, and the low-passed anomaly, missing exactly where an anomaly within 479 samples is; the accepted picks give files with the rows between them. A segment file has date_time as its seventeenth column, which RMBA_calc.py reads as a date, except for Thompson, whose files have fifteen columns. RMBA_calc.py filters the anomaly of the segment again, but what it places at the segment's positions, 480 samples from its ends, is exactly the low-passed anomaly of the whole cruise in column faa_filt, missing values included: nothing of the cut at the ends enters. All other values of the profile are kept; a segment of 1440 rows or fewer raises ValueError.",
  "all files, ships, picks and segments with known positions, all geodesics and tracked profiles", "the two scripts run apart, on downloaded files and with a human picking", f"{E}/interactive_line_pick.py", f"{E}/RMBA_calc.py", f"{I}:read_dgs_laptop", f"{I}:read_nav")

p("C113", "from the files of a cruise to the coherence curves",
  "mru_coherence.py, started from the files of navigation, gravimeter and motion sensor: it completes with one figure each for Pitch, Roll and Heave, with curves for vcc, ve, al and ax in each. A curve is the magnitude squared coherence (at frequencies f/N) of the monitor's records in order of time with the envelope of the motion at the times of these records: the largest of the last 1000 samples, on the line between the times of the sensor, 0 before its first record and wherever one of those samples is missing. If a record of the monitor is missing in any segment, no value of the curve is left; a value is also missing where one of the two powers is 0. The order in which the files are listed does not matter, nor the sorting method if the gravimeter's times differ; positions and bias have no part in the curves. The script stops with the exceptions of C103 and C96, with ValueError for fewer than 1441 records or a sensor without records, with KeyError for a missing motion or monitor.",
  "all files, file lists, sorting methods, biases, numbers of records", "the script needs three downloaded data sets; no test runs it", f"{E}/mru_coherence.py", f"{I}:read_dgs_laptop", f"{I}:read_other_stuff", f"{I}:read_nav")

p("C114", "from the files of a cruise to the comparison of laptop and serial records",
  "dgs_raw_comp.py, started from the navigation, the laptop's files, the serial files and the meter's ini file: it completes if there are more than 1440 laptop records and all settings and channels are there. The first plot shows the laptop's readings between its first and its 501st time in order of time (these two excluded; 499 readings if all times differ), and of the serial records those between the same two times, calibrated with gain and zero of the ini file. The serial table gets all seven calibrated channels and column grav (with the bias); records get positions on the line between the fixes before and after. The second plot shows the steps of time of the serial records, the third the filtered anomaly of the laptop's records, missing within 479 records of a missing anomaly. Navigation and bias have no part in the first two plots; the serial files may be listed in any order if they all exist, but not in general. The first channel that cannot be calibrated stops the script: KeyError for a missing channel or setting, TypeError for a text. At most 500 laptop records raise IndexError, a serial table without times AttributeError, a missing serial time ValueError.",
  "all files, file lists, sorting methods, settings, biases, numbers of records", "the script needs four downloaded data sets and writes files; no test runs it", f"{E}/dgs_raw_comp.py", f"{I}:read_dgs_raw", f"{I}:read_dgs_laptop", f"{U}:clean_ini_to_toml")

p("C115", "anomalies and satellite gravity are drawn row by row of the sorted records",
  "The last plots of dgs_bgm_comp.py, dgs_raw_comp.py and dgs_ccp_calc.py. The satellite file gives one value per row (column 4 between commas below one heading line; in dgs_raw_comp.py column 3 of words), comments and empty lines left out; a row without a number there raises ValueError, and so does a number with underscores. With more than 1440 records (of each meter) and as many satellite rows as laptop records, the plot completes: each curve has 720 points fewer than there are records, its point k is at the time of record 480 + k in order of time and shows the low-passed anomaly of that record or the value of satellite row 480 + k: satellite rows are matched by their number, not by time or position. In dgs_ccp_calc.py the first two records and satellite rows are left out as well: the points belong to records and rows 482 + k, and at most 1442 records raise ValueError. Any other number of satellite rows raises ValueError, a single row IndexError, a missing file FileNotFoundError.",
  "all files, file lists, texts of satellite files, sorting methods, biases, fitted parameters, numbers of records", "the scripts need downloaded data sets; no test runs them", f"{E}/dgs_bgm_comp.py", f"{E}/dgs_raw_comp.py", f"{E}/dgs_ccp_calc.py")

p("C116", "the profile of anomalies and crustal thickness from a segment and its tracked line",
  "RMBA_calc.py as a whole, for a segment of more than 1440 rows, all with positions, and a file of tracked values (six columns between tabs: longitude, latitude, depth, anomaly, sediment, age; values may be missing) with at least as many rows as the part of the extended line that receives the segment's anomaly, distances from its first point all different and the last one positive. The run completes. The anomaly along the line is the low-passed one of the segment from 480 samples after its first to 480 before its last row, and the tracked one everywhere else. Anomaly, depth, sediment and age become 1000 values at even steps over the whole distance, at a tracked distance the tracked value, elsewhere on the straight line between the values at the nearest distances below and above and missing if one of these is. If nothing is missing and no age is negative, the mantle Bouguer anomaly lacks the gravity of sea floor, basement and base of the crust, and the residual one that of 27 isotherms as well; one missing depth or sediment leaves both anomalies without values, one missing or negative age the residual one, and one missing value of that leaves no thickness; otherwise thickness and recovered anomaly are the filtered harmonics of C100. Adding a constant to the anomalies of segment and file adds it to both anomalies and to the recovered one and leaves the thickness as it is. With constant depth, sediment and age nothing is corrected. A missing file raises FileNotFoundError; fewer than six columns, at most 1440 rows in the segment or too few rows in the file raise ValueError.",
  "all segments, geodesics, texts of track files, positions of missing values", "the script needs downloaded data sets; no test runs it", f"{E}/RMBA_calc.py")

if __name__ == "__main__":
    here = os.path.dirname(os.path.dirname(os.path.abspath(__file__)))
    with open(os.path.join(here, "properties.jsonl"), "w") as f:
        for q in P:
            f.write(json.dumps(q) + "\n")
    print(len(P))
