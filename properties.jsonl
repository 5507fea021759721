{"id": "C01", "title": "Category and quality bits survive the file round trip", "statement": "Every flag the categorize step decides for a pixel (6 category flags, 10 quality flags) is read back with exactly the same value from the packed category_bits / quality_bits integer by every downstream product, whatever the combination of the other flags, and the packed value fits in 6 resp. 10 bits.", "quantifier": "all shapes of 2-D flag fields and all combinations of flags per pixel", "why_tests_cant": "Packing follows dataclass field order and unpacking uses literal bit numbers in another module; only a statement over all flag combinations and all pixels rules out a swapped or overlapping bit.", "anchors": ["cloudnetpy/categorize/categorize.py:_classes_to_bits", "cloudnetpy/products/product_tools.py:CategoryBits", "cloudnetpy/products/product_tools.py:QualityBits", "cloudnetpy/products/product_tools.py:CategorizeBits._read_category_bits", "cloudnetpy/products/product_tools.py:CategorizeBits._read_quality_bits", "cloudnetpy/utils.py:isbit"]}
{"id": "C02", "title": "Setting and testing a bit", "statement": "setbit(x, n) makes bit n true and leaves every other bit of x unchanged; it is idempotent and independent of the order of sets; isbit and setbit raise ValueError exactly for negative bit numbers.", "quantifier": "all non-negative integers x and all integers n, m", "why_tests_cant": "The bit index and the array values are unbounded; tests cover a few small literals.", "anchors": ["cloudnetpy/utils.py:isbit", "cloudnetpy/utils.py:setbit"]}
{"id": "C03", "title": "Target classification is a total priority table", "statement": "For every pixel the target_classification value equals the documented class: clutter without aerosol is clear sky; otherwise insect and aerosol flags decide 8, 9, 10; otherwise the melting flag decides 6 or 7; otherwise droplet, falling and freezing decide 0 to 5. The value is always one of the 11 documented classes and depends only on that pixel's own flags.", "quantifier": "all category/quality flag fields of any shape", "why_tests_cant": "The code is eleven ordered masked assignments; an order mistake only shows for particular flag combinations.", "anchors": ["cloudnetpy/products/classification.py:_get_target_classification", "cloudnetpy/products/classification.py:Target"]}
{"id": "C04", "title": "Detection status values mean what their definitions say", "statement": "Every detection_status value is in 0..9 and implies its documented meaning: values 2, 5, 7 (radar echo) and 3 only where radar echo exists, 1, 4, 6 and 9 only where it does not, 1 and 9 only for the stated lidar flags, 2 only where some attenuation is uncorrected and 7 only where all present attenuation is corrected, 8 exactly for clutter pixels not overridden by molecular scattering.", "quantifier": "all combinations of the ten quality flags at every pixel", "why_tests_cant": "The table has 1024 rows and nine ordered overwrites; enumerated unit tests check a handful.", "anchors": ["cloudnetpy/products/classification.py:_get_detection_status", "cloudnetpy/products/classification.py:_get_is_corrected_mask", "cloudnetpy/products/classification.py:_get_is_attenuated_mask"]}
{"id": "C05", "title": "Signal source status identifies the instruments", "statement": "signal_source_status determines exactly which of radar and lidar saw the pixel: the pair of flags can be recovered from the value.", "quantifier": "all quality fields", "why_tests_cant": "Needs injectivity over all pixels.", "anchors": ["cloudnetpy/products/classification.py:_get_signal_source_status"]}
{"id": "C06", "title": "Radar attenuation status agrees with the radar echo", "statement": "radar_attenuation_status is 1..5 only at pixels with a radar echo, and the values documented as 'No radar signal' (0 and 6) occur only at pixels without a radar echo; value 6 occurs only above a severely attenuated pixel of the same profile.", "quantifier": "all fields of radar, attenuation and quality flags, any number of gates", "why_tests_cant": "The 'above severe' flag propagates over arbitrarily many gates; the interaction with echoes above is not covered by examples.", "anchors": ["cloudnetpy/products/classification.py:_get_radar_attenuation_status", "cloudnetpy/products/classification.py:_get_attenuation_classes", "cloudnetpy/utils.py:ffill"]}
{"id": "C07", "title": "Forward fill returns the last valid value", "statement": "ffill replaces every entry equal to the fill value by the nearest earlier entry that is different from it, leaves every other entry unchanged and keeps the fill value where no such entry exists before; rows of a 2-D array are independent.", "quantifier": "all 1-D and 2-D arrays of any length and any fill value", "why_tests_cant": "Unbounded run lengths and array widths.", "anchors": ["cloudnetpy/utils.py:ffill"]}
{"id": "C08", "title": "Resetting cumulative sum", "statement": "cumsumr equals the running sum since the last zero entry for arrays of non-negative numbers; at every zero entry it is zero.", "quantifier": "all 1-D arrays of numbers, any length", "why_tests_cant": "The implementation subtracts a running maximum, which equals the running sum at the last zero only under a sign condition that examples do not probe.", "anchors": ["cloudnetpy/utils.py:cumsumr"]}
{"id": "C09", "title": "Time screening keeps exactly the wanted day, once, in order", "statement": "find_valid_time_indices returns indices whose times are strictly increasing, each of the requested UTC date; every distinct time value of that date is represented exactly once, and ValidTimeStampError is raised exactly when no timestamp falls on the date.", "quantifier": "all lists of timestamps (duplicates, disorder, other days), all epochs and dates", "why_tests_cant": "Requires completeness and uniqueness for every ordering and duplication pattern.", "anchors": ["cloudnetpy/utils.py:find_valid_time_indices", "cloudnetpy/utils.py:screen_by_time", "cloudnetpy/utils.py:seconds2date"]}
{"id": "C10", "title": "Screening keeps all variables aligned with time", "statement": "After screen_by_time every array whose first dimension is time has the same number of rows as the new time vector, and row i of every such array comes from the same original profile as time i; other arrays are unchanged.", "quantifier": "all dictionaries of arrays and all time vectors", "why_tests_cant": "Alignment is a relation between all variables for all index lists.", "anchors": ["cloudnetpy/utils.py:screen_by_time"]}
{"id": "C11", "title": "Instrument records are strictly increasing in time after cleaning", "statement": "After remove_duplicate_timestamps the time vector of an instrument record is strictly increasing, contains exactly the set of original times, every data row still belongs to its own timestamp, and for duplicated timestamps the first occurrence is kept. sort_timestamps keeps every row and only permutes them.", "quantifier": "all instrument records of any length, any number of variables", "why_tests_cant": "np.unique(return_index) and argsort applied jointly to many arrays; order and multiplicity patterns are unbounded.", "anchors": ["cloudnetpy/instruments/cloudnet_instrument.py:CloudnetInstrument.remove_duplicate_timestamps", "cloudnetpy/instruments/cloudnet_instrument.py:CloudnetInstrument.sort_timestamps", "cloudnetpy/instruments/cloudnet_instrument.py:CloudnetInstrument.screen_time_indices"]}
{"id": "C12", "title": "Seconds to hours stays within the day and keeps order", "statement": "seconds2hours maps any seconds to [0, 24], preserves strict order for the timestamps of one day, including one that ends exactly at midnight, and maps a final midnight to 24 and not to 0.", "quantifier": "all non-empty time vectors", "why_tests_cant": "Only the last value is special-cased; holds for all vectors or not at all.", "anchors": ["cloudnetpy/utils.py:seconds2hours"]}
{"id": "C13", "title": "Time rebinning puts every sample in at most one bin", "statement": "rebin_2d assigns each input profile to at most one output profile, namely the one whose half-open bin contains its time; an output value is the statistic of exactly the unmasked inputs of that bin, a bin with too few profiles is masked and reported in the returned list of empty bins, and nothing else is in that list.", "quantifier": "all sorted or unsorted input times, all output grids, all masks, all n_min", "why_tests_cant": "Bin membership, counts and reporting are separate computations that must agree for all inputs.", "anchors": ["cloudnetpy/utils.py:rebin_2d", "cloudnetpy/utils.py:binvec"]}
{"id": "C14", "title": "Gap detection measures the nearest distance", "statement": "get_gap_ind returns exactly the indices of new grid points whose distance to every original grid point exceeds the threshold, in increasing order; all indices if the original grid is empty.", "quantifier": "all sorted grids, all new grids and thresholds", "why_tests_cant": "Two-sided neighbour logic at both ends of arbitrary grids.", "anchors": ["cloudnetpy/utils.py:get_gap_ind"]}
{"id": "C15", "title": "Nearest interpolation in height", "statement": "interpolate_2D_along_y returns at every target height the value of a source gate at minimal distance, masked exactly if that value is masked or the target is outside the source range.", "quantifier": "all strictly increasing source grids, all target heights, all masks", "why_tests_cant": "Tie and boundary handling for arbitrary grids.", "anchors": ["cloudnetpy/utils.py:interpolate_2D_along_y"]}
{"id": "C16", "title": "1-D interpolation never bridges long gaps and never invents extremes", "statement": "interpolate_1d (linear) yields a value at a target time only if an unmasked sample lies within max_time minutes, and that value lies between the smallest and largest unmasked samples; at a sample time it returns the sample; times outside 0..24 are rejected.", "quantifier": "all sample times, masks, target times and gap limits", "why_tests_cant": "Interplay of masking, duplicate removal, extrapolation and gap screening.", "anchors": ["cloudnetpy/utils.py:interpolate_1d", "cloudnetpy/utils.py:get_gap_ind"]}
{"id": "C17", "title": "Small-object removal keeps exactly the large connected clouds", "statement": "remove_small_objects keeps a pixel exactly if it is set and its 4-connected component has more than max_size pixels; it never adds pixels and applying it twice changes nothing.", "quantifier": "all 2-D masks of any size, all max_size", "why_tests_cant": "Connectivity is a property of the whole image.", "anchors": ["cloudnetpy/utils.py:remove_small_objects", "cloudnetpy/products/classification.py:_find_cloud_mask", "cloudnetpy/categorize/classify.py:_filter_falling"]}
{"id": "C18", "title": "Isolated-pixel filters remove exactly the singletons", "statement": "filter_isolated_pixels clears exactly the set pixels with no set pixel among their eight neighbours; filter_x_pixels clears exactly the set pixels whose previous and next profile at the same gate are both clear; nothing else changes.", "quantifier": "all 2-D masks of any size", "why_tests_cant": "Labelling-based filter vs a local characterisation, for all images.", "anchors": ["cloudnetpy/utils.py:filter_isolated_pixels", "cloudnetpy/utils.py:filter_x_pixels", "cloudnetpy/utils.py:_filter"]}
{"id": "C19", "title": "Cloud bases and tops pair up", "statement": "In every profile the bases and tops found by find_cloud_bases / find_cloud_tops are equally many, alternate base <= top < next base, and the pixels between a base and its top are exactly the cloud pixels.", "quantifier": "all 2-D cloud masks", "why_tests_cant": "The products zip bases with tops (strict) and rely on it for every mask; a mismatch is a crash or a mislabelled layer.", "anchors": ["cloudnetpy/categorize/atmos_utils.py:find_cloud_bases", "cloudnetpy/categorize/atmos_utils.py:find_cloud_tops", "cloudnetpy/products/der.py:DerSource.append_der", "cloudnetpy/categorize/falling.py:_fix_liquid_dominated_radar"]}
{"id": "C20", "title": "Reported cloud base and top heights", "statement": "For positive increasing heights, cloud_base_height is the height of the lowest cloud pixel and cloud_top_height of the highest one, both masked exactly in profiles without cloud, base <= top, so the 'Cloud base higher than cloud top' error is unreachable.", "quantifier": "all cloud masks, all strictly increasing positive height vectors", "why_tests_cant": "The code multiplies mask by height and searches for non-zero values, so the claim depends on heights never being zero.", "anchors": ["cloudnetpy/categorize/atmos_utils.py:find_lowest_cloud_bases", "cloudnetpy/categorize/atmos_utils.py:find_highest_cloud_tops", "cloudnetpy/products/classification.py:_get_cloud_base_and_top_heights"]}
{"id": "C21", "title": "Liquid water content integrates to the measured path", "statement": "In every profile that contains liquid, is free of rain and has an LWP, the LWC distributed over the cloud pixels, integrated with the gate thicknesses, equals the measured LWP (negative LWP counting as 0); LWC is proportional to the base gradient times the distance from the level below the cloud base, hence non-negative, positive only in liquid pixels and growing with height within a cloud. All other profiles are masked.", "quantifier": "all droplet masks, all positive LWC gradients, all non-negative LWP, all increasing height grids", "why_tests_cant": "An identity between a discretised integral and an input for every profile.", "anchors": ["cloudnetpy/categorize/atmos_utils.py:calc_adiabatic_lwc", "cloudnetpy/categorize/atmos_utils.py:normalize_lwc_by_lwp", "cloudnetpy/products/lwc.py:Lwc"]}
{"id": "C22", "title": "Two-way attenuation accumulates with height", "statement": "Accumulated two-way attenuation equals twice the path integral of the specific attenuation from the ground and never decreases with height for non-negative specific attenuation; masked gates contribute nothing and stay masked.", "quantifier": "all specific attenuation profiles, all increasing height grids", "why_tests_cant": "Unbounded number of gates and mask patterns.", "anchors": ["cloudnetpy/categorize/attenuations/__init__.py:calc_two_way_attenuation", "cloudnetpy/utils.py:path_lengths_from_ground"]}
{"id": "C23", "title": "Corrected implies attenuated, and corrected implies a correction", "statement": "In the quality bits a 'corrected' flag (liquid, rain, melting) is set only where the matching 'attenuated' flag is set, and only where an attenuation value is available and was added to the radar reflectivity.", "quantifier": "all observations, classifications and instrument combinations (with/without radiometer and disdrometer, with gaps)", "why_tests_cant": "The flags are computed by three modules with different branches; gaps in the auxiliary data decide.", "anchors": ["cloudnetpy/categorize/classify.py:fetch_quality", "cloudnetpy/categorize/attenuation.py:get_attenuations", "cloudnetpy/categorize/attenuations/rain_attenuation.py:calc_rain_attenuation", "cloudnetpy/categorize/attenuations/liquid_attenuation.py:LiquidAttenuation", "cloudnetpy/categorize/attenuations/melting_attenuation.py:calc_melting_attenuation", "cloudnetpy/categorize/radar.py:Radar.correct_atten"]}
{"id": "C24", "title": "Aerosol pixels are free of cloud and precipitation", "statement": "In the final categorization no pixel carries the aerosol flag together with the droplet or the falling flag, so that target classes 8 and 10 ('no cloud or precipitation') never hide a cloud or precipitation pixel.", "quantifier": "all observation fields; the whole sequence of post-processing steps", "why_tests_cant": "Seven successive in-place reclassification steps; the invariant must survive every interleaving of their effects.", "anchors": ["cloudnetpy/categorize/classify.py:classify_measurements", "cloudnetpy/categorize/classify.py:_find_aerosols", "cloudnetpy/categorize/classify.py:_filter_falling", "cloudnetpy/categorize/classify.py:_remove_clutter_in_liquid", "cloudnetpy/categorize/classify.py:_filter_insects_in_falling", "cloudnetpy/categorize/classify.py:_reclassify_ice_with_high_ldr", "cloudnetpy/categorize/classify.py:_fix_super_cold_liquid"]}
{"id": "C25", "title": "No liquid droplets below -38 C", "statement": "The final categorization never flags droplets at a pixel whose wet-bulb temperature is below -38 C; every such pixel that had been flagged liquid is flagged falling instead or was removed as speckle.", "quantifier": "all observation fields", "why_tests_cant": "Must hold after all later steps for every field.", "anchors": ["cloudnetpy/categorize/classify.py:_fix_super_cold_liquid", "cloudnetpy/categorize/classify.py:classify_measurements"]}
{"id": "C26", "title": "Rainy profiles contain no clutter", "statement": "A radar pixel of a profile that is classified as rain is never flagged as clutter; clutter is only flagged in the ten lowest gates and only where the velocity is valid and below 0.05 m/s in magnitude.", "quantifier": "all velocity fields and rain flags", "why_tests_cant": "The screening is an arithmetic expression on integer rain flags; its truth depends on data types that hand-made boolean test inputs hide.", "anchors": ["cloudnetpy/categorize/containers.py:_find_clutter", "cloudnetpy/categorize/containers.py:ClassData._find_profiles_with_rain"]}
{"id": "C27", "title": "Insects are screened from liquid, rain and above the melting layer", "statement": "find_insects never reports an insect in a liquid pixel, in a rainy profile, or at or above a melting-layer pixel of the same profile.", "quantifier": "all probability fields, masks and profiles", "why_tests_cant": "Forward-fill semantics over arbitrary profiles combined with several screens.", "anchors": ["cloudnetpy/categorize/insects.py:_screen_insects", "cloudnetpy/categorize/insects.py:find_insects"]}
{"id": "C28", "title": "Insect filtering around the melting layer is local", "statement": "The insect filter changes a pixel only from insect to falling, and only pixels above the melting layer of the same profile or within five gates below / five profiles beside a melting-layer pixel.", "quantifier": "all category fields, any number of profiles and gates, melting pixels at the borders included", "why_tests_cant": "Index arithmetic near the array borders (negative indices) for arbitrary melting-layer positions.", "anchors": ["cloudnetpy/categorize/classify.py:_filter_insects"]}
{"id": "C29", "title": "Categorize output contains only profiles with radar, lidar and model data", "statement": "The output time grid consists exactly of the 30-second grid points for which radar, lidar and model all have data nearby, in increasing order, and all time-dependent output arrays keep the same rows; fewer than two such points raise ValidTimeStampError.", "quantifier": "all gap index sets", "why_tests_cant": "Set combination and joint screening of many arrays.", "anchors": ["cloudnetpy/categorize/categorize.py:generate_categorize", "cloudnetpy/utils.py:time_grid"]}
{"id": "C30", "title": "Ice water content is reported only for reliable ice", "statement": "iwc / ier values are unmasked only at ice pixels with no uncorrected attenuation and with radar data; the retrieval status is 1 or 3 exactly at these pixels (apart from clear-above-rain, which never coincides), 4 at ice pixels without value, 2 at uncorrected ice, 6 and 7 only at non-ice pixels, and the value is always in 0..7.", "quantifier": "all category and quality flags, rain flags and radar masks", "why_tests_cant": "Eight ordered overwrites over 16 flags per pixel.", "anchors": ["cloudnetpy/products/product_tools.py:IceClassification", "cloudnetpy/products/product_tools.py:IceSource.append_icy_data", "cloudnetpy/products/product_tools.py:IceSource.append_status", "cloudnetpy/products/iwc.py:IwcSource.append_error"]}
{"id": "C31", "title": "Liquid water content status matches the data", "statement": "lwc_retrieval_status is in the documented range; value 3 ('new cloud pixels') marks pixels that carry retrieved liquid water content, value 4 covers exactly rainy profiles and profiles without LWP, and rain is reported as 6 as documented.", "quantifier": "all droplet masks, LWP series (with gaps), rain flags and echo flags", "why_tests_cant": "Depends on an iterative cloud-top adjustment loop over arbitrary profiles.", "anchors": ["cloudnetpy/products/lwc.py:CloudAdjustor", "cloudnetpy/products/lwc.py:Lwc", "cloudnetpy/products/lwc.py:generate_lwc"]}
{"id": "C32", "title": "Cloud-top adjustment terminates within the profile", "statement": "For every adjustable cloud the top-extension loop of the LWC retrieval stops after at most as many steps as there are gates above the base and never writes outside the profile.", "quantifier": "all profiles, base positions, LWP values", "why_tests_cant": "Termination and bounds for arbitrary input.", "anchors": ["cloudnetpy/products/lwc.py:CloudAdjustor._adjust_lwc", "cloudnetpy/products/lwc.py:CloudAdjustor._find_topmost_clouds"]}
{"id": "C33", "title": "Drizzle retrieval status", "statement": "drizzle_retrieval_status is in 0..5; it is 5 exactly in rainy profiles, 1 or 2 exactly at retrieved drizzle pixels of dry profiles (2 iff the profile has a melting layer), 3 for would-be drizzle and 4 for the remaining warm liquid; drizzle variables are masked in rainy profiles.", "quantifier": "all flags, rain indicators, v_sigma masks", "why_tests_cant": "Ordered overwrites on many flags for all pixels.", "anchors": ["cloudnetpy/products/drizzle.py:RetrievalStatus", "cloudnetpy/products/drizzle_tools.py:DrizzleClassification", "cloudnetpy/products/drizzle.py:_screen_rain"]}
{"id": "C34", "title": "Lookup-table indices are in bounds and iterations are bounded", "statement": "The drizzle solver's table lookups never leave the lookup table, each pixel takes at most ten iterations, pixels that are not drizzle keep zero diameter, and the attenuation correction of a gate depends only on drizzle gates below it in the same profile.", "quantifier": "all lookup tables (non-empty), all drizzle masks, all diameters including not-a-number", "why_tests_cant": "Numeric iteration over arbitrary inputs.", "anchors": ["cloudnetpy/products/drizzle_tools.py:DrizzleSolver", "cloudnetpy/products/drizzle.py:DrizzleProducts._find_indices"]}
{"id": "C35", "title": "Droplet effective radius status", "statement": "der_retrieval_status is in 0..4; 1, 2, 3 exactly where a radius was retrieved, 3 exactly for retrieved pixels of rainy profiles, 2 for retrieved mixed pixels, 4 only for ice pixels without retrieval; radii exist only in droplet pixels.", "quantifier": "all flags and masks", "why_tests_cant": "Ordered overwrites for all pixels.", "anchors": ["cloudnetpy/products/der.py:DropletClassification", "cloudnetpy/products/der.py:DerSource.append_retrieval_status"]}
{"id": "C36", "title": "History is merged without loss or duplication", "statement": "The history of a product file starts with the new record, then contains every distinct history line of the inputs exactly once (only the last line for model files), newest first, lines without a readable timestamp at the end, original order kept between equal times.", "quantifier": "all lists of input histories", "why_tests_cant": "Deduplication, stable sort and splitting for arbitrary text.", "anchors": ["cloudnetpy/output.py:merge_history"]}
{"id": "C37", "title": "Source UUIDs are a canonical set", "statement": "source_file_uuids lists each distinct input UUID exactly once in sorted order; the result does not depend on the order or multiplicity of the inputs.", "quantifier": "all lists of input files", "why_tests_cant": "Permutation invariance is a statement over all orders.", "anchors": ["cloudnetpy/output.py:get_source_uuids"]}
{"id": "C38", "title": "Copying variables never overwrites, copying attributes is exact", "statement": "copy_variables adds exactly those requested variables that exist in the source and are absent in the target, and leaves all existing variables unchanged; copy_global sets exactly the requested attributes that exist in the source.", "quantifier": "all source and target contents and key lists", "why_tests_cant": "A frame property over all other keys.", "anchors": ["cloudnetpy/output.py:copy_variables", "cloudnetpy/output.py:copy_global"]}
{"id": "C39", "title": "Concatenation keeps every profile in file order", "statement": "concatenate_files writes, for each variable present in all files with equal ranges, exactly the rows of all non-empty files in order of file name; the number of time steps is the sum over the files; rows of different variables stay aligned even if a variable is missing from some file.", "quantifier": "all lists of files of any length and contents", "why_tests_cant": "Index bookkeeping over arbitrary many files.", "anchors": ["cloudnetpy/concat_lib.py:_Concat", "cloudnetpy/concat_lib.py:concatenate_files"]}
{"id": "C40", "title": "Appending to an existing file adds exactly the newer profiles", "statement": "update_nc returns 1 exactly if the new file has a profile later than the last one of the old file, keeps all old profiles unchanged, and then the file consists of the old profiles followed directly by the newer ones, with no gap rows.", "quantifier": "all pairs of files and all overlap patterns", "why_tests_cant": "Depends on where the overlap ends; a test with fully newer data hides it.", "anchors": ["cloudnetpy/concat_lib.py:update_nc", "cloudnetpy/concat_lib.py:_update_fields", "cloudnetpy/concat_lib.py:_find_valid_time_indices"]}
{"id": "C41", "title": "Cumulative amounts survive instrument resets", "statement": "After normalize_cumulative_amount the precipitation amount starts at zero, never decreases, every increment between resets equals the raw increment, and the increment at a reset equals the raw amount after it, for any number of counter resets and data gaps.", "quantifier": "all raw cumulative series with any number of resets and masked values", "why_tests_cant": "Errors appear from the second reset on.", "anchors": ["cloudnetpy/instruments/cloudnet_instrument.py:CSVFile.normalize_cumulative_amount"]}
{"id": "C42", "title": "Angle encodings are decoded exactly", "statement": "Decoding of RPG combined angles returns the elevation and azimuth that were encoded, for both encodings, for all admissible elevations (negative ones and those of at least 100 degrees included) and azimuths.", "quantifier": "all admissible elevation/azimuth pairs at the stored resolution", "why_tests_cant": "Digit arithmetic with signs over millions of pairs.", "anchors": ["cloudnetpy/instruments/rpg_reader.py:_decode_angles"]}
{"id": "C43", "title": "Nyquist velocity expansion covers the profile", "statement": "Expanding chirp values to range gates gives one value per gate, and gate g gets the value of the chirp with the largest start index not above g.", "quantifier": "all increasing chirp start lists beginning at 0, all profile lengths", "why_tests_cant": "Segment arithmetic for arbitrary chirp tables.", "anchors": ["cloudnetpy/instruments/rpg.py:_expand_nyquist", "cloudnetpy/categorize/radar.py:Radar._get_expanded_folding_velocity"]}
{"id": "C44", "title": "Disdrometer bins are contiguous", "statement": "The size and velocity bins stored for disdrometers have the requested number of bins, each bin's upper bound is the next bin's lower bound, the first starts at the given start, and centre and spread are midpoint and width.", "quantifier": "all bin-count/spread lists with positive counts", "why_tests_cant": "Inductive over any list of segments.", "anchors": ["cloudnetpy/instruments/disdrometer/common.py:Disdrometer._create_vectors"]}
{"id": "C45", "title": "Epoch parsing falls back instead of failing", "statement": "get_epoch returns the date written in the units string, or 2001-01-01 if the string has no usable date; it never raises.", "quantifier": "all units strings", "why_tests_cant": "Arbitrary text from instrument files.", "anchors": ["cloudnetpy/utils.py:get_epoch"]}
{"id": "C46", "title": "Site coordinates follow the documented preference", "statement": "The stored coordinate is the GPS value if available (not for altitude), else the user-supplied one, else the one in the raw file, else the global attribute; longitudes are normalised to at most 180 and signs are preserved.", "quantifier": "all combinations of available sources and values", "why_tests_cant": "All combinations of sources and signs.", "anchors": ["cloudnetpy/utils.py:add_site_geolocation", "cloudnetpy/utils.py:_parse_global_attribute_numeral"]}
{"id": "C47", "title": "Radar band selection", "statement": "get_wl_band returns a band exactly for frequencies strictly inside one of the three intervals, the intervals are disjoint, and ValueError is raised for all other frequencies.", "quantifier": "all frequencies", "why_tests_cant": "Real-valued input.", "anchors": ["cloudnetpy/utils.py:get_wl_band"]}
{"id": "C48", "title": "The 30-second grid covers the day evenly", "statement": "time_grid(step) rejects steps below one second and otherwise, for steps dividing the day, returns 86400/step strictly increasing midpoints inside 0..24 h whose bins (for at least two points) tile the day.", "quantifier": "all time steps dividing 86400", "why_tests_cant": "Statement over all steps and indices.", "anchors": ["cloudnetpy/utils.py:time_grid", "cloudnetpy/utils.py:binvec"]}
{"id": "C49", "title": "Cloud fraction mask of the model evaluation", "statement": "The observed cloud mask is 1 exactly at pixels with droplets or falling ice and without aerosol or insect flags, 0 elsewhere.", "quantifier": "all category fields", "why_tests_cant": "In-place relabelling where one label's new value may be caught by a later rule.", "anchors": ["cloudnetpy/model_evaluation/products/observation_products.py:ObservationManager._classify_basic_mask", "cloudnetpy/model_evaluation/products/observation_products.py:ObservationManager._mask_cloud_bits"]}
{"id": "C50", "title": "Observation windows partition the observations", "statement": "When observations are averaged onto a model grid, every observation lies in at most one time/height window, namely the half-open interval between consecutive edges, and every observation between the first and last edge lies in exactly one.", "quantifier": "all strictly increasing model grids and all observation coordinates", "why_tests_cant": "Half-open interval logic for arbitrary grids.", "anchors": ["cloudnetpy/model_evaluation/products/tools.py:rebin_edges", "cloudnetpy/model_evaluation/products/tools.py:get_1d_indices"]}
{"id": "C51", "title": "Nearest location stamp", "statement": "Each output time gets latitude, longitude and altitude of a radar timestamp at minimal distance in time.", "quantifier": "all sorted radar times and all grid times", "why_tests_cant": "Neighbour logic at both ends.", "anchors": ["cloudnetpy/categorize/radar.py:Radar.add_location"]}
{"id": "C52", "title": "A radar file that gives only the pulse repetition frequency can be categorized", "statement": "Rebinning radar data succeeds for every radar file from which the folding velocity can be determined, either from nyquist_velocity or from prf.", "quantifier": "all sets of variables in the radar file", "why_tests_cant": "Depends on mutation of a dictionary during iteration for one combination of inputs.", "anchors": ["cloudnetpy/categorize/radar.py:Radar.rebin_to_grid", "cloudnetpy/categorize/radar.py:Radar._rebin_velocity"]}
{"id": "C53", "title": "Cloud top height status comes from the cloud top", "statement": "cloud_top_height_status of a profile with a cloud is 4 exactly when the top is the last gate, otherwise 1, 3, 2 exactly when radar_attenuation_status at the top gate is 3 (moderate), 4 (severe), 5 (uncorrected) and 0 for every other value; a profile without cloud gets 0.", "quantifier": "all height vectors, attenuation fields and tops", "why_tests_cant": "Nearest-gate search over arbitrary grids, and masked tops in cloudless profiles.", "anchors": ["cloudnetpy/products/classification.py:_get_cloud_top_height_status"]}
{"id": "C54", "title": "Model grid averages use exactly the observations of the cell", "statement": "When observations are averaged onto the model grid, the value of a cell is the mean of exactly the valid observations in its time and height window, and the cell is masked if there are none.", "quantifier": "all observation fields, masks and windows", "why_tests_cant": "Selection by outer products over arbitrary masks; the empty window takes a different path.", "anchors": ["cloudnetpy/model_evaluation/products/grid_methods.py:ProductGrid._regrid_product", "cloudnetpy/model_evaluation/products/grid_methods.py:ProductGrid._regrid_cf"]}
{"id": "C55", "title": "Falling pixels are exactly the unexplained radar echoes and the cold lidar ice", "statement": "find_falling_hydrometeors flags a pixel exactly if (a) it has a radar echo, is not clutter, is not insects and does not belong to a liquid layer that the radar echo shows to be pure liquid (echo stronger at its last than at its first measured gate and no echo right above the layer), or (b) it is a lidar echo colder than -15 C, at least 2 km above ground and outside liquid layers, where below 4 km at most two of the six gates ending at it may have a lidar echo.", "quantifier": "all observation fields, liquid and insect masks", "why_tests_cant": "Layer edges, echo profiles above the layer and masks interact for arbitrary fields.", "anchors": ["cloudnetpy/categorize/falling.py:find_falling_hydrometeors"]}
{"id": "C56", "title": "Liquid tops are extended upwards only through contiguous echo", "statement": "correct_liquid_top keeps every liquid pixel and adds exactly the gates from a liquid top up to the first gate without radar echo, provided that such a gate exists between the top and a margin above the first freezing gate; the only error it can raise is IndexError, and that exactly if some liquid top has no freezing gate at or above it.", "quantifier": "all echo fields, liquid and freezing masks and margins", "why_tests_cant": "Index arithmetic with argmax over arbitrary masks; failing input only with warm tops.", "anchors": ["cloudnetpy/categorize/droplet.py:correct_liquid_top"]}
{"id": "C57", "title": "Liquid from radar spectra never lies below lidar liquid", "statement": "Combining lidar liquid with radar liquid probability flags exactly the lidar liquid pixels and the freezing pixels with probability above 0.55 that have no lidar liquid layer above them in the profile.", "quantifier": "all probability fields and masks", "why_tests_cant": "Layer bases found by edge detection over arbitrary masks.", "anchors": ["cloudnetpy/categorize/classify.py:classify_measurements", "cloudnetpy/categorize/classify.py:_remove_false_radar_liquid"]}
{"id": "C58", "title": "Melting layer attenuation is available for every radar band", "statement": "With a disdrometer the melting layer attenuation is computed for every radar frequency band the package recognises (X, Ka, W): in rain every freezing pixel carries the value of the formula for the measured rainfall rate, and is flagged as attenuated but not corrected if the rate is missing.", "quantifier": "all bands, rainfall rates (with gaps), rain flags and freezing masks", "why_tests_cant": "The error branch is reached for one combination of radar and disdrometer only.", "anchors": ["cloudnetpy/categorize/attenuations/melting_attenuation.py:calc_melting_attenuation", "cloudnetpy/utils.py:get_wl_band"]}
{"id": "C59", "title": "The source attribute lists every source once", "statement": "The source attribute of a categorize file lists every distinct line of the inputs' source attributes exactly once in sorted order, and is absent exactly if no input has one; instrument PIDs likewise, without empty ones. A product file with extra inputs lists the sources copied from the main input followed by those of the extra inputs, each once.", "quantifier": "all lists of inputs and source texts", "why_tests_cant": "Multi-line source texts of extra inputs are not part of any test file.", "anchors": ["cloudnetpy/output.py:add_source_instruments", "cloudnetpy/output.py:_append_extra_sources"]}
{"id": "C60", "title": "Concatenation stays aligned when files cannot be read", "statement": "If reading a variable of a later file fails with an HDF error, the call goes on with the next file; the returned list names exactly the files all of whose variables were read, every file occupies the same time steps in all variables of the output, and files not in the returned list leave nothing in the output.", "quantifier": "all lists of files and all patterns of unreadable variables", "why_tests_cant": "HDF errors in the middle of a file cannot be produced easily in tests.", "anchors": ["cloudnetpy/concat_lib.py:_Concat.concat_data", "cloudnetpy/concat_lib.py:_Concat._append_data"]}
{"id": "C61", "title": "Profiles from files with another number of gates are taken from the nearest gate", "statement": "When a file with a different number of range gates is appended, each gate of the output gets the value of a nearest gate of the file, gates that both have in common keep their value, and gates outside the file's range are masked.", "quantifier": "all ranges and profiles", "why_tests_cant": "Ties and bounds for arbitrary grids.", "anchors": ["cloudnetpy/concat_lib.py:_Concat._append_data"]}
{"id": "C62", "title": "LPM reader: values and time stamps belong together", "statement": "read_lpm on a Thies LPM file returns, for every telegram column, the values of the readable telegrams in file order: entry i of every returned column comes from the telegram that gave time stamp i, and telegrams of the wrong length or with an unreadable value contribute neither a time stamp nor values. A logger file with a line without semicolon is rejected with ValueError.", "quantifier": "all files, all number, date and time formats", "why_tests_cant": "A test needs a file with just one unreadable value in the middle of a telegram; shifted columns still look plausible.", "anchors": ["cloudnetpy/disdronator/lpm.py:_read_telegram", "cloudnetpy/disdronator/lpm.py:_read_raw", "cloudnetpy/disdronator/lpm.py:_read_pyatmoslogger"]}
{"id": "C63", "title": "Parsivel text reader: lines are taken as a whole or not at all", "statement": "For a telegram that contains date and time, the Parsivel text reader never raises; it returns one time stamp for each line with the right number of fields and only readable values, in file order, and for each numbered item one value per time stamp, read from the same line (32 and 32 by 32 values for the spectra).", "quantifier": "all telegrams, separators, lines and value formats", "why_tests_cant": "The lines, the telegram layout and the position of a broken value all vary; examples cover few combinations.", "anchors": ["cloudnetpy/disdronator/parsivel.py:_read_lines"]}
{"id": "C64", "title": "Parsivel record reader: one value or gap per record", "statement": "For files made of time-stamped records, every returned column has one entry for every time stamp: the value the record gives for this number (the last one if repeated), or None if it gives none, also for numbers that first appear in a later record. Records that cannot be read are skipped.", "quantifier": "all sequences of records", "why_tests_cant": "Columns starting late and records with missing numbers interact; tests use complete records.", "anchors": ["cloudnetpy/disdronator/parsivel.py:_read_typ_op4a", "cloudnetpy/disdronator/parsivel.py:_read_hyytiala"]}
{"id": "C65", "title": "FD12P reader: the rows of the wanted day", "statement": "fd12p2nc on an FD12P file with a date uses exactly the lines of that date that have thirteen fields, a readable date and time and readable numbers (a field with a slash is a missing value) and at least one value, in file order, with all five quantities of a line at its time; ValidTimeStampError if there are none. Lines of other dates do not matter.", "quantifier": "all files, dates and number formats", "why_tests_cant": "Files that span midnight are needed; the fixtures hold one day each.", "anchors": ["cloudnetpy/instruments/fd12p.py:FD12P.parse_input_file", "cloudnetpy/instruments/fd12p.py:FD12P.screen_all_masked", "cloudnetpy/instruments/fd12p.py:fd12p2nc"]}
{"id": "C66", "title": "SIRTA and Limassol weather station files: columns stay with their times", "statement": "A SIRTA-style file with distinct titles is rejected with ValueError exactly if the titles are not numbered 1, 2, ... or a full line has an unreadable time; otherwise each title has the values found at its position in the full lines, in order, nan if not a number. For several files the Limassol reader gives every column as many values as the time, and values at the same place come from the same line.", "quantifier": "all lists of files, titles and lines", "why_tests_cant": "Needs files of different days with different columns; the fixtures are single files.", "anchors": ["cloudnetpy/instruments/weather_station.py:_parse_sirta", "cloudnetpy/instruments/weather_station.py:LimassolWS"]}
{"id": "C67", "title": "Kenttärova weather station files: columns stay with their times", "statement": "The Kenttärova reader returns, for each quantity, one value for every row with a readable time, over all files and in order, whatever the order of the columns; rows with an unreadable time are skipped as a whole. A file without a needed column raises KeyError.", "quantifier": "all lists of files, column orders and rows", "why_tests_cant": "The fixtures have the time in the first column and readable times.", "anchors": ["cloudnetpy/instruments/weather_station.py:KenttarovaWS._read_data"]}
{"id": "C68", "title": "TOA5 reader: a row holds the values of its own line", "statement": "read_toa5 returns one dictionary for each data line; under a plain column name it has the value of that line, under the name of an array (columns name(1), name(2), ...) the list of the elements of that line. A line with an unreadable time stamp or record number raises ValueError.", "quantifier": "all headers with distinct names and all lines", "why_tests_cant": "The fixtures have no array columns.", "anchors": ["cloudnetpy/instruments/toa5.py:read_toa5"]}
{"id": "C69", "title": "Wind directions are wrapped", "statement": "Wind directions less than 2 degrees outside [0, 360) are moved into that range by a full turn; values inside it, values further outside and missing values are left as they are.", "quantifier": "all directions", "why_tests_cant": "Boundary values of a real interval.", "anchors": ["cloudnetpy/instruments/weather_station.py:WS.wrap_wind_direction"]}
{"id": "C70", "title": "Rainfall amount from rainfall rate", "statement": "If a weather station gives only a rainfall rate, the amount at each time is the time resolution times the sum of all rates so far (missing rates count as nothing), is missing where the rate is missing, and never decreases if no rate is negative; with a single time it is zero.", "quantifier": "all series of rates with gaps", "why_tests_cant": "Series with gaps at arbitrary places.", "anchors": ["cloudnetpy/instruments/weather_station.py:WS.calculate_rainfall_amount"]}
{"id": "C71", "title": "Parsivel telegram and header files: one entry in every column for each readable row", "statement": "parsivel2nc on a file of rows, with a telegram or with a header line, gives one column for each item; every row whose fields can be read as the values of the items gives one entry in every column, in file order, and all other rows give none. An unknown telegram number or title raises KeyError, a file without a readable row DisdrometerDataError, an empty file DisdrometerDataError, and a file without header and telegram ValueError.", "quantifier": "all files, telegrams, header lines, and number and date formats", "why_tests_cant": "All combinations of items and malformed rows are needed; the fixtures hold a few telegrams.", "anchors": ["cloudnetpy/instruments/disdrometer/parsivel.py:_read_rows", "cloudnetpy/instruments/disdrometer/parsivel.py:_parse_row", "cloudnetpy/instruments/disdrometer/parsivel.py:_parse_headers", "cloudnetpy/instruments/disdrometer/parsivel.py:_parse_telegram", "cloudnetpy/instruments/disdrometer/parsivel.py:PARSERS", "cloudnetpy/instruments/disdrometer/parsivel.py:TELEGRAM"]}
{"id": "C72", "title": "Parsivel logger files: columns are aligned for every header", "statement": "parsivel2nc on a TOA5 or semicolon logger file gives, for every known column name, one entry for each row that has as many fields as the header and only readable values: the last value of that name, or all values of the vector or the 32 x 32 spectrum. It raises DisdrometerDataError exactly if no row is readable, ValueError exactly if one is and the number of spectrum columns is neither 0 nor 1024, and StopIteration for a TOA5 file of less than four rows.", "quantifier": "all headers with any repetitions and all rows", "why_tests_cant": "Headers with repeated and missing names.", "anchors": ["cloudnetpy/instruments/disdrometer/parsivel.py:_read_toa5", "cloudnetpy/instruments/disdrometer/parsivel.py:_read_pyatmoslogger_file"]}
{"id": "C73", "title": "Parsivel record files: a value missing in one record stays missing there", "statement": "parsivel2nc on a file of time-stamped records gives every column one entry for each record that can be read: the value, or a missing value if the record lacks it, and the stamps as times; records that cannot be read are skipped. A file that is a single record gives the last value of each quantity in it.", "quantifier": "all lists of records and lines", "why_tests_cant": "Records with different sets of values in any order.", "anchors": ["cloudnetpy/instruments/disdrometer/parsivel.py:_read_fmi", "cloudnetpy/instruments/disdrometer/parsivel.py:_read_typ_op4a"]}
{"id": "C74", "title": "Parsivel: several files are joined", "statement": "Reading several Parsivel files gives in each column the entries of the single files one after the other, and fails exactly like the first file that fails alone. If each file alone has as many entries in every column as times, so has the result. Given time stamps replace those of the files and must match the rows.", "quantifier": "all lists of files of all kinds", "why_tests_cant": "Files with different columns are needed.", "anchors": ["cloudnetpy/instruments/disdrometer/parsivel.py:_read_parsivel"]}
{"id": "C75", "title": "Parsivel: only the wanted day and one instrument", "statement": "With a date, parsivel2nc keeps of every column exactly the rows whose time is on that date and raises DisdrometerDataError exactly if there are none; without a date nothing is removed and the date is that of the first row. Data with two different serial numbers are rejected with DisdrometerDataError.", "quantifier": "all tables and dates", "why_tests_cant": "Rows of several days in any order and missing serial numbers.", "anchors": ["cloudnetpy/instruments/disdrometer/parsivel.py:Parsivel._screen_time", "cloudnetpy/instruments/disdrometer/parsivel.py:Parsivel._append_data"]}
{"id": "C76", "title": "Number of elements that cover a distance", "statement": "n_elements returns the integer nearest to the distance divided by the median step of the array (divided by 60 for times in hours and distances in minutes), ties to the even integer. For increasing arrays that many steps cover the distance to within half a step, and a longer distance never gives fewer elements. Arrays of less than two values raise ValueError, arrays of equal values ZeroDivisionError.", "quantifier": "all arrays and distances", "why_tests_cant": "All spacings, regular or not, and ties of the rounding.", "anchors": ["cloudnetpy/utils.py:n_elements", "cloudnetpy/utils.py:mdiff"]}
{"id": "C77", "title": "Base and top of a peak", "statement": "ind_base returns the lowest gate of the window below the peak whose step exceeds the steepest step divided by the limit; ind_top returns the gate above the highest gate of the window above the peak whose descent exceeds the steepest descent divided by the limit. For limits above 1 they succeed exactly if the signal rises (falls) somewhere in the window, raise ValueError exactly if the window is empty and otherwise IndexError.", "quantifier": "all profiles, peaks, distances and limits", "why_tests_cant": "All shapes of profiles and windows cut off at the ends.", "anchors": ["cloudnetpy/categorize/droplet.py:ind_base", "cloudnetpy/categorize/droplet.py:ind_top"]}
{"id": "C78", "title": "Gaps of the liquid water path are filled linearly", "statement": "interpolate_lwp returns one value for each profile. Measured values are kept, masked values between two measured ones lie on the straight line between them, no value is outside the range of the measured values and zero, and a day without measured liquid water gives zeros.", "quantifier": "all increasing times and all masked arrays", "why_tests_cant": "All patterns of gaps, zeros and negative values.", "anchors": ["cloudnetpy/categorize/droplet.py:interpolate_lwp"]}
{"id": "C79", "title": "Liquid layers lie around strong backscatter peaks", "statement": "find_liquid flags exactly the gates between base and top of those peaks that exceed the minimum value, are the largest within four gates, are narrow enough, have enough gates with signal, fall off steeply enough and high enough, in profiles whose liquid water path reaches the minimum. Every liquid gate is within the maximum width of a gate above the minimum value. It succeeds on all rectangular images.", "quantifier": "all images, heights, liquid water paths and limits", "why_tests_cant": "All shapes of profiles and several peaks with overlapping layers.", "anchors": ["cloudnetpy/categorize/droplet.py:find_liquid", "cloudnetpy/categorize/droplet.py:_find_strong_peaks"]}
{"id": "C80", "title": "Melting layer of a profile", "statement": "find_melting_layer without smoothing flags exactly these gates. Only gates between the first and the last gate with a wet-bulb temperature from -4 to 3 C (-8 to 6 C for the gdas1 model) are searched, and only if there are at least four values. With a peak of the depolarisation ratio that has a base and a top: from half way between base and peak up to the top, if the peak exceeds its base by 4 dB and -30 dB, with reflectivity above -25 dBZ and fall speed above 1.5 m/s at the base. Otherwise, the upper half of the longest rise of the velocity, if it is 50 to 1000 m deep, strong enough and starts with a fall speed above 2 m/s. The search succeeds on every image.", "quantifier": "all images with or without depolarisation and width", "why_tests_cant": "All shapes of profiles, masks and combinations of instruments.", "anchors": ["cloudnetpy/categorize/melting.py:find_melting_layer", "cloudnetpy/categorize/melting.py:_find_melting_layer_from_ldr", "cloudnetpy/categorize/melting.py:_find_melting_layer_from_v"]}
{"id": "C81", "title": "Smoothing of the melting layer in time", "statement": "find_melting_layer with smoothing flags a gate only if the unsmoothed layer has that gate at most 8 profiles away. A gate found in one profile only is removed, gates found in two neighbouring profiles are kept, and a gap of one profile is filled.", "quantifier": "all images and all kernels with the stated inequalities, which those of the Gaussian kernel satisfy", "why_tests_cant": "All patterns of detections in time, including the ends of the day.", "anchors": ["cloudnetpy/categorize/melting.py:find_melting_layer"]}
{"id": "C82", "title": "Freezing level of the model", "statement": "find_t0_alt returns for each profile the altitude of the first gate below 0 C if that is the lowest gate, otherwise the altitude where the straight line between that gate and the one below it reaches 0 C. The altitude is unique and lies between the two gates. It exists for every profile.", "quantifier": "all temperature images and heights", "why_tests_cant": "All temperature profiles, including inversions.", "anchors": ["cloudnetpy/categorize/freezing.py:find_t0_alt"]}
{"id": "C83", "title": "Freezing region", "statement": "find_freezing_region flags the gates above an altitude minus 1 m. In profiles with a melting layer the altitude is the median altitude of the layer. In other profiles at the ends of the day and in the middle of four hour windows without melting layer it is the freezing level of the model. Between these profiles it is a straight line in time. Every gate above a flagged gate is flagged. If nothing melts and all levels are at or below the lowest gate, everything is flagged.", "quantifier": "all images, heights and increasing times", "why_tests_cant": "All sequences of profiles with and without melting layer.", "anchors": ["cloudnetpy/categorize/freezing.py:find_freezing_region", "cloudnetpy/categorize/freezing.py:_find_mean_melting_alt", "cloudnetpy/categorize/freezing.py:_is_all_freezing"]}
{"id": "C84", "title": "Insects need a matching radar signature", "statement": "find_insects returns probabilities above 0 and at most 1, masked where they are 0, and flags exactly those above the limit. With a limit of one half or more, a flagged gate has one of three signatures: depolarisation above -25 dB warmer than 268 K; side-looking depolarisation measured, warmer than 265 K, and either above -25 dB or narrow and erratic (or narrow and weak where the variance is missing); reflectivity below -20 dBZ warmer than 274 K, width below 1 m/s, velocity above -3.5 m/s and, for MIRA radars, liquid water path below 0.15. Its profile is dry, the gate has no liquid and no melting layer is at or below it. Pixels beyond these limits by enough standard deviations are found. Pixels without data are no insects. Warming a pixel never removes an insect for limits up to 0.9, and never lowers the probability.", "quantifier": "all pixels, limits, radar types, layers and all distribution functions with median 0", "why_tests_cant": "All combinations of missing variables and values of several continuous variables.", "anchors": ["cloudnetpy/categorize/insects.py:find_insects", "cloudnetpy/categorize/insects.py:_get_probabilities", "cloudnetpy/categorize/insects.py:_calc_prob_from_ldr", "cloudnetpy/categorize/insects.py:_calc_prob_from_all", "cloudnetpy/categorize/insects.py:_adjust_for_radar", "cloudnetpy/utils.py:array_to_probability"]}
{"id": "C85", "title": "Rain flag combines radar, disdrometer and temperature exactly", "statement": "A profile of the categorize file is rainy exactly if the precipitation is liquid and rain is found. Liquid means a present weather code from 57 to 68 or, without code, more than 5 degrees Celsius in the lowest gate with all wet bulb temperatures. Rain is found if the disdrometer gives more than 0.25 mm/h and 30 particles or, where the disdrometer gives nothing, if three gates above the lowest gate with data the reflectivity is above 3 dBZ, the velocity is downward and the depolarisation, if measured, is below -15 dB. The flag is masked only where the code is.", "quantifier": "all images of any size, all masks, with or without depolarisation, disdrometer and present weather code", "why_tests_cant": "Combinations of masked gates, missing instruments and masked disdrometer values are unbounded.", "anchors": ["cloudnetpy/categorize/containers.py:ClassData._find_profiles_with_rain", "cloudnetpy/categorize/containers.py:ClassData._find_rain_from_radar_echo", "cloudnetpy/categorize/containers.py:ClassData._find_rain_from_disdrometer"]}
{"id": "C86", "title": "Only profiles of a stationary vertical radar are kept", "statement": "For radar files with two or more profiles the zenith angle is 90 degrees minus the elevation with its offset, and the azimuth gets its offset. A profile whose angles and those of its predecessor are known is kept exactly if it points to the zenith within the threshold and elevation and direction did not change. Profiles without angles are kept. Fewer than two kept profiles are an error. Elevations beyond -9 and 189 degrees and azimuths beyond 396 degrees are masked first, no others.", "quantifier": "all series of known and missing angles, all offsets and thresholds up to 180 degrees", "why_tests_cant": "Angles wrap around, values are missing at arbitrary places, and every profile depends on its neighbour.", "anchors": ["cloudnetpy/instruments/nc_radar.py:NcRadar.add_zenith_and_azimuth_angles", "cloudnetpy/instruments/mira.py:Mira.mask_bad_angles"]}
{"id": "C87", "title": "Noise and missing echo mask all radar variables alike", "statement": "The screening by signal-to-noise ratio followed by the removal of invalid data keeps all data values and masks every two-dimensional variable exactly where it was masked, where the ratio is below the limit, or where reflectivity or velocity were masked. Afterwards reflectivity and velocity are masked at the same pixels. Other variables do not change. A file without one of the three variables raises an error.", "quantifier": "all dictionaries of variables, images, masks and limits", "why_tests_cant": "The interplay of masks of several variables of any shape.", "anchors": ["cloudnetpy/instruments/nc_radar.py:NcRadar.screen_by_snr", "cloudnetpy/instruments/nc_radar.py:NcRadar.mask_invalid_data"]}
{"id": "C88", "title": "Profiles of low transmit power are removed, no others", "statement": "If the transmit power of some profile is below the limit (5 W, 0.5 W for MIRA-35C), exactly the profiles with enough power are kept in their order, with the rows of all variables along time; if none is left the file is refused. If all have enough power, or the power is unknown, nothing changes. Powers of instrument fzk are multiplied by 100 first unless their scale is given.", "quantifier": "all powers, numbers of profiles and sets of variables", "why_tests_cant": "Arbitrary selections of profiles and variables of any shape.", "anchors": ["cloudnetpy/instruments/mira.py:Mira.screen_low_power", "cloudnetpy/instruments/mira.py:Mira._correct_fzk_tpow", "cloudnetpy/instruments/cloudnet_instrument.py:CloudnetInstrument.screen_time_indices"]}
{"id": "C89", "title": "Weather radar profiles are those of the day, once each, in order", "statement": "From weather radar files, of which unreadable ones are skipped, exactly the profiles of the wanted date are kept, the first file for each time, in order of time. Hours count from midnight of the date. All profiles are on the range of the file that reaches highest: each value is that of a nearest gate of the own range, nothing outside the own range or where the file lacks the variable. Variables are all those of some file. Without readable file an error is raised.", "quantifier": "all lists of files, with any times, ranges and variables", "why_tests_cant": "Orders of files, repeated times, different ranges and missing variables combine without bound.", "anchors": ["cloudnetpy/instruments/weather_radar.py:WeatherRadar._read_data", "cloudnetpy/instruments/weather_radar.py:WeatherRadar._screen_time", "cloudnetpy/instruments/weather_radar.py:WeatherRadar.sort_and_dedup_timestamps"]}
{"id": "C90", "title": "Weather radar clutter and noise masks are exact", "statement": "In all two-dimensional variables exactly these pixels are masked in addition: gates up to the highest of the first ten gates in which the mean reflectivity, without pixels that fall faster than 1 m/s, is above -10 dBZ, and pixels with negative signal-to-noise ratio.", "quantifier": "all images of any size and masks", "why_tests_cant": "Means over masked data of any number of profiles.", "anchors": ["cloudnetpy/instruments/weather_radar.py:WeatherRadar.screen_clutter", "cloudnetpy/instruments/weather_radar.py:WeatherRadar.screen_noise"]}
{"id": "C91", "title": "Noise screening of lidar profiles hides exactly the weak gates", "statement": "Each profile is screened by itself. The signal of a gate is its value divided by the square of the range in km (for data without range correction only up to 2400 m for CL31 and CL51, nowhere for CT25k). A value is hidden exactly if its signal is below 8e-6 at or above the end of more than the allowed number of negative signals in a row within gates 5 to 99, or below 2e-6 at or above the strongest remaining signal of a saturated profile, or below the limit times the noise. The noise is the standard deviation of the signal in the highest tenth of the gates, at least the minimum, or 1e-12 if negatives or saturation were found. Values that stay are unchanged.", "quantifier": "all profiles of any length without masked values, all ranges other than 0, all settings of limits and filters", "why_tests_cant": "Runs, peaks, variances and thresholds interact over profiles of any length with real values.", "anchors": ["cloudnetpy/instruments/ceilometer.py:NoisyData.screen_data", "cloudnetpy/instruments/ceilometer.py:NoisyData._mask_low_values_above_consequent_negatives", "cloudnetpy/instruments/ceilometer.py:NoisyData._find_fog_profiles", "cloudnetpy/instruments/ceilometer.py:NoisyData._clean_fog_profiles", "cloudnetpy/instruments/ceilometer.py:NoisyData._remove_noise", "cloudnetpy/instruments/ceilometer.py:_calc_var_from_top_gates"]}
{"id": "C92", "title": "Noise screening keeps strong signals and no negative ones", "statement": "A signal of at least 8e-6 that reaches the limit times any upper bound of the noise stays. No negative value stays unless negative values are wanted. Weaker input never shows more, and the noise comes from the highest tenth of the gates only.", "quantifier": "all profiles of any length without masked values and all settings", "why_tests_cant": "The conclusion is about all profiles at once; the exceptions need particular combinations of filters.", "anchors": ["cloudnetpy/instruments/ceilometer.py:NoisyData.screen_data", "cloudnetpy/instruments/ceilometer.py:NoisyData._adjust_noise"]}
{"id": "C93", "title": "Profiles hit by the sun are removed, no others", "statement": "If there are gates above 10 km, these are divided into 20 bins of equal numbers of gates, the remainder left out. Exactly the profiles with visible backscatter in at least 15 bins are removed, from the time and from all two-dimensional variables. Other variables stay. Without such gates nothing changes.", "quantifier": "all dictionaries of data, ranges, numbers of profiles and masks", "why_tests_cant": "Arbitrary masks and numbers of gates that do not divide by 20.", "anchors": ["cloudnetpy/instruments/ceilometer.py:Ceilometer.screen_sunbeam"]}
{"id": "C94", "title": "Final ceilometer backscatter and depolarisation have exact masks", "statement": "Backscatter above 1e-6 is limited to 1e-6 before smoothing and put back afterwards, and the result is screened again. For range corrected CL61, CHM15k, CL51, CL31 and DA10 data the final backscatter is the raw one, visible exactly where the smoothed one is visible and the raw one is positive; for other instruments it is the screened one. The depolarisation of the CL61 is the ratio of its two polarisations, visible exactly where the backscatter is and the ratio is above 0 and at most 1.", "quantifier": "all images of any size, all model names, any smoothing that keeps the size", "why_tests_cant": "Smoothing couples all profiles; the result depends on two screenings of different fields.", "anchors": ["cloudnetpy/instruments/ceilo.py:ceilo2nc", "cloudnetpy/instruments/ceilometer.py:Ceilometer.calc_beta_smooth", "cloudnetpy/instruments/ceilometer.py:Ceilometer.screen_depol", "cloudnetpy/instruments/cl61d.py:Cl61d._fetch_lidar_variables"]}
{"id": "C95", "title": "Level 2 radiometer files are read row by row", "statement": "The ranges are the columns of the latest header of the types 10 and 400 that are heights. There is exactly one record for each data row whose type has a header before it, in the order of row numbers and then of the file; its values are the fields that are not empty under the names of the latest header, its time is month/day/year hour:minute:second with years below 100 after 2000. Rows of types without header are skipped. Reading succeeds exactly if all rows are understood; otherwise the first row that is not decides the error: RuntimeError for another header, IndexError for a short row, ValueError otherwise.", "quantifier": "all sequences of rows of any length with any fields, any conversion of numbers", "why_tests_cant": "Any number of headers and rows in any order; the error depends on the first bad row.", "anchors": ["cloudnetpy/instruments/radiometrics.py:RadiometricsMP.read_raw_data", "cloudnetpy/instruments/radiometrics.py:_parse_datetime"]}
{"id": "C96", "title": "Level 2 radiometer data combine records by type, title and nearest time", "statement": "Each record contributes by its type, index and latest title: integrals from untitled records 10 and 300, infrared temperature from 10 and 200, profiles from titled records and from 10. Titled records and integrals count only for zenith processors; the n-th integrals of a superblock belong to its n-th processor record. The times are those of the integrals in order; every other quantity that occurs has for each time the value given at the nearest time, the first of several, with vapour in kg m-2, relative humidity as fraction and absolute humidity in kg m-3. Reading succeeds exactly if every record can be interpreted.", "quantifier": "all sequences of records of any length, types, titles and values", "why_tests_cant": "Superblocks, titles and processors depend on all earlier and later records.", "anchors": ["cloudnetpy/instruments/radiometrics.py:RadiometricsMP.read_data", "cloudnetpy/instruments/radiometrics.py:_find_closest"]}
{"id": "C97", "title": "Line files of the WVR-1100 give exactly the valid zenith observations", "statement": "Below the first line that starts with the words date and time, lines with another number of words are skipped. The data are exactly the lines with elevation within one degree of 90 and both brightness temperatures positive, in order, with liquid and vapour in kg m-2 and values with an asterisk missing. It succeeds exactly if such a header exists, has all seven needed columns and all lines of the right length can be read. Otherwise: RuntimeError without header, ValueError for a line that cannot be read, KeyError for a missing column.", "quantifier": "all sequences of lines with distinct column names", "why_tests_cant": "Any text can occur in any line; absence of wrongly kept lines cannot be shown by examples.", "anchors": ["cloudnetpy/instruments/radiometrics.py:RadiometricsWVR.read_raw_data", "cloudnetpy/instruments/radiometrics.py:RadiometricsWVR.read_data", "cloudnetpy/instruments/radiometrics.py:_parse_value"]}
{"id": "C98", "title": "Several radiometer files combine to the profiles of a day in order", "statement": "If the files have the same variables and ranges, then with a date the written file has exactly the profiles of that day, sorted by time, every variable with the rows of the same profiles; hours count from midnight and are from 0 to below 24; range is in metres and height adds the altitude. No profile of the day gives ValidTimeStampError, other ranges in any file InconsistentDataError. Without date all profiles are kept.", "quantifier": "any number of files with any times and rows, any sorting that np.argsort may do", "why_tests_cant": "Alignment must hold for every permutation of profiles over all files.", "anchors": ["cloudnetpy/instruments/radiometrics.py:radiometrics2nc", "cloudnetpy/instruments/radiometrics.py:RadiometricsCombined.__init__", "cloudnetpy/instruments/radiometrics.py:RadiometricsCombined.screen_time", "cloudnetpy/instruments/radiometrics.py:RadiometricsCombined.sort_timestamps", "cloudnetpy/instruments/radiometrics.py:RadiometricsCombined.time_to_fractional_hours"]}
{"id": "C99", "title": "Radar pixels without reflectivity, velocity or width are not used", "statement": "When radar data are cleaned for the categorize product, a pixel of any variable over time and height stays visible only if it is visible in Z, in v and, if the variable exists, in width. Removing incomplete pixels masks exactly the pixels for which this fails, changes no value and leaves other variables alone; it succeeds exactly if Z and v exist and all arrays over time and height have the same shape. The whole cleaning never unmasks or changes a value. After cleaning, data of RPG radars have no isolated pixels in time.", "quantifier": "all masked arrays of any size, any set of variables and any radar name", "why_tests_cant": "Any combination of masks in any number of variables; the absence of new or changed values cannot be shown by examples.", "anchors": ["cloudnetpy/categorize/radar.py:Radar.remove_incomplete_pixels", "cloudnetpy/cloudnetarray.py:CloudnetArray.mask_indices", "cloudnetpy/categorize/categorize.py:generate_categorize"]}
{"id": "C100", "title": "Speckle and first-gate artifacts are removed for RPG and BASTA radars only", "statement": "The speckle filter masks in Z, v, width, ldr and v_sigma exactly the visible pixels whose gate is visible neither in the previous nor in the next profile. The first-gate filter masks exactly the velocities above 4 m/s in the lowest gate. Both are used exactly if the name of the radar mentions RPG or BASTA in any case of letters.", "quantifier": "all masked arrays of any size, all radar names", "why_tests_cant": "Every pixel has eight cases of neighbours at every position, including the edges of the measurement.", "anchors": ["cloudnetpy/categorize/radar.py:Radar.filter_speckle_noise", "cloudnetpy/categorize/radar.py:Radar.filter_1st_gate_artifact", "cloudnetpy/cloudnetarray.py:CloudnetArray.filter_vertical_stripes"]}
{"id": "C101", "title": "Stripes of radar data are exactly the outliers against their neighbours", "statement": "With fewer than 300 profiles with data nothing is filtered. Otherwise a profile (or gate) is a stripe exactly if it has five others on both sides, more than 20 visible pixels, and more than the upper quartile of the ten neighbours plus three times their spread (at least 3), unless the neighbours are not empty and have no spread. From a stripe exactly those pixels are masked that are not visible in the nearest profiles (gates) on both sides that are not stripes, judged by Z for the velocity and by the variable itself for v_sigma and ldr.", "quantifier": "all masked arrays of any size", "why_tests_cant": "The nearest position that is not a stripe can be arbitrarily far; 300 profiles are needed to reach the code at all.", "anchors": ["cloudnetpy/categorize/radar.py:Radar.filter_stripes", "cloudnetpy/categorize/radar.py:Radar._filter_stripes_axis", "cloudnetpy/categorize/radar.py:Radar._mask_stripe_pixels", "cloudnetpy/categorize/radar.py:Radar._mask_isolated"]}
{"id": "C102", "title": "Input files give times in hours and heights in metres", "statement": "Opening an input file of a product gives its times unchanged if none exceeds 25, and otherwise as hours of the day computed from seconds, where a final midnight is 24. The site altitude is the mean of the visible values in metres, and absent exactly if no value is visible. The heights are the height variable in metres or else range plus altitude; the height above ground is height minus altitude. A file is accepted exactly if it has at least one time and every length that is used has a known unit; a file without times and an unknown unit raise different documented errors.", "quantifier": "all files with any number of times, masked altitudes and units", "why_tests_cant": "Files differ in which variables and units they have; the choice of hours or seconds depends on the whole time vector.", "anchors": ["cloudnetpy/datasource.py:DataSource.__init__", "cloudnetpy/datasource.py:DataSource._init_time", "cloudnetpy/datasource.py:DataSource._init_altitude", "cloudnetpy/datasource.py:DataSource._init_height", "cloudnetpy/datasource.py:DataSource.to_m"]}
{"id": "C103", "title": "Lidar data on the radar grid come from the nearest profile with data", "statement": "On the radar grid every pixel has the lidar value of the nearest profile with any data at the nearest gate (the lower one of two) if the pixel is inside the lidar data, a profile is within one minute and a gate within 100 m; all other pixels are masked. The reported gaps are exactly the time steps without a profile with data within one minute. A lidar file without heights is refused.", "quantifier": "all strictly increasing axes, images and target grids of any size", "why_tests_cant": "The result depends on arbitrary distances between two pairs of axes; ties and the ends of the axes are rare in real data.", "anchors": ["cloudnetpy/categorize/lidar.py:Lidar.interpolate_to_grid", "cloudnetpy/categorize/lidar.py:Lidar._mask_profiles", "cloudnetpy/utils.py:interpolate_2d_nearest"]}
{"id": "C104", "title": "Liquid water path and its error have the same gaps on the time grid", "statement": "On a time grid the liquid water path and its error are linear interpolations of the visible samples with quality flag zero (the end values beyond the ends) and are masked exactly where no such sample is within the allowed time; so both are masked at the same time steps. The error of a sample is the root of the squares of 25 % of the value and 20 g m-2, and no interpolated error is below 20 g m-2. Flags that do not fit the samples are refused.", "quantifier": "all sample times within the day, values, masks, flags, time grids and allowed gaps", "why_tests_cant": "Two variables are interpolated in separate calls; agreement of the masks holds for all patterns of flags and gaps only by proof.", "anchors": ["cloudnetpy/categorize/mwr.py:Mwr.interpolate_to_grid", "cloudnetpy/categorize/mwr.py:Mwr._init_lwp_data", "cloudnetpy/categorize/mwr.py:Mwr._init_lwp_error", "cloudnetpy/utils.py:interpolate_1d"]}
{"id": "C105", "title": "Disdrometer weather codes are never interpolated", "statement": "A disdrometer file is accepted exactly if it has rainfall rate and particle number. On a time grid the weather code is the one of the nearest sample (the earlier of two), the other variables are linear interpolations, and everything is masked exactly where no visible sample is within one minute. No other variable is passed on.", "quantifier": "all sets of variables, sample times within the day, values, masks and time grids", "why_tests_cant": "An average of two codes is again a valid code, so a wrong method is not noticed from the values.", "anchors": ["cloudnetpy/categorize/disdrometer.py:Disdrometer._init_rainfall_rate", "cloudnetpy/categorize/disdrometer.py:Disdrometer.interpolate_to_grid", "cloudnetpy/utils.py:interpolate_1d"]}
{"id": "C106", "title": "Averages of time series are exact means over equal time steps", "statement": "Averaging a series over new time steps gives in each step the exact mean of the visible values in it, and a masked value without any; the last step contains its end. The reported empty steps are exactly the masked ones, in order. It fails exactly with fewer than two new steps or with different lengths of times and values.", "quantifier": "all series, masks and new time steps of any length", "why_tests_cant": "Every position of samples relative to the edges of the steps has to be right, including the edges themselves.", "anchors": ["cloudnetpy/utils.py:rebin_1d", "cloudnetpy/utils.py:binvec", "cloudnetpy/cloudnetarray.py:CloudnetArray.rebin_data"]}
{"id": "C107", "title": "Weather model levels are at metres above the model surface", "statement": "The type of a weather model is the first known name in the file name, whatever the directory; other files are refused. The level heights are the heights of the file in metres plus the surface altitude of the model (or its geopotential divided by 9.80665), and plus the site altitude only if the file has neither. The common heights are the exact means of the level heights over time. A file without heights or with an unknown unit is refused.", "quantifier": "all paths, any number of time steps and levels", "why_tests_cant": "The choice of the surface depends on optional variables; a name in the directory must never decide.", "anchors": ["cloudnetpy/categorize/model.py:_find_model_type", "cloudnetpy/categorize/model.py:Model._get_model_heights", "cloudnetpy/categorize/model.py:_calc_mean_height", "cloudnetpy/utils.py:get_model_surface_altitude"]}
{"id": "C108", "title": "Model profiles are moved to the common heights without distortion", "statement": "At the common heights a complete model profile has the values of the straight lines between its levels, continued beyond the lowest and the highest level. So a quantity that changes linearly with height is exact at every time, and a level that is at its common height keeps its value. A fully masked profile stays masked. Exactly the fields with as many levels as heights, at least two, are accepted.", "quantifier": "all profiles with different heights, any number of levels and times", "why_tests_cant": "Levels move with time and in any order; exactness for all linear profiles needs all positions of all levels.", "anchors": ["cloudnetpy/categorize/model.py:Model.interpolate_to_common_height", "cloudnetpy/categorize/model.py:Model.calc_attenuations"]}
{"id": "C109", "title": "Model fields on the dense grid keep the mask of the model", "statement": "On the dense grid a pixel has the interpolated value, or the straight continuation of its row where there is none, if less than half of the model data around it, weighted by distance, is masked; otherwise it is masked. At a point of the model grid masked values stay masked and visible ones are not masked by their neighbours. Seven fields are produced, the attenuations at the middles between the heights. This succeeds exactly if every field has at least two profiles with data. The reported gaps are exactly the time steps without temperature.", "quantifier": "all strictly increasing axes, masks and grids of any size; any interpolation of the values", "why_tests_cant": "The mask is interpolated separately from the values; agreement at all points of all grids cannot be tested.", "anchors": ["cloudnetpy/categorize/model.py:Model.interpolate_to_grid", "cloudnetpy/categorize/model.py:_find_number_of_valid_profiles", "cloudnetpy/utils.py:interpolate_2d_mask", "cloudnetpy/utils.py:find_masked_profiles_indices"]}
{"id": "C110", "title": "The day of an RPG cloud radar is made of exactly the files of the date", "statement": "Exactly the files that can be read and whose time stamps are all on the expected date are used, in the order of the list, and reported as used; if there is none, no product is made. A variable with one value per profile has the values of all used files one after the other. A number or text of a file header is repeated for each profile of its file. Properties of the instrument have one value, equal in all files that have profiles, and files that differ in one are refused; the name of the customer is not passed on.", "quantifier": "any number of files, readable or not, with any variables, header values and numbers of profiles", "why_tests_cant": "The record depends on all files together; one file more or one value in one header changes every position.", "anchors": ["cloudnetpy/instruments/rpg.py:_get_fmcw94_objects", "cloudnetpy/instruments/rpg.py:_validate_date", "cloudnetpy/instruments/rpg.py:create_one_day_data_record", "cloudnetpy/instruments/rpg.py:_stack_rpg_data", "cloudnetpy/instruments/rpg.py:_expand_time_related_fields"]}
{"id": "C111", "title": "RPG files with different gates are put on common heights", "statement": "The heights of the day are the gates of a file that reaches highest. Every value of every profile comes from the nearest gate of the same profile and is hidden where the file has no gates or the value is missing. Every gate of every profile gets the maximum velocity of its chirp, where each chirp begins at the gate nearest to where it began in the file and the first chirp at the first gate.", "quantifier": "any number of files with ascending gates, any chirp tables, profiles and values", "why_tests_cant": "Files differ in gates, chirps and both; the mapping must hold for every gate of all combinations.", "anchors": ["cloudnetpy/instruments/rpg.py:_interpolate_to_common_height", "cloudnetpy/instruments/rpg.py:_interpolate_chirp_start_indices", "cloudnetpy/instruments/rpg.py:_pad_chirp_related_fields", "cloudnetpy/instruments/rpg.py:_expand_nyquist", "cloudnetpy/utils.py:interpolate_2D_along_y"]}
{"id": "C112", "title": "Exactly the bad values of an RPG cloud radar are hidden", "statement": "In the images exactly these values are hidden: those hidden before; zero, about -999 and about 1e-10; linear depolarisation ratios not above -35 dB and slanted ones not above -40 dB; and the reflectivity, velocity, width and depolarisation ratios where the spectral width is below 0.005 m/s. The data are never changed. Without a spectral width no product is made.", "quantifier": "all images with any values and masks", "why_tests_cant": "The mask is the union of four rules on different variables; missing or extra pixels show only for special values.", "anchors": ["cloudnetpy/instruments/rpg.py:_mask_invalid_data", "cloudnetpy/instruments/rpg.py:Fmcw.mask_invalid_ldr", "cloudnetpy/instruments/rpg.py:Fmcw.mask_invalid_width"]}
{"id": "C113", "title": "RPG cloud radars keep only profiles at a stable zenith angle", "statement": "The profiles kept are exactly those whose zenith angle is within 0.1 degrees (plus a relative tolerance of 1e-5) of the median of the angles between -5 and 15 degrees, in their order; if there is none, no product is made. Rain rate, liquid water path, humidity, pressure and wind speed are converted to SI units exactly, other variables stay as they are, and a missing one is an error. The frequency decides the model of the radar, and any frequency not within 0.1 GHz of 35 or 94 is refused.", "quantifier": "all sequences of elevations with gaps, all values, all frequencies", "why_tests_cant": "The median depends on all profiles of the day.", "anchors": ["cloudnetpy/instruments/rpg.py:_filter_zenith_angle", "cloudnetpy/instruments/rpg.py:Fmcw.add_zenith_angle", "cloudnetpy/instruments/rpg.py:Fmcw.convert_units", "cloudnetpy/instruments/rpg.py:Fmcw._get_instrument"]}
{"id": "C114", "title": "One HATPRO file: every time once, SI units, hidden low quality, expected date", "statement": "A file of liquid water path or water vapour of an RPG radiometer that is read gives every time stamp once, in ascending order, with the first sample of that time: liquid water path in kg m-2 (a thousandth of the stored value), zenith angle equal to 90 degrees minus the encoded elevation. The value is hidden exactly where the quality flag says low quality, or everywhere if nothing but zeros was measured. If a date is expected, exactly the samples of that date are kept. Exactly these files are read: those with a known file code for their kind, with some sample that is not of low quality (or nothing but zeros), and, if a date is expected, with UTC times and a sample on the date. The others give the error that belongs to the reason.", "quantifier": "for all file codes, samples, flags, encoded angles, time references, epochs and expected dates", "why_tests_cant": "The number of combinations of flags, repeated times, encodings of the angles and dates is unbounded; the tests read a few real files.", "anchors": ["cloudnetpy/instruments/rpg_reader.py:126-306", "cloudnetpy/instruments/hatpro.py:228-245", "cloudnetpy/instruments/hatpro.py:261-274"]}
{"id": "C115", "title": "HATPRO day: joining of files by name and the record of the day", "statement": "The record of a day of RPG radiometer files has, for the used files in alphabetical order of their names, every time of the liquid water path and of the water vapour file with that name once, in ascending order, with both values, each hidden where its file has no such time or is missing, and with the zenith angle of the files. All columns have the same length. Exactly acceptable files are used; two files with one name are used if their elevations agree at common times, and neither is used if they differ. There is a record if some liquid water path file is used, otherwise ValidTimeStampError. Suffixes are to be accepted in any case of letters, and one damaged file is not to stop the processing of the others.", "quantifier": "for all directories of files, expected dates and epochs", "why_tests_cant": "Directories have any number of files with any overlap of times; no test has a damaged file, a lower-case suffix or files whose angles differ.", "anchors": ["cloudnetpy/instruments/hatpro.py:205-258", "cloudnetpy/instruments/hatpro.py:277-285", "cloudnetpy/instruments/rpg_reader.py:309-347", "cloudnetpy/instruments/rpg.py:107-136"]}
{"id": "C116", "title": "Dissipation rate from a spectrum: least squares lines over the documented bands", "statement": "The dissipation rate of a wavenumber spectrum is the mean of the rates of those of the 42 documented bands in which at least two points lie strictly inside and the least squares line through them on logarithmic axes has a slope between -2 and -1.33; its error is the sample standard deviation over these bands, missing if there is only one; there is no value if there is no such band. As the comment of the product says, slopes outside -5/3 plus or minus 20 per cent are rejected.", "quantifier": "for all spectra with ascending wavenumbers, and any logarithm that increases on them", "why_tests_cant": "Minimality of the deviation is a statement about all lines; the cumulative sums have to agree with it for every spectrum and every band. There is no test of this product.", "anchors": ["cloudnetpy/products/epsilon_radar.py:218-268", "cloudnetpy/products/epsilon_radar.py:325-372"]}
{"id": "C117", "title": "Radar dissipation rate: times, windows, pixels and failure of the product", "statement": "The times of the product are those of the grid of 30 seconds that have a profile in the next five minutes. Every pixel is computed from exactly the profiles of these five minutes: it has the estimate of the spectrum of the velocities, missing ones filled by a spline, if there are velocities among the first two and the last two, about nine tenths of them are known and the wind is positive, otherwise no value. Radars with any interval between the profiles are processed, less than 10 per cent of the velocities are missing where there is a value, and they cover five minutes.", "quantifier": "for all ascending radar times, heights, velocities with any gaps, winds, Fourier transforms and splines", "why_tests_cant": "The position and number of gaps and of profiles per window is unbounded. There is no test of this product.", "anchors": ["cloudnetpy/products/epsilon_radar.py:113-183", "cloudnetpy/products/epsilon_radar.py:205-215", "cloudnetpy/products/epsilon_radar.py:286-292"]}
{"id": "C118", "title": "Lidar dissipation rate: accumulation time and horizontal wind", "statement": "The pulse repetition frequency used if the file has no accumulation time is 15 kHz or 10 kHz, the higher one for which light travels the distance between the gates and back between two pulses, and longer ranges are rejected. The accumulation time is that of the file, otherwise the number of pulses over this frequency. The horizontal wind has at every time and height the linear interpolation of the points at which both components are known, or the value of the nearest outside their hull; it is available whenever there are points at three times and three heights, otherwise the day is rejected as having no valid data.", "quantifier": "for all ranges, pulses, wind fields and masks, and any interpolators", "why_tests_cant": "The patterns of missing wind are unbounded; the test uses one real file.", "anchors": ["cloudnetpy/products/epsilon_lidar.py:124-184"]}
{"id": "C119", "title": "Reading of netCDF radar files: names, fallbacks, missing data, range and Nyquist velocity", "statement": "After reading, a variable of the product has the values of the last variable of the file that the table of names gives it, with everything that is not finite masked; it is absent exactly if none of them is in the file. The range is that of the file, or its height if there is none, times the correction factor of the site. The Nyquist velocity is the median of the ambiguous velocity, or of the Nyquist velocity, of the file. The conversion is stopped with RadarDataError exactly if every velocity is masked.", "quantifier": "for all files, tables of names and data", "why_tests_cant": "Files can have any combination of variables, and any pattern of masks.", "anchors": ["cloudnetpy/instruments/nc_radar.py:38-63", "cloudnetpy/instruments/nc_radar.py:165-179"]}
{"id": "C120", "title": "Galileo radar: gates above the radar, weak signal, clutter, invalid pixels", "statement": "The product of the Galileo radar has exactly the gates with a positive range; a file without such gates is rejected with ValueError. A pixel of any image is masked exactly if it was masked, if the signal-to-noise ratio is below the limit, if reflectivity or velocity is missing, or if it is among the lowest 15 gates and the depolarisation ratio is above -5 dB; other numbers are unchanged. Only weak echoes count as clutter. Times are never cut, and files of one profile are cut like others.", "quantifier": "for all images, masks, ranges and limits", "why_tests_cant": "The set of gates and the patterns of masks are unbounded; the tests look at a few files.", "anchors": ["cloudnetpy/instruments/galileo.py:89-151", "cloudnetpy/instruments/nc_radar.py:65-90"]}
{"id": "C121", "title": "Copernicus radar: calibration, noise, corrupted values, range", "statement": "The product of the Copernicus radar has exactly the gates whose corrected range is not negative, with this range. Reflectivities are shifted by the calibration offset of the site in place of the one already applied. A pixel is masked exactly if it was masked, if the signal-to-noise ratio is less than 2 above the mean of the highest 50 gates, if reflectivity or velocity is missing, if the spectral width is above 3 or the velocity above 9 in magnitude, or if the range of the file is below 150 m. The documented default of the calibration is used, and the first 150 m of the product are masked.", "quantifier": "for all images, masks, ranges and offsets", "why_tests_cant": "The interplay of four masks, of which each is computed from the result of the others, has too many combinations to test.", "anchors": ["cloudnetpy/instruments/copernicus.py:96-102", "cloudnetpy/instruments/copernicus.py:133-180", "cloudnetpy/instruments/nc_radar.py:73-98"]}
{"id": "C122", "title": "BASTA radar: background mask; date checks of BASTA, Galileo and Copernicus files", "statement": "A pixel of the BASTA reflectivity and velocity is visible exactly if it is a finite number that is not masked and the background mask of the file is 1 there; files without background mask are rejected. A file is accepted for a date exactly if the third word of the units of its time is this date in the form YYYY-MM-DD; another date gives ValidTimeStampError, a word that is no date ValueError, fewer words IndexError. Galileo and Copernicus files are accepted exactly if their units name the date.", "quantifier": "for all files, texts and dates", "why_tests_cant": "Texts and masks are unbounded.", "anchors": ["cloudnetpy/instruments/basta.py:54-66", "cloudnetpy/instruments/basta.py:95-109", "cloudnetpy/instruments/nc_radar.py:195-200"]}
{"id": "C123", "title": "BOW-TIE radar: units and correction bits", "statement": "The liquid water path is converted from g to kg, the rainfall rate from mm per hour to m per second, the relative humidity from per cent to a fraction; other variables are unchanged, masks stay. A file without one of the three is rejected with KeyError, nothing else. The correction bits are 1 with the mask of the velocity.", "quantifier": "for all files", "why_tests_cant": "The combinations of dimensions, masks and missing variables are unbounded.", "anchors": ["cloudnetpy/instruments/bowtie.py:87-100"]}
{"id": "C124", "title": "MIRA radar: types of files and choice of variables", "statement": "The files of a day are accepted exactly if there are any and all of them have the extension znc, or all have the extension mmclx, in any case, with or without a number after it. No file gives FileNotFoundError, files with different extensions TypeError, other extensions ValueError. In znc files the variables with the suffix h2l are used, the ones with the suffix g if they are missing; in mmclx files Zg, and Ze if it is missing.", "quantifier": "for all lists of file names and all files", "why_tests_cant": "File names are unbounded texts, the tests use the names of a few files.", "anchors": ["cloudnetpy/instruments/mira.py:290-342", "cloudnetpy/instruments/mira.py:345-402", "cloudnetpy/instruments/nc_radar.py:38-49"]}
{"id": "C125", "title": "MIRA radar: decibels, weak signal, invalid pixels, depolarisation ratio", "statement": "Reflectivity and signal-to-noise ratio are converted to decibels. A pixel of any image except the depolarisation ratio is masked exactly if it was masked, if it has no logarithm, if the signal-to-noise ratio is below the limit, or if reflectivity or velocity is missing; other numbers are unchanged. The depolarisation ratio is removed exactly if the polarisation is off, and completely masked exactly if its mean is positive. Files without depolarisation ratio are processed.", "quantifier": "for all images, masks and limits up to 10 dB, and any logarithm", "why_tests_cant": "Masks and numbers under masks are unbounded; the tests use three files.", "anchors": ["cloudnetpy/instruments/mira.py:81-98", "cloudnetpy/instruments/mira.py:243-260", "cloudnetpy/instruments/nc_radar.py:65-90", "cloudnetpy/cloudnetarray.py:45-49"]}
{"id": "C126", "title": "Text files of ceilometers: profiles, times, day, calibration, instrument", "statement": "Reading a text file of a CL31, CL51, CT25K or CS135 gives one profile for each different time on the day of the file (the expected date, or that of the first profile without one): the first profile of that time, in strictly ascending order of time, with the backscatter times the calibration factor. The range holds the centres of the gates. The zenith angle is the median of the tilt angles. The conversion fails with ValidTimeStampError exactly if there are no profiles or none on the expected day, with ValueError exactly if the profiles differ in their number of gates. The instrument is a CL31 exactly below 1540 gates, otherwise a CL51. A given calibration factor is always the one applied.", "quantifier": "for all lists of profiles with their times, all dates and factors", "why_tests_cant": "Order, repetition and days of the profiles are unbounded; the tests use a few real files.", "anchors": ["cloudnetpy/instruments/vaisala.py:34-107", "cloudnetpy/instruments/ceilometer.py:135-139"]}
{"id": "C127", "title": "Recognition of the ceilometer from the site, the text or the netCDF file", "statement": "If the site names the instrument, its reader is used; a name not in the list gives ValueError. Otherwise the last line that announces an instrument among the first hundred lines of a text file decides, and a text without such a line gives RuntimeError. A netCDF file is read as CL61 exactly if its title or its file name has cl61d or cl61-d, in any case; a file without title gives AttributeError. All documented instruments are recognised.", "quantifier": "for all names, texts and titles", "why_tests_cant": "The texts are unbounded, the tests use one file per instrument.", "anchors": ["cloudnetpy/instruments/ceilo.py:158-217"]}
{"id": "C128", "title": "netCDF lidars: middle of the gates, zenith angle, software version, backscatter, depolarisation", "statement": "The limits of gates are moved to the middle of the gates, and ascending limits give an ascending range. The zenith angle is the median of the angles in the file, or the default if there are none. The software of a Lufft instrument counts as old exactly if its version is a number, or if the firmware is before 0.702. With new software the backscatter is multiplied by the factor (3e-12 by default); with old software also by the standard deviation over the gain and by the square of the range. The backscatter of CL61 and DA10 is multiplied by the factor (1 by default), files without any value give LidarDataError; the depolarisation of CL61 is the quotient of the polarisations, masked where that is impossible.", "quantifier": "for all ranges, angles, versions, images, factors and any power function", "why_tests_cant": "Masks, shapes and version texts are unbounded.", "anchors": ["cloudnetpy/utils.py:1037-1053", "cloudnetpy/instruments/nc_lidar.py:39-50", "cloudnetpy/instruments/lufft.py:41-103", "cloudnetpy/instruments/cl61d.py:39-56", "cloudnetpy/instruments/da10.py:38-51"]}
{"id": "C129", "title": "PollyXT: files of a day, their ranges, the channel and the joined data", "statement": "Of a list of files, those with a digit followed by _att, and by _vol, are read in alphabetical order; without _att files RuntimeError, with different numbers InconsistentDataError. Only pairs where both sums of heights are the most frequent one are used, and their heights are the same. The channel is the first of 1064, 532 and 355 nm with data in some file; if none has data, ValidTimeStampError. The product says this wavelength. Times, backscatter, depolarisation, signal-to-noise ratio and calibration constants are those of the pairs with the same times, in the order of the files, so that each profile keeps its own time and constant; without such a pair, ValidTimeStampError. The times are counted from the epoch of their own file.", "quantifier": "for all lists of files with any contents", "why_tests_cant": "Numbers and contents of the files are unbounded; the choice depends on counts over all files.", "anchors": ["cloudnetpy/instruments/pollyxt.py:108-262"]}
{"id": "C130", "title": "PollyXT: visible pixels, removed profiles, limit and zenith angle", "statement": "Backscatter and depolarisation are visible exactly where they were, where the signal-to-noise ratio is visible and at least the limit (that of the site, or 2), and where the value is a number, not negative, and for the depolarisation not above one; visible numbers are unchanged. Exactly the profiles with a visible raw backscatter are kept, in all arrays with one row per profile; the range is never cut. The zenith angle is that of the site, or 5.", "quantifier": "for all images, masks, limits and sites", "why_tests_cant": "The patterns of masks and numbers are unbounded.", "anchors": ["cloudnetpy/instruments/pollyxt.py:62", "cloudnetpy/instruments/pollyxt.py:87-106", "cloudnetpy/instruments/pollyxt.py:184-188"]}
{"id": "C131", "title": "Ice water content and effective radius follow the published relation to reflectivity and temperature", "statement": "In every pixel of usable ice (ice seen, not affected by uncorrected attenuation) with a reflectivity, the ice water content in kg m-3 is a thousandth of ten to the power of the published polynomial in reflectivity and temperature, for the band of the radar, after the correction of the reflectivity for the dielectric factor of liquid water; the effective radius likewise with its own polynomial. Elsewhere both are masked. More reflectivity gives more ice and larger radii. A radar of another band than Ka or W is refused. The sensitivity is the water content of the minimum detectable reflectivity at the mean temperature of the gate. The random error is the change of the result with the error of the reflectivity, combined with 1.7 dB, and the bias likewise at 0 degrees.", "quantifier": "for all reflectivities, temperatures, bits and errors", "why_tests_cant": "The relations hold for all real inputs; tests compare a few numbers.", "anchors": ["cloudnetpy/products/product_tools.py:18-63", "cloudnetpy/products/product_tools.py:230-279", "cloudnetpy/products/iwc.py:67-105", "cloudnetpy/products/ier.py:81-88"]}
{"id": "C132", "title": "Droplet effective radius reproduces the reflectivity and the liquid water path", "statement": "The effective radius is given exactly at droplets with a reflectivity, and is the one for which a lognormal distribution with the given number of droplets has this reflectivity. The scaled radius and number also have the reflectivity of the gate, and the liquid water they hold, summed over the gates of a layer times their depths, is the measured liquid water path. Gates of the same depth in one layer have the same number of droplets. The errors are the given uncertainties propagated through the formulas. Without a liquid water path the scaled values are masked, without the variable the file is refused.", "quantifier": "for all images of reflectivity and droplets, all paths, heights and positive parameters", "why_tests_cant": "The sum over a layer is a statement on all layers and all real numbers.", "anchors": ["cloudnetpy/products/der.py:25-31", "cloudnetpy/products/der.py:116-231"]}
{"id": "C133", "title": "Random error of the liquid water content", "statement": "The relative error of the liquid water content is the root of the sum of the squares of half the relative gradient (at most 5) and of the relative error of the liquid water path (at most 10). It is masked where there is no liquid water content and in rain, and lies between 0 and the root of 125.", "quantifier": "for all images, paths, errors and rain flags", "why_tests_cant": "Gradients at edges and masked neighbours, quotients by zero and limits interact; the tests use two small arrays.", "anchors": ["cloudnetpy/products/lwc.py:324-376", "cloudnetpy/utils.py:559-579"]}
{"id": "C134", "title": "Drizzle: reflectivity, corrected width and diameter", "statement": "The reflectivity is converted to SI units, with values above 180 dBZ counted as 180. The width is reduced by the turbulence that the variation of the velocity in 30 s shows, scaled with the power 2/3 of the lengths that wind and beam sample; a missing variable counts as zero width, and the corrected width is smaller than the measured one. The median diameter is the one for which a gamma distribution has the measured ratio of backscatter to reflectivity; more backscatter at the same reflectivity gives smaller drops.", "quantifier": "for all real inputs, and any function with the law of the gamma function", "why_tests_cant": "The equations hold for all real inputs, with the gamma function only known by its law.", "anchors": ["cloudnetpy/products/drizzle_tools.py:40-44", "cloudnetpy/products/drizzle_tools.py:170-204", "cloudnetpy/products/drizzle_tools.py:245-246", "cloudnetpy/products/drizzle_tools.py:293-316"]}
{"id": "C135", "title": "Drizzle: number density, water content, flux and velocities", "statement": "For any table the derived products exist for every pixel. The number density times the sixth power of the diameter is the reflectivity times 3.67 to the sixth; the water content follows from backscatter, lidar ratio, diameter and shape; flux and fall velocity come from the table entry whose shape and diameter are the first not below those retrieved (or the last); the velocity of air is the measured one less that of the drops. Without drizzle and in rain everything is masked.", "quantifier": "for all tables with ascending axes and all pixels", "why_tests_cant": "Entries at the ends of the table and pixels without drizzle are branches on real numbers; the tests use a small table.", "anchors": ["cloudnetpy/products/drizzle.py:94-152", "cloudnetpy/products/drizzle.py:189-204"]}
{"id": "C136", "title": "Drizzle: errors and biases", "statement": "The errors of diameter, water content, flux and lidar ratio are the errors of reflectivity and backscatter, converted from decibels and weighted by the published table for large, small and tiny drops, combined with the error of the shape, and given in decibels. Larger errors of the input never give smaller errors of the products. The biases use the weights of large drops. Without drizzle all errors are zero.", "quantifier": "for all diameters and all errors of the input", "why_tests_cant": "Three sizes of drops and saturating conversions on real numbers.", "anchors": ["cloudnetpy/products/drizzle_error.py:8-189"]}
{"id": "C137", "title": "Gaps in figures are exactly the intervals longer than the file type allows", "statement": "For files other than models, every interval between neighbouring samples, before the first one and after the last one that is longer than the gap allowed for the file type gets two blank samples 0.001 hours inside its ends, and no other interval does. The times stay ascending and on the axis, every sample is kept in order with its values, everything added is masked, and the hatched periods are exactly these gaps. Empty files raise IndexError, times outside of the axis ValueError.", "quantifier": "for all file types, all ascending times, all data", "why_tests_cant": "Gaps at either end, consecutive gaps and their positions in arrays that grow while they are changed have too many combinations.", "anchors": ["cloudnetpy/plotting/plotting.py:446-459", "cloudnetpy/plotting/plotting.py:481-532", "cloudnetpy/plotting/plotting.py:1230-1246"]}
{"id": "C138", "title": "Gaps in figures of models", "statement": "For models the allowed gap is the shortest interval rounded to minutes; profiles without any value are left out, and what remains is marked as for other files. In a complete model with a regular step of whole minutes no gap is marked between profiles. A model without any value is refused, a model with one time raises ValueError.", "quantifier": "for all times and data of models", "why_tests_cant": "Rounding of arbitrary steps and arbitrary patterns of empty profiles.", "anchors": ["cloudnetpy/plotting/plotting.py:481-532", "cloudnetpy/plotting/plotting.py:1230-1246", "cloudnetpy/plotting/plotting.py:1272-1281"]}
{"id": "C139", "title": "Hidden classes of status figures", "statement": "Classes whose label starts with an underscore vanish from the legend of a status figure and their pixels are masked. Every other pixel keeps its label and its colour although the numbers of the classes change. Masked pixels stay masked, values beyond the legend stay beyond it.", "quantifier": "for all legends and all images", "why_tests_cant": "The loop changes the data and the legend while it runs; any number of hidden classes at any position.", "anchors": ["cloudnetpy/plotting/plotting.py:711-724"]}
{"id": "C140", "title": "Cells of figures: edges and the highest gate", "statement": "The edges of the cells of ascending samples are ascending, one more than the samples, half way between neighbours, and every sample lies inside its own cell. With fewer than two samples IndexError is raised. Of the gates those up to the first one above the highest altitude wanted are shown, of the altitudes and of all profiles alike.", "quantifier": "for all ascending samples, all altitudes and images", "why_tests_cant": "Ends of arrays and absent gates are branches on arbitrary real values.", "anchors": ["cloudnetpy/plotting/plotting.py:824-836", "cloudnetpy/plotting/plotting.py:1257-1262"]}
{"id": "C141", "title": "Moving averages drawn in figures", "statement": "The curve consists of the maximal runs of samples that are neither masked nor flagged, each averaged and then cut at the intervals longer than allowed. The average at a sample is the mean of as many neighbours on both sides as fit in the window of five minutes at the median interval, with the end values continued; a single sample is its own average. There is one value per sample, within the range of the samples.", "quantifier": "for all ascending times, all masks, flags and data", "why_tests_cant": "Every pattern of valid samples gives other blocks; the parity of windows and blocks matters.", "anchors": ["cloudnetpy/plotting/plotting.py:1004-1053", "cloudnetpy/plotting/plotting.py:1068-1089"]}
{"id": "C142", "title": "Flagged periods and limits of the y axis", "statement": "Batches are exactly the maximal runs of ones, in order. The flagged periods drawn reach from the first to the last sample of every run of at least two. The limits of the y axis are ascending and enclose every value strictly: 5 % of the range beyond the extreme values, and from -0.05 to 0.05 without data.", "quantifier": "for all arrays of flags and all data, also constant, empty or masked", "why_tests_cant": "Runs at the ends of the array and degenerate data (constant, zero, all masked) are separate branches.", "anchors": ["cloudnetpy/plotting/plotting.py:693-707", "cloudnetpy/plotting/plotting.py:964-980", "cloudnetpy/plotting/plotting.py:1265-1269"]}
{"id": "C143", "title": "Errors of the model are shown exactly where model and observation can be compared", "statement": "The relative error (model minus observation over observation, in percent, rounded to hundredths) is shown in exactly the pixels where model and observation have numbers, the value of the model is not below all observations and the observation is not zero. The absolute error of the cloud fraction is shown in the same pixels, zero observations included. With several observations in one figure, every panel is that of its own observation and a panel is missing only if it has nothing to show.", "quantifier": "for all arrays of the same size with any masks and NaN, any number of observations", "why_tests_cant": "Masks, NaN and limits combine freely, and the statistics change the arrays they are given.", "anchors": ["cloudnetpy/model_evaluation/statistics/statistical_methods.py:79-110", "cloudnetpy/model_evaluation/plotting/plotting.py:224-315"]}
{"id": "C144", "title": "Common area of model and observation", "statement": "The area figure marks every pixel as without data, only model, both or only observation, and the area in percent is the share of pixels with both among the pixels with any, rounded to hundredths, between 0 and 100, and 0 without any data. The area of an observation does not depend on other observations of the figure.", "quantifier": "for all arrays of the same size with any masks and NaN", "why_tests_cant": "Same as above; also the degenerate cases without data.", "anchors": ["cloudnetpy/model_evaluation/statistics/statistical_methods.py:113-132", "cloudnetpy/model_evaluation/plotting/plot_tools.py:106-112", "cloudnetpy/model_evaluation/plotting/plotting.py:224-315"]}
{"id": "C145", "title": "Mean profiles and histograms of the model evaluation", "statement": "The mean profile of a level is the mean of its visible numbers, and a smoothed profile the mean of the numbers of the levels in its window, so both lie between the smallest and the largest of them; without numbers there is no value. Histograms show all visible numbers, rounded, and only values of the model above the histogram of the observations are moved, to its upper end.", "quantifier": "for all arrays with any masks and NaN, all window lengths", "why_tests_cant": "Windows at the end of the profile, levels without data and NaN.", "anchors": ["cloudnetpy/model_evaluation/statistics/statistical_methods.py:135-163", "cloudnetpy/model_evaluation/plotting/plot_tools.py:120-127"]}
{"id": "C146", "title": "Variables and values drawn in the model evaluation", "statement": "The variables drawn are those of the product, the model first and the others in the order of the file, separately for the standard and the advection grid; cirrus and snow variants only on request. Values that are not positive and very small water contents are hidden, all others are shown unchanged.", "quantifier": "for all lists of distinct names, all products, all data", "why_tests_cant": "Names are matched by parts; any file can have any names.", "anchors": ["cloudnetpy/model_evaluation/plotting/plot_tools.py:30-65", "cloudnetpy/model_evaluation/plotting/plot_tools.py:90-96"]}
{"id": "C147", "title": "Preferences of instruments on the command line", "statement": "The preferences of a product are the values of all -i arguments for it in the order given: the comma-separated texts after the first colon without surrounding white space, empty ones left out. An argument without a colon, or with a value that has a colon and is not a PID, is refused. product[instrument] names the product before the first bracket and the instrument up to the closing bracket at the end; everything else is a plain product.", "quantifier": "for all lists of arguments, all texts", "why_tests_cant": "Any text can be given, with any number of colons, commas, brackets and spaces.", "anchors": ["cloudnetpy/cli.py:498-535"]}
{"id": "C148", "title": "Selection of the instrument", "statement": "Of the instruments with data the one meant by the first preference that can be met is taken; if several are meant, the one whose name comes first. Without such a preference a single instrument is taken, and of several the one with the number typed, in the order of the names. The result does not depend on the order in which the set of instruments is iterated, if their names differ.", "quantifier": "for all sets of instruments in every order, all preferences, all answers", "why_tests_cant": "The order of a Python set changes between runs.", "anchors": ["cloudnetpy/cli.py:476-483", "cloudnetpy/cli.py:538-576"]}
{"id": "C149", "title": "Instruments searched, raw files processed and the converter", "statement": "For each product the instruments searched are the one in brackets or those of the preferences, as far as they belong to the product, or else all of the product. The files processed are exactly the files of the selected instrument with a usable name (no LV0 files for radars, only LWP and IWV files for microwave radiometers, no netCDF files for their level 1c), in the same order. Products and instruments have the converter with their name; several files for an instrument that takes one are put together or refused.", "quantifier": "for all products, preferences and raw files", "why_tests_cant": "Lists of files and combinations of arguments are unbounded.", "anchors": ["cloudnetpy/cli.py:44-71", "cloudnetpy/cli.py:297-353", "cloudnetpy/cli.py:432-473"]}
{"id": "C150", "title": "Files given to categorize", "statement": "Categorize is run with exactly one model file, not run without, and refuses several. For radar, lidar and disdrometer it gets the file of this run if there is one, else the file of the portal from the first preference that has one (Doppler lidars count as lidars), else any file of the portal. The liquid water path comes from the first of four places that has a file. The result does not depend on the order in which the parallel downloads finish.", "quantifier": "for all answers of the portal, all preferences, all orders of completion", "why_tests_cant": "The downloads run in parallel threads; any order can happen.", "anchors": ["cloudnetpy/cli.py:183-271", "cloudnetpy/cli.py:579-641"]}
{"id": "C151", "title": "Products, models and names of files on the command line", "statement": "Of the comma-separated products those known to the portal and those of level 3 are processed, in order. A model is accepted exactly if the portal has it and no other model is a variant of it. The file of an instrument is named by the date without dashes, the site, the instrument id and the first eight characters after the last dot of the PID; products based on categorize are written beside it with their own name, if the path has the word categorize only once.", "quantifier": "for all texts, dates, sites, PIDs and paths", "why_tests_cant": "Any text can occur in sites, PIDs and folders.", "anchors": ["cloudnetpy/cli.py:402-416", "cloudnetpy/cli.py:653-654", "cloudnetpy/cli.py:715-762"]}
{"id": "C152", "title": "Weather stations with numbered column titles (Palaiseau, Bucharest, Maïdo, Potenza)", "statement": "If the titles of the columns are the expected ones, the times and columns are exactly those of the lines that start with a time stamp and have the expected number of values, of all files in order; columns marked as unused are left out and all columns are as long as the times. Other titles, an invalid time or a value that is not a number raise ValueError.", "quantifier": "for all files, all texts, any reading of numbers and stamps", "why_tests_cant": "Lines, titles and files can be in any order and any lines may be malformed.", "anchors": ["cloudnetpy/instruments/weather_station.py:174-267", "cloudnetpy/instruments/weather_station.py:268-328"]}
{"id": "C153", "title": "Weather stations with CSV rows (Hyytiälä, Galați, Lampedusa)", "statement": "Every row that is not blank gives a time and one value for every quantity, taken from the column with the right title (at Galați the first of several titles that the file has) or number. Values that cannot be read are missing, at Hyytiälä also the two codes of missing values and missing fields. Every other file raises a stated exception: rows of another length, unreadable times, missing titles.", "quantifier": "for all lists of distinct titles, all rows, any reading of numbers, stamps and dates", "why_tests_cant": "Row lengths, title sets and unreadable values combine freely.", "anchors": ["cloudnetpy/instruments/weather_station.py:434-500", "cloudnetpy/instruments/weather_station.py:501-546", "cloudnetpy/instruments/weather_station.py:604-658"]}
{"id": "C154", "title": "Weather stations with data logger tables (Granada, Jülich, Falkenberg)", "statement": "If every known column has its expected unit and the stamps and record numbers can be read, the times and columns are those of the rows, one column for each known title of the file. A value that cannot be read is missing, at Jülich it raises ValueError, as do a wrong unit and an unreadable stamp.", "quantifier": "for all headers of distinct titles without parentheses, all units, all rows at least as long as the header", "why_tests_cant": "Any subset of the columns in any order, any unreadable values.", "anchors": ["cloudnetpy/instruments/weather_station.py:331-380", "cloudnetpy/instruments/weather_station.py:560-603", "cloudnetpy/instruments/weather_station.py:863-908"]}
{"id": "C155", "title": "Weather station of L'Aquila: each time once, in order", "statement": "The rows are those of all lines of all files with seven values that are not comments. Every time occurs once, with the values of its first row, in strictly increasing order. An empty value is missing; an unreadable value or time raises ValueError.", "quantifier": "for all files, any reading of numbers and stamps", "why_tests_cant": "Duplicates and order of rows across files are unbounded.", "anchors": ["cloudnetpy/instruments/weather_station.py:762-807"]}
{"id": "C156", "title": "Weather station of Cluj-Napoca", "statement": "The file is read exactly if every line has as many fields as the header, all titles used are in the header, and the stamps and values can be read; the times and columns are then those of the lines, empty values are missing.", "quantifier": "for all headers of distinct titles, all lines, any reading of numbers and stamps", "why_tests_cant": "Arbitrary lines and column orders.", "anchors": ["cloudnetpy/instruments/weather_station.py:810-860"]}
{"id": "C157", "title": "Output of a weather station for a day", "statement": "With a date the output has exactly the rows of that day, only the first of rows with the same time, in strictly increasing order of hours, with every value in SI units and missing values missing. If no row is of that day ValidTimeStampError is raised, if a required quantity is missing KeyError.", "quantifier": "for all sites, dates and columns as long as the times, times in whole seconds", "why_tests_cant": "Order of rows, duplicates and days are arbitrary; each site has its own units.", "anchors": ["cloudnetpy/instruments/weather_station.py:86-96", "cloudnetpy/instruments/weather_station.py:124-160", "cloudnetpy/instruments/weather_station.py:547-557", "cloudnetpy/instruments/weather_station.py:673-714", "cloudnetpy/utils.py:71-79"]}
{"id": "C158", "title": "Sites and files of weather stations", "statement": "The known names of sites give their reader and every other name is refused; readers that take one file refuse other numbers of files; all files given to a reader contribute to the output.", "quantifier": "for all names, all lists of files", "why_tests_cant": "Names and numbers of files are unbounded.", "anchors": ["cloudnetpy/instruments/weather_station.py:55-85", "cloudnetpy/instruments/weather_station.py:331-337", "cloudnetpy/instruments/weather_station.py:434-444", "cloudnetpy/instruments/weather_station.py:810-817", "cloudnetpy/instruments/weather_station.py:863-869"]}
{"id": "C159", "title": "Rain gauge RAIN[e]H3: which rows are read", "statement": "The median of the row lengths decides between the two protocols (22 or 16 columns); any other median, or a file without rows, raises NotImplementedError. The times, rates and amounts are exactly those of the rows with that number of columns, a readable time and the expected date; the serial number is that of the last such row (22 columns). A rate or amount in such a row that is not a number raises ValueError, no such row ValidTimeStampError.", "quantifier": "for all rows, all dates, any reading of numbers and stamps", "why_tests_cant": "Rows of any length and content in any order; the median depends on all of them.", "anchors": ["cloudnetpy/instruments/rain_e_h3.py:66-79", "cloudnetpy/instruments/rain_e_h3.py:81-119", "cloudnetpy/instruments/rain_e_h3.py:121-164"]}
{"id": "C160", "title": "Rain gauge RAIN[e]H3: rates, amounts and times of the output", "statement": "The times of the output are strictly increasing, have the hour of every row, and carry the rate of such a row in m/s. For rows of one day in order of time every row is written, the accumulated amount starts at zero and never decreases, also when the counter of the gauge starts again, and missing values stay missing.", "quantifier": "for all files that can be read, all dates, any correct argsort", "why_tests_cant": "Counter resets, gaps and duplicates combine freely.", "anchors": ["cloudnetpy/instruments/rain_e_h3.py:42-49", "cloudnetpy/instruments/rain_e_h3.py:166-171", "cloudnetpy/instruments/cloudnet_instrument.py:49-57", "cloudnetpy/instruments/cloudnet_instrument.py:104-114"]}
{"id": "C161", "title": "RD-80 disdrometer: reading a file", "statement": "A file is read exactly if every line with as many tab-separated fields as the header has all columns (date, time, 20 counts, interval, rate, amounts) and readable values, with a comma or a point as decimal mark; the rows are then those of these lines in order, other lines are ignored. Otherwise KeyError or ValueError is raised, KeyError only if a title is missing.", "quantifier": "for all headers of distinct titles, all lines, any reading of numbers and stamps", "why_tests_cant": "Column orders, further columns and malformed lines are unbounded.", "anchors": ["cloudnetpy/disdronator/rd80.py:10-34"]}
{"id": "C162", "title": "RD-80 disdrometer: output of a day", "statement": "With a date the output has exactly the rows of that day of all files, each time once, in strictly increasing order of hours, with the interval, the rain rate in m/s, the number of drops, the number concentration of every class (counts over area, interval, fall speed and class width) and the reflectivity (sixth moment of the diameters, in dB, missing without drops or below -10 dB).", "quantifier": "for all lists of files with rows, all dates, positive intervals", "why_tests_cant": "Any order and repetition of rows over any number of files.", "anchors": ["cloudnetpy/instruments/disdrometer/rd80.py:56-58", "cloudnetpy/instruments/disdrometer/rd80.py:67-143"]}
{"id": "C163", "title": "RD-80 disdrometer: size classes", "statement": "The 20 classes are adjacent (each ends where the next begins), every mean diameter is the middle of its class to 0.001 mm, and larger drops fall faster. Without drops the concentrations are zero and the reflectivity is missing; more drops in the same interval never give a lower reflectivity.", "quantifier": "for all classes of the tables (finite, checked completely); for all counts and any non-decreasing logarithm", "why_tests_cant": "A typing error in one of the 80 table values changes results only slightly.", "anchors": ["cloudnetpy/disdronator/rd80.py:37-55", "cloudnetpy/instruments/disdrometer/rd80.py:115-143"]}
{"id": "C164", "title": "MRR-PRO rain radar: the profiles of a day", "statement": "With a date the output has exactly the profiles of that day, with their hours, in order of time; the velocity has the opposite sign, the rain rate is in m/s, the liquid water content in kg m-3, other variables and missing values are unchanged, and the range starts at zero. Without a profile of the day ValidTimeStampError is raised.", "quantifier": "for all files whose variables have one row per profile, all dates, any correct argsort", "why_tests_cant": "Order of files and profiles, and the days they contain, are arbitrary.", "anchors": ["cloudnetpy/instruments/mrr.py:98-112", "cloudnetpy/instruments/mrr.py:141-167", "cloudnetpy/instruments/cloudnet_instrument.py:59-81"]}
{"id": "C165", "title": "Model evaluation: the levels of the model", "statement": "For model heights that do not fall with the level (two-dimensional or one profile, in km or m) exactly the levels that are below 22 km in some profile are used, and the written height has exactly their values. A file without height or without a level dimension raises ModelDataError, another unit ValueError.", "quantifier": "for all heights of any number of profiles and levels, any factor of the known units", "why_tests_cant": "The number of levels is one count for all profiles; a test sees a few grids.", "anchors": ["cloudnetpy/model_evaluation/products/model_products.py:60-87", "cloudnetpy/model_evaluation/products/model_products.py:166-187"]}
{"id": "C166", "title": "Model evaluation: cloud fraction and water contents of the model", "statement": "The cloud fraction is that of the file at the used levels, missing below 0.05. The ice and liquid water content is q p / (287.058 T) with q the cloud ice plus snow and graupel (if the file has them) or the cloud liquid, missing below 1e-7 and 1e-5. ModelDataError is raised exactly if a needed variable is missing, KeyError for another product.", "quantifier": "for all model files, all numbers of levels, all points", "why_tests_cant": "Combinations of optional variables and values near the limits are many.", "anchors": ["cloudnetpy/model_evaluation/products/model_products.py:89-164"]}
{"id": "C167", "title": "Model evaluation: which model files are accepted", "statement": "A model file is accepted exactly if it has a height with levels in a known unit, the variables of the product, both wind components and a horizontal resolution whose valid values are all one positive number. Otherwise ModelDataError is raised, ValueError only for the unit of the height, KeyError only for an unknown product or a missing wind. The wind speed is the root of the sum of squares at every used level.", "quantifier": "for all model files and products", "why_tests_cant": "The conditions interact and each hides the later ones.", "anchors": ["cloudnetpy/model_evaluation/products/model_products.py:43-58", "cloudnetpy/model_evaluation/products/model_products.py:124-134", "cloudnetpy/model_evaluation/products/model_products.py:189-214"]}
{"id": "C168", "title": "Model evaluation: the cirrus filter", "statement": "Every pixel below 0.05 is missing, a pixel without ice (or with much liquid) keeps its cloud fraction, an ice pixel gets the part of its ice water distribution above the detection limit of the radar, and is missing if the distribution is infinite, sums to zero, is cut off at its end, or less than 0.05 is left. The filter never adds cloud, a less sensitive radar never leaves more, one that detects everything changes nothing. ValueError is raised exactly if the observation lacks frequency, sensitivity or height, or clouds exist and none has ice.", "quantifier": "for all grids of pixels; any square root, any density (for the bounds: not negative)", "why_tests_cant": "The distribution has 249 points for every pixel; tests use one case.", "anchors": ["cloudnetpy/model_evaluation/products/advance_methods.py:48-84", "cloudnetpy/model_evaluation/products/advance_methods.py:93-153", "cloudnetpy/model_evaluation/products/advance_methods.py:191-221"]}
{"id": "C169", "title": "Model evaluation: the wind shear of the cirrus filter", "statement": "The shear is the root of the squared slopes of both wind components, negative where the wind speed falls, from the neighbouring profiles (two on either side, at the ends the nearest two). Fewer than two profiles raise IndexError.", "quantifier": "for all winds and heights of any size", "why_tests_cant": "A wrong axis gives plausible numbers.", "anchors": ["cloudnetpy/model_evaluation/products/advance_methods.py:155-189"]}
{"id": "C170", "title": "Model evaluation: the file of a day", "statement": "An existing file with content is refused before anything is read unless overwriting is allowed. A ValueError of the cirrus filter only leaves out the filtered cloud fraction, other errors are passed on. The variables written are exactly the coordinates of the model file, height, the product of the model and its observations on the model grid, and each has its units.", "quantifier": "for all contents of the model file, products, and outcomes of the steps", "why_tests_cant": "Combinations of outcomes of the steps are many.", "anchors": ["cloudnetpy/model_evaluation/products/product_resampling.py:62-91", "cloudnetpy/model_evaluation/file_handler.py:26-49", "cloudnetpy/model_evaluation/products/model_products.py:166-183"]}
{"id": "C171", "title": "Thies disdrometer: telegrams", "statement": "A telegram with the number of fields of the site (or four more) gives one record: every documented column before the last has the date, time, number or text of its field, years with two digits are of this century, a full telegram has 22 times 20 numbers of particles from field 80 on, and the time is that given with the line or else its date and time. It is readable exactly if all these fields are. Telegrams with another number of fields are ignored. Errors are ValueError, or IndexError if date and time are cut off.", "quantifier": "for all lines, all numbers of columns, any reader of numbers and calendar", "why_tests_cant": "49 columns of five kinds and 440 numbers, in fields that may be blank or malformed.", "anchors": ["cloudnetpy/instruments/disdrometer/thies.py:20-70", "cloudnetpy/instruments/disdrometer/thies.py:212-265", "cloudnetpy/instruments/disdrometer/thies.py:296-305"]}
{"id": "C172", "title": "Thies disdrometer: file formats", "statement": "A log file is a table of a data logger, lines with a time stamp before the telegram, or plain telegrams. Its records are those of its telegrams, in order, each with the time that belongs to it. It is readable exactly if every telegram is ignored or readable and one is not ignored; ValidTimeStampError is raised exactly if all are ignored. Other faults are reported as DisdrometerDataError.", "quantifier": "for all files, tables and numbers of columns", "why_tests_cant": "Formats and malformed lines combine freely.", "anchors": ["cloudnetpy/instruments/disdrometer/thies.py:104-112", "cloudnetpy/instruments/disdrometer/thies.py:156-183"]}
{"id": "C173", "title": "Thies disdrometer: day and instrument", "statement": "With a date exactly the records of that day are used, without one all of them, and the day is that of the first. All used records have the serial number of the output. No record on the day, or several serial numbers, raise DisdrometerDataError. Otherwise the file is processed. No other errors occur.", "quantifier": "for all files and dates", "why_tests_cant": "The day of a record near midnight, and mixtures of instruments, are rare in test files.", "anchors": ["cloudnetpy/instruments/disdrometer/thies.py:124-141", "cloudnetpy/instruments/disdrometer/thies.py:205-210", "cloudnetpy/instruments/disdrometer/thies.py:267-277"]}
{"id": "C174", "title": "Thies disdrometer: output", "statement": "The hours of the output are strictly increasing, contain the hour of every used record, and all columns and spectra are of the same records in the same order. Exactly the columns that were read and are not internal are written, converted to their units; a rain rate above 999 is missing. The velocity and diameter classes are the documented ones.", "quantifier": "for all files, dates and numbers of columns, any sorting order", "why_tests_cant": "The arrangement depends on the number of records and the order of their times.", "anchors": ["cloudnetpy/instruments/disdrometer/thies.py:112-154", "cloudnetpy/instruments/disdrometer/thies.py:185-203", "cloudnetpy/instruments/disdrometer/thies.py:279-293"]}
{"id": "C175", "title": "Microwave radiometer products", "statement": "ValidTimeStampError is raised exactly if the retrieval lacks input or no value of the product has the quality flag zero. Otherwise the file has the type and title of the product; an LHUMPRO gives a single-pointing product. Every link to coefficients has a path with its file name, and the file there has the content of the last link with that name.", "quantifier": "for all products, quality flags and lists of links", "why_tests_cant": "Needs retrieval coefficients from a server.", "anchors": ["cloudnetpy/products/mwr_tools.py:88-119", "cloudnetpy/products/mwr_tools.py:157-165", "cloudnetpy/products/mwr_tools.py:177-186"]}
{"id": "C176", "title": "Model evaluation: advection window", "statement": "The advection window of a model cell holds exactly the observations that are at most half an hour from the model time and in which the wind moves the air by at most half the horizontal resolution, the later end excluded. A stronger wind never uses more observations; without a wind none is used. Calm air uses the whole hour.", "quantifier": "for all positive resolutions, winds, model times and observation times", "why_tests_cant": "The boundaries depend on the wind of every cell.", "anchors": ["cloudnetpy/model_evaluation/products/tools.py:calculate_advection_time", "cloudnetpy/model_evaluation/products/tools.py:get_adv_indices"]}
{"id": "C177", "title": "Model evaluation: averages of a product on the whole grid", "statement": "Every cell of every model time has the mean of exactly the valid observations of its time step and level, and the mean of those in its advection window; it is masked if there are none. The time steps divide the model times, extended by half a step, equally; the levels end half way to their neighbours and a whole step beyond the lowest and highest. The result has the shape of the model heights. It is made exactly if there are two model times, at least two levels for each and a wind for every level; the only error is IndexError.", "quantifier": "for all observations, masks, grids and winds", "why_tests_cant": "Every cell has its own windows; the number of cells and observations is unbounded.", "anchors": ["cloudnetpy/model_evaluation/products/grid_methods.py:ProductGrid", "cloudnetpy/model_evaluation/products/tools.py:rebin_edges"]}
{"id": "C178", "title": "Model evaluation: cloud fractions on the whole grid", "statement": "By volume the fraction of a cell is the mean of its valid pixels, by area the fraction of the profiles with a cloudy pixel among those with a valid one, both also for the advection window; masked if nothing is valid. By volume is never above by area if no pixel is masked. Ordered observations are never rejected.", "quantifier": "for all non-negative observations, masks, grids and winds", "why_tests_cant": "Windows without observations, partly masked profiles and gaps combine freely.", "anchors": ["cloudnetpy/model_evaluation/products/grid_methods.py:ProductGrid._regrid_cf", "cloudnetpy/model_evaluation/products/grid_methods.py:ProductGrid._reshape_data_to_window", "cloudnetpy/model_evaluation/products/tools.py:fraction_of_cloudy_columns", "cloudnetpy/model_evaluation/products/tools.py:get_obs_window_size"]}
{"id": "C179", "title": "Bundling the netCDF files of a day", "statement": "Of several files exactly those that can be read and have a time stamp on the date are joined and returned, in the given order, along the first wanted dimension that the first file has; without one KeyError is raised, without a file of the day an error. Averages and extremes computed by the instrument are left out. The returned files are those in the output.", "quantifier": "for all lists of files, dates and dimensions", "why_tests_cant": "Mixtures of unreadable, broken and foreign files are rare in test data.", "anchors": ["cloudnetpy/concat_lib.py:bundle_netcdf_files"]}
{"id": "C180", "title": "Error of the radar reflectivity", "statement": "The error of a pixel is the root of the sum of squares of the random error and of the errors of the liquid, rain and melting attenuation, a missing one counting as 0. The random error follows from the number of independent pulses (dwell time, spectral width, wavelength) and the signal above the weakest one of the day. A pixel has no error exactly if some attenuation is uncorrected there, it has no echo, its range is not positive, or its width is missing or 0. The error is positive and at least each of its parts; a stronger echo never has a larger error; the random error of any echo above the weakest is at most a third above its limit.", "quantifier": "for all reflectivities, ranges, widths, attenuations, positive time steps and frequencies", "why_tests_cant": "The error is a real function of seven inputs with masks in each of them.", "anchors": ["cloudnetpy/categorize/radar.py:Radar.calc_errors"]}
{"id": "C181", "title": "Sensitivity of the radar", "statement": "The sensitivity of a gate is the median of the reflectivity of its valid clutter pixels if there are any. Otherwise it is the lowest received power (the 0.1th percentile, interpolated, over all valid pixels, of the reflectivity without range correction; 0 if nothing is valid) plus the range correction of the gate plus the mean gas attenuation, and masked exactly if one of these is. There is one value per gate.", "quantifier": "for all reflectivities, attenuations, clutter masks and ranges", "why_tests_cant": "Clutter, masked pixels and gates without data combine freely; the percentile depends on the whole day.", "anchors": ["cloudnetpy/categorize/radar.py:Radar.calc_errors"]}
{"id": "C182", "title": "Variables of a figure", "statement": "A figure has one panel for every requested variable that the file has, in the requested order. Names made of tb or irt, an underscore and an integer ask for that channel of tb or irt. If nothing requested is in the file PlottingError is raised; ValueError is raised exactly if the field after tb_ or irt_ of some name is not an integer.", "quantifier": "for all files and lists of requested names", "why_tests_cant": "Names are arbitrary texts; tests request the usual ones.", "anchors": ["cloudnetpy/plotting/plotting.py:FigureData._get_valid_variables_and_indices"]}
{"id": "C183", "title": "Height axis of a figure", "statement": "Heights are shown in kilometres. Above ground they are lower by the median altitude of the site than above sea; masked ones stay masked. Model files show the mean height of every level, above sea plus the altitude of the ground. Without heights the range (km) or the diameter (mm) is shown. Missing altitudes and satellite heights are the only errors.", "quantifier": "for all files, file types and options", "why_tests_cant": "File types, options and missing variables combine freely.", "anchors": ["cloudnetpy/plotting/plotting.py:FigureData._get_height", "cloudnetpy/plotting/plotting.py:SubPlot.set_yax"]}
{"id": "C184", "title": "Brightness temperatures in a figure", "statement": "The figure of a channel shows exactly the valid values of this channel measured at the zenith (pointing flag 0, zenith angle at most 5 degrees), and marks exactly those among them whose quality flag is positive. PlottingError is raised exactly if there is no such channel or, if empty figures are unwanted, nothing is to be shown.", "quantifier": "for all data, flags, angles and non-negative channels", "why_tests_cant": "Masks, flags and pointing of every profile vary independently.", "anchors": ["cloudnetpy/plotting/plotting.py:Plot1D.plot_tb", "cloudnetpy/plotting/plotting.py:Plot1D._get_bad_zenith_profiles", "cloudnetpy/plotting/plotting.py:Plot._read_flagged_data"]}
{"id": "C185", "title": "Units in figures", "statement": "Rates are shown in mm/h, amounts in mm, pressure in hPa, humidity in percent, temperatures in degrees Celsius, cloud tops in km, everything else as it is in the file; masked values stay masked and the order of values is kept. In the text of the units exactly the exponents behind letters are marked as superscripts; removing the marks gives the units back. The unit 1 becomes empty, texts without exponents are unchanged.", "quantifier": "for all values and texts of units", "why_tests_cant": "Texts of units are arbitrary; tests see a handful.", "anchors": ["cloudnetpy/plotting/plotting.py:Plot._convert_units", "cloudnetpy/plotting/plotting.py:_reformat_units"]}
{"id": "C186", "title": "Sources named in a categorize file", "statement": "The source and the persistent identifier written to a variable of a categorize file are those of the instrument of this run that the variable comes from; rain rates come from the disdrometer if there is one, else from the radar. Other variables have none. Earlier runs in the same process, failed or not, have no influence. The units of time and model time name the date of this run; all other metadata stay as they are. The run fails here exactly if an input file has no source.", "quantifier": "for all inputs, all dates and all sequences of earlier runs in the same process", "why_tests_cant": "The metadata are one dictionary of the module that every run changes in place; tests start a fresh process or look at one run.", "anchors": ["cloudnetpy/output.py:add_source_attribute", "cloudnetpy/output.py:add_time_attribute", "cloudnetpy/output.py:update_attributes", "cloudnetpy/categorize/categorize.py:generate_categorize"]}
{"id": "C187", "title": "References of a product", "statement": "The references of a file are the article on the software, those of the product in a fixed order and those given in addition, with a comma and a blank between them.", "quantifier": "for all products and all lists of additional references", "why_tests_cant": "Products and additional references combine freely.", "anchors": ["cloudnetpy/output.py:get_references", "cloudnetpy/categorize/categorize.py:_save_cat"]}
{"id": "C188", "title": "Raw files of a folder", "statement": "From a folder exactly the files with the wanted extension, in capital letters or not, are used, in the order of their names, whatever order the system lists them in. Copernicus and Galileo use those that have times and reflectivities, and raise OSError exactly if one of the files cannot be opened; MRR leaves such files out. MIRA uses znc files, and mmclx files only if there are none; without either FileNotFoundError is raised.", "quantifier": "for all folders with distinct names and all contents of files", "why_tests_cant": "The order of a listing depends on the file system; names and contents combine freely.", "anchors": ["cloudnetpy/utils.py:get_sorted_filenames", "cloudnetpy/utils.py:get_files_with_variables", "cloudnetpy/instruments/mira.py:_parse_input_files", "cloudnetpy/instruments/mrr.py:mrr2nc", "cloudnetpy/instruments/copernicus.py:copernicus2nc", "cloudnetpy/instruments/galileo.py:galileo2nc"]}
{"id": "C189", "title": "Profiles without model data", "statement": "The profiles reported as masked are exactly those in which every value is masked, each once and in increasing order.", "quantifier": "for all masked arrays of two dimensions, also with rows of different lengths", "why_tests_cant": "Masks of every pixel vary independently.", "anchors": ["cloudnetpy/utils.py:find_masked_profiles_indices"]}
{"id": "C190", "title": "Header text of MIRA files", "statement": "An entry of the header is what follows the first colon of the last line with its name, without white space at both ends; lines without a colon are no entries. The radar frequency is the entry XMT in GHz; KeyError is raised exactly if there is no such entry and ValueError exactly if it is no number.", "quantifier": "for all ASCII header texts", "why_tests_cant": "The header is free text of the radar; tests see the headers of a few sites.", "anchors": ["cloudnetpy/instruments/mira.py:Mira._read_hrd", "cloudnetpy/instruments/mira.py:Mira.add_radar_frequency"]}
{"id": "C191", "title": "Title of level 1b files", "statement": "The title of a level 1b file is the model and the category of the instrument and the location; without a model it starts with the category, its first letter in capital and all others in small letters.", "quantifier": "for all instruments and locations", "why_tests_cant": "Models may be missing or empty.", "anchors": ["cloudnetpy/output.py:get_l1b_title"]}
{"id": "C192", "title": "Axes of level 3 figures", "statement": "If no model height is masked, every gate of a level 3 figure has the time of its profile and its own height in kilometres. If some height is masked, the axes are the times and the heights of the first profile with a height, and the data have heights before times. IndexError is raised if all heights are masked or there are no profiles, RuntimeError if there is no model height, and ValueError if the number of times is neither that of the profiles nor one.", "quantifier": "for all data, times and heights", "why_tests_cant": "Model heights are masked in few files only; tests draw a few figures.", "anchors": ["cloudnetpy/model_evaluation/plotting/plot_tools.py:read_data_characters", "cloudnetpy/model_evaluation/plotting/plot_tools.py:reshape_1d2nd", "cloudnetpy/model_evaluation/plotting/plot_tools.py:change2one_dim_axes"]}
{"id": "C193", "title": "Corrected attributes of variables", "statement": "An attribute `unit` of a variable is renamed to `units`; all other attributes stay. The time gets the standard attributes and units with the date of the file; KeyError is raised if there is no time, AttributeError if there is no date. Standard values replace the given attributes of the given variables wherever there is a standard value, and nothing else changes; the only error is AttributeError for a name that is no metadata.", "quantifier": "for all variables, attributes, tables of standard values and lists of names", "why_tests_cant": "Raw files have any attributes; a test looks at one variable.", "anchors": ["cloudnetpy/output.py:fix_attribute_name", "cloudnetpy/output.py:fix_time_attributes", "cloudnetpy/output.py:replace_attribute_with_standard_value"]}
{"id": "C194", "title": "Removed keys, days and time stamps", "statement": "Removing different keys from a dictionary removes exactly these. The days between two dates are all from the first one, without the last one, in order. A text is a time stamp exactly if it begins like -yyyy-mm-dd hh:mm:ss with digits.", "quantifier": "for all dictionaries, keys, dates and ASCII texts", "why_tests_cant": "The sets of keys, dates and texts are unbounded.", "anchors": ["cloudnetpy/utils.py:del_dict_keys", "cloudnetpy/utils.py:date_range", "cloudnetpy/utils.py:is_timestamp"]}
{"id": "C195", "title": "Titles and file names of level 3 figures", "statement": "The first panel of a level 3 figure is titled with the product and the model, every other panel with the product, for cloud fractions with area or volume after the letter V in the name of the field; advection is mentioned exactly for fields with adv in their name. Panels of statistics are titled with the observation and the model. File names differ for different lists of fields without underscores.", "quantifier": "for all products, fields, models, paths and dates", "why_tests_cant": "Products, fields and models combine freely; titles are not tested.", "anchors": ["cloudnetpy/model_evaluation/plotting/plotting.py:_set_title", "cloudnetpy/model_evaluation/plotting/plotting.py:get_group_plots", "cloudnetpy/model_evaluation/plotting/plotting.py:get_statistic_plots", "cloudnetpy/model_evaluation/plotting/plotting.py:_get_stat_titles", "cloudnetpy/model_evaluation/plotting/plotting.py:_create_save_name"]}
{"id": "C196", "title": "Time axis of a figure", "statement": "Simulated satellite data are drawn along the track in kilometres, validations with satellite variables at the times of the satellite, all others at the times of the file; KeyError is raised if the variable is missing. For every spacing of the ticks each tick up to 24 h has a label, which is its hour, but is empty at 0 h and 24 h unless these are wanted. The label of the axis follows from the file type.", "quantifier": "for all file types, variables, files and spacings in whole hours", "why_tests_cant": "File types and variables combine freely; one spacing is used.", "anchors": ["cloudnetpy/plotting/plotting.py:FigureData._get_time", "cloudnetpy/plotting/plotting.py:get_time_tick_labels", "cloudnetpy/plotting/plotting.py:SubPlot.set_xax", "cloudnetpy/plotting/plotting.py:SubPlot.set_xlabel"]}
{"id": "C197", "title": "Sources, hatched area and metadata of a figure", "statement": "The text of the sources names the source of the variable or else of the file, in the plural exactly if it has several lines; there is no text exactly if both are missing. A figure is hatched from the last height to its upper end if this is higher, and there is no hatching otherwise; IndexError is raised without any height. Metadata are those of the options, else of the file type, else the general ones, else the default, and take the units as label if they have none.", "quantifier": "for all sources, heights, tables of metadata and options", "why_tests_cant": "Missing attributes and tables combine freely.", "anchors": ["cloudnetpy/plotting/plotting.py:SubPlot.add_sources", "cloudnetpy/plotting/plotting.py:Plot._fill_out_of_range", "cloudnetpy/plotting/plotting.py:SubPlot._read_plot_meta"]}
{"id": "C198", "title": "Dimensions of level 1b files", "statement": "Every dimension of a level 1b file is defined once. Time and range have the lengths of their arrays, chirps the second length of their indices or else the first, drops the numbers of classes, radiometers the second length of their brightness temperatures and the number of receivers; two are fixed. IndexError is raised for brightness temperatures or infrared temperatures with one dimension, KeyError for brightness temperatures without receivers, and nothing else.", "quantifier": "for all sets of arrays and shapes", "why_tests_cant": "Instruments have many combinations of arrays.", "anchors": ["cloudnetpy/output.py:_get_netcdf_dimensions"]}
{"id": "C199", "title": "Curve of the wind direction", "statement": "The curve of the wind direction shows the direction of the mean wind vector from 0 to below 360 degrees; points are left out exactly if the next one differs by more than 300 degrees, so that no line is drawn between such points.", "quantifier": "for all speeds, directions, times and windows", "why_tests_cant": "The curve breaks at north, which depends on the wind.", "anchors": ["cloudnetpy/plotting/plotting.py:Plot1D._calculate_average_wind_direction"]}
