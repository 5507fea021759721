# Formal model of cloudnetpy: design

Target: `/repo` (actris-cloudnet/cloudnetpy, python), read as text only. Prover: Coq 8.16.1, standard library only.

## 1. Layout

| files | content |
|---|---|
| `rocq/theories/Base.v` | lists, masked values, generic lemmas about sorting, prefix sums and searching (no property statements) |
| `rocq/theories/*Model.v` | the model: one Gallina definition per Python function, each with a comment giving file and lines in `/repo` and every simplification |
| `rocq/theories/*Spec.v` / *Spec* sections | small independent specifications, written without the model's helpers |
| `rocq/theories/*Proofs.v` | lemmas and proofs |
| `rocq/theories/Properties*.v` | the property theorems, each with `Print Assumptions` (small groups also hold their lemmas), and beside each an `Example …_nonvacuous` on a concrete non-trivial case |
| `MANIFEST.json` | property -> theorem names and status |
| `seeded/LOG.jsonl` | seeded-bug experiments |

Names: `Cnn_…` proves property Cnn. `…_partial` proves a part, the full statement being kept in the comment. `…_refuted` proves that the faithful model violates the property (with a witness).

## 2. Conventions of the model

* **Numbers.** Integers are `Z` (or `nat` for lengths and indices, `N` for bit fields). Python/NumPy floats are idealised as rationals `Q`, in the retrievals with powers and logarithms (`RetrievalModel.v`, `DrizzleRetrievalModel.v`) as real numbers `R` (exact arithmetic): rounding, overflow, infinities and NaN are *not* modelled unless a definition says so. `inf` sentinels become `option`. This is the largest idealisation. It is stated again beside each affected definition.
* **Masked arrays.** A masked scalar is `option A` (`None` = masked). A 1-D array is a `list`, a 2-D array a list of rows (axis 0 = time, axis 1 = height), as in the code.
* **Ordered masked assignments** (`a[m1] = v1; a[m2] = v2; …`) are modelled per pixel as a left-to-right sequence of `if m then v else old` in source order, and lifted to fields with `map`. A later assignment wins, as in NumPy.
* **In-place mutation** becomes a function that returns the new value; aliasing is modelled where the code depends on it.
* **Exceptions** are values: `option` or a small `result` type with the exception named. `IndexError`, `ValueError`, `ValidTimeStampError`, `KeyError` are separate constructors where the property cares.
* **External libraries** (NumPy, SciPy, netCDF4, datetime, atmoslib) are modelled by executable definitions of the calls used: `argsort`, `unique`, `searchsorted`, `digitize`, `cumsum`, `maximum.accumulate`, `label`, `linspace`, … These definitions are in the trusted base: the proofs do not show that NumPy behaves that way.
* **Files** are association lists of named variables with their rows. The HDF5/netCDF layer itself (encoding, compression, locking, crash behaviour) is not modelled; writing beyond the end of an unlimited dimension leaves fill rows in between, as the netCDF library documents.

## 3. Trusted base

1. Coq's kernel (8.16.1) and its standard library.
2. `Print Assumptions` for every property theorem: `Closed under the global context` for all others than C131–C136 and C180 (no axioms at all, not even the library's). The theorems over real numbers (C131–C136, C180) rest on the axioms of the standard library's `Reals`, listed in section 6.
3. My reading of `/repo`: nothing was executed. Each definition cites the lines it models.
4. The definitions standing for library calls (section 2).
5. The idealisation of floats as rationals or real numbers.

### Modelled
One Gallina definition per function; the comment above each definition gives the lines.

| model file | code |
|---|---|
| `BitsModel.v` | `utils.isbit`, `setbit`; `categorize._classes_to_bits`; `product_tools` unpacking |
| `StatusModel.v` | target classification, detection status, signal source, iwc/ier/der/drizzle status, cloud mask labels of the model evaluation |
| `ArrayModel.v`, `FillModel.v`, `LayerModel.v` | `utils.ffill`, `cumsumr`, bases and tops, cloud base and top heights and their status, radar attenuation status, insect screening |
| `TimeModel.v` | valid time indices, time screening, sorting and deduplication of instrument times, `seconds2hours`, categorize valid indices |
| `GridModel.v` | `binvec`, `rebin_2d`, gap search, interpolation along y and in 1-D, time grid, windows of the model evaluation, nearest location |
| `ImageModel.v`, `ClassifyModel.v` | connected components and the three filters built on them, cloud mask of the classification, `classify_measurements` with all steps except the detection of liquid layers, melting layer, freezing region and insects (these enter as arbitrary masks; the detectors are modelled on their own, see the rows below), rain flags and clutter |
| `LwcModel.v` | `atmos_utils` adiabatic LWC functions, `products/lwc.py` (`Lwc`, `CloudAdjustor`; not the error estimate), `categorize/attenuation.py` and `attenuations/` (formulas as arbitrary functions), `Radar.correct_atten`, attenuation flags of `fetch_quality` |
| `OutputModel.v` | `output.py`: `get_source_uuids`, `merge_history`, `add_source_instruments`, `_append_extra_sources`, `copy_variables`, `copy_global`, `_get_identifier`, `get_l1b_source` |
| `ConcatModel.v` | `concat_lib.py`: `concatenate_files` with `_Concat`, `update_nc` with its helpers, `truncate_netcdf_file` for one variable |
| `InstrumentModel.v` | `instruments/cloudnet_instrument.py`: `normalize_cumulative_amount`; `instruments/rpg_reader.py`: `_decode_angles`; `instruments/rpg.py`: `_expand_nyquist`; `categorize/radar.py`: `_get_expanded_folding_velocity`, the key loop of `rebin_to_grid`, `_rebin_velocity` (dictionary effects; the array operations are parameters); `instruments/disdrometer/common.py`: `_create_vectors`; `utils.py`: `isscalar`, `get_wl_band` |
| `SiteModel.v` | `utils.py`: `get_epoch`, `add_site_geolocation`, `_parse_global_attribute_numeral` (text attributes), `_are_stationary` (the cosine is a parameter) |
| `DrizzleModel.v` | `products/drizzle_tools.py`: `DrizzleSolver` (`_init_variables`, `_find_lut_indices`, `_solve_drizzle`, `_update_result_tables`; diameter formula, convergence test and exponential are parameters); `products/drizzle.py`: `_find_indices` for one axis |
| `ReaderModel.v` | `disdronator/lpm.py`: `_read_telegram`, `_read_raw`, `_read_pyatmoslogger`; `disdronator/parsivel.py`: `_read_lines` (without the expansion of spectra), `_read_typ_op4a`, `_read_hyytiala` (without the regular expression); `int`, `float` and `strptime` are arbitrary partial functions |
| `StationModel.v` | `instruments/fd12p.py`: line parsing, day selection, `screen_all_masked`; `instruments/weather_station.py`: `_parse_sirta` (without the regular expression), `LimassolWS.__init__`, `KenttarovaWS._read_data`, `wrap_wind_direction`, `calculate_rainfall_amount`; `instruments/toa5.py`: `read_toa5` (csv quoting left out); `int`, `float` and `strptime` are arbitrary partial functions |
| `TelegramModel.v` | `instruments/disdrometer/parsivel.py`: `PARSERS` and value parsers, `_parse_row`, `_read_rows`, `_parse_headers`, `_parse_telegram`, `_read_toa5`, `_read_pyatmoslogger_file`, `_read_typ_op4a`, `_read_fmi` (from the records on), `_read_parsivel`, `Parsivel._screen_time`, serial number; csv quoting, the regular expressions for column names and records, and the conversion to arrays are left out |
| `DropletModel.v` | `categorize/droplet.py`: `ind_base`, `ind_top`, `interpolate_lwp`, `_find_strong_peaks`, `find_liquid`; `utils.py`: `n_elements`, `mdiff` |
| `MeltModel.v` | `categorize/melting.py` and `categorize/freezing.py`, all functions. The weights of `gaussian_filter` are a parameter; the kernel length (8 profiles, no gates) is that of scipy's default truncation. Temperatures have no mask |
| `InsectModel.v` | `categorize/insects.py` except `_get_smoothed_v` (the smoothed velocity is an input) and `utils.array_to_probability`. The normal distribution function is a parameter |
| `RadarModel.v` | `containers.ClassData._find_profiles_with_rain` and its helpers; `NcRadar.add_zenith_and_azimuth_angles`, `screen_by_snr` (without `snr_limit` in the data), `mask_invalid_data`; `Mira.screen_low_power`, `_correct_fzk_tpow`, `mask_bad_angles`; `WeatherRadar` except `_read_opera_h5`, `add_meta` and the naming of variables |
| `CeiloModel.v` | `instruments/ceilometer.py`: `NoisyData`, `calc_beta_smooth` (`gaussian_filter` is a parameter), `screen_depol`, `screen_sunbeam`; `instruments/ceilo.py`: `_get_n_negatives` and the screening part of `ceilo2nc`; `instruments/cl61d.py`: the ratio of the polarisations. Profiles without masked values, ranges other than 0, NaN not modelled |
| `RadiometricsModel.v` | `instruments/radiometrics.py`: `RadiometricsMP` from the rows of `csv.reader` on, `RadiometricsWVR` from the lines on, `RadiometricsCombined` and the order of calls in `radiometrics2nc`. `int`, `float`, `datetime.date` and `np.argsort` are parameters; NaN is missing; code points below 128 for `isdigit`; column names of line files distinct. Not modelled: `_read_file`'s choice of the reader, attributes |
| `CleanModel.v` | `categorize/radar.py`: `remove_incomplete_pixels`, `filter_speckle_noise`, `filter_1st_gate_artifact`, `filter_stripes` with its helpers; the order of calls in `categorize.py` 192-197; `mask_indices` and `filter_vertical_stripes` of `cloudnetarray.py`. Arrays over time and height have a full mask (they come from `rebin_2d`). Log messages are left out |
| `SourceModel.v` | `datasource.py`: `__init__` with `_init_time`, `_init_altitude`, `_init_height`, `to_m`; `categorize/lidar.py`, `categorize/mwr.py`, `categorize/disdrometer.py`: reading and `interpolate_to_grid`; `utils.py`: `interpolate_2d_nearest`, `interpolate_1d` with method nearest, `rebin_1d`; `rebin_data` of `cloudnetarray.py` in one dimension. scipy's nearest interpolators and `binned_statistic` are modelled by their documented behaviour; descending axes are left out; the square root is a parameter |
| `NwpModel.v` | `categorize/model.py`: `_find_model_type`, `_get_model_heights`, `_calc_mean_height`, `interpolate_to_common_height`, `calc_attenuations` (formulas of atmoslib as parameters), `interpolate_to_grid`, `_find_number_of_valid_profiles`; `utils.py`: `get_model_surface_altitude`, `interpolate_2d_mask` (griddata as a parameter), `find_masked_profiles_indices`. Data under masks are kept where they matter; heights are not masked; a single surface altitude for many times is left out. `calc_wet_bulb` and `screen_sparse_fields` are not modelled |
| `RpgModel.v` | `instruments/rpg.py`: `_get_fmcw94_objects`, `_validate_date`, `_interpolate_to_common_height`, `_interpolate_chirp_start_indices`, `_pad_chirp_related_fields`, `_expand_time_related_fields`, `create_one_day_data_record`, `_stack_rpg_data`, `_mask_invalid_data`, `_expand_nyquist`, `mask_invalid_ldr`, `mask_invalid_width`, `_filter_zenith_angle`, `add_zenith_angle`, `convert_units`, `_get_instrument`. A file is the header and the data that the package rpgpy returns; the binary format is not modelled |
| `HatproModel.v` | `instruments/rpg_reader.py` `HatproBin*`, `HatproBinCombined`, `_combine_values`; `instruments/hatpro.py` `hatpro2nc` up to the record, `_get_hatpro_objects`, `_validate_date`, `_add_missing_variables`. The bytes of the files are not modelled: a file is a header (or none, if too short) and a list of samples. `rfn.join_by` is modelled by its documented outer join. Fields that start with an underscore are left out. |
| `EpsilonModel.v` | `products/epsilon_radar.py` `append_epsilon`, `_periodogram`, `_epsilon_from_spectrum`; `products/epsilon_lidar.py` `_horizontal_wind_from_doppler_lidar_file`, `_get_options`, `_infer_pulse_repetition_frequency`. Parameters: logarithm, rate of an intercept, square root, pi, the Fourier transform, the cubic spline, the interpolators of scipy, the wind of the model. Not modelled: `_get_wind_interpolator`, `append_grid_variables`, the `doppy` library, attributes |
| `NcRadarModel.v` | `instruments/nc_radar.py` `init_data`, `add_time_and_range` (range), `screen_by_snr`, `screen_using_top_gates_snr`, `mask_invalid_data`, `mask_first_range_gates`, the Nyquist velocity, `test_if_all_masked`, `check_date`; `instruments/galileo.py`, `instruments/copernicus.py`, `instruments/basta.py`, `instruments/bowtie.py`, `instruments/mira.py` (file types, tables of names, conversion to decibels, screening). Parameter: the logarithm. Not modelled: concatenation (see `ConcatModel.v`), angles (see `InstrumentModel.v`), `screen_by_date` and the header of MIRA, attributes |
| `LidarModel.v` | `instruments/vaisala.py` `VaisalaCeilo` (`read_ceilometer_file`, sorting, screening, model), `instruments/ceilometer.py` `check_beta_raw_shape`; `instruments/ceilo.py` `_initialize_ceilo`, `_find_ceilo_model`; `utils.edges2mid`; `instruments/nc_lidar.py` `_fetch_zenith_angle`; `instruments/lufft.py` `_fetch_beta_raw` and its helpers; backscatter and depolarisation of `instruments/cl61d.py`, `instruments/da10.py`. Parameter: the power function. Not modelled: the library ceilopyter that reads messages; `_fetch_range`, attributes |
| `PollyModel.v` | `instruments/pollyxt.py` except the listing of a directory, the opening of files and attributes |
| `RetrievalModel.v` | `products/product_tools.py` `IceCoefficients`, `get_ice_coefficients`, `z_to_iwc`, `append_icy_data`, `_convert_z`, `_get_z_factor`; `products/iwc.py` errors, bias and sensitivity; `products/ier.py` error; `products/der.py` `DropletSource`; `products/lwc.py` `LwcError`. Over real numbers. Not modelled: reading of files, interpolation of the model |
| `DrizzleRetrievalModel.v` | `products/drizzle_tools.py` `_convert_z_units`, `SpectralWidth`, `_calc_beta_z_ratio`, `_calc_dia`; `products/drizzle.py` `DrizzleProducts`, `_screen_rain`, `_append_data`; `products/drizzle_error.py`. Over real numbers, pixel by pixel. Parameter: the gamma function. The solver is in `DrizzleModel.v` |
| `PlotModel.v` | `plotting/plotting.py` `_mark_gaps`, `_fill_between_data_gaps`, `_get_max_gap_in_minutes`, `screen_completely_masked_profiles`, `find_batches_of_ones`, `_fill_flagged_data`, `_hide_segments`, `_make_edges`, `_screen_data_by_max_y`, `_plot_moving_average`, `_calculate_moving_average`, `_find_time_gap_indices`, `_get_y_limits`. PlottingError of the screening is `Ok None`, OverflowError of the window `None`. Not modelled: matplotlib, colours, labels, wind directions, reading of flags |
| `StatModel.v` | `model_evaluation/statistics/statistical_methods.py` (all but the titles), `model_evaluation/plotting/plotting.py` `get_statistic_plots` (the loops for "error" and "area" with their in-place changes), `model_evaluation/plotting/plot_tools.py` `create_segment_values`, `rolling_mean`, `mask_small_values`, `sort_model2first_element`, `parse_dataset_keys`, `parse_wanted_names`. Numbers are rationals or NaN. Not modelled: reading of files, axes, matplotlib |
| `CliModel.v` | `cli.py`: parsing of instruments, preferences, products and models, `_get_source_instruments`, `_select_instrument`, the filters of raw files, the choice of the converter, names of files, `_fetch_product`, `_fetch_model`, `_fetch_mwr` and the parallel downloads of `_process_categorize`. The portal is a function from products to lists of files. Not modelled: argparse, HTTP and its errors, calibration, `_plot`, unzipping, the level 3 and radar turbulence products |
| `WsModel.v` | `instruments/weather_station.py`: the readers of Palaiseau (and Bucharest), Maïdo, Potenza, Granada, Hyytiälä, Galați, Jülich, Lampedusa, L'Aquila, Cluj-Napoca and Falkenberg, `screen_timestamps`, `add_data`, `remove_duplicate_timestamps`, conversion of units, `utils.datetime2decimal_hours`. `float`, `strptime`, `int` and `datetime.date` are arbitrary partial functions; the CSV dialect (splitting a line into fields) is not modelled for Hyytiälä, Galați, Lampedusa and the TOA5 stations (rows are lists of fields). Kenttärova and Limassol are in `StationModel.v` |
| `GaugeModel.v` | `instruments/rain_e_h3.py` (both protocols, units, sorting), `disdronator/rd80.py` and `instruments/disdrometer/rd80.py`, `instruments/mrr.py` (screening, units, range, zenith angle, sorting). `float`, `int` and `strptime` are arbitrary partial functions, `np.log10` an arbitrary function; splitting CSV lines, concatenating the MRR files, location, height and writing the file are not modelled |
| `AdvModel.v` | `model_evaluation/products/model_products.py`, `advance_methods.py`, `product_resampling.py` (order of the steps, names), `model_evaluation/file_handler.py` (units). `np.sqrt` and `scipy.stats.gamma.pdf` are arbitrary functions; the radar sensitivity on the model grid and the variance of a pixel are given numbers; missing values in the fields of the model file, floating point division by zero and writing the file are not modelled |
| `ThiesModel.v` | `instruments/disdrometer/thies.py`; `products/mwr_tools.py` (order of the steps, flags, type and title, coefficient files). `int`, `float`, `strptime`, the calendar and the argsort are arbitrary; `read_toa5` is its list of rows; the overflow of 16 bit counts, infinite numbers, the bounds and widths of the classes in the output, and the retrievals of mwrpy are not modelled |
| `DownModel.v` | `model_evaluation/products/grid_methods.py` and `tools.py` (whole grid, advection window, cloud fractions); `concat_lib.py` `bundle_netcdf_files`. Rounding of time differences to microseconds, NaN in cloud fractions, masked time stamps and failures of `shutil.copy` are not modelled; the concatenation is that of `ConcatModel.v` whatever the name of the dimension |
| `RadErrModel.v` | `categorize/radar.py` `calc_errors` (error per pixel over the real numbers, sensitivity over the rationals); `20 * log10(range)` is an input |
| `FigModel.v` | `plotting/plotting.py` `_get_valid_variables_and_indices`, `_get_height`, `plot_tb` with its flags and zenith test, `_convert_units`, `_reformat_units`; drawing, `_calc_ground_altitude` and the frequency label are not modelled |
| `OriginModel.v` | `output.py` `add_source_attribute`, `add_time_attribute`, `update_attributes` (source, pid, units), `get_references`, and their use in `categorize/categorize.py`; dates are texts |
| `FolderModel.v` | `utils.py` `get_sorted_filenames`, `get_files_with_variables`, `find_masked_profiles_indices`, their use in `copernicus.py` and `galileo.py`, `mira.py` `_parse_input_files` for a folder, `mrr.py` `valid_nc_files` |
| `HeadModel.v` | `mira.py` `_read_hrd`, `add_radar_frequency`; `output.py` `get_l1b_title` |
| `AxisModel.v` | `model_evaluation/plotting/plot_tools.py` `read_data_characters` (after `mask_small_values`), `reshape_1d2nd`, `change2one_dim_axes` |
| `TidyModel.v` | `output.py` `fix_attribute_name`, `fix_time_attributes`, `replace_attribute_with_standard_value`; `utils.py` `del_dict_keys`, `date_range`, `is_timestamp` |
| `CaptionModel.v` | `model_evaluation/plotting/plotting.py` `_set_title`, `_get_cf_title`, `_get_stat_titles`, `_get_cf_title_stat`, `_create_save_name`, the titles of `get_group_plots` and `get_statistic_plots`; `statistical_methods.py` `day_stat_title` |
| `PanelModel.v` | `plotting/plotting.py` `_get_time`, `set_xlabel`, `get_time_tick_labels`, the ticks of `set_xax`, the text of `add_sources`, `_fill_out_of_range`, `_read_plot_meta` |
| `ExtentModel.v` | `output.py` `_get_netcdf_dimensions`; `plotting/plotting.py` `_calculate_average_wind_direction` |

### Not modelled
The figures themselves (matplotlib), the parts of the command line interface not listed above, the metadata texts, instrument-specific file parsing unless listed, microphysical formulas (spectra, FFT) other than those in `RetrievalModel.v` and `DrizzleRetrievalModel.v`, the machine-learning path (voodoonet), `atmoslib`, netCDF encoding, logging, threads/processes, floating-point rounding, and every function not cited in a model file.

## 4. Per property

| id | what is modelled | how it is proved |
|---|---|---|
| C01 | packing fold over the field list, unpacking by `(x & (1<<n)) > 0` | bit-level induction on `N.testbit`; lifted to fields of any shape |
| C02 | `isbit`, `setbit` with the ValueError branch | `N.testbit` algebra |
| C03 | the 11 masked assignments per pixel | independent decision table; case analysis on the 7 flags (finite, complete), lifted to all fields |
| C04 | the 9 masked assignments | meaning of each value stated separately; complete case analysis |
| C05 | 4-value table | recovery function |
| C06 | severity assignments + forward fill along the profile | true parts proved by induction on the profile; the clause "6 only without echo" is expected to be **refuted** |
| C07 | `where`/`maximum.accumulate`/gather | refinement to a one-line recursive spec, induction with index invariant |
| C08 | prefix sums minus running maximum | induction with accumulator invariant for non-negative input; signed input expected to be **refuted** |
| C09 | `argsort` (stable insertion sort), loop with membership test | sortedness, completeness, uniqueness by induction |
| C10 | gather of rows in every variable | relation between rows and indices |
| C11 | `np.unique(return_index)` and gather | sorted/unique/complete; first occurrence |
| C12 | seconds to hours over Q/Z | arithmetic |
| C13 | `binvec`, `digitize`, `bincount`, block statistic | membership characterisation; refutation expected for the reported list when samples lie beyond the last edge and n_min >= 2 |
| C14 | `searchsorted` + two distances | sorted search lemma |
| C15 | `searchsorted` + choice | same search lemma |
| C16 | drop masked, unique, piecewise-linear interpolation, gap mask | bounds by convexity |
| C17, C18 | `label` as executable flood fill | equivalence with inductive connectivity |
| C19 | padded difference, flip | induction over profiles with run decomposition |
| C20 | mask*height, argmax, masked_equal 0 | induction |
| C21 | filling of base gradients over the selected pixels of all profiles as one vector, `calc_adiabatic_lwc`, normalisation, rain mask | forward fill refined to a per-profile recursion; cumulated path lengths telescope; scaling factor by field arithmetic |
| C22 | `ma.cumsum` of specific attenuation times path with data under the mask; gas attenuation | induction on the profile, integral as separate recursion |
| C23 | liquid, rain and melting attenuation with flags, screening of liquid in rain, `correct_atten` | case analysis per pixel; rain values from the forward fill; second half **refuted** for rain |
| C24 | the whole of `classify_measurements` with arbitrary liquid, melting, freezing and insect masks | exclusive before speckle removal (induction over the steps); the two ways it fails afterwards are characterised; **refuted** with two scenes |
| C25 | same sequence | invariant through the later steps, lifted to `classify_measurements` |
| C26 | integer rain flag, bitwise not, product, cast to bool | **refuted**; the remaining clauses are proved as an equivalence that does not mention rain |
| C27 | the four screens in order | per profile induction using C07 |
| C28 | the filter with python index semantics (negative wrap, caught IndexError) | every possible change characterised; **refuted** twice (clear-sky neighbour, first profiles reaching the last) |
| C29 | set union, screening | filter lemmas |
| C30 | flags, masks and ordered status | complete case analysis lifted to fields |
| C31 | `CloudAdjustor`: topmost cloud, echo types, adjustment loop, masks | adjustability characterised by positions; loop invariant gives the exact extension; two clauses **refuted** |
| C32 | the loop with fuel; IndexError as a value | invariant with decreasing distance to the last gate; base at the last gate **refuted** |
| C33, C35 | ordered status | complete case analysis lifted |
| C34 | bisection, table lookup, iteration and attenuation update over all drizzle pixels in array order | bisection invariant; induction over the sorted pixel list: a pixel is solved with its final correction; induction over gates for non-interference |
| C36, C37 | `split`, `dict.fromkeys`, `sorted(set)`, stable descending sort, text before the first " - " without white space; `strptime` is an arbitrary partial function | lines of a text unique; permutation, sortedness and stability by induction |
| C38 | files as association lists; `createVariable` fails on an unknown dimension | induction on the key list; exact set of additions |
| C39 | files as named lists of variables, unlimited time dimension with never-written profiles, selection and order of files | induction on variables within induction on files: each file contributes one block of the same length to every variable |
| C40 | index list, writing at positions of an unlimited dimension | exact content for every overlap; **refuted** for overlaps and for deep variables |
| C41 | loop with offset and last valid value | induction with a suffix lemma, consecutive valid values, strong induction for monotonicity; **refuted** from the second reset on and for a leading gap |
| C42 | floor division, sign and offset arithmetic | uniqueness of the floor; linear arithmetic |
| C43 | `np.repeat`, `np.diff`, broadcasting, reshape | induction over the start indices; concatenation/chunk lemmas; **refuted** for one profile |
| C44 | linspace per class, concatenated | induction over the classes |
| C45 | word splitting, comma and time removal, `int`, calendar check on characters | declarative grammar (words, fields, integers, Gregorian days) shown equivalent to the functions; **refuted** that it never raises |
| C46 | source selection per coordinate, mean or track | case analysis against an inductive preference relation, decimal grammar for attributes; **refuted** twice |
| C47 | comparisons | case analysis |
| C48 | arange over Q | arithmetic |
| C49 | label arithmetic and relabelling | complete case analysis |
| C50 | rebin_edges, half-open windows | sorted edge lemma |
| C51 | searchsorted choice | search lemma |
| C52 | dictionary as association list, iteration with size check | case analysis over present keys; **refuted** for prf only |
| C53 | nearest gate, status lookup | search lemma; **refuted** for cloudless profiles |
| C54 | cell averages with masks | list lemmas; **refuted** for empty cloud fraction cells |
| C55 | `find_falling_hydrometeors` and its four helpers | equivalence per pixel, using the layer lemmas of C19 |
| C56 | `correct_liquid_top` with its IndexError | fold invariant over the layer tops |
| C57 | radar liquid and its screening below lidar layers | equivalence per pixel |
| C58 | `calc_melting_attenuation` with the band as a parameter, the power law as an arbitrary function vanishing at 0 | case analysis; X band **refuted** |
| C59 | line sets, sorted; extra sources | sorted-set lemmas of C37; **refuted** for a multi-line extra source |
| C60 | the loop over variables stops at an unreadable one | same induction as C39 with arbitrary unreadable variables; **refuted** that nothing remains |
| C61 | argmin of distances, bounds | first minimum by induction |
| C62 | telegram fields, value kinds by column, value by value storing, raw and logger files | contribution of a line to a column by induction over the fields, files by fold induction against `collects`; alignment condition by comparing domains |
| C63 | field count, item by item reading, row storing, assembling of time stamps | telegram cut into pieces, last value of each kind, files by fold induction against `collects` |
| C64 | record lines, record dictionary, filling of missing columns | induction over the records with an invariant on columns |
| C65 | fields of a line, columns, cutting of the times, `&=` with broadcasting, screening | fold induction against `collects`; three exhaustive cases; **refuted** for two days |
| C66 | title numbers, rows pushed into a dictionary, merging of files | dictionary lemmas, fold induction against `collects`; **refuted** for different columns |
| C67 | rows of DictReader with missing and surplus values, loop with break, merging of files | position-wise characterisation of the pushed pairs; **refuted** for a later time column |
| C68 | template, shared lists as a heap, row loop | invariant on row and heap; arrays are the concatenation over all lines; **refuted** for two lines |
| C69 | two masked additions | case analysis on rationals |
| C70 | `ma.cumsum` of scaled rates | induction against prefix sums |
| C71 | value parsers on token lists, row loop with count of bad rows, tables of names | parsers characterised by relations on texts, fold induction against `collects`; **refuted** for repeated quantities and blank lines |
| C72 | row accumulators, strict zip, storing | invariant on the accumulator against positions under a header; unconditional |
| C73 | line parser, padding of columns, record loop | loop invariant with padding; **refuted** for cut-off records, impossible stamps, `019` |
| C74 | dispatch by first line, `defaultdict.extend`, time stamps | dictionary lemmas, reduction to single files; **refuted** for different columns |
| C75 | boolean masks, comparison of serial numbers | induction against `collects`; **refuted** for a masked first number |
| C76 | median of the steps, rounding | sorting and permutation lemmas, nearest integer; unconditional |
| C77 | argmax/argmin of a window, comparison with the scaled maximum | characterised by `greatest`/`least` over window predicates; unconditional |
| C78 | samples, `np.interp` | sortedness of the samples, interpolation lemmas; **refuted** for zeros |
| C79 | local maxima, loop over peaks with caught IndexError | fold invariant on the image; **refuted** for coarse grids and for the ground |
| C80 | index range, LDR peak, velocity run, loop over profiles with caught errors | base/top lemmas of C77 shifted to the range, run lengths from `cumsumr`; **refuted** for the top gate, flat velocities and rounding |
| C81 | reflected convolution and threshold | sums of non-negative terms over 17 offsets, reflection lemmas; **refuted** at the ends |
| C82 | first gate below 0 C, `np.interp` of two sorted points | unconditional; existence **refuted** |
| C83 | medians, anchors, `interp1d`, threshold | loop invariant for the anchors, sorted samples, interpolation lemmas; **refuted** for the last window, the mean and warm profiles |
| C84 | the probabilities pixel by pixel, screening of C27 | products of numbers in [0, 1], monotone distribution function; **refuted** for SLDR |
| C85 | the flag of every profile, data and mask kept apart | pixel by pixel from the specification of gates and codes; **refuted**: top gates, hidden data, codes |
| C86 | angles with missing values, offsets, differences, selection | verdict of each profile, wrapping up to 540 degrees, count of kept profiles; **refuted**: missing angles, whole turns |
| C87 | dictionary of images with data and mask | masks as sets of pixels, composed over the two steps; **refuted**: data under the mask of SNR |
| C88 | power of every profile, selection of rows | sorted indices are exactly the strong profiles; **refuted**: as many gates as profiles |
| C89 | files as records, reading, day, sorting | rows by file, composition of selection and `np.unique`; **refuted**: empty day, no date, scalars |
| C90 | means over visible pixels, masks | mean as a sum compared with the count, highest gate of a sorted list; **refuted**: rain below clutter |
| C91 | `screen_profile`, `screen_data` | invariant on the hidden gates through each filter; runs of negatives from the specification of `cumsumr`; square root avoided by squares, with the usual form for rational noise |
| C92 | `screen_profile` | consequences of C91; **refuted**: monotony, short profiles |
| C93 | `screen_sunbeam` | selected gates as sorted indices, counting of bins by `NoDup`; **refuted**: nothing left, few high gates |
| C94 | `ceilo_beta`, `cl61_depolarisation` | two uses of C91 with an arbitrary smoothing between; **refuted**: hidden clouds, divisor 0 |
| C95 | `read_raw` | invariant over the rows with the headers in force; insertion sort by position; **refuted**: shifted values, blank line |
| C96 | `read_mp` | each record forwards and backwards against an inductive specification, induction over superblocks; first minimum of distances; **refuted**: negative numbers, surplus integrals |
| C97 | `read_wvr` | first header by induction, cells by position, `select` of maps |
| C98 | `radiometrics2nc` | appended dictionaries, rows by index lists through selection and permutation; **refuted**: date and hours without date, missing variable |
| C99 | `remove_incomplete_pixels`, `clean` | masks as images of booleans, pixel by pixel; every step only masks, so the last step decides; **refuted**: isolated pixels |
| C100 | `filter_speckle_noise`, `filter_1st_gate_artifact`, `clean` | pixel-wise characterisation of `filter_x_pixels`, fold over distinct keys; letters in any case |
| C101 | `filter_stripes` | percentiles of a sorted window against a permutation; walks to the next plain position; masking of stripe after stripe does not disturb the masks that are read |
| C102 | `open_source` | case analysis over units and missing variables; hours of the day by the lemmas of C05; **refuted**: unit of short files |
| C103 | `interpolate_lidar` | the index of scipy's grid search is the nearest point; masked profiles removed first; gaps by the lemma of C17; **refuted**: both ends |
| C104 | `mwr_to_grid` | samples after flagging against a predicate, exact linear interpolation including both ends, same sample times for both variables |
| C105 | `init_disdrometer`, `disdrometer_to_grid` | nearest sample by the midpoints of strictly increasing times, variables by key |
| C106 | `rebin_1d`, `rebin_data_1d` | values collected by an inductive relation, exact mean; **refuted**: all-zero data, last edge |
| C107 | `find_model_type`, `model_heights`, `mean_height` | the file name is unique for a path; first match in the list; column means |
| C108 | `common_height`, `attenuation` | insertion sort of the levels, search, the line through the two neighbours; exact for linear profiles; **refuted**: partly masked profiles, attenuations |
| C109 | `interpolate_2d_mask`, `interpolate_to_grid` | bilinear weights of the four corners, at nodes exactly one corner; rows filled by lines through the known points; fields by key |
| C110 | `read_files`, `day_record`, `stack`, `settle` | the files as a relation on the list; invariants through the four steps (heights, padding, expansion, stacking); concatenation by key; **refuted**: a variable missing in a file |
| C111 | `common_height`, `chirp_starts`, `pad_chirps`, `record_nyquist` | nearest gates, monotone in the height, so the chirps stay in order; padded values are dropped again; **refuted**: single chirp |
| C112 | `screen_fields`, `mask_invalid_data` | pixel by pixel, exact equivalence; **refuted**: zero velocity, tolerance, series |
| C113 | `zenith_profiles`, `convert_units`, `rpg_model` | the median is unique; kept indices exactly; factors by key; **refuted**: two angles |
| C114 | reading, removal of repeated times, decoding of angles, screening, date check of one file | `load` in closed form over the first samples of each time; both bits of the flag from `Z.land`; exact acceptance and errors |
| C115 | loop over the directory, grouping by stem, outer join, missing variables, stacking | objects as `flat_map` over the files; stems sorted by insertion (transitivity of the order of texts proved); groups have at most one file of each kind; join by sorted insertion of times; columns by `stack_spec` of C110; four witnesses |
| C116 | cumulative sums, band limits by binary search, slope and intercept, acceptance, mean and deviation | sections of the sorted spectrum are filters by the band; differences of cumulative sums are sums over them; normal equations; the excess over the minimum is a sum of squares |
| C117 | windows by binary search, checks of the velocities, periodogram, loops | `searchsorted` characterised on ascending times; `usable` from the boolean tests and the floor; errors by the first failing pixel, `product_error` is an equivalence |
| C118 | pulse frequency, accumulation time, masks and points of the wind | distances by linear arithmetic; membership of the points by pixels; three unique values iff three different ones |
| C119 | loop over the table of names, `np.isfinite`, range, median, mask of the velocity | last entry that is present, by induction over the table |
| C120 | the three screening steps on dictionaries of images with numbers under masks | each step adds flags to the masks (`adds`), composed; gates by `where1`, unique ascending list |
| C121 | calibration, noise, corrupted values, first gates, invalid pixels, range | as C120; mean of the highest gates by its defining equation |
| C122 | background mask, words, ISO dates | words and separated parts by the specifications of C45; decimal numbers by induction |
| C123 | products in place, ones with a mask | lookups |
| C124 | regular expression as parts between points, sets of types, tables of names | last two parts of a split text; lower case by characters; tables compared with the specification |
| C125 | conversion, three masks, mean | as C120; numbers under the mask are 10 and are never below the limit |
| C126 | list of profiles with times, three selections of rows, factor, median | each selection is a list of indices (`rows_of`), composed; first occurrence and order by the specifications of C13 |
| C127 | lines, substrings, lower case, table of models | induction over the lines (the last announcement); table compared with the specification |
| C128 | lists of limits, median, text comparison of versions, products and quotients with masks | position by position; texts by their digits |
| C129 | names with fnmatch, sorting, sums, counts, first working channel, joined arrays | counts by lists of positions without repetition (`share`); first of the most frequent by induction; arrays by pieces of usable pairs |
| C130 | masks of one pixel, rows | pixel by pixel; rows by ascending lists of indices |
| C131 | polynomials in real numbers, powers of ten, masks of one pixel | both directions from the definition of the power; growth from the sign of the derivative coefficients; errors by algebra |
| C132 | images, layers as maximal runs, sums over gates, roots | roots characterised by their powers; the sum over a layer by distributing the common factor; positions by `layers_exact` |
| C133 | gradients with one-sided ends, masked neighbours as zero, limits | equation at one position; bounds from the limits |
| C134 | functions of one pixel; power 2/3 by exp and ln | equation of cubes, uniqueness by monotonicity; a product with integer steps shows that the law of gamma is satisfiable |
| C135 | table lookups by bisection, one pixel | index specification by the bisection invariant; algebra |
| C136 | chains of assignments by size class | table of laws in the specification; squares of norms; logarithm and power as inverses |
| C137 | times and profiles as two lists, insertions at indices | the loop from the end equals one structural pass; a relation of input and output; the set difference is sorted already |
| C138 | rounding of the smallest difference, index selection | the rounding characterised by distance and parity; selection by the indices with data |
| C139 | fold over the hidden indices from the end, pixel by pixel | induction on the legend from its end with the kept rest as parameter |
| C140 | lists of edges, first index above | positions by `nth_error`, order from neighbours |
| C141 | `np.split`, every second block, padding, convolution | blocks and runs by one induction; windows by positions of the padded list |
| C142 | differences of the padded array, folds for minimum and maximum | equality with the scan for runs; cases of the limits |
| C143 | lists of masked numbers or NaN; the arrays after each statistic are part of its result | the combined mask as one pixel-wise function; induction on the observations with the model as left by them |
| C144 | masks and counts | segments counted by induction on both arrays; rounding keeps integer bounds |
| C145 | means of the visible numbers, windows by `firstn` and `skipn` | sums bounded by induction; the largest and the smallest by folds |
| C146 | loops of `remove` and `insert`, filters of names | the loop equals a stable partition; `pick` relates lists without naming the filter |
| C147 | dictionary with `setdefault`/`extend`, strings split at characters | induction on the arguments; `states` is defined by the text itself, not by splitting |
| C148 | stable insertion sort by name; the set as any list without duplicates | a sorted list with distinct names is unique among permutations |
| C149 | filters and `match` | the last argument for a product by reversing the list; `kept` relates lists without naming the filter |
| C150 | the completion order is any permutation of the submitted downloads | the value of each key after all downloads is a function of the key, by induction on the order |
| C151 | `str.replace`, `str.split` on characters | induction on the text before the only occurrence |
| C152 | words of lines, the regular expression, titles without repetition, columns by number | the loop equals a filter of the lines; `firsts` defined inductively for the titles; one lemma for the three tables |
| C153 | rows of `DictReader`, appending to a dictionary of lists key by key | the loop as a list of steps, one time and one value per row; equivalence for success, case analysis for exceptions |
| C154 | `read_toa5` of C68, units, key maps | instance of a lemma for any table with distinct titles and quantities; **refuted**: short rows |
| C155 | lines split at commas, `np.unique` | instants ordered like stamps; specification of `unique_index` (TimeProofs.v) |
| C156 | lines split at tabs, `zip(strict=True)`, columns by title | the dictionary of columns as a function of the lines; equivalence; **refuted**: last value empty |
| C157 | masks by day, hours, `np.unique`, conversion of units per site | selected indices composed with unique indices, commutation of the site's changes with the selection; **refuted**: no date, fractions, Limassol |
| C158 | table of names, first or only file | finite table; **refuted**: further files |
| C159 | the two loops over rows, the median of row lengths | one loop for both protocols; the median by sorting; success and exceptions as equivalences |
| C160 | units, `normalize_cumulative_amount` (C41), sorting and duplicates | composition of argsort and unique indices; for rows in order both are the identity |
| C161 | splitting at tabs, the dictionary of a row, the columns | equivalence per row with fields found by title |
| C162 | concatenation, screening, `np.unique`, the derived quantities | indices of the kept rows; every quantity by field arithmetic |
| C163 | the tables of diameters and speeds | complete enumeration of the 20 classes; monotonicity of the sum |
| C164 | `_init_time`, screening, units, sorting | permutation of the kept indices; the values through nested selections |
| C165 | `_read_number_of_levels`, `cut_off_extra_levels`, the height of `_add_variables` | for rising heights the filtered levels are a prefix; count of a filtered range |
| C166 | `_generate_products`, `get_water_content`, `_get_mixing_ratio`, `_calc_water_content` | values at a point of pointwise operations; exceptions as equivalences |
| C167 | `ModelManager.__init__`, wind speed, resolution | conjunction of the conditions of the steps, exceptions by cases |
| C168 | `cf_cirrus_filter` and the functions it calls, per pixel | relation between pixel and result with sums as relations; bounds from non-negative densities |
| C169 | `calculate_wind_shear` | indices of the compared profiles; slopes by field arithmetic |
| C170 | `process_L3_day_product`, names, `update_attributes` for units | cases of the outcomes; membership in the list of names; units by enumeration of the names |
| C171 | `_read_line`, `_parse_date`, `_parse_time`, the table of columns | fields as a relation (strip, strip of semicolons, split); the table is sorted, so the break is a filter; own table of columns and kinds |
| C172 | `_read_data`, the error handling of `thies2nc` | induction over the telegrams; a fixed telegram has the same fields |
| C173 | `_screen_time`, the serial number, `thies2nc` | filter as a relation; days by division; exceptions by cases |
| C174 | `_append_data`, `sort_timestamps`, `remove_duplicate_timestamps`, `mask_invalid_values`, `convert_units`, `_create_velocity_vectors`, `_create_diameter_vectors` | one list of row numbers for all variables; class centres by computation against an own table |
| C175 | `_generate_product`, `_write_missing_global_attributes`, `_read_mwrpy_coeffs` | cases; induction over the links |
| C176 | `calculate_advection_time`, `get_adv_indices` | window as a condition on the distance the air moves; linear arithmetic over products |
| C177 | `ProductGrid` for products, `rebin_edges`, `binvec` | one lemma about every cell of the loop; windows as conditions on observation times and heights |
| C178 | `ProductGrid` for cloud fractions, `get_obs_window_size`, `fraction_of_cloudy_columns` | reshaping succeeds only for windows without gaps, so rows are profiles; counting of profiles by induction |
| C179 | `bundle_netcdf_files` | filter as a relation; calendar by its successor |
| C180 | error of one pixel in real numbers; width, range, echo and attenuation can be masked | algebra of square roots; the order by monotony of powers of ten |
| C181 | the arrays of the day, clutter mask, percentile, median | induction over profiles; the rank of the percentile by integer division |
| C182 | names of the file and requested names, `int` of a text | the split text as a relation; induction over the requested names |
| C183 | one-dimensional variables by name, heights of a model file | cases of the file; columns by induction |
| C184 | one channel, pointing, angles, two-dimensional flags | positions of flags as an ordered list; every branch with its condition |
| C185 | table of conversions, regular expression as a scanner | table against a separate one; induction over the text |
| C186 | dictionaries as functions, changed in place also by failing runs | an invariant over all runs; the last instrument of the table against a relation |
| C187 | texts | the joined list as a relation, against a table of articles |
| C188 | names, listings in any order, contents of files | sorted lists with the same elements are equal; extensions as a relation on letters |
| C189 | masked arrays | counting per row against masks of all values |
| C190 | lines of a text, a dictionary as a function | induction over the lines, the last one with a name wins |
| C191 | texts | capital letters as a relation |
| C192 | arrays as lists of rows | by positions; the first profile as a split of the list |
| C193 | attributes as functions, the file also after an exception | induction over names and variables |
| C194 | dictionaries as functions, days as integers, the pattern as a text | induction; the pattern split into digits and other characters |
| C195 | texts, a list of titles | parts between underscores, occurrence of a text |
| C196 | a file as a function, ticks as numbers, labels as texts | by cases; division with remainder |
| C197 | optional texts, a list of heights, tables as functions | by cases |
| C198 | shapes, the dictionary as a list | by cases over the arrays |
| C199 | lists, nan as a missing value | induction over the curve; the rest of a division |

Properties that cannot be expressed: none so far; every property above has an executable core. Where the runtime decides (float rounding, netCDF internals), the theorem is about the idealised core and section 2 says so.

## 5. Findings (code violates the property)

Each is proved about the model and was checked against the source text again.

| id | theorem | finding |
|---|---|---|
| C06 | `C06_undetected_with_echo_refuted` | status 6 (undetected because of severe attenuation below) is also given to pixels that have a radar echo |
| C08 | `C08_signed_refuted` | `cumsumr` does not restart correctly on signed input (no caller passes any) |
| C10 | `C10_coincident_length_refuted` | `screen_by_time` screens any array whose first dimension happens to have the length of time |
| C13 | `C13_reported_bin_outside_refuted` | with `n_min` of 2 or more the list of empty bins may contain an index beyond the last bin |
| C23 | `C23_rain_corrected_has_value_refuted` | rain attenuation is flagged as corrected although no value exists (rainfall rate masked, or no warm gate at or below the pixel) |
| C24 | `C24_aerosol_exclusive_refuted` | a droplet pixel with echo in a cloud of at most ten pixels ends as droplet + aerosol (target class 8 or 10 hides it); a clutter pixel with lidar echo ends as falling + aerosol |
| C26 | `C26_no_clutter_in_rain_refuted` | `~is_rain` of an integer array is -1 or -2, never zero, so clutter is also flagged in rain |
| C28 | `C28_only_insects_change_refuted` | the insect filter sets falling on clear-sky pixels one gate above and below |
| C28 | `C28_far_pixel_refuted` | in the first five profiles the negative index wraps and changes pixels at the end of the day |
| C31 | `C31_rain_is_6_refuted` | rainy profiles get LWC status 4; the documented value 6 is never produced |
| C31 | `C31_new_pixels_have_liquid_refuted` | pixels with LWC status 3 (new cloud pixels) carry LWC 0: the content is computed before the cloud top is moved |
| C32 | `C32_stays_inside_refuted` | a lidar-only cloud whose base is the last gate makes the LWC product raise IndexError |
| C33 | `C33_status_refuted` | `np.copy` drops the mask, so the drizzle status is 1 where nothing was retrieved |
| C53 | `C53_cloudless_profile_refuted` | a profile without cloud gets the attenuation status of the lowest gate |
| C58 | `C58_every_band_supported_refuted` | an X-band radar with a disdrometer makes categorize raise ValueError, although the package recognises the band |
| C54 | `C54_no_observations_is_clear_sky_refuted` | a model cell without observations gets cloud fraction 0 instead of masked |
| C40 | `C40_no_gap_refuted` | `update_nc` with an overlapping file writes the newer profiles at their position in the new file, leaving masked profiles (also masked time stamps) in between |
| C40 | `C40_deep_variables_appended_refuted` | `update_nc` does not append variables with three or more dimensions; their new profiles stay masked |
| C59 | `C59_each_source_once_refuted` | `_append_extra_sources` splits the existing text into lines but not the extra ones, so a name can be listed twice |
| C60 | `C60_skipped_file_leaves_nothing_refuted` | a file skipped because of an HDF error has already written the variables before the broken one (usually time), so masked profiles with valid time stamps remain |
| C41 | `C41_reset_refuted` | `normalize_cumulative_amount` adds the normalised last amount (which already contains the offset) to the offset, so every reset after the first one is over-counted by all earlier offsets |
| C41 | `C41_leading_gap_refuted` | if the first amount is masked, subtracting it masks the whole series |
| C43 | `C43_single_profile_refuted` | a radar file with one profile and per-chirp folding velocities counts as scalar (`isscalar` looks at the length of the first axis), so the broadcast raises ValueError |
| C45 | `C45_never_raises_refuted` | `get_epoch` raises ValueError if the date does not have three parts, for instance `hours since 2021-05` or `hours since 2021` |
| C45 | `C45_impossible_day_refuted` | `get_epoch` raises ValueError for a day that the month does not have |
| C46 | `C46_longitude_refuted` | `lon[lon > 180] - 360` discards its result, so longitudes above 180 are kept |
| C46 | `C46_sign_refuted` | `_parse_global_attribute_numeral` drops the sign: `-70.5` becomes 70.5 |
| C52 | `C52_prf_refuted` | for a radar file with prf but without nyquist_velocity, `rebin_to_grid` adds a key to the dictionary it iterates over and raises RuntimeError |
| C62 | `C62_raw_aligned_refuted` | `_read_telegram` appends value by value, so a telegram with an unreadable value leaves the columns before it one entry longer than the time stamps; all later entries are shifted |
| C62 | `C62_logger_aligned_refuted` | in logger files the values of a telegram are kept although its time stamp cannot be read |
| C64 | `C64_skips_invalid_refuted` | a record without text (`[2026-01-01 00:00:00` directly followed by `]`) raises IndexError in `_read_typ_op4a`, which `_read_hyytiala` does not catch |
| C65 | `C65_rows_refuted` | with a date, only the list of times is cut to the day, so an FD12P file with lines of that day and of another day raises ValueError in `screen_all_masked` |
| C66 | `C66_files_refuted` | the Limassol reader joins files column by column, so a column that a file lacks (wind direction before 2025-02-13) is shifted to earlier times |
| C66 | `C66_zulu_refuted` | `_parse_sirta` accepts the title `Date Time (yyyy-mm-ddThh:mm:ssZ)`, but the Limassol reader then raises KeyError |
| C67 | `C67_aligned_refuted` | a row with an unreadable time is skipped only from the time column on; columns before it get an extra value |
| C68 | `C68_arrays_refuted` | `row_template.copy()` is shallow: all rows share one list for each array, which holds the elements of all lines |
| C71 | `C71_same_quantity_refuted` | a telegram with two numbers of one quantity (1 and 30, both rain rate) appends two values for each row, so the column is longer than the time |
| C71 | `C71_blank_line_refuted` | the number of unreadable rows is compared with the number of all lines, so one blank line suppresses the DisdrometerDataError for a file without readable rows |
| C73 | `C73_cut_off_refuted` | `_read_fmi` catches ValueError only: a record that ends within a vector or spectrum raises StopIteration for the whole file |
| C73 | `C73_impossible_stamp_refuted` | an impossible time stamp of a single record raises ValueError for the whole file |
| C73 | `C73_time_stamp_twice_refuted` | the text `19` is skipped, but `019` is read as a time stamp of the telegram and adds a second entry to the times |
| C74 | `C74_missing_column_refuted` | files are joined column by column, so the values of a column that one file lacks are shifted to earlier times |
| C74 | `C74_given_stamps_refuted` | given time stamps of another number than the rows are accepted |
| C75 | `C75_serial_number_refuted` | if the first row has no serial number, rows of different instruments are accepted |
| C78 | `C78_zero_refuted` | `ma.where(obs.lwp)` selects non-zero values, so a measured zero between two positive values is replaced by an interpolated value |
| C78 | `C78_sum_refuted` | a day whose measured values (positive and negative) add up to zero is treated as without data |
| C79 | `C79_coarse_refuted` | on grids with steps of 400 m or more the window below a peak is empty and `np.argmax` raises ValueError, which is not caught |
| C79 | `C79_ground_refuted` | `min_alt` is documented as altitude above ground but counts from the first gate |
| C80 | `C80_top_gate_refuted` | with depolarisation, if the temperature range of one profile includes the top gate, the lookup of the gradient (one gate shorter) raises IndexError outside the `try` block, and the whole day fails |
| C80 | `C80_flat_refuted` | where two neighbouring velocities are equal, the velocity itself is added up as if it were a step, so a clear rise above is not found; velocities under the mask take part in the same way |
| C80 | `C80_position_refuted` | the middle of the rise is rounded to even relative to the first gate of the temperature range, so the layer is one gate thicker or thinner depending on where the range begins |
| C81 | `C81_edge_refuted` | the kernel reflects the first and last profiles, so a single detection there is kept although it is removed everywhere else |
| C82 | `C82_warm_refuted` | a profile without any gate below 0 C raises IndexError |
| C83 | `C83_last_window_refuted` | `range(len(time) - win)` leaves out the last window, so the freezing level in its middle is not used |
| C83 | `C83_mean_refuted` | the documentation says mean melting layer height, the code takes the median |
| C83 | `C83_warm_refuted` | one profile without a gate below 0 C raises IndexError even if every profile has a melting layer |
| C84 | `C84_sldr_refuted` | with SLDR, the product of depolarisation and temperature probability replaces a higher combined probability as soon as it exceeds 0.9, so warming a pixel can lower its probability |
| C85 | `C85_every_image_refuted` | if the lowest gate with data is one of the top three, the gate three above does not exist and the categorize processing fails with IndexError |
| C85 | `C85_hidden_data_refuted` | `np.where` ignores the mask of velocity and depolarisation, so the rain flag depends on what is stored under their masks |
| C85 | `C85_snow_filter_refuted` | the filter for snow keeps codes 57 to 68: rain showers (81 to 84) are not rain, rain with snow (67, 68) is |
| C86 | `C86_scanning_kept_refuted` | a missing elevation also makes the verdict on the next profile missing, which counts as stable: a scanning profile (45 degrees) after a bad angle is kept |
| C86 | `C86_two_turns_refuted` | azimuth differences are moved by one turn only: from -360 to 360 degrees, the same direction, the radar counts as moving |
| C86 | `C86_first_profile_refuted` | the value prepended for the difference loses its mask and becomes 0: the first profile is removed if the second has no angle |
| C87 | `C87_hidden_ratio_refuted` | masked signal-to-noise ratios are compared by the data under the mask |
| C88 | `C88_heights_refuted` | with as many gates as profiles the range is cut as if it were a time series |
| C89 | `C89_empty_day_refuted` | no profile of the wanted date is no error, the data are empty |
| C89 | `C89_other_day_refuted` | without a date the profiles of other days are kept, with hours beyond 24 |
| C89 | `C89_scalars_refuted` | frequency, Nyquist velocity and calibration are those of the last file, even if it is of another day |
| C90 | `C90_rain_below_refuted` | everything below the highest clutter is masked, including precipitation faster than 1 m/s |
| C92 | `C92_lower_reveals_refuted` | a run of negative values sets the noise of the whole profile to 1e-12: weak values below the run, hidden before, become visible |
| C92 | `C92_few_gates_refuted` | `round(n * 0.1)` is 0 for up to five gates and the slice `[-0:]` is the whole profile: the signal itself counts as noise |
| C93 | `C93_nothing_left_refuted` | all profiles of a file may be removed without an error, time is empty then |
| C93 | `C93_few_gates_refuted` | with fewer than 20 gates above 10 km the bins are empty and no profile is ever removed |
| C94 | `C94_cloud_value_refuted` | `np.where` finds strong echoes also under the mask of the screened backscatter, where numpy.ma leaves the signal without range correction: a hidden cloud enters the smoothed field with its value divided by the range squared |
| C94 | `C94_zero_divisor_refuted` | the mask of the depolarisation is replaced by that of the backscatter: where the parallel polarisation is 0 the cross polarisation is shown as ratio |
| C95 | `C95_columns_refuted` | empty fields are dropped before the values are matched with the columns: a row with an empty field and one extra field has its values under the wrong columns |
| C95 | `C95_blank_line_refuted` | a blank line, for which `csv.reader` gives an empty row, raises IndexError |
| C96 | `C96_negative_refuted` | a number of a profile with a sign or an exponent is not recognised by `isdigit` and becomes missing |
| C96 | `C96_more_integrals_refuted` | a superblock with more integrals than processor records raises IndexError |
| C98 | `C98_date_refuted` | without a date, the date of the file is that of the first profile of the first file as listed by the directory, the hours count from the earliest profile: with files in another order they belong to different days |
| C98 | `C98_hours_refuted` | without a date, files of several days give hours of 24 and more |
| C98 | `C98_missing_variable_refuted` | files each fine by themselves, one without some variable: the rows no longer fit the times and the conversion stops with IndexError |
| C99 | `C99_speckle_refuted` | the speckle filter looks at each variable alone and runs before incomplete pixels are removed: if Z and v overlap in one profile only, an isolated pixel is left although any isolated pixel should be removed |
| C102 | `C102_prefix_refuted` | times in seconds are recognised by a value above 25, so a file that ends within 25 s after midnight has its seconds read as hours |
| C103 | `C103_edges_refuted` | a time step up to one minute before the first or after the last lidar profile is not reported as a gap although all its pixels are masked |
| C106 | `C106_gap_refuted` | if all visible values are zero (a day without rain), the steps without data are zero too, neither masked nor reported |
| C106 | `C106_last_edge_refuted` | a sample at the end of the last step is used for one-dimensional variables and dropped for those over time and height |
| C108 | `C108_masked_level_refuted` | interp1d drops the mask: in a partly masked profile the data under the mask (for netCDF the fill value) are interpolated and come out visible |
| C108 | `C108_attenuation_refuted` | the attenuations are computed from the temperature at the model levels and are then treated as if they were at the common heights, while temperature itself is interpolated to them |
| C110 | `C110_missing_refuted` | a variable that one of the files does not have comes out shorter than the time axis, without an error; its values belong to other profiles than their positions say |
| C111 | `C111_single_chirp_refuted` | a radar with a single chirp: the chirp table counts as a number and `.compressed()` of a number raises AttributeError |
| C112 | `C112_zero_velocity_refuted` | a Doppler velocity of exactly zero is hidden although its reflectivity is good |
| C112 | `C112_tolerance_refuted` | `np.isclose(x, 1e-10)` has an absolute tolerance of 1e-8: everything up to a hundred times the fill value counts as missing |
| C112 | `C112_series_refuted` | fill values of -999 in variables with one value per profile (wind speed, for example) stay visible; only temperature and pressure are masked |
| C113 | `C113_two_angles_refuted` | if half of the profiles are at zenith and half at ten degrees, the median is five degrees and all profiles are removed |
| C115 | `C115_lower_case_refuted` | `hatpro2nc` reads suffixes in any case of letters, but decides with `f.suffix == ".LWP"` whether there are liquid water path files: a directory with a readable `a.lwp` gives ValidTimeStampError. |
| C115 | `C115_lower_case_length_refuted` | The same test for `.IWV` decides whether missing variables are filled: with `a.LWP`, `a.iwv` and `b.LWP` the column of water vapour is shorter than that of time. |
| C115 | `C115_empty_file_refuted` | A file that is too short for its header gives IndexError, which the loop over the files does not catch (it catches TypeError, ValueError and ValidTimeStampError): one empty file stops the processing of the day. |
| C115 | `C115_three_files_refuted` | Three readable files of one stem (`a.LWP`, `a.lwp`, `a.IWV`) stop the processing with NotImplementedError. |
| C116 | `C116_tolerance_refuted` | The comment of the product says that slopes outside -5/3 +/- 20 % are rejected. The code accepts slopes below -1.33, which lies above -4/3: a spectrum with slope -1.332 gets a value. |
| C117 | `C117_fast_radar_refuted` | `radar_dt_sec` is rounded to full seconds. A radar with 0.4 s between the profiles gets the interval 0, and `np.fft.rfftfreq` with the distance 0.0 raises ZeroDivisionError. (With 1.4 s the wavenumbers are wrong by 40 %.) |
| C117 | `C117_missing_refuted` | The comment of `epsilon` promises less than 10 % of missing data. `int(0.9 * n)` rounds down: with one of nine velocities (11 %) missing there is a value. |
| C117 | `C117_continuous_refuted` | The comment of `epsilon` promises 5 minutes of continuous velocities. The share of missing velocities is counted among the profiles of the window only: nine profiles in the first nine seconds of a window give a value. |
| C118 | `C118_complete_wind_refuted` | If neither wind component has a missing value, netCDF4 gives a scalar mask, and `np.broadcast_to(time[:, None], mask.shape)` raises ValueError: complete wind data cannot be used. |
| C120 | `C120_strong_echo_refuted` | `mask_clutter` of the Galileo radar combines two results of `np.where` by `and`, which gives the second one: the condition on the reflectivity (`Zh < -15`; comment "Only strong Z values are valid") has no effect. An echo of 20 dBZ with a depolarisation ratio of -3 dB in the lowest 15 gates is masked. |
| C120 | `C120_times_refuted` | `screen_negative_altitudes` cuts every array whose last dimension has the length of the range: if a file has as many profiles as gates, the times are cut too. |
| C120 | `C120_one_profile_refuted` | `utils.isscalar` is true for images with one profile, so `screen_negative_altitudes` cuts the range but not the images of such a file. |
| C121 | `C121_first_gates_refuted` | `mask_first_range_gates` (150 m) runs before `fix_range_offset` (-720 m): it masks gates that are removed anyway, and a gate at 100 m of the product keeps its velocity. |
| C121 | `C121_calibration_refuted` | `copernicus2nc` documents the site key `calibration_offset` with the default -146.8; the code reads `Zh_offset` with the default -149.5. |
| C125 | `C125_no_ldr_refuted` | `mira2nc` converts `ldr` to decibels without checking that it exists: files without it stop with KeyError. `screen_invalid_ldr` checks it. |
| C126 | `C126_range_refuted` | `VaisalaCeilo._screen_time_indices` cuts and reorders every array whose length is the number of profiles, so also the range if there are as many gates as profiles (or, after sorting, as different times): with two profiles in descending order the range is descending. |
| C126 | `C126_zero_factor_refuted` | `calibration_factor or 1.0` replaces a factor of 0 by 1. |
| C127 | `C127_documented_refuted` | `ceilo2nc` lists CS135 and DA10, but the messages of a CS135 announce no instrument for `_find_ceilo_model` (RuntimeError), and netCDF files of a DA10 are read by the reader for Lufft, unless the site has the key `model`. |
| C128 | `C128_zenith_refuted` | `_fetch_zenith_angle` uses its default only if the file has no angles; if all are masked, the median is `ma.masked`, which becomes 0. |
| C129 | `C129_heights_refuted` | `_fetch_files_with_same_range` compares sums of rounded heights: files with the heights 100, 300 and 200, 200 are joined, with the heights of the first. |
| C129 | `C129_epoch_refuted` | `fetch_data` of PollyXT returns the epoch of the last pair of files; times of files with another epoch are placed on the wrong day. |
| C129 | `C129_wavelength_refuted` | `_get_valid_beta_channel` sets the wavelength of `instruments.POLLYXT`, an object shared by all conversions of a process, and only if the channel is not 1064: after a conversion at 532 nm, later products with 1064 nm data say 532. |
| C129 | `C129_zero_sum_refuted` | `_only_zeros_or_masked` tests whether the sum is zero: a channel with the values 1 and -1 counts as without data. |
| C130 | `C130_nan_snr_refuted` | `calc_screened_products` masks where `snr < limit`, which is false for NaN: pixels without a signal-to-noise ratio stay visible. |
| C130 | `C130_range_refuted` | `screen_completely_masked_profiles` cuts every array with as many elements as profiles, so also the range if there are as many gates as profiles; the images keep their gates. |
| C130 | `C130_zenith_refuted` | `pollyxt2nc` documents the site key `zenith_angle`; `fetch_zenith_angle` looks for it in `self.metadata`, which is always empty: the angle is always 5. |
| C131 | `C131_attenuation_refuted` | The comment of `iwc_error` says that uncorrected liquid attenuation contributes 250 g m-2, but the error is masked at every such pixel. |
| C131 | `C131_bias_refuted` | `append_bias` multiplies the bias of the reflectivity by 10 times the coefficient of Z alone; at temperatures other than 0 degrees the change of the water content also has the coefficient of the product of Z and T. |
| C131 | `C131_formula_refuted` | The comment of `ier` gives a formula for log10(ier) with the factor 3/(2*917) outside of the polynomial; the code applies the factor to the power of ten. |
| C132 | `C132_dry_refuted` | With a liquid water path of 0 the division gives a masked number, but the scaled radius is stored as 1e-6 m, not masked. |
| C132 | `C132_depths_refuted` | The scaled number is calculated with the depth of each gate, so it is not constant in a layer of gates of different depth, as the method assumes. |
| C132 | `C132_layers_refuted` | Each layer of a profile is scaled to the whole liquid water path, so two layers together hold twice the measured water. |
| C132 | `C132_exact_refuted` | The term of the reflectivity error is 10^(dZ/10)/6, which is 1/6 for dZ = 0: without any uncertainty the relative error of the radius is a sixth. |
| C134 | `C134_calm_refuted` | With model winds of exactly 0 the divisor of the turbulence correction is 0 and the corrected width is masked at pixels with a measured width. |
| C135 | `C135_signs_refuted` | By the comments in the file `v` and `v_air` are positive upwards and `v_drizzle` is positive downwards, so v = v_air - v_drizzle; the code has v = v_air + v_drizzle. One of the comments is wrong whatever the sign in the table. |
| C135 | `C135_zero_refuted` | `_append_data` masks every zero, also air at rest (`v_air` = 0) and the shape 0 in pixels with drizzle. |
| C136 | `C136_tiny_refuted` | `_calc_v_error` squares the errors of tiny drops in place in the array of `Do_error`, so the error of the diameter is changed too. |
| C136 | `C136_number_refuted` | `_calc_n_error` and `_calc_n_bias` apply `db2lin` to the error of the diameter, which is already linear; the error of the number is too small. |
| C138 | `C138_regular_refuted` | `_get_max_gap_in_minutes` rounds the step of a model to whole minutes; if it is rounded down (20.4 to 20) every interval exceeds the limit and the whole figure is hatched. |
| C138 | `C138_last_refuted` | `screen_completely_masked_profiles` appends the index after the last good profile and clips it, so if the last profile has data it is drawn twice at the same time, with a cell of width zero. |
| C140 | `C140_max_y_refuted` | `np.argmax(alt > max_y) or len(alt)` cannot tell "the first gate is above" from "no gate is above", so if all gates are above `max_y` all of them are kept. |
| C141 | `C141_gap_refuted` | The moving average is calculated before the blocks are cut at gaps in time; near a gap of many hours the curve mixes both sides (40 is drawn where all samples within nine hours are 0). |
| C142 | `C142_flagged_refuted` | `_fill_flagged_data` skips batches of a single sample, so an isolated flagged sample is not marked. |
| C143 | `C143_independent_refuted` | `get_statistic_plots` reads the model once per statistic and `combine_masked_indices` masks it in place, so pixels missing in one observation are missing in the panels of all following observations. |
| C143 | `C143_stop_refuted` | When nothing is left to compare with one observation, the ValueError ends the loop and the panels of the following observations are not drawn although they have data. |
| C143 | `C143_sign_refuted` | `absolute_error` (cloud fraction) is observation minus model, `relative_error` (all other products) model minus observation: the same figure type has opposite signs. |
| C143 | `C143_nan_refuted` | `combine_masked_indices` masks NaN of the observation only; a NaN of the model appears in the absolute error. |
| C144 | `C144_independent_refuted` | `calc_common_area_sum` masks values of the model below the smallest observation in place, so the area of the next observation is calculated from the masked model (50 instead of 100 %). |
| C145 | `C145_clip_refuted` | `np.histogram` of an empty array has its last edge at 1, so without observations values of the model above one are shown as one. |
| C146 | `C146_complete_refuted` | `parse_wanted_names` returns only the longer of the two lists when they differ in length; variables of the other grid are left out silently. |
| C148 | `C148_order_refuted` | `_select_instrument` sorts the set of instruments by name only; two instruments of the same name and type are taken in the order of the set, which depends on their hashes. |
| C149 | `C149_pid_first_refuted` | `_get_source_instruments` drops the PIDs of the preferences, so with `-i radar:PID,rpg-fmcw-94` only raw files of rpg-fmcw-94 are requested and the preferred instrument is never found. |
| C149 | `C149_bracket_refuted` | `-p radar[mira35]` (misspelt) is not refused: all instruments of the product are searched. |
| C149 | `C149_both_refuted` | `-p radar[mira-35],radar[rpg-fmcw-94]` processes only the last one, the dictionary is keyed by the product. |
| C149 | `C149_converter_refuted` | `_process_instrument_product` has no case for doppler-lidar and others, `fun` is unbound (UnboundLocalError after the download). |
| C150 | `C150_own_mwr_refuted` | `_process_categorize` fetches the microwave radiometer file of the portal even if this run has produced one, and replaces it. |
| C150 | `C150_download_only_refuted` | With `--dl` `_process_instrument_product` returns None, which is stored: the product counts as available, is not fetched from the portal, and categorize gets None. |
| C151 | `C151_product_refuted` | `cat_file.replace("categorize", product)` replaces in the folders of the path, too. |
| C151 | `C151_distinct_refuted` | `_shorten_pid` keeps eight characters: instruments of the same type whose PIDs agree in them write to the same file. |
| C151 | `C151_date_refuted` | `_process_mwrpy_product` does not remove the dashes of the date, all other names do. |
| C154 | `C154_short_row_refuted` | `read_toa5` zips the header with the row, so a row without its last fields gives a time but no value; the column is shorter than the times and later values belong to the wrong time (`screen_timestamps` then fails with IndexError). |
| C156 | `C156_missing_last_refuted` | `line.strip().split("\t")` removes a trailing tab: a row whose last value is empty has one field less than the header and `zip(strict=True)` raises ValueError, although empty values elsewhere are allowed. A blank line does the same. |
| C157 | `C157_no_date_refuted` | Without a date the rows of all days are kept, but the time is only the hour: `remove_duplicate_timestamps` then drops rows of later days at the same hour. |
| C157 | `C157_fraction_refuted` | `datetime2decimal_hours` ignores microseconds, so rows within one second (Galați stamps have `%f`) are merged. |
| C157 | `C157_limassol_refuted` | `LimassolWS._data` is a `defaultdict(list)`: a title that is missing in the file gives an empty array instead of an error. |
| C158 | `C158_files_refuted` | `HyytialaWS`, `GalatiWS`, `JuelichWS`, `LampedusaWS` and `ClujWS` read only `filenames[0]` and ignore further files silently (Granada and Falkenberg refuse them). |
| C160 | `C160_order_refuted` | `normalize_cumulative_amount` runs before `sort_timestamps`: a row that is earlier than its predecessor looks like a reset of the counter, and the sorted amounts decrease. |
| C160 | `C160_days_refuted` | Without a date rows of several days are kept as hours of the day and `remove_duplicate_timestamps` drops rows of later days at the same hour. |
| C162 | `C162_no_date_refuted` | `_screen_time` without a date reads `self.time[0]`, which is set later and still empty: IndexError, although the date is optional. |
| C162 | `C162_no_rows_refuted` | If no row is of the date, `rd802nc` writes a file without times instead of raising ValidTimeStampError as the other readers do. |
| C162 | `C162_empty_file_refuted` | The counts of a file with a header only are a one-dimensional array, which `np.concatenate` refuses beside the two-dimensional counts of other files. |
| C164 | `C164_date_refuted` | `init_date` takes the first time stamp of the concatenated file before the screening: with a first profile before midnight the file has the previous day as its date. |
| C164 | `C164_zenith_refuted` | `add_zenith_angle` reads the elevation of all profiles after `screen_by_date`, so the zenith angle is longer than the time if profiles of another day were removed. |
| C164 | `C164_range_refuted` | `sort_timestamps` sorts every array as long as the time: with as many gates as profiles the range is permuted. |
| C164 | `C164_time_refuted` | `seconds2hours` writes a last stamp at midnight as 24; if the files are not in order this is the first profile of the day, which is moved to its end. |
| C165 | `C165_order_refuted` | The number of levels below 22 km is used as a count from the first level: with heights from the top down the uppermost levels are kept and the lowest dropped. The docstring assumes ground first; nothing checks it. |
| C165 | `C165_unit_refuted` | `_read_number_of_levels` converts the height with `to_m`, but `_add_variables` writes the values of the file, and `update_attributes` gives them the unit m. A height in km is accepted and written 1000 times too small. |
| C168 | `C168_clear_refuted` | `np.sum` of a fully masked array is `masked`, which is not equal to 0: a day without any cloud passes the check for ice clouds. |
| C169 | `C169_vertical_refuted` | `calculate_wind_shear` takes differences along the first axis of the arrays, which is time: winds that are the same at every height have shear, winds that change only with height have none (and with heights constant in time the division is by zero). |
| C172 | `C172_table_refuted` | `thies2nc` turns ValueError and IndexError into DisdrometerDataError, but a TOA5 table without the column RawString or TIMESTAMP raises KeyError, which is passed on. |
| C172 | `C172_blank_line_refuted` | In the format with time stamps every line is unpacked from `line.split(";", maxsplit=1)`: a blank line, harmless in the plain format, raises ValueError and the whole file is refused. |
| C173 | `C173_days_refuted` | Without an expected date `_screen_time` takes the date of the first record but keeps the records of other days; their hours are outside the day. |
| C173 | `C173_cut_refuted` | With `truncate_columns` below 16 the rain rate is not read; `mask_invalid_values` accesses it unconditionally, outside of the handled errors: KeyError. |
| C174 | `C174_velocities_refuted` | `sort_timestamps` and `remove_duplicate_timestamps` index every array whose first dimension has the length of the time. With exactly 20 records the velocity classes are reordered with the records. |
| C174 | `C174_diameters_refuted` | The same with 22 records and the diameter classes: for duplicate times a class is lost. |
| C175 | `C175_left_refuted` | If all data are flagged, ValidTimeStampError is raised after mwrpy has written the output file, which is left behind without the global attributes of the product. |
| C175 | `C175_names_refuted` | Coefficient files are stored under the last part of their links: two links with the same file name share one file, and both retrievals use the later one. |
| C176 | `C176_calm_refuted` | `calculate_advection_time` divides by the wind: for a wind of 0 the masked division masks the result, which is then set to 0. The window is empty, while for any weak wind it is a whole hour. |
| C177 | `C177_extra_rows_refuted` | The storage starts as zeros of the shape of the model heights; rows that no model time belongs to stay 0. |
| C178 | `C178_advection_gap_refuted` | `_generate_downsample_product` skips the cell if the standard window has no observations, before the advection window is looked at: `cf_V_adv` and `cf_A_adv` stay 0 although the advection window has a cloudy pixel. |
| C178 | `C178_masked_pixels_refuted` | A profile with few valid pixels counts as much as any other in the fraction by area: two cloudy pixels in one profile and a clear one in the next give 2/3 by volume and 1/2 by area. |
| C179 | `C179_single_file_refuted` | `bundle_netcdf_files` copies a single file without looking at its time stamps. |
| C179 | `C179_unreadable_first_refuted` | Unreadable files are skipped, but the first one is opened before, outside of the try block: OSError, depending on the order of the files. |
| C179 | `C179_returned_refuted` | `bundle_netcdf_files` returns the files of the date and ignores the list returned by `concatenate_files`, which leaves out files with broken data. |
| C179 | `C179_hours_refuted` | `seconds2date` is used whatever the units of the time are: 25 hours since midnight count as 25 seconds, on the wrong day. |
| C181 | `C181_detected_is_above_sensitivity_refuted` | `_calc_sensitivity` replaces the sensitivity of a gate by the median of its clutter pixels even if there is only one: with a single clutter pixel of 10 dBZ the gate is reported to see nothing below 10 dBZ, though echoes of -30 dBZ were detected in it. |
| C182 | `C182_missing_left_out_refuted` | `_get_valid_variables_and_indices` calls `int` on the second part of every name that starts with tb_ or irt_, before it looks whether the file has it: asking for lwp and tb_spectrum is ValueError, while other unknown names are skipped. |
| C182 | `C182_every_variable_refuted` | A variable of the file whose name starts with tb_ or irt_, such as irt_quality_flag, can never be plotted. |
| C183 | `C183_label_refuted` | `_get_height` falls back to the range without adding the altitude, but the label stays Height (km AMSL): a gate at 600 m above sea is drawn at 0.1 km. |
| C184 | `C184_no_flags_refuted` | `_read_flagged_data` returns an empty one-dimensional array if the file has no flags; `plot_tb` indexes it with two indices: IndexError. |
| C184 | `C184_negative_refuted` | `plot_tb` only tests `freq_ind >= shape[1]`: tb_-1 shows the last channel with the title channel 0, and tb_-4 of three channels is IndexError, not PlottingError. |
| C186 | `C186_forgotten_refuted` | `add_source_attribute` changes CATEGORIZE_ATTRIBUTES of the module in place and skips missing instruments: after a run with a radiometer, the metadata of lwp name it in later runs without one. Harmless as long as lwp is not written without a radiometer. |
| C186 | `C186_present_weather_refuted` | `synop_WaWa` of the disdrometer is written to the categorize file, but is missing in the table of `add_source_attribute`: it has no source, in contrast to the rain rate of the same instrument. |
| C187 | `C187_voodoo_refuted` | `_save_cat` passes the identifier categorize-voodoo, which `get_references` does not know: the article on the categorization is not cited. |
| C188 | `C188_numbered_refuted` | `_get_suffix` takes a.znc.1 for a znc file, but `get_sorted_filenames` only looks for names that end with .znc: in a folder such files are silently left out. |
| C190 | `C190_white_space_refuted` | `_read_hrd` strips the value but not the name: the line `XMT : 35.1e9` gives the entry `XMT ` with a blank, and the frequency is missing (KeyError). |
| C192 | `C192_own_height_refuted` | `change2one_dim_axes` uses the heights of the first profile with a height for all profiles as soon as one height is masked: a gate at 2 km is drawn at 1 km, and the axis itself may have masked heights. |
| C194 | `C194_repeated_key_refuted` | `del_dict_keys` tests the given dictionary but deletes from the copy: a key given twice is KeyError. |
| C194 | `C194_format_refuted` | `is_timestamp` uses `re.match` without an end: `-2020-99-99 99:99:99 and more` is a time stamp, although the text should be formatted as `-yyyy-mm-dd hh:mm:ss`. |
| C195 | `C195_volume_refuted` | `get_statistic_plots` sets `name_new` to the empty text before it asks for the title: volume fractions are titled as areas, and advection is never mentioned (`C195_same_titles`). |
| C195 | `C195_names_refuted` | `_create_save_name` joins the fields with underscores, which fields have themselves: different lists of fields may give the same file name. |
| C199 | `C199_calm_refuted` | `_calculate_average_wind_direction` weights directions with the speed: for calm air the mean vector is zero and the direction drawn is 0 degrees, whatever was measured. |

Further observations, shown as examples only: a cloud at height 0 is lost by `masked_equal(…, 0)` (C20); a single timestamp at midnight at the start of the day becomes 24 h (C12); `screen_by_time` recognises time-dependent arrays by length alone (C10). The comment in `rpg_reader.py` on the digits of the second angle encoding contradicts the code and its doctest; the model follows the code (C42).

## 6. Assumptions printed

`Print Assumptions` stands below every theorem in `Properties*.v`; the output is `Closed under the global context` for each property but C131–C136 and C180. The theorems of these are about real numbers; their output lists some or all of the four axioms of the standard library

* `ClassicalDedekindReals.sig_forall_dec`
* `ClassicalDedekindReals.sig_not_dec`
* `FunctionalExtensionality.functional_extensionality_dep`
* `Classical_Prop.classic`

and nothing else. They come with the construction of `R` and with its analysis (`exp`, `ln`, `sqrt`, `PI`). The seven library axioms that a scan of the loaded libraries reports are `Coq.ssr.ssrunder.Under_rel.*`, loaded with the standard library's `ssreflect` plugin files; no theorem depends on them.

Behaviour of libraries that the model takes for granted (section 2): masked arithmetic of `numpy.ma` (a result is masked if an operand is; a comparison with a masked value is masked, counts as False in an index expression of assignment only where the code uses `.filled`/`ma.where` accordingly), `np.where` in row-major order, stable order of `np.unique(return_index)`, `scipy.ndimage.label`/`skimage.measure.label` numbering connected components. For the attenuation and LWC model also: `ma.cumsum` treats masked elements as 0 and keeps the mask; a product keeps the first operand's data under the mask; a quotient by zero is masked; `==` and `<` with a masked operand give no True in the data used as an index. For the instrument and site model also: changing the size of a dictionary during iteration raises RuntimeError at the next step; `bisect_left` and `np.searchsorted` search the same midpoints; `np.broadcast_to`, `np.repeat` and row assignment fail for unequal lengths other than one.
