{
 "claims": [
  {
   "property": "C01",
   "status": "proved",
   "theorems": [
    "C01_round_trip",
    "C01_section2_mandatory"
   ],
   "note": "Round trip for every well-formed message and every suffix; section 2 is mandatory in this reader (finding: C01_section2_mandatory)."
  },
  {
   "property": "C02",
   "status": "proved",
   "theorems": [
    "C02_concatenation",
    "C02_only_concatenations",
    "C02_terminates"
   ],
   "note": "Exact characterisation of the multi-document reader, including termination."
  },
  {
   "property": "C03",
   "status": "proved",
   "theorems": [
    "C03_truncation"
   ],
   "note": "Every proper prefix is refused with an I/O error."
  },
  {
   "property": "C04",
   "status": "proved",
   "theorems": [
    "C04_accepted_is_message",
    "C04_framing"
   ],
   "note": "Accepted bytes are the serialisation of a well-formed message; framing stated separately."
  },
  {
   "property": "C05",
   "status": "proved",
   "theorems": [
    "C05_consumption"
   ],
   "note": "Octets consumed per section; section 3 and known templates ignore the announced length; section 4 over-read shown by C05_section4_overread."
  },
  {
   "property": "C06",
   "status": "proved",
   "theorems": [
    "C06_panics"
   ],
   "note": "Exact set of panicking inputs in both build profiles; two concrete panics shown."
  },
  {
   "property": "C07",
   "status": "proved",
   "theorems": [
    "C07_data_points",
    "C07_empty_data_section",
    "C07_unsupported"
   ],
   "note": "powi (f32::powi) is a parameter. Includes exact panic condition."
  },
  {
   "property": "C08",
   "status": "proved",
   "theorems": [
    "C08_correctly_rounded",
    "C08_error",
    "C08_monotone",
    "C08_powi"
   ],
   "note": ""
  },
  {
   "property": "C09",
   "status": "proved",
   "theorems": [
    "C09_round_trip",
    "C09_every_pattern"
   ],
   "note": ""
  },
  {
   "property": "C10",
   "status": "proved",
   "theorems": [
    "C10_angle",
    "C10_negative_angle"
   ],
   "note": ""
  },
  {
   "property": "C11",
   "status": "proved",
   "theorems": [
    "C11_data_section"
   ],
   "note": "Finding: bit width announced in section 5 is ignored."
  },
  {
   "property": "C12",
   "status": "proved",
   "theorems": [
    "C12_normalise",
    "C12_identity",
    "C12_idempotent"
   ],
   "note": ""
  },
  {
   "property": "C13",
   "status": "proved",
   "theorems": [
    "C13_construct",
    "C13_inside",
    "C13_adjacent",
    "C13_midpoint",
    "C13_bounding"
   ],
   "note": "Finding: longitude 180 becomes -180, so an extent up to 180 built from coordinates panics (C13_sample)."
  },
  {
   "property": "C14",
   "status": "proved",
   "theorems": [
    "C14_defined",
    "C14_injective",
    "C14_surjective",
    "C14_row_major"
   ],
   "note": ""
  },
  {
   "property": "C15",
   "status": "proved",
   "theorems": [
    "C15_defined",
    "C15_range",
    "C15_monotone",
    "C15_accuracy",
    "C15_position_defined",
    "C15_position"
   ],
   "note": ""
  },
  {
   "property": "C16",
   "status": "proved",
   "theorems": [
    "C16_value",
    "C16_by_position"
   ],
   "note": "Finding: no value in the last half cell (C16_sample)."
  },
  {
   "property": "C17",
   "status": "proved",
   "theorems": [
    "C17_outside",
    "C17_missing",
    "C17_corner",
    "C17_f32",
    "C17_u8",
    "C17_one_axis",
    "C17_other_axis"
   ],
   "note": "Bilinear value with explicit error bounds; finding C17_one_axis."
  },
  {
   "property": "C18",
   "status": "proved",
   "theorems": [
    "C18_nearest"
   ],
   "note": "The kept entries are the three nearest but not sorted."
  },
  {
   "property": "C19",
   "status": "proved",
   "theorems": [
    "C19_total",
    "C19_nearest",
    "C19_complete"
   ],
   "note": "Soundness for all inputs; completeness of the windows away from the antimeridian. Findings in C19_sample: antimeridian miss, NaN coordinates capture cells."
  },
  {
   "property": "C20",
   "status": "proved",
   "theorems": [
    "C20_values",
    "C20_three_frame",
    "C20_three_none",
    "C20_three_mean",
    "C20_three_u8"
   ],
   "note": "Findings about three neighbours in C20_sample: inverted weights, NaN at distance zero, missing neighbours give 0."
  },
  {
   "property": "C21",
   "status": "proved",
   "theorems": [
    "C21_scale",
    "C21_scale_error",
    "C21_scale_total",
    "C21_add",
    "C21_equal"
   ],
   "note": ""
  },
  {
   "property": "C22",
   "status": "proved",
   "theorems": [
    "C22_coordinates",
    "C22_refused",
    "C22_selection",
    "C22_parallel"
   ],
   "note": "rayon's collect is modelled as a relation over all schedules."
  },
  {
   "property": "C23",
   "status": "proved",
   "theorems": [
    "C23_round_trip",
    "C23_encodable",
    "C23_accepted"
   ],
   "note": "Round trip for every padding content, existence of an encoding, and the converse for accepted bytes."
  },
  {
   "property": "C24",
   "status": "proved",
   "theorems": [
    "C24_least",
    "C24_name",
    "C24_refused",
    "C24_values"
   ],
   "note": "Characterises the readers on arbitrary bytes."
  },
  {
   "property": "C25",
   "status": "proved",
   "theorems": [
    "C25_values",
    "C25_complete"
   ],
   "note": "Finding C25_surplus_values: padded sizes give surplus values."
  },
  {
   "property": "C26",
   "status": "proved",
   "theorems": [
    "C26_magic",
    "C26_truncated",
    "C26_panic"
   ],
   "note": "Finding: an unknown type number panics (C26_unknown_type); C26_panic shows that this is the only panic."
  },
  {
   "property": "C27",
   "status": "proved",
   "theorems": [
    "C27_pairs",
    "C27_accuracy",
    "C27_errors"
   ],
   "note": "Finding: panics when a variable is not of type double."
  },
  {
   "property": "C28",
   "status": "proved",
   "theorems": [
    "C28_empty",
    "C28_no_pixels",
    "C28_point",
    "C28_outside"
   ],
   "note": "Finding C28_too_large: byte counts over 32 bits are not refused."
  },
  {
   "property": "C29",
   "status": "proved",
   "theorems": [
    "C29_rows",
    "C29_too_many"
   ],
   "note": "Both directions: rows that fit are placed, rows that do not fit panic."
  },
  {
   "property": "C30",
   "status": "proved",
   "theorems": [
    "C30_line"
   ],
   "note": "Findings C30_staircase, C30_off_line."
  },
  {
   "property": "C31",
   "status": "proved",
   "theorems": [
    "C31_total",
    "C31_outside",
    "C31_bilinear",
    "C31_plain"
   ],
   "note": "Findings C31_nan, C31_on_row, C31_border. Positions theorems for images up to 2^24 pixels wide and high; totality for all."
  },
  {
   "property": "C32",
   "status": "proved",
   "theorems": [
    "C32_complete",
    "C32_any_end",
    "C32_failure",
    "C32_ends"
   ],
   "note": "All executions of the sequential and parallel loops (Par.v); both completed and failed runs."
  },
  {
   "property": "C33",
   "status": "proved",
   "theorems": [
    "C33_any_tile",
    "C33_pixels"
   ],
   "note": "libm's sinh and atan are parameters; latitude part assumes them monotone on the relevant range."
  },
  {
   "property": "C34",
   "status": "proved",
   "theorems": [
    "C34_position",
    "C34_column",
    "C34_round_trip",
    "C34_columns",
    "C34_rows"
   ],
   "note": "Findings C34_no_such_column, C34_next_column, C34_zoom_32. Rows assume sinh and atan monotone on the relevant range."
  },
  {
   "property": "C35",
   "status": "proved",
   "theorems": [
    "C35_composition"
   ],
   "note": "Legends are given as tables in ChartSpec.v."
  },
  {
   "property": "C36",
   "status": "proved",
   "theorems": [
    "C36_rain",
    "C36_cloud",
    "C36_wind",
    "C36_temperature",
    "C36_class_unique",
    "C36_cloud_monotone"
   ],
   "note": "Finding C36_nan."
  },
  {
   "property": "C37",
   "status": "proved",
   "theorems": [
    "C37_render",
    "C37_empty",
    "C37_cloud_precip",
    "C37_temp",
    "C37_wind"
   ],
   "note": ""
  },
  {
   "property": "C38",
   "status": "proved",
   "theorems": [
    "C38_cloud_precip",
    "C38_wind",
    "C38_weather",
    "C38_vertical_cloud",
    "C38_vertical_wind"
   ],
   "note": "Finding C38_weather_unchecked."
  },
  {
   "property": "C39",
   "status": "proved",
   "theorems": [
    "C39_precip_cell",
    "C39_precip_position",
    "C39_wind_cell",
    "C39_wind_position",
    "C39_gusts",
    "C39_speed_cell",
    "C39_speed_position",
    "C39_speed_nonneg",
    "C39_speed_accurate",
    "C39_direction"
   ],
   "note": "Findings C39_missing_is_zero, C39_minus_one. The accuracy of atan2 is a hypothesis, met by the correctly rounded one (C39_direction_sample)."
  },
  {
   "property": "C40",
   "status": "proved",
   "theorems": [
    "C40_precip",
    "C40_temp",
    "C40_wind",
    "C40_weather",
    "C40_vertical_cloud",
    "C40_vertical_wind"
   ],
   "note": "The writing of the files is C46/C47."
  },
  {
   "property": "C41",
   "status": "proved",
   "theorems": [
    "C41_accurate",
    "C41_monotone",
    "C41_cold",
    "C41_missing"
   ],
   "note": "Finding C41_hot."
  },
  {
   "property": "C42",
   "status": "proved",
   "theorems": [
    "C42_classes",
    "C42_monotone",
    "C42_missing"
   ],
   "note": "Finding C42_heavy."
  },
  {
   "property": "C43",
   "status": "proved",
   "theorems": [
    "C43_component",
    "C43_gust",
    "C43_monotone",
    "C43_missing"
   ],
   "note": "Finding C43_nan."
  },
  {
   "property": "C44",
   "status": "proved",
   "theorems": [
    "C44_significant",
    "C44_sky",
    "C44_none",
    "C44_present",
    "C44_ceiling",
    "C44_ceiling_monotone",
    "C44_ceiling_missing"
   ],
   "note": "Finding C44_nan."
  },
  {
   "property": "C45",
   "status": "proved",
   "theorems": [
    "C45_table",
    "C45_to_from",
    "C45_from_to",
    "C45_domain",
    "C45_abort"
   ],
   "note": "Finding C45_sample (code 4 panics)."
  },
  {
   "property": "C46",
   "status": "proved",
   "theorems": [
    "C46_success",
    "C46_any_end",
    "C46_failure",
    "C46_succeeds",
    "C46_cloud_precip_data",
    "C46_wind_data",
    "C46_temp_data",
    "C46_vertical_cloud_data",
    "C46_vertical_wind_data"
   ],
   "note": "Five renderers (cloud and precipitation with weather, wind, temperature, vertical clouds, vertical wind) over an arbitrary relation giving the possible results of reading a step. The *_data theorems say when a step's layer can be computed; tile numbers have to be below 2^32-1."
  },
  {
   "property": "C47",
   "status": "proved",
   "theorems": [
    "C47_paths",
    "C47_layout",
    "C47_files",
    "C47_schedule"
   ],
   "note": "Without disk errors. Contents of images are those handed to the PNG encoder, which is not modelled. For the schedule theorem reading a step must give the same data in both runs."
  },
  {
   "property": "C48",
   "status": "proved",
   "theorems": [
    "C48_steps",
    "C48_lookup",
    "C48_difference"
   ],
   "note": ""
  },
  {
   "property": "C49",
   "status": "proved",
   "theorems": [
    "C49_injective",
    "C49_total",
    "C49_layout"
   ],
   "note": "Years 0 to 9999."
  },
  {
   "property": "C50",
   "status": "proved",
   "theorems": [
    "C50_latest",
    "C50_steady",
    "C50_unsupported",
    "C50_yesterday"
   ],
   "note": "Answers are an arbitrary function of the number of the request and the URL; the two readings of the clock may give different dates."
  },
  {
   "property": "C51",
   "status": "proved",
   "theorems": [
    "C51_parse",
    "C51_refused",
    "C51_name",
    "C51_round_trip",
    "C51_step",
    "C51_from_step"
   ],
   "note": ""
  },
  {
   "property": "C52",
   "status": "proved",
   "theorems": [
    "C52_files",
    "C52_answer",
    "C52_unique",
    "C52_numbers",
    "C52_hourly"
   ],
   "note": "The service's answer is a list of features; C67 and C81 are about its text."
  },
  {
   "property": "C53",
   "status": "proved",
   "theorems": [
    "C53_latest",
    "C53_parse",
    "C53_run_name",
    "C53_text",
    "C53_name",
    "C53_round_trip",
    "C53_find"
   ],
   "note": "chrono's RFC 3339 parser is an arbitrary function from strings to an optional local time and offset; C80 is about the real one."
  },
  {
   "property": "C54",
   "status": "proved",
   "theorems": [
    "C54_dwd_order",
    "C54_dwd_heights",
    "C54_dwd_paths",
    "C54_dwd_same",
    "C54_swiss_order",
    "C54_swiss_heights",
    "C54_swiss_paths",
    "C54_swiss_same"
   ],
   "note": "Both renderers."
  },
  {
   "property": "C55",
   "status": "proved",
   "theorems": [
    "C55_report",
    "C55_unknown",
    "C55_files"
   ],
   "note": "The parsing of arguments by clap is outside the model; the text of an error is a parameter."
  },
  {
   "property": "C56",
   "status": "proved",
   "theorems": [
    "C56_monotone",
    "C56_rounding",
    "C56_accurate",
    "C56_round_trip",
    "C56_round_trip_back",
    "C56_round_trip_temperature"
   ],
   "note": ""
  },
  {
   "property": "C57",
   "status": "proved",
   "theorems": [
    "C57_height",
    "C57_cover",
    "C57_wind",
    "C57_wind_kept",
    "C57_cloud_file",
    "C57_wind_file"
   ],
   "note": "Documents with regular grids (DWD); f32::powi is a parameter. Finding C57_zero."
  },
  {
   "property": "C58",
   "status": "proved",
   "theorems": [
    "C58_prepared"
   ],
   "note": "For any disk failures and any end of the rendering."
  },
  {
   "property": "C59",
   "status": "proved",
   "theorems": [
    "C59_output",
    "C59_succeeds",
    "C59_on_map"
   ],
   "note": "Network and bzip2 are a relation from URLs to bytes; C59_output needs it to be single-valued. Content of images is that handed to the PNG encoder. C59_succeeds needs tile numbers below 2^32-1 and an extent without NaN."
  },
  {
   "property": "C60",
   "status": "proved",
   "theorems": [
    "C60_on_map",
    "C60_output",
    "C60_succeeds",
    "C60_cells"
   ],
   "note": "The service is a relation from requests to answers; C60_output needs the file contents to be single-valued. Content of images is that handed to the PNG encoder. C60_succeeds needs tile numbers below 2^32-1; C60_cells needs coordinates that do not reach the antimeridian."
  },
  {
   "property": "C61",
   "status": "proved",
   "theorems": [
    "C61_untouched",
    "C61_kept"
   ],
   "note": "A killed call has done a prefix of the effects of a complete one."
  },
  {
   "property": "C62",
   "status": "proved",
   "theorems": [
    "C62_dwd",
    "C62_dwd_on_map",
    "C62_swiss_on_map",
    "C62_swiss",
    "C62_swiss_missing"
   ],
   "note": "Errors are distinguished by kind only. Without disk errors (a write that fails panics, C58). Tiles must be addressable on the extent, as in C59/C60. Finding: a step missing for one variable is a panic in all Swiss layers but the wind (C62_swiss_missing)."
  },
  {
   "property": "C63",
   "status": "proved",
   "theorems": [
    "C63_row",
    "C63_row_north",
    "C63_inside",
    "C63_latitude",
    "C63_pixels",
    "C63_inverse",
    "C63_distortion"
   ],
   "note": "Real analysis (stdlib real axioms). The accuracy of the mathematics library is a hypothesis (libm_accurate, libm_ok), shown to be met by the correctly rounding library (C63_library)."
  },
  {
   "property": "C64",
   "status": "proved",
   "theorems": [
    "C64_temperature",
    "C64_wind",
    "C64_rain",
    "C64_coverage",
    "C64_addressable"
   ],
   "note": "Composition of C30, C32, C35 to C39, C46 to C48 and C63. The accuracy of the mathematics library is a hypothesis, met by the correctly rounding library."
  },
  {
   "property": "C65",
   "status": "proved",
   "theorems": [
    "C65_temperature",
    "C65_rain",
    "C65_wind",
    "C65_weather",
    "C65_vertical_cloud",
    "C65_vertical_wind"
   ],
   "note": "Composition of C40 to C45 and C46 to C48."
  },
  {
   "property": "C66",
   "status": "proved",
   "theorems": [
    "C66_files",
    "C66_latest",
    "C66_found"
   ],
   "note": "The text of the request is stated in full."
  },
  {
   "property": "C67",
   "status": "proved",
   "theorems": [
    "C67_search",
    "C67_assets",
    "C67_more",
    "C67_more_feature"
   ],
   "note": "The JSON value of the answer is given; C81 is about the text."
  },
  {
   "property": "C68",
   "status": "proved",
   "theorems": [
    "C68_compressed",
    "C68_plain",
    "C68_dwd"
   ],
   "note": "The decompressor is an argument."
  },
  {
   "property": "C69",
   "status": "proved",
   "theorems": [
    "C69_cells",
    "C69_succeeds",
    "C69_order",
    "C69_unstructured",
    "C69_only"
   ],
   "note": "From bytes to the grid, in both directions."
  },
  {
   "property": "C70",
   "status": "proved",
   "theorems": [
    "C70_place",
    "C70_message"
   ],
   "note": "The displacement is a finding; the theorem says where each value goes."
  },
  {
   "property": "C71",
   "status": "proved",
   "theorems": [
    "C71_messages",
    "C71_temperature",
    "C71_wind",
    "C71_rain",
    "C71_weather",
    "C71_vertical_cloud",
    "C71_vertical_wind"
   ],
   "note": "Composition of C49, C59, C64, C65 and C69: no grid or layer of the model is mentioned, only the messages, the places and the files."
  },
  {
   "property": "C72",
   "status": "proved",
   "theorems": [
    "C72_temperature",
    "C72_wind",
    "C72_rain",
    "C72_vertical_cloud",
    "C72_vertical_wind"
   ],
   "note": "Composition of C02, C52, C60, C64 and C65 with error bounds for the centres of the cells and the distances: no grid or layer of the model is mentioned, only the messages, the places and the files."
  },
  {
   "property": "C73",
   "status": "proved",
   "theorems": [
    "C73_points",
    "C73_near",
    "C73_found",
    "C73_regular",
    "C73_three",
    "C73_weather",
    "C73_plain",
    "C73_plain_cell"
   ],
   "note": "Uses the accuracy of the grid coordinates (C15) and the search for the nearest point (C19); the lookups are public functions of the library that the rendering does not call."
  },
  {
   "property": "C74",
   "status": "proved",
   "theorems": [
    "C74_dwd",
    "C74_swiss",
    "C74_program"
   ],
   "note": "Both programs have the same executions: a congruence through sequences, parallel loops, calls and readings. The files needed are written out in NeedSpec."
  },
  {
   "property": "C75",
   "status": "proved",
   "theorems": [
    "C75_beside",
    "C75_kept",
    "C75_dwd",
    "C75_swiss"
   ],
   "note": "For the Swiss service the hypothesis settled says that the service gives the same answers again and no file beyond 255 hours. Data written lies over what another call has written since the file was created (found_after); saving an image is two effects, the creation of the file with a beginning of the PNG, and the rest."
  },
  {
   "property": "C76",
   "status": "proved",
   "theorems": [
    "C76_dwd",
    "C76_dwd_steady",
    "C76_dwd_together",
    "C76_swiss",
    "C76_swiss_settled",
    "C76_swiss_together",
    "C76_dwd_repaired",
    "C76_swiss_repaired",
    "C76_cut"
   ],
   "note": "A kill is a prefix of an execution; a kill in the middle of writing data is a prefix of an execution on a disk with faults. Saving an image is two effects, the creation of the file with a beginning of the PNG, and the rest. C76_emptied: a killed call can empty a file that was complete; C76_cut: it can leave any image it saves in pieces."
  },
  {
   "property": "C77",
   "status": "proved",
   "theorems": [
    "C77_tells",
    "C77_order",
    "C77_getters",
    "C77_lines",
    "C77_types"
   ],
   "note": "Rust's formatting of floats is an argument that is required to tell floats apart and to contain no spaces or line breaks. C77_line_breaks shows that the condition on line breaks is needed."
  },
  {
   "property": "C78",
   "status": "proved",
   "theorems": [
    "C78_arguments",
    "C78_call",
    "C78_refused",
    "C78_order",
    "C78_same"
   ],
   "note": "clap is not part of the repository; its documented rules for options declared like those of Args are modelled. The program's words are UTF-8. The texts that clap prints are not modelled."
  },
  {
   "property": "C79",
   "status": "proved",
   "theorems": [
    "C79_same",
    "C79_service",
    "C79_dwd",
    "C79_search",
    "C79_once",
    "C79_swiss"
   ],
   "note": "A request is one call of the HTTP client; redirections, retries and connections are inside the client and not modelled. The theorem C79_same ties the program with the record of its requests to the program of the other properties."
  },
  {
   "property": "C80",
   "status": "proved",
   "theorems": [
    "C80_reads",
    "C80_reference",
    "C80_leap",
    "C80_own",
    "C80_round",
    "C80_dated"
   ],
   "note": "The parser is that of the crate chrono 0.4.41, modelled from its published source (it is not in /repo); its errors are not told apart. The other properties hold for any parser whose times are ordinary; C80_dated says that this one is such."
  },
  {
   "property": "C81",
   "status": "proved",
   "theorems": [
    "C81_value",
    "C81_refused",
    "C81_one",
    "C81_written",
    "C81_request",
    "C81_search",
    "C81_search_any",
    "C81_assets",
    "C81_assets_any"
   ],
   "note": "The reader is that of the crate serde_json 1, modelled from its published source (it is not in /repo). Which numbers are out of the range of f64 is a parameter. In members that the program ignores the crate is more tolerant than the model (half characters, bytes that are not UTF-8, large numbers, depth); nothing is claimed about such answers."
  },
  {
   "property": "C82",
   "status": "proved",
   "theorems": [
    "C82_same",
    "C82_same_netcdf",
    "C82_message",
    "C82_grib",
    "C82_grib_total",
    "C82_values",
    "C82_header",
    "C82_netcdf",
    "C82_netcdf_total"
   ],
   "note": "Only the memory for what is read from the file is counted, not the records of fixed size around it; a vector that grows may have twice the size counted. Findings: 37 bytes request 4 GiB, 36 bytes of a NetCDF file 32 GiB (C82_greedy), and a message of 150 bytes without packed values stands for 2^32 - 1 missing values (C82_blank)."
  },
  {
   "property": "C83",
   "status": "proved",
   "theorems": [
    "C83_forward",
    "C83_written",
    "C83_recent"
   ],
   "note": "The day of the machine's clock is taken as given for the beginning and the end of a search, and does not go back. Finding: the fallback, yesterday's last run, is not looked for; a call across midnight takes the run 21 of the day of which it was told that it is not there (C83_unchecked)."
  },
  {
   "property": "C84",
   "status": "proved",
   "theorems": [
    "C84_temperature",
    "C84_wind",
    "C84_rain"
   ],
   "note": "Stated with the two files only, not with the input; the components of the wind and the totals of precipitation are supposed to have the same cells, and no value to be absurd (2^60 m/s, 1024 mm). Finding: a temperature that is NaN is the hottest on the map and the coldest in the file (C84_not_a_number)."
  },
  {
   "property": "C85",
   "status": "proved",
   "theorems": [
    "C85_dwd",
    "C85_bad"
   ],
   "note": "For the German service; the functions of libm are supposed to be accurate (as in C63). Finding: no test guards against the contents listed; a change of the order of the points by the service ends every call in a panic (C85_bad)."
  },
  {
   "property": "C86",
   "status": "proved",
   "theorems": [
    "C86_swiss",
    "C86_constants"
   ],
   "note": "The functions of libm are supposed to be accurate (as in C63), the times that the service gives are those of the years 1 to 9998. Findings: the program tests neither that the assets are there nor how many messages a file has (C86_constants)."
  },
  {
   "property": "C87",
   "status": "proved",
   "theorems": [
    "C87_success",
    "C87_dwd",
    "C87_swiss",
    "C87_noticed",
    "C87_sound",
    "C87_lost",
    "C87_dwd_lost",
    "C87_swiss_lost",
    "C87_kind_pieces",
    "C87_pieces"
   ],
   "note": "The disk is modelled as: each operation is done or fails, and a write may keep only a beginning of the data, with or without an error. Finding: writes are not flushed or checked, so a success does not tell that anything was written (C87_lost, C87_dwd_lost, C87_swiss_lost), nor that an image is whole (C87_kind_pieces, C87_pieces). Whole calls: for services that give the same answers again."
  },
  {
   "property": "C88",
   "status": "proved",
   "theorems": [
    "C88_web",
    "C88_local",
    "C88_german_names",
    "C88_german",
    "C88_swiss_names",
    "C88_swiss",
    "C88_opened_only",
    "C88_any_file"
   ],
   "note": "Finding (C88_any_file, C88_passwd): the links of the Swiss service are not checked, so it can make the program open any file of the machine it runs on. Redirections of ureq are not modelled."
  },
  {
   "property": "C89",
   "status": "proved",
   "theorems": [
    "C89_dwd",
    "C89_swiss",
    "C89_layers",
    "C89_steps",
    "C89_order",
    "C89_calls",
    "C89_all"
   ],
   "note": "The calls have to succeed and to take the same run; C89_empty shows why the parts of a split have to be named."
  },
  {
   "property": "C90",
   "status": "proved",
   "theorems": [
    "C90_written",
    "C90_one_run",
    "C90_newest",
    "C90_oldest"
   ],
   "note": "The counterpart of C83 for the Swiss service. Finding (C90_oldest, C90_oldest_sample): the code takes the last entry of the answer, which is the oldest if the service lists the newest first."
  },
  {
   "property": "C91",
   "status": "proved",
   "theorems": [
    "C91_program",
    "C91_dwd",
    "C91_swiss",
    "C91_below"
   ],
   "note": "The log on the standard output is not a file and not an effect. Dates outside of the years 0 to 9999 are excluded (sane)."
  },
  {
   "property": "C92",
   "status": "proved",
   "theorems": [
    "C92_single",
    "C92_double",
    "C92_reference",
    "C92_rounding",
    "C92_operations",
    "C92_product",
    "C92_from",
    "C92_order",
    "C92_special_order",
    "C92_integers",
    "C92_casts",
    "C92_remainder",
    "C92_minmax"
   ],
   "note": "The reference is Flocq's definition of IEEE 754; that Rust's operations follow the standard is part of the trusted base. The theorems were added when a wrong program (doubles decoded with 12 bits of exponent) was found that no theorem refuted."
  },
  {
   "property": "C93",
   "status": "proved",
   "theorems": [
    "C93_main",
    "C93_program"
   ],
   "note": "The loops of the code go over lists that are fixed when a loop starts, and the reading of files terminates by C02_terminates; a server that never answers is not modelled."
  },
  {
   "property": "C94",
   "status": "proved",
   "theorems": [
    "C94_names",
    "C94_steps",
    "C94_all",
    "C94_hours",
    "C94_runs"
   ],
   "note": "The table is public, but the program itself does not use it. Findings: its last step is one short for every model, and it lists no runs of icon-eu at 03, 09, 15 and 21 (C94_icon_eu)."
  },
  {
   "property": "C95",
   "status": "proved",
   "theorems": [
    "C95_total",
    "C95_nearest",
    "C95_complete",
    "C95_regrid"
   ],
   "note": "Among coordinates equally far from a cell any may be left out. The weights are those of C20: the farther neighbour counts more (finding there)."
  },
  {
   "property": "C96",
   "status": "proved",
   "theorems": [
    "C96_row",
    "C96_temperature",
    "C96_wind",
    "C96_rain"
   ],
   "note": "Below the top row the latitude is interpolated within the tile, so that two zoom levels may differ by rounding there; C64 bounds the place each pixel shows."
  },
  {
   "property": "C97",
   "status": "proved",
   "theorems": [
    "C97_order",
    "C97_temperature",
    "C97_wind",
    "C97_rain"
   ],
   "note": "For clouds and precipitation, which are interpolated, the order of the places is proved (C97_rain)."
  },
  {
   "property": "C98",
   "status": "proved",
   "theorems": [
    "C98_pixel",
    "C98_temperature",
    "C98_wind",
    "C98_rain",
    "C98_inside_temperature",
    "C98_inside_wind",
    "C98_inside_rain"
   ],
   "note": "The grid-point distances are for temperature and wind; for the interpolated layers the distance to the place of interpolation is bounded (C98_rain). The theorems C98_inside_* have no hypothesis about which tiles are rendered."
  },
  {
   "property": "C99",
   "status": "proved",
   "theorems": [
    "C99_temperature",
    "C99_wind",
    "C99_rain",
    "C99_missing",
    "C99_read_temperature",
    "C99_read_wind",
    "C99_read_rain"
   ],
   "note": "Findings: C99_white (one colour for two classes of temperature), C99_clear (missing clouds and rain are drawn like a clear sky)."
  },
  {
   "property": "C100",
   "status": "proved",
   "theorems": [
    "C100_pyramid",
    "C100_rectangle",
    "C100_levels",
    "C100_columns",
    "C100_steps"
   ],
   "note": "C100_pyramid, C100_columns and C100_levels rest on the axioms of the real numbers, C100_rectangle and C100_steps on none."
  }
 ]
}