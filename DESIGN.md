# Design of the formal model

The subject is the Rust program in `/repo` (crate `meteo_grib2_renderer`). It decodes GRIB2 and NetCDF files, puts the
values on regular grids and renders map tiles and binary "meteobin" files for the steps of a weather forecast. The model
is a shallow embedding in Gallina (Coq 8.16.1): one total function for each Rust function, with a comment that gives file
and lines. `properties.jsonl` lists the properties C01, C02, ...; `MANIFEST.json` lists the theorems for each of them.

## Files

For each part X of the program there are four kinds of files in `rocq/theories`:

* `XModel.v`: the model, and nothing else.
* `XSpec.v`: the vocabulary of the properties (encoders, relations on real numbers, layouts, texts), written without
  the helper functions of the model where the property is about their result.
* `XProofs.v` and similar: lemmas.
* `XProperties.v`: the theorems `Cnn_...`, each closed by one lemma, each followed by `Print Assumptions`, with an
  `Example` that shows a concrete case that meets the hypotheses.

| X | part of `/repo/src` | properties |
|---|---|---|
| Grib2 | `grib2/` without `converter/` | C01-C11 |
| Geo | `geo/`, `grib2/converter/` | C12-C22 |
| NetCdf | `netcdf/` without the texts | C23-C27 |
| NcText | the texts (`Display`) and `get_...` of `netcdf/` | C77 |
| Args | the command line of `main.rs` | C78 |
| Req | the functions of Fetch, Dwd, Swiss and Cli that use the network, with a record of the requests | C79 |
| Rfc | the crate chrono's reader of RFC 3339 texts, as called by `icon_ch_forecast_reference_datetime.rs` | C80 |
| Json | the crate serde_json's reader of JSON texts, as called by `meteo_swiss/data_geo_admin_ch/` | C81 |
| Alloc | the buffers that the readers of `grib2/` and `netcdf/` request | C82 |
| History | successive calls for the newest run | C83 |
| Agree | the tiles and the data file of a step | C84 |
| Safe | contents of files that can end a call in a panic | C85 |
| SwissSafe | answers of the Swiss service that can end a call in a panic | C86 |
| Disk | disks that fail | C87 |
| Local | files of the machine itself | C88 |
| Split | requests divided into several calls | C89 |
| SwissHistory | successive calls of the Swiss service | C90 |
| Confined | which files and directories can be touched | C91 |
| OnMap | success and errors with accurate functions | C59, C60, C62 |
| Ieee | the floats of F32 and IEEE 754 | C92 |
| Ends | that every call ends | C93 |
| Config | the unused table of DWD models | C94 |
| Triple | the lookups of the three neighbours of a cell | C95 |
| Zoom | no new model; two zoom levels of the map of Tile | C96 |
| North | no new model; the rows and columns of the map of Tile | C97 |
| Look | no new model; from a place to its pixel | C98 |
| Legend | no new model; from a colour to its class | C99 |
| Pyramid | no new model; tiles at successive zoom levels | C100 |
| Imaging | `imaging/` | C28-C31 |
| Tile, Mercator | `map_tile/` | C32-C34, C63 |
| Physics, Chart | `physics/`, `meteo_chart/meteo_layer/`, `meteo_chart/forecast_renderer/*_chart_renderer.rs` | C35-C39, C56 |
| Metobin | `metobin/`, the byte encodings in the level readers | C40-C45, C57 |
| Forecast | `meteo_common/`, `meteo_chart/forecast_renderer/*_forecast_renderer.rs`, `system/file_helper.rs` | C46-C48, C58 |
| Field | no code of its own: Grib2 and Geo together | C69, C70 |
| Publish | no code of its own: Field, Dwd and Map together | C71 |
| SwissMap, SwissPlace | no code of its own: Field, Swiss and Map together | C72 |
| Place | the lookups by latitude and longitude in the unstructured grids and the layers | C73 |
| Need | no code of its own: Dwd, Swiss and Cli together | C74 |
| Overlap | no code of its own: calls of the program at the same time, and killed ones | C75, C76 |
| Map | no code of its own: Tile, Chart, Metobin and Forecast together | C64, C65 |
| Fetch, Dwd | `dwd/`, `grib2/converter/file_to_grid_converter.rs` | C49, C50, C54, C59, C62 |
| Swiss | `meteo_swiss/` | C51-C54, C60, C62 |
| Service | `meteo_swiss/data_geo_admin_ch/` (JSON requests and answers), `system/file_helper.rs` (decompression) | C66-C68 |
| Cli | `main.rs` | C55, C61 |

`Base.v` (outcomes, byte readers), `F32.v` (floats), `Par.v` (effects and parallel loops) and `Text.v` (decimal numbers,
dates) are used by all of them. `TextSpec.v` says what paths, URLs and times look like without the model's printer.

## How things are modelled

* **Control flow.** `outcome A := Ok a | Err e | Panic`. `Result::Err` is `Err`; an unwinding panic (index out of bounds,
  `unwrap` of an error, arithmetic overflow with checks) is `Panic`. Errors are distinguished by kind only (`EInvalid`,
  `EIo`, `EUtf8`). Functions in which arithmetic can overflow take a boolean `chk`: `true` is a build with overflow checks
  (panics), `false` one without (wraps). Theorems hold for both unless they name one.
* **Readers.** A `Read` stream is the list of its remaining bytes (`Z` in 0..255), a reader is
  `bytes -> outcome (A * bytes)`. `Seek` readers (NetCDF) carry the whole file and a position. A read fails only at the end
  of the file; a connection that breaks down is a file that ends there.
* **Loops.** `for` loops are folds. Loops without an evident bound have fuel and return `None` when it is used up; a theorem
  (C02_terminates, C30) shows that it never is.
* **Machine integers** are `Z`, with explicit wrapping or saturation at each cast.
* **f32 and f64** are `Coq.Floats.SpecFloat.spec_float` with (24,128) and (53,1024), the executable IEEE 754 specification in
  the standard library. `F32Facts.v` links its operations to Flocq's verified ones, so that statements about real numbers
  can be proved.
* **Mathematics library.** `tan`, `cos`, `ln`, `sinh`, `atan`, `atan2` and `powi` have no specified accuracy in Rust. They are
  arguments of the model; theorems quantify over all of them, or over all with a stated accuracy (`libm_ok`, `libm_accurate`,
  `atan2_accurate`, and for `powi` the hypothesis of the C08 theorems). The correctly rounding library is shown to have it.
* **Effects and schedules.** A program with effects is the set of its executions: a list of effects in their order in time
  and the way it ended (`prog` in `Par.v`). A parallel loop (rayon) runs its elements in any order and interleaved in any way;
  when an element fails, any of those not yet started may be skipped. Theorems hold for all executions.
* **Disk.** The state of the disk is a map from paths to contents, changed by the effects. With `faulty = true` each operation
  may fail, and a failed write may leave any prefix of the data. A process that is killed has performed a prefix of the
  effects of some execution (C58, C61); killed in the middle of writing data, it has performed a prefix of an execution
  with `faulty = true`. Saving an image is two effects: the file is created and a beginning of the PNG written
  (`EPart`), then the rest (`EImage`); in between the file holds pieces of the image (`Pieces`). Data that overlapping calls
  write to one file lies over what is there, and images they save at the same time are mixed (`found_after`, C75 and C76).
* **Network and clock.** The answers to requests (files, HEAD requests, search requests) are relations or functions given as
  arguments: each request may be answered differently. The date and time are arguments.

## Trusted base

1. Coq's kernel (8.16.1), its virtual machine (`vm_compute`, used for examples and finite checks), and `SpecFloat`
   as the meaning of f32 and f64.
2. The axioms below, all from the standard library. No other axiom is used, none is added. Flocq and Coquelicot are used as
   libraries of lemmas; they add no axiom.
3. The model being what the Rust code does (next section). It was written by reading the code; the code was not run.

`Print Assumptions` of the 444 theorems:

* **Closed under the global context** (263): C01: round_trip, section2_mandatory; C02: concatenation, only_concatenations, terminates; C03: truncation; C04: accepted_is_message, framing; C05: consumption; C06: panics; C07: data_points, empty_data_section, unsupported; C09: every_pattern, round_trip; C11: data_section; C14: defined, injective, row_major, surjective; C16: value; C19: total; C20: three_frame, three_none, values; C21: add, scale_total; C22: coordinates, parallel, refused, selection; C23: accepted, encodable, round_trip; C24: least, name, refused, values; C25: complete, values; C26: magic, panic, truncated; C27: errors, pairs; C28: empty, no_pixels, outside, point; C29: rows, too_many; C30: line; C31: total; C32: any_end, complete, ends, failure; C33: any_tile; C37: empty, render, temp, wind; C38: vertical_cloud, vertical_wind; C39: gusts, precip_cell, precip_position, speed_cell, speed_position, wind_cell, wind_position; C40: precip, temp, vertical_cloud, vertical_wind, weather, wind; C44: none, present, significant; C45: abort, domain, from_to, table, to_from; C46: any_end, failure, succeeds, success, temp_data, vertical_cloud_data, vertical_wind_data, wind_data; C47: files, layout, paths, schedule; C48: difference, lookup, steps; C49: injective, layout, total; C50: latest, steady, unsupported, yesterday; C51: from_step, name, parse, refused, round_trip, step; C52: answer, files, hourly, numbers, unique; C53: find, latest, name, parse, round_trip, run_name, text; C54: dwd_heights, dwd_order, dwd_paths, dwd_same, swiss_heights, swiss_order, swiss_paths, swiss_same; C55: files, report, unknown; C57: cloud_file, wind_file; C58: prepared; C59: output; C60: output; C61: kept, untouched; C62: swiss_missing; C65: vertical_cloud, vertical_wind; C66: files, found, latest; C67: assets, more, more_feature, search; C68: compressed, dwd, plain; C69: only, unstructured; C73: plain_cell; C74: dwd, program, swiss; C75: beside, dwd, kept, swiss; C76: cut, dwd, dwd_repaired, dwd_steady, dwd_together, swiss, swiss_repaired, swiss_settled, swiss_together; C77: getters, lines, order, tells, types; C78: arguments, call, order, refused, same; C79: dwd, once, same, search, service, swiss; C80: dated, leap, own, reads, reference, round; C81: assets, assets_any, one, refused, request, search, search_any, value, written; C82: grib, grib_total, header, message, netcdf, netcdf_total, same, same_netcdf, values; C83: forward, recent, written; C86: constants; C87: dwd, dwd_lost, kind_pieces, lost, noticed, pieces, sound, success, swiss, swiss_lost; C88: any_file, german, german_names, local, opened_only, swiss, swiss_names, web; C89: all, calls, dwd, layers, order, steps, swiss; C90: newest, oldest, one_run, written; C91: below, dwd, program, swiss; C92: special_order; C93: main, program; C94: all, hours, names, runs, steps; C95: total; C100: rectangle, steps.
* **`ClassicalDedekindReals.sig_forall_dec`, `FunctionalExtensionality.functional_extensionality_dep`** (9): C36: class_unique; C37: cloud_precip; C46: cloud_precip_data; C57: cover; C59: succeeds; C60: succeeds; C62: dwd, swiss; C92: casts.
* **These two and `ClassicalDedekindReals.sig_not_dec`, `Classical_Prop.classic`** (172): C08: correctly_rounded, error, monotone, powi; C10: angle, negative_angle; C12: idempotent, identity, normalise; C13: adjacent, bounding, construct, inside, midpoint; C15: accuracy, defined, monotone, position, position_defined, range; C16: by_position; C17: corner, f32, missing, one_axis, other_axis, outside, u8; C18: nearest; C19: complete, nearest; C20: three_mean, three_u8; C21: equal, scale, scale_error; C27: accuracy; C31: bilinear, outside, plain; C33: pixels; C34: column, columns, position, round_trip, rows; C35: composition; C36: cloud, cloud_monotone, rain, temperature, wind; C38: cloud_precip, weather, wind; C39: direction, speed_accurate, speed_nonneg; C41: accurate, cold, missing, monotone; C42: classes, missing, monotone; C43: component, gust, missing, monotone; C44: ceiling, ceiling_missing, ceiling_monotone, sky; C56: accurate, monotone, round_trip, round_trip_back, round_trip_temperature, rounding; C57: height, wind, wind_kept; C59: on_map; C60: cells, on_map; C62: dwd_on_map, swiss_on_map; C63: distortion, inside, inverse, latitude, pixels, row, row_north; C64: addressable, coverage, rain, temperature, wind; C65: rain, temperature, weather, wind; C69: cells, order, succeeds; C70: message, place; C71: messages, rain, temperature, vertical_cloud, vertical_wind, weather, wind; C72: rain, temperature, vertical_cloud, vertical_wind, wind; C73: found, near, plain, points, regular, three, weather; C84: rain, temperature, wind; C85: bad, dwd; C86: swiss; C92: double, from, integers, minmax, operations, order, product, reference, remainder, rounding, single; C95: complete, nearest, regrid; C96: rain, row, temperature, wind; C97: order, rain, temperature, wind; C98: inside_rain, inside_temperature, inside_wind, pixel, rain, temperature, wind; C99: missing, rain, read_rain, read_temperature, read_wind, temperature, wind; C100: columns, levels, pyramid.

These axioms come from the standard library's real numbers. Statements without real numbers or floats in their proofs do not
need them.

## What is modelled and what is not

Modelled, function by function: all of `/repo/src` with the exceptions below.

Not modelled, or given as an argument:

* `image` crate: the PNG encoding. A saved image is its pixels (`Png d`).
* `ureq`, TLS, HTTP: an answer is an argument (a JSON answer of more than 10 MB, which `ureq` refuses, counts as an error). `bzip2`: the decompressor is an argument; C68 says for which files it is called.
* `serde_json`: the text of the requests and the decoding of JSON values into records (the code that `serde` derives) are
  modelled in `ServiceModel.v`, the parser from the text of an answer to its JSON value in `JsonModel.v` (strict everywhere:
  the crate tolerates more in members that are ignored; which numbers are out of range is a parameter).

* `chrono`: the proleptic Gregorian calendar and the formats used are modelled. The parser of RFC 3339 texts is an argument
  (any function from texts to instants) except in C80, where it is modelled from the crate's published source.
* `clap`: its rules for the three options of `Args` are modelled (ArgsModel.v), its code and the texts it prints are not. Logging and stderr are not modelled.
* `rayon`: as described above; no bound on threads.
* The texts of errors (`wo_text` is an argument), `std::fmt::Debug` output.
* `system/tstamp.rs` (prints a time; not used).
* What happens when memory is exhausted (C82 is about the sizes requested by the readers), stack overflow, integer limits of `usize` on 32-bit machines, more than 2^32 rows in an image.
* NaN payloads and signs (never observed by the program).

Simplifications are noted at each definition. The main ones: `HashMap`s are association lists with first-match lookup;
errors of different Rust types with the same role are one kind; strings are lists of bytes.

## Property by property

| id | what is modelled | how it is proved |
|----|----------|-------|
| C01 | all GRIB2 section readers, document reader | encoder in `Grib2Spec.v`; reading an encoded message gives it back, section by section |
| C02 | multi-document loop (fuel = input length, shown sufficient) | induction on documents |
| C03 | same | readers are monotone in the suffix; C01 |
| C04 | same | inversion of the reader |
| C05 | same | inversion: bytes consumed as a function of the announced lengths |
| C06 | same, both profiles | "no panic unless" by structural lemmas; witnesses by computation |
| C07 | `calculate_data_points` | induction on the bitmap; relational specification |
| C08 | same, `powi` an argument | Flocq error bounds, monotonicity |
| C09 | sign-magnitude reader | arithmetic |
| C10 | angle reader | arithmetic, correctly rounded division |
| C11 | section 7 | arithmetic |
| C12 | `LatLon::new` | exactness of the float remainder |
| C13 | `LatLonExtent` | order lemmas, induction over lists |
| C14 | `get_index_by_x_y` | arithmetic |
| C15 | `get_x_y_by_lat_lon`, `get_lat_lon_by_x_y` | monotone rounding, error bounds |
| C16 | `LatLonValueGrid` | case analysis |
| C17 | interpolator | case analysis; bounds in the reals |
| C18 | `CoordDistTriple` | induction over the sequence of offers |
| C19 | lookup map | loop invariant over coordinates; windows by error bounds |
| C20 | `create_regular_grid` | induction over cells |
| C21 | `GridValueType` | saturation, reals |
| C22 | converters | list induction; collect as a relation over schedules |
| C23-C26 | NetCDF readers | encoder in `NetCdfSpec.v`, round trip; inversion |
| C27 | `netcdf_to_grid_converter` | case analysis |
| C28-C31 | `Drawable`, `Image` | list update lemmas; invariant of the line algorithm |
| C32-C33 | tile renderer | interleavings, NoDup; exact float arithmetic |
| C34 | tile columns | exact powers of two, error bounds |
| C35-C37 | chart colours and renderer | case analysis, arithmetic |
| C38-C39 | layers | case analysis; error bounds for sqrt and atan2 |
| C40 | meteobin layout | list indexing |
| C41-C45, C57 | meteobin encodings | rounding lemmas, case analysis |
| C46-C47 | forecast renderers | all interleavings; files of different steps are different |
| C48 | model ranges | arithmetic |
| C49 | DWD URLs | independent grammar of the URLs; injectivity |
| C50 | run finder | induction on candidates; calendar |
| C51-C53 | Swiss horizons, order, times | string lemmas, stable sort, calendar |
| C54 | variable filter | case analysis over all filters |
| C55 | `main` | case analysis |
| C56 | `physics/` | monotone rounding, error bounds |
| C58 | order of effects, disk faults, kills | invariant over traces |
| C59 | bytes of the DWD files to the files on disk | composition |
| C60 | answers of the Swiss service to the files on disk | composition |
| C61 | histories of calls, also killed ones | invariant over histories |
| C62 | failing requests | composition, no panic |
| C63 | tile rows and pixels against Web Mercator | real analysis: derivatives of the Gudermannian, error propagation |
| C64 | pixels of published tiles against the data | composition of C32-C39, C46-C47, C63 |
| C65 | records of published meteobin files against the data | composition of C40-C45, C46-C47 |
| C66 | texts of the requests | symbolic evaluation of the printer of JSON values against a literal text |
| C67 | decoding of answers | relational specification of records; equivalence with the decoder by induction |
| C68 | decompression | string lemmas |
| C69 | bytes of a message to a grid | composition of C01, C04, C07, C10, C12, C13 |
| C70 | places of the points of a message | error bounds of C15 |
| C71 | messages of the service to the map and the data files | composition of C49, C59, C64, C65, C69 |
| C72 | messages of the Swiss service to the map and the data files | error bounds for centres and distances; composition of C02, C52, C60, C64, C65 |
| C73 | values looked up by place | accuracy of the cell of a place, triangle inequality, the nearest-point search of C19 |
| C74 | the files a rendering depends on | congruence: programs with the same executions |
| C75 | overlapping calls | last effect on a file in an interleaving; content that belongs to a file is unique |
| C76 | killed calls | invariant over the effects on a file; order of effects (C58) |
| C77 | NetCDF headers as text | each piece of text can be told apart with anything behind it |
| C78 | command line | a grammar of lines against the reader of words; executions depend on variables and steps only as sets |
| C79 | requests | erasing the record gives the program without it, both ways; the requests of a part are a list known beforehand, up to order, or some of it; lists of parallel parts are concatenated |
| C80 | texts of times | the reader is a chain of small scanners, each with an exact description of the texts it accepts; the specification is the grammar of RFC 3339; both directions |
| C81 | texts of requests and answers | the specification is the grammar of RFC 8259 as inductive relations; the reader is proved sound by induction on its fuel and complete by mutual induction on the derivation; the printer by induction on the nesting |
| C82 | memory taken by the readers | the readers with a record of the sizes of their buffers are proved to have the same results; the bound by a predicate on such readers that is closed under sequences, lists and loops |
| C83 | forecasts never go back | the run of a call is known by C50; two calls on a day by the order of the runs, on different days by the order of the day numbers, which determine the dates; the written paths by C54 |
| C84 | map and data file tell the same | the lookups in grids with the same cells use the same cell or the same four cells and fractions; then C64 and C65; speeds by the triangle inequality, amounts by the linearity of the interpolation |
| C85 | only listed contents of files end a call in a panic | the outcome of each file asked for (list of C79) from C06, C07, C69; the layers refuse mismatching grids with an error (C38); then C46 for each layer |
| C86 | only listed answers of the Swiss service end a call in a panic | every reading gives a grid of the fixed size or an error (C02, C06, C07, C20), lookups of steps by their numbers (C52); then C46 for each layer |
| C87 | what a success tells on a disk that may fail | the effects of each step (C46, C58), the last effect on a file (C76); a simulation of the sound disk by one that loses everything |
| C88 | which files are opened (`open_file`), with the requests of C79 | an execution stays one when answers to what was not asked are changed (a simulation through all readers and renderers); the names asked for are those of C49 and C52 |
| C89 | `render_dwd_latest`, `render_swiss_latest` of several selections | what belongs to a series of calls (C75) depends only on the layers and steps that it asks for |
| C90 | `find_latest_ref` and the paths of C54 | the run is that of the last entry (C53); the hour of a time grows with the time |
| C91 | all effects of `main` | every effect belongs to a file of C75's specification, or is the directory of one; the layout of C47; digits have no dots |
| C92 | the operations of `F32` | equal to Flocq's `Bits` and `BinarySingleNaN`; the reals they stand for |
| C93 | `main`, `program` | each combinator ends if its parts end; reading always gives something |
| C94 | `dwd_config_of`, `forecast_steps`, `find_latest_run` | cases of the three models; the run found has one of the eight names |
| C95 | `calc_coord_dist_lookup_map1`, `create_regular_grid1` | the slot of a cell is the fold of C18 over the coordinates that touch it |
| C96 | `create_single_tile` at two zoom levels | scaling by a power of two is exact in floats, and the first row adds a zero to the latitude of the tile |
| C97 | `create_single_tile`, `value_by_lat_lon` | the error of a row is small relative to the height of its tile (lower bound from the derivative of the Gudermannian); the cell is a monotone function of the place |
| C98 | `create_single_tile`, `value_by_lat_lon` | the row of a latitude inverts the latitude of a row (sinh, ln and atan cancel); the Gudermannian is 1-Lipschitz; C64 for the pixel |
| C99 | `temp_color`, `wind_color`, `rain_color`, `cloud_color`, `compose` | the limits of each legend are sorted and its colours distinct (except white); compositions of different pairs of classes differ by more than the rounding, checked over integers; C98 for the map |
| C100 | `from_position`, `create_all_tiles` | multiplication by a power of two is exact in floats, so that the tile of a corner at one level is half of that at the next; C47 for the files |

No property is left out of the model. Where the code does not do what one would expect, the theorem says what it does, and the
property says "(finding)"; each finding is shown by a theorem or an example.

## Tests of the theorems

`seeded/LOG.jsonl` has one line for each wrong program tried: the model was edited in a scratch copy as a realistic bug would
do, and rebuilt. A lemma that could not be proved any more was set aside, and all theorems that depend on it count as failed.
