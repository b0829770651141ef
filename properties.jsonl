{"id": "C01", "title": "GRIB2 message round trip and exact consumption", "statement": "Serialise any GRIB2 message made of sections 0,1,2,3,4,5,6,7,8 (edition-2 layout, the templates the reader supports: grid 3.0/3.101, product 4.0/4.1/4.8, representation 5.0, 16-bit packed data) and read it back with the single-document reader, followed by arbitrary further bytes: the reader returns exactly the field values that were serialised and leaves the stream positioned on the first byte after the terminating 7777. A message without the optional section 2 is rejected (finding).", "quantifier": "every well-formed message (any field values that fit their wire widths, any number of data points, any bitmap, any coordinate list, section 2 present or absent when selected) and every suffix", "why_tests_cant": "The space of messages is unbounded; a unit test fixes a handful of files.", "anchors": ["src/grib2/document/grib2_document_reader.rs: read_single_doc", "src/grib2/section0/section0_reader.rs: read", "src/grib2/section1/section1_reader.rs: read", "src/grib2/section2/section2_reader.rs: read", "src/grib2/section3/section3_reader.rs: read", "src/grib2/section3/section3_template_3_0_reader.rs: read", "src/grib2/section3/section3_template_3_101_reader.rs: read", "src/grib2/section4/section4_reader.rs: read", "src/grib2/section4/section4_template_4_0_reader.rs: read", "src/grib2/section4/section4_template_4_1_reader.rs: read", "src/grib2/section4/section4_template_4_8_reader.rs: read", "src/grib2/section5/section5_reader.rs: read", "src/grib2/section6/section6_reader.rs: read", "src/grib2/section7/section7_reader.rs: read", "src/grib2/section8/section8_reader.rs: read"]}
{"id": "C02", "title": "Concatenated documents are all returned, in order", "statement": "Reading a file which is the concatenation of n>=1 well-formed messages returns exactly those n documents in file order; if a message is followed by bytes that are not a complete message, the documents before it are returned and the rest is silently dropped; if not even the first message can be read the result is an error, never an empty list.", "quantifier": "every number of messages, every message, every trailing garbage", "why_tests_cant": "Requires induction over the number of documents in the file.", "anchors": ["src/grib2/document/grib2_document_reader.rs: read_multi_doc"]}
{"id": "C03", "title": "Truncated messages never yield a document", "statement": "If the input is a proper prefix of a serialised well-formed message, the single-document reader does not return Ok.", "quantifier": "every well-formed message and every cut point", "why_tests_cant": "Every cut point of every message would have to be tried.", "anchors": ["src/grib2/document/grib2_document_reader.rs: read_single_doc", "src/grib2/common/byte_reader.rs"]}
{"id": "C04", "title": "Accepted input carries the GRIB framing", "statement": "Whenever the single-document reader returns Ok, the consumed bytes start with 'GRIB', contain section numbers 1,(2),3,4,5,6,7 in that order at the section starts the reader used, end with '7777', and the documents' variable-length fields have exactly the length announced in the file.", "quantifier": "every byte string on which the reader succeeds", "why_tests_cant": "It is a statement about all byte strings (soundness of acceptance).", "anchors": ["src/grib2/section0/section0_reader.rs", "src/grib2/section1/section1_reader.rs", "src/grib2/section2/section2_reader.rs", "src/grib2/section3/section3_reader.rs", "src/grib2/section3/section3_template_3_0_reader.rs", "src/grib2/section3/section3_template_3_101_reader.rs", "src/grib2/section4/section4_reader.rs", "src/grib2/section4/section4_template_4_0_reader.rs", "src/grib2/section4/section4_template_4_1_reader.rs", "src/grib2/section4/section4_template_4_8_reader.rs", "src/grib2/section5/section5_reader.rs", "src/grib2/section6/section6_reader.rs", "src/grib2/section7/section7_reader.rs", "src/grib2/section8/section8_reader.rs", "src/grib2/document/grib2_document_reader.rs"]}
{"id": "C05", "title": "Consumption is a function of the announced lengths", "statement": "The number of bytes each section reader consumes on success is fixed by the section: sections 1, 2 and 6 consume the announced length, section 7 the announced length or one byte less when the payload is odd, section 5 with template 5.0 always 21 bytes, section 3 always 72 or 35 bytes whatever length is announced (finding), section 4 with product 4.0/4.1/4.8 the template's size plus four bytes per coordinate value, and with an unsupported template the announced length plus four bytes per coordinate value (finding).", "quantifier": "every byte string on which the section reader succeeds", "why_tests_cant": "Ranges over all section contents.", "anchors": ["src/grib2/section1/section1_reader.rs", "src/grib2/section4/section4_reader.rs", "src/grib2/section7/section7_reader.rs"]}
{"id": "C06", "title": "Readers panic only on the listed malformed inputs", "statement": "In either build profile the section readers panic only for: an impossible calendar date/time in section 1 or an announced length too small for the section (sections 1 and 2; 4, 5, 6, 7 with overflow checks). For every other byte string reading ends with Ok or Err. (Refutes 'the reader never panics on untrusted input', with witnesses.)", "quantifier": "every byte string, both build profiles", "why_tests_cant": "Absence of panics needs all byte strings.", "anchors": ["src/grib2/section1/section1_reader.rs: read_ref_time", "src/grib2/section6/section6_reader.rs", "src/grib2/section7/section7_reader.rs"]}
{"id": "C07", "title": "Number of data points returned follows the bitmap", "statement": "Decoding yields one value per grid point of section 3, in order. With an empty bitmap point i takes packed value i; with a bitmap (most significant bit first in each byte) each set bit consumes the next packed value in order and each clear bit yields the missing value. Empty packed data yields only missing values (finding: constant fields), and a bitmap or packed data that is too short panics.", "quantifier": "every bitmap, every list of packed values, every missing value and transformation", "why_tests_cant": "Any bitmap length and population is possible.", "anchors": ["src/grib2/document/grib2_document.rs: calculate_data_points"]}
{"id": "C08", "title": "Simple-packing decode formula", "statement": "Each packed integer X decodes to (R + X*2^E)/10^D evaluated in single precision and then transformed by the caller's function; for D=0 and E in range the decoded value is the correctly rounded value of the exact sum and is monotone in X; for other D the relative error is bounded by three half-ulps plus twice the error of the power function.", "quantifier": "all reference values, scale factors and packed values", "why_tests_cant": "2^16 codes x 2^16 scale pairs x all reference values.", "anchors": ["src/grib2/document/grib2_document.rs: calculate_data_points"]}
{"id": "C09", "title": "Sign-magnitude integers decode correctly", "statement": "Reading a GRIB2 sign-magnitude 16-bit integer encoding of v returns v for every v in -32767..32767; every 16-bit pattern decodes to a value in this range and the only two patterns with the same value are the two zeros.", "quantifier": "all 16-bit patterns / all values", "why_tests_cant": "Exhaustiveness over the full range plus injectivity.", "anchors": ["src/grib2/common/signed_number.rs: u16_be_bytes_to_i16"]}
{"id": "C10", "title": "Grid angles decode correctly exactly when non-negative", "statement": "For an angle encoded in micro-degrees in the GRIB2 sign-magnitude convention, the angle returned by the reader has relative error at most 2^-22 when it is >= 0 (correctly rounded for magnitudes up to 2^24 micro-degrees); every strictly negative angle is decoded as a value > 2147 degrees instead (finding).", "quantifier": "every 32-bit angle field", "why_tests_cant": "Statement about all 2^32 fields.", "anchors": ["src/grib2/common/angle_reader.rs"]}
{"id": "C11", "title": "Data section reads 16-bit values only", "statement": "Section 7 returns floor((length-5)/2) big-endian 16-bit values independent of the number of bits announced in section 5; hence for a field packed with 16 bits the values are exactly the packed ones, and for any other announced width they are not (finding).", "quantifier": "every data section", "why_tests_cant": "Any length/bit width.", "anchors": ["src/grib2/section7/section7_reader.rs"]}
{"id": "C12", "title": "Coordinate normalisation", "statement": "Constructing a coordinate from any finite latitude/longitude yields both components in [-180,180), congruent to the given values modulo 360 exactly (no rounding error), and is the identity on components already in the range; constructing again changes nothing. Applied to +180 it yields -180.", "quantifier": "all finite single-precision latitude/longitude pairs", "why_tests_cant": "2^64 pairs; exactness of the floating-point remainder must be proved.", "anchors": ["src/geo/common/lat_lon.rs: LatLon::new"]}
{"id": "C13", "title": "Extent construction, containment and midpoint", "statement": "Constructing an extent succeeds exactly when min<=max in both components, otherwise it panics; containment is half-open on both axes so that two extents that share an edge never both contain a point; the midpoint lies within the closed extent; the bounding extent of a non-empty list of in-range coordinates contains (closed) every coordinate and touches each side.", "quantifier": "all finite coordinates, all coordinate lists", "why_tests_cant": "Lists of arbitrary length and all floats.", "anchors": ["src/geo/common/lat_lon_extent.rs"]}
{"id": "C14", "title": "Row-major index is a bijection", "statement": "The index of (x,y) in a grid of dimensions (w,h) is defined exactly for x<w, y<h; distinct cells have distinct indexes and every index below w*h belongs to exactly one cell.", "quantifier": "all dimensions and all cells", "why_tests_cant": "Unbounded dimensions.", "anchors": ["src/geo/grid/lat_lon_grid.rs: get_index_by_x_y"]}
{"id": "C15", "title": "Position lookup inside / outside the grid", "statement": "Looking up grid coordinates of a position succeeds exactly when the position is inside the half-open extent; when it succeeds the fractional cell coordinates are >= 0, at most the dimension up to a relative 2^-22, within 2^-21 times the dimension of the exact fractional coordinates, and monotone in longitude and latitude respectively. Conversely the position of fractional cell coordinates is defined exactly when they are at least zero and below the dimensions, and lies that fraction of the way between the borders of the extent, up to 1/4096 degree and whole turns.", "quantifier": "all positions, all grids with a finite extent of positive size", "why_tests_cant": "All float positions.", "anchors": ["src/geo/grid/lat_lon_grid.rs: get_x_y_by_lat_lon"]}
{"id": "C16", "title": "Value lookup semantics", "statement": "Looking up a value by cell returns the stored value at row-major position iff the cell is inside and the stored value is different from the missing value; it returns none for cells outside and for missing values, and a grid whose value list has at least w*h entries never panics. A lookup by position uses the cell with the nearest index, so the last half cell of the extent has no value (finding).", "quantifier": "all value grids, cells, missing values", "why_tests_cant": "Any size, any values including NaN.", "anchors": ["src/geo/grid/lat_lon_value_grid.rs: get_value_by_xy, get_value_by_lat_lon"]}
{"id": "C17", "title": "Interpolation propagates missing data and stays in range", "statement": "Interpolating at a position returns none whenever the position is outside the extent or one of the cells used is missing/outside; otherwise the result lies between the minimum and maximum of the cells used up to rounding, and at a cell corner equals the stored value exactly. When exactly one of the fractional coordinates is integral the other axis is not interpolated at all (finding).", "quantifier": "all value grids and positions", "why_tests_cant": "All grids, all positions.", "anchors": ["src/geo/grid/lat_lon_value_grid_interpolator.rs: interpolate"]}
{"id": "C18", "title": "The three nearest coordinates are kept", "statement": "After offering any sequence of coordinates with distances to a triple, the triple holds three of the offered entries (all of them when fewer than three), each with its own coordinate index, and no rejected entry is nearer than a kept one.", "quantifier": "every finite sequence of (index, distance) with finite distances", "why_tests_cant": "Any number and order of insertions.", "anchors": ["src/geo/grid/coord_dist_triple.rs"]}
{"id": "C19", "title": "Nearest-neighbour lookup map is sound and nearest", "statement": "For an unstructured grid, each cell of the regular grid is mapped to a coordinate only if that coordinate is within the maximum distance of the cell centre, its window covers the cell, and no other such coordinate is strictly nearer; a cell is unmapped iff no coordinate whose window covers the cell is within the maximum distance. Ties go to the later coordinate. For geographic grids with cells of at least 1/512 degree, maximum distance up to 64 degrees and coordinates clear of the antimeridian the windows miss no coordinate; at the antimeridian they do (finding).", "quantifier": "every coordinate list, grid and maximum distance", "why_tests_cant": "Any number of coordinates.", "anchors": ["src/geo/grid/unstructured_grid.rs: calc_coord_dist_lookup_map, get_coord_dist", "src/geo/grid/unstructured_grid1.rs"]}
{"id": "C20", "title": "Regridding takes each cell's value from its mapped coordinate", "statement": "Creating a regular grid from an unstructured value grid yields w*h values, each the value of the mapped coordinate or the missing value when unmapped; with three neighbours it depends on no values but those of the mapped coordinates. With three neighbours the farther coordinate gets the larger weight, distance zero gives NaN and missing neighbours give 0 (findings). The f32 value of a cell with three neighbours is the mean of their values weighted by distance, missing ones counting as 0, up to rounding; for bytes the shares are rounded one by one, and a sum above 255 panics or wraps around (finding).", "quantifier": "every lookup map, value list, missing value", "why_tests_cant": "Any grid.", "anchors": ["src/geo/grid/unstructured_value_grid.rs: create_regular_grid", "src/geo/grid/unstructured_value_grid1.rs"]}
{"id": "C21", "title": "u8 grid values: scaling saturates, addition saturates", "statement": "Scaling a u8 grid value by a non-negative finite factor and adding two u8 grid values never panics and the result is the exact result clamped to 0..255 (rounded as implemented); weights summing to one of equal values reproduce the value within one unit.", "quantifier": "all u8 values and all f32 factors", "why_tests_cant": "All factors.", "anchors": ["src/geo/grid/grid_value_type.rs"]}
{"id": "C22", "title": "Conversion pipeline keeps the association of coordinates, values and documents", "statement": "The coordinate list built from a latitude and a longitude document pairs their values by position; documents with different numbers of values, or a value document with a different number of values than there are coordinates, are refused with an error. Selecting a range of documents keeps exactly those documents in order, and the parallel conversion yields the grids in document order whatever the schedule, succeeding exactly if every document converts.", "quantifier": "every document, coordinate list, index range and schedule", "why_tests_cant": "Any number of values and documents, any interleaving.", "anchors": ["src/grib2/converter/grib2_to_grid_converter.rs", "src/grib2/converter/unstructured_grid_converter.rs", "src/grib2/converter/file_to_grid_converter.rs"]}
{"id": "C23", "title": "NetCDF header round trip", "statement": "Every encoding of a NetCDF classic 64-bit-offset header (dimensions, global attributes of every type, variables with attributes), with any padding contents, is read back as the same header and exactly its bytes are consumed. Conversely every byte string that is accepted is such an encoding of a well-formed header followed by the unread rest.", "quantifier": "every header (any number of dimensions, attributes, variables; any UTF-8 names)", "why_tests_cant": "Unbounded nested lists.", "anchors": ["src/netcdf/header", "src/netcdf/common"]}
{"id": "C24", "title": "NetCDF padding", "statement": "Names and packed attribute values are padded to a multiple of four bytes: whatever the bytes, reading a name or any number of values of any type consumes exactly the announced data plus the least padding that makes it a multiple of four; reading values fails exactly when too few bytes are left. A name is accepted only if it is the UTF-8 encoding of Unicode scalar values.", "quantifier": "every name length / value count", "why_tests_cant": "Every length modulo 4, any length.", "anchors": ["src/netcdf/header/netcdf_name_reader.rs", "src/netcdf/common/netcdf_values_reader.rs"]}
{"id": "C25", "title": "NetCDF variable data", "statement": "A document that is read holds, for every requested variable name, exactly floor(vsize/typesize) big-endian values decoded from the bytes at the offset announced by the first header variable of that name, and nothing else; it is read whenever all of them exist with their bytes in the file, and otherwise the result is an error. With the standard's padded vsize a byte, char or short variable whose real size is not a multiple of four gets surplus trailing values (finding).", "quantifier": "every header and data area", "why_tests_cant": "Any number and placement of variables.", "anchors": ["src/netcdf/data/netcdf_data_reader.rs", "src/netcdf/document/netcdf_document_reader.rs"]}
{"id": "C26", "title": "NetCDF rejects truncated and foreign files", "statement": "A file whose first four bytes are not 'CDF' version 2 is never accepted; a header cut short anywhere is refused with an I/O error. The reader panics exactly on the files that are a well-formed header up to the place of a type number (of a global attribute, of an attribute of a variable, or of a variable) and have a number other than 1 to 6 there (finding); reading the data of variables never adds a panic.", "quantifier": "every byte string / every cut", "why_tests_cant": "All byte strings.", "anchors": ["src/netcdf/header/netcdf_magic.rs", "src/netcdf/header/netcdf_magic_reader.rs"]}
{"id": "C27", "title": "NetCDF to coordinates", "statement": "Converting a document to coordinates pairs the i-th clat with the i-th clon and has as many coordinates as clat values; absent variables or different lengths give an error. It panics exactly when both variables exist and one is not of type double (finding). The coordinates are the radians of the file in degrees, up to full turns and a relative error of 2^-23.", "quantifier": "every document", "why_tests_cant": "Any length.", "anchors": ["src/netcdf/converter/netcdf_to_grid_converter.rs"]}
{"id": "C28", "title": "Drawing a point changes exactly one pixel", "statement": "A new image is transparent and has width*height*4 bytes; a zero-sized image is refused. Drawing a point inside the image makes that pixel the given colour and leaves every other pixel unchanged; outside the image it panics.", "quantifier": "all image sizes with 4*w*h < 2^32, all coordinates, all colours", "why_tests_cant": "Frame condition for all pixels.", "anchors": ["src/imaging/drawable.rs: draw_point, create_empty"]}
{"id": "C29", "title": "Images from rows are flipped vertically", "statement": "Creating a w x h image from rows yields the image whose pixel (x,y) is rows[h-1-y][x], transparent where no row covers it; a row longer than w, or a non-empty row beyond the first h, makes it panic.", "quantifier": "all sizes with 4*w*h < 2^32, all lists of up to 2^32 rows", "why_tests_cant": "Any size.", "anchors": ["src/imaging/drawable.rs: create_with_data"]}
{"id": "C30", "title": "Line drawing terminates and connects the end points", "statement": "Drawing a line whose end points are inside the image always terminates, paints both end points and a connected sequence of pixels (one step in each axis at most) inside their bounding box, and changes no other pixel. It visits max(|dx|,|dy|)+1 points, except 2|dx|+1 (a staircase) if |dx|=|dy| is even, and each is within (1+min/max)/2, so at most one pixel, of the ideal line along the minor axis.", "quantifier": "all end points", "why_tests_cant": "Termination of an unbounded loop over all integers.", "anchors": ["src/imaging/drawable.rs: draw_line"]}
{"id": "C31", "title": "Pixel interpolation", "statement": "Interpolating a pixel colour never panics, whatever the position. Outside the image it is transparent. Strictly between four pixels (transparent beyond the border) each channel is the bilinear combination of their channels rounded down twice: never above their maximum, at most two below their minimum, and within 2 of the exact combination. If a coordinate is integral the pixel at the rounded down position is returned without interpolation.", "quantifier": "all images, all float positions", "why_tests_cant": "All float positions.", "anchors": ["src/imaging/image.rs: interpolate_pixel_color"]}
{"id": "C32", "title": "Every tile of the covered range is rendered exactly once", "statement": "For each zoom level of the range, each tile between the tiles of the two extent corners (inclusive on both axes) is created and handed to the save function exactly once, and no other tile is, whatever the parallel schedule; the content of each tile depends on that tile only. If the rendering fails it panics, because a tile could not be rendered or a zoom level of 32 or more overflowed, and until then no tile is handed out twice or with a wrong content.", "quantifier": "all extents, zoom ranges, value/colour functions and all schedules of the parallel loop", "why_tests_cant": "All interleavings.", "anchors": ["src/map_tile/map_tile_renderer.rs: create_all_tiles"]}
{"id": "C33", "title": "Tile pixels", "statement": "Pixel (j,i) of a tile is the colour of the value at the position of that pixel or fully transparent when there is no value; nothing else influences it. Up to zoom 10 its longitude is exactly that of j/256 of the tile's width, and its latitude lies within 1/16384 degree of i/256 of the way between the tile's edges.", "quantifier": "all tiles, value functions, colour functions, pixels", "why_tests_cant": "All value functions.", "anchors": ["src/map_tile/map_tile_renderer.rs: create_single_tile"]}
{"id": "C34", "title": "Tile longitude arithmetic", "statement": "Converting a tile coordinate to a position gives exactly the longitude x/2^zoom*360-180, and the tile of that position has the same x (zoom <= 18); a longitude in column x at least 1/16384 degree away from the next column is put into column x; columns are monotone in the longitude and below 2^zoom for longitudes up to 180-2^-15. Longitude 180 and the float just below it give column 2^zoom which does not exist (finding). Rows go from north to south.", "quantifier": "all zooms up to 18 (24 for the monotonicity), all tile columns, all float longitudes in [-180,180]", "why_tests_cant": "All floats.", "anchors": ["src/map_tile/map_tile_coord.rs"]}
{"id": "C35", "title": "Cloud/precipitation colours compose without overflow", "statement": "The composed colour of any cloud cover and precipitation value never overflows or wraps a channel in either build profile: each colour channel is the source-over composition (multiplied with its opacity) of the rain colour over the cloud colour, rounded down at most twice and at most 255; the opacity is the composed opacity rounded down once and at least that of each component.", "quantifier": "all pairs of floats including NaN and infinities", "why_tests_cant": "All float pairs.", "anchors": ["src/meteo_chart/forecast_renderer/cloud_precip_chart_renderer.rs: color_fn"]}
{"id": "C36", "title": "Colour scales are total and step at the documented limits", "statement": "The rain, cloud, temperature and wind colours of any float are the entry of the class the value falls in (class limits inclusive below, exclusive above; a temperature is classified by its exact difference to the float nearest to 273.15); the cloud opacity is monotone in cover. NaN is drawn with the colour of the highest class (finding).", "quantifier": "all floats", "why_tests_cant": "All floats.", "anchors": ["src/meteo_chart/forecast_renderer/cloud_precip_chart_renderer.rs: color_fn", "src/meteo_chart/forecast_renderer/single_chart_renderer.rs: color_fn", "src/meteo_chart/forecast_renderer/temp_2m_chart_renderer.rs: color_fn", "src/meteo_chart/forecast_renderer/wind_10m_chart_renderer.rs: color_fn"]}
{"id": "C37", "title": "Full chart renderer draws each grid cell once, north up", "statement": "Rendering a full chart paints pixel (x, h-1-y) with the colour of the value of cell (x,y), and leaves it transparent when the value is absent; it fails only for an empty size or if a value or colour does, and never for a layer with complete grids.", "quantifier": "all sizes whose buffer is below 4 GiB, value and colour functions; all layers with complete grids", "why_tests_cant": "Any size and function.", "anchors": ["src/meteo_chart/forecast_renderer/single_chart_renderer.rs"]}
{"id": "C38", "title": "Layers refuse mismatching grids", "statement": "A cloud/precipitation, wind or weather layer is constructed iff the grids it checks agree in dimensions and extent, otherwise an error is returned; the vertical layers panic for empty or unequal level counts. The weather layer does not check its optional weather grid, so the weather of a cell can be that of another place (finding).", "quantifier": "all grids", "why_tests_cant": "All combinations.", "anchors": ["src/meteo_chart/meteo_layer/meteo_cloud_precip_layer.rs: new", "src/meteo_chart/meteo_layer/meteo_vertical_cloud_layer.rs: new", "src/meteo_chart/meteo_layer/meteo_vertical_wind_layer.rs: new", "src/meteo_chart/meteo_layer/meteo_wind_10m_layer.rs: new", "src/meteo_chart/meteo_layer/weather_layer.rs: new"]}
{"id": "C39", "title": "Layer values", "statement": "The precipitation of a layer cell is the difference of the two totals with missing treated as zero, the wind vector is present only if both components are present, the wind speed is never negative and is within a relative 2^-21 (plus 2^-73) of the Euclidean norm of the components, the wind direction is within 1/8192 degree of the angle of the vector counted from east towards north (if the platform's atan2 has an error of at most 2^-20), gusts are independent. A wind component of exactly -1 m/s is indistinguishable from a missing one (finding).", "quantifier": "all layers, all cells and positions; for the accuracy all finite components up to 2^60", "why_tests_cant": "All values.", "anchors": ["src/meteo_chart/meteo_layer/meteo_cloud_layer.rs", "src/meteo_chart/meteo_layer/meteo_cloud_precip_layer.rs", "src/meteo_chart/meteo_layer/meteo_hhl_layer.rs", "src/meteo_chart/meteo_layer/meteo_precip_layer.rs", "src/meteo_chart/meteo_layer/meteo_temp_2m_layer.rs", "src/meteo_chart/meteo_layer/meteo_vertical_cloud_layer.rs", "src/meteo_chart/meteo_layer/meteo_vertical_wind_layer.rs", "src/meteo_chart/meteo_layer/meteo_wind_10m_layer.rs", "src/meteo_chart/meteo_layer/weather_interpretation.rs", "src/meteo_chart/meteo_layer/weather_layer.rs"]}
{"id": "C40", "title": "Meteobin layout", "statement": "A meteobin file has exactly k bytes per cell (1 precipitation, 1 temperature, 2 weather, 3 wind; 2*levels clouds, 3*levels wind), the record of cell (x,y) starts at offset k*(y*w+x) and holds the bytes of that cell; within the cell the record of level l starts at 2*l / 3*l. For layers with complete grids the files are always produced, except that a weather file panics iff some cell's weather code is unknown.", "quantifier": "all layers with complete grids, all dimensions and level counts", "why_tests_cant": "Any dimensions.", "anchors": ["src/metobin/precip_metobin.rs: create_bin_values", "src/metobin/temp_metobin.rs: create_bin_values", "src/metobin/vertical_cloud_metobin.rs: create_bin_values", "src/metobin/vertical_wind_metobin.rs: create_bin_values", "src/metobin/weather_metobin.rs: create_bin_values", "src/metobin/wind_metobin.rs: create_bin_values"]}
{"id": "C41", "title": "Meteobin temperature encoding", "statement": "For every temperature between -64.25 and 63.25 degrees C (exclusive) the stored byte b is in 0..254 and (b-128)/2 is within 0.25 K of the exact difference to the float nearest to 273.15; below it is 0; it is monotone; 255 is produced iff the value is missing or (finding) at least 63.25 degrees C. NaN is stored as 0 (finding).", "quantifier": "all floats", "why_tests_cant": "All floats.", "anchors": ["src/metobin/temp_metobin.rs: calc_temp_value"]}
{"id": "C42", "title": "Meteobin precipitation encoding", "statement": "Precipitation below the float nearest to 0.2 (or negative) is stored as 0, from there to below 0.5 as 1, from 0.5 on as round(2v) saturating at 255; monotone in v; 255 is produced iff the value is missing or (finding) at least 127.25.", "quantifier": "all floats", "why_tests_cant": "All floats.", "anchors": ["src/metobin/precip_metobin.rs: calc_precip_value"]}
{"id": "C43", "title": "Meteobin wind encoding never collides with the missing code", "statement": "Wind components and gusts are stored as the knots plus 128 resp. the knots, held within 0..254, to within half a unit plus 2^-14 for float rounding, monotone in the speed; no byte of a present value is 255, whatever the float, and all three bytes are 255 if the wind vector is missing. NaN is stored as 254 (finding).", "quantifier": "all floats including NaN/infinity", "why_tests_cant": "All floats.", "anchors": ["src/metobin/wind_metobin.rs"]}
{"id": "C44", "title": "Meteobin weather encoding", "statement": "The weather byte is the weather code if one greater than 4 is present, otherwise it is derived from total cloud cover with the limits 6.25, 43.75 and 81.25 %, otherwise 255; the ceiling byte is the ceiling in units of 200 ft held within 0..255 to within half a unit plus 2^-14 for float rounding, monotone, and 255 exactly for a missing ceiling or one that rounds to >= 255 units. NaN is stored as 254 (finding).", "quantifier": "all inputs", "why_tests_cant": "All floats, all codes.", "anchors": ["src/metobin/weather_metobin.rs"]}
{"id": "C45", "title": "Weather codes are those of the table", "statement": "The 28 weather interpretations have exactly the codes of the table (WMO 4677), in both directions; conversion from any other byte panics (finding: also code 4), so the weather file of a layer containing such a value aborts.", "quantifier": "all bytes", "why_tests_cant": "Exhaustive statement; used for all cells.", "anchors": ["src/meteo_chart/meteo_layer/weather_interpretation.rs"]}
{"id": "C46", "title": "Step filter selects exactly the requested steps under every schedule", "statement": "Rendering a list of steps with a step filter reads each step whose number is in the filter (all steps if it is empty) at most once and no other step, and writes only into the directories of those steps, however it ends and whatever the schedule. If it succeeds, each selected step was read exactly once and all its tiles and files could be computed. If it fails, it returns the error of the reading of a selected step, or panics because one panicked or could not be computed or written. If every selected step can be read and computed (complete grids, known weather codes) and the disk works, every schedule succeeds. With a failing disk it may succeed without having written anything (finding).", "quantifier": "all step lists, filters, read results and schedules", "why_tests_cant": "All interleavings and failure patterns.", "anchors": ["src/meteo_chart/forecast_renderer/cloud_precip_forecast_renderer.rs: render", "src/meteo_chart/forecast_renderer/temp_2m_forecast_renderer.rs: render", "src/meteo_chart/forecast_renderer/vertical_clouds_forecast_renderer.rs: render", "src/meteo_chart/forecast_renderer/vertical_wind_forecast_renderer.rs: render", "src/meteo_chart/forecast_renderer/wind_10m_forecast_renderer.rs: render"]}
{"id": "C47", "title": "Rendered files are schedule independent", "statement": "The path of an output file is ./output/<model>/<yyyymmdd><run>/<step with three digits>/<layer>/<zoom>/<x>/<y>.png for a tile and ./output/<model>/<yyyymmdd><run>/<step>/<layer>/<name>.meteobin otherwise, and it determines the model, date and run name together, the step and the file. After a successful rendering each file of a selected step has exactly the content computed from the step's data, whatever was there before, and no other file has changed; hence the files do not depend on the schedule.", "quantifier": "all runs with a valid date and a name without slash, all non-negative step numbers, tiles, and all schedules without disk errors", "why_tests_cant": "All interleavings, all numbers.", "anchors": ["src/meteo_common/meteo_forecast_renderer_helper.rs", "src/meteo_chart/forecast_renderer/map_tile_file_helper.rs"]}
{"id": "C48", "title": "Model step and difference-step ranges", "statement": "For every model the forecast steps are the consecutive numbers from 2 to the last one, the difference steps are 1 followed by the forecast steps, every forecast step and its predecessor are found among the difference steps, and looking up a step by number returns the first step with the number, or an error iff there is none; it never panics.", "quantifier": "all models, all step lists", "why_tests_cant": "All lists.", "anchors": ["src/meteo_common/meteo_forecast_model.rs", "src/meteo_common/meteo_forecast_run_step.rs"]}
{"id": "C49", "title": "DWD file URLs", "statement": "For icon-d2 and icon-eu every single-level, model-level and time-invariant file has a URL, of exactly the form of the service (directories, fields and their widths, spelling of the variables), and the URL determines model, date, run, variable, step and level: two different files never have the same URL. For other models asking for a URL panics.", "quantifier": "all models, valid dates, run names without a slash, non-negative steps and levels, all variables read", "why_tests_cant": "All combinations.", "anchors": ["src/dwd/dwd_file_reader/dwd_icon_file.rs"]}
{"id": "C50", "title": "DWD run finder", "statement": "For icon-d2 and icon-eu the search for the latest run never fails, whatever the server answers or does not answer to each request. It returns a run of today of the model for which every probed file was found, and for each later run of today a probed file was not found; only if every run of today lacks a probed file it returns yesterday's 21h run, and that of icon-d2 even if icon-eu was asked for (finding). If availability does not change during the search, it returns a run of today exactly if it is complete and no later one is. Yesterday is the day before, over ends of months and years and leap days. For other models it panics.", "quantifier": "all histories of answers (one for each request), all dates", "why_tests_cant": "All availability patterns.", "anchors": ["src/dwd/dwd_forecast_renderer/dwd_icon_forecast_run_finder.rs"]}
{"id": "C51", "title": "Forecast horizon round trip", "statement": "For every horizon with days and hours 0..255 the name is P<days>DT<hours with at least two digits>H00M00S and parses back to it; for every step number 0..255 the horizon of the step has as many hours. Exactly the texts P<days>D*T<hours>H... with at least one D anywhere and both numbers fitting a byte are accepted, every other text gives an error, none a panic; the minutes and seconds are ignored (finding). The step of a horizon is its number of hours if that is at most 255; otherwise it panics with overflow checks and is wrong without (finding).", "quantifier": "all horizons, all steps, all strings", "why_tests_cant": "All strings.", "anchors": ["src/meteo_swiss/forecast_run/icon_ch_forecast_horizon.rs"]}
{"id": "C52", "title": "Steps are ordered by horizon", "statement": "The forecast file list has exactly the files of the response features, sorted by horizon, files with the same horizon in the order of the response; a feature that describes no file makes the whole request fail. Steps are numbered by their place in the list, so with one file for each hour from 0 on the number is the horizon in hours; a gap shifts the later ones (finding).", "quantifier": "all responses", "why_tests_cant": "All lists.", "anchors": ["src/meteo_swiss/data_geo_admin_ch/icon_ch_forecast_search_service.rs"]}
{"id": "C53", "title": "Reference date-time", "statement": "The latest reference time is the greatest multiple of three hours not after now, on the same day; a reference time parses iff it is RFC3339 with minute and second 0 and local hour divisible by three, and is then the same instant in UTC; run names exist exactly for the UTC hours divisible by three, so with other offsets a time is accepted that has no run (finding). The name sent to the service is yyyy-mm-ddThh:mm:ssZ and determines the time up to fractions of a second. The run rendered is that of the last feature of the service's answer.", "quantifier": "all instants, all hours", "why_tests_cant": "All instants.", "anchors": ["src/meteo_swiss/forecast_run/icon_ch_forecast_reference_datetime.rs", "src/meteo_swiss/forecast_run/icon_ch_forecast_run_name.rs"]}
{"id": "C54", "title": "Variable filter selects exactly the requested layers", "statement": "Rendering with a variable filter renders exactly the layers named in it (all when empty), in the fixed order, each once, and stops at the first that fails; it reads the height grids once directly before the vertical layers if one of them is named, and never otherwise; it writes only files of named layers and selected steps however it ends; order, repetitions and unknown names in the filter make no difference. The name weather selects nothing (finding).", "quantifier": "all filters, all failure patterns", "why_tests_cant": "All subsets and failure patterns.", "anchors": ["src/dwd/dwd_forecast_renderer/dwd_icon_forecast_renderer.rs", "src/meteo_swiss/forecast_renderer/icon_ch1_forecast_renderer.rs"]}
{"id": "C55", "title": "Command-line dispatch", "statement": "Called with one of the three known model names the program does exactly what the rendering of that model's latest forecast does with the given variables and steps: success prints nothing and exits with 0, an error prints one line with the model's name and the error and exits with 0 too (finding), a panic exits with 101. Any other name touches no file, prints that the model is unknown and exits with 0. However it ends, the program touches only files in ./output/<model>/ of the model it was called with; called with icon-eu it may also touch ./output/icon-d2/ (finding).", "quantifier": "all model strings, filters, server answers, disk errors, schedules", "why_tests_cant": "All strings, and all ways in which a rendering can end.", "anchors": ["src/main.rs"]}
{"id": "C56", "title": "Unit conversions are monotone and accurate", "statement": "Metre/foot, m/s/knot and Kelvin/Celsius conversions are monotone for all floats but NaN and are one rounding of the exact result with the constant used, so within a relative 2^-24 of it; converting there and back is within a relative 2^-22 for lengths and speeds, and within 2^-22 of |x| + 274 for temperatures, in both directions.", "quantifier": "all finite floats", "why_tests_cant": "All floats.", "anchors": ["src/physics"]}
{"id": "C57", "title": "Vertical level byte encodings", "statement": "From one document per level to the file: the height, cloud cover and wind bytes of every cell and level are those of the document's value there, or 255 where it has none. A height is the number of full hundreds of feet (to 2^-14), a cloud cover its integer part, each held within 0..255; wind as in C43. A cloud cover of 0 % and a height below 100 ft are stored as missing (finding).", "quantifier": "all documents with regular grids, all levels, cells and floats", "why_tests_cant": "All floats.", "anchors": ["src/dwd/dwd_file_reader", "src/meteo_swiss/file_reader", "src/metobin/vertical_cloud_metobin.rs", "src/metobin/vertical_wind_metobin.rs"]}
{"id": "C58", "title": "Directories before files, files before data", "statement": "In every execution of a forecast rendering, successful or not, and with any disk errors, an image or meteobin file is only created after its directory was created, data is only written to a file after the file was created, and an image is only completed after it was begun.", "quantifier": "all layers, steps, filters, disk failures and schedules", "why_tests_cant": "All interleavings of parallel steps and all failure points; a test sees only a directory left by an earlier run.", "anchors": ["src/meteo_chart/forecast_renderer", "src/metobin"]}
{"id": "C59", "title": "From the files of the service to the output (DWD)", "statement": "After a successful rendering of the latest DWD forecast, for every named layer and every selected step the map tiles and the meteobin files are there with the content that belongs to the grids decoded from the files of the found run and of exactly this step (for precipitation this and the preceding step; for vertical layers every level of the model), whatever was there before and whatever the schedule. If the service has all the files of the run with grids of the same shape and known weather codes, the rendering succeeds for all filters and schedules.", "quantifier": "all contents of the service's files that do not change during the run, all filters, all schedules, all previous disk contents, without disk errors", "why_tests_cant": "Covers all file contents, filters and schedules, and the mixing up of files, steps, levels and layers on the whole way from URL to output file.", "anchors": ["src/dwd/dwd_forecast_renderer/dwd_icon_forecast_renderer.rs", "src/dwd/dwd_file_reader", "src/meteo_chart/forecast_renderer", "src/metobin"]}
{"id": "C60", "title": "From the files of the service to the output (MeteoSwiss)", "statement": "After a successful rendering of the latest MeteoSwiss forecast, for every named layer and every selected step the map tiles and the meteobin files are there with the content that belongs to the grids in the files that the service names for exactly this variable, the latest reference time and this place in the order of horizons (for precipitation this and the preceding place; for vertical layers every level). Each cell of such a grid has the value that the file has for the nearest coordinate within 0.01 degrees, or the missing value if there is none. If the service has the constants and the same number of files of each variable, the rendering succeeds for all filters and schedules.", "quantifier": "all answers of the service whose files do not change during the run, all filters, all schedules, all previous disk contents, without disk errors", "why_tests_cant": "Covers all file contents, filters and schedules, and the mixing up of files, steps, levels and layers on the whole way from the search request to the output file.", "anchors": ["src/meteo_swiss/forecast_renderer/icon_ch1_forecast_renderer.rs", "src/meteo_swiss/file_reader", "src/meteo_swiss/data_geo_admin_ch", "src/meteo_chart/forecast_renderer", "src/metobin"]}
{"id": "C61", "title": "Calls for different models do not disturb each other", "statement": "Any history of calls with other models, each of them killed at any time or ended in any way, leaves every file in the output directory of a model as it was; so what a call has rendered is there with its content after any calls before it and any calls with other models after it (a call with icon-eu counts as one that may write to icon-d2).", "quantifier": "all histories of calls, all crash points of each call, disk errors, schedules, server answers", "why_tests_cant": "Unbounded histories and arbitrary crash points.", "anchors": ["src/main.rs", "src/meteo_common/meteo_forecast_renderer_helper.rs", "src/dwd/dwd_forecast_renderer", "src/meteo_swiss/forecast_renderer"]}
{"id": "C62", "title": "Errors of the services are reported, not panics", "statement": "If each answer of the service and each file of a run is either good (a grid of the common shape with known codes; the constants, a reference time and equally many files of each variable) or an error from a given set (the service does not answer, a file cannot be had, or its bytes are refused by the decoder), then rendering the run can always be carried out, and every execution ends with success or with an error from that set; it never panics and never ends with another error. With the empty set this is success (C59, C60). If a step is missing among the files that the Swiss service has for one of the variables of a layer, the wind layer ends with an error and each other layer with a panic (finding).", "quantifier": "all sets of errors, all answers of the services and contents of files that are good or such an error, independently at each request, all selections of layers and steps, all schedules without disk errors, both build profiles", "why_tests_cant": "Any subset of some thousand requests can fail, in any order of the parallel loops.", "anchors": ["src/dwd/dwd_forecast_renderer/dwd_icon_forecast_renderer.rs", "src/meteo_swiss/forecast_renderer/icon_ch1_forecast_renderer.rs", "src/grib2/converter/file_to_grid_converter.rs"]}
{"id": "C63", "title": "Tile rows are those of the Web-Mercator map", "statement": "If the platform's tan, cos, ln, sinh and atan have a relative error of at most 2^-22, the tile row computed for a latitude within 85.1 degrees is that of the Web-Mercator map, up to 1/16384 of the map's height (1/262144 north of the equator); the latitude computed for the upper edge of a row is that of the Web-Mercator map up to 1/8192 degree; and a pixel of a tile shows the place the Web-Mercator map has there, exactly in longitude and up to 283/4^zoom + 1/4096 degrees in latitude, since latitudes are equally spaced within a tile (finding: at zoom level 0 more than 14 degrees off).", "quantifier": "all mathematics libraries of that accuracy, all float latitudes, all zoom levels up to 24 (22 for rows, 10 for pixels), all tiles and pixels", "why_tests_cant": "All floats, all libraries; a test sees one platform and a few places.", "anchors": ["src/map_tile/map_tile_coord.rs: from_position, to_position", "src/map_tile/map_tile_renderer.rs: create_single_tile"]}
{"id": "C64", "title": "The published map shows the data", "statement": "After a successful rendering of temperature, wind or cloud and precipitation, each tile of a selected step whose extent meets the data has on disk an image of 256 x 256 pixels, and each pixel has the colour of the legend for the value of the data at the place that the Web-Mercator map has at this pixel (in latitude up to the error of C63): for temperature and wind the values of the closest cell, for clouds and precipitation those interpolated between cells (C17); it is transparent where there is no data. Every tile with a place of the extent that is not within 1/16384 of the map's height (or degree of longitude) of the tile's border is rendered, so the map has no holes.", "quantifier": "all mathematics libraries of the stated accuracy, all runs, steps, filters and data on regular grids, all schedules, zoom levels, tiles and pixels", "why_tests_cant": "Every pixel of every tile for all data and schedules.", "anchors": ["src/map_tile/map_tile_renderer.rs: create_all_tiles, create_single_tile", "src/meteo_chart/forecast_renderer/temp_2m_chart_renderer.rs", "src/meteo_chart/forecast_renderer/wind_10m_chart_renderer.rs", "src/meteo_chart/forecast_renderer/cloud_precip_chart_renderer.rs"]}
{"id": "C65", "title": "The published data files hold the data", "statement": "After a successful rendering the meteobin file of each selected step has one record for each cell of the grid, row by row from the south-west corner, and nothing else; the record holds the codes of the values that this cell has in the input (temperature, precipitation, wind components and gusts, weather, cloud cover and ceiling, and for the vertical profiles the bytes of all levels), and the byte for missing where the input has none.", "quantifier": "all runs, steps, filters and data on regular grids, all schedules, both build profiles, all cells and levels", "why_tests_cant": "Every cell of every file for all data and schedules.", "anchors": ["src/metobin/precip_metobin.rs", "src/metobin/temp_metobin.rs", "src/metobin/vertical_cloud_metobin.rs", "src/metobin/vertical_wind_metobin.rs", "src/metobin/weather_metobin.rs", "src/metobin/wind_metobin.rs", "src/meteo_chart/forecast_renderer/cloud_precip_forecast_renderer.rs: render", "src/meteo_chart/forecast_renderer/wind_10m_forecast_renderer.rs: render", "src/meteo_chart/forecast_renderer/temp_2m_forecast_renderer.rs: render", "src/meteo_chart/forecast_renderer/vertical_clouds_forecast_renderer.rs: render", "src/meteo_chart/forecast_renderer/vertical_wind_forecast_renderer.rs: render"]}
{"id": "C66", "title": "Requests to the Swiss service", "statement": "The files of a variable at a reference time are looked for with exactly one kind of request: a POST to the search of the service with a JSON text that names the collection, the variable, the unperturbed member and the reference time as UTC text with seconds, in a fixed order and without members for what is not asked. The latest reference time is looked for with one fixed text. The list of files is that of the service's answer to this request.", "quantifier": "all variables, all reference times, all servers and answers, both build profiles", "why_tests_cant": "All times and answers; a test does not see what is sent.", "anchors": ["src/meteo_swiss/data_geo_admin_ch/icon_ch_forecast_request.rs", "src/meteo_swiss/data_geo_admin_ch/icon_ch_forecast_endpoint.rs", "src/meteo_swiss/data_geo_admin_ch/icon_ch_forecast_search_service.rs"]}
{"id": "C67", "title": "Answers of the Swiss service", "statement": "The answer to a search or to the list of constant files is taken for exactly what the JSON value says: one file for each element of its features in this order, with title, reference time, horizon and the links of its assets (the last one if a name occurs twice); other members and the order of members do not matter. An answer that lacks a required member, has it twice or with another type is refused with an error (finding: one asset without title makes the whole answer unusable; arrays are taken for records).", "quantifier": "all JSON values of the answers, all servers", "why_tests_cant": "All JSON values of unbounded size and depth.", "anchors": ["src/meteo_swiss/data_geo_admin_ch/icon_ch_forecast_response.rs", "src/meteo_swiss/data_geo_admin_ch/icon_ch_assets_response.rs", "src/meteo_swiss/data_geo_admin_ch/icon_ch_forecast_search_service.rs", "src/meteo_swiss/data_geo_admin_ch/icon_ch_assets_service.rs"]}
{"id": "C68", "title": "Compressed files", "statement": "A downloaded file is decompressed if its URL ends with .bz2 and taken as it is otherwise; every file of the German service has such a URL. Errors of the server are passed on.", "quantifier": "all URLs, all servers and decompressors, all runs and files of the German service", "why_tests_cant": "All URLs and contents.", "anchors": ["src/system/file_helper.rs"]}
{"id": "C69", "title": "From a GRIB2 message to a field", "statement": "A grid read from the bytes of a file has the dimensions of the grid definition of the message at their start, its corners up to full turns and a relative error of 2^-22, and for each point, row by row from the first one, the decoded value of the message or the missing value. Each well-formed message on a regular grid with enough data whose first point is the south-western one gives a grid; one for other grids never does. Nothing but the grid definition, the packing, the bitmap and the data matters (findings: the scanning mode, the weather element and the times in the message are not looked at; points listed from north to south make the program panic).", "quantifier": "all bytes, messages, missing values and transformations, both build profiles", "why_tests_cant": "All messages with any number of points.", "anchors": ["src/grib2/converter/regular_grid_converter.rs", "src/grib2/converter/file_to_grid_converter.rs: read_rectangular_grid_from_file_and_transform"]}
{"id": "C70", "title": "Where the values of a message are placed", "statement": "The value looked up at a place close to a point of the message is that of this point in the western (southern) quarter of the data; in the eastern (northern) quarter it is that of the next point to the east (north), and nothing at the last one (finding: the extent from the first to the last point is divided into as many cells as there are points, instead of one less); in between it is one of the two.", "quantifier": "all grids with up to 2^17 points in each direction, all points, all places within an eighth of a cell of them, all messages", "why_tests_cant": "All grids and places; the existing tests use the same division.", "anchors": ["src/geo/grid/lat_lon_grid.rs: new, get_x_y_by_lat_lon", "src/geo/grid/lat_lon_value_grid.rs: get_value_by_lat_lon", "src/grib2/converter/regular_grid_converter.rs: get_dimensions_and_extent"]}
{"id": "C71", "title": "From the messages of the German weather service to the published map and files", "statement": "If the rendering of the latest run succeeds, each file that the selected layers and steps are made of was there under its documented name and started with a GRIB2 message. Each pixel of each tile with places of the field then has the legend's colour for what those messages say about the place that the Web-Mercator map has there (the value of the closest point for temperature and wind, an interpolated one for clouds and precipitation), and each record of the data files has the codes of what they say about that point: temperature, precipitation since the step before, wind and gusts, weather, and for all levels height with cloud cover or wind (findings: the value -1, and heights and covers whose byte is 0, count as missing).", "quantifier": "all services that give the same bytes each time, models, selections of layers and steps, schedules, tiles, pixels, points and levels; both build profiles; regular grids between 85 degrees south and north with their south-western point first", "why_tests_cant": "It spans the whole program, for every content of the files of the service and every schedule of the worker threads.", "anchors": ["src/dwd/dwd_forecast_renderer/dwd_icon_forecast_renderer.rs", "src/dwd/dwd_file_reader", "src/grib2", "src/meteo_chart", "src/map_tile", "src/metobin"]}
{"id": "C72", "title": "From the messages of the Swiss weather service to the published map and files", "statement": "If the rendering of the latest forecast succeeds, the service gave two messages with the latitudes and longitudes of the points of the model, the reference time and the lists of files; and the file of each variable and step asked for started with a GRIB2 message (those of the levels have as many levels as the file of the heights). If all points have places, each pixel of each tile with places of the area then has the legend's colour for what those messages say about the point of the model closest to the cell of the place that the Web-Mercator map has there (interpolated between four cells for clouds and precipitation); and each record of the data files has the codes of what they say about the point closest to the cell: temperature, precipitation since the step before, wind and gusts, cloud cover and ceiling, and for all levels height with cloud cover or wind. Cells without a point within 1/100 degree have no value (findings: degrees of longitude count as much as degrees of latitude; the value -1 counts as missing).", "quantifier": "all services that give the same bytes each time, answers to searches, selections of layers and steps, schedules, tiles, pixels, cells and levels; both build profiles; points of the model farther than 2 degrees from the antimeridian; closest up to 1/20000 degree", "why_tests_cant": "It spans the whole program, for every content of the files of the service and every schedule of the worker threads; the search for the closest of a million points in single precision has no reference to test against.", "anchors": ["src/meteo_swiss/forecast_renderer", "src/meteo_swiss/file_reader", "src/meteo_swiss/data_geo_admin_ch", "src/grib2", "src/geo/grid", "src/meteo_chart", "src/map_tile", "src/metobin"]}
{"id": "C73", "title": "A value looked up by place comes from a point near that place", "statement": "A lookup by place in the values of scattered points never panics. It gives nothing outside of the extent; inside, it gives the value of the point nearest to the middle of the cell that the place is closest to, so that the point is not farther from the place than the search distance plus the diagonal of a cell, and no other point is nearer by more than two diagonals. A place with a point near enough gets a value, unless it is in the last half row or column of the extent. The regular grid made from the points answers the same at the same place, except that a value equal to the missing value counts as none. The layers of cloud cover, precipitation, heights and weather answer for the closest cell; a weather code that is not in the WMO table panics (findings: the cell a place is closest to need not be the one it is in, so a point exactly at the place can lose against another one; the lookup in the scattered points hands out missing values as values).", "quantifier": "all grids, points, values, search distances up to 64 degrees, places, layers; both build profiles; points farther from the antimeridian than the search distance; distances up to 1/500 degree", "why_tests_cant": "It speaks of all places and all sets of points, and of all places in between; the rounding errors of the single-precision search make any list of samples inconclusive.", "anchors": ["src/geo/grid/unstructured_value_grid.rs", "src/geo/grid/unstructured_value_grid1.rs", "src/geo/grid/unstructured_grid.rs", "src/meteo_chart/meteo_layer"]}
{"id": "C74", "title": "The charts depend only on the files they need", "statement": "What a call of the program does (the files it writes in which orders, what it prints, how it ends) depends only on these answers of the service of its model. For the German service: whether the last files of the runs of today are there, and the files of the latest run for the layers named and the steps selected (for precipitation also the step before; for vertical layers also the heights). For the Swiss service: the list of the constants and the constants (the vertical ones only for vertical layers), the answer to the search for the latest time, the lists of the files of the variables of the layers named, and the files of the steps selected. No other answer, and none of the other service, makes a difference: those files may be damaged, missing or slow (finding: to find the latest run, the last files of all variables count, also of those that are not asked for).", "quantifier": "all answers of the services, changing from request to request; all selections of layers and steps, dates, schedules, disk errors, build profiles", "why_tests_cant": "It says that infinitely many other contents of other files change nothing; a test can only vary some of them.", "anchors": ["src/main.rs", "src/dwd/dwd_forecast_renderer", "src/dwd/forecast_run", "src/dwd/dwd_file_reader", "src/meteo_swiss/forecast_renderer", "src/meteo_swiss/data_geo_admin_ch", "src/meteo_swiss/file_reader", "src/grib2/converter/file_to_grid_converter.rs"]}
{"id": "C75", "title": "Calls may overlap", "statement": "The program may be called several times at the same time in the same directory (as by a scheduler whose last call has not ended). Calls for other models, even killed or failing ones, make no difference to the files in the directory of a model. If calls for the same model with any layers and steps all succeed, then, under every interleaving of their effects, every file of a layer and step that any of them asked for is there afterwards with exactly the content computed from the files of the service, and no other file was touched.", "quantifier": "all numbers of overlapping calls, their layers and steps, all interleavings, all services that give the same answers again, earlier contents of the directory; for other models also all kills, faults of the disk and changing services", "why_tests_cant": "Interleavings of several processes, each with parallel loops, cannot be enumerated.", "anchors": ["src/main.rs", "src/meteo_common/meteo_forecast_renderer_helper.rs", "src/dwd/dwd_forecast_renderer", "src/meteo_swiss/forecast_renderer", "src/meteo_chart/forecast_renderer", "src/metobin"]}
{"id": "C76", "title": "A killed call leaves no wrong content", "statement": "Calls for a model may be killed at any time or end in any way. Afterwards every file is as it was before, or holds content that belongs to it: an image, whole or in pieces, or a beginning of its data; without faults of the disk the whole data or nothing. For calls one after another this holds even if the answers of the service change; for overlapping calls if they do not, and otherwise every byte of a data file is at its place in one of the contents that belong to the file, and an image is pieced together from images that belong to the file. A later call that succeeds puts the right content into every file that belongs to it, whatever was there (findings: a killed call can empty a file that was complete before; whatever image a call saves, it leaves pieces of it if it is killed at the wrong time).", "quantifier": "all numbers of calls, their layers and steps, points at which they are killed, faults of the disk, interleavings, answers of the services, earlier contents of the directory", "why_tests_cant": "There are as many crash points as effects, and as many histories as sequences of them.", "anchors": ["src/main.rs", "src/meteo_common/meteo_forecast_renderer_helper.rs", "src/dwd/dwd_forecast_renderer", "src/meteo_swiss/forecast_renderer", "src/meteo_chart/forecast_renderer", "src/metobin"]}
{"id": "C77", "title": "A NetCDF header shown as text", "statement": "The text of the header of a NetCDF file tells everything in it: two files whose headers have the same text have the same header, provided that names and character values contain no line break (with line breaks they may differ). Each part of the header is shown on a line of its own under its name, and the lists with their lengths. The function that gives the values of a type gives exactly the values in the file for a variable of that type and aborts for one of another type. Finding: the numbers of an attribute are shown in reverse order.", "quantifier": "all files and headers, all variables, all ways of showing floats that tell them apart", "why_tests_cant": "Injectivity is a statement about all pairs of headers.", "anchors": ["src/netcdf/header/netcdf_header.rs", "src/netcdf/header/netcdf_var.rs", "src/netcdf/header/netcdf_dim.rs", "src/netcdf/header/netcdf_attr.rs", "src/netcdf/header/netcdf_magic.rs", "src/netcdf/common/netcdf_values.rs", "src/netcdf/common/netcdf_value_type.rs"]}
{"id": "C78", "title": "The meaning of the command line", "statement": "The program accepts exactly the lines made of occurrences of the options --model/-m, --variables/-v and --steps/-s, in every way of writing them, with exactly one model and with steps that are numbers below 2^64; the variables and steps are those given, in their order. On such a line it does what the parsed arguments ask for; on every other line it does nothing and ends with exit code 2, or with 0 if a word asks for the help or the version. The order of the options, and the order and repetition of the variables and of the steps, make no difference to what the program may do.", "quantifier": "all command lines of any length, all answers of the services, all schedules and disk failures", "why_tests_cant": "It is about all lists of words and, for the order, about all executions of the program.", "anchors": ["src/main.rs", "src/main.rs: Args", "src/dwd/dwd_forecast_renderer/dwd_icon_forecast_renderer.rs", "src/meteo_swiss/forecast_renderer/icon_ch1_forecast_renderer.rs"]}
{"id": "C79", "title": "Which requests are sent to the services", "statement": "A call sends exactly the requests that its layers and steps need, and a failing call some of these. German service: first questions (HEAD) which files of today's runs are there, at most 80, each once, from the latest run back to the one that is taken and with no further question about a run of which a file was not found; then requests for the files of the run that was taken, none more than once, except cloud cover and precipitation at most twice (finding). Swiss service: the list of the constants, the horizontal constants, the latest reference time, then one search for each variable of the named layers and the files of the selected steps, and the vertical constants only for a vertical layer. For an unknown model nothing is requested.", "quantifier": "all calls, answers of the services, schedules and failures", "why_tests_cant": "The number of requests for each file depends on all answers and on the schedule; a test sees one execution against one server.", "anchors": ["src/system/file_helper.rs: FileHelper", "src/dwd/dwd_forecast_renderer/dwd_icon_forecast_run_finder.rs", "src/dwd/dwd_forecast_renderer/dwd_icon_forecast_renderer.rs", "src/meteo_swiss/forecast_renderer/icon_ch1_forecast_renderer.rs", "src/meteo_swiss/data_geo_admin_ch/icon_ch_forecast_search_service.rs", "src/meteo_swiss/data_geo_admin_ch/icon_ch_assets_service.rs", "src/grib2/converter/file_to_grid_converter.rs"]}
{"id": "C80", "title": "Texts of reference times are read as RFC 3339 says", "statement": "A reference time in an answer of the Swiss service is accepted exactly if its text is an RFC 3339 time (separator T, t or space; any number of digits of a fraction; offset Z or hours and minutes below 24:00) of an existing date whose local hour is divisible by three and whose minute and second are zero, and it stands for that instant; leap seconds are never accepted, a fraction of a second is (finding). The text that the program sends for a reference time is read back as the same time.", "quantifier": "all texts and all times of the years 1 to 9998", "why_tests_cant": "There are infinitely many texts; the boundaries of dates, offsets, fractions and leap seconds cannot be enumerated.", "anchors": ["src/meteo_swiss/forecast_run/icon_ch_forecast_reference_datetime.rs: IconChForecastReferenceDateTime::from_str, get_name, get_latest", "src/meteo_swiss/data_geo_admin_ch/icon_ch_forecast_search_service.rs: find_latest_ref_datetime"]}
{"id": "C81", "title": "Texts of requests and answers are JSON", "statement": "An answer of the Swiss service whose text stands for a JSON value (RFC 8259) with at most 127 arrays and objects in each other is used as that value, whatever white space, escapes and order of members it is written with; an answer that does not have the form of JSON is an error and gives no data. A text stands for one value at most. The body of a search is JSON that has the members asked for and no others, whatever characters are in their values.", "quantifier": "all texts, all values and all requests", "why_tests_cant": "There are infinitely many texts, nested to any depth, with any escapes; a test sees some of them.", "anchors": ["src/meteo_swiss/data_geo_admin_ch/icon_ch_forecast_search_service.rs: IconChForecastSearchService", "src/meteo_swiss/data_geo_admin_ch/icon_ch_assets_service.rs: IconChAssetsService", "src/meteo_swiss/data_geo_admin_ch/icon_ch_forecast_request.rs: IconChForecastRequest"]}
{"id": "C82", "title": "Memory taken by the readers", "statement": "The buffers that are requested to read a GRIB2 message take together no more bytes than the message has. Whatever a file contains, the buffers requested while it is read take together at most one byte for each of its bytes (GRIB2), or four bytes for each of its bytes and each variable asked for and the header (NetCDF), and at most one further buffer, the last one, which the file announces and does not contain: up to 4 GiB for GRIB2 and 32 GiB for NetCDF. A message with packed values has at most eight values for each of its bytes.", "quantifier": "all byte sequences, all numbers of messages and variables, both build profiles", "why_tests_cant": "The bound is about every file, also malicious ones; a test measures some files.", "anchors": ["src/grib2/document/grib2_document_reader.rs: Grib2DocumentReader", "src/grib2/common/byte_reader.rs", "src/grib2/common/string_reader.rs", "src/grib2/section7/section7_reader.rs", "src/grib2/document/grib2_document.rs: calculate_data_points", "src/netcdf/document/netcdf_document_reader.rs: NetCdfDocumentReader", "src/netcdf/common/netcdf_values_reader.rs"]}
{"id": "C83", "title": "Forecasts never go back", "statement": "Successive calls for a DWD model, of which each begins on the day on which the one before ended or later, never go back to an earlier run: if a file that a call found of a run of the day is still found by a later call on the same day, the runs that they take start in the order of the calls, whatever else the server answers; and all files that a call writes, even if it fails or is killed, are in the directory of its run. The run of a call starts at 21 h of the day before it or later, and not on a day after it.", "quantifier": "all numbers of calls, all answers of the server, all calendar dates, all points where the calls stop", "why_tests_cant": "It is about every history of calls and of the server's answers.", "anchors": ["src/dwd/dwd_forecast_renderer/dwd_icon_forecast_run_finder.rs", "src/dwd/dwd_forecast_renderer", "src/meteo_chart/forecast_renderer"]}
{"id": "C84", "title": "Map and data file tell the same", "statement": "After a successful rendering the map tiles and the meteobin file of a step agree with each other. Each pixel of the temperature map has the colour of a temperature that the byte of the closest cell in the file stands for (to a quarter of a degree), and is transparent only where that byte is 255 or there is no cell; each pixel of the wind map has the colour of a speed within 3/4 knots of that of the two component bytes of one closest cell (or of more, if a byte is at its limit); the precipitation of a pixel is interpolated, up to 1/100 mm, between the amounts that the bytes of the four cells around it stand for, if no total is missing.", "quantifier": "all grids without NaN, all tiles and pixels, all selected steps, all schedules", "why_tests_cant": "All data, all pixels, all schedules.", "anchors": ["src/meteo_chart/forecast_renderer", "src/metobin", "src/imaging"]}
{"id": "C85", "title": "Only listed contents of files end a call in a panic", "statement": "Rendering a run of the German weather service can always be carried out and never panics, whatever the service answers for the files that the call asks for (an error, bytes that are no message, or a message of any size, place, packing and kind of grid, and something else at each request), unless one of these answers is one of the following: bytes on which the reader of messages panics (C06); a supported packing with fewer data than the bitmap asks for; a regular grid with fewer points than its columns times its rows, with its first point not in the south-west, or, for a file whose area is drawn, beyond 85 degrees; or a weather code that is not in the table. Files of layers and steps that were not asked for do not matter. Conversely, an answer with too few data, too few points or a first point in the north or east for the file of the temperature always ends its rendering in a panic (finding).", "quantifier": "all services, answering differently at each request, all contents of the files asked for, all selections of layers and steps, all schedules without disk errors, both build profiles", "why_tests_cant": "Any of some thousand files can have any content; files of one layer may disagree with each other in size and place in any combination.", "anchors": ["src/dwd/dwd_forecast_renderer/dwd_icon_forecast_renderer.rs", "src/grib2/converter/file_to_grid_converter.rs", "src/grib2/converter/regular_grid_converter.rs", "src/geo/common/lat_lon_extent.rs", "src/meteo_chart/meteo_layer/meteo_wind_10m_layer.rs"]}
{"id": "C86", "title": "Only listed answers of the Swiss service end a call in a panic", "statement": "Rendering the latest forecast of the Swiss service can always be carried out and never panics, whatever the service answers (errors, lists of files that cannot be understood, times that are no reference time, bytes that are no message, messages of any size, kind of grid and packing, and something else at each request), provided that the list of assets has the two files of constants; that the one of the horizontal constants has at least five messages; that all files of levels have the same number of levels, and at least one; that each selected step of a layer other than the wind has a file of each of its variables; that with overflow checks no horizon is beyond 255 hours; that the reader of messages does not panic on the bytes (C06); and that a message with supported packing has as many data as its bitmap asks for. Answers about layers that were not asked for do not matter. Conversely, without the asset of the horizontal constants, or with less than five messages in its file, every call panics at once (finding; C62 has the one about missing steps).", "quantifier": "all services, answering differently at each request, all contents of the files asked for, all selections of layers and steps, all schedules without disk errors, both build profiles", "why_tests_cant": "The service may answer anything to each of many requests, and the answers of different requests may contradict each other.", "anchors": ["src/meteo_swiss/forecast_renderer/icon_ch1_forecast_renderer.rs", "src/meteo_swiss/file_reader/icon_ch_hor_const_reader.rs", "src/meteo_swiss/data_geo_admin_ch/icon_ch_forecast_search_service.rs", "src/grib2/converter/file_to_grid_converter.rs", "src/meteo_chart/meteo_layer/meteo_vertical_cloud_layer.rs"]}
{"id": "C87", "title": "What a success tells on a disk that may fail", "statement": "On a disk whose operations may fail and lose data, a rendering, of a layer or a whole call for either service, that ends well has created the directory of every selected tile and every selected data file of a layer that is not vertical: such a file then holds a beginning of its right data, never an older version. A tile is whole, in pieces, or as it was before; a data file of a vertical layer holds a beginning of its data or is as it was before. No other file is changed. But (findings) a success does not tell that anything was written: however a rendering can end on a sound disk, it can end the same way on a failing one with no image file created and no byte written, and also with every image begun and none completed. A failing disk is never reported as an error (C46): it ends the rendering in a panic or is not noticed.", "quantifier": "all failures of the disk at any operations, all data lost, all schedules, all runs, layers, steps, contents before, and both services", "why_tests_cant": "Any of thousands of operations of one call may fail, in any combination and under any schedule of the threads; tests run on disks that do not fail.", "anchors": ["src/meteo_chart/forecast_renderer/map_tile_file_helper.rs", "src/meteo_chart/forecast_renderer/temp_2m_forecast_renderer.rs", "src/meteo_chart/forecast_renderer/vertical_clouds_forecast_renderer.rs", "src/metobin/temp_metobin.rs", "src/metobin/vertical_cloud_metobin.rs", "src/dwd/dwd_forecast_renderer/dwd_icon_forecast_renderer.rs", "src/meteo_swiss/forecast_renderer/icon_ch1_forecast_renderer.rs"]}
{"id": "C88", "title": "Files of the machine itself", "statement": "A file is fetched from the web exactly if its name starts with http:// or https://; any other name is that of a file of the machine, which is read as it is, also if it ends with .bz2. A forecast of the German service opens and asks about nothing but addresses below https://opendata.dwd.de/weather/nwp/, so what it does never depends on the files of the machine. A forecast of the Swiss service opens only files that the service named: if it names web addresses only, the files of the machine do not matter, and in any case none but those that were opened. But (finding) a service that names a file of the machine, for example as the horizontal constants, makes every call open and read that file.", "quantifier": "all names, servers and answers, files of the machine, selections of layers and steps, dates, schedules, and ends of the call", "why_tests_cant": "That no file of the machine has an influence is about all contents of all files and all answers of the servers; tests run against the real services, which name only their own files.", "anchors": ["src/grib2/converter/file_to_grid_converter.rs", "src/system/file_helper.rs", "src/dwd/dwd_file_reader/dwd_icon_file.rs", "src/dwd/dwd_forecast_renderer/dwd_icon_forecast_run_finder.rs", "src/meteo_swiss/data_geo_admin_ch/icon_ch_assets_response.rs", "src/meteo_swiss/forecast_renderer/icon_ch1_forecast_renderer.rs"]}
{"id": "C89", "title": "It does not matter in which way layers and steps are asked for", "statement": "Two series of successful calls that take the same run and together ask for the same layers at the same steps leave the same content in every file, in whichever order and overlap the calls of each series ran: one call for several layers or steps may be split into one call for each of them, the names and numbers may be given in any order and more than once, and naming no layer is the same as naming all. (An empty part asks for everything, so splitting a list into itself and an empty list is not the same.) This holds for the German service while files of a run do not change, and for the Swiss service while its answers do not change.", "quantifier": "all models, services that answer the same way, series of calls, lists of layer names and steps, schedules inside the calls and between them, and files present before", "why_tests_cant": "It compares all ways to divide and order a request, with all interleavings of the parallel writers in each of them.", "anchors": ["src/dwd/dwd_forecast_renderer/dwd_icon_forecast_renderer.rs", "src/meteo_swiss/forecast_renderer/icon_ch1_forecast_renderer.rs", "src/meteo_chart/forecast_renderer/temp_2m_forecast_renderer.rs", "src/meteo_chart/forecast_renderer/wind_10m_forecast_renderer.rs"]}
{"id": "C90", "title": "Successive calls of the Swiss service never go back", "statement": "If the Swiss service lists the reference times in their order and does not withdraw the last one without listing another that is not earlier, then whatever a later call writes, however the calls end, is in the directory of a run that does not start before the run of anything an earlier call wrote. With one answer in order, everything is written for the newest time listed. A path is in the directory of one run only. Finding: a service that lists the newest time first makes every call write for the oldest one.", "quantifier": "all services and answers, parsers of times, pairs of calls with any layers and steps, schedules, and points at which the calls end or are killed", "why_tests_cant": "It is about all histories of what the service publishes between two calls, and about everything that can be left by calls that fail or are killed.", "anchors": ["src/meteo_swiss/data_geo_admin_ch/icon_ch_forecast_search_service.rs", "src/meteo_swiss/forecast_renderer/icon_ch1_forecast_renderer.rs"]}
{"id": "C91", "title": "The program touches nothing but its own output", "statement": "Whatever the servers answer, whatever the files contain, and however the calls end (also killed, or on a failing disk), the only files that are created, emptied or written are those of the published forecasts: ./output/<model>/<date and hour>/<step>/<layer>/, and there the map tiles <zoom>/<x>/<y>.png and the data file of the layer; the only directories that are created are the directories of such files. No path has two dots in a row, so none leads out of the directory of its model, and nothing that a server answers (names of files, titles, links, times) gets into a path in any other form than as the digits of a date, an hour, a step or a tile.", "quantifier": "all histories of calls, command lines, answers of the servers, contents of files, schedules, failures of the disk, and points at which a call ends", "why_tests_cant": "A path that leads elsewhere would need an unusual answer of a server; tests see only the answers of the real ones.", "anchors": ["src/meteo_common/meteo_forecast_renderer_helper.rs", "src/meteo_chart/forecast_renderer/map_tile_file_helper.rs", "src/metobin/temp_metobin.rs", "src/metobin/vertical_cloud_metobin.rs", "src/main.rs"]}
{"id": "C92", "title": "Numbers in files and arithmetic are those of IEEE 754", "statement": "The four or eight bytes of a floating-point number in a GRIB2 or NetCDF file are read as IEEE 754 says. All computations on numbers (sum, difference, product, quotient, square root, conversion from integers and from double precision) give the exact result correctly rounded to the nearest number, ties to even, or an infinity if it is too large; comparisons are those of the real numbers and false with NaN; floor, ceil, round (halves away from zero), remainder, minimum and maximum are exact; a conversion to an unsigned integer drops the fraction and stops at the ends of the range, and NaN becomes 0.", "quantifier": "all bit patterns and all floating-point values", "why_tests_cant": "There are 2^64 pairs of single-precision operands and 2^64 doubles.", "anchors": ["src/grib2/section5/data_representation_template_5_0_reader.rs", "src/grib2/section4/section4_reader.rs", "src/netcdf/common/netcdf_values_reader.rs", "src/geo/common/lat_lon.rs", "src/netcdf/converter/netcdf_to_grid_converter.rs"]}
{"id": "C93", "title": "Every call ends", "statement": "If the servers answer each request by something, be it a file with any content or an error, every call of the program comes to an end with some exit code, with any arguments, mathematical functions and dates, and also when operations on the disk fail. No answer and no content leaves the program without a next step.", "quantifier": "all command lines, all answers of the servers, all contents of files, all failures of the disk", "why_tests_cant": "An input for which the program hangs would have to be known to be tested.", "anchors": ["src/main.rs", "src/dwd/dwd_forecast_renderer/dwd_icon_forecast_renderer.rs", "src/meteo_swiss/forecast_renderer/icon_ch1_forecast_renderer.rs"]}
{"id": "C94", "title": "The public table of DWD models agrees with what is rendered", "statement": "The library's table of models of the German weather service gives for each model its own entry and the name used in the program's paths; every step the program renders is in the table, except for the last one, which the table lacks for every model (finding); the table has exactly the steps from 0 to the one before that, and the hours 0, 3, ... 21 for icon-d2 and 0, 6, 12, 18 for the others; every run of icon-d2 that the program can find has an hour of the table, while for icon-eu a run may be found that the table does not list (finding).", "quantifier": "all models, all rendered steps, all answers of the server when looking for a run, all dates", "why_tests_cant": "Which run is found depends on every possible answer of the server on every day.", "anchors": ["src/dwd/forecast_run/dwd_model_config.rs", "src/dwd/forecast_run/dwd_model_type.rs", "src/dwd/forecast_run/icon_d2_eu_forecast_run_name.rs"]}
{"id": "C95", "title": "Three-neighbour lookup map has the three nearest coordinates", "statement": "For the variant of the unstructured grid with three neighbours the lookup map can be built for every grid with at least one cell. Each cell has up to three different coordinates, all within the maximum distance of its centre; a coordinate within that distance (for geographic grids away from the antimeridian, otherwise also with a window that covers the cell) is left out only if there are three that are not farther. The regular grid made from it has w*h values: the missing value for cells without neighbours, otherwise the mean of the neighbours' values weighted by their distances, up to rounding.", "quantifier": "every coordinate list, extent, dimensions, maximum distance and value list", "why_tests_cant": "Which coordinates are nearest must be right for every arrangement of the coordinates.", "anchors": ["src/geo/grid/unstructured_grid1.rs", "src/geo/grid/coord_dist_triple.rs", "src/geo/grid/unstructured_value_grid1.rs"]}
{"id": "C96", "title": "Zoom levels of the map agree where their pixels begin at the same place", "statement": "After a successful rendering of temperatures, wind, or clouds and precipitation, take a published tile and a published tile of any finer zoom level whose top edges are the same line of the map. Two pixels of their top rows that begin at the same place have exactly the same colour: pixel J of column X at zoom+k and pixel j of column x at zoom with 256 X + J = 2^k (256 x + j).", "quantifier": "every run, step, data set, schedule, pair of zoom levels and tile numbers, and every implementation of the mathematical functions that is accurate to the stated bound", "why_tests_cant": "The two positions are computed by different float expressions; that they agree bit for bit must hold for every tile and pixel.", "anchors": ["src/map_tile/map_tile_renderer.rs", "src/map_tile/map_tile_coord.rs"]}
{"id": "C97", "title": "The map is drawn north-up with every row and column in order, also across tile borders", "statement": "At each zoom level there is one latitude for each row of pixels of the whole map and one longitude for each column. From each row to any lower one the latitude strictly decreases, from each column to any one on its right the longitude strictly increases, also from one tile to the next. Every pixel shows the data at the latitude of its row and the longitude of its column. Hence the published maps of temperature and wind show the grid cells in their order (no row of cells below one farther south, no column right of one farther east).", "quantifier": "every run, step, data set, schedule, zoom level up to 10, all tiles and pixels, and every implementation of the mathematical functions that is accurate to the stated bound", "why_tests_cant": "Adjacent rows are computed with different float expressions in different tiles; that rounding never turns their order around must hold for all rows of all tiles.", "anchors": ["src/map_tile/map_tile_renderer.rs", "src/map_tile/map_tile_coord.rs", "src/geo/grid/lat_lon_grid.rs"]}
{"id": "C98", "title": "Looking at a place on the map shows the data of that place", "statement": "After a successful rendering every place of the square map lies in a pixel of a tile. If that tile is one of those of the extent, then its file exists and the pixel has the colour of the temperature (or of the two wind components) at a grid point that is at most half a cell farther from the place than the size of a pixel plus the stated distortion (283/4^zoom + 1/4096 degrees of latitude). It is transparent only if that point has no value or the place is that close to the outside of the extent. In the inside of the extent (farther from its borders than that, and 9/400 degrees of latitude more) the tile is always rendered and the pixel has the colour of such a point. Clouds and precipitation are those interpolated at a place within the same distance.", "quantifier": "every run, step, data set, schedule, zoom level of the model, every place up to 85.1 degrees of latitude, and every implementation of the mathematical functions that is accurate to the stated bound", "why_tests_cant": "It goes from the place to the pixel, the direction a user looks; the bound has to hold for all real latitudes and longitudes, not for the corners of pixels a test would sample.", "anchors": ["src/map_tile/map_tile_renderer.rs", "src/map_tile/map_tile_coord.rs", "src/geo/grid/lat_lon_grid.rs"]}
{"id": "C99", "title": "Values can be read from the colours on the map", "statement": "The colour of a pixel tells the class of the value in the legend: if a reader finds a temperature (other than for white), a wind speed, or a pair of precipitation and cloud cover in the legends for the colour of a pixel, then the value drawn lies on the same side of every limit of the legend. In particular no two of the 80 pairs of precipitation and cloud classes are composed to the same colour, and no temperature and no wind speed is drawn like a missing value. On the published map this holds at every place inside the extent for the data of that place (C98). White is the exception among the temperatures: it stands for -10 to -8 degrees and for 38 degrees and more.", "quantifier": "every value including NaN and infinities, every colour, every run, step, data set, schedule, zoom level and place inside the extent", "why_tests_cant": "It is about all pairs of values with the same colour, after composition with rounding, and about every place of every map.", "anchors": ["src/meteo_chart/forecast_renderer/cloud_precip_chart_renderer.rs", "src/meteo_chart/forecast_renderer/temp_2m_chart_renderer.rs", "src/meteo_chart/forecast_renderer/wind_10m_chart_renderer.rs"]}
{"id": "C100", "title": "The tiles of a map form a pyramid without gaps", "statement": "After a successful rendering into an empty directory, whenever a tile z+1/x/y of a step is there, the tile z/(x/2)/(y/2) that contains it is there too; and whenever a tile is there below the last zoom level of the model, at least one of the four tiles within it is there at the next level. At each zoom level the tiles form a full rectangle, and the levels with tiles are exactly those from 0 to the last one of the model. No tile has a column beyond those of the map, 0 to 2^z-1, unless the extent reaches the antimeridian. Steps whose data have the same extent have exactly the same tiles. So a viewer may zoom in and out and step through time without running into missing tiles.", "quantifier": "every layer with a map, run, step, data set within the square map, schedule, zoom level and tile, and every implementation of the mathematical functions that is accurate to the stated bound", "why_tests_cant": "The range of tiles is computed anew in floats at each zoom level; that rounding never makes two levels disagree must hold for every extent.", "anchors": ["src/map_tile/map_tile_renderer.rs", "src/map_tile/map_tile_coord.rs", "src/meteo_chart/forecast_renderer/temp_2m_forecast_renderer.rs"]}
