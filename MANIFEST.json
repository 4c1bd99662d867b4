{
 "claims": [
  {
   "property": "C01",
   "status": "proved",
   "theorems": [
    "C01_conversion"
   ],
   "note": "All six conversions, all sizes/types/contents/heaps, arbitrary allocator and stale memory."
  },
  {
   "property": "C02",
   "status": "proved",
   "theorems": [
    "C02_round_trip",
    "C02_path"
   ],
   "note": "Any non-empty path of layouts returning to its start; includes round trips and the three-cycle."
  },
  {
   "property": "C03",
   "status": "proved",
   "theorems": [
    "C03_normalise",
    "C03_already"
   ],
   "note": "In-place normalisation; the image needs a wavelength area of its own (every library-created image has one)."
  },
  {
   "property": "C04",
   "status": "partial",
   "theorems": [
    "C04_refuted",
    "C04_always_null"
   ],
   "note": "Refuted: every such call returns NULL (hyper_mat_copy tests the pointer the wrong way round)."
  },
  {
   "property": "C05",
   "status": "partial",
   "theorems": [
    "C05_refuted",
    "C05_every_call"
   ],
   "note": "Refuted: hyper_mat_copy returns NULL for every non-NULL argument and dereferences NULL otherwise."
  },
  {
   "property": "C06",
   "status": "proved",
   "theorems": [
    "C06_copy_to",
    "C06_mismatch"
   ],
   "note": "Equal shapes with separate arrays; mismatch exits before any write."
  },
  {
   "property": "C07",
   "status": "proved",
   "theorems": [
    "C07_create",
    "C07_bad_dimensions"
   ],
   "note": "Layout, alignment, containment, zeroing/copying for every allocator address and stale memory; non-positive dimensions exit."
  },
  {
   "property": "C08",
   "status": "partial",
   "theorems": [
    "C08_create_partial",
    "C08_refuted",
    "C08_stale_whenever"
   ],
   "note": "Refuted for >= 2 channels (only rows*cols*elemsize bytes are cleared); layout for all shapes and zeroing of that prefix proved."
  },
  {
   "property": "C09",
   "status": "partial",
   "theorems": [
    "C09_delete_own_partial",
    "C09_delete_own_invalid_free",
    "C09_create_delete",
    "C09_refuted",
    "C09_wrapped_above",
    "C09_wrapped_below_leaks"
   ],
   "note": "Refuted for chunk addresses = 48 mod 64 (free of an interior pointer) and for wrapped data at a lower address (leak); exact characterisation proved."
  },
  {
   "property": "C10",
   "status": "proved",
   "theorems": [
    "C10_copy",
    "C10_independent"
   ],
   "note": ""
  },
  {
   "property": "C11",
   "status": "proved",
   "theorems": [
    "C11_save_load"
   ],
   "note": "Every cube that satisfies the size limits of the creation functions, any later state and environment for the read."
  },
  {
   "property": "C12",
   "status": "partial",
   "theorems": [
    "C12_header_partial",
    "C12_waves_partial",
    "C12_refuted"
   ],
   "note": "Refuted for cubes with wavelengths: the list buffer is not terminated, and reading runs off it unless fresh memory happens to contain a zero. Proved end to end (whole image through hmsave and hmread_with_hdr) for cubes without wavelengths, and with ordinary wavelengths in zeroed memory."
  },
  {
   "property": "C13",
   "status": "partial",
   "theorems": [
    "C13_header_partial",
    "C13_data_refuted",
    "C13_blank_refuted"
   ],
   "note": "Refuted: a data ignore value is taken for the data type, and without a blank before the tag one byte is written past the tag buffer. Proved for every header whose other lines cannot be mistaken."
  },
  {
   "property": "C14",
   "status": "partial",
   "theorems": [
    "C14_closed_partial",
    "C14_open_refuted"
   ],
   "note": "Refuted for every brace-free list: the last value is never stored. Proved for lists closed by a brace, or by a comma after the last band. The number a token denotes (strtod) is a parameter."
  },
  {
   "property": "C15",
   "status": "proved",
   "theorems": [
    "C15_round_trip"
   ],
   "note": "Every size whose file size fits into an int; any later state and environment for the read. (Both directions exchange the middle row the same way.)"
  },
  {
   "property": "C16",
   "status": "partial",
   "theorems": [
    "C16_effect",
    "C16_one_row_partial",
    "C16_grey_partial",
    "C16_refuted"
   ],
   "note": "Refuted: a colour picture is left upside down with exchanged channels. Exact effect proved; grey pictures and pictures of one row stay unchanged."
  },
  {
   "property": "C17",
   "status": "partial",
   "theorems": [
    "C17_rows_partial",
    "C16_grey_partial",
    "C17_middle",
    "C17_refuted"
   ],
   "note": "Refuted: the middle row of an odd number of rows is written red first. Header and all other rows proved, grey pictures completely."
  },
  {
   "property": "C18",
   "status": "proved",
   "theorems": [
    "C18_get_range",
    "C18_compose"
   ],
   "note": "All three layouts, any in-range box; composition of boxes included."
  },
  {
   "property": "C19",
   "status": "proved",
   "theorems": [
    "C19_extract",
    "C19_unchecked_band"
   ],
   "note": "Band numbers 1..bands; the code does not check the number (outside values read outside the cube, C19_unchecked_band)."
  },
  {
   "property": "C20",
   "status": "partial",
   "theorems": [
    "C20_insert_partial",
    "C20_exact",
    "C20_rejected",
    "C20_refuted"
   ],
   "note": "Refuted for samples wider than one byte (element size ignored); proved for 8-bit cubes, exact effect proved for every size."
  },
  {
   "property": "C21",
   "status": "proved",
   "theorems": [
    "C21_transport",
    "C21_twice"
   ],
   "note": "One-channel matrices of every element type."
  },
  {
   "property": "C22",
   "status": "partial",
   "theorems": [
    "C22_addition_partial",
    "C22_refuted"
   ],
   "note": "Refuted for images of different width (row index uses the common width); proved for equal widths, modulo 256, also in place."
  },
  {
   "property": "C23",
   "status": "partial",
   "theorems": [
    "C23_splice_partial",
    "C23_overrun",
    "C23_refuted"
   ],
   "note": "Refuted without a range check: a start index that does not fit writes outside the cube; proved when the part fits."
  },
  {
   "property": "C24",
   "status": "partial",
   "theorems": [
    "C24_border_partial",
    "C24_inside",
    "C24_wrap_overflow",
    "C24_reflect_overflow",
    "C24_refuted"
   ],
   "note": "Refuted at the overflow positions (INT_MIN for reflection, p < INT_MIN+len for wrap: signed overflow); proved for every other 32-bit position, every length, each mode."
  },
  {
   "property": "C25",
   "status": "partial",
   "theorems": [
    "C25_constant",
    "C25_refuted"
   ],
   "note": "Refuted for length 1 (index 1 is returned for outside positions); exact result proved for all positions and lengths."
  },
  {
   "property": "C26",
   "status": "proved",
   "theorems": [
    "C26_extend",
    "C26_constant"
   ],
   "note": "8-bit images, all non-negative margins whose result fits in an int; constant values stored modulo 256."
  },
  {
   "property": "C27",
   "status": "partial",
   "theorems": [
    "C27_threshold_partial",
    "C27_no_effect",
    "C27_one_channel_only"
   ],
   "note": "The five documented types proved (also in place, values modulo 256); types MASK and TRIANGLE have empty bodies and leave the destination as it was; more than one channel exits."
  },
  {
   "property": "C28",
   "status": "partial",
   "theorems": [
    "C28_always_out_of_bounds",
    "C28_refuted"
   ],
   "note": "Refuted: the Otsu mode reads outside every one-channel image (three bytes per pixel)."
  },
  {
   "property": "C29",
   "status": "partial",
   "theorems": [
    "C29_flip_partial",
    "C29_compose_partial",
    "C29_twice_partial",
    "C29_both_ways_partial",
    "C29_invalid_free",
    "C29_refuted"
   ],
   "note": "Left-right and up-down proved; both ways proved unless the temporary is allocated at 48 mod 64, where the invalid free of C09 makes it undefined (refutation)."
  },
  {
   "property": "C30",
   "status": "proved",
   "theorems": [
    "C30_gray2rgb",
    "C30_binary2rgb",
    "C30_binary2rgb_any"
   ],
   "note": ""
  },
  {
   "property": "C31",
   "status": "partial",
   "theorems": [
    "C31_max",
    "C31_average",
    "C31_grey_partial",
    "C31_weighted",
    "C31_refuted"
   ],
   "note": "Maximum and average proved for every image; the weighted mean is refuted (0.578 for 0.587, and truncation: white becomes 252), its exact value for every colour is proved."
  },
  {
   "property": "C32",
   "status": "partial",
   "theorems": [
    "C32_swap_partial",
    "C32_twice_partial",
    "C32_in_place",
    "C32_refuted"
   ],
   "note": "Distinct arguments proved; in place refuted (the third channel is copied from the already overwritten first; exact effect proved for all images)."
  },
  {
   "property": "C33",
   "status": "proved",
   "theorems": [
    "C33_widen",
    "C33_other_type",
    "C33_too_big"
   ],
   "note": "The five widening conversions, every cube whose result is at most 2147483647 bytes; beyond that the size product overflows (C33_too_big), other source types exit."
  },
  {
   "property": "C34",
   "status": "partial",
   "theorems": [
    "C34_stored",
    "C34_stored_matrix",
    "C34_saturates_partial",
    "C34_saturates_matrix_partial",
    "C34_refuted",
    "C34_matrix_refuted"
   ],
   "note": "Refuted for each of the seven conversions (values beyond int, -128 for char, anything outside 16 bits for short/ushort, 2^31.. for uint, negative for the matrix version). Exact stored value for every bit pattern and saturation on the stated domain proved."
  },
  {
   "property": "C35",
   "status": "partial",
   "theorems": [
    "C35_round_partial",
    "C35_saturate_cast",
    "C35_refuted"
   ],
   "note": "saturate_cast_float2uchar proved for every finite float; HYPERCV_ROUND proved when the nearest integer is an int, refuted otherwise."
  },
  {
   "property": "C36",
   "status": "proved",
   "theorems": [
    "C36_vector",
    "C36_vector_fits",
    "C36_free",
    "C36_pop_empty"
   ],
   "note": "Every sequence of operations, element size, start state (also NULL), allocator; ends early only when a push asks for 2^62 bytes or more."
  },
  {
   "property": "C37",
   "status": "partial",
   "theorems": [
    "C37_factorial_partial",
    "C37_negative",
    "C37_overflow",
    "C37_refuted"
   ],
   "note": "Refuted for n = 10 (the table holds 11!); proved for the other n <= 20 and for negative n; from 21 on the multiplication overflows."
  },
  {
   "property": "C38",
   "status": "partial",
   "theorems": [
    "C38_sort",
    "C38_nan_refuted"
   ],
   "note": "Permutation for every array; descending for arrays without NaN; refuted with a NaN in between."
  },
  {
   "property": "C39",
   "status": "partial",
   "theorems": [
    "C39_product_wraps",
    "C39_product_int",
    "C39_product_ushort_partial",
    "C39_ushort_refuted",
    "C39_product_float",
    "C39_product_double",
    "C39_product_float_exact",
    "C39_product_double_exact",
    "C39_transpose"
   ],
   "note": "Proved for every shape whose index products fit into int: wrapping sum for char, uchar, short, uint; int without overflow; float and double as the sequence of rounded operations and exact on integers within the precision; all eight transposes. Refuted for unsigned short (the product is computed in int and overflows), proved there when x*y+65535 fits into int."
  },
  {
   "property": "C40",
   "status": "partial",
   "theorems": [
    "C40_inverse",
    "C40_singular",
    "C40_code",
    "C40_reported_refuted"
   ],
   "note": "The inverse part proved over every field for every size (two-sided inverse, zero pivots included); the code is proved to run this algorithm with float operations. The reporting part is refuted: a singular matrix leaves the loop early and returns silently."
  },
  {
   "property": "C41",
   "status": "partial",
   "theorems": [
    "C41_null_refuted",
    "C41_exact",
    "C41_rectangles",
    "C41_zero_border_partial",
    "C41_refuted"
   ],
   "note": "Refuted: row 0 and column 0 receive the pixels themselves. Exact stored value proved for every one-channel image with 510*rows*cols+2000 below INT_MAX and a given destination; rectangle differences are right away from the first row and column; right when the first row and column are zero. With a NULL destination the result ends in a new matrix the caller is never told about."
  },
  {
   "property": "C42",
   "status": "partial",
   "theorems": [
    "C42_exact",
    "C42_integer_kernel_partial",
    "C42_constant_border",
    "C42_other_channels",
    "C42_refuted"
   ],
   "note": "Refuted: sums are added to the old contents of the destination. Exact effect (as rounded float additions) proved for 1 and 3 channels, every kernel size, each border mode; exact integer sum for zero destinations and integer kernels; other channel counts compute nothing."
  },
  {
   "property": "C43",
   "status": "partial",
   "theorems": [
    "C43_null_refuted",
    "C43_null_constant_refuted",
    "C43_symmetric",
    "C43_table_sum",
    "C43_near_one_partial",
    "C43_sum_refuted",
    "C43_constant_partial",
    "C43_constant_border",
    "C43_tiny_sigma_refuted",
    "C43_with_kernel"
   ],
   "note": "Symmetry proved for every kernel. The sum is exactly 1 for the tabulated kernels, within 1/4096 for computed ones of odd size up to 2047 and refuted as an exact equality (standard deviation 1/2: 1+2^-26). Constant images stay constant for odd sizes up to 2047 and standard deviations <= 0 or in 2^-400..2^400; refuted for a tiny one (2^-600 gives not-a-number weights). exp is a parameter with values in 0..1 on negative arguments. Three matrices are leaked per call. With a NULL destination the blurred image ends in a new matrix the caller is never told about."
  },
  {
   "property": "C44",
   "status": "partial",
   "theorems": [
    "C44_medianblur_exits",
    "C44_meanblur_exits",
    "C44_medianblur_null",
    "C44_meanblur_null",
    "C44_median_never",
    "C44_refuted"
   ],
   "note": "Refuted for every image: the NULL test in the assertion is inverted, so every call with an image exits."
  },
  {
   "property": "C45",
   "status": "partial",
   "theorems": [
    "C45_null_refuted",
    "C45_erosion_exact",
    "C45_erosion_partial",
    "C45_dilation_exact",
    "C45_dilation_centre",
    "C45_too_big",
    "C45_tall_undefined",
    "C45_wide_erosion",
    "C45_wide_dilation",
    "C45_wide_corner",
    "C45_erosion_refuted",
    "C45_dilation_refuted"
   ],
   "note": "Refuted: erosion leaves cleared pixels cleared whatever the element, dilation tests for a cleared instead of a set pixel, and rows are addressed by the row count (images with more rows than columns are undefined, wide images are not written completely). Exact effect proved for every square image and element; it is the erosion when the centre is in the element. For images with more columns than rows (up to 10^9) the exact effect on every byte is proved too: the operation applied to overlapping rows, the bottom right pixel never stored. With a NULL destination both results end in a new matrix the caller is never told about."
  },
  {
   "property": "C46",
   "status": "partial",
   "theorems": [
    "C46_null_refuted",
    "C46_open_exact",
    "C46_close_exact",
    "C46_open_refuted",
    "C46_close_refuted"
   ],
   "note": "Refuted: both operations of each pass start from the source, so the first one is lost. Exact effect proved for every square image, element and positive pass count. With a NULL destination both results are lost."
  },
  {
   "property": "C47",
   "status": "partial",
   "theorems": [
    "C47_sobel",
    "C47_constant_border",
    "C47_one_row_undefined",
    "C47_refuted"
   ],
   "note": "Proved for the replicate, reflect, reflect101 and wrap borders, every size and threshold. The constant border uses row/column 1 and is refuted for images of one row (read outside the image)."
  },
  {
   "property": "C48",
   "status": "partial",
   "theorems": [
    "C48_laplacian",
    "C48_constant_border",
    "C48_one_row_undefined",
    "C48_refuted"
   ],
   "note": "Proved for the replicate, reflect, reflect101 and wrap borders (kernel size 2 doubles the result). The constant border uses row/column 1 and is refuted for images of one row."
  },
  {
   "property": "C49",
   "status": "partial",
   "theorems": [
    "C49_size_partial",
    "C49_size_exact",
    "C49_beyond",
    "C49_refuted"
   ],
   "note": "Refuted for 3^15 (its multiples are missing from the table); proved up to 14171760, exact characterisation for every int."
  },
  {
   "property": "C50",
   "status": "partial",
   "theorems": [
    "C50_exact",
    "C50_out_of_bounds",
    "C50_refuted"
   ],
   "note": "Refuted: the imaginary part is read at index (i*cols)*j; exact effect and exact out-of-bounds condition proved for every size, for any squaring and square root functions."
  },
  {
   "property": "C51",
   "status": "partial",
   "theorems": [
    "C51_exact",
    "C51_overflow",
    "C51_sizes",
    "C51_lowest_partial",
    "C51_refuted",
    "C51_small_refuted"
   ],
   "note": "Refuted: level 0 is not scaled and each level is added to the already scaled one before, so the mapping is neither the equalised one nor monotone; images below 255 pixels can overflow int. Exact effect and exact overflow condition proved for every one-channel image."
  },
  {
   "property": "C52",
   "status": "proved",
   "theorems": [
    "C52_points",
    "C52_other_channels"
   ],
   "note": "One or three channels, every list of points; any other number of channels gives a plain copy; coordinates plus/minus size/2 must fit into int; source, destination and point array distinct."
  },
  {
   "property": "C53",
   "status": "partial",
   "theorems": [
    "C53_exact",
    "C53_diagonal_partial",
    "C53_vertical_wrong",
    "C53_horizontal_undefined",
    "C53_one_channel_copy",
    "C53_refuted",
    "C53_overrun_refuted"
   ],
   "note": "Refuted: the inverse slope is used, the line is not clipped to the segment, horizontal lines convert NaN to int, one channel draws nothing. Exact effect proved for every call; diagonals colour their segment."
  },
  {
   "property": "C54",
   "status": "partial",
   "theorems": [
    "C54_relative_exact",
    "C54_relative_partial",
    "C54_relative_overrun",
    "C54_relative_refuted",
    "C54_absolute"
   ],
   "note": "Refuted: the table is addressed with the number of bands as row length. Exact effect proved for every shape; right when there are as many columns as bands, out of bounds when there are more bands than columns, another coefficient otherwise. Absolute correction proved. Cubes stored by pixel (BIP), as the functions expect; the data types are not checked by the code."
  },
  {
   "property": "C55",
   "status": "partial",
   "theorems": [
    "C55_contrast_partial",
    "C55_colour_partial",
    "C55_sum",
    "C55_overflow_refuted"
   ],
   "note": "Proved for one and three channels whenever 4*rows*cols, 6*rows and 6*cols are ints; refuted beyond (4*(rows-2)*(cols-2) above INT_MAX overflows). For a single pixel the number of pairs is 0 and the quotient is 0/0."
  },
  {
   "property": "C56",
   "status": "partial",
   "theorems": [
    "C56_statistics_refuted",
    "C56_statistics_null",
    "C56_entropy_refuted",
    "C56_entropy_never_returns"
   ],
   "note": "Refuted for every image: an assertion compares sizeof of a pointer with 256, so both functions always end the program."
  },
  {
   "property": "C57",
   "status": "partial",
   "theorems": [
    "C57_default_refuted",
    "C57_copy_refuted",
    "C57_read_refuted",
    "C57_construct_refuted",
    "C57_static_refuted",
    "C57_conversions_refuted",
    "C57_release_refuted",
    "C57_create_partial"
   ],
   "note": "Refuted: every way to construct a HyMat ends the program or reads members without a value, so copying, reading and the six conversion functions never return; a released object cannot be created again. Creation proved for objects whose members happen to be acceptable."
  },
  {
   "property": "C58",
   "status": "partial",
   "theorems": [
    "C58_convert",
    "C58_bad_format",
    "C58_range_refuted"
   ],
   "note": "convertTo proved for every image and every pair of layouts (in place, temporary memory freed, nothing else changed). range, named in the title, is refuted: it never returns."
  },
  {
   "property": "C59",
   "status": "partial",
   "theorems": [
    "C59_position_partial",
    "C59_elements_partial",
    "C59_fields_partial",
    "C59_create_refuted"
   ],
   "note": "Real-number model. The position part is proved for every filled struct and for the struct the assignments produce. Refuted as a whole: hypercv_create_orbit stores through an uninitialised pointer, whatever the arguments."
  },
  {
   "property": "C60",
   "status": "partial",
   "theorems": [
    "C60_memory_refuted",
    "C60_never_refuted",
    "C60_spectrum_refuted"
   ],
   "note": "Refuted: the output of the three products is passed as the first factor, so uninitialised memory is added to the spectrum and to the inverse, and every cube of more than one sample is read or written out of bounds."
  },
  {
   "property": "C61",
   "status": "proved",
   "theorems": [
    "C61_elemsize"
   ],
   "note": ""
  },
  {
   "property": "C62",
   "status": "proved",
   "theorems": [
    "C62_tag",
    "C62_prefix"
   ],
   "note": "Any following bytes that contain a NUL within the struct (the high bytes of the data pointer always do); general meaning: prefix test."
  },
  {
   "property": "C63",
   "status": "partial",
   "theorems": [
    "C63_integer_partial",
    "C63_fraction_partial",
    "C63_fraction_exponent_partial",
    "C63_minus_exponent_refuted",
    "C63_fraction_exponent_refuted",
    "C63_sign_refuted"
   ],
   "note": "Refuted: a negative exponent is ignored (or its sign, after a fraction), and the sign of the number is lost when anything but the known characters follows the digits. Proved for integers with exponent (exact below 2^24) and for fractions with or without exponent (error bound); pow(10,n) is a parameter. Missing: mantissas above 24 bits."
  },
  {
   "property": "C64",
   "status": "proved",
   "theorems": [
    "C64_reshape"
   ],
   "note": ""
  },
  {
   "property": "C65",
   "status": "partial",
   "theorems": [
    "C65_create",
    "C65_bad_size",
    "C65_delete_leaks",
    "C65_refuted"
   ],
   "note": "Creation proved; deletion refuted: the cell array is leaked by delete_S_2D."
  },
  {
   "property": "C66",
   "status": "partial",
   "theorems": [
    "C66_kmeans_partial",
    "C66_colour_refuted",
    "C66_wide_refuted",
    "C66_sums_refuted"
   ],
   "note": "Proved for every one-channel image with rows^2+cols^2, rows*cols*(cols-1) and rows*cols*(rows-1) within int, with a pow that squares ints up to 46340 exactly. Refuted outside: larger images overflow the squared diagonal or the coordinate sums (undefined), and for colour images the grey copy is leaked."
  },
  {
   "property": "C67",
   "status": "partial",
   "theorems": [
    "C67_exact",
    "C67_whole_partial",
    "C67_error_partial",
    "C67_signed_refuted",
    "C67_large_refuted"
   ],
   "note": "Refuted for signed types (read as unsigned) and for large images (the float sum stops growing). Exact float computation proved for every image and type; it is the mean for whole numbers with a whole mean and sum at most 2^24, and off by at most (n+3)/2^23 of the mean for up to 2^20 unsigned elements."
  },
  {
   "property": "C68",
   "status": "partial",
   "theorems": [
    "C68_exact",
    "C68_whole_partial",
    "C68_error_partial",
    "C68_signed_refuted"
   ],
   "note": "Refuted for signed types (read as unsigned). Exact float computation proved for every image and type, for any pow; it is the variance for whole numbers with whole mean and variance and sums at most 2^24. For up to 2^20 unsigned elements that are not all equal the rounding error is bounded. Large images inherit the fault of the mean."
  },
  {
   "property": "C69",
   "status": "partial",
   "theorems": [
    "C69_exact",
    "C69_refuted"
   ],
   "note": "Refuted: the middle row of an odd number of rows comes back with red and blue exchanged. Exact result proved for every file of the format."
  },
  {
   "property": "C70",
   "status": "partial",
   "theorems": [
    "C70_single",
    "C70_channels_refuted"
   ],
   "note": "Proved for one channel; refuted for more: the buffer is as large as for one channel."
  },
  {
   "property": "C71",
   "status": "partial",
   "theorems": [
    "C71_kepler_partial"
   ],
   "note": "Real-number model, for the assignments applied to a struct whose E and tk hold values. Missing: the code initialises neither the struct pointer nor those fields."
  },
  {
   "property": "C72",
   "status": "partial",
   "theorems": [
    "C72_refuted"
   ],
   "note": "Refuted: the code halves the tangent instead of the angle."
  },
  {
   "property": "C73",
   "status": "partial",
   "theorems": [
    "C73_one_cluster",
    "C73_black",
    "C73_large_threshold",
    "C73_negative_threshold_refuted"
   ],
   "note": "Refuted for negative thresholds. Proved: one centre, black images, thresholds no smaller than the image. Missing: several centres with a small non-negative threshold (no cycle known)."
  },
  {
   "property": "C74",
   "status": "partial",
   "theorems": [
    "C74_integers",
    "C74_float",
    "C74_float_exact",
    "C74_uchar_refuted",
    "C74_initial_refuted"
   ],
   "note": "Proved when every partial sum fits the element type (for float: rounded operations, exact on integers). Refuted otherwise: sums wrap in the element type before the division, and the previous contents of the result are averaged in."
  },
  {
   "property": "C75",
   "status": "partial",
   "theorems": [
    "C75_integers",
    "C75_float",
    "C75_double",
    "C75_mean_partial",
    "C75_error_partial",
    "C75_sum_error_partial",
    "C75_float_error_partial",
    "C75_large_refuted"
   ],
   "note": "Exactly the rounded sum divided by the number, for all eight types and every length; the mean itself while the magnitudes add up to at most 2^24; for up to 2^20 elements that are not negative it is off by at most (n+2)/2^23 of the mean, and for up to 2^23 signed or unsigned elements of one or two bytes the sum is off by at most (n+1)/2^23 of the sum of the magnitudes. Refuted beyond: 2^25 bytes of value 1 have mean 1/2."
  },
  {
   "property": "C76",
   "status": "partial",
   "theorems": [
    "C76_transport_partial",
    "C76_twice",
    "C76_types_refuted"
   ],
   "note": "Proved for destinations of the same element size. Refuted otherwise: the type of the destination is not checked and memory past its end is written."
  },
  {
   "property": "C77",
   "status": "partial",
   "theorems": [
    "C77_mean_partial",
    "C77_whole",
    "C77_error",
    "C77_types_refuted"
   ],
   "note": "Proved for float cubes, with the size of the rounding error. Refuted for others: the type of the cube is not checked."
  },
  {
   "property": "C78",
   "status": "partial",
   "theorems": [
    "C78_angle",
    "C78_undefined_refuted",
    "C78_symmetric",
    "C78_self_partial",
    "C78_halves_refuted",
    "C78_above_one_refuted"
   ],
   "note": "Symmetry proved for all spectra. Refuted: the products are cut to int by abs, so spectra of fractions are at acos(0) from themselves, larger ones can give an argument above 1, and products beyond int are undefined. Proved: the angle of a whole-number spectrum with itself is acos(1) while the sum of squares is at most 4096."
  },
  {
   "property": "C79",
   "status": "partial",
   "theorems": [
    "C79_marks",
    "C79_matches_refuted"
   ],
   "note": "Refuted: the comparison is the wrong way round. Proved which pixels are marked for every cube."
  },
  {
   "property": "C80",
   "status": "partial",
   "theorems": [
    "C80_read_partial",
    "C80_long_refuted",
    "C80_text_refuted",
    "C80_missing"
   ],
   "note": "Proved for texts of at most the requested number of values. Refuted: longer texts and texts with anything else in them write past the end of the buffer."
  },
  {
   "property": "C81",
   "status": "partial",
   "theorems": [
    "C81_stretch_partial",
    "C81_undefined_refuted",
    "C81_constant_refuted",
    "C81_whole"
   ],
   "note": "Proved for every band whose stretched values are ints, with the values themselves for whole samples and ranges dividing 255. Refuted: a constant band divides by zero and converts the result (undefined), and the smallest value goes to 1 unless it is 0."
  },
  {
   "property": "C82",
   "status": "partial",
   "theorems": [
    "C82_addition_partial",
    "C82_widths_refuted",
    "C82_log"
   ],
   "note": "Proved for equal widths (also in place, different heights); refuted for different widths, where rows are mixed up."
  },
  {
   "property": "C83",
   "status": "partial",
   "theorems": [
    "C83_energy_partial",
    "C83_constant_partial",
    "C83_header_refuted",
    "C83_alignment_refuted",
    "C83_one_row_refuted"
   ],
   "note": "Proved for images of at least 2 by 2 pixels with the allocator behaving. Refuted: the assertions assign to the header, an image of one row is read outside its data, and addresses congruent to 48 mod 64 make the release undefined."
  },
  {
   "property": "C84",
   "status": "partial",
   "theorems": [
    "C84_distance",
    "C84_distance_symmetric",
    "C84_distance_self",
    "C84_distance_whole_partial",
    "C84_distance_error_partial",
    "C84_deviation",
    "C84_deviation_whole_partial",
    "C84_deviation_error_partial"
   ],
   "note": "Exactly the rounded computation for all spectra, symmetry and distance 0 to itself; the true value proved for whole results, and the square of the distance off by at most (n+6)/2^23 for up to 2^20 elements and distances from 2^-36 to 2^51. For spectra that are not negative the error of the deviation is bounded in the same way."
  },
  {
   "property": "C85",
   "status": "partial",
   "theorems": [
    "C85_down_partial",
    "C85_up_partial",
    "C85_down_constant",
    "C85_up_constant_partial",
    "C85_up_border_refuted"
   ],
   "note": "Both functions proved exactly for every pixel of images with 1 or 3 channels, at least 2 by 2 (each byte is the nearest integer, ties to even, of the integer binomial sum over 256, or over 64 with both passes limited to 255). Reduction keeps constant images. Refuted: both functions leak their temporaries, and enlarging a constant image changes its border (the image with inserted zeros is continued by repeating its border, that is by pixels at the top and left and by zeros at the bottom and right)."
  },
  {
   "property": "C86",
   "status": "partial",
   "theorems": [
    "C86_zero_partial",
    "C86_half_turn_refuted",
    "C86_quarter_turn_refuted"
   ],
   "note": "Angle 0 proved for every BIP cube (the result is padded with zeros to even sizes). Refuted: half a turn of a 2 by 2 cube writes outside the result, a quarter turn loses a pixel (the values of cos and sin at the angles computed with pi = 3.1415926 are hypotheses)."
  },
  {
   "property": "C87",
   "status": "partial",
   "theorems": [
    "C87_minmax_partial",
    "C87_l1_partial",
    "C87_l2_partial",
    "C87_inf_partial",
    "C87_float_whole",
    "C87_other_types",
    "C87_channels_refuted",
    "C87_constant_refuted",
    "C87_fractions_refuted",
    "C87_inf_refuted",
    "C87_large_refuted",
    "C87_narrow_refuted"
   ],
   "note": "For 8-bit and float matrices whose elements are whole numbers the result is exactly the nearest whole number (limited to 0..255) of the scaled element, for all four norms, in place or not. Refuted: a constant matrix becomes 0 outside the requested range (division by zero), float results lose their fractions and are limited to 0..255, the maximum norm ignores negative elements, matrices whose elements all exceed 1000000 get a wrong minimum, only the first rows*cols elements of images with several channels are normalised, and an 8-bit destination for a float source is written out of bounds."
  },
  {
   "property": "C88",
   "status": "partial",
   "theorems": [
    "C88_code",
    "C88_whole_partial",
    "C88_factor_refuted",
    "C88_leak_refuted"
   ],
   "note": "For every matrix the stored numbers are described exactly (C88_code) and for whole-number matrices evaluated. Refuted: the projection coefficients are plain column sums rather than inner products and the same amount is subtracted from every entry, so q r differs from a and the columns of q are not orthogonal (identity matrix: second row of q is zero); the entries of r below the diagonal are left as they were; two blocks are leaked on every call."
  },
  {
   "property": "C89",
   "status": "partial",
   "theorems": [
    "C89_code",
    "C89_exact",
    "C89_eigenvector_refuted"
   ],
   "note": "The code performs the elimination algorithm in floats, without leak or stray write (C89_code). Over any field, if the leading blocks of A - lam I are regular and lam is an eigenvalue, the vector is an eigenvector after its first entry is multiplied by a00 - lam, and as returned exactly if that entry is 0 or a00 - lam = 1. Refuted: the division starts at column 1, so the first entry is wrong in general; a zero pivot gives NaN."
  },
  {
   "property": "C90",
   "status": "partial",
   "theorems": [
    "C90_code",
    "C90_other_types",
    "C90_back_code",
    "C90_exact",
    "C90_sum",
    "C90_point",
    "C90_inverse_refuted"
   ],
   "note": "The forward transform stores exactly the Fourier sums as the machine computes them and nothing else (C90_code); its first value is the sum of the image and the transform of a single point is constant, exactly. With real numbers in place of floats the two transforms together multiply the image by the root of its size (C90_exact). Refuted: the transform back divides by the root of the size rather than the size, so an image does not come back, with any cosine and sine; 16-bit results are limited to 255; images of other types are ignored without a message."
  },
  {
   "property": "C91",
   "status": "partial",
   "theorems": [
    "C91_code",
    "C91_centred",
    "C91_point",
    "C91_odd_refuted"
   ],
   "note": "The call stores the scaled magnitudes of the image with alternating signs (C91_code), which over the real numbers is the transform with the zero frequency in the middle for even sizes (C91_centred); a single point is evaluated exactly in floats. Refuted: for odd sizes the values are not those of the transform. Not proved: an error bound of the float sums for arbitrary images."
  },
  {
   "property": "C92",
   "status": "partial",
   "theorems": [
    "C92_code",
    "C92_centre",
    "C92_exact_partial",
    "C92_moved",
    "C92_turned",
    "C92_rounded_centre_refuted",
    "C92_wide_refuted",
    "C92_black_refuted",
    "C92_null_refuted"
   ],
   "note": "Proved: the call stores the seven values of the moments as the machine computes them (C92_code), about the whole pixel nearest to the centre of the weights (C92_centre); while 255 times the size times the cube of a side is at most 2^53 all moments are exact (C92_exact_partial) and moving the shape changes none of the seven words (C92_moved); over the real numbers turning it does not either (C92_turned). Refuted: the centre is rounded to a pixel, only the first bytes of wide rows are read, a black image is undefined behaviour and with a NULL result the values are lost."
  },
  {
   "property": "C93",
   "status": "partial",
   "theorems": [
    "C93_code_leak_refuted",
    "C93_moved",
    "C93_point_refuted"
   ],
   "note": "Proved for images with exact moments: the result is one minus the relative difference of the two lists, and 1 for a shape and a moved copy whenever the values are finite and not all zero. Refuted: one lit pixel compared with itself gives NaN, and two blocks of 56 bytes are leaked by every call."
  },
  {
   "property": "C94",
   "status": "partial",
   "theorems": [
    "C94_filters",
    "C94_reconstruct_partial",
    "C94_exact_refuted",
    "C94_unknown_refuted"
   ],
   "note": "Proved: the filters, their length, alternate signs, and that the release leaves nothing behind, for both wavelets (C94_filters); they give the signal back up to 1.1 parts in 10000. Refuted: exact reconstruction, and the refusal of unknown types (the check is always true and the base comes without filters)."
  },
  {
   "property": "C95",
   "status": "partial",
   "theorems": [
    "C95_code",
    "C95_pca",
    "C95_symmetric",
    "C95_whole_partial",
    "C95_kernel_refuted",
    "C95_constant_refuted",
    "C95_type_refuted",
    "C95_leak_refuted",
    "C95_added_refuted"
   ],
   "note": "Proved: what cal_covariance_matrix stores, word for word, for all images (C95_code), its symmetry, exactness for whole numbers, and that its temporary is released. Refuted: the means subtracted are those of the pixels, so each row of the matrix adds up to zero and constant bands give a matrix that is not zero; the check of the type is an assignment, so narrower cubes are read beyond their end; every turn leaks two blocks and the eigenvalues leak too; the result is added to what it held. The whole of hyper_mat_pca is described step by step in single precision for all cubes of floats and any number of turns, and every such call leaves a block behind (C95_pca). Missing: how far the computed components are from the true ones."
  },
  {
   "property": "C96",
   "status": "partial",
   "theorems": [
    "C96_describe",
    "C96_describe_null",
    "C96_release_set",
    "C96_release_info",
    "C96_resize_refuted",
    "C96_resize_null_refuted",
    "C96_hough_refuted",
    "C96_color_refuted",
    "C96_dwt_refuted",
    "C96_wavedec_refuted",
    "C96_subdec_refuted"
   ],
   "note": "Proved: the text printed for a cube (numbers in decimal, wavelengths correctly rounded to six decimals), the release of wavelet results. Refuted: resizing, line detection, the generic colour conversion and the wavelet decomposition are unfinished: they compute nothing, the decomposition leaks, resizing dereferences NULL before refusing it and line detection overflows for large radii."
  },
  {
   "property": "C97",
   "status": "partial",
   "theorems": [
    "C97_buffer_partial",
    "C97_never_refuted",
    "C97_stale_refuted",
    "C97_types_refuted",
    "C97_large_refuted"
   ],
   "note": "Proved: the 32-bit picture prepared for the X server, for byte images of 1, 3 or 4 channels below 2^29 pixels. Refuted: with the X server the pointer passed on never gets a value, so no image is shown; other numbers of channels leave the buffer uninitialised, the element type is not looked at, and from 2^29 pixels on the size overflows. The X and SDL libraries themselves are outside the model; without them (the default) the function only refuses NULL."
  }
 ]
}