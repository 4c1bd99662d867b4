{"id": "C01", "title": "Interleave conversion moves every sample to its place", "statement": "Each of the six interleave conversions (BIL/BSQ/BIP, ordered pairs of different layouts), called on a valid image in its source layout whose total byte size fits an int, returns a new image with the same samples/lines/bands/data type, the target interleave tag, the same wavelengths, and for every (line, sample, band) the same element bytes; the source image and every other live object are unchanged, and no out-of-bounds access or integer overflow happens on the way.", "quantifier": "every image size, every element type, every data content, every prior heap", "why_tests_cant": "The index arithmetic must be right for all S x L x B x element-size shapes; a test fixes a few shapes and cannot exclude a stride bug visible only when dimensions differ or overflow.", "anchors": ["modules/process/src/c_src/imageprocess.c:bil2bsq,bil2bip,bsq2bil,bsq2bip,bip2bsq,bip2bil", "modules/core/src/c_src/hypermat.c:create_hyper_mat_with_data,hyper_mat_copy_wavelength"]}
{"id": "C02", "title": "Interleave conversions compose to the identity", "statement": "Converting an image to another layout and back (and around the three-layout cycle) yields an image whose data is byte-for-byte the original.", "quantifier": "every image size, element type, content, and every pair of layouts", "why_tests_cant": "Round-trip on samples is bounded; the claim is about all shapes.", "anchors": ["modules/process/src/c_src/imageprocess.c:bil2bsq,bil2bip,bsq2bil,bsq2bip,bip2bsq,bip2bil"]}
{"id": "C03", "title": "Layout normalisation (convert2bsq/bil/bip)", "statement": "convert2bsq/convert2bil/convert2bip, applied to any valid image in a different layout, leave the caller's own image object holding the target interleave tag and the permuted samples.", "quantifier": "every valid image in each layout, every heap", "why_tests_cant": "The effect on the caller's object (versus on a local pointer) for every state is a semantic claim; tests only sample it.", "anchors": ["modules/process/src/c_src/imageprocess.c:convert2bsq,convert2bil,convert2bip"]}
{"id": "C04", "title": "Asking for the layout an image already has", "statement": "A conversion function whose target layout is the layout the image already has returns a usable independent copy of it.", "quantifier": "every valid image already in the target layout", "why_tests_cant": "Needs every image; a single refutation or a universal proof settles it.", "anchors": ["modules/process/src/c_src/imageprocess.c:bil2bsq,bil2bip,bsq2bil,bsq2bip,bip2bsq,bip2bil", "modules/core/src/c_src/hypermat.c:hyper_mat_copy"]}
{"id": "C05", "title": "Copying a hyperspectral image", "statement": "hyper_mat_copy of a valid image returns a new, independent image equal to it in header, data and wavelengths; of NULL it returns NULL.", "quantifier": "every valid image and the null pointer, every heap", "why_tests_cant": "Independence/equality for all inputs.", "anchors": ["modules/core/src/c_src/hypermat.c:hyper_mat_copy"]}
{"id": "C06", "title": "Copying into an existing image", "statement": "hyper_mat_copy_to makes the destination's data and wavelengths equal to the source's, for equal-shape images, without touching the source or any other object; mismatching shapes never write anything.", "quantifier": "every pair of images, every content", "why_tests_cant": "All shapes and all mismatch combinations.", "anchors": ["modules/core/src/c_src/hypermat.c:hyper_mat_copy_to,hyper_mat_copy_wavelength"]}
{"id": "C07", "title": "A fresh hyperspectral image is well laid out and zeroed", "statement": "create_hyper_mat with positive dimensions and a supported type returns an image whose sample area and wavelength area are 64-byte aligned, lie inside the single allocation, do not overlap each other or the header, are exactly as long as needed, and read as zero; with initial data/wavelengths supplied they are copied exactly.", "quantifier": "every size and type whose byte size fits an int, every allocator address, every previous memory content", "why_tests_cant": "Depends on the address malloc returns and on stale memory, which a test does not control.", "anchors": ["modules/core/src/c_src/hypermat.c:create_hyper_mat,create_hyper_mat_with_data", "modules/core/include/c_include/type.h:BYTE_ALIGNMENT"]}
{"id": "C08", "title": "A fresh simple matrix is zeroed", "statement": "create_simple_mat returns a matrix of the requested shape all of whose rows*cols*channels elements read as zero, with 64-byte aligned data inside the allocation.", "quantifier": "every rows/cols/type/channels, every allocator address and stale memory", "why_tests_cant": "Stale-heap contents are not under a test's control.", "anchors": ["modules/core/src/c_src/simplemat.c:create_simple_mat,create_simple_mat_with_data"]}
{"id": "C09", "title": "Deleting a matrix frees exactly what was allocated", "statement": "delete_simple_mat on a matrix obtained from create_simple_mat, or on one wrapping caller-provided data, releases the matrix and its data exactly once and never frees a pointer that was not obtained from malloc.", "quantifier": "every allocator address (any 16-byte aligned address), every matrix", "why_tests_cant": "Whether the free is valid depends on the address malloc happened to return.", "anchors": ["modules/core/src/c_src/simplemat.c:delete_simple_mat,create_simple_mat_with_data"]}
{"id": "C10", "title": "Copying a simple matrix", "statement": "simple_mat_copy returns a fresh matrix with the same shape, type, channels and bytes, leaving the source unchanged; later writes through one are not visible through the other.", "quantifier": "every matrix, every content", "why_tests_cant": "All shapes including multi-channel.", "anchors": ["modules/core/src/c_src/simplemat.c:simple_mat_copy"]}
{"id": "C11", "title": "Saving and reloading sample data", "statement": "hmsave followed by hmread_with_size with the same dimensions and type yields an image with the same sample bytes.", "quantifier": "every image, every content, every file system state", "why_tests_cant": "All contents and sizes.", "anchors": ["modules/core/src/c_src/hypermat.c:hmsave,hmread_with_size"]}
{"id": "C12", "title": "Header written by the library is understood by the library", "statement": "For an image, the header text written by hmsave, parsed by the header reader, gives back the same samples, lines, bands, data type and interleave tag.", "quantifier": "every value of the four integers", "why_tests_cant": "Integer printing/parsing over all 2^31 values of each field.", "anchors": ["modules/core/src/c_src/hypermat.c:writehdr,readhdr"]}
{"id": "C13", "title": "Unrelated header fields do not change the image description", "statement": "A well-formed ENVI header containing additional fields (for instance 'data ignore value') or without a blank after '=' is read with the field values it states, without corrupting memory.", "quantifier": "every ENVI header text", "why_tests_cant": "The space of headers is unbounded; prefix matching bugs are invisible on friendly headers.", "anchors": ["modules/core/src/c_src/hypermat.c:readhdr,cmpstr"]}
{"id": "C14", "title": "Wavelength list parsing splits exactly at the commas", "statement": "For a brace-free list of n>=1 numbers separated by commas (each shorter than 20 characters) the wavelength reader stores exactly n values, the i-th being the number of the i-th token.", "quantifier": "every list of tokens", "why_tests_cant": "Unbounded lists; buffer reuse bug would only show for particular token length sequences.", "anchors": ["modules/core/src/c_src/hypermat.c:read_wavelength"]}
{"id": "C15", "title": "BMP write/read round trip", "statement": "Writing a 3-channel 8-bit image with smwrite_bmp and reading the file back with smread_bmp returns an image with the same size and the same pixels as the image had before the call.", "quantifier": "every width/height (row padding included), every pixel content, every stale memory", "why_tests_cant": "Padding, odd heights and stale bytes in every combination.", "anchors": ["modules/core/src/c_src/simplemat.c:smwrite_bmp,smread_bmp"]}
{"id": "C16", "title": "Writing a BMP does not change the image", "statement": "smwrite_bmp leaves the caller's image unchanged.", "quantifier": "every image", "why_tests_cant": "Universal frame claim.", "anchors": ["modules/core/src/c_src/simplemat.c:smwrite_bmp"]}
{"id": "C17", "title": "BMP files are standard bottom-up BGR files", "statement": "The file written by smwrite_bmp has a consistent header (sizes and offsets) and stores row h-1-i, pixel j of the image as B,G,R at the place the BMP format prescribes, for every pixel.", "quantifier": "every width/height/content", "why_tests_cant": "Every pixel of every size, including middle rows.", "anchors": ["modules/core/src/c_src/simplemat.c:smwrite_bmp"]}
{"id": "C18", "title": "Sub-cube extraction", "statement": "hyper_mat_get_range on an in-range half-open box returns an image of the box's size whose (i,j,k) sample is the source's (i+line0, j+sample0, k+band0) sample for each of the three layouts, with the wavelengths of the chosen bands; taking a box of a box equals taking the composed box.", "quantifier": "every image, layout, element type and box", "why_tests_cant": "All shapes and boxes.", "anchors": ["modules/process/src/c_src/imageprocess.c:hyper_mat_get_range"]}
{"id": "C19", "title": "Band extraction", "statement": "hyper_mat_2_simple_mat copies exactly the requested band (1-based) of a BSQ image into the simple matrix, and nothing else changes.", "quantifier": "every image, every band number", "why_tests_cant": "All shapes, all types, all bands, out-of-range band numbers.", "anchors": ["modules/process/src/c_src/imageprocess.c:hyper_mat_2_simple_mat"]}
{"id": "C20", "title": "Band insertion", "statement": "simple_mat_2_hyper_mat stores the matrix as the requested band of the image, leaving all other bands unchanged, for every element type.", "quantifier": "every image, type, band number", "why_tests_cant": "All element sizes.", "anchors": ["modules/process/src/c_src/imageprocess.c:simple_mat_2_hyper_mat"]}
{"id": "C21", "title": "Transposition", "statement": "simple_mat_transport fills the result with the matrix transposed, for every element size, and transposing twice is the identity.", "quantifier": "every matrix", "why_tests_cant": "All shapes.", "anchors": ["modules/process/src/c_src/imageprocess.c:simple_mat_transport"]}
{"id": "C22", "title": "Image addition", "statement": "simple_mat_addition_uchar stores the element-wise sum of the two images on their common area at the matching coordinates.", "quantifier": "every pair of images of any shapes", "why_tests_cant": "All shape pairs.", "anchors": ["modules/process/src/c_src/imageprocess.c:simple_mat_addition_uchar"]}
{"id": "C23", "title": "Splicing a block into a cube", "statement": "hyper_mat_splicing copies all samples of the part into the cube starting at the given element index, leaves every other byte of the cube and the part unchanged, and never writes outside the cube.", "quantifier": "every pair of inputs", "why_tests_cant": "All shapes.", "anchors": ["modules/process/src/c_src/imageprocess.c:hyper_mat_splicing"]}
{"id": "C24", "title": "Border index extrapolation", "statement": "hypercv_border_Interpolate terminates and maps every position p to an index inside [0,len) following the documented pattern of the mode: replicate aaaaaa|abcdefgh|hhhhhhh, reflect fedcba|abcdefgh|hgfedcb, reflect_101 gfedcb|abcdefgh|gfedcba, wrap cdefgh|abcdefgh|abcdefg.", "quantifier": "every position, every length >= 1, each mode", "why_tests_cant": "The position is unbounded; the loop must terminate for all of them.", "anchors": ["modules/core/include/c_include/type.h:hypercv_border_Interpolate"]}
{"id": "C25", "title": "Constant-border extrapolation stays in range", "statement": "With the constant border mode the index returned by hypercv_border_Interpolate can be used to index the image.", "quantifier": "every position and length", "why_tests_cant": "All lengths, including 1.", "anchors": ["modules/core/include/c_include/type.h:hypercv_border_Interpolate"]}
{"id": "C26", "title": "Image padding", "statement": "hypercv_copy_make_border returns an image enlarged by top/bottom/left/right whose pixel (i,j) is the source pixel at the border-extrapolated coordinates (or the constant value in constant mode).", "quantifier": "every 8-bit image, channels, border widths and mode", "why_tests_cant": "All sizes and all border widths.", "anchors": ["modules/process/src/c_src/filter.c:hypercv_copy_make_border"]}
{"id": "C27", "title": "Thresholding is the documented pixel function", "statement": "For each threshold type the destination pixel is exactly the documented function of the source pixel, for every pixel and channel, and nothing else is modified; also when source and destination are the same image.", "quantifier": "every image, every threshold and max value, each type", "why_tests_cant": "All contents and sizes, in-place use.", "anchors": ["modules/process/src/c_src/threshold.c:hypercv_threshold,hypercv_threshold_binary,hypercv_threshold_binary_inv,hypercv_threshold_trunc,hypercv_threshold_tozero,hypercv_threshold_tozero_inv"]}
{"id": "C28", "title": "Otsu threshold is in bounds and optimal", "statement": "The Otsu mode of thresholding reads only the image and picks the grey level with the largest between-class variance.", "quantifier": "every single-channel image", "why_tests_cant": "All histograms.", "anchors": ["modules/process/src/c_src/threshold.c:otsuThreshold,hypercv_threshold_otsu"]}
{"id": "C29", "title": "Mirroring an image", "statement": "simple_mat_flip mirrors the image horizontally, vertically or both ways: destination pixel (i,j,channel) is the mirrored source pixel; flipping twice restores the image; flipping both ways is the composition of the two single flips in either order.", "quantifier": "every 8-bit image, channels, flip code", "why_tests_cant": "All sizes, odd and even.", "anchors": ["modules/process/src/c_src/GeometricTransformation.c:simple_mat_flip,simple_mat_flip_horizontal,simple_mat_flip_vertical"]}
{"id": "C30", "title": "Grey to colour", "statement": "sm_gray2rgb replicates each grey value in the three channels; sm_binary2rgb maps 0 to black and 1 to white.", "quantifier": "every image", "why_tests_cant": "All sizes and contents.", "anchors": ["modules/process/src/c_src/colortransform.c:sm_gray2rgb,sm_binary2rgb"]}
{"id": "C31", "title": "Colour to grey", "statement": "sm_rgb2gray yields for each pixel the maximum, the weighted mean or the average rounded to nearest of its channels; converting a grey-valued colour image (r=g=b) gives back the grey value.", "quantifier": "every image, every method", "why_tests_cant": "All 2^24 colours.", "anchors": ["modules/process/src/c_src/colortransform.c:sm_rgb2gray"]}
{"id": "C32", "title": "Swapping colour order", "statement": "sm_bgr2rgb exchanges the first and third channel of every pixel; applied twice it is the identity, also when source and destination are the same image.", "quantifier": "every image, distinct or identical arguments", "why_tests_cant": "Aliasing and all sizes.", "anchors": ["modules/process/src/c_src/colortransform.c:sm_bgr2rgb"]}
{"id": "C33", "title": "Widening conversions are exact", "statement": "Converting an 8-bit cube to short, int, ushort or float and a ushort cube to float preserves the numeric value of every sample, the dimensions and the wavelengths.", "quantifier": "every cube and content whose result fits the 2 GiB the int size computation can express", "why_tests_cant": "All values and sizes.", "anchors": ["modules/process/src/c_src/datatypechange.c:hyper_mat_uchar2short,hyper_mat_uchar2int,hyper_mat_uchar2float,hyper_mat_uchar2ushort,hyper_mat_ushort2float"]}
{"id": "C34", "title": "Narrowing conversions from float saturate", "statement": "Converting a float cube/matrix to a narrower integer type rounds to nearest and saturates values outside the target range.", "quantifier": "every cube, every float bit pattern", "why_tests_cant": "2^32 float patterns times every position.", "anchors": ["modules/process/src/c_src/datatypechange.c:hyper_mat_float2uchar,hyper_mat_float2char,hyper_mat_float2short,hyper_mat_float2ushort,hyper_mat_float2int,hyper_mat_float2uint,simple_mat_float2uchar"]}
{"id": "C35", "title": "Rounding", "statement": "HYPERCV_ROUND and saturate_cast_float2uchar return the nearest integer (ties to even), the latter clamped to 0..255, for every finite float.", "quantifier": "every float", "why_tests_cant": "2^32 inputs.", "anchors": ["modules/core/include/c_include/type.h:HYPERCV_ROUND,saturate_cast_float2uchar"]}
{"id": "C36", "title": "The dynamic array behaves like a list", "statement": "Any sequence of push_back, pop_back (on non-empty), erase, indexing, size and capacity operations on the vector macros behaves as the same operations on a mathematical list; accesses stay inside the allocation and size <= capacity always.", "quantifier": "every sequence of operations, every element", "why_tests_cant": "Unbounded operation histories.", "anchors": ["modules/core/include/c_include/vector.h:vector_push_back,vector_pop_back,vector_erase,vector_size,vector_capacity,vector_grow"]}
{"id": "C37", "title": "Factorial", "statement": "hypercv_factorial(n) is n! for every n whose factorial fits the result type and reports an error for negative n.", "quantifier": "every int", "why_tests_cant": "All n.", "anchors": ["modules/process/src/c_src/mathprocess.c:hypercv_factorial"]}
{"id": "C38", "title": "Descending sort", "statement": "sort_array_down_float leaves the array sorted in descending order and a permutation of its input.", "quantifier": "every array of every length", "why_tests_cant": "All arrays.", "anchors": ["modules/process/src/c_src/mathprocess.c:sort_array_down_float"]}
{"id": "C39", "title": "Matrix product and transpose", "statement": "MulMatrix_* adds to the output matrix the matrix product of its inputs (so with a zeroed output it is the product); TransMatrix_* writes the transpose; memory outside the output is untouched.", "quantifier": "every dimension and content", "why_tests_cant": "All shapes.", "anchors": ["modules/process/src/c_src/matrixprocess.c:MulMatrix_double,MulMatrix_float,MulMatrix_int,TransMatrix_float,TransMatrix_double,TransMatrix_int"]}
{"id": "C40", "title": "Matrix inversion", "statement": "In exact arithmetic invert_matrix_float leaves in the result the inverse of every invertible matrix; a singular matrix is reported to the caller.", "quantifier": "every square matrix over a field", "why_tests_cant": "All sizes and matrices, zero pivots included.", "anchors": ["modules/process/src/c_src/matrixprocess.c:invert_matrix_float,swap_rows_float,matrix_row_multi_scalar_float,shear_row,set_identity_matrix_float"]}
{"id": "C41", "title": "Integral image", "statement": "hypercv_integral's output at (i,j) is the sum of all source pixels in the rectangle from (0,0) to (i,j).", "quantifier": "every image", "why_tests_cant": "All sizes and contents.", "anchors": ["modules/process/src/c_src/filter.c:hypercv_integral"]}
{"id": "C42", "title": "2-D filtering", "statement": "hypercv_filter2D computes for every pixel the kernel-weighted sum of its neighbourhood with the border extrapolated according to the mode, and leaves source and kernel as they were.", "quantifier": "every image, kernel, border mode", "why_tests_cant": "All sizes.", "anchors": ["modules/process/src/c_src/filter.c:hypercv_filter2D"]}
{"id": "C43", "title": "Gaussian blur", "statement": "The Gaussian kernel weights are symmetric and sum to one, and hypercv_gaussian_blur of a constant image is that constant image.", "quantifier": "every kernel size, every image", "why_tests_cant": "All sizes.", "anchors": ["modules/process/src/c_src/filter.c:gaussian_kernel,hypercv_gaussian_blur,hypercv_gaussian_blur_with_kernel"]}
{"id": "C44", "title": "Median and mean blur are usable", "statement": "hypercv_medianblur and hypercv_meanblur applied to a valid image return normally.", "quantifier": "every image", "why_tests_cant": "Universal.", "anchors": ["modules/process/src/c_src/filter.c:hypercv_medianblur,hypercv_meanblur,median_member"]}
{"id": "C45", "title": "Erosion and dilation", "statement": "hypercv_corrosion sets an interior pixel exactly when all pixels under the structuring element are set; hypercv_expend sets it exactly when some pixel under the element is set.", "quantifier": "every binary image and structuring element", "why_tests_cant": "All sizes, non-square images.", "anchors": ["modules/process/src/c_src/morphology.c:hypercv_corrosion,hypercv_expend"]}
{"id": "C46", "title": "Opening and closing", "statement": "Morphological opening is erosion followed by dilation, closing is dilation followed by erosion.", "quantifier": "every image and element", "why_tests_cant": "All images.", "anchors": ["modules/process/src/c_src/morphology.c:hypercv_open,hypercv_close"]}
{"id": "C47", "title": "Sobel edge map", "statement": "hypercv_sobel writes only 0 or 255, 255 exactly where the gradient magnitude estimate exceeds the threshold, without accessing memory outside the image.", "quantifier": "every image and threshold", "why_tests_cant": "All sizes.", "anchors": ["modules/process/src/c_src/gradient.c:hypercv_sobel"]}
{"id": "C48", "title": "Laplacian", "statement": "hypercv_laplacian computes the clamped discrete Laplacian of every pixel of a single-channel image with the extrapolated border.", "quantifier": "every image", "why_tests_cant": "All sizes.", "anchors": ["modules/process/src/c_src/gradient.c:hypercv_laplacian"]}
{"id": "C49", "title": "Optimal transform size", "statement": "get_optimal_DFT_size(n) is the least number >= n whose only prime factors are 2, 3 and 5 (up to the documented maximum), and -1 beyond it.", "quantifier": "every int", "why_tests_cant": "2^32 inputs and completeness of the table.", "anchors": ["modules/algorithm/src/dft.c:get_optimal_DFT_size"]}
{"id": "C50", "title": "DFT magnitude and inverse read inside the matrices", "statement": "The magnitude computed from real and imaginary parts at each position depends on exactly that position of both inputs, and only memory of the inputs is read.", "quantifier": "every matrix size", "why_tests_cant": "All sizes.", "anchors": ["modules/algorithm/src/dft.c:hypercv_magnitude"]}
{"id": "C51", "title": "Histogram equalisation", "statement": "HisEqualization maps every grey level v to 255*cdf(v)/N; in particular the mapping is monotone.", "quantifier": "every image", "why_tests_cant": "All histograms.", "anchors": ["modules/algorithm/src/HisEqualization.c:HisEqualization"]}
{"id": "C52", "title": "Drawing a point", "statement": "draw_POINT leaves in the destination a copy of the image (one or three channels) in which exactly the pixels of the clipped squares around the given points have the given colour; nothing else changes.", "quantifier": "every image, centre, size and colour", "why_tests_cant": "All positions, partially or fully outside.", "anchors": ["modules/highgui/src/draw.c:draw_POINT"]}
{"id": "C53", "title": "Drawing a line", "statement": "draw_line colours the pixels of the segment between its end points in images with one or three channels.", "quantifier": "every image and end points", "why_tests_cant": "All.", "anchors": ["modules/highgui/src/draw.c:draw_line"]}
{"id": "C54", "title": "Radiometric calibration", "statement": "Relative calibration applies to each sample the coefficient of its own column and band and reads only the coefficient table.", "quantifier": "every cube and table", "why_tests_cant": "All shapes.", "anchors": ["modules/process/src/c_src/RadiometricCalibration.c:relative_radiometric_correction,absolute_radiometric_correction"]}
{"id": "C55", "title": "Contrast normalisation", "statement": "simple_mat_contrast_ratio divides by the exact number of ordered 4-neighbour pairs of the image.", "quantifier": "every image size", "why_tests_cant": "All sizes.", "anchors": ["modules/core/src/c_src/simplemat.c:simple_mat_contrast_ratio"]}
{"id": "C56", "title": "Grey-level statistics and entropy are usable", "statement": "simple_mat_grayscale_statistics and simple_mat_entropy return normally on valid images.", "quantifier": "every image, every 256-entry table", "why_tests_cant": "Universal.", "anchors": ["modules/core/src/c_src/simplemat.c:simple_mat_grayscale_statistics,simple_mat_entropy"]}
{"id": "C57", "title": "C++ image class construction", "statement": "A default constructed HyMat is an empty image, and reading or copying images through the C++ API is possible.", "quantifier": "every state", "why_tests_cant": "Universal.", "anchors": ["modules/core/include/cxx_include/hypermat.hpp:HyMat", "modules/core/src/cxx_src/hypermat.cpp"]}
{"id": "C58", "title": "C++ layout conversion and sub-range", "statement": "HyMat::convertTo permutes samples so that each (line, sample, band) element is preserved for each pair of layouts.", "quantifier": "every image", "why_tests_cant": "All shapes.", "anchors": ["modules/core/include/cxx_include/hypermat.hpp:convertTo,range"]}
{"id": "C59", "title": "Satellite position lies on the sphere of the orbital radius", "statement": "The satellite position computed from orbital elements has norm equal to the orbital radius, for every set of elements.", "quantifier": "all real orbital elements", "why_tests_cant": "Continuous domain.", "anchors": ["modules/satellite/src/satellite_orbit.c:hypercv_create_orbit,get_satellite_position_ecef"]}
{"id": "C60", "title": "Constrained energy minimisation leaves its inputs alone", "statement": "hyper_mat_cem does not modify the target spectrum supplied by the caller and accesses only allocated memory.", "quantifier": "every cube and spectrum", "why_tests_cant": "All inputs.", "anchors": ["modules/algorithm/src/cem.c:hyper_mat_cem"]}
{"id": "C61", "title": "Element sizes", "statement": "Every supported data type has the size of its C type, and every other code is rejected with -1.", "quantifier": "every int", "why_tests_cant": "2^32 codes.", "anchors": ["modules/core/include/c_include/type.h:get_elemsize"]}
{"id": "C62", "title": "String matching of interleave tags", "statement": "Comparing an image's 3-character interleave tag with a layout name gives the right answer whatever bytes follow the tag in memory.", "quantifier": "every tag and every following memory", "why_tests_cant": "The tag is not NUL terminated: the outcome could depend on neighbouring memory.", "anchors": ["modules/core/src/c_src/hypermat.c:cmpstr"]}
{"id": "C63", "title": "Numeric text parsing", "statement": "hypercv_atof returns the value denoted by a decimal literal with optional sign, fraction and exponent.", "quantifier": "every literal", "why_tests_cant": "Unbounded strings.", "anchors": ["modules/process/src/c_src/datatypechange.c:hypercv_atof"]}
{"id": "C64", "title": "Reshaping a cube into a pixel-by-band matrix", "statement": "reshape_hypermat_2_simplemat yields a matrix with one row per pixel and one column per band with the values of a BIP cube.", "quantifier": "every cube", "why_tests_cant": "All shapes.", "anchors": ["modules/process/src/c_src/imageprocess.c:reshape_hypermat_2_simplemat"]}
{"id": "C65", "title": "Two-dimensional structuring element", "statement": "create_2D_struct returns an element of the requested size whose cells are all one; deleting it releases everything allocated.", "quantifier": "every size", "why_tests_cant": "All sizes.", "anchors": ["modules/core/src/c_src/struct_2D.c:create_2D_struct,create_2D_struct_with_data,delete_S_2D"]}
{"id": "C66", "title": "k-means assigns each pixel to a nearest centre", "statement": "In every round of hypercv_k_means each pixel that is not black belongs to the first of the nearest centres, and each new centre is the mean position, rounded down, of the pixels that belong to the old one (the origin if there is none). The loop stops after the first round in which no coordinate of a centre grew by more than the threshold, the vector then holds the last centres, and all memory the function allocated is freed. (The function returns centres only, no labels.)", "quantifier": "every image, number of centres, threshold and sequence of random numbers", "why_tests_cant": "All images, all starting points, any number of rounds; overflow of the sums.", "anchors": ["modules/algorithm/src/cluster.c:hypercv_k_means,distance"]}
{"id": "C67", "title": "Mean of an image", "statement": "simple_mat_mean returns the arithmetic mean of the elements of a one-channel matrix, for each element type.", "quantifier": "every matrix of each type", "why_tests_cant": "All sizes and contents; large sums.", "anchors": ["modules/core/src/c_src/simplemat.c:simple_mat_mean"]}
{"id": "C68", "title": "Variance of an image", "statement": "simple_mat_variance returns the population variance of the elements of a one-channel matrix.", "quantifier": "every matrix of each type", "why_tests_cant": "All sizes and contents.", "anchors": ["modules/core/src/c_src/simplemat.c:simple_mat_variance"]}
{"id": "C69", "title": "Reading a standard BMP file", "statement": "smread_bmp of an uncompressed bottom-up 24-bit BMP file returns a picture whose pixel (i,j) has the red, green and blue value the file stores for it.", "quantifier": "every file of the format, every size", "why_tests_cant": "All sizes, row padding, middle rows.", "anchors": ["modules/core/src/c_src/simplemat.c:smread_bmp"]}
{"id": "C70", "title": "Reading a raw picture file", "statement": "smread of a file that contains rows*cols*channels elements returns an image of that size, type and number of channels whose elements are those of the file.", "quantifier": "every file, size, type and number of channels", "why_tests_cant": "All sizes, types and channel counts.", "anchors": ["modules/core/src/c_src/simplemat.c:smread"]}
{"id": "C71", "title": "Kepler's equation", "statement": "Ten iterations of E := M + e*sin(E) leave a residual of Kepler's equation of at most e^10 times the residual of the starting value.", "quantifier": "all orbital elements with e >= 0, every starting value", "why_tests_cant": "All real elements; convergence.", "anchors": ["modules/satellite/src/satellite_orbit.c:hypercv_create_orbit"]}
{"id": "C72", "title": "True anomaly", "statement": "The true anomaly f computed for the eccentric anomaly E satisfies tan(f/2) = sqrt((1+e)/(1-e)) * tan(E/2).", "quantifier": "all orbital elements with 0 <= e < 1", "why_tests_cant": "All real elements.", "anchors": ["modules/satellite/src/satellite_orbit.c:hypercv_create_orbit"]}
{"id": "C73", "title": "k-means ends", "statement": "hypercv_k_means ends.", "quantifier": "every image, number of centres, threshold and sequence of random numbers", "why_tests_cant": "Unbounded number of rounds.", "anchors": ["modules/algorithm/src/cluster.c:hypercv_k_means"]}
{"id": "C74", "title": "Correlation matrices are products divided by the number of samples", "statement": "correlation_matrix_X stores, for every pair of rows, the sum of the products divided by n, and touches no other memory.", "quantifier": "every element type, every matrix size and every contents", "why_tests_cant": "Unbounded sizes; wrap-around depends on the data.", "anchors": ["modules/process/src/c_src/matrixprocess.c:correlation_matrix_*"]}
{"id": "C75", "title": "Means of arrays", "statement": "mean_uchar, mean_char, mean_ushort, mean_short, mean_uint, mean_int, mean_float and mean_double return the arithmetic mean of the len elements of an array.", "quantifier": "every element type, length and contents", "why_tests_cant": "Large sums; all lengths.", "anchors": ["modules/process/src/c_src/mathprocess.c:mean_*"]}
{"id": "C76", "title": "Transposing the bands of a cube", "statement": "hyper_mat_transport makes each band of the destination the transpose of that band of the source; doing it twice gives the source back; only the data of the destination changes.", "quantifier": "every BSQ cube, every destination of transposed shape", "why_tests_cant": "All shapes and element types.", "anchors": ["modules/process/src/c_src/spectralprocess.c:hyper_mat_transport"]}
{"id": "C77", "title": "Mean over the bands", "statement": "hyper_mat_mean stores for each pixel of a BIP cube the mean of its spectrum.", "quantifier": "every cube and destination of the same size", "why_tests_cant": "All shapes and contents.", "anchors": ["modules/process/src/c_src/spectralprocess.c:hyper_mat_mean,sp_average"]}
{"id": "C78", "title": "Spectral angle", "statement": "spectral_angle_mapper returns the angle between two spectra: acos of the inner product divided by the norms, symmetric, and acos(1) for a spectrum with itself.", "quantifier": "every pair of spectra", "why_tests_cant": "All lengths and contents, fractions, overflow of the conversion to int.", "anchors": ["modules/process/src/c_src/spectralprocess.c:spectral_angle_mapper"]}
{"id": "C79", "title": "Spectral angle matching", "statement": "spectrum_SAM_match returns a new image in which exactly the pixels that match the reference spectrum (angle at most the threshold) are 1 and the others 0, and changes nothing else.", "quantifier": "every cube, reference and threshold", "why_tests_cant": "All cubes.", "anchors": ["modules/process/src/c_src/spectralprocess.c:spectrum_SAM_match"]}
{"id": "C80", "title": "Reading a spectrum", "statement": "read_spectrum_file returns a new buffer of the requested length that begins with the numbers of the file.", "quantifier": "every file contents and length", "why_tests_cant": "All files, including malformed ones.", "anchors": ["modules/process/src/c_src/spectralprocess.c:read_spectrum_file"]}
{"id": "C81", "title": "Linear stretching", "statement": "hyper_mat_linear_tension stores for each band of a float cube the values stretched linearly so that the smallest becomes 0 and the largest 255.", "quantifier": "every BSQ float cube", "why_tests_cant": "All shapes and contents, constant bands.", "anchors": ["modules/algorithm/src/HisEqualization.c:hyper_mat_linear_tension"]}
{"id": "C82", "title": "Sum and logarithm of float matrices", "statement": "simple_mat_addition_float stores the sum of the elements at the same row, column and channel; simple_mat_log stores the logarithm of each element; nothing else changes; both work in place.", "quantifier": "every pair of float matrices", "why_tests_cant": "All sizes, aliasing.", "anchors": ["modules/process/src/c_src/imageprocess.c:simple_mat_addition_float,simple_mat_log"]}
{"id": "C83", "title": "Edge energy of an image", "statement": "cal_edge_signal_energy returns the mean of the squared sums of the two diagonal edge responses of a grey image (0 for a constant image), leaves its argument unchanged and releases everything it allocates.", "quantifier": "every grey image of bytes", "why_tests_cant": "All sizes, contents and allocators.", "anchors": ["modules/algorithm/src/EdgeSignalEnergy.c:cal_edge_signal_energy"]}
{"id": "C84", "title": "Distance and deviation of spectra", "statement": "euclidean_distance returns the Euclidean distance of two spectra (symmetric, 0 for finite equal spectra); sp_standard_deviation returns the population standard deviation.", "quantifier": "every pair of spectra", "why_tests_cant": "All lengths and contents.", "anchors": ["modules/process/src/c_src/spectralprocess.c:euclidean_distance,sp_average,sp_variance,sp_standard_deviation"]}
{"id": "C85", "title": "Image pyramids", "statement": "hypercv_pyramid_down stores in an image of half the size every second pixel of the source smoothed with the five-tap binomial weights (borders repeated), rounded to nearest; hypercv_pyramid_up stores the source with zeros put between its pixels, smoothed with four times these weights; a constant image stays constant; nothing else changes and everything allocated is released.", "quantifier": "every 8-bit image and destination of matching size", "why_tests_cant": "All sizes, contents and channel counts.", "anchors": ["modules/process/src/c_src/GeometricTransformation.c:hypercv_pyramid_down,hypercv_pyramid_up"]}
{"id": "C86", "title": "Rotation of a cube", "statement": "hyper_mat_rotate returns a new cube holding every pixel of its argument rotated by the angle: 0 degrees keeps every pixel at its place, and multiples of 90 degrees neither lose pixels nor access memory outside the cubes.", "quantifier": "every cube and angle", "why_tests_cant": "All shapes, types, angles.", "anchors": ["modules/process/src/c_src/GeometricTransformation.c:hyper_mat_rotate"]}
{"id": "C87", "title": "Normalisation", "statement": "hypercv_normalize scales every element of a matrix so that its norm (sum of magnitudes, root of the sum of squares, largest magnitude) becomes alpha or its range becomes alpha..beta, storing the scaled value (rounded and limited to 0..255 for 8-bit matrices) in a destination of the same size, which may be the source, and writing nothing else.", "quantifier": "every matrix, range and norm", "why_tests_cant": "All sizes, contents, limits and norm types.", "anchors": ["modules/algorithm/src/normalize.c:hypercv_normalize"]}
{"id": "C88", "title": "QR factors", "statement": "matrix_QR_float stores in q an orthogonal matrix and in r an upper triangular matrix with q r = a, leaving a and everything else unchanged and releasing what it allocates.", "quantifier": "every square float matrix", "why_tests_cant": "All sizes and contents.", "anchors": ["modules/process/src/c_src/matrixprocess.c:matrix_QR_float,matrix_norm_float"]}
{"id": "C89", "title": "Eigenvectors", "statement": "Given the eigenvalues of a matrix, cal_eigen_vector_float stores in column k an eigenvector of length 1 for eigenvalue k, leaving the matrix and everything else unchanged and releasing what it allocates.", "quantifier": "every square float matrix and its eigenvalues", "why_tests_cant": "All sizes and contents.", "anchors": ["modules/process/src/c_src/matrixprocess.c:cal_eigen_vector_float"]}
{"id": "C90", "title": "Fourier transform and its inverse", "statement": "hypercv_dft stores the real and imaginary parts of the discrete Fourier transform of an 8-bit or 16-bit grey image, and hypercv_idft of these two matrices restores the image; nothing else is written.", "quantifier": "every grey image", "why_tests_cant": "All sizes and contents.", "anchors": ["modules/algorithm/src/dft.c:hypercv_dft,hypercv_dft_uchar,hypercv_dft_ushort,hypercv_idft,hypercv_idft_uchar,hypercv_idft_ushort"]}
{"id": "C91", "title": "Frequency spectrum", "statement": "hypercv_dft_frespectrum stores the magnitudes of the discrete Fourier transform of an 8-bit grey image, divided by the root of the number of pixels and limited to 0..255, with the zero frequency moved to the middle; nothing else is written.", "quantifier": "every grey image", "why_tests_cant": "All sizes and contents.", "anchors": ["modules/algorithm/src/dft.c:hypercv_dft_frespectrum"]}
{"id": "C92", "title": "Moment invariants of a shape", "statement": "calc_hu_moment stores the seven moment invariants of an image at hu and writes nothing else: they are computed from the moments about the centre of the weights, and do not change when the shape is moved or turned.", "quantifier": "every image and every position of the shape", "why_tests_cant": "All images, all displacements and all angles.", "anchors": ["modules/algorithm/src/shapematch.c:calc_hu_moment"]}
{"id": "C93", "title": "Comparison of two shapes", "statement": "hypercv_match_shapes returns one minus the relative difference of the invariants of the two images, which is 1 for a shape and a moved copy of it, and leaves memory as it was.", "quantifier": "every pair of images", "why_tests_cant": "All pairs of images and all displacements.", "anchors": ["modules/algorithm/src/shapematch.c:hypercv_match_shapes", "modules/algorithm/src/shapematch.c:calc_similar_hu"]}
{"id": "C94", "title": "Filter banks of the wavelets", "statement": "set_wavelet_base builds, for each wavelet it knows, four filters of one length whose high-pass members are the low-pass ones with alternate signs and which together give a signal back; it refuses other types; wavelet_base_free releases all that was allocated.", "quantifier": "every type and every heap", "why_tests_cant": "All types are a number; the loss of a block is not visible in a result.", "anchors": ["modules/process/src/c_src/dwt.c:set_wavelet_base", "modules/process/src/c_src/dwt.c:SerialReverse", "modules/process/src/c_src/dwt.c:wavelet_base_free"]}
{"id": "C95", "title": "Principal components", "statement": "hyper_mat_pca refuses cubes that are not of floats, builds the covariance matrix of the bands, which is symmetric and zero for constant bands, stores the projected pixels in the result and releases everything else.", "quantifier": "every cube, number of turns and heap", "why_tests_cant": "All float values of all images; lost blocks and reads beyond the data do not show in the result.", "anchors": ["modules/algorithm/src/pca.c:cal_covariance_matrix", "modules/algorithm/src/pca.c:hyper_mat_pca"]}
{"id": "C96", "title": "Descriptions, releases and the remaining operations", "statement": "hyper_mat_showinfo prints the sizes, type, layout and wavelengths of a cube and changes nothing; wt_coefset_free and wt_info_free release exactly the blocks of their argument; simple_mat_resize, hypercv_hough_trans, hypercv_colortransform and hypercv_wavedec refuse NULL, produce the result they are named after and leave no temporary behind.", "quantifier": "every cube, image, wavelength value, radius, level and heap", "why_tests_cant": "All floats and sizes; leaked blocks and undefined behaviour on NULL do not show in results.", "anchors": ["modules/core/src/c_src/hypermat.c:hyper_mat_showinfo", "modules/process/src/c_src/dwt.c:wt_coefset_free", "modules/process/src/c_src/dwt.c:wt_info_free", "modules/process/src/c_src/dwt.c:hypercv_wavedec", "modules/process/src/c_src/dwt.c:sub_wavedec", "modules/process/src/c_src/hypercvresize.c:simple_mat_resize", "modules/algorithm/src/HoughLines.c:hypercv_hough_trans", "modules/process/src/c_src/colortransform.c:hypercv_colortransform"]}
{"id": "C97", "title": "Showing an image", "statement": "smshow with the X server prepares a 32-bit picture of the image, grey pixels three times and colour pixels as they are, each followed by 1, whatever the number of channels, the element type and the size of the image, changes nothing else and shows the picture without undefined behaviour.", "quantifier": "every image, allocator and content of fresh memory", "why_tests_cant": "Fresh memory that happens to be right hides an uninitialised buffer; overflow needs images of 2^29 pixels.", "anchors": ["modules/highgui/src/smshow.c:smshow"]}
