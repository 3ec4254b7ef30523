{"id": "C01", "title": "buffer_size is exactly enough", "statement": "A buffer of buffer_size(w,h) bytes is accepted by Image::from_buffer with default strides for every non-zero w,h (no error, no panic), the planes inferred from it tile it exactly, and no smaller buffer is accepted.", "quantifier": "all 15 pixel formats, all widths and heights whose size fits in usize/isize, including odd ones", "why_tests_cant": "the size formula, the stride formula and the plane split are computed by three separate functions whose agreement has to hold for every dimension", "anchors": ["src/pixel_format.rs: PixelFormat::buffer_size, packed_strides", "src/planes.rs: infer, infer_impl", "src/image.rs: Image::from_buffer"]}
{"id": "C02", "title": "bounds_check accepts exactly the sufficient plane sets", "statement": "PixelFormat::bounds_check returns Ok iff at least as many planes as the format needs are present and each has stride >= the packed row size and length >= stride*rows; otherwise the error names the first offending plane with the right minimum, and it panics only if a size computation exceeds usize.", "quantifier": "all formats, all plane lists, strides, lengths, widths, heights", "why_tests_cant": "unbounded sizes and arbitrary plane lists", "anchors": ["src/pixel_format.rs: bounds_check", "src/planes.rs: read_planes", "src/plane_decs.rs"]}
{"id": "C03", "title": "packed strides are minimal", "statement": "The strides returned by packed_strides(w) are accepted by bounds_check (given long enough planes) and every strictly smaller stride is rejected with InvalidStride.", "quantifier": "all formats, all widths, all planes", "why_tests_cant": "unbounded widths", "anchors": ["src/pixel_format.rs: packed_strides, bounds_check", "src/plane_decs.rs: PlaneDesc::packed_stride"]}
{"id": "C04", "title": "every sample of an accepted image is in bounds", "statement": "If bounds_check accepts, then for every pixel (x,y) of an even-sized image and every component the bytes of its sample, at the address given by the documented memory layout of the format, lie inside the plane slice.", "quantifier": "all formats, all accepted plane sets, all pixels and components", "why_tests_cant": "quantifies over every accepted geometry and every pixel", "anchors": ["src/pixel_format.rs: bounds_check", "src/formats/*/read.rs"]}
{"id": "C05", "title": "inferred planes are consecutive and disjoint", "statement": "infer yields the format's number of planes, laid out consecutively from the start of the buffer, plane i being stride_i*rows_i bytes for multi-plane formats; it panics iff the buffer is too small, the number of strides is wrong or a size overflows.", "quantifier": "all formats, buffers, strides, dimensions", "why_tests_cant": "unbounded sizes", "anchors": ["src/planes.rs: infer, infer_impl, infer_*"]}
{"id": "C06", "title": "Image constructors establish the invariant", "statement": "Whenever Image::from_buffer or Image::from_planes returns Ok(image), image.width()/height() are non-zero, its planes() can be read without panic and image.bounds_check() returns Ok; zero dimensions always give InvalidDimensions.", "quantifier": "all arguments", "why_tests_cant": "unbounded arguments", "anchors": ["src/image.rs: Image::new, from_buffer, from_planes, planes"]}
{"id": "C07", "title": "Image::from_buffer reports bad input as an error, not a panic", "statement": "Image::from_buffer returns Err for a buffer that is too small or a stride list of the wrong length. (False: multi-plane formats panic inside plane inference.)", "quantifier": "all formats, buffers, strides", "why_tests_cant": "the failure depends on the format and length combination", "anchors": ["src/image.rs: Image::new, ImageRef::planes", "src/planes.rs: infer_impl"]}
{"id": "C08", "title": "blank images are valid and black", "statement": "Image::blank(format,w,h,color) passes bounds_check for all dimensions that can be allocated, all its bytes are zero and its planes tile the buffer.", "quantifier": "all formats, widths, heights, colors", "why_tests_cant": "unbounded dimensions", "anchors": ["src/image.rs: Image::blank"]}
{"id": "C09", "title": "crop accepts exactly windows inside the parent", "statement": "crop(window) returns Ok iff the parent passes its bounds check and x+w <= parent width and y+h <= parent height (mathematical sums, so overflow is rejected); it never wraps around.", "quantifier": "all parents and windows", "why_tests_cant": "windows near usize::MAX", "anchors": ["src/crop.rs: Cropped::new"]}
{"id": "C10", "title": "a cropped view shows exactly the window", "statement": "Component c of pixel (i,j) of a cropped image is component c of pixel (x+i,y+j) of the parent, and the cropped image passes bounds_check. (False as stated: 16-bit formats, odd offsets into sub-sampled formats and windows with x>0 that reach the last row break it; proved for 8-bit formats with even offsets and slack.) Exactly what every window shows: 16-bit formats count the rows above the window twice; a window that starts in the middle of a chroma sample shows luma at the window and the chroma from the start of that sample, with U and V exchanged (and V of the next sample) in NV12 and YUYV.", "quantifier": "all parents, formats, windows, pixels", "why_tests_cant": "needs all windows and strides", "anchors": ["src/crop.rs: crop_planes, Cropped::planes"]}
{"id": "C11", "title": "using a cropped image never panics", "statement": "For every window accepted by crop, planes() of the cropped image does not panic. (False: a window with x>0 reaching the parent's last row panics; so does a 16-bit window in the lower half.)", "quantifier": "all parents and windows", "why_tests_cant": "boundary windows", "anchors": ["src/crop.rs: crop_planes"]}
{"id": "C12", "title": "cropping composes", "statement": "Cropping a cropped image shows the same samples as cropping the parent once with the summed offsets.", "quantifier": "all parents, pairs of nested windows", "why_tests_cant": "histories of crops", "anchors": ["src/crop.rs: Cropped, crop_planes"]}
{"id": "C13", "title": "convert's result code is determined by its arguments", "statement": "convert returns MismatchedImageSize iff sizes differ, else OddImageDimensions iff a dimension is odd, else the bounds error of the source, else InvalidColorInfo iff formats/colors differ and a YUV-format side carries RGB color info (source first), else the bounds error of the destination, else Ok. (Instead of Ok the run is undefined or panics exactly when a 4:4:4 planar source does not contain its chroma where the reader looks for it, see C15.)", "quantifier": "all pairs of images, formats, color infos", "why_tests_cant": "product of formats, colors and geometry defects, incl. precedence", "anchors": ["src/lib.rs: convert, verify_input_windows, read_any_to_rgba, rgba_to_any", "src/formats/*/{to_rgb,from_rgb}.rs: new"]}
{"id": "C14", "title": "a failed convert leaves the destination untouched", "statement": "If convert returns Err, no byte of the destination has been written.", "quantifier": "all images and error kinds", "why_tests_cant": "every error path, arbitrary geometry", "anchors": ["src/lib.rs: convert", "src/formats/*/write.rs: write"]}
{"id": "C15", "title": "convert is memory safe", "statement": "For images accepted by bounds_check convert never reads or writes outside a plane slice (raw pointer loads/stores) and never panics, on every CPU back end. (False for some 4:4:4 planar sources whose chroma strides differ from the luma stride; proved for all others, and for those exactly which ones. Stores always stay inside.)", "quantifier": "all format pairs, geometries, vector widths, buffer contents", "why_tests_cant": "unsafe loads/stores guarded only by debug_assert; every width/stride/LEN combination", "anchors": ["src/primitive.rs", "src/formats/*/read.rs", "src/formats/*/write.rs", "src/formats/i444/read.rs:48,51"]}
{"id": "C16", "title": "convert writes only pixels", "statement": "Bytes of the destination that are not part of a sample (row padding, trailing bytes, bytes outside the planes) are unchanged by convert.", "quantifier": "all format pairs, strides, back ends, buffer contents", "why_tests_cant": "all strides and tails", "anchors": ["src/formats/*/write.rs"]}
{"id": "C17", "title": "every pixel is visited exactly once", "statement": "The traversal covers each pixel of a w x h even-sized image exactly once for every vector length, vector blocks never cross the right edge.", "quantifier": "all even w,h and all vector lengths", "why_tests_cant": "all widths modulo all vector lengths", "anchors": ["src/formats/visit_2x2.rs: visit, visit_impl"]}
{"id": "C18", "title": "per-pixel functional correctness of convert", "statement": "After a successful convert, every destination sample is the quantised value of the per-pixel (for sub-sampled chroma: 2x1 or 2x2 mean) color transformation of the source samples at the same position, for every source and destination format.", "quantifier": "all format pairs, color infos, geometries, back ends, pixels, buffer contents", "why_tests_cant": "all images", "anchors": ["src/lib.rs: convert", "src/formats/**"]}
{"id": "C19", "title": "sub-sampled ICtCp chroma is the block mean", "statement": "When encoding ICtCp to 4:2:0 the stored chroma is the mean of the chroma of its four pixels. (False: only the upper row is used and lanes are not de-interleaved.)", "quantifier": "all 2x2 blocks, back ends", "why_tests_cant": "depends on all four pixels and the vector length", "anchors": ["src/color/space.rs: bt2100_rgbx4_to_yx4_uv"]}
{"id": "C20", "title": "same-format convert copies samples exactly", "statement": "Converting between images of identical format and color info reproduces every in-range sample bit-exactly on every back end. (For 16-bit words above the nominal 10/12-bit range truncation on the scalar/NEON path loses one level: refuted there.)", "quantifier": "all formats, all sample values, all geometries, all back ends", "why_tests_cant": "all 2^8/2^16 sample values through f32 division, multiplication and truncation", "anchors": ["src/lib.rs: convert_same_color_and_pixel_format", "src/vector/*: write_*"]}
{"id": "C21", "title": "RGB-family repacking is lossless", "statement": "Converting among RGB, BGR, RGBA and BGRA with equal color info keeps every color byte bit-exactly, swaps channels correctly, keeps alpha when both have it and sets alpha to 255 when the source has none.", "quantifier": "all 16 ordered pairs, all images", "why_tests_cant": "all byte values and positions", "anchors": ["src/formats/rgb/*", "src/formats/rgba/*"]}
{"id": "C22", "title": "YUV sources produce opaque pixels", "statement": "Converting any YUV-family image to RGBA/BGRA sets alpha to 255, and color conversion never changes alpha.", "quantifier": "all YUV formats, colors, images", "why_tests_cant": "all images", "anchors": ["src/formats/*/to_rgb.rs", "src/formats/transfer_and_primaries_convert.rs"]}
{"id": "C23", "title": "re-laying out YUV with the same sub-sampling is lossless", "statement": "Converting I420<->NV12 or I422<->YUYV with equal color info keeps all samples. (False: it goes through RGB and back and truncates.)", "quantifier": "all images", "why_tests_cant": "value-dependent rounding", "anchors": ["src/lib.rs: convert", "src/vector/mod.rs: f32 write_u8"]}
{"id": "C24", "title": "result does not depend on the column", "statement": "Two pixels (blocks) with equal source samples get equal destination samples wherever they are in the image. (False on AVX2: vector columns round, tail columns truncate; proved for back ends whose quantisers and functions agree with the scalar ones.)", "quantifier": "all images, all positions", "why_tests_cant": "position relative to the vector width", "anchors": ["src/formats/visit_2x2.rs", "src/vector/*"]}
{"id": "C25", "title": "stores saturate", "statement": "Storing a component clamps values below 0 to 0 and above the maximum to the maximum on every back end. (False: AVX2 8-bit stores give 0 from 32767.5 upward, AVX-512 planar stores wrap modulo 256/65536.)", "quantifier": "all f32 values", "why_tests_cant": "all floats", "anchors": ["src/vector/avx2.rs: f32x8x2_to_u8x16, f32x8_to_u8x8", "src/vector/avx512.rs: f32x16_to_u8x16", "src/vector/neon.rs", "src/vector/mod.rs"]}
{"id": "C26", "title": "SIMD shuffles implement the vector interface", "statement": "zip, unzip, loads, de-interleaving loads and interleaving stores of AVX2, AVX-512 and NEON compute exactly the lane permutation that the portable interface documents, for every lane content.", "quantifier": "all lane contents, all back ends", "why_tests_cant": "all lane values (symbolic)", "anchors": ["src/vector/avx2.rs", "src/vector/avx512.rs", "src/vector/neon.rs"]}
{"id": "C27", "title": "SIMD comparison agrees with scalar comparison", "statement": "The piecewise transfer functions choose the same branch on every back end. (False on NEON: vcalt/vcale compare absolute values.) The larger of two numbers is the same on every back end; with a NaN operand the back ends differ (scalar ignores it, AVX takes the second operand, NEON gives NaN).", "quantifier": "all f32 inputs", "why_tests_cant": "sign-dependent", "anchors": ["src/vector/neon.rs: lt, le", "src/color/transfer.rs"]}
{"id": "C28", "title": "RGB to YUV of 8-bit colors stays in range", "statement": "For every RGB input with components in [0,1] the computed Y, U and V lie in [0,1] in binary32 arithmetic, so no store clips or wraps on any back end; converting any RGB image stores only samples of the nominal range (8 bits: Y 16..235, U and V 16..240, or 0..255 in full range).", "quantifier": "all binary32 component triples in [0,1], BT.601/BT.709/BT.2020, full and limited range, all back ends and YUV formats", "why_tests_cant": "2^24 and more inputs, binary32 rounding", "anchors": ["src/color/space.rs", "src/formats/i444/from_rgb.rs"]}
{"id": "C29", "title": "limited range maps nominal black and white", "statement": "In limited range black encodes to Y=16 and white to Y=235, in full range to 0 and 255, bit-exactly on every back end; gray keeps its level in full range and has neutral chroma. (The last part is false where stores truncate: some grays lose one level and chroma is 127; 10- and 12-bit limited-range white is 942/943 and 3773/3774 instead of 940 and 3760.)", "quantifier": "all gray levels x BT.601/BT.709 x back ends x YUV formats x positions", "why_tests_cant": "256 levels through binary32", "anchors": ["src/formats/*/from_rgb.rs"]}
{"id": "C30", "title": "YUV matrices are inverse of each other", "statement": "Over exact arithmetic yuv->rgb after rgb->yuv is the identity for BT.601 and BT.709. (False for BT.2020: the green coefficient is 0.322 instead of 0.678.)", "quantifier": "all real color triples", "why_tests_cant": "all reals", "anchors": ["src/color/space.rs: make_matrices"]}
{"id": "C31", "title": "neutral colors have neutral chroma", "statement": "r=g=b gives U=V=0 and Y=r for BT.601/BT.709. (False for BT.2020.)", "quantifier": "all gray levels", "why_tests_cant": "all reals", "anchors": ["src/color/space.rs: make_matrices"]}
{"id": "C32", "title": "YUV of in-gamut RGB is in range (exact arithmetic)", "statement": "r,g,b in [0,1] gives Y in [0,1], U,V in [-1/2,1/2] and in limited range Y in [16/255,235/255], U,V in [16/255,240/255].", "quantifier": "all real triples in the cube", "why_tests_cant": "all reals", "anchors": ["src/color/space.rs", "src/formats/*/from_rgb.rs"]}
{"id": "C33", "title": "limited-range scaling is undone exactly", "statement": "Decoding after encoding with full_range=false is the identity over exact arithmetic; hence I444 encode/decode is the identity before quantisation.", "quantifier": "all real triples", "why_tests_cant": "all reals", "anchors": ["src/formats/i444/from_rgb.rs", "src/formats/i444/to_rgb.rs"]}
{"id": "C34", "title": "RGB to YUV and back changes colors by a few levels only", "statement": "Converting RGB to BT.601 or BT.709 YUV of any bit depth and range and back to RGB, with the transfer function and primaries unchanged, changes each of red, green and blue by at most a fixed small number of levels, which depends on bit depth, range and the rounding of the two back ends. Sub-sampled formats: for blocks of one color.", "quantifier": "all images, formats, ranges, sizes, strides, memory contents, pairs of back ends", "why_tests_cant": "2^24 colors for each combination of formats, ranges and back ends, with binary32 rounding at each step", "anchors": ["src/lib.rs: convert", "src/formats/*", "src/color/space.rs"]}
{"id": "C35", "title": "transfer functions are inverse of each other", "statement": "scaled_to_linear and linear_to_scaled are mutually inverse over exact arithmetic for Linear, Gamma 2.2/2.8, sRGB, PQ and HLG on their domains. (SDR uses 0.0993 in one direction and 0.099 in the other: refuted, but within 1/1000; HLG is inverse within 1e-6 above its knee.)", "quantifier": "all real inputs in the domain", "why_tests_cant": "all reals", "anchors": ["src/color/transfer.rs"]}
{"id": "C36", "title": "transfer functions are monotone and fix black and white", "statement": "Each transfer function is increasing on [0,1] and maps 0 to 0 and 1 to 1 for gamma and sRGB. (Encoding with sRGB and HLG is not increasing: the two branches do not meet and the value steps down by less than 1e-7 at the threshold. SDR and PQ do not map white to exactly 1.)", "quantifier": "all real inputs", "why_tests_cant": "all reals", "anchors": ["src/color/transfer.rs"]}
{"id": "C37", "title": "primaries matrices are inverse and white preserving", "statement": "rgb->xyz followed by xyz->rgb of the same primaries changes no component by more than 1e-5 relative to the largest component, and converting white between primaries gives white within 1e-5.", "quantifier": "all real triples, all 9 pairs of primaries", "why_tests_cant": "all reals", "anchors": ["src/color/primaries.rs"]}
{"id": "C38", "title": "color conversion is skipped exactly when unnecessary", "statement": "Transfer/primaries conversion is applied iff the two color infos differ in transfer or primaries; otherwise RGB values pass through unchanged.", "quantifier": "all color info pairs", "why_tests_cant": "product of color infos", "anchors": ["src/formats/transfer_and_primaries_convert.rs", "src/lib.rs: convert"]}
{"id": "C39", "title": "convert_multi_thread equals convert", "statement": "For all valid images with non-zero dimensions convert_multi_thread returns the same result and leaves the same destination bytes as convert, for every number of threads and every interleaving of the threads' stores.", "quantifier": "all images, thread counts, schedules", "why_tests_cant": "all schedules and heights modulo thread counts", "anchors": ["src/multi_thread.rs: convert_multi_thread, split_planes"]}
{"id": "C40", "title": "thread bands partition the image", "statement": "split_planes gives min(threads, h/2) bands of even positive height summing to h, bands differ by at most 2 rows, their plane slices are pairwise disjoint and tile each plane's rows.", "quantifier": "all heights, thread counts, formats, strides", "why_tests_cant": "all remainders", "anchors": ["src/multi_thread.rs: split_planes"]}
{"id": "C41", "title": "threads never write the same byte", "statement": "The bytes stored by different bands of convert_multi_thread are disjoint (no data race).", "quantifier": "all images, thread counts", "why_tests_cant": "all geometries", "anchors": ["src/multi_thread.rs"]}
{"id": "C42", "title": "convert_multi_thread accepts whatever convert accepts", "statement": "convert_multi_thread does not panic where convert returns Ok or Err. (False: zero height divides by zero, zero width unwraps an error, failing bounds checks panic.)", "quantifier": "all images", "why_tests_cant": "degenerate sizes", "anchors": ["src/multi_thread.rs: split_planes, convert_multi_thread"]}
{"id": "C43", "title": "copy reproduces the image and nothing else", "statement": "copy on equal-format images makes every destination sample equal to the source sample and leaves row padding untouched. (As for bytes after the last row: refuted, whole extra rows are copied when both planes are longer than needed.)", "quantifier": "all formats, geometries, contents", "why_tests_cant": "all strides", "anchors": ["src/copy.rs: copy_impl"]}
{"id": "C44", "title": "copy and same-format convert agree", "statement": "For 8-bit formats copy and convert between images of equal format and color produce the same destination samples.", "quantifier": "all images", "why_tests_cant": "all values and geometries", "anchors": ["src/copy.rs", "src/lib.rs: convert_same_color_and_pixel_format"]}
{"id": "C45", "title": "resize hands every plane to the resampler with its true geometry", "statement": "Over any history of resize calls on one Resizer every plane of the image is processed, with width equal to the plane's pixel columns and rows equal to the image's rows. (Row count is taken from the slice length: refuted when a plane has a spare row.)", "quantifier": "all histories of calls, formats, geometries", "why_tests_cant": "histories and formats mixed on one Resizer", "anchors": ["src/resize.rs: Resizer::resize, FirAdapterImageView"]}
{"id": "C46", "title": "resize rejects different formats before touching anything", "statement": "resize returns DifferentFormats iff formats differ, and then neither image nor resizer state is modified.", "quantifier": "all image pairs", "why_tests_cant": "all pairs", "anchors": ["src/resize.rs: Resizer::resize"]}
{"id": "C47", "title": "convert depends on the source samples only", "statement": "The stores and the result of convert are a function of the images' geometry and the source samples: padding bytes, old contents of the destination and the moment at which a sample is read do not matter (as long as source and destination do not overlap).", "quantifier": "all images, memory contents, schedules of loads and stores", "why_tests_cant": "all padding contents and all prior destination contents", "anchors": ["src/lib.rs: convert", "src/formats: readers", "src/multi_thread.rs"]}
{"id": "C48", "title": "RGB to YUV is accurate", "statement": "Converting an RGB image to any YUV format in BT.601 or BT.709 (transfer function and primaries unchanged) stores for every sample the level that the standard defines (full or limited range; sub-sampled chroma: of the mean color of the covered pixels), truncated on scalar and NEON, rounded on AVX2 and AVX-512, with an additional error of at most 1/80000 of full scale; the sample lies in the nominal range of the format.", "quantifier": "all images, colors, formats, ranges, back ends, columns", "why_tests_cant": "16.7 million colors times mean colors of 2x2 blocks times formats; a bound on accumulated floating point error needs a proof", "anchors": ["src/lib.rs: convert", "src/color/space.rs: rgb_to_yuv, rgbx4_to_yx4_uv", "src/formats/i420/from_rgb.rs", "src/vector/*.rs"]}
{"id": "C49", "title": "YUV to RGB is accurate", "statement": "Converting a YUV image in BT.601 or BT.709 to RGB (transfer function and primaries unchanged) stores 255 times the color that the standard assigns to the samples, limited to 0..255, truncated or rounded, with an additional error of at most 1/50000 of full scale.", "quantifier": "all images with samples in the nominal range, formats, ranges, back ends, columns", "why_tests_cant": "all sample triples at all depths", "anchors": ["src/lib.rs: convert", "src/color/space.rs: yuv_to_rgb, yx4_uv_to_rgb", "src/formats/i420/to_rgb.rs"]}
{"id": "C50", "title": "YUV to YUV is accurate", "statement": "Converting between YUV images (BT.601 and BT.709 in any combination, any sub-sampling, depth and range) stores the level of the decoded colors, limited to what the sample can hold, with an additional error of at most 1/30000 of full scale (AVX-512: if the level can be held at all).", "quantifier": "all images with samples in the nominal range, all pairs of formats and color infos, back ends, columns", "why_tests_cant": "the pairs of formats times all samples of all pixels sharing a chroma sample", "anchors": ["src/lib.rs: convert", "src/color/space.rs", "src/formats/*"]}
{"id": "C51", "title": "Power and logarithm of the vector back ends are accurate", "statement": "On AVX2, AVX-512 and NEON the power x^y of a non-negative normal number is within the relative error 3e-7 + 1e-7|y| + 1.25e-7|y ln x| of the real power (at most 2^-122 when it underflows), and the natural logarithm of a positive normal number is within 9e-8 + |ln x| 2^-24; powers of non-negative numbers are never NaN or infinite unless they overflow.", "quantifier": "all finite binary32 numbers x >= 0 and exponents |y| <= 1000, all SIMD back ends", "why_tests_cant": "2^31 bases times 2^32 exponents; the error of a polynomial approximation plus twenty roundings needs a proof", "anchors": ["src/vector/avx2.rs: math::log, exp, pow", "src/vector/avx512.rs: math", "src/vector/neon.rs: math"]}
{"id": "C52", "title": "Special values of the vector power function", "statement": "On the SIMD back ends 1^y = 1, x^0 = 1 for x >= 0, ln 1 = 0, NaN operands give NaN, negative bases give NaN, and 0^y = 0 for y > 0.", "quantifier": "all finite binary32 operands, all SIMD back ends", "why_tests_cant": "all exponents and bases", "anchors": ["src/vector/avx2.rs: math", "src/vector/avx512.rs: math", "src/vector/neon.rs: math"]}
{"id": "C53", "title": "Transfer functions are accurate in binary32", "statement": "ColorTransfer::linear_to_scaled (for linear light 0..4) and ColorTransfer::scaled_to_linear (for samples 0..1), and the vector code that convert uses in their place, return a finite number within 5e-6 of the formula of the standard (PQ: 1/4000 when encoding, 6 of 10000 cd/m2 when decoding). Exception: at the threshold of the SDR curve the error is between 2e-4 and 3e-4 because the branches do not meet.", "quantifier": "all finite binary32 inputs in range, all transfer functions, all back ends; on the scalar back end for every platform powf and ln as accurate as the SIMD ones", "why_tests_cant": "a billion inputs per function and back end; the formulas need real powers and logarithms as reference", "anchors": ["src/color/transfer.rs: ColorTransfer::linear_to_scaled, scaled_to_linear, gamma, srgb, sdr, bt2100_pq, bt2100_hlg", "src/vector/*.rs: vpow, vln"]}
{"id": "C54", "title": "Colors outside of the gamut are clipped channel by channel", "statement": "When convert changes the transfer function or the primaries and the color of a source pixel has a component below 0 (legal YUV can encode such colors), only the components out of range are clipped. This is false: on AVX2 and AVX-512, for sources with gamma 2.2 or 2.8, every pixel with a component below -1/50000 is stored as black, whatever its other components are (destinations other than PQ and HLG).", "quantifier": "all YUV sources (BT.601 or BT.709 matrix, any format, range, strides), all RGB destinations, all pixels in vector columns", "why_tests_cant": "needs colors outside of the RGB cube, a change of the transfer function or primaries and a particular instruction set at once", "anchors": ["src/color/mod.rs", "src/color/transfer.rs: gamma", "src/color/primaries.rs", "src/formats/transfer_and_primaries_convert.rs", "src/vector/avx2.rs: math::log"]}
{"id": "C55", "title": "Changing the transfer function and the primaries is accurate", "statement": "Converting an RGB image into an RGB image with another transfer function or other primaries (PQ excepted): every stored red, green and blue is the integer (truncated on scalar and NEON, rounded on AVX, up to 0.002 levels) for the encoding of a linear light that differs from the exact one (exact decoding, exact matrices) by at most 1/20000 of white, clipped to 0..1. For linear, sRGB and SDR destinations the sample itself is the exact one truncated or rounded, up to a quarter of a level.", "quantifier": "all pixels of all images of all sizes, strides and RGB formats, all pairs of transfer functions (without PQ) and primaries, all back ends, every accurate platform powf and ln", "why_tests_cant": "16.7 million colors times 324 pairs of color descriptions times four back ends, and the reference needs real powers and logarithms", "anchors": ["src/lib.rs: convert", "src/formats/transfer_and_primaries_convert.rs", "src/color/transfer.rs", "src/color/primaries.rs"]}
{"id": "C56", "title": "The primaries matrices are those of the standards", "statement": "The public RGB-to-XYZ matrix of BT.709 and of BT.2020 is the one determined by the chromaticities the standard gives for red, green, blue and white (D65), each entry within 2.5e-7, and the XYZ-to-RGB matrix is its inverse, each entry within 1e-6. For SMPTE ST 240 this is false: the code has y = 0.329 instead of 0.340 for red, which makes entries wrong by more than 0.009.", "quantifier": "all primaries, all matrix entries; the reference matrix is characterised by its equations over the reals, not computed", "why_tests_cant": "a test can only compare with numbers that came from the same generator; the equations fix the matrix and its inverse exactly", "anchors": ["src/color/primaries.rs: ColorPrimaries::rgb_to_xyz_mat, ColorPrimaries::xyz_to_rgb_mat, generated_consts"]}
{"id": "C57", "title": "ICtCp is the one of BT.2100", "statement": "RGB (BT.2020 primaries) converted to ICtCp, PQ or HLG, is what Recommendation BT.2100 defines: cone responses with the published integer matrix (up to 1/15000 of the largest channel), the PQ or HLG curve, the published matrices to I, Ct and Cp (up to 1e-6). In all primaries gray of any brightness has I equal to its encoded brightness and Ct, Cp equal to 0, up to 1/3000 (less than a tenth of an 8-bit level).", "quantifier": "all real colors up to the peak (10000 cd/m2, HLG 1), all transfer functions of the RGB image, all primaries", "why_tests_cant": "real-valued colors and curves; the matrices go through XYZ and only their product can be compared with the standard", "anchors": ["src/color/space.rs: bt2100", "src/color/primaries.rs", "src/color/transfer.rs: bt2100_pq, bt2100_hlg"]}
{"id": "C58", "title": "ICtCp is undone", "statement": "Converting RGB to ICtCp (PQ or HLG) and back gives a color whose linear light differs from the original by at most 1/10000 of the peak per channel, in exact arithmetic.", "quantifier": "all real colors up to the peak, all transfer functions and primaries", "why_tests_cant": "real-valued colors; the matrices and curves are approximate inverses, and their errors are amplified by the steepest part of the PQ curve", "anchors": ["src/color/space.rs: bt2100", "src/color/primaries.rs", "src/color/transfer.rs: bt2100_pq, bt2100_hlg"]}
{"id": "C59", "title": "Converting to a window changes the window and nothing else", "statement": "Converting from a cropped view of one image to a cropped view of another writes to the pixels of the destination window exactly the converted pixels of the source window, and leaves every other pixel and byte of the destination image as it was, whatever the outcome; it succeeds exactly when the windows have the same even size and the images can be converted; with several threads the outcome is the same. False for windows of 16-bit images that do not start in the first row: there convert writes to other rows and leaves the window alone. For every window, aligned or not and of any bit depth: what the destination window shows (see C10) becomes the conversion of what the source window shows, and no byte is changed that the destination window does not show.", "quantifier": "all images, formats, color infos, strides and windows whose planes can be listed; all memory contents, back ends, thread counts", "why_tests_cant": "positions and sizes of two windows, strides and formats combine without bound, and the claim about all other bytes is universal", "anchors": ["src/crop.rs: Cropped::new, crop_planes", "src/lib.rs: convert", "src/multi_thread.rs: convert_multi_thread"]}
{"id": "C60", "title": "Copying to a window changes the window and nothing else", "statement": "copy from a cropped view to a cropped view of the same format makes the pixels of the destination window equal to those of the source window and leaves every other pixel and byte of the destination image as it was. (Between whole images copy also copies rows behind the last one, C43; windows have none.) False for windows of 16-bit images that do not start in the first row, as C59. For every window: what the destination window shows (see C10) becomes what the source window shows, and no other byte is changed.", "quantifier": "all images, formats, strides and windows whose planes can be listed; all memory contents", "why_tests_cant": "positions and sizes of two windows, strides and formats combine without bound, and the claim about all other bytes is universal", "anchors": ["src/crop.rs: Cropped::new, crop_planes", "src/copy.rs: copy"]}
{"id": "C61", "title": "The picture does not depend on the CPU", "statement": "Two conversions of the same picture on different back ends (no SIMD, AVX2, AVX-512, NEON) and with different math libraries store samples that differ by at most one level, if transfer function and primaries stay (RGB to YUV, YUV to RGB, YUV to YUV) or if RGB is converted to RGB of other primaries and linear, sRGB or SDR transfer. RGB converted to the PQ curve differs by at most one level too (two from YUV colors of 0 .. 1, three from HLG). Without change of transfer function or primaries code without SIMD and NEON code store exactly the same. False in general: a saturated YUV picture whose gamma 2.2 is changed to linear light has a green of 222 on NEON and is black on AVX2 and AVX-512. From ICtCp with the HLG curve to RGB of the same primaries and transfer function: one level for linear RGB, five for sRGB and BT.709. PQ to PQ with other primaries: twice the relative error of the light (two levels for a gray of 28 cd/m2).", "quantifier": "all images, formats, sizes, strides, memory contents with samples in range, pairs of back ends and math libraries", "why_tests_cant": "a test runs on one machine, and the difference depends on the sample values and on which columns are vectorised", "anchors": ["src/lib.rs: convert", "src/vector/mod.rs", "src/vector/avx2.rs", "src/vector/avx512.rs", "src/vector/neon.rs"]}
{"id": "C62", "title": "A sample depends on the pixels it covers only", "statement": "Every destination sample is a function of the source pixels it covers: luma, RGB and 4:4:4 samples of the pixel, sub-sampled chroma of the pair or 2x2 block. Changing any other source pixel or any other memory does not change it. False for chroma of ICtCp 4:2:0: with AVX2 the color of pixel (8, 0) arrives in the chroma of pixel (0, 0); there the chroma depends on the upper row of the group of columns that is processed at a time.", "quantifier": "all images, formats, color infos, sizes, strides, pairs of memory contents, back ends", "why_tests_cant": "it compares all pairs of pictures that agree on a block; vector code handles 8 to 32 columns at a time, where samples could mix", "anchors": ["src/lib.rs: convert", "src/formats/visit_2x2.rs"]}
{"id": "C63", "title": "Converting keeps the order of brightness", "statement": "Without change of transfer function or primaries (BT.601, BT.709, BT.2020): a pixel with at least as much red, green and blue as another one does not get a lower Y; U does not fall when blue grows and red and green fall, V likewise with red; converting to RGB, red does not fall when Y and V grow, green when Y grows and U and V fall, blue when Y and U grow; converting YUV to YUV, Y does not fall when Y grows. No rounding error inverts an order.", "quantifier": "all images, formats, bit depths, ranges, strides, pairs of pixels (of one or two pictures) in columns of the same kind, back ends", "why_tests_cant": "a violation would be a pair of colors out of 2^48 pairs (more for 12 bit) that rounding orders the wrong way", "anchors": ["src/lib.rs: convert", "src/color/space.rs", "src/formats"]}
{"id": "C64", "title": "RGB to YUV with a change of transfer function or primaries is accurate", "statement": "Converting RGB to BT.601 or BT.709 YUV with another transfer function or other primaries stores the level of the colors with the same linear light, up to 1/2000 of full scale and the rounding of the integer; sub-sampled chroma is that of the mean. If the gamut of the destination contains that of the source nothing is required of the colors. False for gamma 2.2 and 2.8 destinations with AVX2 and AVX-512: a pixel with a negative light in the destination (also by rounding: pure blue, with the same primaries) is stored as Y = U = V = 0.", "quantifier": "all images, formats, bit depths, sizes, strides, memory contents, back ends; source transfer functions but PQ, destination linear, sRGB and SDR", "why_tests_cant": "the bound is about 2^24 colors for each combination of curves, primaries, formats and back ends, and compares with real numbers", "anchors": ["src/lib.rs: convert", "src/color/transfer.rs", "src/color/primaries.rs", "src/formats/transfer_and_primaries_convert.rs"]}
{"id": "C65", "title": "YUV sources with a change of transfer function or primaries are accurate", "statement": "Converting BT.601 or BT.709 YUV with another transfer function or other primaries: RGB samples encode the linear light of the color of the pixel up to 1/5000 of the reference white (1/3000 for HLG) and the rounding of the integer, which is at most 3/4 level (9/8) for linear, sRGB and SDR destinations; YUV samples are the level of the colors with the same light up to 1/350 of full scale (1/220).", "quantifier": "all images, formats, bit depths, sizes, strides, memory contents, back ends; pixels whose red, green and blue are in 0 .. 1; transfer functions but PQ", "why_tests_cant": "the bound is about all triples of samples for each combination of curves, primaries, formats and back ends, and compares with real numbers", "anchors": ["src/lib.rs: convert", "src/color/transfer.rs", "src/color/primaries.rs", "src/color/space.rs"]}
{"id": "C66", "title": "Gray stays gray when transfer function or primaries change", "statement": "Converting an RGB pixel with equal channels to RGB with another transfer function or other primaries gives channels that differ by at most one level; white becomes 254 or 255 in every channel (255 on AVX2 and AVX-512) and black becomes 0. PQ to PQ keeps each gray exactly on AVX2 and AVX-512, and keeps it or stores one level less in every channel elsewhere. To and from PQ the brightness is kept.", "quantifier": "all images, RGB formats, sizes, strides, memory contents, back ends, primaries and transfer functions, and all 256 grays", "why_tests_cant": "a test covers some grays for some pair of curves and primaries on the CPU it runs on", "anchors": ["src/lib.rs: convert", "src/color/transfer.rs", "src/color/primaries.rs", "src/vector/avx2.rs", "src/vector/avx512.rs"]}
{"id": "C67", "title": "YUV samples do not exceed the bit depth of the format", "statement": "Converting to YUV stores samples between 0 and the largest value of the bit depth (255, 1023, 4095). Holds for all RGB sources, and for YUV sources whose colors are in the cube of RGB. False otherwise: 8-bit limited range luma above white (237 and more, neutral chroma) converted to 10 or 12 bit full range is stored above 1023 or 4095. When light is recolored (RGB to YUV, no PQ) it holds for colors whose light is within 0 (limited range) or 1/2500 (full range, gamma curves) and 1 in the primaries of the destination; it is false for the red of BT.2020 in BT.709 (10 and 12 bit, full range) and for SDR white as 12 bit full range linear light, stored as 4097.", "quantifier": "all images, formats, ranges, sizes, strides, memory contents, back ends (BT.601, BT.709; also BT.2020 from RGB)", "why_tests_cant": "a decoder of the stored picture may misbehave for one out-of-range sample; tests use colors that exist in RGB", "anchors": ["src/lib.rs: convert", "src/formats/i420/write.rs", "src/formats/i420/from_rgb.rs"]}
{"id": "C68", "title": "Neutral chroma gives gray", "statement": "A YUV pixel with neutral chroma (128, 512, 2048) converted to RGB has channels that differ by at most one level (two for 8-bit full range and for 10 and 12 bit limited range); for 8-bit limited range they are the level of the luma, 16 and less becomes 0 and 235 and more becomes 254 or 255. False that it is gray: in 8-bit full range every luma from 1 to 254 gives green below red and blue, and nominal white of 10 and 12 bit limited range gives blue 253 and green 254 or more. With 8-bit limited range ICtCp, neutral chroma gives channels that differ by at most one level.", "quantifier": "all images, formats, bit depths, ranges, sizes, strides, memory contents, back ends, lumas (BT.601, BT.709; ICtCp in 8-bit limited range)", "why_tests_cant": "all grays of all formats on all back ends; tests compare with a tolerance and pictures of saturated colors", "anchors": ["src/lib.rs: convert", "src/color/space.rs", "src/formats/i420/read.rs"]}
{"id": "C69", "title": "Converting tile by tile is converting the image", "statement": "Cropping source and destination to the same windows and converting these one after another, in any order, stores in each pixel of a window what converting the whole image stores, and leaves the others as they are. If the windows cover the image the result is that of one conversion. Holds for bands of whole rows, for windows aligned to two vectors, and for every window without SIMD. False for other windows with AVX2, whose last columns are processed with scalar code that rounds differently, and for sub-sampled ICtCp chroma. This also holds for tiles that share no pixel and are converted at the same time, each by a thread of its own, whatever the order of their loads and stores.", "quantifier": "all images, formats, color infos, sizes, strides, memory contents, back ends, and all lists of windows of any length and order, overlapping or not", "why_tests_cant": "it is about sequences of conversions of any length", "anchors": ["src/lib.rs: convert", "src/crop.rs: Cropped", "src/formats/visit_2x2.rs"]}
{"id": "C70", "title": "The packing of a format makes no difference", "statement": "The same picture given in two packings (RGB, BGR, RGBA and BGRA; I420 and NV12; I422 and YUYV) and converted on the same back end to two packings of one destination format gives the same samples, in all color spaces. Alpha must agree only where the destination has alpha that is copied. The one exception: a YUV image converted to its own format and color is copied, and conversion to the other packing is not a copy (I420 to I420 keeps luma 100, I420 to NV12 stores 99).", "quantifier": "all images, packings, color infos, sizes, strides, memory contents, back ends, math libraries", "why_tests_cant": "it relates two conversions for all pictures and all pairs of packings", "anchors": ["src/lib.rs: convert", "src/formats/rgb", "src/formats/i420", "src/formats/nv12", "src/formats/i422", "src/formats/yuyv"]}
{"id": "C71", "title": "Changing the layout again and again", "statement": "After any number of conversions between YUV formats of the same color and depth that do not sub-sample more, no sample has grown and none has fallen by more than the number of conversions that truncate in its column. Columns processed with AVX2 or AVX-512 vectors keep their samples for ever. False that the loss stays within one level: a gray I420 image (200, 128, 128) is (196, 108, 118) after 10 trips to NV12 and back.", "quantifier": "all sequences of conversions of any length, formats, sizes, strides, memory contents, back ends per step (BT.601, BT.709)", "why_tests_cant": "it is about sequences of any length; one conversion loses one level at most, which a tolerance hides", "anchors": ["src/lib.rs: convert", "src/vector/mod.rs: Vector for f32", "src/vector/neon.rs"]}
{"id": "C72", "title": "To YUV and back again and again", "statement": "After any number of conversions of an RGB image to 4:4:4 YUV and back, a component has moved down and up by no more than the sums of what the single trips allow. With 10 or 12 bits and vectors of AVX2 or AVX-512 nothing ever changes. False that the change stays within that of one trip: (200, 100, 50) is (177, 94, 31) after 10 trips through 8-bit limited range BT.709 without vectors.", "quantifier": "all sequences of trips of any length, formats, ranges, sizes, strides, memory contents, back ends per step (BT.601, BT.709)", "why_tests_cant": "it is about sequences of any length", "anchors": ["src/lib.rs: convert", "src/color/space.rs", "src/formats/i444"]}
{"id": "C73", "title": "YUV to RGB and back", "statement": "An 8-bit YUV image converted to RGB and back to YUV of the same color that is not sub-sampled more: in limited range a sample whose colors RGB has is kept exactly where both conversions use AVX2 or AVX-512 vectors and is kept or one less elsewhere; in full range it moves up by at most one and down by at most one, or two if both conversions truncate. An image processed with AVX2 or AVX-512 vectors only is never changed by any number of such trips (limited range). False for colors outside of RGB ((100, 20, 230) comes back as (103, 79, 213)), and false that gray is kept without vectors. For any bit depths of source and destination: the sample is rescaled to the levels of the destination and moves by at most what RGB loses, half a level of RGB (a whole one downwards for luma where RGB was truncated), plus the rounding; in 10 bits that is at most 2 levels, in 12 bits at most 8 where both conversions round.", "quantifier": "all images, formats of 8, 10 and 12 bits and sub-samplings, sizes, strides, memory contents, back ends per step, and sequences of any length (BT.601, BT.709)", "why_tests_cant": "all colors of RGB, all blocks of pixels that share a chroma sample, sequences of any length", "anchors": ["src/lib.rs: convert", "src/color/space.rs", "src/formats/i420/from_rgb.rs", "src/formats/i420/to_rgb.rs"]}
{"id": "C74", "title": "Packed 16-bit RGB in the vector interface", "statement": "Loading packed 16-bit RGB or RGBA puts every component of every pixel in its place, and storing writes it there. True of the scalar and the NEON code. False of AVX2 and AVX-512: loads advance by one byte per component and mix neighbouring pixels, the RGBA store writes the pixels in another order, the RGB store loses components. No pixel format reaches this code: every packed RGB format has 8-bit samples.", "quantifier": "all memory contents, all vectors of floats, every pixel and component, every back end", "why_tests_cant": "no pixel format uses this code, so no test of a conversion can reach it; all values in all lanes", "anchors": ["src/primitive.rs: Primitive for u16", "src/vector/avx2.rs: load_u16_3x_interleaved_2x, interleave_f32x8x4_to_u16x32, interleave_f32x8x3_to_u16x24", "src/vector/avx512.rs", "src/vector/neon.rs", "src/vector/mod.rs"]}
{"id": "C75", "title": "What conversions to and from BT.2020 compute", "statement": "Converting to and from BT.2020 YUV should give the values of Recommendation BT.2020. It does not, because green has the weight 0.322 instead of 0.678. Converting RGB to BT.2020 stores the image with green scaled by 322/678. Converting BT.2020 to RGB gives the right red and blue, and a green that is moved away from luma by 678/322; gray stays gray. Between two BT.2020 images a mere change of layout or range scales luma by 0.644 and adds chroma to gray. RGB to BT.2020 and back keeps red and blue within 5 levels and lowers green by 356/322 of the luma, so white comes back as about (255, 73, 255).", "quantifier": "all pixel values, all image sizes, all formats, depths and ranges, all back ends", "why_tests_cant": "all colors in all formats on all back ends; a round-trip test would have to know the standard's values to tell that the stored ones are wrong", "anchors": ["src/color/space.rs: BT2020_YUV_TO_RGB, BT2020_RGB_TO_YUV, convert_rgb_to_yuv_matrix, convert_yuv_to_rgb_matrix", "src/lib.rs: convert", "src/formats"]}
{"id": "C76", "title": "Accuracy of encoding ICtCp", "statement": "Converting RGB to ICtCp with the same primaries and transfer function stores, in every format of full chroma resolution rows (4:4:4, 4:2:2; luma in 4:2:0 too), the level of the ICtCp color of the pixel as Recommendation BT.2100 defines it (mean of two for 4:2:2 chroma), up to 1/25000 of the range for HLG and 1/400 for PQ, and the rounding of the integer. The cone responses of the pixel are exact up to 1/80000. For RGB in PQ and ICtCp with the PQ curve, the cone responses are exact up to 1/500 of the brightest channel plus 1/500 cd/m2. In levels of the ICtCp color itself this is 0.3 percent (PQ) or 0.7 percent (HLG) of the full scale for luma. From YUV of another matrix (colors in 0 .. 1) the cone responses are exact up to 75 millionths (HLG: 126). From RGB of other primaries or another transfer function, for colors in the gamut of the destination and a linear, sRGB or HLG destination, they are exact up to 1/9600 (HLG: 1/6500). From YUV of other primaries or another transfer function they are exact up to 1/1000. To ICtCp in PQ, from RGB or YUV, they are exact up to 1/30 cd/m2, and colors outside of the gamut of the destination are cut off at 0.", "quantifier": "all pixel values, all image sizes, all primaries, all transfer functions of the source (PQ for ICtCp with the PQ curve), all depths and ranges, all back ends", "why_tests_cant": "all colors, all formats, accumulated binary32 error through two matrices, a power or logarithm approximation and quantisation", "anchors": ["src/color/space.rs: ICtCp matrices", "src/color/mod.rs", "src/color/transfer.rs", "src/formats"]}
{"id": "C77", "title": "Accuracy of decoding ICtCp", "statement": "Converting ICtCp with the HLG curve to RGB of the same primaries and transfer function stores the encoding of the linear light whose cone responses the pixel holds, up to 1/1700 of the reference white and the rounding of the integer; light outside of the gamut is clipped. With the PQ curve, RGB in PQ is the code of that light up to 27/1000 of the brightest plus 16/1000 cd/m2. Converted to RGB with another transfer function or other primaries it is the encoding of that light, in the primaries of the destination, up to 11/100 of the brightest plus 8/100 cd/m2. Converting ICtCp with the HLG curve to another transfer function or other primaries stores the encoding of that light, in the primaries of the destination, up to 1/300 of the reference white. Converting ICtCp to YUV mixes every sample of colors that encode such light: up to 1/1600 of the reference white with the HLG curve and the same primaries and transfer function, 1/299 with others, and the bounds for RGB with the PQ curve.", "quantifier": "all pixel values whose encoded cone responses are in 0 .. 1 (at most 1 for PQ), all image sizes, all YUV formats and depths as source, RGB and YUV destinations, all primaries, all transfer functions (PQ with the PQ curve), all back ends", "why_tests_cant": "all colors, all formats, accumulated binary32 error through three matrices, a power or exponential approximation, a transfer function and quantisation", "anchors": ["src/color/space.rs: ICtCp matrices", "src/color/mod.rs", "src/color/transfer.rs", "src/formats"]}
{"id": "C78", "title": "Recoloring for every matrix and curve, in and out of the gamut", "statement": "Conversions that change the transfer function or the primaries store, in YUV destinations, the level of the mixed (and for chroma averaged) encodings of the linear light of the pixels, known up to 1/40000 for RGB sources and 1/5000 (HLG: 1/3000) for YUV sources, up to 1/50000 of full scale and the rounding of the integer. Light outside of the gamut of the destination is clipped to it.", "quantifier": "all pixel values, all image sizes, all formats, all transfer functions but PQ, all primaries, BT.601, BT.709 and BT.2020 matrices, all back ends", "why_tests_cant": "all colors, all pairs of colors, accumulated binary32 error through decoding, two matrices, encoding, mixing and quantisation", "anchors": ["src/color/mod.rs", "src/color/transfer.rs", "src/color/primaries.rs", "src/formats/transfer_and_primaries_convert.rs"]}
{"id": "C79", "title": "Conversion to PQ", "statement": "Converting RGB or YUV images of any other transfer function to the PQ curve stores the PQ codes of the linear light of the pixels (in RGB; for YUV their mixed and averaged values), where 1.0 of the linear light is 1 cd/m2: up to 1/15 of a level in RGB, 1/4000 in the colors that are mixed in YUV, light being known up to 1/40000 for RGB sources and 1/5000 (HLG: 1/3000; colors above 1: a thousandth of the brightest channel and 1/1000) for YUV sources, and the rounding of the integer. In levels of the PQ code of the light of the source color itself: 7/25 for RGB to RGB, for every color; 1/970 of the full scale for RGB to YUV; 0.73 (HLG: 1) for YUV to RGB.", "quantifier": "all pixel values, all image sizes, all formats, all source transfer functions but PQ, all primaries, BT.601, BT.709 and BT.2020 matrices, all back ends", "why_tests_cant": "all colors, accumulated binary32 error through decoding, two matrices, two powers with an exponent of 78, mixing and quantisation", "anchors": ["src/color/transfer.rs", "src/color/primaries.rs", "src/formats/transfer_and_primaries_convert.rs"]}
{"id": "C80", "title": "Colors outside of 0 .. 1", "statement": "The samples of a YUV image can stand for colors outside of 0 .. 1 (luma and chroma are independent). Converting such an image to other primaries or another transfer function decodes these colors with the curve continued outside of 0 .. 1 (linear below 0), up to 9/10000 of light (HLG above 1: a thousandth of the brightest channel and 1/1000), and stores what an RGB or YUV image of the destination gets for that light: in RGB, light below 0 becomes the sample of 0 and light above white the largest sample.", "quantifier": "all sample values, all image sizes, all YUV formats, all source and destination transfer functions, all primaries, BT.601, BT.709 and BT.2020 matrices, all back ends", "why_tests_cant": "there are 2^24 (8 bit) to 2^48 (16 bit) combinations of samples, most of which are outside of the RGB cube and not in any picture used as a test; accumulated binary32 error through powers of numbers above 1", "anchors": ["src/color/transfer.rs", "src/color/primaries.rs", "src/formats/transfer_and_primaries_convert.rs", "src/formats/i420/to_rgb.rs", "src/formats/i422/to_rgb.rs", "src/formats/i444/to_rgb.rs"]}
{"id": "C81", "title": "Conversion from PQ", "statement": "Converting RGB or YUV images with the PQ curve to RGB or YUV with any other transfer function, or with the PQ curve and other primaries, stores the encoding of the light the PQ codes stand for, in the primaries of the destination: light up to half a percent of the brightest of the three channels and 3/1000, the sample up to 6/1000000 of the range (PQ: 1/15 of a level in RGB, 1/4000 in the colors that are mixed in YUV) and the rounding of the integer. 1.0 of the linear light is 1 cd/m2, so for other curves all light above that becomes the largest sample, and light below 0 (outside of the gamut) the sample of 0. In levels: a PQ sample converted to PQ has, beside 1/15 and the rounding, at most the relative error of the light.", "quantifier": "all pixel values, all image sizes, all formats, all destination transfer functions, all primaries, BT.601, BT.709 and BT.2020 matrices, all back ends", "why_tests_cant": "all colors; light spans eleven orders of magnitude and the curve raises binary32 errors to powers of 78 and 1/78 through a cancelling subtraction", "anchors": ["src/color/transfer.rs", "src/color/primaries.rs", "src/formats/transfer_and_primaries_convert.rs"]}
{"id": "C82", "title": "Gray is stored with neutral chroma", "statement": "When the RGB pixels that share a chroma sample are all gray (each of any level, not all of the same level), converting to YUV or ICtCp stores the neutral chroma level (128 in 8-bit limited range) up to 1/80000 of the range (ICtCp HLG 1/5000, ICtCp PQ 1/325) and the rounding of the integer: in 8-bit limited range 127 or 128 (ICtCp: 127 to 129).", "quantifier": "all images, gray levels, sizes, formats, ranges, transfer functions, primaries, memory contents, back ends; BT.601, BT.709, ICtCp (without 4:2:0)", "why_tests_cant": "all mixtures of grays in a block, all formats and back ends; the error of the cone matrices is multiplied by a light of up to 10000 before the curve", "anchors": ["src/color/space.rs", "src/formats/i420/from_rgb.rs", "src/formats/i422/from_rgb.rs", "src/formats/i444/from_rgb.rs"]}
{"id": "C83", "title": "Resizing works on the pictures shown, windows included", "statement": "Resizing from a cropped view of an image to a cropped view of another hands the resampler exactly the rows and columns of the windows; only bytes and pixels of the destination's window are changed, and only pixels of the source's window matter. Two sources of the same format and size that show the same picture give the same result, whatever their strides, padding and place in memory: a window, a copy of it, or an image with spare rows seen through a window of its own size. For every window, aligned or not and of any bit depth, the same holds of what the windows show (see C10).", "quantifier": "all images, formats, strides, windows whose planes can be listed, sizes below 2^30, resampler states and algorithms, memory contents, with and without threads", "why_tests_cant": "windows, strides and formats combine without bound; the claim about all other bytes is universal", "anchors": ["src/resize.rs: Resizer::resize, FirAdapterImageView", "src/crop.rs: Cropped::new, crop_planes"]}
{"id": "C84", "title": "Changing the bit depth of YUV images", "statement": "Converting YUV between 8, 10 and 12 bits without change of color information stores every sample rescaled to the levels of the destination, rounded or truncated. Going to a deeper format and back returns every sample where AVX2 or AVX-512 does the way back, and the sample or one less elsewhere. Going to a shallower format and back moves a sample down by at most one step of the shallower format and one level, and up by about half of this.", "quantifier": "all sample values within the depth, all image sizes and strides, all pairs of YUV formats with sub-sampling that does not get coarser, BT.601 and BT.709, full and limited range, all pairs of back ends", "why_tests_cant": "all samples of all pictures, two conversions through the color matrices in binary32, every mix of back ends", "anchors": ["src/lib.rs: convert", "src/formats/*/read.rs", "src/formats/*/write.rs", "src/color/space.rs"]}
{"id": "C85", "title": "Other primaries or transfer function and back", "statement": "Converting linear or sRGB pictures to RGB with another transfer function (any but PQ) or other primaries and back returns every channel of a color inside the gamut of the picture in the middle (with the same primaries or BT.2020 in the middle: every color) up to the rounding of the last integer plus what the rounding of the picture in the middle makes of the light. Linear RGB by way of linear RGB in BT.2020 changes by at most one level with AVX2 and AVX-512 and three elsewhere, by way of sRGB with the same primaries by two and four. Colors outside of that gamut are clipped and do not come back: the green of BT.2020 comes back from BT.709 as (83, 234, 22).", "quantifier": "all RGB pictures, sizes and strides, RGB formats, primaries and transfer functions in the middle, all pairs of back ends and math libraries that keep the contract of C51", "why_tests_cant": "all 2^24 colors and two conversions through the transfer functions and matrices in binary32, every mix of back ends", "anchors": ["src/lib.rs: convert", "src/color/transfer.rs", "src/color/primaries.rs"]}
{"id": "C86", "title": "Repeating a conversion changes nothing, the last one wins, and separate ones commute", "statement": "Converting the same image to the same destination a second time gives the same outcome and leaves every byte of memory as it was. Of two pictures converted one after the other to the same destination only the second remains: memory is as if the first conversion had not been made. Two conversions neither of which writes a sample that the other reads or writes give the same outcomes and the same memory in either order, also when the two destinations are windows of one picture and share its rows; likewise any number of such conversions in any order. The same holds with several threads per conversion, and conversions like these that run at the same time, their loads and stores taking turns in any way, leave each destination as if its conversion had been made alone. Copying an image again changes nothing either.", "quantifier": "all memories, all valid images of all formats, sizes, strides, color infos and windows, all back ends (also a different one for each of the two conversions) and math libraries; any number of conversions at the same time, and every order of their loads and stores", "why_tests_cant": "all pairs of images and layouts, and every byte of memory including padding and bytes between the planes", "anchors": ["src/lib.rs: convert", "src/formats/visit_2x2.rs: visit", "src/multi_thread.rs: convert_multi_thread", "src/copy.rs: copy"]}
{"id": "C87", "title": "Copies and lossless conversions on the way make no difference", "statement": "Converting a copy of an image gives the same samples as converting the image. Copying the result of a conversion gives the same samples as converting to where it is copied to. Converting an image first to the same format and colors (if no sample exceeds the format's bit depth), or RGB first to RGB, BGR, RGBA or BGRA of the same colors, with any back end, and then on gives the same samples as converting it directly; alpha too, if both or none of the first two formats have it.", "quantifier": "all memories, formats, sizes, strides and windows of the three images, color infos, back ends and math libraries", "why_tests_cant": "all pictures and layouts, and all pairs of back ends for the two steps", "anchors": ["src/copy.rs: copy", "src/lib.rs: convert"]}
{"id": "C88", "title": "Mirrored and upside-down pictures", "statement": "Converting a picture with left and right exchanged, upside down, or both gives exactly the mirror image of the converted picture, sub-sampled chroma included. Left and right: on CPUs without SIMD, and for widths that are a multiple of two vectors. False for the chroma of 4:2:0 ICtCp, which comes from the upper row only, and for the last columns of other widths with AVX2.", "quantifier": "all pairs of pictures that mirror each other, all formats, sizes, strides, color infos, back ends and math libraries", "why_tests_cant": "all pictures: the binary32 sums behind sub-sampled chroma are rounded, and their order changes with the mirroring", "anchors": ["src/lib.rs: convert", "src/formats/i420/from_rgb.rs", "src/formats/i422/from_rgb.rs"]}
{"id": "C89", "title": "A block of one color is stored alike at every sub-sampling", "statement": "Where the four pixels of a 2x2 block of a picture have the same color, 4:2:0, 4:2:2 and 4:4:4 YUV (planar, semi-planar or packed) of the same bit depth and color info hold exactly the same luma and chroma samples: averaging equal pixels adds no rounding error. For RGB and YUV sources and destinations in BT.601, BT.709 or BT.2020, with the transfer function and primaries of the source; for RGB sources other than PQ also with other primaries and a linear, sRGB or SDR transfer function, for colors in the gamut of the destination. False for ICtCp with SIMD, whose 4:2:0 chroma comes from other pixels.", "quantifier": "all pictures, sizes, strides, RGB and YUV formats, pairs of YUV formats of equal depth, ranges, back ends and math libraries", "why_tests_cant": "all colors and pairs of formats: the averages are rounded binary32 sums, which need not be exact", "anchors": ["src/lib.rs: convert", "src/formats/i420/from_rgb.rs", "src/formats/i422/from_rgb.rs", "src/formats/i444/from_rgb.rs"]}
