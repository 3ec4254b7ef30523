{
 "claims": [
  {
   "property": "C01",
   "status": "proved",
   "theorems": [
    "C01_buffer_size_sufficient",
    "C01_buffer_size_necessary",
    "C01_buffer_size_value",
    "C01_buffer_size_panics"
   ],
   "note": "buffer_size is the least sufficient length; it panics exactly when the size does not fit usize."
  },
  {
   "property": "C02",
   "status": "proved",
   "theorems": [
    "C02_bounds_check_iff",
    "C02_bounds_check_error",
    "C02_bounds_check_panic"
   ],
   "note": "Acceptance, the reported error and the panic case are characterised exactly."
  },
  {
   "property": "C03",
   "status": "proved",
   "theorems": [
    "C03_packed_strides_accepted",
    "C03_packed_strides_minimal"
   ],
   "note": ""
  },
  {
   "property": "C04",
   "status": "proved",
   "theorems": [
    "C04_samples_in_bounds"
   ],
   "note": ""
  },
  {
   "property": "C05",
   "status": "proved",
   "theorems": [
    "C05_infer_layout",
    "C05_infer_panics_iff",
    "C05_infer_disjoint",
    "C05_infer_default_strides"
   ],
   "note": ""
  },
  {
   "property": "C06",
   "status": "proved",
   "theorems": [
    "C06_from_buffer_invariant",
    "C06_from_planes_invariant",
    "C06_zero_dimensions",
    "C06_from_planes_iff"
   ],
   "note": ""
  },
  {
   "property": "C07",
   "status": "partial",
   "theorems": [
    "C07_from_buffer_never_panics_refuted",
    "C07_from_buffer_panics_iff",
    "C07_single_plane_no_panic_partial"
   ],
   "note": "The claim is false of the code (refuted by a witness). Proved instead: the exact panic condition, and absence of panics for single-plane formats when the size fits usize."
  },
  {
   "property": "C08",
   "status": "proved",
   "theorems": [
    "C08_blank_valid",
    "C08_blank_total"
   ],
   "note": ""
  },
  {
   "property": "C09",
   "status": "proved",
   "theorems": [
    "C09_crop_accepts_iff",
    "C09_crop_error"
   ],
   "note": ""
  },
  {
   "property": "C10",
   "status": "partial",
   "theorems": [
    "C10_crop_exact",
    "C10_crop_view_partial",
    "C10_crop_16bit_refuted",
    "C10_crop_odd_nv12_refuted"
   ],
   "note": "False for 16-bit formats (y offset scaled by the sample size) and for odd x on NV12 (both refuted). Proved for 8-bit formats with offsets on the chroma grid. C10_crop_exact says for every window of every format which samples it shows."
  },
  {
   "property": "C11",
   "status": "partial",
   "theorems": [
    "C11_crop_never_panics_refuted",
    "C11_crop_16bit_panics_refuted",
    "C11_crop_panics_iff",
    "C11_crop_8bit_safe_partial"
   ],
   "note": "False of the code (refuted twice). Proved: exact panic condition, and safety for 8-bit formats when the window starts at x = 0 or leaves two rows below it."
  },
  {
   "property": "C12",
   "status": "partial",
   "theorems": [
    "C12_crop_compose",
    "C12_crop_compose_odd_refuted"
   ],
   "note": "Proved unless both windows have odd offsets in the same direction; C12_crop_compose_odd_refuted shows the claim is false there."
  },
  {
   "property": "C13",
   "status": "proved",
   "theorems": [
    "C13_result",
    "C13_error",
    "C13_mismatched_iff",
    "C13_odd_iff",
    "C13_ok_iff",
    "C13_exact"
   ],
   "note": "Errors and success for all images and strides (C13_exact, C13_error); C13_result and the others state the parts for equal strides."
  },
  {
   "property": "C14",
   "status": "proved",
   "theorems": [
    "C14_error_no_store"
   ],
   "note": "No hypothesis on the images."
  },
  {
   "property": "C15",
   "status": "partial",
   "theorems": [
    "C15_memory_safe_partial",
    "C15_refuted",
    "C15_exact"
   ],
   "note": "The claim is false for some 4:4:4 planar sources (refuted by witnesses: out-of-bounds load, panic). C15_exact: for all valid images, exactly when the run is safe; stores are always inside."
  },
  {
   "property": "C16",
   "status": "proved",
   "theorems": [
    "C16_frame",
    "C16_frame_all"
   ],
   "note": "C16_frame_all: all valid images, all outcomes."
  },
  {
   "property": "C17",
   "status": "proved",
   "theorems": [
    "C17_walk_once",
    "C17_stores_once",
    "C17_stores_once_all"
   ],
   "note": "The walk for every vector length; the stores for every back end, format pair and stride (C17_stores_once_all)."
  },
  {
   "property": "C18",
   "status": "partial",
   "theorems": [
    "C18_correct_partial",
    "C18_rounding",
    "C18_refuted",
    "C18_exact_partial"
   ],
   "note": "All formats, color spaces and strides except 4:2:0 ICtCp chroma (what is stored there is C19). C18_exact_partial says which samples are read from 4:4:4 planar sources with different strides; C18_refuted shows they can be the wrong ones."
  },
  {
   "property": "C19",
   "status": "partial",
   "theorems": [
    "C19_ictcp_chroma_partial",
    "C19_lower_row_ignored",
    "C19_refuted"
   ],
   "note": "The claim is false of the code: refuted by a witness. Proved instead: what is stored, and that the lower row has no influence."
  },
  {
   "property": "C20",
   "status": "partial",
   "theorems": [
    "C20_same_format_exact",
    "C20_same_format_exact_8bit",
    "C20_same_format_exact_vector",
    "C20_refuted"
   ],
   "note": "False for 16-bit words outside the nominal range in columns processed with scalar or NEON code (refuted). Proved for all values in the nominal range, for all 8-bit values, and for all 16-bit words in AVX2/AVX-512 columns."
  },
  {
   "property": "C21",
   "status": "proved",
   "theorems": [
    "C21_rgb_repack_lossless"
   ],
   "note": ""
  },
  {
   "property": "C22",
   "status": "proved",
   "theorems": [
    "C22_yuv_opaque",
    "C22_alpha_kept"
   ],
   "note": ""
  },
  {
   "property": "C23",
   "status": "partial",
   "theorems": [
    "C23_relayout_within_one",
    "C23_refuted"
   ],
   "note": "The claim is false of the code: refuted by witnesses for I420 to NV12 and I422 to YUYV. C23_relayout_within_one: every sample is kept or one less (BT.601, BT.709), and kept exactly where AVX2 or AVX-512 vectors store it."
  },
  {
   "property": "C24",
   "status": "partial",
   "theorems": [
    "C24_position_independent_partial",
    "C24_position_independent_scalar",
    "C24_position_independent_neon",
    "C24_refuted"
   ],
   "note": "Proved for the scalar back end, for NEON without transfer functions and for columns processed by the same code; refuted for AVX2 and AVX-512."
  },
  {
   "property": "C25",
   "status": "partial",
   "theorems": [
    "C25_scalar_neon_saturate",
    "C25_avx2_saturate_partial",
    "C25_avx512_saturate_partial",
    "C25_refuted"
   ],
   "note": "False on AVX2 and AVX-512 outside the range in which the conversion to i16/i32 is exact (refuted by witnesses). Proved for all floats on scalar and NEON, and on AVX2/AVX-512 for values in range."
  },
  {
   "property": "C26",
   "status": "proved",
   "theorems": [
    "C26_vector_interface",
    "C26_zip_unzip",
    "C26_interleaved_reload",
    "C26_bytes_survive"
   ],
   "note": "All four back ends meet one lane-level interface (record vector_spec) for every lane content."
  },
  {
   "property": "C27",
   "status": "partial",
   "theorems": [
    "C27_comparison_partial",
    "C27_refuted",
    "C27_maximum",
    "C27_maximum_nan"
   ],
   "note": "False on NEON for negative arguments (refuted). Proved for the other back ends, and on NEON for non-negative arguments."
  },
  {
   "property": "C28",
   "status": "proved",
   "theorems": [
    "C28_binary32",
    "C28_nominal_range"
   ],
   "note": "binary32, all back ends, all color spaces that are not ICtCp (including BT.2020 with the weights of the code). C28_nominal_range is at the API. The 10/12-bit limits are those of the code (scaled by 1023/255), see C29."
  },
  {
   "property": "C29",
   "status": "partial",
   "theorems": [
    "C29_black_white",
    "C29_ramp_full",
    "C29_chroma",
    "C29_deep_white",
    "C29_deep_full",
    "C29_refuted"
   ],
   "note": "8-bit black and white hold on every back end. The rest of the claim is false and refuted (C29_refuted): truncating back ends lose a level for some grays, full-range neutral chroma is 127, and white in 10/12-bit limited range is 942/943 and 3773/3774. The other theorems say what holds instead. BT.601 and BT.709."
  },
  {
   "property": "C30",
   "status": "partial",
   "theorems": [
    "C30_matrix_formula",
    "C30_inverse",
    "C30_refuted",
    "C30_bt2020_formula"
   ],
   "note": "BT.601 and BT.709, exact arithmetic. False for BT.2020: C30_refuted, and C30_bt2020_formula says what the code computes."
  },
  {
   "property": "C31",
   "status": "partial",
   "theorems": [
    "C31_gray_neutral",
    "C31_neutral_gray",
    "C31_refuted"
   ],
   "note": "BT.601 and BT.709, exact arithmetic. False for BT.2020: C31_refuted."
  },
  {
   "property": "C32",
   "status": "proved",
   "theorems": [
    "C32_range",
    "C32_encoded_range"
   ],
   "note": "Exact arithmetic; binary32 is C28."
  },
  {
   "property": "C33",
   "status": "proved",
   "theorems": [
    "C33_encode_levels",
    "C33_round_trip",
    "C33_levels_round_trip"
   ],
   "note": "Exact arithmetic."
  },
  {
   "property": "C34",
   "status": "proved",
   "theorems": [
    "C34_round_trip"
   ],
   "note": "At the API: two conversions in a row, binary32 arithmetic, all back ends; also for sub-sampled formats where a block has one color. BT.601 and BT.709 (BT.2020: see C30)."
  },
  {
   "property": "C35",
   "status": "partial",
   "theorems": [
    "C35_formulas",
    "C35_inverse",
    "C35_srgb_inverse",
    "C35_pq_inverse",
    "C35_sdr_partial",
    "C35_sdr_refuted",
    "C35_sdr_close",
    "C35_hlg_inverse",
    "C35_hlg_inverse_scaled"
   ],
   "note": "Exact arithmetic. False for SDR (C35_sdr_refuted); C35_sdr_close bounds the difference. HLG is inverse exactly below the knee and within 1e-6 above it."
  },
  {
   "property": "C36",
   "status": "partial",
   "theorems": [
    "C36_encode_increasing",
    "C36_encode_increasing_partial",
    "C36_encode_refuted",
    "C36_encode_nearly_increasing",
    "C36_decode_increasing",
    "C36_pq_decode_increasing",
    "C36_black_white",
    "C36_sdr_white",
    "C36_pq_ends"
   ],
   "note": "Exact arithmetic. Encoding with sRGB and HLG steps down at the threshold (C36_encode_refuted), by less than 1e-7 (C36_encode_nearly_increasing). SDR and PQ do not map white to 1 exactly (C36_sdr_white, C36_pq_ends)."
  },
  {
   "property": "C37",
   "status": "proved",
   "theorems": [
    "C37_same_primaries",
    "C37_there_and_back",
    "C37_white"
   ],
   "note": "Exact arithmetic with the decimal constants of the code."
  },
  {
   "property": "C38",
   "status": "proved",
   "theorems": [
    "C38_skipped",
    "C38_applied"
   ],
   "note": "Excludes 4:2:0 ICtCp chroma, see C19."
  },
  {
   "property": "C39",
   "status": "proved",
   "theorems": [
    "C39_multi_thread_equals_convert",
    "C39_run_exists",
    "C39_live"
   ],
   "note": "For non-empty images (empty ones: C42) and 4:4:4 sources with one stride (see C15). Runs are all interleavings of the threads' stores; C39_live also interleaves loads with stores."
  },
  {
   "property": "C40",
   "status": "proved",
   "theorems": [
    "C40_bands_partition",
    "C40_samples_in_one_band"
   ],
   "note": ""
  },
  {
   "property": "C41",
   "status": "proved",
   "theorems": [
    "C41_no_data_race"
   ],
   "note": "Also: no thread stores to a source sample."
  },
  {
   "property": "C42",
   "status": "partial",
   "theorems": [
    "C42_no_panic_partial",
    "C42_panics",
    "C42_refuted"
   ],
   "note": "False of the code, three refutations. C42_panics shows that every other multi-threaded case panics; C42_no_panic_partial shows that non-empty accepted images do not."
  },
  {
   "property": "C43",
   "status": "proved",
   "theorems": [
    "C43_result",
    "C43_error_no_store",
    "C43_samples",
    "C43_bytes",
    "C43_padding",
    "C43_inside",
    "C43_only_samples",
    "C43_refuted",
    "C43_empty_panics"
   ],
   "note": "Samples, padding, exact set of changed bytes, and the complete result table. The parts that are false are refuted: spare rows are overwritten (C43_refuted), empty images with stride 0 panic (C43_empty_panics)."
  },
  {
   "property": "C44",
   "status": "proved",
   "theorems": [
    "C44_copy_is_convert",
    "C44_copy_is_convert_16bit",
    "C44_same_memory",
    "C44_refuted"
   ],
   "note": "For 4:4:4 sources with one stride (see C15). 8-bit formats as stated; for 16-bit formats equality holds for samples in the nominal range and is refuted beyond it."
  },
  {
   "property": "C45",
   "status": "partial",
   "theorems": [
    "C45_planes_partial",
    "C45_view_is_plane",
    "C45_view_contract",
    "C45_history",
    "C45_history_independent",
    "C45_inside",
    "C45_only_samples",
    "C45_deterministic",
    "C45_depends_on_source_samples",
    "C45_refuted_spare_row",
    "C45_refuted_odd_width",
    "C45_refuted_missing_planes",
    "C45_refuted_u32",
    "C45_panics"
   ],
   "note": "False as stated for planes with a spare row, odd widths of YUYV, missing planes and sizes of 2^32 (refuted). C45_planes_partial: proved for accepted images without spare rows (of even width if NV12 or YUYV), for any earlier use of the resizer; C45_history and C45_history_independent over all histories. The resampler is a parameter; its contracts are hypotheses met by an example resampler."
  },
  {
   "property": "C46",
   "status": "proved",
   "theorems": [
    "C46_error_iff",
    "C46_error_untouched",
    "C46_returns"
   ],
   "note": ""
  },
  {
   "property": "C47",
   "status": "proved",
   "theorems": [
    "C47_depends_on_source_samples",
    "C47_destination_overwritten",
    "C47_time_of_reading"
   ],
   "note": "For 4:4:4 sources with one stride (see C15)."
  },
  {
   "property": "C48",
   "status": "proved",
   "theorems": [
    "C48_rgb_to_yuv_accuracy"
   ],
   "note": "BT.601 and BT.709; the matrix of BT.2020 is wrong in the code, see C30."
  },
  {
   "property": "C49",
   "status": "proved",
   "theorems": [
    "C49_yuv_to_rgb_accuracy"
   ],
   "note": "BT.601 and BT.709."
  },
  {
   "property": "C50",
   "status": "proved",
   "theorems": [
    "C50_yuv_to_yuv_accuracy"
   ],
   "note": "BT.601 and BT.709."
  },
  {
   "property": "C51",
   "status": "proved",
   "theorems": [
    "C51_simd_pow_accurate",
    "C51_simd_ln_accurate",
    "C51_backends_accurate",
    "C51_pow_nonneg"
   ],
   "note": "Bit-exact lane model of the SIMD exp/log/pow. For the scalar back end (f32::powf, f32::ln, unspecified by Rust) the same contract is an explicit hypothesis of the theorems that need it."
  },
  {
   "property": "C52",
   "status": "partial",
   "theorems": [
    "C52_pow_of_one",
    "C52_pow_zero_exponent",
    "C52_ln_one",
    "C52_nan",
    "C52_negative_base",
    "C52_negative_base_neon_refuted",
    "C52_zero_base_refuted",
    "C52_zero_base_partial"
   ],
   "note": "Two parts are false of the code and refuted: 0^y is a small positive number on every SIMD back end, and NEON gives a number instead of NaN for negative bases. Proved: all other parts, and a bound for 0^y."
  },
  {
   "property": "C53",
   "status": "proved",
   "theorems": [
    "C53_encode_accurate",
    "C53_decode_accurate",
    "C53_sdr_knee",
    "C53_sdr_knee_refuted",
    "C53_backends_agree"
   ],
   "note": "At the knee of the SDR curve the bound 5e-6 is false (C53_sdr_knee_refuted); there the proved bound is 3e-4. The scalar back end uses the platform's powf and ln, assumed to be as accurate as the SIMD versions (hypothesis `platform`)."
  },
  {
   "property": "C54",
   "status": "partial",
   "theorems": [
    "C54_out_of_gamut_black",
    "C54_clipping_refuted"
   ],
   "note": "The property is false of the code: C54_clipping_refuted is a witness, C54_out_of_gamut_black characterises the pixels that become black on AVX2 and AVX-512 (sources with gamma 2.2 or 2.8)."
  },
  {
   "property": "C55",
   "status": "proved",
   "theorems": [
    "C55_recolor",
    "C55_recolor_levels"
   ],
   "note": "PQ is excluded (its linear light has another scale). Columns processed with scalar code need a platform powf and ln as accurate as the SIMD versions and NaN or next to nothing for negative bases (hypothesis platform_pow, shown satisfiable in C55_example)."
  },
  {
   "property": "C56",
   "status": "partial",
   "theorems": [
    "C56_rgb_to_xyz",
    "C56_xyz_to_rgb",
    "C56_st240_refuted",
    "C56_st240_actual"
   ],
   "note": "Proved for BT.709 and BT.2020. False for ST 240: C56_st240_refuted; C56_st240_actual shows that its matrices are the ones for a red primary of (0.630, 0.329)."
  },
  {
   "property": "C57",
   "status": "proved",
   "theorems": [
    "C57_bt2100",
    "C57_neutral"
   ],
   "note": "Over the reals (the same code, instantiated with exact arithmetic)."
  },
  {
   "property": "C58",
   "status": "proved",
   "theorems": [
    "C58_round_trip",
    "C58_round_trip_linear"
   ],
   "note": "Over the reals (the same code, instantiated with exact arithmetic). 4:4:4 before quantisation; the chroma of 4:2:0 blocks is C19."
  },
  {
   "property": "C59",
   "status": "partial",
   "theorems": [
    "C59_ok_iff",
    "C59_inside_partial",
    "C59_outside_bytes_partial",
    "C59_outside_pixels_partial",
    "C59_multi_thread",
    "C59_16bit_refuted",
    "C59_inside_exact",
    "C59_outside_exact"
   ],
   "note": "Windows on the chroma grid, for 16-bit images in the first row; refuted for 16-bit windows in other rows (C59_16bit_refuted). Chroma of 4:2:0 ICtCp is excluded as in C18/C19. For all other windows C59_inside_exact and C59_outside_exact say what happens, in terms of what the windows show (C10_crop_exact)."
  },
  {
   "property": "C60",
   "status": "partial",
   "theorems": [
    "C60_inside_partial",
    "C60_outside_bytes_partial",
    "C60_outside_pixels_partial",
    "C60_inside_exact",
    "C60_outside_exact"
   ],
   "note": "Windows on the chroma grid, for 16-bit images in the first row (the others show other rows, C10). For all other windows: C60_inside_exact and C60_outside_exact."
  },
  {
   "property": "C61",
   "status": "partial",
   "theorems": [
    "C61_rgb_to_yuv",
    "C61_yuv_to_rgb",
    "C61_yuv_to_yuv",
    "C61_recolor",
    "C61_truncating",
    "C61_refuted",
    "C61_bt2020_from_rgb",
    "C61_bt2020_to_rgb",
    "C61_bt2020_to_yuv",
    "C61_recolor_to_yuv",
    "C61_recolor_from_yuv",
    "C61_recolor_yuv",
    "C61_to_pq",
    "C61_yuv_to_pq",
    "C61_to_pq_yuv",
    "C61_ictcp_to_rgb",
    "C61_ictcp_to_other_rgb",
    "C61_yuv_to_ictcp",
    "C61_to_ictcp",
    "C61_other_rgb_to_ictcp",
    "C61_from_pq",
    "C61_ictcp_pq_to_rgb",
    "C61_pq_to_pq"
   ],
   "note": "One level without recoloring (BT.601, BT.709, and BT.2020 as the code defines it), and for recoloring RGB to RGB (linear, sRGB, SDR). Recoloring to or from YUV within the gamut: one or two levels in 8 bit, more in 10 and 12 bit and for HLG (C61_recolor_to_yuv, C61_recolor_from_yuv, C61_recolor_yuv). Equality of the truncating back ends; refuted for YUV sources with out-of-gamut colors and gamma (C61_refuted). To PQ: one level for RGB to RGB, every color (C61_to_pq); two levels from YUV (three for HLG); RGB to YUV two in 8 bit. To ICtCp: what twice the error of C76_levels_partial allows (C61_to_ictcp; in 8 bit three or four for luma), from YUV (C61_yuv_to_ictcp) and from RGB of other primaries or transfer (C61_other_rgb_to_ictcp) likewise. PQ to PQ with other primaries: C61_pq_to_pq. PQ to linear, sRGB and BT.709 RGB: C61_from_pq (one level for light above 1). ICtCp with the PQ curve to PQ: C61_ictcp_pq_to_rgb. PQ sources to YUV or gamma and ICtCp with the PQ curve to other curves are not covered. From ICtCp with the HLG curve to RGB: C61_ictcp_to_rgb (linear one level, sRGB and BT.709 five), C61_ictcp_to_other_rgb."
  },
  {
   "property": "C62",
   "status": "partial",
   "theorems": [
    "C62_local_partial",
    "C62_ictcp_group",
    "C62_refuted"
   ],
   "note": "All formats and color spaces but sub-sampled chroma of ICtCp 4:2:0, where it is refuted (C62_refuted) and C62_ictcp_group says what the sample depends on."
  },
  {
   "property": "C63",
   "status": "proved",
   "theorems": [
    "C63_luma",
    "C63_chroma",
    "C63_rgb",
    "C63_yuv_luma_partial"
   ],
   "note": "RGB to YUV and YUV to RGB in full; YUV to YUV luma (C63_yuv_luma_partial) without columns vectorised with AVX-512 and for equal chroma. ICtCp and recoloring are outside of the claim."
  },
  {
   "property": "C64",
   "status": "partial",
   "theorems": [
    "C64_rgb_to_yuv_partial",
    "C64_rgb_to_yuv_within_gamut_partial",
    "C64_out_of_gamut_zero",
    "C64_gamma_refuted"
   ],
   "note": "Missing: PQ sources (see C81; PQ destinations: C79); for HLG destinations, BT.2020 and colors outside of the gamut see C78; AVX-512 with full range and more than 8 bits. Gamma 2.2 and 2.8 destinations are refuted (C64_gamma_refuted, C64_out_of_gamut_zero)."
  },
  {
   "property": "C65",
   "status": "partial",
   "theorems": [
    "C65_yuv_to_rgb_partial",
    "C65_yuv_to_rgb_levels_partial",
    "C65_yuv_to_yuv_partial"
   ],
   "note": "Missing: PQ sources (see C81; PQ destinations: C79); source colors outside of 0 .. 1 (C80); AVX-512 with full range. For BT.2020, gamma and HLG curves and colors outside of the gamut see C78."
  },
  {
   "property": "C66",
   "status": "partial",
   "theorems": [
    "C66_gray",
    "C66_white",
    "C66_black",
    "C66_pq_white_refuted",
    "C66_pq_dim",
    "C66_pq_bright_refuted",
    "C66_pq_linear_refuted",
    "C66_pq_gray",
    "C66_white_neutral_refuted",
    "C66_gray_to_pq",
    "C66_gray_from_pq",
    "C66_pq_gray_close"
   ],
   "note": "Gray, white and black for all curves but PQ; gray to PQ (C66_gray_to_pq) and from PQ (C66_gray_from_pq: to linear light below 127); PQ to PQ on every back end (C66_pq_gray, C66_pq_gray_close). Brightness to and from PQ is refuted (C66_pq_white_refuted, C66_pq_bright_refuted, C66_pq_linear_refuted), exact neutrality of white is refuted on truncating back ends (C66_white_neutral_refuted)."
  },
  {
   "property": "C67",
   "status": "partial",
   "theorems": [
    "C67_gamut_refuted",
    "C67_white_refuted",
    "C67_recolored_partial",
    "C67_from_rgb",
    "C67_from_yuv_partial",
    "C67_refuted"
   ],
   "note": "RGB sources in full; YUV sources for colors in the cube of RGB (C67_from_yuv_partial); refuted for others (C67_refuted). Recoloring RGB to YUV without PQ: colors within the gamut of the destination (C67_recolored_partial); refuted outside of it and for SDR white (C67_gamut_refuted, C67_white_refuted). ICtCp is not covered."
  },
  {
   "property": "C68",
   "status": "partial",
   "theorems": [
    "C68_ictcp_hlg",
    "C68_ictcp_pq",
    "C68_neutral_is_gray",
    "C68_limited_8bit",
    "C68_full_range_refuted",
    "C68_deep_white_refuted"
   ],
   "note": "The bounds in full for BT.601 and BT.709 (C68_neutral_is_gray, C68_limited_8bit); exact gray is refuted (C68_full_range_refuted, C68_deep_white_refuted). BT.2020 is in C75_gray_read. ICtCp for 8-bit limited range (C68_ictcp_hlg, C68_ictcp_pq: codes of up to nominal white). Missing: ICtCp in full range or with more bits, and with the PQ curve in only one of matrix and image."
  },
  {
   "property": "C69",
   "status": "partial",
   "theorems": [
    "C69_tiles_partial",
    "C69_cover_partial",
    "C69_refuted",
    "C69_at_the_same_time_partial"
   ],
   "note": "All formats and color spaces but sub-sampled chroma of ICtCp 4:2:0, where C19_refuted applies; refuted for windows that are not aligned (C69_refuted)."
  },
  {
   "property": "C70",
   "status": "proved",
   "theorems": [
    "C70_packing",
    "C70_copy_refuted"
   ],
   "note": "All formats and color spaces, including ICtCp; the exception (copying) is a hypothesis and C70_copy_refuted shows that it is needed."
  },
  {
   "property": "C71",
   "status": "proved",
   "theorems": [
    "C71_drift",
    "C71_refuted"
   ],
   "note": "Bound by induction on the sequence, exact in rounding columns. BT.601 and BT.709. The stronger claim that the loss stays within one level is refuted (C71_refuted)."
  },
  {
   "property": "C72",
   "status": "proved",
   "theorems": [
    "C72_drift",
    "C72_deep_exact",
    "C72_refuted"
   ],
   "note": "Bound by induction on the sequence for 4:4:4, BT.601 and BT.709. C72_deep_exact: no change at all for 10 and 12 bits with rounding. The stronger claim is refuted (C72_refuted). Sub-sampled formats are not included."
  },
  {
   "property": "C73",
   "status": "proved",
   "theorems": [
    "C73_yuv_round_trip",
    "C73_lossless",
    "C73_gamut_refuted",
    "C73_truncation_refuted",
    "C73_deep_round_trip",
    "C73_deep_same_depth"
   ],
   "note": "For samples all of whose colors are in RGB, BT.601 and BT.709. Exactness and sequences for 8 bits; bounds for all bit depths (C73_deep_round_trip, C73_deep_same_depth). Without that condition, and exactness with truncation, it is refuted (C73_gamut_refuted, C73_truncation_refuted). The full range bounds are not known to be tight."
  },
  {
   "property": "C74",
   "status": "partial",
   "theorems": [
    "C74_packed16_partial",
    "C74_avx_loads",
    "C74_avx_rgba_store",
    "C74_avx_rgb_store_pixels",
    "C74_avx_rgb_store",
    "C74_avx_refuted",
    "C74_no_such_format"
   ],
   "note": "Proved for the scalar and the NEON code. AVX2 and AVX-512 are refuted in every one of the four operations (C74_avx_refuted); C74_avx_loads, C74_avx_rgba_store and C74_avx_rgb_store_pixels say what they do instead. Not reachable through the API (C74_no_such_format)."
  },
  {
   "property": "C75",
   "status": "proved",
   "theorems": [
    "C75_encode",
    "C75_decode",
    "C75_yuv_to_yuv",
    "C75_relayout_refuted",
    "C75_gray_read",
    "C75_gray_written_refuted",
    "C75_round_trip_refuted"
   ],
   "note": "BT.2020 images do not hold BT.2020 values (C75_encode, C75_decode, C75_yuv_to_yuv say which they hold). C75_relayout_refuted, C75_gray_written_refuted and C75_round_trip_refuted show the consequences. Without change of the transfer function or the primaries."
  },
  {
   "property": "C76",
   "status": "partial",
   "theorems": [
    "C76_rgb_to_ictcp_partial",
    "C76_bt2100_partial",
    "C76_yuv_to_ictcp_partial",
    "C76_yuv_to_ictcp_levels_partial",
    "C76_levels_partial",
    "C76_other_rgb_to_ictcp_partial",
    "C76_other_rgb_to_ictcp_levels_partial",
    "C76_other_yuv_to_ictcp_partial",
    "C76_rgb_to_pq_ictcp_partial",
    "C76_pq_to_ictcp_partial",
    "C76_pq_bt2100_partial"
   ],
   "note": "In levels: C76_levels_partial. From YUV: C76_yuv_to_ictcp_partial and C76_yuv_to_ictcp_levels_partial. With other primaries or another transfer function (linear, sRGB, HLG or PQ of the destination): C76_other_rgb_to_ictcp_partial, C76_other_rgb_to_ictcp_levels_partial, C76_rgb_to_pq_ictcp_partial (any color up to 12/10) and, from YUV, C76_other_yuv_to_ictcp_partial. Missing: chroma of 4:2:0 (C19: the code is wrong there); RGB in PQ to ICtCp with the HLG curve or of other primaries; a change to gamma or SDR; colors outside of the gamut of destinations other than PQ. In columns stored with AVX-512 the level has to be in range."
  },
  {
   "property": "C77",
   "status": "partial",
   "theorems": [
    "C77_ictcp_to_rgb_partial",
    "C77_hlg_to_other_rgb_partial",
    "C77_pq_to_rgb_partial",
    "C77_pq_to_other_rgb_partial",
    "C77_pq_to_other_gamut_partial",
    "C77_hlg_to_yuv_partial",
    "C77_hlg_to_other_yuv_partial",
    "C77_hlg_to_pq_rgb_partial",
    "C77_hlg_to_pq_yuv_partial",
    "C77_pq_to_yuv_partial",
    "C77_pq_to_other_yuv_partial",
    "C77_pq_to_other_gamut_yuv_partial",
    "C77_pq_to_rgb_levels_partial"
   ],
   "note": "HLG curve with any transfer function but PQ to the same light (RGB and YUV) and, for linear, sRGB and HLG sources, to every other transfer function and all primaries; PQ curve to PQ and to every other transfer function and all primaries (a weaker bound, 11/100 of the brightest light), RGB and YUV. Missing: other transfer functions with the PQ curve as source; SDR and pure powers with the HLG curve when recoloring; pixels with encoded cone responses above 1 (for HLG also below 0); YUV destinations for light below the darkest that the code encodes without surprise or, when not PQ, above 5/2; light above 8000 cd/m2 when recoloring."
  },
  {
   "property": "C78",
   "status": "partial",
   "theorems": [
    "C78_rgb_to_yuv_partial",
    "C78_yuv_to_rgb_partial",
    "C78_yuv_to_yuv_partial",
    "C78_clipped_refuted"
   ],
   "note": "False in its last sentence: light outside of the gamut is not clipped (C78_clipped_refuted: the green of BT.2020 is stored as black in BT.709). Proved: what is stored, with the encoding continued below 0. Missing: PQ sources (see C81; PQ destinations: C79); light below [darkest]; YUV source colors outside of 0 .. 1 (C80)."
  },
  {
   "property": "C79",
   "status": "partial",
   "theorems": [
    "C79_rgb_to_rgb_levels",
    "C79_yuv_to_rgb_levels_partial",
    "C79_wide_yuv_to_rgb_levels_partial",
    "C79_rgb_to_yuv_levels",
    "C79_hlg_to_rgb",
    "C79_hlg_to_yuv",
    "C79_wide_yuv_to_rgb_partial",
    "C79_wide_yuv_to_yuv_partial",
    "C79_rgb_to_rgb_partial",
    "C79_yuv_to_rgb_partial",
    "C79_rgb_to_yuv_partial",
    "C79_yuv_to_yuv_partial"
   ],
   "note": "In levels: C79_*_levels. Also for YUV sources outside of 0 .. 1 (C79_wide_*; HLG: all samples, C79_hlg_*); PQ sources are in C81. Missing: what is wrong on NEON and for gamma curves (C80, C54). That 1.0 is 1 cd/m2 makes SDR white level 38 (C66)."
  },
  {
   "property": "C80",
   "status": "partial",
   "theorems": [
    "C80_hlg_to_rgb_partial",
    "C80_hlg_to_yuv_partial",
    "C80_color_range",
    "C80_yuv_to_rgb_partial",
    "C80_any_samples_to_rgb",
    "C80_yuv_to_yuv_partial",
    "C80_neon_refuted"
   ],
   "note": "False of NEON for negative sRGB and SDR colors (C80_neon_refuted: 54 levels from AVX2) and of gamma curves (negative colors, C54). Proved: Linear, sRGB and SDR to RGB for all samples on the other back ends (C80_any_samples_to_rgb); HLG to RGB for all samples (C80_hlg_to_rgb_partial; to linear RGB for light below 128, see C66); gamma where the color is in the domain of the curve; YUV destinations for light from [darkest] to 12/5. Missing: PQ (C81); YUV destinations beyond these lights."
  },
  {
   "property": "C81",
   "status": "partial",
   "theorems": [
    "C81_above_one_refuted",
    "C81_superwhite_refuted",
    "C81_rgb_to_rgb_partial",
    "C81_yuv_to_rgb_partial",
    "C81_rgb_to_pq_rgb",
    "C81_rgb_to_pq_yuv",
    "C81_yuv_to_pq_rgb_partial",
    "C81_yuv_to_pq_yuv_partial",
    "C81_rgb_to_pq_rgb_levels",
    "C81_yuv_to_pq_rgb_levels_partial",
    "C81_rgb_to_yuv_partial",
    "C81_yuv_to_yuv_partial"
   ],
   "note": "All PQ images to PQ with other primaries (PropPQ.v), to RGB with other curves, and to YUV with other curves for light from [darkest] to 5/2 (PropPqYuv.v). False for YUV source colors above 1 (C81_above_one_refuted, C81_superwhite_refuted) and linear destinations where the light reaches 128 on AVX2 and AVX-512 (C66_pq_linear_refuted). Missing: YUV destinations with other curves beyond these lights."
  },
  {
   "property": "C82",
   "status": "partial",
   "theorems": [
    "C82_gray_to_yuv",
    "C82_gray_to_ictcp_partial",
    "C82_gray_to_yuv_8bit",
    "C82_gray_to_ictcp_8bit_partial"
   ],
   "note": "BT.601 and BT.709 in full; BT.2020 is refuted by C75_gray_written_refuted. ICtCp: missing 4:2:0 (C19: the code is wrong there) and PQ images with the HLG matrix."
  },
  {
   "property": "C83",
   "status": "partial",
   "theorems": [
    "C83_outside_exact",
    "C83_depends_exact",
    "C83_picture_exact",
    "C83_views_partial",
    "C83_outside_bytes_partial",
    "C83_outside_pixels_partial",
    "C83_depends_on_window_partial",
    "C83_same_picture",
    "C83_window_is_picture_partial",
    "C83_full_window"
   ],
   "note": "Windows on the chroma grid, for 16-bit images in the first row; even width for NV12 and YUYV. C83_same_picture and C83_full_window are unrestricted otherwise. The resampler is a parameter; its contracts are hypotheses met by an example resampler. For all other windows: C83_outside_exact, C83_depends_exact and C83_picture_exact."
  },
  {
   "property": "C84",
   "status": "proved",
   "theorems": [
    "C84_rescaled",
    "C84_deeper_and_back",
    "C84_shallower_and_back",
    "C84_lossless_refuted"
   ],
   "note": "C84_lossless_refuted shows that truncation makes the deeper format lose a level: 200 in I420 comes back from I010 as 199."
  },
  {
   "property": "C85",
   "status": "proved",
   "theorems": [
    "C85_there_and_back",
    "C85_wider_gamut",
    "C85_linear_levels",
    "C85_gamut_refuted"
   ],
   "note": "C85_wider_gamut needs no hypothesis about the colors; C85_gamut_refuted shows that colors outside of the gamut of the middle do not come back. Sources with SDR, gamma, HLG or PQ curves are not part of the claim."
  },
  {
   "property": "C86",
   "status": "proved",
   "theorems": [
    "C86_again",
    "C86_replaced",
    "C86_commute",
    "C86_multi_thread_again",
    "C86_at_the_same_time",
    "C86_any_order",
    "C86_copy_again"
   ],
   "note": "For destinations that share no sample with their source, which Rust's borrows guarantee. As in C15, the planes of 4:4:4 planar sources have equal strides."
  },
  {
   "property": "C87",
   "status": "proved",
   "theorems": [
    "C87_copy_first",
    "C87_copy_last",
    "C87_same_kind_first",
    "C87_repack_first"
   ],
   "note": "A way by way of another YUV layout is not lossless (C70_copy_refuted), so it is not part of the claim."
  },
  {
   "property": "C88",
   "status": "partial",
   "theorems": [
    "C88_mirror_partial",
    "C88_upside_down_partial",
    "C88_left_right_partial",
    "C88_ictcp_refuted",
    "C88_tail_refuted"
   ],
   "note": "C88_ictcp_refuted (4:2:0 ICtCp) and C88_tail_refuted (last columns with AVX2) show why the full claim is false."
  },
  {
   "property": "C89",
   "status": "partial",
   "theorems": [
    "C89_flat_block_partial",
    "C89_flat_yuv_partial",
    "C89_flat_recolored_partial",
    "C89_ictcp_refuted"
   ],
   "note": "C89_ictcp_refuted: false for ICtCp in 4:2:0. Missing: other transfer functions or primaries for YUV sources, PQ sources, and gamma, HLG or PQ destinations, and colors outside of the gamut of the destination. C89_not_flat shows that blocks of several colors are stored differently."
  }
 ]
}