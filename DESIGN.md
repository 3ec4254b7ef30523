# Formal model of ezk-image: design

The model is written in Rocq (Coq 8.16.1), in `rocq/theories`. It models the Rust source in `/repo/src`
function by function; every definition cites the file and lines it models. Nothing of `/repo` is executed.

## 1. What is modelled, and how

| Rust | Model |
|---|---|
| `usize` arithmetic | `nat`; every operation that can exceed `usize::MAX = 2^64-1` is guarded. `strict_mul_`/`strict_add_` panic; plain `+`/`*` are guarded by `chk` (`Panic POverflow`, i.e. the debug-build panic; in release the value would wrap). |
| panics, `Err`, undefined behaviour | explicit results `Ok / Err e / Panic p / UB`. Raw loads/stores (`primitive.rs`) outside the slice give `UB`; slice indexing out of range gives `Panic`. |
| memory | `mem := buffer id -> index -> byte value`. A slice is `(buffer, offset, length)`; bounds are those of the slice, as in Rust. |
| `&mut` destination | a conversion produces a *trace* of store events (buffer, offset, bytes) and a result; the destination memory is the fold of the trace. The destination is never read by the code, so this loses nothing, and it lets threads be interleaved arbitrarily. |
| `dyn ImageRef` | record of format, size, color and `planes()` result (which may panic); any user implementation that returns the same planes on every call, as the trait documents. |
| `Vector` trait | record `vimpl` of lane count, comparisons, pow, ln, zip/unzip, loads and stores; vectors are functions from lane index to value. Elementwise arithmetic is binary32. Back ends: scalar `f32`, AVX2, AVX-512, NEON, each written at the level of the intrinsics it uses. |
| `f32` arithmetic | `Coq.Floats.SpecFloat` with 24-bit precision, emax 128 (bit-exact IEEE-754 binary32, round to nearest even), no axioms. The same generic color code is also instantiated with `R` (exact arithmetic). |
| threads | each band yields a trace; the final memory is that of an arbitrary interleaving of the traces. |

External code appears as parameters of the model (function arguments, never axioms): libm `powf`/`logf` (scalar back end; the theorems of `PropConvert.v` and
the like hold for any power and logarithm, those about accuracy take the contract of `SpecMath.v` as a hypothesis for the scalar code),
the `fast_image_resize` resampler, `num_cpus`.

## 2. Trusted base

* Coq's kernel (and `vm_compute` where used).
* The correspondence between Rust text and model, definition by definition (comments cite the lines).
* The semantics assumed for the Intel/ARM intrinsics used in `vector/*.rs` (written out in `Simd.v`).
* rustc/LLVM: no fast-math, no re-association; memory allocation succeeds.
* Axioms: see section 5 (what `Print Assumptions` lists).

## 3. Properties: model and proof plan

* **C01 buffer_size is exactly enough.** Model plane tables and the four size functions; theorem by case on the format with division arithmetic.
* **C02 bounds_check accepts exactly the sufficient plane sets.** `bounds_check` as a fold over planes; iff by induction on the plane list; error characterised as the first offending plane.
* **C03 packed strides are minimal.** Corollary of the C02 characterisation.
* **C04 every sample of an accepted image is in bounds.** Independent layout table `sample_addr`; arithmetic.
* **C05 inferred planes are consecutive and disjoint.** `infer` as successive splits; closed form of each slice, disjointness.
* **C06 Image constructors establish the invariant.** `Image::new` model; inversion.
* **C07 Image::from_buffer reports bad input as an error, not a panic.** Refutation by witness plus exact characterisation of when it panics.
* **C08 blank images are valid and black.** `blank` model.
* **C09 crop accepts exactly windows inside the parent.** `Cropped::new` with checked_add; iff.
* **C10 a cropped view shows exactly the window.** Refuted by three witnesses; `_partial` theorem for 8-bit formats, even offsets, one spare row fragment. `PropCropExact.v`: exactly which sample every window of every format shows (`shown`).
* **C11 using a cropped image never panics.** Refuted by witness; exact iff-characterisation of when `planes()` panics.
* **C12 cropping composes.** Composition of two crops under the C10 hypotheses.
* **C13 convert's result code is determined by its arguments.** Decision-table specification, separate from the model's control flow; equality for all inputs (`C13_exact` covers all strides).
* **C14 a failed convert leaves the destination untouched.** Trace is empty in every Err case.
* **C15 convert is memory safe.** No UB and no panic for every vector implementation satisfying the interface contract; refutation for I444. `C15_exact` says for which 4:4:4 sources the run is safe.
* **C16 convert writes only pixels.** Frame lemma on the trace. A run that stops early stores a prefix of what the run on the image "as read" (`SpecStride.v`) stores.
* **C17 every pixel is visited exactly once.** Block list of the traversal; each pixel in exactly one block.
* **C18 per-pixel functional correctness of convert.** Main theorem: final memory at each sample address equals the scalar specification. Lane reasoning by the vector contract. `C18_exact_partial` covers 4:4:4 sources with unequal strides, in terms of the samples that are read.
* **C19 sub-sampled ICtCp chroma is the block mean.** Exact characterisation and refutation witness.
* **C20 same-format convert copies samples exactly.** C18 + exhaustive bit-exact binary32 check of all 2^8 and all in-range 10/12-bit samples, lifted to all images; refuted beyond the range.
* **C21 RGB-family repacking is lossless.** C18 + the 8-bit exactness check.
* **C22 YUV sources produce opaque pixels.** C18.
* **C23 re-laying out YUV with the same sub-sampling is lossless.** Witness by computation on the binary32 model.
* **C24 result does not depend on the column.** Conditional theorem + AVX2 witness.
* **C25 stores saturate.** Characterise each quantiser over all binary32 values; refutations.
* **C26 SIMD shuffles implement the vector interface.** Symbolic computation on lane lists.
* **C27 SIMD comparison agrees with scalar comparison.** Refutation by witness; iff for non-negative thresholds. The maximum is the larger operand on every back end; what each does with NaN is stated exactly.
* **C28 RGB to YUV of 8-bit colors stays in range.** Interval arithmetic over binary32 (monotonicity of rounding, Flocq), composed along C18.
* **C29 limited range maps nominal black and white.** C18 + evaluation over the finite set of gray levels, lifted; refutation of the parts that are false.
* **C30 YUV matrices are inverse of each other.** `R` instance; field. Refutation for BT.2020.
* **C31 neutral colors have neutral chroma.** `R` instance.
* **C32 YUV of in-gamut RGB is in range (exact arithmetic).** `R` instance, linear arithmetic.
* **C33 limited-range scaling is undone exactly.** `R` instance, field.
* **C34 quantised 4:4:4 round trip error is bounded.** C48 followed by C49, linear arithmetic over the possible errors.
* **C35 transfer functions are inverse of each other.** `R` instance with Rpower; `SpecTransfer.v` has the formulas of the standards. SDR refuted.
* **C36 transfer functions are monotone and fix black and white.** `R` instance with Rpower; bounds on powers for the refutations at the thresholds.
* **C37 primaries matrices are inverse and white preserving.** `R` instance, linear arithmetic with the decimal constants.
* **C38 color conversion is skipped exactly when unnecessary.** Case analysis on color infos and the C18 theorem.
* **C39 convert_multi_thread equals convert.** Each band's trace is consistent with the whole-image specification; arbitrary interleavings.
* **C40 thread bands partition the image.** Arithmetic on split_planes.
* **C41 threads never write the same byte.** Disjointness of band addresses.
* **C42 convert_multi_thread accepts whatever convert accepts.** Refutation by witness; iff characterisation.
* **C43 copy reproduces the image and nothing else.** `copy` as trace; refutation of slack rows.
* **C44 copy and same-format convert agree.** C20 + C43.
* **C45 resize hands every plane to the resampler with its true geometry.** Invariant over histories of calls; refutation by witness.
* **C46 resize rejects different formats before touching anything.** Case analysis.
* **C47 convert depends on the source samples only.** Congruence of the walk with respect to the samples; executions with loads and stores taking turns.
* **C48 RGB to YUV is accurate.** Error analysis of the binary32 operations over the reals (Flocq), composed along the
  specification of C18; `SpecReal.v` has the formulas of the standards.
* **C49 YUV to RGB is accurate.** As C48.
* **C50 YUV to YUV is accurate.** As C48.
* **C51 power and logarithm of the SIMD back ends are accurate.** Bit-exact model of the intrinsics (`Math.v`). Error of the
  polynomials over the reals (Taylor shift with integer coefficients, derivative bound), argument reduction, accumulated
  rounding errors (Flocq).
* **C52 special values of the power function.** Case analysis and computation; two refutations.
* **C53 transfer functions are accurate in binary32.** Error propagation from C51 through the formulas (`TransferProofs.v`):
  Lipschitz bounds of power, exponential and logarithm, interval arguments for the branches, for all back ends at once.
* **C54 colors outside of the gamut are clipped.** False; refuted. Proved instead: which pixels become black (NaN propagation
  through the matrices, on top of the accuracy of C49).
* **C55 change of transfer function and primaries is accurate.** C53 for the decoding, matrix rows as dot products, the inverse
  of the encoding error (the stored sample is the exact encoding of light within 1/20000), negative channels (`NegProofs.v`).
* **C56 primaries matrices are those of the standards.** The reference is given by linear equations (chromaticities, white,
  m n = 1); the entries of the code are compared with the solution by linear arithmetic over the reals. ST 240 is refuted.
* **C57 ICtCp is the one of BT.2100, C58 ICtCp is undone.** The code over the reals against `SpecIctcp.v`; relative and absolute
  perturbation bounds of the PQ and HLG curves and their inverses (`IctcpProofs.v`, Bernoulli's inequality), the rest is linear.
* **C59, C60 converting and copying windows.** (Every window, in terms of C10's `shown`: `PropWindowExact.v`.) C10 for the components of a view, C16 - C18 and C43 for the run on the views; the
  bytes of a view are exactly the bytes of the window's pixels, and no pixel beside the window shares one (`WindowProofs.v`).
* **C61 the picture does not depend on the CPU.** Corollary of C48 - C50 and C55: both back ends are within their rounding of the same real number. Equality of the truncating back ends from C18 and the quantisers; refutation with the picture of C54.
* **C62 a sample depends on the pixels it covers only.** C18 for two memories; for ICtCp the formula of C19. Refuted for ICtCp 4:2:0.
* **C63 converting keeps the order of brightness.** Rounding is monotone, so every binary32 operation with a constant is; the sign of each
  matrix coefficient is computed. Overflow is excluded by the extreme colors, which bound all others by the same monotonicity (`MonoProofs.v`).
  Truncation and rounding to even are monotone.
* **C64, C65 recoloring with YUV images.** `GamutProofs.v`: the error of decoding an approximate value (slope of the curves, C53), of the two matrices (a bound of the sum of the absolute values of their product), and of encoding (slope of linear, sRGB and SDR); then the matrix and the store as for C48. NaN propagates from `powf` through the matrix to the store for the refutation.
* **C66 gray stays gray.** `GrayProofs.v`: the product of the two matrices times (1,1,1) differs from (1,1,1) by 4e-6 (computed), and the curves
  spread that by at most 35/10000 (`encoded_close`). PQ: monotonicity of the exact curve between a few computed points. AVX2 and AVX-512
  with PQ sources: all 256 grays and all pairs of primaries are computed (the power functions of these back ends are modelled bit by bit),
  then lifted to all images. Neutrality to and from PQ, and PQ to PQ on the other back ends, are in `PropGrayPq.v`: the relative accuracy of the light (C81), the slope of the PQ code relative to the light, and the inverse of C35.
* **C67 samples within the bit depth.** C28 for RGB sources; C49 with the range of the ideal value for YUV sources; a counterexample family otherwise. RGB recolored into YUV is in `PropDepth.v`: C78 with an upper and lower bound for what each curve encodes.
* **C68 neutral chroma gives gray.** The accuracy of C48 for a pixel whose chroma differs from the middle of the scale by a known amount (1/2 level of full range, the scaling of deep limited range), with exact bounds on the sum for each luma. ICtCp (`PropIctcpGray.v`): neutral chroma gives equal cone responses, whose light differs from gray by 2/10000 (the rows of the cone matrix do not sum to 1 exactly), and the curves spread that by less than a level.
* **C69 tile by tile.** Induction on the list of windows; the invariant is that the source is unchanged and that each pixel of the windows done holds the value of C18. C59 for one window. `PropTilesLive.v` converts the tiles at the same time (C86_at_the_same_time for the views).
* **C70 packings.** C18 says that a stored sample is a function of the components of the group of pixels it covers; two packings of a picture have the same components, so the functions have the same arguments.
* **C71 layout again and again.** Induction on an inductive definition of sequences of conversions, each step by C23_relayout_within_one; the invariant is that all samples stay in range.
* **C72 to YUV and back again and again.** Induction as in C71, each trip by C34; the invariant is that memory holds bytes, which is proved of every store of `convert`.
* **C73 YUV to RGB and back.** C49 bounds the error of each RGB component, encoding is linear so the errors of all pixels of a block give an error of the luma and of the mean chroma, C48 bounds the second conversion; the sum is less than one level in limited range. Sequences by induction. Other bit depths (`PropReturnDeep.v`): the same errors scaled by the levels of the destination.
* **C74 Packed 16-bit RGB in the vector interface.** Model in `Simd16.v`; symbolic computation on lane lists as for C26.
* **C75 What conversions to and from BT.2020 compute.** The error analysis of C48 - C50, generalised over the matrix: `encoder` and `decoder` in `TargetProofs.v` say what it needs; the code's BT.2020 is BT.2020 with green scaled, so the statements use `SpecReal.v` unchanged.
* **C76 Accuracy of encoding ICtCp.** Error analysis step by step: C53 for the curve of the source, `RecolorProofs.v` for the matrices, monotonicity and a modulus of continuity of HLG and PQ, then the mixing matrix, `SpecIctcp.v` for the ideal value. The statement has the cone responses in an existential because the curves are steep at 0: a small relative error of the light is a large one of the code value. `PropIctcpOtherYuv.v`: one lemma (`other_sample`) for any source whose light is known, used for YUV of other primaries or another transfer function and for destinations in PQ.
* **C77 Accuracy of decoding ICtCp.** The same in the other direction. The ideal color is described by its encoding (cone responses and their ICtCp values), so the specification needs no inverse matrix. PQ curve (`PropIctcpPq.v` for C76, `PropIctcpPqDec.v` for C77): the bounds of C81, relative to the brightest light. `PropIctcpRecolor.v`: ICtCp with the PQ curve to RGB with another transfer function or other primaries; the back ends encode the light in PQ and decode it again on the way, which costs a further 1.5 percent, multiplied by the matrices. `PropIctcpHlgRecolor.v` does the same for the HLG curve, where encoding and decoding in between restores the light of linear, sRGB and HLG sources. `PropIctcpYuv.v` has YUV and PQ destinations: the light of each pixel of the chroma block goes through the lemmas of C78 and C79.
* **C78 Recoloring for every matrix and curve, in and out of the gamut.** C64 and C65 without their restrictions on the curve of the destination, the gamut and the matrix. The light is known up to a small error, and the samples are those of the encoding of that light; where the curve is vertical (gamma, HLG at black) this says more than a bound in levels.
* **C79 Conversion to PQ.** As C78; the encoding error of PQ (1/4000) is kept apart from the mixing, so that samples of YUV are exact for colors that are close to the PQ codes. `PropCodes.v`: PQ is subadditive (light times s has at most s times the code, by steps of 3/2), so light that is d apart has codes at most the code of d apart; this turns errors of the light into levels. `PropIctcpLevels.v` does the same for ICtCp (C76), with the square root of HLG. `PropIctcpIn.v` has C76 for any source whose light is known up to a given error, and YUV sources; `PropIctcpOther.v` has RGB of other primaries or transfer functions, by way of C35: encoding and decoding again restores the light.
* **C80 Colors outside of 0 .. 1.** The decoding curves are bounded on -6/5 .. 11/5 (C80_color_range: no sample stands for a color outside of it) in `WideProofs.v`, the matrices as in C78, light above the range of C78 by the monotony of the curves and the saturation of integers. False of NEON (C80_neon_refuted) and of gamma curves (C54). HLG colors above 1 are light of up to about 800: `HlgProofs.v` and `PropHlg.v` bound it relative to its value and use the lemmas of C81 from there on.
* **C81 Conversion from PQ.** In `PqProofs.v` the decoding is bounded relative to its value (the curve is cut in 14 pieces, each with its own slope), the matrices and the encodings are bounded for light of up to 18000, with an error that is proportional to it. Destinations with linear light are wrong from 128 cd/m2 on (C66_pq_linear_refuted), so they are excluded there. PQ destinations (`PqEncProofs.v`, `PropPQ.v`): the encoding is accurate to 1/4000 for light of up to 18000, which also serves YUV sources with colors outside of 0 .. 1 (C79_wide_*, C79_hlg_*). YUV colors above 1 with the PQ curve are wrong (`PropAbove.v`). YUV destinations with other curves (`PropPqYuv.v`) use the light lemma of C78. `PropPqLevels.v` states PQ to PQ in levels, because the PQ code grows at most in proportion to the light (`pq_scale`), and compares two CPUs (C61), as does `PropPqApart.v` for PQ to other curves and for ICtCp.
* **C82 Gray is stored with neutral chroma.** `PropGrayIctcp.v`: C48 with the exact weights, which sum to 0 for chroma; ICtCp: the cone responses of gray are equal up to 53e-6 of the light, the slope of the curves at that light relative to its value bounds their codes. False of BT.2020 (C75_gray_written_refuted).
* **C83 Resizing windows.** `PropResizeWin.v`: a window has no spare rows, so that C45 applies to the view; C10 for where its rows and components are (`PropResizeExact.v`: for every window); a contract for the resampler (it looks at the pixels only) gives that only the picture matters. `resizable` asks for an even width for NV12 and YUYV only.
* **C84 Changing the bit depth.** `PropDeep.v`: C50 with the ideal level computed for equal color information (it is the sample times the quotient of the largest levels), then two conversions in sequence, for all pairs of depths and back ends.
* **C85 Other primaries or transfer function and back.** `PropThereBack.v`: C55 twice. What the picture in the middle holds is decoded with the Lipschitz bound of the decoding curve, the two formulas of a curve are inverse (C35), the matrices are inverse (C37) and spread an error by at most the largest sum of a row. Colors outside of the gamut are refuted.
* **C86 Repeating a conversion changes nothing, the last one wins, and separate ones commute.** `PropRepeat.v`: a list of stores decides each byte independently of the memory or leaves it (induction). With C47 (a conversion depends only on the samples of its source), C16 (bytes outside of the destination's samples stay) and C17 (each sample byte is stored). C86_at_the_same_time is about any number of conversions whose loads and stores interleave in any order (`live` of `SpecExec.v`).
* **C87 Copies and lossless conversions on the way make no difference.** `PropVia.v`: the picture in the middle holds the samples of the source (C43, C20, C21), and what is stored depends on these only (C70).
* **C88 Mirrored and upside-down pictures.** `PropMirror.v`: binary32 addition is commutative, and the mean of four pixels is a sum of the sums of its columns, so that each mirroring permutes operands of single additions. With C18. The two exceptions are refuted with witnesses.
* **C89 A block of one color is stored alike at every sub-sampling.** `PropFlat.v`: doubling a binary32 number is exact (Flocq), so the mean of four equal pixels and of two equal chroma values is that pixel or value. With C18, and C28 (RGB) or C49 (YUV) for the ranges. C64 gives the ranges of RGB colors with another curve or other primaries, within the gamut of the destination. The rest of these conversions is left out; for ICtCp the claim is refuted.

## 4. Not modelled

* Unwinding/`Drop`, allocation failure, performance.
* The resampling arithmetic of fast_image_resize.

### Files

| Model file | Rust source |
|---|---|
| `Base.v` | results, checked arithmetic, slices, memory, store traces |
| `Types.v`, `Planes.v`, `ImageM.v`, `Crop.v` | `src/lib.rs` (types), `src/plane_decs.rs`, `src/image.rs`, `src/image_traits.rs`, `src/crop.rs` |
| `F32.v`, `Vector.v`, `Simd.v`, `Simd16.v` | binary32, `src/vector/*.rs`, `src/primitive.rs` |
| `Math.v` | the `math` modules of `src/vector/avx2.rs`, `avx512.rs`, `neon.rs` (exp, log, pow), lane by lane |
| `Color.v`, `ColorR.v` (the same code over the reals) | `src/color/*.rs` |
| `Formats.v`, `Visit.v`, `Convert.v` | `src/formats/**`, `src/lib.rs` (`convert`) |
| `MultiThread.v` | `src/multi_thread.rs` |
| `Copy.v` | `src/copy.rs` |
| `Resize.v` | `src/resize.rs` |

`Spec*.v` are the specifications (independent of the model files), `*Proofs.v` the lemmas, `Prop*.v` the property
theorems, each followed by `Print Assumptions` and an example that meets its hypotheses.

## 5. Axioms

Every theorem of the files `PropGeom.v`, `PropVector.v`, `PropVector16.v`, `PropConvert.v`, `PropFidelity.v`, `PropThreads.v`, `PropCopy.v`, `PropResize.v`, `PropStrides.v`, `PropWindow.v`, `PropLocal.v`, `PropLayout.v`, `PropTiles.v`, `PropCropExact.v`, `PropWindowExact.v`, `PropResizeExact.v`, `PropResizeWin.v`, `PropTilesLive.v`, `PropRepeat.v`, `PropVia.v` and `PropMirror.v`, and C71_refuted and C72_refuted of `PropDrift.v` and C73_gamut_refuted and C73_truncation_refuted of `PropReturn.v`, is
reported as "Closed under the global context".

`PropColor.v`, `PropFlat.v` (but for the closed C89_ictcp_refuted), `PropRound.v`, `PropExact.v`, `PropTransfer.v`, `PropMath.v`, `PropTransferAcc.v`, `PropRecolor.v`, `PropChroma.v`, `PropIctcp.v`, `PropBackends.v`, `PropBackends2.v`, `PropCodes.v`, `PropIctcpLevels.v`, `PropIctcpIn.v`, `PropIctcpOther.v`, `PropIctcpOtherYuv.v`, `PropIctcpApart.v`, `PropPqLevels.v`, `PropPqApart.v`, `PropThereBack.v`, `PropMono.v`, `PropDrift.v`, `PropReturn.v`, `PropBT2020.v`, `PropIctcpAcc.v`, `PropIctcpDec.v`, `PropIctcpPq.v`, `PropIctcpPqDec.v`, `PropIctcpRecolor.v`, `PropIctcpHlgRecolor.v`, `PropIctcpYuv.v`, `PropIctcpGray.v`, `PropGrayIctcp.v`, `PropGrayPq.v`, `PropDepth.v`, `PropDeep.v`, `PropReturnDeep.v`, `PropOut.v`, `PropToPQ.v`, `PropWide.v`, `PropFromPQ.v`, `PropPQ.v`, `PropHlg.v`, `PropAbove.v`, `PropPqYuv.v`, `PropGamut.v`, `PropNeutral.v`, `PropGray.v` (but for the closed C66_pq_linear_refuted, C66_pq_gray and C66_white_neutral_refuted) and C29_chroma, C29_ramp_full and the C28 theorems of `PropNominal.v` are about real numbers.  Their theorems depend on the axioms of the standard library's
reals and nothing else: `ClassicalDedekindReals.sig_not_dec`, `ClassicalDedekindReals.sig_forall_dec`,
`FunctionalExtensionality.functional_extensionality_dep`, `Classical_Prop.classic`.

The checker also lists seven axioms `Coq.ssr.ssrunder.Under_rel.*`.  They belong to a module of the standard library that
is loaded with ssreflect; no theorem depends on them.

## 6. Findings: properties that are false of the code

Each has a `_refuted` theorem with a concrete witness.

* C07: `Image::from_buffer` panics (instead of returning an error) for short buffers of multi-plane formats.
* C10, C11, C12: cropping 16-bit formats scales the y offset by the sample size; odd x offsets on NV12; the last rows.
* C15, C18: the reader of 4:4:4 planar images addresses the second row of U and V with the Y stride. Images that pass
  `bounds_check` with different strides make `convert` read out of bounds, panic, or use chroma from the wrong place.
* C19: 4:2:0 ICtCp chroma comes from the upper row of the block only.
* C20: 16-bit samples above the nominal maximum change in columns that are processed by truncating code.
* C23: YUV to YUV with the same sub-sampling is not lossless (always goes through RGB).
* C24: vector columns round, left-over columns truncate: the result depends on the column.
* C25: AVX2/AVX-512 stores do not saturate for large values.
* C27: NEON `select`-style comparison of negative values.
* C29: 8-bit grays lose a level where stores truncate (scalar, NEON, and the left-over columns of the others), full-range
  gray has chroma 127, and 10/12-bit limited-range white is 942/943 and 3773/3774 (the 8-bit offsets are scaled by 1023/255).
* C30, C31: the green weight of BT.2020 is 0.322 (it should be 0.678), so gray does not stay gray.
* C35, C36: the SDR transfer functions use 0.0993 and 0.099; encoding with sRGB and HLG steps down at the threshold between the branches;
  PQ does not map 0 to 0 or white to 1.
* C42: `convert_multi_thread` panics for empty images and where `convert` reports a bounds error.
* C43: `copy` also overwrites whole rows after the last row of the image, and panics for empty images with stride 0.
* C44: `copy` keeps 16-bit samples above the nominal maximum, `convert` changes them (see C20).
* C45: `resize` takes the number of rows from the length of the slice, drops the last pixel of YUYV images of odd width,
  silently leaves out missing planes, truncates sizes to 32 bits, and panics for stride 0 and for unaligned 16-bit planes.
* C52: 0^y is not 0 on the SIMD back ends (0^0.16 is 8e-7); negative bases give NaN on AVX but not on NEON.
* C53: the branches of the SDR curve do not meet: at the float 9692651 * 2^-29 the encoded value jumps by 2.5e-4.
* C54: YUV to RGB with a change of transfer function or primaries, gamma 2.2 or 2.8: on AVX2 and AVX-512 a pixel with one negative
  component is stored as black (the power of the negative component is NaN, the primaries matrix spreads it to all channels).
* C61: for the same reason the result depends on the CPU; NEON code keeps the two other channels.
* C62: sub-sampled chroma of ICtCp mixes columns that are half a group apart (pixel 8 into pixel 0 on AVX2).
* C64: converting RGB to YUV with a gamma 2.2 or 2.8 curve, a pixel with a light below 0 in the destination becomes NaN on AVX2 and AVX-512 and every sample that covers it is stored as 0. Pure blue is such a pixel even when the primaries do not change.
* C66: light of PQ is in cd/m2 (0 .. 10000), that of the other curves is relative to white (1.0), and `convert` does not scale between them. White becomes level 38 of PQ;
  grays of PQ from level 85 (15 cd/m2) on become white. On AVX2 and AVX-512 converting PQ to linear light stores 0 (black) for grays from level 137 on:
  `packus_epi32` saturates to 65535, which `packus_epi16` reads as -1 (src/vector/avx2.rs:288, 310, 336, 346, src/vector/avx512.rs:338, 353).
  NEON and scalar code turn linear-light white into (255, 254, 255) from BT.709 to BT.2020 primaries.
* C67: luma above nominal white (8-bit limited range, 237 and more) becomes a sample above 1023 or 4095 in 10 and 12 bit full range formats. So does the red chroma of BT.2020's red when it is recolored to BT.709 (`C67_gamut_refuted`), and white itself: SDR white as linear light is stored as 4097 with 12 bits, full range (`C67_white_refuted`).
* C68: neutral chroma 128 is 1/2 level off the middle of 8-bit full range (`convert` takes 0.5 of 255 = 127.5), so every gray of a full range picture gets a tint:
  (l, l-1, l) with truncation, (l+1, l, l+1) with rounding and BT.709. 10 and 12 bit limited range scales by 1023/255 and not by 4 or 16: nominal white is not white.
* C69: converting in tiles that are not a multiple of two vectors wide gives other samples than converting the image at once on AVX2 and AVX-512.
* C70: I420 to I420 is a copy, I420 to NV12 of the same color is not: luma 100 becomes 99 without AVX2.
* C71, C72: truncation makes pictures drift. Gray (200, 128, 128) in limited range BT.601 is (196, 108, 118) after 10 trips from I420 to NV12 and back; RGB (200, 100, 50) is (177, 94, 31) after 10 trips to BT.709 and back (scalar code, also in images narrower than two vectors).
* C74: AVX2 and AVX-512 load packed 16-bit pixels from wrong addresses, store RGBA pixels in the order 0, 1, 4, 5, 2, 3, 6, 7 and lose components of RGB pixels. Not reachable: no format has packed 16-bit samples.
* C75: the wrong weight of green (0.322) makes every BT.2020 image wrong: white is stored as (164, 175, 189) in full range 8-bit I420, comes back as (254, 73, 253), and a conversion of that I420 to NV12 without change of color gives (105, 206, 228).
* C78: light outside of the gamut of a YUV destination is not clipped before the channels are mixed: the green of BT.2020 (0, 255, 0) becomes black (0, 79, 0) in full range BT.709 with the sRGB curve, where the green of BT.709 has luma 182.
* C80: NEON chooses the branch of the sRGB and SDR curves by absolute values (`vcale_f32`, src/vector/neon.rs), so it decodes negative colors of YUV sources as powers of negative numbers and not linearly: a dark blue with a red of -0.77 gets red 54 where AVX2 and scalar code store 0.
* C81: YUV colors above 1 with the PQ curve. Converting (235, 150, 128) in limited range BT.709 to sRGB stores (255, 255, 255), but (235, 160, 128), which has more blue, becomes (255, 255, 0) on AVX2 and AVX-512, because the encoded blue times 255 is above 2^15 when it is packed to 16 bits. With (235, 255, 128) the denominator of the curve is negative and the pixel becomes black on AVX2 and yellow on NEON.
* C84: 8-bit samples do not survive 10 bit: (200, 128, 128) in I420 comes back from I010 as (199, 127, 127) without AVX2.
* C85: colors outside of the gamut of the picture in the middle: linear (0, 255, 0) in BT.2020 comes back from BT.709 as (83, 234, 22).
* C88: red above black has other 4:2:0 ICtCp chroma than black above red (C19); a flat gray picture of 18 columns gets different chroma at its two ends with AVX2 (C24).
* C89: with AVX2 the 4:2:0 ICtCp chroma of a black block holds the red of a pixel eight columns away; its 4:4:4 chroma is neutral.
* C73: gray 128 comes back from RGB as 127 without AVX2 (limited range BT.709).
* C56: the matrices of ST 240 are computed with a red primary of (0.63, 0.329); SMPTE ST 240 has (0.630, 0.340).
* C59: converting to a window of a 16-bit image that does not start in the first row changes other rows of the image.
