# Formal model of google/liblc3 in Rocq (Coq 8.16.1)

Scope: the default build (`LC3_PLUS = LC3_PLUS_HR = 1`), portable C paths.
All file and line references are to /repo at the pinned commit.
The English properties are in `properties.jsonl`, their status and theorem names in `MANIFEST.json`.

## 1. Trusted base

* Coq's kernel, with its `vm_compute` machine for the checks on complete finite tables.
* The hand translation of the C code to Gallina. Every definition of a `*Model.v` file cites the lines it
  models and says where it simplifies. The numeric tables are copied by the scripts of `tools/`
  (`gen_*.py`, not part of the build) into `Tables.v`, `ShapeTables.v`, `MdctTables.v`, `LtpfTables.v`.
* C semantics assumed by the translation: 8-bit bytes, 32-bit two's complement `int` and `unsigned`,
  `float` is IEEE-754 binary32 rounded to nearest even, arithmetic right shift of negative ints,
  wrap-around of narrowing conversions, little endian host (tools only).
* The project is compiled with `-ffast-math` (`src/makefile.mk` line 31, `meson.build` line 26), which lets the
  compiler reorder floating-point operations and ignore NaN. Theorems "in binary32" are about the strict
  evaluation in the order of the source. Theorems "for any float arithmetic" quantify over the operations
  (type `fops`, file `FloatOps.v`, no law assumed) and hold for each fixed choice of them.

### Axioms

No axiom is added. `Print Assumptions` follows every theorem in the `P_*.v` files:

* *Closed under the global context*: all theorems except those below.
* Axioms of the standard library's real numbers — `ClassicalDedekindReals.sig_not_dec`,
  `ClassicalDedekindReals.sig_forall_dec`, `FunctionalExtensionality.functional_extensionality_dep` —
  and (all but the C35 theorems) `Classical_Prop.classic`:
  the C35 theorems on exact arithmetic, C37_gains, C37_quantizer_limit, C37_estimate, C37_estimate_hr, C37_low_bits_refuted, C37_centroid, C37_regulation_bits, C41_no_filter, C42_inverse_reals, C42_stable,
  C42_quantization, C42_quantization_exact, C42_growth, C43_energy_sum, C43_energies_finite, C44_codable, C44_same_scale_factors,
  C44_inverse_reals, C44_uninitialised, C44_nearest_entries, C44_best_shape_gain, C44_decoded_gains, C44_inverse_f32, C45_spectrum, C45_spectrum_hr, C45_regulation,
  C46_store_range_refuted, the C47, C48 and C49 theorems, C51_dft, C51_forward_finite, C51_inverse_finite, C51_null,
  C51_bits_refuted, the C52 theorems.

`coqchk` on the compiled files also lists constants of loaded libraries on which no theorem depends
(`Coq.ssr.ssrunder.Under_rel.*` of the standard library's ssreflect).
Flocq and Coquelicot are used as libraries of definitions and proved lemmas; they contribute no axiom.

## 2. Conventions

* C integers are `Z`; wrap-around is written explicitly where the code relies on it,
  and signed overflow, a bad shift count or a bad conversion is a distinct outcome (`None`, or a sticky flag).
* Byte buffers and arrays are lists, a pointer is an offset. An access outside an array is a distinct outcome:
  `None` (`rd`, `wr`) or a sticky flag of the bit reader or writer.
* An undefined shift of the bit reader is recorded in a flag and the value produced is an arbitrary parameter,
  so that theorems hold for whatever the machine does.
* Memory left uninitialised by the code holds a parameter `junk`; independence from it is proved where it matters.
* `*Model.v` and the table files hold definitions only, `*Spec.v` the independent specifications,
  the other files lemmas, `P_*.v` the final theorems, each with an `Example` showing that its
  hypotheses are met, and `Print Assumptions`.
* A theorem named `_partial` proves less than the English claim (the comment and the MANIFEST note say what is
  missing). A theorem named `_refuted` exhibits an input for which a claim is false of the code.

## 3. What is modelled

| source | model | not modelled |
|--------|-------|--------------|
| `src/bits.c`, `bits.h` | `BitsModel.v`: byte-level reader and writer, arithmetic coder | – |
| `src/lc3.c` 30–240 (configuration, sizes), `lc3_private.h`, `common.h` | `ConfigModel.v` | – |
| `src/lc3.c` PCM load and store | `PcmModel.v`, on exact binary32 | big endian hosts |
| `src/lc3.c` encode, decode, lc3_encode, lc3_decode, complete | `FrameModel.v`, `DecoderModel.v`, `LtpfModel.v`; `SynthModel.v`: the whole decoder from bytes to samples, on its memory; `EncModel.v`: the whole encoder from samples to bytes, in binary32 | – |
| `src/attdet.c`, `src/ltpf.c` (analysis) | `FrontModel.v`: fixed-point parts exact, float parts on abstract operations | |
| `src/ltpf_arm.h`, `src/ltpf_neon.h` | `SimdModel.v`, `SimdTables.v`: the instructions as functions on integers, the pairs read at aligned places only | the intrinsics as defined by their documentation; the emulation for tests (`TEST_ARM`, `TEST_NEON`) |
| `src/ltpf.c` (synthesis), side data | `LtpfModel.v`, `SideModel.v` | – |
| `src/mdct.c` | `MdctModel.v`: any number type; exact arithmetic for the mathematical theorems (C35), binary32 for the error bounds (C52) | contraction of `a * b + c` by a compiler |
| `src/mdct_neon.h` | `MdctNeonModel.v`, `MdctNeonF32Model.v`: the vectors as tuples of lanes, any number type with fused operations; binary32 with one rounding | the intrinsics as defined by their documentation; the emulation for tests |
| `src/energy.c`, `src/bwdet.c` | `BandModel.v` | – |
| `src/sns.c` | `PvqModel.v`, `SideModel.v`, `SnsModel.v` | – |
| `src/tns.c` | `SideModel.v`, `TnsModel.v` | – |
| `src/spec.c` | `SideModel.v`, `SpecModel.v`, `ResidualModel.v`, `GainModel.v`, `BudgetModel.v`, `NoiseModel.v`, `SpecEncModel.v` | complete; in `GainModel.v` the energies are inputs, `SpecEncModel.v` computes them in binary32 |
| `src/plc.c` | `DecoderModel.v` | – |
| `src/fastmath.h` | `F32Model.v` (frexpf, exp2f, log2f), `PcmModel.v` (ldexpf), `GainModel.v` (db_q16) | log10f |
| `src/tables.c` | table files | – |
| `include/lc3_cpp.h`, `python/lc3.py` | `BlockModel.v`: frame split and PCM addressing | C++ and Python runtimes, memory management |
| `tools/*.c` | `BinModel.v`: headers, file positions, sample counts | option parsing, output messages |

Simplifications that recur, stated at each definition:
* the twiddle tables of the MDCT (`fft`, `rot`) are taken as the exact cosines and sines, the windows are those of the code
  (C35); the theorems on accesses use the tables of the code;
* in-place calls (`lc3_sns_analyze`, `lc3_mdct`…) are modelled with separate lists where each element is read before it is written;
* the NaNs of binary32 are one number, whose bit pattern is a parameter (`F32Model.v`);
* in `NoiseModel.v` and `ResidualModel.v` binary32 products have unbounded exponents, with the proof that the bounds are not reached.

## 4. Plan and method per property

| id | model | proof |
|----|-------|-------|
| C01–C04 | `ConfigModel` | case analysis and `lia` over all Z arguments |
| C05, C06 | `ConfigModel`, `DecoderModel`: buffer counts, region offsets, `complete` | finite configurations checked and lifted; induction over call sequences |
| C07, C32 | `DecoderModel`: encode and decode control flow, concealment | case analysis; induction over loss sequences |
| C08, C12, C13, C25 | reader | invariant preserved by every operation; parse functions by induction |
| C09 | writer | invariant preserved by every operation |
| C10, C11 | refinement of writer and reader to big-integer intervals | simulation, induction over the operations |
| C14 | tables | `vm_compute` on complete tables; entry costs by integer powers |
| C15–C18, C20 | side data | composition of the simulation lemmas |
| C19 | pulse enumeration | induction on the length with the recurrence of the offset table |
| C21–C23 | spectrum, LSB, residual | induction over the coefficients with the simulation relation |
| C24 | whole frame | composition of the layers |
| C26 | bit counting versus interval sizes | inequality on interval sizes; counterexample to the exact claim |
| C27–C30, C36 | LTPF and front end | index arithmetic, refinement of the ring to an unbounded stream, interval invariants |
| C31 | PCM conversions | exact dyadic arithmetic |
| C33, C34, C38, C39 | wrappers and tools | `lia`, induction over blocks and turns |
| C35 | MDCT | DFT factorisation by stages; TDAC |
| C37 | gain, from the energies, and from the coefficients in binary32 (`SpecEncModel.v`) | search invariants; reals for the quantizer limit and the levels of the blocks |
| C40, C41 | noise substitution, silence | induction over the coefficients; composition |
| C42 | TNS | lattice inverse in a ring; independence of junk; stability on reals; growth in binary32 |
| C43 | energies, bandwidth | loop invariants; finite configurations |
| C44 | SNS | binary32 error bounds (Flocq) for codability; same computation on both sides; real inverse; rounding errors of the gains and of the inverse in binary32 (`SnsGain.v`) |
| C45 | spectrum stage of the encoder, in binary32 (`SpecEncModel.v`) | error bounds (Flocq) on gains and scaled coefficients; composition with C26, C37, C40 |
| C46 | the whole decoder | simulation: the memory holds the state of a specification without memory (`SynthSpec.v`); composition with C25, C28, C35, C40, C42, C44 |
| C47 | the whole encoder (`EncModel.v`) | invariants over the calls; composition with C26, C36, C42, C43, C44, C45; magnitudes followed from the samples to the quantizer (`EncFinite.v`) |
| C48 | the fast functions in binary32 (`FastReal.v`, `FastFloat.v`, `FastExp.v`, `FastDb.v`) | series bounds and nodes of the logarithm on the reals, absolute error of each rounding, bits of the normal numbers |
| C49 | a null signal through the encoder and the decoder, in binary32 (`SilentRun.v`, `SilentDec.v`) | each stage keeps zeros (of any sign): transform, shaping, TNS without filter, quantization; the frames are those of C41; postfilter with bounded literals; invariants over the calls |
| C50 | the ARM and NEON kernels, and the analysis with the kernels as parameters (`SimdModel.v`) | sums of products modulo 2^32 and 2^64; the tables compared row by row; refinement of the portable analysis through all calls (`SimdProofs.v`, `SimdRun.v`) |
| C51 | the NEON kernels of the FFT, and the transforms with the kernels as parameters (`MdctNeonModel.v`) | the kernels write the rows of the butterflies, two at a time (`MdctNeonProofs.v`); equality with the portable kernels in any commutative ring; bounds by grades in binary32 with fused operations (`MdctNeonGrade.v`, `MdctNeonFloat.v`); bit for bit equality refuted |
| C52 | rounding of the transforms | forward error analysis in Euclidean norm: each stage of the FFT is an isometry up to a factor, errors of one operation are relative (`ErrF32.v`) or below 2^-149; the tables of the code are checked against roots of unity computed on integers with an error bound (`MdctRoots.v`, `MdctTabErr.v`); composition (`MdctErrTrans.v`, `MdctErrInv.v`, `MdctErrCode.v`); different rates: error of the factor and of the product (`MdctErrRate.v`); all of this for any FFT with bounded errors, instantiated with the portable one and with the NEON one (`MdctNeonErr.v`: fused operations round once) |

## 5. Findings (claims refuted, or undefined behaviour met on the way)

* C03: 2.5 ms frames, 5 to 8 channels: a bitrate of INT_MAX gives 1680 bytes and not 400 per channel.
* C11: bits left differ between writer and reader when less than 22 plain bits were coded (not reachable in a frame).
* C13: undefined shift by 32 of the bit reader, at the byte level and by the whole parser on a 20 bytes frame.
* C17: `sns.c` 881–884 reads two fields in one expression, the order of which C leaves to the compiler.
* C23: high resolution residual of a coefficient of magnitude 1/2 − 2^-25.
* C24: without coefficients and with TNS the decoder reads two coefficients that were not coded.
* C26: a 116 bytes frame counted in its budget overflows by one bit; a null budget means no limit.
* C28: the unchecked size of a lost frame overflows an int.
* C30: full scale square waves overflow the fixed-point resampler filter.
* C31: `lc3_ldexpf` on tiny values; conversion float to int before saturation.
* C32: counter of losses overflows after 2^31−1 losses in a row.
* C33: `lc3_cpp.h` Decode to `int32_t` uses the packed 24-bit format; Python floats shorter than a frame are not padded.
* C34: a count of 2^31 samples or more in the header makes a shift undefined.
* C37: `int v` of `estimate_gain` overflows in high resolution; with the energy in the first coefficient alone, the
  conversion `int m = roundf(...)` of the high resolution modes (`spec.c` line 117) is out of range.
* C38: WAVE files with an 18 bytes format chunk are rejected (sign of a displacement, `wave.c` line 115).
* C39: very short streams give too many samples.
* C46: an accepted frame of 20 bytes has a sample over 2^31, the conversion to int by `store_s16` is undefined.
* Pedantic undefined behaviour, met and proved harmless: `mdct_post_fft` forms the pointers x−1 and w−1 after its last
  iteration; `lpc_weighting` (`tns.c` 202–203) reads and writes uninitialised a[5..8] for filters of order 4 (the result
  does not depend on them); `lc3_exp2f` shifts a value left out of the range of a signed int on each call.
* Comment of `lc3_log2f`: the error is about 1.6e-4 at powers of two, not 1e-4.
* `src/ltpf_neon.h`, `neon_dot` and `neon_correlate` add two products of 16-bit samples in a 32-bit lane: with samples
  at −32768 the lane wraps, and the energy of 16 such samples comes out as −2^28 instead of 2^28
  (C50_neon_refuted). The portable code has no overflow there. The resampled signal stays away from −32768 up to the
  amplitude of C30, where the NEON code is exact (C50_neon_partial).
* `src/mdct_neon.h`: the fused operations round once, so the coefficients on AArch64 are not the portable ones bit for
  bit (C51_bits_refuted); in exact arithmetic they are (C51_forward, C51_inverse). `neon_fft_5` works on two transforms
  at a time and gets out of its buffers on an odd count; no configuration of the codec has one (C51_forward_accesses).
* Pedantic: `src/ltpf_arm.h` line 476 shifts a negative integer to the left; modelled as the multiplication it compiles to.

## 6. Testing the theorems

`seeded/LOG.jsonl`: one line per deliberate bug put in a scratch copy of the model, with the theorems that failed
and, when none did, what was tightened.

The models of the encoder and of the decoder were also run one after the other (`EncExample.v`, and longer runs outside
the tree): with frames of 40 bytes at 8 kHz the samples come back to 2 units of 16 bits, one frame later. Such a run
showed a mistake no theorem had caught, energies in dB not squared as `lc3_db_q16` does.
