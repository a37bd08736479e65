{"claims": [
 {"property": "C01", "status": "proved", "theorems": ["C01_frame_samples"], "note": "all Z arguments, C int overflow is a distinct outcome"},
 {"property": "C02", "status": "proved", "theorems": ["C02_bytes_bitrate_bytes", "C02_bitrate_bytes_bitrate"], "note": ""},
 {"property": "C03", "status": "partial", "theorems": ["C03_block_bytes_partial", "C03_block_bytes_bounds", "C03_block_bytes_monotone", "C03_block_bytes_error", "C03_resolve_bitrate", "C03_block_bytes_max_refuted"], "note": "Finding: with 2.5 ms frames and 5 to 8 channels INT_MAX does not give the maximum size (1680 bytes instead of 400 per channel), refuted by witness; everything else proved"},
 {"property": "C04", "status": "proved", "theorems": ["C04_delay"], "note": ""},
 {"property": "C05", "status": "proved", "theorems": ["C05_encoder_memory", "C05_C06_decoder_memory", "C05_setup_null"], "note": ""},
 {"property": "C06", "status": "proved", "theorems": ["C05_C06_decoder_memory"], "note": ""},
 {"property": "C07", "status": "proved", "theorems": ["C07_encode", "C07_decode", "C07_encoded_frame"], "note": "Handles of any reachable state; the signal analysis is a parameter of lc3_encode and the spectral shaping a parameter of lc3_decode (they do not decide the return value)."},
 {"property": "C08", "status": "proved", "theorems": ["C08_C12_reader_in_frame"], "note": "all byte strings, all read sequences, all well-formed models"},
 {"property": "C09", "status": "proved", "theorems": ["C09_writer_in_frame", "C09_frame_in_buffer"], "note": "any sequence of writes; and the whole frame writer, overflowing or not"},
 {"property": "C10", "status": "proved", "theorems": ["C10_entropy_round_trip"], "note": ""},
 {"property": "C11", "status": "partial", "theorems": ["C11_bits_left_partial", "C11_bits_left_refuted"], "note": "equality needs 22 plain bits before the point (always true after the side information); refuted without"},
 {"property": "C12", "status": "proved", "theorems": ["C08_C12_reader_in_frame", "C14_models_partition"], "note": "well-formedness of the codec's models is C14"},
 {"property": "C13", "status": "partial", "theorems": ["C13_no_undefined_shift_partial", "C13_shift_past_end_refuted", "C13_shift_32_bits_refuted", "C13_frame_refuted"], "note": "proved while the plain bits requested lie in the frame; findings: shift by 32 (undefined) once bits are read one by one past the frame, for a read of 32 bits, and by the whole frame parser on a given 20 bytes frame"},
 {"property": "C14", "status": "proved", "theorems": ["C14_models_partition", "C14_symbols_nonempty", "C14_costs"], "note": ""},
 {"property": "C15", "status": "proved", "theorems": ["C15_bandwidth_round_trip", "C15_bandwidth_validated"], "note": ""},
 {"property": "C16", "status": "proved", "theorems": ["C16_ltpf_round_trip", "C16_ltpf_validated"], "note": ""},
 {"property": "C17", "status": "partial", "theorems": ["C17_sns_round_trip_partial", "C17_evaluation_order_refuted"], "note": "Proved for the evaluation order in which the two codebook indexes are read in the order written; sns.c 881-884 leaves the order to the compiler, and the round trip is refuted for the other one."},
 {"property": "C18", "status": "proved", "theorems": ["C18_sns_validated"], "note": ""},
 {"property": "C19", "status": "proved", "theorems": ["C19_enumerate_round_trip", "C19_deenumerate_round_trip"], "note": ""},
 {"property": "C20", "status": "proved", "theorems": ["C20_tns_round_trip", "C20_tns_validated"], "note": ""},
 {"property": "C21", "status": "proved", "theorems": ["C21_side_round_trip", "C21_spectrum_round_trip", "C21_spectrum_exact"], "note": "Pairs, escapes, signs, context state, noise seed and remaining bits, in both LSB modes, anywhere in a frame; side data of the spectrum separately."},
 {"property": "C22", "status": "proved", "theorems": ["C22_lsb_round_trip", "C22_restore_complete", "C22_restore_each"], "note": "For any number of bits; restored coefficients, seed and bits consumed."},
 {"property": "C23", "status": "proved", "theorems": ["C23_residual", "C23_residual_hr", "C23_residual_hr_exact", "C23_residual_hr_refuted"], "note": "Binary32 rounding modelled on integers. Normal mode: attribution and accuracy in single precision. High resolution: attribution in single precision for all coefficients except magnitude 1/2-2^-25, for which the claim is refuted (finding); accuracy in exact arithmetic (the rounding errors of up to 20 float additions are not bounded)."},
 {"property": "C24", "status": "partial", "theorems": ["C24_frame_round_trip_partial", "C24_empty_spectrum", "C24_empty_spectrum_refuted"], "note": "The composed frame with at least one pair of coefficients: acceptance, all side data, spectrum up to quantization and the bits left, in normal, LSB and high resolution modes. Without any coefficient (nq = 0) and without TNS filters: the frame always fits and two null coefficients are decoded. Missing: the evaluation order of sns.c 881 (C17); nq = 0 with TNS is refuted by witness (the decoder reads 2 coefficients that were never coded)."},
 {"property": "C25", "status": "proved", "theorems": ["C25_decode_any_bytes", "C25_side_validated"], "note": "Parsing of any bytes: accesses to the frame and to the tables are recorded by the model; accepted values are in range and the spectrum fits in the coefficients of the configuration."},
 {"property": "C26", "status": "partial", "theorems": ["C26_budget_partial", "C26_truncation", "C26_no_needless_truncation", "C26_counts_bounded", "C26_budget_refuted", "C26_zero_budget_refuted"], "note": "compute_nbits (truncation, LSB mode) modelled. Proved: the truncated spectrum is counted in the budget, no coefficient is dropped without need, and the bits really left by the arithmetic coder are the spare bits less 46/2048 of a bit per symbol at least, so that the frame is accepted when this does not exceed the spare bits. Refuted in general: C26_budget_refuted is a 116 bytes frame counted in the budget that overflows by one bit and is rejected by the decoder; a budget of zero is taken as no limit (C26_zero_budget_refuted)."},
 {"property": "C27", "status": "proved", "theorems": ["C27_round_trip", "C27_all_indexes", "C27_lag_in_history", "C27_found_pitch"], "note": "Round trip for the results of the encoder's search (C27_found_pitch, over all runs), all indexes, lag inside the history."},
 {"property": "C28", "status": "proved", "theorems": ["C28_postfilter", "C28_footprint", "C28_lost_frame_size_refuted"], "note": "Refinement of the ring-buffer postfilter to an unbounded stream, for any float operations; C28_lost_frame_size_refuted: the unchecked size of a lost frame overflows."},
 {"property": "C29", "status": "proved", "theorems": ["C29_in_arrays"], "note": "Every signal, history and float semantics (abstract operations); checked array accesses."},
 {"property": "C30", "status": "partial", "theorems": ["C30_attack_detector", "C30_no_overflow_partial", "C30_full_scale_refuted"], "note": "Attack detector exact for every signal. Whole front end without overflow up to amplitude 15600 (23000 at 8 kHz); false at full scale, refuted by a square wave."},
 {"property": "C31", "status": "proved", "theorems": ["C31_s16_round_trip", "C31_s24_round_trip", "C31_s24_3le_load", "C31_s24_3le_store", "C31_s24_3le_round_trip", "C31_float_round_trip", "C31_store_s16_nearest", "C31_store_s24_nearest", "C31_store_float", "C31_store_float_tiny_refuted", "C31_store_large_refuted", "C31_channel_access"], "note": "16-bit, 24-bit, packed 24-bit and (exactly representable) float round trips over single precision semantics; storing is rounding to nearest then saturation; strided access touches the selected channel only. Findings: lc3_ldexpf underflow on tiny values (C31_store_float_tiny_refuted) and float to int conversion before saturation (C31_store_large_refuted)."},
 {"property": "C32", "status": "proved", "theorems": ["C32_calls", "C32_bounded", "C32_first_losses", "C32_counter_refuted"], "note": "Any sequence of calls shorter than 2^31-1 from the setup; the spectral shaping of a good frame is a parameter; gains computed with exact single precision semantics, the limit is 3*2^-149 and not 0. Finding: the loss counter overflows after 2^31-1 losses in a row (C32_counter_refuted)."},
 {"property": "C33", "status": "partial", "theorems": ["C33_split", "C33_cpp_split", "C33_round_trip", "C33_cpp_pcm_partial", "C33_decode_int32_refuted", "C33_python_pcm", "C33_python_float_partial", "C33_python_float_refuted"], "note": "All block sizes and channel counts. Refuted parts: C++ Decode to int32_t uses the packed 24 bits format on 4 bytes elements (samples of two channels overlap); Python encode of less than a frame of floats is not padded."},
 {"property": "C34", "status": "proved", "theorems": ["C34_header", "C34_blocks", "C34_block_accepted", "C34_block_in_buffer", "C34_header_refuted"], "note": "Header, whole list of blocks, blocks of every accepted configuration, any file read inside of the buffer. Little endian host. A count of 2^31 samples or more, not possible in the writer, makes the shift of the reader undefined."},
 {"property": "C35", "status": "proved", "theorems": ["C35_forward_accesses", "C35_inverse_accesses", "C35_fft", "C35_forward", "C35_inverse", "C35_windows", "C35_stream"], "note": "Exact arithmetic with exact twiddles; the windows are those of src/tables.c. Accesses proved for any number type with the tables of the code. Rounding of the floats, and accuracy of the twiddle tables, are not part of the claim."},
 {"property": "C36", "status": "proved", "theorems": ["C36_seamless_resampling"], "note": "Under the amplitude limit of C30."},
 {"property": "C37", "status": "partial", "theorems": ["C37_gain_index_partial", "C37_least_gain", "C37_no_overflow", "C37_overflow_refuted", "C37_energies", "C37_significants", "C37_gains", "C37_quantizer_limit", "C37_estimate", "C37_estimate_hr", "C37_low_bits_refuted", "C37_centroid", "C37_regulation_bits"], "note": "Coefficients in binary32 (levels of the blocks to 0.0015 dB, least gain of the cost, limit of the quantizer): C37_estimate for the standard rates, with no undefined behaviour, and C37_estimate_hr for the high resolution modes, with the noise floor and the exact conditions where it is undefined; C37_centroid and C37_regulation_bits give the two exponents of that floor from the spectrum and the bit rate. Partial because the claim is refuted for the high resolution modes: overflow of the costs (C37_overflow_refuted), conversion to int out of range (C37_low_bits_refuted)."},
 {"property": "C38", "status": "partial", "theorems": ["C38_wave", "C38_wave_round_trip", "C38_wave_refuted"], "note": "Format chunks of 16 and 40 bytes, any chunks before the data. Refuted for the format chunk of 18 bytes: the displacement of wave.c line 115 has the wrong sign."},
 {"property": "C39", "status": "partial", "theorems": ["C39_turns", "C39_written_partial", "C39_written_refuted"], "note": "Refuted for streams where samples + delay is less than a frame: too many samples are written."},
 {"property": "C40", "status": "partial", "theorems": ["C40_level", "C40_spectrum", "C40_same_holes_partial"], "note": "Any bytes: proved. Same holes on both sides: under the hypotheses of the frame round trip (C24: one coded pair at least, evaluation order of sns.c line 881), equality unless bits are missing for the least significant bits (inclusion then). The binary32 products are modelled with unbounded exponents, and proved below 2^60."},
 {"property": "C41", "status": "proved", "theorems": ["C41_silence", "C41_no_filter"], "note": "Null spectrum: no TNS filter, analysis defined, frame accepted, null spectrum decoded, for all side data."},
 {"property": "C42", "status": "proved", "theorems": ["C42_analysis", "C42_near_nyquist", "C42_silence", "C42_null_part", "C42_synthesis", "C42_inverse", "C42_inverse_reals", "C42_stable", "C42_quantization", "C42_quantization_exact", "C42_growth"], "note": "Analysis, accesses, codability and independence of uninitialised memory for any float arithmetic; null spectra and null parts in binary32 (SpecFloat); growth of the filtered spectrum in binary32; inverse in any commutative ring; stability and quantization on the reals."},
 {"property": "C43", "status": "proved", "theorems": ["C43_bands", "C43_energies", "C43_bandwidth_codable", "C43_regions", "C43_narrow", "C43_full", "C43_energy_sum", "C43_energies_finite"], "note": "Model in BandModel.v, abstract floats; the energies are also finite and not negative in binary32; the sum of the energies and the flag are on exact reals (stdlib real axioms)."},
 {"property": "C44", "status": "proved", "theorems": ["C44_codable", "C44_same_scale_factors", "C44_decoder_total", "C44_shaping", "C44_inverse_reals", "C44_uninitialised", "C44_nearest_entries", "C44_best_shape_gain", "C44_decoded_gains", "C44_inverse_f32"], "note": "Spectral noise shaping, whole module. C44_codable and C44_same_scale_factors are for IEEE binary32 (Flocq), strict evaluation in source order, every energies including NaN and infinities. The shape search is greedy in the code: the best is among its four candidate vectors. C44_decoded_gains and C44_inverse_f32 bound the rounding errors in binary32: the decoder's shaping undoes the encoder's within |v|/10^6 + 2^-77, for spectra up to 2^50."},
 {"property": "C45", "status": "proved", "theorems": ["C45_spectrum", "C45_spectrum_hr", "C45_regulation"], "note": "Binary32 model of lc3_spec_analyze. In high resolution (C45_spectrum_hr) it is defined exactly when the estimation of the gain is, whose two failures are given by C37_estimate_hr and refuted by witness in C37. C45_regulation gives the state of the rate regulation for the next frame."},
 {"property": "C46", "status": "proved", "theorems": ["C46_decoder", "C46_uninitialised", "C46_store_range_refuted"], "note": "Whole decoder on its memory, any floats. The store functions are in C31; C46_store_range_refuted: an accepted frame can give samples out of the range of their conversion to int."},
 {"property": "C47", "status": "partial", "theorems": ["C47_analysis", "C47_no_overflow_partial", "C47_frames_partial", "C47_accepted_partial", "C47_frames_hr_partial", "C47_accepted_hr_partial", "C47_postfilter", "C47_finite"], "note": "analysis total and codable for all configurations and calls; the coefficients to quantize finite for all samples up to twice the full scale; postfilter off when bypassed or near the Nyquist frequency, as the analysis decided otherwise; frames and acceptance for spectra in the reach of the quantizer and room for the arithmetic coder, high resolution included (there the only undefined behaviour is the one of the gain estimation, see C37). Missing: that every signal stays in that reach, overflow freedom of the fixed-point pitch part above safe_amplitude (refuted by C30)"},
 {"property": "C48", "status": "proved", "theorems": ["C48_frexp", "C48_log2", "C48_log2_comment_refuted", "C48_exp2", "C48_exp2_opposite", "C48_db", "C48_energy"], "note": "For each function of fastmath.h used by the codec; the comment on the error of lc3_log2f is refuted. lc3_log10f is not used by the modelled code."},
 {"property": "C49", "status": "proved", "theorems": ["C49_null_signal"], "note": "Whole encoder and whole decoder in binary32; the literals of the resampler/postfilter tables (arbitrary in the model) are assumed to be finite and at most 1 in magnitude for inputs up to 10^18, which the division of the example meets."},
 {"property": "C50", "status": "partial", "theorems": ["C50_arm", "C50_neon_partial", "C50_neon_dot", "C50_neon_refuted"], "note": "SIMD of 32 bits: every signal and history. NEON: up to the amplitude of C30; beyond, refuted for the kernels (lanes of 32 bits wrap at -32768). Alignment and bounds of the vector reads included."},
 {"property": "C51", "status": "proved", "theorems": ["C51_forward_accesses", "C51_inverse_accesses", "C51_forward", "C51_inverse", "C51_dft", "C51_forward_finite", "C51_inverse_finite", "C51_null", "C51_bits_refuted"], "note": "Accesses: any arithmetic. Portable results: any commutative ring, tables of the code; DFT on the reals with the exact tables. binary32: finite bounded values and null signals; equality bit for bit is refuted (fused operations)."},
 {"property": "C52", "status": "proved", "theorems": ["C52_forward_error", "C52_inverse_error", "C52_forward_rates", "C52_inverse_rates", "C52_stream", "C52_pcm_size", "C52_rotations", "C52_twiddles", "C52_neon_forward", "C52_neon_inverse", "C52_neon_stream", "C52_builds_forward", "C52_builds_inverse"], "note": "Every configuration, finite inputs of norm up to 2^60 (C52_pcm_size: any PCM signal is below 2^38). C52_forward_rates and C52_inverse_rates: PCM at a rate above the one of the stream, with the factor of the lengths of the frames; the two _error theorems are the case of a same rate. Bound in Euclidean norm over the frame. C52_stream: any number of frames at a same rate, from the initial states, without quantisation in between. Portable kernels, each operation rounded to nearest (no contraction). C52_neon_*: the same bounds for the NEON kernels with their fused operations; C52_builds_*: the two builds give the same transforms up to 2^-15 of the signal (not the same bits, C51_bits_refuted)."}
]}
