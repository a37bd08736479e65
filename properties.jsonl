{"id": "C01", "title": "Frame sample count", "statement": "lc3_hr_frame_samples(hrmode, dt_us, sr_hz) equals dt_us*sr_hz/1000000 exactly when the duration and sample rate are a supported combination (2.5/5/10 ms always, 7.5 ms only without hrmode; 8/16/24/32/48 kHz without hrmode, 48/96 kHz with it) and is -1 otherwise.", "quantifier": "every hrmode flag and every pair of C int arguments", "why_tests_cant": "the argument space is 2^65 values", "anchors": ["src/lc3.c:lc3_hr_frame_samples", "src/lc3.c:resolve_dt", "src/lc3.c:resolve_srate", "src/tables.h:lc3_ns"]}
{"id": "C02", "title": "Bitrate and frame size are mutually inverse", "statement": "For every supported configuration and every frame size between the minimum and maximum the API accepts, converting the size to a bitrate and back with lc3_hr_frame_bytes gives the same size; in the other direction the bitrate obtained from the size computed for a bitrate never exceeds that bitrate unless the minimum size was enforced.", "quantifier": "all configurations, all frame sizes, all bitrates (C int)", "why_tests_cant": "the domain is all 32-bit bitrates times all sizes", "anchors": ["src/lc3.c:lc3_hr_resolve_bitrate", "src/lc3.c:lc3_hr_frame_block_bytes"]}
{"id": "C03", "title": "Frame size is bounded, monotone and overflow free", "statement": "lc3_hr_frame_block_bytes returns -1 exactly on invalid arguments, otherwise a size inside nchannels*[min,max], monotone in the bitrate, minimum for bitrate 0 and maximum for INT_MAX, and no intermediate C int computation overflows; lc3_hr_resolve_bitrate never overflows either.", "quantifier": "all C int arguments", "why_tests_cant": "overflow and monotonicity must hold for each of 2^32 bitrates", "anchors": ["src/lc3.c:lc3_hr_frame_block_bytes", "src/tables.h:lc3_min_frame_bytes", "src/tables.h:lc3_max_frame_bytes"]}
{"id": "C04", "title": "Algorithmic delay", "statement": "lc3_hr_delay_samples is 2.5 ms worth of samples (4 ms for 7.5 ms frames) for every supported configuration and -1 otherwise.", "quantifier": "every hrmode flag and every pair of C int arguments", "why_tests_cant": "exhaustive over 2^65 argument values", "anchors": ["src/lc3.c:lc3_hr_delay_samples", "src/tables.h:lc3_nd"]}
{"id": "C05", "title": "Encoder and decoder memory is large enough", "statement": "For every supported configuration the memory size announced by lc3_hr_encoder_size / lc3_hr_decoder_size (and the static memory types of the header) contains every region the codec later addresses: the time, spectrum, overlap, history and gain regions lie inside it and do not overlap where they must be distinct.", "quantifier": "all supported configurations, including resampled PCM, and every point of any decode history", "why_tests_cant": "a wrong region shows up only as silent memory corruption", "anchors": ["src/lc3.c:lc3_hr_setup_encoder", "src/lc3.c:lc3_hr_setup_decoder", "include/lc3_private.h:LC3_ENCODER_BUFFER_COUNT", "include/lc3_private.h:LC3_DECODER_BUFFER_COUNT"]}
{"id": "C06", "title": "Decoder history ring never escapes its buffer", "statement": "After any sequence of lc3_decode calls (good, corrupted or missing frames) on a configured decoder, the current output window lies inside the history area and the next window is the one that follows it cyclically.", "quantifier": "every configuration and every finite call sequence", "why_tests_cant": "an invariant over unbounded histories", "anchors": ["src/lc3.c:complete", "src/lc3.c:lc3_decode"]}
{"id": "C07", "title": "Return codes of encode and decode", "statement": "lc3_encode returns -1 exactly when the handle is NULL or the size is outside the accepted interval, else 0; lc3_decode returns -1 exactly when the handle is NULL or a frame is given with a size outside its interval, 1 exactly when concealment was performed (no frame given, or an undecodable one), else 0; a call that returns -1 changes neither state nor output.", "quantifier": "all states, sizes and frame contents", "why_tests_cant": "quantifies over all bitstreams", "anchors": ["src/lc3.c:lc3_encode", "src/lc3.c:lc3_decode", "src/lc3.c:decode"]}
{"id": "C08", "title": "Bitstream reading stays inside the frame", "statement": "Whatever bytes a frame contains and whatever its length, parsing it reads only bytes of that frame.", "quantifier": "all byte strings, all lengths, all sequences of read operations", "why_tests_cant": "corrupted input space is unbounded; a single out-of-range read needs one specific history", "anchors": ["src/bits.c:ac_get", "src/bits.c:accu_load", "src/bits.c:lc3_get_bits_generic"]}
{"id": "C09", "title": "Bitstream writing stays inside the frame", "statement": "Whatever data the encoder emits, even beyond the capacity of the frame, only bytes of the output frame are written.", "quantifier": "all output sizes, all sequences of write operations", "why_tests_cant": "overflow situations depend on the signal and bit budget", "anchors": ["src/bits.c:accu_flush", "src/bits.c:ac_put", "src/bits.c:ac_terminate", "src/bits.c:lc3_flush_bits"]}
{"id": "C10", "title": "Entropy coder round trip", "statement": "If the bitstream writer reports no overflow, then reading the finished frame with the same interleaving of arithmetic-coded symbols and raw bits returns exactly the symbols and bits that were written, whatever the probability models.", "quantifier": "all models, all interleaved symbol/bit sequences of any length, all frame sizes", "why_tests_cant": "carry propagation and byte-stuffing corner cases are exponentially rare under random testing", "anchors": ["src/bits.h:lc3_put_symbol", "src/bits.h:lc3_get_symbol", "src/bits.c:lc3_flush_bits", "src/bits.c:ac_terminate"]}
{"id": "C11", "title": "Writer and reader agree on the number of bits left", "statement": "At every corresponding point of the write and read sequences the reader computes the same number of remaining bits as the writer did, so that the variable-length tail (residual or LSB bits) is interpreted identically.", "quantifier": "all sequences and frame sizes for which the writer did not overflow", "why_tests_cant": "a single-bit accounting difference desynchronises only particular frames", "anchors": ["src/bits.c:get_bits_left", "src/bits.c:lc3_get_bits_left"]}
{"id": "C12", "title": "Parsing terminates on every input", "statement": "Arithmetic decoding of any byte string terminates: every decoded symbol has a non-zero probability interval, so renormalisation always ends, and the coder range stays in its legal interval.", "quantifier": "all byte strings, all models of the codec", "why_tests_cant": "a non-terminating state would need one specific corrupted frame", "anchors": ["src/bits.h:lc3_get_symbol", "src/bits.c:lc3_ac_read_renorm", "src/tables.c:lc3_tns_order_models"]}
{"id": "C13", "title": "No undefined shift while parsing", "statement": "While a frame is parsed no C shift is executed with a count equal to or above the operand width.", "quantifier": "all byte strings and read sequences", "why_tests_cant": "depends on the exact bit at which a frame is exhausted", "anchors": ["src/bits.c:accu_load", "src/bits.h:lc3_get_bits"]}
{"id": "C14", "title": "Probability tables are well formed", "statement": "Every arithmetic-coding model used by the codec partitions [0,1024) into 17 consecutive intervals, symbols the encoder may emit have a non-empty interval, and each bit-cost table entry is the cost of the corresponding interval in 1/2048 bit.", "quantifier": "all models, all symbols", "why_tests_cant": "a table entry is exercised only by particular signals", "anchors": ["src/tables.c:lc3_spectrum_models", "src/tables.c:lc3_spectrum_bits", "src/tables.c:lc3_tns_coeffs_models", "src/tables.c:lc3_tns_order_models"]}
{"id": "C15", "title": "Bandwidth side data round trip", "statement": "Every bandwidth allowed for the sample rate survives writing and reading; a coded bandwidth above the sample rate's is rejected and never used.", "quantifier": "all sample rates, bandwidths and coded values", "why_tests_cant": "must hold for arbitrary corrupted codes", "anchors": ["src/bwdet.c:lc3_bwdet_put_bw", "src/bwdet.c:lc3_bwdet_get_bw"]}
{"id": "C16", "title": "Long-term-postfilter side data round trip", "statement": "The activation flag and every 9-bit pitch index survive writing and reading.", "quantifier": "all flag and index values, any stream position", "why_tests_cant": "any position in any stream", "anchors": ["src/ltpf.c:lc3_ltpf_put_data", "src/ltpf.c:lc3_ltpf_get_data"]}
{"id": "C17", "title": "Noise-shaping side data round trip", "statement": "Every scale-factor index set the encoder can select (codebooks, shape, gain, vector indexes and signs) survives writing and reading.", "quantifier": "all shapes, gains and indexes in range", "why_tests_cant": "about 2^38 combinations", "anchors": ["src/sns.c:lc3_sns_put_data", "src/sns.c:lc3_sns_get_data"]}
{"id": "C18", "title": "Noise-shaping side data is validated", "statement": "Whatever 38 bits a frame contains, the decoder either rejects them or obtains codebook, shape, gain and vector indexes inside their tables.", "quantifier": "all bit patterns", "why_tests_cant": "2^38 bit patterns, out-of-range ones must be caught before table access", "anchors": ["src/sns.c:lc3_sns_get_data", "src/tables.c:lc3_sns_vq_gains"]}
{"id": "C19", "title": "Pulse vector enumeration is a bijection", "statement": "Enumerating a pulse vector and de-enumerating the index gives the vector back; the index is below the number the format reserves; and every index below that number de-enumerates, inside the table, to a vector with exactly the required number of pulses.", "quantifier": "all integer pulse vectors of the four shapes; all indexes", "why_tests_cant": "15 million vectors per shape, and any index can arrive from the channel", "anchors": ["src/sns.c:enum_mvpq", "src/sns.c:deenum_mvpq", "src/tables.c:lc3_sns_mpvq_offsets"]}
{"id": "C20", "title": "Temporal-noise-shaping side data round trip and validation", "statement": "Every filter order and quantised coefficient set the encoder can produce survives writing and reading; whatever bytes are read, the decoder rejects or obtains orders at most 8 (4 for short frames) and coefficients in -8..8.", "quantifier": "all orders, coefficients, and byte strings", "why_tests_cant": "needs all symbol sequences and all corrupted streams", "anchors": ["src/tns.c:lc3_tns_put_data", "src/tns.c:lc3_tns_get_data"]}
{"id": "C21", "title": "Spectrum coding round trip", "statement": "Every quantised spectrum (pairs of integers with magnitudes in the codable range) survives coding and decoding, in both LSB modes, with the decoder recomputing the same context state, the same noise seed and the same count of remaining bits.", "quantifier": "all spectra, lengths, rates and frame sizes without overflow", "why_tests_cant": "context adaptation makes each coefficient depend on all earlier ones", "anchors": ["src/spec.c:put_quantized", "src/spec.c:get_quantized"]}
{"id": "C22", "title": "LSB refinement round trip", "statement": "In LSB mode the least significant bits and missing signs are restored for as many coefficients as the remaining bits allow, encoder and decoder consuming the same number of bits.", "quantifier": "all spectra and all numbers of remaining bits", "why_tests_cant": "cut-off may occur between any two bits", "anchors": ["src/spec.c:put_lsb", "src/spec.c:get_lsb"]}
{"id": "C23", "title": "Residual refinement synchronisation", "statement": "In residual mode the decoder refines exactly the coefficients the encoder emitted refinement bits for, in the same order, in normal and high-resolution mode, and each refinement bit at least halves the worst-case distance to the original coefficient.", "quantifier": "all real-valued spectra and all numbers of remaining bits", "why_tests_cant": "real-valued inputs", "anchors": ["src/spec.c:put_residual", "src/spec.c:get_residual"]}
{"id": "C24", "title": "Whole frame round trip", "statement": "For every configuration, every valid set of side data and every quantised spectrum, if the writer reports no overflow the decoder accepts the frame and recovers all side data and the spectrum.", "quantifier": "all configurations, side data, spectra, frame sizes", "why_tests_cant": "composition of all stream layers over unbounded data", "anchors": ["src/lc3.c:encode", "src/lc3.c:decode"]}
{"id": "C25", "title": "Decoding arbitrary bytes is safe", "statement": "For every configuration and every byte string of an accepted length, parsing terminates and every table and spectrum array access is inside its bounds.", "quantifier": "all byte strings", "why_tests_cant": "the frame comes from the radio channel", "anchors": ["src/lc3.c:decode", "src/spec.c:lc3_spec_decode", "src/spec.c:get_quantized"]}
{"id": "C26", "title": "Spectrum bit budget is respected", "statement": "The bit count the encoder computes for a spectrum is an upper bound for the bits its arithmetic coder really consumes, so that a spectrum truncated to the budget always fits in the frame.", "quantifier": "all quantised spectra, all budgets", "why_tests_cant": "accumulated rounding over hundreds of symbols", "anchors": ["src/spec.c:compute_nbits", "src/spec.c:lc3_spec_analyze", "src/bits.c:ac_get_pending_bits"]}
{"id": "C27", "title": "Pitch index coding is consistent", "statement": "The pitch lag and fraction found by the encoder are recovered exactly by the decoder from the transmitted 9-bit index, and every one of the 512 indexes maps to a lag the decoder's history covers at every output rate and frame duration.", "quantifier": "all lags/fractions, all 512 indexes, all configurations", "why_tests_cant": "cross product of indexes, rates and durations", "anchors": ["src/ltpf.c:refine_pitch", "src/ltpf.c:lc3_ltpf_analyse", "src/ltpf.c:lc3_ltpf_synthesize"]}
{"id": "C28", "title": "Postfilter history reads stay in the history", "statement": "Every sample read by the long-term postfilter lies inside the decoder history area, for every pitch index, call history and window position (ring wrap-around included).", "quantifier": "all pitch indexes, windows, configurations", "why_tests_cant": "wrap-around with extreme pitch is rare", "anchors": ["src/ltpf.c:lc3_ltpf_synthesize", "src/ltpf.c:synthesize_template"]}
{"id": "C29", "title": "Encoder pitch analysis stays in its buffers", "statement": "Every access of the encoder's pitch analysis (resampling, decimation, correlation, interpolation) lies inside its arrays for all signals and histories.", "quantifier": "all signals and call histories", "why_tests_cant": "index range depends on the detected pitch of previous frames", "anchors": ["src/ltpf.c:lc3_ltpf_analyse", "src/ltpf.c:detect_pitch", "src/ltpf.c:refine_pitch"]}
{"id": "C30", "title": "Fixed-point front end does not overflow", "statement": "For every int16 signal the integer computations of the attack detector and of the pitch analysis front end (resampling and high-pass filter) do not overflow their C types.", "quantifier": "all int16 sample sequences of any length", "why_tests_cant": "worst-case recursive filter input is not found by sampling", "anchors": ["src/attdet.c:lc3_attdet_run", "src/ltpf.c:filter_hp50", "src/ltpf.c:resample_x64k_12k8"]}
{"id": "C31", "title": "Integer PCM load and store round trip", "statement": "Loading 16-bit or 24-bit PCM and storing it unchanged returns the same samples; storing saturates instead of wrapping; packed 24-bit bytes are little-endian two's complement; strided access touches only the samples of the selected channel.", "quantifier": "all samples, strides and channel counts", "why_tests_cant": "2^24 values times rounding of floating conversions", "anchors": ["src/lc3.c:load_s16", "src/lc3.c:load_s24", "src/lc3.c:load_s24_3le", "src/lc3.c:store_s16", "src/lc3.c:store_s24", "src/lc3.c:store_s24_3le"]}
{"id": "C32", "title": "Concealment is deterministic, bounded and restarts", "statement": "Consecutive lost frames are synthesised from the last good spectrum with sign pattern from a fixed generator and a gain that never increases, is 1 for the first losses and tends to zero; a good frame restores full gain.", "quantifier": "all loss patterns", "why_tests_cant": "unbounded loss sequences", "anchors": ["src/plc.c:lc3_plc_synthesize", "src/plc.c:lc3_plc_suspend"]}
{"id": "C33", "title": "Multi-channel frame block split", "statement": "For every number of channels the C++ and Python wrappers split a frame block into consecutive per-channel frames whose sizes differ by at most one byte, sum to the block size and are the same in encoder and decoder; PCM channel accesses stay inside the interleaved buffer.", "quantifier": "all block sizes and channel counts", "why_tests_cant": "uneven splits depend on size modulo channels", "anchors": ["include/lc3_cpp.h:EncodeImpl", "include/lc3_cpp.h:DecodeImpl", "python/lc3.py:encode", "python/lc3.py:decode"]}
{"id": "C34", "title": "File header round trip", "statement": "The header written by the command line encoder is read back with the same parameters, and a frame block header written with a length is read back with that length.", "quantifier": "all parameter values in range", "why_tests_cant": "all field combinations", "anchors": ["tools/lc3bin.c:lc3bin_write_header", "tools/lc3bin.c:lc3bin_read_header"]}
{"id": "C35", "title": "Transform reconstructs the signal", "statement": "For every duration and sample rate, the transform of the encoder is the windowed low delay MDCT of the stream and the transform of the decoder its inverse with overlap-add: without quantization, in exact arithmetic, a stream of frames comes back delayed by the algorithmic delay of the transform (2 nd - ns samples), up to the 2^-23 relative error of the windows of the tables. The FFT computes the discrete Fourier transform for every size used. Every access stays in the sample, delay, table and scratch buffers, whatever the numbers.", "quantifier": "all durations and sample rates with a transform, all streams of frames of real numbers; accesses: any number type and operations", "why_tests_cant": "numerical tests only sample inputs and sizes, with a tolerance that hides small errors", "anchors": ["src/mdct.c:fft", "src/mdct.c:lc3_mdct_forward", "src/mdct.c:lc3_mdct_inverse", "src/mdct.c:mdct_window", "src/mdct.c:imdct_window", "src/tables.c:lc3_mdct_win", "src/tables.c:lc3_mdct_rot"]}
{"id": "C36", "title": "Pitch analysis sees a seamless stream", "statement": "Whatever the frame duration and the number of frames encoded so far, the pitch analysis of the encoder works on the same 12.8 kHz and 6.4 kHz signals that one pass over the whole input stream would give: no sample is lost, repeated or filtered from a wrong history at a frame boundary.", "quantifier": "all sample streams of any length (amplitude under the overflow limit of C30), all configurations", "why_tests_cant": "recursive filter state and history copies must agree over unbounded streams", "anchors": ["src/ltpf.c:lc3_ltpf_analyse", "src/ltpf.c:resample_x64k_12k8", "src/ltpf.c:resample_x192k_12k8", "src/ltpf.c:resample_6k4", "src/lc3.c:analyze"]}
{"id": "C37", "title": "Global gain", "statement": "For any spectrum the encoder computes the global gain index without undefined behaviour, the index written in the frame is in 0..255, it is the least one whose estimated cost is in the bit budget unless the range of the quantizer needs a larger one, the coefficients quantized with it are in the range of the coder, and the gain that the encoder and the decoder compute from the index is 10^(g/28) to 2^-19.", "quantifier": "all spectra, as binary32 coefficients of magnitude at most 1480000, and through the energies of their blocks of 4 lines, their maximum and the coefficients quantized with each gain; all frame sizes, durations and sample rates", "why_tests_cant": "the search sums costs on int over spectra of any level; overflow needs particular levels and frame sizes, and the least gain is a statement on all the other gains", "anchors": ["src/spec.c:estimate_gain", "src/spec.c:adjust_gain", "src/spec.c:unquantize_gain", "src/spec.c:lc3_spec_analyze", "src/fastmath.h:lc3_db_q16"]}
{"id": "C38", "title": "WAVE header round trip", "statement": "The header of the WAVE file written by the command line decoder is read back by the command line encoder with the same parameters and positioned on the first sample; files with an extended format chunk or with other chunks before the data are read the same way.", "quantifier": "all formats, channel counts, rates, lengths and lists of chunks", "why_tests_cant": "the position after the header depends on sizes found in the file", "anchors": ["tools/wave.c:wave_read_header", "tools/wave.c:wave_write_header"]}
{"id": "C39", "title": "Sample counts of the command line tools", "statement": "The command line encoder makes at least the frame blocks that the command line decoder will read, also when the sample rates of the PCM and of the stream differ, and the decoder writes exactly the number of samples announced in its WAVE header, taking them inside of the decoded frames.", "quantifier": "all stream lengths, frame durations and sample rates", "why_tests_cant": "depends on lengths modulo the frame size and on rounding of the resampled length", "anchors": ["tools/elc3.c:main", "tools/dlc3.c:main"]}
{"id": "C40", "title": "Noise substitution and scaling of the decoded spectrum", "statement": "Any bytes accepted by lc3_decode give a complete and finite spectrum: each decoded coefficient multiplied by the transmitted gain, and noise of the transmitted level only in the runs of null lines from 600 Hz to the end of the bandwidth, with signs of the 16-bit generator. A frame of silence gives a null spectrum. On the encoder side, the level is defined for any spectrum, fits its 3 bits and is the rounded mean of the magnitudes in these runs; the lines where the encoder measures the noise are those where the decoder puts it.", "quantifier": "all received bytes, frame durations, sample rates, seeds; all scaled spectra, bandwidths and counts of coded coefficients; all frames written by the encoder", "why_tests_cant": "the pattern of null lines, the residual or least significant bits received, the gain and the level combine freely; the agreement of both sides relies on the magnitude of any refined coefficient staying away from zero", "anchors": ["src/spec.c: estimate_noise, fill_noise, unquantize, lc3_spec_encode, lc3_spec_decode, get_residual, get_lsb", "src/lc3.c: lc3_encode, lc3_decode"]}
{"id": "C41", "title": "Silence stays silence", "statement": "When the spectrum of a frame is null, the encoder always produces a frame that fits, and the decoder gets a null spectrum back from it: the encoder writes the gain index 0, no coefficient and the lowest noise level, which the decoder recognises, so that no substitution noise is added, whatever the sample rate, frame duration, frame size, bandwidth, envelope and pitch data, and the state of the rate control.", "quantifier": "all configurations, frame sizes of 20 to 625 bytes, all rate control states, all bandwidth, envelope and pitch data, all contents of the output buffer before encoding", "why_tests_cant": "The recognition of silence depends on five values computed by separate parts of the encoder, and the decoder reads two coefficients where none was coded, out of what the arithmetic coder leaves in the buffer; all frame sizes and side data must agree.", "anchors": ["src/spec.c:lc3_spec_analyze", "src/spec.c:lc3_spec_encode", "src/spec.c:lc3_spec_decode", "src/spec.c:estimate_noise", "src/bits.c:ac_terminate"]}
{"id": "C42", "title": "Temporal noise shaping is codable, undone by the decoder and stable", "statement": "For every spectrum the encoder's temporal noise shaping reads and writes inside its arrays, gives filters that the bitstream can hold (the last coefficient of each not null), leaves the spectrum out of 0.6 kHz to the bandwidth unchanged, and its result does not depend on the uninitialised array elements the code reads. It uses no filter near the Nyquist frequency or on a null spectrum. For every filter data a bitstream can hold, the decoder's filters stay inside their arrays, are stable (output bounded by the energy of the input), and with exact arithmetic the decoder's filters give back exactly the spectrum the encoder filtered. The coefficients are quantized with an error under 0.0923. The encoder's filters multiply the largest magnitude by 256 at most, roundings included, so they make no infinity or NaN.", "quantifier": "all frame durations, bandwidths, spectra (including infinities and NaN for the accesses and codability), all filter data of a bitstream, all values of uninitialised memory", "why_tests_cant": "the filters are recursive and depend on real valued spectra and on every combination of 17^8 coefficients by filter; uninitialised memory reads do not show in tests", "anchors": ["src/tns.c: lc3_tns_analyze, lc3_tns_synthesize, compute_lpc_coeffs, lpc_weighting, lpc_reflection, quantize_rc, unquantize_rc, forward_filtering, inverse_filtering", "src/lc3.c: analyze, synthesize"]}
{"id": "C43", "title": "Band energies, near Nyquist flag and bandwidth detector", "statement": "For every spectrum of a frame the encoder computes one energy for each band, the mean square of its coefficients; the bands are not empty, at most 64 and split the whole spectrum; no access is outside the arrays. With the roundings of the floats an energy is never negative nor over the square of the largest magnitude (rounded up to a power of two), so neither infinite nor NaN for coefficients within 2^50. For every vector of energies (infinities and NaN included) the detected bandwidth can be coded for the sample rate; a bandwidth under the one of the sample rate is given only when all the regions over it are under their thresholds, the region under it is not, and the energies drop by the required factor at its edge. A last region over its threshold keeps the whole bandwidth.", "quantifier": "Every duration and sample rate, every spectrum or vector of energies, every float arithmetic (and the reals for the sum of the energies)", "why_tests_cant": "Index arithmetic on 26 tables and all float vectors, with NaN and infinities.", "anchors": ["src/energy.c: lc3_energy_compute", "src/bwdet.c: lc3_bwdet_run", "src/tables.c: lc3_band_lim, lc3_num_bands"]}
{"id": "C44", "title": "Spectral noise shaping is codable for every energies and both sides use the same envelope", "statement": "For every vector of band energies, infinities and NaN included, in binary32 arithmetic, the encoder's spectral noise shaping converts no float out of the range of an int, reads and writes inside its arrays, and gives quantized data the bitstream can hold; the decoder computes from these data the very scale factors the encoder used, to the bit. For every data of a bitstream the decoder has 16 scale factors. Each coefficient is multiplied by the gain interpolated for its band, and with exact arithmetic the decoder's gains give back the spectrum; in binary32 each coefficient up to 2^50 comes back within one part in a million (plus 2^-77), and for every data of a bitstream the gains are finite, between 2^-71 and 2^71. Codebook entries are the nearest ones, shape and gain the best of the candidate vectors. No effect of uninitialised memory.", "quantifier": "all frame durations and sample rates, all float energies (NaN and infinities included) and spectra, all frame sizes, attack flag or not, all decoded data, all contents of uninitialised memory", "why_tests_cant": "the projection to the pyramid must not exceed its pulses for any rounding of any of 2^32 values by band; the enumeration has 2^24 vectors by shape", "anchors": ["src/sns.c: lc3_sns_analyze, lc3_sns_synthesize, compute_scale_factors, resolve_codebooks, quantize, unquantize, spectral_shaping", "src/fastmath.h: lc3_log2f, lc3_frexpf"]}
{"id": "C45", "title": "The spectrum stage of the encoder always gives data a frame can hold", "statement": "In binary32 arithmetic, for every finite shaped spectrum of magnitude at most 1480000 (and within the reach of the largest gain), the encoder's rate control, gain choice, quantization and noise estimation convert no float out of the range of its integer, index inside their tables, and give: an even count of coefficients, a gain index on 8 bits, a noise level on 3 bits, and coefficients that the bitstream can hold, equal to the input divided by the gain of the index to 2^-16; the bit count used for the truncation is the one of these coefficients with the budget left by the other data; the state of the rate regulation stays bounded, so that the same holds for the next frame.", "quantifier": "all sample rates and frame durations, all frame sizes up to 400 bytes (625 in high resolution, where the estimation of the gain is defined) with a budget for the spectrum, all spectra in the range, all noise shaping data, every reachable regulation state", "why_tests_cant": "2^32 values for each of up to 400 coefficients, and a feedback from frame to frame", "anchors": ["src/spec.c: lc3_spec_analyze, estimate_gain, quantize, compute_nbits, adjust_gain_bits, unquantize_gain, estimate_noise", "src/fastmath.h: lc3_ldexpf"]}
{"id": "C46", "title": "The whole decoder is memory safe and its samples are those of the chain of its steps", "statement": "For every decoder and every sequence of calls with any bytes, any sizes and any losses, the whole decoder (parsing, noise substitution, temporal and spectral shaping, concealment, inverse transform, postfilter) accesses only its own arrays, at places initialised or written before, and no integer overflows. Each call returns -1 (size refused: no sample, no change), 0 or 1 with one frame of samples, and these samples are the ones given by the chain of steps applied to separate arrays, whatever the layout and the reuse of the decoder's memory, and whatever uninitialised memory holds. (Refuted: that the samples are in the range of the integer conversion of the store functions.)", "quantifier": "every configuration and output rate, every sequence of calls shorter than 2^31 - 1, every content of frames, any float arithmetic, any content of uninitialised memory", "why_tests_cant": "the window moves in a ring that is shared by all the steps; all sequences of frames, damaged frames and losses", "anchors": ["src/lc3.c: lc3_decode, decode, synthesize, complete, lc3_setup_decoder, store_s16", "src/mdct.c: lc3_mdct_inverse", "src/plc.c: lc3_plc_synthesize", "src/ltpf.c: lc3_ltpf_synthesize", "src/tns.c: lc3_tns_synthesize", "src/sns.c: lc3_sns_synthesize"]}
{"id": "C47", "title": "The whole encoder is memory safe and writes frames that hold what it analysed", "statement": "For every encoder (high resolution included, with or without the postfilter) and every sequence of calls with any 16-bit samples and any floats, the whole analysis (attack detection, pitch, transform, bandwidth, spectral and temporal noise shaping) accesses only its own arrays, converts no float out of range, and gives side data that a frame can hold; on moderate amplitudes no signed operation overflows. For samples up to twice the full scale, no infinity or NaN reaches the quantizer, whatever the history. The frame keeps the decision of the pitch analysis, except that the postfilter is off when it is bypassed or when the energy is near the Nyquist frequency, where the temporal noise shaping is off too. A call with a size out of the limits returns -1 and changes nothing. When the shaped spectrum is within the reach of the quantizer, an accepted call returns 0 and writes a frame that holds the side data and the coefficients divided by the coded gain to 2^-16; when the truncation error of the arithmetic coder has room, the decoder accepts the frame and reads the same data.", "quantifier": "all configurations, all sequences of calls, all samples and floats, all previous contents of the output; for the frames, all spectra in the reach of the quantizer (in high resolution, those whose gain estimation is defined)", "why_tests_cant": "the state (ring of samples, detectors, rate control) depends on all the past calls, and the float range is too large to enumerate", "anchors": ["src/lc3.c: analyze, encode, lc3_encode, lc3_setup_encoder, lc3_encoder_disable_ltpf", "src/mdct.c: lc3_mdct_forward", "src/tns.c: lc3_tns_analyze", "src/sns.c: lc3_sns_analyze", "src/spec.c: lc3_spec_analyze"]}
{"id": "C48", "title": "The fast logarithm, power of two and decibel functions are within stated errors of the mathematical ones", "statement": "In binary32 arithmetic, for every finite operand of the range: the base-2 logarithm of a normal number is within 2e-4; the power of 2 of an operand from -100 to 100 is finite and within a relative error of 4e-7, so that the gains of opposite exponents multiply to 1 within 1e-6; the level in dB of a number from 2^-63 to 2^63 is within 0.0014 dB, and so is the energy of a block used to choose the global gain. The fraction and the exponent of a normal number multiply to that number. The error of 1e-4 announced for the logarithm does not hold.", "quantifier": "all finite binary32 operands of the stated ranges", "why_tests_cant": "2^32 operands for each function, each to compare with a transcendental value at a proved precision", "anchors": ["src/fastmath.h: lc3_frexpf, lc3_log2f, lc3_exp2f, lc3_db_q16", "src/spec.c: estimate_gain"]}
{"id": "C49", "title": "A null signal comes out as a null signal", "statement": "Whatever the configuration (high resolution included), the sample rates of the PCM on both sides, and the sequence of frame sizes: when all the samples given to the encoder are zeros, every call with a valid size returns a frame of that size without any undefined operation, and these frames, in any order, repeated or with losses concealed between them, decode to samples that are all zeros.", "quantifier": "all configurations of the API, all sequences of calls and frame sizes, zeros of either sign for floating-point samples, all orders, repetitions and losses of the frames, all contents of the buffers, all values of what the code leaves uninitialised", "why_tests_cant": "The state of the rate control, of the resampler, of the loss concealment and of the postfilter depends on the history of the calls; a single rounding, noise seed or division by a null energy on the way would give noise on silence after some history.", "anchors": ["src/lc3.c:lc3_encode", "src/lc3.c:lc3_decode", "src/spec.c:lc3_spec_analyze", "src/spec.c:lc3_spec_decode", "src/tns.c:compute_lpc_coeffs", "src/sns.c:lc3_sns_analyze", "src/plc.c:lc3_plc_synthesize", "src/ltpf.c:lc3_ltpf_synthesize"]}
{"id": "C50", "title": "The ARM code paths of the pitch analysis give the portable results", "statement": "On a processor with the 32-bit SIMD instructions of ARM, the encoder takes exactly the decisions of the portable code (attack, pitch, postfilter) and keeps the same state, for every signal; with NEON, for every signal up to the amplitude where the portable code has no overflow. The vector code stays in the arrays, reads pairs of samples at aligned places only, and overflows only where the portable code does.", "quantifier": "all configurations, all sequences of frames of 16-bit samples (with NEON, up to -3 dB at 8 kHz and -6.4 dB at other rates), any float arithmetic", "why_tests_cant": "The vector kernels use other tables, other orders of summation, narrower accumulators and overlapping reads; a test vector does not show that the results agree for all signals nor that the extra reads stay in the arrays for all lags, and the tests of the project run on one architecture.", "anchors": ["src/ltpf_arm.h:arm_resample_x64k_12k8", "src/ltpf_arm.h:arm_resample_x192k_12k8", "src/ltpf_arm.h:arm_correlate", "src/ltpf_neon.h:neon_resample_16k_12k8", "src/ltpf_neon.h:neon_dot", "src/ltpf_neon.h:neon_correlate", "src/ltpf.c:lc3_ltpf_analyse"]}
{"id": "C51", "title": "The transforms with the NEON kernels are the same transforms", "statement": "On AArch64 the encoder and the decoder run the FFT with vector kernels. They stay in their buffers for every configuration; up to the rounding of the fused operations they compute exactly the portable transforms, thus the MDCT and its inverse; in binary32 they map bounded samples to finite bounded coefficients and back, and null signals to null signals.", "quantifier": "all configurations, all samples, coefficients, delayed samples and previous contents of the buffers", "why_tests_cant": "The kernels work on two transforms and two butterflies at a time with permuted lanes, negated constants and fused operations: an error in the handling of a lane, of a sign or of the last odd butterfly shows on some configurations and inputs only, and a comparison with a tolerance cannot separate it from rounding; reads past the end for odd counts depend on the sizes of all configurations.", "anchors": ["src/mdct_neon.h:neon_fft_5", "src/mdct_neon.h:neon_fft_bf3", "src/mdct_neon.h:neon_fft_bf2", "src/mdct.c:fft", "src/mdct.c:lc3_mdct_forward", "src/mdct.c:lc3_mdct_inverse"]}
{"id": "C52", "title": "The transforms in binary32 are accurate to 2^-16 of the signal", "statement": "The floating-point MDCT of the encoder gives the mathematical MDCT of the windowed samples, and the floating-point inverse of the decoder gives the mathematical inverse on the reversed window plus the delayed samples. The error, in Euclidean norm over the frame, is at most 2^-16 (96 dB) times the norm of the input, for every configuration. When the PCM samples have a higher rate than the stream, the encoder keeps the first coefficients times the square root of the ratio of the lengths of the frames, and the decoder applies the inverse factor, with the same accuracy. The tables of roots of unity and of rotation factors, as floats, are the exact numbers up to about half a unit in the last place. A stream of PCM magnitude that goes through both comes back delayed, with an error on each frame of at most 2^-13 times the norm of this frame and of the two before. The transforms of an AArch64 build, whose FFT reorders and fuses operations, have the same accuracy: the spectrum or the samples that the two builds compute from the same input are within 2^-15 of its norm.", "quantifier": "all configurations, all finite samples, coefficients and delayed samples of norm up to 2^60, all previous contents of the buffers; for streams, all numbers of frames and all samples of magnitude up to 2^31", "why_tests_cant": "Rounding errors depend on every sample of the frame; tests compare some signals with a tolerance and give no bound for the others.", "anchors": ["src/mdct.c: lc3_mdct_forward, lc3_mdct_inverse, fft, fft_5, fft_bf3, fft_bf2, mdct_window, mdct_pre_fft, mdct_post_fft, imdct_pre_fft, imdct_post_fft, imdct_window", "src/tables.c: lc3_fft_twiddles_bf2, lc3_fft_twiddles_bf3, lc3_mdct_rot, lc3_mdct_win", "src/mdct_neon.h: neon_fft_5, neon_fft_bf3, neon_fft_bf2"]}
