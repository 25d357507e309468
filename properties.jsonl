{"id": "C01", "title": "Audio FIFO delivers samples in order, once", "statement": "For any sequence of write, zero, read, peek, skip, readOne, peekOne and reset calls on a RingBuffer of capacity n, the samples handed to the reader are exactly the accepted samples (zeros for zero()) in acceptance order, none lost, duplicated or invented, and each call returns the number of samples it really transferred, which is min(requested, possible).", "quantifier": "every capacity n>=0, every element type, every finite call sequence with every non-negative count", "why_tests_cant": "Wrap-around makes the behaviour depend on the entire call history; tests only reach a few reader/writer offsets and capacities.", "anchors": ["src/common/RingBuffer.h: RingBuffer::write, zero, read, peek, skip, readOne, peekOne, reset"]}
{"id": "C02", "title": "Ring buffer capacity accounting and memory bounds", "statement": "At every moment getReadSpace()+getWriteSpace() equals getSize(), both are non-negative, and no operation touches an array element outside the allocation, whatever counts are requested.", "quantifier": "every capacity, every reachable state, every requested count", "why_tests_cant": "An off-by-one shows only at particular wrap positions; tests cannot enumerate all of them for every capacity.", "anchors": ["src/common/RingBuffer.h: readSpaceFor, writeSpaceFor, write, read"]}
{"id": "C03", "title": "Peek, skip and read agree", "statement": "peek(n) leaves the buffer unchanged and returns what a following read(n) would return; peek(n) then skip(n) has exactly the effect and result of read(n); reading a+b samples equals reading a then b.", "quantifier": "every reachable ring buffer state and all counts a, b, n", "why_tests_cant": "Universally quantified over states and splits; tests sample a handful.", "anchors": ["src/common/RingBuffer.h: read, peek, skip"]}
{"id": "C04", "title": "Resizing a ring buffer keeps the unread samples", "statement": "resized(m) returns a buffer of capacity m whose readable content is the unread content of the original when it fits; when m is too small, the oldest m samples.", "quantifier": "every reachable buffer state and every new capacity m", "why_tests_cant": "Depends on the wrap position and fill; the library relies on it when audio buffers grow in mid-stream.", "anchors": ["src/common/RingBuffer.h: resized", "src/faster/StretcherProcess.cpp: processChunkForChannel", "src/finer/R3Stretcher.cpp: ensureInbuf, ensureOutbuf"]}
{"id": "C05", "title": "Ring buffer is safe for one reader and one writer thread", "statement": "With one thread performing writes and another performing reads on the same RingBuffer, under every interleaving of their individual memory accesses, the concatenation of everything read is always a prefix of everything written; no sample is torn, overwritten before it is read or read before it was stored; no slot is written by one thread while the other is reading it.", "quantifier": "every interleaving of the two threads' index loads, slot copies and index stores, for every capacity and sequence of block sizes", "why_tests_cant": "Schedules are unbounded and timing dependent; a stress test can only sample them.", "anchors": ["src/common/RingBuffer.h: write, read, skip", "src/faster/StretcherProcess.cpp: ProcessThread::run"]}
{"id": "C06", "title": "Short reads are zero-filled as documented", "statement": "When fewer samples are available than requested, read() and peek() fill the remainder of the destination with zeros, as their documentation promises.", "quantifier": "every reachable state and request larger than the available count", "why_tests_cant": "The destination tail retains whatever was there before; a test with a zeroed destination passes.", "anchors": ["src/common/RingBuffer.h: read, peek documentation (lines 96-104, 128-138)", "src/faster/StretcherProcess.cpp: processChunks"]}
{"id": "C07", "title": "Moving median returns the requested percentile of the window", "statement": "After any sequence of push, drop and reset calls on a MovingMedian of size N, get() returns the k-th smallest of the values currently in the window (the last N pushed and not dropped), with k=(count-1)/2 for the default percentile; NaN pushes count as zero.", "quantifier": "every filter size >=1, every totally ordered value type, every push/drop/reset history with a non-empty window", "why_tests_cant": "The incremental sorted array has four update paths whose correctness depends on history and duplicates.", "anchors": ["src/common/MovingMedian.h: push, drop, get, dropAndPut, put, reset"]}
{"id": "C08", "title": "Array median filter is centred and boundary-correct", "statement": "MovingMedian::filter replaces v[i] by the median of the input values whose index lies in the filter window around i clipped to the array, using original (not already filtered) values although it works in place.", "quantifier": "every filter length >=1, every array length and content", "why_tests_cant": "In-place aliasing and the ramp-in/ramp-out logic depend on both lengths; tests check a few sizes.", "anchors": ["src/common/MovingMedian.h: filter"]}
{"id": "C09", "title": "Histogram median is the window median", "statement": "After any sequence of push/drop/reset on a HistogramFilter, getMedian() is the lower median of the values currently in the window.", "quantifier": "every number of values, every window length >=1, every history of in-range values with a non-empty window", "why_tests_cant": "Incremental counts depend on the full history.", "anchors": ["src/common/HistogramFilter.h: push, drop, getMedian, reset"]}
{"id": "C10", "title": "Histogram mode is the smallest most frequent value", "statement": "After any sequence of push/drop/reset/getMode on a HistogramFilter, getMode() returns the smallest of the most frequent values in the window, as documented.", "quantifier": "every history of calls, including interleaved getMode calls", "why_tests_cant": "getMode caches its answer, so the result depends on when it was last called; unit tests query on simple histories.", "anchors": ["src/common/HistogramFilter.h: push, drop, getMode, reset"]}
{"id": "C11", "title": "Retired objects are freed exactly once", "statement": "Every object handed to Scavenger::claim is deleted exactly once by the time the scavenger is destroyed, never twice, and nothing else is deleted, for any interleaving of claim and scavenge calls and any clock.", "quantifier": "every sequence of claim/scavenge calls, every clock behaviour, every slot count, and overflow into the excess list", "why_tests_cant": "Leaks and double frees depend on the history of slot re-use and overflow.", "anchors": ["src/common/Scavenger.h: claim, scavenge, clearExcess, pushExcess, ~Scavenger", "src/faster/StretcherProcess.cpp: processChunkForChannel"]}
{"id": "C12", "title": "Retired objects survive the grace period", "statement": "scavenge() without clearNow never deletes an object less than the configured number of seconds after it was claimed, so another thread still using it is safe.", "quantifier": "every sequence of claims and scavenges at every time", "why_tests_cant": "Needs a particular coincidence of overflow and expiry that tests do not produce.", "anchors": ["src/common/Scavenger.h: scavenge, clearExcess"]}
{"id": "C13", "title": "FFT size rounding gives the least power of two", "statement": "roundUp(v) is the smallest power of two not below v for every v from 1 up to 2^63 (and 0 for 0); roundUpDiv(x,d) is the smallest power of two not below x/d.", "quantifier": "every size_t value in range, every divisor", "why_tests_cant": "2^63 inputs.", "anchors": ["src/common/mathmisc.cpp: roundUp, roundUpDiv"]}
{"id": "C14", "title": "Rational approximation of the resampling ratio", "statement": "pickNearestRational(ratio, maxDenom) terminates for every positive finite ratio and returns a fraction with denominator between 1 and maxDenom that is at least as close to ratio as every other fraction with denominator at most maxDenom (up to the stated epsilon).", "quantifier": "every positive rational ratio and every maxDenom >= 1", "why_tests_cant": "Closeness to all competing fractions for all ratios is a number-theoretic statement.", "anchors": ["src/common/mathmisc.cpp: pickNearestRational", "src/common/BQResampler.cpp: pick_params"]}
{"id": "C15", "title": "Phase wrapping is principal and congruent", "statement": "princarg(a) lies in the half-open interval (-pi, pi] and differs from a by an integer multiple of 2*pi.", "quantifier": "every real phase a", "why_tests_cant": "Real-valued input space; boundary values matter.", "anchors": ["src/common/mathmisc.h: mod, princarg"]}
{"id": "C16", "title": "Offline stretch profile adds up to the requested duration", "statement": "In offline mode the magnitudes of the output increments computed for the studied audio sum exactly to round(chunks * increment * ratio), whatever the detected transients, so that the stretched duration is right.", "quantifier": "every detection function, every peak set, every ratio >= 0 and every increment >= 1", "why_tests_cant": "The total depends on rounding inside every region for unboundedly many regions.", "anchors": ["src/common/StretchCalculator.cpp: calculate, mapPeaks", "src/faster/R2Stretcher.cpp: calculateStretch"]}
{"id": "C17", "title": "Offline profile has one increment per analysed chunk", "statement": "The offline stretch profile contains exactly one increment for every analysed chunk, so each detected transient is applied at the chunk where it was detected.", "quantifier": "every detection function and ratio", "why_tests_cant": "Fails only for particular combinations of region length and ratio.", "anchors": ["src/common/StretchCalculator.cpp: calculate", "src/faster/StretcherProcess.cpp: getIncrements"]}
{"id": "C18", "title": "Key frames are honoured", "statement": "Given a key-frame map that is monotone in source and target and lies within the duration, the offline profile places the chunk containing each mapped source frame exactly at its mapped target output frame.", "quantifier": "every monotone key-frame map, every detection function", "why_tests_cant": "Quantifies over all maps and all detected peaks in between.", "anchors": ["src/common/StretchCalculator.cpp: setKeyFrameMap, mapPeaks, calculate", "rubberband/RubberBandStretcher.h: setKeyFrameMap"]}
{"id": "C19", "title": "Detected onsets are ordered and in range", "statement": "The onset list used for time alignment is strictly increasing in time, every onset lies inside the studied audio, hard onsets are at least the documented 0.05 s apart up to one chunk, and a soft onset never follows a hard one by three chunks or fewer.", "quantifier": "every detection function of every length, every sample rate and increment", "why_tests_cant": "Arbitrary real-valued sequences of arbitrary length.", "anchors": ["src/common/StretchCalculator.cpp: findPeaks, smoothDF"]}
{"id": "C20", "title": "Real-time increments stay within the allowed range", "statement": "In real-time mode each output increment is either the input increment (a transient, reported negative) or lies between 0.3 and 2 times the nominal increment; transients are never reported within the amnesty period of each other, and after reset the calculator behaves like a fresh one.", "quantifier": "every sequence of ratios, detection values and increments", "why_tests_cant": "Feedback loop over an unbounded history of calls.", "anchors": ["src/common/StretchCalculator.cpp: calculateSingle, reset"]}
{"id": "C21", "title": "Resampler time base is exact", "statement": "The resampler's filter phase bookkeeping advances by exactly the reduced ratio for every output frame: after k output frames the consumed input position is exactly k*denominator/numerator, with no cumulative drift, and each phase table is complete.", "quantifier": "every reduced numerator/denominator pair, every number of output frames", "why_tests_cant": "Drift accumulates over arbitrarily long streams.", "anchors": ["src/common/BQResampler.cpp: fill_params, phase_data_for, state_for_ratio, reconstruct_one"]}
{"id": "C22", "title": "Resampling does not depend on block sizes", "statement": "At a constant ratio and with enough output space, splitting the input into blocks in any way yields the same output stream as processing it in one call.", "quantifier": "every input, every partition into blocks, every ratio, every filter and channel count", "why_tests_cant": "Infinitely many partitions; tests try a few block sizes.", "anchors": ["src/common/BQResampler.cpp: resampleInterleaved, reconstruct_one"]}
{"id": "C23", "title": "Resampler output length is determined by the ratio", "statement": "At constant ratio num/den, the number of frames produced from N input frames after start-up is the exact count determined by N and the ratio, within one frame of N*ratio, and never exceeds the stated output space.", "quantifier": "every N, ratio and block partition", "why_tests_cant": "Requires counting over unbounded streams.", "anchors": ["src/common/BQResampler.cpp: resampleInterleaved"]}
{"id": "C24", "title": "Resampler never accesses memory outside its buffers", "statement": "For every ratio, quality and channel count, every index used on the delay line, the filter table and the caller's input and output arrays is within bounds, and the phase-table construction terminates.", "quantifier": "every reduced ratio, filter length, channel count, call history", "why_tests_cant": "Index arithmetic over unbounded parameters.", "anchors": ["src/common/BQResampler.cpp: phase_data_for, state_for_ratio, reconstruct_one, resampleInterleaved"]}
{"id": "C25", "title": "Resampler does not lose input", "statement": "Every input frame passed to the resampler influences the output stream: frames that cannot be turned into output for lack of output space are kept for the next call.", "quantifier": "every input block and output space", "why_tests_cant": "Only visible for particular output-space shortfalls.", "anchors": ["src/common/BQResampler.cpp: resampleInterleaved"]}
{"id": "C26", "title": "Resampler reset forgets the past", "statement": "After reset(), a resampler produces for any input the same output as a newly constructed one.", "quantifier": "every history before reset and every input afterwards", "why_tests_cant": "Quantifies over histories, notably ratio changes before the reset.", "anchors": ["src/common/BQResampler.cpp: reset, state_for_ratio, resampleInterleaved"]}
{"id": "C27", "title": "Ratio changes cross-fade without numeric blow-up", "statement": "When the ratio changes between calls, every emitted frame is a convex combination of the old-ratio and new-ratio signals; no division by zero or NaN gain occurs for any block sizes.", "quantifier": "every sequence of ratios, block sizes and output spaces", "why_tests_cant": "Needs an unfinished fade followed by a tiny block.", "anchors": ["src/common/BQResampler.cpp: resampleInterleaved"]}
{"id": "C28", "title": "R2 engine sizes are valid for every supported configuration", "statement": "For every supported sample rate (8000..192000), window option, mode, time ratio and pitch scale, the R2 engine computes window sizes that are powers of two and increments of at least one sample without dividing by zero or looping for ever.", "quantifier": "every sample rate, option set, positive ratio pair", "why_tests_cant": "The configuration space is continuous in two dimensions.", "anchors": ["src/faster/R2Stretcher.cpp: calculateSizes, configure"]}
{"id": "C29", "title": "R2 accepts every input sample exactly once", "statement": "Each process() call in non-threaded mode terminates and every channel's analysis buffer receives exactly the samples passed in, in order, whatever the block sizes; all channels stay aligned.", "quantifier": "every sequence of block sizes and every channel count", "why_tests_cant": "Depends on buffer fill histories.", "anchors": ["src/faster/R2Stretcher.cpp: process", "src/faster/StretcherProcess.cpp: consumeChannel, processOneChunk, testInbufReadSpace"]}
{"id": "C30", "title": "R2 offline output length", "statement": "In offline mode the total number of frames delivered never exceeds round(input length * time ratio) and the start delay is removed exactly.", "quantifier": "every input length, every sequence of chunk outputs", "why_tests_cant": "Short inputs and chunk boundary coincidences.", "anchors": ["src/faster/StretcherProcess.cpp: writeOutput"]}
{"id": "C31", "title": "getSamplesRequired never stalls the caller", "statement": "Whenever available() reports nothing to read and the stream has not ended, getSamplesRequired() is at least one, and supplying that many samples makes further processing possible.", "quantifier": "every reachable buffer level of every channel", "why_tests_cant": "A stall appears only at particular buffer levels.", "anchors": ["src/faster/R2Stretcher.cpp: getSamplesRequired", "src/finer/R3Stretcher.cpp: getSamplesRequired"]}
{"id": "C32", "title": "available() reports the end of stream exactly", "statement": "available() returns -1 if and only if the final block has been processed and every output frame has been retrieved; once it returns -1 it keeps returning -1 until reset.", "quantifier": "every call history", "why_tests_cant": "State machine property over all histories.", "anchors": ["src/faster/StretcherProcess.cpp: available", "src/finer/R3Stretcher.cpp: available"]}
{"id": "C33", "title": "Stretcher life-cycle rules", "statement": "In offline mode ratio, pitch, formant and key-frame changes are ignored once study or process has begun; study after process, and process after the final block, have no effect; in real-time mode study and key-frame maps are ignored; getters return the last accepted value.", "quantifier": "every sequence of API calls", "why_tests_cant": "Unbounded call sequences.", "anchors": ["src/finer/R3Stretcher.cpp: setTimeRatio, setPitchScale, setFormantScale, setKeyFrameMap, study, process, reset", "src/faster/R2Stretcher.cpp: same"]}
{"id": "C34", "title": "Option setters change only their own option group", "statement": "setTransientsOption, setDetectorOption, setPhaseOption, setFormantOption and setPitchOption change only the bits of their own group, have no effect in the documented disallowed modes, and the last permitted call in each group wins independently of calls for other groups.", "quantifier": "every option word and every sequence of setter calls", "why_tests_cant": "2^32 words times arbitrary sequences.", "anchors": ["src/faster/R2Stretcher.cpp: setTransientsOption, setDetectorOption, setPhaseOption, setFormantOption, setPitchOption", "src/finer/R3Stretcher.cpp: setFormantOption, setPitchOption", "rubberband/RubberBandStretcher.h: Option"]}
{"id": "C35", "title": "reset() returns the stretcher to its initial state", "statement": "After reset() the stretcher behaves as if it had just been constructed, retaining only the current time and pitch ratio.", "quantifier": "every history before reset, every input afterwards", "why_tests_cant": "Quantifies over two unbounded histories.", "anchors": ["src/faster/R2Stretcher.cpp: reset, reconfigure, calculateStretch", "src/finer/R3Stretcher.cpp: reset", "src/faster/CompoundAudioCurve.cpp: reset"]}
{"id": "C36", "title": "Retrieving while the worker thread grows the output buffer", "statement": "In threaded offline mode the client receives each output sample exactly once and in order even when the worker has to enlarge the output buffer while the client is retrieving.", "quantifier": "every interleaving of retrieve and the worker's resize", "why_tests_cant": "Race window of a few instructions.", "anchors": ["src/faster/StretcherProcess.cpp: processChunkForChannel, retrieve", "src/common/Scavenger.h"]}
{"id": "C37", "title": "Worker threads process everything and terminate", "statement": "In threaded mode, once the final block has been supplied, every worker processes all its input, marks its channel complete and terminates without waiting for a signal that never comes; abandoning stops it at the next test.", "quantifier": "every schedule of client and worker, every spurious wake-up or time-out", "why_tests_cant": "Schedules are unbounded.", "anchors": ["src/faster/StretcherProcess.cpp: ProcessThread::run, signalDataAvailable, abandon, processChunks", "src/faster/R2Stretcher.cpp: process"]}
{"id": "C38", "title": "Mid/side coding is transparent", "statement": "With OptionChannelsTogether on two channels, encoding input to mid/side and decoding on retrieval restores left and right exactly in exact arithmetic, for every partition into blocks; other channel counts are untouched.", "quantifier": "every pair of channel signals and block partition", "why_tests_cant": "All signals.", "anchors": ["src/faster/StretcherProcess.cpp: prepareChannelMS, retrieve", "src/finer/R3Stretcher.cpp: prepareInput, retrieve"]}
{"id": "C39", "title": "Overlap-add emits each accumulated sample once", "statement": "Writing chunks with any sequence of shift increments emits from the overlap-add accumulator exactly the sum of all windowed frames at their positions, in order, with nothing lost between chunks, including increments longer than the window that are broken into pieces and the final drain.", "quantifier": "every sequence of frames and shift increments", "why_tests_cant": "Unbounded overlap histories.", "anchors": ["src/faster/StretcherProcess.cpp: processChunkForChannel, synthesiseChunk, writeChunk", "src/finer/R3Stretcher.cpp: synthesiseChannel"]}
{"id": "C40", "title": "R3 analysis never reads outside its frame buffers", "statement": "For every supported sample rate, window option and hop, all the offsets used when windowing the readahead, classification and per-scale frames stay within the analysis source buffer.", "quantifier": "every sample rate 8000..192000, both window modes, every hop in the permitted range", "why_tests_cant": "185000 rates times all hops and scales.", "anchors": ["src/finer/R3Stretcher.cpp: analyseChannel, consume", "src/finer/R3Stretcher.h: getWindowSourceSize, Limits, ChannelData", "src/finer/Guide.h: Guide"]}
{"id": "C41", "title": "R3 hop sizes respect the limits", "statement": "For every positive time ratio and pitch scale the R3 engine's input hop lies between its minimum and maximum, the output hop does not exceed its maximum, and non-positive, NaN or infinite ratios are replaced by 1.", "quantifier": "every ratio pair including special floating-point values", "why_tests_cant": "Continuous two-dimensional space.", "anchors": ["src/finer/R3Stretcher.cpp: calculateHop", "src/finer/R3Stretcher.h: Limits"]}
{"id": "C42", "title": "R3 offline output length and start skip", "statement": "In offline mode R3 delivers at most round(total input * time ratio) frames after removing the start delay, and exactly that many when enough has been synthesised.", "quantifier": "every input length, ratio and chunk sequence", "why_tests_cant": "Depends on the interleaving of skips, chunks and drain.", "anchors": ["src/finer/R3Stretcher.cpp: process, consume"]}
{"id": "C43", "title": "R3 key-frame ratios", "statement": "With a key-frame map in offline mode, the ratio used at every point is the slope between the surrounding key frames, so mapped source frames fall on their targets; the map may begin with frame 0.", "quantifier": "every strictly increasing map, every position", "why_tests_cant": "All maps and positions.", "anchors": ["src/finer/R3Stretcher.cpp: updateRatioFromMap, setKeyFrameMap, calculateHop"]}
{"id": "C44", "title": "R3 buffers grow without losing audio", "statement": "ensureInbuf and ensureOutbuf make room for the required samples, keep every unread sample in order, and never shrink; hence process() never drops input however large the block.", "quantifier": "every buffer level and block size", "why_tests_cant": "All histories.", "anchors": ["src/finer/R3Stretcher.cpp: ensureInbuf, ensureOutbuf, process"]}
{"id": "C45", "title": "R3 never resamples twice", "statement": "For every pitch scale and option set at most one of resampling before and after stretching is active, none at unity pitch unless required for real-time consistency, and high-consistency mode never switches.", "quantifier": "every pitch scale and option word", "why_tests_cant": "Continuous times combinatorial space.", "anchors": ["src/finer/R3Stretcher.h: areWeResampling", "src/faster/StretcherProcess.cpp: resampleBeforeStretching"]}
{"id": "C46", "title": "Guide frequency bands tile the spectrum", "statement": "For every analysis state the frequency bands given to the synthesis stage are contiguous, ordered, and each band uses one FFT size, so every bin is resynthesised exactly once; pre-kick and kick flags are never both present.", "quantifier": "every magnitude frame, segmentation, ratio and history", "why_tests_cant": "Real-valued inputs and history.", "anchors": ["src/finer/Guide.h: updateGuidance, updateForSilence, updateForUnity, descendToValley"]}
{"id": "C47", "title": "Nearest-peak lookup", "statement": "For every magnitude array the peak picker maps each bin to the closest local peak and to the next peak above it.", "quantifier": "every array and neighbourhood size", "why_tests_cant": "All arrays.", "anchors": ["src/finer/Peak.h: findNearestAndNextPeaks"]}
{"id": "C48", "title": "Live shifter keeps its block contract", "statement": "Every shift() call consumes exactly one block and produces exactly one block on every channel, and the internal buffer levels stay bounded for ever, whatever pitch changes happen between calls.", "quantifier": "every sequence of pitch scales and blocks", "why_tests_cant": "Unbounded streams.", "anchors": ["src/finer/R3LiveShifter.cpp: shift, readIn, generate, readOut", "rubberband/RubberBandLiveShifter.h: shift"]}
{"id": "C49", "title": "Classification lag queue neither leaks nor duplicates", "statement": "The bin classifier reports, for each frame, a classification based on the frame pushed a fixed number of frames earlier, re-using every buffer exactly once.", "quantifier": "every sequence of frames and lag", "why_tests_cant": "Unbounded sequence.", "anchors": ["src/finer/BinClassifier.h: classify, reset"]}
{"id": "C50", "title": "Spectral segmentation is ordered", "statement": "For every classification array the segmenter returns percussive-below, percussive-above and residual-above frequencies that are ordered and lie within the spectrum, and equal what the modal-filtered classification dictates.", "quantifier": "every classification array", "why_tests_cant": "3^n arrays.", "anchors": ["src/finer/BinSegmenter.h: segment"]}
{"id": "C51", "title": "Interleaving round trip", "statement": "Interleaving then de-interleaving restores every channel exactly, and every destination element is written once, for 1, 2 and any other number of channels.", "quantifier": "every channel count and length", "why_tests_cant": "All sizes.", "anchors": ["src/common/VectorOps.h: v_interleave, v_deinterleave", "src/common/Resampler.cpp: D_BQResampler::resample"]}
{"id": "C52", "title": "Window folding preserves the signal", "statement": "Cutting a windowed frame into the FFT buffer with rotation and folding places every input sample at its index modulo the FFT size plus half a turn, adding overlapped parts, for analysis windows shorter than, equal to or longer than the FFT.", "quantifier": "every window and FFT size pair and content", "why_tests_cant": "All size pairs.", "anchors": ["src/faster/R2Stretcher.h: cutShiftAndFold", "src/common/VectorOps.h: v_fftshift"]}
{"id": "C53", "title": "Buffer reallocation keeps content", "statement": "reallocate, reallocate_and_zero_extension and the per-channel variants keep the common prefix of every channel, zero the extension where promised, and free each old block once.", "quantifier": "every old and new size and channel count", "why_tests_cant": "All sizes and counts.", "anchors": ["src/common/Allocators.h: reallocate, reallocate_and_zero_extension, reallocate_channels"]}
{"id": "C54", "title": "Plug-in dry path is aligned with the wet path", "statement": "In the LADSPA/LV2 pitch shifter the dry signal mixed with the output is the input delayed by exactly the reported latency, for every host block size.", "quantifier": "every host block-size sequence", "why_tests_cant": "Hosts choose block sizes arbitrarily.", "anchors": ["ladspa-lv2/RubberBandPitchShifter.cpp: activateImpl, runImpl"]}
{"id": "C55", "title": "Expired retired objects are all freed by one scavenge", "statement": "Once every object handed to claim is older than the grace period, one scavenge() call frees all of them, including those that overflowed the slot table.", "quantifier": "every history of claims and scavenges, every slot count >= 1; sequential calls and interleaved threads", "why_tests_cant": "Depends on the overflow list being non-empty in the right slot state and on thread timing.", "anchors": ["src/common/Scavenger.h: scavenge, claim, pushExcess, clearExcess"]}
{"id": "C56", "title": "Every coefficient of the resampling filter is applied", "statement": "When the built-in resampler is streaming at a constant ratio, each output sample is the sum over all coefficients of the polyphase filter that fall on input samples, in other words no coefficient is cut off by the length of the internal delay line.", "quantifier": "for all supported ratios, qualities, channel counts and input streams", "why_tests_cant": "A missing outermost coefficient is far below the tolerance of any audio comparison and depends on the phase; only an argument over all ratios and phases settles it.", "anchors": ["src/common/BQResampler.cpp:330-385", "src/common/BQResampler.cpp:447-520"]}
{"id": "C57", "title": "Changing the resampling ratio keeps the play position and the signal history", "statement": "When the ratio passed to the resampler changes between two calls, output after the change continues from the input position reached before it, to within one step of the new time grid, and is computed from the same input history.", "quantifier": "for all histories of calls, all pairs of ratios, both sudden and smooth changes", "why_tests_cant": "Position errors of a fraction of a sample are inaudible in a test signal, and depend on the phase at which the change happens.", "anchors": ["src/common/BQResampler.cpp:330-445"]}
{"id": "C58", "title": "Planar resampling treats each channel on its own", "statement": "Through the planar (one pointer per channel) interface, the output of each channel is what a single-channel conversion of that channel's input would give; no channel's audio leaks into another.", "quantifier": "for all channel counts >= 1, block divisions, ratios and signals", "why_tests_cant": "Tests use one or two channels with particular block sizes; leakage through an interleaving index error depends on channel count and block size.", "anchors": ["src/common/Resampler.cpp:815-923", "src/common/VectorOps.h:745-814"]}
{"id": "C59", "title": "Offline analysis stays in bounds for any amount of studied audio", "statement": "Whatever audio is studied, including audio so short that it yields one analysis chunk or none, computing the offline stretch profile never reads outside its working arrays.", "quantifier": "every detection function of every length, every sample rate and increment", "why_tests_cant": "Reads one past the end are silent without instrumentation and depend on the exact number of chunks.", "anchors": ["src/common/StretchCalculator.cpp: findPeaks (medianwin)"]}
{"id": "C60", "title": "Real-time output does not drift from the requested time ratio", "statement": "Over any number of real-time steps without transients, the total output produced stays within a constant number of frames of the total requested by the time ratios in force, however long the run; each audible ratio change adds at most half a frame.", "quantifier": "every run length, every ratio history, every hop size", "why_tests_cant": "Drift is the accumulation of rounding over unboundedly many steps.", "anchors": ["src/common/StretchCalculator.cpp: calculateSingle, expectedOutFrame", "src/finer/R3Stretcher.cpp: consume"]}
{"id": "C61", "title": "No phase resets when crisp transients are turned off", "statement": "With hard onsets disabled (smooth or mixed transients) the offline profile contains no phase reset.", "quantifier": "every detection function, ratio and key-frame map", "why_tests_cant": "Depends on coincidences between key frames and detected onsets.", "anchors": ["src/common/StretchCalculator.cpp: mapPeaks, calculate"]}
{"id": "C62", "title": "A ratio change does not affect audio already played", "statement": "After changing time ratio and pitch scale in real-time mode, the output length of later audio follows the new time ratio; audio processed before the change is not compensated for again.", "quantifier": "every history of time ratio and pitch scale settings", "why_tests_cant": "Needs a particular pair of simultaneous changes after a long run.", "anchors": ["src/common/StretchCalculator.cpp: calculateSingle (ratioChanged)", "src/faster/StretcherProcess.cpp: calculateIncrements", "src/finer/R3Stretcher.cpp: consume"]}
{"id": "C63", "title": "Soft onsets are placed where the detection function peaks", "statement": "Every soft onset reported for time alignment is at a chunk at which the smoothed detection function reaches a peak.", "quantifier": "every detection function of every length, every sample rate and increment", "why_tests_cant": "Depends on window alignment for particular lengths and rates.", "anchors": ["src/common/StretchCalculator.cpp: findPeaks"]}
{"id": "C64", "title": "The end of the input counts as followed by silence", "statement": "Offline, the windows analysed near the end of the stream are those of the input followed by silence.", "quantifier": "every input, every block partition", "why_tests_cant": "Only the last few windows are affected and a listener hears a faint repetition.", "anchors": ["src/faster/StretcherProcess.cpp: processChunks, processOneChunk"]}
{"id": "C65", "title": "Output waiting to be retrieved is never dropped", "statement": "In real time the samples a caller gets do not depend on how soon they retrieve them: every chunk the engine writes is appended whole to the output waiting, the buffer being enlarged when it must.", "quantifier": "every history of process and retrieve calls, every pitch scale and option", "why_tests_cant": "needs an output buffer filled to within one chunk of its end, at a fill level that depends on all earlier retrievals", "anchors": ["src/faster/StretcherProcess.cpp:488-514", "src/faster/StretcherProcess.cpp:1033-1189"]}
{"id": "C66", "title": "The R2 engine is a fixed function of the whole input", "statement": "In offline mode the samples delivered so far are those obtained by taking windows of the whole input at multiples of the input increment, analysing and modifying them one after another, overlap-adding the results at the positions given by the stretch profile and dropping the start delay; block sizes and retrieval pattern have no influence.", "quantifier": "every input, block partition, retrieval pattern, stretch profile, spectral processing", "why_tests_cant": "An equality over all inputs and all partitions.", "anchors": ["src/faster/StretcherProcess.cpp: processChunks, processChunkForChannel, synthesiseChunk, writeChunk, writeOutput", "src/faster/R2Stretcher.cpp: process"]}
{"id": "C67", "title": "No output sample is divided by a zero weight", "statement": "The window sum by which an output sample is normalised is positive for every sample written.", "quantifier": "every sequence of shift increments, incl. those that key frames cause", "why_tests_cant": "Needs a shift of exactly the window length.", "anchors": ["src/faster/StretcherProcess.cpp: writeChunk, synthesiseChunk", "src/common/Window.h: encache"]}
{"id": "C68", "title": "Real-time processing keeps up with its input", "statement": "After a real-time process() call returns, less than one analysis window of input remains unprocessed, so latency does not grow with block size.", "quantifier": "every sequence of block sizes", "why_tests_cant": "the backlog builds up over many calls and only for blocks longer than the hop", "anchors": ["src/faster/R2Stretcher.cpp:1293-1354", "src/faster/StretcherProcess.cpp:330-373"]}
{"id": "C69", "title": "A whole offline session delivers the advertised number of frames", "statement": "Create an offline R2 stretcher, change ratios or sizes any number of times before starting, study a recording in any blocks, process it in any blocks while calling available() and retrieve() in any pattern: every answer has the same number of frames on each channel, the total never exceeds round(N x ratio), and it equals round(N x ratio) once enough has been asked for.", "quantifier": "all sample rates, ratios, window options, channel counts, setting histories, study partitions, process partitions and retrieval patterns", "why_tests_cant": "The set of call sequences is infinite and the result hangs on an invariant across constructor, setters, study, stretch calculation, processing and retrieval; a test covers one sequence on one file.", "anchors": ["src/faster/R2Stretcher.cpp:study", "src/faster/R2Stretcher.cpp:calculateStretch", "src/faster/R2Stretcher.cpp:process", "src/faster/StretcherProcess.cpp:getIncrements", "src/faster/StretcherProcess.cpp:writeOutput", "src/faster/StretcherProcess.cpp:available", "src/faster/StretcherProcess.cpp:retrieve"]}
{"id": "C70", "title": "Study result does not depend on how the signal is divided over study calls", "statement": "In offline mode with the faster engine, the stretch profile computed from a study pass depends only on the sequence of samples given to study, not on how the application cuts it into blocks, so an application may study in blocks of any size and get the same output.", "quantifier": "for all signals, ratios and options, and all ways of cutting the signal into study calls", "why_tests_cant": "a test compares a few block sizes; the number of ways to cut a signal is exponential in its length, and the differences appear only for particular remainders of the last block", "anchors": ["src/faster/R2Stretcher.cpp:949-1094", "rubberband/RubberBandStretcher.h:894-925"]}
{"id": "C71", "title": "Detector option is honoured", "statement": "The onset detector the faster engine uses is the one named by the detector option in force: the one given on construction until it is changed, and in real-time mode the one last given to setDetectorOption.", "quantifier": "for all option words and all sequences of option-setter calls", "why_tests_cant": "the detector affects only where transients are found, so a test on one signal may give the same output with any detector; the claim concerns every sequence of calls", "anchors": ["src/faster/R2Stretcher.cpp:58-160", "src/faster/R2Stretcher.cpp:880-907", "rubberband/RubberBandStretcher.h:218-234"]}
{"id": "C72", "title": "Low-frequency energy held back ahead of a drum hit is given back", "statement": "With the finer engine and several windows, low-frequency energy that is taken out of the frame ahead of a drum hit is added to the frame of the hit: over a stream no energy is lost or kept for ever.", "quantifier": "every sequence of frames, every rate from 8 to 192 kHz", "why_tests_cant": "The state carried between frames depends on the whole history; a test would have to hit a rise of the right size at the right moment.", "anchors": ["src/finer/R3Stretcher.cpp: adjustPreKick, analyseChannel", "src/finer/Guide.h: updateGuidance, checkPotentialKick"]}
{"id": "C73", "title": "A finer-engine stream is timed the same however it is cut into blocks", "statement": "In real time the number of frames the finer engine makes of a stream depends on the samples supplied and the ratios, not on the sizes of the blocks they arrive in or on when the output is retrieved.", "quantifier": "every stream, every way of cutting it into blocks up to the limit, every sequence of retrievals", "why_tests_cant": "a test compares one or two block sizes; the dependence shows only at ratios whose hop does not come out whole, and grows with the length of the block", "anchors": ["src/finer/R3Stretcher.cpp:951-1164", "src/common/StretchCalculator.cpp:325-514"]}
{"id": "C74", "title": "Every call of the finer engine returns", "statement": "No sequence of calls, with whatever arguments, makes the finer engine loop for ever or run a frame over the end of its accumulators.", "quantifier": "every list of calls, every option set, every sample rate", "why_tests_cant": "a test cannot run every ratio and block pattern; an overrun may go unnoticed", "anchors": ["src/finer/R3Stretcher.cpp:708-875", "src/finer/R3Stretcher.cpp:951-1164", "src/finer/R3Stretcher.cpp:1634-1667"]}
{"id": "C75", "title": "Live shifter delay is the delay it reports", "statement": "After discarding the first getStartDelay() samples of the output of a live shifter, the output is aligned in time with the input: the analysis frame centred on the first input sample is output centred at that delay.", "quantifier": "every sample rate, window option, pitch scale and length of stream", "why_tests_cant": "The tests compare phase only at pitch scale 1 and otherwise only the frequency of a sinusoid, which does not depend on the delay.", "anchors": ["src/finer/R3LiveShifter.cpp: getStartDelay, measureResamplerDelay, shift, generate", "rubberband/RubberBandLiveShifter.h: getStartDelay"]}
{"id": "C76", "title": "Plug-in wet path neither loses, repeats nor runs out", "statement": "In the LADSPA/LV2 pitch shifters every input sample is given to the stretcher once and in order (behind the reserve of silence, or behind one block of silence in the live plug-in), every sample the stretcher makes reaches the host once and in order, and no host buffer is left partly unwritten, for every sequence of host block sizes within the plug-in's buffers and every sequence of mixes, with any stretcher that keeps within 8192 samples of real time (any shifter that gives a block for a block, in the live plug-in).", "quantifier": "every stretcher, every host block sequence, every mix", "why_tests_cant": "Host block sizes and the stretcher's own chunking interleave without bound.", "anchors": ["ladspa-lv2/RubberBandPitchShifter.cpp: runImpl", "ladspa-lv2/RubberBandR3PitchShifter.cpp: runImpl", "ladspa-lv2/RubberBandLivePitchShifter.cpp: runImpl"]}
{"id": "C77", "title": "The R2 engine in real time is a fixed function of what it is given", "statement": "In real-time mode, before the final block, what each channel has delivered and holds ready is what one gets by taking a window of every channel at successive multiples of the input increment, deciding the increments from all of them together, modifying each window and overlap-adding the results, for some number of the chunks that are complete in the input. Block sizes and retrieval pattern decide only how many chunks that is; with blocks no longer than the input increment it is all of them.", "quantifier": "every number of channels, input, block partition, retrieval pattern, spectral processing, increment decision", "why_tests_cant": "An equality over all inputs, all partitions of them into calls and all channel counts.", "anchors": ["src/faster/R2Stretcher.cpp: process", "src/faster/StretcherProcess.cpp: processOneChunk, testInbufReadSpace, calculateIncrements, processChunkForChannel, synthesiseChunk, writeChunk, available, retrieve"]}
{"id": "C78", "title": "At ratio 1 and pitch 1 the R2 engine hands its input through", "statement": "A real-time stretcher with the R2 (faster) engine at time ratio 1 and pitch scale 1, freshly made or reset, gives back its input: after the start pad and start delay the interface names, output sample j equals input sample j exactly, for every signal, block size, number of channels, transient and phase-reset option; nothing is delayed further, amplified or smeared.", "quantifier": "all input signals, all block divisions and retrieval patterns, all channel counts, all detector outcomes", "why_tests_cant": "A test compares finitely many signals within a tolerance, usually skips the start and end, and cannot tell an exact identity from a near one; whether a detector firing at an unlucky moment breaks the identity depends on all possible onset patterns.", "anchors": ["src/faster/StretcherProcess.cpp:517-648", "src/faster/StretcherProcess.cpp:724-905", "src/faster/StretcherProcess.cpp:962-1125", "src/common/Window.h:60-160", "src/faster/R2Stretcher.cpp:405-500", "src/faster/R2Stretcher.cpp:834-860"]}
{"id": "C79", "title": "A channel's memory is always large enough and all given back", "statement": "From the moment a channel of the R2 engine is made until it is destroyed, through any sequence of window/FFT size changes, output and resample buffer enlargements, late resamplers and resets, no access falls outside a live block, every working buffer is at least as long as the window and transform asked for last, the transform in use has that size, what the overlap-add accumulators hold is kept across a change of size, and destruction frees every block exactly once and leaves the rest of the program's memory as it was.", "quantifier": "every initial size, every set of prepared transform sizes, every sequence of operations, every state of the surrounding heap", "why_tests_cant": "Sequences of resizes are unbounded, and a leak or an out-of-bounds write often passes a test.", "anchors": ["src/faster/StretcherChannelData.cpp: construct, setSizes, setOutbufSize, setResampleBufSize, reset, ~ChannelData", "src/faster/R2Stretcher.cpp:650-684, 794-817"]}
{"id": "C80", "title": "A steady tone keeps its frequency and its phase through any stretching", "statement": "With the R2 engine, a tone in the input stays a tone of the same frequency in the output: from one chunk to the next its phase goes on from what was last played, by the frequency times the output increment, whatever was done with the stretcher before; at a transient it starts again with the phase of the input; and with equal increments it is played as it came.", "quantifier": "every history of chunks, ratios, options and size changes; every tone and every output increment", "why_tests_cant": "Phases drift over thousands of chunks; a jump needs a particular history of ratio changes and transients, and is heard, not compared.", "anchors": ["src/faster/StretcherProcess.cpp: modifyChunk, synthesiseChunk", "src/faster/StretcherChannelData.cpp: reset, setSizes"]}
{"id": "C81", "title": "Formants are put back where they were", "statement": "With formant preservation the spectral envelope of the output, after the pitch shift, is that of the input: each bin gets the envelope of the bin it will be moved from, in both engines, without any access outside the buffers, and with no change when the envelope stays in place.", "quantifier": "every spectrum, pitch scale, formant scale, sample rate and transform size", "why_tests_cant": "In-place copying depends on the rounding of each product; the edges are single bins.", "anchors": ["src/faster/StretcherProcess.cpp: formantShiftChunk", "src/finer/R3Stretcher.cpp: analyseFormant, adjustFormant", "src/finer/R3Stretcher.h: FormantData::envelopeAt"]}
{"id": "C82", "title": "The smoothing window fits the chunk", "statement": "With OptionSmoothingOn every chunk is weighted with an interpolating window made for the current window size and the chunk's shift, symmetric about the middle, though the window is kept between chunks.", "quantifier": "every sequence of chunks, changes of size and resets", "why_tests_cant": "A stale window is only used when a change of size meets a chunk with the same shift as the one before.", "anchors": ["src/faster/StretcherProcess.cpp: synthesiseChunk", "src/faster/SincWindow.h: write, writeHalf", "src/faster/StretcherChannelData.cpp: setSizes, reset"]}
{"id": "C83", "title": "Offline at ratio 1 every sample stays in its place", "statement": "Offline with the R2 engine, both ratios 1 and no key frames, output sample t is input sample t, whatever onsets study() found and however the input is divided into blocks: the silence put before the input and the delay taken off the output cancel exactly, and nothing is mixed in from elsewhere.", "quantifier": "for all inputs, block divisions, detector and transform behaviours, window and increment sizes, and times t", "why_tests_cant": "A test compares a few signals at default sizes within a tolerance wide enough to hide both a shift by a few samples of a slow signal and a level error; the claim is about every sample position of every signal.", "anchors": ["src/faster/StretcherProcess.cpp:1127-1189", "src/faster/R2Stretcher.cpp:715-720", "src/faster/R2Stretcher.cpp:1262-1265", "src/common/StretchCalculator.cpp:79-195", "src/faster/R2Stretcher.cpp:478-494"]}
{"id": "C84", "title": "With the R3 engine a stretched tone keeps its frequency and phases stay related across bins and channels", "statement": "In the R3 engine the phases used to resynthesise a frame are such that: with a time ratio of 1 each equals the phase of the input; at a transient they are set to the input's; the bin at the peak of a steady tone advances by the tone's frequency times the output hop, frame after frame, whatever the hops; bins around a peak keep their phase against it; a channel that is locked to a louder one keeps its phase against it; after reset() the same input gives the same phases as a new object. Phases are computed for exactly the bins of the FFT size's range, no memory outside the arrays is touched.", "quantifier": "all sample rates from 8000 to 192000 Hz, FFT sizes, numbers of channels, guidance, magnitudes, phases and hops; all histories of frames and resets", "why_tests_cant": "Phases accumulate over a whole session and depend on peaks found in data; a test compares a few frames of a few signals, an error of one bin or channel in the locking is inaudible in most of them.", "anchors": ["src/finer/PhaseAdvance.h:53-89", "src/finer/PhaseAdvance.h:91-245", "src/finer/Guide.h:115-193", "src/finer/Guide.h:199-462"]}
{"id": "C85", "title": "All FFT sizes of a frame of the finer engine look at the same moment of the sound, at any ratio", "statement": "However the sound is supplied in blocks, the ratio changed between them and the stretcher reset, each frame of the finer engine is made of stretches of the sound, one for each FFT size, with a common centre at the place the input has reached; that of the classification too, which may have been analysed one hop earlier. Consecutive places are one input hop apart. What the classifier judges is on one scale, so that a sound that does not change is not judged differently because the ratio changed.", "quantifier": "every sound, block division, output hop, sequence of ratios, end of input and reset; every analysis function; every rate and option", "why_tests_cant": "A stale or misplaced readahead frame sounds like slight smearing after a ratio change; no test compares the frames with the sound for all sequences of ratios.", "anchors": ["src/finer/R3Stretcher.cpp: analyseChannel, consume, calculateHop, reset", "src/finer/R3Stretcher.h: ChannelData"]}
{"id": "C86", "title": "The library's own Fourier transforms are Fourier transforms, at every size, and undo each other", "statement": "For every size n >= 1 (below 2^32), every n real samples and whatever the transform object was used for before, the forward transform gives for each k <= n/2 exactly the sum of the samples turned by -jk/n of a circle. The inverse transform of any n/2+1 bins gives the real signal whose whole spectrum is those bins and their mirror images, not divided by n. Forward followed by inverse gives n times the input, in Cartesian form and by way of magnitude and phase, where the magnitudes are not negative. The fast transform used for powers of two and the plain one used for other sizes give the same values. No access is out of bounds.", "quantifier": "all sizes, all inputs, all earlier contents of the object's memory", "why_tests_cant": "A test compares a few sizes and signals within a tolerance; it cannot show that every bin of every size is the right sum, nor that both implementations are the same function.", "anchors": ["src/common/FFT.cpp:1947-2304", "src/common/FFT.cpp:2308-2424", "src/common/FFT.cpp:2593-2646", "src/common/VectorOpsComplex.h:68-107"]}
{"id": "C87", "title": "What the R2 engine takes for an onset or for silence depends only on what is heard, not on how loud it is or on what came long before", "statement": "The number an onset detector of the R2 engine reports for a frame is, for every sequence of frames, the one given by a small description: the percussive detector reports the share of the non-empty bins up to 16 kHz that rose by 10^0.15 or came from nothing; the soft detector reports a half exactly when the high-frequency rise (measured against the 85th and 90th percentiles of the last 19 frames) falls from something positive after four frames without a fall; the compound detector takes the percussive number when it is above 0.35 and larger. Reports lie between 0 and 1; bins above 16 kHz make no difference; turning the level up or down makes no difference while no bin crosses 10^-8; only the last 25 frames matter; no call is out of bounds in any order of frames, resets, type and size changes. After a reset the detector reports what a new one would. The silence detector says silent exactly when nothing that is heard exceeds 10^-6.", "quantifier": "all frame sequences, levels, sample rates, transform sizes and call orders", "why_tests_cant": "A test tries a few recordings; it cannot show that level, ultrasonic content or distant history never change a decision, nor find the few frames after a reset in which they do.", "anchors": ["src/faster/CompoundAudioCurve.cpp:34-163", "src/faster/PercussiveAudioCurve.cpp:35-110", "src/faster/HighFrequencyAudioCurve.cpp:44-71", "src/faster/SilentAudioCurve.cpp:46-71", "src/faster/AudioCurveCalculator.cpp:33-69", "src/common/MovingMedian.h:51-215"]}
{"id": "C88", "title": "The command-line program ends, writes the whole output with one gain and within full scale, and gives the stretcher the whole input at the right pitch", "statement": "For every input file, every pitch map and everything the stretcher may put out, the command-line program ends, after at most 289 passes. The file it leaves is that of one single pass, with nothing left from passes broken off because of clipping; every sample in it lies within full scale; offline it is all that the stretcher put out, every sample multiplied by one gain between 3/4 and 1, and the gain is 1 exactly if no sample reached full scale or clipping was ignored from the start; in real time it is cut to input length times ratio (if the stretcher has not exceeded that before its last call). In each pass the stretcher is given every frame of the input once and in order, after the silence it asked for, is told once that it is the end, and each frame is given while the pitch that the pitch map has for this very frame is set. The ratio is the product of those asked for, or with --duration what makes the input as long as asked for; it is positive. Findings: output that arrives after the last call (worker threads) is cut off at full scale without a new pass although clipping is not to be ignored; a header that understates the number of frames makes the program drop the rest; a negative --duration passes the check of the ratio and the stretcher is made with a negative one.", "quantifier": "all input files and headers, all option settings modelled, all pitch maps, all stretchers whose output is a function of the calls made", "why_tests_cant": "Restarting depends on which samples clip in which pass; a test sees a few loud files and never the longest chain of restarts, and cannot try every pitch map against every block boundary", "anchors": ["main/main.cpp:192-196", "main/main.cpp:378-381", "main/main.cpp:579-586", "main/main.cpp:708-1044"]}
{"id": "C89", "title": "What a sound leaves behind in the R3 engine is gone after reset() or silence", "statement": "With the R3 engine, how the sound that follows is treated (which frequency bands go with which window size, where phases are taken over from the input, where channels are locked) does not depend on what was played before a reset(), nor on what was played before a silent frame; and while the ratio is 1 in real time the phases of the whole spectrum come to be taken from the input within a fixed number of frames, whatever was played before. Findings: reset() leaves the guidance as it was, so after a reset the bands can stay different from those of a new stretcher for as long as the following sound lasts; and a live shifter at scale 1, which when new takes all phases from the input in its first frame, after reset() takes fifty frames until it does.", "quantifier": "all sample rates from 8000 to 192000, all sequences of frames (magnitudes, segmentations, ratios, hops), all earlier guidances", "why_tests_cant": "The difference after reset() is in internal choices that depend on the earlier sound; a test compares a few outputs, and two band layouts both give plausible sound", "anchors": ["src/finer/Guide.h:199-462", "src/finer/Guide.h:498-559", "src/finer/R3Stretcher.h:254-268", "src/finer/R3Stretcher.cpp:552-584", "src/finer/R3LiveShifter.cpp:109-111", "src/finer/R3LiveShifter.cpp:298-318"]}
{"id": "C90", "title": "Phase locking follows the ratio; channels are locked, freed and phases reset where they should be", "statement": "With the R3 engine, in every sequence of frames, every frequency from 0 to nyquist belongs to exactly one band of phase locking (the bands follow one another upwards), with a neighbourhood that gets no smaller upwards and at most 5 bins; the factor of the locking lies between 1 and (2 + ratio) / 3, moving away from 1 upwards, so that it is 1 at ratio 1. In every frame that is neither silent nor at ratio 1 the channels are locked from 0 Hz up to 600 Hz (or nyquist, if asked for), above ratio 2 less far, but never below 100 Hz; above ratio 2 everything is free from some frequency to nyquist, and this range begins neither below the end of the channel lock nor below the percussive range, whichever is lower; phases are reset exactly when a residual range wider than 4 kHz opens, and then over this range in the frame and in the next. In silence and offline at ratio 1 all phases are reset and nothing is locked. Finding: when the ratio goes back to 1 in real time the bands and factors stay those of the last other ratio.", "quantifier": "all sample rates from 9600 (one window: 8000) to 192000, all sequences of frames, all ratios and hops", "why_tests_cant": "The guidance is internal and depends on the history and on real-valued segmentations; the sound is plausible either way", "anchors": ["src/finer/Guide.h:199-462", "src/finer/Guide.h:598-606"]}
{"id": "C91", "title": "A key-frame map stays in force until the first block", "statement": "Offline, a key-frame map given before the first block is the one the sound is stretched by, whatever else is set, studied or asked for between setKeyFrameMap and the first process call; reset() forgets it. With the finer engine the order of the calls makes no difference. With the faster engine studying and the getters make none, but any later setTimeRatio, setPitchScale, setExpectedInputDuration or (larger) setMaxProcessSize that changes its value silently drops the map.", "quantifier": "for all engines offline before the first block, all maps, all sequences of preparatory calls and whatever follows", "why_tests_cant": "The order of the set-up calls and their values is unbounded; a test fixes one order, in which the map is usually set last.", "anchors": ["src/faster/R2Stretcher.cpp:238-340", "src/faster/R2Stretcher.cpp:560-724", "src/faster/R2Stretcher.cpp:726-745", "src/finer/R3Stretcher.cpp:204-279", "src/finer/R3Stretcher.cpp:551-613"]}
{"id": "C92", "title": "A map file given on the command line means what its lines say", "statement": "For a time, frequency or pitch map file whose lines are blank or have a frame number and a value, separated by spaces, the map the program uses has for each frame what the last line for it says, in ascending order, and nothing else. A file with a line of a single word is refused, at the first such line, whose number counted from 0 is reported; no other file is refused as malformed.", "quantifier": "for all files: any number of lines in any order, any spacing, any decimal numbers up to 2147483647, with or without a final line end", "why_tests_cant": "The files are unbounded in length, order, spacing and values; a test has a few well-formed files.", "anchors": ["main/main.cpp:453-494", "main/main.cpp:496-549"]}
{"id": "C93", "title": "With laminar phases, neighbouring bins keep the phase relation they have in the input, or each goes by its own frequency", "statement": "With the R2 engine and laminar phases (the default), a ratio other than 1 and no transient, every frequency bin of a chunk either goes on from what was played by its own frequency, or follows the bin above it. It follows just when that bin is steadier, their phase errors move the same way, it is no band edge of mixed transients, and fewer bins follow in a row than its frequency allows (none up to 600 Hz, 1, 3 and then 8, the frequencies rising with the ratio). The first bin below one that goes by itself keeps exactly the phase difference the input has between the two; each further one blends in an eighth more of its own advance.", "quantifier": "every state of a channel, every chunk with its phases, ratio and increment", "why_tests_cant": "The parts of the bins depend on all phases at once; a wrong blend or a wrong limit only makes the sound phasier.", "anchors": ["src/faster/StretcherProcess.cpp: modifyChunk", "src/faster/R2Stretcher.cpp: m_freq0"]}
{"id": "C94", "title": "A timed wait of a thread ends when its time is over", "statement": "When a thread of the R2 engine waits for data or for space for a number of microseconds, it is given a point in time exactly that long from now, and one the system accepts, whatever the time of day: it neither waits longer nor returns at once.", "quantifier": "every time of day, every positive time to wait", "why_tests_cant": "It fails for one microsecond in a million and then shows only as a thread that spins once.", "anchors": ["src/common/Thread.cpp: Condition::wait", "src/faster/StretcherProcess.cpp: ProcessThread::run", "src/faster/R2Stretcher.cpp: process"]}
{"id": "C95", "title": "Coming back to ratio 1, the phases return to those of the input gradually, and everywhere", "statement": "With the R2 engine, when the ratio comes back to 1 after stretching, the phases are put back to those of the input little by little over the next chunks, so that nothing clicks, and in the end in every frequency bin, so that the sound is again handed through.", "quantifier": "every history that ends in a chunk at another ratio; every number of chunks at ratio 1 after it; every bin", "why_tests_cant": "A jump of most phases at once, or a band that stays off for ever, is heard at most as a click or as dull treble, and only after a particular history of ratios.", "anchors": ["src/faster/StretcherProcess.cpp: modifyChunk", "src/faster/StretcherChannelData.h: unityResetLow"]}
{"id": "C96", "title": "Telling the stretcher the duration of the input never costs audio", "statement": "With the R2 engine offline, telling the exact number of input frames (setExpectedInputDuration, which is documented without a restriction on when) makes the length of the output exactly right and loses nothing, before the study pass, between the passes, within the processing pass, or before the output is fetched.", "quantifier": "every state of the stretcher, every duration", "why_tests_cant": "Tests tell the duration first, or not at all.", "anchors": ["src/faster/R2Stretcher.cpp: setExpectedInputDuration, setMaxProcessSize, reconfigure, configure", "rubberband/RubberBandStretcher.h: setExpectedInputDuration"]}
