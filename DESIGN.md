# Formal model of Rubber Band: design

The source is `/repo` (breakfastquay/rubberband, C++). It is read as text and is not built or run.
The model is written in Gallina (Rocq/Coq 8.16.1) under `rocq/theories`.
The only link between model and code is the reading: every definition cites file and lines.

## Layout

For each component there is a directory under `rocq/theories`:

| file | content |
|---|---|
| `X/Model.v` | executable definitions, function by function, with citations |
| `X/Spec.v` | the small independent specification used in the statements |
| `X/Proofs.v` | lemmas |
| `X/Props.v` | only property theorems (closed by `exact`), `Print Assumptions`, non-vacuity examples |

`Base/` holds shared arithmetic and list lemmas. Larger components use several such groups, with a prefix on the file names.

| directory | code it models |
|---|---|
| `RingBuffer` | `common/RingBuffer.h`, single client and interleaved reader/writer |
| `Filters` | `common/HistogramFilter.h`, `common/MovingMedian.h`, `common/SingleThreadRingBuffer.h` |
| `Scavenger` | `common/Scavenger.h`, `RingBuffer` replacement in `faster/` |
| `MathMisc` | `common/mathmisc.h/.cpp` and the rational fitting in `common/BQResampler.cpp` |
| `Resampler` | `common/BQResampler.cpp`, wrapper `common/Resampler.cpp` |
| `Calculator` | `common/StretchCalculator.cpp` |
| `Faster` | real-time R2 session, sizes, overlap-add, vocoder, unity runs (`faster/*`) |
| `Offline` | study/process of R2 without threads |
| `Options` | constructor options and setters, `RubberBandStretcher.cpp` |
| `Finer` | R3: guide, peaks, segmenter, classifier, kick, readahead, phase advance, session; R3 live shifter |
| `Plugin` | LADSPA/LV2 shells |
| `Folding` | windowing and cutting/rotating of frames, formant envelope |
| `Memory` | `common/Allocators.h`, channel buffers |
| `Threads` | offline R2 with processing threads, buffer replacement |
| `Fourier` | `common/FFT.cpp` (built-in and plain transforms), polar conversion of `common/VectorOpsComplex.h` |
| `Curves` | `faster/AudioCurveCalculator`, `PercussiveAudioCurve`, `HighFrequencyAudioCurve`, `SilentAudioCurve`, `CompoundAudioCurve` |
| `Command` | `main/main.cpp` from the first pass on, and the time ratio |
| `Phases`, `Frames` | R2 phase modification, synthesis windows and frame lengths |

## Conventions of the models

* `int`/`size_t` are unbounded `Z` or `nat` unless the property is about wrap-around. Machine overflow is out of scope elsewhere.
* `double`/`float` values: samples are elements of an abstract type (sections) or of `Z`/`Q`/`R`.
  Control arithmetic on doubles (ratios) uses exact rationals. Rounding errors of IEEE arithmetic are out of scope unless a file says otherwise.
* C++ undefined behaviour (out-of-bounds index, division by zero, null access) is a distinct outcome (`None` / `UB`) where the property concerns it.
* Loops become structural recursion, or recursion on fuel where running out of fuel is an error value.
* Logging, assertions, allocation failure, and SIMD/IPP/vDSP variants are not modelled.

## Trusted base

* The Coq 8.16.1 kernel (`coqchk` re-checks all files).
* Axioms: what `Print Assumptions` prints under each theorem. Most theorems are closed under the global context.
  Theorems over real numbers list the axioms of Coq's classical reals. Section "Axioms" below lists them per theorem.
* The reading of the C++ code into the model (see "Modelled / not modelled").

## Axioms

Every theorem named in `MANIFEST.json` is closed under the global context, except these (`Print Assumptions` under each):

| theorems | axioms (all of Coq's standard library) |
|---|---|
| `C15_princarg` | `ClassicalDedekindReals.sig_forall_dec`, `FunctionalExtensionality.functional_extensionality_dep` |
| `C15_princarg_pi`, `C27_reals_closed`, `C27_convex`, `C78_unity_partial`, `C78_start_too_loud`, `C78_unity_refuted`, `C83_in_place_partial`, `C83_start_too_loud`, `C83_unity_refuted`, `C86_forward`, `C86_backward`, `C86_round_trip`, `C86_alike` | the same two and `ClassicalDedekindReals.sig_not_dec` |
| `C86_polar_round_trip` | the same three and `Classical_Prop.classic` |

No axiom, parameter or hypothesis outside a section is declared in this development.

## Modelled / not modelled

Modelled: the parts of the files in the layout table that the citations name, in exact arithmetic.

Not modelled:

* IEEE rounding, infinities and NaN, except where a property names them (C41).
* The Fourier transforms of other libraries (IPP, vDSP, SLEEF, FFTW, KissFFT). The two in-tree ones are modelled in `Fourier`, over the reals.
  The models of the engines do not call them: where a frame is transformed there and back they take the inverse to undo the forward one, which C86 proves of the in-tree transforms.
* Third-party resamplers (libsamplerate, Speex, IPP) and the values of the built-in resampler's filter; its positions, counts and history are modelled.
* SIMD, vDSP, IPP and Pommier variants of `common/VectorOps*.h`.
* Weak memory. Interleavings are sequentially consistent.
* Profiler, logging, `sysutils`, the command-line program's option parsing and its file formats, the JNI and C wrappers, and the Vamp plug-in.

## Plan per property

| id | what is modelled | how it is proved |
|---|---|---|
| C01 | RingBuffer as array + two indices with all operations | refinement to a bounded queue (list), induction over operation lists |
| C02 | same | invariant; array accesses through a checked store (`None` = out of bounds) |
| C03 | same | corollary of the refinement |
| C04 | `resized` loop | induction over unread count |
| C05 | two-thread step semantics, one shared access per step | inductive invariant over all schedules |
| C06 | destination array in `read`/`peek` | refuted by witness; partial: the transferred prefix is right and the tail untouched |
| C07 | MovingMedian incl. all update loops | invariant: sort space is the sorted permutation of the window |
| C08 | `filter` loop | loop invariant; equality with the centred-window median |
| C09 | HistogramFilter | invariant: histogram = counts of window |
| C10 | mode cache | refuted by witness; partial: correct for histories that query before wrap-around eviction |
| C11 | Scavenger, clock as input | multiset invariant over operation lists |
| C12 | same | refuted by witness; partial for slot objects |
| C13 | roundUp bit loop | arithmetic on powers of two |
| C14 | Farey loop over Q | Stern-Brocot invariant; nearest-ness refuted or proved |
| C15 | princarg over R | floor properties (stdlib reals) |
| C16 | calculate / mapPeaks over Q | induction over regions |
| C17 | same | refuted by witness; partial: exact region condition |
| C18 | same with key-frame map | prefix-sum statement by induction over regions |
| C19 | findPeaks | loop invariants over candidate sets |
| C20 | calculateSingle state machine over Q | case analysis and induction over call sequences |
| C21 | phase_data_for, phase orbit | modular arithmetic |
| C22 | resampleInterleaved without fade over abstract samples | stream refinement: loop over concatenation |
| C23 | same | counting function of the phase orbit |
| C24 | same, checked array access | invariant on fill, phase and filter index |
| C25 | same with limited output space | refuted by witness; partial with ample space |
| C26 | state incl. two states and reset | refuted by witness; partial: no ratio change before |
| C27 | fade counters and gain | refuted by witness; partial |
| C28 | calculateSizes over Q | refuted by witness; partial for base size >= 512 |
| C29 | process / consumeChannel / processOneChunk buffer levels and contents | invariant, variant for termination |
| C30 | writeOutput counters | refuted by witness; partial |
| C31 | getSamplesRequired, real-time call histories | lockstep invariant over all channels; partial without resampling first |
| C32 | available, processOneChunk, real-time call histories | lockstep invariant, termination measure; refuted for streams under half a window |
| C33 | Offline/Life: phases of a whole offline R2 stretcher over all call lists | simulation: a call in a phase that refuses it leaves the state unchanged; ratio change after the end refuted by witness |
| C34 | Options/*: option word, the setters of both engines and their dispatch | invariant over all call lists, bit by bit |
| C35 | Offline session with reset | partial: ratios kept; refuted by witness: the old stretch profile stays |
| C36 | Threads/OutModel: buffers as ranges of sample numbers; worker's copy and install, client's load and read, one transition each | invariant over all interleavings (nothing lost); exactly once without overlap; duplicates refuted by schedule |
| C37 | Threads/Model: the loop of ProcessThread::run with processChunks, one shared access per transition, condition flag and time-out; client writes, closes, abandons | invariant and decreasing measure over all schedules; completion mark refuted for a chunk as long as the synthesis window |
| C38 | Offline/MidSide: a whole session with mid-side coding against the same session given coded input | simulation by a bisimulation relation; codec inverse over Qc |
| C39 | accumulator shift/emit | algebraic: emitted stream equals sum of shifted frames |
| C40 | Finer/EngineModel analysisCuts, synthesisCuts, windowSource, newShape | case analysis over the sizes a power-of-two rounding of the rate can give |
| C41 | Finer/EngineModel sanitise, inhopFor, outhopFor | arithmetic of the hop; invariant over calls; refutation by vm_compute |
| C42 | Finer/EngineModel, whole sessions | accounting invariants over calls (EngineSession), final drain loop (EngineMore); refutations |
| C43 | Finer/EngineModel updateRatioFromMap | invariant relating the key last passed to the position last seen (EngineKeys); refutations |
| C44 | Finer/EngineModel ensureInbuf, feed, consume | conservation of input counts over one call in every reachable state; refutation |
| C45 | Finer/EngineModel areWeResampling | case analysis, and the invariant that real time has a resampler |
| C46 | Finer/GuideModel: Guide.h updateGuidance in full (bands, kicks, resets, locks, unity, silence), synthesisBins of R3Stretcher.cpp:1585-1602; doubles as rationals | invariant over every sequence of frames (GuideProofs: run_good); bins at a split by arithmetic on floor; refuted below 9600 Hz and at the fixed splits |
| C47 | Finer/Peak*: findNearestAndNextPeaks with checked array access | loop invariants; any strict total preorder on the values |
| C48 | Finer/LiveModel: counts of shift, readIn, generate, readOut, setPitchScale, reset, two resamplers as parameters | induction over calls: an invariant on levels for any fair resampler; a tighter one (input level within 50 of the window, output level at most 51) for ideal resamplers; witnesses of dropped input and made-up output |
| C49 | Finer/Classifier*: per-bin medians, queue of frames in a heap | invariant over frames and resets; blocks in use = queue plus current frame |
| C50 | Finer/Segmenter*: modal filter, both boundary scans | loop characterisation, modal filter independent of its past (Filters/Memoryless); refuted as to order of the lower boundary |
| C51 | interleave loops | induction |
| C52 | Folding/Model.v: cutShiftAndFold, unfolding in synthesiseChunk, v_fftshift, R3 scale cutting and cutAndAdd, loops as in the code, out-of-range access is None | loop invariants: the running index is the position modulo the size; swap loop invariant |
| C53 | allocator functions over a heap of blocks with uninitialised cells (Memory/Model) | ownership invariant `holds`: heap = owned blocks + rest; induction over copy/zero/channel loops |
| C54 | Plugin/Model.v: LADSPA/LV2 plug-ins, one channel, ring buffers as bounded queues, any stretcher | dry queue holds exactly the last 8192 input samples across any blocks; overflow witness at 9217; live plug-in's delay line set without the extra block |
| C55 | scavenger | sequential proof; refuted with a concurrent claimer |
| C56 | resampler delay line | refuted at 3/2; bound of one lost tap and sufficient condition proved |
| C57 | resampler ratio change | refuted; position bound proved for every history |
| C58 | planar resampler | refinement to one single-channel conversion per channel |
| C59 | findPeaks with checked array access | refuted for one chunk; proved in bounds for every other length |
| C60 | calculateSingle over Q, any call history | contraction of the feedback loop, induction over calls |
| C61 | calculate with hard onsets off | induction over regions; refuted with a key frame at a soft onset |
| C62 | calculateSingle with simultaneous ratio changes | refuted by witness |
| C63 | soft onset window | window invariant; refuted for short audio and odd windows |
| C64 | chunks at the end of the stream, frames recorded | refuted by witness; partial for complete windows |
| C65 | room asked for before a chunk is written | refuted by two call histories; partial otherwise |
| C66 | whole offline run of one channel | refinement to a fold over windows (VocoderSpec) by invariant on the accumulator |
| C67 | window sums of the overlap-add | refuted with the calculator's own output; induction over shifts |
| C68 | real-time process loop | refuted by witness; invariant for short blocks |
| C69 | Offline/*: constructor, setters, study, process, available, retrieve as one state machine | induction over the call list: `fresh` -> `studied` -> `profiled` -> `running` -> `ended`; refuted at ratio 1/8 by witness |
| C70 | Offline/Partition: study over all divisions of a signal | partial: last block of 1 to 256 frames; refuted for longer and empty last blocks |
| C71 | Options/*: detector type of the onset curve | refuted by witness: construction option ignored; partial: after setDetectorOption in real time |
| C72 | Finer/KickModel: readahead, scaling, guide and adjustPreKick of one channel frame by frame; FFT magnitudes and readahead segmentation are inputs; Finer/FarModel: frames without readahead, and any mixture as the hop changes | invariant over all frame sequences (kstep_ok, far_ok), NoDup induction over bins; refuted by a hit 30% up at 16 kHz, and without readahead by a hit of any strength |
| C73 | Finer/EngineModel, real-time sessions | number of frames by induction over the calls; steadiness of the calculator; refutation |
| C74 | Finer/EngineModel, all sessions | progress measure of consume's loop, invariant over all calls |
| C75 | Finer/LiveModel: getStartDelay, measureResamplerDelay, places of frames | induction over blocks at pitch 1 (all hops equal, levels constant); witnesses at 2 and 1/2 |
| C76 | same model; `played` records what a stretcher has been given and has given, in any pieces | ghost history of the stretcher; level bounds from `paced`; feeding loop ends as an empty stretcher asks for input |
| C77 | Faster/Model.v real-time loops, Faster/RealTimeRuns.v calls; plain function in Faster/RtVocoderSpec.v | Invariant over all channels (RtVocoder.v): accumulator holds the overlap-add of the chunks so far, all channels at the same chunk; induction over rounds, then over calls |
| C78 | Faster/Hann.v, UnityModel.v: the R2 real-time engine of Faster/Model with the periodic Hann window, area weighting, the calculator of Calculator/Model at ratio 1 and the unchanged-frame path over the reals; transforms, phases, detectors arbitrary | C77 reduces the run to overlap-add; the increments stay even (invariant on the calculator), so frames are twice-windowed input; sums of Hann and Hann^2 over a residue class by the Dirichlet kernel; start gain 10/9 refutes the full statement |
| C79 | channel buffers of the R2 engine from construction to destruction (Memory/ChannelModel) | `sized` and `holds` preserved by every operation, induction over the operations |
| C80 | Phases/Model: modifyChunk and synthesiseChunk over rational phases (turns), with all bands, limits, inheritance, and the flag 'unchanged' | invariant over histories; induction on the bins and on the chunks; jumps refuted by histories; Phases/Untouched: frames played as they came, all bins |
| C81 | Frames/FormantModel: cepstral cut, in-place remapping, magnitudes (R2); envelopeAt, adjustFormant (R3) | loop invariants with accesses in bounds; edge cases refuted by computation |
| C82 | Frames/SincModel: SincWindow::write, interpolatorScale, setSizes, reset | loop invariants; invariant over histories; stale window proved in general and refuted for sizes that calculateSizes gives |
| C83 | Faster/UnityModel (spectral path over R with unchanged frames), Faster/Model (prefill, start skip), Calculator/Model (profile) | Calculator regions all n·h frames for n chunks ⇒ every increment ±h; C66 (offline engine = plain function) with unchanged frames; sums of Hann windows; numeric bound of the factor at default sizes by monotonicity of cos |
| C84 | Finer/PhaseModel: GuidedPhaseAdvance (PhaseAdvance.h) whole: constructor, reset, advance with peaks (PeakModel), guidance (GuideModel), channel lock, phases in turns over Q; debug output not modelled | Finer/PhaseProps: one-call specification from the peak picker's (C47) and loops, then induction over histories; reset by simulation; channel lock with different peaks refuted by a run |
| C85 | Finer/AheadModel: input buffer, frames cut for each size, readahead reuse, hops, end of input, reset; analysis of a frame abstract | invariant over all call sequences: a readahead that may be reused is of the place reached, by induction over frames and calls; refuted through the classifier model of C49 |
| C86 | both in-tree transforms (tables, bit reversal, butterflies with the sine recurrence, real pre/post-processing; plain sums), polar conversion, choice of implementation; arrays with explicit bounds | loop invariants on arrays as functions; radix-2 splitting by induction over stages; Hermitian symmetry; sums around the circle cancel |
| C87 | `Curves/Model.v`: the four curve calculators and the compound detector with its two moving medians (those of `Filters`); magnitudes are whole multiples of 10^-12, arithmetic is exact | run of frames against a description from the frames alone by an invariant (windows = last 19 values, rising count); scaling as an order isomorphism; locality from the description; reset refuted by a witness, equal from the fifth frame on |
| C88 | `Command/Model.v`: study, padding, processing and drain loops, gain and restarts of `main.cpp`, the time ratio; the stretcher is any function from the calls made to frames; samples are rationals | each loop in closed form by induction (calls made, frames written); gain falls by at least 1/1000 per restart and stops at 3/4, which bounds the passes; refutations by witnesses |
| C89 | `Finer/GuideMemory.v`: a channel's guidance over a session with resets, on `GuideModel.v` | simulation between two guidances that agree on what the next frame reads; geometric bounds on the phase-reset range; refutations by two fixed points of the update reached with and without the earlier sound |
| C90 | Finer/GuideModel: updateGuidance whole (Guide.h:199-606) | Finer/GuideLocks: step lemma for the lock bands (with the valley bounds of GuideProofs), induction over the frames with the last frame that sets them; ranges by cases of one update from any state; run with a return to ratio 1 as witness |
| C91 | Offline/Model.v (faster engine), Finer/EngineModel.v (finer) | Offline/KeyMap.v: setting the map commutes with each call that sets nothing up anew, by induction over the calls; a changed setting makes a new calculator, so the state is that without the map; the finer engine's calls commute with it, induction over the list |
| C92 | Command/MapFile.v: bytes, getline, trimming, find_first_of, atoi, std::map assignment; atof and pow any functions | Command/MapFileProps.v: lines of the grammar by induction over the file with the map so far as invariant; atoi of a numeral by induction over its digits; the map ascends, which C88 requires of it |
| C93 | Phases/Model: the loop of modifyChunk (as for C80) | induction on the bins from the last one down; the frame stated by the parts of its bins (Phases/Laminar) |
| C94 | Threads/Deadline: Condition::wait of the POSIX version, the computing of the timeout | induction on the carrying loop; refused timeout by computation |
| C95 | Phases/Model (as for C80): the band of the reset at ratio 1 | reset bins by the loop lemma; invariants over any number of chunks at ratio 1 (Phases/Unity); nine bins computed |
| C96 | Offline/Model (as for C69): setExpectedInputDuration, setMaxProcessSize, reconfigure, configure | Offline/Told: what configure leaves in the channels, for all states; the loss, and the mismatch of steps when told between the passes, computed |

## Findings

The theorems whose names end in `_refuted` exhibit concrete runs of the model on which a documented or expected property fails.
Each is recorded in the note of its claim in `MANIFEST.json` together with the part that does hold.
