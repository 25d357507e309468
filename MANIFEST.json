{
 "claims": [
  {
   "property": "C01",
   "status": "proved",
   "theorems": [
    "C01_fifo",
    "C01_in_order_once"
   ],
   "note": "Sequential refinement of RingBuffer to a bounded queue for every call history."
  },
  {
   "property": "C02",
   "status": "proved",
   "theorems": [
    "C02_space_and_bounds"
   ],
   "note": "Array accesses are checked in the model; no reachable state yields out-of-bounds."
  },
  {
   "property": "C03",
   "status": "proved",
   "theorems": [
    "C03_peek_skip_is_read",
    "C03_read_splits"
   ],
   "note": ""
  },
  {
   "property": "C04",
   "status": "proved",
   "theorems": [
    "C04_resized_keeps_unread",
    "C04_resized_continues"
   ],
   "note": ""
  },
  {
   "property": "C05",
   "status": "proved",
   "theorems": [
    "C05_one_reader_one_writer"
   ],
   "note": "Sequentially consistent interleavings; race freedom on slots is proved, so plain slot accesses may be treated so."
  },
  {
   "property": "C06",
   "status": "partial",
   "theorems": [
    "C06_short_read_zero_fill_refuted",
    "C06_short_read_partial"
   ],
   "note": "The documented zero fill is false of the code; the theorem with suffix partial says what a short read does."
  },
  {
   "property": "C07",
   "status": "proved",
   "theorems": [
    "C07_moving_median"
   ],
   "note": "Any history, any ordered value type (keys in Z), default and other percentiles."
  },
  {
   "property": "C08",
   "status": "proved",
   "theorems": [
    "C08_array_median_filter"
   ],
   "note": "In-place array filter; outputs are ranks of the centred clipped window of the original values."
  },
  {
   "property": "C09",
   "status": "proved",
   "theorems": [
    "C09_histogram_median",
    "C09_histogram_median_filter"
   ],
   "note": "Any history of in-range values; also the in-place array filter."
  },
  {
   "property": "C10",
   "status": "partial",
   "theorems": [
    "C10_histogram_mode_refuted",
    "C10_modal_filter_refuted",
    "C10_histogram_mode_partial",
    "C10_modal_filter_partial"
   ],
   "note": "False as documented: a push that evicts the cached mode leaves the stale answer. Proved for histories in which no push after the first query evicts the mode for another value; results are always in range."
  },
  {
   "property": "C11",
   "status": "proved",
   "theorems": [
    "C11_freed_exactly_once",
    "C11_concurrent_freed_exactly_once",
    "C11_concurrent_progress",
    "C11_two_claimers_refuted"
   ],
   "note": "Sequential histories and all interleavings of one claiming and one scavenging thread (sequentially consistent), fewer than 2^32-1 objects. With two claiming threads, which the class documentation forbids but the threaded R2 stretcher does, an object is lost."
  },
  {
   "property": "C12",
   "status": "partial",
   "theorems": [
    "C12_grace_period_refuted",
    "C12_grace_period_partial",
    "C12_concurrent_grace_partial"
   ],
   "note": "False for overflowed objects; proved that only those can be freed early."
  },
  {
   "property": "C13",
   "status": "proved",
   "theorems": [
    "C13_round_up",
    "C13_round_up_div"
   ],
   "note": "All 64-bit values up to 2^63; division exact."
  },
  {
   "property": "C14",
   "status": "partial",
   "theorems": [
    "C14_best_approximation_refuted",
    "C14_production_limit_refuted",
    "C14_nearest_rational_partial"
   ],
   "note": "Not the best approximation (stale bound in the exit comparison); proved: termination, reduced fraction in range, error bounds, exactness up to 1e-9 for representable ratios, one-sided optimality."
  },
  {
   "property": "C15",
   "status": "proved",
   "theorems": [
    "C15_princarg",
    "C15_princarg_pi"
   ],
   "note": "Over the reals (floating rounding not modelled)."
  },
  {
   "property": "C16",
   "status": "proved",
   "theorems": [
    "C16_profile_total",
    "C16_any_map_refuted"
   ],
   "note": "No key frames, or any increasing map that starts at (0,0) (added if absent) with no other key frame in the first chunk; false for maps that do not start at (0,0)."
  },
  {
   "property": "C17",
   "status": "partial",
   "theorems": [
    "C17_one_per_chunk_refuted",
    "C17_one_per_chunk_partial"
   ],
   "note": "False when shortening with hard onsets; proved when lengthening, or with hard onsets off."
  },
  {
   "property": "C18",
   "status": "partial",
   "theorems": [
    "C18_key_frames_refuted",
    "C18_key_frames_partial"
   ],
   "note": "False when an increment is missing (C17); proved for profiles with one increment per chunk."
  },
  {
   "property": "C19",
   "status": "proved",
   "theorems": [
    "C19_onsets"
   ],
   "note": ""
  },
  {
   "property": "C20",
   "status": "proved",
   "theorems": [
    "C20_single_range",
    "C20_transients_spaced",
    "C20_reset_is_fresh"
   ],
   "note": ""
  },
  {
   "property": "C21",
   "status": "proved",
   "theorems": [
    "C21_exact_time_base"
   ],
   "note": "Built-in resampler. Frame k is the filtered input at exactly k*den/num, num/den being the reduced fraction chosen for the ratio; any block division, output space to spare."
  },
  {
   "property": "C22",
   "status": "proved",
   "theorems": [
    "C22_block_size_independence"
   ],
   "note": "Whole output equals textbook rational resampling of the whole input, for every division into blocks with output space to spare."
  },
  {
   "property": "C23",
   "status": "partial",
   "theorems": [
    "C23_output_length_partial",
    "C23_output_length_refuted"
   ],
   "note": "'Within one frame of N*ratio' is false (one frame at 3/2 gives three); proved: between N*ratio and N*ratio+ratio+1, exact when N*ratio is whole, and never over the output space."
  },
  {
   "property": "C24",
   "status": "proved",
   "theorems": [
    "C24_memory_safety",
    "C24_supported_ratios"
   ],
   "note": "Every history of resample/reset calls at supported ratios runs without out-of-bounds access, division by zero or endless loop."
  },
  {
   "property": "C25",
   "status": "partial",
   "theorems": [
    "C25_no_input_lost_refuted",
    "C25_no_input_lost_partial"
   ],
   "note": "False when the output space is exactly what the input can fill (last input frame dropped); proved when every call returns fewer frames than its space."
  },
  {
   "property": "C26",
   "status": "partial",
   "theorems": [
    "C26_reset_forgets_refuted",
    "C26_reset_forgets_partial"
   ],
   "note": "False after a ratio change (the other ratio's state keeps its history); proved for histories at one ratio."
  },
  {
   "property": "C27",
   "status": "partial",
   "theorems": [
    "C27_fade_finite_refuted",
    "C27_fade_finite_partial",
    "C27_sudden_finite",
    "C27_reals_closed",
    "C27_convex"
   ],
   "note": "False for a one-frame call during a fade (0/0); proved when calls hold two frames, and always for sudden changes; fade is a convex mixture."
  },
  {
   "property": "C28",
   "status": "partial",
   "theorems": [
    "C28_sizes_valid_refuted",
    "C28_sizes_valid_partial",
    "C28_low_rate_hangs_refuted",
    "C28_fft_limit_comment_refuted"
   ],
   "note": "Full statement false of the code: some low sample rates with the short window divide by zero or never terminate (witnesses); proved for rates of at least 12024 Hz with the short window and for all rates otherwise as stated in the theorem."
  },
  {
   "property": "C29",
   "status": "proved",
   "theorems": [
    "C29_every_block_taken",
    "C29_channels_level",
    "C29_block_sizes_irrelevant",
    "C29_realtime_every_block_taken"
   ],
   "note": "Offline per channel and in real time for all channels together, without resampling before the stretcher."
  },
  {
   "property": "C30",
   "status": "partial",
   "theorems": [
    "C30_output_length_refuted",
    "C30_first_block_refuted",
    "C30_output_length_partial"
   ],
   "note": "False as stated: empty input and the block crossing the start delay are not limited. Exact length proved when the profile covers every chunk; pitch scale 1."
  },
  {
   "property": "C31",
   "status": "partial",
   "theorems": [
    "C31_never_stalls_partial",
    "C31_finer_partial"
   ],
   "note": "both engines; with the resampler in the path its own delay is not modelled"
  },
  {
   "property": "C32",
   "status": "partial",
   "theorems": [
    "C32_end_is_the_end",
    "C32_end_is_reported_partial",
    "C32_short_stream_never_ends",
    "C32_end_is_reported_refuted"
   ],
   "note": "False for streams shorter than half a window: available() then returns 0 for ever."
  },
  {
   "property": "C33",
   "status": "partial",
   "theorems": [
    "C33_late_calls_partial",
    "C33_getters_partial",
    "C33_ratio_after_end_refuted"
   ],
   "note": "offline R2 session over all call sequences; setTimeRatio after the final block is accepted and loses unretrieved output; setMaxProcessSize and setExpectedInputDuration, threads and R3 not covered"
  },
  {
   "property": "C34",
   "status": "proved",
   "theorems": [
    "C34_option_groups"
   ],
   "note": "both engines"
  },
  {
   "property": "C35",
   "status": "partial",
   "theorems": [
    "C35_reset_ratios_partial",
    "C35_reset_refuted",
    "C35_finer_partial",
    "C35_finer_refuted"
   ],
   "note": "false of both engines"
  },
  {
   "property": "C36",
   "status": "partial",
   "theorems": [
    "C36_nothing_lost",
    "C36_retrieve_partial",
    "C36_retrieve_refuted"
   ],
   "note": "In every interleaving nothing is lost. Exactly once and in order is proved when no retrieve overlaps a replacement; with overlap it is refuted: samples read from the old buffer after it has been copied come again. Missing: nothing further holds. Memory is sequentially consistent in the model."
  },
  {
   "property": "C37",
   "status": "partial",
   "theorems": [
    "C37_everything_processed",
    "C37_ends",
    "C37_ends_done",
    "C37_room",
    "C37_complete_partial",
    "C37_complete_refuted",
    "C37_large_increment_refuted"
   ],
   "note": "Everything processed, termination within a bound of its own steps, and room for a waiting client proved for all schedules. The mark 'complete' is proved when chunks overlap, refuted when the last full chunk shifts by the whole synthesis window. Memory is sequentially consistent in the model."
  },
  {
   "property": "C38",
   "status": "proved",
   "theorems": [
    "C38_midside",
    "C38_codec"
   ],
   "note": "R2 engine, offline session; the first two channels"
  },
  {
   "property": "C39",
   "status": "partial",
   "theorems": [
    "C39_overlap_add"
   ],
   "note": "Any frames, any shifts up to the window length (overlong increments are sequences of such), any drain. Missing: resampling after the stretch; R3."
  },
  {
   "property": "C40",
   "status": "proved",
   "theorems": [
    "C40_buffers"
   ],
   "note": "all sample rates (clamped as in the code), both window modes, every ratio; also the synthesis offsets and the ranges of the polar conversion"
  },
  {
   "property": "C41",
   "status": "partial",
   "theorems": [
    "C41_hops_partial",
    "C41_ratios",
    "C41_hops_refuted"
   ],
   "note": "false: at ratio 5000 and 8 kHz the output hop is 5000 and overruns the accumulator; NaN in one ratio undoes the other"
  },
  {
   "property": "C42",
   "status": "partial",
   "theorems": [
    "C42_length_partial",
    "C42_one_block_partial",
    "C42_length_refuted"
   ],
   "note": "false: very short sounds give nothing; long blocks at low rates come out short; output lost at low pitch scales"
  },
  {
   "property": "C43",
   "status": "partial",
   "theorems": [
    "C43_key_frames_partial",
    "C43_key_frames_refuted"
   ],
   "note": "false: a block that passes several key frames, a map from frame 0, or a sound not studied"
  },
  {
   "property": "C44",
   "status": "partial",
   "theorems": [
    "C44_growth",
    "C44_block_kept_partial",
    "C44_block_kept_refuted"
   ],
   "note": "false beyond 524288 samples in a block"
  },
  {
   "property": "C45",
   "status": "proved",
   "theorems": [
    "C45_one_resampling"
   ],
   "note": "all options and pitch scales; high consistency over every reachable state"
  },
  {
   "property": "C46",
   "status": "partial",
   "theorems": [
    "C46_bands_partial",
    "C46_meeting",
    "C46_once_partial",
    "C46_low_rate_refuted",
    "C46_exactly_once_refuted"
   ],
   "note": "Bands contiguous at every rate over every frame sequence; ascending and within phase bins only from 9600 Hz (refuted below); 'exactly once' refuted at fixed splits, proved at splits on classification bins. All closed under the global context."
  },
  {
   "property": "C47",
   "status": "proved",
   "theorems": [
    "C47_peaks"
   ],
   "note": "Any range, neighbourhood and strict total preorder (so not NaN); the lookup never reads or writes outside the range."
  },
  {
   "property": "C48",
   "status": "partial",
   "theorems": [
    "C48_blocks",
    "C48_takes_partial",
    "C48_low",
    "C48_takes_refuted"
   ],
   "note": "One block out per call, bounded levels, frames within buffers: for every resampler, rate and pitch sequence. All input taken and all output real: for pitch scales within three octaves and a first pitch scale up to 3.5 (ideal resamplers); false beyond: at scale 4 the whole first block is dropped at 44100."
  },
  {
   "property": "C49",
   "status": "proved",
   "theorems": [
    "C49_classifier"
   ],
   "note": "Over every sequence of frames and resets. Magnitudes as integers in a common unit; division exact."
  },
  {
   "property": "C50",
   "status": "partial",
   "theorems": [
    "C50_segmentation_partial",
    "C50_memoryless",
    "C50_ordered_refuted"
   ],
   "note": "Order of the lower boundary against the upper two refuted (percussive bins directly below residual ones). The smoothed classes are the modal values only where C10 holds."
  },
  {
   "property": "C51",
   "status": "proved",
   "theorems": [
    "C51_interleave_round_trip",
    "C51_interleave_order"
   ],
   "note": ""
  },
  {
   "property": "C52",
   "status": "proved",
   "theorems": [
    "C52_fold",
    "C52_unfold",
    "C52_round_trip",
    "C52_scales_aligned",
    "C52_scales_mixed",
    "C52_fold_odd_refuted",
    "C52_fold_single_refuted"
   ],
   "note": "R2 folding in and out for every window/transform size pair (window >= 2 samples, equal sizes even), R3 alignment of all scales about one instant. Equal odd sizes and one-sample windows break it (refuted; not reachable through the interface). Sample addition needs only zero + a = a."
  },
  {
   "property": "C53",
   "status": "proved",
   "theorems": [
    "C53_reallocate",
    "C53_reallocate_null",
    "C53_reallocate_channels",
    "C53_null_extension_refuted"
   ],
   "note": "Heap of blocks with uninitialised cells; out-of-bounds access, use after free and double free are errors. After each call the heap is exactly the new block(s), the owner's other blocks and the rest. Remark: reallocate_and_zero_extension of a null pointer with a nonzero old count leaves that many samples uninitialised (no caller does this)."
  },
  {
   "property": "C54",
   "status": "partial",
   "theorems": [
    "C54_dry_partial",
    "C54_dry_refuted",
    "C54_live_refuted",
    "C54_live_ahead"
   ],
   "note": "Proved for any stretcher and host blocks of up to 9216 samples; false beyond (the dry delay line overflows and stays early) and false of the live plug-in (dry always one block, 512 samples, ahead of the reported latency)."
  },
  {
   "property": "C55",
   "status": "partial",
   "theorems": [
    "C55_old_objects_all_freed",
    "C55_concurrent_refuted"
   ],
   "note": "Proved for sequential calls; refuted for interleaved claim and scavenge."
  },
  {
   "property": "C56",
   "status": "partial",
   "theorems": [
    "C56_whole_filter_refuted",
    "C56_whole_filter_partial"
   ],
   "note": "One tap lost at 3/2; proved never more than one, and none under an arithmetic condition on length and ratio."
  },
  {
   "property": "C57",
   "status": "partial",
   "theorems": [
    "C57_change_keeps_position_refuted",
    "C57_change_keeps_position_partial"
   ],
   "note": "Position moves by 2/3 input frame going from 1 to 3/2; proved: less than one input frame plus one grid step, with the input history kept."
  },
  {
   "property": "C58",
   "status": "proved",
   "theorems": [
    "C58_channels_independent"
   ],
   "note": ""
  },
  {
   "property": "C59",
   "status": "partial",
   "theorems": [
    "C59_detection_in_bounds_refuted",
    "C59_detection_in_bounds_partial"
   ],
   "note": "Out-of-bounds read for exactly one chunk; safe for every other length."
  },
  {
   "property": "C60",
   "status": "proved",
   "theorems": [
    "C60_no_drift",
    "C60_no_drift_over_changes"
   ],
   "note": "Frame-aligned mode as used by the finer engine; pitch ratio at most 4 and nominal increment at least 8; time ratio changes that keep the overall ratio are excluded (C62)."
  },
  {
   "property": "C61",
   "status": "partial",
   "theorems": [
    "C61_no_phase_resets_partial",
    "C61_no_phase_resets_refuted"
   ],
   "note": "Proved without key frames; false with a key frame at a soft onset."
  },
  {
   "property": "C62",
   "status": "partial",
   "theorems": [
    "C62_ratio_change_is_local_refuted",
    "C60_no_drift_over_changes"
   ],
   "note": "False when time ratio and pitch change so that the overall ratio stays the same; C60_no_drift_over_changes covers all other histories."
  },
  {
   "property": "C63",
   "status": "partial",
   "theorems": [
    "C63_soft_onset_place_refuted",
    "C63_soft_onset_late_refuted",
    "C63_soft_onset_place_partial",
    "C63_smoothing"
   ],
   "note": "False for audio shorter than half a second and for odd window lengths near the start; proved otherwise."
  },
  {
   "property": "C64",
   "status": "partial",
   "theorems": [
    "C64_silent_tail_refuted",
    "C64_full_windows_partial"
   ],
   "note": "False: the last windows are completed with leftovers of the previous frame. Holds for every window before the final block."
  },
  {
   "property": "C65",
   "status": "partial",
   "theorems": [
    "C65_output_kept_partial",
    "C65_output_kept_refuted",
    "C65_finer_partial",
    "C65_finer_refuted"
   ],
   "note": "false of both engines"
  },
  {
   "property": "C66",
   "status": "proved",
   "theorems": [
    "C66_plain_vocoder"
   ],
   "note": "Any arithmetic and spectral processing, any calls before the final block; increments up to the window length, no resampling."
  },
  {
   "property": "C67",
   "status": "partial",
   "theorems": [
    "C67_weight_positive_refuted",
    "C67_weight_positive_partial"
   ],
   "note": "False for a shift equal to the window, which a key-frame map produces; true for shorter shifts."
  },
  {
   "property": "C68",
   "status": "partial",
   "theorems": [
    "C68_no_backlog_partial",
    "C68_no_backlog_refuted"
   ],
   "note": "False for blocks longer than the input increment: only one chunk is processed per pass."
  },
  {
   "property": "C69",
   "status": "partial",
   "theorems": [
    "C69_offline_length_partial",
    "C69_offline_length_refuted"
   ],
   "note": "Holds for ratios in the range where the synthesis increments fit the window (bounds per rate and window), recordings of at least 4096 frames and a non-empty final study block, pitch 1. False below that range: ratio 1/8 with regular onsets gives 1408 frames for 1024."
  },
  {
   "property": "C70",
   "status": "partial",
   "theorems": [
    "C70_study_partition_partial",
    "C70_long_last_block_refuted",
    "C70_empty_last_block_refuted"
   ],
   "note": "holds when the last block has 1 to 256 frames; false for longer or empty last blocks"
  },
  {
   "property": "C71",
   "status": "partial",
   "theorems": [
    "C71_detector_after_setter_partial",
    "C71_construction_ignored",
    "C71_detector_on_construction_refuted"
   ],
   "note": "the construction option is ignored"
  },
  {
   "property": "C72",
   "status": "partial",
   "theorems": [
    "C72_conservation_partial",
    "C72_restored_partial",
    "C72_restored_refuted",
    "C72_without_readahead",
    "C72_without_readahead_refuted",
    "C72_hit"
   ],
   "note": "Per-bin balance of every frame of every stream; given back exactly when the hit passes the test of its own frame; refuted in general: the pre-kick test compares unscaled readahead magnitudes with scaled current ones, so weak hits hold energy that is never released. Without readahead (time ratios of about an eighth and less) nothing is ever given back, proved for all frames: the guide is told that this frame and the one before are the same, so it never sees a kick. Closed under the global context."
  },
  {
   "property": "C73",
   "status": "partial",
   "theorems": [
    "C73_blocks_partial",
    "C73_blocks_refuted"
   ],
   "note": "true when the input hop times the ratio is whole; false otherwise"
  },
  {
   "property": "C74",
   "status": "partial",
   "theorems": [
    "C74_returns_partial",
    "C41_hops_refuted"
   ],
   "note": "for combined ratios up to the longest preferred output hop at each block"
  },
  {
   "property": "C75",
   "status": "partial",
   "theorems": [
    "C75_delay_partial",
    "C75_delay_refuted"
   ],
   "note": "Exact at pitch scale 1 for every rate and length; false at scales 2 and 1/2, where it is out by 256 and 512 samples at 44100. Never below zero."
  },
  {
   "property": "C76",
   "status": "partial",
   "theorems": [
    "C76_wet_partial",
    "C76_wet_refuted",
    "C76_live"
   ],
   "note": "Standard plug-ins: for stretchers keeping within 8192 samples of real time (that the real engines do is not proved here) and blocks up to 9216; a stretcher that falls behind leaves holes. Live plug-in: full, blocks up to 65024."
  },
  {
   "property": "C77",
   "status": "proved",
   "theorems": [
    "C77_realtime_plain_vocoder",
    "C77_block_sizes_immaterial"
   ],
   "note": "no resampling before or after the stretch; increments at most one window; calls before the final block"
  },
  {
   "property": "C78",
   "status": "partial",
   "theorems": [
    "C78_unity_partial",
    "C78_start_too_loud",
    "C78_unity_refuted"
   ],
   "note": "Over the reals, exact from (window - increment) on, for any whole number >= 4 of increments per window, any blocks, channels, detectors, phase resets. As stated it is false: with the recommended pad and delay the first wanted sample is 10/9 too loud (C78_unity_refuted). Rounding not modelled; offline mode uses increments that do not divide the window."
  },
  {
   "property": "C79",
   "status": "proved",
   "theorems": [
    "C79_channel_memory",
    "C79_accumulators_kept",
    "C79_no_transform"
   ],
   "note": "Ring buffers, FFTs and resamplers count as one block each. C79_no_transform: the constructor without sizes leaves the channel without a transform (not used by the library)."
  },
  {
   "property": "C80",
   "status": "partial",
   "theorems": [
    "C80_phase_continues_partial",
    "C80_tone_partial",
    "C80_phase_reset",
    "C80_unity_partial",
    "C80_untouched",
    "C80_untouched_again",
    "C80_laminar_refuted",
    "C80_after_reset_refuted",
    "C80_terms"
   ],
   "note": "Proved for every history for bins that go by themselves (all with independent phases, up to 600 Hz with laminar ones). With equal increments, from the start or from any transient on, all bins are played exactly as they came, laminar ones too (formants not shifted). Refuted for laminar bins otherwise, whose remembered phase may differ from the one played, and after reset(). Phases are rationals in turns; rounding not modelled."
  },
  {
   "property": "C81",
   "status": "partial",
   "theorems": [
    "C81_cepstrum_partial",
    "C81_cepstrum_refuted",
    "C81_faster_partial",
    "C81_faster_refuted",
    "C81_finer_partial",
    "C81_finer_unity",
    "C81_finer_refuted"
   ],
   "note": "Proved for both engines for all spectra, pitch scales and sizes, from 1400 Hz sample rate (R2) and for bins that fit an int (R3). Refuted: the last bin in R2 when the pitch goes down, rates below 700 Hz (access before the array), formant scales so small that a bin is no int. The Fourier transform itself is not modelled."
  },
  {
   "property": "C82",
   "status": "partial",
   "theorems": [
    "C82_interpolator_partial",
    "C82_stale",
    "C82_interpolator_refuted"
   ],
   "note": "Proved for any history with one window size; refuted when the size changes within the buffers and the shift stays: the window for the old size is used."
  },
  {
   "property": "C83",
   "status": "partial",
   "theorems": [
    "C83_even_profile",
    "C83_in_place_partial",
    "C83_start_too_loud",
    "C83_unity_refuted"
   ],
   "note": "Over the reals: the profile is even; until the final block output sample t is input sample t times a factor that depends only on sizes and t, within [0,4/3], and exactly 1 once all overlapping windows exist if the window is a whole number of increments. False as wanted: at the default sizes (window 2048, increment 341) the first sample comes out at least 1% too loud. Missing: the last window, the size of the ripple when the increment does not divide the window, rounding."
  },
  {
   "property": "C84",
   "status": "partial",
   "theorems": [
    "C84_guided",
    "C84_total",
    "C84_afresh",
    "C84_unity",
    "C84_tone_partial",
    "C84_gliding",
    "C84_around_peak",
    "C84_channels_partial",
    "C84_reset",
    "C84_channels_refuted",
    "C84_ranges",
    "C84_bins",
    "C84_strength"
   ],
   "note": "Proved over all histories: in bounds and in range, phase resets, ratio 1, tones at leading bins, also gliding, bins around a peak, reset equals new. Channel lock keeps the relation when both channels have the same peak; refuted otherwise: the code only compares the previous peaks and then applies its own peak index to the other channel. Phases are exact rationals in turns."
  },
  {
   "property": "C85",
   "status": "partial",
   "theorems": [
    "C85_centred",
    "C85_after_reset",
    "C85_judged_refuted"
   ],
   "note": "Centring proved in full for new and reset stretchers. Refuted for what is judged: the readahead is given to the classifier unscaled, a frame without readahead scaled by 1/size, so a steady sound is judged percussive for three frames when the ratio rises past the readahead limit. Closed under the global context."
  },
  {
   "property": "C86",
   "status": "proved",
   "theorems": [
    "C86_forward",
    "C86_backward",
    "C86_round_trip",
    "C86_polar_round_trip",
    "C86_alike"
   ],
   "note": "Over the real numbers (rounding of doubles not modelled). Axioms: those of Coq's classical reals; C86_polar_round_trip also Classical_Prop.classic through the arctangent."
  },
  {
   "property": "C87",
   "status": "partial",
   "theorems": [
    "C87_report",
    "C87_safe",
    "C87_range",
    "C87_hearing",
    "C87_loudness",
    "C87_loudness_refuted",
    "C87_memory",
    "C87_silence",
    "C87_silence_refuted",
    "C87_reset_partial",
    "C87_reset_refuted"
   ],
   "note": "Everything proved except the reset: CompoundAudioCurve::reset does not clear m_risingCount, so within the first four frames after a reset an onset may be reported that a new detector would not see (C87_reset_refuted); from the fifth frame on, and for the percussive detector always, a reset is a new start (C87_reset_partial). Findings besides: level does matter when a bin crosses 10^-8 (C87_loudness_refuted), and a loud tone above 16 kHz counts as silence (C87_silence_refuted)."
  },
  {
   "property": "C88",
   "status": "partial",
   "theorems": [
    "C88_ends",
    "C88_in_range",
    "C88_restart",
    "C88_output",
    "C88_length",
    "C88_feeds",
    "C88_pitch",
    "C88_late_refuted",
    "C88_header_refuted",
    "C88_duration",
    "C88_ratio_partial",
    "C88_ratio_refuted"
   ],
   "note": "Proved for every stretcher whose output is a function of the calls made; samples and gains are rationals, not floats. Refuted: late output is cut off instead of starting again; frames beyond an understated header are dropped; a negative duration gives a negative ratio. Option parsing other than the ratio, map files, formats and file errors are not modelled."
  },
  {
   "property": "C89",
   "status": "partial",
   "theorems": [
    "C89_forgets",
    "C89_unity",
    "C89_reset_refuted",
    "C89_live_refuted"
   ],
   "note": "Silence: proved for any two earlier histories (bands and ranges at once, phase-lock bands from the next ordinary frame on); ratio 1 in real time: 66 frames from any reachable guidance. Reset: refuted, the guidance is not reset."
  },
  {
   "property": "C90",
   "status": "partial",
   "theorems": [
    "C90_locks",
    "C90_plain",
    "C90_ranges",
    "C90_current_refuted"
   ],
   "note": "Proved for all histories from a new channel (rationals for doubles). Refuted: at ratio 1 in real time the factors are those of the last other ratio. Below 9600 Hz with several windows the bands are reversed (C46_low_rate_refuted)."
  },
  {
   "property": "C91",
   "status": "partial",
   "theorems": [
    "C91_kept_partial",
    "C91_dropped",
    "C91_order_refuted",
    "C91_reset",
    "C91_finer",
    "C91_finer_held"
   ],
   "note": "faster engine: holds across study and getters, false across any changed setting (C91_dropped says what happens, C91_order_refuted shows it heard); finer engine: holds in full"
  },
  {
   "property": "C92",
   "status": "partial",
   "theorems": [
    "C92_time_map",
    "C92_freq_map",
    "C92_refused_time",
    "C92_refused_only",
    "C92_sense_refuted"
   ],
   "note": "the reading is proved for all files of the documented form; that a file not of that form is refused is false (words, fractions, missing targets and negative frames are taken; CRLF blank lines and tabs are refused)"
  },
  {
   "property": "C93",
   "status": "proved",
   "theorems": [
    "C93_laminar"
   ],
   "note": "Which bins follow, and what every bin gets, stated for the whole frame; phases as rationals in turns."
  },
  {
   "property": "C94",
   "status": "partial",
   "theorems": [
    "C94_deadline_partial",
    "C94_deadline_refuted"
   ],
   "note": "The point in time is exactly right and the loop ends; it is accepted unless the microseconds add up to whole seconds. Finding: then tv_nsec is 1000000000 (the loop carries only above, not at, a million), pthread_cond_timedwait refuses it with EINVAL and the thread goes on without waiting. The callers loop and test again, so nothing is lost but the wait."
  },
  {
   "property": "C95",
   "status": "partial",
   "theorems": [
    "C95_back_partial",
    "C95_at_once",
    "C95_never_back",
    "C95_gradual_refuted",
    "C95_laminar_refuted"
   ],
   "note": "Every bin within 16 kHz that goes by itself is played as it came from the first chunk at ratio 1 on. Finding: the return is neither gradual nor complete, though unityResetLow is there 'for gradual phase-reset on unity ratio': bins inside the band are the ones that are left alone, so all bins up to 16 kHz are reset in the first chunk, and those above (but the last) never are: they stay off by as much as when the sound was last stretched, through any number of chunks. With laminar phases, the default, bins already put back leave the input again while the ratio stays 1, because a follower adds a share of its own whole advance to the phase of the input (computed: 11 kHz, off by 0.69 of a turn). Missing: bins that follow the one above in laminar mode."
  },
  {
   "property": "C96",
   "status": "partial",
   "theorems": [
    "C96_discards",
    "C96_told_refuted",
    "C96_between_refuted",
    "C69_offline_length_partial"
   ],
   "note": "Told before the study pass the length is right (C69). Finding: in any state, a new value sets all channels up anew: input not yet processed and output not yet fetched are gone while the stretcher stays in the same mode. Told half way through processing, half the sound is missing; told before the output is fetched, all of it. The same holds of a larger setMaxProcessSize, which is documented as not allowed then. Second finding: told between the passes, of a short sound, the input step is halved but the output steps of the study pass stay, so the sound runs at twice the wanted ratio until the output is full. Missing: a proof for all sessions that the length (not the content) is right when told between the passes."
  }
 ]
}
