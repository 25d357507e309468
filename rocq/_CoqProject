-Q theories Verif
theories/RingBuffer/Model.v
theories/RingBuffer/Spec.v
theories/RingBuffer/Proofs.v
theories/RingBuffer/Conc.v
theories/RingBuffer/ConcSpec.v
theories/RingBuffer/ConcProofs.v
theories/RingBuffer/Props.v
theories/Filters/Model.v
theories/Filters/Spec.v
theories/Filters/MMProofs.v
theories/Filters/HFProofs.v
theories/Filters/Memoryless.v
theories/Filters/Props.v
theories/Scavenger/Model.v
theories/Scavenger/Spec.v
theories/Scavenger/Proofs.v
theories/Scavenger/Conc.v
theories/Scavenger/ConcProofs.v
theories/Scavenger/Props.v
theories/MathMisc/Model.v
theories/MathMisc/Spec.v
theories/MathMisc/Proofs.v
theories/MathMisc/Props.v
theories/Resampler/Model.v
theories/Resampler/Spec.v
theories/Resampler/Phases.v
theories/Resampler/Core.v
theories/Resampler/Loops.v
theories/Resampler/Proofs.v
theories/Resampler/Changes.v
theories/Resampler/Limits.v
theories/Resampler/Fades.v
theories/Resampler/Channels.v
theories/Resampler/Examples.v
theories/Resampler/Props.v
theories/Base/Arith.v
theories/Calculator/Model.v
theories/Calculator/Spec.v
theories/Calculator/Regions.v
theories/Calculator/Peaks.v
theories/Calculator/Soft.v
theories/Calculator/Bounds.v
theories/Calculator/Maps.v
theories/Calculator/Proofs.v
theories/Calculator/Single.v
theories/Calculator/Props.v
theories/Calculator/Terms.v
theories/Faster/Sizes.v
theories/Faster/Spec.v
theories/Faster/SizesProofs.v
theories/Faster/SizesProps.v
theories/Faster/Model.v
theories/Faster/Core.v
theories/Faster/Chunks.v
theories/Faster/Stream.v
theories/Faster/Count.v
theories/Faster/Runs.v
theories/Faster/RunsProofs.v
theories/Faster/StreamProps.v
theories/Faster/Level.v
theories/Faster/OlaSpec.v
theories/Faster/Ola.v
theories/Faster/VocoderSpec.v
theories/Faster/Vocoder.v
theories/Faster/OlaRuns.v
theories/Faster/VocoderProps.v
theories/Faster/RealTimeRuns.v
theories/Faster/RealTime.v
theories/Faster/RealTimeCalls.v
theories/Faster/RtVocoderSpec.v
theories/Faster/RtVocoder.v
theories/Faster/RealTimeProps.v
theories/Faster/RtVocoderProps.v
theories/Faster/Hann.v
theories/Faster/UnityModel.v
theories/Faster/Unity.v
theories/Faster/UnityProps.v
theories/Faster/UnityOffline.v
theories/Faster/UnityOfflineProps.v
theories/Offline/Model.v
theories/Offline/Spec.v
theories/Offline/Study.v
theories/Offline/Profile.v
theories/Offline/Fresh.v
theories/Offline/Length.v
theories/Offline/Whole.v
theories/Offline/Range.v
theories/Offline/Props.v
theories/Offline/KeyMap.v
theories/Offline/Told.v
theories/Offline/LifeSpec.v
theories/Offline/Life.v
theories/Offline/Partition.v
theories/Offline/MidSide.v
theories/Offline/LifeProps.v
theories/Options/Model.v
theories/Options/Spec.v
theories/Options/Props.v
theories/Finer/PeakModel.v
theories/Finer/PeakSpec.v
theories/Finer/Peak.v
theories/Finer/SegmenterModel.v
theories/Finer/SegmenterSpec.v
theories/Finer/Segmenter.v
theories/Finer/SegmenterRuns.v
theories/Finer/ClassifierModel.v
theories/Finer/ClassifierSpec.v
theories/Finer/Classifier.v
theories/Finer/Props.v
theories/Finer/GuideModel.v
theories/Finer/GuideSpec.v
theories/Finer/GuideProofs.v
theories/Finer/GuideProps.v
theories/Finer/GuideMemory.v
theories/Finer/GuideForget.v
theories/Finer/GuideLocks.v
theories/Finer/KickModel.v
theories/Finer/KickSpec.v
theories/Finer/KickProofs.v
theories/Finer/KickProps.v
theories/Finer/Terms.v
theories/Finer/FarModel.v
theories/Finer/FarProofs.v
theories/Finer/FarProps.v
theories/Finer/EngineModel.v
theories/Finer/EngineSpec.v
theories/Finer/EngineShape.v
theories/Finer/EngineProofs.v
theories/Finer/EngineSession.v
theories/Finer/EngineTotal.v
theories/Finer/EngineMore.v
theories/Finer/EngineKeys.v
theories/Finer/EngineProps.v
theories/Finer/LiveModel.v
theories/Finer/LiveSpec.v
theories/Finer/LiveProofs.v
theories/Finer/LiveSession.v
theories/Finer/LiveProps.v
theories/Finer/PhaseModel.v
theories/Finer/PhaseSpec.v
theories/Finer/PhaseProofs.v
theories/Finer/PhaseRun.v
theories/Finer/PhaseGuided.v
theories/Finer/PhaseProps.v
theories/Finer/AheadModel.v
theories/Finer/AheadSpec.v
theories/Finer/AheadProofs.v
theories/Finer/AheadProps.v
theories/Fourier/Model.v
theories/Fourier/Spec.v
theories/Fourier/Arrays.v
theories/Fourier/Complex.v
theories/Fourier/Real.v
theories/Fourier/Sizes.v
theories/Fourier/Props.v
theories/Curves/Model.v
theories/Curves/Spec.v
theories/Curves/Proofs.v
theories/Curves/More.v
theories/Curves/Props.v
theories/Command/Model.v
theories/Command/Spec.v
theories/Command/Proofs.v
theories/Command/More.v
theories/Command/Props.v
theories/Command/MapFile.v
theories/Command/MapFileProps.v
theories/Plugin/Model.v
theories/Plugin/Spec.v
theories/Plugin/Proofs.v
theories/Plugin/Props.v
theories/Folding/Model.v
theories/Folding/Spec.v
theories/Folding/Proofs.v
theories/Folding/Props.v
theories/Memory/Model.v
theories/Memory/Spec.v
theories/Memory/Proofs.v
theories/Memory/ChannelModel.v
theories/Memory/ChannelSpec.v
theories/Memory/Channel.v
theories/Memory/Props.v
theories/Threads/Model.v
theories/Threads/Spec.v
theories/Threads/Proofs.v
theories/Threads/Props.v
theories/Threads/OutModel.v
theories/Threads/OutProps.v
theories/Threads/Deadline.v
theories/Phases/Model.v
theories/Phases/Spec.v
theories/Phases/Proofs.v
theories/Phases/Props.v
theories/Phases/Terms.v
theories/Phases/Laminar.v
theories/Phases/Unity.v
theories/Phases/Untouched.v
theories/Frames/SincModel.v
theories/Frames/Sinc.v
theories/Frames/FormantModel.v
theories/Frames/Formant.v
theories/Frames/FormantFiner.v
