-Q theories Verif
theories/Py.v
theories/PyFloat.v
theories/PySort.v
theories/Timsort.v
theories/Signature.v
theories/Tone.v
theories/Frequency.v
theories/FrequencyFloat.v
theories/Note.v
theories/Track.v
theories/Show.v
theories/Chord.v
theories/MidiWriter.v
theories/MidiReader.v
theories/Processing.v
theories/TrackObjects.v
theories/ChordGen.v
theories/ChordText.v
theories/PyAst.v
theories/PySource.v
theories/PyRegex.v
theories/PySem.v
theories/PyProgram.v
theories/SpecBase.v
theories/SigFacts.v
theories/SigProps.v
theories/DecFacts.v
theories/ToneFacts.v
theories/ToneProps.v
theories/FrequencyProps.v
theories/FrequencySpec.v
theories/RoundingFacts.v
theories/FrequencyFloatProps.v
theories/FloatFacts.v
theories/NoteProps.v
theories/SortFacts.v
theories/TimsortFacts.v
theories/TrackSpec.v
theories/TrackFacts.v
theories/TrackProps.v
theories/ChordSpec.v
theories/ChordProps.v
theories/MidiSpec.v
theories/VarLenFacts.v
theories/StreamFacts.v
theories/PairFacts.v
theories/TimeFacts.v
theories/RoundFacts.v
theories/VelocityFacts.v
theories/DumpSpec.v
theories/WriterFacts.v
theories/WriterProps.v
theories/ReaderSpec.v
theories/AcceptSpec.v
theories/ReadFacts.v
theories/LoadFacts.v
theories/FileFacts.v
theories/ReaderProps.v
theories/LoadProps.v
theories/TripSpec.v
theories/TripFacts.v
theories/TripProps.v
theories/StableProps.v
theories/ChannelProps.v
theories/AcceptProps.v
theories/ModuleProps.v
theories/SizeProps.v
theories/TempoProps.v
theories/DumpProps.v
theories/ProcessingProps.v
theories/ObjectFacts.v
theories/ObjectSpec.v
theories/ObjectProps.v
theories/FeedProps.v
theories/ShowSpec.v
theories/ShowFacts.v
theories/DigitsFacts.v
theories/ShowProps.v
theories/PropSignature.v
theories/PropTone.v
theories/PropFrequency.v
theories/PropNote.v
theories/PropTrack.v
theories/PropChord.v
theories/PropVarLen.v
theories/PropMidiValues.v
theories/PropWriter.v
theories/PropReader.v
theories/PropTrip.v
theories/PropAccept.v
theories/PropModule.v
theories/PropSize.v
theories/PropTempo.v
theories/PropDump.v
theories/PropProcessing.v
theories/PropFeed.v
theories/PropShow.v
theories/SourceSpec.v
theories/SourceFacts.v
theories/SourceProps.v
theories/PropSource.v
theories/HelperProps.v
theories/PropHelper.v
theories/RefineBase.v
theories/RefineSignature.v
theories/RefineTone.v
theories/RefineNote.v
theories/RefineChord.v
theories/SortNatural.v
theories/RefineImport.v
theories/RefineWriter.v
theories/RefineTrack.v
theories/RefineAdd.v
theories/RefineEqual.v
theories/RefineSpec.v
theories/RefineProps.v
theories/PropRefine.v
theories/RefineTrackProps.v
theories/PropRefineTrack.v
theories/RefineDump.v
theories/RefineDumps.v
theories/RefineDumpProps.v
theories/PropRefineDump.v
theories/RefineProcess.v
theories/PropRefineProcess.v
theories/RefineReader.v
theories/RefineNumbers.v
theories/RefineEvent.v
theories/RefineDeep.v
theories/RefineParse.v
theories/RefineParseLoop.v
theories/RefineChannel.v
theories/RefineChannels.v
theories/RefineParseTrack.v
theories/RefineChunks.v
theories/RefineLoad.v
theories/RefineLoadProps.v
theories/PropRefineLoad.v
theories/RefineTests.v
theories/PropRefineTests.v
theories/PyCounter.v
theories/PyTests.v
theories/RefineRun.v
theories/RefineCounter.v
theories/PropRefineCounter.v
theories/RefineTerm.v
theories/RefineLaws.v
theories/PropRefineLaws.v
theories/Client.v
theories/RefineStore.v
theories/RefineClient.v
theories/RefineClientProps.v
theories/PropRefineClient.v
theories/PropRefineClientRuns.v
theories/PropRefineClientLaws.v
theories/RefineFiles.v
theories/PropRefineFiles.v
theories/RefineScore.v
theories/PropRefineScore.v
theories/RefineHumanize.v
theories/PropRefineHumanize.v
theories/RefineCodec.v
theories/PropRefineCodec.v
theories/RefineStable.v
theories/PropRefineStable.v
theories/RefineOther.v
theories/RefineVoice.v
theories/RefineAppend.v
theories/PropRefineOther.v
theories/Conformance.v
