-Q theories Verif
theories/Base.v
theories/Env.v
theories/Chrono.v
theories/Nom.v
theories/Types.v
theories/Ser.v
theories/Parser.v
theories/Derive.v
theories/Components.v
theories/Iter.v
theories/BaseFacts.v
theories/ChronoFacts.v
theories/DateText.v
theories/NomFacts.v
theories/SpecLine.v
theories/LineFacts.v
theories/SpecText.v
theories/SerFacts.v
theories/PropText.v
theories/PropLine.v
theories/SpecCal.v
theories/PropDate.v
theories/SpecDur.v
theories/PropDur.v
theories/PropVocab.v
theories/PropRule.v
theories/PropPeriod.v
theories/PropList.v
theories/SpecComp.v
theories/DeriveFacts.v
theories/SpecFields.v
theories/PropComp.v
theories/SpecFile.v
theories/PropFile.v
theories/PropPanic.v
theories/PropCompEx.v
theories/SpecIter.v
theories/IterFacts.v
theories/PropIter.v
theories/TimeFacts.v
theories/PropTime.v
theories/PropWindow.v
theories/PropIterEx.v
theories/SpecRound.v
theories/RoundFacts.v
theories/FrameFacts.v
theories/BackFacts.v
theories/FieldFacts.v
theories/ChildFacts.v
theories/CalFacts.v
theories/AlarmFacts.v
theories/PropRound.v
theories/SpecLoss.v
theories/LossFacts.v
theories/PropLoss.v
theories/PropOrder.v
theories/PropLabel.v
theories/SpecInput.v
theories/PropInput.v
theories/SpecZone.v
theories/PropZone.v
theories/PropSingle.v
theories/PropArith.v
theories/PropResume.v
theories/PropAscii.v
theories/SpecValue.v
theories/SpecFatal.v
theories/PropDurAll.v
theories/PropFatal.v
theories/PropValue.v
theories/PropDateAll.v
theories/PropRoundEx.v
theories/SpecCrowd.v
theories/JunkFacts.v
theories/CrowdFacts.v
theories/PropCrowd.v
theories/PropCrowdEx.v
theories/Macros.v
theories/SpecMacro.v
theories/MacroFacts.v
theories/PropMacro.v
theories/PropNew.v
theories/PropMacroEx.v
theories/Generator.v
theories/GenFacts.v
theories/SpecGenerator.v
theories/PropGenerator.v
theories/Tokens.v
theories/SpecTokens.v
theories/PropTokens.v
theories/SpecKinds.v
theories/PropKinds.v
theories/SpecRfc.v
theories/PropRfc.v
theories/SpecMeaning.v
theories/PropMeaning.v
theories/PropWired.v
theories/SpecKeep.v
theories/PropKeep.v
theories/PropKeepEx.v
theories/SpecAssemble.v
theories/PropAssemble.v
theories/PropAssembleEx.v
theories/SpecAppend.v
theories/PropAppend.v
theories/PropAppendEx.v
theories/SpecPieces.v
theories/PropPieces.v
theories/PropPiecesEx.v
theories/SpecPages.v
theories/PropPages.v
theories/PropPagesEx.v
theories/SpecFinite.v
theories/PropFinite.v
theories/PropFiniteEx.v
theories/SpecEdit.v
theories/PropEdit.v
theories/PropEditEx.v
theories/SpecWhole.v
theories/PropWhole.v
theories/PropCancel.v
theories/PropWholeEx.v
theories/PropCut.v
theories/PropCutEx.v
theories/SpecLonger.v
theories/PropLonger.v
theories/PropLongerEx.v
theories/Equality.v
theories/SpecEqual.v
theories/PropEqual.v
theories/PropAlike.v
theories/PropEqualEx.v
theories/PropWitness.v
theories/PropFullLine.v
theories/PropLeap.v
theories/PropMixed.v
theories/PropDays.v
theories/PropTurns.v
theories/PropCases.v
theories/SpecExact.v
theories/ExactFacts.v
theories/UnreadFacts.v
theories/ExactFields.v
theories/PropExact.v
theories/Debug.v
theories/Conform.v
theories/ConformFiles.v
theories/SpecShuffle.v
theories/PropShuffle.v
theories/PropSame.v
theories/SpecError.v
theories/PropError.v
theories/Format.v
theories/SpecFormat.v
theories/PropFormat.v
theories/SpecTextOrder.v
theories/PropTextOrder.v
theories/SpecHistory.v
theories/HistFacts.v
theories/PropTidy.v
theories/HistStep.v
theories/HistLists.v
theories/SpecAfter.v
theories/PropHistory.v
theories/PropFuture.v
theories/PropTidyEx.v
