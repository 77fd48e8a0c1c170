-Q theories Verif
theories/PyBase.v
theories/PyFacts.v
theories/Version.v
theories/VersionProofs.v
theories/Props_Version.v
theories/Tsv.v
theories/TsvProofs.v
theories/Fs.v
theories/FsFacts.v
theories/HeadBag.v
theories/HeadBagProofs.v
theories/HeadBagProofs2.v
theories/HeadBagProofs3.v
theories/Props_HeadBag.v
theories/BagIt.v
theories/BagItProofs.v
theories/BagItProofs2.v
theories/Props_BagIt.v
theories/Split.v
theories/SplitProofs.v
theories/SplitProofs2.v
theories/SplitProofs3.v
theories/Props_Split.v
theories/SplitApply.v
theories/SplitApplyProofs.v
theories/SplitApplyProofs2.v
theories/SplitApplyProofs3.v
theories/SplitApplyProofs4.v
theories/SplitApplyProofs5.v
theories/SplitApplyProofs6.v
theories/SplitApplyProofs7.v
theories/SplitApplyProofs8.v
theories/SplitApplyProofs9.v
theories/Props_SplitApply.v
theories/Props_SplitApply2.v
theories/Props_SplitApply3.v
theories/Restore.v
theories/RestoreProofs.v
theories/RestoreProofs2.v
theories/RestoreProofs3.v
theories/Props_Restore.v
theories/RestoreProofs4.v
theories/RestoreProofs5.v
theories/Props_Restore2.v
theories/RestoreProofs6.v
theories/RestoreProofs7.v
theories/RestoreProofs8.v
theories/RestoreProofs9.v
theories/RestoreProofs10.v
theories/RestoreProofs11.v
theories/Props_Restore3.v
theories/Props_RoundTrip.v
theories/SplitRestoreProofs.v
theories/Amend.v
theories/AmendProofs.v
theories/AmendProofs2.v
theories/AmendProofs3.v
theories/AmendProofs4.v
theories/Props_Amend.v
theories/SingleProofs.v
theories/Props_Single.v
theories/Validate.v
theories/ValidateProofs.v
theories/Props_Validate.v
theories/Props_Validate2.v
theories/Props_Validate3.v
theories/Props_Validate4.v
theories/ValidateProofs2.v
theories/Props_Validate5.v
theories/Props_Validate6.v
theories/PyFloat.v
theories/PyFloatProofs.v
theories/FormatBytes.v
theories/FormatBytesProofs.v
theories/Props_Size.v
theories/MkData.v
theories/Props_MkData.v
theories/Access.v
theories/Props_Access.v
theories/BagValid.v
theories/BagValidProofs.v
theories/Props_BagValid.v
theories/Props_BagValid2.v
theories/Props_BagValid3.v
theories/Props_RoundTrip2.v
theories/Props_Restore4.v
theories/Props_BagValid4.v
theories/MkDataset.v
theories/SpecDataset.v
theories/MkDatasetProofs.v
theories/MkDatasetProofs2.v
theories/MkDatasetProofs3.v
theories/MkDatasetProofs4.v
theories/Props_MkDataset.v
theories/Props_EndToEnd.v
theories/Props_AmendRestore.v
theories/Props_RestoreCut.v
theories/RestoreMember.v
theories/Props_RestoreMember.v
theories/RestoreTimes.v
theories/RestoreTimesProofs.v
theories/Props_RestoreTimes.v
theories/Props_Partials.v
theories/TagDir.v
theories/TagDirProofs.v
theories/Props_TagDir.v
theories/ValidateText.v
theories/Props_ValidateText.v
theories/FindMember.v
theories/Props_FindMember.v
theories/SaveValidProofs.v
theories/Props_AmendValid.v
theories/Props_AmendRestore2.v
theories/BagSize.v
theories/BagSizeProofs.v
theories/Props_BagSize.v
theories/Props_AmendHistory.v
theories/Props_AmendHistory2.v
theories/AmendTotalProofs.v
theories/Props_AmendTotal.v
theories/Props_AmendTotal2.v
theories/SingleTotalProofs.v
theories/Props_SingleTotal.v
theories/Query.v
theories/Props_Query.v
theories/Props_LifeCycle.v
theories/Props_LifeCycle2.v
theories/InPlaceProofs.v
theories/Props_InPlace.v
theories/RestoreSetup.v
theories/Props_RestoreSetup.v
theories/Props_Exact.v
theories/SplitCall.v
theories/Props_SplitCall.v
theories/CycleProofs.v
theories/Props_Cycle.v
theories/SplitIter.v
theories/Props_Iter.v
theories/Profile.v
theories/Props_Profile.v
theories/FetchInto.v
theories/FetchIntoProofs.v
theories/Props_FetchInto.v
theories/Handles.v
theories/SpecHandles.v
theories/HandlesProofs.v
theories/HandlesProofs2.v
theories/Props_Handles.v
theories/Cut.v
theories/SpecCut.v
theories/CutProofs.v
theories/Props_Cut.v
theories/Again.v
theories/SpecAgain.v
theories/AgainProofs.v
theories/AgainProofs2.v
theories/Props_Again.v
theories/Props_Again2.v
theories/Reconvert.v
theories/SpecReconvert.v
theories/ReconvertProofs.v
theories/ReconvertProofs2.v
theories/Props_Reconvert.v
theories/Props_Reconvert2.v
theories/Stepwise.v
theories/SpecStepwise.v
theories/StepwiseProofs.v
theories/StepwiseProofs2.v
theories/StepwiseProofs3.v
theories/Props_Stepwise.v
theories/Props_Stepwise2.v
theories/SplitStop.v
theories/SpecSplitStop.v
theories/SplitStopProofs.v
theories/Props_SplitStop.v
theories/SplitRace.v
theories/SplitRaceProofs.v
theories/SplitRaceProofs2.v
theories/Props_SplitRace.v
theories/Props_SplitUse.v
theories/RestoreWhile.v
theories/Props_RestoreWhile.v
theories/RestoreRace.v
theories/RestoreRaceProofs.v
theories/Props_RestoreRace.v
theories/SplitStopLink.v
theories/Props_SplitStopLink.v
theories/InPlaceStop.v
theories/Props_InPlaceStop.v
theories/Props_RestoreTwice.v
theories/Props_Reproducible.v
theories/Props_Bytes.v
theories/SaveWhere.v
theories/Props_SaveWhere.v
theories/Props_TagDir2.v
theories/Props_Replicate.v
theories/Props_RestoreListing.v
theories/Props_RestoreListing2.v
theories/Props_Lines.v
theories/Props_ValidListing.v
theories/Props_HeadListing.v
theories/Props_SizeListing.v
theories/Props_HeadHistory.v
theories/Props_HeadReads.v
