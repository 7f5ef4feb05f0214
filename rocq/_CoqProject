-Q theories Verif
theories/Base.v
theories/PyStr.v
theories/PyNum.v
theories/NdArray.v
theories/Sofa.v
theories/Verify.v
theories/Upgrade.v
theories/Utils.v
theories/Io.v
theories/Stream.v
theories/UpdateConv.v
theories/Congruency.v
theories/SpecCongruency.v
theories/Demo.v
theories/SpecAttr.v
theories/SpecInit.v
theories/SpecValue.v
theories/SpecVerify.v
theories/SpecUpgrade.v
theories/SpecEquals.v
theories/SpecIo.v
theories/SpecStore.v
theories/SpecStream.v
theories/SpecUpdate.v
theories/SpecInfo.v
theories/BaseFacts.v
theories/StrFacts.v
theories/AttrFacts.v
theories/OpFacts.v
theories/InitFacts.v
theories/ProtFacts.v
theories/SpecMix.v
theories/AddDelFacts.v
theories/MixFacts.v
theories/MissingFacts.v
theories/CoreFacts.v
theories/ValidFacts.v
theories/ShapeFacts.v
theories/RuleFacts.v
theories/VerifyFacts.v
theories/DictFacts.v
theories/IssueFacts.v
theories/DimFacts.v
theories/AxisFacts.v
theories/UpgradeFacts.v
theories/EqualsFacts.v
theories/WriteFacts.v
theories/ReadFacts.v
theories/IoFacts.v
theories/PathFacts.v
theories/RoundFacts.v
theories/StreamFacts.v
theories/UpdateFacts.v
theories/CsvFacts.v
theories/SameFacts.v
theories/AgainFacts.v
theories/TotalFacts.v
theories/RewriteFacts.v
theories/DemoFacts.v
theories/CheckFacts.v
theories/PropAttr.v
theories/PropInit.v
theories/PropVerify.v
theories/PropUpgrade.v
theories/PropEquals.v
theories/PropIo.v
theories/PropRound.v
theories/PropMissing.v
theories/PropStream.v
theories/PropUpdate.v
theories/PropInfo.v
theories/Copy.v
theories/SpecCopy.v
theories/CopyFacts.v
theories/PropCopy.v
theories/Listing.v
theories/SpecListing.v
theories/PropListing.v
theories/SpecCrash.v
theories/CrashFacts.v
theories/TwiceFacts.v
theories/PropCrash.v
theories/PropTwice.v
theories/PropRewrite.v
theories/PropReadd.v
theories/PropReadOnly.v
theories/PropCongruency.v
theories/SpecStreamInfo.v
theories/PropStreamInfo.v
theories/SpecReport.v
theories/ReportFacts.v
theories/PropReport.v
theories/SpecOrder.v
theories/OrderFacts.v
theories/PropOrder.v
theories/SpecOutline.v
theories/OutlineFacts.v
theories/PropOutline.v
theories/PropDisk.v
theories/PropQuery.v
theories/SpecReach.v
theories/ReachFacts.v
theories/PropReach.v
theories/Level.v
theories/TextFile.v
theories/Session.v
theories/PropSession.v
theories/Network.v
theories/PropNetwork.v
theories/Alias.v
theories/SpecAlias.v
theories/AliasFacts.v
theories/AliasRun.v
theories/PropAlias.v
theories/SpecIssues.v
theories/IssueLines.v
theories/PropIssues.v
theories/PropWords.v
theories/SpecStable.v
theories/StableFacts.v
theories/PropStable.v
theories/SpecPlan.v
theories/PropPlan.v
theories/Library.v
theories/SpecCsv.v
theories/CsvRows.v
theories/PropCsv.v
theories/SpecGrow.v
theories/GrowFacts.v
theories/PropGrow.v
theories/PropTrans.v
theories/BlindFacts.v
theories/LookFacts.v
theories/PropLook.v
theories/OptionFacts.v
theories/PropOption.v
theories/Repr.v
theories/PropVerbose.v
theories/SpecChange.v
theories/ChangeFacts.v
theories/PropChange.v
theories/UpgradeSayFacts.v
theories/PropUpgradeSay.v
theories/PropText.v
theories/PropLevel.v
theories/RefUnit.v
theories/PropUnit.v
theories/PropShown.v
theories/SpecSwap.v
theories/SwapFacts.v
theories/LibSwapFacts.v
theories/PropSwap.v
theories/PropRelease.v
theories/PropSave.v
theories/PyLaws.v
theories/Script.v
theories/PropScript.v
theories/PropRowInfo.v
theories/PyVectors.v
theories/RepoTests.v
theories/PropMeaning.v
theories/PropAsked.v
theories/PropDimText.v
theories/PropAgain.v
theories/PropBack.v
theories/PropAlike.v
theories/PropArrive.v
theories/PropRepair.v
theories/PropComplain.v
theories/PropRefuse.v
theories/PropLookup.v
theories/PropBlocked.v
