-Q theories Verif
theories/Str.v
theories/Num.v
theories/Nom.v
theories/Dec.v
theories/Parsers.v
theories/KeyValue.v
theories/KvFields.v
theories/General.v
theories/Editor.v
theories/Metadata.v
theories/Difficulty.v
theories/Colours.v
theories/TimingPoints.v
theories/HitObjects.v
theories/Unicode.v
theories/Storyboard.v
theories/NormalEvents.v
theories/Events.v
theories/Osb.v
theories/OsuFile.v
theories/Trimmer.v
theories/Spec.v
theories/SpecWf.v
theories/StrFacts.v
theories/NumFacts.v
theories/NomFacts.v
theories/DecFacts.v
theories/P_Numbers.v
theories/LineFacts.v
theories/ColoursFacts.v
theories/FieldFacts.v
theories/TpFacts.v
theories/HoFacts.v
theories/HoRound.v
theories/HoObj.v
theories/HoImage.v
theories/SpecText.v
theories/LayoutFacts.v
theories/Samples.v
theories/P_Lines.v
theories/SpecKv.v
theories/KvFacts.v
theories/KvSem.v
theories/SplitFacts.v
theories/SpecSections.v
theories/KvSections.v
theories/KvTheorems.v
theories/KvLines.v
theories/KvImage.v
theories/KvStatements.v
theories/KvSamples.v
theories/P_KeyValue.v
theories/Api.v
theories/SpecTypes.v
theories/TypeFacts.v
theories/ContFacts.v
theories/TriggerFacts.v
theories/P_Types.v
theories/SpecFile.v
theories/FileFacts.v
theories/FileLoop.v
theories/FileTheorems.v
theories/FileEmpty.v
theories/FileSamples.v
theories/P_File.v
theories/SpecCmd.v
theories/CmdFacts.v
theories/CmdRound.v
theories/CmdTree.v
theories/P_Storyboard.v
theories/SpecEvents.v
theories/EvFacts.v
theories/EvRound.v
theories/EvLoop.v
theories/EvImage.v
theories/P_Events.v
theories/EvPanic.v
theories/SpecTrim.v
theories/TrimFacts.v
theories/P_Trim.v
theories/SpecWhole.v
theories/WholeFacts.v
theories/WholeRead.v
theories/P_Whole.v
theories/SpecOld.v
theories/OldFacts.v
theories/P_Old.v
theories/Defaults.v
theories/SpecGate.v
theories/GateFacts.v
theories/P_Versions.v
theories/DecRound.v
theories/SpecOsb.v
theories/VarFacts.v
theories/VarEvents.v
theories/OsbFacts.v
theories/OsbRound.v
theories/P_Osb.v
theories/SpecTotal.v
theories/TotalFacts.v
theories/TotalSamples.v
theories/P_Total.v
theories/Helpers.v
theories/SpecHelpers.v
theories/HelperFacts.v
theories/HelperSamples.v
theories/P_Helpers.v
theories/EmptyPrint.v
theories/SpecLate.v
theories/OldPanic.v
theories/LateTotal.v
theories/SpecPrint.v
theories/PrintPanic.v
theories/LateSamples.v
theories/P_Late.v
theories/SpecBack.v
theories/BackFacts.v
theories/BackSettle.v
theories/BackRead.v
theories/P_Back.v
theories/Messages.v
theories/SpecMsg.v
theories/MessageFacts.v
theories/P_Messages.v
theories/SpecLine.v
theories/LineRead.v
theories/HoRead.v
theories/P_Read.v
theories/SpecEvLine.v
theories/EvRead.v
theories/CmdRead.v
theories/SpecColLine.v
theories/ColRead.v
theories/SpecEvSection.v
theories/EvSection.v
theories/P_EvRead.v
theories/SpecKvRead.v
theories/KvRead.v
theories/SpecFlags.v
theories/Flags.v
theories/P_KvRead.v
theories/SpecParts.v
theories/Parts.v
theories/P_Parts.v
theories/SpecWrite.v
theories/Write.v
theories/P_Write.v
theories/SpecMeans.v
theories/Means.v
theories/P_Means.v
theories/SpecConvert.v
theories/Convert.v
theories/P_Convert.v
theories/Values.v
theories/ValueFacts.v
theories/P_Values.v
theories/SpecEnds.v
theories/Ends.v
theories/P_Ends.v
theories/SpecBlank.v
theories/Blank.v
theories/P_Blank.v
theories/RepoTests.v
theories/SpecDec.v
theories/DecExact.v
theories/NearFacts.v
theories/Equal.v
theories/SpecEqual.v
theories/EqualFacts.v
theories/EqualFile.v
theories/EqualRead.v
theories/P_Equal.v
theories/MsgFields.v
theories/SpecMade.v
theories/MadeFacts.v
theories/MadeMore.v
theories/P_Made.v
theories/SpecCheck.v
theories/CheckFacts.v
theories/P_Check.v
theories/SpecTotalOsb.v
theories/TotalOsb.v
theories/P_OsbTotal.v
theories/SpecEdit.v
theories/Edit.v
theories/EditOut.v
theories/P_Edit.v
theories/SpecCut.v
theories/Cut.v
theories/P_Cut.v
theories/SpecStay.v
theories/Stay.v
theories/P_Stay.v
theories/DecOps.v
theories/SpecDecOps.v
theories/DecOpsFacts.v
theories/DecSpeed.v
theories/P_DecOps.v
theories/SpeedRead.v
theories/RoundOps.v
theories/SpecNewer.v
theories/NewerFacts.v
theories/P_Newer.v
theories/SameText.v
theories/P_SameText.v
theories/SpecWalk.v
theories/WalkFacts.v
theories/P_Walk.v
theories/DivDigits.v
theories/SpecFinished.v
theories/Finished.v
theories/P_Finished.v
theories/Builds.v
theories/P_Builds.v
theories/SpecAlone.v
theories/Alone.v
theories/P_Alone.v
theories/SpecBlanks.v
theories/Blanks.v
theories/P_Blanks.v
theories/SpecComments.v
theories/Comments.v
theories/P_Comments.v
theories/SpecPass.v
theories/Pass.v
theories/P_Pass.v
theories/SpecErrors.v
theories/Errors.v
theories/P_Errors.v
theories/SpecImage.v
theories/ImageKv.v
theories/ImageLine.v
theories/ImageObj.v
theories/ImageCmd.v
theories/ImageEv.v
theories/P_Image.v
theories/SpecImageFile.v
theories/ImageBody.v
theories/ImageFile.v
theories/ImageOsb.v
theories/ImageLate.v
theories/ImageOld.v
theories/HashFeed.v
theories/SpecHash.v
theories/HashFacts.v
theories/HashFile.v
theories/P_Hash.v
theories/Order.v
theories/SpecOrder.v
theories/OrderFacts.v
theories/P_Order.v
theories/MsgLine.v
theories/P_MsgLine.v
theories/SpecAlike.v
theories/Alike.v
theories/P_Alike.v
theories/SumAlike.v
theories/P_SumAlike.v
theories/EqualBack.v
theories/P_EqualBack.v
