-Q theories Verif
theories/BufferProofs.v
theories/Bytes.v
theories/BytesProofs.v
theories/Config.v
theories/Conform.v
theories/ConformDocs.v
theories/ConformGnu.v
theories/ConformParser.v
theories/ConformSystemd.v
theories/ConformTime.v
theories/Cost.v
theories/CostErase.v
theories/CostExt.v
theories/CostExtProofs.v
theories/CostMulti.v
theories/CostProofs.v
theories/CostQuad.v
theories/CostScan.v
theories/CostSingle.v
theories/CostWorst.v
theories/Custom.v
theories/CustomProofs.v
theories/DateProofs.v
theories/DateTime.v
theories/DateTimeProofs.v
theories/DelimProofs.v
theories/Equal.v
theories/ErrorProofs.v
theories/ExEnv.v
theories/ExampleProofs.v
theories/ExampleTrim.v
theories/Examples.v
theories/ExamplesMore.v
theories/ExpProofs.v
theories/ExtProofs.v
theories/FitProofs.v
theories/FloatProofs.v
theories/Gnu.v
theories/GnuErrors.v
theories/GnuEval.v
theories/GnuGrammar.v
theories/GnuRef.v
theories/GnuWords.v
theories/Misc.v
theories/NumProofs.v
theories/Parse.v
theories/Prelude.v
theories/PropAgree.v
theories/PropAgreeGnu.v
theories/PropAlgebra.v
theories/PropBuffer.v
theories/PropCalendar.v
theories/PropCase.v
theories/PropConjunctions.v
theories/PropConstruct.v
theories/PropCost.v
theories/PropCustom.v
theories/PropCustomText.v
theories/PropCustomTexts.v
theories/PropDate.v
theories/PropDebug.v
theories/PropDefault.v
theories/PropDefaultMany.v
theories/PropDisplay.v
theories/PropEqual.v
theories/PropErrors.v
theories/PropExampleCustom.v
theories/PropExampleGnu.v
theories/PropExampleGnuReads.v
theories/PropExampleSystemd.v
theories/PropExampleTexts.v
theories/PropExamplesMore.v
theories/PropExponent.v
theories/PropFinal.v
theories/PropFinalMany.v
theories/PropFinalWords.v
theories/PropFloat.v
theories/PropFloatFuzz.v
theories/PropFuzz.v
theories/PropGlobal.v
theories/PropGnu.v
theories/PropGnuErrors.v
theories/PropGnuExtract.v
theories/PropGnuFuzz.v
theories/PropGnuOrder.v
theories/PropGnuPrefix.v
theories/PropGnuText.v
theories/PropGnuTexts.v
theories/PropGrow.v
theories/PropGrowWords.v
theories/PropKinds.v
theories/PropManyPrefix.v
theories/PropManyTexts.v
theories/PropMessageLength.v
theories/PropMessages.v
theories/PropModes.v
theories/PropMonths.v
theories/PropNum.v
theories/PropOffset.v
theories/PropOptions.v
theories/PropOrder.v
theories/PropParse.v
theories/PropPrefix.v
theories/PropReadBack.v
theories/PropReadBackMore.v
theories/PropScale.v
theories/PropSerde.v
theories/PropSettings.v
theories/PropSigns.v
theories/PropSpaces.v
theories/PropSpans.v
theories/PropStandard.v
theories/PropStandardTexts.v
theories/PropSystemd.v
theories/PropSystemdErrors.v
theories/PropSystemdExact.v
theories/PropSystemdPrefix.v
theories/PropSystemdTable.v
theories/PropTables.v
theories/PropText.v
theories/PropTextLength.v
theories/PropTexts.v
theories/PropTime.v
theories/PropUnicode.v
theories/PropWrite.v
theories/RefErrors.v
theories/RefGrammar.v
theories/RefMulti.v
theories/RefParse.v
theories/RefProofs.v
theories/RefSingle.v
theories/Repr.v
theories/ReprProofs.v
theories/SafeProofs.v
theories/Serde.v
theories/SpecCustom.v
theories/SpecDate.v
theories/SpecDebug.v
theories/SpecErrors.v
theories/SpecExamples.v
theories/SpecFloat.v
theories/SpecFloatFuzz.v
theories/SpecFuzz.v
theories/SpecGnu.v
theories/SpecGnuErrors.v
theories/SpecGnuExtract.v
theories/SpecGnuFuzz.v
theories/SpecGnuTexts.v
theories/SpecGrammar.v
theories/SpecManyTexts.v
theories/SpecNum.v
theories/SpecParse.v
theories/SpecRegex.v
theories/SpecSpelling.v
theories/SpecSystemd.v
theories/SpecSystemdErrors.v
theories/SpecTexts.v
theories/SpecTime.v
theories/SpecUnicode.v
theories/SpecValue.v
theories/SpellProofs.v
theories/Standard.v
theories/StandardProofs.v
theories/SwitchProofs.v
theories/Systemd.v
theories/SystemdErrors.v
theories/SystemdExact.v
theories/SystemdProofs.v
theories/SystemdSpan.v
theories/Time.v
theories/TimeProofs.v
theories/Unbuffered.v
theories/Utf8Proofs.v
theories/Util.v
theories/UtilProofs.v
theories/ValueProofs.v
