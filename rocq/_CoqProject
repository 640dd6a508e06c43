-Q theories Verif
theories/Py/Str.v
theories/Py/Res.v
theories/Py/Num.v
theories/Model/Dict.v
theories/Model/TextParser.v
theories/Model/CommonUtils.v
theories/Model/NAWrite.v
theories/Model/NARead.v
theories/Proofs/StrLemmas.v
theories/Proofs/NumLemmas.v
theories/Spec/TextSpec.v
theories/Spec/ZNum.v
theories/Proofs/TextLemmas.v
theories/Model/ReadLoop.v
theories/Proofs/ReadLoopLemmas.v
theories/Proofs/BlankLemmas.v
theories/Props/TextProps.v
theories/Proofs/WriteFrame.v
theories/Proofs/WriteSim.v
theories/Spec/CharSpec.v
theories/Proofs/WriteChars.v
theories/Proofs/HeaderLemmas.v
theories/Spec/Samples.v
theories/Spec/WriteSpec.v
theories/Props/WriteProps.v
theories/Spec/Records.v
theories/Proofs/RTText.v
theories/Proofs/RTHead.v
theories/Proofs/RTRead.v
theories/Proofs/RTData.v
theories/Spec/RoundTripSpec.v
theories/Spec/WholeNum.v
theories/Spec/RecordSamples.v
theories/Proofs/RT1.v
theories/Proofs/RT2.v
theories/Proofs/RT3.v
theories/Proofs/RT4.v
theories/Spec/Interleave.v
theories/Proofs/RT4n.v
theories/Proofs/RT5.v
theories/Proofs/RT6.v
theories/Proofs/RT7.v
theories/Proofs/SampleOk.v
theories/Props/RoundTrip.v
theories/Props/Settled.v
theories/Props/Interleaved.v
theories/Model/Utils.v
theories/Model/NACore.v
theories/Model/NAObject.v
theories/Spec/ObjectSpec.v
theories/Proofs/ReadFrame.v
theories/Proofs/ReadText.v
theories/Props/UtilProps.v
theories/Props/CoreProps.v
theories/Model/Coord.v
theories/Props/CoordProps.v
theories/Props/ObjectProps.v
theories/Model/Compare.v
theories/Model/CompareProg.v
theories/Spec/QNum.v
theories/Props/CompareProps.v
theories/Model/NAWriteLog.v
theories/Proofs/LogErase.v
theories/Model/Lifecycle.v
theories/Props/LifecycleProps.v
theories/Model/WithBlock.v
theories/Props/WithProps.v
theories/Spec/ReadSpec.v
theories/Proofs/ReadData.v
theories/Proofs/ReadTwice.v
theories/Proofs/ReadRecords.v
theories/Props/ReadProps.v
theories/Spec/AnnotSpec.v
theories/Proofs/Annot.v
theories/Props/AnnotProps.v
theories/Spec/NestedSpec.v
theories/Model/NCWrite.v
theories/Model/Linspace.v
theories/Spec/LinspaceSpec.v
theories/Proofs/FloatExact.v
theories/Proofs/FloatRound.v
theories/Proofs/FloatDec.v
theories/Proofs/FloatText.v
theories/Proofs/FloatValid.v
theories/Proofs/FloatPrint.v
theories/Proofs/FloatStable.v
theories/Proofs/FloatShort.v
theories/Spec/Float64.v
theories/Spec/DecimalSpec.v
theories/Proofs/FloatNumeral.v
theories/Proofs/FloatAcc.v
theories/Props/FloatProps.v
theories/Props/LinspaceProps.v
theories/Spec/NCWriteSpec.v
theories/Props/NestedProps.v
theories/Props/NCWriteProps.v
theories/Py/Arith.v
theories/Model/Normalize.v
theories/Model/Xarray.v
theories/Model/Collector.v
theories/Spec/NormalizeSpec.v
theories/Spec/Binary64.v
theories/Props/NormalizeProps.v
theories/Spec/CollectorSpec.v
theories/Proofs/CollectorLemmas.v
theories/Proofs/CollectorFrame.v
theories/Props/CollectorProps.v
theories/Props/CommentProps.v
theories/Model/ToXarray.v
theories/Spec/ToXarraySpec.v
theories/Proofs/ReadFile.v
theories/Props/ToXarrayProps.v
theories/Props/ToXarrayMore.v
theories/Props/AuxSelect.v
theories/Props/AxisProps.v
theories/Spec/LineSpec.v
theories/Proofs/ReadSim.v
theories/Props/ReadInvariance.v
theories/Spec/RowSpec.v
theories/Spec/LetterSpec.v
theories/Spec/RowCompareSpec.v
theories/Proofs/Delim.v
theories/Props/DelimProps.v
theories/Model/Api.v
theories/Spec/ApiSpec.v
theories/Spec/ValuesSpec.v
theories/Props/ApiProps.v
theories/Props/ApiMore.v
theories/Props/ValuesProps.v
theories/Spec/NcRoundTripSpec.v
theories/Props/NcRoundTrip.v
theories/Spec/HeaderSpec.v
theories/Props/HeaderProps.v
theories/Props/CommentTrip.v
theories/Props/HeaderDates.v
theories/Props/AttrComments.v
theories/Props/TimeAxis.v
theories/Props/GlobalAttrs.v
theories/Props/AxesBack.v
theories/Props/Volumes.v
theories/Props/VarOrder.v
theories/Props/ThirdWrite.v
theories/Props/Recorded.v
theories/Props/TestSuite.v
theories/Model/NumpyDate.v
theories/Props/NumpyDateProps.v
theories/Model/Messages.v
theories/Props/MessageProps.v
theories/Model/ToXarrayLife.v
theories/Props/ToXarrayLifeProps.v
theories/Model/ExitStatus.v
theories/Props/ExitProps.v
theories/Props/ConfigTwice.v
theories/Model/ComparePrint.v
theories/Props/ComparePrintProps.v
theories/Model/Defaults.v
theories/Props/DefaultsProps.v
theories/Model/TimeCoord.v
theories/Props/TimeCoordProps.v
theories/Model/ScalarValue.v
theories/Props/ScalarValueProps.v
theories/Spec/ColumnSpec.v
theories/Proofs/LastLine.v
theories/Props/ColumnProps.v
theories/Model/Inspect.v
theories/Spec/InspectSpec.v
theories/Props/InspectProps.v
theories/Model/Getopt.v
theories/Model/CommandLine.v
theories/Spec/CommandLineSpec.v
theories/Props/CommandLine.v
theories/Model/Programs.v
theories/Spec/ProgramSpec.v
theories/Props/Programs.v
theories/Proofs/Convertible.v
theories/Props/ConvertibleProps.v
theories/Spec/BackSpec.v
theories/Props/ThereAndBack.v
theories/Model/ParseConfig.v
theories/Model/ConfigCache.v
theories/Model/EnvConfig.v
theories/Model/ListTools.v
theories/Spec/ConfigSpec.v
theories/Proofs/ConfigLemmas.v
theories/Props/ConfigProps.v
theories/Props/CommentOption.v
theories/Spec/RewriteSpec.v
theories/Proofs/ReadMore.v
theories/Proofs/Rewrite.v
theories/Props/RewriteProps.v
theories/Spec/CompareTreeSpec.v
theories/Props/CompareTree.v
theories/Spec/IgnoredSpec.v
theories/Proofs/Ignored.v
theories/Props/IgnoredLines.v
theories/Spec/GridSpec.v
theories/Spec/ProfileSpec.v
theories/Props/GridRoundTrip.v
theories/Props/GridThereAndBack.v
theories/Props/ProfileRoundTrip.v
theories/Props/ListTools.v
theories/Props/EnvConfig.v
theories/Proofs/GridExact.v
theories/Props/GridExact.v
theories/Props/GridConvExact.v
theories/Props/FloatExact.v
theories/Props/FloatFiles.v
theories/Props/NumeralProps.v
theories/Spec/GridFloatSpec.v
theories/Proofs/FloatGrid.v
theories/Props/GridFloats.v
theories/Props/DateProps.v
theories/Model/Converter.v
theories/Spec/ConverterSpec.v
theories/Props/ConverterProps.v
theories/Model/DatasetVars.v
theories/Model/LocalAttrs.v
theories/Props/DatasetProps.v
theories/Props/LocalAttrProps.v
theories/Spec/CutSpec.v
theories/Proofs/CutData.v
theories/Proofs/CutHeader.v
theories/Props/CutProps.v
theories/Proofs/LongerFile.v
theories/Props/LongerProps.v
theories/Props/SameFiles.v
theories/Spec/SectionSpec.v
theories/Props/SectionProps.v
theories/Spec/FreeTextSpec.v
theories/Proofs/FreeText.v
theories/Props/FreeTextProps.v
theories/Spec/CommentTextSpec.v
theories/Proofs/CommentText.v
theories/Props/CommentTextProps.v
theories/Spec/SpecialTextSpec.v
theories/Proofs/SpecialText.v
theories/Props/SpecialTextProps.v
theories/Spec/NameTextSpec.v
theories/Proofs/NameText.v
theories/Props/NameTextProps.v
