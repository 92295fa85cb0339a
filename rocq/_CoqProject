-Q theories Verif

theories/GoBase.v
theories/GoTime.v
theories/Regex.v
theories/Tables.v
theories/Codec.v
theories/Records.v
theories/File.v
theories/GoBaseFacts.v
theories/SpecCodec.v
theories/SpecLayouts.v
theories/SpecRecords.v
theories/SpecValidate.v
theories/TimeFacts.v
theories/FieldFacts.v
theories/RecordFacts.v
theories/RoundTrip.v
theories/Layout.v
theories/FieldRead.v
theories/RecordRead.v
theories/SpecFile.v
theories/ParseFacts.v
theories/ParseProps.v
theories/SegOrder.v
theories/SpecFields.v
theories/FieldProps.v
theories/RegexFacts.v
theories/ValidateFacts.v
theories/SpecCounters.v
theories/CounterFacts.v
theories/CounterProps.v
theories/Check.v
theories/SpecApi.v
theories/ApiFacts.v
theories/OrderFacts.v
theories/Samples.v
theories/CounterCase.v
theories/ApiCase.v
theories/SpecFiles.v
theories/FileFacts.v
theories/BreakFacts.v
theories/FileRoundTrip.v
theories/FileProps.v
theories/Concurrent.v
theories/ConcurrentFacts.v
theories/FileCases.v
theories/Reader.v
theories/SpecReader.v
theories/ReaderFacts.v
theories/ReaderProps.v
theories/ReaderCases.v
theories/TextFacts.v
theories/SpecAgree.v
theories/AgreeFacts.v
theories/AgreeCases.v
theories/GoLayout.v
theories/Json.v
theories/JsonTables.v
theories/JsonFile.v
theories/SpecJson.v
theories/LayoutFacts.v
theories/JsonTextFacts.v
theories/JsonGrammarFacts.v
theories/JsonMapFacts.v
theories/JsonFacts.v
theories/JsonProps.v
theories/JsonReader.v
theories/JsonCases.v
theories/Server.v
theories/SpecServer.v
theories/ServerFacts.v
theories/ServerProps.v
theories/ServerCases.v
theories/Client.v
theories/SpecClient.v
theories/ClientFacts.v
theories/ClientCases.v
theories/SpecSparse.v
theories/SpecDates.v
theories/DateFacts.v
theories/DateCases.v
theories/SparseFacts.v
theories/SparseCases.v
theories/SpecSchema.v
theories/SchemaFacts.v
theories/SchemaCases.v
theories/ClientTypes.v
theories/SpecClientTypes.v
theories/ClientTypesFacts.v
theories/ClientFileFacts.v
theories/ClientTypesCases.v
theories/ClientAccess.v
theories/SpecAccess.v
theories/AccessFacts.v
theories/SpecWire.v
theories/WireFacts.v
theories/Errors.v
theories/SpecReport.v
theories/ReportFacts.v
theories/ErrorFacts.v
theories/ReportCases.v
theories/TestData.v
theories/ProjectTests.v
theories/PropsRoundTrip.v
theories/PropsLayout.v
theories/PropsFields.v
theories/PropsParse.v
theories/PropsValidate.v
theories/PropsCounters.v
theories/PropsApi.v
theories/PropsFile.v
theories/PropsReader.v
theories/PropsJson.v
theories/PropsServer.v
theories/PropsOrder.v
theories/PropsAgree.v
theories/PropsClient.v
theories/PropsSparse.v
theories/PropsSchema.v
theories/PropsDates.v
theories/PropsClientTypes.v
theories/Stream.v
theories/SpecStream.v
theories/StreamFacts.v
theories/StreamCases.v
theories/PropsReport.v
theories/PropsStream.v
theories/SpecRead.v
theories/ReadField.v
theories/ReadRecords.v
theories/ReadOutcome.v
theories/ReadUnique.v
theories/ReadCases.v
theories/PropsRead.v
theories/Heap.v
theories/SpecHeap.v
theories/HeapFacts.v
theories/HeapSteps.v
theories/HeapCalls.v
theories/HeapRuns.v
theories/HeapMain.v
theories/HeapTyped.v
theories/HeapCases.v
theories/PropsHeap.v
theories/SpecLookup.v
theories/LookupFacts.v
theories/PropsLookup.v
theories/SpecFormats.v
theories/FormatExec.v
theories/FormatFacts.v
theories/FormatReads.v
theories/FormatWrong.v
theories/PropsFormats.v
theories/PropsJsonText.v
theories/PropsAccess.v
theories/PropsWire.v
theories/ClientConfig.v
theories/SpecConfig.v
theories/ConfigFacts.v
theories/ClientCache.v
theories/SpecCache.v
theories/CacheFacts.v
theories/DurationFacts.v
theories/ClientDuration.v
theories/DurationExact.v
theories/PropsConfig.v
theories/ClientHeaders.v
theories/SpecHeaders.v
theories/HeaderFacts.v
theories/PropsHeaders.v
theories/SpecForm.v
theories/FormFacts.v
theories/PropsForm.v
theories/SpecMerge.v
theories/MergeFacts.v
theories/MergeCases.v
theories/PropsMerge.v
theories/SpecAccept.v
theories/AcceptFacts.v
theories/AcceptCases.v
theories/PropsAccept.v
theories/JsonLeft.v
theories/SpecLeft.v
theories/LeftFacts.v
theories/LeftCases.v
theories/PropsLeft.v
theories/Lists.v
theories/SpecLists.v
theories/ListFacts.v
theories/ListMain.v
theories/ListProps.v
theories/ListCases.v
theories/PropsLists.v
theories/GoFloat.v
theories/SpecNumbers.v
theories/NumberFacts.v
theories/NumberRound.v
theories/NumberText.v
theories/NumberShort.v
theories/NumberNotation.v
theories/NumberMain.v
theories/NumberCases.v
theories/PropsNumbers.v
theories/ClientScalars.v
theories/SpecScalars.v
theories/ScalarFacts.v
theories/PropsScalars.v
theories/ClientErrors.v
theories/SpecTold.v
theories/ToldFacts.v
theories/PropsTold.v
theories/ClientParams.v
theories/SpecParams.v
theories/ParamNumbers.v
theories/SingleRound.v
theories/SingleDigits.v
theories/SingleShort.v
theories/SingleText.v
theories/ParamFacts.v
theories/PropsParams.v
theories/ClientSingles.v
theories/SpecSingles.v
theories/SingleFacts.v
theories/PropsSingles.v
theories/ClientBody.v
theories/SpecBody.v
theories/BodyFacts.v
theories/PropsBody.v
theories/ClientHelpers.v
theories/SpecHelpers.v
theories/HelperFacts.v
theories/PropsHelpers.v
theories/SpecExponents.v
theories/ExponentFacts.v
theories/PropsExponents.v
theories/ClientMemory.v
theories/SpecMemory.v
theories/MemoryFacts.v
theories/MemoryRuns.v
theories/MemoryMain.v
theories/PropsMemory.v
theories/ClientStrict.v
theories/SpecStrict.v
theories/StrictFacts.v
theories/PropsStrict.v
theories/ClientCalls.v
theories/SpecCalls.v
theories/CallsFacts.v
theories/PropsCalls.v
theories/CommandLine.v
theories/SpecCommand.v
theories/CommandFacts.v
theories/CommandCases.v
theories/PropsCommand.v
theories/CommandScript.v
theories/SpecScript.v
theories/ScriptFacts.v
theories/ScriptCases.v
theories/PropsScript.v
theories/SpecBoth.v
theories/BothFacts.v
theories/BothCases.v
theories/PropsBoth.v
