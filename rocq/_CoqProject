-Q theories Verif
theories/GoStrings.v
theories/GoStringsProofs.v
theories/NamesModel.v
theories/NamesTests.v
theories/NamesSpec.v
theories/NamesProofs.v
theories/PropNames.v
theories/GoMap.v
theories/GoMapProofs.v
theories/ConceptsModel.v
theories/ConceptsSpec.v
theories/ConceptsProofs.v
theories/PropConcepts.v
theories/ReporterModel.v
theories/ReaderModel.v
theories/ChecksModel.v
theories/ReaderSpec.v
theories/ReaderProofs.v
theories/ReaderProofs2.v
theories/ReaderProofs3.v
theories/ReaderProofs4.v
theories/ReaderProofs5.v
theories/ReaderProofs6.v
theories/ReaderProofs7.v
theories/ReaderProofs8.v
theories/ReaderExamples.v
theories/ReaderProofs9.v
theories/ReaderProofs10.v
theories/PropReader.v
theories/ChecksSpec.v
theories/ChecksProofs.v
theories/ChecksProofs2.v
theories/LoopsProofs.v
theories/PathsModel.v
theories/PathsProofs.v
theories/ChecksExamples.v
theories/PropChecks.v
theories/BindingModel.v
theories/BindingSpec.v
theories/BindingProofs.v
theories/PropBinding.v
theories/GoNamesModel.v
theories/GoNamesSpec.v
theories/GoNamesProofs.v
theories/PropGoNames.v
theories/GoTimeModel.v
theories/GoTimeSpec.v
theories/GoTimeProofs.v
theories/ObjectsModel.v
theories/ObjectsSpec.v
theories/ObjectsProofs.v
theories/ObjectsProofs2.v
theories/ObjectsProofs3.v
theories/ObjectsExamples.v
theories/PropObjects.v
theories/JsonModel.v
theories/JsonSpec.v
theories/JsonProofs.v
theories/JsonProofs2.v
theories/JsonProofs3.v
theories/JsonProofs4.v
theories/JsonProofs5.v
theories/JsonProofs6.v
theories/JsonProofs7.v
theories/JsonProofs8.v
theories/JsonExamples.v
theories/PropJson.v
theories/HelpersModel.v
theories/HelpersSpec.v
theories/HelpersProofs.v
theories/HelpersProofs2.v
theories/HelpersProofs3.v
theories/HelpersProofs4.v
theories/HelpersExamples.v
theories/PropHelpers.v
theories/ApiErrorModel.v
theories/ApiErrorSpec.v
theories/ApiErrorProofs.v
theories/ApiErrorProofs2.v
theories/ApiErrorExamples.v
theories/PropApiError.v
theories/TextModel.v
theories/TextSpec.v
theories/TextProofs.v
theories/TextProofs2.v
theories/TextProofs3.v
theories/TextProofs4.v
theories/TextExamples.v
theories/PropText.v
theories/BufferModel.v
theories/BufferSpec.v
theories/BufferProofs.v
theories/BufferProofs2.v
theories/BufferProofs3.v
theories/BufferProofs4.v
theories/BufferExamples.v
theories/PropBuffer.v
theories/JsonTextModel.v
theories/JsonTextSpec.v
theories/JsonTextProofs.v
theories/JsonTextProofs2.v
theories/JsonTextProofs3.v
theories/PropJsonText.v
theories/OpenapiModel.v
theories/JsonLexModel.v
theories/JsonLexProofs.v
theories/JsonLexProofs2.v
theories/ClientsModel.v
theories/ClientsSpec.v
theories/ClientsProofs.v
theories/ClientsProofs2.v
theories/ClientsExamples.v
theories/PropClients.v
theories/OpenapiSpec.v
theories/OpenapiProofs.v
theories/OpenapiProofs2.v
theories/OpenapiProofs3.v
theories/OpenapiProofs4.v
theories/OpenapiProofs5.v
theories/OpenapiProofs6.v
theories/OpenapiExamples.v
theories/PropOpenapi.v
theories/RequestModel.v
theories/RequestSpec.v
theories/RequestProofs.v
theories/RequestProofs2.v
theories/RequestProofs3.v
theories/RequestProofs4.v
theories/RequestProofs5.v
theories/RequestProofs6.v
theories/RequestProofs7.v
theories/RequestExamples.v
theories/PropRequest.v
theories/HeapModel.v
theories/HeapSpec.v
theories/HeapProofs.v
theories/HeapProofs2.v
theories/HeapProofs3.v
theories/HeapExamples.v
theories/PropHeap.v
theories/SyntaxModel.v
theories/SyntaxSpec.v
theories/SyntaxProofs.v
theories/SyntaxProofs2.v
theories/SyntaxProofs3.v
theories/SyntaxProofs4.v
theories/SyntaxProofs5.v
theories/SyntaxProofs6.v
theories/SyntaxProofs7.v
theories/SyntaxProofs8.v
theories/SyntaxProofs9.v
theories/SyntaxProofs10.v
theories/SyntaxProofs11.v
theories/SyntaxExamples.v
theories/PropSyntax.v
theories/ConformSpec.v
theories/ConformProofs.v
theories/ConformProofs2.v
theories/ConformProofs3.v
theories/ConformExamples.v
theories/ConformExamples2.v
theories/PropConform.v
theories/RefModel.v
theories/RefSpec.v
theories/RefProofs.v
theories/RefProofs2.v
theories/RefProofs3.v
theories/RefExamples.v
theories/PropRef.v
theories/VersionsSpec.v
theories/VersionsProofs.v
theories/VersionsExamples.v
theories/PropVersions.v
theories/DeclsModel.v
theories/DeclsSpec.v
theories/DeclsProofs.v
theories/DeclsProofs2.v
theories/DeclsProofs3.v
theories/DeclsExamples.v
theories/PropDecls.v
theories/DocsModel.v
theories/DocsSpec.v
theories/DocsProofs.v
theories/DocsProofs2.v
theories/DocsProofs3.v
theories/DocsProofs4.v
theories/DocsExamples.v
theories/PropDocs.v
theories/ReadingSpec.v
theories/ReadingProofs.v
theories/ReadingProofs2.v
theories/ReadingProofs3.v
theories/ReadingProofs4.v
theories/ReadingProofs5.v
theories/ReadingProofs6.v
theories/ReadingProofs7.v
theories/ReadingExamples.v
theories/PropReading.v
theories/SourceSpec.v
theories/SourceProofs.v
theories/SourceProofs2.v
theories/SourceProofs3.v
theories/SourceExamples.v
theories/PropSource.v
theories/ToolModel.v
theories/ToolSpec.v
theories/ToolProofs.v
theories/ToolProofs2.v
theories/ToolExamples.v
theories/PropTool.v
theories/EndProofs.v
theories/EndExamples.v
theories/PropEnd.v
theories/GoTypesModel.v
theories/GoTypesSpec.v
theories/GoTypesProofs.v
theories/GoTypesProofs2.v
theories/GoTypesProofs3.v
theories/GoTypesProofs4.v
theories/GoTypesProofs5.v
theories/GoTypesExamples.v
theories/PropGoTypes.v
theories/JsonCodeModel.v
theories/JsonCodeSpec.v
theories/JsonCodeProofs.v
theories/JsonCodeProofs2.v
theories/JsonCodeProofs3.v
theories/JsonCodeProofs4.v
theories/JsonCodeProofs5.v
theories/JsonCodeProofs6.v
theories/JsonCodeExamples.v
theories/PropJsonCode.v
theories/PollSpec.v
theories/PollProofs.v
theories/PropPoll.v
theories/JsonRunSpec.v
theories/JsonRunProofs.v
theories/JsonRunProofs2.v
theories/JsonRunProofs3.v
theories/JsonRunProofs4.v
theories/JsonRunProofs5.v
theories/JsonRunProofs6.v
theories/JsonRunProofs7.v
theories/JsonRunProofs8.v
theories/JsonRunProofs9.v
theories/JsonRunProofs10.v
theories/JsonRunProofs11.v
theories/JsonRunProofs12.v
theories/JsonRunExamples.v
theories/PropJsonRun.v
theories/JsonMethodsSpec.v
theories/JsonMethodsProofs.v
theories/JsonMethodsProofs2.v
theories/JsonMethodsProofs3.v
theories/JsonMethodsProofs4.v
theories/JsonMethodsProofs5.v
theories/JsonMethodsProofs6.v
theories/JsonMethodsProofs7.v
theories/JsonMethodsExamples.v
theories/PropJsonMethods.v
