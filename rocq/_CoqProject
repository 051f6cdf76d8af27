-Q theories Verif
theories/Base.v
theories/BaseProofs.v
theories/Utf8.v
theories/Utf8Proofs.v
theories/Lexer.v
theories/LexSpec.v
theories/LexerProofs.v
theories/LexPipe.v
theories/Props_LexPipe.v
theories/Props_Lexer.v
theories/Tokenize.v
theories/Ast.v
theories/Parser.v
theories/Schema.v
theories/TypeSpec.v
theories/TypeProofs.v
theories/Gen.v
theories/GenProofs.v
theories/PropsTypesAux.v
theories/Props_Types.v
theories/PropsGenAux.v
theories/Props_Gen.v
theories/Uri.v
theories/ValidateSpec.v
theories/ValidateProofs.v
theories/ValidateComplete.v
theories/ValidateIdem.v
theories/PropsValidateAux.v
theories/Props_Validate.v
theories/ParserTerm.v
theories/PropsParserAux.v
theories/Props_Parser.v
theories/StringSpec.v
theories/StringProofs.v
theories/StringBack.v
theories/CommentSpec.v
theories/CommentProofs.v
theories/EraseProofs.v
theories/CommentBlock.v
theories/CommentStruct.v
theories/CommentAll.v
theories/Props_Comments.v
theories/Graph.v
theories/GraphSpec.v
theories/GraphProofs.v
theories/Ridl.v
theories/LoadSpec.v
theories/LoadProofs.v
theories/DeclSpec.v
theories/NumProofs.v
theories/DeclProofs.v
theories/PropsLoadAux.v
theories/Props_Load.v
theories/Filter.v
theories/FilterSpec.v
theories/FilterProofs.v
theories/PropsFilterAux.v
theories/Props_Filter.v
theories/Cli.v
theories/CliSpec.v
theories/CliProofs.v
theories/Props_Cli.v
theories/BigInt.v
theories/BigIntSpec.v
theories/BigIntProofs.v
theories/BigIntTable.v
theories/Props_BigInt.v
theories/Cache.v
theories/CacheSpec.v
theories/CacheProofs.v
theories/Props_Cache.v
theories/Json.v
theories/JsonProofs.v
theories/GoVal.v
theories/GoValSpec.v
theories/GoValProofs.v
theories/Rpc.v
theories/RpcSpec.v
theories/RpcProofs.v
theories/RpcRemote.v
theories/RpcExamples.v
theories/RpcRoutes.v
theories/Props_Rpc.v
theories/VersionRpc.v
theories/Props_Versions.v
theories/Stream.v
theories/StreamSpec.v
theories/StreamProofs.v
theories/Props_Stream.v
theories/Ts.v
theories/TsSpec.v
theories/TsProofs.v
theories/TsWire.v
theories/Props_Ts.v
theories/Grammar.v
theories/GrammarProofs.v
theories/GrammarMethods.v
theories/GrammarItems.v
theories/GrammarExample.v
theories/PropsGrammarAux.v
theories/Props_Grammar.v
theories/SchemaJson.v
theories/Sha1.v
theories/Main.v
theories/Corpus.v
theories/Conformance.v
theories/RawJsonProofs.v
theories/JsonSchemaSpec.v
theories/SchemaJsonProofs.v
theories/SchemaJsonBack.v
theories/TextProofs.v
theories/TextSchema.v
theories/PropsSchemaJsonAux.v
theories/Props_SchemaJson.v
theories/Tmpl.v
theories/TmplSpec.v
theories/TmplProofs.v
theories/Props_Tmpl.v
theories/BigSpec.v
theories/GoBig.v
theories/GoBigProofs.v
theories/Props_GoBig.v
theories/TsBig.v
theories/TsBigSpec.v
theories/TsBigProofs.v
theories/TsBigMain.v
theories/TsBigWire.v
theories/TsBigExample.v
theories/Props_TsBig.v
theories/TsServer.v
theories/Props_TsServer.v
theories/PathSpec.v
theories/PathProofs.v
theories/Props_Path.v
theories/MainRun.v
theories/RunSpec.v
theories/RunProofs.v
theories/PropsRunAux.v
theories/Props_Run.v
theories/Chat.v
theories/ChatSpec.v
theories/ChatProofs.v
theories/ChatExec.v
theories/Props_Chat.v
theories/TestSuite.v
theories/TestSpec.v
theories/TestProofs.v
theories/Props_TestSuite.v
theories/JsNum.v
theories/JsNumSpec.v
theories/JsNumProofs.v
theories/JsOrder.v
theories/VersionSpec.v
theories/VersionProofs.v
theories/JsThrough.v
theories/Props_JsNum.v
theories/NodeHttp.v
theories/NodeSpec.v
theories/NodeText.v
theories/NodeProofs.v
theories/Props_Node.v
theories/Methods.v
theories/MethodsSpec.v
theories/MethodsProofs.v
theories/Props_Methods.v
theories/WebApp.v
theories/WebAppSpec.v
theories/WebAppProofs.v
theories/Props_WebApp.v
theories/TsCall.v
theories/TsCallSpec.v
theories/TsCallProofs.v
theories/Props_TsCall.v
theories/Url.v
theories/UrlSpec.v
theories/UrlProofs.v
theories/UrlJoin.v
theories/UrlMain.v
theories/UrlWeb.v
theories/UrlTs.v
theories/Props_Url.v
theories/Cors.v
theories/CorsSpec.v
theories/CorsProofs.v
theories/CorsMain.v
theories/CorsNode.v
theories/CorsNodeProofs.v
theories/Props_Cors.v
theories/RpcCost.v
theories/Props_RpcCost.v
theories/TestTool.v
theories/TestToolProofs.v
theories/TestToolFlags.v
theories/Props_TestTool.v
theories/StreamVersion.v
theories/Props_StreamVersions.v
theories/GoCtx.v
theories/GoCtxSpec.v
theories/GoCtxProofs.v
theories/GoCtxHeaders.v
theories/GoCtxRemote.v
theories/Props_GoCtx.v
theories/Succinct.v
theories/SuccinctSpec.v
theories/SuccinctProofs.v
theories/Props_Succinct.v
theories/ToolVersion.v
theories/Props_ToolVersion.v
theories/UnitTests.v
theories/GoGen.v
theories/GoGenSpec.v
theories/GoGenProofs.v
theories/GoGenExamples.v
theories/Props_GoGen.v
theories/StreamLife.v
theories/StreamLifeProofs.v
theories/Props_StreamLife.v
theories/GenTs.v
theories/GenTsProofs.v
theories/Props_GenTs.v
theories/Hono.v
theories/Props_Hono.v
theories/CoreJson.v
theories/Props_CoreJson.v
