{"id": "C01", "title": "RIDL lexing is lossless", "statement": "Lexing a RIDL document drops, invents and reorders nothing: the token texts, concatenated in the order they are delivered, are exactly the document (up to its first NUL character, where lexing stops), and the stream ends with exactly one end-of-input.", "quantifier": "every RIDL document (every sequence of characters)", "why_tests_cant": "A lexer test checks a handful of documents; a lost or merged character shows up only for particular adjacencies of character classes, of which there are unboundedly many sequences.", "anchors": ["schema/ridl/lexer.go: lexDefaultState, lexPushTokenState, lexState*", "schema/ridl/tokenizer.go: tokenize"]}
{"id": "C02", "title": "Token positions point into the document", "statement": "Every token carries the position of its end: its pos is the number of characters lexed before and including it, its line is one plus the number of newlines before the token, and its col is the number of characters since the last newline before the token plus its own length; therefore the line:col of any token names a real place of the document, and so does the line:col of every parse error that is not reported at the end of the document (0:0).", "quantifier": "every RIDL document and every token of it", "why_tests_cant": "Line/column bookkeeping is stateful (newline resets the column lazily); tests look at short documents only and cannot cover all interleavings of newlines, tabs and multi-byte characters.", "anchors": ["schema/ridl/lexer.go: lexer.next, lexer.emit", "schema/ridl/parser.go: parser.run error wrapping"]}
{"id": "C03", "title": "Tokens are maximal and of the right class", "statement": "Word tokens are non-empty, begin with a word-beginning character and contain no breaking character; whitespace tokens contain only blanks (CR included), a newline token is exactly one LF; two adjacent words or blanks are never emitted as separate tokens (maximal munch); every punctuation token is the single character it is named after, and `=>` is a rocket exactly when `=` is followed by `>`.", "quantifier": "every RIDL document", "why_tests_cant": "Maximal munch is a statement about all pairs of adjacent tokens in all documents.", "anchors": ["schema/ridl/lexer.go: wordBeginning, wordBreak, lexStateWord, lexStateSpace, lexStateNewLine, lexStateEqual"]}
{"id": "C04", "title": "Parsing always terminates", "statement": "Parsing a RIDL document returns (a schema or an error) after a number of parser steps bounded by a linear function of the number of tokens. (False of the code: a service annotation mark `@` not followed by a word makes the parser loop for ever; proved exactly outside that case.)", "quantifier": "every RIDL document", "why_tests_cant": "A hang is triggered only by specific token contexts; a finite test corpus says nothing about the remaining documents.", "anchors": ["schema/ridl/parser.go: parserStateDefault, parserStateBlock", "schema/ridl/service_parser.go: parserStateServiceMethod, parseAnnotations"]}
{"id": "C05", "title": "String literals denote their content", "statement": "A quoted value made of one or more ASCII characters other than newline, backslash and double quote, and of the escapes \\n and \\t, denotes exactly the characters between the quotes with the escapes replaced; the unquoting never changes, drops or duplicates them. Conversely every quoted value the parser accepts lies on one line, contains quotes and backslashes only in the escapes \\n, \\t and \\\", and has the one value that text reads as.", "quantifier": "every such string, at every position where a RIDL value may be quoted", "why_tests_cant": "Infinite set of strings; escapes interact with tokenisation.", "anchors": ["schema/ridl/parser.go: expectStringValue, expectLiteralValue", "schema/ridl/parser_util.go: unescapeString"]}
{"id": "C06", "title": "Type expressions round-trip", "statement": "Printing any type built from core types, declared names, lists and maps with legal keys and parsing the printed expression yields the same type; parsing and re-printing any accepted expression yields the same expression. In JSON a kind of type is written as its documented name and read back as itself, and a text is read as a kind exactly if it is the JSON string of its name. (False of the code, proved as refutations: unknown names and null are read as the unknown kind without an error, and the kinds struct, enum and alias are written as the empty name and come back unknown.)", "quantifier": "every type of any nesting depth and every schema that declares the names in it", "why_tests_cant": "Nesting depth is unbounded; the map parser locates the key/value comma textually, which tests exercise only for a few depths.", "anchors": ["schema/var_type.go: ParseVarTypeExpr, parseMapExpr, buildVarTypeExpr, VarType.String"]}
{"id": "C07", "title": "Accepted types mention only legal keys and declared names", "statement": "Whenever a type expression is accepted, every leaf is a core type or (ignoring case for map keys) the name of a declared type, and every map key is string, an integer type, an enum or an alias of an enum.", "quantifier": "every expression and every schema", "why_tests_cant": "Universally quantified over expressions and schemas; also about what must be rejected.", "anchors": ["schema/var_type.go: ParseVarTypeExpr, VarKeyCoreTypes, VarIntegerCoreTypes, getType"]}
{"id": "C08", "title": "Template type helpers agree with type structure", "statement": "For the printed form of every type, isMapType / isListType / isCoreType answer according to the type's outer constructor and mapKeyType, mapValueType and listElemType return the printed form of the corresponding component, so a template that walks a type string sees exactly the schema's type tree.", "quantifier": "every type of any nesting depth", "why_tests_cant": "The helpers work by textual prefix/search on strings of unbounded nesting.", "anchors": ["gen/funcmap_types.go: isMapType, mapKeyType, mapValueType, listElemType, isListType, isCoreType"]}
{"id": "C09", "title": "Accepted schema: type names are unique and well-formed", "statement": "In an accepted schema no two types have the same name ignoring case, every type name is non-empty and, for ASCII names, starts with an upper-case letter A-Z, so a name resolves to at most one type.", "quantifier": "every schema the validator accepts", "why_tests_cant": "All pairs of types in all schemas.", "anchors": ["schema/type.go: Type.Parse", "schema/schema.go: Validate"]}
{"id": "C10", "title": "Accepted schema: field names are valid identifiers and wire-unique", "statement": "In an accepted schema every struct field and enum member name is a valid identifier ([a-zA-Z][a-zA-Z0-9_]*), no two fields of a type have the same name ignoring case, and no two struct fields have the same JSON key ignoring case, whether it is the default key or given with a json tag (a field with `json = -` counts with its name).", "quantifier": "every schema the validator accepts", "why_tests_cant": "All pairs of fields in all schemas; interplay of names and json overrides.", "anchors": ["schema/type.go: Type.Parse", "schema/parser.go: IsValidArgName"]}
{"id": "C11", "title": "Accepted schema: error identity is unambiguous", "statement": "In an accepted schema user-defined errors have positive codes, unique codes, names unique ignoring case, HTTP status in 400..599 (400 if omitted), and no code or name of theirs coincides with a built-in webrpc error, so a client decoding an error by code always finds the one that was raised.", "quantifier": "every schema the validator accepts, and every pair of errors", "why_tests_cant": "All pairs; depends on built-in table and on normalisation done during validation.", "anchors": ["schema/error.go: Error.Parse", "schema/schema.go: Validate", "gen/errors.go: WebrpcErrors"]}
{"id": "C12", "title": "Accepted schema: services and methods", "statement": "In an accepted schema distinct service declarations have different names ignoring case, every service has at least one method, method names within a service are unique ignoring case, argument names are not empty, every error referenced by a method is declared, and annotations of a method are unique.", "quantifier": "every schema the validator accepts", "why_tests_cant": "All schemas; all pairs of methods.", "anchors": ["schema/service.go: Service.Parse, Method.Parse"]}
{"id": "C13", "title": "Base path is normalised", "statement": "After validation the schema's base path starts and ends with exactly the slashes added when they are missing, validation is idempotent on it, and an accepted schema with services has a version.", "quantifier": "every schema accepted by validation, every base path", "why_tests_cant": "All base path strings.", "anchors": ["schema/schema.go: Validate"]}
{"id": "C14", "title": "Validation is idempotent", "statement": "Validating an accepted schema without missing type components again accepts it and changes nothing, so the RIDL loader's validation followed by the generator's does not depend on how often it ran.", "quantifier": "every schema", "why_tests_cant": "Validation mutates the schema (parsed types, defaults, names); tests look at one pass.", "anchors": ["schema/schema.go: Validate", "schema/type.go: Type.Parse", "schema/var_type.go: VarType.Parse"]}
{"id": "C15", "title": "Import cycles are detected exactly", "statement": "The cycle check on the import graph returns true if and only if the graph has a cycle reachable through its edges, and it always terminates.", "quantifier": "every finite import graph, whatever the order in which its nodes and edges were added", "why_tests_cant": "Graph shape and DFS order are unbounded.", "anchors": ["schema/ridl/internal/graph/graph.go: IsCircular, isCircularHelper"]}
{"id": "C16", "title": "Import resolution terminates and parses each file once", "statement": "Loading a RIDL file terminates for every set of files with arbitrary (also cyclic) imports, unless the parser itself hangs on a reachable file (C04): it either reports a circular import or another error, or succeeds having parsed every reachable file exactly once.", "quantifier": "every file system content and every import graph", "why_tests_cant": "Import graphs are unbounded; cyclic ones hang or overflow a naive loader.", "anchors": ["schema/ridl/ridl.go: parse, importParser", "schema/ridl/internal/graph/graph.go"]}
{"id": "C17", "title": "Imports bring in exactly the requested definitions", "statement": "A definition of an imported file appears in the result if and only if the import lists no names or lists its name; a type or error that is reachable through several import paths appears once. (Services reachable through several paths are not merged: proved as a refutation.)", "quantifier": "every import list, every set of imported definitions, diamonds of any width", "why_tests_cant": "Unbounded import structure.", "anchors": ["schema/ridl/ridl.go: isImportAllowed, parse"]}
{"id": "C18", "title": "Import errors carry the full import chain", "statement": "When a nested import fails, the error names each importing file on the path from the failing file back to the root, innermost first, each once; an error of the root file itself carries no chain.", "quantifier": "every import depth", "why_tests_cant": "Depth is unbounded.", "anchors": ["schema/ridl/ridl.go: newImportError, importParser"]}
{"id": "C19", "title": "Service filter is exact", "statement": "Filtering a schema by service names keeps exactly the services whose name is listed, in their original order and unmodified, and changes nothing else; asking for nothing is the identity.", "quantifier": "every schema and every list of names", "why_tests_cant": "All subsets and orders.", "anchors": ["schema/schema.go: MatchServices"]}
{"id": "C20", "title": "Annotation filters partition the methods", "statement": "Selecting and ignoring by the same annotation map split the methods of the schema: every method is kept by exactly one of the two; the result does not depend on map iteration order; an annotation matches by name and, if a value is given, by value.", "quantifier": "every schema, every annotation map, every iteration order of it", "why_tests_cant": "Go map iteration order is random, schemas are unbounded.", "anchors": ["schema/schema.go: MatchMethodsWithAnnotations, IgnoreMethodsWithAnnotations"]}
{"id": "C21", "title": "Tree shaking keeps exactly the reachable types and errors", "statement": "Tree shaking keeps exactly the types that the arguments and results of the methods of the named services need, through lists, map keys and values and struct fields, and keeps the errors; it terminates. (False of the code in two ways, both proved as refutations: it does not terminate if a reachable struct is recursive, and the type underlying an alias is not kept.)", "quantifier": "every schema and every set of removed methods", "why_tests_cant": "Reachability is an unbounded closure; recursion and aliases are the corner cases.", "anchors": ["schema/schema.go: MethodTreeShake"]}
{"id": "C22", "title": "BigInt detection", "statement": "The generator's bigint predicate holds exactly when a struct field or a method argument or result is a bigint or a list of bigint; the per-type field table lists, for every struct and every implicit request and response type, exactly its fields that are a bigint, a list of bigint, or a struct or list of structs containing one at any depth; both terminate on recursive types. (False of the code, proved as refutations: with recursive structs fields can be missing from the table; bigints inside maps, nested lists and aliases are not seen; a type named BigInt is taken for bigint; implicit types of same-named methods overwrite each other.)", "quantifier": "every schema", "why_tests_cant": "Transitive closure over an unbounded type graph with cycles.", "anchors": ["schema/helpers.go: SchemaUsesBigInts, SchemaBigIntFieldsByType"]}
{"id": "C23", "title": "Version comparison is a total order", "statement": "The template helper minVersion(v, m) is true exactly when v >= m in the (major, minor) order.", "quantifier": "every pair of versions", "why_tests_cant": "Infinite set of pairs; the major-boundary is the corner case.", "anchors": ["gen/funcmap.go: minVersion, parseMajorMinorVersion"]}
{"id": "C24", "title": "Generator header round-trips", "statement": "The Webrpc request header that the generator emits is decoded by the peer to the same webrpc, generator and schema versions. The version of webrpc in it is the one the build injected, else the one the module of the working directory requires, else the tag of the repository of the working directory, else unknown, and never empty. (So a tool built without an injected version does not say its own version, and writes different headers in different directories.) The generated TypeScript reader decodes it like the Go one, up to the first @ of each version, and also reads the headers without versions that the Go one rejects.", "quantifier": "every version/target string, every working directory, every header value", "why_tests_cant": "All strings; separators inside components are the corner case.", "anchors": ["gen/gen.go: webRPCGenHeader", "tests/client/client.gen.go: parseWebrpcGenVersions, VersionFromHeader", "_examples/node-ts/webapp/client.gen.ts: VersionFromHeader, parseWebrpcGenVersions", "version.go: VERSION, inferRuntimeVersion"]}
{"id": "C25", "title": "CLI options are collected without loss", "statement": "Each command line argument is either reported as malformed or goes to webrpc-gen's own flags or to the template options, none to both (except help) and none to neither; the last value of a repeated option counts; annotation lists are read as the annotations they show, a malformed one being reported.", "quantifier": "every argument vector", "why_tests_cant": "All argument vectors.", "anchors": ["cmd/webrpc-gen/main.go: collectCliArgs, makeAnnotationsMap"]}
{"id": "C26", "title": "Template cache never serves a partial download", "statement": "Templates are loaded from the cache only if a complete download finished: if the process crashes or a write fails at any point while a cache is first populated, no later run uses the half-written directory, and while the repository does not change every successful load gives exactly its templates. (False of the code, proved as refutations: an interrupted refresh of an existing cache is used half-written, and templates removed from the repository stay in the cache.)", "quantifier": "every crash point of every population/refresh, every set of files", "why_tests_cant": "Crash points cannot be enumerated by tests; needs an all-prefixes argument.", "anchors": ["gen/template_source.go: loadRemote, cacheTemplates, openCacheDir"]}
{"id": "C27", "title": "Cache freshness decision", "statement": "A remote template is fetched iff refresh is forced, the cache is missing or older than one hour; when fetching fails the cached copy is used, with the failure reported, if there is one; otherwise an error is returned; a download sets the cache's time. (Targets with the same last path element and hash share a cache: proved as a refutation.)", "quantifier": "every combination of cache state, clock, and network outcome", "why_tests_cant": "Combinatorial state space with time.", "anchors": ["gen/template_source.go: loadRemote"]}
{"id": "C28", "title": "Each method is served at exactly one route", "statement": "The generated server dispatches a POST to base-path + Service + '/' + Method to that method only, and every other path is answered with bad-route (404); with accepted schemas no two methods share a route.", "quantifier": "every schema and every request path", "why_tests_cant": "All schemas and paths.", "anchors": ["schema/service.go", "_examples/webrpc-streaming/proto/chat.gen.go: ServeHTTP"]}
{"id": "C29", "title": "Every request is answered exactly once with the documented status", "statement": "For every request the generated server writes exactly one status line: 404 for unknown routes, 405 for non-POST, 400 for a bad content type or undecodable body, the declared HTTP status for an error returned by the handler, 500 for a panic (which is re-raised), and 200 with the encoded result otherwise; the handler is invoked at most once and only with a decoded request.", "quantifier": "every request and every handler behaviour (result, error, panic)", "why_tests_cant": "All request/handler combinations.", "anchors": ["_examples/webrpc-streaming/proto/chat.gen.go: ServeHTTP, sendErrorJSON", "tests/server/server.gen.go"]}
{"id": "C30", "title": "Remote call equals local call", "statement": "Calling a method through the generated client against the generated server returns exactly what the handler returns for these arguments: the same results, or an error that is equal by code to the handler's error; an error that is not a webrpc error arrives as the endpoint error.", "quantifier": "every method, every argument and result value, every handler outcome", "why_tests_cant": "All values.", "anchors": ["tests/client/client.gen.go: doHTTPRequest", "tests/server/server.gen.go: ServeHTTP"]}
{"id": "C31", "title": "Error matching is by code", "statement": "WebRPCError.Is is an equivalence determined by the code: wrapping an error with a cause or a different message preserves what it matches, and two errors of the schema match iff they are the same declaration. Matching against an error of the schema looks at each error of the chain at most once.", "quantifier": "every chain of WithCause/WithCausef applications, every pair of declared errors", "why_tests_cant": "All chains.", "anchors": ["_examples/webrpc-streaming/proto/chat.gen.go: WebRPCError.Is, WithCause"]}
{"id": "C32", "title": "Streaming delivers every message in order under any interleaving", "statement": "For every interleaving of the handler's messages with the keep-alive pings the client reads exactly the handler's messages, in order, followed by end-of-stream or the handler's error; pings are never visible and never split a message.", "quantifier": "every schedule of handler and keep-alive goroutine, every number of messages and pings", "why_tests_cant": "Schedules are unbounded; a race shows only in rare interleavings.", "anchors": ["_examples/webrpc-streaming/proto/chat.gen.go: streamWriter.keepAlive, ping, write; streamReader.read"]}
{"id": "C33", "title": "Streaming client is insensitive to chunking", "statement": "The browser client delivers the same messages whatever the network's chunk boundaries.", "quantifier": "every split of the byte stream into chunks", "why_tests_cant": "Exponentially many splits.", "anchors": ["_examples/webrpc-streaming/webapp/src/rpc.gen.ts: sseResponse"]}
{"id": "C34", "title": "The lexer goroutine pipeline is deterministic and leak free", "statement": "Running the lexer in its own goroutine over an unbuffered channel gives the consumer the same token sequence under every schedule, and the producer ends.", "quantifier": "every schedule, every document", "why_tests_cant": "Schedules.", "anchors": ["schema/ridl/lexer.go: run, lexer", "schema/ridl/tokenizer.go: tokenize"]}
{"id": "C35", "title": "Name-casing helpers", "statement": "firstLetterToLower/Upper and firstWordToLower change only the case of a prefix, are idempotent, and field naming of the wire protocol is preserved up to case.", "quantifier": "every string", "why_tests_cant": "Infinite domain.", "anchors": ["gen/funcmap.go", "schema/var_name.go"]}
{"id": "C36", "title": "Enum values", "statement": "Every enum member of an accepted RIDL document has a value: the declared one, or its index (for integer enums) or name (for string enums); the implicit values of an enum are pairwise distinct. (Declared values may collide with others: proved as a refutation.)", "quantifier": "every enum declaration", "why_tests_cant": "All enums; collision between implicit and explicit values.", "anchors": ["schema/ridl/ridl.go: parse", "schema/ridl/enum_parser.go"]}
{"id": "C37", "title": "Comments attach to the definition below", "statement": "A block of comment lines directly above a definition of any kind (header entry, struct, field, enum, member, alias, service, method) is attached to exactly that definition, in order, each line being the words after the first '#' joined by single spaces, except lines starting with '#!'; no comment line belongs to two definitions; comments never change how the rest of the document parses. (False, and proved as a refutation, for: enums with an explicit value and methods with annotations on two lines, which lose their comment; comments with a second '#'; comments at the end of a line of an error, which go to the definition below; and comment lines after a succinct method result.)", "quantifier": "every document", "why_tests_cant": "All placements of comments.", "anchors": ["schema/ridl/tokenizer.go: tokenize", "schema/ridl/parser.go: parseComments"]}
{"id": "C38", "title": "A loaded schema says exactly what its files declare", "statement": "When loading a RIDL file succeeds, the types, errors and services of the result are the declarations written in that file (kind, names, field types, optional marks, metadata, enum values, method arguments, results, streaming marks, errors, annotations and comments as written) together with those its imports contribute, and the name, version and base path are those of the file's header; nothing else appears. (False of error codes of 2^31 and more, which are silently replaced by 2147483647: proved as a refutation.)", "quantifier": "every file system content and every root file whose load succeeds", "why_tests_cant": "All documents and import structures; a dropped or swapped field in the translation shows only in particular declarations.", "anchors": ["schema/ridl/ridl.go: parse, buildArgumentsList, parseComment", "schema/ridl/parser_node.go"]}
{"id": "C39", "title": "What is generated is the parsed schema restricted as the flags say", "statement": "webrpc-gen generates from the parsed schema with only the services named by -service (all if absent), of these only the methods selected by -match or not selected by -ignore (never both), with the version of -schemaVersion, else of the environment variable, else its own, and with base path /rpc/ if it has services and gives none; everything else is unchanged.", "quantifier": "every schema, set of flags and environment", "why_tests_cant": "All combinations of flags and schemas.", "anchors": ["cmd/webrpc-gen/main.go: main, makeAnnotationsMap", "schema/schema.go: MatchServices, MatchMethodsWithAnnotations, IgnoreMethodsWithAnnotations"]}
{"id": "C40", "title": "Target resolution", "statement": "The generator used for a target is: the built-in json or debug; else the generator required by go.mod, under any of the spellings name, name@version, github.com/webrpc/gen-name and github.com/webrpc/gen-name@version; else, if it starts with / or ., that directory; else the repository of that name, a bare name standing for github.com/webrpc/gen-<name in lower case>; go, ts and js stand for the v0.6.0 generators.", "quantifier": "every go.mod and every target string", "why_tests_cant": "All strings.", "anchors": ["gen/embed.go: init", "gen/template_source.go: loadTemplates, inferRemoteTarget, isLocalDir", "gen/helpers.go: getOldTarget, isGolangTarget"]}
{"id": "C41", "title": "TypeScript client: results and errors arrive", "statement": "For every answer the server gives, the TypeScript client either returns the parsed result (2xx status) or throws an error: the class the schema declares for the error's code (or the built-in class), a plain WebrpcError for unknown codes, and a bad-response error when the body is not JSON; an error sent by the server arrives with its code, status and cause, and the results of a method arrive as the JSON the server wrote. (False of the code, proved as refutations: the server's msg field is not what the client reads as message; a null error body throws a TypeError instead.)", "quantifier": "every error value, every result value, every status and body, every accepted schema's errors", "why_tests_cant": "All values, codes and bodies.", "anchors": ["_examples/webrpc-streaming/webapp/src/rpc.gen.ts: buildResponse, WebrpcError.new, webrpcErrorByCode"]}
{"id": "C42", "title": "RIDL documents mean what they say", "statement": "Every document in the usual RIDL form (header entries, imports, enums, structs with optional fields and meta entries, type aliases, errors, services with annotated, streaming, proxy and succinct methods, with blank lines, indentation and comments anywhere between) is accepted, and the parse tree, and after loading the schema, has exactly the declarations written, in their order, each with the names, types, flags, values and annotations written; no document has two meanings. Whatever is accepted has known header keys, numeric error and status codes and no repeated annotation on a method.", "quantifier": "all documents of the grammar, of any length and nesting; all layouts; all accepted texts", "why_tests_cant": "unbounded nesting of types, unbounded numbers of declarations and every placement of blanks and comments; tests parse some fixed files", "anchors": ["schema/ridl/parser.go:parser", "schema/ridl/struct_parser.go", "schema/ridl/enum_parser.go", "schema/ridl/service_parser.go", "schema/ridl/type_parser.go", "schema/ridl/import_parser.go", "schema/ridl/error_parser.go", "schema/ridl/type_alias_parser.go", "schema/ridl/definition_parser.go", "schema/ridl/ridl.go:Parser.parse"]}
{"id": "C43", "title": "Schemas survive the JSON form", "statement": "A schema that was read from a RIDL or JSON file and can be written as JSON (-target=json) is written to a document that is accepted as a schema file and gives a schema with the same declarations in the same order, every reference denoting the same type; that schema is written to the same document and has the same schema hash, also with the default base path filled in. (False without conditions, proved as refutations: a map keyed by an alias of an enum, a service imported on two paths and an unprintable character in a type name; the document null crashes the reader.)", "quantifier": "all accepted schemas of any size, all texts of names, comments, annotations and meta values, all paths", "why_tests_cant": "unbounded documents with arbitrary strings, escapes and nesting; the tests compare a few golden files", "anchors": ["schema/schema.go:WebRPCSchema.ToJSON", "schema/parser.go:ParseSchemaJSON", "schema/var_type.go:VarType.MarshalJSON", "schema/var_type.go:VarType.UnmarshalJSON", "webrpc.go:ParseSchemaFile", "gen/gen.go:Generate", "cmd/webrpc-gen/main.go:main"]}
{"id": "C44", "title": "The schema hash identifies the content of a schema", "statement": "Two schemas have the same JSON document exactly if they have the same content (names, kinds, type expressions, fields, values, meta entries and annotations as maps, comments, errors, methods, in the same order, wherever they were declared); so equal content gives equal schema hashes, and equal hashes mean equal content unless two different documents have the same SHA-1. The hash is 40 hexadecimal digits. (A comment changes the hash: proved.)", "quantifier": "all pairs of schemas that can be written", "why_tests_cant": "ranges over pairs of unbounded documents; two different schemas with equal documents cannot be excluded by examples", "anchors": ["schema/schema.go:WebRPCSchema.SchemaHash", "schema/schema.go:WebRPCSchema.ToJSON", "gen/gen.go:Generate"]}
{"id": "C45", "title": "Template dictionaries are maps", "statement": "In a template, dict makes a fresh dictionary in which each key has the value given last for it (and fails if a key is not a string or a value is missing); after any sequence of set calls on any dictionaries, get returns the value set last for that key of that dictionary or what was there before, and is an error for a key that was never set; exists tells which; types as keys are looked up by their expression. set and dict change nothing else.", "quantifier": "all argument lists, all histories of set calls on any number of dictionaries", "why_tests_cant": "ranges over all histories and aliasings; a test sees one", "anchors": ["gen/funcmap_dict.go:dict", "gen/funcmap_dict.go:get", "gen/funcmap_dict.go:set", "gen/funcmap_dict.go:exists", "gen/funcmap_string.go:toString"]}
{"id": "C46", "title": "Template arrays and choices", "statement": "array and append give exactly the elements in order, whatever capacity Go allocates, and leave every slice in another array, and every slice not longer than the one appended to, as it was; collecting in a loop (x = append x e) gives all elements in order; first, last and lastIndex address the ends; sort yields a sorted reordering in a new array, the only one if texts are distinct; in is membership by value and type; coalesce is the first non-empty value; default and ternary choose. (False of the code, proved as refutations: appending twice to the same array overwrites the first result; empty arrays and dictionaries do not count as empty; a type is never in a list of type names.)", "quantifier": "all arrays, all growth policies of the Go runtime, all numbers of loop rounds, all values", "why_tests_cant": "aliasing depends on runtime capacities and on the whole history of appends", "anchors": ["gen/funcmap_generic.go:array", "gen/funcmap_generic.go:appendFn", "gen/funcmap_generic.go:first", "gen/funcmap_generic.go:last", "gen/funcmap_generic.go:sortFn", "gen/funcmap_generic.go:in", "gen/funcmap_generic.go:coalesce", "gen/funcmap_generic.go:defaultFn", "gen/funcmap_generic.go:ternary", "gen/funcmap_generic.go:lastIndex"]}
{"id": "C47", "title": "Splitting and joining texts in templates", "statement": "Splitting a text at a non-empty separator gives the only list of pieces that joins to the text and in which the separator does not occur (read from left to right); joining a non-empty list of texts without the (one character) separator and splitting gives the list back; splitting at the empty separator gives the characters; joining an array of texts and types joins their texts. (For longer separators join-then-split is false, proved.)", "quantifier": "all texts, separators and lists", "why_tests_cant": "ranges over all texts and separators, including overlapping occurrences", "anchors": ["gen/funcmap_string.go:split", "gen/funcmap_string.go:join", "gen/funcmap_string.go:toString"]}
{"id": "C48", "title": "BigInt values survive JSON, binary and database encoding", "statement": "A BigInt written as JSON is a quoted decimal numeral and is read back as the same number; so is its binary form and its database form; different numbers have different binary forms; JSON reading accepts exactly decimal numerals, quoted or not (and leaves the number alone for null); scanning a database value accepts decimal numerals and mantissa-exponent forms with the exact value. (False of the code, proved as refutations: a negative exponent is dropped when scanning; several binary forms denote one number.)", "quantifier": "every integer of any size, every text", "why_tests_cant": "ranges over integers of unbounded size and all texts", "anchors": ["_examples/node-ts/server-go/example.gen.go:BigInt"]}
{"id": "C49", "title": "Bigints arrive as bigints in TypeScript programs", "statement": "With the table the generator makes from a schema, the generated TypeScript decoder turns the JSON of a request, response or struct into the value it means, every bigint in it being a bigint and nothing else changed; so answers of a Go server arrive as the values that show them, what TypeScript encodes it decodes back, and Go reads what TypeScript writes; the decoder returns on every input. (False of the code where bigints occur in maps, nested lists, aliases, recursive structs, renamed fields, or in methods of one name: proved as refutations.)", "quantifier": "every accepted schema, table, value and JSON text", "why_tests_cant": "ranges over all schemas and all nested values", "anchors": ["schema/helpers.go:SchemaBigIntFieldsByType", "_examples/node-ts/webapp/client.gen.ts:JsonEncode", "_examples/node-ts/webapp/client.gen.ts:JsonDecode", "_examples/node-ts/webapp/client.gen.ts:decodeType"]}
{"id": "C50", "title": "A TypeScript server calls and answers", "statement": "A generated TypeScript server calls the implementation of a method only for a request to its route and only with arguments of the declared types; arguments of these types sent by the TypeScript client reach it unchanged; other methods are refused as bad routes; every request is answered, with the results of the call or its error. (False of the committed code, proved as refutations: no path is ever served, so no request with a JSON body is answered; results are passed to a function that does not exist; the validators of structs with lists or enums reject everything; a null body skips validation; methods named like members of every object, the names of error members, and the paths of the committed client are wrong.)", "quantifier": "every request path, verb and body, every implementation and every argument value", "why_tests_cant": "ranges over all request bodies and all implementations", "anchors": ["_examples/node-ts/server/server.gen.ts:serveExampleRpc", "_examples/node-ts/server/server.gen.ts:dispatchExampleRequest", "_examples/node-ts/server/server.gen.ts:validateType", "_examples/node-ts/server/helpers.ts:createWebrpcServerHandler"]}
{"id": "C51", "title": "Import and schema paths", "statement": "An import names the file reached by walking its path from the directory of the importing file, however it is spelled; paths that lead out of the file system are rejected; every import of a file that loads leads to an existing file. The -schema flag names the file reached from the root (absolute) or from the working directory (relative), and the file's extension alone decides whether it is read as RIDL or JSON, any other being rejected. (False of the code, proved as refutation: an absolute import path is followed from the importing file's directory too.)", "quantifier": "every directory tree, every importing file, every import path and every -schema value", "why_tests_cant": "ranges over all paths and directory depths", "anchors": ["schema/ridl/ridl.go:Parser.parse", "webrpc.go:ParseSchemaFile"]}
{"id": "C52", "title": "A run of webrpc-gen", "statement": "A run of webrpc-gen that exits with status 0 has printed its version, been ended by a template, or generated the code of the schema its flags ask for and delivered all of it: printed, followed by a newline, or written to the -out file. A run that fails leaves every file as it was, except the output file if writing it failed or if its Go code could not be formatted. No other file is ever changed; the templates get the schema, its hash, the options and the header; -version does nothing else. (False of the code, proved as refutations: formatting errors go unnoticed with -silent or when printing; an interrupted write leaves a torn output file; help rendered by a generator is thrown away and a target after -help ignored.)", "quantifier": "every argument list, file system, environment, network, template set and point at which writing fails", "why_tests_cant": "ranges over all argument lists, worlds and failure points", "anchors": ["cmd/webrpc-gen/main.go:main", "cmd/webrpc-gen/main.go:writeOutfile", "cmd/webrpc-gen/main.go:setTargetFlagsUsage", "gen/gen.go:Generate", "gen/template_source.go:TemplateSource.loadTemplates"]}
{"id": "C53", "title": "The example chat server is a numbered log", "statement": "However the calls of its clients interleave, the chat server of the streaming example numbers the messages 0, 1, 2, ... in the order in which they are written; every message was sent by a call, each SendMessage sends exactly one, each subscriber with a name joins and leaves once, one without a name is refused and sends nothing; a message sent after another call returned has the larger id and is not dated earlier; every subscriber receives a run of consecutive messages of this one log, in order, without gaps or repetitions; a client that reconnects with the id of the last message it received gets only newer messages and, if at most half a buffer of messages has been written since, misses none; StreamFinished is returned only after the server was closed; no SendMessage can be blocked for good. (False of the code, proved as refutations: reconnecting after more than half a buffer, or to a restarted server, silently misses messages; CreatedAt does not follow the ids.)", "quantifier": "every buffer size and every interleaving of any number of SendMessage, SubscribeMessages and close calls, with cancellations, slow readers and failing streams", "why_tests_cant": "schedules of unboundedly many goroutines; the tests run one sender and one reader", "anchors": ["_examples/webrpc-streaming/rpc.go:ChatServer.SendMessage", "_examples/webrpc-streaming/rpc.go:ChatServer.SubscribeMessages", "_examples/webrpc-streaming/rpc.go:ChatServer.close"]}
{"id": "C54", "title": "The interoperability tests decide what they say", "statement": "webrpc-test's client reports no failure against a server exactly if GetEmpty is answered with status 200 and GetError is not, the values returned by GetOne, GetMulti and GetComplex can be read and are accepted when sent back, GetEnumList and GetEnumMap return two entries, and every error of the table arrives in an answer with another status than 200 as an error with that code, name, message and status, with that cause or none. The generated client and server with the reference implementation pass; the table holds the endpoint error and exactly the errors the test schema declares; an implementation that returns another error, nothing, or panics for one of the codes is noticed; the reference server accepts exactly its fixtures and refuses everything else with UnexpectedValue. (Not noticed by the tests, proved as refutations: other values than the fixtures, an HTTP status line that differs from the declared status, missing causes.)", "quantifier": "every server and network answering the test client's requests; every implementation behind the generated server; every value sent to the reference server", "why_tests_cant": "the suite itself is a test: whether it accepts every right server and only those ranges over all servers", "anchors": ["tests/client/client.go:RunTests", "tests/client/client.go:testSchemaErrors", "tests/server/server.go:TestServer"]}
{"id": "C55", "title": "Integers survive TypeScript programs", "statement": "What a Go server sends to a generated TypeScript client, and the program sends back unchanged, the server reads as the same values: exactly so for every value whose integers are safe (at most 2^53-1 in magnitude), hence for all values of types without 64-bit integers, whatever the order in which the program writes the members of objects. In general a literal is read as the nearest binary64 number (off by at most 1024 for Go's integer types) and written with the fewest digits that denote it; passing again changes nothing more. (False of the code for 64-bit integers, whose TypeScript type is number, proved as refutations: users with different uint64 ids become the same user, and a server refuses its own value when it comes back.)", "quantifier": "every payload struct, every value of it, every integer up to 2^64 in magnitude, every JSON text the program may write for it", "why_tests_cant": "tests of the committed examples use small ids; the loss starts at 2^53", "anchors": ["_examples/webrpc-streaming/webapp/src/rpc.gen.ts:Message", "_examples/webrpc-streaming/webapp/src/rpc.gen.ts:buildResponse", "tests/schema/test.ridl:User", "tests/server/server.gen.go:User", "_examples/node-ts/webapp/client.gen.ts:JsonEncode"]}
{"id": "C56", "title": "Programs of different schema versions work together", "statement": "A client and a server generated from different versions of a schema can call each other as long as the methods keep their route and the fields they share keep their JSON names and compatible types: the handler is called once, a field both have arrives with its value (enum members by name), a field only the reader has is the zero value, a field only the writer has is ignored, whatever the order of the fields, also in nested structs, lists and maps; integer types may get wider, required fields may become optional and the reverse (nil then being the zero value); structs may be renamed. A number the reader's type has no room for is an error, never another number. Errors the client's version does not declare still arrive with their code; a method the server's version does not have is reported as bad route. Member names are matched up to case. The same holds for every message of a stream, under every schedule and wherever the connection is cut. (Limits, proved as refutations: an added field whose name differs from a field of the reader only in case overwrites it; a member added to an enum is read as the zero member by older programs, without an error.)", "quantifier": "every pair of versions that agree in this sense, every argument and result value, every handler, every stream and schedule", "why_tests_cant": "tests build client and server from one schema; here both versions and all values vary", "anchors": ["tests/client/client.gen.go:doHTTPRequest", "tests/server/server.gen.go:ServeHTTP"]}
{"id": "C57", "title": "The Node server answers every request once", "statement": "The Node example server answers every request exactly once, with the status, headers and body specified for its path, method and body, unless the body never ends or the RPC function has no result, in which case nothing is sent: preflights get 204 and never reach the RPC function, invalid JSON gets 400, an exception, a status out of range or a result that cannot be serialised gets 500, and every answer carries the request id and the CORS headers. The RPC function is called once, with the value of the body. No handler, whatever it does, makes the server's entry point fail, middleware runs in the order given, and a body is read right just if no chunk of it ends inside a character. (False of the code, proved as refutations: the same bytes in other chunks reach the RPC function as other arguments; the log shows 200 for requests answered with 500; the trace id in the context is not the X-Trace-Id header; with the generated function RPC requests stay open.)", "quantifier": "every RPC function, request, sequence of body chunks and failures, list of middleware and handler", "why_tests_cant": "tests send small bodies in one piece over one connection; here all chunkings, failures and RPC functions vary", "anchors": ["_examples/node-ts/server/helpers.ts:createHttpEntrypoint", "_examples/node-ts/server/helpers.ts:createWebrpcServerHandler", "_examples/node-ts/server/middleware.ts:withCors", "_examples/node-ts/server/index.ts:routes"]}
{"id": "C58", "title": "Method descriptors and request headers of generated Go code", "statement": "The descriptor a handler or hook finds for a request is that of the method at its path, with the annotations of the schema, and it is the descriptor of the method that is called; the methods a server lists are those of the services that are set, and each listed handler serves its listed path. A hook that refuses annotated methods keeps them from ever being called, the caller gets its text, and no other request notices it. The headers of a client's request are webrpc's followed by those of the context; contexts cannot set Accept or Content-Type through keys in canonical form. (False of the code, proved as refutations: keys in another case get through; no request reaches the Admin service of the golang-basics server, which is mounted under a path that none of its routes has.)", "quantifier": "every accepted schema, service, request, implementation, set of headers, request target", "why_tests_cant": "a test calls a few methods of one schema; here schemas, annotations, paths, escapes and header keys vary", "anchors": ["_examples/golang-basics/example.gen.go:MethodCtx", "_examples/golang-basics/example.gen.go:WebrpcMethods", "_examples/golang-basics/example.gen.go:WithHTTPRequestHeaders", "_examples/golang-basics/main.go:startServer"]}
{"id": "C59", "title": "The chat web application keeps the chat up to date", "statement": "Whatever the server, the network and the user do, the page of the streaming example shows the last thousand messages received in order; a new subscription asks for the messages after the last one received, so the chat server repeats none; every failure other than a user disconnect or the end of the stream is followed by a reconnect after 1, 2, 4, ... at most 30 seconds, counted from the last opened stream; there is at most one stream, fetch or scheduled reconnect at a time, and nothing after the chat is closed; messages are sent just when connected. Not so: automatic reconnects repeat the first request, so messages are shown twice; a second click while connecting opens a second stream; with abort reasons of the fetch standard the Disconnect button never disconnects and the page is stuck; messages are put into the page unescaped.", "quantifier": "all sequences of answers, lines, failures, timers, clicks and submits, unbounded; all histories of the chat server", "why_tests_cant": "an unbounded number of interleavings of browser events with server histories", "anchors": ["_examples/webrpc-streaming/webapp/src/main.ts: onMessage, onError, onOpen, onClose, connect, toggleConnectHandler, sendMessage, updateChatbox", "_examples/webrpc-streaming/webapp/src/rpc.gen.ts: subscribeMessages, sseResponse"]}
{"id": "C60", "title": "TypeScript clients call Go servers", "statement": "Calling a method of a generated TypeScript client with an object that shows the arguments calls the method of the Go server exactly once with these arguments, whatever further headers the caller adds, and the promise resolves to an object that shows the results, big integers included. Errors of the implementation and of the OnRequest hook reject the promise with the code, status, message and cause, in the class declared for the code; panics arrive as server panics, missing methods as bad routes, servers that do not answer as failed requests. Not so: a header that spells the content type in lower case makes every call fail.", "quantifier": "all schemas, services, methods, arguments, results, errors, headers and ways JSON.stringify may write a text", "why_tests_cant": "all values of all types of all schemas, through two programs in two languages", "anchors": ["_examples/node-ts/webapp/client.gen.ts: ping, getUser, createHttpRequest, buildResponse, JsonEncode, JsonDecode", "_examples/node-ts/server-go/example.gen.go: ServeHTTP, RespondWithError"]}
{"id": "C61", "title": "The URLs of clients lead to the routes of the server", "statement": "For every address of a server (scheme, host, port, path, query, fragment) and every base path the schema check accepts, the request of a generated Go client arrives at the address's host with the path of the method's route, below the directory the address leads to, exactly if the base path is made of names without percent escapes; for TypeScript clients exactly if it has no escape, backslash, '.' or '..'; for older Go clients exactly if it has no escape. Not so: base paths like /api//v1, /api/../v1 and /my%20api are accepted though no Go client reaches its own server then; TypeScript clients keep queries of the host name and reach nothing; older Go clients fail on addresses with a final slash; addresses like localhost:8080 get no scheme; a final '?' loses the method.", "quantifier": "all addresses, base paths, service and method names", "why_tests_cant": "all texts: escaping, cleaning and parsing interact", "anchors": ["_examples/webrpc-streaming/proto/chat.gen.go: serviceURL, NewChatClient", "_examples/node-ts/server-go/example.gen.go: urlBase, NewExampleClient", "_examples/node-ts/webapp/client.gen.ts: Example.constructor, url", "schema/schema.go: Validate"]}
{"id": "C62", "title": "Calls of pages of other origins get through exactly if the server lists their headers", "statement": "When a page of another origin calls an example server with the generated TypeScript client, the browser lets the call through exactly if the CORS settings of the server allow its header names (the client's Content-Type and Webrpc and those the caller adds); then the page gets the result it would get without a browser in between, the server's RPC function sees the request exactly once, and otherwise it sees nothing and the call is rejected as a failed request. The servers of hello-webrpc and webrpc-streaming allow Accept, Authorization, Content-Type, X-CSRF-Token and Webrpc, the Node server any header, the hono server Content-Type, Authorization and Webrpc, also with credentials. Not so: the Go server of the node-ts example does not list Webrpc, so that no page can call it; servers that announce credentials for every origin get none; the Node server does not expose the version header its own web page reads.", "quantifier": "all origins, headers and values, requests, implementations and CORS options that allow every origin", "why_tests_cant": "all header names and all lists of them: the middleware parses, capitalises and compares what the browser sorts and joins", "anchors": ["_examples/hello-webrpc/server/main.go: startServer", "_examples/webrpc-streaming/main.go: Router", "_examples/node-ts/server-go/main.go: startServer", "_examples/node-ts/server/middleware.ts: withCors", "_examples/node-ts/server-hono/index.ts: app", "_examples/node-ts/webapp/client.gen.ts: createHttpRequest"]}
{"id": "C63", "title": "The test tool runs its server for its time and waits for one", "statement": "webrpc-test -server serves every connection from the moment its port is bound until its timeout (or Close, or a failure of the listener) and ends between the timeout and a second after it, without an error exactly if the connections in use are done by the last time it looks (those done within 511 ms always, those open after 563 ms never). Close, whenever it is called, ends in the same way within a second, and no connection is served from then on. webrpc-test -waitForServer always returns by its timeout, reports a server only if a call was answered, reports an error only at its timeout, and finds every server that is ready early enough as long as calls to it do not hang. What the tool does is chosen by its first argument alone, and takes the last value of each setting that follows; a setting the mode does not have, or a value that is not one, ends it with status 2, help with 0. (False of the code, proved as refutations: a second of grace; Close ends Wait; a failure of the listener is reported; a hanging call is survived; make test-interoperability fails when the tests do.)", "quantifier": "all timeouts, schedules of connections, moments of Close and of failures, jitter of the polls, behaviours of the server waited for, and argument lists", "why_tests_cant": "all schedules: the outcome depends on when connections end relative to timers and to randomised polls", "anchors": ["tests/client/client.go: Wait", "tests/server/server.go: RunTestServer, Wait, Close", "cmd/webrpc-test/main.go: main", "Makefile: test-interoperability"]}
{"id": "C64", "title": "What the code of a Go server sees of a request", "statement": "The implementation of a method sees in its context the names of its service and of itself, the request and its writer, the descriptor of its method, every value that was in the context before (of middlewares, the innermost for each key; of servers of other packages, theirs) and the cancellation of the request; the hooks see the same. Reading the context and setting headers changes no answer: results and errors arrive as in C30, and so do the headers. OnError is called once for each request that is answered with an error, what it makes of the error is what is answered, and it is not called for results; panics are reported to it. A middleware that rejects with RespondWithError keeps the method from being called and the caller gets its error. (False of the code, proved as refutations: the hooks see the name of the method; the request in the context carries the names; each request is reported at most once.)", "quantifier": "all services, requests, contexts, stacks of middlewares, hooks and implementations (also panicking ones) and header calls", "why_tests_cant": "all contexts and hooks: each test fixes one stack of middlewares and one set of hooks", "anchors": ["tests/server/server.gen.go: ServeHTTP, serve*JSON, sendErrorJSON, RespondWithError, MethodCtx, ServiceNameFromContext, MethodNameFromContext, RequestFromContext, ResponseWriterFromContext"]}
{"id": "C65", "title": "Succinct methods behave as ordinary ones and use the same wire format", "statement": "A method declared as Name(Request) => (Response) is called once with exactly the struct the client passed; the struct it returns, a nil result, its error and its panic arrive at the client; a body that is not the struct is refused before the call; there is one answer per request. Every request, well-formed or not, gets the same answer as from a server whose method has the fields of the structs as arguments and results, so clients and servers of either form work with each other, and ordinary methods of the same service are unaffected. Not so: a nil result looks like a struct of zero values to a client of the long form, and a succinct method whose request struct has no fields reads and checks its body where an ordinary method ignores it.", "quantifier": "all services mixing both kinds of methods, structs, implementations, hooks, requests and network answers", "why_tests_cant": "the compatibility is between two servers on every request, including malformed ones", "anchors": ["_examples/golang-basics/example.gen.go: succinctHandler, exampleService.ServeHTTP, exampleClient.GetUser, doHTTPRequestRaw", "schema/ridl/ridl.go: buildArgumentsList", "schema/service.go: Method.Parse"]}
{"id": "C66", "title": "What a schema declares is what travels between the Go client and server generated for it", "statement": "For every service of a schema that passes validation, the generated Go server has exactly the routes basepath/Service/Method of the declared methods. A call of the generated client with any values of the declared argument types (integers in the range of their type, UTF-8 texts, times, declared enum members, big integers, any JSON, optional values, lists, maps and structs to any depth the decoder reads) reaches the implementation once and unchanged, under the declared argument names; any values of the declared result types it returns arrive unchanged; the declared errors it returns, with any causes, arrive with code and status and match their declaration and no other. The same holds of succinct methods and their structs. Needed, and not asked by validation (refuted): go.tag.json names and argument names may repeat.", "quantifier": "all valid schemas, services, methods, values of the declared types, implementations, hooks", "why_tests_cant": "it relates the whole chain from validation through code generation to the wire for every schema and value", "anchors": ["schema/schema.go: Validate", "schema/var_type.go: VarType", "schema/service.go: Method", "tests/server/server.gen.go", "_examples/golang-basics/example.gen.go", "_examples/hello-webrpc/server/hello_api.gen.go", "_examples/node-ts/server-go/example.gen.go"]}
{"id": "C67", "title": "A streaming call in time: live streams are kept, dead ones are noticed, and little remains of one that ended", "statement": "While a generated Go server serves a streaming call on a connection that is up, a TypeScript client that reads is never without data for longer than the keep-alive interval of 10 seconds plus the delays; if 13 delays of the server and one of the network are at most a second together, its timeout of 11 seconds never gives up such a stream. A stream that has become silent is given up after more than 11 and at most 22 seconds plus the lateness of the timer, and no interval runs on after that. While the implementation runs and the connection is not broken its context is not done and keep-alive goes on; the two goroutines never write at once; after the handler has returned keep-alive ends within seven delays and with at most one ping more. (False of the code, proved as refutations: a failed ping ends the call; a stream the client has given up ends at the server.)", "quantifier": "all delays of the goroutines, the network and the timer, all durations and results of the implementation, all schedules of the goroutines and all moments at which a connection is cut or breaks", "why_tests_cant": "it speaks of all schedules of two goroutines, a timer and a network in real time; tests would have to wait for minutes for each", "anchors": ["_examples/webrpc-streaming/proto/chat.gen.go: streamWriter, keepAlive, ping, write, serveSubscribeMessagesJSONStream", "_examples/webrpc-streaming/webapp/src/rpc.gen.ts: sseResponse"]}
{"id": "C68", "title": "The Hono example server answers every request and calls the RPC function as the Node server does", "statement": "Unless the RPC function never ends, the Hono example server answers every request, with the request's id in X-Trace-Id. It calls the RPC function once, with the path without the query and the JSON value of the body ({} without one), for every request under /rpc that is not an OPTIONS request, and for no other request. The status, the headers and the JSON of the body that the function returns are what is sent (no body for HEAD); an exception, a bigint in the body and a status that cannot have a body are answered with 500, no result with 404. For POST requests with a JSON body the answer has the status and the body that the Node example server sends with the same RPC function. (False of the code, proved as refutations: a body that is not JSON is not refused but taken for {}; bodies of PUT, PATCH and DELETE requests are read, where the Node server ignores them; with the generated RPC function every call is 404.)", "quantifier": "all requests (verb, path, query, headers, body bytes), RPC functions and results, request ids", "why_tests_cant": "requests and the answers of the RPC function are unbounded, and the comparison ranges over both servers at once; the example has no tests", "anchors": ["_examples/node-ts/server-hono/index.ts", "_examples/node-ts/server/index.ts", "_examples/node-ts/server-hono/server.gen.ts: serveExampleRpc"]}
