# Formal model of webrpc/webrpc in Rocq (Coq 8.16.1)

## 1. Method

The Go source in /repo (and the committed generated Go and TypeScript, since the generator templates
are in other repositories) is read as text and re-expressed, function by function, as total Gallina
functions in `rocq/theories`.  Every model definition carries a comment with the file and lines it
models and any simplification.  Three layers:

| layer | files | content |
|-------|-------|---------|
| model | `Base Utf8 Lexer Tokenize LexPipe Ast Parser Schema Uri Ridl Graph Filter Gen BigInt Cli Cache Json GoVal Rpc Stream Ts` | the program; no proofs |
| specification | `*Spec.v`, `Grammar.v` | what the English property means, written without the model's helpers where possible |
| proofs | `*Proofs.v`, `ParserTerm ValidateComplete ValidateIdem Comment* Rpc* Grammar*` ... | lemmas |
| properties | `Props_*.v` | one `Theorem Cnn_...` per claim, `Print Assumptions` after each, and `Example`s that show that a concrete, non-trivial case meets the hypotheses |

Conventions: error returns are values; a Go panic is an explicit `Panic` outcome; loops become
structural recursion, folds, or recursion on fuel with a distinguished outcome which is excluded or
characterised by a theorem; goroutines and channels are small-step machines over explicit schedules;
a crash is a prefix of a list of primitive writes; Go maps are association lists, with theorems that
the iteration order does not matter where the code iterates (C20).

A theorem named `..._refuted` proves that a claim one would expect is *false* of the code, with a
concrete witness.  A theorem named `..._partial` proves part of a property; the missing part is named
in `MANIFEST.json` (usually because the rest is refuted).

## 2. Property by property

| id | modelled | theorem and proof |
|----|----------|-------------------|
| C01 | lexer.go, over runes decoded from bytes (`Utf8.v`) | induction over lexer steps: the texts of the tokens concatenate to the document up to the first NUL; refuted beyond NUL |
| C02 | next/emit bookkeeping | the same induction, line and column specified by counting |
| C03 | token classes (`LexSpec.TokenShape`) | every token has its shape; the segmentation is unique |
| C04 | parser.go state machine | measure on the remaining tokens; exact characterisation of the documents on which the parser hangs (refuted otherwise) |
| C05 | expectStringValue, unescapeString | induction over the literal; end to end from document text to node |
| C06, C07, C08 | ParseVarTypeExpr, buildVarTypeExpr, funcmap_types.go; `CoreJson.v`: the JSON form of kinds (CoreType) | induction on types (`TypeSpec`); bracket lemma for the comma search; acceptance is exactly legality |
| C09-C14 | Validate and the Parse methods of schema/*.go | `ValidateSpec.WellFormed`; accepted = well-formed in both directions, idempotent |
| C15 | graph.go | depth first search correctness |
| C16-C18, C36, C38 | ridl.go, import_parser.go | loader with cache, graph, stack; refinement to the relation `LoadsTo` over the import tree; `DeclSpec` says what a declaration stands for |
| C19-C21 | schema.go filters, tree shaking | list induction; reachability relation |
| C22 | gen helpers bigInt | exact predicate; table exact without recursive structs |
| C23, C24, C35, C39, C40 | gen funcmap and generator entry; `ToolVersion.v`: version.go with what `go list -m` and `git describe` print in a directory; `GenTs.v`: the TypeScript readers of the header | case analysis, split/join lemmas |
| C25 | cmd/webrpc-gen argument collection, Go flag package | induction on the argument list |
| C26, C27 | cache of remote templates | disk as a map, operations as lists of writes, crash = any prefix |
| C28-C31 | generated Go server, client, errors (`Rpc`), JSON (`Json`, `GoVal`) | complete specification of the answer of the server; composition client o server |
| C32 | generated Go stream writer, keep-alive goroutine, mutex | small-step machine, invariant over all byte-level schedules |
| C33, C41 | generated TypeScript client (`Ts`) | function of the chunks; composed with C32 |
| C34 | lexer goroutine and its channel (`LexPipe`) | invariant over all schedules, confluence |
| C37 | comment collection, parseComments, every state that takes a comment | invariant of the state machine (`CommentAll.v`): the definitions made so far are named by tokens read so far, in order, and have taken their blocks one after the other; `CommentSpec.v` says what a block is and which definitions a node consists of; also end to end on characters for struct headers |
| C42 | the whole parser, against the grammar in `Grammar.v` | one lemma per production, `sameEnd` = same final outcome of the state machine; composed with C03 (texts) and C38 (schemas) |
| C43 | `SchemaJson.v`: ToJSON, ParseSchemaJSON and encoding/json on the schema structs at text level (indentation, escapes, %q of type expressions); `Main.v`: ParseSchemaFile, main, -target=json | printing and re-reading a document (`RawJsonProofs`), value by value decoding (`SchemaJsonProofs`), then the completeness of the validator (C14) and of the type parser (C07) on what was read (`SchemaJsonBack`); that every text of a schema loaded from RIDL is valid UTF-8 is an invariant of lexer, tokenizer and parser (`TextProofs`, `TextSchema`) |
| C44 | as C43, with SHA-1 (`Sha1.v`) | injectivity from C43's re-reading; independence of map order from sorting being canonical for distinct keys |
| C45-C47 | template helpers on values (`Tmpl`): a heap of backing arrays with capacities and of maps; growth policy and text of a map are parameters | frame lemma for append, induction on histories; split characterised by its pieces |
| C48 | `GoBig.v`: the methods of BigInt (JSON, text, binary, database) on unbounded integers; JSON and binary text level | decimal numerals as a relation (`BigSpec.v`), round trips by induction on digits and bytes |
| C49 | `TsBig.v`: JsonEncode, JsonDecode, decodeType and BigInt(text) of the TypeScript client, with the table of C22 | relation between schema types, JSON and JavaScript values (`TsBigSpec.v`); induction on the depth of the value, each step using the exactness of the table |
| C50 | `TsServer.v`: route, argument checks, validators, dispatch and the node handler of the committed TypeScript server, for any implementation | case analysis on methods; induction on the depth of values for the validators; round trip from C49; `Reported` and `Wrong` say what is answered for exceptions and for objects that are not the arguments |
| C51 | `Ridl.v` (path.Clean, Dir, Join, fs.ValidPath), `Main.v` (filepath.Abs, Ext, ParseSchemaFile) against directory walks (`PathSpec.v`) | induction on path elements; loading via C16 |
| C52 | `MainRun.v`: main, Generate, loadTemplates, writeOutfile and the usage, over a record of the world (files, network, temp directory, template engine, formatter); writing is one step per byte | case analysis along main; composition with C25, C39, C40, C51 |
| C53 | `Chat.v`: the whole of _examples/webrpc-streaming/rpc.go as a transition system, one step per statement of SendMessage; the ring buffer library (not in the repository) by what the code relies on, see the head of the file | one invariant over all runs (lock, counter, log, what each goroutine has written), one relative to the moment of a call; a scheduler (`ChatExec.v`) exhibits the executions of the examples and refutations |
| C54 | `TestSuite.v`: RunTests and its table, and the reference server; the generated client and server are those of C28–C31; cmp.Diff's output is arbitrary; cmp.Equal is `cmpEqual` (numbers inside `any` compared by text) | each call of the client reduces to a statement on one HTTP exchange (`TestProofs.v`), so an empty list of failures is equivalent to `Passes`; the schema's errors by evaluating the front end on tests/schema/test.ridl |
| C55 | `JsNum.v`: JSON.parse followed by JSON.stringify on JSON trees: integer literals up to 2^64 become binary64 numbers (round to nearest, ties to even), Number::toString, order of own keys, repeated names; other literals are left alone | `JsNumSpec.v` defines floating point numbers and shown digits; `roundInt` is proved to be the unique nearest, `shortest` to be the fewest digits by monotonicity of rounding; the reading of reordered members by induction over the Go values (`JsOrder.v`) |
| C56 | the wire format and the generated Go client and server of C29/C30 (`GoVal.v`, `Rpc.v`), once for each version | `VersionSpec.v` defines which changes are compatible and what a reader sees of a writer's value; by mutual induction over the values (`VersionProofs.v`), then through the call (`VersionRpc.v`) and through streams (`StreamVersion.v`, with the schedules of C32). Member names are folded in ASCII only; key types of maps and element types are otherwise unchanged |
| C57 | `NodeHttp.v`: Node's response object, the body reader, entry point, RPC handler, middleware and routes of the node-ts example; the RPC function, the clock, the ids and the JSON text are parameters | `NodeSpec.v` lists the answers; case analysis through the handlers (`NodeProofs.v`); induction over chunks, by length, for the UTF-8 reader (`NodeText.v`) |
| C58 | `Methods.v`: the methods table a schema gives, MethodCtx, WebrpcMethods, methodsFor, Server.Methods, the hook and router of golang-basics, http.Header with canonical keys, WithHTTPRequestHeaders and newRequest | `MethodsSpec.v`: the server of a service, annotations, descriptors, header keys that HTTP treats as the same; from route distinctness (C28) and the answers of C29; induction over headers; the three committed tables are those of the schema file by computation |
| C59 | `WebApp.v`: main.ts of the chat web application as a machine driven by browser events, subscribeMessages and the callbacks of sseResponse (what is made of the bytes is C33) | `WebAppSpec.v`: messages received, ends of lists, failures since the last opening, work going on; inductive invariants over all event sequences, composed with the chat server of C53; refutations by running both |
| C60 | `TsCall.v`: a method of the TypeScript client: JsonEncode, the Headers object of fetch, buildResponse, JsonDecode, composed with the Go server of `Rpc.v` | `TsCallSpec.v` and the relations `Shows` (C49), `Carries` (C31), `TsArrived` (C41); composition of the encoding lemmas on both sides; JSON.stringify is any function whose texts are read back |
| C61 | `Url.v`: serviceURL, urlBase, the method URLs; of Go's net/url: Parse, String, JoinPath, EscapedPath, escape and unescape; the request target and the path the server sees; of the URL standard: path segments and percent encoding (users, IPv6 literals and the browser's parsing of hosts are left out) | `UrlSpec.v`: addresses and where they lead (`Walk`), named base paths; escaping round trips, cleaning commutes with escaping; "only if" by lengths: decoding and cleaning shorten any path they change |
| C62 | `Cors.v`: the CORS options of the example servers, package go-chi/cors (New, Handler, handlePreflight, handleActualRequest, parseHeaderList), hono/cors, and of the fetch standard: the header list, CORS-unsafe header names, preflight, CORS check, exposed headers; `CorsNode.v` puts the Node server of `NodeHttp.v` behind it. The libraries are modelled from their published sources (they are not in /repo) | `CorsSpec.v`: listed, simple and reserved names; parseHeaderList inverts the browser's joining up to case, canonical names compare like lower-case ones; composition with the TypeScript call (C60) and the Go server |
| C63 | `TestTool.v`: client.Wait as a timed transition system (attempts, select), net/http's Shutdown with its growing, jittered polls, RunTestServer/Wait/Close over a schedule of connections, the flag sets and main of cmd/webrpc-test, the shell command of the make target. Timers are exact and code takes no time; strconv.ParseInt and time.ParseDuration are an arbitrary predicate | invariants over runs; a table of the intervals in which each poll falls, preserved by every step; finite case analysis and induction over settings for the arguments |
| C64 | `GoCtx.v`: Go contexts as chains of values and cancellations (requests and contexts are mutually inductive), the accessors, ServeHTTP/serve*JSON/sendErrorJSON with hooks and implementations that read contexts, set headers and panic, RespondWithError and middlewares. Proved by an invariant over all events of a run (`calls_of`), an erasure of the run onto that of `Rpc.v` (`erasure`, so that C28–C30 carry over), a trichotomy of report/result/crash and a header congruence outside the server's own keys |
| C65 | `Succinct.v`: succinctHandler, the dispatch of a service with succinct and ordinary methods, the client of a succinct method; the rest is `Rpc.v`. Proved by the JSON round trip of the structs and by a simulation (`same_wire`): the runs of the succinct and of the long form differ only in the calls of the implementation |
| C66 | `GoGen.v`: the description of the Go code generated for a schema (types, structs with tags, methods, errors), computed from the schema by the rules the committed generated files show, and compared with them in `GoGenExamples.v`. `GoGenSpec.v` says what the values of a schema type are without it. Proved by induction on these values (`values_fit`), from what validation guarantees, and C30, C31, C65 |
| C67 | `StreamLife.v`: the goroutine of a streaming call, keepAlive, the connection and the reading of the TypeScript client as one transition system with a clock; delays are bounds on how long a step may wait (`Timely`), which a run must keep in every state. Proved with an invariant on the times of the chunks on the way and a deadline for each program counter |
| C68 | `Hono.v`: the Hono example server with what it uses of hono 4.12: middleware chain, routes, Context, req.json, error handler; the RPC function, the ids, the clock and the JSON text are parameters; CORS is that of `Cors.v`, the Node server that of `NodeHttp.v` | `PathOf`, `UnderRpc`, `Args`, `Payload`, `BodyStatus` in `Props_Hono.v` say what the path, the arguments and the text of a result are; proved by cases on the routes, and with C57 for the comparison |

## 3. Trusted base

* Coq's kernel, including its virtual machine for `vm_compute` (used in the witnesses of `_refuted`
  theorems and in `Example`s).  No native_compute, no plugins beyond those of the standard library's
  tactics (`lia`, `congruence`, ...), no kernel check switched off.
* `Print Assumptions` after every theorem of `Props_*.v` prints "Closed under the global context":
  no axiom at all is used.  (`vcheck` lists `Coq.ssr.ssrunder.Under_rel.*` as library axioms: that
  module is loaded by the standard library's own `Lia`; no theorem depends on it.)
* No axioms, no `Variable`/`Hypothesis` outside sections, no functors or module types, no `Admitted`.
* The reading of the Go and TypeScript code: the theorems speak about the Gallina model.
  `Conformance.v` runs the model on the repository's own .ridl files (copied verbatim in `Corpus.v`)
  and obtains, byte for byte, the committed golden JSON files and the committed schema hashes of the
  generated examples (arguments, imports, lexer, parser, comments, validation, filters, JSON and SHA-1
  together).  `UnitTests.v` runs the Go unit tests of `schema`, `schema/ridl` and `gen` on the model:
  187 cases (every table entry of the lexer tests with its positions, the parser, loader, filter,
  bigint-table and template-function tests), generated from the test files and computed by the kernel;
  all agree.  Only three assertions on the tree left behind by a failed parse have no counterpart.
  Seeded bugs
  (`seeded/LOG.jsonl`) were used to check that the theorems notice edits of the model.

## 4. What is modelled, and what is simplified

Modelled in full (function by function): schema/ridl (lexer.go, parser*.go, *_parser.go, ridl.go,
graph in gen/internal or schema), schema (all Parse/validate methods, filters, VarType), the parts of
gen used by C08, C22-C24, C35, C39, C40, C45-C47, the argument handling of cmd/webrpc-gen, the template cache,
and the committed generated server and clients of /repo/_examples and /repo/tests.

Simplifications, each also stated at the definition:

* Pointers to shared `*Type` values are represented by value (name and kind); nothing in the modelled
  code mutates a type after it is registered.
* Go standard library functions are modelled, not verified: `strings`, `strconv` (ParseInt saturation
  included), `unicode/utf8`, `flag`, `hash/fnv`, `encoding/json` (on the value types that occur),
  `path`, `net/url` (ParseRequestURI up to what is needed), the `http.ResponseWriter` protocol
  (first WriteHeader wins, implicit 200).  `any`, `time.Time` and floating point numbers on the wire
  are opaque texts; of repeated JSON members the last counts.
* Schema JSON: nil and empty slices are not distinguished, JSON names are matched ignoring ASCII case
  only, `strconv.IsPrint` is a parameter of the theorems; see the head of `SchemaJson.v`.
* Offsets stored in parse nodes are never read and are dropped; the wording of error messages is
  kept only where it does not depend on formatting.
* Cache: writes happen in program order, a crash keeps a prefix of them; no power loss reordering;
  the fetched repository is a list of files.
* Server: hooks do not write to the response, OnError does not panic (`GoCtx.v` drops both except for writes of status and body by user code), a URL is its path, panics reach
  the client through the recovery in the generated code; content types are compared after ASCII
  lower-casing and trimming; `errors.Is` on non-comparable dynamic types is not modelled.
* Streams: byte-level writes, the keep-alive may tick at any time, the request context is not
  cancelled while the client is reading except where "cut" streams are treated.
* TypeScript: `JSON.parse` is the JSON reader of `Json.v`, numbers staying literals in C33, C41, C49 and C50
  (what becomes of them is C55); callbacks do not throw; a timeout is a lost
  connection; the retry wrapper is not modelled.
* Streams in time (C67): what is written is sent by the next flush; a line with an error does not end the reading of the
  client; operations on the response take no time of their own beyond the delays.
* Node server: the connection after the client has left, invalid header values, and an RPC function that itself
  writes the response are not modelled; a chunk is decoded as the WHATWG encoding standard says.

* Generated Go code (C66): the templates are not in the repository, so `GoGen.v` follows the committed generated
  files; floats, null and lists of bytes have no values in the model; compile errors of the generated code are
  not modelled beyond what C39 says of names.

* The Hono server (C68): the hono package is not in /repo and is modelled from its version 4.12; paths have no % and no
  dot segments; what is thrown is an Error; bodies have arrived whole; no Response can be made with a status without a body
  or above 599 (error 500); the logger is left out.

Not modelled: template execution (text/template) and the templates themselves (not in the
repository), git/HTTP transport of template fetching beyond success or failure, the OpenAPI and
legacy JSON output formats, file watching and colour output.

## 5. Findings

Claims that turned out false of the code have a `_refuted` theorem with a witness:

| where | finding | theorem |
|-------|---------|---------|
| lexer | text after a NUL character is ignored | C01_nul_truncates_refuted |
| parser | hangs on `@` without a word in a service | C04_hang_refuted |
| parser | empty, non-ASCII or escaped-quote string literals | C05_..._refuted, C42_empty_string_refuted |
| parser | succinct result directly before the next declaration swallows its keyword | C42_succinct_result_swallows_the_next_word_refuted |
| parser | a stray word after a method, the lexeme after a quoted annotation value and annotations without a method are dropped silently | C42_stray_word..., C42_lexeme_after..., C42_dangling_annotation... |
| JSON | a map keyed by an alias of an enum, a service imported on two paths: accepted in RIDL, their JSON is rejected; an unprintable character in a used type name: accepted, but no JSON and no hash; the document `null` crashes the reader | C43_..._refuted |
| hash | a comment changes the schema hash | C44_comments_change_the_hash_refuted |
| types | struct as map key crashes; map key lookup ignores case; missing components accepted | C07_..., C06_... |
| schema | JSON field without type crashes; lower-case non-ASCII type names accepted; argument names unchecked; aliases unchecked | C14_..., C09_..., C12_... |
| imports | a service reached over two import paths is duplicated; an imported alias may refer to a struct that is not imported; aliases may be circular | C17_services_once_refuted, C17_imported_alias_dangles_refuted, C17_circular_aliases_refuted |
| filters | ignoring methods can leave a service without methods, which the validator rejects | C20_filtered_schema_stays_valid_refuted |
| templates | append twice to one array overwrites; empty arrays and dictionaries are not empty for default/coalesce; `in` never finds a type among names; split after join with a long separator | C46_..., C47_... |
| enums | two members may have the same value | C36_distinct_values_refuted |
| tree shaking | endless recursion on recursive structs; alias targets are lost | C21_..._refuted |
| bigint | recursive structs and hidden BigInts | C22_..._refuted |
| versions | v1.0 is not at least v0.7 | C23_min_version_refuted |
| header | separators in fields | C24_header_separator_refuted |
| CLI | repeated options are lost, a flag swallows the next | C25_..._refuted |
| cache | interrupted refresh leaves a mixture; removed templates stay; two targets can share a directory | C26_..., C27_shared_cache_refuted |
| server | two routes can coincide; invalid status of an error crashes the answer; status 200/204/304 errors are lost; undeclared enum values become zero; invalid UTF-8 is replaced | C28_..., C29_..., C30_... |
| streams | the answer to a panic is written without the mutex; keep-alive is not joined | C32_..._refuted |
| TypeScript | drops an unterminated last line; error message field mismatch; null error bodies | C33_..., C41_... |
| casing | non-ASCII first letters are corrupted | C35_first_letter_non_ascii_refuted |
| comments | see C37_general_comments_refuted | C37 |
| BigInt | Scan drops a negative exponent; several binary forms of one number | C48_..._refuted |
| TypeScript bigint | bigints in maps, nested lists, aliases, recursive structs, renamed fields stay strings, or make the call fail; JavaScript reads more texts than Go | C49_..._refuted |
| TypeScript server | no path is served; results go to an undefined function; validators of lists and enums reject everything; null skips validation; prototype names; error members; client path | C50_..._refuted |
| absolute import | `import "/a/b.ridl"` is looked up below the importing file's directory | C51_absolute_import_refuted |
| format errors | with -silent, or when the code is printed, a formatting error leaves status 0 and no message | C52_format_errors_are_reported_refuted |
| torn output | an interrupted write leaves neither the old nor the new code | C52_output_is_replaced_at_once_refuted |
| -help | the error of Generate is tested the wrong way round: rendered help is thrown away; a target after -help is ignored | C52_help_is_shown_refuted |
| chat server | reconnecting after more than half a buffer, or to a restarted server, silently misses messages; CreatedAt is read before the lock | C53_reconnect_gap_refuted, C53_restart_loses_messages_refuted, C53_times_follow_ids_refuted |
| webrpc-test | passes servers that return other values than the reference server, answer errors with another HTTP status, or drop causes | C54_values_are_not_checked_refuted, C54_status_line_is_not_checked_refuted, C54_missing_cause_is_not_noticed_refuted |
| error codes | numbers from 2^31 on are silently replaced by 2147483647, so different codes clash | C38_error_codes_saturate_refuted, C38_distinct_error_codes_refuted |
| 64-bit integers in TypeScript | uint64 and int64 are typed number: ids from 2^53 on are confused, large ones are refused when sent back | C55_different_ids_stay_different_refuted, C55_values_return_refuted |
| Schema versions | a field added under a name that differs from a field of older readers only in case overwrites it; a member added to an enum is read as the zero member | `C56_added_fields_are_ignored_refuted`, `C56_new_enum_members_are_recognised_refuted` |
| header of branches | `@feature/x` is recorded as generator `x` of unknown version; `./dir/` under no name | C24_branch_with_slash_refuted, C24_directory_with_slash_refuted |
| header readers | a version with `@` is cut short by the TypeScript reader and kept by the Go one; a header without versions is an error in Go and read in TypeScript | `C24_readers_agree_refuted`, `C24_go_wants_every_version` |
| header | the committed header values cannot be parsed | C24_committed_headers_refuted |
| Node server | a character cut by a chunk boundary becomes replacement characters; the log shows 200 for requests answered with 500; trace ids differ; RPC requests that the generated function does not know stay open | C57_..._refuted |
| golang-basics | the admin server is mounted at "/admin/*" but its routes are "/v1/Admin/*": no method can be called; WithHTTPRequestHeaders looks for the exact keys only, so "content-type" adds a second value | C58_..._refuted |
| chat web app | the reconnect callback repeats the first lastMessageId, so messages are shown again; Re-connect clicked twice opens two streams; abort with a reason makes reads fail with that reason (fetch standard), which is taken for a lost stream: the page never disconnects and loops; WebrpcRequestFailed is taken for a disconnect; texts go unescaped to innerHTML: forged messages and scripts | C59_..._refuted |
| generated TypeScript stream methods | `options.signal` is never listened to: the listener is put on the method's own signal (gen: subscribeMessages), so aborting it has no effect; by reading only (no callback to state it with) | — |
| generated TypeScript createHttpRequest | `{...headers, 'Content-Type': …}` keeps a caller's `content-type` besides it, fetch joins both values, and Go servers answer 400 | C60_headers_do_not_disturb_calls_refuted |
| base paths, schema.go 40-67 | `/api//v1`, `/api/../v1`, `./v1`, `/my%20api` are accepted, but JoinPath cleans and the server compares the decoded path with the undecoded constant, so no Go client reaches its own server | C61_accepted_base_paths_are_reached_refuted |
| generated clients' addresses | urlBase adds no scheme to host:port addresses (its comment says it does) and keeps final slashes; TypeScript keeps queries of the host name; serviceURL keeps a bare `?`, which swallows the method | C61_..._refuted |
| CORS of the examples | node-ts/server-go does not list the header `Webrpc` that its client sends: no page can call it; AllowCredentials with AllowedOrigins `*` is refused by browsers; the Node server does not expose the version header its page reads | C62_..._refuted |
| errors.Is on chains of WebRPCErrors | `WebRPCError.Is` asks errors.Is for the cause and errors.Is then unwraps to the same cause: for a target that is not a webrpc error each layer doubles the work (2^n looks) | `C31_matching_others_doubles`, `C31_matching_others_is_linear_refuted` |
| webrpc-test -server | requests that end in the second half of the second of grace make it exit 1, because net/http's Shutdown looks at 511–562 ms and then only after 1011 ms; `Close` does not end `Wait`; the error of Serve is dropped | `C63_a_second_of_grace_refuted`, `C63_late_requests_fail_the_server`, `C63_close_ends_the_wait_refuted`, `C63_failures_are_reported_refuted` |
| webrpc-test -waitForServer | one call that hangs uses up the whole timeout (no timeout per attempt) | `C63_wait_survives_a_hanging_call_refuted` |
| make test-interoperability | its last command is `wait`, so it succeeds when the tests fail | `C63_make_reports_failures_refuted` |
| hooks of Go servers | the name of the method is put only into the context of the implementation, not into that of the request the hooks get: `MethodNameFromContext(r.Context())` is empty in OnRequest and OnError | `C64_hooks_see_the_method_name_refuted` |
| RequestFromContext | gives the request as it came in; its own context has none of webrpc's values | `C64_request_in_context_has_the_names_refuted` |
| OnError | called twice for an error with an invalid status; if it panics the client gets no answer | `C64_reported_once_refuted`, `C64_panicking_hook_answers_nothing` |
| succinct methods | a nil result is `null` on the wire, which a client of the long form reads as zero results | `C65_ordinary_clients_see_nil_results_refuted` |
| succinct methods without fields | the body is read and checked; ordinary methods without arguments ignore it | `C65_empty_requests_get_the_same_answers_refuted` |
| version of webrpc-gen | a tool built without `-ldflags` takes its version from the working directory: the version another module requires, or the tag of the user's own project; the same tool writes different headers in different directories, and a tag with `;` makes the header name another generator | `C24_version_is_the_tools_refuted`, `C24_same_header_in_every_directory_refuted`, `C24_header_names_the_generator_everywhere_refuted` |
| generated Go code | validation compares the JSON names of fields but not those given with go.tag.json, nor the names of the arguments of a method: two fields then share one JSON name and encoding/json writes neither, and the generated code has two parameters of one name | `C66_go_tags_are_not_compared_refuted`, `C66_argument_names_may_repeat_refuted` |
| streaming calls | a ping that fails ends keepAlive but not the call: unless net/http also sees that the client is gone (writes fail after WriteTimeout), the implementation waits for ever | `C67_failed_pings_end_calls_refuted` |
| streams in TypeScript | a stream that is given up after the timeout is not cancelled: the connection stays open and the call goes on at the server | `C67_timeouts_end_calls_refuted` |
| Hono server | a body that is not JSON is taken for {}: the method is called with no arguments, where the Node server answers 400 | `C68_malformed_bodies_are_refused_refuted` |
| Hono server | the bodies of PUT, PATCH and DELETE requests are arguments; the Node server calls the method with {} | `C68_bodies_of_other_verbs_refuted` |
| Hono server | with the generated function every RPC call is answered 404 | `C68_generated_server_is_not_found_refuted` |
| kinds in JSON | UnmarshalJSON of CoreType takes every name that it does not know, and null, for T_Unknown without an error | `C06_unknown_kinds_are_refused_refuted` |
| kinds in JSON | T_Struct, T_Enum and T_Alias are written as the empty string and come back as T_Unknown | `C06_declared_kinds_round_trip_refuted` |
