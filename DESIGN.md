# Formal model of moov-io/metro2

A model in Rocq (Coq 8.16.1) of the library, its streaming reader, its JSON form,
its HTTP handlers and its command line, with the properties of `properties.jsonl`
proved of it. `MANIFEST.json` says which theorem settles which property.

## Trusted base

* The Coq 8.16.1 kernel (and `coqchk`).
* What `Print Assumptions` lists under each property theorem. It is *Closed under
  the global context* for every one: no axiom is declared here and no library
  axiom is used. `coqchk -o` lists seven axioms `Coq.ssr.ssrunder.Under_rel.*`
  for the whole development: a part of the standard library (`ssreflect`, loaded
  by `Lia`) declares them, no theorem here depends on them.
* The reading of the Go sources under `/repo` by which the model in
  `rocq/theories` was written. Every model definition cites the file and lines
  it models. Nothing was extracted or executed.
* The behaviour of the Go standard library, as transcribed:
  - `GoBase.v`: `fmt` verbs `%v`, `%0N.Nv`, `%-N.Ns`, `%0Nd` (padding and cutting
    count runes; the zero flag pads strings with `0`, as the repository's own
    tests show), `strconv.ParseInt`, `strconv.Atoi`, `strings.ToUpper` on ASCII,
    `strings.TrimRight`, `encoding/binary` big endian;
  - `GoTime.v`: calendar, `time.Format` and `time.Parse` for the two record
    layouts, `time.Unix`; a `time.Time` is its civil fields and zone offset (no
    monotonic clock reading);
  - `GoLayout.v`: `time.Parse` for the layouts of `pkg/utils/time.go`
    (`nextStdChunk`, `getnum`, `parseTimeZone` and so on). What the host makes of
    a zone abbreviation is an arbitrary function `rtZone`;
  - `Regex.v`: `regexp.MatchString` as membership in a language;
  - `Reader.v`: `bufio.Scanner` (buffer growth, 64 KiB limit, 100 empty reads) and
    `io.Reader` as an arbitrary sequence of reads;
  - `Json.v`, `JsonFile.v`: text and struct level of `encoding/json` (scanner,
    `unquote`, `appendString`, `compact`, `Indent`, case folding of keys,
    `omitempty`, embedded structs). The nesting limit of 10000 is left out. The
    text of a number after it went through `float64` is an arbitrary function
    `rtFloat` above 2^53 and for non-integers; C105 takes for it `go_float` of
    `GoFloat.v`, in which `ParseFloat` rounds to the nearest number and `FormatFloat`
    writes the least number of digits that is read as the same; the order in which `range` visits
    a map is an arbitrary function `rtOrder`, assumed a permutation where a
    theorem says `orders rt`;
  - `safecast.Convert` gives 0 when the value is out of range;
  - `strings.ToLower` and `strings.EqualFold` against ASCII words (`Server.v`).
* `net/http`, `mime/multipart`, `gorilla/mux`, `cobra` and the file system: a
  request is what `r.Header.Get`, `r.FormFile`, `r.Body`, `r.FormValue` and
  `r.URL.Query` give; a command line is its flags. Headers set after
  `WriteHeader` are not sent. Between client and server (`hand_over` in
  `Client.v`) a multipart form arrives field by field and byte by byte, with
  query values before form fields; `net/http` uses the length of the body, not
  the `Content-Length` the client computes; the client's temporary file can be
  made. In `ClientCalls.v` `Client.Do` and the dumps of `net/http/httputil` are arbitrary
  functions; `DumpRequestOut` leaves a request as it was, and `DumpResponse` reads the body
  first, closes and replaces it if all of it could be read, and leaves it open otherwise.
  `Client.Do` returns an answer or an error. In `CommandLine.v` a host is an arbitrary record of
  which calls on files succeed and how much is written; `cobra` checks the arguments, runs the
  command and prints its error; writing to a file of which all has been read does not change what
  was read.
* `Client.v`: `url.QueryEscape`, `url.QueryUnescape`, `url.ParseQuery`,
  `url.Values.Encode`; `gorilla/mux` by exact path and method. The text of an
  error is an arbitrary function, the boundary of a form an arbitrary text;
  so are `http.DetectContentType`, the texts of errors of files, and what `encoding/xml` makes of a
  body (`ClientBody.v`), `time.Time.String` and the addresses of values (`ClientHelpers.v`).
* `ClientConfig.v`, `ClientCache.v`: `strings.Replace`, `strings.Split`, `strings.Trim`;
  a map is the list of its entries in the order `range` visits them; the float
  arithmetic on fractions in `time.ParseDuration` is an arbitrary function (`parts`), or
  `go_parts` of `ClientDuration.v`: products and quotients rounded to the nearest `float64`.
* `ClientHeaders.v`: canonical header names of `net/textproto`, the text that
  `mime/multipart` writes, `filepath.Base`; the escaping of quotes in a file name is an
  arbitrary function (`esc`).

## Simplifications

* Go `int` is 64 bits; field values are unbounded integers in the model and the
  theorems say where they must fit.
* Records are modelled by value. `Heap.v` models the same calls with pointers, and
  C91 shows that both agree in programs that give each record to one file once and
  leave a record alone when `SetType` has put a copy in its place. In `Heap.v` the
  room `append` leaves in a new array is an arbitrary function (`spare`); the slice
  of data records is kept by value there. `Lists.v` models that slice too (`room` is the
  room in its arrays), and C104 shows that both agree in programs that change only
  lists they have cloned. Calls of a record's own `Parse` or `UnmarshalJSON` by the
  caller, slicing of such lists and nil arguments are outside both.
* A layout map is the list of its entries; `PropsFields.v` (C20) shows that the
  order of the list does not matter.
* `ConcurrentString`: goroutines take atomic steps, one record or one store at a
  time (`Concurrent.v`). Each goroutine stores to its own slot and `Wait` orders
  these stores before the reads, so the Go memory model allows no other result.
  The page size is computed by the program with `float64`; the model divides
  integers, which agrees below 2^53 records.
* In `Reader.v` a `Reader` is used for one `Read`; `Stream.v` models one that is read
  from repeatedly, and C86_first shows that both agree on the first `Read`.
* What a failed JSON decoding leaves in its target is modelled apart, in `JsonLeft.v`; the two
  are proved to agree on whether there is an error, and on the result if there is none
  (C103_agrees). Fields of a struct that cannot be written are not modelled there.
* Error values keep their kind and arguments; `Errors.v` gives the texts of those of
  `pkg/utils/errors.go`. The texts of errors of the standard library and of errors
  that wrap others are not modelled.
* The schema is transcribed from `api/openapi.yaml`. Its codes are written there
  as numbers under `type: string` and are taken to be texts; `date-time` is RFC 3339
  with up to nine digits of a second, capital `T` and `Z`, and no leap second.

## Shape of the model

| file | models |
|---|---|
| `GoBase.v`, `GoTime.v`, `GoLayout.v`, `Regex.v` | the standard library, see above |
| `Tables.v` | `specifications.go` layout tables, struct field lists |
| `Codec.v` | `converters.go`, `validators.go` |
| `Records.v` | segments, header, base, trailer: parse, string, validate, add/get segments |
| `File.v` | `file_instance.go`, constructors of `file.go` |
| `Concurrent.v` | goroutines of `ConcurrentString` as an interleaving machine |
| `Reader.v` | `scanRecord`, `Reader.Read`, `pkg/utils/file.go`, `bufio.Scanner` |
| `Heap.v` | pointers to records and segments, slices with spare room; the calls of `File.v` on them |
| `Lists.v` | the slice of data records of a file, and the lists a program has from `GetDataRecords` |
| `Stream.v` | a `Reader` and the state its `Read` leaves behind |
| `Json.v`, `JsonTables.v`, `JsonFile.v` | JSON text, tags, marshalling, `NewFileFromReader`, `CreateFile` |
| `GoFloat.v` | numbers of JSON that are read as `float64` and written again |
| `JsonLeft.v` | the same with what is left behind by an error, and the file returned beside one |
| `Server.v` | `pkg/server/server.go`, `cmd/metro2/main.go` |
| `CommandLine.v`, `CommandScript.v` | `cmd/metro2/main.go` with the files it reads and writes, standard output, errors and exit status |
| `Client.v` | `pkg/client/client.go`, `api_metro2_files.go`; routes of the server |
| `ClientTypes.v` | `pkg/client/model_*.go`: structs, `ToMap`, `MarshalJSON`, decoding |
| `ClientAccess.v` | `pkg/client/model_*.go`: constructors, getters, setters; `Nullable` types there and in `utils.go` |
| `ClientScalars.v` | `pkg/client/utils.go`: `NullableBool`, `NullableInt`, `NullableFloat64` |
| `ClientConfig.v` | `pkg/client/configuration.go`: servers, variables, context |
| `ClientCache.v` | `pkg/client/client.go`: `CacheExpires` |
| `ClientDuration.v` | `float64` in `time.ParseDuration` |
| `ClientErrors.v` | errors of calls: `pkg/client/client.go`, `api_metro2_files.go`, texts of `configuration.go` |
| `ClientParams.v` | parameters of requests: `parameterAddToHeaderOrQuery` in `pkg/client/client.go`; `FormatFloat` with 32 bits |
| `ClientSingles.v` | `pkg/client/utils.go`: `NullableInt32`, `NullableInt64`, `NullableFloat32` |
| `ClientBody.v` | `pkg/client/client.go`: `setBody`, `detectContentType`, `addFile`, bodies and forms in `prepareRequest` |
| `ClientHelpers.v` | `pkg/client/client.go`: `typeCheckParameter`, `parameterValueToString` for the eleven types without lists, `parameterToJson`, `newStrictDecoder` for these types |
| `ClientStrict.v` | `newStrictDecoder` for `DataRecord` and `File` |
| `ClientMemory.v` | memory behind the objects of `pkg/client/model_*.go`: pointers of the `…Ok` getters, copies of structs, maps of `ToMap`, for the eleven types without lists |
| `ClientCalls.v` | `pkg/client/client.go`: `callAPI` with any `HTTPClient` and with `Debug`; what the operations in `api_metro2_files.go` do around it |
| `ClientHeaders.v` | `pkg/client/client.go`: headers, form text, host and scheme in `prepareRequest` |
| `Errors.v` | `pkg/utils/errors.go`: `toSnakeCase`, texts of errors |

Not modelled: `HTTPClient` and `Debug` of `pkg/client` in `Client.v` (they are in
`ClientCalls.v`, C113_agrees links the two), the text of dumps, `parameterValueToString`
for `DataRecord` and `File`, memory shared by `DataRecord` and
`File` and by pointers into them, `ListenAndServe`, logging.

The Go code drives its codec by reflection over struct fields and a layout map.
The model does the same: a struct is the list of its (field name, value) pairs
in declaration order and a layout is a list of (field name, start, length,
type bits, required flag). Parsing returns the updated struct together with a
result (`Ok`, `Err`, `Panic`), so partial updates on failure and panics are
visible. Loops that may not end take fuel and give `None` when it is used up.

Specifications are in `Spec*.v` and do not use the helpers of the model:

| file | specifies |
|---|---|
| `SpecCodec.v`, `SpecFields.v` | values that fit a field, written and read forms |
| `SpecLayouts.v` | documented positions of every field |
| `SpecRecords.v`, `SpecFile.v`, `SpecFiles.v` | records and files that fit, their texts, line breaks |
| `SpecValidate.v` | documented rules and code lists |
| `SpecCounters.v` | what each trailer counter counts |
| `SpecApi.v` | histories of API calls, change of type, added segments |
| `SpecHeap.v` | programs with pointers: which share records, what their calls change |
| `SpecLists.v` | lists of data records that are values, programs that change only their own |
| `SpecLookup.v` | segments by name, descriptor words of a record |
| `SpecReader.v` | read schedules, records cut by their descriptor words |
| `SpecStream.v` | several files on one stream |
| `SpecAgree.v` | texts the streaming reader accepts, records told apart by `File.Parse` |
| `SpecNumbers.v` | what a number of JSON amounts to, JSON with numbers spelled otherwise, the nearest binary64 number |
| `SpecJson.v` | the grammar of RFC 8259 and what its texts stand for, equality up to key order, files JSON keeps |
| `SpecServer.v` | what a request asks for, converted files, deliveries |
| `SpecClient.v` | what a call of the client asks for, its outcomes |
| `SpecWire.v` | what a call of the client sends, what the server answers |
| `SpecConfig.v` | templates of server addresses, values of their variables, what a context says |
| `SpecCache.v` | the header `Cache-Control`, dates of HTTP |
| `SpecHeaders.v` | names and values of headers, decimal text |
| `SpecForm.v` | bodies of multipart/form-data, the last element of a path |
| `SpecSparse.v` | the file a JSON object describes, keys and dates |
| `SpecMerge.v` | JSON read into files and records that hold something already |
| `SpecAccept.v` | the JSON that says a file, member by member and field by field |
| `SpecLeft.v` | what JSON that is refused leaves: up to which member and date it was read |
| `SpecDates.v` | dates in numbers |
| `SpecFormats.v` | the listed date formats, part by part; the texts and the time they stand for |
| `SpecSchema.v` | the published schema, `api/openapi.yaml`, as data; conformity |
| `SpecAccess.v` | what objects of the client hold after calls of setters |
| `SpecStrict.v` | JSON of which every member names a property |
| `SpecMemory.v` | programs with objects of the client: variables, types, copies |
| `SpecScalars.v` | what JSON says about a flag, a whole number, a `float64` |
| `SpecTold.v` | names of statuses, texts of errors about addresses |
| `SpecParams.v` | the values of which a parameter consists, texts with commas, numbers of binary32 |
| `SpecBody.v` | media types of JSON and XML, the bytes and the type of a body, the values of a form |
| `SpecSingles.v` | what JSON says about an `int32` and a `float32` |
| `SpecClientTypes.v` | objects of the client, the file they stand for, what the client receives |
| `SpecRead.v` | what the text of a field stands for, the outcome of reading a record |
| `SpecReport.v` | rules field by field, what an error of `Validate` says, names in texts |

`*Facts.v` and the other files hold lemmas; `*Cases.v`, `Samples.v`, `*Case.v` hold
concrete records, files and requests. Property theorems are in `Props*.v`; each is
closed by `exact` of a lemma proved elsewhere, with `Print Assumptions` and an
`Example` giving a concrete case.

## Agreement with the code

* The tables (`Tables.v`, `JsonTables.v`, `ClientTypes.v`, `SpecSchema.v`) were compared
  by a script with the Go and YAML sources, entry by entry; they are equal. Another
  script checked that all constructors, getters, setters and `Nullable` methods of
  `pkg/client` follow the one pattern `ClientAccess.v` models.
* `TestData.v` holds the files of `test/testdata`, `ProjectTests.v` repeats on the model
  what the project's tests assert about them: segments, records, files, JSON, error
  texts, the streaming reader, handlers, commands, fuzz seeds. All agree, except the
  benchmark of finding 30, which `go test` does not run.
* The model, extracted to OCaml outside this repository, finds the 10000 record
  file of `pkg/server/testdata` valid, as `large_requests_test.go` demands.

## Approach

* **C01-C06** generic round-trip theorem for table-driven records (induction on
  the field list, using computed well-formedness of each table), instantiated
  per record; base segments add an induction on the appended segments.
* **C07-C10** induction on the data records, on top of C01-C06.
* **C11-C18, C20** generic codec lemmas; independent position table.
* **C21-C23, C25, C26** generic over all byte strings.
* **C27-C30** equivalence with declarative rules.
* **C31-C34** induction over records; counters as lengths of filtered lists.
* **C35, C54, C55** invariants over API histories.
* **C38** invariant of the interleaving machine over all schedules.
* **C39-C44** tokenisation lemma for the split function; scanner as a machine
  fed by arbitrary read schedules.
* **C47-C51** a grammar of JSON texts, printing and parsing proved inverse, then
  structs, records and files on top.
* **C52, C53, C64-C68** handlers and commands as functions of the decoded request.
* **C69, C70** increments of trailer counters commute, so permutations and
  concatenations of records carry over (`OrderFacts.v`).
* **C71** injectivity of texts, from the round trips (`TextFacts.v`).
* **C42, C72** the reader accepts exactly the streams of `SpecAgree.v`; a record
  read from a longer text can be read by itself and the other way round
  (`AgreeFacts.v`).
* **C73-C75** each call of the client is turned into the request the handler
  sees; the handlers' theorems then give the outcome (`ClientFacts.v`).
* **C76** members of an object that set a field to its value in the file, or leave
  it alone, give that file in any order (`SparseFacts.v`).
* **C80** a text that is a sequence of digits and separators is rejected by all but a
  few layouts (a machine on shapes, `LayoutFacts.v`); those few are evaluated
  (`DateFacts.v`).
* **C77-C79** the published schema is compared with the tag tables by computation;
  conformity of written objects and reading of conforming files follow from C76
  (`SchemaFacts.v`).
* **C81-C83** the structs of the client are compared with the published schema by
  computation; what they write describes a file in the sense of C76, and what the
  library writes is decoded member by member (`ClientTypesFacts.v`,
  `ClientFileFacts.v`).
* **C84** the two replacements of `toSnakeCase` as state machines over the text, with
  an induction on pairs of words; texts are told apart by their ends (`ErrorFacts.v`).
* **C85** the loop of `validateRecord` stops at the first fault; each method is tied
  to the rule of its field (`ReportFacts.v`).
* **C86, C87** the state between two calls of `Read` is what the scanner has left and
  the file it owns; induction on the files of the stream (`StreamFacts.v`).
* **C88, C89** for each kind of field, texts that stand for a value and texts that do
  not; the loop over the fields then ends at the first of the latter, and appended
  segments follow by induction on the text (`ReadField.v`, `ReadRecords.v`,
  `ReadOutcome.v`; `ReadUnique.v` shows that the description leaves no choice).
* **C90, C91** an invariant of the heap: no two records in use share the array of a
  slice, and no two places of files the record (`HeapFacts.v` to `HeapMain.v`); the
  files of careful programs are then histories of C35 (`HeapTyped.v`).
* **C92** case analysis on names and records (`LookupFacts.v`).
* **C93** `FormatExec.v` runs a layout on a text of which only the form is known: which
  bytes are digits, letters or fixed, and which numbers they make. `FormatFacts.v`
  proves that `parse_layout` does on every text of the form what the run says;
  `FormatReads.v` computes the runs of all layouts on all forms of all formats.
* **C94** induction on the derivation of the text one way (`JsonTextFacts.v`), on the
  fuel of the reader and the length of strings the other way (`JsonGrammarFacts.v`).
* **C95** induction on the calls (`AccessFacts.v`).
* **C68**, **C96** cases of the handlers and of what was set (`WireFacts.v`).
* **C97** replacing one variable after the other fills the places one by one, whatever the
  order (`ConfigFacts.v`); **C98** digits and layouts as in C93, a grammar of spans of
  time (`CacheFacts.v`, `DurationFacts.v`), the float
  arithmetic on fractions, exact while the scale divides the unit (`DurationExact.v`); **C99** induction on the default headers
  (`HeaderFacts.v`); **C100** induction on the parts, and no delimiter overlaps another
  (`FormFacts.v`); **C101** as C76, from any state (`MergeFacts.v`); **C102** the same in
  both directions: each step of decoding is shown equivalent to what the JSON says
  (`AcceptFacts.v`); **C103** induction over the members, which are sorted in headers and
  trailers and in any order in files and data records (`LeftFacts.v`); **C104** an invariant
  of programs: which slices share an array, and which of them is the longest (`ListMain.v`,
  `ListProps.v`); **C105** every whole number up to 2^53 is a `float64`, and no decimal with
  fewer digits is read as the same one (`NumberFacts.v`); the rounding of decimals is proved
  to give the nearest number of the format binary64, ties to even, which is stated by itself
  in `SpecNumbers.v` (`NumberRound.v`); 17 digits always tell a `float64` from its neighbours, the
  text that is written is read as the same one (`NumberText.v`), and no decimal with fewer digits
  is (`NumberShort.v`); large exponents are too far away from every `float64` to matter, unless there
  are thousands of digits (`ExponentFacts.v`); **C106** one lemma for all three types, and those of C105 for `float64`
  (`ScalarFacts.v`); **C107** cases of C73 and C97 (`ToldFacts.v`);
  **C108** induction on values and on what they consist of, the float32 of a whole number and its
  digits, rounding to binary32 as C105 does it for binary64 (`ParamFacts.v`, `ParamNumbers.v`,
  `SingleRound.v`, `SingleDigits.v`, `SingleShort.v`, `SingleText.v`); **C109** the lemmas
  of C106 and C108 (`SingleFacts.v`); **C110** the regular expressions by induction on the text, then
  cases; C74 and C100 for forms (`BodyFacts.v`); **C111** cases, induction on the members for strict
  reading, C82 and C83 for what is written (`HelperFacts.v`, `StrictFacts.v`); **C112** an invariant that gives every address one
  owner, kept by every call, then induction on programs (`MemoryFacts.v`, `MemoryRuns.v`, `MemoryMain.v`);
  **C113** cases, induction on the calls (`CallsFacts.v`); **C114** the theorems of C64 and cases of
  what the host allows (`CommandFacts.v`); **C115** induction on the steps, with C67 for one of them
  (`ScriptFacts.v`); **C116** the theorems of C52 and C64 side by side (`BothFacts.v`).
* `..._exactly_partial` (C37, C58, C59) and `C45_decided_partial` say precisely
  when the claim holds: an equivalence, or a bound after which the loop of
  `File.Parse` is known to go on forever.

A claim that is false of the code has a theorem named `..._refuted` with a
witness; what holds instead is proved beside it, under the name `..._partial`
when it is a restriction of the claim.

## Findings

1. `File.Parse` of a variable-blocked character file can loop forever (C45).
2. A number too big for its field is written as its leading digits (C59).
3. Packed records may contain bytes 0x0A and 0x0D, which reading strips; an
   opening brace in the first 1024 bytes makes a raw file look like JSON (C50).
4. A variable-blocked character base segment with padding is written four bytes
   too short (C58).
5. A zero date is written to packed fields as seconds of year 1, not zeros (C19).
6. Changing the type of a valid character file to packed can make it invalid
   (C37, C53).
7. `Reader.Read` ignores what follows the trailer (C43).
8. `File.Parse` overwrites the caller's buffer (C46), keeps a stale block
   descriptor word (C63), and leaves a file partly updated on failure (C24).
9. No telephone number is ever rejected (C56).
10. One trailer counter for K3 segments counts something else (C31).
11. A payment history profile ending in a blank does not survive (C57).
12. A K2 segment with purchase indicator 9 and no name is valid but unreadable.
13. Generation code, address indicator and residence code are not validated (C27).
14. 65536 line breaks before a record make the reader fail; 101 reads without
    progress cut the input silently (C40, C41).
15. The format picked for JSON depends on key order when keys differ in case
    only; a variable-blocked file may come back packed (C47, C48).
16. The content type of answers is set after the header was sent (C68).
17. `generate=true` on a file without data records answers 501 (C52).
18. A record whose filler ends in `J` before a record whose length starts with `1`
    is read by the streaming reader and refused by `File.Parse` (C72).
19. The client reports a missing, empty or unnamed file only as the server's
    answer 400; a format in the query silently overrides the one of the form,
    even when it is empty (C73).
20. The published schema (`api/openapi.yaml`) and the code differ: `balloonPaymentDueDate`
    of L1 and `blockDescriptorWord` of the trailer are published but ignored;
    `processingIndicator`, `correctionIndicator` and `newIdentificationNumber` are
    kept but not published; the required `highestCredit` is left out when it is 0;
    missing dates are written as `""`; `data` may be null without data records
    (finding 40). A
    payment history is published as a single code, so no valid file is written in
    published form, and no file in published form with data records is valid
    (C77, C78).
21. The published format `metro2` is refused with 501, which `/print` does not
    publish (C79).
22. A JSON date with the year last is read with the month first, unless the first
    number is too big for a month: `12/04/2024` is in December, `13/04/2024` in
    April. With dashes a missing leading zero puts the day first: `03-04-2024` is
    4 March, `3-4-2024` is 3 April (C80).
23. The types of the client cannot read the JSON of a file in which any published
    date is missing, such as the closing date of an open account: the library writes
    it as `""`, which `time.Time` refuses (C82). A file the client has read comes
    back without `processingIndicator`, `correctionIndicator` and
    `newIdentificationNumber`; a file the client writes reaches the library without
    `blockDescriptorWord` of the trailer and `balloonPaymentDueDate` of L1 (C81, C82).
24. Errors about the social security number or date of birth of a J1, J2 or packed
    base segment name the base segment; errors about counters of a packed trailer
    name the trailer record (C85). A segment added to a packed trailer is refused in
    the name of the packed header.
25. A `Reader` keeps its file between calls of `Read`. A fixed-length file read after a
    variable-blocked one gets that one's block descriptor word; a character file read
    after a packed one is parsed as packed, because `SetType("metro")` fails and its
    error is dropped: it is refused or returned as nonsense (C86). The file returned
    by one `Read` is overwritten by the next, and the `Read` that reports the end of
    the stream removes its data records (C87).
26. In a variable-blocked character record with a block descriptor word of `0000`, or a
    negative one, the fields are read behind the word, but the appended segments are
    looked for four bytes too early: they are lost, and with a negative word nothing
    limits the size (C88_base_unblocked, C88_unblocked_refuted).
27. Errors of `Parse` about dates, and about numbers in which some character is a digit
    of base sixteen, do not name the field. A required number that is not a number is
    called missing. A fixed-length character record whose first four bytes are not
    numeric is blamed for its block descriptor word, which it does not have (C89).
28. A header or trailer given to `SetRecord` stays the caller's: a later `Parse` of the
    file writes into it, and so into every other file it was given to. `SetType` copies
    base segments together with their slices: a J1 or J2 segment added to the record
    the caller still holds, and one added to the copy, land in the same place of one
    array when it has room, and the later one replaces the other in both. The same
    happens within a file to which one record was added twice (C90).
29. `GetRecord` knows the names `header` and `trailer` only, also in packed files, whose
    records are named `headerPacked` and `trailerPacked` (C92).
30. `unpacked_variable_file.dat`, which the tests compare with what `String` writes, cannot
    be read: its data record has the block descriptor word `0426` before 1000 bytes. The
    benchmark that reads it would fail (`bench_reader_fails` in `ProjectTests.v`).
31. Of the 170 date formats, five with the day before the month never get to a day up to
    the 12th: an earlier format reads it with month and day exchanged, without an error.
    `January 2, 2006, 3:04 p.m.` takes p.m. for punctuation: `3:04 p.m.` is read as four
    past three at night, and a.m. is refused. `Mon,02 January 2006 14:04:05 MST` reads no
    hour but 14, `-700` and `mon` in two more formats stand for themselves, and
    `Mon, 2 Jan 15:04:05 MST` gives the year 0. In four formats an offset below 24 minutes
    is taken for the name of a zone. Beside the abbreviation UTC an offset is ignored; so
    is an offset of one second to the west. Days of the week are not compared with the
    date, and other abbreviations of zones mean what they mean on the host (C93).
32. What follows the JSON object is not looked at, and the word `null` before the first
    brace, as in `null {`, is read as a file with nothing in it, without an error (C94).
33. A `Nullable` value of the client that was not set comes back from JSON as set (C95). A
    `NullableTime` that is nil panics when it is written (C95_time_refuted).
34. The client's `Convert` and `Print` without a file drop the form fields that were set: the
    content type selected is that of JSON, and only a file makes it a form (C96).
35. A value of a server variable that contains the name of another variable in braces is
    replaced again, or not, depending on the order in which Go visits the map (C97).
36. `CacheExpires` takes a `max-age` above 9223372036 seconds as expired at once and does
    not know `Max-Age` in other than lower case; it takes values with units, as `1m30`,
    which HTTP does not allow (C98). Of the fraction of a unit a
    nanosecond may get lost, as in 0.00100000000000us (C98_fraction_refuted).
37. The client computes `Content-Length` before it closes the form, so the header is too small
    by the length of the boundary and 8; `net/http` ignores it (C99).
38. A default header named as one the client sets gives that header two values (C99).
39. `Print` accepts `application/json` only, though the server answers a request for the
    format `metro` with the text of the file (C99_accepts).
40. In JSON a file without data records has `"data": []` when it is a character file read
    from text and kept in its type, and `"data": null` when it is packed, was read from JSON
    or had its type changed: only the first path sets the slice (`null_data` in `SpecServer.v`,
    C65_no_data). No file without data records is valid (C33_some_data).
41. `UnmarshalJSON` of a file adds the data records to those that are there and keeps the
    fields of header and trailer that the JSON leaves out; as empty fields are left out when
    a file is written, a file does not become the file whose JSON it reads. A data record
    loses its J1 and J2 segments and keeps K1 to K4, L1 and N1 (C101).
42. A key `Header`, in any case but the lower one, decides the format of the file CreateFile
    makes, but its header is not read (C102, `cased_json`). Null is taken for a number or a
    text that is left out, but is an error for a date (C102_null_date).
43. JSON that is refused is not undone: the header and trailer have what came before the first
    unreadable date, which itself becomes none; values of the wrong kind are passed over and the
    rest is still read; data records before the first faulty one have been added; a data record
    has lost its J1 and J2 segments (C103_refuted, C103_record_refuted). Which members were
    reached depends on the order of the map. `CreateFile` returns such a file beside the error
    (C103_create); for input that is not JSON it returns none (C103_reader).
44. `GetDataRecords` returns the slice of the file itself. An assignment to an element puts an
    unchecked record into the file, even one of the other format (C104_assign_refuted); an
    append can replace a record that was added meanwhile (C104_append_refuted), and
    `AddDataRecord` what the caller has appended (C104_add_refuted).
45. Numbers of JSON files pass through `float64`, as they are decoded into `interface{}` first:
    9007199254740993 is read as ...992 (C105_large_refuted), 7.00000000000000000001 as 7
    (C105_broken_refuted). `CreateFile` reads the descriptor words of the header from the text as
    well, and there 426.000 is refused (C105_words_refuted). Exponents are cut after five digits:
    0.00...01e100001 with a hundred thousand zeros is read as 0, and 100...00e-100000 is refused
    (C105_exponent_refuted).
46. JSON that a `NullableBool`, `NullableInt` or `NullableFloat64` of the client refuses leaves it
    set, and to zero if it was nil (C106_left_refuted, C109_left_refuted).
47. The error of a client call says `400 Bad Request` or `501 Not Implemented`; what the server
    said is in `Body()` only (C107_refuted).
48. Parameters of the client: a `float64` is written with the precision of `float32`, so that
    16777217 becomes `1.6777216e+07`; a list with commas of which the first text is empty is not
    joined; a list in a header loses all but its last element; a nil pointer panics
    (C108_float_refuted, C108_csv_refuted, C108_commas_refuted, C108_header_refuted, C108_nil). The
    calls there are hand over texts and flags only.
49. Bodies of the client, which none of its calls uses yet: text behind a pointer, and what a reader
    yields, is sent as `application/json` (C110_label_refuted); an empty text and a number are
    refused as an invalid type (C110_empty_refuted, C110_number_refuted); a nil `*string` panics
    (C110_panics); `addFile` closes a file before it is read, so that no form with a path can be
    sent (C110_path_refuted).
50. Helpers of the client that nothing calls: `parameterValueToString` writes the address of an
    optional number or text in place of its value (C111_refuted, C111_address), and panics on nil
    (C111_panics); a strict decoder refuses what the server writes where a field is not published
    (C111_strict_server).
51. Objects of the client: the pointer that `GetXOk` returns for a required property follows the
    setter, that for an optional one does not (C112_refuted); a copy of a struct and the map of
    `ToMap` share the memory of optional properties with the object, so that writing through such
    a pointer changes all of them (C112_copy_refuted, C112_map_refuted).
52. `Debug` of the client: if the body of an answer breaks off, `callAPI` returns before the body
    is closed, and the bytes that arrived are lost; without `Debug` it is closed and they are kept
    (C113_refuted, C113_debug_runs). A request that cannot be dumped is not sent
    (C113_dump_refuted).
53. The command line exits with status 0 also when a command fails, since `main` drops what
    `Execute` returns (C114_refuted, C114_status). `convert` truncates its output before writing,
    so that a file that is converted in place is lost if writing fails (C114_lost_refuted); errors
    of `Close` and of standard output are dropped (C114_close_refuted, C114_output_refuted).
54. The command line and the web server give different bytes for the same request: JSON is indented
    with blanks by the one, and compact (print) or indented with tabs (convert) from the other
    (C116_refuted, C116_convert_refuted). If nothing is said of line breaks, the server writes them
    and the command line does not (C116_default_refuted).
