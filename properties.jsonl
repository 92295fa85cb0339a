{"id": "C01", "title": "Applicable segments survive a write/read round trip", "statement": "For every applicable segment (J1, J2, K1, K2, K3, K4, L1, N1) whose values fit the documented field widths and character set, parsing the text produced by String() - whatever bytes follow it - succeeds, reports exactly the documented segment length and yields a segment equal to the original.", "quantifier": "all eight segment kinds, all field values that fit, all trailing bytes, both values of isVariableLength", "why_tests_cant": "Field values range over unbounded products of strings, integers and dates; tests sample a handful of fixtures.", "anchors": ["pkg/lib/j1_segment.go:J1Segment.Parse/String", "pkg/lib/j2_segment.go", "pkg/lib/kn_segment.go", "pkg/lib/l1_segment.go", "pkg/lib/n1_segment.go", "pkg/lib/converters.go:parseRecordValues,toString"]}
{"id": "C02", "title": "Header records survive a write/read round trip", "statement": "For every header (character fixed, character variable-blocked, packed) whose values fit, Parse(String()) succeeds, returns the block (or record) descriptor word as length and reproduces the header.", "quantifier": "all header field values that fit, all descriptor words, all trailing bytes", "why_tests_cant": "Infinite input space; both layouts and the 4-byte shift of the variable layout interact.", "anchors": ["pkg/lib/header_record.go:HeaderRecord.Parse/String,PackedHeaderRecord.Parse/String"]}
{"id": "C03", "title": "Fixed-length character base segments with appended segments survive a round trip", "statement": "A fixed-length character base segment with any number of J1/J2 segments and any subset of K1-K4, L1, N1, all valid and fitting, and a record descriptor word covering them, is read back identically from its own text; Parse returns the record descriptor word.", "quantifier": "all base values, all lists of appended segments, all following bytes that do not look like another segment", "why_tests_cant": "Unbounded lists of appended segments and arbitrary following record.", "anchors": ["pkg/lib/base_segment.go:BaseSegment.Parse/String,readApplicableSegments"]}
{"id": "C04", "title": "Variable-blocked character base segments survive a round trip", "statement": "Same as C03 for variable-blocked character records with block descriptor word = record descriptor word + 4.", "quantifier": "all base values and appended segment lists", "why_tests_cant": "Unbounded lists; offset arithmetic.", "anchors": ["pkg/lib/base_segment.go:BaseSegment.Parse/String"]}
{"id": "C05", "title": "Packed base segments survive a round trip", "statement": "Same as C03 for packed records: binary descriptors, packed numbers and packed dates read back to the same values.", "quantifier": "all packed base values in range and appended segment lists", "why_tests_cant": "Unbounded value ranges of binary packed fields.", "anchors": ["pkg/lib/base_segment.go:PackedBaseSegment.Parse/String"]}
{"id": "C06", "title": "Trailer records survive a write/read round trip", "statement": "For every trailer (character and packed) whose counters fit, Parse(String()) succeeds, returns the record descriptor word and reproduces the trailer.", "quantifier": "all counter values that fit", "why_tests_cant": "45 independent counters.", "anchors": ["pkg/lib/trailer_record.go"]}
{"id": "C07", "title": "Fixed-length character files survive File.String / File.Parse", "statement": "Writing a fixed-length character file (with or without newlines) and parsing it into a new file gives back the same header, data records and trailer.", "quantifier": "all well-formed files with any number of data records, newline on or off", "why_tests_cant": "Unbounded number of records; loop over records until the trailer.", "anchors": ["pkg/file/file_instance.go:Parse,ConcurrentString"]}
{"id": "C08", "title": "Variable-blocked character files survive File.String / File.Parse", "statement": "As C07 for variable-blocked character files.", "quantifier": "all well-formed files", "why_tests_cant": "Unbounded number of records.", "anchors": ["pkg/file/file_instance.go:Parse,ConcurrentString"]}
{"id": "C09", "title": "Packed files survive File.String / File.Parse", "statement": "As C07 for packed files whose rendered bytes contain no CR or LF byte.", "quantifier": "all well-formed packed files", "why_tests_cant": "Unbounded number of records and binary content.", "anchors": ["pkg/file/file_instance.go:Parse,ConcurrentString"]}
{"id": "C10", "title": "Files survive the streaming reader", "statement": "Reading the text of a well-formed file (fixed, variable-blocked or packed) through the streaming Reader returns the same file.", "quantifier": "all well-formed files of the three layouts", "why_tests_cant": "Reader, scanner split function and record parsers interact over unbounded inputs.", "anchors": ["pkg/file/file.go:Reader.Read,NewReader,scanRecord"]}
{"id": "C11", "title": "Every field is written at its documented byte positions", "statement": "In the text of every record and segment, the bytes at each field's documented positions are exactly the encoding of that field, and positions documented as reserved are blank.", "quantifier": "all field values with printable ASCII strings", "why_tests_cant": "Holds for all values; a test checks one sample.", "anchors": ["pkg/lib/specifications.go", "pkg/lib/converters.go:toSpecifications,toString"]}
{"id": "C12", "title": "Exact output lengths", "statement": "String() of a segment has exactly the documented length; String() of a record has exactly max(record size, padded size) bytes with the 4 extra block-descriptor bytes when present.", "quantifier": "all well-typed records whose strings are ASCII and whose dates have 4-digit years", "why_tests_cant": "Quantifies over all values including overflow.", "anchors": ["pkg/lib/base_segment.go:String", "pkg/lib/header_record.go:String", "pkg/lib/trailer_record.go:String"]}
{"id": "C13", "title": "Descriptor words cannot blow up the output", "statement": "Whatever the descriptor words hold (any 64-bit value), the text of a record is at most the size of its fields and segments or 65535 bytes, whichever is larger.", "quantifier": "all integer descriptor words and all field values", "why_tests_cant": "Range of 2^64 descriptor values.", "anchors": ["pkg/lib/record.go:clampedBlockSize"]}
{"id": "C14", "title": "Numeric fields are zero-filled and exact when they fit", "statement": "A non-negative number with at most N digits is written as exactly N digits with that value and read back exactly.", "quantifier": "all widths and all integers", "why_tests_cant": "Unbounded integers.", "anchors": ["pkg/lib/converters.go:toString,parseValue"]}
{"id": "C15", "title": "Alphanumeric fields are left-justified and blank-filled", "statement": "A string is written left-justified, blank-filled and cut to the field width; reading gives it back without its trailing blanks; a character outside the documented set is rejected on reading.", "quantifier": "all widths and byte strings", "why_tests_cant": "All strings.", "anchors": ["pkg/lib/converters.go:toString,parseValue", "pkg/lib/validators.go:isAlphanumeric"]}
{"id": "C16", "title": "Character dates: encode, decode and reject", "statement": "A zero date is zero-filled; any other date with a 4-digit year is written MMDDYYYY (timestamps MMDDYYYYHHMMSS) and read back to the same calendar date; text is accepted exactly when it is all zeros or denotes a real calendar date.", "quantifier": "all dates of years 0-9999 and all texts", "why_tests_cant": "Calendar (leap years) quantification.", "anchors": ["pkg/lib/converters.go:timeFromDateString,timeFromTimestampString,toString"]}
{"id": "C17", "title": "Packed numbers are a lossless big-endian codec", "statement": "Every number 0 <= v < 256^N written to an N-byte packed field is read back as v; every N-byte string is read to a number that is written back as the same bytes.", "quantifier": "all N of the layouts and all values", "why_tests_cant": "2^40 / 2^48 values.", "anchors": ["pkg/lib/converters.go:packedNumberString,packedNumberFromString"]}
{"id": "C18", "title": "Packed dates and timestamps are lossless", "statement": "Every UTC date (timestamp) with a 4-digit year is read back from its packed form to the same date (to the second).", "quantifier": "all dates and timestamps of years 0-9999", "why_tests_cant": "Calendar quantification.", "anchors": ["pkg/lib/converters.go:packedTimeString,timeFromPackedDateString,timeFromPackedTimestampString"]}
{"id": "C19", "title": "Packed zero dates are zero-filled", "statement": "An unavailable (zero) date in a packed record is written zero-filled, as in the character format.", "quantifier": "the zero date in every packed date field", "why_tests_cant": "A statement about output bytes of a special value across all fields.", "anchors": ["pkg/lib/converters.go:packedTimeString"]}
{"id": "C20", "title": "Output does not depend on map iteration order", "statement": "The order in which Go iterates a layout map never changes the text of a record.", "quantifier": "all enumeration orders of each layout", "why_tests_cant": "Go randomises map iteration; a test sees one order per run.", "anchors": ["pkg/lib/converters.go:toSpecifications"]}
{"id": "C21", "title": "Parsing never panics", "statement": "Parse of any record, segment or file, on any bytes and any flag, returns a value or an error, never panics.", "quantifier": "all byte strings, flags and previous record contents", "why_tests_cant": "All inputs; fuzzing only samples.", "anchors": ["pkg/lib/converters.go:parseRecordValues", "pkg/lib/base_segment.go:Parse", "pkg/file/file_instance.go:Parse", "pkg/file/file.go:Reader.Read"]}
{"id": "C22", "title": "Writing never panics", "statement": "String() of any record or file built through the API never panics.", "quantifier": "all values of the fields", "why_tests_cant": "All field values.", "anchors": ["pkg/lib/converters.go:toString"]}
{"id": "C23", "title": "Parsed records are well-formed", "statement": "When Parse succeeds every text field contains only documented characters, has no trailing blank and fits its width, every number fits its width, every date is a real calendar date with 4-digit year in UTC.", "quantifier": "all inputs accepted by Parse", "why_tests_cant": "All inputs.", "anchors": ["pkg/lib/converters.go:parseValue", "pkg/lib/validators.go:isValidType"]}
{"id": "C24", "title": "A failed File.Parse leaves the file unchanged", "statement": "If File.Parse returns an error the file holds what it held before.", "quantifier": "all files and inputs", "why_tests_cant": "Failure can occur at any field of any record.", "anchors": ["pkg/file/file_instance.go:Parse"]}
{"id": "C25", "title": "Parsing loses no information", "statement": "If fixed-length character input is canonical (digits in numeric fields, blanks in reserved areas) then writing the parsed record gives exactly the input bytes.", "quantifier": "all accepted canonical inputs", "why_tests_cant": "All inputs.", "anchors": ["pkg/lib/converters.go"]}
{"id": "C26", "title": "Write/read is a normal form", "statement": "If Parse accepts some bytes, then parsing String() of the result gives the same record again.", "quantifier": "all accepted inputs", "why_tests_cant": "All inputs.", "anchors": ["pkg/lib/converters.go"]}
{"id": "C27", "title": "Character base Validate means exactly the documented rules", "statement": "BaseSegment.Validate returns no error exactly when all required fields are present and each coded field holds a documented value.", "quantifier": "all base segments", "why_tests_cant": "Cartesian product of all coded fields.", "anchors": ["pkg/lib/base_segment.go:Validate*"]}
{"id": "C28", "title": "Packed base Validate means exactly the documented rules", "statement": "PackedBaseSegment.Validate returns no error exactly when the documented rules hold.", "quantifier": "all packed base segments", "why_tests_cant": "Cartesian product.", "anchors": ["pkg/lib/base_segment.go:PackedBaseSegment.Validate*"]}
{"id": "C29", "title": "Segment Validate means exactly the documented rules", "statement": "For each appended segment Validate returns no error exactly when the documented rules hold.", "quantifier": "all segments", "why_tests_cant": "Cartesian product.", "anchors": ["pkg/lib/j1_segment.go", "pkg/lib/j2_segment.go", "pkg/lib/kn_segment.go", "pkg/lib/l1_segment.go", "pkg/lib/n1_segment.go"]}
{"id": "C30", "title": "Header and trailer Validate check exactly presence", "statement": "Header and trailer Validate succeed exactly when every required field is non-zero.", "quantifier": "all headers and trailers", "why_tests_cant": "All values.", "anchors": ["pkg/lib/header_record.go:Validate", "pkg/lib/trailer_record.go:Validate"]}
{"id": "C31", "title": "Generated trailer counters equal the documented counts", "statement": "Each counter of the generated trailer equals the number of data records / appended segments satisfying its documented condition, in both formats.", "quantifier": "all files, any number of records and segments", "why_tests_cant": "Unbounded lists; sums over nested lists.", "anchors": ["pkg/file/file_instance.go:generatorTrailer,generatorPackedTrailer,statistic*"]}
{"id": "C32", "title": "Generating and installing a trailer makes the file valid", "statement": "If header and data records are valid and there is at least one data record, then GeneratorTrailer followed by SetRecord makes Validate succeed, in both formats.", "quantifier": "all files", "why_tests_cant": "Unbounded lists.", "anchors": ["pkg/file/file_instance.go:GeneratorTrailer,SetRecord,Validate"]}
{"id": "C33", "title": "File.Validate means exactly: parts valid and counters right", "statement": "File.Validate succeeds exactly when header, trailer and all data records are valid and every trailer counter equals the documented count.", "quantifier": "all files", "why_tests_cant": "Unbounded lists.", "anchors": ["pkg/file/file_instance.go:Validate"]}
{"id": "C34", "title": "Trailer counters are mutually consistent", "statement": "In a generated trailer the all-segment totals are the sums of the per-segment totals, and when every data record is valid the account status totals add up to the number of data records.", "quantifier": "all files", "why_tests_cant": "Unbounded lists.", "anchors": ["pkg/file/file_instance.go:statisticAccountStatus"]}
{"id": "C35", "title": "No sequence of API calls mixes formats", "statement": "Starting from NewFile, after any sequence of SetRecord, AddDataRecord, SetType, Parse calls all records match the file's format, and GeneratorTrailer / Validate never panic.", "quantifier": "all finite histories of API calls with arbitrary arguments", "why_tests_cant": "All histories.", "anchors": ["pkg/file/file_instance.go:SetRecord,AddDataRecord,SetType,Parse"]}
{"id": "C36", "title": "SetType changes the format only", "statement": "SetType keeps every field value and every appended segment; switching there and back is the identity; an unknown type is rejected and changes nothing.", "quantifier": "all files and all type strings", "why_tests_cant": "All files.", "anchors": ["pkg/file/file_instance.go:SetType"]}
{"id": "C37", "title": "SetType keeps validity", "statement": "A valid file is still valid after SetType.", "quantifier": "all valid files", "why_tests_cant": "All valid files.", "anchors": ["pkg/file/file_instance.go:SetType", "pkg/lib/base_segment.go:ValidatePaymentHistoryProfile"]}
{"id": "C38", "title": "Concurrent serialization equals sequential serialization", "statement": "ConcurrentString gives the same text for every number of goroutines and every interleaving of them.", "quantifier": "all goroutine counts (including <= 0), all schedules, all files", "why_tests_cant": "All interleavings.", "anchors": ["pkg/file/file_instance.go:ConcurrentString"]}
{"id": "C39", "title": "Line breaks are insignificant to File.Parse", "statement": "Inserting CR or LF bytes anywhere in the input does not change the result of File.Parse; String(true) with line breaks removed is String(false) when the records contain none.", "quantifier": "all inputs and insertions", "why_tests_cant": "All insertions.", "anchors": ["pkg/file/file_instance.go:Parse,ConcurrentString"]}
{"id": "C40", "title": "The streaming reader does not depend on how input is chunked", "statement": "The outcome of reading depends only on the bytes, not on how the io.Reader splits them into reads.", "quantifier": "all byte strings and all read schedules", "why_tests_cant": "All chunkings.", "anchors": ["pkg/file/file.go:scanRecord,Reader.Read"]}
{"id": "C41", "title": "Line breaks are insignificant to the streaming reader", "statement": "Inserting CR/LF bytes does not change what the streaming reader returns (while records stay below the scanner limit).", "quantifier": "all inputs and insertions", "why_tests_cant": "All insertions.", "anchors": ["pkg/file/file.go:scanRecord"]}
{"id": "C42", "title": "What the streaming reader accepts", "statement": "A successful read means the input (line breaks removed) is a header record, then exactly the returned data records, then the trailer record, each of the length announced by its first four bytes.", "quantifier": "all inputs", "why_tests_cant": "All inputs.", "anchors": ["pkg/file/file.go:Reader.Read,scanRecord"]}
{"id": "C43", "title": "The streaming reader accounts for the whole input", "statement": "If reading succeeds, no input is left after the trailer.", "quantifier": "all inputs", "why_tests_cant": "All inputs.", "anchors": ["pkg/file/file.go:Reader.Read"]}
{"id": "C44", "title": "File.Parse accounts for the whole input", "statement": "If File.Parse succeeds, header, data records and trailer lengths add up to the size of the input without line breaks.", "quantifier": "all inputs", "why_tests_cant": "All inputs.", "anchors": ["pkg/file/file_instance.go:Parse"]}
{"id": "C45", "title": "File.Parse terminates", "statement": "File.Parse terminates on every input.", "quantifier": "all inputs, flags and formats", "why_tests_cant": "Non-termination cannot be observed by a finite test.", "anchors": ["pkg/file/file_instance.go:Parse", "pkg/lib/base_segment.go:BaseSegment.Parse"]}
{"id": "C46", "title": "File.Parse does not modify the caller's buffer", "statement": "The byte slice passed to File.Parse has the same contents afterwards.", "quantifier": "all inputs", "why_tests_cant": "All inputs.", "anchors": ["pkg/file/file_instance.go:Parse"]}
{"id": "C47", "title": "JSON round trip", "statement": "Unmarshalling the JSON of a file into a new file of the same format gives the same file.", "quantifier": "all files with valid segments and numbers below 2^53", "why_tests_cant": "Unbounded records.", "anchors": ["pkg/file/file_instance.go:UnmarshalJSON", "pkg/lib/base_segment.go:MarshalJSON,UnmarshalJSON"]}
{"id": "C48", "title": "JSON key order is irrelevant", "statement": "Unmarshalling gives the same result for every order of object keys and every Go map iteration order.", "quantifier": "all permutations of keys", "why_tests_cant": "Go randomises map iteration.", "anchors": ["pkg/file/file_instance.go:UnmarshalJSON", "pkg/lib/base_segment.go:UnmarshalJSON"]}
{"id": "C49", "title": "JSON dates round trip", "statement": "A date written to JSON is read back as the same date: zero dates as the empty string, others as RFC3339, in spite of the long list of accepted layouts tried first.", "quantifier": "all dates of years 0-9999 (UTC), to the second", "why_tests_cant": "All dates x ordered layouts.", "anchors": ["pkg/utils/time.go"]}
{"id": "C50", "title": "Raw files are never mistaken for JSON", "statement": "A raw file written by the library is read back as a raw file by NewFileFromReader.", "quantifier": "all files", "why_tests_cant": "All contents.", "anchors": ["pkg/file/file.go:NewFileFromReader"]}
{"id": "C51", "title": "JSON format detection", "statement": "A JSON file is decoded as a character file exactly when its header's record descriptor word is 426 or its block descriptor word is not positive; otherwise as packed.", "quantifier": "all JSON headers", "why_tests_cant": "All headers.", "anchors": ["pkg/file/file.go:NewFileFromReader"]}
{"id": "C52", "title": "HTTP status codes", "statement": "The validator endpoint answers 400 exactly when the body is not readable as a file, 501 exactly when the file is invalid and 200 otherwise; print and convert answer 501 exactly on an unknown format (or failing trailer generation) and 200 otherwise.", "quantifier": "all requests", "why_tests_cant": "All requests.", "anchors": ["pkg/server/server.go"]}
{"id": "C53", "title": "convert with generate=true yields a file whose trailer matches", "statement": "When convert is asked to generate a trailer and header and data records are valid, the converted file validates.", "quantifier": "all requests", "why_tests_cant": "All files.", "anchors": ["pkg/server/server.go:convert"]}
{"id": "C54", "title": "Adding segments", "statement": "AddApplicableSegment rejects an invalid segment without changing the record; otherwise J1/J2 are appended in order and the others replace the previous one; headers and trailers always refuse.", "quantifier": "all records and segments, all histories", "why_tests_cant": "All histories.", "anchors": ["pkg/lib/base_segment.go:AddApplicableSegment,GetSegments"]}
{"id": "C55", "title": "Adding records", "statement": "SetRecord and AddDataRecord reject an invalid record or one of the wrong kind without changing the file; otherwise exactly the addressed part changes.", "quantifier": "all files and records", "why_tests_cant": "All values.", "anchors": ["pkg/file/file_instance.go:SetRecord,AddDataRecord,GetRecord"]}
{"id": "C56", "title": "Telephone validation rejects impossible numbers", "statement": "Validate rejects a telephone number that is negative or has more than ten digits.", "quantifier": "all integers", "why_tests_cant": "All integers.", "anchors": ["pkg/lib/validators.go:isPhoneNumber", "pkg/lib/constants.go:phoneRegex"]}
{"id": "C57", "title": "A valid record stays valid across write/read", "statement": "If a base segment validates and fits, the record read back from its text validates too.", "quantifier": "all valid base segments", "why_tests_cant": "All values.", "anchors": ["pkg/lib/base_segment.go"]}
{"id": "C58", "title": "Variable-blocked character records honour their descriptor words", "statement": "The text of a variable-blocked character base segment is as long as its block descriptor word says.", "quantifier": "all base segments with BDW = RDW + 4", "why_tests_cant": "All descriptor words.", "anchors": ["pkg/lib/base_segment.go:BaseSegment.String"]}
{"id": "C59", "title": "Numbers that do not fit are not silently altered", "statement": "A numeric field never shows a different number than the record holds.", "quantifier": "all integers", "why_tests_cant": "All integers.", "anchors": ["pkg/lib/converters.go:toString"]}
{"id": "C60", "title": "Layout detection", "statement": "The header of every variable-blocked or packed file written by the library is recognised as variable length, that of a fixed file is not; packed headers are recognised as packed and character headers are not.", "quantifier": "all headers with identifier HEADER", "why_tests_cant": "All headers.", "anchors": ["pkg/utils/file.go"]}
{"id": "C61", "title": "Records cannot smuggle line breaks", "statement": "The text of every character record that was parsed or whose strings are documented characters contains no CR or LF, so newline mode is unambiguous.", "quantifier": "all such records", "why_tests_cant": "All values.", "anchors": ["pkg/lib/converters.go", "pkg/file/file_instance.go:ConcurrentString"]}
{"id": "C62", "title": "Appended segments are read in any order and any number", "statement": "Reading appended segments accepts any sequence of valid segments and groups them by kind keeping order; the canonical order is produced on writing.", "quantifier": "all sequences of segments", "why_tests_cant": "All sequences.", "anchors": ["pkg/lib/base_segment.go:readApplicableSegments"]}
{"id": "C63", "title": "File.Parse result does not depend on previous contents", "statement": "Parsing into a reused file gives the same header, data records and trailer as parsing into a new file.", "quantifier": "all files and inputs", "why_tests_cant": "All histories.", "anchors": ["pkg/file/file_instance.go:Parse"]}
{"id": "C64", "title": "CLI convert/print agree with the library", "statement": "The metro output of print and convert is the library's String of the file read from the input.", "quantifier": "all inputs and flags", "why_tests_cant": "All inputs.", "anchors": ["cmd/metro2/main.go"]}
{"id": "C65", "title": "print and convert deliver what was asked for", "statement": "print answers with the text of the file that was sent, and convert with the text of that file with the trailer and type asked for, in the format and with the line breaks asked for.", "quantifier": "all requests, all numbers of processors", "why_tests_cant": "All requests and files.", "anchors": ["pkg/server/server.go:print,convert,outputBufferToWriter,messageToBuf,getFormat,getIsNewline"]}
{"id": "C66", "title": "Every appended segment of a file that was read is valid", "statement": "Whatever NewFileFromReader accepts, raw or JSON, has only appended segments that pass Validate.", "quantifier": "all inputs", "why_tests_cant": "All inputs.", "anchors": ["pkg/file/file.go:NewFileFromReader", "pkg/lib/base_segment.go:readApplicableSegments,unmarshalApplicableSegments"]}
{"id": "C67", "title": "Answers can be sent again", "statement": "What print or convert delivers is read as the same file when it is sent to any endpoint; a file converted with a new trailer passes the validator.", "quantifier": "all requests", "why_tests_cant": "Composition of writer, reader, JSON codec and handlers.", "anchors": ["pkg/server/server.go", "pkg/file/file.go"]}
{"id": "C68", "title": "Answers name their content type", "statement": "Every answer carries the content type its handler sets.", "quantifier": "all requests", "why_tests_cant": "Ordering of header calls is invisible to recorders that keep the header map.", "anchors": ["pkg/server/server.go:outputError,outputSuccess,outputBufferToWriter"]}
{"id": "C69", "title": "Trailers do not depend on order", "statement": "GeneratorTrailer gives the same trailer for every order of the data records and whatever header and trailer the file has; File.Validate accepts every order of the data records or none.", "quantifier": "all files, all permutations of the data records", "why_tests_cant": "Quantifies over all permutations of unboundedly many records.", "anchors": ["pkg/file/file_instance.go:GeneratorTrailer,generatorTrailer,generatorPackedTrailer,Validate"]}
{"id": "C70", "title": "Counters add up over files", "statement": "The counters generated for the data records of two files together are the sums of the counters generated for each.", "quantifier": "all pairs of files of a format", "why_tests_cant": "Quantifies over all record lists; tests compare a few totals.", "anchors": ["pkg/file/file_instance.go:GeneratorTrailer,generatorTrailer,generatorPackedTrailer"]}
{"id": "C71", "title": "Texts determine their contents", "statement": "Two segments, records or files whose values fit never have the same text, with or without line breaks; files do not share a text even when they are of different formats.", "quantifier": "all pairs of segments, records and files whose values fit", "why_tests_cant": "Injectivity over all pairs of values.", "anchors": ["pkg/lib/base_segment.go:String", "pkg/lib/header_record.go:String", "pkg/lib/trailer_record.go:String", "pkg/file/file_instance.go:ConcurrentString"]}
{"id": "C72", "title": "Streaming reader and File.Parse agree", "statement": "On a text that is a header, data records and a trailer, each as long as its descriptor words say and with no filler that looks like a segment together with what follows it, the streaming reader and File.Parse give the same file; conversely a text File.Parse accepts is cut into records of the announced lengths, and the reader gives the same file if it finds those lengths and the format at the start of the records.", "quantifier": "all texts, all read schedules, all formats", "why_tests_cant": "Compares two implementations on all texts; the disagreement needs a filler and a length that happen to spell a segment name.", "anchors": ["pkg/file/file.go:Reader.Read,scanRecord", "pkg/file/file_instance.go:Parse"]}
{"id": "C73", "title": "The client returns what the server makes of the uploaded file", "statement": "Convert, Print and Validator of the client return exactly the text of the converted or printed file (or the verdict) for the file that was uploaded and the options that were set; otherwise they report error 400 exactly when no file was uploaded or could be read, and 501 exactly when the format is unknown, a trailer is wanted without data records, or the file is invalid.", "quantifier": "all calls, files, option values, boundaries, error texts and read schedules", "why_tests_cant": "Client and server are tested separately, with a few option combinations.", "anchors": ["pkg/client/api_metro2_files.go:ConvertExecute,PrintExecute,ValidatorExecute,HealthExecute", "pkg/client/client.go:prepareRequest,decode", "pkg/server/server.go:ConfigureHandlers"]}
{"id": "C74", "title": "Query parameters arrive unchanged", "statement": "What the client writes into the query of a request is read by the server as the same names and values.", "quantifier": "all lists of names and values, all bytes", "why_tests_cant": "Percent encoding, the client's own treatment of brackets and the server's decoding have to agree on every byte.", "anchors": ["pkg/client/client.go:prepareRequest"]}
{"id": "C75", "title": "What the client returns can be uploaded again", "statement": "A file that convert or print returns, uploaded again, is read as the file that was written.", "quantifier": "all calls whose file comes back", "why_tests_cant": "Composition of client, server, writer and readers.", "anchors": ["pkg/client/api_metro2_files.go:ConvertExecute,PrintExecute"]}
{"id": "C76", "title": "JSON that leaves fields out", "statement": "A JSON object is read as the file it describes: every field has the value under its key (in any letter case, with dates as days in one of three notations, or as RFC 3339 date-times with or without parts of a second and zone) or, if the key is missing or null, the identifier of its record or nothing; segments and records are present exactly when their keys are; keys that name nothing are ignored; of several members with one key the last counts; the order of keys does not matter otherwise.", "quantifier": "all JSON objects with plain keys, all subsets of keys, all white space", "why_tests_cant": "Exponentially many subsets of keys in some 250 fields; the tests read three complete files.", "anchors": ["pkg/file/file_instance.go:UnmarshalJSON", "pkg/lib/base_segment.go:UnmarshalJSON,unmarshalApplicableSegments", "pkg/utils/time.go", "pkg/file/file.go:NewFileFromReader"]}
{"id": "C77", "title": "Published JSON is read", "statement": "A JSON file with the published properties (api/openapi.yaml: all required ones, values of the published types and codes, no others) is read as the file it describes, and every published property has its field.", "quantifier": "all JSON files that conform to the published schema, all map orders", "why_tests_cant": "The schema is not used by any test; conformity of some 250 properties has to be compared with reflection tags.", "anchors": ["api/openapi.yaml", "pkg/file/file_instance.go:UnmarshalJSON", "pkg/lib/base_segment.go:UnmarshalJSON"]}
{"id": "C78", "title": "Written JSON has the published properties", "statement": "The JSON written for a file has the required properties of the published schema, values of the published types and codes, and no other properties.", "quantifier": "all files, all objects of all record and segment types", "why_tests_cant": "Which keys omitempty drops depends on the values of some 250 fields.", "anchors": ["api/openapi.yaml", "pkg/file/file_instance.go:MarshalJSON", "pkg/lib/base_segment.go:MarshalJSON"]}
{"id": "C79", "title": "Published answers", "statement": "An operation asked with published values answers with a published status.", "quantifier": "all requests, files and options", "why_tests_cant": "The documented option values are not the tested ones.", "anchors": ["api/openapi.yaml", "pkg/server/server.go"]}
{"id": "C80", "title": "Dates in numbers", "statement": "A date in a JSON text that is written in numbers (one or two digits for month and day, four for the year, dashes, slashes or dots) is read by one rule for its notation: month and day have their places whatever the numbers are, and what is no day of the calendar is refused.", "quantifier": "all numbers, paddings, separators and orders", "why_tests_cant": "150 layouts are tried one after the other; which of them wins depends on the numbers.", "anchors": ["pkg/utils/time.go:UnmarshalJSON,parseDate,dateFormats"]}
{"id": "C81", "title": "Files written by the client are read by the library", "statement": "A file built with the types of the client and written as JSON is read by the library as the file it stands for: every field has the value of the property of its name, or nothing if the property is nil, except for the two published properties the library does not know; it is refused exactly when a segment is not valid. The types have a member of the published type for every published property.", "quantifier": "all files of the client with any subset of optional properties, any number of records and segments, both formats, all map orders", "why_tests_cant": "Some 250 properties, each optional one present or nil; the generated types are not used by any test.", "anchors": ["pkg/client/model_file.go:MarshalJSON,ToMap", "pkg/client/model_data_record.go:ToMap", "pkg/client/model_base_segment.go:ToMap", "pkg/client/model_header_record.go:ToMap", "pkg/client/model_trailer_record.go:ToMap", "pkg/file/file_instance.go:UnmarshalJSON", "pkg/lib/base_segment.go:UnmarshalJSON"]}
{"id": "C82", "title": "Files written by the library are read by the client", "statement": "The JSON the library writes for a valid file is read by the types of the client with the values of all published fields, and a file that holds nothing else comes back from the client as it was.", "quantifier": "all valid files, nil or empty list of data records", "why_tests_cant": "Depends on the values of some 250 fields; sizes of integers and missing dates differ between the two sides.", "anchors": ["pkg/client/model_file.go", "pkg/client/model_data_record.go", "pkg/client/model_base_segment.go", "pkg/file/file_instance.go:MarshalJSON", "pkg/lib/base_segment.go:MarshalJSON", "pkg/utils/time.go:MarshalJSON"]}
{"id": "C83", "title": "What the client writes it reads back", "statement": "Decoding the JSON of an object, a record or a file of the client gives the same object, with the same properties nil.", "quantifier": "all objects, records and files of the client with texts in UTF-8, years of four digits and integers up to 2^53", "why_tests_cant": "All subsets of nil properties; dates with parts of a second and zones.", "anchors": ["pkg/client/model_file.go:MarshalJSON,ToMap", "pkg/client/model_data_record.go:MarshalJSON,ToMap", "pkg/client/model_base_segment.go:MarshalJSON,ToMap"]}
{"id": "C84", "title": "Error texts tell errors apart", "statement": "The name of a field in the text of an error has the letters of its Go name, in small letters, with underscores between its words; two errors about records of the library with the same text are the same complaint about the same field of the same record. Every error of Validate has such a text and the validator answers 501 with it.", "quantifier": "all field names, all errors of the library, all files and requests", "why_tests_cant": "All strings through two regular expressions; all pairs of errors.", "anchors": ["pkg/utils/errors.go", "pkg/server/server.go:validateFile"]}
{"id": "C85", "title": "The errors of Validate are true", "statement": "An error of Validate names the first field, in the order of the record, that is missing or breaks its documented rule, says which of the two it is, and names the record the field is in; the error of a file is that of its first invalid record in the order header, trailer, data, or names a trailer counter that is wrong.", "quantifier": "all segments, records and files", "why_tests_cant": "All combinations of faulty fields; unbounded lists of records.", "anchors": ["pkg/lib/validators.go:validateRecord", "pkg/lib/base_segment.go:Validate*", "pkg/lib/j1_segment.go:Validate*", "pkg/lib/j2_segment.go:Validate*", "pkg/file/file_instance.go:Validate"]}
{"id": "C86", "title": "One reader reads several files", "statement": "Read called again and again on one Reader returns the files of a stream one after another, whatever their layouts, and then reports that there is no header.", "quantifier": "all sequences of written files, all line breaks between them, all read schedules", "why_tests_cant": "Unbounded sequences; state kept between calls.", "anchors": ["pkg/file/file.go:Reader.Read,NewReader", "pkg/file/file_instance.go:SetType"]}
{"id": "C87", "title": "A returned file is left alone", "statement": "A file returned by Read is not changed by later Reads of the same Reader.", "quantifier": "all streams", "why_tests_cant": "State shared through a pointer.", "anchors": ["pkg/file/file.go:Reader.Read"]}
{"id": "C88", "title": "Reading is exact", "statement": "Parse of a record or segment succeeds on a text cut into its fields exactly when the text of every field stands for a value of the kind of the field; then each field holds just this value and nothing else has changed. Base segments are read with the segments that follow, up to the first that is absent, too short, unreadable or invalid; the result is the size the record gives itself, and an error if more was read. A text has one reading.", "quantifier": "all byte texts, all prior contents, all records and segments in both formats", "why_tests_cant": "All texts of 426 bytes, valid or not; the tests parse a few dozen.", "anchors": ["pkg/lib/converters.go:parseRecordValues,parseValue", "pkg/lib/validators.go:isValidType", "pkg/lib/base_segment.go:Parse,readApplicableSegments", "pkg/lib/header_record.go:Parse", "pkg/lib/trailer_record.go:Parse"]}
{"id": "C89", "title": "The errors of Parse are true", "statement": "When Parse fails because of the text of a field, the error names the first field, in the order of the record, whose text stands for nothing, and its record, and says what is wrong with it; the fields before it hold their values and the others have not changed. Texts that are too short, and packed records without block descriptor word, change nothing and are refused as such.", "quantifier": "all byte texts, all prior contents, all records and segments in both formats", "why_tests_cant": "All combinations of wrong texts in some 250 fields.", "anchors": ["pkg/lib/converters.go:parseRecordValues,parseValue", "pkg/lib/validators.go:isValidType", "pkg/utils/errors.go"]}
{"id": "C90", "title": "Calls change what they are made on", "statement": "A call changes no record but the one it is made on, whoever else holds pointers to records, and no segment; constructors and GeneratorTrailer return new records.", "quantifier": "all programs that use files, records and segments through pointers, all ways append leaves room in new arrays", "why_tests_cant": "Depends on what pointers and arrays are shared after any sequence of calls.", "anchors": ["pkg/lib/base_segment.go:AddApplicableSegment", "pkg/file/file_instance.go:SetRecord,AddDataRecord,SetType,Parse,GeneratorTrailer"]}
{"id": "C91", "title": "Files may be thought of as values", "statement": "In a program that gives each record to one file once, and leaves a record alone when SetType has put a copy in its place, every call does to its file what it does to a file that is a value, and nothing to the other files; if nothing is written into records a file has, the files are those of C35.", "quantifier": "all such programs, any number of files, records and segments", "why_tests_cant": "Simulation over all sequences of calls.", "anchors": ["pkg/lib/base_segment.go:AddApplicableSegment", "pkg/file/file_instance.go:SetRecord,AddDataRecord,SetType,Parse,GeneratorTrailer", "pkg/file/file.go:NewFile"]}
{"id": "C92", "title": "Lookups", "statement": "GetSegments returns exactly the segments of a record that have the given name, in order, and none for other names; Length and BlockSize are the descriptor words of the record and agree with what Parse returned; a record that SetRecord accepted is what GetRecord returns under its name.", "quantifier": "all records, names, texts and files", "why_tests_cant": "All names and all texts.", "anchors": ["pkg/lib/base_segment.go:GetSegments,Length,BlockSize", "pkg/lib/header_record.go:Length,BlockSize,GetSegments", "pkg/lib/trailer_record.go:Length,BlockSize,GetSegments", "pkg/file/file_instance.go:GetRecord,SetRecord"]}
{"id": "C93", "title": "Listed date formats", "statement": "A date in a JSON text that is written in one of the formats listed in the code is read as the time it stands for, whatever white space surrounds it and whatever day of the week it names.", "quantifier": "all 170 formats, all times, all ways of writing them in the format, all zones of the host", "why_tests_cant": "170 formats are tried one after the other, so an earlier one may take the text of a later one; which one wins depends on the values.", "anchors": ["pkg/utils/time.go:52-223", "pkg/utils/time.go:225-240", "pkg/utils/time.go:15-24"]}
{"id": "C94", "title": "JSON texts", "statement": "JSON input is read by the grammar of RFC 8259: every legal spelling of a value - escapes, surrogate pairs, numbers of any form, white space between tokens - is read as that value, whatever is accepted begins with a text of the grammar, and an object is read from exactly the inputs that begin with the text of an object; a file comes only from such a text.", "quantifier": "all values, spellings and byte sequences", "why_tests_cant": "Spellings of a value are infinitely many, and so are the texts that must be refused.", "anchors": ["pkg/file/file.go:104-134", "pkg/file/file_instance.go:343-403"]}
{"id": "C95", "title": "Client objects", "statement": "An object, data record or file of the generated client that was made by its constructor and any calls of setters returns from its getters the value last set, else the argument, else nothing; its JSON has the keys of exactly those properties; the constructor asks for the required properties of the schema; a Nullable value is returned until it is unset and survives JSON.", "quantifier": "all types of the client, arguments, sequences of calls", "why_tests_cant": "Some 600 generated methods; all sequences of calls.", "anchors": ["pkg/client/model_*.go", "pkg/client/utils.go:43-343"]}
{"id": "C96", "title": "The client sends what was set", "statement": "A call of the client sends the method and path of its operation, the format of the query exactly if it was set, and a form with exactly the fields that were set and the file; a file without name or text is left out.", "quantifier": "all calls, all values, all boundaries", "why_tests_cant": "The client has no tests; what is sent depends on the content type that is selected.", "anchors": ["pkg/client/api_metro2_files.go:ConvertExecute,PrintExecute,ValidatorExecute,HealthExecute", "pkg/client/client.go:prepareRequest,selectHeaderContentType,parameterAddToHeaderOrQuery"]}
{"id": "C97", "title": "Server address", "statement": "The address a call of the client goes to is that of the server chosen by the context - the index for the operation, else the one for all, else the first - in which every variable stands for the value given in the context, else for its default; there is an error exactly if there is no such server or a value is not among those listed; the order in which variables are visited does not matter.", "quantifier": "all configurations, contexts, templates and orders of visiting", "why_tests_cant": "Go visits maps in random order, and the configuration can be replaced by any other.", "anchors": ["pkg/client/configuration.go:URL,ServerURL,ServerURLWithContext,getServerIndex,getServerOperationIndex,getServerVariables,getServerOperationVariables,NewConfiguration"]}
{"id": "C98", "title": "Expiry of answers", "statement": "CacheExpires gives the date of the answer plus the seconds of max-age; without max-age the date of Expires; without either, or if they cannot be read, an answer that has expired.", "quantifier": "all headers, dates and numbers of seconds", "why_tests_cant": "The function goes through three headers, each free text.", "anchors": ["pkg/client/client.go:parseCacheControl,CacheExpires"]}
{"id": "C99", "title": "Headers of the client", "statement": "A request of the client carries one value each for Content-Type, Accept and User-Agent, a form also the length of its body as Content-Length; besides these it carries exactly the default headers of the configuration; host and scheme of the configuration replace those of the address.", "quantifier": "all configurations, boundaries, calls and default headers", "why_tests_cant": "Names of headers are free text and are made canonical before they are compared; the boundary of a form is random.", "anchors": ["pkg/client/client.go:prepareRequest,selectHeaderAccept", "pkg/client/configuration.go:NewConfiguration,AddDefaultHeader", "pkg/client/api_metro2_files.go"]}
{"id": "C100", "title": "Forms of the client", "statement": "The body of a form has one part for each field that was set and for the file, in this order, with name and value as they are; it can be read in one way only; the name sent with a file is the last element of its path.", "quantifier": "all fields, values, files, paths and boundaries", "why_tests_cant": "Values and files are arbitrary bytes, the boundary is random.", "anchors": ["pkg/client/client.go:306-341", "pkg/client/api_metro2_files.go"]}
{"id": "C101", "title": "JSON read into a file that holds something", "statement": "What is read from JSON does not depend on what the file, or the data record, held before.", "quantifier": "all files and data records, all JSON objects that describe one, all orders of keys", "why_tests_cant": "The tests read JSON into new files and records only.", "anchors": ["pkg/file/file_instance.go:343-403", "pkg/lib/base_segment.go:749-808", "pkg/lib/base_segment.go:1266-1325"]}
{"id": "C102", "title": "The JSON that is accepted", "statement": "A JSON value is accepted exactly if it says a file - objects or null for header, trailer, data records, base and segments, an array or null for data, J1 and J2, whole numbers, texts and readable dates under the keys of fields, and segments that are valid - and the file that results has the values given and, elsewhere, what it had before; all other JSON is refused with an error. The same holds for data records and for the texts CreateFile and NewFileFromReader are given.", "quantifier": "all JSON values with whole numbers up to 2^53, proper text and ASCII keys that differ in more than case; all files with a header and a trailer; all data records; all spellings, orders of maps and time zones", "why_tests_cant": "Both directions over all JSON values: tests show some values accepted and some refused, not that nothing else is.", "anchors": ["pkg/file/file_instance.go:343-403", "pkg/file/file.go:72-141", "pkg/lib/base_segment.go:749-808", "pkg/lib/base_segment.go:1266-1325"]}
{"id": "C103", "title": "What refused JSON leaves", "statement": "JSON that is refused leaves the file or data record it was read into as it was.", "quantifier": "all JSON values with whole numbers up to 2^53, proper text and ASCII keys that differ in more than case; all files with a header and a trailer; all data records; all orders of maps and time zones", "why_tests_cant": "The state after an error is rarely looked at by tests, and depends on the order in which Go visits maps.", "anchors": ["pkg/file/file_instance.go:343-403", "pkg/lib/base_segment.go:749-808", "pkg/lib/base_segment.go:1266-1325", "pkg/utils/time.go:15-24", "pkg/file/file.go:104-134"]}
{"id": "C104", "title": "Lists of data records", "statement": "The list of data records a file returns is a value of its own: nothing that is done to the list changes the file, and nothing that is done to the file changes the list.", "quantifier": "all programs made of the calls of pkg/file and pkg/lib, appends, assignments and clones, whatever room append leaves in new arrays", "why_tests_cant": "Whether two slices share an array depends on how append has grown it, so on the number of records and on the runtime; tests see a few numbers.", "anchors": ["pkg/file/file_instance.go:87-89", "pkg/file/file_instance.go:57-72", "pkg/file/file_instance.go:202-255", "pkg/file/file_instance.go:411-488"]}
{"id": "C105", "title": "Numbers of JSON", "statement": "The numbers of a JSON file may be spelled in any way JSON knows, with fractions and exponents, and are read as what they amount to or refused.", "quantifier": "all JSON files and data records, all spellings of whole numbers up to 2^53, all decimal numbers", "why_tests_cant": "Numbers pass through float64 and back to text before they are read as integers; which decimals change on the way depends on 2^53 bit patterns and on the digits chosen to print them, of which tests try a few.", "anchors": ["pkg/file/file_instance.go:343-403", "pkg/lib/base_segment.go:748-804", "pkg/file/file.go:104-134"]}
{"id": "C106", "title": "Flags and numbers of the client", "statement": "A NullableBool, NullableInt or NullableFloat64 of the generated client that is written as JSON and read back is the same, nil and the sign of zero included; JSON is taken exactly if it is null or says such a value, a float64 being the nearest to the number; JSON that is refused leaves the Nullable as it was.", "quantifier": "all values of bool, int and float64, all JSON values, all earlier contents", "why_tests_cant": "There are 2^64 numbers of either type, and what is printed for a float64 must be the shortest text that reads as the same bits; what a refused literal leaves depends on what was held before.", "anchors": ["pkg/client/utils.go:43-113", "pkg/client/utils.go:223-257"]}
{"id": "C107", "title": "Errors of the client", "statement": "The error of a call of the client tells what is wrong: its text names the status and the message of the server, its body and its model are the answer. A call for which the configuration gives no address is not sent, and its error names the index and the largest one there is, or the variable, its value and the values allowed, or the type that was found in the context.", "quantifier": "all calls, servers, answers and status lines; all configurations and contexts", "why_tests_cant": "Each error has to be right for all calls and answers; tests of the client look at the status only.", "anchors": ["pkg/client/client.go:619-659", "pkg/client/api_metro2_files.go", "pkg/client/configuration.go:108-214"]}
{"id": "C108", "title": "Parameters of the client", "statement": "A parameter goes into the query, the form or the headers of a request as the values of which it consists: texts, flags, whole numbers, numbers with a point and times as their text, a list as one value for each element in order, or as one value with commas between them, each member of a map or an object under its name in brackets behind the key. Other keys are left as they were, and different lists are told apart.", "quantifier": "all values with any nesting, all keys, all requests built so far", "why_tests_cant": "Nesting, lists and numbers are unbounded; the tests of the project pass single texts and flags only.", "anchors": ["pkg/client/client.go:142-227"]}
{"id": "C109", "title": "Narrow numbers of the client", "statement": "A NullableInt32, NullableInt64 or NullableFloat32 of the generated client that is written as JSON and read back is the same, nil and the sign of zero included; JSON is taken exactly if it is null or says such a value, a float32 being the nearest to the number; the text of a float32 has as few digits as can be read as the same number, and an exponent exactly under the float32 nearest to 1e-6 and from that nearest to 1e21 on; infinities and NaN are refused; JSON that is refused leaves the Nullable as it was.", "quantifier": "all values of int32, int64 and float32, all JSON values, all earlier contents", "why_tests_cant": "Numbers that fit float64 but not float32, halfway cases of 2^32 numbers and the fewest digits of each are not enumerated by tests; what a refused literal leaves depends on what was held before.", "anchors": ["pkg/client/utils.go:115-221"]}
{"id": "C110", "title": "Bodies of client requests", "statement": "A request of the generated client carries the body it is given: texts and bytes as they are, other values as JSON or XML as their type asks, forms with a part or an encoded pair for every value and every file, under the Content-Type asked for or one that fits the bytes; a body and a form together are refused, and nothing else is.", "quantifier": "all values by kind, all content types, all forms with any number of values per key, all files, all boundaries", "why_tests_cant": "Values of every dynamic type meet every content type, and content types are told by regular expressions that ignore case.", "anchors": ["pkg/client/client.go:36-41", "pkg/client/client.go:285-351", "pkg/client/client.go:476-493", "pkg/client/client.go:508-563"]}
{"id": "C111", "title": "Helpers for parameters of the client", "statement": "The text of a property of an object of the generated client is the text of its value: whole numbers in decimals, texts as they are, times as time.Time writes them; a parameter of a type other than the expected one is reported with both types; the JSON of a parameter is that of its value, or there is an error; strict reading takes exactly the objects, data records and files of which every member names a property, those the client writes among them.", "quantifier": "all objects of the eleven types, all data records and files, all properties and names, all parameters, all JSON with ASCII keys", "why_tests_cant": "Nothing in the project calls these helpers, so no test reaches them; whether a field is a pointer differs from property to property.", "anchors": ["pkg/client/client.go:113-140", "pkg/client/client.go:229-236", "pkg/client/client.go:501-505"]}
{"id": "C112", "title": "Pointers to properties of client objects", "statement": "A pointer that a getter of an object of the generated client returned goes on standing for the property: it reads what the getter shows, also after calls of the setter, and what is written through it becomes the value of this property and of nothing else; copies of the object and maps made by ToMap keep what they had.", "quantifier": "all programs of constructors, copies, setters, getters, maps and reading and writing through pointers, all eleven types and all properties", "why_tests_cant": "Sharing of memory shows only in programs that keep pointers while they change objects; no test does.", "anchors": ["pkg/client/model_k3_segment.go:32-187", "pkg/client/model_base_segment.go:74-1529", "pkg/client/model_header_record.go:22-647"]}
{"id": "C113", "title": "Calls of the client over any network", "statement": "A call of the generated client ends with the error of the network if there is one, with an error if the body of the answer breaks off, and otherwise as the status and the body say; the body of every answer is closed and handed to the caller with the bytes that arrived. Debug adds the request and the answer to the log and changes nothing else.", "quantifier": "all behaviours of the HTTP client and of the dumps, all answers with bodies that break off anywhere, all sequences of calls", "why_tests_cant": "Tests do not break off answers or count open bodies, least of all with Debug.", "anchors": ["pkg/client/client.go:239-261", "pkg/client/api_metro2_files.go:161-216", "pkg/client/api_metro2_files.go:282-316", "pkg/client/api_metro2_files.go:425-469", "pkg/client/api_metro2_files.go:558-613"]}
{"id": "C114", "title": "Commands and files", "statement": "A command of the command line that can do its work writes all of its output, convert to the file named and the others to standard output, reports no error and exits with status 0, also if the output of convert is its input; otherwise it reports an error, exits with another status and leaves all files as they were. No file changes but the output of convert.", "quantifier": "all contents of the disk, all commands, flags and arguments, all hosts: files that cannot be opened or created, writing that stops short anywhere, Close that fails", "why_tests_cant": "Tests run the commands on disks with room and files that can be created, and do not look at exit statuses.", "anchors": ["cmd/metro2/main.go:26-48", "cmd/metro2/main.go:57-85", "cmd/metro2/main.go:87-248", "cmd/metro2/main.go:273-277"]}
{"id": "C115", "title": "Conversions in a row", "statement": "Any number of runs of the convert command, each of what the one before has written, in any formats and to any files, also in place, leave the Metro 2 file that was there at first if it can be written and read in these formats and no call on files fails; none reports an error, the validator says the same of the first and of the last, no other file changes; and what one run has written with a new trailer or as another type is read as the converted file.", "quantifier": "all lengths of the chain, all formats and paths, all disks, all files that can be read back from the formats used", "why_tests_cant": "Tests run one conversion at a time; chains are unbounded and paths may repeat.", "anchors": ["cmd/metro2/main.go:26-48", "cmd/metro2/main.go:87-113", "cmd/metro2/main.go:169-248"]}
{"id": "C116", "title": "Command line and web server agree", "statement": "Given the same input, format, line breaks, trailer and type, the command line and the web server do the same: the validators accept the same inputs; print and convert both fail or both succeed, and then with the same output, also when the options are left out.", "quantifier": "all inputs and ways to read them, all requests and flags that ask for the same, any number of processors on either side", "why_tests_cant": "Tests exercise the command line and the server separately, on a few files, and compare neither.", "anchors": ["cmd/metro2/main.go:87-248", "cmd/metro2/main.go:250-263", "pkg/server/server.go:18-237"]}
