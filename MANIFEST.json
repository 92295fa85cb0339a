{
 "claims": [
  {
   "property": "C01",
   "status": "proved",
   "theorems": [
    "C01_segment_round_trip"
   ],
   "note": ""
  },
  {
   "property": "C02",
   "status": "proved",
   "theorems": [
    "C02_header_fixed",
    "C02_header_variable",
    "C02_header_packed"
   ],
   "note": ""
  },
  {
   "property": "C03",
   "status": "proved",
   "theorems": [
    "C03_base_fixed"
   ],
   "note": ""
  },
  {
   "property": "C04",
   "status": "proved",
   "theorems": [
    "C04_base_variable"
   ],
   "note": ""
  },
  {
   "property": "C05",
   "status": "proved",
   "theorems": [
    "C05_base_packed"
   ],
   "note": ""
  },
  {
   "property": "C06",
   "status": "proved",
   "theorems": [
    "C06_trailer_round_trip"
   ],
   "note": ""
  },
  {
   "property": "C07",
   "status": "proved",
   "theorems": [
    "C07_fixed"
   ],
   "note": ""
  },
  {
   "property": "C08",
   "status": "proved",
   "theorems": [
    "C08_variable"
   ],
   "note": "the block descriptor word is the length String produces, which is not the record descriptor word plus four for padded records (C58)"
  },
  {
   "property": "C09",
   "status": "proved",
   "theorems": [
    "C09_packed"
   ],
   "note": "for files whose packed bytes contain no CR or LF; with such bytes Parse drops them"
  },
  {
   "property": "C10",
   "status": "proved",
   "theorems": [
    "C10_stream"
   ],
   "note": "all three layouts, with and without line breaks, for every delivery of the bytes without 100 empty reads in a row"
  },
  {
   "property": "C100",
   "status": "partial",
   "theorems": [
    "C100_says_partial",
    "C100_says_refuted",
    "C100_unique",
    "C100_name"
   ],
   "note": "False of the code for values that contain the boundary in a line of its own: the body then stands for another form (C100_says_refuted); mime/multipart draws the boundary at random and does not compare it with the values. Proved for all others. The escaping of names is arbitrary, without line breaks."
  },
  {
   "property": "C101",
   "status": "partial",
   "theorems": [
    "C101_file_partial",
    "C101_record_partial",
    "C101_refuted",
    "C101_own_refuted",
    "C101_record_refuted",
    "C101_twice",
    "C101_record_twice",
    "C101_whole"
   ],
   "note": "False of the code: data records are added to those that are there (C101_refuted, C101_twice), fields the JSON leaves out are kept (C101_own_refuted), and so are the K, L and N segments of a data record (C101_record_refuted). What becomes of a file and of a record is stated exactly for JSON that describes its parts (C101_file_partial, C101_record_partial); the claim holds for files without data records and JSON that gives every field of header and trailer (C101_whole)."
  },
  {
   "property": "C102",
   "status": "proved",
   "theorems": [
    "C102_file",
    "C102_record",
    "C102_create",
    "C102_reader",
    "C102_once",
    "C102_refused",
    "C102_record_refused",
    "C102_text_refused",
    "C102_header_shape",
    "C102_null_date",
    "C102_record_shape",
    "C102_segment"
   ],
   "note": "Both directions; numbers that are not whole or exceed 2^53, keys beyond ASCII and keys that differ in case only are outside the statement (C94, C76_last)."
  },
  {
   "property": "C103",
   "status": "partial",
   "theorems": [
    "C103_refuted",
    "C103_record_refuted",
    "C103_agrees",
    "C103_record_agrees",
    "C103_reader_agrees",
    "C103_file_partial",
    "C103_once",
    "C103_record_partial",
    "C103_nothing",
    "C103_record_nothing",
    "C103_header",
    "C103_create",
    "C103_reader"
   ],
   "note": "False of the code (C103_refuted, C103_record_refuted): nothing is undone. What is left is stated instead, in full for headers and trailers that are reached (C103_file_partial, C103_once), and up to the order of maps for the rest; JSON that is no object changes nothing (C103_nothing). CreateFile returns the file beside the error (C103_create)."
  },
  {
   "property": "C104",
   "status": "partial",
   "theorems": [
    "C104_assign_refuted",
    "C104_append_refuted",
    "C104_add_refuted",
    "C104_own_partial",
    "C104_own_runs",
    "C104_reading",
    "C104_calls",
    "C104_lists",
    "C104_add",
    "C104_append",
    "C104_assign"
   ],
   "note": "False of the code: GetDataRecords returns the slice of the file itself (C104_assign_refuted, C104_append_refuted, C104_add_refuted). Proved: files and lists are values in all programs that append and assign only to lists they have cloned (C104_own_partial, C104_own_runs), a list that is only read never changes (C104_reading); and for all programs how far each statement reaches (C104_calls, C104_lists, C104_add, C104_append, C104_assign)."
  },
  {
   "property": "C105",
   "status": "partial",
   "theorems": [
    "C105_words_refuted",
    "C105_broken_refuted",
    "C105_large_refuted",
    "C105_whole",
    "C105_near",
    "C105_reads",
    "C105_zero",
    "C105_nearest",
    "C105_range",
    "C105_written",
    "C105_short",
    "C105_notation",
    "C105_among",
    "C105_exponent_range_partial",
    "C105_exponent_partial",
    "C105_exponent_refuted",
    "C105_file_partial",
    "C105_record_partial",
    "C105_file_same",
    "C105_record_same",
    "C105_create_partial",
    "C105_reader_partial",
    "C105_accepted"
   ],
   "note": "False of the code: CreateFile refuses descriptor words of the header with a fraction or an exponent (C105_words_refuted), numbers that are nearly whole are read as whole (C105_broken_refuted, exactly those whose nearest binary64 number is whole: C105_reads, C105_zero, C105_near), whole numbers above 2^53 are changed (C105_large_refuted). Proved for whole numbers up to 2^53 (C105_whole, C105_file_partial, C105_record_partial), outside of the header also for CreateFile and NewFileFromReader (C105_create_partial, C105_reader_partial); what CreateFile accepts is read rightly in any case (C105_accepted). What ParseFloat and FormatFloat do is transcribed, in GoFloat.v; that the float64 read is the nearest one of IEEE 754, which numbers are out of range, that the text written is read as the same float64 and that no shorter one is are proved of it (C105_nearest, C105_range, C105_written, C105_short). Exponents of 100000 and more are cut by ParseFloat, so that numbers with very many digits are read wrongly (C105_exponent_refuted); with up to 9000 digits they are read rightly (C105_exponent_partial, C105_exponent_range_partial)."
  },
  {
   "property": "C106",
   "status": "partial",
   "theorems": [
    "C106_flag",
    "C106_whole",
    "C106_float",
    "C106_float_text",
    "C106_infinite",
    "C106_takes_flag",
    "C106_takes_whole",
    "C106_takes_float",
    "C106_exponent_partial",
    "C106_left_refuted",
    "C106_left_partial",
    "C106_unset_refuted"
   ],
   "note": "false of the code for refused JSON, which leaves nil as a set zero, and for what was not set, which JSON turns into a set nil; the rest is proved; numbers with an exponent of 100000 or more and more than 9000 digits are read wrongly (C105_exponent_refuted), with fewer digits they are proved to be read rightly"
  },
  {
   "property": "C107",
   "status": "partial",
   "theorems": [
    "C107_convert_partial",
    "C107_validator_partial",
    "C107_print_partial",
    "C107_answer_partial",
    "C107_same",
    "C107_refuted",
    "C107_title",
    "C107_detail",
    "C107_no_title",
    "C107_unsent",
    "C107_context",
    "C107_no_context"
   ],
   "note": "false of the code for the message of the server, which is in Body and Model but not in the text of the error (C107_refuted); the rest is proved. The texts of the transport and the names of types are arbitrary."
  },
  {
   "property": "C108",
   "status": "partial",
   "theorems": [
    "C108_partial",
    "C108_csv_refuted",
    "C108_commas_refuted",
    "C108_header_refuted",
    "C108_pieces",
    "C108_texts",
    "C108_nil",
    "C108_float_refuted",
    "C108_calls_text",
    "C108_calls_bool"
   ],
   "note": "false of the code for float64, which is written with the precision of float32 (C108_float_refuted), for lists with commas that begin with an empty text (C108_csv_refuted) or have commas in their texts (C108_commas_refuted), for lists in headers, of which the last element is left (C108_header_refuted), and for nil pointers, which panic, and nothing else does (C108_nil). What is put is proved for all other values (C108_partial, C108_pieces, C108_texts); the text of a float64 amounts to a number with the same nearest number of binary32 and has as few digits as there are. Maps are visited in any order."
  },
  {
   "property": "C109",
   "status": "partial",
   "theorems": [
    "C109_whole32",
    "C109_whole64",
    "C109_single",
    "C109_text",
    "C109_short",
    "C109_notation",
    "C109_infinite",
    "C109_takes_whole32",
    "C109_takes_whole64",
    "C109_takes_single",
    "C109_exponent_partial",
    "C109_left_refuted",
    "C109_left_partial",
    "C109_unset_refuted"
   ],
   "note": "false of the code for refused JSON, which leaves nil as a set zero, and for what was not set, which JSON turns into a set nil; the rest is proved; numbers with an exponent of 100000 or more and more than 9000 digits are read wrongly (C105_exponent_refuted), with fewer digits they are proved to be read rightly"
  },
  {
   "property": "C11",
   "status": "proved",
   "theorems": [
    "C11_segment",
    "C11_header",
    "C11_trailer",
    "C11_base"
   ],
   "note": ""
  },
  {
   "property": "C110",
   "status": "partial",
   "theorems": [
    "C110_types",
    "C110_partial",
    "C110_refused",
    "C110_json",
    "C110_label_refuted",
    "C110_empty_refuted",
    "C110_number_refuted",
    "C110_panics",
    "C110_both",
    "C110_first",
    "C110_path_refuted",
    "C110_form",
    "C110_encoded"
   ],
   "note": "false of the code: text behind a pointer is labelled as JSON, empty texts and numbers are refused, a nil *string panics, files named by a path are never sent; what is sent and what is refused is proved to be exactly what the specification says; encoding/xml and http.DetectContentType are arbitrary functions"
  },
  {
   "property": "C111",
   "status": "partial",
   "theorems": [
    "C111_partial",
    "C111_refuted",
    "C111_address",
    "C111_absent",
    "C111_panics",
    "C111_others",
    "C111_type",
    "C111_type_told",
    "C111_json",
    "C111_strict",
    "C111_strict_other",
    "C111_strict_own",
    "C111_strict_server",
    "C111_strict_record",
    "C111_strict_file",
    "C111_strict_record_own",
    "C111_strict_file_own"
   ],
   "note": "false of the code for optional numbers and texts, of which the address is written; proved for required properties and times; the text of a time and the addresses are arbitrary functions"
  },
  {
   "property": "C112",
   "status": "partial",
   "theorems": [
    "C112_partial",
    "C112_refuted",
    "C112_view_refuted",
    "C112_copy_refuted",
    "C112_map_refuted",
    "C112_required",
    "C112_nil",
    "C112_new",
    "C112_setter",
    "C112_write",
    "C112_detached",
    "C112_kept",
    "C112_copy",
    "C112_map",
    "C112_taken",
    "C112_not_taken"
   ],
   "note": "false of the code for optional properties: a setter leaves older pointers behind, and what is written through a pointer shows in copies of the object and in maps made by ToMap; proved for required properties, and for optional ones up to the next call of the setter; whole structs are not assigned to existing objects in the programs"
  },
  {
   "property": "C113",
   "status": "partial",
   "theorems": [
    "C113_partial",
    "C113_refuted",
    "C113_dump_refuted",
    "C113_plain",
    "C113_settled",
    "C113_same",
    "C113_dumps",
    "C113_whole",
    "C113_unprepared",
    "C113_runs",
    "C113_debug_runs",
    "C113_agrees"
   ],
   "note": "false of the code with Debug: if the body of an answer breaks off it stays open and what arrived is lost, and a dump that fails makes the call fail; proved in full without Debug, and how a call ends with it too; Client.Do, the dumps and prepareRequest are arbitrary functions; that DumpResponse reads the body first and leaves it open if that fails is part of the trusted base"
  },
  {
   "property": "C114",
   "status": "partial",
   "theorems": [
    "C114_partial",
    "C114_refuted",
    "C114_lost_refuted",
    "C114_close_refuted",
    "C114_output_refuted",
    "C114_status",
    "C114_files",
    "C114_changed",
    "C114_written",
    "C114_reported",
    "C114_web"
   ],
   "note": "false of the code: main drops the error, so that the exit status is 0 in any case; convert truncates an existing file before writing, which is lost if writing fails; errors of Close and of standard output are dropped; proved but for the status on hosts on which writing does not stop short, and what can happen to files on all hosts; the host is an arbitrary record of which calls succeed"
  },
  {
   "property": "C115",
   "status": "proved",
   "theorems": [
    "C115_chain",
    "C115_validator",
    "C115_reread"
   ],
   "note": "of files that comes_back holds of, as for C67; hosts on which nothing fails for the chain"
  },
  {
   "property": "C116",
   "status": "partial",
   "theorems": [
    "C116_validator",
    "C116_print_partial",
    "C116_convert_partial",
    "C116_json",
    "C116_print_reread",
    "C116_convert_reread",
    "C116_refuted",
    "C116_convert_refuted",
    "C116_default_refuted"
   ],
   "note": "false in full: JSON output is laid out differently, and the defaults of line breaks differ; otherwise the outputs are the same, as JSON up to white space"
  },
  {
   "property": "C12",
   "status": "proved",
   "theorems": [
    "C12_segment",
    "C12_header",
    "C12_trailer",
    "C12_base"
   ],
   "note": ""
  },
  {
   "property": "C13",
   "status": "proved",
   "theorems": [
    "C13_base",
    "C13_header",
    "C13_trailer"
   ],
   "note": ""
  },
  {
   "property": "C14",
   "status": "proved",
   "theorems": [
    "C14_number_write",
    "C14_number_read",
    "C14_required_zero_refused"
   ],
   "note": ""
  },
  {
   "property": "C15",
   "status": "proved",
   "theorems": [
    "C15_text_write",
    "C15_text_read",
    "C15_text_refused"
   ],
   "note": ""
  },
  {
   "property": "C16",
   "status": "proved",
   "theorems": [
    "C16_date_write",
    "C16_date_reads",
    "C16_date_decides",
    "C16_stamp_write",
    "C16_stamp_reads",
    "C16_stamp_decides"
   ],
   "note": ""
  },
  {
   "property": "C17",
   "status": "proved",
   "theorems": [
    "C17_packed_number",
    "C17_packed_bytes",
    "C17_descriptor_word"
   ],
   "note": ""
  },
  {
   "property": "C18",
   "status": "proved",
   "theorems": [
    "C18_packed_date",
    "C18_packed_stamp"
   ],
   "note": ""
  },
  {
   "property": "C19",
   "status": "partial",
   "theorems": [
    "C19_refuted",
    "C19_zero_filled_is_read"
   ],
   "note": "the statement is false of the code: the zero date is written as 00 0F 69 51 73 (01010001); zero-filled text is still read as the zero date"
  },
  {
   "property": "C20",
   "status": "proved",
   "theorems": [
    "C20_map_order"
   ],
   "note": ""
  },
  {
   "property": "C21",
   "status": "proved",
   "theorems": [
    "C21_segment",
    "C21_record",
    "C21_file"
   ],
   "note": ""
  },
  {
   "property": "C22",
   "status": "proved",
   "theorems": [
    "C22_record",
    "C22_segment"
   ],
   "note": ""
  },
  {
   "property": "C23",
   "status": "proved",
   "theorems": [
    "C23_segment",
    "C23_base",
    "C23_header",
    "C23_trailer"
   ],
   "note": ""
  },
  {
   "property": "C24",
   "status": "partial",
   "theorems": [
    "C24_refuted",
    "C24_no_mixture_partial"
   ],
   "note": "False of the code: a failed parse clears the data records. Proved instead: the outcome never depends on the data records there were before."
  },
  {
   "property": "C25",
   "status": "proved",
   "theorems": [
    "C25_segment",
    "C25_base",
    "C25_header",
    "C25_trailer"
   ],
   "note": ""
  },
  {
   "property": "C26",
   "status": "partial",
   "theorems": [
    "C26_segment_partial",
    "C26_base_fixed_partial",
    "C26_base_variable_partial",
    "C26_base_packed_partial",
    "C26_header_fixed_partial",
    "C26_header_variable_partial",
    "C26_header_packed_partial",
    "C26_trailer_partial",
    "C26_refuted"
   ],
   "note": "false in general (witness: a negative counter is accepted on reading, its text is not); proved for records without negative numbers and with their required dates"
  },
  {
   "property": "C27",
   "status": "partial",
   "theorems": [
    "C27_base_validate",
    "C27_refuted"
   ],
   "note": "exact characterisation proved for the fields that have a rule; the literal claim (every coded field) is refuted: generation code, address indicator and residence code of the base segment are not checked"
  },
  {
   "property": "C28",
   "status": "proved",
   "theorems": [
    "C28_packed_validate"
   ],
   "note": "same rules as C27, without history code Z; the same three fields have no rule"
  },
  {
   "property": "C29",
   "status": "proved",
   "theorems": [
    "C29_segment_validate"
   ],
   "note": ""
  },
  {
   "property": "C30",
   "status": "proved",
   "theorems": [
    "C30_header_validate",
    "C30_trailer_validate"
   ],
   "note": ""
  },
  {
   "property": "C31",
   "status": "partial",
   "theorems": [
    "C31_counters_partial",
    "C31_all_counters",
    "C31_count_unique",
    "C31_refuted"
   ],
   "note": "every counter except the K3 one equals its documented count; the K3 counter counts segments whose agency identifier is 0 (refuted against its comment); consumer segments are counted when they keep the validation rules"
  },
  {
   "property": "C32",
   "status": "proved",
   "theorems": [
    "C32_generate_validate"
   ],
   "note": ""
  },
  {
   "property": "C33",
   "status": "proved",
   "theorems": [
    "C33_file_validate",
    "C33_some_data"
   ],
   "note": "for files whose times have 4-digit years; the K3 counter as counted by the code"
  },
  {
   "property": "C34",
   "status": "proved",
   "theorems": [
    "C34_sums"
   ],
   "note": ""
  },
  {
   "property": "C35",
   "status": "proved",
   "theorems": [
    "C35_histories"
   ],
   "note": "histories of SetRecord, AddDataRecord, SetType, Parse (when it returns), AddApplicableSegment on a data record and GeneratorTrailer; records are values in the model, so later changes through shared pointers are outside it"
  },
  {
   "property": "C36",
   "status": "proved",
   "theorems": [
    "C36_contents",
    "C36_there_and_back",
    "C36_unknown"
   ],
   "note": ""
  },
  {
   "property": "C37",
   "status": "partial",
   "theorems": [
    "C37_valid_partial",
    "C37_exactly_partial",
    "C37_refuted"
   ],
   "note": "true exactly for packed to character and for character files without history code Z; refuted in general"
  },
  {
   "property": "C38",
   "status": "proved",
   "theorems": [
    "C38_goroutines",
    "C38_schedules",
    "C38_returns",
    "C38_bounded",
    "C38_exclusive"
   ],
   "note": "interleavings of the atomic actions of the caller and the goroutines; the Go memory model is represented by sequential consistency, justified by C38_exclusive"
  },
  {
   "property": "C39",
   "status": "proved",
   "theorems": [
    "C39_parse",
    "C39_string"
   ],
   "note": ""
  },
  {
   "property": "C40",
   "status": "proved",
   "theorems": [
    "C40_chunks",
    "C40_ends",
    "C40_impatient"
   ],
   "note": "for readers that do not make 100 empty reads in a row; C40_impatient shows the outcome changes otherwise"
  },
  {
   "property": "C41",
   "status": "proved",
   "theorems": [
    "C41_breaks",
    "C41_written",
    "C41_limit"
   ],
   "note": "C41_limit shows that the limit of the scanner matters"
  },
  {
   "property": "C42",
   "status": "proved",
   "theorems": [
    "C42_accepts",
    "C42_exactly"
   ],
   "note": "followed by input that is ignored, see C43; C42_exactly gives both directions for inputs within the 64 KiB buffer"
  },
  {
   "property": "C43",
   "status": "partial",
   "theorems": [
    "C43_refuted",
    "C43_trailing"
   ],
   "note": "false of the code: whatever follows the trailer is ignored"
  },
  {
   "property": "C44",
   "status": "proved",
   "theorems": [
    "C44_adds_up"
   ],
   "note": ""
  },
  {
   "property": "C45",
   "status": "partial",
   "theorems": [
    "C45_refuted",
    "C45_fixed_partial",
    "C45_no_minus_partial",
    "C45_decided_partial",
    "C45_stable"
   ],
   "note": "false for variable-blocked character input with negative descriptor words; proved otherwise, and in every case Parse returns within one iteration per byte or never"
  },
  {
   "property": "C46",
   "status": "partial",
   "theorems": [
    "C46_kept_iff",
    "C46_refuted"
   ],
   "note": "false of the code: the buffer is kept exactly when it has no line breaks"
  },
  {
   "property": "C47",
   "status": "proved",
   "theorems": [
    "C47_round_trip",
    "C47_create",
    "C47_marshal",
    "C47_reader",
    "C47_format_refuted"
   ],
   "note": "Unmarshalling the JSON of a file (any key order, any white space) into a new file of the same format gives the file back; through CreateFile this holds for files whose header words stand for their format (format_kept), and C47_format_refuted shows a variable-blocked file that comes back packed. encoding/json is transcribed; float64 only matters beyond 2^53 and is an arbitrary function there."
  },
  {
   "property": "C48",
   "status": "proved",
   "theorems": [
    "C48_key_order",
    "C48_create",
    "C48_case_refuted"
   ],
   "note": "Proved for unmarshalling into a file for all key orders and map iteration orders, and for CreateFile when no keys differ in case only; C48_case_refuted shows that otherwise the format CreateFile picks depends on key order."
  },
  {
   "property": "C49",
   "status": "proved",
   "theorems": [
    "C49_round_trip",
    "C49_zero",
    "C49_text",
    "C49_zones"
   ],
   "note": "Years 0 to 9999, UTC, to the second; C49_zones extends it to other zones."
  },
  {
   "property": "C50",
   "status": "partial",
   "theorems": [
    "C50_raw_partial",
    "C50_brace",
    "C50_refuted"
   ],
   "note": "False as stated: an opening brace in the first 1024 bytes makes NewFileFromReader take the text for JSON. Proved without such a brace (C50_raw_partial); with one, character files are always refused (C50_brace); C50_refuted gives a valid file."
  },
  {
   "property": "C51",
   "status": "proved",
   "theorems": [
    "C51_format",
    "C51_create",
    "C51_no_header"
   ],
   "note": "For headers whose keys are ASCII and do not differ in case only."
  },
  {
   "property": "C52",
   "status": "proved",
   "theorems": [
    "C52_validator",
    "C52_print",
    "C52_convert",
    "C52_answers"
   ],
   "note": "Requests are given by their content type, form file, body and values; net/http, mux and multipart parsing are trusted. 501 of convert is also the answer to generate=true for a file without data records."
  },
  {
   "property": "C53",
   "status": "partial",
   "theorems": [
    "C53_generates_partial",
    "C53_refuted"
   ],
   "note": "False of the code when the type changes from character to packed and some payment history has code Z; proved in all other cases."
  },
  {
   "property": "C54",
   "status": "proved",
   "theorems": [
    "C54_add_segment",
    "C54_refused",
    "C54_history"
   ],
   "note": ""
  },
  {
   "property": "C55",
   "status": "proved",
   "theorems": [
    "C55_set_record",
    "C55_add_data_record"
   ],
   "note": ""
  },
  {
   "property": "C56",
   "status": "partial",
   "theorems": [
    "C56_never_refused",
    "C56_refuted"
   ],
   "note": "false of the code: the telephone test accepts every number"
  },
  {
   "property": "C57",
   "status": "proved",
   "theorems": [
    "C57_valid",
    "C57_refuted"
   ],
   "note": "proved for records that fit; refuted when only the widths are respected (strings ending in blanks)"
  },
  {
   "property": "C58",
   "status": "partial",
   "theorems": [
    "C58_refuted",
    "C58_unpadded_partial",
    "C58_exactly_partial"
   ],
   "note": "false for padded records (four bytes short); true exactly for unpadded ones"
  },
  {
   "property": "C59",
   "status": "partial",
   "theorems": [
    "C59_refuted",
    "C59_leading_digits",
    "C59_exactly_partial"
   ],
   "note": "false of the code: a number that is too wide is cut to its leading digits; a number is shown exactly when it fits"
  },
  {
   "property": "C60",
   "status": "proved",
   "theorems": [
    "C60_detected"
   ],
   "note": ""
  },
  {
   "property": "C61",
   "status": "proved",
   "theorems": [
    "C61_record",
    "C61_documented",
    "C61_parsed",
    "C61_unambiguous"
   ],
   "note": ""
  },
  {
   "property": "C62",
   "status": "proved",
   "theorems": [
    "C62_fixed",
    "C62_variable",
    "C62_packed"
   ],
   "note": "the order on writing is part of C11_base"
  },
  {
   "property": "C63",
   "status": "partial",
   "theorems": [
    "C63_refuted",
    "C63_same_partial"
   ],
   "note": "false for fixed-length parsing over another block descriptor word; proved otherwise, for the outcome and the result on success"
  },
  {
   "property": "C64",
   "status": "proved",
   "theorems": [
    "C64_print",
    "C64_convert",
    "C64_validator"
   ],
   "note": "cobra, the file system and the flag defaults are trusted."
  },
  {
   "property": "C65",
   "status": "proved",
   "theorems": [
    "C65_print",
    "C65_convert",
    "C65_converted"
   ],
   "note": ""
  },
  {
   "property": "C66",
   "status": "proved",
   "theorems": [
    "C66_segments"
   ],
   "note": ""
  },
  {
   "property": "C67",
   "status": "proved",
   "theorems": [
    "C67_print",
    "C67_convert",
    "C67_validator"
   ],
   "note": "For files that come back from their text (comes_back): files the JSON form keeps, or files of the streaming reader without a brace in the first 1024 bytes."
  },
  {
   "property": "C68",
   "status": "partial",
   "theorems": [
    "C68_refuted",
    "C65_convert",
    "C68_validator",
    "C68_print",
    "C68_convert",
    "C68_routes"
   ],
   "note": "False of the code for print, validator and the answer to an unknown format: the header is set after WriteHeader, so it is not sent. convert sets it in time (C65_convert). The other theorems say, for every request, which header and body each answer has: errors of reading, validating and generating are plain text and say so."
  },
  {
   "property": "C69",
   "status": "proved",
   "theorems": [
    "C69_generate",
    "C69_validate"
   ],
   "note": ""
  },
  {
   "property": "C70",
   "status": "proved",
   "theorems": [
    "C70_sums"
   ],
   "note": ""
  },
  {
   "property": "C71",
   "status": "proved",
   "theorems": [
    "C71_segment",
    "C71_header",
    "C71_base",
    "C71_trailer",
    "C71_file",
    "C71_kinds"
   ],
   "note": "values that fit their fields, as in the round trips"
  },
  {
   "property": "C72",
   "status": "proved",
   "theorems": [
    "C72_same",
    "C72_refuted",
    "C72_back"
   ],
   "note": "C72_refuted shows that the condition on the filler cannot be left out. C72_back asks for positive block descriptor words in variable-blocked files, without which File.Parse may move backwards (C45)."
  },
  {
   "property": "C73",
   "status": "proved",
   "theorems": [
    "C73_convert",
    "C73_converted",
    "C73_print",
    "C73_printed",
    "C73_validator",
    "C73_health",
    "C73_answers",
    "C73_statuses"
   ],
   "note": "net/http and mime/multipart between client and server are the trusted hand-over described in DESIGN.md"
  },
  {
   "property": "C74",
   "status": "proved",
   "theorems": [
    "C74_query",
    "C74_escaped"
   ],
   "note": ""
  },
  {
   "property": "C75",
   "status": "proved",
   "theorems": [
    "C75_convert",
    "C75_print"
   ],
   "note": "comes_back is the condition of C67: the file survives JSON, or is one for the streaming reader with no brace in its first 1024 bytes"
  },
  {
   "property": "C76",
   "status": "proved",
   "theorems": [
    "C76_read",
    "C76_unambiguous",
    "C76_create",
    "C76_reader",
    "C76_last",
    "C76_record",
    "C76_dates"
   ],
   "note": "numbers up to 2^53 and texts in UTF-8 (plain_json); keys are ASCII and differ in more than letter case; null for a single segment and for a date is not a description"
  },
  {
   "property": "C77",
   "status": "partial",
   "theorems": [
    "C77_refuted",
    "C77_read_partial",
    "C77_properties",
    "C77_fields",
    "C77_ignored",
    "C77_invalid"
   ],
   "note": "false of the code: two published properties are ignored, and a segment that has the published properties but is not valid makes reading fail; otherwise proved"
  },
  {
   "property": "C78",
   "status": "partial",
   "theorems": [
    "C78_refuted",
    "C78_never",
    "C78_null",
    "C78_object_partial",
    "C78_members",
    "C78_values",
    "C78_unpublished"
   ],
   "note": "false of the code for every valid file; for single objects the exact condition is proved"
  },
  {
   "property": "C79",
   "status": "partial",
   "theorems": [
    "C79_refuted",
    "C79_metro2",
    "C79_statuses_partial"
   ],
   "note": "false of the code: the published format metro2 is refused with 501; otherwise proved"
  },
  {
   "property": "C80",
   "status": "partial",
   "theorems": [
    "C80_refuted",
    "C80_padding",
    "C80_slash_partial",
    "C80_dash_partial",
    "C80_year",
    "C80_year_slash",
    "C80_dots",
    "C80_digits",
    "C80_calendar"
   ],
   "note": "false of the code: with the year last, month and day change places when the first number is too big for a month, and with dashes also when a leading zero is left out; what each notation is read as is proved exactly"
  },
  {
   "property": "C81",
   "status": "proved",
   "theorems": [
    "C81_read",
    "C81_exists",
    "C81_text",
    "C81_refused",
    "C81_types",
    "C81_unknown",
    "C81_lost"
   ],
   "note": "C81_unknown and C81_lost show what becomes of the two properties the library does not know"
  },
  {
   "property": "C82",
   "status": "partial",
   "theorems": [
    "C82_refuted",
    "C82_read_partial",
    "C82_readable_partial",
    "C82_dates",
    "C82_returned",
    "C82_unpublished",
    "C82_lost"
   ],
   "note": "false of the code: a file in which a published date is missing cannot be read by the client; the files it can read and what it has of them are proved exactly"
  },
  {
   "property": "C83",
   "status": "proved",
   "theorems": [
    "C83_file",
    "C83_record",
    "C83_object",
    "C83_unwritten"
   ],
   "note": "good_object states the values JSON keeps"
  },
  {
   "property": "C84",
   "status": "proved",
   "theorems": [
    "C84_letters",
    "C84_words",
    "C84_text",
    "C84_file",
    "C84_segment",
    "C84_validator"
   ],
   "note": "errors whose text comes from the standard library are outside"
  },
  {
   "property": "C85",
   "status": "partial",
   "theorems": [
    "C85_refuted",
    "C85_segment_partial",
    "C85_record_partial",
    "C85_character",
    "C85_file_partial",
    "C85_segment_rules",
    "C85_base_rules"
   ],
   "note": "false of the code only in the name of the record: number and date of birth of J1, J2 and packed base segments are said to be of the base segment, counters of a packed trailer of the trailer record; everything else is proved"
  },
  {
   "property": "C86",
   "status": "partial",
   "theorems": [
    "C86_refuted",
    "C86_refused",
    "C86_garbled",
    "C86_packed",
    "C86_sequence_partial",
    "C86_first"
   ],
   "note": "false of the code: the block descriptor word of the previous header stays, and a reader that has seen a packed file takes every later file for packed; proved for every sequence in which layouts come in the order fixed-length, variable-blocked, packed"
  },
  {
   "property": "C87",
   "status": "partial",
   "theorems": [
    "C87_refuted",
    "C87_overwritten",
    "C87_end_partial"
   ],
   "note": "false of the code: every Read returns the same object; C87_overwritten says exactly what becomes of it"
  },
  {
   "property": "C88",
   "status": "partial",
   "theorems": [
    "C88_accepts",
    "C88_segment",
    "C88_header_fixed",
    "C88_header_blocked",
    "C88_trailer",
    "C88_base_fixed",
    "C88_base_variable",
    "C88_base_unblocked",
    "C88_unblocked_refuted",
    "C88_base_packed",
    "C88_one_reading_segment",
    "C88_one_reading_header",
    "C88_one_reading_base",
    "C88_one_reading_trailer",
    "C88_one_reading_appended"
   ],
   "note": "variable-blocked base segments: with a block descriptor word that is not positive the segments are looked for four bytes too early, and can be lost; C88_base_unblocked says what is read instead"
  },
  {
   "property": "C89",
   "status": "partial",
   "theorems": [
    "C89_segment",
    "C89_header_fixed",
    "C89_header_blocked",
    "C89_trailer",
    "C89_base_fixed",
    "C89_base_variable",
    "C89_base_packed",
    "C89_short",
    "C89_short_segment",
    "C89_unblocked_base",
    "C89_unblocked_header",
    "C89_named_refuted",
    "C89_required_refuted",
    "C89_block_word_refuted"
   ],
   "note": "proved that the error is about the first unreadable field, and which error it is; false of the code in what it says: errors about dates and some numbers do not name the field, wrong required numbers are called missing, fixed-length records are blamed for a block descriptor word"
  },
  {
   "property": "C90",
   "status": "partial",
   "theorems": [
    "C90_refuted",
    "C90_left_refuted",
    "C90_twice_refuted",
    "C90_records_partial",
    "C90_segments",
    "C90_makes"
   ],
   "note": "false of the code: Parse writes into a header or trailer the caller has handed over, and copies made by SetType share arrays with the originals; proved, with exactly that effect of Parse, for programs that give a record to one file once and do not use it after a conversion"
  },
  {
   "property": "C91",
   "status": "proved",
   "theorems": [
    "C91_by_value",
    "C91_reachable"
   ],
   "note": "for every amount of room append leaves; f.Bases by value"
  },
  {
   "property": "C92",
   "status": "partial",
   "theorems": [
    "C92_segments",
    "C92_length",
    "C92_block",
    "C92_parsed",
    "C92_segment_length",
    "C92_get_record",
    "C92_own_name_refuted",
    "C92_set_get_partial"
   ],
   "note": "false of the code only for packed files: GetRecord does not know the names headerPacked and trailerPacked; their records are found under header and trailer"
  },
  {
   "property": "C93",
   "status": "partial",
   "theorems": [
    "C93_list",
    "C93_read_partial",
    "C93_json_partial",
    "C93_exchanged",
    "C93_ambiguous_refuted",
    "C93_unreadable_refuted",
    "C93_near_refuted",
    "C93_beside_refuted",
    "C93_second_refuted"
   ],
   "note": "false of the code: five formats are shadowed for days up to the 12th, five cannot be read back, offsets below 24 minutes and offsets beside UTC or GMT are lost; proved for all other times of all other formats"
  },
  {
   "property": "C94",
   "status": "proved",
   "theorems": [
    "C94_value",
    "C94_only",
    "C94_object",
    "C94_accepted",
    "C94_spellings",
    "C94_file"
   ],
   "note": "the grammar is given byte by byte in SpecJson.v; the reader is the model of encoding/json in Json.v"
  },
  {
   "property": "C95",
   "status": "partial",
   "theorems": [
    "C95_parameters",
    "C95_object",
    "C95_written",
    "C95_good",
    "C95_nil",
    "C95_nil_parts",
    "C95_record",
    "C95_file",
    "C95_calls",
    "C95_good_record",
    "C95_good_file",
    "C95_nullable",
    "C95_nullable_json",
    "C95_nullable_value",
    "C95_unset_refuted",
    "C95_time_refuted"
   ],
   "note": "false of the code only for Nullable values that were not set, which JSON turns into ones set to nil, and for a NullableTime that is nil, which panics; everything else is proved"
  },
  {
   "property": "C96",
   "status": "partial",
   "theorems": [
    "C96_convert_partial",
    "C96_print_partial",
    "C96_validator",
    "C96_health",
    "C96_refuted"
   ],
   "note": "False of the code for calls of convert and print without a file: the content type selected for them is that of JSON, so the fields that were set are not sent (C96_refuted). With a file exactly the fields that were set are sent; without one there is no body, and validator and health, which have no fields, send what they should."
  },
  {
   "property": "C97",
   "status": "partial",
   "theorems": [
    "C97_filled_partial",
    "C97_untouched",
    "C97_errors",
    "C97_order_partial",
    "C97_order_refuted",
    "C97_context",
    "C97_no_context",
    "C97_configured",
    "C97_default"
   ],
   "note": "False of the code for values that contain braces: they are replaced again, so the address depends on the order in which the map is visited (C97_order_refuted). Proved for values and names without braces; errors and the choice of server and values are proved without restriction."
  },
  {
   "property": "C98",
   "status": "partial",
   "theorems": [
    "C98_max_age_partial",
    "C98_long",
    "C98_max_age_refuted",
    "C98_name_refuted",
    "C98_bare",
    "C98_spans",
    "C98_fraction",
    "C98_parts",
    "C98_decimals",
    "C98_tiny",
    "C98_fraction_refuted",
    "C98_no_form",
    "C98_expires",
    "C98_expired",
    "C98_undated"
   ],
   "note": "False of the code for more than 9223372036 seconds, which are taken as expired at once (C98_max_age_refuted, C98_long), and for the name in other than lower case (C98_name_refuted); values with units, as 1m30, which HTTP does not allow, are taken too (C98_spans). The rest is proved. What the host makes of abbreviated zones is arbitrary."
  },
  {
   "property": "C99",
   "status": "partial",
   "theorems": [
    "C99_type",
    "C99_accept",
    "C99_agent",
    "C99_own_partial",
    "C99_own_refuted",
    "C99_length_partial",
    "C99_length_refuted",
    "C99_default",
    "C99_only",
    "C99_set",
    "C99_accepts",
    "C99_target"
   ],
   "note": "False of the code: a default header of the same name gives a second value (C99_own_refuted), and Content-Length is computed before the form is closed, so it is too small by the length of the boundary and 8 (C99_length_refuted; net/http ignores it). Proved with both taken into account."
  }
 ]
}