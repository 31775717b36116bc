{
 "claims": [
  {
   "property": "C01",
   "status": "proved",
   "theorems": [
    "C01_path_addressing",
    "C01_path_bucket_exact",
    "C01_path_object_exact",
    "C01_path_root_exact"
   ],
   "note": "try_from_path computes exactly the declarative addressing relation of S_Path.v; errors included."
  },
  {
   "property": "C02",
   "status": "proved",
   "theorems": [
    "C02_bucket_is_one_component",
    "C02_bucket_names"
   ],
   "note": "check_bucket_name is equivalent to the naming rules of S_Path.v."
  },
  {
   "property": "C03",
   "status": "proved",
   "theorems": [
    "C03_numerals_have_one_value",
    "C03_range_exact"
   ],
   "note": "Range header grammar, both directions."
  },
  {
   "property": "C04",
   "status": "proved",
   "theorems": [
    "C04_amz_date_exact",
    "C04_amz_date_parse_print",
    "C04_amz_date_print_parse"
   ],
   "note": "time stamp grammar, print/parse and parse/print."
  },
  {
   "property": "C05",
   "status": "proved",
   "theorems": [
    "C05_copy_source_errors",
    "C05_copy_source_exact"
   ],
   "note": "copy source grammar, with the error answers."
  },
  {
   "property": "C06",
   "status": "proved",
   "theorems": [
    "C06_authorization_round_trip",
    "C06_authorization_sound",
    "C06_authorization_unambiguous"
   ],
   "note": "round trip for calendar dates; soundness: everything accepted is an instance of the grammar (a date field containing a sign such as '+999' is accepted by the code too and is the only deviation from calendar dates)."
  },
  {
   "property": "C07",
   "status": "proved",
   "theorems": [
    "C07_decoding_gives_back",
    "C07_encoding_alphabet",
    "C07_encoding_exact",
    "C07_encoding_injective",
    "C07_unreserved_unchanged"
   ],
   "note": "encoding relation, injectivity, decoding, alphabet."
  },
  {
   "property": "C08",
   "status": "proved",
   "theorems": [
    "C08_headers_are_a_sorted_rearrangement",
    "C08_headers_refused",
    "C08_lookup_complete",
    "C08_lookup_order_independent",
    "C08_lookup_sound",
    "C08_lookup_unique"
   ],
   "note": "lookup in sorted containers by binary search."
  },
  {
   "property": "C09",
   "status": "proved",
   "theorems": [
    "C09_selection_is_exact",
    "C09_selection_is_sorted_filter",
    "C09_selection_order_independent",
    "C09_selection_sorted"
   ],
   "note": "selection by sorted SignedHeaders."
  },
  {
   "property": "C10",
   "status": "proved",
   "theorems": [
    "C10_canonical_query_order_independent",
    "C10_canonical_request_order_independent",
    "C10_presigned_order_independent"
   ],
   "note": "header and presigned canonical requests."
  },
  {
   "property": "C100",
   "status": "partial",
   "theorems": [
    "C100_form_denied",
    "C100_header_cases",
    "C100_header_denied",
    "C100_open_server",
    "C100_reply",
    "C100_unknown_key_refuted",
    "C100_url_denied"
   ],
   "note": "Exhaustive for the Authorization header; for URLs and forms the listed cases. An unknown key is refused with NotSignedUp by the provider that comes with the server, not with InvalidAccessKeyId as documented by AWS (refuted part)."
  },
  {
   "property": "C101",
   "status": "proved",
   "theorems": [
    "C101_answers",
    "C101_json_is_read",
    "C101_read_is_json",
    "C101_written_is_json"
   ],
   "note": "serde_json is modelled at the type HashMap<String, String>; the grammar is stated independently of the parser."
  },
  {
   "property": "C102",
   "status": "partial",
   "theorems": [
    "C102_conditional_refuted",
    "C102_copied",
    "C102_far_future_refuted",
    "C102_file_system",
    "C102_listed",
    "C102_shown",
    "C102_undated",
    "C102_uploaded",
    "C102_validator",
    "C102_written"
   ],
   "note": "The creation dates of ListBuckets are in C103. Refuted: an object dated in the year 10000 or later cannot be downloaded, and If-Modified-Since is ignored."
  },
  {
   "property": "C103",
   "status": "partial",
   "theorems": [
    "C103_created",
    "C103_kept",
    "C103_listed",
    "C103_rest",
    "C103_shown",
    "C103_unsupported_refuted"
   ],
   "note": "Refuted where the file system keeps no times of creation: one bucket makes the listing of all buckets fail with InternalError. Proved where it keeps them."
  },
  {
   "property": "C104",
   "status": "proved",
   "theorems": [
    "C104_listing",
    "C104_metadata",
    "C104_requests",
    "C104_store"
   ],
   "note": "The XML reader is an oracle; that it delivers UTF-8 strings (Rust's String) is a hypothesis on it."
  },
  {
   "property": "C11",
   "status": "proved",
   "theorems": [
    "C11_canonical_request_injective",
    "C11_presigned_canonical_request_injective"
   ],
   "note": "equal canonical requests: same method, path, query multiset, signed headers up to surrounding white space and same payload (or an explicit SHA-256 collision between the payloads)."
  },
  {
   "property": "C12",
   "status": "proved",
   "theorems": [
    "C12_executed_as_signed",
    "C12_storage_needs_authentication",
    "C12_unauthenticated_no_effect"
   ],
   "note": "header, presigned and POST-form authentication; an unauthenticated request runs no system call at all; what is executed is the signed request."
  },
  {
   "property": "C13",
   "status": "proved",
   "theorems": [
    "C13_client_query",
    "C13_signed_requests_accepted"
   ],
   "note": "the path text signed must be the one on the wire (see C20); authorization, x-amz-date and x-amz-content-sha256 given once; streaming payloads via C21."
  },
  {
   "property": "C14",
   "status": "proved",
   "theorems": [
    "C14_accepted_is_presigned",
    "C14_presigned_accepted",
    "C14_unsorted_list_refuted"
   ],
   "note": "sorted SignedHeaders, X-Amz parameters given once. C14_unsorted_list_refuted shows why the list must be sorted."
  },
  {
   "property": "C15",
   "status": "proved",
   "theorems": [
    "C15_altered_request",
    "C15_one_signature_one_request"
   ],
   "note": "explicit collisions, no assumption on the hash functions; unsigned parts (headers not listed, UNSIGNED-PAYLOAD bodies) are excluded by the definition of the signed request. Body frames are bound up to their concatenation."
  },
  {
   "property": "C16",
   "status": "proved",
   "theorems": [
    "C16_anonymous_accepted",
    "C16_credentials_refused"
   ],
   "note": "every request that can be read."
  },
  {
   "property": "C17",
   "status": "proved",
   "theorems": [
    "C17_form_needs_signed_policy",
    "C17_signed_form_accepted"
   ],
   "note": "soundness for every form, completeness for forms with the five fields given; a repeated field counts last."
  },
  {
   "property": "C18",
   "status": "proved",
   "theorems": [
    "C18_effects_need_acceptance",
    "C18_refused_no_effect"
   ],
   "note": "every reason listed in S_Dispatch.unacceptable; list-type and Content-Type are given consistently (selects_once)."
  },
  {
   "property": "C19",
   "status": "partial",
   "theorems": [
    "C19_expiry_enforced_refuted",
    "C19_expiry_is_a_number_partial"
   ],
   "note": "REFUTED as stated: the expiry is parsed but never compared with a clock. Proved: an accepted presigned URL has a numeric expiry."
  },
  {
   "property": "C20",
   "status": "partial",
   "theorems": [
    "C20_canonical_uri_partial",
    "C20_canonical_uri_refuted",
    "C20_standard_clients_partial"
   ],
   "note": "REFUTED as stated: a path containing an escape is encoded twice. Proved: canonical URI agrees with AWS exactly for paths without '%', and requests signed by standard clients verify for those."
  },
  {
   "property": "C21",
   "status": "proved",
   "theorems": [
    "C21_decoder_implements_format",
    "C21_decoder_terminates",
    "C21_framing_independent"
   ],
   "note": "the decoder is equivalent to the declarative relation chunked_means on the byte sequence, so it depends only on the bytes, not on their framing; it always terminates without running out of fuel."
  },
  {
   "property": "C22",
   "status": "proved",
   "theorems": [
    "C22_mismatch_stops",
    "C22_only_verified_bytes",
    "C22_signature_binds"
   ],
   "note": "every byte delivered belongs to a chunk whose signature was verified, in order; a mismatch stops the stream; the signature fixes date, region, previous signature and chunk hash (or an explicit hash collision)."
  },
  {
   "property": "C23",
   "status": "proved",
   "theorems": [
    "C23_every_chunk_can_be_sent",
    "C23_round_trip"
   ],
   "note": "decode after encode for every list of chunks with sizes below 2^32."
  },
  {
   "property": "C24",
   "status": "partial",
   "theorems": [
    "C24_broken_connection_detected",
    "C24_broken_uploads_fail",
    "C24_truncation_detected_partial",
    "C24_truncation_detected_refuted"
   ],
   "note": "REFUTED as stated: a stream cut at a chunk boundary or inside a chunk header ends without an error (C24_truncation_detected_refuted). Proved: cuts inside chunk data are detected, and broken connections are always reported."
  },
  {
   "property": "C25",
   "status": "proved",
   "theorems": [
    "C25_cases_exhaustive",
    "C25_file_content_exact",
    "C25_no_delimiter_fails"
   ],
   "note": "file stream yields exactly the bytes before the first delimiter for every framing; no delimiter gives an error."
  },
  {
   "property": "C26",
   "status": "proved",
   "theorems": [
    "C26_field_lookup",
    "C26_form_round_trip"
   ],
   "note": "every well-formed form is parsed into its fields, file name, type and content; field lookup returns the last match."
  },
  {
   "property": "C27",
   "status": "partial",
   "theorems": [
    "C27_framing_independent_partial",
    "C27_framing_independent_refuted",
    "C27_other_framings_accepted",
    "C27_split_first_line_rejected"
   ],
   "note": "REFUTED as stated: a frame ending inside the first boundary line makes the form fail (C27_framing_independent_refuted). Proved exactly which framings are rejected (C27_split_first_line_rejected) and that all others give the same result (C27_other_framings_accepted)."
  },
  {
   "property": "C28",
   "status": "proved",
   "theorems": [
    "C28_body_exact",
    "C28_failed_reads_reported"
   ],
   "note": "body stream yields exactly the requested bytes for every read schedule; failed reads are reported."
  },
  {
   "property": "C29",
   "status": "proved",
   "theorems": [
    "C29_put_get"
   ],
   "note": "for ordinary keys, contents up to 2^63-1 bytes, any later plain requests that do not write or delete the object; the metadata files in the store must be readable (intact), which all plain requests preserve."
  },
  {
   "property": "C30",
   "status": "proved",
   "theorems": [
    "C30_only_target"
   ],
   "note": "put, copy, delete and completion with any key without '..' segments; other objects keep their content, and answers are unchanged unless the other key is a directory prefix of the written one."
  },
  {
   "property": "C31",
   "status": "proved",
   "theorems": [
    "C31_complete_etag",
    "C31_copy_etag",
    "C31_get_etag",
    "C31_part_etag",
    "C31_put_etag"
   ],
   "note": "put, copy, part upload, completion and get."
  },
  {
   "property": "C32",
   "status": "partial",
   "theorems": [
    "C32_announced_length_refuted",
    "C32_beyond_end",
    "C32_huge_range_refuted",
    "C32_invalid_range",
    "C32_range_slice_partial"
   ],
   "note": "REFUTED as stated: a range ending beyond the object announces more bytes than are sent, and ranges longer than 2^63-1 fail. Proved: slice delivered and announced length right for ranges ending inside the object or without end; InvalidRange answered exactly when the range denotes nothing; exact behaviour beyond the end (C32_beyond_end)."
  },
  {
   "property": "C33",
   "status": "proved",
   "theorems": [
    "C33_copy_bad_source",
    "C33_copy_duplicates",
    "C33_copy_missing_source"
   ],
   "note": "copy to a different object; missing or malformed sources change nothing."
  },
  {
   "property": "C34",
   "status": "proved",
   "theorems": [
    "C34_delete_missing",
    "C34_delete_removes"
   ],
   "note": "ordinary keys."
  },
  {
   "property": "C35",
   "status": "proved",
   "theorems": [
    "C35_batch_delete"
   ],
   "note": "ordinary, pairwise different keys."
  },
  {
   "property": "C36",
   "status": "proved",
   "theorems": [
    "C36_listing",
    "C36_listing_reachable"
   ],
   "note": "both listing calls, any prefix, any directory order; sizes up to 2^63-1; shown also for every store reached by requests with text names (C36_listing_reachable)."
  },
  {
   "property": "C37",
   "status": "proved",
   "theorems": [
    "C37_create_effect",
    "C37_create_exact",
    "C37_delete_effect",
    "C37_delete_succeeds",
    "C37_head_and_location",
    "C37_list_buckets"
   ],
   "note": "creation succeeds exactly for new names; deletion removes everything below the bucket and nothing else; exact bucket list."
  },
  {
   "property": "C38",
   "status": "proved",
   "theorems": [
    "C38_assembles",
    "C38_completion",
    "C38_create_upload",
    "C38_wrong_list_refused"
   ],
   "note": "completion with parts 1..n assembles exactly the concatenation of the uploaded parts, in the order of their numbers; any list that is not 1..n is refused."
  },
  {
   "property": "C39",
   "status": "partial",
   "theorems": [
    "C39_part_not_an_object_refuted",
    "C39_parts_kept",
    "C39_upload_separate"
   ],
   "note": "REFUTED as stated: a key with '..' segments reads a part as an object (C39_part_not_an_object_refuted). Proved: parts of different uploads and parts with different numbers do not interfere, and plain requests keep parts."
  },
  {
   "property": "C40",
   "status": "partial",
   "theorems": [
    "C40_damage_bounded_partial",
    "C40_failed_completion_refuted",
    "C40_no_list_partial"
   ],
   "note": "REFUTED as stated: a failed completion may have emptied the object and consumed parts (C40_failed_completion_refuted). Proved: a completion without a list changes nothing, and a failing completion damages only the object and the parts of this upload."
  },
  {
   "property": "C41",
   "status": "proved",
   "theorems": [
    "C41_confined",
    "C41_named_kept"
   ],
   "note": "every path named by any system call of any request, for any names, lies in the root; also under faults."
  },
  {
   "property": "C42",
   "status": "partial",
   "theorems": [
    "C42_absolute_key_refuted",
    "C42_isolation_refuted",
    "C42_reads_partial",
    "C42_writes_partial"
   ],
   "note": "REFUTED as stated: a key with '..' segments or an absolute key reaches another bucket. Proved for keys without '..' segments that are not absolute: writes stay in the bucket, and answers depend only on the bucket."
  },
  {
   "property": "C43",
   "status": "proved",
   "theorems": [
    "C43_content_not_metadata",
    "C43_distinct_content",
    "C43_distinct_metadata",
    "C43_independent"
   ],
   "note": "content paths for ordinary keys, metadata paths for all keys; no object file is a metadata file."
  },
  {
   "property": "C44",
   "status": "proved",
   "theorems": [
    "C44_metadata_round_trip"
   ],
   "note": "same conditions as C29."
  },
  {
   "property": "C45",
   "status": "partial",
   "theorems": [
    "C45_copy_keeps_metadata_refuted",
    "C45_metadata_changes_partial",
    "C45_reported_partial",
    "C45_stale_metadata_refuted"
   ],
   "note": "REFUTED as stated: putting without metadata and copying an object without metadata keep the old metadata. Proved: the metadata reported are those of the last request that wrote some, and only such requests change them."
  },
  {
   "property": "C46",
   "status": "partial",
   "theorems": [
    "C46_atomic_refuted",
    "C46_broken_body_refuted",
    "C46_old_or_prefix_partial"
   ],
   "note": "REFUTED as stated: a stopped server or a broken body leaves a beginning of the new content and the old content is lost (C46_atomic_refuted, C46_broken_body_refuted). Proved: at every moment, also under failing system calls, the object has its old content or a prefix of the new one, and a reported success means the complete new content."
  },
  {
   "property": "C47",
   "status": "proved",
   "theorems": [
    "C47_interruption"
   ],
   "note": "every plain request, every stopping point, also when system calls fail."
  },
  {
   "property": "C48",
   "status": "proved",
   "theorems": [
    "C48_as_if_sequential",
    "C48_bystanders",
    "C48_concurrent_puts",
    "C48_download_among_others",
    "C48_put_among_others",
    "C48_read_among_others"
   ],
   "note": "any number of puts on different, non-nested objects, every interleaving of their system calls: each succeeds and leaves exactly its content and metadata, as if run one after another; also for a put or a read among arbitrary plain requests that do not touch its object, with failing system calls for the put."
  },
  {
   "property": "C49",
   "status": "partial",
   "theorems": [
    "C49_overwrites_atomic_refuted",
    "C49_patchwork_partial",
    "C49_read_atomic_refuted",
    "C49_read_patchwork_partial"
   ],
   "note": "REFUTED as stated: overlapping puts on one object can both succeed and leave a mixture; a read overlapping a put can deliver a content that was never stored, with the tag of another. Proved: with any number of overlapping uploads and deletions every byte of the object, and every byte a reader receives, belongs to the old content as a whole or was sent for its place by one of the uploads or is a zero filling a hole."
  },
  {
   "property": "C50",
   "status": "proved",
   "theorems": [
    "C50_answers_of_the_map",
    "C50_map_deterministic",
    "C50_store_is_a_map"
   ],
   "note": "all sixteen requests; the requests left out (self-copies, copies to keys without directory, incomplete uploads, failing bodies) are the findings of C33-C35, C38, C55."
  },
  {
   "property": "C51",
   "status": "proved",
   "theorems": [
    "C51_reads_change_nothing",
    "C51_reads_leave_store"
   ],
   "note": "at every moment of the request, also when system calls fail; any names."
  },
  {
   "property": "C52",
   "status": "partial",
   "theorems": [
    "C52_at_most_one",
    "C52_called_as_denoted_partial",
    "C52_dispatch_partial",
    "C52_dispatch_refuted",
    "C52_others_refused"
   ],
   "note": "REFUTED as stated: sub-resource requests that the server lacks are taken for other operations (DELETE ?policy deletes the bucket). Proved for all other requests: exactly the denoted operation, at most one, NotSupported otherwise."
  },
  {
   "property": "C53",
   "status": "partial",
   "theorems": [
    "C53_no_other_panic_partial",
    "C53_panic_refuted",
    "C53_root_part_panics"
   ],
   "note": "REFUTED as stated: PUT / with partNumber and uploadId panics, always. Proved: no other request does."
  },
  {
   "property": "C54",
   "status": "partial",
   "theorems": [
    "C54_names_distinct",
    "C54_only_names_parse",
    "C54_other_errors_not_success",
    "C54_print_parse",
    "C54_status_documented_partial",
    "C54_status_documented_refuted"
   ],
   "note": "REFUTED as stated: ObjectNotInActiveTierError is answered with status 200, documented as 403 (C54_status_documented_refuted). Proved for every other code; printing and parsing of names proved for all codes."
  },
  {
   "property": "C55",
   "status": "partial",
   "theorems": [
    "C55_self_copy_empties",
    "C55_self_copy_refuted"
   ],
   "note": "REFUTED as stated (C55_self_copy_refuted): a successful copy of an object onto itself always empties it (C55_self_copy_empties), and breaks its metadata file."
  },
  {
   "property": "C56",
   "status": "partial",
   "theorems": [
    "C56_completion_needs_folder_partial",
    "C56_copy_exact",
    "C56_copy_needs_folder_partial",
    "C56_folders_refuted",
    "C56_history_refuted",
    "C56_put_exact"
   ],
   "note": "that copies and completions create the folders of a key is refuted; proved is exactly when each of the three succeeds."
  },
  {
   "property": "C57",
   "status": "partial",
   "theorems": [
    "C57_policy_conditions_refuted"
   ],
   "note": "REFUTED as stated: neither the expiration nor the conditions of a signed policy are looked at."
  },
  {
   "property": "C58",
   "status": "proved",
   "theorems": [
    "C58_body_as_sent",
    "C58_called_as_asked",
    "C58_malformed_refused",
    "C58_well_formed_called"
   ],
   "note": "arguments that the file-system storage does not read (ACLs, encryption, tagging ...) are not modelled. Of a repeated header or parameter one of the values is used. XML documents go through the external parser (oracle of the server record)."
  },
  {
   "property": "C59",
   "status": "proved",
   "theorems": [
    "C59_upload_download"
   ],
   "note": "header names are lower-case tokens as hyper delivers them; either metadata are sent or the object has no old metadata (see C62); keys with ordinary segments; data up to i64::MAX bytes."
  },
  {
   "property": "C60",
   "status": "proved",
   "theorems": [
    "C60_completion_is_reported",
    "C60_refusal_is_reported",
    "C60_success_is_executed"
   ],
   "note": "all sixteen operations, every store; 'success' excludes error documents."
  },
  {
   "property": "C61",
   "status": "partial",
   "theorems": [
    "C61_carriage_return_refuted",
    "C61_control_character_refuted",
    "C61_encoding_type_refuted",
    "C61_listing_is_read_partial",
    "C61_replies_are_read_back"
   ],
   "note": "REFUTED as stated: keys with control characters make the listing unreadable, carriage returns are read as line feeds, and encoding-type=url is echoed but not obeyed. Proved: every reply whose texts are XML characters without carriage returns is read in exactly one way, as the elements of the answer; listings then show exactly the objects of the bucket. Time stamps left out."
  },
  {
   "property": "C62",
   "status": "partial",
   "theorems": [
    "C62_form_metadata_refuted",
    "C62_stale_metadata_refuted"
   ],
   "note": "REFUTED as stated: a form may carry metadata names that no header can hold, then GET and HEAD fail; an upload without metadata shows the metadata of the previous object. C59 is the positive part."
  },
  {
   "property": "C63",
   "status": "proved",
   "theorems": [
    "C63_command_line",
    "C63_only_registered_keys",
    "C63_other_keys_unknown",
    "C63_registered_keys"
   ],
   "note": "for the three ways of authentication; the bin's other options are not modelled."
  },
  {
   "property": "C64",
   "status": "proved",
   "theorems": [
    "C64_replies_of_the_map",
    "C64_server_is_a_map",
    "C64_uploads_fit"
   ],
   "note": "the requests of C50 over HTTP; XML as element trees, time stamps left out; which storage request an HTTP request stands for is C58."
  },
  {
   "property": "C65",
   "status": "proved",
   "theorems": [
    "C65_completion_among_others",
    "C65_parallel_upload",
    "C65_part_among_others",
    "C65_part_succeeds"
   ],
   "note": "parts of the same number sent twice at the same time, and uploads to the object while it is being completed, are left out (see C49). Interleaving at the granularity of system calls."
  },
  {
   "property": "C66",
   "status": "proved",
   "theorems": [
    "C66_download_after_write",
    "C66_gone_after_delete",
    "C66_read_after_write"
   ],
   "note": "the later request is listed among the running ones but has not made a step; uploads and deletions of the same object meanwhile are excluded. Interleaving at the granularity of system calls."
  },
  {
   "property": "C67",
   "status": "proved",
   "theorems": [
    "C67_bystanders",
    "C67_download_among_others",
    "C67_read_after_write",
    "C67_upload_among_others"
   ],
   "note": "an operation is interleaved at its file-system calls; reading the request (body, signature) happens at once before the first of them, and the response body is read from the final store."
  },
  {
   "property": "C68",
   "status": "partial",
   "theorems": [
    "C68_completion_repeated_refuted",
    "C68_overwrite_repairs_refuted",
    "C68_part_repeated",
    "C68_upload_repeated"
   ],
   "note": "proved for uploads of objects (no metadata file may be left over when none is sent) and of parts. Refuted for completions (a part file is removed as soon as it is copied, so a repeated completion fails and truncates the object) and for uploads without metadata after an upload with metadata that stopped while writing them (success is reported, the object cannot be read)."
  },
  {
   "property": "C69",
   "status": "partial",
   "theorems": [
    "C69_header_denotes",
    "C69_last_modified",
    "C69_odd_offset_refuted",
    "C69_stamp_denotes",
    "C69_time_zone",
    "C69_unambiguous",
    "C69_year_10000_refuted"
   ],
   "note": "proved for time zones at whole minutes and years 0 to 9999; refuted outside: offsets with seconds shift the header, and from the year 10000 on the time stamp cannot be read back. The functions of chrono that are used are modelled after its documentation. That the storage passes the file's mtime on is read off fs.rs, the file-system model itself has no time stamps."
  },
  {
   "property": "C70",
   "status": "proved",
   "theorems": [
    "C70_added_header",
    "C70_conditions_ignored",
    "C70_conditions_refuted",
    "C70_unread_headers",
    "C70_unread_params"
   ],
   "note": "the headers and parameters read are listed in T_Unread.v; that conditions and checksums would be honoured is refuted."
  },
  {
   "property": "C71",
   "status": "partial",
   "theorems": [
    "C71_signed_parts_partial",
    "C71_unsigned_headers_refuted"
   ],
   "note": "proved under the condition that all headers with a meaning are signed; the server does not enforce it: refuted with a signed upload that becomes a copy."
  },
  {
   "property": "C72",
   "status": "proved",
   "theorems": [
    "C72_dropped_refuted",
    "C72_form_members",
    "C72_members_passed"
   ],
   "note": "for the members listed in S_Dto.api_members except S_Dto.not_passed; that the latter arrive is refuted."
  },
  {
   "property": "C73",
   "status": "partial",
   "theorems": [
    "C73_documents_partial",
    "C73_file_system",
    "C73_headers",
    "C73_metadata_case_refuted",
    "C73_no_injection",
    "C73_prefixes_refuted",
    "C73_root_refuted",
    "C73_unfit_refused"
   ],
   "note": "headers: all members of S_Dto.api_answers except two that this version does not know; documents: without the answer to CreateMultipartUpload and listings with an empty list of or several common prefixes, which are refuted; texts of documents have to be XML characters without carriage returns (see C61)."
  },
  {
   "property": "C74",
   "status": "partial",
   "theorems": [
    "C74_delete_folder",
    "C74_delete_refuted",
    "C74_empty_object_refuted",
    "C74_folder_unlisted",
    "C74_folder_unreadable",
    "C74_put_folder"
   ],
   "note": "that folder objects can be read, are listed, and are gone after their deletion is refuted; proved are the exact effects of uploads and deletions."
  },
  {
   "property": "C75",
   "status": "partial",
   "theorems": [
    "C75_accepted_exactly",
    "C75_accepted_means",
    "C75_encodings",
    "C75_form_unique",
    "C75_headers_refuted",
    "C75_pieces_agree"
   ],
   "note": "exact grammar of what is accepted; that further part headers and files without a content type are accepted is refuted."
  },
  {
   "property": "C76",
   "status": "proved",
   "theorems": [
    "C76_lossy_exactly",
    "C76_lossy_keeps",
    "C76_lossy_text",
    "C76_text_unique",
    "C76_valid_exactly"
   ],
   "note": "the specification is the encoding of RFC 3629; the functions modelled are those of the Rust standard library which the code calls."
  },
  {
   "property": "C77",
   "status": "proved",
   "theorems": [
    "C77_conversations_reveal_nothing",
    "C77_only_the_comparison",
    "C77_refusals_reveal_nothing"
   ],
   "note": "noninterference; chunk-signed uploads whose header signature is valid under both secrets are a case of its own in C77_only_the_comparison."
  },
  {
   "property": "C78",
   "status": "partial",
   "theorems": [
    "C78_replay_refuted",
    "C78_scope_ignored",
    "C78_scope_refuted"
   ],
   "note": "refuted: algorithm, date and service of the credential are ignored and requests do not age. Proved is that they have no influence."
  },
  {
   "property": "C79",
   "status": "partial",
   "theorems": [
    "C79_head_agrees",
    "C79_headers_refuted",
    "C79_phantom_refuted",
    "C79_views_agree"
   ],
   "note": "refuted for keys that name folders (C79_phantom_refuted) and for the headers content-type and etag (C79_headers_refuted); proved otherwise."
  },
  {
   "property": "C80",
   "status": "proved",
   "theorems": [
    "C80_any_storage",
    "C80_no_splitting",
    "C80_read_as_sent",
    "C80_replies_clean"
   ],
   "note": "for the server's own header block; framing headers added by hyper (date, transfer-encoding) are outside the model."
  },
  {
   "property": "C81",
   "status": "partial",
   "theorems": [
    "C81_any_number",
    "C81_batch_delete_refuted",
    "C81_completion_refuted",
    "C81_idempotent_methods",
    "C81_storage"
   ],
   "note": "refuted for repeated completions (C81_completion_refuted) and batch deletions with repeated keys (C81_batch_delete_refuted), both sent by POST; proved for all requests by GET, HEAD, PUT and DELETE, copies between ordinary keys."
  },
  {
   "property": "C82",
   "status": "partial",
   "theorems": [
    "C82_any_cut",
    "C82_form_cut_partial",
    "C82_form_cut_refuted"
   ],
   "note": "refuted for forms cut within their first line (C82_form_cut_refuted); proved for all other requests and all other cuts of well-formed forms."
  },
  {
   "property": "C83",
   "status": "partial",
   "theorems": [
    "C83_delimiter_refuted",
    "C83_limit_refuted",
    "C83_marker_refuted",
    "C83_pages_complete"
   ],
   "note": "completeness is proved; limits, markers and delimiters are refuted (C83_limit_refuted, C83_marker_refuted, C83_delimiter_refuted)."
  },
  {
   "property": "C84",
   "status": "partial",
   "theorems": [
    "C84_copy_refuted",
    "C84_header",
    "C84_header_validator",
    "C84_kept",
    "C84_past",
    "C84_same_second_refuted",
    "C84_shown",
    "C84_validator",
    "C84_written"
   ],
   "note": "everything is proved except that CopyObject reports the time of the source (C84_copy_refuted) and that two writes within one second share a header (C84_same_second_refuted)."
  },
  {
   "property": "C85",
   "status": "partial",
   "theorems": [
    "C85_client_error",
    "C85_client_error_store",
    "C85_internal_error_refuted",
    "C85_storage_refusal"
   ],
   "note": "proved for every refusal; refuted for internal errors, which may come after the object has been replaced (C85_internal_error_refuted)."
  },
  {
   "property": "C86",
   "status": "partial",
   "theorems": [
    "C86_completion_apart",
    "C86_completion_reaches_refuted",
    "C86_part_apart",
    "C86_part_reaches_refuted",
    "C86_unknown_id_refuted"
   ],
   "note": "proved for ids without '..' segments, in particular all issued ids; refuted for other ids, and no id is checked to have been issued (C86_part_reaches_refuted, C86_completion_reaches_refuted, C86_unknown_id_refuted)."
  },
  {
   "property": "C87",
   "status": "partial",
   "theorems": [
    "C87_climbing_key_refuted",
    "C87_dot_key_refuted",
    "C87_leftover_refuted",
    "C87_orderly"
   ],
   "note": "the invariant is proved for keys inside their bucket and ids without slashes; refuted for other keys (C87_dot_key_refuted, C87_climbing_key_refuted), and deletions leave metadata files (C87_leftover_refuted)."
  },
  {
   "property": "C88",
   "status": "partial",
   "theorems": [
    "C88_internal_refuted",
    "C88_missing_bucket",
    "C88_no_such_key",
    "C88_upload_creates_refuted"
   ],
   "note": "the exact answer of each operation is proved; that it is the one documented for S3 is refuted for most operations (C88_internal_refuted, C88_upload_creates_refuted)."
  },
  {
   "property": "C89",
   "status": "partial",
   "theorems": [
    "C89_directives_refuted",
    "C89_fields_that_matter",
    "C89_policy_is_not_read"
   ],
   "note": "noninterference is proved in full; that the directives of a form are obeyed is refuted (C89_directives_refuted)."
  },
  {
   "property": "C90",
   "status": "partial",
   "theorems": [
    "C90_marked_refuted",
    "C90_never_marked",
    "C90_pieces"
   ],
   "note": "that pieces make up the whole is proved in full; that they are marked as pieces is refuted for every ranged download (C90_never_marked, C90_marked_refuted)."
  },
  {
   "property": "C91",
   "status": "proved",
   "theorems": [
    "C91_undisturbed"
   ],
   "note": "the client's requests are to be well behaved; what happens with keys and upload ids that leave their bucket is in C43, C86 and C87."
  },
  {
   "property": "C92",
   "status": "proved",
   "theorems": [
    "C92_backup",
    "C92_deleted_gone"
   ],
   "note": "about requests handled one after the other and to the end, on stores without files of 2^63 bytes or more; times are left out (a copy of the directory keeps them or not)."
  },
  {
   "property": "C93",
   "status": "partial",
   "theorems": [
    "C93_encoded",
    "C93_metadata_refuted",
    "C93_moved",
    "C93_nothing_made_up",
    "C93_replies"
   ],
   "note": "C93_moved and C93_replies are proved for every relation between bytes; C93_nothing_made_up and C93_encoded are consequences. Missing: keys or upload ids that resolve to a metadata file (such as ../.bucket-...); for those the claim is false, C93_metadata_refuted. Interleaved requests are not covered."
  },
  {
   "property": "C94",
   "status": "proved",
   "theorems": [
    "C94_bounded",
    "C94_buckets_once",
    "C94_deletion_twice",
    "C94_listing_once"
   ],
   "note": "All interleavings with failing calls. The calls that read or write data are not counted (their number depends on the data). The loops of listings and of remove_dir_all are bounded in the model by the number of nodes when the request starts plus an arbitrary number; the statements about them do not use the bound."
  },
  {
   "property": "C95",
   "status": "proved",
   "theorems": [
    "C95_together",
    "C95_untouched"
   ],
   "note": "The requests of the tenant are all but listings of objects or buckets and DeleteBucket (the bound that the model sets to their loops depends on the number of nodes of the store, and so on the others); the requests of the others may be any that stay away from the tenant's buckets and uploads, including DeleteBucket and listings of their buckets. The answers to GetObject are compared by the bytes their bodies deliver."
  },
  {
   "property": "C96",
   "status": "partial",
   "theorems": [
    "C96_bounded",
    "C96_completion",
    "C96_copy",
    "C96_delete",
    "C96_left_refuted",
    "C96_own_part_refuted",
    "C96_sequence"
   ],
   "note": "The bounds are proved. The last sentence is false (C96_left_refuted): the metadata file of an object is removed by no request. That a completion takes nothing holds for keys that stay in the bucket; it is false for an upload that is completed into one of its own parts (C96_own_part_refuted). Concurrent copies and completions are not bounded by the theorem (a copy takes what its source holds when it is read)."
  },
  {
   "property": "C97",
   "status": "proved",
   "theorems": [
    "C97_alone",
    "C97_confined",
    "C97_download",
    "C97_mixture",
    "C97_no_gaps_refuted",
    "C97_origin"
   ],
   "note": "Zeros are in the statement because they occur: `C97_no_gaps_refuted` shows two overlapping uploads of one object, both answered as successful, after which the object has zero bytes that nobody sent."
  },
  {
   "property": "C98",
   "status": "proved",
   "theorems": [
    "C98_answer_refuted",
    "C98_undisturbed"
   ],
   "note": "The answer itself is not atomic: `C98_answer_refuted` shows a GetObject that is answered with InternalError because the object is deleted meanwhile, though it would be served before and be NoSuchKey afterwards."
  },
  {
   "property": "C99",
   "status": "proved",
   "theorems": [
    "C99_download_after_upload",
    "C99_download_among_others",
    "C99_origin",
    "C99_undisturbed"
   ],
   "note": "Replies of the model are sent by reading the open file piece by piece; the client waits for the end."
  }
 ]
}