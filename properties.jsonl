{"id": "C01", "title": "Path-style addressing is exact", "statement": "A decoded request path is accepted as the service root, as a bucket or as an object exactly when it is '/', '/B' or '/B/', or '/B/K' with B a legal bucket name and K a non-empty key of at most 1024 bytes; the bucket and key handed to the operation are byte-for-byte the ones in the path, and every other path is rejected with the documented reason (InvalidURI, InvalidBucketName, KeyTooLong).", "quantifier": "every byte string used as request path", "why_tests_cant": "tests sample a few paths; the claim is an equivalence over all strings, including those with repeated slashes, empty segments and over-long keys", "anchors": ["src/path.rs: S3Path::try_from_path, check_bucket_name, check_key", "src/service.rs: extract_s3_path"]}
{"id": "C02", "title": "Bucket names obey the naming rules", "statement": "A bucket name is accepted exactly when it has 3 to 63 bytes, uses only a-z, 0-9, '.' and '-', begins and ends with a letter or digit, is not a dotted-quad IPv4 address, and does not start with 'xn--'. In particular an accepted name is never '.', '..', empty, and never contains a slash, so it names exactly one directory level.", "quantifier": "every byte string", "why_tests_cant": "an equivalence over all strings cannot be sampled; the security consequence (never a path separator or dot segment) must hold for all accepted names", "anchors": ["src/path.rs: S3Path::check_bucket_name"]}
{"id": "C03", "title": "Range header parsing is exact", "statement": "A Range header is accepted exactly when it is 'bytes=F-', 'bytes=F-L' with F<=L, or 'bytes=-N', where F, L, N are non-empty ASCII digit strings whose values fit in 64 bits; the numbers delivered are the decimal values of the digit strings. Everything else is rejected.", "quantifier": "every header string", "why_tests_cant": "overflow and ambiguous-syntax corner cases form an infinite set", "anchors": ["src/headers/range.rs: Range::from_header_str"]}
{"id": "C04", "title": "x-amz-date round trip", "statement": "Parsing accepts exactly the 16-byte strings DDDDDDDDTDDDDDDZ of digits, and printing the parsed value gives back the very same string; the printed date is its first eight characters. So the timestamp that gets signed is the timestamp that was sent.", "quantifier": "every header string", "why_tests_cant": "10^14 accepted strings plus all rejected ones", "anchors": ["src/headers/amz_date.rs: AmzDate::from_header_str, to_iso8601, to_date"]}
{"id": "C05", "title": "Copy source parsing is exact", "statement": "A copy-source header 'B/K' without newline is accepted exactly when B (the text before the first slash that is not the first character) is a legal bucket name and K is non-empty and at most 1024 bytes; the bucket and key are exactly these two parts.", "quantifier": "every header string", "why_tests_cant": "regular-expression leftmost/lazy semantics has to be right for all strings, not a few", "anchors": ["src/headers/amz_copy_source.rs: AmzCopySource::from_header_str, try_match"]}
{"id": "C06", "title": "Authorization header parsing is faithful", "statement": "Printing an AWS4 Authorization header from an access key, a valid date, a region, a service, a list of header names and a signature (each free of its own delimiter) and parsing it gives back exactly those values; conversely whatever is accepted is an instance of that grammar, with the returned fields concatenating back to the header.", "quantifier": "all field values and all header strings", "why_tests_cant": "round trip and soundness range over unbounded strings", "anchors": ["src/headers/authorization_v4.rs: CredentialV4::parse_by_nom, verify_date, AuthorizationV4::from_header_str"]}
{"id": "C07", "title": "Canonical percent-encoding is unambiguous", "statement": "Percent-encoding used for signing maps different inputs to different outputs, produces only unreserved characters, '%XX' with uppercase hex and (only in path mode) '/', leaves unreserved characters alone, and percent-decoding the result gives back the input.", "quantifier": "every byte string, both modes", "why_tests_cant": "injectivity over all byte strings is not testable", "anchors": ["src/signature_v4.rs: uri_encode"]}
{"id": "C08", "title": "Header and query lookup", "statement": "Looking up a header or query parameter by name returns a value exactly when the request carries that name, and the value returned is one that the request carries under that name (the only one when it occurs once), whatever the order in which the request lists them.", "quantifier": "every list of name/value pairs and every name", "why_tests_cant": "binary search correctness over all lists with duplicates and permutations", "anchors": ["src/data_structures/ordered_headers.rs: OrderedHeaders::from_req, get", "src/data_structures/ordered_qs.rs: OrderedQs::from_query, get"]}
{"id": "C09", "title": "Signed header selection", "statement": "For header-based authentication the headers entering the signature are exactly those request headers whose name appears in SignedHeaders, in sorted order, independent of the order in which SignedHeaders lists them and of the order in which the request sends them.", "quantifier": "every header list and every SignedHeaders list", "why_tests_cant": "order independence is a statement over all permutations", "anchors": ["src/data_structures/ordered_headers.rs: OrderedHeaders::map_signed_headers", "src/service.rs: check_header_auth"]}
{"id": "C10", "title": "Canonical request ignores transmission order", "statement": "Re-ordering query parameters or headers of a request does not change its canonical request, hence not its signature.", "quantifier": "every request and every permutation of its query parameters and headers", "why_tests_cant": "all permutations of all requests", "anchors": ["src/signature_v4.rs: create_canonical_request, create_presigned_canonical_request"]}
{"id": "C11", "title": "Canonical request binds the whole request", "statement": "If two requests have the same canonical request then they have the same method, the same raw path, the same multiset of query parameters, the same signed headers with the same (trimmed) values and the same payload descriptor. No two different requests share a string to sign.", "quantifier": "all pairs of requests", "why_tests_cant": "injectivity ranges over pairs of unbounded requests; a test can only exhibit samples", "anchors": ["src/signature_v4.rs: create_canonical_request, create_string_to_sign"]}
{"id": "C12", "title": "No unauthenticated request reaches storage", "statement": "With an authentication provider configured, a storage operation is invoked only if the request carried an access key known to the provider and a signature equal to the AWS4-HMAC-SHA256 signature, under that key's secret, of the canonical form of this very request (header or presigned authentication) or of the submitted policy (POST form).", "quantifier": "every request and every authentication provider", "why_tests_cant": "quantifies over all requests, including malformed combinations of authentication methods", "anchors": ["src/service.rs: handle, check_signature, check_header_auth, check_presigned_url, check_post_signature, fetch_secret_key"]}
{"id": "C13", "title": "Correctly signed requests are accepted", "statement": "A client that signs a request according to AWS Signature Version 4 (header method, whole payload hashed, or UNSIGNED-PAYLOAD, or streaming) with the secret of a registered access key passes authentication and reaches operation dispatch with its body unchanged.", "quantifier": "every method, path of unreserved characters, query, header set, payload, key, region and date", "why_tests_cant": "completeness over all requests is not sampled by fixed vectors", "anchors": ["src/service.rs: check_header_auth", "src/signature_v4.rs"]}
{"id": "C14", "title": "Presigned URLs: exactly the holder of the secret can make them", "statement": "A presigned URL built with the AWS algorithm under the secret of a registered key, whose SignedHeaders list is sorted, is accepted, and an accepted presigned URL carries the AWS signature of its own method, path, remaining query parameters and signed headers.", "quantifier": "every presigned request", "why_tests_cant": "ranges over all queries and header sets", "anchors": ["src/service.rs: check_presigned_url", "src/signature_v4.rs: PresignedUrl::from_query, create_presigned_canonical_request"]}
{"id": "C15", "title": "Tampering is detected or a hash collision is exhibited", "statement": "Take two requests accepted by header authentication that present the same signature under the same secret, timestamp and region. Then they have the same method, path, query parameters, signed headers and payload, or the two canonical requests are an explicit SHA-256 collision, or the two strings to sign are an explicit HMAC-SHA-256 collision.", "quantifier": "all pairs of accepted requests", "why_tests_cant": "all pairs of requests an adversary can choose", "anchors": ["src/service.rs: check_header_auth", "src/signature_v4.rs: create_canonical_request, create_string_to_sign, calculate_signature"]}
{"id": "C16", "title": "Anonymous mode", "statement": "Without an authentication provider, a request that carries no Authorization header, no X-Amz-Signature query parameter and is not a multipart/form-data POST is passed on unchanged, and any request that does attempt to authenticate is refused without touching storage.", "quantifier": "every request", "why_tests_cant": "all requests", "anchors": ["src/service.rs: check_signature, check_header_auth, check_presigned_url, check_post_signature"]}
{"id": "C17", "title": "POST form uploads are authenticated by their policy", "statement": "A multipart/form-data POST is accepted only if the form has policy, x-amz-algorithm=AWS4-HMAC-SHA256, x-amz-credential with a registered access key, x-amz-date, and x-amz-signature equal to the AWS4 signature of the policy text under that key; the last occurrence of a repeated field counts.", "quantifier": "every form", "why_tests_cant": "all forms", "anchors": ["src/service.rs: check_post_signature", "src/streams/multipart.rs: Multipart::find_field_value"]}
{"id": "C18", "title": "Rejected requests have no effect", "statement": "A request refused before dispatch (bad path, bad headers or query, failed authentication, method not allowed, not supported) leaves the stored data exactly as it was.", "quantifier": "every request and every store state", "why_tests_cant": "all requests in all states", "anchors": ["src/service.rs: handle"]}
{"id": "C19", "title": "Presigned URLs stop working after they expire", "statement": "A presigned URL whose X-Amz-Date plus X-Amz-Expires lies in the past is refused.", "quantifier": "every presigned request and every current time", "why_tests_cant": "requires controlling time for all requests", "anchors": ["src/service.rs: check_presigned_url", "src/signature_v4.rs: PresignedUrl::from_query"]}
{"id": "C20", "title": "Canonical URI agrees with the AWS specification", "statement": "The canonical URI used to verify a request equals the URI-encoding of the decoded request path, as AWS SigV4 for S3 prescribes, so that requests signed by standard clients verify for every key.", "quantifier": "every request path", "why_tests_cant": "keys with reserved characters form an infinite set", "anchors": ["src/signature_v4.rs: create_canonical_request, uri_encode", "src/service.rs: check_header_auth"]}
{"id": "C21", "title": "Chunked upload decoding does not depend on network framing", "statement": "The decoded data of an aws-chunked upload, and whether and how it fails, depends only on the concatenation of the received bytes, never on how the network splits them into frames.", "quantifier": "every byte stream and every way of splitting it into frames", "why_tests_cant": "all splittings of all streams, including empty frames and splits inside headers and CRLFs", "anchors": ["src/streams/aws_chunked_stream.rs: AwsChunkedStream::new, read_meta_bytes, read_data"]}
{"id": "C22", "title": "Chunked uploads deliver only verified bytes", "statement": "Every byte delivered by the decoder belongs to a chunk whose signature was verified against the running signature chain that starts at the seed signature of the authenticated request; on a signature mismatch nothing of that chunk or after it is delivered and the stream ends in an error.", "quantifier": "every byte stream, framing, key, date, region, seed", "why_tests_cant": "adversarial streams", "anchors": ["src/streams/aws_chunked_stream.rs: check_signature, AwsChunkedStream::new", "src/signature_v4.rs: create_chunk_string_to_sign"]}
{"id": "C23", "title": "Chunked uploads round trip", "statement": "Encoding any sequence of data chunks (each below 4 GiB) as a signed aws-chunked stream and decoding it gives back exactly the data and a normal end of stream.", "quantifier": "every list of chunks, every framing", "why_tests_cant": "all data and all framings", "anchors": ["src/streams/aws_chunked_stream.rs: parse_chunk_meta, read_data"]}
{"id": "C24", "title": "Truncated chunked uploads are detected", "statement": "If a chunked upload ends before its final zero-length chunk, the decoder reports an error, so a truncated upload is never stored as if complete.", "quantifier": "every stream and every truncation point", "why_tests_cant": "all truncation points of all streams", "anchors": ["src/streams/aws_chunked_stream.rs: AwsChunkedStream::new (None => break), read_meta_bytes"]}
{"id": "C25", "title": "Form file content is exact", "statement": "The file content delivered from a POST form is exactly the bytes before the first occurrence of CRLF--boundary after the part header, however the body is split into frames; if there is no such delimiter the upload fails as incomplete.", "quantifier": "every body, boundary and framing", "why_tests_cant": "partial matches of the delimiter across arbitrarily many frames", "anchors": ["src/streams/multipart.rs: FileStream::new, gen"]}
{"id": "C26", "title": "Form fields round trip", "statement": "A form produced by a standard encoder (boundary not occurring in the values, each field with one Content-Disposition header, a file part with Content-Type) and delivered in one frame is parsed into exactly its fields in order, its file name, content type and content.", "quantifier": "every list of fields, every boundary", "why_tests_cant": "all field contents and counts", "anchors": ["src/streams/multipart.rs: transform_multipart, try_parse, CrlfLines::next_line, split_to, parse_content_disposition"]}
{"id": "C27", "title": "Form parsing does not depend on network framing", "statement": "Whether a POST form is accepted, and the fields parsed from it, depend only on the bytes of the body and not on how the network splits them into frames.", "quantifier": "every form body and every framing", "why_tests_cant": "all splittings", "anchors": ["src/streams/multipart.rs: transform_multipart, try_parse, CrlfLines::next_line"]}
{"id": "C28", "title": "Download body is exact for every read schedule", "statement": "The response stream over a file delivers exactly the first min(limit, remaining) bytes, in order, without loss or duplication, in pieces of at most the buffer size, whatever number of bytes each underlying read returns.", "quantifier": "every content, limit, buffer size and sequence of short reads", "why_tests_cant": "all read schedules", "anchors": ["src/data_structures/bytes_stream.rs: BytesStream::poll_next"]}
{"id": "C29", "title": "What is put is what is got", "statement": "After a successful PutObject of data D under a bucket and key, GetObject of that bucket and key returns exactly D with Content-Length |D|, and it keeps doing so until an operation that writes or deletes that object or its bucket.", "quantifier": "every store state, bucket, key, body and framing, and every later sequence of operations on other objects", "why_tests_cant": "all histories", "anchors": ["src/storages/fs.rs: put_object, get_object, copy_bytes", "src/ops/put_object.rs", "src/ops/get_object.rs"]}
{"id": "C30", "title": "Writes touch only their target", "statement": "PutObject, CopyObject, DeleteObject and CompleteMultipartUpload on one object leave the content and metadata of every object with a different location, and the existence of every bucket other than the target's, unchanged.", "quantifier": "every store state and every pair of objects", "why_tests_cant": "frame conditions quantify over all other objects", "anchors": ["src/storages/fs.rs: put_object, copy_object, delete_object, complete_multipart_upload"]}
{"id": "C31", "title": "ETag is the MD5 of the content", "statement": "Whenever PutObject, CopyObject, UploadPart, CompleteMultipartUpload or GetObject succeeds, the ETag returned is the quoted lowercase hex MD5 of the whole content stored under the object (or part) at that moment.", "quantifier": "every store state and request", "why_tests_cant": "all contents", "anchors": ["src/storages/fs.rs: get_md5_sum, put_object, copy_object, get_object, upload_part, complete_multipart_upload"]}
{"id": "C32", "title": "Range reads return the requested slice", "statement": "A ranged GetObject returns exactly bytes F..min(L,len-1), F..len-1 or the last N bytes of the object, and answers InvalidRange exactly when F is not below the length or N exceeds the length; the announced Content-Length equals the number of bytes delivered.", "quantifier": "every object content and every accepted range", "why_tests_cant": "64-bit wrap-around corner cases", "anchors": ["src/storages/fs.rs: get_object", "src/headers/range.rs", "src/data_structures/bytes_stream.rs"]}
{"id": "C33", "title": "Copy duplicates content", "statement": "After a successful CopyObject to a different object, the destination has the content of the source and the source is unchanged; if the source does not exist nothing changes.", "quantifier": "every store state, source and destination", "why_tests_cant": "all states", "anchors": ["src/storages/fs.rs: copy_object"]}
{"id": "C34", "title": "Delete removes exactly the object", "statement": "After a successful DeleteObject of a non-directory key, GetObject and HeadObject of the key answer NoSuchKey, and all other objects remain; deleting an object that does not exist changes nothing.", "quantifier": "every store state and key", "why_tests_cant": "all states", "anchors": ["src/storages/fs.rs: delete_object"]}
{"id": "C35", "title": "Batch delete removes exactly the listed objects", "statement": "When DeleteObjects with pairwise different keys succeeds, the objects that existed among the listed keys are gone and are exactly the ones reported deleted, in request order; no other object is affected.", "quantifier": "every store state and every list of keys", "why_tests_cant": "lists of any length", "anchors": ["src/storages/fs.rs: delete_objects"]}
{"id": "C36", "title": "Listing is complete, exact and sorted", "statement": "ListObjects and ListObjectsV2 on an existing bucket return exactly the keys in that bucket that start with the prefix, each once, in ascending byte order, with the right sizes, whatever order the file system enumerates directories in; KeyCount is their number.", "quantifier": "every store state, bucket, prefix and directory enumeration order", "why_tests_cant": "arbitrary trees and enumeration orders", "anchors": ["src/storages/fs.rs: list_objects, list_objects_v2"]}
{"id": "C37", "title": "Bucket life cycle", "statement": "CreateBucket succeeds exactly when the bucket does not exist, after which HeadBucket succeeds and ListBuckets shows it; DeleteBucket makes HeadBucket answer NoSuchBucket and removes all its objects and nothing of other buckets; ListBuckets shows exactly the existing buckets with legal names.", "quantifier": "every store state and bucket", "why_tests_cant": "all states", "anchors": ["src/storages/fs.rs: create_bucket, delete_bucket, head_bucket, list_buckets, get_bucket_location"]}
{"id": "C38", "title": "Multipart upload assembles its parts in order", "statement": "If parts 1..n were uploaded under an upload id (any upload order, re-uploads allowed) and completion lists 1..n, the object's content becomes the concatenation of the last uploaded contents of parts 1..n and the part data is gone afterwards; a list that is not 1..n is refused.", "quantifier": "every n, part contents, upload order, store state", "why_tests_cant": "all interleavings of part uploads", "anchors": ["src/storages/fs.rs: upload_part, complete_multipart_upload"]}
{"id": "C39", "title": "Uploads do not mix", "statement": "Part data uploaded under one upload id and part number is never visible under another upload id or part number, nor as an object of any bucket, for upload ids as issued by CreateMultipartUpload.", "quantifier": "every pair of upload ids and part numbers", "why_tests_cant": "name-collision freedom over all ids", "anchors": ["src/storages/fs.rs: upload_part (format!), complete_multipart_upload, create_multipart_upload"]}
{"id": "C40", "title": "A failed completion keeps the old object", "statement": "If CompleteMultipartUpload is refused (missing or misordered parts) then the object that was stored under the key before is still there unchanged, and the uploaded parts are kept.", "quantifier": "every store state and part list", "why_tests_cant": "all states", "anchors": ["src/storages/fs.rs: complete_multipart_upload"]}
{"id": "C41", "title": "All accesses stay inside the storage root", "statement": "Whatever bucket, key, copy source or upload id a request carries, every file or directory the storage reads, creates, overwrites or deletes lies inside the configured root directory.", "quantifier": "every request and every key, including '..' and absolute paths", "why_tests_cant": "path traversal must be excluded for all keys", "anchors": ["src/storages/fs.rs: get_object_path, get_bucket_path, get_metadata_path, upload_part"]}
{"id": "C42", "title": "Bucket isolation", "statement": "An operation on an object of one bucket cannot read or modify objects of another bucket.", "quantifier": "every key", "why_tests_cant": "keys containing dot segments", "anchors": ["src/storages/fs.rs: get_object_path"]}
{"id": "C43", "title": "Distinct keys are distinct objects", "statement": "Two different (bucket, key) pairs never share content or metadata, for keys that are free of empty, '.' and '..' segments; metadata is never shared by different pairs for any keys.", "quantifier": "all pairs of bucket/key pairs", "why_tests_cant": "injectivity over all pairs", "anchors": ["src/storages/fs.rs: get_object_path, get_metadata_path"]}
{"id": "C44", "title": "User metadata round trips", "statement": "Metadata sent with PutObject is what GetObject and HeadObject return for that object, with every name and value preserved.", "quantifier": "every store state and metadata map", "why_tests_cant": "all maps, states and histories", "anchors": ["src/storages/fs.rs: save_metadata, load_metadata, put_object", "src/ops/put_object.rs: extract", "src/utils/response.rs: set_metadata_headers"]}
{"id": "C45", "title": "Metadata belongs to the current object", "statement": "The metadata returned with an object is the metadata of the PutObject or CopyObject that created its current content (none, if that operation had none), and disappears with the object.", "quantifier": "every history", "why_tests_cant": "all histories of put, copy, delete", "anchors": ["src/storages/fs.rs: put_object, delete_object, copy_object, load_metadata"]}
{"id": "C46", "title": "Interrupted writes never leave a mixture", "statement": "If the server stops, or the client's body fails, at any point during PutObject, the object afterwards has either its old content or the complete new content.", "quantifier": "every crash point, body and state", "why_tests_cant": "all crash points", "anchors": ["src/storages/fs.rs: put_object, copy_bytes"]}
{"id": "C47", "title": "Interruption affects only the target object", "statement": "If the server stops at any point during any storage operation, every object that is not the target of the operation has exactly the content it had before.", "quantifier": "every operation, crash point and state", "why_tests_cant": "all crash points of all operations", "anchors": ["src/storages/fs.rs"]}
{"id": "C48", "title": "Concurrent operations on different objects do not interfere", "statement": "For any interleaving of the file-system steps of concurrent PutObject operations on different, non-nested objects, each object ends with exactly the content of its own PutObject, as if they had run one after another.", "quantifier": "every number of operations, every interleaving", "why_tests_cant": "all schedules", "anchors": ["src/storages/fs.rs: put_object"]}
{"id": "C49", "title": "Concurrent overwrites are atomic", "statement": "When two PutObject operations on the same object overlap, the object ends with one of the two contents, and a GetObject overlapping a PutObject returns the old or the new content with the matching ETag.", "quantifier": "every interleaving", "why_tests_cant": "all schedules", "anchors": ["src/storages/fs.rs: put_object, get_object, get_md5_sum"]}
{"id": "C50", "title": "The store behaves like a map from bucket and key to content", "statement": "Every sequence of bucket, object and upload requests to a fresh store produces the same answers as a simple map from buckets and keys to content, for requests on ordinary keys (no empty, '.' or '..' segments, no key a directory prefix of another) that do not copy an object onto itself, copy or complete only to places whose directory exists, complete uploads with all their parts, and ask for ranges that begin inside the object.", "quantifier": "every sequence of operations", "why_tests_cant": "all histories", "anchors": ["src/storages/fs.rs"]}
{"id": "C51", "title": "Read operations do not modify the store", "statement": "GetObject, HeadObject, HeadBucket, GetBucketLocation, ListBuckets, ListObjects, ListObjectsV2 and CreateMultipartUpload leave the stored data exactly unchanged, whether they succeed or fail.", "quantifier": "every request and state", "why_tests_cant": "all requests in all states", "anchors": ["src/storages/fs.rs"]}
{"id": "C52", "title": "Requests are dispatched to the operation they denote", "statement": "Each request is dispatched to at most one operation, determined by method, kind of path, query parameters and headers as in the S3 API tables; requests matching none are answered NotSupported.", "quantifier": "every request", "why_tests_cant": "all combinations of query parameters and headers", "anchors": ["src/ops.rs: setup_handlers", "src/ops/*.rs: is_match", "src/service.rs: handle"]}
{"id": "C53", "title": "No request can crash the handler", "statement": "No request makes the dispatch or request-extraction code panic.", "quantifier": "every request", "why_tests_cant": "all requests", "anchors": ["src/ops.rs: ReqContext::unwrap_object_path, unwrap_bucket_path, unwrap_qs, unwrap_header", "src/ops/*.rs: extract"]}
{"id": "C54", "title": "Error codes and statuses", "statement": "Every S3 error code prints to a name that parses back to the same code, no other string parses, and every error response carries the HTTP status documented for its code (500 when the code has none).", "quantifier": "every code and every string", "why_tests_cant": "equivalence over all strings", "anchors": ["src/errors.rs: S3ErrorCode::as_static_str, from_bytes, parse_from_str, as_status_code", "src/output.rs: XmlErrorResponse::try_into_response"]}
{"id": "C55", "title": "Copying an object onto itself keeps it", "statement": "After a successful CopyObject whose source and destination are the same object, the object still has its content and can be read.", "quantifier": "every store state and object", "why_tests_cant": "all states and contents; a refutation needs one witness, the general loss of content is for all", "anchors": ["src/storages/fs.rs: copy_object"]}
{"id": "C57", "title": "The conditions of a POST policy are enforced", "statement": "A form upload is accepted only if the policy it is signed with has not expired and every condition of the policy (bucket, key prefix, content length range, exact matches) holds for the form.", "quantifier": "every form and policy", "why_tests_cant": "all policies and forms; a refutation needs one witness", "anchors": ["src/service.rs: check_post_signature", "src/streams/multipart.rs: Multipart::find_field_value"]}
{"id": "C58", "title": "The storage is called with what the request says", "statement": "When a request reaches the storage, the bucket, key, prefix, range, copy source, upload id, part number, storage class, content length, user metadata and body passed to it are exactly those that the request's path, parameters, headers, form fields and body give; a request that passed authentication, denotes an operation and has readable integers, flags and documents does reach the storage, and one whose arguments cannot be read does not.", "quantifier": "every server configuration and HTTP request, for each of the sixteen operations", "why_tests_cant": "unbounded combinations of headers, parameters and forms; repeated and absent arguments", "anchors": ["src/ops/*.rs: extract", "src/ops.rs: ReqContext", "src/data_structures/ordered_headers.rs: assign", "src/data_structures/ordered_qs.rs: assign"]}
{"id": "C59", "title": "What is uploaded over HTTP is downloaded over HTTP", "statement": "If a PUT of an object is answered with a success, the response carries the quoted MD5 of the data that the body delivers (decoded from its signed chunks if it is streamed), and any later accepted GET without a range is answered 200 with exactly that data, its decimal length, that tag and the metadata headers sent with the upload; HEAD gives the same length and metadata. Any requests that do not write the object may come in between.", "quantifier": "every server configuration, well-formed store, request, body framing and sequence of other requests", "why_tests_cant": "unbounded data, metadata, framings and request sequences across all layers", "anchors": ["src/service.rs: S3Service::handle", "src/ops/put_object.rs", "src/ops/get_object.rs", "src/ops/head_object.rs", "src/utils/response.rs", "src/storages/fs.rs: put_object, get_object, head_object"]}
{"id": "C60", "title": "Status codes tell the truth", "statement": "A reply is a success (2xx, no error document) only if the request reached the storage with the arguments it asks for and the storage completed the operation; every completed operation is reported as a success unless the object's metadata cannot be written in headers, which gives InternalError; every error of the storage is reported with its code and a status of at least 400.", "quantifier": "every server configuration, store and HTTP request, for each of the sixteen operations", "why_tests_cant": "all requests and all storage outcomes", "anchors": ["src/service.rs: hyper_call, handle", "src/output.rs: S3Output", "src/ops/*.rs: try_into_response", "src/utils/response.rs"]}
{"id": "C62", "title": "Every successful upload can be downloaded as sent", "statement": "Whatever request stored an object successfully (PUT or form), a later accepted GET succeeds and shows exactly the metadata of that request.", "quantifier": "every upload request and store", "why_tests_cant": "all metadata names and histories; a refutation needs one witness", "anchors": ["src/ops/put_object.rs: extract", "src/utils/response.rs: set_metadata_headers", "src/storages/fs.rs: put_object, load_metadata"]}
{"id": "C63", "title": "Only registered keys open the server", "statement": "The built-in key provider knows exactly the registered access keys, each with the secret registered last; the storage is called only for requests signed with a registered key and its secret. A server started with an access key and a secret key on the command line executes only requests signed with these; giving only one of them does not start a server without authentication.", "quantifier": "every list of registrations, command line and HTTP request", "why_tests_cant": "all registrations and all requests with forged or unknown keys", "anchors": ["src/auth.rs: SimpleAuth::register, lookup, get_secret_access_key", "src/bin/s3-server.rs: Args, main", "src/service.rs: check_signature"]}
{"id": "C64", "title": "Over HTTP the server behaves like a map", "statement": "Take any sequence of HTTP requests to a fresh server in which the requests that pass the checks are well behaved (as in C50, with metadata that fit into headers) and any others are mixed in. Every reply to an accepted request shows, in its status, headers and body, exactly what a map from buckets and keys to content and metadata answers: object data with length, tag and metadata, listings, deletions, copies, assembled uploads, documented error codes. Refused requests change nothing.", "quantifier": "every finite sequence of requests, servers (keys, oracles) and names", "why_tests_cant": "all histories of requests", "anchors": ["src/service.rs:S3Service", "src/ops/*.rs", "src/output.rs", "src/storages/fs.rs"]}
{"id": "C61", "title": "Reply documents are read back as what was answered", "statement": "The XML text of every reply is a well-formed document that a standard XML reader understands in exactly one way: as the elements and texts the server meant, whatever characters keys and names contain. In particular whoever reads a listing finds exactly the keys and sizes of the objects in the bucket, and with encoding-type=url finds them after decoding.", "quantifier": "every request, store content, and all keys", "why_tests_cant": "all keys over all characters; escaping mistakes show on rare inputs", "anchors": ["src/utils/xml.rs", "src/utils/response.rs:set_xml_body", "src/ops/list_objects.rs", "src/ops/list_objects_v2.rs"]}
{"id": "C65", "title": "Parts uploaded in parallel assemble correctly", "statement": "Parts of one upload sent at the same time, in any interleaving of their file-system steps with each other and with other requests that do not touch these parts, do not disturb each other: a part that reports success holds exactly the bytes sent and answers their tag; without failing system calls each part succeeds. Completing afterwards, or completing among other requests that leave the object and its parts alone, yields exactly the concatenation of the parts in order, and the parts are gone.", "quantifier": "every number of parts and other requests, all bodies, every interleaving, failing system calls included", "why_tests_cant": "the number of interleavings of even a few requests is far beyond testing", "anchors": ["src/storages/fs.rs:upload_part", "src/storages/fs.rs:complete_multipart_upload"]}
{"id": "C66", "title": "Reads and deletions that come later see what was acknowledged", "statement": "A download that starts after an upload of the object has been acknowledged returns exactly the uploaded bytes, their length, their tag and their metadata, although any other requests that leave this object alone are still running before, between and after its file-system steps. Likewise, once a deletion has been acknowledged, a download or head request that starts afterwards finds no such key.", "quantifier": "every number of other requests, all bodies and metadata, every interleaving of their file-system steps; system calls may fail before the acknowledgement", "why_tests_cant": "the number of interleavings of even a few requests is far beyond testing", "anchors": ["src/storages/fs.rs:put_object", "src/storages/fs.rs:get_object", "src/storages/fs.rs:delete_object", "src/storages/fs.rs:head_object"]}
{"id": "C67", "title": "HTTP requests handled at the same time", "statement": "When many HTTP requests are handled at the same time, an upload that is answered with success carries the tag of the data its body delivers and the object holds exactly these data and the metadata sent; a download or head request of an existing object is answered exactly as if it were handled alone; objects that no request writes or deletes keep their content; and a download that arrives after an upload was answered delivers exactly what was uploaded. In each case the other requests may be anything, refused ones included, that does not write or delete this object.", "quantifier": "every list of HTTP requests, every server configuration, every interleaving of the file-system steps", "why_tests_cant": "interleavings and requests are unbounded", "anchors": ["src/service.rs:hyper_call", "src/service.rs:handle", "src/storages/fs.rs"]}
{"id": "C68", "title": "Requests repeated after an interruption", "statement": "An upload of an object or of a part that was interrupted any number of times, at any of its file-system steps (crash, failing system call, abandoned request), succeeds when it is sent again, and then the object (or part) holds exactly the data sent; the object can be downloaded with its tag and metadata. A completion that is repeated after an interruption assembles the object. An upload that replaces an interrupted one makes the object readable.", "quantifier": "all bodies, metadata, keys, initial stores satisfying the invariant, every number and every position of interruptions", "why_tests_cant": "interruptions at every system call in any number of attempts cannot be enumerated", "anchors": ["src/storages/fs.rs:put_object", "src/storages/fs.rs:upload_part", "src/storages/fs.rs:complete_multipart_upload", "src/storages/fs.rs:save_metadata"]}
{"id": "C69", "title": "Last-Modified names the modification time", "statement": "The time stamp the file-system storage hands over is an RFC 3339 time of exactly the second of the file's modification, whatever time zone the server runs in; the Last-Modified header made from any RFC 3339 time is an HTTP date of the same second (right weekday, Gregorian date and UTC time); HTTP dates are unambiguous; and the server's time zone does not show in the header.", "quantifier": "all modification times of the years 0 to 9999, all time zones", "why_tests_cant": "calendar corner cases (leap centuries, month ends, date changes across time zones, times before 1970) over ten thousand years", "anchors": ["src/utils/time.rs:to_rfc3339", "src/utils/time.rs:rfc3339_to_last_modified", "src/ops/get_object.rs:92", "src/ops/head_object.rs:92"]}
{"id": "C70", "title": "What is not read does not matter", "statement": "Two requests that differ in headers only, and agree on the ten headers the server reads, on user metadata headers and on the headers named as signed, have the same effect and the same reply; on a server without authentication the same holds of all query parameters but the twelve that are read. Conversely, preconditions (If-Match, If-None-Match, ...) and stated checksums (Content-MD5, ...) are not looked at, though the S3 API gives them a meaning (refuted).", "quantifier": "all requests, all servers, all stores; any number of further headers or parameters, in any place", "why_tests_cant": "an unbounded space of header and parameter names and values, and sorted lists searched by bisection, where an unrelated entry could change what is found", "anchors": ["src/service.rs:handle", "src/data_structures/ordered_headers.rs:get", "src/data_structures/ordered_qs.rs:get", "src/ops.rs:assign_opt"]}
{"id": "C71", "title": "The signature covers what decides on the request", "statement": "If every header with a meaning is named as signed, two requests with the same signed parts have the same effect and reply. Expected but refuted: the server accepts a signed request to which an unsigned x-amz-copy-source or x-amz-meta-* header was added, and does something else.", "quantifier": "all pairs of requests, all servers, all stores", "why_tests_cant": "quantifies over all ways of tampering with the unsigned part of all signed requests", "anchors": ["src/service.rs:check_header_auth", "src/service.rs:check_presigned_url", "src/ops/copy_object.rs:is_match"]}
{"id": "C72", "title": "The storage is given the members of the request", "statement": "Whenever the storage is called, the optional members it is given are exactly those that the request states by the headers and query parameters the S3 API defines for the operation, with their texts, numbers and flags; for forms, five of them are replaced by form fields. Expected but refuted: some members of the API (version ids, part numbers, response overrides of GetObject and HeadObject, expected bucket owners, bucket keys) never arrive.", "quantifier": "all 16 operations, all 138 rows of the handlers' tables, all servers and requests", "why_tests_cant": "one hand-written line for every member of every operation; a misspelt header or a swapped pair of fields is only seen by a test that happens to set this member", "anchors": ["src/ops/*.rs:extract", "src/ops.rs:assign_opt", "src/headers.rs"]}
{"id": "C73", "title": "The answer of any storage reaches the client", "statement": "Whatever a storage answers, the response has one header for each member of the answer that the S3 API puts into headers, with its text (times as HTTP dates), one for each piece of user metadata, and no others; the document is read by any XML reader as the answer, under the API's element names; no header can contain control characters: there is an internal error instead. Expected but refuted: the root element of CreateMultipartUpload's answer is misnamed, several common prefixes are put in one element, and metadata names that differ in case are merged.", "quantifier": "all answers of all storages for all 16 operations, all readings of the documents", "why_tests_cant": "the only storage in the repository sets few of the 98 header members and document fields; the others are never exercised", "anchors": ["src/ops/*.rs:try_into_response", "src/utils/response.rs:set_optional_header", "src/utils/response.rs:set_metadata_headers", "src/utils/xml.rs"]}
{"id": "C56", "title": "An object can be created under a key by every way of creating it", "statement": "An upload to a key succeeds exactly when no file is on the way to it and no folder is at it. A copy from an existing object, and the completion of an upload whose parts are all there, succeed exactly when in addition the folder of the key exists; otherwise a copy is answered with an internal error and changes nothing. Expected but refuted: that copies and completions succeed wherever uploads do, and that the answer depends on the stored objects only (the folders of deleted objects remain and matter).", "quantifier": "all stores, buckets, keys, contents and part lists", "why_tests_cant": "which copies fail depends on the uploads and deletions that ever happened; tests copy within one flat folder", "anchors": ["src/storages/fs.rs:copy_object", "src/storages/fs.rs:put_object", "src/storages/fs.rs:complete_multipart_upload"]}
{"id": "C74", "title": "Keys that end in a slash", "statement": "An upload to a key that ends in a slash is refused without effect unless it is declared empty; then it succeeds exactly when no file is in the way, creates the folders up to it and changes nothing else; a deletion removes the folder if it is empty and changes nothing otherwise. Expected but refuted: that the empty object so stored can be read and is listed with its length (it is never readable nor listed), and that a deletion answered with success has removed it.", "quantifier": "all stores, buckets, keys, declared lengths, bodies; all request histories for the listing", "why_tests_cant": "a separate code path that depends on the last byte of the key; whether folders matter to later requests depends on the history", "anchors": ["src/storages/fs.rs:put_object", "src/storages/fs.rs:delete_object", "src/storages/fs.rs:get_object"]}
{"id": "C75", "title": "Which bodies are forms", "statement": "A body is accepted as a form exactly if it is the text of a form (delimiter lines, at most two headers per part, a disposition with quoted names, values of valid text, a file with a content type); a text is the text of one form only; however the body is cut into pieces, if it is accepted then the fields, file name, type and file content are those of the whole text; the encodings of RFC 7578 are such texts. Expected but refuted: that further part headers are allowed and the content type of the file is optional.", "quantifier": "all byte strings, all boundaries, all ways of cutting a body into frames", "why_tests_cant": "an incremental parser over arbitrary bytes, with acceptance depending on line breaks, blanks, case and header order; only a proof over the grammar covers malformed bodies", "anchors": ["src/streams/multipart.rs:try_parse", "src/streams/multipart.rs:CrlfLines", "src/streams/multipart.rs:parse_content_disposition", "src/streams/multipart.rs:transform_multipart"]}
{"id": "C76", "title": "What counts as text is exactly UTF-8", "statement": "The test for text applied to request paths, query strings and form parts accepts exactly the encodings of sequences of Unicode scalar values (no overlong forms, surrogates or code points past the last), no two texts share their bytes, and where bytes are decoded leniently (query strings, names in listings) every scalar is kept and every maximal beginning of one, and every stray byte, becomes one U+FFFD; the result is always text, and equals the input exactly if that is text.", "quantifier": "all byte strings", "why_tests_cant": "the space of byte strings is infinite and the ranges of second bytes depend on the first; confusions (overlong slash) are exactly what a test misses", "anchors": ["src/ops/mod.rs:ReqContext", "src/streams/multipart.rs:parse_content_disposition", "src/data_structures/ordered_qs.rs:from_query", "src/storages/fs.rs:list_objects"]}
{"id": "C77", "title": "Secret keys influence nothing but the comparison of signatures", "statement": "Take two servers that know the same access keys but with other secrets. A request is handled by both in the same way, or it is signed for one of them and the other answers SignatureDoesNotMatch (or it is a chunk-signed upload whose header is signed for both). Hence the replies to clients that cannot sign, and whole conversations none of whose requests tells the secrets apart, including everything stored, are the same for all secrets: error documents and statuses reveal nothing about them.", "quantifier": "all requests, all pairs of key providers with the same access keys, all conversations and stores", "why_tests_cant": "noninterference relates pairs of runs over all secrets; a test compares a few", "anchors": ["src/service.rs:check_signature", "src/service.rs:check_header_auth", "src/service.rs:check_presigned_url", "src/service.rs:check_post_signature", "src/auth.rs"]}
{"id": "C78", "title": "Signed requests are accepted for their scope and time only", "statement": "Expected: a signed request is accepted only if its Authorization header names the algorithm AWS4-HMAC-SHA256, the date of its time stamp and the service s3, and only near its time stamp. Refuted: algorithm, credential date and service are ignored, whatever they are (proved: changing them changes neither effect nor reply), and an upload of the day before, replayed, undoes a later acknowledged upload.", "quantifier": "all requests, Authorization headers, stores", "why_tests_cant": "that a field has no influence at all is a statement about all requests and all values of the field", "anchors": ["src/service.rs:check_header_auth", "src/headers/authorization_v4.rs", "src/signature_v4.rs:create_string_to_sign"]}
{"id": "C79", "title": "Downloads, HEAD requests and listings agree", "statement": "In every reachable store an ordinary key is listed with a size exactly if it has the prefix asked for and a download succeeds with that size, and then a HEAD request gives the same size; in every store a HEAD request and a download of the same key give the same error or the same size and metadata. Expected without exception; refuted: a HEAD request finds the folders that contain objects, which neither downloads nor listings show, the content type sent with an upload is forgotten, and HEAD replies lack the entity tag.", "quantifier": "all request sequences, stores, buckets, keys and prefixes", "why_tests_cant": "agreement of three views is an equivalence over all reachable stores", "anchors": ["src/storages/fs.rs:head_object", "src/storages/fs.rs:get_object", "src/storages/fs.rs:list_objects", "src/ops/head_object.rs"]}
{"id": "C80", "title": "The head of every reply is read by the client as the server meant it", "statement": "In every reply to every request, in every store and even for any answer a storage could give, header names are lower-case tokens, header values contain no control characters, no header occurs twice, and the lines of the head followed by the body are read back by a client as exactly these headers and this body: no request and no stored data can split a response or add headers to it.", "quantifier": "all requests, servers, stores, storage answers and bodies", "why_tests_cant": "response splitting is excluded for every stored or requested byte string, not only for tried payloads", "anchors": ["src/utils/response.rs:set_optional_header", "src/utils/response.rs:set_metadata_headers", "src/output.rs", "src/ops/get_object.rs"]}
{"id": "C81", "title": "Repeating a request by an idempotent method has no further effect", "statement": "After a request by GET, HEAD, PUT or DELETE, sending the same request again any number of times leaves the store exactly as it was after the first, whether it succeeds or fails (copies: between ordinary keys). Expected of retried completions and batch deletions as well; refuted: a completion of a multipart upload sent twice empties the object it had assembled, and a batch deletion that names a key twice deletes more when it is sent again.", "quantifier": "all requests, servers, environments and well-formed stores; any number of repetitions", "why_tests_cant": "equality of whole stores after repetition for all requests, including those that fail half-way", "anchors": ["src/storages/fs.rs", "src/ops/put_object.rs:is_match", "src/storages/fs.rs:complete_multipart_upload", "src/storages/fs.rs:delete_objects"]}
{"id": "C82", "title": "How the network cuts a request into pieces does not matter", "statement": "Two requests that differ only in how the bytes of the body are cut into pieces get the same reply and have the same effect on the store, for every operation, whether anonymous, signed, presigned or signed in chunks. Expected of form uploads as well; refuted: a form cut within its first line is refused; cut anywhere else it is handled alike.", "quantifier": "all requests, servers, environments, stores and all cuts of the body, including interrupted ones", "why_tests_cant": "the number of ways to cut a body is exponential in its length; tests try a few", "anchors": ["src/service.rs:handle", "src/streams/aws_chunked_stream.rs", "src/streams/multipart.rs:transform_multipart", "src/storages/fs.rs:copy_bytes"]}
{"id": "C83", "title": "A client that goes through the pages of a listing sees every object once", "statement": "In every well-formed store a client that asks for a listing page by page, with any page size and markers, and stops when it is not told that there are more, has seen exactly the keys with the prefix, each once, in order. Expected in addition: max-keys limits a page, marker and start-after skip what comes before, a delimiter groups keys; all three refuted: these parameters have no effect on what is listed, the delimiter is only repeated in the reply.", "quantifier": "all stores, buckets, prefixes, servers and clients (any request for each page)", "why_tests_cant": "a statement about every client and every set of keys", "anchors": ["src/storages/fs.rs:list_objects", "src/storages/fs.rs:list_objects_v2", "src/ops/list_objects.rs", "src/ops/list_objects_v2.rs"]}
{"id": "C84", "title": "The times shown for objects are the times of their last writes and identify their contents", "statement": "GetObject, HeadObject and the listings show the same time for an object, that of its file. After a successful PutObject, CopyObject or CompleteMultipartUpload this time lies within the execution of the request; requests that do not affect the object leave it alone. Along every execution, concurrent, interrupted or failing, the time never goes back and the same time means the same content. The Last-Modified header denotes the second of the write in every time zone, and the same header means the same content if that second was over. Expected as well: the LastModified of CopyObject's reply is the time of the new object (refuted: it is that of the source) and the header always distinguishes contents (refuted: not within one second).", "quantifier": "all clocks (that do not go back), stores, requests, objects, time zones and all sequences of calls of any number of tasks", "why_tests_cant": "about all interleavings and all clocks; a test sees one clock and cannot stop a call at every point", "anchors": ["src/storages/fs.rs:get_object", "src/storages/fs.rs:head_object", "src/storages/fs.rs:list_objects", "src/storages/fs.rs:copy_object", "src/storages/fs.rs:put_object", "src/utils/time.rs"]}
{"id": "C85", "title": "A refusal has no effect", "statement": "If the storage refuses an operation (any error but an internal one), the operation has made no call that changes the disk, whatever other requests did meanwhile and whatever failed; so a reply with a status from 400 to 499 means that the request left the store exactly as it was. Expected as well: an internal error has no effect either (refuted: an upload with metadata whose file name is too long for the operating system is answered with 500 after the object has been replaced).", "quantifier": "all requests, servers, stores, and all results of every system call (so all interleavings and failures)", "why_tests_cant": "about all results of all calls; tests check replies, rarely the disk after a refusal, and never under interference", "anchors": ["src/storages/fs.rs:put_object", "src/storages/fs.rs:copy_object", "src/storages/fs.rs:delete_object", "src/storages/fs.rs:delete_objects", "src/storages/fs.rs:complete_multipart_upload", "src/service.rs:hyper_call"]}
{"id": "C86", "title": "An upload id reaches the parts of its upload and nothing else", "statement": "While a part is uploaded, or an upload completed, under an id without '..' segments (so under every id the server issues), nothing in any bucket changes except, for a completion, the object named in the request; this holds wherever the handling stops or fails. Expected as well: the same for every id a client may send (refuted: with the id '/../yours/k' a part replaces the object k.part-1 of the bucket 'yours', and a completion takes that object away and returns its data as the client's own object) and that only issued ids are accepted, for the object they were issued for (refuted).", "quantifier": "all requests, servers, stores, upload ids, and all points at which handling stops or calls fail", "why_tests_cant": "about all upload ids and all stopping points; tests use ids the server has issued", "anchors": ["src/storages/fs.rs:upload_part", "src/storages/fs.rs:complete_multipart_upload", "src/storages/fs.rs:create_multipart_upload", "src/ops/upload_part.rs"]}
{"id": "C87", "title": "In the root directory there is nothing but buckets and the server's own files", "statement": "Whatever requests are handled, one after another or at the same time, whatever calls fail and wherever the server is stopped and started again: if the root directory contained only directories with legal bucket names, metadata files and part files before, it does so afterwards. The requests may be any whose written keys name something inside their bucket and whose upload ids have no slashes. Expected as well: the same for all keys (refuted: an upload to the key '.' of a missing bucket leaves a file in the place of the bucket, which then can neither be used nor created nor deleted; '..' puts files into the root directory) and that deleting an object and its bucket removes everything stored for them (refuted: the metadata stay on the disk).", "quantifier": "all sequences of sets of requests, all interleavings of their system calls, all failures and stops, all stores", "why_tests_cant": "an invariant of all executions; tests look at few stores after few requests", "anchors": ["src/storages/fs.rs:put_object", "src/storages/fs.rs:get_object_path", "src/storages/fs.rs:get_metadata_path", "src/storages/fs.rs:delete_object", "src/storages/fs.rs:delete_bucket", "src/storages/fs.rs:upload_part"]}
{"id": "C88", "title": "The reply says which bucket or object is missing", "statement": "Requests about a bucket that does not exist change nothing and are answered as follows: HeadBucket and GetBucketLocation with NoSuchBucket, GetObject and HeadObject with NoSuchKey, and DeleteBucket, the listings, DeleteObject, copies from the bucket and completions with InternalError. A download or head request is answered with NoSuchKey exactly if there is nothing under its key. Expected as well, from the S3 API: NoSuchBucket in all these cases, success when a missing object is deleted, NoSuchKey when one is copied (refuted: status 500), and NoSuchBucket for an upload to a missing bucket (refuted: the upload succeeds and creates the bucket).", "quantifier": "all stores, servers, requests, buckets, keys without '..' segments", "why_tests_cant": "about all stores and keys; tests try one missing name", "anchors": ["src/storages/fs.rs:head_bucket", "src/storages/fs.rs:get_bucket_location", "src/storages/fs.rs:get_object", "src/storages/fs.rs:head_object", "src/storages/fs.rs:delete_object", "src/storages/fs.rs:list_objects", "src/storages/fs.rs:put_object"]}
{"id": "C89", "title": "A form upload depends on few of its fields", "statement": "Two form uploads to the same address with the same headers have the same effect and the same reply if they agree on the file's data, on the values of the fields key and x-amz-storage-class, on the user metadata fields and on the five fields of the signed policy; file name, types, order and all other fields are free. If both policies are signed, by whomever, not even the policies need agree. Expected as well, from the S3 API: ${filename} in the key is replaced by the file's name and success_action_status sets the status of the reply, 204 by default (refuted).", "quantifier": "all servers, stores, form uploads and their cuts into frames", "why_tests_cant": "a statement about two arbitrary forms; tests send one", "anchors": ["src/ops/put_object.rs:extract_from_multipart", "src/ops/put_object.rs:extract", "src/service.rs:check_post_signature", "src/streams/multipart.rs:find_field_value"]}
{"id": "C90", "title": "An object can be downloaded in pieces", "statement": "After a successful upload, ranged downloads over HTTP, each beginning where the one before ended and the last one open or ending at the last byte, with any requests that do not write the object in between, are all answered 200 with the length of the piece, the tag and metadata of the whole object, and their bodies together are exactly the uploaded data (from the offset at which they began). Expected as well, from RFC 9110: a piece is marked as such by status 206 and Content-Range (refuted: whatever is asked for, a successful download has status 200 and, Last-Modified aside, no header but Content-Length, ETag and metadata).", "quantifier": "all uploads, cuttings into ranges, interleaved harmless requests, stores, servers and ways of reading", "why_tests_cant": "all cuttings of all contents; tests ask for one range", "anchors": ["src/storages/fs.rs:get_object", "src/ops/get_object.rs:try_into_response", "src/headers/range.rs:from_header_str"]}
{"id": "C91", "title": "What happens to other buckets cannot be noticed", "statement": "A client who keeps to a set of buckets and upload ids and behaves well there (the conditions under which C64 shows the server to be a map) gets, to every one of their requests, the same status, headers (Last-Modified aside) and body as if all other requests received in between had never been sent. The other requests are arbitrary as long as what they write to is another bucket, by a key without '..' segments that does not begin with a slash, or a part of an upload with another id without '/': they may fail, break off, be refused, leave temporary files and metadata behind, or read and copy the client's objects. The list of all buckets is the one request that is excepted (the server has no owners of buckets).", "quantifier": "all sets of buckets and upload ids, all interleavings of the client's requests with all other requests, all servers and directory orders", "why_tests_cant": "compares two runs for every interleaving with arbitrary other requests; tests run one client against an empty server", "anchors": ["src/storages/fs.rs:get_object_path", "src/storages/fs.rs:get_metadata_path", "src/storages/fs.rs:get_bucket_path", "src/storages/fs.rs:upload_part", "src/storages/fs.rs:list_objects", "src/storages/fs.rs:complete_multipart_upload"]}
{"id": "C92", "title": "The directory tree is all there is to a store", "statement": "Two stores with the same directory tree (the same names, directories and file contents; file numbers, remains of deleted files and the order in which directories are read may differ) cannot be told apart: every sequence of HTTP requests gets the same replies from both, with bodies that are read alike, except that the buckets may be listed in another order, and leaves the same directory trees behind. So the server can be restarted, and a copy of the directory is a complete backup. In particular, once an object has been uploaded and deleted, no later reply depends on what it contained.", "quantifier": "all pairs of stores with the same tree, all sequences of requests, all servers and directory orders", "why_tests_cant": "compares the behaviour of two stores for all later requests", "anchors": ["src/storages/fs.rs:FileSystem", "src/storages/fs.rs:get_object", "src/storages/fs.rs:delete_object", "src/storages/fs.rs:list_objects", "src/storages/fs.rs:complete_multipart_upload"]}
{"id": "C93", "title": "The server only moves the bytes of objects", "statement": "Let R be any relation between bytes. If two servers start from stores that agree but for file contents related byte by byte by R, and are sent sequences of requests that differ only in uploaded bytes related by R, then every reply of one is the reply of the other but for downloaded bytes, which are related by R, and ETags, which are those of related contents: the same status, lengths, headers, metadata, listings and errors, and the stores stay related. So contents decide nothing, a byte that nobody uploaded is never downloaded or stored, and if clients encode every byte they download what they would have downloaded, encoded. This holds for requests whose keys and upload ids do not lead to the server's metadata files, and of completions not to parts of the same upload.", "quantifier": "all relations between bytes, all stores, all sequences of requests of all operations (also over HTTP), all framings and read schedules; keys and upload ids that do not resolve to a file .bucket-... in the root directory", "why_tests_cant": "A test compares a few contents; that no byte sequence whatever (a magic number, an empty block, text that looks like JSON) changes the course of any operation is a relational statement about all pairs of contents and all histories.", "anchors": ["src/storages/fs.rs:144-176", "src/storages/fs.rs:207-254", "src/storages/fs.rs:332-424", "src/storages/fs.rs:635-711", "src/storages/fs.rs:730-856", "src/data_structures/bytes_stream.rs:36-63"]}
{"id": "C94", "title": "Every request needs a bounded number of file-system calls, whatever happens at the same time", "statement": "However the calls of any number of requests interleave and whichever of them fail, a request that is not a listing and not DeleteBucket makes at most a fixed number of file-system calls besides the reading and writing of data: CreateMultipartUpload 0, HeadBucket, GetBucketLocation and UploadPart 1, CreateBucket and DeleteObject 2, HeadObject 4, GetObject 6, CopyObject 7, DeleteObjects 2 per key, CompleteMultipartUpload 3 and 2 per part, PutObject 8 and 3 for each slash in the bucket and the key. A listing of a bucket calls at most once for every path and only for paths in the bucket, a listing of the buckets at most once for the directory and each of its entries, DeleteBucket at most twice for every path and only for paths in the bucket. So no request waits for another one, tries again, or does work that depends on objects it is not about.", "quantifier": "all requests, all stores, all sets of concurrent tasks, all interleavings, all failing calls, all orders of directory entries", "why_tests_cant": "A retry loop or a second walk of the tree only shows with particular interleavings or failures; a test sees single executions, the bound is about all of them.", "anchors": ["src/storages/fs.rs:59-180", "src/storages/fs.rs:182-857"]}
{"id": "C95", "title": "Tenants that work at the same time do not notice each other", "statement": "While requests about some buckets and uploads are handled, any requests that are about other buckets and uploads may be handled at the same time, with the file-system calls interleaved in any way and any of them failing. Then the first requests could have got the same answers, and the files and directories of their buckets, with the bytes in them, the metadata files and the parts could have become the same, if they had been handled alone, even on a server that never stored anything for the others. In particular requests about other buckets and uploads never change anything in a bucket, at no moment.", "quantifier": "all sets of buckets and uploads, all lists of requests about them and about others, all stores, all interleavings, all failing calls, all moments", "why_tests_cant": "A file shared by two requests (a temporary name, a lock, a cached handle) only shows under particular interleavings of particular requests; the claim is about all of them and compares with runs that did not happen.", "anchors": ["src/storages/fs.rs:59-180", "src/storages/fs.rs:182-857"]}
{"id": "C96", "title": "Requests take no more space than the bytes they bring, and deletions give it back", "statement": "The volume of a store is the number of bytes in its files. However requests other than CopyObject and CompleteMultipartUpload are handled at the same time and whichever file-system calls fail, at every moment the volume has grown by at most the bytes of the bodies (as far as they could be read) and of the metadata (as JSON) of the requests. A copy takes at most the bytes of its source and of the metadata of the source, the completion of an upload takes nothing whatever its outcome, and the deletion of an object gives back exactly its bytes. When all objects and buckets are deleted and all uploads are completed, nothing is left.", "quantifier": "all requests, all stores, all interleavings, all failing calls, all moments; for copies, completions and deletions all stores in which the request runs alone", "why_tests_cant": "Space lost by a rare interleaving (a writer continuing behind a truncated file), a failed call or a forgotten file is not visible in any reply; the bound is for all executions.", "anchors": ["src/storages/fs.rs:107-180", "src/storages/fs.rs:214-252", "src/storages/fs.rs:268-310", "src/storages/fs.rs:635-711", "src/storages/fs.rs:730-856"]}
{"id": "C97", "title": "Every byte stored or downloaded comes from where it should", "statement": "However requests are handled at the same time, wherever they stop and whichever file-system calls fail: every byte of every file, and every byte that a GetObject sends while others write, was there at this position of this file, or was uploaded as the byte at this position of this object or part, or is the byte at this position of the metadata sent with the object, or is the byte at this position of the source of a copy, or a byte of a part of a completed upload (each time with such an origin of its own), or is a zero filling a gap. So a kind of bytes that neither is in a set of files nor is uploaded or copied into it from outside never appears in it nor in a download from it; a download of an object that is being overwritten mixes old and new bytes, each at its own position; and a download that nothing disturbs is the announced extent of the file.", "quantifier": "all lists of requests, all stores, all interleavings of their file-system calls (those of the streaming of a download included), all failing calls, all moments", "why_tests_cant": "Tests see a few schedules; that no schedule, short read, partial write or failure lets bytes of another object or of an unrelated upload into a file or a download is a statement about all executions.", "anchors": ["src/data_structures/bytes_stream.rs:28-63", "src/storages/fs.rs:107-180", "src/storages/fs.rs:214-252", "src/storages/fs.rs:332-424", "src/storages/fs.rs:635-711", "src/storages/fs.rs:730-856"]}
{"id": "C98", "title": "Deleting an object does not damage downloads of it", "statement": "When a GetObject is answered and sent while other requests are handled, and none of them writes to the object, though any of them may delete it or its bucket (and others may use its name as a directory afterwards): the tag announced is that of the object, and the body that is sent is the object, or the requested range of it, complete and unchanged, or it breaks off with an error after a proper beginning; it never ends early without an error and never contains other bytes.", "quantifier": "all objects, ranges, stores and lists of requests, all interleavings of the file-system calls (those of the streaming included), all failing calls", "why_tests_cant": "A deletion can happen between any two of the many reads of a download, and a file can be removed and its name used again; tests try few of these moments.", "anchors": ["src/storages/fs.rs:120-140", "src/storages/fs.rs:256-310", "src/storages/fs.rs:332-424", "src/data_structures/bytes_stream.rs:28-63"]}
{"id": "C99", "title": "Clients hear whole replies whatever is handled meanwhile", "statement": "When HTTP requests are handled at the same time and the bodies of their replies are read from the files while they are sent: a download of an existing object among requests that leave it alone gives the reply and the frames that it gives alone; a download that arrives after an upload has been answered with success makes its client hear exactly the uploaded bytes, with their length, tag and metadata; when others delete the object meanwhile the client still hears the part it asked for, or the transfer breaks off; and every byte heard was in the object or was put there by one of the requests.", "quantifier": "every number of HTTP requests, all bodies, headers and ranges, every interleaving of their file-system calls and of the reads while sending; for the origin of bytes and for deletions also any failing calls", "why_tests_cant": "the interleavings of handling and sending of even two requests are far too many to test", "anchors": ["src/service.rs:hyper_call", "src/ops/get_object.rs:try_into_response", "src/data_structures/bytes_stream.rs", "src/storages/fs.rs:get_object"]}
{"id": "C100", "title": "Refusals for lack of credentials say what is wrong", "statement": "A request to a server with keys that is not authentic is refused with the code that names the reason, and nothing else happens: AccessDenied (403) when there is no Authorization header, InvalidRequest when it or the date cannot be read, when a signing header, URL parameter or form field is missing or when the body breaks off, XAmzContentSHA256Mismatch for an impossible content hash, the code of the key provider for an unknown key, and SignatureDoesNotMatch (403) when all of this is in order but the signature is not the one of the request. In the Authorization header these are all the cases: a request is authentic or is refused for one of them. A server without keys answers NotSupported to a signed request.", "quantifier": "every request with a readable path and header values, signed by header, URL or form, every key provider", "why_tests_cant": "every malformed Authorization header, URL and form, and every wrong signature", "anchors": ["src/service.rs:check_header_auth", "src/service.rs:check_presigned_url", "src/service.rs:check_post_signature", "src/auth.rs:get_secret_access_key", "src/errors.rs"]}
{"id": "C101", "title": "Metadata files are JSON, no more and no less", "statement": "The metadata file of an object is read exactly when it is a JSON object (RFC 8259) whose members are strings, with blanks, escapes and surrogate pairs wherever the grammar allows them, and then as the map that it stands for, the last member counting where a name occurs twice. HEAD requests and downloads answer with this map, and with InternalError if the file is anything else. What the server writes is such an object and stands for the metadata it was given.", "quantifier": "every text of a metadata file, whoever wrote it, every object and store, all metadata", "why_tests_cant": "the grammar has unboundedly many texts for every map, and the texts outside it are everything else", "anchors": ["src/storages/fs.rs:load_metadata", "src/storages/fs.rs:save_metadata"]}
{"id": "C102", "title": "The dates in HTTP replies", "statement": "With a clock, the service does to the store exactly what it does without one, and its replies are the same but for the dates added (or an internal error if a date cannot be shown). The one header Last-Modified of a download or HEAD reply denotes the second of the last write of the file; after an upload that succeeded and any requests that do not concern the object, it denotes a second in which that upload was being handled. Two replies that show the same date, of a second that was over when the first was asked for, mean the same content, whatever was done in between by whomever. Entries of listings and replies to copies show the time in RFC 3339, of the entry and of the source.", "quantifier": "every clock, time zone, server, request, store, sequence of requests and interleaving of calls between two replies", "why_tests_cant": "a test sees a few moments of one clock in one time zone; the claim is about all clocks, moments and histories", "anchors": ["src/ops/get_object.rs:try_into_response", "src/ops/head_object.rs:try_into_response", "src/ops/list_objects.rs:try_into_response", "src/ops/copy_object.rs:try_into_response", "src/utils/time.rs:map_opt_rfc3339_to_last_modified", "src/storages/fs.rs:get_object"]}
{"id": "C103", "title": "The creation dates of buckets", "statement": "After a bucket was created, and after any further requests with ordinary names that do not delete it, the listing of the buckets shows it once, with a creation date in RFC 3339 that denotes a second in which its creation was being handled. The listing names exactly the directories with legal bucket names, each once. No other reply and nothing in the store depends on the times of creation.", "quantifier": "every clock, time zone, server, store, bucket and sequence of requests", "why_tests_cant": "a test sees one history of one bucket; the claim is about all histories between creation and listing, including uploads that make directories", "anchors": ["src/storages/fs.rs:list_buckets", "src/storages/fs.rs:create_bucket", "src/ops/list_buckets.rs:try_into_response", "src/utils/time.rs:to_rfc3339"]}
{"id": "C104", "title": "All names in the store are text", "statement": "The names in every request that reaches the storage are UTF-8, wherever they come from: the URL, parameters, headers, form fields or documents; the metadata to be stored is UTF-8 too, under different names. So, whatever requests are handled at the same time, whatever calls fail and whenever the server stops and is started again, every file and directory that an empty store comes to contain has a name that is UTF-8, not empty, not a dot or two and without slashes; and listings name every object by its own key.", "quantifier": "every request, server and execution: all interleavings, failures of calls, stops and restarts", "why_tests_cant": "names enter at many places with different decoders; a test tries a few of them, in one order", "anchors": ["src/service.rs:hyper_call", "src/data_structures/ordered_qs.rs:from_query", "src/data_structures/ordered_headers.rs:from_req", "src/streams/multipart.rs:try_parse", "src/path.rs:try_from_path", "src/storages/fs.rs:get_object_path"]}
