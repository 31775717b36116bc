# Formal model of datenlord/s3-server — design

Source modelled: `/repo` (pinned commit, read as text, never built or run).
Prover: Coq 8.16.1 with std++ (`stdpp`). Everything is in `rocq/theories`, logical
name `Verif`.

## 1. Shape of the model

* Bytes are `list ascii`. Rust `&str` values are byte lists; where the code
  requires UTF-8 the check is an explicit function.
* Every Rust function that is modelled becomes a total Gallina function. The
  definition carries a comment with file and line numbers in `/repo` and states
  what was simplified.
* Results are `Ok`/`Err`/`Panic` where the Rust code can return an error or panic.
* Streams (`hyper::Body`, `Stream<Item = io::Result<Bytes>>`) are finite lists of
  frames; a frame is bytes or an I/O error. Theorems quantify over all framings.
* Storage operations are *programs*: trees of file-system calls (`prog`). The same
  program is run sequentially, cut at any step (crash), run with any failing call
  (fault injection), or interleaved with others under any schedule.
* The file system is a map from paths (lists of components below the root) to
  directories or inodes, plus a map from inodes to contents. Open handles are
  inodes, so overwriting and unlinking open files is represented.
* SHA-256, HMAC, MD5, hex and base64 are implemented concretely and checked
  against published vectors and against the AWS vectors of the repository's own
  unit tests. Theorems never use anything about them except determinism (and
  output length where stated); security statements are given in the form "equal
  or here is an explicit collision".

Layers: `M_*.v` are models (definitions only), `S_*.v` are independent
specifications, `L_*.v` are lemmas, `T_*.v` hold the property theorems with
`Print Assumptions` and the concrete `Example`s showing that hypotheses are met.
`T_Vectors.v` and `T_Upstream.v` are tests of the model, not proofs: published vectors,
and the unit and integration tests of the repository replayed on the model.

| model | code |
|-------|------|
| `M_Base` | byte strings and the `str`/nom functions used everywhere |
| `M_Path` | `src/path.rs` |
| `M_Headers` | `src/headers/*.rs` (authorization, date, content hash, copy source, range) |
| `M_Ordered` | `src/data_structures/ordered_headers.rs`, `ordered_qs.rs` |
| `M_Crypto` | `src/utils/crypto.rs` and the hash crates below it |
| `M_SigV4` | `src/signature_v4.rs` |
| `M_Utf8` | UTF-8 validity and lossy decoding |
| `M_Chunked` | body frames, `src/streams/aws_chunked_stream.rs` |
| `M_Multipart` | `src/streams/multipart.rs` |
| `M_BytesStream` | `src/data_structures/bytes_stream.rs` |
| `M_Errors` | `src/errors.rs` |
| `M_Fs` | the POSIX file system below the root; programs of system calls and their runs |
| `M_Json` | `serde_json` on string maps (metadata files) |
| `M_Storage` | `src/storages/fs.rs` |
| `M_Download` | `src/storages/fs.rs:394`, `src/data_structures/bytes_stream.rs:36-63`: the calls made while a download is sent |
| `M_Wire` | `src/service.rs:127-143`, `src/ops/get_object.rs:153-155`: one HTTP request from its arrival to the end of its reply |
| `M_Http` | `src/ops.rs:76-136`, `src/service.rs:183-261`: request and request context |
| `M_Auth` | `src/service.rs:226-547`, `src/auth.rs`: the three ways of authentication |
| `M_Ops` | `src/ops.rs`, `src/ops/*.rs`, `src/output.rs`, `src/utils/response.rs`: dispatch, extraction, responses |
| `M_Service` | `src/service.rs:127-180`: `front` (up to the storage call) and `service` (with it) |
| `M_Xml` | `src/utils/xml.rs`, `set_xml_body`: the text of XML bodies |
| `M_Time` | `src/utils/time.rs` and the `chrono` functions it calls |
| `M_Dto` | the tables of all handlers: which header or parameter fills which field of the input (`extract`), which field of the output goes to which header, and the documents (`try_into_response`), for any storage |
| `M_Dates` | `src/ops/{get_object,head_object,copy_object,list_objects,list_objects_v2}.rs`: the dates in replies, with a clock |
| `M_Birth` | `src/ops/list_buckets.rs`, `src/storages/fs.rs:470-500`: the creation dates of buckets |
| `M_Main` | `src/bin/s3-server.rs`: the access keys registered |

A request runs as `exchange e sv rq s = (s', outcome)`: server `sv` (keys and
oracles), request `rq`, disk `s`, environment `e` (which paths the operating system
refuses, how names are ordered in directories, ...).

The specifications that the main theorems rest on: `S_Path`, `S_Headers`, `S_SigV4`,
`S_Service` (how a request is authenticated according to AWS), `S_Denials` (why it is refused), `S_Chunked`,
`S_Multipart`, `S_Json` (RFC 8259), `S_Dispatch` (the S3 API table), `S_Calls` (what a request asks for),
`S_Errors` (status table), `S_Storage`/`S_Store` (places of objects, plain requests),
`S_Map` (the store as a map), `S_Http`/`S_Server` (what replies show), `S_Xml` (how XML
is read).

## 2. Trusted base

* Coq's kernel (and `vm_compute` for the `Example`s and `_refuted` witnesses).
* Axioms: none of our own. `Print Assumptions` after every property theorem;
  expected output everywhere is "Closed under the global context". If a
  standard-library axiom shows up it is listed in section 5.
* The reading of the Rust sources by the model (comments give the lines).
* External crates, represented as follows:
  - `nom`, `regex`, `memchr`, `sort`, `binary_search`, `str` functions: small
    concrete functions with the documented behaviour;
  - `sha2`, `hmac`, `md-5`, `hex-simd`, `base64-simd`: concrete functions;
  - `urlencoding`, `serde_urlencoded`, UTF-8 validation and lossy decoding:
    concrete functions;
  - `httparse::parse_headers`: concrete function for header blocks;
  - `mime` parsing, `quick_xml` deserialisation, `Uuid::new_v4`, the auth
    provider: arbitrary functions (fields of a record of oracles; the theorems
    hold for all of them);
  - `path_absolutize::absolutize_virtually`: relative paths are resolved by
    lexical removal of `.` and `..`, never going above the virtual root; absolute
    paths must lie under the root, otherwise `InvalidInput`. A trailing slash is
    dropped. (Documented behaviour; the crate is not part of `/repo`.)
  - POSIX file system as used through `async_fs`/`std::fs`: `M_Fs.v`. No symbolic
    links, no hard links, no permissions; time stamps only in `M_Clock.v`. An arbitrary predicate
    says which paths the operating system refuses (name too long, NUL byte, ...).
    The loops over directory trees (listings, `remove_dir_all`) go on in the code as long as
    there are directories; in the model they stop with an error after as many rounds as there
    are nodes in the store plus an arbitrary number (`e_rounds`), so that every execution of
    the code that ends is one of the model, also when the tree grows meanwhile.
    Files are read in pieces, any non-empty number of bytes at a time (`e_chop`), and other
    tasks may run between two reads; the loops that read end when a read gives nothing, in the
    model at the latest after as many reads as the file had bytes when it was opened, plus
    `e_rounds`. What has been read is written before the next read: that the writer of
    `complete_multipart_upload` and the read-ahead of `async_fs` may delay a write until
    after the next reads (they are flushed at the end of each part) is not modelled.

  - `xml-rs` writing: `M_Xml.v`; the releases differ in whether `>` is escaped, the
    theorems hold for both.

  - `chrono`: the calendar, RFC 3339 and HTTP date functions that `src/utils/time.rs`
    calls are concrete functions (`M_Time.v`); the time zone is an arbitrary offset.

Time stamps: `M_Clock.v` runs the same storage programs with a clock that stamps files
when they are created or written, and gives the times shown by the storage. The HTTP
replies of `M_Ops.v` leave dates out; `M_Dates.v` adds `Last-Modified` to the replies that
have it, and C102 proves that nothing else differs. `M_Birth.v` adds the
creation dates to ListBuckets (C103). The times of modification of directories are arbitrary.

Not modelled: logging/tracing, the text of error messages (codes and status are modelled), the parsing
of the bin's command line (only the access keys given are modelled), the hyper server
itself, the stop watch in `src/utils/time.rs`, `src/utils/{also,apply}.rs`.
Members of requests that the file-system storage ignores (access control, encryption,
tagging, ...) are left out of the requests of `M_Ops.v` and `M_Storage.v`; the tables of
all members, of their headers and parameters, and of all members of answers are in
`M_Dto.v` (C72, C73), and C70 proves that the ignored ones have no influence.

## 3. Properties

Status is maintained in `MANIFEST.json`; here: what is modelled, how it is proved.

| id | model | proof |
|----|-------|-------|
| C01 | `M_Path.try_from_path` | equivalence with a declarative grammar, case analysis on first/second slash |
| C02 | `M_Path.check_bucket_name`, IPv4 parser | boolean reflection to a declarative predicate |
| C03 | `M_Headers` range parser on nom combinators | equivalence with grammar; decimal value by induction |
| C04 | `M_Headers` | round trip in both directions |
| C05 | `M_Headers`, lazy regex as search for first slash | equivalence |
| C06 | `M_Headers` | print/parse round trip, parse soundness |
| C07 | `M_SigV4.uri_encode` | decoder is a left inverse; per-byte case analysis |
| C08 | `M_Ordered` sort + binary search | search invariant over sorted lists; permutation |
| C09 | `M_Ordered.map_signed_headers` | equals filter by membership |
| C10 | `M_SigV4` canonical request | sorting is permutation-invariant |
| C11 | same | separator counting, injectivity of joins of encoded parts |
| C12 | `M_Auth`, `M_Service` | case analysis over the three authentication branches |
| C13 | independent signer in `S_SigV4` | signer output is accepted |
| C14 | presigned branch | both directions |
| C15 | corollary of C11/C12 | collision extraction |
| C16 | `M_Auth` with no provider | case analysis |
| C17 | POST branch | case analysis, last-match lemma |
| C18 | `M_Service.service` as program | rejected requests perform no file-system call that changes state |
| C19 | model of `check_presigned_url` has no clock | refuted by a witness accepted at every time; partial: only the secret holder can make it |
| C20 | raw path is encoded again | refuted by witness; partial for paths of unreserved characters |
| C21 | `M_Chunked` | decoder on frames = decoder on concatenation, simulation |
| C22 | same | invariant: delivered bytes = data of a verified chain |
| C23 | `S_Chunked.encode` | round trip |
| C24 | same | refuted by truncation witness; partial: a cut inside a chunk is detected |
| C25 | `M_Multipart` file stream | DFA invariant: frames seen = delivered ++ buffered partial match |
| C26 | `M_Multipart` | parse of printed form |
| C27 | same | refuted by witness; partial: framing after the fields does not matter |
| C28 | `M_BytesStream` | induction over read schedule |
| C29–C40 | `M_Fs`, `M_Storage` | run of the program on any well-formed file system |
| C41 | all path functions | every call issued by every program has a path below the root (paths are root-relative; resolution proved against an absolute-path specification) |
| C42 | same | refuted (`..` in keys); partial for keys without dot segments |
| C43 | path functions | injectivity; base64 injectivity |
| C44, C45 | metadata save/load incl. JSON text | round trip; C45 refuted by stale metadata; partial |
| C46 | crash semantics | refuted by witness; partial: content is old, or a prefix of the new |
| C47 | crash + fault semantics | every program only issues mutating calls on its own paths |
| C48 | interleaving semantics | rely/guarantee over steps (`L_Rely`, `L_Par`) |
| C49 | interleaving semantics | refuted by schedules; partial: invariant over all tasks about who wrote which byte (`L_Mix`) |
| C50 | whole histories, all sixteen requests | refinement to the map of `S_Map`, simulation relation `tracks`, induction over the history |
| C51 | programs | read-only programs issue no mutating call |
| C52, C53 | `M_Ops` | table specification; panic witness (refuted) and partial |
| C54 | `M_Errors` | enumeration of the finite code type, equivalence on strings |
| C55 | copy onto itself | refuted; the exact effect is proved |
| C56 | uploads, copies, completions | exact conditions by case analysis on the file system, witnesses for the refutations |
| C57 | POST policies | refuted by a witness that violates its own policy |
| C58 | `M_Ops` extraction | equivalence of extraction with the relation `asks` of `S_Calls` |
| C59 | whole server | HTTP round trip of an object, from C12/C58/C29/C28 |
| C60 | whole server | status codes tell whether the operation was carried out |
| C61 | `M_Xml` | parser relation of `S_Xml` is deterministic and inverts the writer; refuted for control characters, CR, encoding-type |
| C62 | metadata over HTTP | refuted by witnesses |
| C63 | `M_Main`, `M_Auth` | only registered access keys authenticate |
| C64 | whole server | refinement of request histories to the map of `S_Map` |
| C65 | `M_Fs`, `M_Storage` | rely/guarantee for part uploads and completions running among other requests |
| C66 | `M_Fs`, `M_Storage` | rely/guarantee from the state at the acknowledgement: finished requests are dropped from the environment |
| C67 | `M_Service`, `M_Fs` | simulation: interleavings of requests are interleavings of their storage operations; then C48, C66 |
| C68 | `M_Fs`, `M_Storage` | the conditions for success are kept by every interrupted attempt (induction on attempts); two refutations |
| C69 | `M_Time` | one 400-year cycle checked by computation, shifted to all cycles; calendar specified day by day (`S_Time`) |
| C70, C71 | `M_Service` | contexts that agree on the entries read; sorted lists with the same entries are equal |
| C72, C73 | `M_Dto` | the tables compared with naming rules (`S_Dto`) by computation, the filling and showing by induction over any table |
| C74 | keys ending in a slash | exact effects by case analysis; listings through C36 |
| C75 | `M_Multipart` | parser proved equivalent to a declarative grammar (`S_Form`), line by line; stability under more input; used in the specification of authentic forms (C12, C17) |
| C76 | `M_Utf8` | validity and lossy decoding against the encoding of scalars (`S_Utf8`); other specifications may therefore use `utf8_valid` and `utf8_lossy` |
| C77 | `M_Auth`, `M_Service` | noninterference: relational case analysis of the three ways of authentication, induction over conversations |
| C78 | `M_Auth`, `M_Headers` | congruence of the service in the ignored fields (on top of C70); signed witnesses computed |
| C79 | `M_Storage`, `M_Service` | case analysis of the two operations on every kind of entry; with C36 over reachable stores; computed witnesses |
| C80 | `M_Ops`, `M_Service` | invariant of every response constructor; uniqueness of reading header lines by induction |
| C81 | `M_Storage`, `M_Service` | each operation run on its own final state (writes are the identity there), lifted through dispatch; computed witnesses |
| C82 | `M_Service`, `M_Auth`, `M_Storage` | relation between contexts that differ in the cut of their body, kept by every step; C21 and C27 for the decoders |
| C83 | `M_Storage`, `M_Ops` | a client as an inductive relation; C36 through dispatch and reply; computed witnesses |
| C84 | `M_Clock` (calls with a clock), `M_Storage`, `M_Time` | invariant over all sequences of calls: a file is as before or stamped since; every success passes through the creation of the file; frame rule for stamps; C69 for the header |
| C85 | `M_Storage`, `M_Service` | structural predicate on the storage programs (after the first changing call there is no way to a refusal), for arbitrary results of the calls |
| C86 | `M_Storage`, `M_Service` | where the path of a part lies for every id; frame rule at every step; witnesses over HTTP |
| C87 | `M_Storage`, `M_Service` | invariant of all histories of concurrent, failing and interrupted runs, from a structural predicate on the programs (what they may create); witnesses over HTTP |
| C88 | `M_Storage`, `M_Service` | evaluation of the storage programs on stores without the bucket; witnesses over HTTP |
| C89 | `M_Multipart`, `M_Auth`, `M_Ops`, `M_Service` | two runs compared through checks, dispatch and extraction; witness over HTTP |
| C90 | `M_Storage`, `M_Ops`, `M_Service` | induction on the requests with the object's file and metadata as invariant |
| C91 | `M_Storage`, `M_Service` | purge argument: a relation that keeps the client's part of the two stores equal, kept by the client's requests in step and by all others alone |
| C92 | `M_Fs`, `M_Storage`, `M_Service` | simulation up to a growing bijection of file numbers; listings and bucket deletion by their specifications (C36, C37) |
| C93 | M_Storage, M_Fs, M_Ops, M_Service, M_BytesStream | relational (parametricity) simulation of all operations; instances of the relation |
| C94 | M_Storage, M_Fs | cost bounds over the syntax tree of each operation; for listings the visited directories form an antichain in every execution |
| C95 | M_Storage, M_Fs | simulation between two programs up to the numbers of files, one system call at a time, under steps of the others |
| C96 | M_Storage, M_Fs | potential argument: a high-water mark per file bounds its length under any interleaving; budgets over the syntax of the operations |
| C97 | M_Storage, M_Fs, M_Download | inductive definition of the origins; invariant with a ghost map from open files to the paths at which they were opened, weakest-precondition style predicate over the syntax of the operations |
| C98 | M_Storage, M_Fs, M_Download | invariant with a ghost map from open files to paths: whoever can still read the file finds its content; weakest-precondition style predicate over the syntax of the operations |
| C99 | `M_Wire`, `M_Download`, `M_Service` | conversations make the same calls as storage requests with sending (`follows`), then C48, C66, C97, C98 |
| C100 | `M_Auth`, `M_Service` | cases of a declarative specification, soundness and completeness of the checks (C12, C13, C14, C17) |
| C101 | `M_Json`, `M_Storage` | soundness and completeness of the parser for a declarative grammar |
| C102 | `M_Dates`, `M_Clock`, `M_Service` | simulation up to dates; the validator lifted from C84 to replies |
| C103 | `M_Birth`, `M_Dates`, `M_Clock` | invariant of the directory and its time over sequences of requests, by the scopes of C30 |
| C104 | `M_Service`, `M_Http`, `M_Multipart`, `M_Storage` | origin of every name by C58, invariant of the created paths over all interleavings |

Nothing in the list is considered inexpressible at present.

## 4. Findings (claims the code violates)

Recorded as `…_refuted` theorems with witnesses:

* C14: presigned `X-Amz-SignedHeaders` that is not sorted is searched by binary search and may miss headers.
* C19: the expiry of presigned URLs is parsed but never compared with a clock.
* C20: a path containing an escape is encoded a second time for the canonical request.
* C24: an `aws-chunked` body cut at a chunk boundary or in a chunk header ends without error; no final empty chunk is required.
* C27: a form whose first frame ends inside the first boundary line is refused.
* C32: a range ending beyond the object announces more bytes than are sent; ranges longer than 2^63-1 fail.
* C39, C42: keys with `..` segments, or absolute ones, reach other buckets and the parts of uploads.
* C40: a failed completion may have emptied the object and consumed parts.
* C45, C62: an upload without metadata inherits the metadata of its predecessor; copying keeps old metadata; form metadata may make an object unreadable.
* C46: a stopped server or a broken body leaves a beginning of the new content; the old content is lost.
* C49: overlapping uploads to one key can both succeed and leave a mixture; a download overlapping an upload can deliver a content that was never stored.
* C52: sub-resource requests that the server lacks are taken for other operations (`DELETE /b?policy` deletes the bucket).
* C53: `PUT /?partNumber=1&uploadId=x` panics.
* C54: `ObjectNotInActiveTierError` is answered with status 200.
* C55: copying an object onto itself empties it.
* C56: copies and completions fail with an internal error when the folder of the key does not exist, uploads create it.
* C57: neither expiration nor conditions of a POST policy are looked at.
* C61: keys with control characters make listings unreadable, CR is read as LF, `encoding-type=url` is echoed but not obeyed.
* C68: a repeated completion fails and truncates the object; an upload without metadata does not repair a metadata file torn by an earlier attempt.
* C69: UTC offsets with seconds make Last-Modified wrong; times from the year 10000 on cannot be shown.
* C70: preconditions and checksums stated in headers are ignored.
* C71: unsigned `x-amz-*` headers are obeyed: adding `x-amz-copy-source` to a signed upload turns it into a copy.
* C72: version ids, part numbers and response overrides of GetObject/HeadObject, and the expected bucket owner of most operations, are dropped.
* C73: `InitialMultipartUploadResult` should be `InitiateMultipartUploadResult`; `CommonPrefixes` should be one element per prefix; metadata names are lower-cased.
* C74: folder objects are stored but neither readable nor listed; deleting one that has content is answered with success.
* C75: form parts with a third header, and files without a content type, are refused.
* C78: the algorithm, date and service in an Authorization header are ignored; signed requests never expire and can be replayed.
* C79: HEAD requests find folders as objects of 4096 bytes; the content type of uploads is forgotten; HEAD replies have no ETag.
* C81: a retried CompleteMultipartUpload empties the assembled object; DeleteObjects with a repeated key stops half-way, so a retry deletes more.
* C83: max-keys, marker, start-after and delimiter are ignored: listings are never limited, shortened or grouped (they are complete, and never say that they are truncated).
* C84: the LastModified of CopyObject's reply is the time of the source, not of the new object.
* C85: an upload with metadata to a long key is answered with 500 after the object has been replaced.
* C86: upload ids are not checked: with `..` in the id, a part replaces an object of another bucket, and a completion takes one away.
* C87: an upload to the key `.` of a missing bucket leaves a file in its place: the bucket can then neither be used nor created; deleting an object and its bucket leaves the metadata file.
* C88: listing or deleting a missing bucket and deleting or copying a missing object give status 500; an upload to a missing bucket creates it.
* C89: `${filename}` is stored literally, success_action_status is ignored (always 200), and nothing in the policy is read.
* C90: a ranged download is answered with status 200 and without Content-Range, like a whole one.
* C93: uploading to a key such as `../.bucket-…metadata.json` writes the metadata file of another object, so uploaded bytes decide on later replies (`C93_metadata_refuted`).
* C96: metadata is never removed: deleting objects and buckets leaves their `.bucket-….metadata.json` files, so the space of the store can not be recovered through the interface (`C96_left_refuted`).
* C97: two overlapping uploads of one object can leave zero bytes that neither of them sent, although both are answered as successful (`C97_no_gaps_refuted`).
* C98: a download overlapping the deletion of the object can be answered with InternalError (500), which is neither the answer before nor the one after the deletion (`C98_answer_refuted`): the tag and the metadata are read by reopening the paths after the object has been opened.
* C100: an unknown access key is reported as NotSignedUp instead of InvalidAccessKeyId (`C100_unknown_key_refuted`).
* C102: an object whose file is dated in the year 10000 or later is answered with InternalError; If-Modified-Since is ignored.
* C103: where the file system keeps no times of creation, ListBuckets is answered with InternalError as soon as there is a bucket.
* C96: an upload can be completed into one of its own parts (key `../.upload_id-….part-2`); the server then copies a file to its own end, in the model without end, so that two bytes fill the disk (`C96_own_part_refuted`).

Seen while modelling and visible in the model, without a theorem of their own:
the value of `x-amz-content-sha256` is not compared with the hash of the body (the
signature covers the hash of the body itself); no check of the request date; the
algorithm named in the credentials and their date and service are not checked; signed
headers that are absent are dropped silently, repeated ones are not joined; the POST
credential may have trailing garbage; `x-amz-decoded-content-length` is ignored;
`UploadPartCopy` is treated as `CopyObject`; there is no status 206; HEAD gives no
`ETag`; PUT creates missing buckets; copy and completion do not create parent
directories; deleting a missing object is an internal error; `max-keys`, `marker` and
`delimiter` are ignored by listings.

## 5. Assumptions per theorem

`Print Assumptions` follows every theorem named in `MANIFEST.json`; each of them
answers "Closed under the global context": no theorem depends on any axiom.

The compiled library, checked as a whole, also contains seven constants of the
standard library that std++ loads with ssreflect and that are declared as parameters
of a module there: `Coq.ssr.ssrunder.Under_rel.Under_rel`, `Under_relE`,
`Under_rel_from_rel`, `Over_rel`, `over_rel`, `over_rel_done`, `under_rel_done`. None
of the theorems depends on them.

## 6. Tests of the theorems

`seeded/LOG.jsonl` has one line per wrong program: the definition edited, the edit, the
claim it breaks, the theorems that no longer prove, and the theorems that were
tightened because the first attempt was not noticed. The edits were made in a copy of
`rocq` outside this repository.
