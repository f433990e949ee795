# Formal model of wrvenkat/request_parser in Rocq (Coq 8.16.1)

The code is Python 2.7 (README: "The master branch is compatible only with Python 2.7"),
so the model follows Python 2.7 semantics: `str` is bytes, `bytes is str`,
`str.encode(enc)` first decodes as ASCII, `bool(obj)` uses `__nonzero__`/`__len__`
(never `__bool__`), `six.reraise(instance, value)` is a `TypeError`, `int <= None` is
`False`, and iterating `BytesIO`/file objects yields lines.

## Layout

* `rocq/theories/Py.v`, `PyDict.v`  Python built-ins used by the code (find, split, strip, int, dictionaries), exceptions as values
* `rocq/theories/*Model.v`      the model, one file per source module / group of functions; definitions only, each with the lines it models
* `rocq/theories/*Spec.v`       small independent specifications, written without the model
* `rocq/theories/*Facts.v`, `*Run.v`, `*Det.v`, `*Sem.v`, `*Inv.v`, `RequestRel.v`, `RequestMulti.v`   lemmas
* `rocq/theories/Props*.v`      the property theorems, each followed by `Print Assumptions`,
                                and `Example`s showing that the hypotheses are met by a concrete case

Theorem names start with the property id (`C21_...`).  A theorem named `..._refuted`
proves that the property as stated in `properties.jsonl` is false of the (faithful) model: it is a
finding about the unchanged code.  `..._partial` is a proved part of a property
whose full statement is kept in `properties.jsonl`; what is missing is said in `MANIFEST.json`.
A property with a refutation or a partial theorem has status `partial`.

`seeded/LOG.jsonl` lists the wrong programs the theorems were tried against: one definition of the model
edited per line, the claim that becomes false, and what happened when everything above it was rebuilt.
`theorems_failed` are the property theorems whose proof, or the proof of a lemma they use, no longer goes
through (found with `Print Assumptions` after admitting each failing proof in the scratch copy).  That a proof script fails does not by
itself show that the statement is false; the entry to look for is a theorem of the claim named in the line.
`survived` means that everything still proved; `theorems_tightened` says what was strengthened for it.
`inconclusive` means that the rebuild stopped at an error outside a proof, so nothing was measured.

## Modelling decisions

* Characters are `N`; byte strings and unicode strings are `list N`.  Where the code
  mixes both kinds (`force_text`, `bytes_to_text`, RFC 2231 parameters) a tagged
  type `pystr := PB bytes | PU unicode` is used.
* Exceptions are values (`res A := Ok a | Err e`).  Functions with effects return
  the new state also when they raise, so "what happened before the exception" is
  visible.
* Python loops with no structural bound take an explicit `fuel`; running out is the
  separate error `OutOfFuel`, which the theorems either exclude (termination) or
  exhibit for every fuel (non-termination, C28).
* Streams: `LazyStream` is modelled generically over a producer
  (`pnext : P -> nxt * P`) and instantiated three times exactly as the code nests
  them: over the request source, over `ChunkIter`, over `BoundaryIter`.  Old
  sub-streams are never used after the next part starts, so threading the outer
  stream by value is faithful.
* The request source is an arbitrary list of chunks and failures, so the theorems hold
  for `BytesIO`/file iteration (lines) and any other chunking.
* `settings` is one mutable cell shared by requests, as in the code; a method of `HttpRequest` is a
  function `world -> res A * world` with `world = settings * request object`.
* Python attributes that may be absent are options (`None`: reading them is an AttributeError).
* Dictionaries are association lists with distinct keys.  Python 2's iteration order is
  arbitrary; theorems quantify over the association list, hence over every order,
  or speak about lookups only.  `MultiValueDict` has a heap of list objects, so that aliasing is visible (C47).
* Codecs are a registry `name -> option codec`: decode, decode with 'replace', encode.  Theorems need only that
  the codec extends ASCII (`codec_ok`); ISO-8859-1 and UTF-8 are defined and proved to be such codecs.

## Per property: what is modelled and how it is proved

| id | property | model | proof | theorems |
|----|----------|-------|-------|----------|
| C01 | LazyStream is a byte string with a cursor | `LazyStream` over a generic producer | refinement to (content, position), induction over an operation list | `C01_stream_is_cursor`, `C01_chunked_source_is_cursor` |
| C02 | The stuck-parser guard fires exactly on 41 equal pushbacks in the last 50 | `unget`, history list | case analysis; the counter is characterised by an independent ghost history | `C02_guard_exact`, `C02_read_is_primitive_operations` |
| C03 | Reading alone never trips the stuck-parser guard | read on a fresh stream | invariant: pushback sizes strictly decrease between fetches | `C03_reading_never_trips_guard` |
| C04 | ChunkIter re-blocks a stream without loss | `ChunkIter` over `LazyStream` | induction on content length | `C04_chunkiter_lossless`, `C04_chunkiter_exhausted_source_stops` |
| C05 | close() keeps already-buffered bytes readable | `close` (the producer becomes a list: `next([])` is a TypeError) | refuted by a witness; exact behaviour for all states | `C05_close_keeps_leftover_refuted`, `C05_read_past_leftover_raises`, `C05_close_keeps_leftover_partial` |
| C06 | Header/body framing is exact | the read loop of `parse_request_header` | induction on the loop with C01; independence of chunking and read size | `C06_framing_exact`, `C06_body_readable`, `C06_chunking_irrelevant` |
| C07 | A stream without CRLFCRLF is rejected | the read loop of `parse_request_header` | induction on the loop with C01; independence of chunking and read size | `C07_no_terminator_rejected` |
| C08 | MAX_HEADER_SIZE bounds the header | same loop | refuted (no bound exists), from C06 | `C08_max_header_size_bounds_header_refuted`, `C08_max_header_size_zero_partial` |
| C09 | Header lines are grouped by name in arrival order | `parse_request_headers` | spec: split at CRLF, filter by name; induction over lines | `C09_headers_grouped_in_order` |
| C10 | Malformed header blocks are rejected, well-formed ones accepted | `parse_request_headers` | spec: split at CRLF, filter by name; induction over lines | `C10_every_line_decided`, `C10_first_bad_line_decides`, `C10_no_headers_rejected`, `C10_framed_blocks`, `C10_empty_block_rejected` |
| C100 | The upload directory used is the one the setting names | `posixpath` (normpath, join, abspath, dirname), `get_abs_path`, a file system as a map from locations (`PathModel.v`) | the path functions against a walk over the components (`PathFacts.v`), all texts; the refuted part for all locations (`PropsDirAll.v`) | `C100_directory`, `C100_leading_slashes`, `C100_outside_refuted`, `C100_anywhere_refuted` |
| C101 | The check of the upload directory tells the truth and leaves no trace | `_check_upload_dir` over the file system, with permissions and full disks (`PathModel.v`) | case analysis into an independent description (`DirFacts.v`), both directions; the refuted parts with witnesses (`PropsDir.v`) and for all file systems (`PropsDirAll.v`) | `C101_success_iff`, `C101_effect`, `C101_unchecked`, `C101_invalid_refuted`, `C101_invalid_partial`, `C101_file_lost_refuted`, `C101_left_behind_refuted`, `C101_file_lost_all_refuted`, `C101_left_behind_all_refuted` |
| C102 | Settings asks only for the directory it uses | `Settings.__init__`, `Settings.default` over the file system (`PathModel.v`) | from C101; the refuted part with a witness (`PropsDir.v`) and for all file systems (`PropsDirAll.v`) | `C102_default_directory`, `C102_configured_directory`, `C102_unused_directory_refuted`, `C102_unused_all_refuted` |
| C103 | Upload handlers are loaded by their dotted names | `import_string`, `load_handler`, `_initialize_handlers` over arbitrary modules (`LoadModel.v`) | characterisation of the split at the last dot, induction over the list of names | `C103_resolves`, `C103_import_error`, `C103_import_error_refuted`, `C103_handlers` |
| C104 | request.close() closes all uploaded files | `request.close()` over open files and a disk (`LifeModel.v`) | induction over the files (`LifeFacts.v`); witness for the refuted part | `C104_closes_partial`, `C104_no_files`, `C104_unreadable`, `C104_again`, `C104_moved_refuted`, `C104_moved_anywhere` |
| C105 | open() on an uploaded file gives its content again | `File.open` and `InMemoryUploadedFile.open` over open files and a disk (`LifeModel.v`) | case analysis; witness for the refuted part | `C105_reopen_partial`, `C105_reopen_refuted` |
| C106 | Quoting can be undone | the four wrappers and the library functions they call (`EncModel.v`) | from the percent-encoding lemmas (`PercentFacts.v`) | `C106_quote_roundtrip`, `C106_unquote_bytes`, `C106_quote_plus_roundtrip`, `C106_quoted_chars`, `C106_safe_refuted`, `C106_percent_safe_refuted`, `C106_plus_safe_refuted` |
| C107 | utils.http.urlencode parses back to the same pairs | `urlencode` of `utils/http.py` and of the library (`EncModel.v`) | induction over the query; the parser side from C41 | `C107_roundtrip_partial`, `C107_unicode_value_refuted`, `C107_unicode_value_split`, `C107_no_doseq_refuted`, `C107_none`, `C107_no_doseq_all_refuted` |
| C108 | Copies of a MultiValueDict are independent | the heap model of C46/C47 with the operations that share lists, `__deepcopy__` with its memo, pickling (`AliasModel.v`) | a frame theorem for programs: lists out of reach of the named dictionaries and lists are unchanged (`AliasFacts.v`) | `C108_copy_independent`, `C108_original_independent`, `C108_shared_refuted`, `C108_shared_all_refuted`, `C108_pickle_refuted` |
| C109 | How a request arrives makes no difference | `parse()` on the request object, both body parsers, the stream (`RequestModel.v`, `MultipartModel.v`, `StreamModel.v`) | a simulation: two readers that answer alike make the multipart parser answer alike (`ReaderSim.v`); two objects whose streams hold the same bytes stay so through every method (`TwinFacts.v`) | `C109_delivery_makes_no_difference`, `C109_object_always_made_or_never` |
| C11 | The request line must be exactly three space-separated tokens | `parse_request_line` | spec on spaces | `C11_three_tokens_required`, `C11_method_and_version_verbatim`, `C11_other_counts_rejected`, `C11_uri_errors` |
| C110 | Headers other than Host, Content-Type and Content-Length have no influence | as C109 | the same simulation with headers that agree on the names looked up (`TwinFacts.v`, `PropsSame.v`) | `C110_only_three_headers_matter` |
| C111 | The body ends where Content-Length or the transfer coding says | as C109 | from the simulation of C110 without Content-Length, or with two different lengths; witnesses | `C111_multipart_length_unused_refuted`, `C111_length_unused_refuted`, `C111_transfer_coding_ignored_refuted`, `C111_contradiction_ignored_refuted`, `C111_pipelined_request_swallowed_refuted`, `C111_short_body_accepted_refuted` |
| C112 | A header line cannot smuggle in another header | framing, header lines, `populate` (`HeadModel.v`, `RequestModel.v`) | every framed block is a list of lines (C10), each value is part of one of them | `C112_headers_come_from_their_lines`, `C112_bare_newlines_kept_refuted`, `C112_names_not_checked_refuted`, `C112_any_name_refuted` |
| C113 | Extended parameters (RFC 2231) are decoded | `parse_header`, `_parse_header_params`, `unquote` (`HeaderModel.v`, `QueryModel.v`) | splitting and decoding of a list of mixed parameters against an independent rendering (`PropsExt.v`) | `C113_extended_parameters`, `C113_quotes_lost_refuted`, `C113_file_name_refuted`, `C113_form_lost_refuted`, `C113_unknown_charset_refuted`, `C113_quotes_all_refuted` |
| C114 | Only a delimiter line separates parts | `MultiPartParser.parse`, `BoundaryIter` (`MultipartModel.v`, `BoundaryModel.v`) | the result depends on the pieces only (`MultipartDet.v`); the body of the form whose content holds the delimiter and that of the form with the additional parts have the same pieces (`PropsDelim.v`) | `C114_inside_a_line_refuted`, `C114_longer_boundary_refuted`, `C114_closing_delimiter_refuted` |
| C115 | A File answers for the file behind it | `File.size`, `FileProxyMixin`, `__repr__` (`FileApiModel.v`): a file is a BytesIO, a file on disk with flushed and unflushed bytes, or again a File | by cases on the kind of file (`PropsApi.v`); size() changes neither content nor position; the refutations hold for all files of the kind named | `C115_size_in_memory`, `C115_size_on_disk_partial`, `C115_unflushed_refuted`, `C115_other_file_refuted`, `C115_nested_refuted`, `C115_empty_upload_closed_refuted`, `C115_size_of_upload`, `C115_closed`, `C115_memory_answers`, `C115_modes_partial`, `C115_modes_refuted`, `C115_repr_refuted`, `C115_upload_repr` |
| C116 | force_text and iri_to_uri accept any text | `force_text`, `force_str`, `is_protected_type`, `iri_to_uri` of any value (`ForceModel.v`) | by cases on the value (`PropsApi.v`); refuted for every text with a character outside ASCII and for all bytes that are not decodable | `C116_bytes_unchanged`, `C116_not_decoded_refuted`, `C116_protected_kept`, `C116_other_values`, `C116_decode_error_refuted`, `C116_unicode`, `C116_unicode_refuted`, `C116_iri_to_uri`, `C116_iri_refuted` |
| C117 | Questions about modules are answered | `module_has_submodule`, `module_dir` (`ModuleModel.v`) over an arbitrary file system | the name that is looked for contains a dot, so no file system with ordinary names has it (`PropsApi.v`); module_dir by cases, the directory with the lemmas on `dirname` | `C117_not_a_package`, `C117_looks_for`, `C117_submodules_refuted`, `C117_module_dir`, `C117_split_package_refuted` |
| C118 | A part that arrives is kept or the form is refused | `MultiPartParser.parse` (`MultipartModel.v`) | the body with the additional part has the same pieces plus one; the run over the items skips it, or stores the same (`PropsLost.v`, `PropsSkip.v`) | `C118_backslash_refuted`, `C118_empty_file_refuted`, `C118_nameless_file_refuted`, `C118_long_head_refuted`, `C118_long_head_all_refuted`, `C118_kept_partial`, `C118_long_head_all_refuted` |
| C119 | A complete header is parsed from what has arrived | `parse_request_header`, the frame loop and `LazyStream` over a source that may fail (`RequestModel.v`, `StreamModel.v`) | a source may be extended by anything beyond the blocks that were read (`ext_loop`); the frame loop needs only whole blocks (`PropsAvail.v`); the refutation holds for every header, limit and exception where the blocks are not complete | `C119_header_from_what_arrived`, `C119_complete_header_refuted` |
| C12 | The URL is split without losing or inventing bytes | `_urlsplit`, `_urlparse` | reassembly by case analysis on `find` | `C12_url_split_lossless`, `C12_absolute_url_components`, `C12_origin_url_components`, `C12_url_reading`, `C12_url_not_read` |
| C120 | A failing parse publishes nothing | `parse_request_body`, `parse` (`RequestModel.v`, `MultipartModel.v`) | `leaves`: every step of the two methods before the assignment at the end leaves the three attributes alone, for all states (`PropsRetry.v`) | `C120_failure_publishes_nothing`, `C120_parse` |
| C121 | A refused form stays refused | `parse_request_body` and `body` called twice (`RequestModel.v`) | Refuted for all refused urlencoded forms (C121_second_call_refuted) and for all refused multipart forms whose body fits in one read of 64 KB (C121_multipart_all_refuted: after the first read the stream is at its end and stays there, whatever the parser does); C121_multipart_refuted is a witness with too many fields. | `C121_second_call_refuted`, `C121_multipart_refuted`, `C121_multipart_all_refuted` |
| C122 | A body over the limit is not read to its end | `body`, `_read_body` and `LazyStream.read` (`RequestModel.v`, `StreamModel.v`) | an invariant of the loop over blocks on the number of bytes taken, for all sources (`PropsRetry.v`) | `C122_body_takes_at_most`, `C122_parse_takes_at_most` |
| C123 | An ImmutableList never changes and says why | `ImmutableList` (`ListModel.v`): the names of the class body, the statements that look them up | induction over the program; the operations that change lists are listed from the documentation of Python (`PropsList.v`) | `C123_immutable_list` |
| C124 | A form means the same whichever way it is sent | `parse` of a urlencoded and of a multipart request (`RequestModel.v`, `QueryModel.v`, `MultipartModel.v`) | `same_form` relates the two writings of a form; C79 gives the one side and the percent-decoding of a written field the other (`PropsWays.v`) | `C124_both_ways_partial`, `C124_ascii_partial`, `C124_nonascii_refuted` |
| C125 | A content type may be spelled in any way | `parse` with `parse_header`, `MultiPartParser.__init__` (`RequestModel.v`, `HeaderModel.v`, `MultipartModel.v`) | a simulation of two requests that agree on the parsed content type (`same_heads` in `PropsSame.v`, from `TwinFacts.v`), with the round trip C19 for each spelling (`PropsMedia.v`) | `C125_spelling_partial`, `C125_multipart_letters_refuted` |
| C126 | What an upload handler raises is not swallowed | `c_parse` (`CustomModel.v`) with handlers that note what they raise (`noted`) | an invariant of the noted exceptions through every method call (`PropsSignal.v`); `C126_noted_same`: noting changes nothing | `C126_never_swallowed`, `C126_signals_taken`, `C126_noted_same` |
| C127 | A handler may take over the whole upload | `c_parse_in`, `c_rawin` (`CustomModel.v`): handlers that may read from the input | inversion of the loop over the handlers against an inductive description (`asked`) (`PropsSignal.v`) | `C127_take_over`, `C127_raised`, `C127_nobody`, `C127_nothing_announced`, `C127_same_parser` |
| C128 | Which of the library's upload handlers are set makes no difference to what is returned | `mp_parse` with lists of the three handler classes (`MultipartModel.v`, `UploadModel.v`) | every list behaves as one independent collector of chunks (`coll`), by the simulation of `CustomPar.v` (`PropsSetup.v`); for requests a relation between two worlds through every method of `parse()` (`PropsChoice.v`) | `C128_requests_partial`, `C128_same_partial`, `C128_or_error_partial`, `C128_nobody_refuted`, `C128_memory_first_refuted` |
| C129 | A mutable QueryDict is a map from keys to lists | the methods of `QueryDict` (`QueryModel.v`) | `m_do`: the calls on a function from keys to lists, written without the code; simulation of all sequences (`PropsMutable.v`) | `C129_plain_map`, `C129_other_keys`, `C129_failed` |
| C13 | Host comes from the absolute URI, else from the last Host header | `parse_request_header` as a method of the object | equation for `populate` (`HeaderRun.v`) over C06, C09, C11, C12, C41 | `C13_host_source` |
| C130 | Byte strings given to a QueryDict are text in its encoding | the methods of `QueryDict`, `bytes_to_text` (`QueryModel.v`) | the map of C129 respects the equality of ASCII bytes and unicode (`PropsMutable.v`) | `C130_ascii_partial`, `C130_bytes_refuted`, `C130_update_refuted` |
| C131 | FILE_UPLOAD_MAX_MEMORY_SIZE can be switched off | `ConvenientFileUploadHandler` under limits that nothing fits (`UploadModel.v`) | simulation by a collector that cannot take data, and that one against one that can (`PropsNoLimit.v`); for the other handlers, which look at the limit once, a simulation by equality and C128, C36 (`PropsNoLimit2.v`) | `C131_no_files_partial`, `C131_files_refuted`, `C131_other_handlers_partial` |
| C132 | Temporary files under Windows go away | `TemporaryFile` of files/temp.py, uploaded files around it, `HttpRequest.close` (`WinModel.v`) | induction over the files | `C132_closes_all`, `C132_again`, `C132_reopen`, `C132_with_block_refuted` |
| C133 | Bad input raises only the package's exceptions | `HttpRequest.parse` and everything below it; a clean list of exceptions for every function of the stream and parser layers (`ExnFacts.v`) | compositional: each function keeps a predicate on the exceptions it can raise, over any reader; witnesses for each of the other exceptions | `C133_only`, `C133_never`, `C133_any_state`, `C133_header`, `C133_other_bodies`, `C133_bad_input_refuted`, `C133_multipart`, `C133_suspicious`, `C133_ends` |
| C134 | A disk that fails never cuts an upload short | the handler classes with an outcome for every operation on a temporary file (`DiskModel.v`), in the parser with arbitrary handlers (`CustomModel.v`) | simulation up to failure (`CustomUpto.v`) | `C134_disk`, `C134_reported`, `C134_not_closed_refuted` |
| C135 | The boundary in extended notation changes nothing | BoundaryIter and the whole parser, up to HttpRequest.parse, with a flag for unicode boundaries (`UniModel.v`) | simulation, and two invariants of the streams (`UniFacts.v`) | `C135_notation_partial`, `C135_nonascii_refuted`, `C135_requests`, `C135_exceptions` |
| C136 | Uploads are handed over in bounded pieces | the parser with any handlers (CustomModel.v); the calls of each handler are recorded (`logged`) | bounds on what the two LazyStreams hold, through every function of the loop: handlers that refuse longer pieces behave alike (`CustomCap.v`) | `C136_pieces`, `C136_uploads`, `C136_chunk_size_exceeded` |
| C137 | What has not arrived yet cannot change what was decided | the parser with any handlers and over any input (CustomModel.v, StreamModel.v) | simulation of two inputs that agree until one fails, through the streams, BoundaryIter and the loop (`CustomCausal.v`) | `C137_handlers`, `C137_parser` |
| C138 | A redirect to the request's own address stays on the site | request line, get_full_path, escape_leading_slashes, is_safe_url (RequestModel.v, HeadModel.v, PercentModel.v, UtilModel.v) | refuted for every host name (a request for ////host/ has the address //host/); proved with escape_leading_slashes applied (`PropsRedirect.v`) | `C138_own_address`, `C138_unescaped_refuted` |
| C139 | The order of header lines makes no difference | as C109 | the simulation of C110 with headers that give the same answer for every name (`TwinFacts.v`, `PropsOrder.v`) | `C139_order_of_header_lines` |
| C14 | Header names are matched case-insensitively | same | refuted by witnesses; decision rule for all requests; `C14_recased_refuted` (`PropsOrder.v`) from `C110_only_three_headers_matter` | `C14_exact_content_type_refuted`, `C14_recased_refuted`, `C14_recased_host_refuted`, `C14_recased_content_type_refuted`, `C14_exact_name_required` |
| C140 | Parsing a parsed request again changes nothing | `parse`, `parse_request_header`, `parse_request_body` (`RequestModel.v`) | equality of whole states; a stream at its end stays there (`peek_end`), a finished body sets `_request_body_parsed` (`PropsTwice.v`) | `C140_parsing_is_final` |
| C141 | Limits refuse requests, they do not change them | `parse` with the multipart parser and QueryDict (`RequestModel.v`) | two runs side by side: a read that stays below its bound is the same under a larger bound (`loop_more`), every step that succeeds under the stricter limits is the same under the looser ones (`rel2` in `LimitMono.v`); two limits are compared with their maximum (`PropsLimits.v`) | `C141_raised_limits`, `C141_limits_only_refuse`, `C141_new_request`, `C141_zero_refuted`, `C141_none_refuted` |
| C142 | The request line has no influence on how the body is parsed | `parse`, `parse_request_body` (`RequestModel.v`) | `parse_request_body` commutes with replacing every attribute except content_type, GET and the query (`bl_parse_body`); after that the two objects are twins (`TwinFacts.v`) and their runs agree (`PropsLine.v`) | `C142_line_does_not_matter` |
| C143 | Absolute form and origin form of a request are equivalent | `parse_request_line`, `populate` (`RequestModel.v`) | the two header parses are computed (`parse_wire`, `populate_eq`); C142 for the body; nothing else changes once the header is parsed (`stillM`) (`PropsForm.v`) | `C143_absolute_and_origin_form`, `C143_port_refuted` |
| C144 | DEFAULT_CHARSET makes no difference to ASCII requests and to multipart bodies | `querydict`, `bytes_to_text`, `mp_parse`, `populate`, `parse` (`QueryModel.v`, `MultipartModel.v`, `RequestModel.v`) | every decoding of ASCII bytes agrees (`dec_like`, `unquote_like`), the multipart loop never sees the charset beyond that (`mp_like`), and `parse` commutes with relabelling the charset (`bf_*`, `finish_like`) (`PropsCharset.v`) | `C144_ascii`, `C144_multipart` |
| C145 | Equivalent spellings of a form or a query mean the same | `limited_parse_qsl`, `querydict`, `populate`, `finish` (`QueryModel.v`, `RequestModel.v`) | a form is a list of signs and `spelled` says how signs may be written; splitting and unquoting are computed on the signs (`spelled_fields`, `spelled_split`, `unquote_spelled`); C142 and `finish_form` for the requests (`PropsSpell.v`) | `C145_pairs`, `C145_form`, `C145_query` |
| C146 | Upload handlers form a pipeline | as C95 | handlers that write down the chunks given and handed on (`piped`); an invariant of the whole parse (`parse_chain`), that writing down changes nothing by the simulation of C99, and a per-handler invariant for handlers that change every chunk (`PropsPipe.v`) | `C146_transparent`, `C146_pipeline`, `C146_filter` |
| C147 | A form is the sequence of its fields | `limited_parse_qsl`, `querydict`, `finish`, and the multipart model of C79 | `rearranged` and `moved` exchange neighbours with different names; C41 and C42 turn queries into lists of pairs, `finish_form` and C79 lift this to requests (`PropsJoin.v`) | `C147_joined`, `C147_joined_limit`, `C147_order`, `C147_form`, `C147_multipart` |
| C148 | The name of an uploaded file keeps its extension | `set_name`, `basename`, `splitext` (`UploadModel.v`) | extensions are defined by a relation of their own; the exact condition under which the extension survives is proved (`C148_extension`), and that it is lost otherwise (`PropsName.v`) | `C148_again`, `C148_name`, `C148_extension`, `C148_lost_refuted`, `C148_files` |
| C149 | The address a request reports leads back to it | `get_full_path`, `parse_request_header`, `iri_to_uri`, `escape_uri_path`, `limited_parse_qsl` | escaping commutes with splitting into fields and with '='; decoding an escaped text gives what decoding the text gives; the reported address is a target with the escaped components (`PropsBack.v`) | `C149_pairs`, `C149_usable`, `C149_leads_back`, `C149_two_slashes_refuted` |
| C15 | Host and port decomposition is safe | `split_domain_port` with a regex matcher | character-class lemmas; refuted for a trailing newline | `C15_host_decomposition_safe_partial`, `C15_valid_hosts_accepted`, `C15_host_decomposition_safe_refuted`, `C15_only_final_newline`, `C15_final_newline_refuted`, `C15_host_field_safe`, `C15_target_newline_refuted` |
| C150 | The headers of a part may come in any order, in any capitalisation, among others, and under any boundary | `parse_boundary_stream` (`classify`, `header_meta`, `part_header`), `parse_header`, `parse`, `parse_request_body` | a header line that can be read is a line of the header it is stored under; the three headers of a part depend on their own lines only, and a line on its capitalisation not at all before the first ';'; what a part does depends on these three (`PropsHeads.v`) | `C150_written`, `C150_requests`, `C150_unknown_encoding_refuted` |
| C151 | The printed form of a dictionary tells its content | `MultiValueDict.__repr__` with `repr` of Python 2 strings, None and lists (`ReprModel.v`) | each printed character can be read back; strings end at their quote; induction over nested values (`PropsRepr.v`) | `C151_tells`, `C151_one_line`, `C151_multivaluedict`, `C151_two_files_refuted`, `C151_sent_refuted` |
| C152 | A dictionary can be restored from its state | `__setstate__` over the heap of `MVDModel.v`, QueryDict without its constructor (`StateModel.v`) | induction over the entries of the state; new addresses only (`PropsState.v`) | `C152_restored`, `C152_own_lists`, `C152_roundtrip`, `C152_twice_refuted`, `C152_querydict_refuted` |
| C153 | Characters may be declared safe in urlencode() | `q_urlencode` with a `safe` argument (`QueryModel.v`) | every encoded pair contains no separator and parses back to its key and value, by the facts about `quote` (`PropsSafe.v`); what is left as it is: C153_left_alone | `C153_roundtrip_partial`, `C153_left_alone`, `C153_special_refuted` |
| C154 | The encoding of a QueryDict is the one it was given | `QueryDict.__init__` with its encoding argument, the encoding attribute, `urlencode` (`PropsQueryEnc.v`, `QueryModel.v`) | each pair written in one codec and read in the other, over all pairs; specification by `misread` (`PropsQueryEnc.v`) | `C154_read_back`, `C154_keys_alike_partial`, `C154_encoding_ignored_refuted` |
| C155 | What was parsed stays as it is | all methods of `HttpRequest` (`RequestModel.v`), the changing methods of QueryDict (`QueryModel.v`) | invariant over all histories of calls: every method leaves POST, FILES and the flag alone, except the last assignment of parse_request_body() and the two stream setters (`PropsFixed.v`) | `C155_stays`, `C155_immutable`, `C155_parse_partial`, `C155_empty_body_refuted`, `C155_get_partial` |
| C156 | The body stays available | all methods of `HttpRequest` (`RequestModel.v`), the changing methods of QueryDict | invariant kept by every call: the body is stored, the flag unset, the stream at its end (`PropsKept.v`) | `C156_stays_partial`, `C156_encoding_refuted` |
| C157 | Texts arrive as they were sent, in the charset the request declares | the whole parse of a request (`RequestModel.v`), `parse_header` (`HeaderModel.v`), query strings (`QueryModel.v`) | the parameters by C113, the pairs by decoding what was encoded; for DEFAULT_CHARSET: the two headers are parsed side by side, and parse_request_body() commutes with replacing POST (`PropsDeclared.v`) | `C157_charset`, `C157_form`, `C157_query`, `C157_default` |
| C158 | What is done with an uploaded file touches only its own temporary file | `LifeModel.v` (open, close, the disk); write, temporary_file_path and the with statement in `PropsOwn.v` | an invariant of the three changing methods is one of all nested programs (`step_keeps`); then one invariant per claim | `C158_memory`, `C158_with_closes`, `C158_with_runs`, `C158_two_paths`, `C158_own_partial`, `C158_until_closed`, `C158_client_name_refuted` |
| C159 | Only the charset and the boundary of a content type matter | the whole parse of a request (`RequestModel.v`), `parse_header` (`HeaderModel.v`), `MultiPartParser.__init__` (`MultipartModel.v`) | the parameters by C113; two parses side by side (`PropsSame.v`), which ask the content type only for its value, the charset and the boundary (`PropsParam.v`) | `C159_other_parameters_partial`, `C159_one_more_partial`, `C159_undecodable_refuted`, `C159_undecodable_all_refuted` |
| C16 | Port defaulting | `parse_request_header` as a method of the object | equation for `populate` (`HeaderRun.v`) over C06, C09, C11, C12, C41 | `C16_port` |
| C160 | Stray semicolons, words and blanks in a content type change nothing | the whole parse of a request (`RequestModel.v`), `parse_header`, `_parse_header_params` (`HeaderModel.v`) | the pieces by the specification `qsplit` of cutting outside quotation marks, then as C159 (`PropsParam.v`) | `C160_as_clients_write` |
| C161 | An uploaded file can be printed | `File.__str__`, `UploadedFile.__repr__`, `MultiValueDict.__repr__` of FILES with their exceptions (`PrintModel.v`) | cases on bytes and unicode, induction over FILES; a form with such a file by computation (`PropsPrint.v`) | `C161_str`, `C161_unicode_name_refuted`, `C161_repr_partial`, `C161_nothing_given`, `C161_repr_all_refuted`, `C161_untyped`, `C161_repr_refuted`, `C161_files_partial`, `C161_files_refuted` |
| C17 | get_uri() reconstructs an absolute request URI | `get_uri` | refuted (port, parameters dropped); proved for URIs without them; exact formula for all | `C17_port_refuted`, `C17_params_refuted`, `C17_get_uri_partial`, `C17_formula`, `C17_scheme_host`, `C17_confused_refuted` |
| C18 | A failed header parse is never mistaken for a successful one | header flag | all states; refuted after failures | `C18_success_is_final`, `C18_failure_is_forgotten`, `C18_failed_parse_refuted` |
| C19 | Header parameters survive quoting | `parse_header`, `_parse_header_params` | round trip by induction over parameters | `C19_quoted_value_exact`, `C19_header_roundtrip_partial`, `C19_quoted_semicolon_refuted` |
| C20 | Splitting header parameters terminates and loses nothing | `parse_header`, `_parse_header_params` | round trip by induction over parameters | `C20_split_params`, `C20_no_semicolon_first` |
| C21 | A part's content is delimited correctly for every chunking | `BoundaryIter` | window invariant: the kept tail contains every partial delimiter | `C21_parts_delimited` |
| C22 | Multipart forms round-trip | the whole `MultiPartParser` | relational semantics of the part loop, then a deterministic run over the items of the form | `C22_nonascii_refuted`, `C22_form_roundtrip_partial`, `C22_empty_file_refuted`, `C22_nonascii_name_refuted` |
| C23 | Skipped parts never leak into neighbours | same | the same items with the ignored pieces filtered out; a piece all rests of which are skipped does nothing, wherever in it the part loop goes on (`SkipFacts.v`, `skip_all` in `MultipartDet.v`); pieces of the body without its first delimiter (`PropsSkip.v`) | `C23_preamble_all_refuted`, `C23_no_trace_partial`, `C23_preamble_refuted`, `C23_leak_refuted`, `C23_nameless_partial`, `C23_preamble_all_refuted` |
| C24 | Multipart field-count limit is exact | same | invariant over the part loop; exact outcome on forms | `C24_limit_exact`, `C24_form_limit`, `C24_bounded` |
| C25 | Multipart memory limit is exact | same | invariant over the part loop; exact outcome on forms; a base64 text cut in the middle of a group never decodes (`PropsMoreAll.v`) | `C25_base64_field_all_refuted`, `C25_memory_limit_partial`, `C25_bounded`, `C25_base64_field_refuted` |
| C26 | The number of files is bounded | same | for every n a body with n files is accepted (induction on n) | `C26_files_unbounded_refuted` |
| C27 | Base64 file parts are decoded independently of chunking | base64 (binascii), file loop | decode lemmas; divergence for every fuel; refutations for all such bodies | `C27_base64_file` |
| C28 | Multipart parsing terminates | base64 (binascii), file loop; all loops with an explicit supply of steps | the supply is irrelevant (monotonicity of every function, `FuelFacts.v`); divergence for every supply; refutations for all such bodies | `C28_answers`, `C28_endless_exact`, `C28_endless_refuted`, `C28_terminates_partial` |
| C29 | A bad base64 field falls back to the raw data, a bad base64 file raises MultiPartParserError | base64 (binascii), file loop | decode lemmas; divergence for every fuel; refutations for all such bodies | `C29_field_refuted`, `C29_file_refuted` |
| C30 | A truncated file upload is never reported as complete | completion logic | truncated encodings; refuted for empty files | `C30_files_complete`, `C30_truncated_form` |
| C31 | Every uploaded file appears in FILES | completion logic | truncated encodings; refuted for empty files | `C31_files_appear_partial`, `C31_empty_files_refuted` |
| C32 | The stuck-parser guard never rejects a multipart body | the whole parser | invariants over the outer stream | `C32_guard_unreachable` |
| C33 | The request stream is fully consumed by a multipart parse | the whole parser | invariants over the outer stream | `C33_fully_consumed` |
| C34 | Content-Length handling | constructor of the parser | decision rules | `C34_no_length_reads_nothing`, `C34_negative_length_rejected`, `C34_length_does_not_matter` |
| C35 | Multipart set-up errors are reported as MultiPartParserError | constructor of the parser | decision rules | `C35_exact`, `C35_missing_refuted`, `C35_accepted_boundary_partial`, `C35_newline_boundary_refuted`, `C35_not_multipart_rejected`, `C35_boundary_parameter`, `C35_missing_boundary_refuted` |
| C36 | Spilling to disk is transparent | the three handlers | induction over chunks and files; for arbitrary input (no assumption on the body) by the simulation theorem of `CustomPar.v` (`C36_any_input`) | `C36_spill_transparent`, `C36_in_memory`, `C36_any_input` |
| C37 | Uploaded file names are safe | names, suffixes, entities | string lemmas | `C37_empty_name_refuted`, `C37_dotdot_all_refuted`, `C37_names_safe_partial`, `C37_dotdot_refuted` |
| C38 | The temporary file suffix cannot escape the upload directory | names, suffixes, entities | string lemmas | `C38_suffix_no_separator`, `C38_files_on_disk` |
| C39 | Entity unescaping of file names is total | names, suffixes, entities | string lemmas | `C39_numbers_exact`, `C39_large_number_refuted`, `C39_no_entity_unchanged`, `C39_numeric_entities`, `C39_total_partial`, `C39_overflow_refuted`, `C39_only_overflow_partial` |
| C40 | Query strings round-trip through QueryDict | query strings, `QueryDict` | codec round trip; splitting lemma; counting separators | `C40_urlencode_roundtrip`, `C40_nonascii_values_raise` |
| C41 | Query string parsing specification | query strings, `QueryDict` | codec round trip; splitting lemma; counting separators | `C41_parse_spec`, `C41_parse_total`, `C41_pairs_per_piece`, `C41_querydict` |
| C42 | Query field limit is exact | query strings, `QueryDict` | codec round trip; splitting lemma; counting separators | `C42_limit_exact`, `C42_unlimited`, `C42_separators_count_fields` |
| C43 | The two field limits agree | query strings, `QueryDict` | codec round trip; splitting lemma; counting separators | `C43_zero_all_refuted`, `C43_limits_agree_partial`, `C43_zero_refuted` |
| C44 | An immutable QueryDict cannot be changed through its methods | `QueryDict` methods | case analysis over all methods | `C44_immutable_unchanged`, `C44_changing_calls_raise` |
| C45 | QueryDict.copy() gives an independent mutable copy | `QueryDict` methods | case analysis over all methods | `C45_copy_refuted`, `C45_fromkeys_refuted` |
| C46 | MultiValueDict is a map from keys to lists | `MultiValueDict` on a heap of lists | refinement to a map of lists, induction over programs | `C46_refines_plain_map`, `C46_reading_methods` |
| C47 | getlist and copy() hand out independent lists | `MultiValueDict` on a heap of lists | refinement to a map of lists, induction over programs | `C47_list_mutation_invisible`, `C47_dictionaries_independent` |
| C48 | Parsed headers are immutable | `ImmutableMultiValueDict` | case analysis over all methods | `C48_setters_refused_partial`, `C48_immutable_refuted`, `C48_mutable_partial`, `C48_mutable_defaults_partial`, `C48_other_keys_kept`, `C48_mutable_refuted`, `C48_every_dictionary_refuted` |
| C49 | body() returns the whole remaining stream or refuses it | `body()` | equation of the read loop (`BodyRun.v`) over C06 | `C49_body_exact`, `C49_body_parses_header` |
| C50 | A refused body stays refused | `body()` | equation of the read loop (`BodyRun.v`) over C06 | `C50_refused_then_empty_refuted` |
| C51 | Raw body is unavailable after a form parse | `HttpRequest` as a state machine | relations preserved by every method (`RequestRel.v`), induction over histories | `C51_raw_body_unavailable_partial`, `C51_empty_body_refuted` |
| C52 | The body cannot be parsed before the header | `HttpRequest` as a state machine | relations preserved by every method (`RequestRel.v`), induction over histories | `C52_header_first_partial`, `C52_unknown_charset_refuted`, `C52_unknown_charset_all_refuted` |
| C53 | Form-urlencoded bodies give exactly the QueryDict of the body | `parse_request_body` | equations of `ParseRun.v` | `C53_urlencoded_partial`, `C53_errors`, `C53_empty_body`, `C53_undecodable_refuted` |
| C54 | Reusing a request object does not mix requests | `HttpRequest` as a state machine | relations preserved by every method (`RequestRel.v`), induction over histories | `C54_header_replaced`, `C54_reuse_partial`, `C54_stale_body_refuted`, `C54_stale_post_refuted` |
| C55 | A new body_stream fully replaces the body | `HttpRequest` as a state machine | relations preserved by every method (`RequestRel.v`), induction over histories | `C55_body_stream_replaces` |
| C56 | Requests sharing a Settings object do not influence each other | `HttpRequest` as a state machine | relations preserved by every method (`RequestRel.v`), induction over histories | `C56_independent_partial`, `C56_no_charset_no_change`, `C56_charset_leak_refuted`, `C56_charset_stays_refuted` |
| C57 | body() before parse_request_body() does not change the parsed form | `body()` | equation of the read loop (`BodyRun.v`) over C06 | `C57_body_first_refuted` |
| C58 | Request operations never invent or reorder stream bytes | `read`, `body()` over failing sources | the stream as a tape of bytes and failures (`TapeFacts.v`) | `C58_only_a_prefix_disappears`, `C58_read_returns_the_prefix` |
| C59 | Source I/O errors surface as UnreadablePostError | `read`, `body()` over failing sources | the stream as a tape of bytes and failures (`TapeFacts.v`) | `C59_never_raised_refuted`, `C59_type_error` |
| C60 | iri_to_uri yields a safe ASCII URI and is idempotent | percent-encoding, `set_path` | byte-wise induction | `C60_iri_to_uri_encodes`, `C60_iri_to_uri_output`, `C60_iri_to_uri_idempotent`, `C60_iri_to_uri_invertible` |
| C61 | escape_uri_path is a safe, invertible path encoding | percent-encoding, `set_path` | byte-wise induction | `C61_escape_uri_path_encodes`, `C61_escape_uri_path_invertible`, `C61_escape_uri_path_idempotent`, `C61_escape_uri_path_output` |
| C62 | set_path / get_full_path agree | percent-encoding, `set_path` | byte-wise induction | `C62_set_path_safe`, `C62_set_path_raw` |
| C63 | Unsafe redirect targets are rejected | `is_safe_url` and helpers | equivalence with a specification of the URL | `C63_safe_url_iff`, `C63_none_unsafe`, `C63_foreign_host_rejected`, `C63_paths_accepted`, `C63_native_never_safe` |
| C64 | escape_leading_slashes prevents scheme-relative URLs | `is_safe_url` and helpers | equivalence with a specification of the URL | `C64_escape_leading_slashes` |
| C65 | is_same_domain matches exactly the domain and its subdomains | `is_safe_url` and helpers | equivalence with a specification of the URL | `C65_is_same_domain` |
| C66 | Base 36 round-trips | base 36 | arithmetic | `C66_base36_roundtrip`, `C66_base36_too_big`, `C66_base36_shape`, `C66_negative_rejected` |
| C67 | URL-safe base64 round-trips | URL-safe base64 | induction over groups of three bytes | `C67_urlsafe_roundtrip`, `C67_urlsafe_output` |
| C68 | Malformed URL-safe base64 raises ValueError | URL-safe base64 | induction over groups of three bytes | `C68_junk_refuted`, `C68_malformed_raises_valueerror_refuted`, `C68_alphabet_decodes_partial`, `C68_exceptions_partial` |
| C69 | ETag lists round-trip | ETags | string lemmas | `C69_commas_refuted`, `C69_list_exact`, `C69_quote_etag_exact`, `C69_etag_list_roundtrip_partial`, `C69_etag_list_roundtrip_refuted`, `C69_star`, `C69_only_etags_returned`, `C69_quote_etag_idempotent_partial`, `C69_quote_etag_idempotent_refuted` |
| C70 | HTTP dates round-trip | `http_date`, `parse_http_date` (`DateModel.v`) | calendar arithmetic against an inductive calendar (`DateSpec.v`, `PropsDate.v`); the matchers are functions of the text | `C70_http_date_written`, `C70_written_read`, `C70_all_times`, `C70_first_century_misread`, `C70_http_date_roundtrip`, `C70_rfc850_roundtrip`, `C70_asctime_roundtrip`, `C70_http_date_text` |
| C71 | Invalid HTTP dates raise ValueError | `parse_http_date`, `parse_http_date_safe` (`DateModel.v`) | inversion of the three matchers; moments from `DateSpec.v` (`PropsDate.v`) | `C71_read`, `C71_not_read`, `C71_exact`, `C71_weekday_refuted`, `C71_bad_shape_valueerror`, `C71_invalid_dates_valueerror_refuted`, `C71_outcomes_partial`, `C71_parsed_dates_exist` |
| C72 | Iterating an uploaded file yields its lines for every chunk size | `File` | induction over chunks; independence of the chunking | `C72_file_lines`, `C72_any_chunking`, `C72_memory_lines`, `C72_chunks` |
| C73 | Settings override only what is named | settings | overlay of attribute lists | `C73_settings_overlay_partial`, `C73_empty_settings_refuted` |
| C74 | Unknown charsets are reported as an invalid request | `HttpRequest` as a state machine | relations preserved by every method (`RequestRel.v`), induction over histories | `C74_unknown_charset_refuted` |
| C75 | Setting encoding keeps GET available | `HttpRequest` as a state machine | relations preserved by every method (`RequestRel.v`), induction over histories | `C75_encoding_drops_get_refuted` |
| C76 | A blank line before the request line is never skipped silently | `parse_request_headers` | spec: split at CRLF, filter by name; induction over lines | `C76_leading_blank_line_joins_request_line` |
| C77 | Method, path, scheme, query and GET come from the request line | `parse_request_header` as a method of the object | equation for `populate` (`HeaderRun.v`) over C06, C09, C11, C12, C41 | `C77_line_attributes`, `C77_get_pairs`, `C77_get_limit`, `C77_get_immutable`, `C77_get_mutable_refuted`, `C77_no_query_refuted` |
| C78 | A body that is not a form stays available as raw bytes | `parse_request_body` | equations of `ParseRun.v` | `C78_text_body`, `C78_raw_bytes_refuted`, `C78_text_not_bytes_refuted` |
| C79 | A form sent as a multipart request comes out in POST and FILES | `parse()` from the bytes on the wire to POST and FILES | the parser over the request's own stream equals the parser over the body (`RequestMulti.v`), then C22; other handler lists by C128 (`PropsChoice.v`) | `C79_any_handlers`, `C79_multipart_request`, `C79_no_memory_limit_refuted` |
| C80 | parse() of a multipart request is MultiPartParser over the body | `parse()` from the bytes on the wire to POST and FILES | the parser over the request's own stream equals the parser over the body (`RequestMulti.v`), then C22; other handler lists by C128 (`PropsChoice.v`) | `C80_any_handlers`, `C80_same_as_parser` |
| C81 | A form without Content-Length is not lost | `parse()` from the bytes on the wire to POST and FILES | the parser over the request's own stream equals the parser over the body (`RequestMulti.v`), then C22 | `C81_unmeasured_form_refuted` |
| C82 | is_secure() is true exactly for an https target | `parse_request_header` as a method of the object | equation for `populate` (`HeaderRun.v`) over C06, C09, C11, C12, C41 | `C82_secure_is_https`, `C82_origin_not_secure` |
| C83 | is_ajax() recognises XMLHttpRequest requests | `parse_request_header` as a method of the object | equation for `populate` (`HeaderRun.v`) over C06, C09, C11, C12, C41 | `C83_ajax_header`, `C83_requested_with_refuted` |
| C84 | Assigned upload handlers are used, and only before parsing | `upload_handlers` | all states | `C84_assignment_ignored_refuted`, `C84_early_getter_refuted`, `C84_frozen_after_parsing` |
| C85 | uri_to_iri() undoes iri_to_uri() | `uri_to_iri` | byte-wise induction; UTF-8 round trip | `C85_inverts_iri_to_uri_partial`, `C85_percent_refuted`, `C85_other_bytes_lost`, `C85_exact`, `C85_escapes_refuted` |
| C86 | The raw full path is the path and query before encoding | `get_full_path(raw=True)` | as C62, with the decoding of a concatenation | `C86_raw_uri`, `C86_raw_full_path_partial`, `C86_raw_ambiguous_refuted`, `C86_exact`, `C86_same_raw_refuted` |
| C87 | get_port() is the port number as text | `get_port` | from C16; refuted | `C87_no_port_refuted`, `C87_number`, `C87_get_port`, `C87_not_a_port_refuted`, `C87_unparsed_refuted` |
| C88 | repr(request) is one printable line | `__repr__` | character sets of C60, C61; refuted | `C88_method_verbatim_refuted`, `C88_repr_unparsed`, `C88_one_line_refuted`, `C88_one_line_partial` |
| C89 | multiple_chunks() tells whether chunks() yields several chunks | `File` objects with class and size | from C72, counting blocks; refuted | `C89_uploaded_multiple_chunks_partial`, `C89_plain_file_refuted` |
| C90 | Length and truth value of files | `__len__`, Python 2 truth value | case analysis; refuted | `C90_length_of_uploads`, `C90_truth_is_content`, `C90_empty_upload_refuted`, `C90_plain_file_refuted`, `C90_length_is_size`, `C90_wrong_size_refuted`, `C90_no_size_refuted`, `C90_upload_first_read` |
| C91 | SimpleUploadedFile holds what it was given | `SimpleUploadedFile` | string lemmas | `C91_simple_file`, `C91_from_dict`, `C91_first_read` |
| C92 | The size of an uploaded file is the length of its content | `file_loop`, `feed`, `file_complete`, the handlers | invariant of the loop over any body: counter = length of what the handler holds | `C92_size_is_content` |
| C93 | A multipart parse does not amplify its input | `mp_parse` | the same invariant with a measure on what is held | `C93_no_amplification` |
| C94 | FILE_UPLOAD_MAX_MEMORY_SIZE bounds what uploads keep in memory | `conv_receive`, `mem_raw_input` | invariant on bytes received; refuted for the two-handler set-up with a Content-Length that is too small | `C94_announced_refuted`, `C94_default_handler`, `C94_two_handlers_partial`, `C94_content_length_refuted` |
| C95 | A handler's methods are called in order, with the right positions | the whole parser over handlers with arbitrary methods (`CustomModel.v`) | invariant of the loop over any input (`CustomProto.v`); the content from the semantics of parts; simulation with `mp_parse` (`CustomLib.v`); refuted for later handlers | `C95_first_handler`, `C95_all_handlers`, `C95_stopped_handlers_refuted`, `C95_upload_complete`, `C95_upload_complete_refuted`, `C95_content`, `C95_library` |
| C96 | Skipping files does not disturb the rest of the form | as C95; the library's handlers behind a guard (`CustomGuard.v`) | relation with the run over the parts of the form, skipped files dropped | `C96_post`, `C96_post_returned`, `C96_skip` |
| C97 | StopUpload keeps what came before and nothing else | as C96 | the same relation, cut at the refused file; the input by an invariant (`CustomInput.v`) | `C97_stop` |
| C98 | A failing read is never mistaken for the end of the body | as C95; the request object as C49-C59; sources with failures at any position | a Hoare-style invariant 'a failure is still ahead, or an exception was raised' through every reading function (`CustomFail.v`), instantiated for the raw input and for the request stream | `C98_handlers`, `C98_parser`, `C98_body`, `C98_request`, `C98_parse` |
| C99 | An upload handler that only looks on changes nothing | as C95 | a simulation theorem for the parser over two handler lists (`CustomPar.v`), instantiated for a list with and without observers | `C99_observers` |

## What is modelled

| source | modelled | not modelled |
|--------|----------|--------------|
| `utils/datastructures.py` | `MultiValueDict`: item access, `get`, `getlist`, `setlist`, `setdefault`, `setlistdefault`, `appendlist`, `update` (with a MultiValueDict, a dictionary or keywords), `copy`, `items`, `lists`, `values`, `__deepcopy__`, `getlist` with a default, pickling, `__repr__` (C151), `__setstate__` (C152); `ImmutableMultiValueDict`; `ImmutableList` (C123); `LazyStream`; `ChunkIter` | - |
| `utils/http.py` | dates, base 36, URL-safe base64, ETags, `is_same_domain`, `is_safe_url`, `_urlsplit`, `_urlparse`, `limited_parse_qsl`, `escape_leading_slashes`, `urlquote`, `urlquote_plus`, `urlunquote`, `urlunquote_plus`, `urlencode` (strings, None, sequences, and objects with an ASCII text) | - |
| `utils/encoding.py` | `iri_to_uri` of any value, `escape_uri_path` of byte strings, `uri_to_iri`, `force_text`, `force_str`, `is_protected_type` (C116) | `DjangoUnicodeDecodeError` (never raised under Python 2.7: `str` is `bytes`) |
| `utils/text.py` | both functions; the table `name2codepoint` is universally quantified | - |
| `utils/module_loading.py` | `import_string` over arbitrary modules (C103); `module_has_submodule`, `module_dir` (C117); elsewhere `FILE_UPLOAD_HANDLERS` is a list of the three handler classes of the repository | - |
| `conf/settings.py` | constructor, `default`, `_check_upload_dir` over a file system (C100-C102); elsewhere the directory is an arbitrary text | - |
| `files/base.py` | `File.open`, `close` (C104, C105), `File.chunks`, `File.__iter__`, the line helpers, `__len__`, truth value, `multiple_chunks`, the constructor of `ContentFile` (it always raises), `size()`, `__repr__` (C115), `__str__` (C161) | - |
| `files/uploadedfile.py` | `_set_name`, the suffix of temporary files, `chunks`, `multiple_chunks`, `SimpleUploadedFile`; an uploaded file is (kind, name, type, size, charset, content); `open`, `close`, `write`, `temporary_file_path` and the with statement over files on disk (C104, C105, C158) | - |
| `files/uploadhandler.py` | the three handler classes, in any list; handlers written by users, with any methods, `StopUpload`, `SkipFile`, `StopFutureHandlers` (`CustomModel.v`); handlers that read from the input in `handle_raw_input` (C127); `load_handler` (C103) | handlers that read from the input in other methods |
| `files/temp.py`, `files/utils.py` | `get_abs_path` (C100), `closed`, `readable`, `writable`, `seekable` of `FileProxyMixin` (C115); Windows temporary files (C132) | - |
| `http/multipartparser.py` | `MultiPartParser.__init__` and `parse`, `InterBoundaryIter`, `BoundaryIter`, `Parser`, `parse_boundary_stream`, `exhaust`, `parse_header` |  |
| `http/request.py` | `HttpRequest`: constructor, setters, `parse*`, `body`, `read`, `get_path`, `get_full_path`, `get_uri` (also with `raw=True`), `get_port`, `_current_scheme_host`, `__repr__`, `is_*`; `QueryDict`; header block, request line, `split_domain_port`; `close()` (C104) | the attributes `_post` and `content_params`; the plain getters are attribute reads; `readline` and the methods built on it are the AttributeError they raise |
| `http/constants.py`, `exceptions/` | names only | - |

Simplifications, all noted at the definitions:

* `temporary file creation` is a pure function of the suffix (`mk_temp`); it may fail, but not differently for two equal calls.  Operations on temporary files that fail at any moment are modelled for C134 only (`DiskModel.v`).
* `chr` and C `long` are those of a 64-bit build; unicode is a wide build (code points beyond the BMP are one character).
* `os.path` is `posixpath`; the file system of C100-C102 has no links, the working directory is absolute; the disk of C104-C105 is a flat map from names to contents.
* `int(s)` is modelled for ASCII text with the usual spellings (white space, sign, digits, and the prefix rules of a given base).
* A `boundary` given as an RFC 2231 parameter becomes a unicode object; `MultipartModel.v` searches for it as bytes, which is faithful when the body is ASCII.  `UniModel.v` has the search as it is; C135 proves that the two agree for ASCII bodies and that the only other outcome is UnicodeDecodeError.
* `unicodedata.category` is a parameter (`ctl`) of `is_safe_url`.
* Python's recursion limit, memory exhaustion and signals do not exist in the model.

## Trusted base

* Coq 8.16.1's kernel (the `vm_compute` machine is used for the concrete witnesses and is checked again by `coqchk`).
* `Print Assumptions` follows every property theorem in `Props*.v`; every one prints `Closed under the global context`: no axioms at all, neither own nor of the standard library.
* `coqchk` lists seven axioms `Coq.ssr.ssrunder.Under_rel.*`.  They belong to the standard library's ssreflect plugin files, which are loaded by `Lia`/`Zify`; no theorem depends on them.
* No axioms, parameters, section-less variables, functors or module types of our own; nothing admitted.
* The reading of the Python code: that the definitions in `*Model.v` say what the cited lines do.  This is not proved.
* The reading of Python 2.7's library, where the code calls it: string methods, `re` for the patterns in the code, `base64`/`binascii`, `cgi.valid_boundary`, `email.utils.formatdate`, `calendar.timegm`, `datetime`, `os.path`, `future.backports.urllib.parse` (`quote`, `unquote`, `unquote_to_bytes`, `_splitnetloc`, `_splitparams`), `six.reraise`, codecs.
