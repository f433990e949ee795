{"id": "C01", "title": "LazyStream is a byte string with a cursor", "statement": "For every source, whatever the sizes of the chunks it hands out, and for every sequence of read(n), read(), next(), unget(b) and tell() on a LazyStream, the stream behaves like one plain byte string: read(n) returns exactly the next min(n, remaining) bytes, read() returns the rest, unget(b) puts b back in front, next() returns some prefix of what is left (and stops only when nothing is left), and tell() equals bytes handed out minus bytes put back.", "quantifier": "all chunkings of all byte strings, all operation sequences of any length", "why_tests_cant": "the chunk boundaries interact with every read size and every pushback; tests fix a handful of chunkings", "anchors": ["request_parser/utils/datastructures.py:LazyStream.read", "request_parser/utils/datastructures.py:LazyStream.next", "request_parser/utils/datastructures.py:LazyStream.unget", "request_parser/utils/datastructures.py:LazyStream.tell"]}
{"id": "C02", "title": "The stuck-parser guard fires exactly on 41 equal pushbacks in the last 50", "statement": "unget raises SuspiciousMultipartForm if and only if, counting the pushback being made, at least 41 of the 50 most recent non-empty pushbacks since the last chunk was fetched from the source had that same length; when it raises, neither position nor pending bytes change.", "quantifier": "all histories of a LazyStream", "why_tests_cant": "needs histories of 41+ operations with all length patterns", "anchors": ["request_parser/utils/datastructures.py:LazyStream._update_unget_history", "request_parser/utils/datastructures.py:LazyStream.unget"]}
{"id": "C03", "title": "Reading alone never trips the stuck-parser guard", "statement": "However a source is chunked, no sequence of read calls (of any sizes) on a fresh LazyStream ever raises SuspiciousMultipartForm.", "quantifier": "all sources and all unbounded read sequences", "why_tests_cant": "the guard counts across an unbounded history", "anchors": ["request_parser/utils/datastructures.py:LazyStream.read", "request_parser/utils/datastructures.py:LazyStream._update_unget_history"]}
{"id": "C04", "title": "ChunkIter re-blocks a stream without loss", "statement": "Iterating ChunkIter(stream, n) for n >= 1 yields chunks whose concatenation is exactly the remaining stream content, every chunk but the last having exactly n bytes and the last between 1 and n; an empty stream yields nothing.", "quantifier": "all streams, chunkings and chunk sizes", "why_tests_cant": "unbounded contents and chunkings", "anchors": ["request_parser/utils/datastructures.py:ChunkIter.next"]}
{"id": "C05", "title": "close() keeps already-buffered bytes readable", "statement": "After LazyStream.close(), bytes that were already pulled or pushed back are still returned by read()/read(n) and then the stream simply ends.", "quantifier": "all stream states and read sizes", "why_tests_cant": "a documented contract over every state", "anchors": ["request_parser/utils/datastructures.py:LazyStream.close"]}
{"id": "C06", "title": "Header/body framing is exact", "statement": "parse_request_header consumes exactly the bytes up to and including the first CRLFCRLF of the stream and leaves exactly the bytes after it as the unread body, for every chunking of the source and every MAX_HEADER_SIZE >= 1; everything it reports depends only on the bytes before that CRLFCRLF.", "quantifier": "all byte streams, all chunkings, all header read sizes", "why_tests_cant": "the terminator can straddle any chunk or read boundary", "anchors": ["request_parser/http/request.py:HttpRequest.parse_request_header"]}
{"id": "C07", "title": "A stream without CRLFCRLF is rejected", "statement": "If the stream contains no CRLFCRLF, parse_request_header raises InvalidHttpRequest (never loops, never another error), and if it contains one that particular error is not raised for framing.", "quantifier": "all byte streams and chunkings", "why_tests_cant": "absence over an unbounded input", "anchors": ["request_parser/http/request.py:HttpRequest.parse_request_header"]}
{"id": "C08", "title": "MAX_HEADER_SIZE bounds the header", "statement": "A request whose header section is longer than settings.MAX_HEADER_SIZE is refused.", "quantifier": "all requests and settings", "why_tests_cant": "quantifies over all sizes", "anchors": ["request_parser/http/request.py:HttpRequest.parse_request_header", "request_parser/conf/settings.py:Settings.default"]}
{"id": "C09", "title": "Header lines are grouped by name in arrival order", "statement": "For every header block, getlist(name) on the parsed headers is the list, in order of arrival, of the whitespace-stripped values of the lines whose text before the first colon is exactly that name; names that do not occur give [].", "quantifier": "all header blocks with any number of lines and repetitions", "why_tests_cant": "unbounded line counts and repetition patterns", "anchors": ["request_parser/http/request.py:parse_request_headers"]}
{"id": "C10", "title": "Malformed header blocks are rejected, well-formed ones accepted", "statement": "parse_request_headers raises InvalidHttpRequest when there is no request line terminator, no header line or a line without a colon, raises UnicodeDecodeError when a name or value has a byte >= 0x80, and otherwise succeeds; which of them depends on the first offending line.", "quantifier": "all header blocks", "why_tests_cant": "exact accept/reject boundary over all inputs", "anchors": ["request_parser/http/request.py:parse_request_headers"]}
{"id": "C11", "title": "The request line must be exactly three space-separated tokens", "statement": "parse_request_line succeeds only for METHOD SP URI SP VERSION with exactly two spaces, returns method and version verbatim, and raises InvalidHttpRequest for any other number of tokens.", "quantifier": "all request lines", "why_tests_cant": "exact boundary over all inputs", "anchors": ["request_parser/http/request.py:parse_request_line"]}
{"id": "C12", "title": "The URL is split without losing or inventing bytes", "statement": "For every ASCII request URI, the scheme/authority/path/params/query/fragment reported by the URL splitter, put back together with their separators, give the URI back (scheme compared case-insensitively, empty delimiters dropped); the authority never contains '/', '?' or '#', the path never '?' or '#', the query never '#'.", "quantifier": "all ASCII URIs", "why_tests_cant": "all delimiter combinations of any length", "anchors": ["request_parser/utils/http.py:_urlsplit", "request_parser/utils/http.py:_urlparse"]}
{"id": "C13", "title": "Host comes from the absolute URI, else from the last Host header", "statement": "After a successful header parse the host is taken from the URI authority when the URI has one, otherwise from the last header named exactly 'Host'; with neither, NoHostFoundException is raised.  The Host header is removed from META exactly in the second case.", "quantifier": "all requests", "why_tests_cant": "all combinations of URI forms and header lists", "anchors": ["request_parser/http/request.py:HttpRequest.parse_request_header"]}
{"id": "C14", "title": "Header names are matched case-insensitively", "statement": "A request is treated the same if its header names are re-cased (RFC 7230 3.2), in particular 'host:' is a Host header and 'content-type:' a Content-Type header.", "quantifier": "all requests and re-casings", "why_tests_cant": "all re-casings", "anchors": ["request_parser/http/request.py:HttpRequest.parse_request_header", "request_parser/http/request.py:parse_request_headers"]}
{"id": "C15", "title": "Host and port decomposition is safe", "statement": "split_domain_port returns either ('','') or a domain consisting only of [a-z0-9.-], or a bracketed [a-f0-9.:] literal, together with a port that is empty or all digits; and for every valid host the input is, lower-cased, domain + optional trailing dot + optional ':' port.", "quantifier": "all host strings", "why_tests_cant": "regex acceptance over all strings, including the $-before-newline rule", "anchors": ["request_parser/http/request.py:split_domain_port", "request_parser/http/request.py:host_validation_re"]}
{"id": "C16", "title": "Port defaulting", "statement": "After a successful header parse the port is the explicit one if present, else 443 for https, 80 for http and 65536 for anything else, where the scheme is the URI's scheme compared case-insensitively.", "quantifier": "all requests", "why_tests_cant": "all scheme/host combinations", "anchors": ["request_parser/http/request.py:HttpRequest.parse_request_header"]}
{"id": "C17", "title": "get_uri() reconstructs an absolute request URI", "statement": "For an absolute-form request the URI returned by get_uri() denotes the same resource as the request line: same scheme, host, port, path (with parameters) and query.", "quantifier": "all absolute-form requests", "why_tests_cant": "all URIs", "anchors": ["request_parser/http/request.py:HttpRequest.get_uri", "request_parser/http/request.py:HttpRequest._get_full_path", "request_parser/http/request.py:parse_request_line"]}
{"id": "C18", "title": "A failed header parse is never mistaken for a successful one", "statement": "If parse_request_header raised, calling it again on the same object raises again (it does not return normally with empty metadata); if it succeeded, calling it again changes nothing.", "quantifier": "all streams and call histories", "why_tests_cant": "history property", "anchors": ["request_parser/http/request.py:HttpRequest.parse_request_header"]}
{"id": "C19", "title": "Header parameters survive quoting", "statement": "For every token-named parameter list rendered as main; name=value or name=\"quoted value\" with backslash escapes, parse_header returns the lower-cased main value and every parameter value unchanged (last one wins for repeated names), whatever bytes the values contain.", "quantifier": "all parameter lists of any length and all values", "why_tests_cant": "delimiter/escape interactions for all values", "anchors": ["request_parser/http/multipartparser.py:parse_header", "request_parser/http/multipartparser.py:_parse_header_params"]}
{"id": "C20", "title": "Splitting header parameters terminates and loses nothing", "statement": "Splitting 'main; p1; p2...' yields at least one element, and joining the unstripped pieces with ';' gives the line back; a ';' inside an odd number of preceding quotes never splits.", "quantifier": "all byte lines", "why_tests_cant": "all quote/semicolon patterns", "anchors": ["request_parser/http/multipartparser.py:_parse_header_params"]}
{"id": "C21", "title": "A part's content is delimited correctly for every chunking", "statement": "For every outer stream content, boundary and chunking, the bytes a part's field stream delivers are exactly the bytes before the first delimiter (minus the line break directly before it), or all bytes if there is no delimiter, and when it has been read to the end the outer stream stands exactly after the delimiter.", "quantifier": "all contents, boundaries, chunkings and read patterns", "why_tests_cant": "a delimiter can straddle every chunk boundary; unbounded sizes", "anchors": ["request_parser/http/multipartparser.py:BoundaryIter.next", "request_parser/http/multipartparser.py:BoundaryIter._find_boundary", "request_parser/http/multipartparser.py:InterBoundaryIter.next"]}
{"id": "C22", "title": "Multipart forms round-trip", "statement": "For every list of text fields and files encoded as multipart/form-data under a boundary not occurring in them, parsing gives back exactly the field values per name in order and the file contents, names and types per name in order, for every chunking and chunk size.", "quantifier": "all forms of any number of parts with arbitrary binary contents, all chunkings", "why_tests_cant": "unbounded forms, contents and chunkings", "anchors": ["request_parser/http/multipartparser.py:MultiPartParser.parse", "request_parser/http/multipartparser.py:parse_boundary_stream", "request_parser/http/multipartparser.py:Parser"]}
{"id": "C23", "title": "Skipped parts never leak into neighbours", "statement": "Bytes of a part that is skipped (preamble, part without a content-disposition name, epilogue) never show up as another part, field or file.", "quantifier": "all bodies", "why_tests_cant": "depends on sizes relative to the chunk size", "anchors": ["request_parser/http/multipartparser.py:MultiPartParser.parse", "request_parser/http/multipartparser.py:parse_boundary_stream"]}
{"id": "C24", "title": "Multipart field-count limit is exact", "statement": "With DATA_UPLOAD_MAX_NUMBER_FIELDS = n, a multipart body with more than n named non-file parts raises TooManyFieldsSent and one with at most n never does; files do not count.", "quantifier": "all bodies and limits", "why_tests_cant": "boundary for all counts", "anchors": ["request_parser/http/multipartparser.py:MultiPartParser.parse"]}
{"id": "C25", "title": "Multipart memory limit is exact", "statement": "With DATA_UPLOAD_MAX_MEMORY_SIZE = m, parsing raises RequestDataTooBig exactly when the running sum over the fields of (bytes of data + length of name + 2) exceeds m, and never buffers more than m bytes of field data; file content does not count.", "quantifier": "all bodies and limits", "why_tests_cant": "boundary for all sums", "anchors": ["request_parser/http/multipartparser.py:MultiPartParser.parse"]}
{"id": "C26", "title": "The number of files is bounded", "statement": "A limit exists on the number of file parts one multipart request can make the parser create.", "quantifier": "all bodies and limits", "why_tests_cant": "quantifies over all bodies", "anchors": ["request_parser/http/multipartparser.py:MultiPartParser.parse"]}
{"id": "C27", "title": "Base64 file parts are decoded independently of chunking", "statement": "A file part with Content-Transfer-Encoding: base64 containing the base64 text of d, with any whitespace inserted anywhere and any chunking, is stored as exactly d.", "quantifier": "all contents, whitespace placements and chunkings", "why_tests_cant": "alignment mod 4 against every chunking", "anchors": ["request_parser/http/multipartparser.py:MultiPartParser.parse", "request_parser/files/uploadhandler.py:FileUploadHandler.receive_data_chunk"]}
{"id": "C28", "title": "Multipart parsing terminates", "statement": "MultiPartParser.parse terminates on every body.", "quantifier": "all bodies", "why_tests_cant": "non-termination cannot be observed by a test in finite time", "anchors": ["request_parser/http/multipartparser.py:MultiPartParser.parse"]}
{"id": "C29", "title": "A bad base64 field falls back to the raw data, a bad base64 file raises MultiPartParserError", "statement": "Undecodable base64 in a text field gives the raw bytes as data, undecodable base64 in a file raises MultiPartParserError.", "quantifier": "all undecodable contents", "why_tests_cant": "all malformed inputs", "anchors": ["request_parser/http/multipartparser.py:MultiPartParser.parse"]}
{"id": "C30", "title": "A truncated file upload is never reported as complete", "statement": "If the body ends before the delimiter that closes a file part, that file is not in FILES.", "quantifier": "all truncation points of all bodies", "why_tests_cant": "every crash/cut point", "anchors": ["request_parser/http/multipartparser.py:MultiPartParser.parse", "request_parser/http/multipartparser.py:MultiPartParser.handle_file_complete"]}
{"id": "C31", "title": "Every uploaded file appears in FILES", "statement": "Every completely received file part with a field name and a file name appears in FILES, including empty files.", "quantifier": "all bodies", "why_tests_cant": "all contents", "anchors": ["request_parser/http/multipartparser.py:MultiPartParser.handle_file_complete", "request_parser/files/base.py:File.__len__"]}
{"id": "C32", "title": "The stuck-parser guard never rejects a multipart body", "statement": "Parsing a multipart body with the built-in handlers never raises SuspiciousMultipartForm, for any body and chunk size: the guard is unreachable rather than triggered by many small parts.", "quantifier": "all bodies, chunkings, chunk sizes", "why_tests_cant": "the guard depends on unbounded history", "anchors": ["request_parser/utils/datastructures.py:LazyStream._update_unget_history", "request_parser/http/multipartparser.py:BoundaryIter"]}
{"id": "C33", "title": "The request stream is fully consumed by a multipart parse", "statement": "After MultiPartParser.parse returns normally with a non-zero Content-Length, the request stream is at its end.", "quantifier": "all bodies", "why_tests_cant": "all inputs", "anchors": ["request_parser/http/multipartparser.py:MultiPartParser.parse", "request_parser/http/multipartparser.py:exhaust"]}
{"id": "C34", "title": "Content-Length handling", "statement": "Content-Length 0, missing or not an integer gives empty POST and FILES without reading the body; a negative one raises MultiPartParserError; any positive value gives the same POST and FILES (it does not bound what is read) with the default handler.", "quantifier": "all header values and bodies", "why_tests_cant": "all integers and bodies", "anchors": ["request_parser/http/multipartparser.py:MultiPartParser.__init__", "request_parser/http/multipartparser.py:MultiPartParser.parse"]}
{"id": "C35", "title": "Multipart set-up errors are reported as MultiPartParserError", "statement": "A Content-Type that is not multipart/*, or whose boundary is missing, empty, longer than 201 characters or contains non-printable characters makes the constructor raise MultiPartParserError; a boundary accepted is 1..201 printable ASCII characters not ending in a space.", "quantifier": "all Content-Type values", "why_tests_cant": "exact acceptance boundary", "anchors": ["request_parser/http/multipartparser.py:MultiPartParser.__init__"]}
{"id": "C36", "title": "Spilling to disk is transparent", "statement": "With ConvenientFileUploadHandler the content and size of every uploaded file are the same whatever FILE_UPLOAD_MAX_MEMORY_SIZE is and however the data is chunked; a file is held in memory only if the total of all file bytes received so far (all files of the request) is at most the limit.", "quantifier": "all file sequences, chunkings and limits", "why_tests_cant": "the switch point against every chunking and file sequence", "anchors": ["request_parser/files/uploadhandler.py:ConvenientFileUploadHandler"]}
{"id": "C37", "title": "Uploaded file names are safe", "statement": "The name of every uploaded file contains no '/' and is at most 255 characters long, whatever the client sent; after IE_sanitize it contains no backslash; and it is never '.' or '..'.", "quantifier": "all client file names", "why_tests_cant": "all strings", "anchors": ["request_parser/files/uploadedfile.py:UploadedFile._set_name", "request_parser/http/multipartparser.py:MultiPartParser.IE_sanitize", "request_parser/utils/text.py:unescape_entities"]}
{"id": "C38", "title": "The temporary file suffix cannot escape the upload directory", "statement": "The suffix used to create the temporary file for an upload never contains '/', for any client file name.", "quantifier": "all client file names", "why_tests_cant": "all strings", "anchors": ["request_parser/files/uploadedfile.py:TemporaryUploadedFile.__init__"]}
{"id": "C39", "title": "Entity unescaping of file names is total", "statement": "unescape_entities never raises, leaves text without a complete entity unchanged, and numeric entities below 256 become that character.", "quantifier": "all strings", "why_tests_cant": "all strings", "anchors": ["request_parser/utils/text.py:unescape_entities", "request_parser/utils/text.py:_replace_entity"]}
{"id": "C40", "title": "Query strings round-trip through QueryDict", "statement": "For every QueryDict whose keys encode in its charset and whose values are ASCII, parsing urlencode() gives a QueryDict with the same getlist for every key (keys with empty lists aside), in any iteration order.", "quantifier": "all dictionaries, all orders", "why_tests_cant": "escape interactions over all strings", "anchors": ["request_parser/http/request.py:QueryDict.urlencode", "request_parser/utils/http.py:limited_parse_qsl"]}
{"id": "C41", "title": "Query string parsing specification", "statement": "limited_parse_qsl splits at every '&' and ';', drops empty pieces, splits each at the first '=', turns '+' into space and then percent-decodes; with keep_blank_values every non-empty piece yields exactly one pair and without it exactly the pieces with a non-empty value do.", "quantifier": "all query strings", "why_tests_cant": "all strings", "anchors": ["request_parser/utils/http.py:limited_parse_qsl"]}
{"id": "C42", "title": "Query field limit is exact", "statement": "With a positive fields_limit n, limited_parse_qsl raises TooManyFieldsSent iff the query string has at least n separators ('&' or ';'); with None or 0 it never does; otherwise the limit does not change the result.", "quantifier": "all query strings and limits", "why_tests_cant": "all counts", "anchors": ["request_parser/utils/http.py:limited_parse_qsl"]}
{"id": "C43", "title": "The two field limits agree", "statement": "DATA_UPLOAD_MAX_NUMBER_FIELDS means the same for urlencoded and for multipart bodies, in particular for the values 0 and None.", "quantifier": "all settings", "why_tests_cant": "all settings", "anchors": ["request_parser/utils/http.py:limited_parse_qsl", "request_parser/http/multipartparser.py:MultiPartParser.parse"]}
{"id": "C44", "title": "An immutable QueryDict cannot be changed through its methods", "statement": "On a QueryDict constructed without mutable=True every sequence of __setitem__, __delitem__, setlist, setlistdefault, appendlist, update, pop, popitem, clear and setdefault calls leaves all getlist results unchanged, and each call that would change it raises AttributeError.", "quantifier": "all dictionaries and all call sequences", "why_tests_cant": "unbounded histories", "anchors": ["request_parser/http/request.py:QueryDict"]}
{"id": "C45", "title": "QueryDict.copy() gives an independent mutable copy", "statement": "copy(), copy.copy and fromkeys return a new mutable QueryDict with the same contents whose modification does not affect the original.", "quantifier": "all dictionaries", "why_tests_cant": "all dictionaries", "anchors": ["request_parser/http/request.py:QueryDict.copy", "request_parser/http/request.py:QueryDict.__deepcopy__", "request_parser/http/request.py:QueryDict.fromkeys"]}
{"id": "C46", "title": "MultiValueDict is a map from keys to lists", "statement": "For every sequence of setitem, setlist, appendlist, setdefault, setlistdefault, update, pop, del and clear, getlist(k), d[k], get(k), keys, lists(), items() and dict() agree with a plain map from keys to lists: d[k] is the last element, update extends, other keys are never affected.", "quantifier": "all operation sequences", "why_tests_cant": "unbounded histories", "anchors": ["request_parser/utils/datastructures.py:MultiValueDict"]}
{"id": "C47", "title": "getlist and copy() hand out independent lists", "statement": "Mutating a list returned by getlist, a list passed to setlist, or a copy() of the dictionary never changes the dictionary.", "quantifier": "all histories of list mutations through any handed-out reference", "why_tests_cant": "aliasing over all histories", "anchors": ["request_parser/utils/datastructures.py:MultiValueDict.getlist", "request_parser/utils/datastructures.py:MultiValueDict.__copy__", "request_parser/utils/datastructures.py:MultiValueDict.setlist"]}
{"id": "C48", "title": "Parsed headers are immutable", "statement": "The headers dictionary placed in META cannot be changed by any of its methods until made mutable, and once made mutable its methods behave as MultiValueDict's.", "quantifier": "all dictionaries and method calls", "why_tests_cant": "all histories", "anchors": ["request_parser/utils/datastructures.py:ImmutableMultiValueDict"]}
{"id": "C49", "title": "body() returns the whole remaining stream or refuses it", "statement": "On a request with parsed header and no cached body, body() returns exactly the unread bytes if there are at most DATA_UPLOAD_MAX_MEMORY_SIZE of them, and raises RequestDataTooBig otherwise, for every chunking; a second call returns the same.", "quantifier": "all streams, chunkings and limits", "why_tests_cant": "64 KiB block boundary against all sizes", "anchors": ["request_parser/http/request.py:HttpRequest.body"]}
{"id": "C50", "title": "A refused body stays refused", "statement": "If body() raised RequestDataTooBig, calling it again does not return data.", "quantifier": "all streams and limits", "why_tests_cant": "history", "anchors": ["request_parser/http/request.py:HttpRequest.body"]}
{"id": "C51", "title": "Raw body is unavailable after a form parse", "statement": "In every history, once parse_request_body has completed for a form content type, body() raises RawPostDataException until a new stream is set or the content type is changed.", "quantifier": "all call histories", "why_tests_cant": "histories", "anchors": ["request_parser/http/request.py:HttpRequest.body"]}
{"id": "C52", "title": "The body cannot be parsed before the header", "statement": "In every history, parse_request_body without a prior header parse on the current stream raises RequestHeaderParseException and consumes nothing.", "quantifier": "all call histories", "why_tests_cant": "histories", "anchors": ["request_parser/http/request.py:HttpRequest.parse_request_body"]}
{"id": "C53", "title": "Form-urlencoded bodies give exactly the QueryDict of the body", "statement": "For an urlencoded request within the limits POST is the QueryDict of the bytes after the header terminator, FILES is empty, for every chunking.", "quantifier": "all bodies and chunkings", "why_tests_cant": "all inputs", "anchors": ["request_parser/http/request.py:HttpRequest.parse_request_body"]}
{"id": "C54", "title": "Reusing a request object does not mix requests", "statement": "After assigning a new stream and parsing it, method, path, GET, POST, FILES and body() are those of the new request only.", "quantifier": "all pairs of requests", "why_tests_cant": "histories", "anchors": ["request_parser/http/request.py:HttpRequest.stream", "request_parser/http/request.py:HttpRequest.body_stream"]}
{"id": "C55", "title": "A new body_stream fully replaces the body", "statement": "After assigning body_stream and parsing, POST, FILES and body() depend only on the new stream's bytes and the current headers, not on anything parsed before.", "quantifier": "all histories", "why_tests_cant": "histories", "anchors": ["request_parser/http/request.py:HttpRequest.body_stream"]}
{"id": "C56", "title": "Requests sharing a Settings object do not influence each other", "statement": "Parsing one request never changes how another request constructed with the same Settings object is parsed.", "quantifier": "all pairs of requests and interleavings", "why_tests_cant": "interleavings", "anchors": ["request_parser/http/request.py:HttpRequest.encoding"]}
{"id": "C57", "title": "body() before parse_request_body() does not change the parsed form", "statement": "Calling body() between parse_request_header() and parse_request_body() gives the same POST as not calling it.", "quantifier": "all requests", "why_tests_cant": "histories", "anchors": ["request_parser/http/request.py:HttpRequest.body", "request_parser/http/request.py:HttpRequest.parse_request_body"]}
{"id": "C58", "title": "Request operations never invent or reorder stream bytes", "statement": "In every history of read, body, parse_request_header and parse_request_body calls between two stream assignments, the unread bytes after any operation are a suffix of the unread bytes before it, whether it succeeded or raised, and whatever the source does (including failing).", "quantifier": "all histories, sources, failure points", "why_tests_cant": "histories and crash points", "anchors": ["request_parser/http/request.py:HttpRequest"]}
{"id": "C59", "title": "Source I/O errors surface as UnreadablePostError", "statement": "If the underlying source raises IOError while body() reads it, the caller sees UnreadablePostError.", "quantifier": "all failure points", "why_tests_cant": "every crash point", "anchors": ["request_parser/http/request.py:HttpRequest.read", "request_parser/http/request.py:HttpRequest.body"]}
{"id": "C60", "title": "iri_to_uri yields a safe ASCII URI and is idempotent", "statement": "For every byte string, iri_to_uri returns only unreserved, reserved and '%' characters, applying it twice equals applying it once, and unquoting recovers the input when it has no '%'.", "quantifier": "all byte strings", "why_tests_cant": "all strings", "anchors": ["request_parser/utils/encoding.py:iri_to_uri"]}
{"id": "C61", "title": "escape_uri_path is a safe, invertible path encoding", "statement": "For every byte string, escape_uri_path (with encode_percent) returns only safe characters and percent-decoding it gives the input back; without encode_percent it is idempotent; it never produces '?', '#', ';' or '=' so the path cannot run into the query.", "quantifier": "all byte strings", "why_tests_cant": "all strings", "anchors": ["request_parser/utils/encoding.py:escape_uri_path"]}
{"id": "C62", "title": "set_path / get_full_path agree", "statement": "After set_path(p), get_path() is a safe ASCII encoding of p and get_full_path() is exactly get_path(), an optional '/', and '?' with the encoded query iff the query is non-empty.", "quantifier": "all paths and queries", "why_tests_cant": "all strings", "anchors": ["request_parser/http/request.py:HttpRequest.set_path", "request_parser/http/request.py:HttpRequest.get_full_path"]}
{"id": "C63", "title": "Unsafe redirect targets are rejected", "statement": "is_safe_url returns True only for a URL that, both as written and with backslashes read as slashes, has no authority or an allowed one, uses http(s) (https only when required) or no scheme, does not start with three slashes or with a control character and is not empty.", "quantifier": "all URLs and allowed-host sets", "why_tests_cant": "all strings", "anchors": ["request_parser/utils/http.py:is_safe_url", "request_parser/utils/http.py:_is_safe_url"]}
{"id": "C64", "title": "escape_leading_slashes prevents scheme-relative URLs", "statement": "The result never starts with '//', equals the input when the input does not, and is idempotent.", "quantifier": "all strings", "why_tests_cant": "all strings", "anchors": ["request_parser/utils/http.py:escape_leading_slashes"]}
{"id": "C65", "title": "is_same_domain matches exactly the domain and its subdomains", "statement": "is_same_domain(host, pattern) holds iff the lower-cased pattern equals host, or starts with '.' and host is the rest of it or ends with it; an empty pattern matches nothing.", "quantifier": "all hosts and patterns", "why_tests_cant": "all strings", "anchors": ["request_parser/utils/http.py:is_same_domain"]}
{"id": "C66", "title": "Base 36 round-trips", "statement": "base36_to_int(int_to_base36(i)) = i for every 0 <= i < 36^13 (which covers 64-bit integers) and raises ValueError above; int_to_base36 gives no leading zero and only [0-9a-z]; negative input raises ValueError.", "quantifier": "all integers", "why_tests_cant": "unbounded integers", "anchors": ["request_parser/utils/http.py:int_to_base36", "request_parser/utils/http.py:base36_to_int"]}
{"id": "C67", "title": "URL-safe base64 round-trips", "statement": "urlsafe_base64_decode(urlsafe_base64_encode(s)) = s for all byte strings, and the encoding contains only [A-Za-z0-9_-].", "quantifier": "all byte strings", "why_tests_cant": "all strings", "anchors": ["request_parser/utils/http.py:urlsafe_base64_encode", "request_parser/utils/http.py:urlsafe_base64_decode"]}
{"id": "C68", "title": "Malformed URL-safe base64 raises ValueError", "statement": "urlsafe_base64_decode raises ValueError on every undecodable input.", "quantifier": "all strings", "why_tests_cant": "all strings", "anchors": ["request_parser/utils/http.py:urlsafe_base64_decode"]}
{"id": "C69", "title": "ETag lists round-trip", "statement": "parse_etags of a comma-separated list of ETags returns exactly these ETags, '*' gives ['*'], everything returned is a well-formed ETag, and quote_etag is idempotent.", "quantifier": "all ETag lists", "why_tests_cant": "all strings", "anchors": ["request_parser/utils/http.py:parse_etags", "request_parser/utils/http.py:quote_etag"]}
{"id": "C70", "title": "HTTP dates round-trip", "statement": "parse_http_date(http_date(t)) = t for every integer t in the years 100 to 9999, and the same instant written in RFC 850 (1970-2069) or asctime format parses to the same number.", "quantifier": "all seconds in range", "why_tests_cant": "3*10^11 values", "anchors": ["request_parser/utils/http.py:parse_http_date", "request_parser/utils/http.py:http_date"]}
{"id": "C71", "title": "Invalid HTTP dates raise ValueError", "statement": "parse_http_date raises ValueError for every string that is not a valid date, and parse_http_date_safe returns None exactly then.", "quantifier": "all strings", "why_tests_cant": "all strings", "anchors": ["request_parser/utils/http.py:parse_http_date", "request_parser/utils/http.py:parse_http_date_safe"]}
{"id": "C72", "title": "Iterating an uploaded file yields its lines for every chunk size", "statement": "Iterating a File yields lines whose concatenation is the content and which are exactly content.splitlines(True), whatever the chunk size; chunks(n) yields blocks of n bytes whose concatenation is the content.", "quantifier": "all contents and chunk sizes", "why_tests_cant": "CRLF can straddle every chunk boundary", "anchors": ["request_parser/files/base.py:File.__iter__", "request_parser/files/base.py:File.chunks"]}
{"id": "C73", "title": "Settings override only what is named", "statement": "Settings(d) takes each option from d when d has its key and the default otherwise, and always provides every option.", "quantifier": "all settings dictionaries", "why_tests_cant": "all combinations", "anchors": ["request_parser/conf/settings.py:Settings.__init__", "request_parser/conf/settings.py:Settings.default"]}
{"id": "C74", "title": "Unknown charsets are reported as an invalid request", "statement": "A request whose Content-Type names an unknown charset is either parsed with the default charset or rejected with a request_parser exception.", "quantifier": "all requests", "why_tests_cant": "all charset names", "anchors": ["request_parser/http/request.py:HttpRequest.parse_request_header", "request_parser/http/request.py:QueryDict.__init__"]}
{"id": "C75", "title": "Setting encoding keeps GET available", "statement": "After assigning request.encoding, GET is still available (recomputed with the new charset).", "quantifier": "all requests and charsets", "why_tests_cant": "histories", "anchors": ["request_parser/http/request.py:HttpRequest.encoding"]}
{"id": "C76", "title": "A blank line before the request line is never skipped silently", "statement": "If the stream starts with CRLF (and does not consist of CRLFCRLF), the parse outcome is that of the stream without it, except that the reported method carries the CRLF in front: the blank line is neither skipped nor rejected.", "quantifier": "all header blocks", "why_tests_cant": "all header blocks", "anchors": ["request_parser/http/request.py:parse_request_headers"]}
{"id": "C77", "title": "Method, path, scheme, query and GET come from the request line", "statement": "After a successful parse_request_header() of 'METHOD target VERSION' with a well-formed absolute or origin-form ASCII target, method, protocol_info, path, scheme (lower case) and the query are exactly the components of the line, and GET lists, key by key and in order, the decoded pairs of the query; a query with more fields than DATA_UPLOAD_MAX_NUMBER_FIELDS is refused; GET cannot be modified.", "quantifier": "all requests, all chunkings of the stream, all charsets that extend ASCII, all limits", "why_tests_cant": "all targets and all chunkings", "anchors": ["request_parser/http/request.py:HttpRequest.parse_request_header", "request_parser/http/request.py:parse_request_line", "request_parser/http/request.py:QueryDict.__init__"]}
{"id": "C78", "title": "A body that is not a form stays available as raw bytes", "statement": "For a non-form Content-Type, parse() leaves POST and FILES empty and body() returns the body of the request, the same before and after parse().", "quantifier": "all bodies that fit the limit, all content types", "why_tests_cant": "all bodies and histories", "anchors": ["request_parser/http/request.py:HttpRequest.body", "request_parser/http/request.py:HttpRequest.parse_request_body"]}
{"id": "C79", "title": "A form sent as a multipart request comes out in POST and FILES", "statement": "For every request with Content-Type multipart/form-data (parameters in any order, the last boundary counts), a positive Content-Length and a body that is a well-formed form: parse() succeeds, POST lists every field's values and FILES every file with name, type, charset and content, in order; with DATA_UPLOAD_MAX_MEMORY_SIZE None there is no limit.", "quantifier": "all forms, boundaries, header spellings, chunkings of the stream", "why_tests_cant": "all forms through the whole pipeline", "anchors": ["request_parser/http/request.py:HttpRequest.parse", "request_parser/http/request.py:HttpRequest._parse_file_upload", "request_parser/http/multipartparser.py:MultiPartParser.parse"]}
{"id": "C80", "title": "parse() of a multipart request is MultiPartParser over the body", "statement": "For bodies of parts, unrelated pieces, preamble and epilogue, parse() stores exactly what MultiPartParser computes from the bytes of the body alone, and raises exactly its exceptions; the framing of the header, the peek at the body and the chunk sizes make no difference.", "quantifier": "all such bodies, all chunkings, all limits", "why_tests_cant": "all bodies and chunkings", "anchors": ["request_parser/http/request.py:HttpRequest.parse_request_body", "request_parser/http/request.py:HttpRequest._parse_file_upload"]}
{"id": "C81", "title": "A form without Content-Length is not lost", "statement": "A multipart form sent without (or with an unparsable) Content-Length is either parsed or reported as an error; it is not accepted with POST and FILES empty.", "quantifier": "all multipart requests without a usable Content-Length", "why_tests_cant": "all requests", "anchors": ["request_parser/http/request.py:HttpRequest._parse_file_upload", "request_parser/http/multipartparser.py:MultiPartParser.__init__", "request_parser/http/multipartparser.py:MultiPartParser.parse"]}
{"id": "C82", "title": "is_secure() is true exactly for an https target", "statement": "After a successful header parse is_secure() is true iff the scheme of the request target is https (any case); an origin-form target is never secure, whatever the headers say.", "quantifier": "all requests", "why_tests_cant": "all targets", "anchors": ["request_parser/http/request.py:HttpRequest.is_secure", "request_parser/http/request.py:HttpRequest.parse_request_header"]}
{"id": "C83", "title": "is_ajax() recognises XMLHttpRequest requests", "statement": "After a successful header parse is_ajax() is true for requests carrying 'X-Requested-With: XMLHttpRequest'. (The code looks for a header called XMLHttpRequest instead.)", "quantifier": "all requests", "why_tests_cant": "all header sets", "anchors": ["request_parser/http/request.py:HttpRequest.is_ajax"]}
{"id": "C84", "title": "Assigned upload handlers are used, and only before parsing", "statement": "Handlers assigned to request.upload_handlers before the body is parsed are used for it; upload_handlers can be read on a new request; after parsing, assignment raises AttributeError and changes nothing.", "quantifier": "all requests and handler lists", "why_tests_cant": "all states", "anchors": ["request_parser/http/request.py:HttpRequest.upload_handlers", "request_parser/http/request.py:HttpRequest._initialize_handlers", "request_parser/http/request.py:HttpRequest.parse_request_body"]}
{"id": "C85", "title": "uri_to_iri() undoes iri_to_uri()", "statement": "uri_to_iri(iri_to_uri(s)) == s for every text s (its UTF-8 bytes).", "quantifier": "all texts, all bytes", "why_tests_cant": "all texts", "anchors": ["request_parser/utils/encoding.py:uri_to_iri", "request_parser/utils/encoding.py:iri_to_uri"]}
{"id": "C86", "title": "The raw full path is the path and query before encoding", "statement": "After set_path(p), get_full_path(raw=True) is p (with the slash when asked for) followed by '?' and the query, as text; requests with different paths or queries have different raw paths.", "quantifier": "all paths, queries, states of the request, both slash options", "why_tests_cant": "all texts", "anchors": ["request_parser/http/request.py:HttpRequest.get_full_path", "request_parser/http/request.py:HttpRequest._get_full_path", "request_parser/utils/encoding.py:uri_to_iri"]}
{"id": "C87", "title": "get_port() is the port number as text", "statement": "get_port() returns the decimal text of a port number: the explicit port, else that of the scheme.", "quantifier": "all requests, before and after parsing", "why_tests_cant": "all scheme/host combinations", "anchors": ["request_parser/http/request.py:HttpRequest.get_port", "request_parser/http/request.py:HttpRequest.parse_request_header"]}
{"id": "C88", "title": "repr(request) is one printable line", "statement": "repr(request) contains printable ASCII only, so that it can be logged, whatever the request.", "quantifier": "all requests", "why_tests_cant": "all methods, paths, queries", "anchors": ["request_parser/http/request.py:HttpRequest.__repr__"]}
{"id": "C89", "title": "multiple_chunks() tells whether chunks() yields several chunks", "statement": "For a file object, multiple_chunks(n) is true iff chunks(n) yields more than one chunk (n positive or left out).", "quantifier": "all files, contents, positions and chunk sizes", "why_tests_cant": "all sizes against all chunk sizes", "anchors": ["request_parser/files/base.py:File.multiple_chunks", "request_parser/files/uploadedfile.py:InMemoryUploadedFile.multiple_chunks"]}
{"id": "C90", "title": "Length and truth value of files", "statement": "len(f) is the number of bytes chunks() yields and bool(f) is true for every named file, for File, ContentFile and uploaded files.", "quantifier": "all files", "why_tests_cant": "all classes and contents", "anchors": ["request_parser/files/base.py:File.__len__", "request_parser/files/base.py:File.__bool__", "request_parser/files/base.py:ContentFile.__init__"]}
{"id": "C91", "title": "SimpleUploadedFile holds what it was given", "statement": "SimpleUploadedFile(name, content, type) yields content as its one chunk, has its length and type, and the base name of name, cut to 255 characters; from_dict does the same or raises KeyError when filename or content is missing.", "quantifier": "all names, contents, dictionaries", "why_tests_cant": "all names", "anchors": ["request_parser/files/uploadedfile.py:SimpleUploadedFile.__init__", "request_parser/files/uploadedfile.py:SimpleUploadedFile.from_dict"]}
{"id": "C92", "title": "The size of an uploaded file is the length of its content", "statement": "For every file in FILES, f.size (and so len(f)) is the number of bytes of its content, and it is not zero, whatever the body, the encodings and the order of the library's upload handlers.", "quantifier": "all bodies, chunkings, handler lists", "why_tests_cant": "all bodies and interleavings of handlers", "anchors": ["request_parser/http/multipartparser.py:MultiPartParser.parse", "request_parser/http/multipartparser.py:MultiPartParser.handle_file_complete", "request_parser/files/uploadhandler.py:ConvenientFileUploadHandler.receive_data_chunk"]}
{"id": "C93", "title": "A multipart parse does not amplify its input", "statement": "The data in POST and the content of FILES together have at most as many bytes as the body.", "quantifier": "all bodies, chunkings, handler lists, settings", "why_tests_cant": "all bodies, including parts that are skipped or encoded", "anchors": ["request_parser/http/multipartparser.py:MultiPartParser.parse"]}
{"id": "C94", "title": "FILE_UPLOAD_MAX_MEMORY_SIZE bounds what uploads keep in memory", "statement": "After a multipart parse, the files of FILES that are kept in memory have together at most FILE_UPLOAD_MAX_MEMORY_SIZE bytes.", "quantifier": "all bodies, numbers of files, chunkings, limits >= 0, handlers of the library", "why_tests_cant": "all bodies with any number of files", "anchors": ["request_parser/files/uploadhandler.py:ConvenientFileUploadHandler.receive_data_chunk", "request_parser/files/uploadhandler.py:MemoryFileUploadHandler.handle_raw_input"]}
{"id": "C95", "title": "A handler's methods are called in order, with the right positions", "statement": "For every upload handler that a user installs: receive_data_chunk and file_complete are called only after new_file for the current file, with start (file_size) the number of bytes passed to it since then; upload_complete is called once, last; the chunks of the first handler add up to the decoded content of each file, in order. With the library's handlers the parser is that of the other claims.", "quantifier": "all bodies, inputs, handlers (any state, any method results and exceptions)", "why_tests_cant": "all handler classes", "anchors": ["request_parser/http/multipartparser.py:MultiPartParser.parse", "request_parser/http/multipartparser.py:MultiPartParser.handle_file_complete", "request_parser/files/uploadhandler.py:FileUploadHandler"]}
{"id": "C96", "title": "Skipping files does not disturb the rest of the form", "statement": "Whatever files the handlers skip (SkipFile), POST is the same; a handler in front of the default one that skips some files gives the result of the form without these files.", "quantifier": "all forms, handlers, sets of skipped files, chunkings", "why_tests_cant": "all subsets of files of all forms", "anchors": ["request_parser/http/multipartparser.py:MultiPartParser.parse", "request_parser/files/uploadhandler.py:SkipFile"]}
{"id": "C97", "title": "StopUpload keeps what came before and nothing else", "statement": "If a handler raises StopUpload at a file, parse returns the fields and files before it, whatever bytes follow that file; the rest of the input is consumed unless connection_reset is set.", "quantifier": "all forms up to the refused file, all bytes after it, chunkings", "why_tests_cant": "all continuations of the body", "anchors": ["request_parser/http/multipartparser.py:MultiPartParser.parse", "request_parser/files/uploadhandler.py:StopUpload"]}
{"id": "C98", "title": "A failing read is never mistaken for the end of the body", "statement": "If the source raises before its end (any exception but the library's own InputStreamExhausted), parse(), body() and MultiPartParser.parse raise; parse_request_body then leaves POST, FILES and the body as they were and the request is not marked as parsed. (A handler that raises StopUpload(connection_reset=True) may end a multipart parse before the failure.)", "quantifier": "all points of failure, bodies, content types, chunkings, settings, upload handlers", "why_tests_cant": "every failure point of every body", "anchors": ["request_parser/http/request.py:HttpRequest.parse", "request_parser/http/request.py:HttpRequest.parse_request_body", "request_parser/http/request.py:HttpRequest.body", "request_parser/http/multipartparser.py:MultiPartParser.parse", "request_parser/utils/datastructures.py:ChunkIter", "request_parser/http/multipartparser.py:BoundaryIter"]}
{"id": "C99", "title": "An upload handler that only looks on changes nothing", "statement": "Adding handlers that return the data they are given, return None from handle_raw_input and file_complete, raise nothing and return a false value from upload_complete, at any places in the list of upload handlers, changes neither what MultiPartParser.parse returns or raises nor how much of the input it reads (same chunk size).", "quantifier": "all inputs (also failing ones), all handler lists, all observers and places", "why_tests_cant": "all handler lists and inputs", "anchors": ["request_parser/http/multipartparser.py:MultiPartParser.parse", "request_parser/http/multipartparser.py:MultiPartParser.handle_file_complete", "request_parser/files/uploadhandler.py:FileUploadHandler"]}
{"id": "C100", "title": "The upload directory used is the one the setting names", "statement": "The directory a Settings object ends up with is an absolute, normalised path, and it is the location that FILE_UPLOAD_DIR names (a relative setting is taken from the package's parent directory, and stays inside it).", "quantifier": "all settings texts, working directories, package locations and file systems", "why_tests_cant": "all paths with '.', '..' and repeated slashes", "anchors": ["request_parser/conf/settings.py:Settings._check_upload_dir", "request_parser/files/utils.py:get_abs_path"]}
{"id": "C101", "title": "The check of the upload directory tells the truth and leaves no trace", "statement": "The check succeeds iff the directory is there or can be made and files can be created, written and removed in it; it then exists and nothing else has changed; otherwise InvalidDirectory is raised.", "quantifier": "all paths, file systems, permissions, full disks", "why_tests_cant": "all states of a file system", "anchors": ["request_parser/conf/settings.py:Settings._check_upload_dir"]}
{"id": "C102", "title": "Settings asks only for the directory it uses", "statement": "Settings(d, check_presence) checks the configured directory and fails only when that one cannot be used; without a configured directory and without check_presence the file system is not changed.", "quantifier": "all settings dictionaries, file systems", "why_tests_cant": "all combinations of settings and directories", "anchors": ["request_parser/conf/settings.py:Settings.__init__", "request_parser/conf/settings.py:Settings.default"]}
{"id": "C103", "title": "Upload handlers are loaded by their dotted names", "statement": "load_handler(path, ...) calls the attribute named by the last component of path in the module named by the rest; FILE_UPLOAD_HANDLERS gives one handler per name, in order; a name that cannot be resolved raises ImportError.", "quantifier": "all dotted names and module contents", "why_tests_cant": "all names, also malformed ones", "anchors": ["request_parser/utils/module_loading.py:import_string", "request_parser/files/uploadhandler.py:load_handler", "request_parser/http/request.py:HttpRequest._initialize_handlers"]}
{"id": "C104", "title": "request.close() closes all uploaded files", "statement": "After close() every file of FILES is closed and its temporary file is removed; a second close() changes nothing; a temporary file that was moved away is no error and does not keep other files open.", "quantifier": "all FILES dictionaries, sets of closed or moved files", "why_tests_cant": "all combinations of files", "anchors": ["request_parser/http/request.py:HttpRequest.close", "request_parser/files/uploadedfile.py:TemporaryUploadedFile.close", "request_parser/files/uploadedfile.py:InMemoryUploadedFile"]}
{"id": "C105", "title": "open() on an uploaded file gives its content again", "statement": "f.open() on a file of FILES gives a file positioned at the start, with the uploaded content, and touches no other file.", "quantifier": "all files, states and contents of the disk", "why_tests_cant": "all names a client may send", "anchors": ["request_parser/files/uploadedfile.py:InMemoryUploadedFile.open", "request_parser/files/base.py:File.open"]}
{"id": "C106", "title": "Quoting can be undone", "statement": "urlunquote(urlquote(s, safe)) and urlunquote_plus(urlquote_plus(s, safe)) give the text of s back; the quoted text consists of letters, digits, '_.-%', the safe characters and (plus) '+'.", "quantifier": "all texts and byte strings, all safe sets", "why_tests_cant": "all texts, safe sets with reserved characters", "anchors": ["request_parser/utils/http.py:urlquote", "request_parser/utils/http.py:urlquote_plus", "request_parser/utils/http.py:urlunquote", "request_parser/utils/http.py:urlunquote_plus"]}
{"id": "C107", "title": "utils.http.urlencode parses back to the same pairs", "statement": "What urlencode(query) returns for a dictionary or a MultiValueDict parses (limited_parse_qsl) to the pairs of query, one for each value; None is refused with TypeError wherever it stands.", "quantifier": "all queries: strings, objects, sequences", "why_tests_cant": "all keys and values", "anchors": ["request_parser/utils/http.py:urlencode"]}
{"id": "C108", "title": "Copies of a MultiValueDict are independent", "statement": "copy() and deepcopy() of a MultiValueDict have its content, and neither is changed by any later program that works on the other or on lists taken from it, whatever lists were shared before; lists are never shared between a dictionary and its caller; dictionaries can be pickled.", "quantifier": "all programs over any number of dictionaries and lists, before and after the copy", "why_tests_cant": "all programs with shared lists", "anchors": ["request_parser/utils/datastructures.py:MultiValueDict.__copy__", "request_parser/utils/datastructures.py:MultiValueDict.__deepcopy__", "request_parser/utils/datastructures.py:MultiValueDict.__init__", "request_parser/utils/datastructures.py:MultiValueDict.setlistdefault", "request_parser/utils/datastructures.py:MultiValueDict.__getstate__"]}
{"id": "C109", "title": "How a request arrives makes no difference", "statement": "Two sources that hold the same bytes, however they are cut into pieces, give the same outcome of parse() - the same exception or the same settings, attributes, GET, POST, FILES, body, META - and the same answers to all later reads.", "quantifier": "all byte strings (well-formed or not), all ways of delivering them, all settings and handlers", "why_tests_cant": "all requests cut in all ways", "anchors": ["request_parser/http/request.py:HttpRequest.parse_request_header", "request_parser/http/request.py:HttpRequest.parse_request_body", "request_parser/http/multipartparser.py:MultiPartParser.parse", "request_parser/http/multipartparser.py:LazyStream"]}
{"id": "C110", "title": "Headers other than Host, Content-Type and Content-Length have no influence", "statement": "Two requests with the same request line and body whose last Host, Content-Type and Content-Length agree are parsed alike, whatever other header fields they have.", "quantifier": "all pairs of requests", "why_tests_cant": "all pairs of header sets", "anchors": ["request_parser/http/request.py:HttpRequest.parse_request_header", "request_parser/http/request.py:parse_request_headers"]}
{"id": "C111", "title": "The body ends where Content-Length or the transfer coding says", "statement": "The bytes counted by Content-Length, and no others, are the body: a shorter body is reported, what follows is left unread, contradictory lengths are refused; a transfer coding is either undone or refused.", "quantifier": "all requests", "why_tests_cant": "all lengths and bodies", "anchors": ["request_parser/http/request.py:HttpRequest.body", "request_parser/http/request.py:HttpRequest.parse_request_body"]}
{"id": "C112", "title": "A header line cannot smuggle in another header", "statement": "Every name and value in META comes from one header line, is ASCII and has no line break in it, and names are tokens.", "quantifier": "all byte streams", "why_tests_cant": "all byte streams", "anchors": ["request_parser/http/request.py:parse_request_headers", "request_parser/http/request.py:HttpRequest.parse_request_header"]}
{"id": "C113", "title": "Extended parameters (RFC 2231) are decoded", "statement": "A parameter name*=charset'language'value of a header comes out under its name as the text that value encodes, next to ordinary parameters; so do field names and file names in forms; an unknown charset is a bad request.", "quantifier": "all parameter lists, charsets and texts", "why_tests_cant": "all texts and charsets", "anchors": ["request_parser/http/multipartparser.py:parse_header", "request_parser/http/multipartparser.py:_parse_header_params", "request_parser/http/multipartparser.py:MultiPartParser.parse"]}
{"id": "C114", "title": "Only a delimiter line separates parts", "statement": "In a multipart body a part ends only at a delimiter line: two hyphens and the boundary at the beginning of a line, followed by white space and the end of the line, or by two hyphens. The same characters elsewhere in a part's content are content, and after the closing delimiter nothing is taken into the form (RFC 2046, 5.1.1).", "quantifier": "all forms, contents, boundaries and ways of delivering them", "why_tests_cant": "all contents and positions of the characters", "anchors": ["request_parser/http/multipartparser.py:BoundaryIter", "request_parser/http/multipartparser.py:BoundaryIter._find_boundary", "request_parser/http/multipartparser.py:MultiPartParser.parse"]}
{"id": "C115", "title": "A File answers for the file behind it", "statement": "size() of a File is the number of bytes the file holds and asking does not change content or position; closed, readable(), writable() and seekable() say what the file behind it allows; repr() names the class, the file and its type.", "quantifier": "all files: in memory, on disk with bytes not yet flushed, in any mode, Files around Files", "why_tests_cant": "all kinds of file objects, contents, modes and states of the disk", "anchors": ["request_parser/files/base.py:File.size", "request_parser/files/base.py:File.__repr__", "request_parser/files/utils.py:FileProxyMixin", "request_parser/files/uploadedfile.py:UploadedFile.__repr__"]}
{"id": "C116", "title": "force_text and iri_to_uri accept any text", "statement": "force_text gives the text of any value, decoding bytes with the given encoding and refusing bytes that cannot be decoded; protected values stay as they are under strings_only. iri_to_uri maps None to None and accepts byte strings and unicode text, as its documentation says.", "quantifier": "all values, encodings and error modes", "why_tests_cant": "all byte strings and all unicode texts", "anchors": ["request_parser/utils/encoding.py:force_text", "request_parser/utils/encoding.py:force_str", "request_parser/utils/encoding.py:is_protected_type", "request_parser/utils/encoding.py:iri_to_uri"]}
{"id": "C117", "title": "Questions about modules are answered", "statement": "module_has_submodule is true exactly if the package contains the submodule; module_dir gives the directory of a package or module and raises ValueError if there is none or more than one.", "quantifier": "all modules, packages and file systems", "why_tests_cant": "all layouts of packages", "anchors": ["request_parser/utils/module_loading.py:module_has_submodule", "request_parser/utils/module_loading.py:module_dir"]}
{"id": "C118", "title": "A part that arrives is kept or the form is refused", "statement": "Every part of a multipart form that is named and complete appears in POST or FILES, or the request is refused with an exception: no part is dropped silently.", "quantifier": "all forms, parts and ways of delivering them", "why_tests_cant": "all names, file names, contents and positions of the part", "anchors": ["request_parser/http/multipartparser.py:MultiPartParser.parse", "request_parser/http/multipartparser.py:MultiPartParser.IE_sanitize", "request_parser/files/uploadhandler.py:MemoryFileUploadHandler.file_complete", "request_parser/http/multipartparser.py:parse_boundary_stream"]}
{"id": "C119", "title": "A complete header is parsed from what has arrived", "statement": "Once the whole request header has arrived, parse_request_header() and the attributes it sets do not depend on what follows: nothing yet, more data or a failing connection. The bytes after the header stay in the stream.", "quantifier": "all headers, all values of MAX_HEADER_SIZE, all sources and all ways they continue", "why_tests_cant": "every position at which the source can stop or fail", "anchors": ["request_parser/http/request.py:HttpRequest.parse_request_header", "request_parser/http/request.py:HttpRequest._get_request_header", "request_parser/conf/settings.py:LazyStream.read"]}
{"id": "C120", "title": "A failing parse publishes nothing", "statement": "If parse() or parse_request_body() raises, POST, FILES and the flag that the body has been parsed are what they were before the call.", "quantifier": "all states of a request, all settings, handlers and inputs, all exceptions", "why_tests_cant": "every exception at every place of every input", "anchors": ["request_parser/http/request.py:HttpRequest.parse_request_body", "request_parser/http/request.py:HttpRequest.parse"]}
{"id": "C121", "title": "A refused form stays refused", "statement": "A form that parse() refused is not accepted by calling parse() again: the second call raises again.", "quantifier": "all forms that are refused, all settings", "why_tests_cant": "all forms and all reasons to refuse them", "anchors": ["request_parser/http/request.py:HttpRequest.parse_request_body", "request_parser/http/request.py:HttpRequest.body"]}
{"id": "C122", "title": "A body over the limit is not read to its end", "statement": "body() and parse_request_body() of a form that is not multipart take at most DATA_UPLOAD_MAX_MEMORY_SIZE bytes and one block from the stream, however long the body is and whatever Content-Length says.", "quantifier": "all settings, all sources including endless and failing ones, all headers", "why_tests_cant": "all lengths of bodies and all block sizes of the source", "anchors": ["request_parser/http/request.py:HttpRequest.body", "request_parser/http/request.py:HttpRequest._read_body", "request_parser/conf/settings.py:LazyStream.read"]}
{"id": "C123", "title": "An ImmutableList never changes and says why", "statement": "Whatever is tried on an ImmutableList, in whatever order, its content stays what it was made of, and every operation that would change a list raises the warning given to the constructor: the exception itself or an AttributeError with the text.", "quantifier": "all contents, warnings and sequences of operations", "why_tests_cant": "all sequences of operations", "anchors": ["request_parser/utils/datastructures.py:ImmutableList"]}
{"id": "C124", "title": "A form means the same whichever way it is sent", "statement": "The same names and values, sent once urlencoded and once as multipart/form-data, are accepted alike and give the same names and values in POST.", "quantifier": "all forms of fields, all ways to percent-encode them, all settings that allow them", "why_tests_cant": "all forms, all byte strings as values and all writings", "anchors": ["request_parser/http/request.py:HttpRequest.parse_request_body", "request_parser/http/multipartparser.py:MultiPartParser.parse", "request_parser/http/request.py:QueryDict"]}
{"id": "C125", "title": "A content type may be spelled in any way", "statement": "The case of the media type and of the names of its parameters, blanks around it, quotation marks and the order of the parameters make no difference: requests that differ only in them are parsed alike in every respect.", "quantifier": "all requests and bodies, all media types and parameters, all two spellings of them", "why_tests_cant": "all requests in all spellings", "anchors": ["request_parser/http/request.py:HttpRequest.parse_request_body", "request_parser/http/multipartparser.py:MultiPartParser.__init__", "request_parser/http/multipartparser.py:parse_header"]}
{"id": "C126", "title": "What an upload handler raises is not swallowed", "statement": "An exception raised by a method of an upload handler comes out of parse unchanged and is the last thing that any handler sees; only StopUpload, SkipFile and StopFutureHandlers where they are announced, and the errors that ask for a file to be skipped, are taken by the parser, and these never come out of parse.", "quantifier": "all upload handlers with any methods and states, all lists of them, all bodies, inputs and settings", "why_tests_cant": "all handlers, all points of all uploads at which they may fail", "anchors": ["request_parser/http/multipartparser.py:MultiPartParser.parse", "request_parser/files/uploadhandler.py:FileUploadHandler"]}
{"id": "C127", "title": "A handler may take over the whole upload", "statement": "If handle_raw_input of a handler returns a result, parse returns exactly that, no later handler is asked, no other method is called and nothing more is read from the input; if it raises, the exception comes out in the same way; if nobody returns a result, the form is parsed from what the handlers left of the input.", "quantifier": "all handlers that may read from the input, all inputs and settings", "why_tests_cant": "all handlers, reading any amount of any input", "anchors": ["request_parser/http/multipartparser.py:MultiPartParser.parse", "request_parser/files/uploadhandler.py:FileUploadHandler.handle_raw_input"]}
{"id": "C128", "title": "Which of the library's upload handlers are set makes no difference to what is returned", "statement": "Two settings that differ only in FILE_UPLOAD_HANDLERS, each a list of the library's handler classes, give the same fields and the same files (names, contents, sizes, types) or the same exception for the same request, except for where the contents are kept.", "quantifier": "all lists of the library's handler classes, all bodies, inputs, announced lengths and settings", "why_tests_cant": "all set-ups with all forms on both sides of the memory limit", "anchors": ["request_parser/files/uploadhandler.py:MemoryFileUploadHandler", "request_parser/files/uploadhandler.py:TemporaryFileUploadHandler", "request_parser/files/uploadhandler.py:ConvertibleTempFileUploadHandler", "request_parser/http/multipartparser.py:MultiPartParser.parse"]}
{"id": "C129", "title": "A mutable QueryDict is a map from keys to lists", "statement": "On a QueryDict constructed with mutable=True every sequence of __setitem__, __delitem__, setlist, setlistdefault, appendlist, update, pop, popitem, clear and setdefault calls returns and leaves what the same calls do on a plain map from keys to lists: other keys are untouched, equal keys given as bytes or unicode are one key, and a call that raises changes nothing (update: nothing after the item that fails).", "quantifier": "all query strings and charsets compatible with ASCII, all sequences of calls with all arguments, also bytes outside ASCII", "why_tests_cant": "all sequences of calls", "anchors": ["request_parser/http/request.py:QueryDict", "request_parser/utils/datastructures.py:MultiValueDict"]}
{"id": "C130", "title": "Byte strings given to a QueryDict are text in its encoding", "statement": "Keys and values may be given as byte strings, which are taken as text in the encoding of the QueryDict; it makes no difference in which of the two forms text is given.", "quantifier": "all sequences of calls, all byte strings, all charsets", "why_tests_cant": "all byte strings in all charsets", "anchors": ["request_parser/http/request.py:QueryDict", "request_parser/http/request.py:bytes_to_text"]}
{"id": "C131", "title": "FILE_UPLOAD_MAX_MEMORY_SIZE can be switched off", "statement": "With FILE_UPLOAD_MAX_MEMORY_SIZE set to None (no limit), or to a number below zero (nothing in memory), a multipart body gives the same POST and the same files as with any other limit.", "quantifier": "all bodies, readers, chunk sizes and settings", "why_tests_cant": "all limits against all bodies", "anchors": ["request_parser/files/uploadhandler.py:ConvenientFileUploadHandler", "request_parser/files/uploadhandler.py:MemoryFileUploadHandler"]}
{"id": "C132", "title": "Temporary files under Windows go away", "statement": "Under Windows close() of a request with uploaded files returns whatever happened to the temporary files (moved, locked, not flushable), closes all of them, removes exactly the temporary files that may be removed, and has no effect a second time; a closed temporary upload cannot be reopened and no file is touched by trying; leaving a with block closes and removes a temporary file.", "quantifier": "all lists of uploaded files, all states of the disk, all failures of closing and removing", "why_tests_cant": "all combinations of failures", "anchors": ["request_parser/files/temp.py:TemporaryFile", "request_parser/files/uploadedfile.py:TemporaryUploadedFile.close", "request_parser/http/request.py:HttpRequest.close", "request_parser/files/base.py:File.open"]}
{"id": "C133", "title": "Bad input raises only the package's exceptions", "statement": "Whatever bytes a client sends, parse() either succeeds or raises one of the exceptions the package defines for bad requests (InvalidHttpRequest, NoHostFoundException, RequestDataTooBig, TooManyFieldsSent, SuspiciousMultipartForm, MultiPartParserError), or an exception of the input or of the file system; it never ends with an internal error such as KeyError, IndexError or AssertionError.", "quantifier": "all byte sequences in all chunkings, all inputs that fail at any point, all settings with sizes that are not negative, all charsets", "why_tests_cant": "all inputs, also those nobody thought of", "anchors": ["request_parser/http/request.py:HttpRequest.parse", "request_parser/http/request.py:HttpRequest.parse_request_header", "request_parser/http/multipartparser.py:MultiPartParser.parse"]}
{"id": "C134", "title": "A disk that fails never cuts an upload short", "statement": "If creating, writing or rewinding a temporary file fails at any moment (full disk), that exception comes out of parse, no failure goes unnoticed, and otherwise fields and files are exactly those of a disk that never fails; the temporary files of an upload that failed are closed.", "quantifier": "all lists of the library's handlers, all bodies, readers and settings, all sequences of successes and failures of the operations on temporary files", "why_tests_cant": "all moments at which a disk may fail", "anchors": ["request_parser/files/uploadhandler.py:TemporaryFileUploadHandler", "request_parser/files/uploadhandler.py:ConvenientFileUploadHandler", "request_parser/http/multipartparser.py:MultiPartParser.parse", "request_parser/http/multipartparser.py:MultiPartParser._close_files"]}
{"id": "C135", "title": "The boundary in extended notation changes nothing", "statement": "A multipart body is parsed in the same way whether its boundary is written boundary=X or, as for other parameters, in the extended notation boundary*=charset'language'X.", "quantifier": "all boundaries, other parameters, bodies, sources, settings and handlers", "why_tests_cant": "all bodies", "anchors": ["request_parser/http/multipartparser.py:MultiPartParser.__init__", "request_parser/http/multipartparser.py:BoundaryIter._find_boundary", "request_parser/http/multipartparser.py:parse_header"]}
{"id": "C136", "title": "Uploads are handed over in bounded pieces", "statement": "However large a file, a part or a body is, and however it is encoded, no upload handler is ever given more than the chunk size, the length of the boundary and 1031 bytes (a header block read ahead) at once, provided that no handler passes on more than it was given.", "quantifier": "all bodies, readers that return at most what is asked for, chunk sizes, boundaries, settings, lists of handlers of any kind", "why_tests_cant": "all sizes of files and all chunk sizes", "anchors": ["request_parser/http/multipartparser.py:BoundaryIter.next", "request_parser/http/multipartparser.py:MultiPartParser.parse", "request_parser/files/uploadhandler.py:FileUploadHandler.receive_data_chunk"]}
{"id": "C137", "title": "What has not arrived yet cannot change what was decided", "statement": "If a multipart parse ends (a limit exceeded, a bad part, an upload stopped by a handler) when only the beginning of the input has arrived, it ends in the same way, with the handlers in the same state, whatever arrives afterwards; it does not wait for the rest.", "quantifier": "all beginnings and continuations of the input, all cuttings and failures in them, all handlers, settings and chunk sizes", "why_tests_cant": "all continuations of an input", "anchors": ["request_parser/http/multipartparser.py:MultiPartParser.parse", "request_parser/http/multipartparser.py:BoundaryIter", "request_parser/utils/datastructures.py:LazyStream"]}
{"id": "C138", "title": "A redirect to the request's own address stays on the site", "statement": "After a request has been parsed, get_full_path() is an address of the same site: is_safe_url accepts it whatever the allowed hosts are, so that a redirect to it cannot lead elsewhere.", "quantifier": "all requests for a path or an absolute URL, all lists of allowed hosts", "why_tests_cant": "all request targets", "anchors": ["request_parser/http/request.py:HttpRequest.get_full_path", "request_parser/utils/http.py:escape_leading_slashes", "request_parser/utils/http.py:is_safe_url"]}
{"id": "C139", "title": "The order of header lines makes no difference", "statement": "Two requests whose header lines are arranged differently, so that each name still has the same values in the same order, are parsed alike: same exceptions, attributes, GET, POST, FILES, body and settings, and the same answers when headers are looked up in META.", "quantifier": "all requests, all arrangements of their header lines, all settings and cuttings into reads", "why_tests_cant": "all permutations of header lists of any length", "anchors": ["request_parser/http/request.py:HttpRequest.parse", "request_parser/http/request.py:parse_request_headers"]}
{"id": "C140", "title": "Parsing a parsed request again changes nothing", "statement": "Once parse() has returned, any further calls of parse(), parse_request_header() and parse_request_body(), in any order and number, return as well and change nothing: no attribute, no setting, no flag, and not the position of the input stream.", "quantifier": "all requests, bodies of every kind and none, all settings, all sequences of further calls", "why_tests_cant": "all sequences of calls over all request states", "anchors": ["request_parser/http/request.py:HttpRequest.parse", "request_parser/http/request.py:HttpRequest.parse_request_header", "request_parser/http/request.py:HttpRequest.parse_request_body"]}
{"id": "C141", "title": "Limits refuse requests, they do not change them", "statement": "Raising DATA_UPLOAD_MAX_MEMORY_SIZE or DATA_UPLOAD_MAX_NUMBER_FIELDS never changes what an accepted request means or makes it refused: whenever parse() succeeds under two choices of these settings, both objects end in the same state; and what succeeded under the stricter one succeeds under the looser one.", "quantifier": "all requests and request objects, all pairs of limits", "why_tests_cant": "all pairs of executions under different settings", "anchors": ["request_parser/http/request.py:HttpRequest.parse", "request_parser/http/multipartparser.py:MultiPartParser.parse", "request_parser/utils/http.py:limited_parse_qsl"]}
{"id": "C142", "title": "The request line has no influence on how the body is parsed", "statement": "Two requests with the same body and the same last Content-Type and Content-Length, whatever their methods, targets, versions, hosts and other header lines: if the headers of both can be parsed, parse() raises the same exception for both or none, and POST, FILES, the body, content_type, the settings and what remains in the stream are the same. In particular the body of a GET request is parsed like that of a POST request.", "quantifier": "all pairs of requests, all chunkings of their streams, all settings and charsets", "why_tests_cant": "pairs of requests with arbitrary request lines", "anchors": ["request_parser/http/request.py:HttpRequest.parse", "request_parser/http/request.py:HttpRequest._parse_post", "request_parser/http/request.py:HttpRequest.parse_request_body"]}
{"id": "C143", "title": "Absolute form and origin form of a request are equivalent", "statement": "'M scheme://authority/path?query V' with any Host headers or none, and 'M /path?query V' whose last Host header is the authority, with the same Content-Type, Content-Length and body, are parsed alike: the same exception or none, the same method, host, port, path, version, query, GET, POST, FILES and body; only the scheme differs.", "quantifier": "all pairs of requests, all chunkings, all settings and charsets", "why_tests_cant": "pairs of requests over all targets and bodies", "anchors": ["request_parser/http/request.py:HttpRequest.parse_request_header", "request_parser/http/request.py:parse_request_line", "request_parser/http/request.py:split_domain_port"]}
{"id": "C144", "title": "DEFAULT_CHARSET makes no difference to ASCII requests and to multipart bodies", "statement": "Let the same request be parsed with two known charsets that extend ASCII as DEFAULT_CHARSET. If target and body are ASCII and contain no escape %80..%FF, or if it is a multipart/form-data request with a positive Content-Length, any body and such a target, then both parses raise the same exception or none, and the method, host, path, version, META, the pairs of GET and POST, the FILES, the body, the remaining stream and the other settings are the same.", "quantifier": "all requests, all chunkings, all pairs of charsets, all other settings", "why_tests_cant": "pairs of settings and arbitrary requests", "anchors": ["request_parser/http/request.py:HttpRequest.parse", "request_parser/http/request.py:QueryDict.__init__", "request_parser/http/multipartparser.py:MultiPartParser.parse", "request_parser/http/request.py:bytes_to_text"]}
{"id": "C145", "title": "Equivalent spellings of a form or a query mean the same", "statement": "Fields may be separated by '&' or ';', a space may be written '+' or %20, and any byte may be written as an escape with hexadecimal digits in upper or lower case instead of as itself (all of '&;=%+' in names and values only as escapes). Two spellings of the same form give the same list of pairs, or the same exception: in limited_parse_qsl with any limit, in the query of a request (same GET, and the rest of the request is parsed alike), and in a form-urlencoded body that fits in DATA_UPLOAD_MAX_MEMORY_SIZE (same POST).", "quantifier": "all forms, all pairs of spellings, all charsets that extend ASCII, all limits, all chunkings", "why_tests_cant": "pairs of arbitrary spellings of arbitrary forms", "anchors": ["request_parser/utils/http.py:limited_parse_qsl", "request_parser/http/request.py:QueryDict.__init__", "request_parser/http/request.py:HttpRequest.parse_request_header", "request_parser/http/request.py:HttpRequest.parse_request_body"]}
{"id": "C146", "title": "Upload handlers form a pipeline", "statement": "Whatever the upload handlers do, whatever arrives and however the parse ends, each handler's receive_data_chunk is called exactly with the chunks that the handler before it returned, in that order, over all files of the request; a chunk for which a handler returns None reaches no later handler. So a handler that returns f(chunk) for each chunk makes the next one see the changed chunks and nothing else.", "quantifier": "all handlers and their number, all inputs including failing ones, all settings", "why_tests_cant": "arbitrary handlers and all executions of the parser with them", "anchors": ["request_parser/http/multipartparser.py:MultiPartParser.parse", "request_parser/files/uploadhandler.py:FileUploadHandler.receive_data_chunk"]}
{"id": "C147", "title": "A form is the sequence of its fields", "statement": "Parsing two queries joined by '&' or ';' gives the pairs of the first followed by those of the second, and what is accepted joined is accepted apart, under any limit. Fields with different names may change places: the lists under all keys of GET and POST, and of POST and FILES of a multipart request, stay the same, as does the exception if there is one. The boundary chosen for a multipart form makes no difference either.", "quantifier": "all queries, all arrangements of the fields or parts, all boundaries, charsets, limits and chunkings", "why_tests_cant": "all pairs of arrangements of forms of any length", "anchors": ["request_parser/utils/http.py:limited_parse_qsl", "request_parser/http/request.py:QueryDict.__init__", "request_parser/http/request.py:HttpRequest.parse", "request_parser/http/multipartparser.py:MultiPartParser.parse"]}
{"id": "C148", "title": "The name of an uploaded file keeps its extension", "statement": "Assigning a name to an uploaded file keeps the last component of the path; if it has more than 255 characters it is shortened in front of its extension, so that the extension (the last dot and what follows, unless only dots come before) is that of the name that was sent. Assigning a file's own name to it changes nothing.", "quantifier": "all names of any length, all files of all forms", "why_tests_cant": "all names including those longer than 255 characters", "anchors": ["request_parser/files/uploadedfile.py:UploadedFile._set_name", "request_parser/http/multipartparser.py:MultiPartParser.parse"]}
{"id": "C149", "title": "The address a request reports leads back to it", "statement": "If a parsed request has a path that begins with exactly one '/', then get_full_path() is a valid request target, and a request for it with the same Content-Type, whatever its method, version, other headers and body, when accepted reports the same get_full_path (with and without force_append_slash), the same GET dictionary, and a path with the same percent-decoding; escaping a query (iri_to_uri) never changes the pairs it spells. A path that begins with two slashes leads to another host.", "quantifier": "all requests and all charsets that extend ASCII, all limits, all chunkings", "why_tests_cant": "pairs of requests over arbitrary targets", "anchors": ["request_parser/http/request.py:HttpRequest.get_full_path", "request_parser/http/request.py:HttpRequest.parse_request_header", "request_parser/utils/http.py:limited_parse_qsl", "request_parser/utils/encoding.py:iri_to_uri", "request_parser/utils/encoding.py:escape_uri_path"]}
{"id": "C150", "title": "The headers of a part may come in any order, in any capitalisation, among others, and under any boundary", "statement": "A form whose parts carry their Content-Disposition, Content-Type and Content-Transfer-Encoding lines in any order, capitalised in any way in front of the first ';', with blanks (or none) around their parameters and around '=', and stray semicolons or words among them, with any other header lines between them (lines without '*'), sent under any other boundary and in any other chunks, gives what the form written in the usual way gives: the same POST and FILES, or the same exception. An unrelated header with an extended parameter in an unknown encoding makes the whole form fail with LookupError.", "quantifier": "all forms, all orders, spellings and further lines, all pairs of boundaries, all chunkings, all limits", "why_tests_cant": "pairs of bodies with arbitrary header lines", "anchors": ["request_parser/http/multipartparser.py:parse_boundary_stream", "request_parser/http/multipartparser.py:parse_header", "request_parser/http/multipartparser.py:_parse_header_params", "request_parser/http/multipartparser.py:MultiPartParser.parse", "request_parser/http/request.py:HttpRequest.parse_request_body"]}
{"id": "C151", "title": "The printed form of a dictionary tells its content", "statement": "repr() of a MultiValueDict or QueryDict whose keys and values are byte strings, unicode texts, None and lists of such is one line of printable ASCII, and two such dictionaries that print alike have the same class, the same keys with the same lists, and the same types of strings. Uploaded files are printed with the name the client chose, unescaped: two files print like one file with a suitable name, and a name can put a line feed into the output.", "quantifier": "all dictionaries, keys and nested values over all bytes and all code points", "why_tests_cant": "injectivity over all pairs of dictionaries", "anchors": ["request_parser/utils/datastructures.py:MultiValueDict.__repr__", "request_parser/files/uploadedfile.py:UploadedFile.__repr__"]}
{"id": "C152", "title": "A dictionary can be restored from its state", "statement": "__setstate__ of MultiValueDict and ImmutableMultiValueDict gives every key of the state exactly the list the state has for it (an empty list for None, a list of one for a single value), leaves other keys alone, and makes its own lists: changes to the lists of the state do not show. A dictionary's own content given to a new one makes an equal one. But the state is used up, so that a second dictionary restored from it is empty, and a QueryDict refuses every state with a key.", "quantifier": "all dictionaries, states and heaps with any sharing of lists", "why_tests_cant": "aliasing over all heaps, all states", "anchors": ["request_parser/utils/datastructures.py:MultiValueDict.__setstate__", "request_parser/utils/datastructures.py:ImmutableMultiValueDict.__setstate__", "request_parser/http/request.py:QueryDict"]}
{"id": "C153", "title": "Characters may be declared safe in urlencode()", "statement": "urlencode(safe=...) leaves letters, digits, '_.-' and the characters of safe as they are, and the result parses back to the same QueryDict whatever characters are declared safe.", "quantifier": "all dictionaries that can be encoded, all charsets that extend ASCII, all sets of safe characters, all limits", "why_tests_cant": "all dictionaries and all sets of safe characters", "anchors": ["request_parser/http/request.py:QueryDict.urlencode", "request_parser/utils/http.py:limited_parse_qsl"]}
{"id": "C154", "title": "The encoding of a QueryDict is the one it was given", "statement": "A QueryDict written with urlencode() under some encoding is read back as the same dictionary by QueryDict(settings, s, encoding=that encoding).", "quantifier": "all dictionaries, all pairs of charsets that extend ASCII, all settings", "why_tests_cant": "pairs of charsets over arbitrary keys", "anchors": ["request_parser/http/request.py:QueryDict.__init__", "request_parser/http/request.py:QueryDict.encoding", "request_parser/http/request.py:QueryDict.urlencode"]}
{"id": "C155", "title": "What was parsed stays as it is", "statement": "After a successful parse(), POST and GET cannot be changed through their methods, and POST and FILES stay the same whatever is called on the request, its POST and its GET (including parse(), body(), read(), assignments of encoding, content_type, upload_handlers, settings), until a new stream is assigned.", "quantifier": "all programs: finite sequences of calls in any order, before and after the parse, all inputs and settings", "why_tests_cant": "histories of arbitrary length", "anchors": ["request_parser/http/request.py:HttpRequest.parse_request_body", "request_parser/http/request.py:HttpRequest.parse_request_header", "request_parser/http/request.py:HttpRequest.stream", "request_parser/http/request.py:HttpRequest.body_stream", "request_parser/http/request.py:QueryDict._assert_mutable"]}
{"id": "C156", "title": "The body stays available", "statement": "Once body() has returned the raw body, every later call of body() returns the same bytes, whatever is called on the request, its POST and its GET in between, until a new stream is assigned.", "quantifier": "all programs: finite sequences of calls in any order after the first body(), all inputs and settings", "why_tests_cant": "histories of arbitrary length", "anchors": ["request_parser/http/request.py:HttpRequest.body", "request_parser/http/request.py:HttpRequest.read", "request_parser/http/request.py:HttpRequest.parse_request_body", "request_parser/http/request.py:HttpRequest.encoding"]}
{"id": "C157", "title": "Texts arrive as they were sent, in the charset the request declares", "statement": "The charset parameter that Content-Type gives last (a token, a quoted string or in extended notation, among any other parameters), or else DEFAULT_CHARSET, is the charset the query and an urlencoded form are read in: texts written in that charset and percent-encoded in any way come out of GET and POST as the same texts, key by key and in order. If a charset is declared, DEFAULT_CHARSET makes no difference to the outcome of parse() nor, once it succeeds on a request with a body, to anything in the request.", "quantifier": "all texts, all charsets that extend ASCII, all ways to percent-encode, all parameter lists, all values of DEFAULT_CHARSET, all bodies", "why_tests_cant": "all pairs of charsets, all texts", "anchors": ["request_parser/http/request.py:HttpRequest.parse_request_header", "request_parser/http/request.py:HttpRequest.encoding", "request_parser/http/request.py:HttpRequest.parse_request_body", "request_parser/http/multipartparser.py:parse_header", "request_parser/utils/http.py:limited_parse_qsl"]}
{"id": "C158", "title": "What is done with an uploaded file touches only its own temporary file", "statement": "Whatever sequence of open(), close(), reads, writes and with statements (also nested, also with exceptions in the block) is applied to an uploaded file, no file of the server other than its own temporary file changes, a file kept in memory touches no file at all; the end of a with statement always closes the file, and a closed temporary file is removed. Until it is closed, temporary_file_path() leads to the content.", "quantifier": "all programs over the methods with nested with statements, all file systems, all names and contents", "why_tests_cant": "programs of arbitrary length and nesting", "anchors": ["request_parser/files/base.py:File.__exit__", "request_parser/files/base.py:File.open", "request_parser/files/base.py:File.close", "request_parser/files/uploadedfile.py:TemporaryUploadedFile.close", "request_parser/files/uploadedfile.py:TemporaryUploadedFile.temporary_file_path", "request_parser/files/uploadedfile.py:InMemoryUploadedFile.open"]}
{"id": "C159", "title": "Only the charset and the boundary of a content type matter", "statement": "Two requests that agree in request line, body, Host, Content-Length, media type, charset and (for a multipart form) boundary are parsed alike in every respect (answer or exception, attributes, GET, POST, FILES, body, settings, remaining stream), whatever other parameters their Content-Type carries, in ordinary or extended notation, anywhere among the others.", "quantifier": "all requests, all media types, all lists of parameters", "why_tests_cant": "arbitrary parameter lists in two notations", "anchors": ["request_parser/http/request.py:HttpRequest.parse_request_header", "request_parser/http/multipartparser.py:parse_header", "request_parser/http/multipartparser.py:MultiPartParser.__init__"]}
{"id": "C160", "title": "Stray semicolons, words and blanks in a content type change nothing", "statement": "A request whose Content-Type has blanks (or none) around its parameters or around their '=', a semicolon too many at the end or in between, or words among them that are no parameters is parsed exactly like the request that lists the same well-formed parameters with '; ' before each: same answer or exception, attributes, GET, POST, FILES, body, settings and remaining stream.", "quantifier": "all requests, all media types, all lists of well-formed parameters (ordinary or extended), stray pieces and blanks", "why_tests_cant": "arbitrary writings of arbitrary lists", "anchors": ["request_parser/http/request.py:HttpRequest.parse_request_header", "request_parser/http/multipartparser.py:parse_header", "request_parser/http/multipartparser.py:_parse_header_params"]}
{"id": "C161", "title": "An uploaded file can be printed", "statement": "str(f) of every file of FILES is its name and repr(f) is '<class: name (type)>', whatever name the client sent, and repr(FILES) prints them all; the same holds for a file object the program makes itself, whether its name is bytes or unicode.", "quantifier": "all file names, all content types, all classes", "why_tests_cant": "arbitrary names of bytes and of unicode with arbitrary types", "anchors": ["request_parser/files/base.py:File.__str__", "request_parser/files/uploadedfile.py:UploadedFile.__repr__"]}
