{"id": "C01", "title": "Plain exports behave like one flat disk", "statement": "For an export backed by one or several non-empty files, after any sequence of READ, WRITE, WRITE_ZEROES (up to 64 MiB each), FLUSH and rejected requests, every READ answered without error returns exactly the bytes that a single flat byte array (initially the concatenation of the files, updated by each successfully acknowledged write) holds at that offset, and no byte outside a written range ever changes. This holds however the kernel splits transfers into short reads and writes.", "quantifier": "all file layouts (any number of non-empty files, any sizes), all initial contents, all finite request sequences, all short-transfer/error patterns of the operating system", "why_tests_cant": "There are unboundedly many layouts, request sequences and short-transfer patterns; a test sees one short-read pattern and a handful of straddling offsets.", "anchors": ["nbd-server.c:get_filepos", "nbd-server.c:rawexpread", "nbd-server.c:rawexpread_fully", "nbd-server.c:rawexpwrite", "nbd-server.c:rawexpwrite_fully", "nbd-server.c:expread", "nbd-server.c:expwrite"]}
{"id": "C02", "title": "Every export offset maps to exactly one place in one backing file", "statement": "In a multi-file export whose files are all non-empty, each byte offset below the export size is served from the unique file whose range contains it, at the offset relative to that file's start, and a single transfer never crosses the end of that file. Two different export offsets never share a backing byte.", "quantifier": "all lists of non-empty file sizes and all offsets below their sum", "why_tests_cant": "The lookup is a binary search over an array of arbitrary length; testing checks a few lengths, not every position in every layout.", "anchors": ["nbd-server.c:get_filepos", "nbd-server.c:setupexport"]}
{"id": "C03", "title": "Empty member files do not disturb a multi-file export", "statement": "Adding an empty file to a multi-file set does not change what any offset reads or where any write lands, and never turns an in-range read into an error.", "quantifier": "all multi-file layouts that contain an empty file, all offsets and lengths", "why_tests_cant": "Only the exact coincidence of a request offset and the start of an empty file triggers the difference.", "anchors": ["nbd-server.c:get_filepos", "nbd-server.c:rawexpwrite", "nbd-server.c:setupexport"]}
{"id": "C04", "title": "Requests outside the export are refused without side effects", "statement": "A READ, WRITE, TRIM or WRITE_ZEROES whose range does not lie inside [0, export size] is answered with an error (EINVAL, ENOSPC, EINVAL, ENOSPC respectively, EPERM taking precedence on a read-only export) and touches no backing byte; a request inside the range on a writable export is never refused for range reasons. This includes offsets near 2^64 where offset+length wraps around.", "quantifier": "all 64-bit offsets, all 32-bit lengths, all export sizes up to 2^63-1", "why_tests_cant": "The interesting inputs are at 64-bit wrap-around; enumerating offset/length/size triples is impossible.", "anchors": ["nbd-server.c:bad_range", "nbd-server.c:handle_request", "nbd-server.c:get_filepos"]}
{"id": "C05", "title": "A read-only export is never modified", "statement": "On an export that is configured read-only, or that was demoted to read-only because its file could not be opened for writing, no sequence of client requests changes any byte of the backing storage, creates or deletes backing files, and every WRITE, TRIM and WRITE_ZEROES that carries no unknown flag is answered EPERM.", "quantifier": "all request byte streams, all backing contents, all flag words on requests", "why_tests_cant": "A negative claim over all possible request sequences including malformed ones.", "anchors": ["nbd-server.c:bad_write", "nbd-server.c:handle_request", "nbd-server.c:setupexport", "nbdsrv.c:exptrim"]}
{"id": "C06", "title": "Copy-on-write never touches the base image", "statement": "On a copy-on-write export no sequence of client requests, with any pattern of I/O errors and short transfers, changes any byte of the base file(s); all modifications go to the per-connection diff file.", "quantifier": "all request sequences, all I/O error patterns, sparse or non-sparse diff layout", "why_tests_cant": "Universally quantified over request histories and failure points.", "anchors": ["nbd-server.c:expwrite", "nbd-server.c:expwrite_zeroes", "nbdsrv.c:exptrim", "nbd-server.c:expflush"]}
{"id": "C07", "title": "Copy-on-write clients read back what they wrote", "statement": "On a copy-on-write export, any read returns, byte for byte, the latest data this client successfully wrote at that offset, or the base image's data if it never wrote there, for reads of any length.", "quantifier": "all sequences of writes and reads of arbitrary offset and length on a copy-on-write export", "why_tests_cant": "Correctness depends on which earlier pages of a request were already diverted to the diff file, i.e. on the whole history.", "anchors": ["nbd-server.c:expread", "nbd-server.c:expwrite", "nbd-server.c:rawexpread_fully", "nbd-server.c:find_read_buf"]}
{"id": "C08", "title": "Copy-on-write page reads and writes are exact within one page", "statement": "On a non-sparse copy-on-write export of at most 4 GiB, with requests handled one at a time and inside the whole 4096-byte pages, any sequence of non-empty writes (any length) and reads is answered as by a flat disk initially equal to the base image, provided each read touches no page written earlier except possibly its last page (simple replies) or lies within one page; if storage errors make a write fail, this holds up to that write.", "quantifier": "all base images, sizes up to 4 GiB, write sequences, short transfers and I/O errors", "why_tests_cant": "Depends on page sharing between requests; unbounded histories.", "anchors": ["nbd-server.c:expread", "nbd-server.c:expwrite", "nbd-server.c:copyonwrite_prepare"]}
{"id": "C09", "title": "Sparse copy-on-write stores pages where it will look for them", "statement": "With the sparse_cow option, data written to a page of a copy-on-write export is what a later read of that page returns.", "quantifier": "all sequences of page writes in any order on a sparse copy-on-write export", "why_tests_cant": "Ascending sequential test writes hide the defect; it depends on write order.", "anchors": ["nbd-server.c:expwrite", "nbd-server.c:expread"]}
{"id": "C10", "title": "Copy-on-write exports of any size are handled memory-safely", "statement": "Serving any in-range request on a copy-on-write export of any size never accesses memory outside the page map or the request buffers.", "quantifier": "all export sizes and all in-range requests, simple and structured replies", "why_tests_cant": "The out-of-bounds access is usually silent; it depends on size mod 4096, on zero lengths and on the history of diverted pages.", "anchors": ["nbd-server.c:copyonwrite_prepare", "nbd-server.c:expread", "nbd-server.c:expwrite", "nbd-server.c:find_read_buf"]}
{"id": "C11", "title": "A failed copy-on-write write does not corrupt other data", "statement": "If a write on a copy-on-write export fails with an I/O error, data outside the failed request's range still reads back unchanged, now and after later writes.", "quantifier": "all error points in all write histories", "why_tests_cant": "Needs an I/O failure at a precise moment followed by a particular continuation.", "anchors": ["nbd-server.c:expwrite"]}
{"id": "C12", "title": "Tree exports place every 4096-byte block in its own file", "statement": "For every tree export size, two offsets below the size are stored in the same block file exactly when they lie in the same 4096-byte block; each path component is one of 1024 names per directory, the nesting depth depends only on the export size, and the path is the base-1024 expansion of the block number.", "quantifier": "all export sizes up to 2^63-1 and all offsets below the size", "why_tests_cant": "The path scheme is recursive with size-dependent depth; testing samples depths 1-2 only.", "anchors": ["treefiles.c:construct_path", "treefiles.c:open_treefile", "treefiles.c:delete_treefile"]}
{"id": "C13", "title": "Tree exports behave like one flat disk", "statement": "A tree export behaves, for any sequence of reads and writes, like a flat disk that is initially all zeroes (or the concatenation of pre-existing block files), missing blocks reading as zeroes; requests may span any number of blocks.", "quantifier": "all export sizes, all sequences of in-range reads and writes, all short-transfer patterns", "why_tests_cant": "Histories and block boundaries are unbounded.", "anchors": ["nbd-server.c:get_filepos", "treefiles.c:open_treefile", "nbd-server.c:rawexpwrite_fully", "nbd-server.c:rawexpread_fully"]}
{"id": "C14", "title": "TRIM never alters bytes outside its range", "statement": "A TRIM request changes no byte outside the trimmed range: inside the range bytes either keep their value or read as zero (for tree exports only whole 4096-byte blocks fully inside the range are dropped).", "quantifier": "all export layouts, all in-range trim requests, all backing contents", "why_tests_cant": "Range arithmetic over arbitrary multi-file layouts.", "anchors": ["nbdsrv.c:exptrim", "nbd-server.c:punch_hole", "treefiles.c:delete_treefile"]}
{"id": "C15", "title": "TRIM discards the space it was asked to discard", "statement": "A TRIM request on a single-file export whose hole punching is supported releases the whole requested range.", "quantifier": "all export sizes and in-range trim requests", "why_tests_cant": "The existing unit test only trims at offset 0, where the arithmetic happens to be right.", "anchors": ["nbdsrv.c:exptrim"]}
{"id": "C16", "title": "WRITE_ZEROES zeroes exactly the requested range", "statement": "A successful WRITE_ZEROES makes every byte of the requested range read as zero and changes no other byte, for any 32-bit length.", "quantifier": "all offsets, all 32-bit lengths, all export contents", "why_tests_cant": "Lengths above the internal 64 MiB chunk size are impractical to sweep and the failure leaves stale data silently.", "anchors": ["nbd-server.c:expwrite_zeroes", "nbd-server.c:expwrite"]}
{"id": "C17", "title": "FUA and sync writes are durable when acknowledged", "statement": "When a WRITE or WRITE_ZEROES carrying the FUA flag (or any write on an export with the sync option) is acknowledged with success, the written bytes survive a crash at any later point, whatever cached writes survived.", "quantifier": "all write requests, all crash points, all choices of surviving unsynced writes, all sync outcomes", "why_tests_cant": "Crash points and surviving-write subsets cannot be enumerated by tests; fsync failure needs fault injection.", "anchors": ["nbd-server.c:rawexpwrite", "nbd-server.c:expwrite", "nbd-server.c:handle_write", "nbd-server.c:handle_write_zeroes"]}
{"id": "C18", "title": "FLUSH makes all earlier acknowledged writes durable", "statement": "When a FLUSH is acknowledged with success, every write acknowledged before the FLUSH was received survives any later crash; if any backing file cannot be synced the FLUSH is answered with an error.", "quantifier": "all write histories, all layouts, all sync failures, all crash points", "why_tests_cant": "Quantifies over crash points and over which file's sync fails.", "anchors": ["nbd-server.c:expflush", "nbd-server.c:handle_flush"]}
{"id": "C19", "title": "FLUSH stays durable for waitfile exports after the file appeared", "statement": "On an export waiting for its file, once the file has appeared and writes go to it, an acknowledged FLUSH makes previously acknowledged writes durable.", "quantifier": "all histories of writes before/after the switch, all crash points", "why_tests_cant": "Needs a crash after a background switch.", "anchors": ["nbd-server.c:expflush", "nbd-server.c:wait_file"]}
{"id": "C20", "title": "Every request is answered exactly once with its own cookie", "statement": "In the transmission phase each complete request other than DISC produces exactly one simple reply, or one or more structured chunks of which exactly the last carries the DONE flag, all bearing the request's 64-bit cookie unchanged, under every interleaving of the worker threads.", "quantifier": "all request streams and all thread schedules", "why_tests_cant": "Schedules and streams are unbounded.", "anchors": ["nbd-server.c:mainloop_threaded", "nbd-server.c:handle_request", "nbd-server.c:setup_reply", "nbd-server.c:send_structured_chunk_v"]}
{"id": "C21", "title": "Reply messages are never torn by concurrency", "statement": "Whatever the interleaving of worker threads, the bytes sent to the client are a concatenation of whole reply messages (header together with its payload); a message of one request is never interleaved with the bytes of another.", "quantifier": "all numbers of workers, all schedules, all splits of socket writes", "why_tests_cant": "A race: tests observe a few schedules.", "anchors": ["nbd-server.c:send_structured_chunk", "nbd-server.c:complete_read", "nbd-server.c:handle_write", "nbd-server.c:handle_request"]}
{"id": "C22", "title": "The request stream is never desynchronised by a refused request", "statement": "The server consumes exactly 28 bytes per request plus the payload length for WRITE - also when the request is refused (bad range, read-only, unknown command or flag) - so that any concatenation of encoded requests is decoded to exactly those requests in order.", "quantifier": "all sequences of requests with arbitrary field values and payloads", "why_tests_cant": "All request field values and sequences; a desync shows only for following requests.", "anchors": ["nbd-server.c:mainloop_threaded", "nbd-server.c:package_create", "nbd.h:nbd_request"]}
{"id": "C23", "title": "Requests sent before a disconnect are all completed", "statement": "If the client sends a sequence of requests followed by DISC (or closes the connection cleanly between requests) then every earlier request is executed and answered before the server closes the connection, and nothing after DISC is executed.", "quantifier": "all request sequences and schedules", "why_tests_cant": "Needs all schedules of queued work against the disconnect.", "anchors": ["nbd-server.c:mainloop_threaded", "nbd-server.c:finalize_client", "nbd-server.c:socket_closed_transmission"]}
{"id": "C24", "title": "Structured reads cover exactly the requested range", "statement": "With structured replies negotiated, a successful READ on a plain export is answered with data chunks whose offset/length pairs tile the requested range exactly (contiguous, in order, non-overlapping, non-empty), carrying the disk's data, followed by a single DONE chunk without payload; each chunk's length field equals its actual payload size.", "quantifier": "all offsets, lengths, layouts and short-read patterns", "why_tests_cant": "Short-read patterns determine the chunking; only a proof covers all.", "anchors": ["nbd-server.c:rawexpread_fully", "nbd-server.c:confirm_read", "nbd-server.c:complete_read"]}
{"id": "C25", "title": "READ is never answered by a simple reply once structured replies are on", "statement": "After structured replies were negotiated, no READ request - successful or refused - is answered with a simple reply.", "quantifier": "all read requests (any flags, any range) on all exports", "why_tests_cant": "Error paths and option combinations multiply.", "anchors": ["nbd-server.c:handle_request", "nbd-server.c:handle_splice_read", "nbd-server.c:handle_structured_reply"]}
{"id": "C26", "title": "Structured error chunks decode to the reported error", "statement": "A client that parses the server's structured error chunk according to the protocol (32-bit big-endian error, 16-bit big-endian message length, message) obtains the error code and the complete message within the chunk.", "quantifier": "all read failures in structured mode", "why_tests_cant": "Requires a failing disk during a structured read, then a strict parser.", "anchors": ["nbd-server.c:complete_read", "nbd-server.c:handle_normal_read"]}
{"id": "C27", "title": "The don't-fragment capability that is advertised is honoured", "statement": "When the server advertises that it supports the don't-fragment flag, a READ with that flag and an acceptable size is served with a single content chunk rather than refused.", "quantifier": "all in-range reads up to the server's unfragmented limit", "why_tests_cant": "Capability/behaviour agreement over all reads.", "anchors": ["nbd-server.c:send_export_info", "nbd-server.c:handle_request", "nbd-server.c:handle_normal_read"]}
{"id": "C28", "title": "Error codes on the wire are always defined protocol errors", "statement": "Any failed command is reported with a non-zero error from the protocol's list (EPERM, EIO, ENOMEM, EINVAL, ENOSPC), whatever errno the operating system returned; a failure is never reported as success.", "quantifier": "all errno values and all failure points", "why_tests_cant": "errno can be any value including stale ones.", "anchors": ["nbd-server.c:nbd_errno", "nbd-server.c:handle_write", "nbd-server.c:handle_normal_read"]}
{"id": "C29", "title": "Socket reads deliver exactly the requested bytes", "statement": "The receive loop either delivers exactly the requested number of bytes, in order, with none lost or duplicated, or reports failure (peer closed or hard error); temporary 'try again' conditions lose nothing. Skipping n bytes advances the stream by exactly n.", "quantifier": "all chunkings of the incoming stream, all patterns of EAGAIN", "why_tests_cant": "Kernel chunking patterns are unbounded.", "anchors": ["cliserv.c:readit", "nbd-server.c:readit_tls", "nbd-server.c:consume", "nbd-server.c:consume_len"]}
{"id": "C30", "title": "Socket writes put exactly the given bytes on the wire", "statement": "The send loop, when it reports success, has put exactly the given bytes on the wire in order, without loss or duplication, including when the kernel temporarily refuses data (EAGAIN), and never reads outside the buffer.", "quantifier": "all short-write and EAGAIN patterns", "why_tests_cant": "EAGAIN at a precise position is rarely seen in tests.", "anchors": ["cliserv.c:writeit", "nbd-server.c:writeit_tls"]}
{"id": "C31", "title": "Header codecs round-trip and agree with the wire format", "statement": "Encoding followed by decoding of request, simple-reply, structured-reply and option headers is the identity on all in-range field values, uses big-endian order and the documented field sizes; 64-bit byte swapping is an involution.", "quantifier": "all field values", "why_tests_cant": "2^64 values per field.", "anchors": ["cliserv.c:ntohll", "nbd.h:nbd_request", "nbd.h:nbd_reply", "nbd.h:nbd_structured_reply", "nbd-server.c:send_reply"]}
{"id": "C32", "title": "The TLS proxy's ring buffer is a faithful FIFO", "statement": "The bounded buffer used by the client's TLS proxy never loses, duplicates or reorders bytes, never exposes memory outside its allocation, and the spans it offers for reading and writing are always inside the buffer, for any interleaving of partial reads and writes.", "quantifier": "all buffer sizes and all sequences of span/commit operations with partial amounts", "why_tests_cant": "Wrap-around states depend on the whole history.", "anchors": ["buffer.c:bufGetReadSpan", "buffer.c:bufGetWriteSpan", "buffer.c:bufDoneRead", "buffer.c:bufDoneWrite"]}
{"id": "C33", "title": "The TLS proxy relays both directions in order", "statement": "In each direction, the bytes delivered by the TLS proxy are always a prefix of the bytes received, in order, for every pattern of partial transfers and readiness events.", "quantifier": "all readiness/partial-transfer schedules", "why_tests_cant": "Schedules are unbounded.", "anchors": ["crypto-gnutls.c:tlssession_mainloop"]}
{"id": "C34", "title": "Address masks match exactly the addresses sharing the prefix", "statement": "An authorization entry address/len with a mask length valid for its family admits exactly the client addresses of the same family whose first len bits equal the entry's; an IPv4 entry also admits exactly the corresponding IPv4-mapped IPv6 clients (and vice versa).", "quantifier": "all addresses, all mask lengths", "why_tests_cant": "2^32 x 2^32 x 33 combinations (2^128 for IPv6).", "anchors": ["nbdsrv.c:address_matches", "nbdsrv.c:getmaskbyte"]}
{"id": "C35", "title": "An authorization file is enforced as documented", "statement": "With an authorization file that exists, a client may connect exactly if its address is matched by some entry; comments and blank lines never admit anyone; an empty file admits nobody; a missing file admits everybody.", "quantifier": "all file contents (lists of lines) and all client addresses", "why_tests_cant": "All texts and addresses.", "anchors": ["nbdsrv.c:authorized_client", "nbdsrv.c:address_matches"]}
{"id": "C36", "title": "Malformed or mixed-family authorization entries are handled safely", "statement": "No authorization-file content can make address matching read outside the address structures or abort the server, and an entry whose mask length is not a number admits nobody.", "quantifier": "all entry texts and client address families", "why_tests_cant": "Silent out-of-bounds reads for particular mask/family combinations.", "anchors": ["nbdsrv.c:address_matches"]}
{"id": "C37", "title": "No export is entered without authorization", "statement": "For every byte stream a client may send during negotiation, the server enters the transmission phase only for an export that exists in the configuration under the exact name requested, and only if the connection limit, the authorization file and the prerun script all allowed it, and the export could be opened.", "quantifier": "all client byte streams, all configurations", "why_tests_cant": "Adversarial byte streams.", "anchors": ["nbd-server.c:negotiate", "nbd-server.c:handle_info", "nbd-server.c:handle_export_name", "nbd-server.c:commit_client"]}
{"id": "C38", "title": "TLS enforcement cannot be bypassed", "statement": "If the server is configured to force TLS, then for every client byte stream no export name, size or data is sent and no transmission phase entered before TLS was established on the connection; an individual TLS-only export is never listed, described or served on a connection without TLS.", "quantifier": "all client byte streams, all configurations", "why_tests_cant": "Adversarial sequences of options.", "anchors": ["nbd-server.c:negotiate", "nbd-server.c:handle_list", "nbd-server.c:handle_info", "nbd-server.c:handle_export_name"]}
{"id": "C39", "title": "Nothing negotiated in plaintext survives the switch to TLS", "statement": "State negotiated before TLS was started (structured replies, chosen export) is discarded by STARTTLS; what is in effect in the transmission phase was negotiated after it.", "quantifier": "all option sequences", "why_tests_cant": "Option order is unbounded.", "anchors": ["nbd-server.c:negotiate", "nbd-server.c:handle_starttls"]}
{"id": "C40", "title": "Every negotiation option is answered and skipped by its declared length", "statement": "For each option other than EXPORT_NAME and ABORT that the server accepts to answer, it reads exactly the option's declared length and sends exactly one final reply carrying the option's number, so that option framing stays synchronised for any client data.", "quantifier": "all option numbers, all payloads and lengths", "why_tests_cant": "Adversarial lengths and payloads.", "anchors": ["nbd-server.c:negotiate", "nbd-server.c:handle_list", "nbd-server.c:handle_info", "nbd-server.c:handle_structured_reply", "nbd-server.c:consume_len"]}
{"id": "C41", "title": "Malformed INFO/GO requests cannot corrupt server memory", "statement": "No OPT_INFO/OPT_GO request, whatever its length fields, makes the server write outside the memory it allocated.", "quantifier": "all 32-bit length and name-length combinations", "why_tests_cant": "One value in 2^32 triggers it.", "anchors": ["nbd-server.c:handle_info"]}
{"id": "C42", "title": "EXPORT_NAME and GO select the same export", "statement": "For any configuration and name, the two ways of selecting an export pick the same export.", "quantifier": "all configurations (lists of exports, possibly with repeated names), all names, TLS or not", "why_tests_cant": "Configuration lists are unbounded.", "anchors": ["nbd-server.c:handle_export_name", "nbd-server.c:handle_info"]}
{"id": "C43", "title": "Advertised size and flags match what is enforced", "statement": "The size announced at connection time is the size the range check uses, the read-only flag is set exactly if writes are refused, and flush/FUA/trim capabilities are announced exactly as configured; the announcement is 10 bytes, plus 124 zero bytes exactly for EXPORT_NAME clients that did not ask to omit them.", "quantifier": "all configurations, all negotiated flags", "why_tests_cant": "All flag words.", "anchors": ["nbd-server.c:send_export_info", "nbd-server.c:handle_info", "nbd-server.c:setupexport"]}
{"id": "C44", "title": "OPT_INFO reports the true export size", "statement": "NBD_OPT_INFO for an accessible export reports the export's size.", "quantifier": "all exports of non-zero size", "why_tests_cant": "Requires comparing INFO with GO for all exports.", "anchors": ["nbd-server.c:handle_info", "nbd-server.c:send_export_info"]}
{"id": "C45", "title": "One connection's negotiation does not leak into another", "statement": "Whether the reserved zero bytes are sent to a client depends only on that client's own flags, not on clients served earlier by the same process.", "quantifier": "all sequences of connections served by one process", "why_tests_cant": "Cross-connection history.", "anchors": ["nbd-server.c:negotiate", "nbd-server.c:send_export_info"]}
{"id": "C46", "title": "The connection limit is never exceeded", "statement": "With maxconnections = n > 0 for an export, at no time have more than n connection attempts for that export been granted since the server started that are still being served; unknown export names are never granted.", "quantifier": "all sequences of connection requests and disconnects, all configurations", "why_tests_cant": "Histories are unbounded.", "anchors": ["nbd-server.c:handle_childname", "nbd-server.c:commit_client"]}
{"id": "C47", "title": "A released connection slot becomes available again", "statement": "After a client of an export with a connection limit has disconnected, another client can be admitted in its place.", "quantifier": "all histories of connects and disconnects", "why_tests_cant": "Liveness over histories.", "anchors": ["nbd-server.c:handle_childname", "nbd-server.c:serveloop"]}
{"id": "C48", "title": "Configuration reload only adds exports", "statement": "Reloading the configuration at run time never changes or removes an export already being served, adds each new name at most once, and adds every new name of the new configuration.", "quantifier": "all current export lists and all new configuration lists", "why_tests_cant": "List sizes and name overlaps are unbounded.", "anchors": ["nbd-server.c:append_new_servers", "nbd-server.c:get_index_by_servename", "nbd-server.c:serveloop"]}
{"id": "C49", "title": "Contradictory export options are rejected", "statement": "A configuration in which copy-on-write is combined with splice or with waitfile, or data logging with splice, never results in a served export; every accepted export section has the flags exactly as written.", "quantifier": "all combinations of boolean options", "why_tests_cant": "2^16 option combinations.", "anchors": ["nbd-server.c:parse_cfile"]}
{"id": "C50", "title": "Export records live exactly as long as they are used", "statement": "An export record is freed exactly once, when the last holder releases it, and never used afterwards, for any sequence of reloads and connections.", "quantifier": "all interleavings of acquire/release operations", "why_tests_cant": "Use-after-free shows up only in particular interleavings.", "anchors": ["nbdsrv.c:serve_inc_ref", "nbdsrv.c:serve_dec_ref", "nbd-server.c:commit_client", "nbd-server.c:finalize_client"]}
{"id": "C51", "title": "The transaction log records the request history in order", "statement": "For a single connection the transaction log contains each request header in the order received, each followed (with datalog) immediately by its complete write payload, and exactly one reply record per simple reply, none interleaved, under every worker schedule; parsing the log yields the records back.", "quantifier": "all request streams and all worker schedules", "why_tests_cant": "Interleavings of loggers.", "anchors": ["nbd-server.c:mainloop_threaded", "nbd-server.c:log_reply", "nbd-server.c:setup_transactionlog", "nbd-trdump.c:main"]}
{"id": "C52", "title": "Logging never blocks a disconnecting client's shutdown", "statement": "With a transaction log enabled, when the connection drops at any point the serving process finishes outstanding work and exits.", "quantifier": "all drop points in the byte stream, all worker schedules", "why_tests_cant": "Deadlock needs a drop inside a payload while workers are pending.", "anchors": ["nbd-server.c:mainloop_threaded", "nbd-server.c:socket_closed_transmission", "nbd-server.c:log_reply"]}
{"id": "C53", "title": "Replaying a data log reproduces the image", "statement": "Replaying a transaction log with data (of a session whose writes all succeeded and are block-aligned) onto a copy of the initial image yields the final image of the export.", "quantifier": "all write/trim/zero histories of one client with simple replies", "why_tests_cant": "All histories.", "anchors": ["nbd-trplay.c:process_command", "nbd-trplay.c:main_loop", "nbd-trplay.c:doread"]}
{"id": "C54", "title": "Log tools handle structured replies", "statement": "nbd-trdump and nbd-trplay process logs of sessions that negotiated structured replies, showing true payload lengths.", "quantifier": "all logs of structured-reply sessions", "why_tests_cant": "All payload lengths.", "anchors": ["nbd-trdump.c:main", "nbd-trplay.c:main_loop"]}
{"id": "C55", "title": "Waitfile exports commit all earlier writes when the file appears", "statement": "On a waitfile export, with requests handled one at a time, when the awaited file has appeared and the switch has completed, the file contains every page written before the switch and reads after the switch return the latest written data.", "quantifier": "all histories of whole-page writes before and after the switch", "why_tests_cant": "History-dependent invariant over page map and diff file.", "anchors": ["nbd-server.c:wait_file", "nbd-server.c:commit_diff", "nbd-server.c:expwrite"]}
{"id": "C56", "title": "Waitfile writes racing with the switch are not lost", "statement": "A write acknowledged on a waitfile export is visible to later reads even if it was processed concurrently with the switch to the real file.", "quantifier": "all interleavings of a writer with the committing thread", "why_tests_cant": "A narrow race window.", "anchors": ["nbd-server.c:expwrite", "nbd-server.c:wait_file"]}
{"id": "C57", "title": "Concurrent copy-on-write writes do not mix up pages", "statement": "Two writes to different pages of a copy-on-write export processed concurrently both read back correctly.", "quantifier": "all interleavings of two worker threads", "why_tests_cant": "Race between map update and append.", "anchors": ["nbd-server.c:expwrite"]}
{"id": "C58", "title": "Concurrent non-overlapping requests on plain exports are independent", "statement": "On a plain export, when concurrently processed writes have pairwise disjoint ranges, the final disk content is the same for every interleaving of their individual transfers and equals applying them in any order.", "quantifier": "all sets of disjoint writes, all interleavings, all split points", "why_tests_cant": "Interleavings.", "anchors": ["nbd-server.c:handle_request", "nbd-server.c:rawexpwrite_fully"]}
{"id": "C59", "title": "A TLS client never falls back to plaintext", "statement": "When the user asked for TLS, nbd-client sends the export name and enters transmission only after a successful STARTTLS exchange; any other server behaviour ends in an error.", "quantifier": "all server byte streams", "why_tests_cant": "Adversarial servers.", "anchors": ["nbd-client.c:negotiate"]}
{"id": "C60", "title": "A malicious server cannot corrupt the client's memory during negotiation", "statement": "For every byte stream sent by the server, negotiation and export listing in nbd-client access only memory they own.", "quantifier": "all server byte streams", "why_tests_cant": "Adversarial lengths.", "anchors": ["nbd-client.c:read_reply", "nbd-client.c:ask_list", "nbd-client.c:negotiate"]}
{"id": "C61", "title": "The client uses the size and flags the server announced", "statement": "After a successful negotiation, the size and flags the client configures are those the server sent for the requested export, for both GO and EXPORT_NAME.", "quantifier": "all announced sizes and flags", "why_tests_cant": "2^64 sizes.", "anchors": ["nbd-client.c:negotiate", "nbd-client.c:parse_sizes"]}
{"id": "C62", "title": "nbdtab entries and the command line are honoured", "statement": "The settings found in nbdtab for the requested device (and only those) determine the connection: the port given on the command line or in nbdtab is the port connected to, 'persist' makes the client reconnect, and settings of other lines do not leak.", "quantifier": "all nbdtab files (any number of entries, comments, blank lines, options), all command lines", "why_tests_cant": "All configuration texts and argument lists.", "anchors": ["nbd-client.c:nbdtab_set_property", "nbd-client.c:nbdtab_commit_line", "nbd-client.c:main", "nbdtab_parser.y"]}
{"id": "C63", "title": "Virtualised export paths keep clients apart", "statement": "With a per-client virtual export path, two clients with different addresses are served different files, and the path always stays the configured template with the client's address inserted.", "quantifier": "all client addresses, all templates, all virtstyles", "why_tests_cant": "All address pairs.", "anchors": ["nbd-server.c:set_peername"]}
{"id": "C64", "title": "Copy-on-write keeps working past 4 GiB of modified pages", "statement": "On a copy-on-write export larger than 4 GiB, data written to a page reads back and does not disturb other pages, however many pages have been modified before.", "quantifier": "all numbers of modified pages", "why_tests_cant": "Needs more than 2^20 modified pages before anything goes wrong.", "anchors": ["nbd-server.c:expread", "nbd-server.c:expwrite"]}
{"id": "C65", "title": "The TLS proxy survives back-pressure from the network", "statement": "If sending to the TLS connection is refused once because the network is not ready, the proxy retries the same data later and the connection carries on; nothing is lost and the session is not ended.", "quantifier": "all interleavings of socket readiness, all data", "why_tests_cant": "Needs a full send buffer at the right moment and a later successful retry.", "anchors": ["crypto-gnutls.c:tlssession_mainloop"]}
{"id": "C66", "title": "Listing exports stays within its buffer", "statement": "Answering NBD_OPT_LIST never reads outside the buffer in which a list entry is built, whatever the export names in the configuration.", "quantifier": "all configurations, all export names", "why_tests_cant": "Export names in tests are short; an over-read shows no symptom.", "anchors": ["nbd-server.c:handle_list"]}
{"id": "C67", "title": "Client and server of this release agree on the outcome of the negotiation", "statement": "When nbd-client asks nbd-server for one export over a connection that loses nothing, either both enter transmission - on the export asked for, with the size and flags the server has, in the same TLS state, and with neither side left with an unread byte - or both give up.", "quantifier": "all server configurations, client names, client flags, export names and sizes, TLS on or off, GO or EXPORT_NAME", "why_tests_cant": "Tests negotiate a handful of exports of one size; the space of configurations and refusals is not enumerable.", "anchors": ["nbd-server.c:negotiate", "nbd-server.c:handle_info", "nbd-server.c:handle_export_name", "nbd-client.c:negotiate"]}
{"id": "C68", "title": "A reconnect gives the kernel the same device", "statement": "When nbd-client reconnects after a lost connection, the kernel is told the same size as before, a device set up read-only stays read-only, and the same announcement of the server gives the same device.", "quantifier": "all client settings, all announcements of the server before and after", "why_tests_cant": "Needs a lost connection with every combination of forced size, forced read-only and announcement.", "anchors": ["nbd-client.c:main", "nbd-client.c:setsizes"]}
{"id": "C69", "title": "Flushing a waitfile export makes writes durable in the file", "statement": "When a waitfile export has switched to its file, an acknowledged FLUSH leaves every write acknowledged before it, and an acknowledged FUA write leaves its data, on stable storage of that file.", "quantifier": "all histories of writes, flushes and FUA writes around the switch", "why_tests_cant": "Needs a crash after the switch; the data is otherwise visible.", "anchors": ["nbd-server.c:expflush", "nbd-server.c:wait_file", "nbd-server.c:rawexpwrite"]}
{"id": "C70", "title": "CAN_MULTI_CONN: a write acknowledged on one connection is seen by the others", "statement": "For every export announced with CAN_MULTI_CONN: once a WRITE has been answered with success on one connection, a READ sent after that on any other connection returns the written bytes, if nobody else changes them. No interleaving of the connections runs into undefined behaviour.", "quantifier": "any number of connections, threads per connection, requests, schedules of all threads of all connections, short or failed transfers", "why_tests_cant": "Needs the right interleaving of threads in different processes; tests use one connection.", "anchors": ["nbd-server.c:send_export_info", "nbd-server.c:handle_modern_connection", "nbd-server.c:setupexport", "nbd-server.c:handle_request"]}
{"id": "C71", "title": "CAN_MULTI_CONN: a FLUSH on one connection covers writes of the others", "statement": "For every export announced with CAN_MULTI_CONN: once a WRITE has been answered with success on one connection, and a FLUSH sent after that on any connection has been answered with success, the written bytes survive a crash.", "quantifier": "any number of connections, requests, schedules, failing or short transfers and syncs, any crash after the FLUSH was answered", "why_tests_cant": "Needs a crash of the machine between two moments of an interleaving.", "anchors": ["nbd-server.c:send_export_info", "nbd-server.c:expflush", "nbd-server.c:handle_flush"]}
{"id": "C72", "title": "Server command line: options, address, size", "statement": "Whatever the order of options and words: the export given on the command line has the file, flags (read-only, multi-file, copy-on-write), access list, size and the address and port that the words and the last occurrence of each option say, and defaults for what is not given; no command line makes the server read outside its arguments.", "quantifier": "all argument lists (as getopt delivers them), all addresses, ports and sizes with or without unit", "why_tests_cant": "The argument space is unbounded; tests start the server with two or three fixed command lines.", "anchors": ["nbd-server.c:cmdline"]}
{"id": "C73", "title": "Section printed with -o describes the same export", "statement": "The section that -o prints for a command line, when read back as a configuration section, gives an export with the same file, size, flags, access list and connection limit as that command line.", "quantifier": "all command lines with and without -o, at any place of -o", "why_tests_cant": "Round trip between two unrelated pieces of code (printing and parsing); tests do not use -o.", "anchors": ["nbd-server.c:dump_section", "nbd-server.c:cmdline", "nbd-server.c:parse_cfile"]}
{"id": "C74", "title": "Generic settings of a running server", "statement": "User, group, listening address, port, Unix socket, TLS files and priority of the running server are those of the [generic] section; what is not there comes from the command line, and otherwise from the documented default.", "quantifier": "all command lines, configuration files and environments", "why_tests_cant": "Combinations of file and command line and defaults; the TLS default is only visible in the handshakes refused.", "anchors": ["nbd-server.c:parse_cfile", "nbd-server.c:cmdline", "nbd-server.c:main"]}
{"id": "C75", "title": "A started server listens where it was told to", "statement": "When start-up succeeds the server has a listening socket for every address that every name of the listening list resolves to (or the default list when none is given) and for the Unix socket, and no other; it never starts without any.", "quantifier": "all lists of names with any separators, all answers of getaddrinfo, all outcomes of socket, bind, listen", "why_tests_cant": "Depends on name resolution and on failing system calls at each place.", "anchors": ["nbd-server.c:open_modern", "nbd-server.c:open_unix", "nbd-server.c:setup_servers"]}
{"id": "C76", "title": "User and group of the running server", "statement": "A server started as root with a user and a group configured runs with exactly that user (real, effective, saved), that group and no supplementary groups, and cannot get anything else back; when this cannot be reached it does not start.", "quantifier": "all credentials at start, all user and group databases, all configurations", "why_tests_cant": "Needs root and looks at what is left over afterwards; tests run unprivileged.", "anchors": ["nbd-server.c:dousers", "nbd-server.c:main"]}
{"id": "C77", "title": "Going to the background", "statement": "A server that goes to the background lets go of its standard descriptors, keeps every other one, keeps reading the same configuration file at a reload, writes its process id file where -p says and removes exactly that file at the end.", "quantifier": "all working directories, descriptor tables, configuration and pid file names (absolute or relative)", "why_tests_cant": "Tests run the server in the foreground or never look at its descriptors and directories.", "anchors": ["nbd-server.c:daemonize", "nbd-server.c:serveloop", "nbd-server.c:main"]}
{"id": "C78", "title": "Exports served after start-up", "statement": "A running server serves every section of its configuration file after the first, in order, followed by sections of included files, followed by the export of the command line, and nothing else; without any export it does not start; a faulty configuration file is reported without undefined behaviour.", "quantifier": "all command lines, configuration files, included directories", "why_tests_cant": "Combinations of file contents and command line.", "anchors": ["nbd-server.c:main", "nbd-server.c:parse_cfile", "nbd-server.c:do_cfile_dir"]}
{"id": "C79", "title": "nbd-client command line: host, device, options", "statement": "With host, device and -N on the command line nbd-client uses exactly these, with the block size, timeout, number of connections, size, flags and TLS files of the last occurrence of each option (or old-style word) and defaults for the rest; it goes on only with a block size that is a positive multiple of 512 dividing the given size.", "quantifier": "all argument lists (as getopt delivers them), with or without netlink, all option values", "why_tests_cant": "Unbounded argument space; tests use few fixed command lines.", "anchors": ["nbd-client.c:main"]}
{"id": "C80", "title": "nbd-client sets the device up as announced", "statement": "The kernel gets a device of the size the server announced (or -B), with its flags, read-only when announced so or with -R, the block size and timeout asked for, and as many connections as -C says, all to the same export; a reconnect restores all of it.", "quantifier": "all announcements on all connections, sizes, block sizes, options, through ioctl and netlink", "why_tests_cant": "Needs a kernel with the nbd driver and root; odd sizes and several connections are not tested.", "anchors": ["nbd-client.c:setsizes", "nbd-client.c:netlink_configure", "nbd-client.c:main"]}
{"id": "C81", "title": "nbd-client connects to the first address that answers; -c checks the device", "statement": "nbd-client uses the first address that accepts and leaves no other socket open; it connects to exactly the Unix path given or fails; -c reports whether the given device, or the device of the given partition, is in use.", "quantifier": "all address lists and outcomes, all paths, all device names", "why_tests_cant": "Needs failing sockets at each address and kernel devices.", "anchors": ["nbd-client.c:opennet", "nbd-client.c:openunix", "nbd-client.c:check_conn"]}
{"id": "C82", "title": "Commands run around a connection, and its diff file", "statement": "When a client is served, the prerun command has been run before with the name of the export's file in the place of %s and ended with status 0; when the connection is over, the postrun command is run exactly once with the same file name and the diff file of a copy-on-write export is removed; what a client sends never becomes part of a command except its address in digits, a-f, colons and full stops.", "quantifier": "all sequences of attempts (GO, EXPORT_NAME) and their outcomes, all ways a connection ends (disconnect, lost while reading or while writing, wrong magic, signal), all exports, file names and commands", "why_tests_cant": "Depends on when exactly a connection is lost relative to the threads writing replies, on failures in the middle of attempts, and on what is left behind after the end.", "anchors": ["nbd-server.c:do_run", "nbd-server.c:finalize_client", "nbd-server.c:socket_closed_transmission", "nbd-server.c:copyonwrite_prepare", "nbd-server.c:commit_client", "nbd-server.c:mainloop_threaded"]}
{"id": "C83", "title": "Many connections at once do not harm the root process", "statement": "However many clients connect, and whatever the limit of descriptors is, the root process hands each connection to a child or turns it away, keeps one descriptor per child that has not chosen an export yet, loses none and never runs into undefined behaviour.", "quantifier": "all limits of descriptors, all numbers of descriptors open at the start, all sequences of rounds of the main loop with any connections waiting and any children done, fork failing or not", "why_tests_cant": "Needs about a thousand simultaneous clients and a table of descriptors that is nearly full at the right moment.", "anchors": ["nbd-server.c:spawn_child", "nbd-server.c:handle_modern_connection", "nbd-server.c:serveloop", "nbd-server.c:socket_accept"]}
{"id": "C84", "title": "Several connections to one tree export", "statement": "When several connections to the same tree export (one file per page, made on first use) write, read and discard at the same time, every answer is the one a single disk would give that does the requests' pages one after the other; an acknowledged write is not lost through another connection that reads or writes elsewhere, and a read of a page fails only if a system call fails.", "quantifier": "any number of connections, all sequences of page-sized pieces of WRITE, READ and TRIM on each, all schedules of the processes, all contents of the tree at the start", "why_tests_cant": "The outcome depends on how processes interleave between opening, creating and extending a block file; a window of a few system calls.", "anchors": ["treefiles.c:open_treefile", "treefiles.c:delete_treefile", "nbd-server.c:get_filepos", "nbd-server.c:rawexpwrite", "nbd-server.c:rawexpread", "nbdsrv.c:exptrim"]}
{"id": "C85", "title": "nbd-client with TLS talks only to the server it was told to", "statement": "When nbd-client is given any TLS option it does not go on in clear, and when it is given a CA file it goes on only with a server whose X.509 certificate verifies against that file and is for the name given with -tlshostname, or for the host it connects to.", "quantifier": "all command lines and nbdtab files, all servers (any certificate, verification result, status, names), any failing GnuTLS call", "why_tests_cant": "Needs an impostor for each combination of options; tests use one well-formed setup.", "anchors": ["nbd-client.c:negotiate", "nbd-client.c:main", "crypto-gnutls.c:tlssession_new", "crypto-gnutls.c:verify_certificate_callback", "crypto-gnutls.c:tlssession_mainloop"]}
{"id": "C86", "title": "nbd-server with TLS lets in only certified clients", "statement": "Once TLS is in effect on a connection the client has shown an X.509 certificate that verifies against cacertfile and is valid at the time; every such client gets in when key and certificate can be loaded; a client without certificate never does.", "quantifier": "all configurations of TLS files, all clients (any certificate, verification result, status, times), any failing GnuTLS call, all times", "why_tests_cant": "Needs clients with every kind of faulty certificate and failing library calls.", "anchors": ["nbd-server.c:verify_cert", "nbd-server.c:handle_starttls", "nbd-server.c:negotiate"]}
{"id": "C87", "title": "TLS files that are left out, as the manual describes", "statement": "With keyfile set and certfile not, the server reads its certificate from keyfile; without cacertfile certificates of clients are not checked; without keyfile TLS is refused.", "quantifier": "all configurations of TLS files and all clients", "why_tests_cant": "Depends on what the library does with a name that is missing.", "anchors": ["nbd-server.c:handle_starttls", "nbd-server.c:negotiate"]}
{"id": "C88", "title": "Signals to the root process and its children", "statement": "The table of children has exactly the children not waited for. SIGTERM to the root process, once no descriptor is ready any more, ends it with its pid file removed, every child told to end and nobody else; without SIGTERM it goes on, keeps its pid file, signals nobody, and children serve on until they end by themselves. Ended children are all waited for even when several end at once, and SIGHUP makes it read the configuration again.", "quantifier": "all sequences of connections, children ending, SIGTERM, SIGHUP and turns of the main loop, any process numbers", "why_tests_cant": "Depends on signals arriving at every possible point relative to the main loop and to each other.", "anchors": ["nbd-server.c:serveloop", "nbd-server.c:spawn_child", "nbd-server.c:sigterm_handler", "nbd-server.c:sigchld_handler", "nbd-server.c:sighup_handler", "nbd-server.c:killchild"]}
{"id": "C89", "title": "nbd-client -d and nbd-get-status act on the device they are given", "statement": "nbd-client -d disconnects exactly the device named, by number over netlink or by file, says so only if the kernel did it, and never does without -d; nbd-get-status asks for exactly the device named, or for all when none is named, and prints one line per device with its state; a name that is not the name of a device is refused, and an incomplete answer is reported.", "quantifier": "all command lines, all device names and numbers, any failing call, all answers", "why_tests_cant": "Needs kernel devices and answers the kernel does not normally give.", "anchors": ["nbd-client.c:netlink_disconnect", "nbd-client.c:disconnect", "nbd-client.c:callback", "nbd-client.c:main", "nbd-get-status.c:main", "nbd-get-status.c:callback"]}
{"id": "C90", "title": "nbd-trplay -m N stores exactly the first N blocks of the log", "statement": "With -m N up to the number of blocks the log holds, nbd-trplay leaves the image as the logged requests up to and including the Nth block do, and exits with 0; whatever the log and the command line, it ends, touches only the image given with -i, changes at most N blocks, and uses a block that fits its buffer; the last value of each option counts, with blocks of 512 bytes and no limit by default; bad values and files that cannot be opened give status 1 and leave every image alone; success is reported only for a complete replay.", "quantifier": "all logs, all block sizes and limits, all images, all command lines, any short writes", "why_tests_cant": "The limit exists to try every crash point of a log: tests look at a few.", "anchors": ["nbd-trplay.c:process_command", "nbd-trplay.c:main_loop", "nbd-trplay.c:main", "nbd-trplay.c:dowriteimage"]}
{"id": "C91", "title": "A client receives nothing but its own export", "statement": "Every byte the server sends in a session, and how the session ends, is determined by what the client sent, the files of the export it opened and the answers of the operating system: with the same ones, changing any other file on the machine, or what uninitialised memory holds, changes nothing the client can see.", "quantifier": "all byte streams a client may send, all exports (any number of files, trees, any flags), all contents of all files and of memory, all system call outcomes, any number of worker threads on any schedule", "why_tests_cant": "A leak shows only if a test happens to compare two machines that differ in the leaked bytes.", "anchors": ["nbd-server.c:handle_request", "nbd-server.c:handle_normal_read", "nbd-server.c:find_read_buf", "nbd-server.c:complete_read", "nbd-server.c:get_filepos", "treefiles.c:open_treefile"]}
{"id": "C92", "title": "Numbers in the configuration mean what is written", "statement": "In every configuration the server accepts, maxconnections, filesize and max_threads have exactly the decimal number written in the section (0, 0 and the previous number of threads if there is none); anything that is not such a number, or does not fit, makes the server refuse the whole file; and such numbers are never the reason for a refusal.", "quantifier": "all configuration files, all texts as values, all included directories", "why_tests_cant": "The set of texts that look almost like numbers is infinite.", "anchors": ["nbd-server.c:parse_cfile", "nbd-server.c:do_cfile_dir"]}
{"id": "C93", "title": "A client changes nothing but its own export", "statement": "Whatever a client sends, the server writes, trims, creates or deletes only files of the export that client opened (its listed files, the block files of a tree, its own diff file); every other file on the machine keeps its content, at every moment of the session.", "quantifier": "all byte streams a client may send, all exports (any number of files, trees, copy-on-write, any flags), any number of worker threads on any schedule, all system call outcomes, all points in time", "why_tests_cant": "A stray write shows only if a test looks at the file that was hit, on the schedule that hits it.", "anchors": ["nbd-server.c:handle_request", "nbd-server.c:expwrite", "nbd-server.c:rawexpwrite", "nbd-server.c:get_filepos", "nbdsrv.c:exptrim", "nbd-server.c:punch_hole", "treefiles.c:open_treefile", "treefiles.c:delete_treefile"]}
{"id": "C94", "title": "End to end: a connection changes and reveals only what its client may use", "statement": "From the first byte of a connection to its last reply, a stored file changes only if it belongs to an export that the client is authorized for (and, where TLS is demanded, only once TLS is in place); and then only if that export was asked for by name and is neither read-only nor copy-on-write, or if opening it extended an empty file with zeroes to the configured size. What the client is sent depends on no file of any other export. A client authorized for no export changes nothing.", "quantifier": "all byte streams in clear and within TLS, all lists of exports (which may share files), all flags, addresses and authorization files, all outcomes of system calls and of the parent's answers, any number of worker threads, all schedules, all points in time", "why_tests_cant": "The decision is made in negotiation and has to hold on every path through the request handlers; a test tries some client on some export and looks at some files.", "anchors": ["nbd-server.c:handle_modern_connection", "nbd-server.c:negotiate", "nbd-server.c:commit_client", "nbd-server.c:setupexport", "nbd-server.c:mainloop_threaded", "nbd-server.c:handle_request"]}
{"id": "C95", "title": "Connections do not disturb each other", "statement": "Any number of clients are served at once, on any exports. If no other connection may write to a file or tree that a connection uses, then every byte it is sent, its transaction log, how much of its input is consumed and whether its process ends are exactly what they would be if it were the only client. In particular the clients of copy-on-write exports never see each other's writes, and undefined behaviour of a connection can only come from what its own client sends. A file that belongs to no export with a writing connection is unchanged whatever all of them do.", "quantifier": "all numbers of connections, all exports, flags and file layouts, all byte streams, all outcomes of each process's system calls, any number of worker threads, all schedules of all threads of all processes, all points in time", "why_tests_cant": "A test runs a few clients and compares a few replies; interference needs a particular interleaving, and its absence cannot be observed.", "anchors": ["nbd-server.c:spawn_child", "nbd-server.c:handle_modern_connection", "nbd-server.c:mainloop_threaded", "nbd-server.c:handle_request", "nbd-server.c:expwrite", "nbd-server.c:copyonwrite_prepare", "treefiles.c:open_treefile"]}
{"id": "C96", "title": "A tree export keeps to its directory", "statement": "A connection to an export with treefiles makes, changes and removes no file but block files below the configured directory, whatever the client sends, and what it is sent depends on no other file of the machine. Two trees of the same size in different directories share no block file, even if one directory is inside the other, so serving one never changes the other.", "quantifier": "all export names and flags, all sizes below 2^63, all contents of the file system, all byte streams, all outcomes of system calls, any number of worker threads and all schedules", "why_tests_cant": "A test looks at the files it expects; a block file made in an unexpected directory, or contents silently replaced by zeroes, shows only if the test looks there with that combination of options.", "anchors": ["treefiles.c:open_treefile", "treefiles.c:construct_path", "treefiles.c:delete_treefile", "nbd-server.c:copyonwrite_prepare", "nbd-server.c:get_filepos", "nbd-server.c:commit_client"]}
{"id": "C97", "title": "Reporting an error does no harm", "statement": "Whatever text the server or the client reports as an error, and whatever the system's own texts are, the report is the text with its first %m (or else %h) replaced, cut at 149 bytes, and no memory outside of the buffer is touched. In particular a client asking for an export whose file cannot be opened is refused and the server process goes on.", "quantifier": "all texts, all system error texts, all export names up to PATH_MAX, all flags, sizes and sets of files that can be opened; all fixed texts in the sources", "why_tests_cant": "The buffer is 150 bytes and the message grows with the export path and the language of the system: a test with a short path and one locale never gets near the limit.", "anchors": ["cliserv.c:err_nonfatal", "cliserv.c:nbd_err", "nbd-server.c:setupexport", "nbd-server.c:dousers", "nbd-server.c:writeit_tls"]}
{"id": "C98", "title": "Several connections to one waitfile export", "statement": "With several connections to one waitfile export, for which CAN_MULTI_CONN is announced, a write that was acknowledged is seen by every READ sent afterwards on any connection and is not undone by earlier writes, before, during and after the moment the file appears.", "quantifier": "any number of connections, all request sequences, all interleavings of the request handling and of the waiting threads of all processes, all partial writes of the waiting threads", "why_tests_cant": "What happens depends on the order in which processes notice the file and move their pages; the interleavings cannot be enumerated by tests.", "anchors": ["nbd-server.c:wait_file", "nbd-server.c:commit_diff", "nbd-server.c:copyonwrite_prepare", "nbd-server.c:expread", "nbd-server.c:expwrite"]}
{"id": "C99", "title": "The text of nbd-trdump says what is in the log", "statement": "For every transaction log the text nbd-trdump prints has one line per entry; the cookie, command, offset, length, error, type and flags can be read off at fixed columns; the name shown is the one of the command or reply type; FUA is shown exactly when it is set; two logs with the same text have the same requests and replies in the same order.", "quantifier": "all byte sequences as a log, all values of all fields, all command line arguments", "why_tests_cant": "The fields are 64 and 32 bits wide; padding, digits and names would have to be right for every value, and that no two different logs print the same cannot be tested.", "anchors": ["nbd-trdump.c:main", "nbd-helper.h:getcommandname", "nbd-helper.h:gettracelogname", "nbd-helper.h:getstructreplname"]}
{"id": "C100", "title": "What nbd-trplay prints is what it does", "statement": "For every log, image and command line: the verbosity changes the text and nothing else, and a lower one only leaves lines out; at verbosity 2 the blocks shown are numbered from 0 without a gap, every byte of the image that changes lies in a block shown, and the last line gives the status and the number of blocks written; for the log of a session every request and reply is shown with its values, followed by its blocks and the total; no two different reports are the same text, and numbers stand where the text says; for any log the values shown are those of an entry in it, and every error, limit or unknown option reported stands after the entry it is about, which has that fault; the settings shown and used are the last ones given, the verbosity the number of -v.", "quantifier": "all byte sequences as a log, all images, block sizes, limits, verbosities, pwrite results, command lines; all values of the fields shown", "why_tests_cant": "The report has to agree with what was written for every log, also a damaged one, at every short or failed write, and 64-bit numbers in decimal and hexadecimal have to be right for every value.", "anchors": ["nbd-trplay.c:main", "nbd-trplay.c:main_loop", "nbd-trplay.c:process_command", "nbd-trplay.c:doread", "nbd-trplay.c:dowriteimage", "nbd-trplay.c:show_help"]}
{"id": "C101", "title": "make-integrityhuge writes a log that can be replayed inside its disk", "statement": "Whatever random() returns and however short the writes are, the output is 11028 bytes that read as 250 requests numbered in turn, each answered without error, then a DISC; every request is a READ, WRITE or WRITE with FUA of a whole number of KiB inside the 50000000 bytes, or a FLUSH. Each such request with a length up to 49998848 can come up at each place, and each 64-bit number out of getrandomuint64, even from random() values of 15 bits. If a write fails the output is a proper beginning of such a log and the exit status 1. Sent to a writable export of at least 49999872 bytes none of the requests is refused; on a shorter one some can be.", "quantifier": "all sequences of random() values, all results of write, all requests and places in the log", "why_tests_cant": "A test run sees one sequence of random numbers; a length or offset one KiB past the end, or a number that never comes up, needs all of them.", "anchors": ["make-integrityhuge.c:main", "make-integrityhuge.c:dowrite", "make-integrityhuge.c:getrandomuint64"]}
{"id": "C102", "title": "An export is as large as what it exports", "statement": "For a regular file (an empty one too), a block device that is not empty, or anything else that tells its size, the size found is that size, and an export of it without a configured size is served with it. No size is made up: it is one a system call gave, or the export is refused.", "quantifier": "all sizes up to 2^63-1, all kinds of files, all results of ioctl, fstat and lseek, all flags of a single-file export, all configured sizes", "why_tests_cant": "Tests export regular files; what happens with a device without a medium, a character device or a FIFO, or a size that only one of the three system calls tells, does not come up.", "anchors": ["nbdsrv.c:size_autodetect", "nbd-server.c:setupexport"]}
{"id": "C103", "title": "Connections that share a transaction log take turns", "statement": "Connections to exports with the same transaction log write to it one at a time, what one has written stays in the file, and the lock comes free again for the others.", "quantifier": "any number of connections; every order of opening, locking, writing, unlocking, ending and being killed; every earlier content of the file; records of any length", "why_tests_cant": "No test of the project has the server write a transaction log; those in tests/run are played back by the tester. Two connections at once, one ending while others go on, one that stops halfway through a write, or a killed process are not tried.", "anchors": ["nbd-server.c:setup_transactionlog", "nbd-server.c:cleanup_transactionlog", "nbd-server.c:lock_logsem", "nbd-server.c:unlock_logsem", "nbd-server.c:log_reply", "nbd-server.c:finalize_client", "nbd-server.c:mainloop_threaded"]}
{"id": "C104", "title": "A spliced request fits in its pipe", "statement": "On an export with splice, a READ or WRITE that the server passes through a pipe (at most 1 MiB) gets all its data into the pipe; no thread waits for room in a pipe that nobody empties.", "quantifier": "all offsets, all lengths up to 1 MiB, all sizes of the pieces in which the network brings the data of a WRITE", "why_tests_cant": "No test of the project sets splice. Whether it holds depends on the offset within a page and on how the kernel cuts the data, which over the loopback device differs from a real network.", "anchors": ["nbd-server.c:spliceit", "nbd-server.c:mkpipe", "nbd-server.c:expsplice", "nbd-server.c:handle_splice_read", "nbd-server.c:package_create", "nbd-server.c:mainloop_threaded"]}
