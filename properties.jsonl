{"id": "C01", "title": "Bitset behaves as a finite set of indices", "statement": "After NewBitset(n) and any sequence of Set(x), Unset(x) of a current member, and Fill(), Get(x) is true exactly for the indices that were set and not unset since, Size() is the maximum of n and one more than the largest index ever set, and Count() is the number of members.", "quantifier": "every initial size n >= 0, every finite operation sequence, every index below 2^63-1", "why_tests_cant": "Unbounded sequences and index values; tests draw a few thousand random indices below 1.1 million.", "anchors": ["common/bitset/bitset.go: NewBitset, Set, Unset, Fill, Get, Size, Count"]}
{"id": "C02", "title": "Unset of a non-member leaves the bitset unchanged", "statement": "Unset(x) removes x and changes no other index, whether or not x is currently a member (documented: 'sets the specified index to False').", "quantifier": "every bitset state and every index below 2^63", "why_tests_cant": "The existing tests only unset indices that are set; the failing states are those where the bit is clear.", "anchors": ["common/bitset/bitset.go: Unset"]}
{"id": "C03", "title": "Out-of-range Get and Set are total", "statement": "Get of an index beyond the allocated words is false and never panics; Set of such an index grows the bitset and never panics.", "quantifier": "every bitset and every uint64 index, including those at and above 2^63", "why_tests_cant": "The interesting indices are at the int/uint64 conversion boundary, which random tests never reach.", "anchors": ["common/bitset/bitset.go: Get, Set"]}
{"id": "C04", "title": "Full and Fill agree with membership", "statement": "Full() is true exactly when every index below Size() is a member; Fill() makes exactly the indices below Size() members and leaves Size() unchanged.", "quantifier": "every bitset reachable through the API, every size including multiples of 64 and 0", "why_tests_cant": "Word-boundary arithmetic must be right for every size.", "anchors": ["common/bitset/bitset.go: Fill, Full"]}
{"id": "C05", "title": "Reported held ranges are exact", "statement": "Ranges() returns an even-length list of inclusive [start,end] pairs that is sorted, non-overlapping, non-adjacent, and covers exactly the members; for bitsets of at most 65536 indices the uint16 encoding is lossless.", "quantifier": "every reachable bitset of size at most 65536", "why_tests_cant": "Exactness is a claim about every subset of indices (2^65536 of them).", "anchors": ["common/bitset/bitset.go: Ranges, filledRanges"]}
{"id": "C06", "title": "Overlap reports exactly the requested members", "statement": "Overlap(ranges) of an even-length list of inclusive pairs returns pairs covering exactly the members lying in some requested pair, each pair inside one requested pair; an odd-length request panics.", "quantifier": "every reachable bitset and every []uint16 request", "why_tests_cant": "Any request shape may arrive from the network.", "anchors": ["common/bitset/bitset.go: Overlap, filledRanges"]}
{"id": "C07", "title": "Missing ranges and missing items are exact", "statement": "UnfilledRanges() returns sorted, non-overlapping, non-adjacent inclusive ranges covering exactly the non-members below Size(); UnfilledItems(k) returns the k smallest non-members (all of them when fewer).", "quantifier": "every reachable bitset of size at most 65536 and every k >= 0", "why_tests_cant": "Exactness ranges over every subset of indices.", "anchors": ["common/bitset/bitset.go: UnfilledRanges, UnfilledItems"]}
{"id": "C08", "title": "Missing ranges of very large files name missing chunks", "statement": "For bitsets larger than 65536 indices the missing ranges still name only missing chunks.", "quantifier": "every reachable bitset of any size", "why_tests_cant": "Needs a bitset with more than 65536 indices in a particular state (a 256 GB file).", "anchors": ["common/bitset/bitset.go: UnfilledRanges, Ranges, UnfilledItems", "common/range.go: Range"]}
{"id": "C09", "title": "Union and Intersect compute set union and intersection", "statement": "Get on a.Union(b) (a.Intersect(b)) is true exactly for indices that are members of a or b (a and b); neither operand changes.", "quantifier": "every pair of bitsets of any lengths, every index", "why_tests_cant": "All pairs of lengths and contents.", "anchors": ["common/bitset/bitset.go: Union, Intersect, shorterFirst"]}
{"id": "C10", "title": "Union and Intersect report a correct Size", "statement": "The result of Union/Intersect has a Size() covering its members, so that Full/Ranges/Count-style queries on the result are meaningful.", "quantifier": "every pair of bitsets", "why_tests_cant": "No test calls Size, Full or Ranges on a union.", "anchors": ["common/bitset/bitset.go: Union, Intersect"]}
{"id": "C11", "title": "Bitset serialization round-trips", "statement": "Deserialize(Serialize(b)) yields a bitset with the same Size and the same members, for every b; different bitsets serialize differently.", "quantifier": "every bitset", "why_tests_cant": "Test covers sizes below 10000 with random content.", "anchors": ["common/bitset/bitset.go: Serialize, Deserialize"]}
{"id": "C12", "title": "Deserialize outcome on arbitrary bytes", "statement": "Deserialize of fewer than 8 bytes panics, of a byte string whose length is not a multiple of 8 returns an error, and otherwise succeeds with exactly the encoded words.", "quantifier": "every byte string", "why_tests_cant": "All malformed/torn inputs.", "anchors": ["common/bitset/bitset.go: Deserialize"]}
{"id": "C13", "title": "Copies are isolated", "statement": "Mutating the result of Copy() (or an exported record's Progress) never changes what the original reports, and vice versa, even though slices share backing arrays on append.", "quantifier": "every bitset, every later sequence of Set/Unset/Fill on either side", "why_tests_cant": "Aliasing bugs depend on capacities and histories.", "anchors": ["common/bitset/bitset.go: Copy, Set, Unset, Fill", "catalogue/indexRecord.go: export"]}
{"id": "C14", "title": "Hash text form round-trips and is validated", "statement": "FromStringSafe(h.String()) restores h; FromStringSafe succeeds exactly on strings of 40 hexadecimal digits (either case) and otherwise returns an error and leaves the hash unchanged; String is injective.", "quantifier": "every 20-byte hash and every input string", "why_tests_cant": "All strings, including odd lengths, non-hex characters and wrong lengths.", "anchors": ["common/sha1Hash.go: String, FromStringSafe, FromString"]}
{"id": "C15", "title": "Blank hash recognition", "statement": "IsBlank() is true exactly for the hash of twenty 0xFF bytes, which Blank() produces.", "quantifier": "every 20-byte hash", "why_tests_cant": "2^160 values.", "anchors": ["common/sha1Hash.go: Blank, IsBlank"]}
{"id": "C16", "title": "Copying slices into a hash", "statement": "FromSliceSafe accepts exactly 20-byte slices; FromSlice on 20 bytes makes the hash equal to them; String/Slice/SliceCopy agree with the bytes.", "quantifier": "every hash and slice", "why_tests_cant": "All lengths.", "anchors": ["common/sha1Hash.go: FromSlice, FromSliceSafe, SliceCopy"]}
{"id": "C17", "title": "Host-discovery messages round-trip", "statement": "Parse(Serialize(m)) = m for every DiscoverHostRequest/DiscoverHostResponse with at most 255 chunk numbers, even when followed by arbitrary trailing bytes (datagrams are parsed out of a zero-padded 1024-byte buffer).", "quantifier": "every message and every trailing byte string", "why_tests_cant": "Unbounded message space and padding.", "anchors": ["flu/messages/msgDiscoverHosts.go: Serialize", "flu/messages/parse.go: Parse", "main.go: startDaemon"]}
{"id": "C18", "title": "File-listing messages round-trip", "statement": "Parse(Serialize(m)) = m for every ListFilesRequest and every ListFilesResponse with at most 65535 entries whose names are at most 255 bytes, even when followed by arbitrary trailing bytes.", "quantifier": "every message and every trailing byte string", "why_tests_cant": "Unbounded entry lists and names.", "anchors": ["flu/messages/msgListFiles.go: Serialize", "flu/messages/utils.go: SerializeString255, byteReader", "flu/messages/parse.go: Parse"]}
{"id": "C19", "title": "Transfer messages round-trip", "statement": "Parse(Serialize(m)) = m for every OpenConnectionRequest and DataPacketAck, and ParseAsDataPacket(Serialize(p)) = p for every DataPacket; Split of a first packet returns exactly the hash, size and data that were packed.", "quantifier": "every message and payload", "why_tests_cant": "Unbounded payloads.", "anchors": ["flu/messages/msgConnection.go", "flu/messages/msgDataPacket.go", "flu/messages/parse.go"]}
{"id": "C20", "title": "What the receiver sees of oversized messages", "statement": "A discovery message with n chunk numbers is read back with exactly its first (n mod 256) chunk numbers; a listing with n entries is read back as its first (n mod 65536) entries; a name longer than 255 bytes is read back as its first 255 bytes.", "quantifier": "every message, every length", "why_tests_cant": "Needs messages of 256+ chunks or 65536+ entries.", "anchors": ["flu/messages/msgDiscoverHosts.go", "flu/messages/msgListFiles.go", "flu/messages/utils.go"]}
{"id": "C21", "title": "Parsing an arbitrary datagram", "statement": "For every 1024-byte receive buffer, Parse never panics unless the type byte is 3 (ListFilesResponse); type bytes other than 0,1,2,3,4,6 give an error; for type 3 a panic occurs exactly when the declared entries do not fit in the buffer.", "quantifier": "every 1024-byte datagram buffer", "why_tests_cant": "256^1024 buffers.", "anchors": ["flu/messages/parse.go: Parse", "flu/messages/utils.go", "main.go: startDaemon", "flu/server.go: HandleMessage"]}
{"id": "C22", "title": "Wire format is unambiguous", "statement": "Control messages (every kind except data packets) within the size limits never serialize to byte strings one of which is a prefix of the other's buffer contents: equal receive buffers imply equal messages. Data packets, which are delimited by their datagram, are determined by their exact bytes, and are never confused with control messages.", "quantifier": "every pair of messages", "why_tests_cant": "All pairs.", "anchors": ["flu/messages/parse.go", "flu/messages/messageTypes.go"]}
{"id": "C23", "title": "A chunk reader covers exactly its chunk", "statement": "The reader returned for chunk i of a file has Size equal to the number of bytes of the file in [i*ChunkSize,(i+1)*ChunkSize), Hash equal to the SHA-1 of those bytes, and successive Reads return exactly those bytes in order with the right offsets, for every sequence of buffer sizes.", "quantifier": "every file content, chunk size, chunk index and read-buffer sequence", "why_tests_cant": "Existing test has offset 0 only (TODO in the test) and three sizes.", "anchors": ["common/chunkReader.go: NewChunkReader, Read, Offset, Reset", "catalogue/indexRecord.go: getChunkReader"]}
{"id": "C24", "title": "Chunks partition the file", "statement": "For every file size and positive chunk size, the number of chunks is ceil(size/chunkSize), chunks are non-empty, all but the last have exactly chunkSize bytes, and concatenating them in order gives the file.", "quantifier": "every file and chunk size", "why_tests_cant": "All sizes, including exact multiples and zero.", "anchors": ["catalogue/progressFile.go: newProgressFile", "catalogue/indexRecord.go: getChunkReader, saveChunk"]}
{"id": "C25", "title": "File hashing hashes the whole file", "statement": "HashFile returns the SHA-1 of the complete file contents regardless of size relative to the 4096-byte buffer.", "quantifier": "every file content", "why_tests_cant": "All sizes/alignments.", "anchors": ["common/utils.go: HashFile"]}
{"id": "C26", "title": "Sharing a file records it faithfully", "statement": "A successful Share(path) of a file not yet indexed adds exactly one entry keyed by the SHA-1 of its contents, with its absolute path, its size, 4 MiB chunks, and all chunks held; every other entry is unchanged; the file itself is not modified.", "quantifier": "every catalogue state, path and file content", "why_tests_cant": "All prior states and contents.", "anchors": ["catalogue/catalogue.go: ShareFile", "catalogue/indexRecord.go: generateIndexRecordForFile", "catalogue/indexFile.go: AddIndexRecord"]}
{"id": "C27", "title": "Identical content is never indexed twice", "statement": "Share of a file whose SHA-1 is already indexed (under any name) fails and changes nothing in memory or on disk; in every reachable state listings contain each hash at most once and each entry's hash equals its key.", "quantifier": "every reachable catalogue state and path", "why_tests_cant": "Invariant over all histories.", "anchors": ["catalogue/catalogue.go: ShareFile, RegisterDownload", "catalogue/indexFile.go: AddIndexRecord"]}
{"id": "C28", "title": "The catalogue refines a simple map", "statement": "Any history of Share, RegisterDownload, Unshare, SaveChunk, List, Contains, GetChunkReader calls gives the same answers as an abstract map from hash to (path, size, chunk size, set of held chunks).", "quantifier": "every finite history of successful I/O", "why_tests_cant": "Unbounded histories.", "anchors": ["catalogue/catalogue.go", "catalogue/indexFile.go", "catalogue/progressFile.go"]}
{"id": "C29", "title": "Restart preserves the catalogue", "statement": "After any history of successful operations, restarting the daemon (re-reading index.json and the progress files) yields the same listing: same hashes, paths, sizes, chunk sizes and held chunks.", "quantifier": "every finite history, paths being valid UTF-8 outside the catalogue directory", "why_tests_cant": "Unbounded histories and restart points.", "anchors": ["catalogue/indexFile.go: Init, save, MarshalJSON, UnmarshalJSON", "catalogue/progressFile.go: save, deserializeProgressFile"]}
{"id": "C30", "title": "Index JSON round-trips", "statement": "Unmarshalling a marshalled index restores pid, lastTouched, data directory and every record exactly, for paths that are valid UTF-8; a truncated index file is rejected with an error rather than read as a different index.", "quantifier": "every index content, every truncation point", "why_tests_cant": "One fixed example is tested.", "anchors": ["catalogue/indexFile.go: MarshalJSON, UnmarshalJSON", "catalogue/indexRecord.go: toJSON, fromJSON"]}
{"id": "C31", "title": "Non-UTF-8 paths survive a restart", "statement": "A shared file whose path contains bytes that are not valid UTF-8 (legal on Linux) keeps its path across a restart.", "quantifier": "every path byte string", "why_tests_cant": "Specific byte values needed.", "anchors": ["catalogue/indexFile.go: save", "catalogue/indexRecord.go: toJSON"]}
{"id": "C32", "title": "Crash safety of the catalogue", "statement": "If the daemon is killed at any point during Share, Unshare, RegisterDownload or SaveChunk, then after restart the catalogue is readable and every file not involved in the interrupted operation is unaffected.", "quantifier": "every reachable state, operation and crash point (including inside a file write)", "why_tests_cant": "Every crash point in every history.", "anchors": ["catalogue/catalogue.go", "catalogue/indexFile.go: save", "catalogue/progressFile.go: save, delete"]}
{"id": "C33", "title": "An interrupted share or unshare can be repaired through the API", "statement": "After a crash between the two disk updates of Share/Unshare/RegisterDownload there is some sequence of API calls after which List works again.", "quantifier": "every such crash state and every later API history", "why_tests_cant": "A statement about all continuations after a crash.", "anchors": ["catalogue/catalogue.go: ShareFile, UnshareFile, ListFiles, fill", "catalogue/progressFile.go"]}
{"id": "C34", "title": "Unshare removes exactly one entry", "statement": "A successful Unshare(h) removes the entry for h from the index and its progress file, leaves every other entry and the shared file itself untouched; Unshare of an unknown hash fails and changes nothing.", "quantifier": "every reachable state and hash", "why_tests_cant": "All states.", "anchors": ["catalogue/catalogue.go: UnshareFile", "catalogue/indexFile.go: RemoveIndexRecord"]}
{"id": "C35", "title": "Saving a chunk writes exactly its byte range", "statement": "SaveChunk(h,i,data) makes the bytes [i*ChunkSize, i*ChunkSize+len(data)) of the destination equal to data, leaves all other existing bytes unchanged, marks chunk i held (on disk too), and changes no other entry.", "quantifier": "every state, chunk index and data", "why_tests_cant": "All offsets and file states.", "anchors": ["catalogue/catalogue.go: SaveChunk", "catalogue/indexRecord.go: saveChunk", "catalogue/progressFile.go: Set, save"]}
{"id": "C36", "title": "Chunk data reassembles the file in any order", "statement": "If every chunk of a file is saved at least once, in any order and with any repetitions, each time with that chunk's bytes, and the destination did not exist before, the destination equals the original file, and FileComplete is true exactly when all chunks have been saved.", "quantifier": "every file, chunk size and order of arrival", "why_tests_cant": "All permutations and multiplicities.", "anchors": ["catalogue/catalogue.go: SaveChunk, FileComplete", "catalogue/indexRecord.go: saveChunk"]}
{"id": "C37", "title": "A completed download equals the original even if the destination existed", "statement": "When a download completes, the destination file equals the original regardless of what was at that path before.", "quantifier": "every prior destination content", "why_tests_cant": "Depends on prior disk state.", "anchors": ["catalogue/indexRecord.go: saveChunk", "README.md"]}
{"id": "C38", "title": "Progress queries agree", "statement": "FileComplete(h) holds exactly when MissingChunks(h) is empty; when it is not complete the first missing range starts at the lowest missing chunk.", "quantifier": "every reachable state with at most 65536 chunks", "why_tests_cant": "All progress states; the download loop indexes the first range unconditionally.", "anchors": ["catalogue/catalogue.go: FileComplete, MissingChunks", "flu/serverStartDownload.go: StartDownload"]}
{"id": "C39", "title": "Only held chunks are served", "statement": "GetChunkReader(h,i) succeeds only if chunk i of h is recorded as held, and otherwise returns an error without opening the file.", "quantifier": "every state, hash and chunk number", "why_tests_cant": "All states.", "anchors": ["catalogue/catalogue.go: GetChunkReader", "catalogue/indexRecord.go: getChunkReader"]}
{"id": "C40", "title": "Downloads stay inside the downloads directory", "statement": "RegisterDownload with any peer-supplied file name yields a destination inside the configured downloads directory.", "quantifier": "every peer-supplied name", "why_tests_cant": "Attacker-chosen strings.", "anchors": ["catalogue/catalogue.go: RegisterDownload", "flu/serverStartDownload.go: StartDownload"]}
{"id": "C41", "title": "Peer-supplied metadata cannot crash the daemon", "statement": "RegisterDownload with any size and chunk size received from a peer returns (possibly an error) without panicking.", "quantifier": "every uint64 size and uint32 chunk size", "why_tests_cant": "Attacker-chosen integers, including 0 and values above 2^63.", "anchors": ["catalogue/catalogue.go: RegisterDownload", "catalogue/progressFile.go: newProgressFile"]}
{"id": "C42", "title": "A failed progress save is reported", "statement": "If writing the progress file fails during RegisterDownload, the call returns an error.", "quantifier": "every state and every I/O failure", "why_tests_cant": "Needs fault injection.", "anchors": ["catalogue/catalogue.go: RegisterDownload"]}
{"id": "C43", "title": "Clean removes exactly the unsharable files", "statement": "Clean keeps every complete entry whose file still has the indexed hash, removes every entry whose file is missing and every complete entry whose contents changed, keeps incomplete downloads whose destination exists, and reports one line per file.", "quantifier": "every reachable state and file-system content", "why_tests_cant": "All combinations of files.", "anchors": ["cli/cliMethodsClean.go: Clean", "catalogue/catalogue.go: Rehash, UnshareFile"]}
{"id": "C44", "title": "Clean never removes a download in progress", "statement": "Clean leaves every incomplete download in the index.", "quantifier": "every reachable state, including a download none of whose chunks has arrived", "why_tests_cant": "Timing of clean relative to the first chunk.", "anchors": ["cli/cliMethodsClean.go: Clean", "flu/serverStartDownload.go: StartDownload"]}
{"id": "C45", "title": "The sender emits the chunk in order", "statement": "Whatever acknowledgements arrive, the packets of an upload are a prefix of one fixed stream: a header carrying hash, size and the first up-to-1000 bytes, then consecutive up-to-1024-byte data packets each tagged with its offset, then empty packets tagged with the chunk size.", "quantifier": "every chunk content, window size and acknowledgement schedule", "why_tests_cant": "All schedules and sizes.", "anchors": ["flu/senderConnection.go: kickstart, kick", "common/chunkReader.go: Read"]}
{"id": "C46", "title": "The sender respects the window", "statement": "If each acknowledgement answers a distinct packet, the number of unacknowledged packets never exceeds the receiver's window capacity (when it is at least 1).", "quantifier": "every acknowledgement schedule and window capacity", "why_tests_cant": "All schedules.", "anchors": ["flu/senderConnection.go: kick, kickstart"]}
{"id": "C47", "title": "The end-of-chunk packet is always sent", "statement": "If every packet sent is acknowledged, the sender eventually sends the empty end-of-chunk packet.", "quantifier": "every chunk, window and scheduler choice between pending acknowledgements and cancellation", "why_tests_cant": "Depends on Go's random select and on the last read filling the window.", "anchors": ["flu/senderConnection.go: kickstart, kick, terminate"]}
{"id": "C48", "title": "The upload worker terminates", "statement": "After sending end-of-chunk packets the worker goroutine exits.", "quantifier": "every chunk and window capacity", "why_tests_cant": "Goroutine blocking depends on how many end-of-chunk reads one acknowledgement triggers.", "anchors": ["flu/senderConnection.go: kick, terminate"]}
{"id": "C49", "title": "What the receiver assembles", "statement": "Fed any sequence (reordered, duplicated, with losses) of genuine packets of one chunk that starts with the header and has no further header, the receiver's buffer equals the chunk at every byte covered by a received packet and zero elsewhere, and it saves this buffer when the first empty packet arrives.", "quantifier": "every chunk, every such packet sequence", "why_tests_cant": "All reorderings, duplications and losses.", "anchors": ["flu/serverStartDownload.go: downloadChunk", "flu/messages/msgDataPacket.go: Split"]}
{"id": "C50", "title": "Lossless transfer delivers the chunk", "statement": "Over a channel that delivers each direction in order without loss, under every interleaving of deliveries, the data saved for a chunk is exactly the sender's chunk and its hash check passes.", "quantifier": "every chunk, window and interleaving", "why_tests_cant": "All interleavings.", "anchors": ["flu/serverStartDownload.go: downloadChunk", "flu/senderConnection.go", "flu/recvConnection.go"]}
{"id": "C51", "title": "Corrupted chunks are never saved", "statement": "A chunk whose bytes do not match the announced SHA-1 is not written to the destination nor marked held.", "quantifier": "every packet sequence a peer or lossy network can produce", "why_tests_cant": "Needs loss or corruption at a particular point.", "anchors": ["flu/serverStartDownload.go: downloadChunk"]}
{"id": "C52", "title": "A peer cannot crash the downloader with data packets", "statement": "No sequence of datagrams received on a download connection makes the daemon panic.", "quantifier": "every datagram sequence", "why_tests_cant": "Adversarial inputs.", "anchors": ["flu/serverStartDownload.go: downloadChunk", "flu/recvConnection.go: DialPeer", "flu/messages/msgDataPacket.go: ParseAsDataPacket, Split"]}
{"id": "C53", "title": "An upload serves the requested chunk", "statement": "The packets sent in response to an OpenConnectionRequest carry the requested chunk's bytes, whatever requests that peer address made before.", "quantifier": "every sequence of requests from the same address and port", "why_tests_cant": "Depends on earlier requests and port reuse.", "anchors": ["flu/serverStartUpload.go: StartUpload", "flu/senderConnection.go"]}
{"id": "C54", "title": "Request IDs are unique in a window", "statement": "Any 65536 consecutive generated request IDs are pairwise distinct and fit in 16 bits; the sequence is periodic with period 65536.", "quantifier": "every number of prior requests", "why_tests_cant": "Needs 65536+ calls.", "anchors": ["flu/server.go: generateRequestID"]}
{"id": "C55", "title": "Responses reach only the matching request", "statement": "A response is delivered to the channel registered under its request ID and message type and to no other; with none registered it is rejected with an error and nothing changes; the type assertion in DiscoverHosts cannot fail.", "quantifier": "every sequence of register/unregister/deliver", "why_tests_cant": "All histories.", "anchors": ["flu/server.go: registerResponseChan, unregisterResponseChan, deliverResponse, HandleMessage", "flu/serverDiscoverHosts.go: DiscoverHosts"]}
{"id": "C56", "title": "Host discovery always returns", "statement": "DiscoverHosts returns after its timeout whatever responses arrive and whenever they arrive.", "quantifier": "every schedule of responses, timeouts and lock acquisitions", "why_tests_cant": "A deadlock needs a precise interleaving.", "anchors": ["flu/server.go: deliverResponse, unregisterResponseChan", "flu/serverDiscoverHosts.go: DiscoverHosts"]}
{"id": "C57", "title": "Discovery replies are truthful", "statement": "The reply to a discovery request echoes the request ID, names this host, and lists exactly the held chunks of the requested file (restricted to the requested ranges if any); for the blank or an unknown hash it lists none.", "quantifier": "every catalogue state and request", "why_tests_cant": "All states and requests.", "anchors": ["flu/serverDiscoverHosts.go: RespondToDiscoverHosts"]}
{"id": "C58", "title": "Fragmented progress is still reported", "statement": "A host holding chunks of a file reports a non-empty list of held chunks to peers, however fragmented its progress is.", "quantifier": "every progress state", "why_tests_cant": "Needs at least 128 separate runs.", "anchors": ["flu/serverDiscoverHosts.go: RespondToDiscoverHosts", "flu/messages/msgDiscoverHosts.go: Serialize"]}
{"id": "C59", "title": "Listing replies are truthful and harmless", "statement": "The reply to a listing request describes exactly the requested file, or every indexed file for the blank hash; a request for an unknown hash does not stop the daemon.", "quantifier": "every catalogue state and request", "why_tests_cant": "Any hash may be requested by any host.", "anchors": ["flu/serverListFilesOnHost.go: RespondToListFilesOnHost"]}
{"id": "C60", "title": "Remote listings fit the requester's buffer", "statement": "ListFilesOnHost of a peer sharing any number of files returns without crashing the requesting daemon.", "quantifier": "every catalogue on the peer", "why_tests_cant": "Needs enough files that the reply exceeds 1024 bytes.", "anchors": ["flu/serverListFilesOnHost.go: ListFilesOnHost", "flu/messages/parse.go: Parse"]}
{"id": "C61", "title": "Every parsed message is handled", "statement": "HandleMessage dispatches every message Parse can return to its handler and never reaches its panicking default case; the datagrams that terminate the daemon are exactly characterised.", "quantifier": "every datagram and catalogue state", "why_tests_cant": "All datagrams.", "anchors": ["flu/server.go: HandleMessage"]}
{"id": "C62", "title": "Download hosts are selected correctly", "statement": "Candidate hosts for a download are exactly the responders that report at least one held chunk and are not this host, in response order.", "quantifier": "every response list", "why_tests_cant": "All response lists.", "anchors": ["flu/serverStartDownload.go: getGoodHosts"]}
{"id": "C63", "title": "A download from an honest host completes with the right file", "statement": "With one honest host holding the whole file and a lossless channel, the download loop terminates after requesting each missing chunk once, in increasing order, and the destination file equals the original.", "quantifier": "every file of at most 65536 chunks and every chunk size", "why_tests_cant": "Termination and correctness over all files and prior progress.", "anchors": ["flu/serverStartDownload.go: StartDownload, downloadChunk", "catalogue/catalogue.go: SaveChunk, MissingChunks, FileComplete"]}
{"id": "C64", "title": "Downloading a file of more than 65536 chunks completes", "statement": "The download loop completes for every file size.", "quantifier": "every file size", "why_tests_cant": "Needs a file above 256 GB.", "anchors": ["flu/serverStartDownload.go: StartDownload", "common/bitset/bitset.go: UnfilledRanges"]}
{"id": "C65", "title": "Unsharing stops a running download gracefully", "statement": "Removing a file from the index while its download runs makes the transfer stop with an error (documented), not crash the daemon.", "quantifier": "every interleaving of unshare/clean with a running download", "why_tests_cant": "Timing dependent.", "anchors": ["catalogue/catalogue.go: UnshareFile, FileComplete", "flu/serverStartDownload.go: StartDownload"]}
{"id": "C66", "title": "IPv4 extraction", "statement": "newIpv4 returns the four address bytes of a 4-byte or IPv4-mapped 16-byte address and an error for IPv6 addresses.", "quantifier": "every address", "why_tests_cant": "All addresses.", "anchors": ["flu/ipv4.go: newIpv4"]}
{"id": "C67", "title": "Displayed integrity percentage", "statement": "The percentage shown for a file is floor(100*held/total), is between 0 and 100, and is 100 exactly when all chunks are held.", "quantifier": "every chunk count and held count", "why_tests_cant": "All counts; integer rounding.", "anchors": ["cli/cliMethodsShare.go: Sprintf"]}
{"id": "C68", "title": "Listing any shared file can be displayed", "statement": "Displaying a listing never crashes, including for empty files.", "quantifier": "every shared file", "why_tests_cant": "Needs a zero-length file.", "anchors": ["cli/cliMethodsShare.go: Sprintf", "catalogue/progressFile.go: newProgressFile"]}
{"id": "C69", "title": "Listing any address is safe", "statement": "The list command with any address that the CLI accepts does not crash the daemon.", "quantifier": "every textual IP address accepted by the CLI", "why_tests_cant": "Needs an IPv6 address.", "anchors": ["cli/cliMethodsList.go: List", "cli/cliClient.go: Run"]}
{"id": "C70", "title": "Index updates go to the opened directory", "statement": "After starting with a catalogue directory, later index updates are written to that directory's index.json.", "quantifier": "every pre-existing index content", "why_tests_cant": "Needs a moved directory.", "anchors": ["catalogue/indexFile.go: Init, UnmarshalJSON, save"]}
{"id": "C71", "title": "Concurrent uploads are independent", "statement": "Two OpenConnectionRequests handled concurrently each get an upload of their own chunk.", "quantifier": "every interleaving of two handlers", "why_tests_cant": "Check-then-act race.", "anchors": ["flu/serverStartUpload.go: StartUpload", "flu/serverContinueUpload.go: ContinueUpload", "flu/server.go: Server"]}
{"id": "C72", "title": "Command-line argument handling", "statement": "Every command line either prints a usage/validation error or sends exactly the request it describes to the daemon, and never crashes.", "quantifier": "every argument list", "why_tests_cant": "All argument lists.", "anchors": ["cli/cliClient.go: Run, validateArgCount"]}
{"id": "C73", "title": "Serving a chunk always returns", "statement": "GetChunkReader (and so every upload request) returns, with an error, when the indexed file can be opened but not read (it has become a directory, or the disk reports read errors).", "quantifier": "every chunk, chunk size and amount of time", "why_tests_cant": "Needs failing reads; non-termination cannot be observed by a test.", "anchors": ["common/chunkReader.go: NewChunkReader", "catalogue/indexRecord.go: getChunkReader", "catalogue/catalogue.go: GetChunkReader"]}
{"id": "C74", "title": "A download works on a fresh installation", "statement": "On a machine where the daemon has just been installed and started, registering a download and saving its first chunk succeeds.", "quantifier": "every state the daemon can reach while the downloads directory does not exist, every registered file, every chunk and its bytes", "why_tests_cant": "tests create their own temporary downloads directory; the failure needs the state left by main.go alone, in combination with every catalogue state", "anchors": ["main.go: startDaemon", "catalogue/catalogue.go: RegisterDownload", "catalogue/catalogue.go: SaveChunk", "catalogue/indexRecord.go: saveChunk"]}
{"id": "C75", "title": "Starting the same download twice is harmless", "statement": "If the user runs get twice for one file, both downloads proceed and end when the file is complete; the daemon keeps running.", "quantifier": "every catalogue state, every incomplete file of at most 65536 chunks, every interleaving of the two loops", "why_tests_cant": "The crash needs the second loop to store the last chunk between two adjacent calls of the first.", "anchors": ["flu/serverStartDownload.go: StartDownload", "catalogue/catalogue.go: FileComplete, MissingChunks"]}
{"id": "C76", "title": "A failing transfer does not end the daemon", "statement": "A download whose peer cannot be reached, sends malformed data, or whose destination cannot be written stops or is retried; the daemon keeps running.", "quantifier": "every reachable catalogue and file system, every step of the loop, every sequence of received datagrams", "why_tests_cant": "Requires deciding for every sequence of bytes and every state of the disk.", "anchors": ["flu/serverStartDownload.go: StartDownload, downloadChunk", "flu/recvConnection.go: DialPeer", "catalogue/catalogue.go: SaveChunk"]}
{"id": "C77", "title": "A download touches only its own file", "statement": "Whatever peers send, a running download changes no file outside the data directory except its destination, no other entry of the catalogue, never loses a chunk it already had, and reports completion only when the catalogue says the file is complete.", "quantifier": "every reachable state, every number of loop iterations, every behaviour of the network", "why_tests_cant": "Adversarial peers and unbounded executions cannot be enumerated.", "anchors": ["flu/serverStartDownload.go: StartDownload, downloadChunk", "catalogue/catalogue.go: SaveChunk", "catalogue/indexRecord.go: saveChunk"]}
{"id": "C78", "title": "Share takes the file the user names", "statement": "share PATH catalogues the file that PATH means in the directory in which the user runs the command, and no other.", "quantifier": "every path, every working directory of the user and of the daemon, every file system and reachable catalogue", "why_tests_cant": "Both processes must run, in different directories; every path form would have to be tried.", "anchors": ["cli/cliMethodsShare.go: Share", "catalogue/catalogue.go: ShareFile", "cli/cliClient.go: Run"]}
{"id": "C79", "title": "A listing says what the catalogue holds", "statement": "Two catalogues with the same printed listing hold the same files in the same order: hashes, sizes, chunk counts, held counts and names can be read off the listing unambiguously.", "quantifier": "every two reachable catalogues and every order in which the entries are listed", "why_tests_cant": "The claim is about all pairs of catalogues, and file names may contain any bytes.", "anchors": ["cli/cliMethodsShare.go: Sprintf", "cli/cliMethodsList.go: List"]}
{"id": "C80", "title": "The daemon flag", "statement": "The program runs as daemon exactly if the last -d flag before the first other argument is true; otherwise the command given after the flags is run.", "quantifier": "every argument list", "why_tests_cant": "Unbounded argument lists and many spellings of one flag.", "anchors": ["main.go: main", "cli/cliClient.go: Run"]}
{"id": "C81", "title": "chims shows the hosts that answered", "statement": "chims HASH broadcasts one request for HASH and prints each host that answered with the chunk ranges it announced; no answer crashes the client.", "quantifier": "every hash, every list of answers, every reachable daemon", "why_tests_cant": "Answers come from arbitrary machines.", "anchors": ["cli/cliMethodsChims.go: Chims", "cli/cliClient.go: Run"]}
{"id": "C82", "title": "A remote listing is shown as announced", "statement": "list ADDRESS sends one request to that address and prints the entries of the answer as they were announced; between two hosts that run this program the listing shown is that of the other host's catalogue.", "quantifier": "every address, every answer, every pair of reachable daemons whose listing fits into a datagram", "why_tests_cant": "Needs two machines and every content of a datagram.", "anchors": ["cli/cliMethodsList.go: List", "flu/serverListFilesOnHost.go: ListFilesOnHost", "flu/server.go: HandleMessage"]}
{"id": "C83", "title": "clean reports what it did", "statement": "The report of clean says for every file of the catalogue whether it was kept or removed and why, and the catalogue afterwards holds exactly the files reported as kept, unchanged.", "quantifier": "every reachable catalogue, every state of the disk", "why_tests_cant": "All combinations of missing, changed, incomplete and complete files, in every order.", "anchors": ["cli/cliMethodsClean.go: Clean", "catalogue/catalogue.go: Rehash, UnshareFile"]}
{"id": "C84", "title": "A download succeeds when hosts have only part of the file", "statement": "When several hosts answer, of which some have only part of the file or never send anything, a download still ends with the right file as long as for each missing chunk one of them has it (they may have different parts); whatever hosts turn up, the downloaded bytes are never wrong and the loop does not get stuck.", "quantifier": "every catalogue state, file, chunk size, number of hosts and every pattern of who has which chunk and of chunks that arrive completely or not at all", "why_tests_cant": "All combinations of hosts and of chunks that arrive are infinitely many.", "anchors": ["flu/serverStartDownload.go: StartDownload, downloadChunk"]}
{"id": "C85", "title": "Each chunk is fetched once", "statement": "During a download each missing chunk is requested from one host only, once it has arrived it is not requested again.", "quantifier": "every download with several hosts", "why_tests_cant": "Depends on how many hosts answer and in which order.", "anchors": ["flu/serverStartDownload.go: StartDownload"]}
{"id": "C86", "title": "Chunks on offer are fetched", "statement": "A missing chunk that some host offers is eventually requested, even when nobody has another missing chunk.", "quantifier": "every set of missing chunks, every set of hosts and the chunks they have", "why_tests_cant": "It is a statement about executions that go on for ever.", "anchors": ["flu/serverStartDownload.go: StartDownload", "catalogue/catalogue.go: MissingChunks"]}
{"id": "C87", "title": "A file shared by one daemon can be downloaded by another", "statement": "If one daemon shares a file, then a second daemon that starts a download of its hash finds it, registers it under the same name, size and chunk size, requests all chunks from it and ends up with the same bytes, whatever else the first daemon does in between.", "quantifier": "every pair of reachable daemons, every file, name and chunk size, every interleaving of sender, receiver and other requests", "why_tests_cant": "Needs two machines, every interleaving of their goroutines and every file.", "anchors": ["flu/server.go: HandleMessage", "flu/serverStartDownload.go: StartDownload, downloadChunk, downloadMetaData", "flu/senderConnection.go: kickstart", "flu/recvConnection.go: DialPeer"]}
{"id": "C88", "title": "Every file that is shared can be downloaded", "statement": "A download of any file that another daemon shares is accepted, empty files included.", "quantifier": "every pair of reachable daemons, every file", "why_tests_cant": "A corner case that exists only between two machines.", "anchors": ["flu/serverDiscoverHosts.go: RespondToDiscoverHosts", "flu/serverStartDownload.go: getGoodHosts"]}
{"id": "C89", "title": "Datagrams of a download are handled in the order they arrive", "statement": "The goroutine that reads a download's socket hands packets to the loop of downloadChunk in arrival order; none is lost, repeated or changed, and the loop gives up only after every datagram that arrived in time.", "quantifier": "every sequence of datagrams, every interleaving of the reading goroutine, the channel and the loop", "why_tests_cant": "The interleavings of the goroutine with the loop are chosen by the scheduler.", "anchors": ["flu/recvConnection.go: DialPeer, Read, Ack", "flu/serverStartDownload.go: downloadChunk"]}
{"id": "C90", "title": "downloadChunk never waits for ever", "statement": "Whatever arrives or does not arrive, once nothing more can happen the loop of downloadChunk has ended.", "quantifier": "every sequence of datagrams, every interleaving", "why_tests_cant": "A statement about all maximal executions.", "anchors": ["flu/recvConnection.go: DialPeer, Read", "flu/serverStartDownload.go: downloadChunk"]}
{"id": "C91", "title": "A finished download releases its goroutine and its socket", "statement": "When downloadChunk has ended and nothing more happens, the goroutine reading the socket has ended and the socket is closed.", "quantifier": "every sequence of datagrams, every interleaving", "why_tests_cant": "A leak that depends on how many datagrams arrive after the one that completes the chunk.", "anchors": ["flu/recvConnection.go: DialPeer", "flu/serverStartDownload.go: downloadChunk"]}
{"id": "C92", "title": "No interleaving makes the daemon claim a chunk it does not have", "statement": "However calls to the catalogue overlap, the progress in memory, the progress file on disk and every answer list only chunks whose bytes are in the file.", "quantifier": "every number of concurrent calls, every interleaving of their accesses, from a new entry or after a restart", "why_tests_cant": "The interleavings of unlocked and locked methods are chosen by the scheduler.", "anchors": ["catalogue/catalogue.go: Contains, Rehash, getIndexRecord, fill, SaveChunk, RegisterDownload, ShareFile", "catalogue/progressFile.go: save, deserializeProgressFile"]}
{"id": "C93", "title": "A saved chunk stays recorded", "statement": "Once SaveChunk has returned, the chunk stays recorded as present while the daemon runs, whatever other calls overlap with it.", "quantifier": "every number of concurrent calls, every interleaving", "why_tests_cant": "A lost update that needs one particular interleaving.", "anchors": ["catalogue/catalogue.go: Contains, Rehash, getIndexRecord, fill, SaveChunk, RegisterDownload, ShareFile", "catalogue/progressFile.go: save, deserializeProgressFile"]}
{"id": "C94", "title": "Asking about a file never kills the daemon", "statement": "No interleaving of Contains or Rehash with the other methods of the catalogue makes the process die.", "quantifier": "every number of concurrent calls, every interleaving", "why_tests_cant": "Needs a read between the truncation and the writing of the progress file.", "anchors": ["catalogue/catalogue.go: Contains, Rehash, getIndexRecord, fill, SaveChunk, RegisterDownload, ShareFile", "catalogue/progressFile.go: save, deserializeProgressFile"]}
{"id": "C95", "title": "A file that is being shared is seen not at all or completely", "statement": "While ShareFile runs, every other method sees the file not at all or with all its chunks, and after it has returned with all of them.", "quantifier": "every number of concurrent calls, every interleaving", "why_tests_cant": "The window is a few instructions wide.", "anchors": ["catalogue/catalogue.go: Contains, Rehash, getIndexRecord, fill, SaveChunk, RegisterDownload, ShareFile", "catalogue/progressFile.go: save, deserializeProgressFile"]}
{"id": "C96", "title": "An index file is loaded completely or refused", "statement": "Whatever index.json contains, opening the catalogue does not die and writes nothing; it succeeds exactly if the file is JSON (RFC 8259) with members of the right types and every hash in it is 40 hexadecimal digits, and then the catalogue has every entry of the file and no other.", "quantifier": "every content of index.json, every file system with the catalogue directory", "why_tests_cant": "Ranges over all file contents, including damaged and hand-edited ones.", "anchors": ["catalogue/indexFile.go: Init, UnmarshalJSON", "catalogue/indexRecord.go: fromJSON", "common/sha1Hash.go: FromStringSafe"]}
{"id": "C97", "title": "A record is filed under its own hash", "statement": "What the catalogue has under a hash is the record of that hash.", "quantifier": "every reachable state, and every content of index.json", "why_tests_cant": "Ranges over all executions and all file contents.", "anchors": ["catalogue/indexFile.go: UnmarshalJSON, AddIndexRecord"]}
{"id": "C98", "title": "No data races in the daemon", "statement": "While the daemon runs, no two of its goroutines use the same shared map or record at the same time with one of them writing it.", "quantifier": "any number of goroutines making any calls of the catalogue and the server, in every interleaving", "why_tests_cant": "Races show up in rare interleavings only; the claim ranges over all of them and any number of goroutines.", "anchors": ["catalogue/catalogue.go: Contains, Rehash, getIndexRecord, fill", "flu/serverStartUpload.go: StartUpload", "flu/serverContinueUpload.go: ContinueUpload", "flu/serverStartDownload.go: StartDownload"]}
{"id": "C99", "title": "Locks do not bring the daemon to a halt", "statement": "The goroutines of the daemon never wait for each other's locks in a circle: every call that takes locks gets them and gives them back.", "quantifier": "any number of goroutines making any calls of the catalogue and the server, in every interleaving", "why_tests_cant": "A deadlock needs a particular interleaving of several goroutines; the claim ranges over all of them.", "anchors": ["catalogue/catalogue.go", "catalogue/progressFile.go", "flu/server.go", "flu/serverStartDownload.go: StartDownload"]}
{"id": "C100", "title": "At most one daemon per machine serves peers", "statement": "However many daemons are started and killed on a machine, at most one of them receives datagrams, and when things have settled at most one is left.", "quantifier": "any number of daemons started and killed at any time, in every interleaving of their goroutines", "why_tests_cant": "Ranges over all interleavings of any number of processes.", "anchors": ["main.go: startDaemon"]}
{"id": "C101", "title": "Starting a second daemon leaves the first one usable", "statement": "A daemon that is up stays up when another one is started, keeps receiving datagrams, and commands still reach it.", "quantifier": "every reachable state with a daemon that is up, and everything that is started or killed afterwards", "why_tests_cant": "Depends on the order in which goroutines of several processes run.", "anchors": ["main.go: startDaemon"]}
{"id": "C102", "title": "A daemon that is started comes up", "statement": "A daemon that is started while none is running gets its port and its socket, whatever earlier daemons left behind.", "quantifier": "every state that earlier daemons can leave, all network interfaces, every interleaving of the new daemon's goroutines", "why_tests_cant": "Ranges over all histories, interleavings and interface lists.", "anchors": ["main.go: startDaemon", "flu/server.go: LocalIP"]}
{"id": "C103", "title": "A lossy network does not corrupt a chunk", "statement": "A chunk that arrives over a network that loses, repeats or reorders datagrams is saved as the peer holds it, or not at all.", "quantifier": "every chunk, window, interleaving, and choice of which datagrams arrive, when and how often", "why_tests_cant": "Ranges over all behaviours of an unreliable network.", "anchors": ["flu/serverStartDownload.go: downloadChunk", "flu/senderConnection.go", "flu/recvConnection.go"]}
{"id": "C104", "title": "A lossy network crashes nobody", "statement": "In a transfer between two honest peers, no loss, repetition or reordering of datagrams makes the receiver or the sender panic.", "quantifier": "every chunk, window, interleaving, and choice of which datagrams arrive, when and how often", "why_tests_cant": "Ranges over all behaviours of an unreliable network.", "anchors": ["flu/serverStartDownload.go: downloadChunk", "flu/senderConnection.go", "flu/recvConnection.go"]}
{"id": "C105", "title": "A download is registered under the hash that was asked for, or not at all", "statement": "StartDownload for an unknown hash registers a file only if the first good host answers with a listing of exactly one file that has this hash. Otherwise the catalogue and the disk stay unchanged and the caller gets an error (or the daemon dies in the parser, C22). Whatever answers, and whichever file operations fail, the entries of all other files and the user's files stay as they were.", "quantifier": "every reachable catalogue, hash, set of host responses, answer datagram (or none), and file-operation fault", "why_tests_cant": "Ranges over every datagram a peer may answer with and every pattern of I/O failures.", "anchors": ["flu/serverStartDownload.go: StartDownload, downloadMetaData", "catalogue/catalogue.go: RegisterDownload"]}
{"id": "C106", "title": "A download that is killed can be resumed", "statement": "If the daemon is killed at any moment of a download from an honest host and started again, and the download is asked for again, it continues: chunks that were saved before are not asked for again, and at the end the file is complete and correct.", "quantifier": "every reachable catalogue, file, progress, point of the loop and of its I/O (including the middle of a write) at which the process is killed, and every later sequence of restarts, kills and network behaviour", "why_tests_cant": "Needs a kill inside each individual write, at each byte, in every state of the download; and the negative part ranges over every later behaviour of the network.", "anchors": ["flu/serverStartDownload.go: StartDownload, downloadChunk", "catalogue/catalogue.go: SaveChunk, FileComplete, MissingChunks", "catalogue/progressFile.go: Save, Load"]}
{"id": "C107", "title": "A finished upload is forgotten", "statement": "After a peer has received and acknowledged a whole chunk, the daemon drops its record of that upload, so that its memory does not grow with the number of chunks served.", "quantifier": "every server state, every sequence of datagrams and worker steps, every number of peers", "why_tests_cant": "A leak shows only over unbounded runs; that an entry is never removed is a statement about all executions.", "anchors": ["flu/server.go: Server", "flu/serverStartUpload.go: StartUpload", "flu/senderConnection.go: terminate"]}
{"id": "C108", "title": "The handler of an acknowledgement returns", "statement": "ContinueUpload hands every acknowledgement to the upload it belongs to and returns; no goroutine is left waiting.", "quantifier": "every upload, window and sequence of acknowledgements", "why_tests_cant": "Blocked goroutines are invisible to callers, and whether one blocks depends on how many acknowledgements arrive after the worker has ended.", "anchors": ["flu/serverContinueUpload.go: ContinueUpload", "flu/senderConnection.go: NewSenderConnection, kickstart"]}
{"id": "C109", "title": "Downloads at the same time do not disturb each other", "statement": "Any number of downloads may run at once, while users share, list and read files and other programs change other files: every download that ends has written exactly its own file, and each needs only a bounded number of steps.", "quantifier": "every number of downloads, every interleaving of their steps with each other, with other catalogue calls and with changes of other files, all contents and answers of hosts", "why_tests_cant": "The number of interleavings is unbounded; a lost update or a wrong file shows only in particular ones.", "anchors": ["flu/serverStartDownload.go: StartDownload", "catalogue/catalogue.go: SaveChunk, MissingChunks, FileComplete"]}
{"id": "C110", "title": "No two files are stored in the same place", "statement": "Two downloads with different hashes never write to the same path, so one cannot damage the other.", "quantifier": "every reachable catalogue, every file name a peer can announce, every call", "why_tests_cant": "Tests register one download; a clash needs two files of the same name from arbitrary peers and shows only when chunks are served later.", "anchors": ["catalogue/catalogue.go: RegisterDownload, SaveChunk", "catalogue/indexRecord.go: saveChunk, getChunkReader"]}
{"id": "C111", "title": "Packets of an upload carry what their offset says", "statement": "Every packet that an upload sends is a header of the requested chunk or carries the chunk's bytes at the packet's offset, however the goroutines that work on the upload interleave.", "quantifier": "every file, chunk, window, every number of requests and acknowledgements from one address and port, every interleaving of single accesses to the fields of the connection", "why_tests_cant": "The damage needs two goroutines between two particular lines of Read and of kickstart; a test sees one of astronomically many interleavings.", "anchors": ["flu/senderConnection.go: kickstart, kick", "common/chunkReader.go: Offset, Read, Reset", "flu/serverStartUpload.go: StartUpload"]}
{"id": "C112", "title": "The window holds at every moment", "statement": "At every moment, also in the middle of handling an acknowledgement, an upload has sent at most the window and one packet per further request more than acknowledgements have come in.", "quantifier": "every file, chunk, positive window, every number of requests and acknowledgements from one address and port, every interleaving of single accesses", "why_tests_cant": "windowSize++ and windowSize-- are each a read and a write; lost updates need particular interleavings that tests do not control.", "anchors": ["flu/senderConnection.go: kickstart, kick (windowSize)"]}
{"id": "C113", "title": "A request that arrives twice is harmless", "statement": "If the datagram that requests a chunk is delivered twice, neither the daemon that has the chunk nor the one that asked for it dies.", "quantifier": "every file, chunk and window, every interleaving of single accesses, every number of acknowledgements", "why_tests_cant": "It needs a duplicated datagram and two goroutines inside SectionReader.Read at the same time.", "anchors": ["flu/senderConnection.go: kickstart, kick", "common/chunkReader.go: Read, Reset", "flu/serverStartDownload.go: downloadChunk"]}
{"id": "C114", "title": "A file that several daemons have in parts can be downloaded from them", "statement": "If several daemons each hold some of the chunks of a file (for example because they are downloading it themselves) and every chunk is held by at least one of them, then another daemon that starts a download of its hash registers it under the name, size and chunk size that the first of them lists, tries the daemons for each chunk and ends up with the whole file, whatever else these daemons do in between.", "quantifier": "every number of daemons in every reachable state, every file and every distribution of its chunks, every interleaving of senders, receiver and other requests", "why_tests_cant": "Needs many machines, every distribution of chunks among them and every interleaving of their goroutines.", "anchors": ["flu/serverStartDownload.go: StartDownload, downloadChunk, downloadMetaData", "flu/serverStartUpload.go", "flu/serverDiscoverHosts.go", "flu/senderConnection.go: kickstart", "catalogue/indexRecord.go: getChunkReader"]}
{"id": "C115", "title": "index.json says exactly what is in the catalogue", "statement": "At every moment the file index.json is JSON text that can be read in one way only, and what it says is the catalogue: an entry for every file that is shared or being downloaded and no other, with the file's path, size, hash and chunk size. No proper beginning of the file is an index file.", "quantifier": "every history of calls and outside changes, every catalogue whose paths are valid UTF-8", "why_tests_cant": "Ranges over all histories, all path names with all characters that need escaping, and all truncations.", "anchors": ["catalogue/indexFile.go: save, MarshalJSON", "catalogue/indexRecord.go: toJSON"]}
{"id": "C116", "title": "A first start that is killed", "statement": "If a daemon that starts on a directory without an index is killed (or the power fails) at any point of the start, then either the start can simply be repeated and gives an empty catalogue, or it had finished and the next start comes up with what it had written, or index.json has been cut off and no later start on that directory succeeds. Every first start has a moment at which a kill has the last effect: the one between creating index.json and writing to it.", "quantifier": "every directory, file system, process id and time, every point of the start including the middle of each call, with and without earlier failing calls", "why_tests_cant": "Needs a kill inside a single system call; the window is microseconds wide.", "anchors": ["catalogue/indexFile.go: Init, save", "catalogue/catalogue.go: Init, NewCat"]}
{"id": "C117", "title": "Print shows the set", "statement": "Print returns the size in decimal and then one line of 64 binary digits for each started group of 64 indices, in which the digit for index 64k+j is the (j+1)th from the right of line k and is 1 exactly if the index is in the set. Two sets with the same Print have the same size and the same members.", "quantifier": "every bitset that can be made through the API", "why_tests_cant": "Ranges over all sets; tests compare a few printed sets by eye.", "anchors": ["common/bitset/bitset.go: Print"]}
{"id": "C118", "title": "A completed download has the content that was asked for", "statement": "When a download of hash H started by `flu get H` reports every chunk complete, the file in the download directory hashes to H.", "quantifier": "for every shared file of at least one byte, every other content of the same length, every reachable state of both daemons and every execution of the download", "why_tests_cant": "A test downloads files that nobody has touched since they were shared. Whether content is ever compared with the hash shows only when the sharer's file has been overwritten, and a test tries one such overwriting, not every content and every schedule.", "anchors": ["catalogue/indexRecord.go: getChunkReader", "flu/serverStartUpload.go: StartChunkUpload", "flu/serverStartDownload.go: StartDownload"]}
{"id": "C119", "title": "The size and the hash that share records belong to the same contents", "statement": "When `flu share FILE` succeeds, the size and the hash it records are those of one and the same content of the file, even if other programs write the file during the call.", "quantifier": "for every file, every sequence of contents that other programs give it at any moments of the call, and every reachable catalogue", "why_tests_cant": "The moment between os.Stat and opening the file for hashing is too short for a test to hit on purpose; the claim is about every moment at which a writer may act.", "anchors": ["catalogue/indexRecord.go: generateIndexRecordForFile", "catalogue/catalogue.go: ShareFile"]}
{"id": "C120", "title": "A command that cannot reach the network is answered with an error", "statement": "When the socket that a command needs cannot be opened (no route to the host asked about, no route for broadcasts), the client prints an error and the daemon keeps running. Commands that need no socket are not affected by the network.", "quantifier": "for every command line, every reachable state of the daemon and every set of addresses that can be reached", "why_tests_cant": "Tests run on a machine that has a network; a failing dial has to be provoked by taking interfaces down, for each command and each point of the command.", "anchors": ["flu/server.go: check", "flu/serverDiscoverHosts.go: DiscoverHosts", "flu/serverListFilesOnHost.go: ListFilesOnHost", "cli/cliMethodsList.go: List", "cli/cliMethodsGet.go: Get", "cli/cliMethodsChims.go: Chims"]}
{"id": "C121", "title": "A download waits while the network is down", "statement": "If the network goes away during a download, the daemon keeps running, and the download goes on when the network is back.", "quantifier": "for every reachable catalogue with an unfinished file, every moment at which the network goes away and everything that arrives", "why_tests_cant": "The network has to go away at a chosen moment of a running download; tests do not take interfaces down.", "anchors": ["flu/serverStartDownload.go: StartDownload", "flu/serverDiscoverHosts.go: DiscoverHosts", "flu/server.go: check"]}
{"id": "C122", "title": "What one machine shares, another gets", "statement": "`flu share FILE` on one machine prints a hash. `flu get HASH` with exactly that text on another machine on the network starts a download that ends with the same bytes in the download directory, and `flu list` there then shows the file as complete.", "quantifier": "for every reachable pair of daemons, every file, every order of events on the two machines", "why_tests_cant": "The repository has no test that runs two daemons; a few example files would not cover every catalogue, size, interleaving and answer.", "anchors": ["cli/cliClient.go: Run", "cli/cliMethodsShare.go: Share", "cli/cliMethodsGet.go: Get", "cli/cliMethodsList.go: List", "flu/serverStartDownload.go: StartDownload", "catalogue/catalogue.go: ShareFile"]}
{"id": "C123", "title": "A download is not disturbed by other use of the daemon, and the file is passed on", "statement": "While a download runs, the daemon may handle datagrams, serve uploads, obey `list`, `share`, `chims` and refused commands, and other programs may change other files. The download still ends after the same number of its own steps with the right file, and the daemon then answers requests for that file exactly like the one it came from, so a third machine can get it from there.", "quantifier": "for every reachable daemon, every file, every interleaving of the download's steps with any number of other events", "why_tests_cant": "The other events can fall between any two steps of the download and in any number; tests exercise none of these interleavings.", "anchors": ["flu/serverStartDownload.go: StartDownload", "flu/server.go: handleMessage", "catalogue/catalogue.go: ShareFile, SaveChunk", "cli/cliMethodsShare.go: Share"]}
{"id": "C124", "title": "What share printed stays in the list", "statement": "Whatever text `flu share FILE` prints, every later `flu list` prints among the other entries, until `flu clean` is typed after the file was changed or removed: other commands, datagrams, uploads, downloads of other files, changes of files and restarts of the daemon do not remove or change the entry. No command but clean removes or changes an entry.", "quantifier": "for every reachable daemon, every file and every finite sequence of commands, datagrams, transfer steps, file changes and restarts", "why_tests_cant": "The sequences of events are unbounded and the property must hold after each of them; tests run a few calls on one catalogue.", "anchors": ["cli/cliClient.go: Run", "cli/cliMethodsShare.go: Share", "cli/cliMethodsList.go: List", "cli/cliMethodsClean.go: Clean", "catalogue/catalogue.go: ShareFile, ListFiles, Clean", "main.go: main"]}
{"id": "C125", "title": "A start without an index file succeeds, or fails without a trace", "statement": "If the catalogue directory contains no index file, starting the daemon succeeds exactly if no regular file stands in the place of the directory or of a directory it lies in. It then creates the missing directories and the index file, changes nothing else on the disk, lists no files, and every later start finds the same catalogue. Otherwise the start reports an error and the disk is unchanged.", "quantifier": "for every disk without that index file, every working directory and every catalogue directory (with a name that is valid UTF-8)", "why_tests_cant": "Tests start in one prepared temporary directory; the disks, depths of missing directories and files in the way are unbounded.", "anchors": ["catalogue/indexFile.go: Init, Load, Save", "catalogue/catalogue.go: NewCat, Init"]}
{"id": "C126", "title": "A kill during clean loses nothing that clean was to keep", "statement": "If the daemon is killed at any moment of `flu clean`, it can be started again, all files that clean was to keep are still listed with the chunks they had, and no file of the user has changed.", "quantifier": "for every reachable daemon, every disk, every order of the entries and every moment of the kill, also inside a write", "why_tests_cant": "A kill can fall between any two system calls or inside any write; tests run Clean to its end.", "anchors": ["cli/cliMethodsClean.go: Clean", "catalogue/catalogue.go: UnshareFile, Rehash, ListFiles", "catalogue/indexFile.go: RemoveIndexRecord, save"]}
{"id": "C127", "title": "Clean removes an entry only if its file is gone or changed, whatever calls fail", "statement": "If opening or reading a file fails for another reason than its absence (too many open files, for example), `flu clean` does not remove the entry. Whatever calls fail, clean changes no file of the user and adds or changes no entry.", "quantifier": "for every reachable daemon, every disk and every set of failing calls", "why_tests_cant": "Failures of system calls are not injected by the tests, and any subset of the calls can fail.", "anchors": ["cli/cliMethodsClean.go: Clean", "catalogue/catalogue.go: Rehash, UnshareFile", "common/utils.go: HashFile"]}
{"id": "C128", "title": "Which commands end the daemon", "statement": "A command typed at the client (superfluous arguments of `list` and `chims`, which are ignored, left aside) ends the daemon in exactly these cases. `list` with an address that is not an IPv4 address. `list` of a host whose answer crashes the parser. `get` on a machine that has no IPv4 address besides loopback. `get` of a file that is not in the catalogue, when another host has part of it and that host's answer crashes the parser or describes the file with sizes that no bitset can have. Any command for which a socket cannot be opened. In every other case, including all of `share`, `clean`, `list` of the own files and every refused command line, the daemon keeps running.", "quantifier": "for every command line, every reachable daemon, every network, every answer of other hosts", "why_tests_cant": "No test types commands against a daemon; command lines, catalogues and answers are unbounded, and the claim is that nothing else ends the daemon.", "anchors": ["cli/cliMethodsList.go: List", "cli/cliMethodsGet.go: Get", "cli/cliMethodsShare.go: Share", "cli/cliMethodsClean.go: Clean", "cli/cliMethodsChims.go: Chims", "flu/serverStartDownload.go: StartDownload", "catalogue/catalogue.go: RegisterDownload"]}
{"id": "C129", "title": "Which commands crash the client", "statement": "While a daemon listens, a command never makes the client wait forever, and the client crashes in exactly these cases. `get` without a hash. `share` of an empty file that is not in the catalogue yet. `list` while the catalogue has an entry without chunks. `list` of a host whose answer has an entry without chunks. `chims` when a host reports an odd number of chunk bounds. In every other case it prints the answer, an error or an explanation.", "quantifier": "for every command line, every reachable daemon, every disk, every network, every answer of other hosts", "why_tests_cant": "No test runs the client; the claim is that nothing else crashes it, over unbounded command lines, catalogues and answers.", "anchors": ["cli/cliClient.go: Run", "cli/cliMethodsShare.go: Sprintf", "cli/cliMethodsList.go: Sprintf, List", "cli/cliMethodsChims.go: Sprintf, Chims", "cli/cliMethodsClean.go: Clean", "cli/cliMethodsGet.go: Get"]}
{"id": "C130", "title": "Which files a command may change", "statement": "While the daemon serves a command, whichever system calls fail and whenever the daemon is killed, no file outside the directory of the catalogue is changed, created or removed. `list` and `chims` change nothing at all. `share` changes at most the index and the progress file of the shared content, and nothing when the file cannot be read. `get` changes at most the index and the progress file of the hash, and nothing unless the host that is asked describes a file with that hash. `clean` changes only files in the directory of the catalogue, provided the paths are valid UTF-8.", "quantifier": "for every request, every reachable daemon, every disk, every network, every answer of other hosts, every choice of failing system calls and every moment of a kill", "why_tests_cant": "No test makes system calls fail or kills the daemon; the claim is about every other path on the disk.", "anchors": ["cli/cliMethodsShare.go: Share", "cli/cliMethodsClean.go: Clean", "cli/cliMethodsList.go: List", "cli/cliMethodsGet.go: Get", "cli/cliMethodsChims.go: Chims", "catalogue/catalogue.go: ShareFile, RegisterDownload, UnshareFile, ListFiles, Contains", "catalogue/indexFile.go: save", "catalogue/progressFile.go: save"]}
