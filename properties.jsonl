{"id": "C01", "title": "Encode emits canonical bencoding, and only for encodable values", "statement": "bencode.Encode(v) returns a nil error exactly when v is built only from strings, int/int8/int16/int32/int64, Dict and List and contains no empty string (as value or as key); the bytes it then returns are the canonical bencoding of v (decimal without leading zeros, dictionary keys strictly increasing bytewise).", "quantifier": "all Go values made of strings, the five signed int types, nested Dict/List (any map iteration order) and unsupported types", "why_tests_cant": "nesting depth, key sets and map iteration orders are unbounded", "anchors": ["src/bencode/encode.go: Encode, encode, encodeString, encodeInt, encodeDict, encodeList"]}
{"id": "C02", "title": "Decode inverts Encode", "statement": "If bencode.Encode(v) succeeds and v contains no int64 equal to -2^63, then bencode.Decode of those bytes (followed by any trailing bytes) returns v with every integer as int64 and every Dict having exactly the same bindings. For -2^63 the round trip fails: Encode produces text that Decode rejects.", "quantifier": "all encodable values, all trailing byte strings, all spare capacities of the input slice", "why_tests_cant": "unbounded value space; the failing integer is one in 2^64", "anchors": ["src/bencode/encode.go: Encode", "src/bencode/decode.go: Decode, decodeInt"]}
{"id": "C03", "title": "Decode is total", "statement": "bencode.Decode terminates on every byte slice and returns either a value or an error; it never lets a panic escape.", "quantifier": "all byte slices (contents, length, spare capacity)", "why_tests_cant": "hostile torrent files / tracker bodies are arbitrary byte strings", "anchors": ["src/bencode/decode.go: Decode, decodeDict, decodeList, decodeString, decodeInt"]}
{"id": "C04", "title": "Decode accepts every canonical document and re-encoding reproduces it", "statement": "For every canonical bencoding b of a value v (empty strings allowed, integers in (-2^63, 2^63), string lengths below 2^63), Decode(b ++ junk) returns exactly v; and if v has no empty string, Encode(v) gives back exactly b.", "quantifier": "all canonical documents and all trailing bytes", "why_tests_cant": "unbounded grammar", "anchors": ["src/bencode/decode.go: Decode", "src/bencode/encode.go: Encode"]}
{"id": "C05", "title": "Encode is deterministic and injective", "statement": "Encode gives the same result for the same Dict contents whatever the map iteration order, and two encodable values with the same encoding have the same contents (int width aside; including -2^63).", "quantifier": "all pairs of encodable values and all iteration orders at every level", "why_tests_cant": "Go randomises map iteration; tests see one order", "anchors": ["src/bencode/encode.go: encodeDict"]}
{"id": "C06", "title": "Decode depends only on the bytes of its argument", "statement": "When Decode returns a Dict, List or int64, or an error for input starting with d, l or i, the outcome is the same whatever bytes sit in the argument's spare capacity. A top-level string is the exception: if its declared length exceeds the remaining input but fits in the slice's capacity, Decode succeeds and returns bytes beyond len(data).", "quantifier": "all byte slices and all spare capacities", "why_tests_cant": "tests build slices with len == cap", "anchors": ["src/bencode/decode.go: Decode, decodeString (line 153 slices up to cap)"]}
{"id": "C07", "title": "Typed Dict getters", "statement": "GetString/GetInt/GetDict/GetList return the bound value exactly when the key is bound to a value of that exact type, a missing-key error exactly when the key is unbound and a bad-type error otherwise; in a decoded document the binding of a repeated key is the last one. GetUint returns the int64 reduced modulo 2^64, so negative values become huge.", "quantifier": "all dictionaries, keys and values", "why_tests_cant": "unbounded dictionaries", "anchors": ["src/bencode/dict.go: get, GetString, GetInt, GetUint, GetDict, GetList", "src/bencode/decode.go: decodeDict"]}
{"id": "C08", "title": "Infohash is the SHA-1 of the info value's raw bytes", "statement": "For a torrent file that is a canonical bencoding with no empty string inside the info dictionary, FromTorrentFile's Infohash is SHA1 of the exact byte range of the info value. If the info dictionary contains an empty string, the encoder error is ignored and the hash is that of a truncated prefix: any two single-file torrents without a name and with the same length get the same infohash whatever their piece hashes, for every hash function.", "quantifier": "all canonical torrent files, all 20-byte hash functions", "why_tests_cant": "needs the encoder/decoder inverse for all documents", "anchors": ["src/torrent/torrent.go: FromTorrentFile (line 100 drops the error)", "src/bencode/encode.go: Encode"]}
{"id": "C09", "title": "Infohash recomputed from parsed metadata", "statement": "Re-creating a torrent from the parsed Info (NewTorrent(tor.Info(), ...)) gives the infohash of the original file when the info dictionary has exactly the keys name, piece length, pieces, private=0 and either length or a files list with a number of entries other than one, each with exactly length and path (path components without '/'). It differs (as hash input) when private is absent or when the files list has one entry.", "quantifier": "all torrent files in that class", "why_tests_cant": "file lists and paths are unbounded", "anchors": ["src/torrent/torrent.go: NewTorrent", "src/torrent/info/info.go: Bencode, FromDict", "src/torrent/filesd/entrybase.go: Bencode, FromBenList"]}
{"id": "C10", "title": "Bitfield behaves as a vector of booleans with a correct count", "statement": "Starting from NewBitfield(n), n >= 0, after any sequence of Set(i, v) with 0 <= i < n: Get(i) is the last value set at i (false if never set), Nset is the number of true bits, Complete() holds exactly when all n bits are true, and no call panics. Indices in [n, 8*Nbytes) do not panic either but corrupt Nset. NewBitfield panics for n = -8 and n <= -16 and gives at most one byte for the other negative n.", "quantifier": "all sizes and all operation sequences", "why_tests_cant": "unbounded histories", "anchors": ["src/bf/bitfield.go: NewBitfield, Get, Set, Complete, Nset"]}
{"id": "C11", "title": "FromBytes counts exactly the first nbits bits", "statement": "FromBytes(b, n) succeeds exactly when b has a 5-byte header and at least one more byte and n needs exactly that many bytes; the result has Get(i) = bit i (most significant first) of the bytes after the header and Nset = number of set bits among the first n, ignoring spare bits.", "quantifier": "all byte slices and all nbits", "why_tests_cant": "2^(8k) contents for each length", "anchors": ["src/bf/bitfield.go: FromBytes, calcNset"]}
{"id": "C12", "title": "SetNbits recounts for the new size", "statement": "SetNbits(n) panics exactly when n is outside [8*(nbytes-1), 8*nbytes]; for n > 8*(nbytes-1) it leaves the bits alone and makes Nset the count among the first n. For n = 8*(nbytes-1) it counts the extra byte too, so Nset can exceed n.", "quantifier": "all bitfields with at least one byte and all n", "why_tests_cant": "unbounded sizes", "anchors": ["src/bf/bitfield.go: SetNbits, calcNset"]}
{"id": "C13", "title": "Fill completes the bitfield", "statement": "After Fill(), every Get(i) for 0 <= i < nbits is true, Nset = nbits and Complete() holds; a later Set keeps the count exact. Data5 is always five header bytes followed by the data: zero bytes before the first Fill, 255 ever after (only Encode rewrites them).", "quantifier": "all bitfields and subsequent in-range operation sequences", "why_tests_cant": "unbounded sizes and histories", "anchors": ["src/bf/bitfield.go: Fill, Data5"]}
{"id": "C14", "title": "Wire messages survive encode/decode", "statement": "For keep-alive, choke, unchoke, interested, not-interested, have and (non-empty) bitfield messages m, Decode(m.Encode() ++ rest) returns a message with the same type, length and payload and Read = number of bytes of the encoding, whatever follows (total below 2^32 bytes). The encodings are exactly the BEP 3 frames. Conversely, whenever Decode returns a message without error, the input starts with that message's BEP 3 frame and Read is its length. Length() and Mtype() of every message, requests and pieces included, are the length of its frame after the first four bytes and its type byte.", "quantifier": "all payloads, all trailing bytes and all inputs shorter than 2^32 bytes", "why_tests_cant": "2^32 indices, unbounded bitfields", "anchors": ["src/p2p/message.go: Decode, fillBase", "src/p2p/have.go", "src/p2p/bitfield.go", "src/p2p/no_payload.go", "src/p2p/keepalive.go"]}
{"id": "C15", "title": "DecodeAll recovers a stream of whole messages", "statement": "For any list of such messages and of BEP 3 request frames (total below 2^32 bytes), DecodeAll of the concatenation of their frames returns exactly those messages in order and Read = total length; if a cut-off message follows, the result is the same and the cut-off part is not counted in Read.", "quantifier": "all finite message sequences", "why_tests_cant": "unbounded sequences", "anchors": ["src/p2p/message.go: DecodeAll"]}
{"id": "C16", "title": "Which frames crash Decode", "statement": "For inputs shorter than 2^32 bytes, p2p.Decode panics exactly on (a) a complete frame of type 7 (piece) and (b) a frame of type > 3 whose declared length is at least 2^32-4; on everything else it returns a message or an error. So one well-formed piece message from a peer crashes the client.", "quantifier": "all byte slices shorter than 2^32", "why_tests_cant": "the crashing inputs are specific 32-bit lengths and nil-interface paths", "anchors": ["src/p2p/message.go: Decode lines 168-174, 209-211", "src/p2p/piece.go: DecodeMsgPiece"]}
{"id": "C17", "title": "When DecodeAll terminates", "statement": "On input where no decoding position holds a complete frame with declared length 1 and type 5 (empty bitfield) or a crashing frame, DecodeAll terminates within len(data) steps. At an empty bitfield frame it makes no progress and loops forever.", "quantifier": "all byte slices", "why_tests_cant": "non-termination is not observable by a test", "anchors": ["src/p2p/message.go: DecodeAll, Decode lines 201-205"]}
{"id": "C18", "title": "DecodeAll never over-reports", "statement": "When DecodeAll terminates, Read is the sum of the encoded sizes of the returned messages and is at most len(data).", "quantifier": "all byte slices", "why_tests_cant": "unbounded inputs", "anchors": ["src/p2p/message.go: DecodeAll"]}
{"id": "C19", "title": "Request messages on the wire", "statement": "MsgRequest.Encode should produce the 17-byte BEP 3 frame. It does not: it returns 5 bytes, the big-endian request length followed by 6, so index and begin are lost and two different requests with equal length have identical encodings; decoding a BEP 3 request frame does recover index, begin and length.", "quantifier": "all index/begin/length triples", "why_tests_cant": "a counterexample plus a full characterisation over 2^96 requests", "anchors": ["src/p2p/request.go: Encode, DecodeMsgRequest"]}
{"id": "C20", "title": "Piece messages on the wire", "statement": "MsgPiece.Encode yields exactly the BEP 3 frame (length 9+|block|, type 7, index, begin, block) for blocks shorter than 2^32-9. DecodeMsgPiece(payload, length) accepts exactly payloads whose length equals the length argument and is at least 8 and refuses others with an error (DecodeMsgHave and DecodeMsgRequest likewise accept exactly 4 and 12 bytes), and p2p.Decode passes a length one larger than the payload, so it accepts no piece frame at all.", "quantifier": "all blocks, indices, offsets, payloads", "why_tests_cant": "unbounded blocks", "anchors": ["src/p2p/piece.go: Encode, DecodeMsgPiece", "src/p2p/message.go: Decode"]}
{"id": "C21", "title": "Decoding never uses stale receive-buffer bytes", "statement": "For inputs shorter than 2^32 bytes, p2p.Decode and DecodeAll give the same result whatever bytes lie beyond len(data) in the receive buffer's capacity.", "quantifier": "all visible and stale buffer contents", "why_tests_cant": "depends on every earlier packet", "anchors": ["src/p2p/message.go: Decode", "src/p2p/bitfield.go: DecodeMsgBitfield"]}
{"id": "C22", "title": "Messages split across reads", "statement": "Handling a byte stream read by read equals handling it whole when every read ends at a message boundary; in general it does not: a message split over two reads is dropped from the first and the second half is parsed as a new message, which can even make the client loop forever.", "quantifier": "all streams and all ways of cutting them", "why_tests_cant": "every cut point of every stream", "anchors": ["src/swarm/msghandler.go: handleMessage", "src/swarm/peerhandler.go: recvLoop", "src/p2p/message.go: DecodeAll"]}
{"id": "C23", "title": "ValidHandshake accepts exactly the BitTorrent handshakes for the torrent", "statement": "ValidHandshake(hs, ih) is true exactly when hs is 68 bytes: 19, 'BitTorrent protocol', any 8 bytes, ih, any 20 bytes; so it is always false when ih is not 20 bytes long, and it never panics.", "quantifier": "all byte strings hs and ih", "why_tests_cant": "2^544 handshakes", "anchors": ["src/swarm/handshake.go: ValidHandshake"]}
{"id": "C24", "title": "MakeHandshake round trip", "statement": "For 20-byte infohash and id, MakeHandshake gives 68 bytes whose fields are protocol string, zero reserved bytes, the infohash and the id; it is valid for infohash ih' exactly when ih' = ih.", "quantifier": "all 20-byte infohashes and ids", "why_tests_cant": "2^320 inputs", "anchors": ["src/swarm/handshake.go: MakeHandshake, Pstr, Reserved, Infohash, Id"]}
{"id": "C25", "title": "Incoming handshake under short reads", "statement": "FromIncoming accepts a connection exactly when the first Read returned at least one byte and the buffer, zero-padded to 68 bytes, is valid; therefore it accepts as soon as the first 48 bytes are right, with the peer id zero-padded when the read was short, and rejects a correct handshake delivered in a first read shorter than 48 bytes unless the missing infohash bytes are zero.", "quantifier": "all byte streams and all first-read lengths", "why_tests_cant": "TCP may split anywhere", "anchors": ["src/swarm/peerhandler.go: FromIncoming lines 76-93"]}
{"id": "C26", "title": "MakeFileList computes each file's piece span", "statement": "For piece length P >= 1 and non-negative file lengths (no int64 overflow), the entry of a file of length L >= 1 starting at global byte S has start piece/offset S div P, S mod P and end piece/offset (S+L-1) div P, (S+L-1) mod P; an empty file does not shift the files after it.", "quantifier": "all file lists and piece lengths", "why_tests_cant": "unbounded lists with boundary conditions at every multiple of P", "anchors": ["src/torrent/filesd/flist.go: MakeFileList"]}
{"id": "C27", "title": "PieceInfo gives the file range of a piece", "statement": "For such an entry and piece index in its span, PieceInfo returns SeekAmnt = max(0, index*P - S) and ReadAmnt = size of the intersection of the file with the piece; otherwise it returns an error.", "quantifier": "all files, offsets and piece indices", "why_tests_cant": "boundary conditions at every multiple of P", "anchors": ["src/torrent/filesd/entry.go: PieceInfo"]}
{"id": "C28", "title": "PieceLookup partitions the torrent", "statement": "For a TorInfo created with the right number of hashes, PieceLookup(i) succeeds exactly for 0 <= i < NumPieces and lists, in order, in-bounds file ranges whose concatenated contents are exactly bytes [i*P, min((i+1)*P, total)) of the concatenated files.", "quantifier": "all file lists, piece lengths, piece indices and file contents", "why_tests_cant": "unbounded lists, sizes and contents", "anchors": ["src/torrent/info/piecemap.go: MakePieceMap", "src/torrent/info/info.go: NewTorInfo, PieceLookup"]}
{"id": "C29", "title": "NewTorInfo and the number of hashes", "statement": "With P >= 1 and non-negative lengths (no overflow): if the hash string is not a multiple of 20 bytes NewTorInfo errors; with fewer hashes than the ceil(total/P) pieces needed it never succeeds: it errors if n*P is a file boundary and panics otherwise; with at least as many it succeeds. With the exact number (and total > 0), LastPieceLen is the length of the last piece, in [1, P]; with surplus hashes it is wrong (0 or negative) and the surplus pieces cover no bytes. P = 0 with at least one file panics.", "quantifier": "all file lists, piece lengths and hash strings", "why_tests_cant": "unbounded metadata from untrusted torrent files", "anchors": ["src/torrent/info/info.go: NewTorInfo", "src/torrent/info/piecemap.go: MakePieceMap line 39"]}
{"id": "C30", "title": "GetFiles returns the files of a piece", "statement": "For a list built by MakeFileList, GetFiles(p) is exactly the sublist, in order, of entries whose span contains p; every file with at least one byte in piece p is included and every returned non-empty file has a byte in it.", "quantifier": "all file lists and piece indices", "why_tests_cant": "unbounded lists, empty files", "anchors": ["src/torrent/filesd/flist.go: GetFiles"]}
{"id": "C31", "title": "CalcNumPieces is the ceiling of total/P", "statement": "For P >= 1 and non-negative lengths without overflow, n = CalcNumPieces satisfies (n-1)*P < total <= n*P when total > 0 and n = 0 when total = 0.", "quantifier": "all file lists", "why_tests_cant": "unbounded", "anchors": ["src/torrent/filesd/entrybase.go: CalcNumPieces"]}
{"id": "C32", "title": "Metadata round trip through bencode", "statement": "FromDict(Bencode(ti)) gives back a TorInfo with the same name, piece length, hashes, sizes, torrent paths and piece locations, when a single-file torrent names its file after the torrent; the same holds through Encode and Decode when Encode succeeds. Without the naming condition it fails.", "quantifier": "all TorInfo values built by the constructors", "why_tests_cant": "unbounded file lists", "anchors": ["src/torrent/info/info.go: FromDict, Bencode", "src/torrent/filesd/entrybase.go: FromBenList, Bencode"]}
{"id": "C33", "title": "FromDict on hostile dictionaries", "statement": "FromDict terminates on every dictionary. FromBenList panics exactly when it reaches an entry whose path list is empty, and FromDict then panics too; it also panics on piece length 0 when there is a file. It accepts negative file lengths.", "quantifier": "existence statements over info dictionaries, plus the exact set of panicking path lists", "why_tests_cant": "untrusted input", "anchors": ["src/torrent/filesd/entrybase.go: FromBenList line 87", "src/torrent/info/info.go: FromDict"]}
{"id": "C34", "title": "Files stay inside the download directory", "statement": "If the torrent name and every path component are non-empty, contain no '/' and are neither '.' nor '..', every local path produced by FromDict lies strictly below the working directory. Without that hypothesis it fails: '..' components escape the working directory.", "quantifier": "all working directories, names and path lists", "why_tests_cant": "unbounded path shapes", "anchors": ["src/torrent/info/info.go: FromDict lines 217-243", "src/torrent/filesd/entrybase.go: FromBenList"]}
{"id": "C35", "title": "OCAT leaves a file of exactly the requested size", "statement": "When no I/O error occurs, after OCAT(path, L), L >= 0, the file at path has length L, its first min(old, L) bytes are the old ones and the rest are zero (a missing file becomes L zeros); no other file changes. A negative length panics when the file is missing and is refused with an error, nothing changed, when it is there. Any failure after a successful open keeps the first min(old, L) bytes, but a failing first open of an existing file empties it.", "quantifier": "all file systems, paths and lengths", "why_tests_cant": "unbounded sizes; the 1 MiB write loop boundary", "anchors": ["src/utils/futils.go: OCAT, AppendZeros, CreateZeroFilledFile", "src/torrent/fileio/fileio.go: OCAT, OCATAll"]}
{"id": "C36", "title": "WritePiece refuses data with the wrong hash", "statement": "If SHA1(data) differs from the torrent's hash for the index, or the index is out of range, WritePiece returns an error and no file changes.", "quantifier": "all torrents, indices and data", "why_tests_cant": "unbounded data", "anchors": ["src/torrent/fileio/fileio.go: WritePiece", "src/torrent/info/info.go: PieceHash, PieceLookup"]}
{"id": "C37", "title": "WritePiece then ReadPiece", "statement": "With all files opened at distinct paths, WritePiece(i, d) with matching hash and |d| = piece length returns |d|; then ReadPiece(i) returns exactly d, every other piece reads as before, and the concatenated files equal the old ones with piece i replaced.", "quantifier": "all torrents, file contents, pieces and data, and by iteration all sequences of writes", "why_tests_cant": "unbounded torrents and histories", "anchors": ["src/torrent/fileio/fileio.go: WritePiece, ReadPiece"]}
{"id": "C38", "title": "A crash or failure inside WritePiece damages only that piece", "statement": "If any of the file writes of WritePiece(i, d) stops after an arbitrary number of bytes (error or crash), every byte of every file outside piece i keeps its value, and every byte inside is either the old or the new one.", "quantifier": "all torrents, data, failure points", "why_tests_cant": "every crash point", "anchors": ["src/torrent/fileio/fileio.go: WritePiece"]}
{"id": "C39", "title": "Validate sets exactly the verified pieces", "statement": "When the files are open at full size, Swarm.Validate succeeds and sets bit i exactly when SHA1 of piece i's bytes equals the torrent's hash i; Complete() then holds exactly when every piece verifies. If a read fails it returns an error; it never returns normally with a wrong bit, and it changes no file.", "quantifier": "all torrents, file contents and fault oracles", "why_tests_cant": "unbounded contents", "anchors": ["src/swarm/swarm.go: Validate", "src/torrent/fileio/fileio.go: ReadPiece", "src/bf/bitfield.go: Set, Complete"]}
{"id": "C40", "title": "A served block is the requested range of the torrent", "statement": "When a request (index, begin, length) lies inside the piece and we have it, exactly one piece message is sent, carrying bytes [index*P+begin, +length) of the torrent; if we lack the piece nothing is sent. A request reaching past the end of a short last piece is answered with stale buffer bytes; a request past the piece length, or with an out-of-range index while incomplete, panics.", "quantifier": "all torrents, contents, requests and buffer histories", "why_tests_cant": "untrusted 96-bit requests times all buffer states", "anchors": ["src/swarm/msghandler.go: handleRequest"]}
{"id": "C41", "title": "CreateTorInfo hashes the concatenation whatever the read sizes", "statement": "For 1 <= P <= 5 MiB, CreateTorInfo terminates and its hashes are the SHA1s of the consecutive P-byte pieces of the concatenated files (last one possibly shorter), however the OS splits the reads, and the resulting TorInfo is accepted with the exact number of pieces. If reads fail, any torrent that is still returned is the same one; a failing first read gives an error and a missing file never gives a torrent. For P > 5 MiB it loops forever on any existing file. P = 0 panics; for -5 MiB <= P < 0 it panics if the files have a byte and makes a torrent of no pieces if they have none; below that it loops forever like a large one.", "quantifier": "all file contents, piece lengths and read-size schedules", "why_tests_cant": "every schedule of short reads", "anchors": ["src/torrent/info/info.go: CreateTorInfo", "src/utils/utils.go: SegmentData"]}
{"id": "C42", "title": "Create, then validate, is complete", "statement": "A torrent created from files on disk, whose local paths are distinct, validates as Complete against those same files.", "quantifier": "all file contents and piece lengths up to 5 MiB", "why_tests_cant": "composition over all inputs", "anchors": ["src/torrent/info/info.go: CreateTorInfo", "src/swarm/swarm.go: Validate", "src/torrent/fileio/fileio.go: OCATAll, ReadPiece"]}
{"id": "C43", "title": "Availability bookkeeping", "statement": "After any sequence of Register/RegisterBF/Unregister/NextPiece in which no piece ever has 64 distinct peers, every piece sits in exactly one availability bucket, the one of its number of registered peers, and no call panics. An index that is not a piece of the torrent, listed or as a set bit, panics in the middle of the call.", "quantifier": "all operation histories", "why_tests_cant": "unbounded histories over a doubly linked list heap", "anchors": ["src/swarm/piecetracker.go: NewPeerPieceTracker, Register, RegisterBF, register, Unregister", "src/utils/ds/linklist.go", "src/utils/ds/set.go"]}
{"id": "C44", "title": "NextPiece is rarest first", "statement": "After any such history NextPiece(w) returns a piece we lack, that w is registered for, with the smallest number of registered peers among those; it returns (0,false) exactly when there is none.", "quantifier": "all operation histories and peers", "why_tests_cant": "unbounded histories", "anchors": ["src/swarm/piecetracker.go: NextPiece"]}
{"id": "C45", "title": "NextPiece exclusivity", "statement": "The comment promises that a returned index is marked active and no other peer may acquire it. It is not: the flag is set on a copy, and repeating NextPiece, from the same or another peer, returns the same piece again.", "quantifier": "all histories (every successful call can be repeated)", "why_tests_cant": "shown for every reachable state", "anchors": ["src/swarm/piecetracker.go: NextPiece lines 158-166"]}
{"id": "C46", "title": "The 64th peer for one piece crashes the tracker", "statement": "In any reachable state, registering a new peer for a piece that has n peers panics exactly when n = 63 (the bucket array ends at 63), instead of staying in the largest bucket as documented.", "quantifier": "all reachable states", "why_tests_cant": "needs 64 peers and an exact boundary", "anchors": ["src/swarm/piecetracker.go: register lines 106-110, numBuckets"]}
{"id": "C47", "title": "Unregister forgets the peer completely", "statement": "After Unregister(w) no piece lists w, the other peers' registrations are unchanged, and NextPiece(w) returns (0,false).", "quantifier": "all histories", "why_tests_cant": "unbounded histories", "anchors": ["src/swarm/piecetracker.go: Unregister"]}
{"id": "C48", "title": "A peer's bitfield message registers exactly the pieces it announced", "statement": "A bitfield sent by a gotor peer with the same number of pieces is accepted, and registers that peer for exactly the pieces whose bit is set; a bitfield with a different byte count is rejected with an error and changes nothing; handling never panics on the bit count.", "quantifier": "all bitfields and piece counts", "why_tests_cant": "2^n bitfields for every n", "anchors": ["src/swarm/msghandler.go: handleBitfield", "src/p2p/bitfield.go", "src/bf/bitfield.go: SetNbits", "src/swarm/piecetracker.go: RegisterBF"]}
{"id": "C49", "title": "Splitting a piece into requests", "statement": "createReqMessages should cover [0, piece length) with requests of at most 16384 bytes. It never returns for a non-empty piece: the offset is not advanced, so it appends the same request forever.", "quantifier": "all torrents and piece indices with non-zero length", "why_tests_cant": "non-termination", "anchors": ["src/swarm/peerhandler.go: createReqMessages"]}
{"id": "C50", "title": "Write-rate limit per tick window", "statement": "With a limit R > 0 set before the writers start, in every interleaving the bytes admitted between two ticks total less than R plus the size of the largest single write (every admission happens while the bytes counted since the last reset are below R). The limit is on admission only: the bytes that actually reach the writer within one window are unbounded, because a writer may be delayed between being admitted and writing.", "quantifier": "all numbers of goroutines, write sizes and schedules", "why_tests_cant": "all interleavings", "anchors": ["src/io/ratelimit.go: Write, Read, Run"]}
{"id": "C51", "title": "The rate limiter can wedge", "statement": "If the limit is 0, or is switched to NoLimit between a writer's first check and its lock acquisition, the writer spins forever holding the lock and every later SetWriteRate blocks forever, in every continuation of the schedule. As long as every limit ever set is positive, every call can still finish from every reachable state. Where ticks no longer come (Run has ended or was never started), a call that finds the budget spent waits forever holding the lock and nothing more is admitted.", "quantifier": "all continuations of the reachable wedged states", "why_tests_cant": "all interleavings; non-termination", "anchors": ["src/io/ratelimit.go: Write lines 91-107, SetWriteRate"]}
{"id": "C52", "title": "Rate limiter totals", "statement": "In every interleaving the total written counter equals the sum of sizes of the writes that passed their counter update, and every completed Write handed its data to the writer exactly once. For Read the total counts the bytes asked for, not the bytes received. The limit in force is the initial one or one that some call set, values below -1 being taken as -1.", "quantifier": "all schedules", "why_tests_cant": "all interleavings", "anchors": ["src/io/ratelimit.go: Write"]}
{"id": "C53", "title": "ReadLoop never overwrites data being processed", "statement": "With the consumer protocol used by recvLoop (receive, process, Ready), in every interleaving the shared buffer is not written while the consumer is processing it, and the consumer sees exactly the chunks read from the connection, in order, none lost or duplicated; every read is offered the whole buffer; neither side ever waits on the two buffered channels. Two exceptions: bytes that arrive together with an error are dropped, and a read of 0 bytes with a nil error ends recvLoop with nothing reported.", "quantifier": "all schedules and read sequences", "why_tests_cant": "all interleavings", "anchors": ["src/io/readloop.go: Run, ReadData, Ready", "src/swarm/peerhandler.go: recvLoop"]}
{"id": "C54", "title": "ReadLoop.Finish does not cancel a blocked read", "statement": "Finish is documented to cancel the current Read. In every interleaving the read deadline is moved only after Run has left Read by itself; and Finish called during a Read completes only if that Read delivers data: if it fails, Finish and Run deadlock. After a handler error recvLoop leaves without Finish and Run never returns. These are the only states besides the normal end in which nothing more can happen.", "quantifier": "all schedules", "why_tests_cant": "all interleavings; deadlock", "anchors": ["src/io/readloop.go: Finish, Run"]}
{"id": "C55", "title": "PeerHandler.Loop never finishes", "statement": "Because the swarm error channel is never created, in every interleaving Loop never returns once it has started; the first error it receives is the last, and it tells at most one goroutine to stop. If pingLoop and recvLoop both fail it waits forever to tell somebody; while the download is incomplete it waits forever for requestLoop; a nil error from the read loop goes unnoticed; and its WaitGroup can let it pass before requestLoop has started (or panic: C105).", "quantifier": "all schedules and error timings", "why_tests_cant": "all interleavings", "anchors": ["src/swarm/peerhandler.go: Loop, pingLoop, recvLoop, requestLoop", "src/swarm/swarm.go: NewSwarm"]}
{"id": "C56", "title": "Compact peer lists", "statement": "A compact peers string of length 6k yields exactly k peers, the i-th with the IP of bytes 6i..6i+3 and the big-endian port of bytes 6i+4..6i+5; any other length is an error.", "quantifier": "all byte strings", "why_tests_cant": "unbounded", "anchors": ["src/tracker/tracker.go: stringSource.GetPeers"]}
{"id": "C57", "title": "Announce parameters reach the tracker unchanged", "statement": "Decoding the announce query (as form values) gives the torrent's infohash, the decimal port, uploaded, downloaded and left, and compact=1, for every infohash byte string; peer_id decodes to the client's id when it consists of unreserved characters (as NewPeerId's always do) but not in general, since it is escaped twice.", "quantifier": "all infohashes, stats, ports and peer ids", "why_tests_cant": "256^20 infohashes", "anchors": ["src/tracker/tracker.go: newRequest"]}
{"id": "C58", "title": "Tracker response parsing", "statement": "newResponse fails exactly when the dictionary has a string failure reason, lacks an integer interval/complete/incomplete, or has no usable peers; otherwise State and Peers are the dictionary's values. Negative integers wrap to 64 bits and non-compact ports to 16 bits.", "quantifier": "all dictionaries", "why_tests_cant": "unbounded responses from untrusted trackers", "anchors": ["src/tracker/tracker.go: newResponse, listSource.GetPeers"]}
{"id": "C59", "title": "Transfer statistics", "statement": "After any sequence of updates, Uploaded/Dnloaded are the initial values plus all increments modulo 2^64 and Left is the initial value minus all decrements, never below 0.", "quantifier": "all update sequences", "why_tests_cant": "unbounded histories", "anchors": ["src/tracker/stats.go"]}
{"id": "C60", "title": "Reported 'left'", "statement": "The first announce should report the bytes still missing; it always reports 0, whatever pieces are on disk.", "quantifier": "all torrents and disk contents", "why_tests_cant": "universal over disk states", "anchors": ["src/swarm/swarm.go: NewSwarm line 77", "src/tracker/tracker.go: newRequest"]}
{"id": "C61", "title": "SegmentData splits without loss", "statement": "For segSize >= 1 the segments concatenate to the data, all but the last have exactly segSize bytes, the last has between 1 and segSize, and there are ceil(len/segSize) of them.", "quantifier": "all data and segment sizes", "why_tests_cant": "unbounded", "anchors": ["src/utils/utils.go: SegmentData, HashSlices"]}
{"id": "C62", "title": "Doubly linked list", "statement": "Under any sequence of AddDataFront/AddNodeFront/Remove applied to nodes that are respectively out of/in the list, walking Next from Head gives the abstract sequence, Prev is its inverse, and other lists are untouched.", "quantifier": "all histories and any number of lists sharing nodes", "why_tests_cant": "pointer structure, unbounded histories", "anchors": ["src/utils/ds/linklist.go"]}
{"id": "C63", "title": "Keyed set", "statement": "Add/Has/Remove/Size implement a finite set of keys keeping the first element added per key. Items() returns Size() zero values before the elements, not just the elements.", "quantifier": "all histories", "why_tests_cant": "unbounded", "anchors": ["src/utils/ds/set.go"]}
{"id": "C64", "title": "RemoveSwap", "statement": "For a valid index the result is the slice without that element as a multiset, one shorter, with every other position before the last unchanged; an invalid index or empty slice panics.", "quantifier": "all slices and indices", "why_tests_cant": "unbounded", "anchors": ["src/utils/utils.go: RemoveSwap"]}
{"id": "C65", "title": "Rate limit option syntax", "statement": "parseSizeUnits accepts exactly [-]digits[B|K|M|G] (any case) with the digits at most 2^63-1, and returns the signed number times the unit reduced to int64; values whose product leaves int64 wrap silently.", "quantifier": "all strings", "why_tests_cant": "unbounded", "anchors": ["src/utils/opts.go: parseSizeUnits"]}
{"id": "C66", "title": "Peer ids", "statement": "NewPeerId, for every random source, if it terminates returns 20 bytes: '-GT0000-' followed by 12 ASCII letters.", "quantifier": "all streams of 63-bit random numbers", "why_tests_cant": "all random streams", "anchors": ["src/utils/utils.go: NewPeerId, randStringBytesMaskImprSrcSB"]}
{"id": "C67", "title": "Human-readable sizes", "statement": "Bytes4Humans never panics; for n >= 1024 the unit is the largest power of 1024 not exceeding n as a float64, so the number shown is in [1, 1024).", "quantifier": "all int64", "why_tests_cant": "2^64 inputs with float rounding at the edges", "anchors": ["src/utils/utils.go: Bytes4Humans"]}
{"id": "C68", "title": "Option validation", "statement": "Validate accepts exactly a non-empty input path, a known command and two well-formed limits, and refuses everything else with an error; called before the package variable is set it panics where it would go on to the limits; it does not check the working directory, and the port is silently reduced modulo 65536.", "quantifier": "all option values", "why_tests_cant": "unbounded strings", "anchors": ["src/utils/opts.go: Validate, Port"]}
{"id": "C69", "title": "Peer identity", "statement": "Two peers have equal keys exactly when id, Internet address and port are all equal, an IPv4 address in 4 bytes and in 16 being the same address. The address part of the key is dotted decimal for IPv4 and the RFC 5952 text for IPv6 (shortest lower-case hex groups; the first longest run of at least two zero groups becomes ::), and that text determines the address.", "quantifier": "all ids, IPv4 and IPv6 addresses and ports", "why_tests_cant": "unbounded id strings that may contain the separators", "anchors": ["src/peer/info.go: MakePeer, String", "src/swarm/peerhandler.go: Key"]}
{"id": "C70", "title": "Choke sends unchoke", "statement": "PeerHandler.Choke should send a choke frame; it always sends the unchoke frame.", "quantifier": "all peers", "why_tests_cant": "universal", "anchors": ["src/swarm/peerhandler.go: Choke"]}
{"id": "C71", "title": "The reply to an outgoing handshake", "statement": "After dialling a peer the client never reads a handshake: the peer's reply is parsed as wire messages. Any received buffer starting with 19 'BitTorrent protocol' yields no message at all, so the reply's infohash and id are never checked and everything received in the same buffer as the reply (for example the peer's bitfield) is lost.", "quantifier": "all bytes following the protocol string, below 2^32 bytes", "why_tests_cant": "depends on how TCP groups the peer's bytes", "anchors": ["src/swarm/peerhandler.go: FromBootstrap, recvLoop", "src/p2p/message.go: DecodeAll"]}
{"id": "C72", "title": "PieceHash returns the hash of its piece", "statement": "PieceHash(i) is bytes [20i, 20i+20) of the hash string exactly for 0 <= i < NumPieces; for any other index (in a range where i*20 does not wrap) it panics.", "quantifier": "all TorInfo values whose hash string has 20 bytes per piece, all indices with |i| <= 10^17", "why_tests_cant": "the guard is an implicit slice bound; unbounded hash strings", "anchors": ["src/torrent/info/info.go: PieceHash"]}
{"id": "C73", "title": "Dialling a peer", "statement": "The address FromBootstrap dials splits into the peer's dotted IPv4 address and decimal port for every IPv4 peer; for every IPv6 peer it is ambiguous (no brackets) and net.SplitHostPort, hence net.Dial, always fails: IPv6 peers can never be contacted. For a peer without an address the host dialled is the name <nil>. In general a text is dialled if and only if it is host:port or [host]:port (in the latter the host may contain colons).", "quantifier": "all ids, addresses and ports", "why_tests_cant": "2^128 addresses", "anchors": ["src/peer/info.go: MakePeer, Addr", "src/swarm/peerhandler.go: FromBootstrap"]}
{"id": "C74", "title": "Peer state flags", "statement": "Each of the four flags is the last value set, independently of the other three. A connection should start with both sides choked (MakeState), but NewPeerHandler leaves the zero value: neither side choked nor interested.", "quantifier": "all sequences of setter calls", "why_tests_cant": "unbounded sequences", "anchors": ["src/peer/state.go", "src/swarm/peerhandler.go: NewPeerHandler"]}
{"id": "C75", "title": "Exactly which inputs bencode.Decode accepts", "statement": "Decode succeeds exactly on inputs that start with a text of a lenient bencode grammar, with the value the grammar gives (up to map order): string lengths may have leading zeros, 'i-0e' is 0, any other leading zero is rejected, values above 2^63-1 in magnitude are rejected, dictionary keys may be unsorted and repeated (last wins), trailing bytes are ignored. The only other accepted inputs are top-level strings whose declared length runs past len(data) but not past cap(data).", "quantifier": "all byte slices, including their spare capacity", "why_tests_cant": "the converse direction (nothing else is accepted) ranges over all byte strings", "anchors": ["src/bencode/decode.go: Decode, decodeDict, decodeList, decodeString, decodeInt"]}
{"id": "C76", "title": "What the message decoder skips on bad input", "statement": "Decode returns an error exactly on the rejected inputs of the specification, with this many bytes marked as read: the whole remaining buffer for an unknown id, a frame cut short, or a wrong length for choke/unchoke/interested/notinterested; 9 for a have and 17 for a request frame with a wrong declared length, whatever that length is; 0 for an empty bitfield. DecodeAll then resumes exactly that many bytes on: every later message in a given-up buffer is lost, and after a malformed have or request it can resume inside the payload and deliver a message nobody sent.", "quantifier": "all buffers below 2^32 bytes, all spare capacities, any preceding valid messages", "why_tests_cant": "combinations of malformed frames and resumption offsets are unbounded", "anchors": ["src/p2p/message.go: Decode, DecodeAll", "src/p2p/have.go: DecodeMsgHave", "src/p2p/request.go: DecodeMsgRequest"]}
{"id": "C77", "title": "A connection's messages are handled exactly once and in order", "statement": "For a peer that sends only well-formed messages other than piece and bitfield, whose requests stay inside the pieces, however the messages are grouped into reads: handleMessage writes exactly one piece frame per request for a piece this side has, carrying the requested bytes of the files on disk, in request order, nothing for anything else, and no error. For any input at all (malformed bytes, file faults) every chunk written is the frame of a piece message for a piece this side has, carrying genuine file bytes up to the stale-buffer tail of C40 for requests past a short last piece, and no file changes. A request with an index beyond the last piece ends the connection when this side is complete, and later messages of the read are dropped. A request for more than a piece length panics the process.", "quantifier": "all sequences of messages and groupings into reads, all torrents and file contents, all fault oracles", "why_tests_cant": "unbounded message sequences, groupings and faults", "anchors": ["src/swarm/msghandler.go: handleMessage, handleRequest", "src/swarm/peerhandler.go: recvLoop", "src/p2p/message.go: DecodeAll"]}
{"id": "C78", "title": "The client never downloads anything", "statement": "requestLoop should request missing pieces. It never writes a byte to the connection, for any state of the tracker. As soon as a missing piece with a non-empty length is available from the peer it loops forever without advancing. A piece message that begins a read panics the decoder, so no received block is handled, and handling received messages never changes any file.", "quantifier": "all tracker states and schedules, all received bytes", "why_tests_cant": "non-termination and absence of an effect on all inputs", "anchors": ["src/swarm/peerhandler.go: requestLoop", "src/p2p/message.go: DecodeMsgPiece", "src/swarm/msghandler.go: handleMessage"]}
{"id": "C79", "title": "The bytes sent on an accepted connection", "statement": "On an accepted connection the bytes sent are, under every interleaving of the answering goroutine and the keep-alive goroutine: the handshake, the bitfield, unchoke, then whole frames that are keep-alives and genuine piece messages, the piece messages being a prefix of the answers to the requests in order. Frames are never interleaved or torn except that the last one may be cut when a write fails, after which nothing more is sent. After a failed write, or a message whose handling failed, no further message is taken in.", "quantifier": "all schedules, all received bytes and reads, all failure points", "why_tests_cant": "quantifies over all interleavings and all write failure points", "anchors": ["src/swarm/peerhandler.go: FromIncoming, Loop, pingLoop, recvLoop", "src/swarm/msghandler.go: handleRequest"]}
{"id": "C80", "title": "Concurrent ReadPiece and WritePiece", "statement": "Any number of ReadPiece and WritePiece calls run at the same time on one FileIO, accesses to single files being the only atomic actions. Writers hand in accepted data of the piece's size, readers buffers of at least a piece length. At every moment, also when system calls fail, every byte of every piece is what it was or what an accepted writer of that piece carries, and other files are untouched; a piece nobody writes is unchanged. If the writers of a piece agree, it is complete as soon as one has returned without an error, stays so, and every later reader returns exactly it. Without I/O errors each call returns the same count or error as when run alone, and an uninterrupted call is the sequential one. A reader overlapping a writer of a piece that spans two files should see the old or the new piece; it can return half of each, without an error.", "quantifier": "all numbers of calls, all arguments, all schedules of file accesses, all fault oracles", "why_tests_cant": "the schedules of file accesses are unbounded; tests run calls one after another", "anchors": ["src/torrent/fileio/fileio.go: ReadPiece, WritePiece, read, write"]}
{"id": "C81", "title": "Moving and closing open files", "statement": "Move renames the file an open handle refers to: the content is at the new path, the old path is gone, what was at the new path is replaced, all other files are untouched, and the torrent's pieces stay readable and writable, writes landing at the new path. A failed Move changes nothing, and Move refuses any path the FileIO did not itself open, including the new name of a moved file. Close closes exactly one file, once (a second Close is an error), and changes no content; after all files are closed, and before any is opened, every read or write of a non-empty piece fails and changes nothing. CloseAll should close every file; in whatever order the map is walked it stops at the first file that is already closed or fails to close, leaving the rest open.", "quantifier": "all paths, worlds, handles, fault oracles and map iteration orders", "why_tests_cant": "map iteration order and system call failures cannot be enumerated", "anchors": ["src/torrent/fileio/fileio.go: Move, Close, CloseAll, ReadPiece, WritePiece"]}
{"id": "C82", "title": "Creating and growing zero-filled files", "statement": "CreateZeroFilledFile(p, n), n >= 0, leaves exactly n zero bytes at p whatever was there before and touches nothing else; on a failing system call it leaves p as it was or with at most n zeros, and returns an error. AppendZeros keeps the content and adds exactly n zeros, or on failure at most n. A negative size panics, after the previous content has been destroyed.", "quantifier": "all paths, sizes, existing contents and fault oracles", "why_tests_cant": "sizes around the 1 MiB write unit and failure points are unbounded", "anchors": ["src/utils/futils.go: CreateZeroFilledFile, AppendZeros"]}
{"id": "C83", "title": "Starting a swarm, end to end", "statement": "For a readable torrent file with sane metadata and distinct file paths, NewSwarm returns, whatever system calls fail and whatever the tracker answers, one of: a swarm whose files are open with exactly the torrent's sizes (old contents resized; a file whose first open failed becomes zeros), whose bitfield marks exactly the pieces whose hash is right, whose peers, seeder counts and interval are those of the tracker's answer, whose limits are max(-1, limit), whose port is the option mod 2^16, and whose piece tracker knows every piece and no peer; the tracker's error; an error if a system call failed; or a panic, only if the announce URL does not parse. The one request sent carries the infohash, own id, port and 0 for uploaded, downloaded and left. Files outside the torrent are untouched. A missing or refused torrent file is an error that changes nothing. A start that fails should leave the disk as it was; the files have been created and cut before the tracker is asked. A torrent naming its own .torrent file overwrites it.", "quantifier": "all torrent files, disks, options, fault oracles and tracker answers", "why_tests_cant": "quantifies over all disks, failure points and tracker answers; no test starts a swarm", "anchors": ["src/swarm/swarm.go: NewSwarm, Validate", "src/tracker/tracker.go: Get, newRequest, do", "src/torrent/torrent.go: FromTorrentFile", "src/torrent/fileio/fileio.go: NewFileIO, OCATAll"]}
{"id": "C84", "title": "The command line and the listener", "statement": "main runs a swarm exactly if the options validate, the command is swarm and NewSwarm succeeds with the parsed limits; it then launches the listener, the rate limiter and one goroutine per peer the tracker named, in order. With any other command nothing on disk changes, and the process exits with status 0 only if the command is info and the torrent file is readable and well-formed (the invalid-command branch of main is never reached). A swarm that cannot be started exits with status 1, info on a missing or refused torrent likewise. If the port cannot be listened on the process dies; otherwise the listener hands every connection accepted before the first Accept error to exactly one handler, in order, and that error brings the whole process down.", "quantifier": "all flags, disks, tracker answers and sequences of Accept results", "why_tests_cant": "main, Start and runListener are not tested", "anchors": ["src/main.go: main, CmdSwarm, CmdTorInfo", "src/swarm/swarm.go: Start, runListener", "src/utils/opts.go: initOpts, Validate"]}
{"id": "C85", "title": "What ends a running swarm", "statement": "In a running swarm with any number of connections (accepted or dialled, at any stage, in any interleaving, also when disk reads or network writes fail), a step brings the process down only if it is one of: decoding a received buffer on which DecodeAll panics (C16: piece messages and truncated frames); handling a request for a piece we have with begin + length above the piece length, or, while incomplete, for an index beyond the bitfield's bytes; handling a correctly sized bitfield announcing a piece that this peer key has not announced before and 63 other keys have. Without I/O faults these steps always do. So in a live swarm no piece was ever announced by more than 63 keys, and anyone who knows the infohash can end the process at any moment with one handshake and one piece message. Peers that only send well-formed handshakes and bitfields should be harmless; the 64th one that announces a given piece kills the process even when the 63 others have left. (Steps here are what the goroutines do to bytes, files and the tracker; deaths by the WaitGroup of a handler are C105, by Accept C99.)", "quantifier": "all torrents, all numbers of connections, all schedules of their steps, all received bytes, all fault oracles", "why_tests_cant": "schedules and peer populations are unbounded; tests handle single messages on one handler", "anchors": ["src/swarm/peerhandler.go: FromIncoming, FromBootstrap, NewPeerHandler, Loop, recvLoop, requestLoop, pingLoop", "src/swarm/msghandler.go: handleMessage, handleRequest, handleBitfield", "src/swarm/piecetracker.go: RegisterBF, register, NextPiece"]}
{"id": "C86", "title": "Which peers are told what we have", "statement": "A peer that connected to us and whose connection still works has been sent our handshake followed by our exact bitfield. A peer that we connected to is never sent a bitfield, have, request, interested or not-interested message: everything written to it is our handshake followed by unchoke, keep-alive and piece messages, so it cannot learn which pieces it may ask for.", "quantifier": "all running swarms, all schedules, all fault oracles", "why_tests_cant": "a statement about every byte ever written on a class of connections", "anchors": ["src/swarm/peerhandler.go: FromIncoming, FromBootstrap, Loop, pingLoop, requestLoop", "src/swarm/msghandler.go: handleRequest"]}
{"id": "C87", "title": "A running swarm serves each connection correctly", "statement": "In every live state, for every connection and whatever the other connections do: the bytes written are a prefix (the whole, while no write has failed) of our handshake, the opening messages and then keep-alives and piece messages; the piece messages answer, in order and one to one, the requests for pieces we have that this connection handled (all of them, except the pending one, until its receive loop ended), each carrying the requested index, begin and length, and within the piece the bytes of the files. The messages handled are those decoded from this connection's own buffers, in order. The files never change. Without I/O faults the state of a connection is a function of its own steps: two live runs with the same steps on it leave it the same. From NewSwarm on, every block sent belongs to a piece whose SHA-1 matched the torrent's when the program started.", "quantifier": "all torrents, disks, numbers of connections, schedules, received bytes and fault oracles", "why_tests_cant": "quantifies over all interleavings of unboundedly many connections; non-interference relates two runs", "anchors": ["src/swarm/swarm.go: NewSwarm, Start, runListener", "src/swarm/peerhandler.go: FromIncoming, FromBootstrap, Loop, recvLoop, pingLoop", "src/swarm/msghandler.go: handleMessage, handleRequest", "src/torrent/fileio/fileio.go: ReadPiece"]}
{"id": "C88", "title": "The piece tracker of a running swarm", "statement": "In every live state the tracker lists peer key k under piece i exactly if some connection of a peer with key k, closed ones included, has handled a correctly sized bitfield with bit i set. Nothing is ever taken back (no code calls Unregister when a connection ends). NextPiece for a connection never panics and returns a piece that we lack and that peer key announced, with the fewest announcing keys, or none if there is no such piece.", "quantifier": "all running swarms, all schedules", "why_tests_cant": "the registrations are the result of unboundedly many interleaved connections", "anchors": ["src/swarm/piecetracker.go: RegisterBF, NextPiece, Unregister", "src/swarm/msghandler.go: handleBitfield", "src/swarm/peerhandler.go: requestLoop"]}
{"id": "C89", "title": "The whole rate limiter: two directions, one clock, Stop", "statement": "With any number of writers, readers, Run calls and Stop calls in any interleaving, each direction of RateLimitIO behaves as that direction alone (so C50-C52 hold of both) and no call in one direction ever waits for the other. With a limit of at most R per period and calls of at most L bytes, the bytes admitted in a direction stay below (ticks of the clock + calls of Run + 1) * (R + L), since a counter is reset at most once per tick or start of Run. A new limiter limits nothing until a limit is set. A Run ends only by a Stop and a Stop returns only by ending a Run, one for one; a Run that has begun can always be stopped, and as long as it is not, one firing of its clock is enough to empty both counters and to let a waiting caller through under a positive limit. While no Run is going on (before Start, after Stop) no counter is reset and no Stop returns: a call that finds its budget spent then waits for ever, holding the lock, and nothing more is admitted in that direction.", "quantifier": "all limits, all numbers of callers, all schedules", "why_tests_cant": "schedules are unbounded and no test covers the rate limiter", "anchors": ["src/io/ratelimit.go: Run, Stop, SetWriteRate, SetReadRate, Write, Read, NewRateLimitIO"]}
{"id": "C90", "title": "Concurrent use of the piece tracker", "statement": "Goroutines calling Register, RegisterBF, Unregister and NextPiece at the same time, each call taking the mutex, working in many steps on the shared lists and releasing it: in every interleaving, whenever the mutex is free the tracker is what the completed calls produce when made one after the other in the order in which they released the mutex, and each of them returned what it returns then. The order respects real time: calls that have returned come before calls that have not. Only a started call waits, and only while another holds the mutex. The holder dies only if its call, made after the completed ones, would fail, and otherwise can always go on to release the mutex. So for calls in the documented domain, with at most 63 peers per piece, nothing dies, the tracker lists exactly the registered peers, and every NextPiece returns a rarest candidate with respect to the calls before it.", "quantifier": "all calls, any number of goroutines, all interleavings of their steps", "why_tests_cant": "interleavings are unbounded; the tests are sequential", "anchors": ["src/swarm/piecetracker.go: Register, RegisterBF, Unregister, NextPiece"]}
{"id": "C91", "title": "What a command line means", "statement": "Arguments of the form -n v, --n v, -n=v or --n=v with n one of i, w, p, cmd, u, d are settings, in any order; the last setting of a name counts, a name not set has its default (empty, empty, 60666, swarm, -1B, -1B). The first argument that is not a flag, or --, ends them and everything after it is ignored. A value of -p must be a number below 2^64 as Go writes them (decimal, 0b, 0o, 0, 0x, single underscores between digits), every one given, not only the last. With such a command line the program does exactly what main does with those options; in particular a swarm runs exactly if the torrent is named, the command is swarm, both limits are sizes and NewSwarm succeeds. Any other command line ends the program at once with the disk untouched: with status 0 exactly if -h or -help (or with --, or =value) comes before anything wrong, else with status 2.", "quantifier": "all argument lists", "why_tests_cant": "argument lists are unbounded, and no test parses a command line", "anchors": ["src/utils/opts.go: initOpts, GetOpts", "src/main.go: main"]}
{"id": "C92", "title": "A downloader gets the torrent from a running swarm", "statement": "Take a peer that knows only BEP 3: it skips the 68-byte handshake, cuts the rest of what a swarm's connection sends into length-prefixed messages, and stores the block of every piece message at index * piece length + begin. If it asks for existing blocks only, then at any time while its connection is up - whatever the other peers do, whatever reads fail, keep-alives in between - every byte it has stored is that byte of the torrent's files, and a byte it did not ask for is untouched; once its messages are handled it has exactly the bytes it asked for of pieces we have. Its messages can always be handled by the connection's own steps, two per message at most, if the disk does not fail. From every live state of a swarm, a new peer that asks for everything - in any order, blocks and grouping - has all the files in the end, byte for byte; asking for each piece once will do. For a swarm started by NewSwarm on files that verify, these are the files on disk and their pieces have the torrent's hashes.", "quantifier": "all torrents, contents, live states, request orders and groupings, all other peers' behaviour", "why_tests_cant": "it quantifies over all histories of all connections; no test opens a connection", "anchors": ["src/swarm/msghandler.go: handleMessage, handleRequest", "src/swarm/peerhandler.go: FromIncoming, Loop, recvLoop, pingLoop", "src/swarm/swarm.go: NewSwarm, Validate"]}
{"id": "C93", "title": "Create, publish, seed, download", "statement": "Create a torrent from files on a disk, however short the reads; put the bencoding of its info dictionary, with an announce string and any other keys, in a torrent file; load that file in any directory. The result has the infohash NewTorrent computed, and its pieces, hashes, sizes and names are those of the files at that directory (loaded in the directory of creation it is the created torrent itself). A machine whose disk has these files there, starting a swarm while the tracker answers, finds all pieces present, changes no file, and from every state of the running swarm a BEP 3 downloader presenting the infohash and asking for every piece gets exactly the original bytes. NewTorrent succeeds exactly if the name, the files' total content and (for other than one file) every component of every path are non-empty. A single file must be created under its own name: otherwise the torrent names another file, and seeding it creates that file with zeros and has no piece.", "quantifier": "all file contents, names, piece lengths up to 5 MiB, directories, extra keys, trailing bytes, read schedules and swarm histories", "why_tests_cant": "it composes creation, text, disk, tracker and network over unbounded inputs; the tests cover none of these compositions", "anchors": ["src/torrent/info/info.go: CreateTorInfo, Bencode, FromDict", "src/torrent/torrent.go: NewTorrent, FromTorrentFile", "src/swarm/swarm.go: NewSwarm, Validate", "src/swarm/msghandler.go: handleRequest"]}
{"id": "C94", "title": "What the program prints", "statement": "With valid options the program prints the two limits, then: asked about a torrent that loads, its report and DONE, exiting with status 0; starting a swarm that comes up, the report on the torrent, the tracker's state and the peers, and it goes on running; in every other case nothing more. With wrong options it prints nothing on standard output. No report panics. When no quoted text contains a newline, the lines of a torrent's report give its name, announce string, infohash (in hexadecimal), number of pieces, exact length, its length in a unit rounded to the nearest hundredth, and for several files their paths in order, so torrents with equal reports agree on these. The report on a tracker's state determines the state, that on peers exactly their addresses and ports, the text of a message the message - except that all bitfield messages print alike. A torrent whose name contains a newline can show a false infohash line before the true one.", "quantifier": "all torrent files, options, disks, tracker answers, states, peers and messages", "why_tests_cant": "injectivity quantifies over pairs of values; no test looks at printed text", "anchors": ["src/torrent/torrent.go: String", "src/tracker/tracker.go: State.String, Response.String", "src/peer/list.go: String", "src/swarm/swarm.go: String", "src/p2p: String methods", "src/main.go: main, CmdSwarm, CmdTorInfo"]}
{"id": "C95", "title": "Keep-alives and time-outs", "statement": "Whatever a peer sends and however long its messages take to handle, its connection times out only after two minutes in which nothing arrived; and when all has been read and it stays silent it can time out within two minutes, never earlier than two minutes after the read began. While a connection lives, a keep-alive is written at every full minute after its start and at no other time. Two gotors whose messages take less than a minute never time out on each other, however long they idle, whatever else they send and whenever they handle it; with exactly one minute they may. An end whose peer has stopped can notice it within two minutes (by its deadline: the socket stays open). An incoming peer that has sent nothing one second after its connection was taken up gets no byte, and its connection is not closed (it is closed if and only if something is read that is not a handshake for the torrent); what arrives within the second is the handshake that is judged.", "quantifier": "all arrival times, handling times, interleavings and run lengths; all delays below a minute", "why_tests_cant": "time is dense and runs are unbounded; a test would have to wait minutes and could try only some schedules", "anchors": ["src/io/readloop.go: Run", "src/swarm/peerhandler.go: FromIncoming, recvLoop, pingLoop, GetKeepAlive, SendKeepAlive, HandshakeTimeout"]}
{"id": "C96", "title": "A network of gotors", "statement": "Take any number of gotors, each with its torrent, files and bitfield, dialling and answering one another in any order, and suppose no read cuts a message in two. Then nobody asks for anything: every connection ever writes only its handshake, bitfield (if it answered) and unchoke, and keep-alives. A piece tracker credits a peer with a piece only if that node dialled one that has it; and if a node dies by what it does with bytes, files and tracker it has dialled, under 64 different keys, nodes that all have one common piece (other deaths: C99, C105). With any reads at all no file changes, and reading all there is cuts no message. But a dialler that reads the handshake together with what follows never learns the other's bitfield. And reads do cut messages: two gotors of a 40-piece torrent with nobody else about can kill one another by the sizes of the reads alone, and a gotor that dials a seed of a torrent with at least 130528 pieces and reads 16384 bytes at once is dead after the second read.", "quantifier": "all networks, torrents, bitfields, dialling patterns, schedules and (where stated) read sizes", "why_tests_cant": "it quantifies over all networks and all ways TCP may cut streams; no test runs two ends", "anchors": ["src/swarm/peerhandler.go: FromIncoming, FromBootstrap, recvLoop, pingLoop, Loop", "src/swarm/msghandler.go: handleMessage", "src/p2p/message.go: DecodeAll", "src/io/readloop.go: Run", "src/swarm/piecetracker.go: RegisterBF"]}
{"id": "C97", "title": "What a torrent can do to the disk", "statement": "Whatever the torrent file contains, whatever the tracker answers and whichever system calls fail: starting the program changes only files the torrent names, and nothing that peers send afterwards changes any file. If the torrent's name and path components are ordinary file names, no file outside the download directory changes. Starting comes to an end (if the choice of the peer id does). But '..' in a path is followed, so a torrent can cut a file anywhere the user can write; and a torrent that the parser accepts can crash the start (a negative file length).", "quantifier": "all torrent files, disks, options, trackers, I/O faults and everything peers send", "why_tests_cant": "it is about every hostile torrent and every file it does not name", "anchors": ["src/swarm/swarm.go: NewSwarm", "src/main.go: main", "src/torrent/torrent.go: FromTorrentFile", "src/torrent/filesd/entrybase.go: FromBenList", "src/torrent/fileio/fileio.go: OCATAll, ReadPiece", "src/utils/futils.go: OCAT, CreateZeroFilledFile", "src/swarm/msghandler.go: handleRequest"]}
{"id": "C98", "title": "What holds of the parts holds of the whole process", "statement": "Take the process goroutine by goroutine: the accept loop, the handshakes, and per connection Run, recvLoop, pingLoop, requestLoop and Loop with their channels and shared buffer, the write lock and budget of the rate limiter and its ticker, in any schedule. Seen without the channels every execution is an execution of the swarm of C85-C88, and every connection's read loop and handler are executions of those of C53 and C55. So everything sent is lawful; what is handled is what was read, in order, nothing lost or repeated, also with the buffer being reused; the process dies only when accepting with no socket left, decoding a malformed buffer, handling a deadly message, or by a panic of a handler's WaitGroup on a late requestLoop (C105), and without I/O faults then it does die. The write lock is held exactly by the connection between Lock and Unlock. With no limit or a positive one, every live state leads, without another byte from the network and by steps of the connection's own goroutines, the lock holder's and the ticker only, to one where every message delivered on a given connection has been handled and answered, unless recvLoop fails, hangs in decoding or is told to stop, or handling ends the process. With a limit of 0 no peer ever gets more than the greeting and keep-alives.", "quantifier": "all schedules of all goroutines, connections, deliveries, write failures, limits, torrents and disks", "why_tests_cant": "interleavings of unboundedly many goroutines; tests run one component at a time", "anchors": ["src/swarm/peerhandler.go: FromIncoming, FromBootstrap, Loop, recvLoop, pingLoop, requestLoop", "src/io/readloop.go: Run, Consume, Ready, Finish", "src/io/ratelimit.go: Write, Run, resetW", "src/swarm/msghandler.go: handleMessage", "src/swarm/swarm.go: Start, runListener, runBootstrap"]}
{"id": "C99", "title": "Every handler keeps its socket", "statement": "At every time the process has open: the sockets whose handshake is going on, those it dropped after a failed handshake and the garbage collector has not closed, and one for every handler it ever made, incoming or dialled. A connection that ended, whatever ended it, stays open, its Loop waiting and, while pieces are missing, its requestLoop going round for ever. It never takes more than five pieces from the tracker, and if pieces are not empty not more than one, with which it is busy for ever. Accepting does not end a process that has taken up fewer connections in its whole life than it may have open. But from every live state one peer that repeatedly connects, greets and leaves ends the process, whatever the number of sockets allowed, without sending any message; and so do as many connections on which nothing is said.", "quantifier": "all executions, schedules, peers, limits on open sockets", "why_tests_cant": "it is about what is never released over executions of any length", "anchors": ["src/swarm/peerhandler.go: FromIncoming, FromBootstrap, Loop, recvLoop, pingLoop, requestLoop", "src/swarm/swarm.go: runListener, runBootstrap"]}
{"id": "C100", "title": "The list of handlers is appended to without a lock", "statement": "runListener's goroutines append their handlers to one slice without synchronisation; an append loads and stores the slice's three words and the element by separate memory operations. If no append begins before the last has ended, all handlers are kept, in order, and no access leaves the arrays. In every interleaving the slice is never longer than the number of connections, and as long as at most five connections have come to the append no access leaves the arrays, whatever the order of the operations within an append, and every one of them can be run to its end. No append ever waits, and each takes at most nine memory operations. The sixth can write outside of its array (in the compiler's order of stores: it sees the fifth's new capacity with the old pointer), and of two overlapping appends one handler can be lost.", "quantifier": "all interleavings of the memory operations of any number of appends, all growth policies", "why_tests_cant": "the interleavings are those of single memory operations, which a test cannot force", "anchors": ["src/swarm/swarm.go: runListener"]}
{"id": "C101", "title": "Which torrent files load", "statement": "A torrent file loads only if its text begins with a dictionary (in the decoder's grammar) having an announce string and an info dictionary with name, piece length, pieces (a multiple of 20 bytes) and either a length or a list of files with length and non-empty path; the torrent then has exactly the stated announce, name, piece length, hashes and files, each file placed under the working directory by its name and path, and the infohash is the SHA-1 of the encoding of that info dictionary. Such a text states one thing only. For a piece length of at least 1 and lengths that are not negative (numbers and total below 2^62) it loads if and only if the hashes are whole and enough for the total length. Files that state none of this are refused with an error. But three sorts of files crash the program instead: too few hashes, unless they end exactly where a file does; a piece length of 0 with files; an entry with an empty path.", "quantifier": "all byte strings, working directories and hash functions", "why_tests_cant": "torrent files are arbitrary bytes; a test loads a few", "anchors": ["src/torrent/torrent.go: FromTorrentFile", "src/torrent/info/info.go: FromDict, NewTorInfo", "src/torrent/filesd/entrybase.go: FromBenList", "src/bencode/decode.go: Decode"]}
{"id": "C102", "title": "From the command line to the wire", "statement": "Give the program a command line and a torrent file whose text states a torrent (numbers as they occur in practice, files at different places). If it comes to run - whichever system calls fail, whatever the tracker answers - its files have the stated sizes and its bitfield says exactly which pieces have their stated hash; and in every state it comes to, whatever peers send and however its goroutines are scheduled, the files are unchanged and every peer has been sent (a beginning of) the handshake with the torrent's infohash, if it connected to us our bitfield, an unchoke, and then only keep-alives and blocks of pieces with the right hash. It does run if the options are usable, no system call fails and the tracker answers; the files are then the old ones cut or extended with zeros. If a limit other than 0 is set, then in every state it comes to with a socket to spare, anyone who connects with the torrent's infohash can be served by steps on its behalf only: it gets exactly the greeting and, in order, the block for each request in a piece we have. With the right files in place from the start that is every block of the torrent.", "quantifier": "all command lines, torrent files, disks, faults, trackers, peers, schedules and run lengths", "why_tests_cant": "end-to-end behaviour over all inputs and all interleavings; tests exercise single functions", "anchors": ["src/main.go: main, CmdSwarm", "src/utils/opts.go: initOpts, Validate", "src/torrent/torrent.go: FromTorrentFile", "src/swarm/swarm.go: NewSwarm, Start, runListener", "src/torrent/fileio/fileio.go: OCATAll, ReadPiece", "src/swarm/peerhandler.go: FromIncoming, Loop, recvLoop", "src/swarm/msghandler.go: handleRequest"]}
{"id": "C103", "title": "Peers named by text", "statement": "In a peer list of dictionaries the text of a peer's address is read as an address if and only if it is one by RFC 4291: four decimal numbers below 256 without leading zeros, with dots; or eight hexadecimal groups below 65536 with colons, the last two possibly as such a quad, one run of groups possibly left out as '::'. It then is that address, and every address is read back from the text printed for it. What is dialled for such a peer is the very text for a quad, the quad for an IPv6 text that stands for an IPv4 address, nothing for any other IPv6 address (its text with the port makes no address: C73), and the host '<nil>' for all other text. So of the three forms BEP 3 allows, DNS names and IPv6 addresses are never dialled.", "quantifier": "all texts, addresses, ports, tracker answers", "why_tests_cant": "the accepted texts are an infinite language; a test tries a few addresses", "anchors": ["src/tracker/tracker.go: listSource.GetPeers", "src/peer/info.go: MakePeer", "src/swarm/peerhandler.go: FromBootstrap"]}
{"id": "C104", "title": "Torrents with impossible numbers", "statement": "A torrent of one file with piece length P, length L (of any sign, absolute values below 2^62) and n whole hashes loads exactly if: P > 0 and 0 <= L <= n*P; or P > 0, 1-P < L < 0 and n > 0; or P < 0, 0 < L <= -P and n > 0; or P < 0, L <= 0 and 2-L <= n*-P; or P < 0 and L = n = 0. It crashes the program exactly if P = 0, or P > 0, n > 0 and n*P < L, or P < 0, L <= 0, n > 0 and n*-P < 2-L. Otherwise it is refused. Whatever loads, no swarm ever starts with a number below zero: NewSwarm never succeeds on a torrent with a negative piece length or file length. With a negative piece length, lengths not negative and nothing failing, it panics after the files have been created. Totals can wrap: two files of 2^63-1 bytes load with a total of -2.", "quantifier": "all torrent file texts, piece lengths, file lengths, numbers of hashes; for starting: all disks, failures, options, trackers", "why_tests_cant": "The interesting numbers lie outside anything a test author would write, and the accepted region has an irregular boundary in three parameters.", "anchors": ["src/torrent/filesd/flist.go:5-35", "src/torrent/info/piecemap.go:13-62", "src/torrent/info/info.go:157-247", "src/swarm/swarm.go:39-118", "src/utils/futils.go:66-101"]}
{"id": "C105", "title": "A late requestLoop crashes the process", "statement": "The goroutines of a handler add themselves to its WaitGroup when they start running, not when they are created. In every interleaving, when Loop comes to its Wait, pingLoop and recvLoop have started, and when it is past it they are over; but requestLoop may not have started. If it has started before Loop is past or woken in Wait, the WaitGroup never panics and Loop gets past Wait only when all three loops are over. The WaitGroup panics (ending the process) exactly in two ways: requestLoop starts while Loop is still counted as waiting and the others have just finished (Add called concurrently with Wait); or it has started, and not finished, between Loop's waking and its check (reused before previous Wait has returned). Both can happen to every handler whose requestLoop is scheduled last: from every live state of the process with a free socket, one peer that connects, greets and leaves can end the process.", "quantifier": "all interleavings of a handler's goroutines; all live states of the process", "why_tests_cant": "the windows are a few instructions wide and need a particular schedule", "anchors": ["src/swarm/peerhandler.go: Loop, pingLoop, recvLoop, requestLoop"]}
{"id": "C106", "title": "Which announce URLs work", "statement": "An announce text is taken for a URL exactly if it is one of a stated grammar (net/url's: no control characters before '#', a scheme or none, an authority with optional user, a host name or a bracketed literal with optional zone, a port of digits, escapes complete and allowed where they stand). A URL scheme://[user@]host path ?query #fragment is read as its scheme in small letters, host and path with escapes undone, and the query as written; any other text is refused with an error. Asking the tracker then: for an http or https URL (in any case of letters) with a non-empty host, the server named by it gets one request whose parameters are the URL's own followed by the client's, and what is made of the answer is the result; for any other URL the result is an error whatever servers there are; for any other text, and only then, the program panics. So every swarm that starts has an http(s) announce URL; with another one, the start creates and cuts or extends the torrent's files first and then fails or crashes. False: that a torrent with a bad announce URL is reported (':80x' as a port crashes the process after cutting a file short); that torrents with a UDP tracker can be joined.", "quantifier": "all announce texts, torrents, servers, disks, options", "why_tests_cant": "the accepted texts are an infinite language, and the difference between an error and a crash lies in malformed ones no test author writes down", "anchors": ["src/tracker/tracker.go: Get, newRequest, do", "src/swarm/swarm.go: NewSwarm"]}
{"id": "C107", "title": "The data races of the process, all of them", "statement": "Take the memory accesses, locks, channel operations, atomic operations and go statements of every goroutine of a running process and happens-before as in the Go memory model. Whatever a step changes in the tracker, the limiter's counter or a handler's bitfield and buffers is written in it; a connection writes the bitfield's header bytes exactly if our bitfield is sent to it, and the list of handlers exactly if it is let in. In every execution, two conflicting accesses of two goroutines that happens-before does not order are one of these: (a) both by the goroutines of different accepted connections, to the listener's slice of handlers or to the five header bytes in front of the swarm's own bitfield, which every greeting writes and sends from; (b) the limiter's clock against a connection's receiver, on the counter of bytes written, and without an upload limit only the clock's first assignment. Everything else - piece tracker, torrent, files' table, each handler's fields, buffers and read loop, the counter of bytes read, totals - is never raced on. Conversely (a) happens between any two accepted connections that get so far, and (b) whenever no atomic operation on the counter stands between the two accesses, and between the clock's first assignment and every earlier access by a receiver. So it is false that the process is free of data races.", "quantifier": "all executions of the process (any number of connections, any schedule, any peers), every pair of accesses; whether or not package log's lock is counted as ordering (the converse of (a) only where it is not)", "why_tests_cant": "a race detector sees the schedules of one run; that a pair of accesses is ordered in every schedule is a statement about all of them", "anchors": ["src/swarm/swarm.go: Start, runListener", "src/swarm/peerhandler.go: FromIncoming, NewPeerHandler, Loop, recvLoop, requestLoop, pingLoop", "src/swarm/piecetracker.go: NextPiece, RegisterBF", "src/io/ratelimit.go: Run, Write", "src/io/readloop.go: Run, Ready", "src/p2p/bitfield.go: Encode"]}
{"id": "C108", "title": "Directories and descriptors", "statement": "Take a file system with directories, a bound on open files and a garbage collector that closes forgotten files when it likes. The files of a loaded torrent have clean paths. If none of their places is a directory, none is below a file and none is below another of them, all lengths are in [0, 2^63), there are as many free descriptors as files and no system call fails otherwise, OCATAll opens them all, with the contents C35 says, and the tree then has exactly the old files and directories, the torrent's files and the directories above them. Whatever fails and however the collector runs, OCATAll keeps the tree a tree, removes nothing, adds only the torrent's files and directories above them, and changes contents as C83 says for some failures; and if it succeeds, the conditions on the places held and no length was negative. Every descriptor is free, open in the FileIO, or waiting for the collector, over all sequences of OCAT, Close and Move that return. Opening files with distinct paths takes as many descriptors; with too few (and none to be collected) it fails, after the first files, as many as there were descriptors, have been made and resized on disk. CloseAll frees all but what waits for the collector. Move succeeds only from where a file is to a place that is no directory but lies in one, and then moves that file, replacing one that was there; nothing else in the tree changes, and it never panics; any calls of OCAT, Close and Move do to the contents what they do in C83's world with some failures, and in any order keep the tree a tree and all its directories. False: that every torrent that loads can be opened somewhere (files 'a' and 'a/b'); that OCATAll and CloseAll together give all descriptors back (a path listed twice loses one); that existing data survives when no call fails but for want of a descriptor (the collector may free one between the failed open and the truncating create).", "quantifier": "all file trees, torrents, numbers of descriptors, behaviours of the collector, failures, sequences of calls", "why_tests_cant": "descriptor limits and collector timing are not under a test's control, and the tree's shapes are unbounded", "anchors": ["src/torrent/fileio/fileio.go: OCAT, OCATAll, Move, Close, CloseAll", "src/utils/futils.go: OCAT, CreateZeroFilledFile", "src/torrent/info/info.go: FromDict"]}
{"id": "C109", "title": "A torrent made of files that change", "statement": "CreateTorInfo asks each file's size once, then reads it to its end. Let ns be the sizes it is told and ds the bytes it then reads (they differ if a file changes meanwhile), P a piece length in [1, 5 MiB], D the bytes of all files together, n the number of P-byte pieces of D. If no call fails: when the sizes add up to at most n*P it makes a torrent of those sizes whose hashes are those of D's pieces; otherwise it returns an error if some of the first files have together exactly n*P bytes, and panics if not. Files that keep still give C41's result. A torrent is made only if every open, stat, read and close succeeded. A content of the torrent's length with all the torrent's hashes is D itself or shows a SHA-1 collision; D is one if the sizes add up to its length. A failing stat or read returns with the file still open, a failing open or close with none; never more than one. A piece length above 5 MiB reads the first file for ever, also an empty one. False: that the torrent made can be downloaded (a file that grew by a byte gives a torrent no content fits); that a file cut short is reported (it can crash the program).", "quantifier": "all lists of paths, sizes told, bytes delivered, failures, ways of splitting reads, piece lengths in the ranges given", "why_tests_cant": "needs another process writing between two system calls of one function, at every possible moment", "anchors": ["src/torrent/info/info.go:80-155 CreateTorInfo"]}
{"id": "C110", "title": "The spinner", "statement": "Spinner looks at done, and if nothing is there shows eight pictures of 100 ms each, for ever: it returns only from a look that finds done ready, less than 800 ms after it became so, and never panics. The pictures of the n-th round have n mod 3 + 1 dots. On an empty line of a terminal wide enough, while each picture stands the line shows exactly its symbol, a space, the message (without control characters) and the dots: nothing is left of longer pictures before it. At the end exactly one line has been finished: a check mark, a space, the message, and the dots of the last round. False: that the last line is the check mark and the message only.", "quantifier": "all messages, all moments of done, any number of rounds", "why_tests_cant": "what stands on a terminal after overwriting is not something the package's tests look at, and the loop has no end of its own", "anchors": ["src/utils/utils.go:66-86 Spinner"]}
{"id": "C111", "title": "Starting with so many descriptors", "statement": "Take C108's file system with directories, a bound on open descriptors and a collector. Starting a swarm (NewSwarm, main) there does what C83 and C84 say for some failing calls and, perhaps, a tracker that cannot be reached. Whatever happens the tree stays a tree, nothing is removed from it, and what is new belongs to the torrent; a swarm comes out only if the torrent's files fitted into the tree (C108), and with distinct paths only if there were more descriptors (free or collectable) than files. Conversely, if they fit, nothing fails, the tracker's answer is good and there are more free descriptors than files, it starts, with exactly the torrent's files and the directories above them new and one descriptor left with the tracker. With as many descriptors as files, all files are made or resized and then it fails without asking the tracker; with fewer, as many files as descriptors are made or resized before it fails; with none, nothing is touched. The listener gets its socket if the dialling goroutines before it left one free; if none can be had, the process panics. So with D descriptors and F files, D - F - 2 (or one more, if the tracker's was given back) are left for peers: that many silent connections, and the next one ends the process. False: that a started swarm listens (the peer named by the tracker may take the last socket first: a crash); that every torrent that loads can be started somewhere (files 'a' and 'a/b').", "quantifier": "all file trees, torrents, trackers, numbers of descriptors, collector behaviours, failures, options", "why_tests_cant": "the limit on open files, the moment of garbage collection and the order of goroutines are not under a test's control", "anchors": ["src/swarm/swarm.go: NewSwarm, Start, runListener", "src/tracker/tracker.go: Get, do", "src/torrent/fileio/fileio.go: OCATAll", "src/main.go: main, CmdSwarm, CmdTorInfo"]}
{"id": "C112", "title": "The upload limit over the life of a process", "statement": "Let the upload limit be R > 0 and the piece length P. In every execution of the process from its start, with any number of peers, any schedule and any behaviour of the peers, the bytes of the messages that the limiter has let pass are fewer than (ticks + 1) * (R + P + 13), where ticks is how often its clock has fired; and all bytes handed to the connections that have a handler are fewer than that plus 4 for each keep-alive plus one greeting (handshake, bitfield, unchoke) for each such connection. The limiter's counter is always the number of bytes it has let pass since the last tick. False: that at most R bytes pass between two ticks; that all uploads together stay within the limit's bound without counting greetings and keep-alives separately.", "quantifier": "all executions (peers, schedules, contents, message sequences, write failures), all R > 0 and P >= 0", "why_tests_cant": "a bound on what any crowd of peers can make the process send in any schedule; a test measures one transfer", "anchors": ["src/io/ratelimit.go: Write, Run", "src/swarm/msghandler.go: handleRequest", "src/swarm/peerhandler.go: FromIncoming, FromBootstrap, Loop, pingLoop"]}
{"id": "C113", "title": "The memory of a process", "statement": "Of the memory a process uses, count what it can never give back: the piece-sized buffer of every peer handler made (handlers are never let go, C99) and 28 bytes for every request message made by a createReqMessages under way. In every execution in memory of M bytes these add up to at most M, and a step ends the process exactly when it would anyway or when they no longer fit. A process that has all pieces never makes a request message; memory for one piece per connection it takes up is enough for it. False: that the memory needed is bounded. n peers that only shake hands and go cost n piece lengths for ever. And one peer is enough for any M: from every live state of a process that lacks a piece, with a free socket, a peer that connects, shakes hands and sends a bitfield with that piece (not as the 64th to announce a piece) brings requestLoop into createReqMessages, which for pieces of non-zero length (mod 2^32) never returns, can always make another message, and has used up M bytes after at most M/28 + 1 of them.", "quantifier": "all executions (peers, schedules, contents), all M, all live states, all peers as described", "why_tests_cant": "the loop's growth shows only when memory runs out, and what any execution can hold is not visible to a test of one", "anchors": ["src/swarm/peerhandler.go: NewPeerHandler, requestLoop, createReqMessages", "src/p2p/request.go: NewMsgRequest", "src/swarm/swarm.go: runListener, Start"]}
{"id": "C114", "title": "The log", "statement": "Every line NewSwarm and the running process write to the log (package log) is accounted for, in every execution. Logging changes nothing else. From the lines of one peer handler it can be told which of its goroutines have started and which have ended: each start and end line is there exactly once if that has happened, and not otherwise. There is a \"Decoded r/n\" line for each Read in order, with n its length and 0 <= r <= n, except perhaps the last Read; a \"registered bitfield\" for each bitfield of our own length handled; \"(killing)\" at most once; never \"peer ... done\"; no \"end requestLoop\" while we lack a piece. Every \"new client\" is still shaking hands, or has an error line, or a handler; every tracker peer is still to be dialled, or has a \"failed to bootstrap\" line, or a handler. NewSwarm's four lines come in order, all of them if it returns a swarm, with its counts of pieces and announce URL. If no peer id contains a newline, the log read line by line is one line per call. False: that \"sent keep alive\" means one was sent: it is logged for each one written and once more after the one that failed. False: that a line in the log was written by the program: a tracker that gives a peer an id with newlines in it puts any line into the log, for instance one that is never logged.", "quantifier": "all executions (peers, schedules, contents, failures), all times, all error texts", "why_tests_cant": "logs are not looked at by tests, and what is true of every log in every schedule cannot be seen in one", "anchors": ["src/swarm/swarm.go: NewSwarm, Start, runListener", "src/swarm/peerhandler.go: FromIncoming, Loop, recvLoop, requestLoop, pingLoop", "src/swarm/msghandler.go: handleMessage, handleBitfield", "src/io/readloop.go: Run", "src/peer/info.go: MakePeer"]}
{"id": "C115", "title": "What the errors of Decode mean", "statement": "Decode gives the errors \"bad string at byte k\", \"bad int (leading 0s) at byte k\", \"bad int at byte k\" (after \"decoder error: \"), the errors of strconv for a number that is empty or above 2^63-1 (naming the digits that stand before the ':' or 'e' just read), and \"read end of data before completion\" or \"caught panic\". Let the slice have no spare capacity. Every error but the last two is final: whatever stands behind the bytes read so far, Decode gives the same error, with the same k. If no run of digits is longer than 18, byte k (counted from 0) is exactly the first one at which the data is beyond repair: data[:k] can be continued to something Decode accepts, data[:k+1] cannot; and one of the last two errors is given exactly when the data is not accepted but can be continued to something that is. \"caught panic\" is given exactly when the data ends inside a string of which it has at least one byte. Errors with the same text have the same cause and the same k. False: data that lacks its end is always reported so (\"5:ab\" is a caught panic). False: data reported to lack its end can be completed (twenty nines).", "quantifier": "all byte slices, all continuations", "why_tests_cant": "that a position is the first bad one is a statement about every continuation of every prefix", "anchors": ["src/bencode/decode.go: Decode, decodeDict, decodeList, decodeString, decodeInt, DecoderError.Error"]}
{"id": "C116", "title": "With SHA-1 itself", "statement": "utils.SHA1 (with crypto/sha1, as in Go 1.18) gives, for every message shorter than 2^64 bits, the digest defined in FIPS 180-4 and nothing else, however the message is cut into Writes; checkSum never panics; the digest has 20 bytes. So Validate sets exactly the bits of the pieces whose SHA-1 by the standard is the hash in the torrent, WritePiece refuses any data whose SHA-1 is not that, and the infohash is the SHA-1 of the info bytes. The same torrent is made from two sets of files in the same place exactly when the files have the same lengths and the pieces the same hashes. Every file with the first published SHA-1 collision at the start of a piece (piece length >= 320) has such a twin, whatever stands before and behind. A machine that has the twin in a directory of the same name finds itself complete and seeds the twin to every downloader. False: that what a complete seeder serves is what the torrent was made of.", "quantifier": "all messages, all ways to write them; all torrents; all files before and behind the collision; all piece lengths from 320", "why_tests_cant": "digests of test vectors say nothing of other messages, and that two contents make one torrent shows only if both are tried", "anchors": ["src/utils/utils.go: SHA1, HashSlices", "src/torrent/info/info.go: CreateTorInfo, NewTorInfo", "src/swarm/swarm.go: NewSwarm", "src/torrent/fileio/fileio.go: Validate, WritePiece", "src/torrent/torrent.go: FromTorrentFile"]}
{"id": "C117", "title": "What the user is told when a torrent or the announce fails", "statement": "The error FromTorrentFile returns for a readable file is that of Decode (C115), or names the first fault of the value in this order: not a dictionary; announce (string), info (dictionary), and in it name (string), piece length (integer), pieces (string), each missing or of another type; then, if there is no integer length, neither length nor a list files, or the first bad entry of files (not a dictionary; its length or path missing or of another type; the first part of the path that is no string); then hashes whose length is no multiple of 20; then \"only accounted for a/b bytes\" with a the number of hashes times the piece length and b the sum of the lengths. If the numbers make sense (as in C101) there is this error whenever there is this fault. For a tracker's answer the order is: Decode's error; not a dictionary; a string failure reason, which is then the error; interval, complete, incomplete; peers a string of length no multiple of 6, or missing or neither string nor list, or the first bad peer (not a dictionary; ip, port, peer id). Two torrent files with the same error text have the same kind of fault, of the same key, with the same types or numbers; a part of a path without '%' is shown as it is. The process exits with status 1 if and only if main, CmdSwarm or CmdTorInfo has such an error to give log.Fatal. Not so: that \"tracker error\" comes from the tracker (a torrent file can give the same text), that keys called missing are missing or that there must be exactly one of length and files, that the dictionary named is the one at fault (for info it is 0x0), that a bad path is shown as it is (it is used as a format), that peers shown as invalid are the invalid ones (they are those before it), that peers must be a list.", "quantifier": "all files, all tracker answers, all options, worlds, networks and memory layouts", "why_tests_cant": "tests of errors look at whether there is one; which of several faults is reported, and that a text means one fault, are statements about all files", "anchors": ["src/bencode/dict.go: DictBadTypeError.Error, DictMissingKeyError.Error, get, GetString, GetInt, GetUint, GetDict, GetList", "src/torrent/torrent.go: FromTorrentFile, TorError.Error", "src/torrent/info/info.go: FromDict, NewTorInfo", "src/torrent/info/piecemap.go: MakePieceMap", "src/torrent/filesd/entrybase.go: FromBenList", "src/tracker/tracker.go: Get, do, newResponse, GetPeers", "src/swarm/swarm.go: NewSwarm", "src/main.go: main, CmdSwarm, CmdTorInfo"]}
{"id": "C118", "title": "What a user with a bad command line is told", "statement": "If an argument is amiss (a flag that is not there, bad syntax such as -=x or ---x, a flag with no value left, a port that is no Go number below 2^64, or a request for help), the first such argument decides: standard error gets one line for it (none for help) and then the usage text; the status is 2 (0 for help), and no file is touched. If the arguments are in order, the values are looked at: no input, then a command that is neither swarm nor info, then the upload limit, then the download limit (empty; no digits or more than 2^63-1; two or more characters after the digits; a unit that is none of BKMG in either case); the first one amiss is the text of a panic. Otherwise nothing is said and the program goes on; nothing else is ever said. From the text one can tell what is amiss and in which value (ASCII values), and the two kinds apart. The usage text has exactly the flags there are, each with the default it has, and limits in the form it gives are read. False: that one can tell which limit is bad; that a port said to be out of range is a number; that every bad command line gets the usage text; and the text for a missing working directory is never used (the check tests the input again).", "quantifier": "all argument lists, all worlds, all program names; limits and quoted values in ASCII where said", "why_tests_cant": "which of several faults is named, and that a text names one fault, are statements about all command lines", "anchors": ["src/utils/opts.go: initOpts, Validate, parseSizeUnits", "src/main.go: main"]}
{"id": "C119", "title": "What the errors of the message decoders, bitfields, lookups and the encoder mean", "statement": "For a frame shorter than 2^32 bytes Decode errs exactly when something is amiss with it, and names the first thing: fewer than 4 bytes; only a length, which is not 0; a length other than 1 for ids 0-3; fewer bytes than the length asks for; then a have with no 4 bytes of payload, a request with no 12, a bitfield with none, an id above 7, with the numbers found. FromBytes names the length, the bits given, and a least and a greatest number of bits, and these are exactly the numbers it takes. PieceLookup tells a negative index from one beyond the last, PieceInfo names the index, WritePiece then refuses data by its hash; a path that was never opened is named by Move, Close, write and read; in each case nothing is touched. Encode names the first value, in the order of the text it would write, that has no encoding: an empty string or key, or the type. Two errors with the same text are the same with the same numbers. False: that a piece message must have 4 bytes of payload, as DecodeMsgPiece says (it turns down 4 bytes with that text); that the payload length shown for a frame cut short is that of its payload (it is that of the frame and may be above the length asked for); that a path said not to exist does not exist. Never given by Decode: the errors of DecodeMsgPiece (it panics instead) and the one of FromBytes with the limits.", "quantifier": "all byte slices below 2^32 bytes, all bit counts, indices, torrents, worlds, all values with maps that have each key once", "why_tests_cant": "which of several faults is named, that limits shown are exact, and that a text means one fault are statements about all inputs", "anchors": ["src/p2p/message.go: Decode", "src/p2p/have.go: DecodeMsgHave", "src/p2p/request.go: DecodeMsgRequest", "src/p2p/piece.go: DecodeMsgPiece", "src/p2p/bitfield.go: DecodeMsgBitfield", "src/bf/bitfield.go: FromBytes", "src/bencode/encode.go: encode, encodeString, EncoderError.Error", "src/torrent/info/info.go: PieceLookup", "src/torrent/filesd/entry.go: PieceInfo", "src/torrent/fileio/fileio.go: Move, Close, write, read, WritePiece, PathError.Error"]}
{"id": "C120", "title": "The helpers of the tests do what the tests rely on", "statement": "If no system call fails and a descriptor is free, WriteTestFile of a clean path returns nil exactly when a file can be there (no directory is there and no file above it); then the file holds exactly data. It returns nil only if opening, writing and closing went well, and then too the file holds data. Whatever fails, no other file changes, nothing goes, only the file and directories above it come into being, and no descriptor is unaccounted for. For a path of plain names (a/b/c) CleanUpTestFile takes nothing but what is at or below the first name in the working directory, whatever fails, and all of that if it returns nil; so if there was nothing there, writing and cleaning up leave every file, content and directory as it was. CloseAndClean frees the descriptor and does the same; of a file closed before it returns an error and removes nothing. DummyHashes(n) is 20 n zero bytes for every sequence of calls with n >= 0, 20 n below 2^63 and the memory for it; it panics for negative n (down to -2^58). These helpers never panic. A test that gives its errors to CheckError makes all its calls, logs every error in order, and passes exactly if there was none; one that gives them to CheckFatal stops at the first error, which is the one logged. False: that a failing write gives the descriptor back (it is lost, with part of the data in the file); that cleaning up after an absolute path removes anything (it returns nil); after ./\u2026 it always fails; after ../\u2026 everything in the parent of the working directory is removed, and an error returned; that DummyHashes has length 20 n for every n (2^62 gives the empty string).", "quantifier": "all trees, paths, data, failures of system calls, remains of a failed removal; all sequences of DummyHashes calls", "why_tests_cant": "the tests use the helpers and do not test them; what is outside the files they write is never looked at", "anchors": ["src/utils/test/tutils.go: WriteTestFile, CleanUpTestFile, CloseAndClean, DummyHashes, CheckError, CheckFatal"]}
{"id": "C121", "title": "Symbolic links and the download directory", "statement": "A path leads where path_resolution(7) says, with at most 40 links; without links, where it says. Opening a file of a torrent (OCAT) through links does what opening it by a path without links does, and is an error that changes nothing if the path leads nowhere (a loop). If the name and the paths in the torrent are ordinary names and there is no link inside the directory W that the cleaned -w value leads to, every file of the torrent is inside W, however many links lead to W, and whatever happens (any failing call, any outcome) OCATAll leaves every file outside W as it was. W is the directory the given -w value leads to if that has no '..' in it. The same holds of the whole program, and then of whatever peers do to the running swarm. Links that are not on the way to any file (or to the torrent file) make no difference at all. False: that ordinary names suffice (a link inside the download directory takes a file out of it, and a file there is cut short); that W is the directory -w leads to if it has '..' after a link (filepath.Join cleans the text); that files of different paths are different files (a link makes two files of a torrent one).", "quantifier": "all torrents, -w values, current directories, tables of links, file systems, failures of system calls", "why_tests_cant": "tests run in directories without links; that nothing outside a directory is changed is a statement about all links", "anchors": ["src/torrent/info/info.go: FromDict", "src/torrent/fileio/fileio.go: OCAT, OCATAll", "src/utils/futils.go: OCAT, CreateZeroFilledFile", "src/swarm/swarm.go: NewSwarm", "src/main.go: main, CmdSwarm, CmdTorInfo"]}
{"id": "C122", "title": "Files with more than one name (hard links)", "statement": "On a file system where a file may have any number of names, OCATAll (with any table of symbolic links, any failing calls, any outcome) takes no name away and gives none to another file; new names are places of the torrent's files; and a file's content changes only if one of its names is a place the torrent's files are opened at. A file that is there and can be opened gets its size under all its names, and keeps what was there also if a later call fails. What FileIO holds for a path is the file at the place it leads to, and WritePiece changes no file but those held. So if the torrent's names are ordinary, no symbolic link is inside the download directory and no file has a name inside it and one outside, the whole program, and whatever peers do to it, leaves every file outside as it was. Move gives a file its new name instead of the old one and changes no other name, moves a link as it is, never changes content, refuses a path FileIO did not open, and changes nothing with an error; if the new name is already one of the file's it does nothing. Not true: that this holds when a file in the download directory has a name outside (it is cut short there too); that two files of a torrent which are one file are noticed (both pieces are written without error and the first is lost); that after a Move without error the old name is gone (another name of the file was the new one) or a file is at the new path (a relative link was moved to another directory).", "quantifier": "all file systems with any names for any files, tables of symbolic links, torrents, options, failures of system calls", "why_tests_cant": "tests never have two names for one file; that other files are not touched is a statement about all of them", "anchors": ["src/torrent/fileio/fileio.go: OCAT, OCATAll, Move, WritePiece, write", "src/utils/futils.go: OCAT, CreateZeroFilledFile, AppendZeros", "src/swarm/swarm.go: NewSwarm", "src/main.go: main, CmdSwarm, CmdTorInfo"]}
