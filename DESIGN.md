# Formal model of smigii/gotor in Rocq (Coq 8.16.1)

## Layout

All Coq files are in `rocq/theories/`, logical prefix `Verif`. For each area there are up to four files:

* `XModel.v`: executable Gallina model of the Go code. Every definition cites the file and lines it models.
* `XSpec.v`: the small independent specification the theorems are stated against.
* `XProofs.v`: lemmas.
* `PropsX.v`: the property theorems (each closed by `exact` of a lemma, or by a short derivation), an `Example` per
  property showing the hypotheses are met by a concrete non-trivial case, and `Print Assumptions` under each theorem.

`Base.v` holds bytes, Go integers, outcomes and slices. `seeded/LOG.jsonl` records the mutation tests.

Names: a theorem `Cxx_...` belongs to property Cxx of `properties.jsonl`. A name ending in `_refuted` states
`exists` a counterexample to the property one would expect (the part of the property text saying that the code
deviates). No theorem is `_partial`.

## Modelling conventions

* A byte is `Coq.Init.Byte.byte`; `[]byte` and `string` are `list byte`. Integers are `Z`. Where Go arithmetic can
  wrap and the wrap is observable, the wrap is written out (`u16`, `u32`, `u64`, `i64`, `add64`...).
* A Go call returns `res A`: `Ok a`, `Err e` (non-nil error), `Panic` (run-time panic that leaves the function) or
  `NoFuel` (a loop ran out of the explicit iteration bound). `NoFuel` never counts as a normal outcome: theorems either
  prove it does not occur for a stated bound, or prove it occurs for every bound (= the code does not terminate).
* A slice whose spare capacity matters is `gslice`: visible bytes plus the bytes between `len` and `cap`.
  Slicing is checked against `cap`, indexing against `len`, as in Go.
* A Go map is an association list in an arbitrary order; theorems quantify over the order.
* Pointers matter only in the doubly linked list: there a heap is a list of nodes and a pointer an index into it.
* Goroutines are labelled transition systems: a state, and one label per atomic action of a goroutine or of its
  environment; theorems quantify over all sequences of labels (all schedules).
* SHA-1 is a universally quantified function `sha1 : list byte -> list byte`; where the code relies on it, the
  hypothesis that its output has 20 bytes is stated in the theorem; C116_length discharges it for the model of
  crypto/sha1 (ShaModel), which C116_fips shows to be the function of the standard. No theorem assumes collision-freedom.
* The file system maps places (normalised paths) to inodes with contents. Every system call may fail, as directed by an
  explicit list of faults; a failing write may have transferred any prefix. A crash is a fault after which nothing runs.
* Reads of files and sockets deliver arbitrary amounts (schedules, chunkings).

## Trusted base

1. Coq 8.16.1's kernel, and its `vm_compute` conversion (used for closed computations). No kernel check is switched off.
2. `Print Assumptions` of every property theorem: **Closed under the global context**, i.e. no axioms at all. The list
   of theorems is at the end of this file and the command is under each theorem, so a build prints it. Of the standard
   library only axiom-free parts are used by the theorems (`List`, `ZArith`, `Lia`, `Bool`, `Arith`, `Byte`, `String`,
   `Sorting`/`Permutation`). Loading `Lia` and `ssreflect`-related library files makes seven parameters of
   `Coq.ssr.ssrunder.Under_rel` visible to a global listing; no theorem depends on them.
3. That the models below transcribe the Go code. This is by reading: the sandbox has no Go toolchain. Every definition
   names its source lines so it can be checked; the assumptions made about Go's library and run time are listed next.
4. The specifications (`*Spec.v`) and the theorem statements say what `properties.jsonl` says in words.

## Assumptions about the environment

* Go slices, maps, integers, strings, channels, `sync` and `defer` behave as the language specification says. Loops and
  recursion may use as much memory and stack as they want (a deeply nested bencoding kills the real process).
* Memory is sequentially consistent. For a program without data races Go promises that; this one has races on `wUsed`,
  on `phs` in `runListener` and on the header bytes of `swarm.Bf`, and no others (C107). The header bytes always get the
  same values. C100 takes `phs` word by word. A spin on `wUsed` may in a real execution see an old value for longer.
* `conn.Write` calls of different goroutines are not interleaved (package net serialises them), and once a Write has
  failed nothing more is sent on that connection (C79, C85-C88).
* A file's content is changed only by the modelled process (C35-C42, C77-C79); hard links only in C122, symbolic links only in C121 and C122; each
  `ReadAt`/`WriteAt` is atomic (FileIO takes a lock around each).
* `swarm.Bf` is not written after `Validate` (no code does).
* `net.ParseIP` is an arbitrary function except in C103, which models it as in Go 1.18; `strings.ToUpper` on non-ASCII text is an arbitrary function with the stated
  hypothesis `unicode_ok`; `rand.Source.Int63` is an arbitrary sequence of 63-bit values; `float64` arithmetic is exact
  where the numbers fit 53 bits and otherwise rounded to nearest even as in `f64` (C67).
* Packages `flag` and `strconv` (ParseUint, Atoi) are modelled as in Go 1.18 (C91, C65); they are not in the repository.
* `url.Parse` and the checks net/http makes before it opens a connection are in UrlModel (C106). Everywhere else the announce URL enters as its raw query or as unparsable, by an arbitrary function. Users (sent as a header), proxies and redirects are not modelled: an arbitrary function answers a URL and a query.

## What is modelled, per Go file

| file | modelled | not modelled |
|------|----------|--------------|
| bencode/encode.go, decode.go, dict.go | everything (BencodeModel); the errors of decode.go (DiagModel), dict.go (SayModel) and encode.go (TellModel) with their text | %T of a value with no encoding |
| bf/bitfield.go | everything (BitfieldModel; text of its errors: TellModel) | - |
| p2p/message.go, no_payload.go, have.go, bitfield.go, request.go, piece.go, keepalive.go | constructors, Length, Mtype, Encode, Decode* , DecodeAll (WireModel; text of their errors: TellModel), String methods (PrintModel) | - |
| peer/info.go, state.go | everything, with net.IP.String and net.SplitHostPort (PeerModel) | - |
| peer/list.go | String (PrintModel) | - |
| io/ratelimit.go | one direction of RateLimitIO: Write/Read, SetRate, resets (RateModel); both directions, Run, Stop and the ticker (RlioModel) | timeTotal (declared, never used) |
| io/readloop.go | Run, Ready, Finish, channels (ReadLoopModel), log lines (LogModel) | – |
| swarm/handshake.go | everything (HandshakeModel) | - |
| swarm/peerhandler.go | FromIncoming from the handshake read on, bytes sent by FromBootstrap and the address dialled, NewPeerHandler, Choke, Loop, recvLoop, requestLoop, createReqMessages, pingLoop, Key (HandshakeModel, PeerModel, PptModel, LoopModel, ReadLoopModel, SessionModel; all of them together: RunModel; deadlines and the ticker: TimeModel; several gotors connected to each other: NetModel; log lines: LogModel) | the TCP type assertion, what requestLoop prints on standard output |
| swarm/msghandler.go | everything (SwarmModel, PptModel, SessionModel; log lines: LogModel) | – |
| swarm/piecetracker.go | everything (PptModel, with atomic methods; LockModel with the mutex and interleaved steps) | - |
| swarm/swarm.go | NewSwarm, Start, runListener (StartModel; with directories and descriptors: BootModel), Validate (SwarmModel), String (PrintModel), the slice of handlers (PhsModel), log lines (LogModel) | the place of the "Listening" line |
| torrent/torrent.go | NewTorrent, FromTorrentFile (LayoutModel; with the text of its errors: SayModel), String (PrintModel; %v of a float is an arbitrary function) | - |
| torrent/info/*.go | everything (LayoutModel, CreateModel; CreateTorInfo over changing files and with failing calls in SeenModel) | - |
| torrent/filesd/*.go | everything (LayoutModel; text of PieceInfo's error: TellModel) | - |
| torrent/fileio/fileio.go | everything (FsModel, ConcModel; text of its errors: TellModel) | - |
| tracker/tracker.go | newRequest's query, do from the response body on, newResponse, both GetPeers (TrackerModel; text of their errors: SayModel), Get (StartModel), String methods (PrintModel) | http transport from the opening of a connection on (an arbitrary function from URL and query to a body or failure); before it UrlModel |
| tracker/stats.go | everything (TrackerModel) | - |
| utils/futils.go | everything (FsModel; with directories and descriptors: TreeModel; with symbolic links: LinkModel) | permissions |
| utils/utils.go | NewPeerId, Bytes4Humans, SegmentData, HashSlices, RemoveSwap (UtilsModel, CreateModel), Spinner (SpinModel), SHA1 (ShaModel, with crypto/sha1 of Go 1.18); elsewhere SHA1 is the parameter `sha1` | - |
| utils/opts.go | Validate, parseSizeUnits, initOpts, Port (UtilsModel); flag.Parse with the declared flags (FlagModel); what is printed for a bad command line, with the usage text (UsageModel) | quoting of values that are not ASCII |
| utils/ds/*.go | everything (DsModel) | - |
| main.go | main, CmdSwarm, CmdTorInfo (StartModel), standard output (PrintModel), the line of log.Fatal (SayModel) | – |
| utils/test/tutils.go | everything (HelpModel) | the descriptors os.RemoveAll uses meanwhile |
| *_test.go | - | the tests |

Simplifications inside the modelled parts are stated in the comment of the definition concerned.

## Method per area

| ids | model | method |
|----|-------|--------|
| C01-C07, C75 | encoder/decoder over Go values | inductive grammars (canonical and lenient) as specification; structural induction; sorting lemmas; fuel adequacy by induction on input length; simulation between spare capacities |
| C08, C09, C32-C34 | `FromTorrentFile`, `NewTorrent`, `FromDict`/`Bencode`, `filepath.Join`/`Clean` | corollaries of the codec theorems; split/join inverse; component-stack invariant; witnesses |
| C10-C13 | bitfield record over bytes | refinement to `list bool`; 256-case sweep for masks |
| C14-C22, C76 | frame encoder/decoder with uint32 wrap and slices | BEP 3 frame specification; induction over streams; fuel characterisation of the loop |
| C23-C25, C71 | handshake | exact characterisation; reads as an arbitrary first chunk |
| C26-C31, C72 | file list, piece info, piece map, with int64 wrap | loop invariants against the interval specification (global byte offsets) |
| C35-C42, C77, C78, C81, C82 | file system + FileIO + Validate + handleRequest + CreateTorInfo | refinement to one flat byte string; fault oracle for crash points; read-size oracle |
| C43-C49 | piece tracker over heap-allocated doubly linked lists; handlers | representation predicate; invariant over operation sequences; abstract history spec |
| C92 | running swarm (RunModel) seen by an independent BEP 3 downloader (LeechSpec) | frame parser inverts the sent stream; overwriting lemma per position; termination measure on unhandled messages and unwritten answers |
| C93 | CreateModel, LayoutModel, StartModel, RunModel composed; torrent text from BencodeSpec | canonical text of the info dictionary decodes to a permutation of it; files found equal to files created, then C92 |
| C94 | PrintModel (String methods, main's standard output) | reading the lines of a report back; separators do not occur in numbers, addresses, hexadecimal |
| C95 | TimeModel (clock, read deadline, ticker; one end against any peer, and two ends with bounded delay) | invariant: all that arrived is read or unread since the deadline was set; for two ends, something unread, on its way, or due arrives before the deadline |
| C96 | NetModel (RunModel nodes joined by byte streams, reads of any size) | invariant: with reads at message boundaries each node's undecoded input is the far end's remaining output, so it hears only openings and keep-alives; lifted from the per-node theorems of C85-C88 |
| C97 | StartModel, RunModel | frame: every io step of the start changes at most the file at one place, so the start changes only named places for any metadata; runs only read; C34 for containment; fuel bounds for termination |
| C98 | ProcModel (every goroutine of every connection, the channels, the shared buffer, the write lock, budget and ticker, the accept loop) | three refinement maps, to RunModel, ReadLoopModel and LoopModel; lock invariant; termination measure for the answers |
| C99 | ProcModel | invariant: no connection is ever removed and none closed; explicit visiting runs composed by induction on the sockets left |
| C100 | PhsModel (the three words of the slice and its arrays) | counting invariant on stored lengths; two-phase invariant for five; witnesses |
| C101 | `FromTorrentFile` on arbitrary bytes (LoadSpec says what a text states) | the grammar theorem C75 for the text, getters as membership, invariance under map order, the counting theorem of C21 |
| C102 | the whole program, `gotor` (WholeSpec) | composition of C91, C101, C83, C88, C98; a run of the process serving one newcomer built from C98's settling lemma |
| C103 | `net.ParseIP` (IpModel) against a grammar of address texts (IpSpec), and the address dialled | loop lemma both ways: what is taken is a text of groups, every text of groups is taken; round trip from C73's RFC 5952 |
| C104 | HostileSpec; LayoutModel, FsModel, StartModel | the piece-map loop unrolled for one file of any sign; success of OCAT and Validate inverted |
| C105 | LoopModel, ProcModel with sync.WaitGroup's own panics | inductive invariants over the handler's goroutines; one short run from any live state |
| C106 | UrlModel: net/url.Parse, http.NewRequest, the transport's checks | grammar in UrlSpec as inductive predicates; acceptance iff grammar; values of the parts; then tracker.Get and NewSwarm over it |
| C107 | RaceModel: events of every step of ProcModel; RaceSpec: happens-before and races | per location an invariant saying which earlier accesses every goroutine, lock and channel already knows of; conversely the shape of the paths into and out of a goroutine |
| C108 | TreeModel: FsModel's calls over a tree with directories, free and forgotten descriptors and a collector; TreeSpec: trees, fitting | each run is an FsModel run with some failures; effects of each call on the tree; induction over the files by splitting `fits`; counting |
| C109 | SeenModel: CreateTorInfo with the size told and the bytes read independent; SeenSpec: answers, contents that fill a torrent | splitting the files read so far from the rest; C31's table of NewTorInfo; pieces equal one by one make contents equal |
| C110 | SpinModel: events of Spinner; SpinSpec: a terminal's line, cursor and finished lines | induction over rounds; what a frame leaves on a line that is blank behind the longest picture |
| C111 | BootModel: NewSwarm, Get, Listen and main over TreeModel; BootSpec: a network that does not answer | simulation by StartModel with failures; step-by-step agreement where nothing fails; counting descriptors; C99 for the end |
| C112 | ProcModel; LimitSpec: bytes uploaded, bytes passed, ticks, greeting | invariant over runs (lock held by at most one, counter below limit plus a message, block buffers keep their size); potential argument with the bytes still owed |
| C113 | MemModel: ProcModel with a count of the bytes that cannot be given back and the rounds of createReqMessages | refinement to ProcModel; invariant; a run constructed from any live state |
| C114 | LogModel: ProcModel's and NewSwarm's steps with the lines they log | refinement to ProcModel; invariant relating counts of lines to program counters; text: list induction |
| C115 | DiagModel: the decoder with the cause and place of its errors | simulation with BencodeModel's; locality (what is read decides) and completion lemmas by induction on fuel, composed along the reader's binds |
| C116 | ShaModel: crypto/sha1 of Go 1.18 | the standard as a relation; the ring of 16 words against the schedule of 80, bitwise identities, the digest as a function of the bytes written; a collision of whole blocks (checked by computation) extended to every suffix |
| C117 | SayModel: loading and the announce with their errors and texts | agreement with LayoutModel/TrackerModel by a simulation of results; the spec lists fields in order and takes the first wrong one; texts told apart by their fixed parts |
| C118 | UsageModel: flag.Parse and Validate with reasons and texts | agreement with FlagModel by induction over the arguments; numbers too big as a relation on digits; quoting is prefix-free by a finite check over bytes |
| C119 | TellModel: the decoders, lookups and the encoder with reasons and texts | agreement with the models without reasons; frames by a closed form over the first five bytes; the encoder by induction, sorted permutation unique |
| C120 | HelpModel: the test helpers over TreeModel | effect of each call on the tree under any failures; removal as a filter closed upwards |
| C121 | LinkModel, LinkStartModel: path resolution through symbolic links, OCAT, NewSwarm and main on it | resolution as a relation that counts links; cleaned paths by their components; the files reached reduced to FsModel at an absolute path |
| C122 | LinkModel, LinkStartModel with files of several names (HardSpec); RenameModel: rename(2) of links and of such files | each call on an open file changes one inode; opening adds names and never moves one |
| C50-C55, C79, C80, C89 | rate limiter, read loop, peer loop, connection, concurrent piece accesses as transition systems | inductive invariants over all schedules; closed sets of states for the never-terminates claims |
| C83, C84 | NewSwarm, Start, runListener, tracker.Get, main over the file-system model | composition of the file, validation, codec and tracker theorems under an arbitrary fault oracle |
| C85-C88 | all connections of a running swarm as one transition system over the shared tracker and files | inductive invariant linking tracker, files and every connection's bytes; case analysis of every step; two-run induction for non-interference |
| C90 | calls on the piece tracker as interleaved small steps under the mutex | invariant relating the interleaved state to the sequential execution in release order; pigeonhole bound on list walks |
| C91 | flag.Parse and ParseUint composed with main | grammar of command lines and numbers; both inclusions |
| C56-C60 | tracker request/response, stats, form escaping | induction; escaping inverse |
| C61-C70, C73, C74 | utilities, peers | direct inductions, refutation witnesses; addresses (AddrSpec, AddrProofs): RFC 5952 as a relation, injective by splitting the text at colons |

## Validation of the model

The model was written by reading the Go source, so its fidelity is part of the trusted base. Two checks bear on it.

* The project's own unit tests are restated as closed examples and evaluated on the model by the kernel: `Conform.v`,
  `ConformPpt.v`, `ConformTorrent.v`, each example named after the Go test. `Sha1.v` is a SHA-1 written for this purpose (proved to be the one of the standard: C116_conform)
  (the theorems hold for every hash function). With it the model computes the infohashes of the project's torrent files
  (`test/*.torrent`), makes the same infohash from the files of `test/multifile.tar.gz`, finds every piece of that
  download good, and serves a block of it. Left out: the rows that need 50 MB and 1 GB files, and the tests that reach the network.
* The mutation tests in `seeded/LOG.jsonl`: edits of the model like realistic bugs, and the theorems that then fail.

## Property theorems

Every one of the following is "Closed under the global context" (checked with `Print Assumptions`).

| property | file | theorems |
|---|---|---|
| C01 | PropsBencode.v | `C01_encode_canonical` |
| C02 | PropsBencode.v | `C02_decode_encode`, `C02_min64_rejected`, `C02_roundtrip_refuted` |
| C03 | PropsBencode.v | `C03_decode_total` |
| C04 | PropsBencode.v | `C04_decode_canonical` |
| C05 | PropsBencode.v | `C05_encode_order_independent`, `C05_encode_injective` |
| C06 | PropsBencode.v | `C06_container_or_int_input`, `C06_non_string_value`, `C06_top_string_refuted` |
| C07 | PropsBencode.v | `C07_GetString`, `C07_GetInt`, `C07_GetDict`, `C07_GetList`, `C07_GetUint`, `C07_last_binding` |
| C08 | PropsInfo.v | `C08_infohash_raw_bytes`, `C08_empty_name_collision`, `C08_distinct_infohash_refuted` |
| C09 | PropsInfo.v | `C09_recomputed_infohash`, `C09_private_required`, `C09_one_entry_files_list` |
| C10 | PropsBitfield.v | `C10_vector`, `C10_negative`, `C10_Set_panics`, `C10_Get_panics`, `C10_spare_index_counts` |
| C11 | PropsBitfield.v | `C11_FromBytes`, `C11_FromBytes_rejects` |
| C12 | PropsBitfield.v | `C12_SetNbits_panics`, `C12_SetNbits_recounts`, `C12_boundary_counts_extra_byte`, `C12_recount_refuted` |
| C13 | PropsBitfield.v | `C13_Fill`, `C13_after_Fill`, `C13_Data5` |
| C14 | PropsWire.v | `C14_Encode`, `C14_Decode_Encode`, `C14_Decode_sound`, `C14_Length_Mtype` |
| C15 | PropsWire.v | `C15_DecodeAll_stream`, `C15_DecodeAll_partial_tail` |
| C16 | PropsWire.v | `C16_Decode_panics`, `C16_DecodeAll_panics` |
| C17 | PropsWire.v | `C17_diverges_iff`, `C17_otherwise_bounded`, `C17_termination_refuted` |
| C18 | PropsWire.v | `C18_Read_exact` |
| C19 | PropsWire.v | `C19_Encode_request`, `C19_wire_refuted`, `C19_own_encoding_lost`, `C19_Decode_request` |
| C20 | PropsWire.v | `C20_Encode_piece`, `C20_DecodeMsgPiece`, `C20_DecodeMsgPiece_refuses`, `C20_DecodeMsgHave`, `C20_DecodeMsgRequest`, `C20_Decode_never_piece`, `C20_Decode_piece_panics` |
| C21 | PropsWire.v | `C21_Decode_spare`, `C21_DecodeAll_spare` |
| C22 | PropsWire.v | `C22_boundaries`, `C22_cut_message_lost`, `C22_any_cut_refuted`, `C22_cut_hangs_refuted` |
| C23 | PropsHandshake.v | `C23_accepts_iff`, `C23_never_panics`, `C23_bad_infohash_length` |
| C24 | PropsHandshake.v | `C24_layout`, `C24_accessors`, `C24_valid_iff`, `C24_always_68` |
| C25 | PropsHandshake.v | `C25_accept_iff`, `C25_reply`, `C25_silent_on_bad`, `C25_short_id_accepted`, `C25_short_first_read` |
| C26 | PropsLayout.v | `C26_MakeFileList_spans`, `C26_empty_file_shifts_nothing` |
| C27 | PropsLayout.v | `C27_PieceInfo_intersection` |
| C28 | PropsLayout.v | `C28_PieceLookup_partition`, `C28_pieces_cover_contents` |
| C29 | PropsLayout.v | `C29_bad_hash_length`, `C29_number_of_hashes`, `C29_last_piece_exact`, `C29_surplus_hashes`, `C29_zero_piece_length` |
| C30 | PropsLayout.v | `C30_GetFiles`, `C30_span_has_byte` |
| C31 | PropsLayout.v | `C31_CalcNumPieces` |
| C32 | PropsInfo.v | `C32_dictionary_round_trip`, `C32_text_round_trip`, `C32_single_renamed_refuted` |
| C33 | PropsInfo.v | `C33_FromDict_terminates`, `C33_empty_path_panics`, `C33_FromDict_path_panic`, `C33_piece_length_zero_panics`, `C33_no_panic_refuted`, `C33_negative_length_refuted` |
| C34 | PropsInfo.v | `C34_contained`, `C34_local_path`, `C34_containment_refuted` |
| C35 | PropsFs.v | `C35_OCAT`, `C35_existing_kept`, `C35_transient_open_error_refuted`, `C35_negative_length_panics`, `C35_negative_length_refused`, `C35_OCATAll` |
| C36 | PropsFs.v | `C36_out_of_range`, `C36_bad_hash` |
| C37 | PropsFs.v | `C37_write_then_read`, `C37_any_history` |
| C38 | PropsFs.v | `C38_confined` |
| C39 | PropsSwarm.v | `C39_Validate`, `C39_faults`, `C39_open_and_validate` |
| C40 | PropsSwarm.v | `C40_served`, `C40_not_had`, `C40_panics_iff_past_piece_length`, `C40_stale_tail`, `C40_bad_index`, `C40_stale_refuted` |
| C41 | PropsSwarm.v | `C41_hashes`, `C41_large_pieces_diverge`, `C41_zero_piece_length_panics`, `C41_negative_piece_length`, `C41_far_below_zero_diverges`, `C41_any_reads`, `C41_missing`, `C41_read_error` |
| C42 | PropsSwarm.v | `C42_create_then_validate` |
| C43 | PropsPpt.v | `C43_bookkeeping`, `C43_no_such_piece`, `C43_bit_outside` |
| C44 | PropsPpt.v | `C44_rarest_first` |
| C45 | PropsPpt.v | `C45_not_exclusive`, `C45_exclusive_refuted` |
| C46 | PropsPpt.v | `C46_64th_peer`, `C46_largest_bucket_refuted` |
| C47 | PropsPpt.v | `C47_Unregister` |
| C48 | PropsPpt.v | `C48_handleBitfield`, `C48_wrong_size`, `C48_over_the_wire` |
| C49 | PropsPpt.v | `C49_diverges`, `C49_exactly_when_nonzero`, `C49_covering_refuted` |
| C50 | PropsRate.v | `C50_every_admission`, `C50_window`, `C50_written_bytes_refuted` |
| C51 | PropsRate.v | `C51_wedge`, `C51_otherwise_live`, `C51_no_ticks` |
| C52 | PropsRate.v | `C52_totals`, `C52_read_total_refuted`, `C52_limit` |
| C53 | PropsReadLoop.v | `C53_exclusive`, `C53_order`, `C53_looks`, `C53_never_wait`, `C53_whole_buffer`, `C53_data_with_error_refuted`, `C53_silent_end_refuted` |
| C54 | PropsReadLoop.v | `C54_deadline_after_end`, `C54_needs_data`, `C54_deadlock`, `C54_leak`, `C54_stuck` |
| C55 | PropsLoop.v | `C55_never_returns`, `C55_nil_send`, `C55_one_error`, `C55_second_error`, `C55_both_fail`, `C55_incomplete`, `C55_quiet_end`, `C55_wait_count`, `C55_wait_early_refuted` |
| C56 | PropsTracker.v | `C56_compact`, `C56_exactly` |
| C57 | PropsTracker.v | `C57_params`, `C57_any_url`, `C57_bare_url`, `C57_id_iff`, `C57_own_id`, `C57_peer_id_refuted`, `C57_bad_url_panics` |
| C58 | PropsTracker.v | `C58_response`, `C58_failure_reason`, `C58_body`, `C58_body_total`, `C58_negative_refuted` |
| C59 | PropsTracker.v | `C59_stats` |
| C60 | PropsTracker.v | `C60_left_is_zero`, `C60_left_refuted` |
| C61 | PropsSwarm.v | `C61_SegmentData`, `C61_positions`, `C61_bad_size_panics`, `C61_HashSlices` |
| C62 | PropsDs.v | `C62_lists`, `C62_remove_checks_nothing` |
| C63 | PropsDs.v | `C63_set`, `C63_Items`, `C63_Items_refuted` |
| C64 | PropsUtils.v | `C64_remove_swap`, `C64_panics` |
| C65 | PropsUtils.v | `C65_accepts`, `C65_only`, `C65_rejects`, `C65_exact`, `C65_wrap_refuted`, `C65_sign_refuted` |
| C66 | PropsUtils.v | `C66_shape`, `C66_terminates`, `C66_first`, `C66_diverges` |
| C67 | PropsUtils.v | `C67_small`, `C67_big`, `C67_float` |
| C68 | PropsUtils.v | `C68_validate`, `C68_start`, `C68_start_bad`, `C68_refused`, `C68_no_package_variable`, `C68_receiver_refuted` |
| C69 | PropsTracker.v | `C69_same`, `C69_ipv4_text`, `C69_ipv6_text`, `C69_rfc5952_injective`, `C69_any` |
| C70 | PropsTracker.v | `C70_choke_refuted` |
| C71 | PropsHandshake.v | `C71_reply_and_rest_dropped`, `C71_bitfield_lost_refuted` |
| C72 | PropsLayout.v | `C72_PieceHash` |
| C73 | PropsTracker.v | `C73_ipv4`, `C73_ipv6_refuted`, `C73_no_address`, `C73_dialled` |
| C74 | PropsTracker.v | `C74_flags`, `C74_MakeState`, `C74_initial_state_refuted` |
| C75 | PropsLenient.v | `C75_accepts`, `C75_only`, `C75_overrun`, `C75_unambiguous`, `C75_canonical_only_refuted` |
| C76 | PropsLenient.v | `C76_rejects`, `C76_error_or_message`, `C76_after_error`, `C76_gives_up`, `C76_skips_frame_refuted` |
| C77 | PropsSession.v | `C77_polite_peer_served`, `C77_every_answer_genuine`, `C77_bad_index_ends_session`, `C77_oversized_request_panics` |
| C78 | PropsSession.v | `C78_requestLoop_sends_nothing`, `C78_requestLoop_stuck`, `C78_received_piece_panics`, `C78_files_never_written` |
| C79 | PropsSession.v | `C79_connection_bytes`, `C79_stops` |
| C80 | PropsConc.v | `C80_alone`, `C80_bytes`, `C80_results`, `C80_read`, `C80_read_after_write`, `C80_torn_refuted` |
| C81 | PropsLife.v | `C81_Move`, `C81_Move_fails`, `C81_Move_then_write`, `C81_Close`, `C81_closed_pieces`, `C81_unopened_pieces`, `C81_CloseAll`, `C81_CloseAll_leaves_open_refuted` |
| C82 | PropsLife.v | `C82_CreateZeroFilledFile`, `C82_negative`, `C82_AppendZeros` |
| C83 | PropsStart.v | `C83_NewSwarm`, `C83_announce`, `C83_tracker_outcomes`, `C83_no_torrent`, `C83_files`, `C83_failed_start_changes_nothing_refuted`, `C83_torrent_file_kept_refuted` |
| C84 | PropsStart.v | `C84_main_swarm`, `C84_main_other`, `C84_swarm_fails`, `C84_info_status`, `C84_no_listen`, `C84_listener` |
| C85 | PropsRun.v | `C85_dies`, `C85_dies_iff`, `C85_at_most_63`, `C85_one_peer_kills`, `C85_polite_peers_harmless_refuted` |
| C86 | PropsRun.v | `C86_dialled_not_told`, `C86_accepted_told` |
| C87 | PropsRun.v | `C87_lawful`, `C87_own_messages`, `C87_files`, `C87_isolated`, `C87_started` |
| C88 | PropsRun.v | `C88_tracker`, `C88_never_forgotten`, `C88_next` |
| C89 | PropsRlio.v | `C89_directions`, `C89_apart`, `C89_throughput_written`, `C89_throughput_read`, `C89_resets`, `C89_stop_pairs`, `C89_can_stop`, `C89_refill`, `C89_lets_in_write`, `C89_lets_in_read`, `C89_idle`, `C89_idle_write_stuck`, `C89_idle_read_stuck`, `C89_new_unlimited`, `C89_new_set` |
| C90 | PropsLock.v | `C90_linearizable`, `C90_real_time`, `C90_waits`, `C90_released`, `C90_dies`, `C90_safe`, `C90_tracker`, `C90_next` |
| C91 | PropsFlag.v | `C91_number`, `C91_reads`, `C91_only`, `C91_program`, `C91_runs`, `C91_refused` |
| C92 | PropsLeech.v | `C92_never_wrong`, `C92_received`, `C92_served`, `C92_download`, `C92_started` |
| C93 | PropsRound.v | `C93_publishable`, `C93_text`, `C93_loaded`, `C93_seeded`, `C93_renamed_refuted` |
| C94 | PropsPrint.v | `C94_report`, `C94_distinct`, `C94_forged_refuted`, `C94_silent`, `C94_main`, `C94_state`, `C94_peers`, `C94_five`, `C94_response`, `C94_message` |
| C95 | PropsTime.v | `C95_quiet`, `C95_silent`, `C95_patient`, `C95_pings`, `C95_two`, `C95_two_refuted`, `C95_left`, `C95_late`, `C95_closed`, `C95_timely` |
| C96 | PropsNet.v | `C96_survive`, `C96_truth`, `C96_quiet`, `C96_files`, `C96_deaf`, `C96_whole`, `C96_large`, `C96_any_reads_refuted` |
| C97 | PropsSafe.v | `C97_start`, `C97_main`, `C97_running`, `C97_program`, `C97_contained`, `C97_ends`, `C97_contained_refuted`, `C97_accepted_starts_refuted` |
| C98 | PropsProc.v | `C98_swarm`, `C98_channels`, `C98_lawful`, `C98_handled`, `C98_dies`, `C98_dies_iff`, `C98_lock`, `C98_settles`, `C98_zero_limit` |
| C99 | PropsSock.v | `C99_sockets`, `C99_never_fewer`, `C99_few`, `C99_visitors`, `C99_silent`, `C99_asks_forever`, `C99_five`, `C99_takes_one`, `C99_busy` |
| C100 | PropsPhs.v | `C100_one_by_one`, `C100_one_by_one_safe`, `C100_length`, `C100_five_safe`, `C100_steps`, `C100_never_waits`, `C100_five_finish`, `C100_safe_refuted`, `C100_kept_refuted` |
| C101 | PropsLoad.v | `C101_loaded`, `C101_unique`, `C101_exactly`, `C101_no_files`, `C101_zero`, `C101_pathless`, `C101_refused` |
| C102 | PropsWhole.v | `C102_served`, `C102_starts`, `C102_newcomer`, `C102_seeds` |
| C103 | PropsIp.v | `C103_parse`, `C103_none`, `C103_round_trip`, `C103_round_trip_4`, `C103_dialled`, `C103_peers`, `C103_named_refuted` |
| C104 | PropsHostile.v | `C104_one_file`, `C104_started`, `C104_crash`, `C104_total_wraps_refuted` |
| C105 | PropsWait.v | `C105_two_started`, `C105_panics`, `C105_in_time`, `C105_late`, `C105_visitor_refuted` |
| C106 | PropsUrl.v | `C106_parses`, `C106_refuses`, `C106_parts`, `C106_asked`, `C106_unreachable`, `C106_crash`, `C106_needs_http`, `C106_start_fails`, `C106_bad_announce_reported_refuted`, `C106_udp_tracker_refuted` |
| C107 | PropsRace.v | `C107_executions`, `C107_records`, `C107_greeting`, `C107_only_races`, `C107_connections_race`, `C107_limiter_race`, `C107_late_start_race`, `C107_no_races_refuted` |
| C108 | PropsTree.v | `C108_loaded_clean`, `C108_opens`, `C108_any`, `C108_refines`, `C108_nested_refuted`, `C108_tree`, `C108_calls_refine`, `C108_move`, `C108_move_works`, `C108_move_safe`, `C108_account`, `C108_all_account`, `C108_too_few`, `C108_close`, `C108_leak_refuted`, `C108_emptied_refuted` |
| C109 | PropsSeen.v | `C109_still`, `C109_exactly`, `C109_made`, `C109_fills`, `C109_fails`, `C109_read_error`, `C109_descriptors`, `C109_large_pieces_diverge`, `C109_grown_refuted`, `C109_shrunk_refuted` |
| C110 | PropsSpin.v | `C110_done`, `C110_never`, `C110_safe`, `C110_late`, `C110_screen`, `C110_final`, `C110_clean_end_refuted` |
| C111 | PropsBoot.v | `C111_refines`, `C111_main`, `C111_any`, `C111_starts`, `C111_exactly`, `C111_too_few`, `C111_none`, `C111_listens`, `C111_no_listener`, `C111_started_listens_refuted`, `C111_nested_refuted`, `C111_life` |
| C112 | PropsLimit.v | `C112_used`, `C112_passed`, `C112_upload`, `C112_strict_refuted`, `C112_greeting_refuted` |
| C113 | PropsMem.v | `C113_refines`, `C113_fits`, `C113_dies`, `C113_round`, `C113_complete`, `C113_enough`, `C113_visitors`, `C113_making`, `C113_makes`, `C113_making_dies`, `C113_seeder`, `C113_seeder_kills`, `C113_memory_refuted` |
| C114 | PropsLog.v | `C114_refines`, `C114_lift`, `C114_state`, `C114_names`, `C114_decoded`, `C114_registered`, `C114_keepalives`, `C114_never`, `C114_clients`, `C114_lines`, `C114_boot`, `C114_keepalive_refuted`, `C114_forged_refuted` |
| C115 | PropsDiag.v | `C115_same`, `C115_place`, `C115_final`, `C115_byte`, `C115_truncated`, `C115_text`, `C115_number`, `C115_end_refuted`, `C115_hopeless_refuted` |
| C116 | PropsSha.v | `C116_fips`, `C116_conform`, `C116_writes`, `C116_padded`, `C116_length`, `C116_valid`, `C116_refused`, `C116_infohash`, `C116_collision`, `C116_twins`, `C116_same_torrent`, `C116_only_twins`, `C116_seeded`, `C116_genuine_refuted` |
| C117 | PropsSay.v | `C117_same`, `C117_same_answer`, `C117_file`, `C117_first`, `C117_answer`, `C117_reason`, `C117_tells`, `C117_path`, `C117_path_format`, `C117_path_other`, `C117_kind`, `C117_fatal`, `C117_source_refuted`, `C117_missing_refuted`, `C117_both_refuted`, `C117_nil_refuted`, `C117_percent_refuted`, `C117_peers_refuted`, `C117_want_refuted` |
| C118 | PropsUsage.v | `C118_flags`, `C118_values`, `C118_only`, `C118_silent`, `C118_tells`, `C118_panic_tells`, `C118_apart`, `C118_usage`, `C118_form`, `C118_wd`, `C118_text`, `C118_number`, `C118_quoted`, `C118_quoted_one`, `C118_which_refuted`, `C118_range_refuted`, `C118_helped_refuted` |
| C119 | PropsTell.v | `C119_frames`, `C119_decode`, `C119_bits`, `C119_limits`, `C119_lookup`, `C119_entry`, `C119_write`, `C119_refused`, `C119_path`, `C119_opened`, `C119_encode`, `C119_encodes`, `C119_texts`, `C119_piece_refuted`, `C119_piece`, `C119_cut_refuted`, `C119_exists_refuted`, `C119_never` |
| C120 | PropsHelp.v | `C120_write`, `C120_write_iff`, `C120_write_faults`, `C120_write_others`, `C120_write_nil`, `C120_write_leak_refuted`, `C120_round`, `C120_clean`, `C120_close_clean`, `C120_closed`, `C120_absolute_refuted`, `C120_dot_refuted`, `C120_parent_refuted`, `C120_dummies`, `C120_memory`, `C120_negative`, `C120_wraps_refuted`, `C120_no_panic`, `C120_CheckError`, `C120_CheckFatal`, `C120_CheckFatal_passes` |
| C121 | PropsLink.v, PropsLinkStart.v | `C121_leads`, `C121_no_links`, `C121_same_as`, `C121_loop`, `C121_elsewhere`, `C121_contained`, `C121_outside`, `C121_directory`, `C121_link_inside_refuted`, `C121_directory_refuted`, `C121_two_are_one_refuted`, `C121_program`, `C121_same_program`, `C121_program_refuted` |
| C122 | PropsHard.v, PropsRename.v | `C122_names`, `C122_new`, `C122_kept`, `C122_there`, `C122_resized`, `C122_outside`, `C122_program`, `C122_holds`, `C122_write`, `C122_outside_refuted`, `C122_written_refuted`, `C122_entry`, `C122_Move_file`, `C122_Move_link`, `C122_Move_any`, `C122_Move_refused`, `C122_Move_same`, `C122_Move_gone_refuted`, `C122_Move_there_refuted` |
