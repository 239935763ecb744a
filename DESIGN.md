# Formal model of lkmio/avformat in Rocq (Coq 8.16.1)

## Approach

* The Go source is read as text and transcribed, function by function, into total computable Gallina
  functions (`rocq/theories/*Model.v`, plus the `Base.v` vocabulary of Go operations). Every definition cites
  the file and lines it models.
* Properties are stated against small independent specifications (`*Spec.v`: lists of bits, lists of NAL
  units, FIFO lists, rational numbers, event traces) and proved in `*Proofs.v`.
* `Properties*.v` contain the final theorems, one witness `Example` per theorem on a concrete non-trivial case, and
  `Print Assumptions`. Some keep a short proof in place, the others are closed by a lemma of `*Proofs.v`.
* If the faithful model violates a property, `..._refuted` exhibits a concrete counterexample and
  `..._partial` proves the property under the weakest condition found. Both are listed in MANIFEST.json.

## Conventions of the model

* Go `int`, `uint`, bytes: `Z`. Wrap-around is written explicitly (`mod 2^64`, `mod 2^8`, ...) wherever the
  code can overflow and the property depends on it. Byte slices are `list Z` with the hypothesis
  `bytes_ok` (all elements in [0,256)) where it matters.
* A Go call has one of the outcomes `Ok v` (normal return, nil error), `Err` (non-nil error), `Panic`
  (run-time panic or failed utils.Assert), `NoFuel` (loop fuel exhausted: theorems exclude it explicitly).
* A slice is a list when aliasing is irrelevant. Where aliasing is the property (block buffers), there is an
  explicit heap of arrays and slices are (array, offset, length) triples.
* Slices are assumed to have cap = len when a slice expression could reach beyond len. The three functions for which a caller
  could pass a slice with spare capacity are treated without this assumption in `CapModel.v` (C110).
* Sorting (`sort.Slice`, unstable) and map iteration order are quantified over: theorems hold for every
  function that returns a sorted permutation / every order.
* Error messages and printing are not modelled, except for the logging handler (C151).

## Per-property plan

| id | what is modelled | how it is proved |
|----|------------------|------------------|
| C01-C03 | ReadBits/WriteBits loops, BitsReader/BitsWriter | refinement to `list bool`; loop induction |
| C04-C07 | bytesBuffer.peekN with int64 wrap, all typed reads/writes | invariant over op sequences; round trip by induction on the op list |
| C08-C10 | GolombBitReader state (buffered byte, bits left, rest) | abstraction to the list of unread bits; code-word induction; ReadSE refuted for negative values |
| C11,C12 | ringBuffer / Queue as array + head/tail/size | refinement to lists by induction over op sequences |
| C13 | LinkedList as heap of nodes with next pointers | refinement with a path invariant tolerating stale pointers |
| C14 | atomic int32 counter, goroutines as interleaved steps with ownership | invariant counter = sum of owned references over all schedules |
| C15-C18 | DirectBlockBuffer over a heap of arrays | refinement to a list of blocks; SplitOff usability refuted |
| C19-C21 | RBBlockBuffer over a heap of arrays | geometric invariant (non-wrapped / wrapped); general claims refuted by exact-fill and double-growth histories, proved without them |
| C22-C24 | StreamsBuffer, DirectDataPipeline | frame lemma; refinement to a byte list |
| C25-C38,C75 | FindStartCode, SplitNalU, converters, IsKeyFrame, extraction | first-occurrence spec; induction over NAL lists and over fuel |
| C39-C45 | decoder configuration records, Mp4ToAnnexB, nal2rbsp | round trips by induction over the parameter-set lists |
| C46-C48 | both ParseSPS functions bit for bit | symbolic execution of the parser over the encoder's bit list |
| C49-C52 | ADTS / AudioSpecificConfig bit packing | bit arithmetic by `Z.testbit`/div-mod lemmas |
| C53-C55 | ConvertTs in IEEE-754 binary64 (Flocq) | Flocq correctness lemmas, rounding monotonicity, error bounds |
| C56-C60 | packet conversion with its caches, codec data, packet pool | composition of the converter theorems |
| C61-C72 | TrackManager, BaseMuxer, BaseDemuxer as a state machine emitting events | invariants by induction over op sequences, parametric in sort/map order |
| C73,C74 | random helpers over an arbitrary random source; String() | case analysis; decimal printing injectivity |
| C76,C87,C88 | file handler over a disk with file offsets; attached to the demuxer | composition of write effects; name injectivity; duplicated parameter sets and untruncated files refuted |
| C77 | SplitOff promoted to RBBlockBuffer | refuted: nextOffset is never advanced by RBBlockBuffer; exact effect of the writes after it |
| C78 | FindStartCodeWithReader | from C25 |
| C79 | HEVC record lists with Go's append aliasing | heap of arrays with capacity; the SPSList bug refuted, the rest by induction; SPSList exactly, by following which slot the two lists share |
| C80,C81 | AudioSpecificConfig, AAC frame duration | bit arithmetic; Flocq |
| C82-C84 | ParseSPS on escaped payloads, totality, codec data | refuted by a witness / induction over fuel / composition |
| C85 | backing arrays of RingBuffer and Queue after removals | invariant on slots; PopBack refuted by a witness |
| C86 | blocks released with AutoFree, over the pipeline FIFO of `DeliverySpec.v` | invariant "blocks left = packets waiting"; refuted for non-ascending timestamps |
| C89-C95 | what accepted packets and created tracks hold (`TrackSpec.v`) | one lemma per step (`step_made`), origin of every track and of its extra data; refuted for a buffer that changes codec and for tracks without packets |
| C96 | RBBlockBuffer under a load bound stated on the FIFO (`RoomSpec.v`) | gap-free layout invariant (`room`): whenever the blocks wrap, the oldest one starts in the upper half |
| C97 | demuxer, StreamsBuffer and shared memory together (`SystemSpec.v`) | simulation: FIFO invariant of C96 per buffer, one ghost block per waiting packet; the packets a call delivers are a permutation of the oldest blocks |
| C98 | LinkedList with negative indices | simulation by a list plus the element the last node still points to; C98_exact for all histories by three lists (counted, hidden, still linked) |
| C99 | Marshal, exactly, for all inputs | [fill]: sets in order into a bounded room; the byte writer of the model simulated by [mkw] |
| C100 | demuxer before SetHandler and after Close | the same call compared with and without handler ([muted]) for every function of the demuxer |
| C101 | all methods of RBBlockBuffer | blocks stay inside the array whatever the order of calls (`wfs`); case analysis on the four ways Alloc can go |
| C102 | StreamsBuffer | invariant of C22 and C101 per buffer |
| C103 | DirectDataPipeline over a heap | the live array and the slices into it are followed through each call (`live`, `prefix_of`, `frozen`) |
| C104 | packets there and back | composition of C56, C57 and C59; for H.265 the record's length size is computed from the written header |
| C105 | Data and AvailableBytes of both block buffers | tally of blocks and bytes (`since`) simulated by induction; case analysis of the ring's Alloc |
| C106 | the slice returned by Alloc | an Alloc is a Write of the bytes the memory holds (`hcopy_id`); the live array followed through the writes |
| C107 | BitsReader and BitsWriter at every offset | reduction of negative offsets to offset 0; C01, C02 |
| C108 | the open block of RBBlockBuffer | invariant: only the last block can be open and it reads as the bytes written |
| C109 | memory after a Write to RBBlockBuffer | the three cases of Alloc with a frame condition; the array put together from three reads |
| C110 | slices whose capacity exceeds their length | variants of three functions with the spare elements as an argument; induction over the loop against the plain model |
| C111 | which blocks an RBBlockBuffer has after any calls | a ledger of held blocks with their place (in the array, set aside by a growth, released early); invariant over all calls |
| C112 | which held blocks of an RBBlockBuffer stay intact | the same ledger with the layout of the ring and frame conditions |
| C113 | the bit strings avc.ParseSPS accepts | sets of bit strings (`form`); each reader is exact for its form, and exactness composes |
| C114 | the bit strings hevc.ParseSPS accepts | the same, with the sub-layer flags and their sizes |
| C115 | demuxer, StreamsBuffer and shared memory with growths | the invariant of C19/C20 per buffer; every array belongs to one stream, so that a write of another stream leaves its ring and the slices set aside alone |
| C116 | codec parameters from a record | composes the record layouts with C79 and the SPS parsers; equivalence in both directions |
| C117 | file handler, failing file system | a fault oracle per system call; simulation of the fault-free handler up to the first fault |
| C118 | file mode | bits of a constant and the umask |
| C119 | block buffers on the real queue | simulation between block pointers in the ring queue and a list of blocks; equal traces |
| C120 | demuxer over linked lists and the packet pool | simulation: pointers into a packet memory, linked-list nodes and the pool against lists of packets |
| C121 | packets kept by the handler | the set of delivered pointers stays disjoint from the lists and the pool |
| C122 | demuxer, StreamsBuffer and file handler together | composition of C115 and C88: every OnPacket reads the slice in the shared memory |
| C123 | Unmarshal into a used record | state returned with the error; units read from plain lists of bytes as specification |
| C124 | refused packets | accepted packets per buffer are a suffix of the calls; invariant over histories |
| C125 | from the calls to the file, video included | C122 with C124 and the contents of the parameter sets (C94) |
| C126 | where track parameters come from | C124 plus the origin of the data of every track; makes C125 independent of model state |
| C127 | recording of flv | the general file theorem file_by with the conversion of C56 and the headers of C116 |
| C128 | recording without failure | totality of every step (DemuxProofs) and of the conversion (C56, C58), session_total, transferred by C122 |
| C129 | units in, units out | C128 for success, C124/C126 for the track, C125/C127 for the file, C26 for taking it apart |
| C130 | order of first packets | invariant: track numbers seen = 0..number of lists - 1 as long as they come in turn |
| C131 | choices of the runtime | relation between two runs, kept by every call |
| C132 | sums of durations | telescoping over the stamped packets of C66/C67, alignment from C130 |
| C133 | flv recordings, H.265 | C56_hevc_packet_exact and C116 lifted to sessions, C130 for the order of streams |
| C134 | recordings and runtime choices | C131 up to `untyped`, writes_of is a function invariant under it, C88/C122 for the files |
| C135 | from ts/ps to flv | C124/C126 for the track, C56/C104 for the conversions, C129/C133 for the second session, chained by a choice of units per payload |
| C136 | from flv to ts/ps | C130 for the flv session, C56 for the conversion, C129 for the second session, chained by a choice of units per payload |
| C137 | load of the stream buffers | what waits by C64/C66 and the acceptance of packets (C124); call by call this gives the load bound of C97 |
| C138 | demuxer on a DirectDataPipeline | shared memory; every held slice is followed through the blocks written after it, the multiset of held slices through C64's conservation |
| C139 | handlers that call the demuxer | ReentModel: the callbacks execute a list of calls; a flow relation with the packets in flight, closed under nesting by induction on the depth |
| C140 | moved times and renamed buffers | a relabelling of packets, hooks, choices, calls and events that commutes with every model function |
| C141 | streams after the probe | simulation: the run without the other packets keeps the same state except for the other lists |
| C142 | bytes of known streams | a change of the bytes commutes with every model function but the extraction of parameters and the estimates |
| C143 | a second session after Close | composition of runs; the results on call order and durations apply to the joined session |
| C144 | one track's file and the other streams | C141 and C88 joined: equal delivered packets of the track give equal writes |
| C145 | several demuxers, one packet pool | simulation of C120, with the packets of the other demuxers among those that must not change |
| C146 | what each call delivers | the lists of C66 before and after one call |
| C147 | every call returns | a measure for each loop; the rest by induction on the definitions |
| C148 | refused packets leave no trace | case analysis of one call; induction on the session |
| C149 | bytes after the part that is read | the exact grammars of C40, C43, C113, C114; induction on the search |
| C150 | recording over a DirectDataPipeline | the file handler on packets with the bytes of C138; one more call appends copies of the newest block |
| C151 | log of a session | callback order of C63; every line is read back from the left, its fields end at a blank or a line end |
| C152 | joined access units | the first start code of a ++ b is that of a, or the one at the joint; induction over the units found |
| C153 | bit fields next to each other | bit by bit from C107; byte lists with the same bits are equal |
| C154 | durations converted one by one, times converted back | error bounds of C54 and C55 added up |
| C155 | key frames and parameter sets of joined access units | start codes of a joined string are those of the parts (JoinProofs) |
| C156 | bit reader over any io.Reader | simulation with the reader over a list of bytes, method by method |
| C157 | demuxer with recovered panics | model that returns state and events also on a panic; the events of the whole call cut at the callback |
| C158 | block buffers with recovered panics | model that returns the state also on a panic, assignments in source order; equality of histories with those in which failing calls change nothing |
| C159 | file handler with recovered panics | model that returns the state also on a panic (HandlerFaultModel), folded over the callbacks; inductive specification of the stored bytes |
| C160 | demuxer and file handler with recovered panics | the handler's model (C159) decides at which callback the recovering demuxer model (C157) panics; invariant on the shape of all callbacks |
| C161 | cursors and containers with recovered panics | models that return the state left behind also on a panic; equal to the plain ones on reachable states (ring invariant, chain invariant of C98_exact) |
| C162 | reading and writing again | exact Marshal (C99) applied to exact Unmarshal (C40, C79); an ADTS header is the sum of its fields |
| C163 | joined mp4 samples | exact results for units (C44, C33); a sequence of length-prefixed units is determined by its bytes |

## What is modelled, file by file

| model | Go source |
|-------|-----------|
| `BufioModel.v` | bufio/bits_reader.go, bits_writer.go, util.go, bytes_buffer.go, bytes_reader.go, bytes_wirter.go, golomb_reader.go |
| `CollectionsModel.v` | collections/ring_buffer.go, queue.go, linked_list.go, reference_counter.go |
| `BlockModel.v` | collections/block_buffer.go, buffer_direct.go, buffer_rb.go, streams_buffer.go, direct_pipeline.go |
| `PipeModel.v` | direct_pipeline.go again, with its memory visible |
| `NaluModel.v` | avc/avc.go, avc/util.go, hevc/hevc.go, hevc/util.go |
| `RecordModel.v` | avc/mp4.go, hevc/mp4.go, M4VCExtraDataToAnnexB of avc/util.go |
| `AacModel.v` | utils/aac_util.go, ExtractAudioExtraData of video_stream.go |
| `UtilModel.v` | utils/random_util.go, the String methods of utils/codec_id.go and utils/av_util.go |
| `FloatModel.v` | ConvertTs (packet_utils.go), the timestamp accessors of av_packet.go, the frame rate of avc/sps.go, ComputeAACFrameDuration |
| `SpsModel.v` | avc/sps.go, hevc/sps.go |
| `PacketModel.v` | av_packet.go, packet_utils.go, av_stream.go, codec_paraments.go, video_stream.go, tracks.go, muxer.go |
| `DemuxModel.v` | demuxer.go |
| `HandlerModel.v` | the file handler of handler.go, with a model of the files it writes |
| `HandlerFaultModel.v` | the same handler on a file system that may refuse any OpenFile or Write (a Write possibly after storing a part), and the mode of new files |
| `BlockQueueModel.v` | the same block buffers once more, with their blocks behind pointers in the ring queue of `CollectionsModel.v`; C119 proves that they behave as in `BlockModel.v`, which has a list of blocks |
| `DemuxPtrModel.v` | the demuxer once more, with `Packets` as linked lists of pointers into a memory of packets and the packet pool; C120 proves that it behaves as in `DemuxModel.v`, which has lists of packets |
| `SharedPoolModel.v` | any number of the demuxers of `DemuxPtrModel.v` on one memory and one packet pool, their calls interleaved as wholes. For calls that overlap in time (each demuxer in its own goroutine) order them by the moment of their `PacketPool.Get`, or their start if they have none: a call gets a packet before it frees any, so everything a `Get` can return has been freed by a call that comes earlier in this order |
| `ReentModel.v` | the demuxer once more, with a handler that may call the demuxer during each callback; C139 proves that it is `DemuxModel.v` when the handler does not |
| `RecordingModel.v` | the demuxer on stream buffers (`SystemSpec.v`) with the file handler attached (handler.go:49-88 called by demuxer.go:292-301) |
| `BorrowSpec.v` | the demuxer on a DirectDataPipeline (`PipeModel.v`) |
| `LendFileModel.v` | the demuxer on a DirectDataPipeline with the file handler attached |
| `GolombSourceModel.v` | golomb_reader.go once more, over any io.Reader; C156 reduces it to `BufioModel.v`, which has the bytes of a bytes.Reader |
| `RecoverModel.v` | demuxer.go once more, returning state and events also when a call panics, with callbacks that may panic; C157 ties it to `DemuxModel.v` |
| `LoggerModel.v` | the logger of handler.go, with what it prints as strings |
| `RecordStateModel.v` | the two Unmarshal functions once more, with the receiver in any state and returned also on errors; C123 proves that they agree with `RecordModel.v` |

Not modelled, because they only read or write one field, print, or are not used: TrackManager.Size, DTS/PTS.Value,
SPS()/PPS() getters, ReferenceCounter.Get and ResetData, SimpleTrack, the HookState and MP3Header
declarations, avc.CodecData, the commented-out code
of hevc/parser.go, AVPacket.createdTime (a clock reading nothing depends on).

`SmallProofs.v` holds no claims. It decides by computation that a concrete session is small enough for its stream buffers, so that
the examples about recordings need not execute the rings of several megabytes (this keeps `coqchk` fast).

## Assumptions of the model

* The reading of the Go source reflected in the model: nothing is extracted or run against the Go code. `int` and `uint` are
  64 bits wide.
* Memory never runs out. Block buffer offsets and sizes are unbounded integers: a size near 2^62 exhausts memory first.
* Input and output slices of the converters are different arrays (the callers always allocate the destination). OnBufferAlloc
  returns memory of the requested length that is disjoint from the packet data (`alloc_ok`).
* Growth of `append` is a parameter (`grow`), since HEVC Unmarshal appends to a slice that shares its array with another one.
  After parsing, the record's lists are only read and are kept by value.
* bytes.Replace replaces non-overlapping occurrences from the left (`nal2rbsp`).
* Floating point: float64/float32 are IEEE 754 binary64/binary32 with round to nearest even (`SpecFloat`); no fused
  multiply-add. An out-of-range float to integer conversion is `None`; in the demuxer it is an arbitrary value (`or_ms`).
* rand.Intn(n) returns an arbitrary value of 0..n-1. Nothing is said about distribution.
* sync.Pool: Get returns a fresh packet or any packet put before; only FreePacket puts packets.
* sync/atomic: each operation of the reference counter is one atomic step; schedules are arbitrary interleavings.
* sort.Slice returns some sorted permutation; map iteration order is arbitrary.
* A failed ParseSPS returns an error without the partially filled struct (no caller looks at it).
* The file handler's opens and writes succeed, except in C117. A Write that returns no error has stored all its bytes.
* The demuxer: the handler does not call back into the demuxer, except in C139; the hook does not either. DataPipeline is set and its calls
  return; tracks are only added through the demuxer's own methods; the PreprocessPacket hook is a function from packet to
  packet; a panic ends the history, except in C157
  (`RecoverModel.v`), whose caller recovers: there the deferred DiscardBackPacket is an event.
* Slices with spare capacity: cap = len is assumed where a slice expression could reach beyond len, except in C110, which covers
  the three functions where it makes a difference (all other such slices come from `make` or from slicing to the end).

## Trusted base

* Coq's kernel, 8.16.1. No axiom, parameter, unchecked definition, plugin, functor or module type of ours.
* `vm_compute` is used for finite tables and for concrete witnesses; it is part of the kernel.
* `Print Assumptions` follows every property theorem in `Properties*.v`. All are "Closed under the global context" except the
  floating-point ones:

  C53_convert_monotone, C54_convert_accuracy_partial, C55_convert_exact_partial, C81_aac_duration_refuted,
  C81_aac_duration_partial, C68_90khz_partial, C46_avc_fps, C154_back, C154_back_exact, C154_back_90khz,
  C154_durations

  which go through Reals and Flocq 4.1.0 (whose theorems are proved, not assumed) and use exactly these axioms of the standard library:
  * `ClassicalDedekindReals.sig_not_dec`
  * `ClassicalDedekindReals.sig_forall_dec`
  * `FunctionalExtensionality.functional_extensionality_dep`
  * `Classical_Prop.classic`
* `coqchk -o` additionally lists opaque fields of standard library module types loaded with Reals and ssreflect:
  `Coq.Reals.Rdefinitions.RbaseSymbolsImpl.*`, `Coq.Reals.Rdefinitions.RinvImpl.*`, `Coq.ssr.ssrunder.Under_rel.*`. They are sealed
  definitions, not axioms.

## Testing the theorems

`seeded/LOG.jsonl` records wrong programs tried in scratch copies of the development: one definition of a model is edited, everything
that depends on it is rebuilt, each proof that no longer goes through is replaced by `Admitted` in the scratch copy, and the
theorems whose `Print Assumptions` then mention one of these are listed in the log as failed.

`ModelTests.v` runs the repository's own tests (its `*_test.go` files) on the model. The two decoder configuration records in them come
from real streams. These are tests of the model, not properties. `hevc/util_test.go` is left out: its input file is not in the repository.
