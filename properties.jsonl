{"id": "C01", "title": "IntervalMap: the last write covering a key wins", "statement": "After any sequence of Set(start,limit,v), ClearInterval(start,limit) and Clear calls, Lookup(k) returns exactly the value of the most recent call whose half-open range [start,limit) contains k (nothing if that call was a clear or there is none), and keys outside a call's range are unaffected by it. A call with start >= limit aborts the process.", "quantifier": "every sequence of map operations, every 64-bit key, every value type", "why_tests_cant": "the splitting of partially overlapped intervals depends on the whole history of earlier calls; tests sample a few overlap shapes", "anchors": ["src/intervalmap.h: IntervalMap::Set, IntervalMap::ClearInterval, IntervalMap::Clear, IntervalMap::Lookup"]}
{"id": "C02", "title": "IntervalMap: stored intervals are non-empty, sorted and pairwise disjoint", "statement": "After any sequence of operations, the intervals the map exposes are non-empty, strictly sorted by start and pairwise disjoint, so each key is in at most one of them, and Size() is their number.", "quantifier": "every sequence of map operations", "why_tests_cant": "an invariant over all histories", "anchors": ["src/intervalmap.h: IntervalMap::Set, ClearInterval, RemoveInterval, Size"]}
{"id": "C03", "title": "IntervalMap: FindNext", "statement": "FindNext(key) returns the first stored interval whose start is greater than key, with its exact bounds and value, and reports false exactly when there is none. (The header's documented claim that it also returns the interval containing key is false: refuted by a witness.)", "quantifier": "every reachable map, every key", "why_tests_cant": "relation between a search and the full content of an arbitrary map", "anchors": ["src/intervalmap.h: IntervalMap::FindNext"]}
{"id": "C04", "title": "Buffer reader never reads outside its buffer and is all-or-nothing", "statement": "For any buffer, any position and any requested size (including sizes close to 2^64), ReadData/ReadUint32/ReadUint64/ReadString/ReadDataString either fail and leave the position unchanged, or deliver exactly the bytes at the position, all inside the buffer, and advance by exactly that many bytes. SeekSet succeeds exactly for offsets inside or at the end of the buffer.", "quantifier": "every buffer, offset and size in the 64-bit range", "why_tests_cant": "sizes near overflow and all offset/size combinations cannot be enumerated", "anchors": ["src/quipper/buffer_reader.cc: BufferReader::ReadData, ReadString, ReadDataString, SeekSet", "src/quipper/data_reader.h"]}
{"id": "C05", "title": "Buffer writer: writes stay inside the buffer", "statement": "WriteData/WriteString write exactly the requested bytes at the current position, nothing else changes, and they fail without any effect when the data does not fit, as long as position+size does not exceed 2^64. Without that side condition the property is false: a WriteString whose size makes position+size wrap passes the check and writes outside the buffer.", "quantifier": "every buffer, position, data and size", "why_tests_cant": "overflow corner cases over 64-bit values", "anchors": ["src/quipper/buffer_writer.cc: BufferWriter::WriteData, WriteString, CanWriteSize"]}
{"id": "C06", "title": "Length-prefixed strings written by the writer are read back identically", "statement": "Writing a string without embedded NUL with the length-prefixed, 8-byte aligned format and reading it back at the same offset (same endianness) returns the same string and both sides advance by exactly the same number of bytes, equal to the announced storage size 4 + Align8(len+1).", "quantifier": "every NUL-free string shorter than 2^32 - 8, every position with enough room", "why_tests_cant": "an encode/decode law over unbounded strings", "anchors": ["src/quipper/data_writer.cc: DataWriter::WriteStringWithSizeToData", "src/quipper/data_reader.cc: DataReader::ReadStringWithSizeFromData", "src/quipper/perf_reader.cc: ExpectedStorageSizeOf"]}
{"id": "C07", "title": "Cross-endian reads equal native reads of the byte-reversed data", "statement": "ByteSwap on 16/32/64-bit values is an involution and reverses the little-endian byte list; ReadUint32/ReadUint64 with the cross-endian flag return the value whose bytes are the reverse of the stored ones, so data written on a machine of the other byte order reads as the same numbers.", "quantifier": "every 16, 32 and 64-bit value", "why_tests_cant": "2^64 values", "anchors": ["src/quipper/binary_data_utils.h: ByteSwap, MaybeSwap", "src/quipper/data_reader.h: ReadUint32, ReadUint64"]}
{"id": "C08", "title": "Align rounds up to a multiple", "statement": "Align<N>(x) for a power of two N is the least multiple of N that is >= x whenever that multiple fits in 64 bits; GetUint64AlignedStringLength(n) is a multiple of 8, strictly greater than n and at most n+8.", "quantifier": "every 64-bit value and every power of two", "why_tests_cant": "2^64 values; wrap-around near the top", "anchors": ["src/quipper/binary_data_utils.h: Align", "src/quipper/binary_data_utils.cc: GetUint64AlignedStringLength"]}
{"id": "C09", "title": "Hex encoding of raw data round-trips", "statement": "HexStringToRawData applied to RawDataToHexString(data) into a buffer of the same length succeeds and yields data; the hex string has exactly two lower-case hex digits per byte. A pair of characters (neither NUL) whose second is no hexadecimal digit is refused where the buffer has room for it.", "quantifier": "every byte string", "why_tests_cant": "unbounded inputs", "anchors": ["src/quipper/binary_data_utils.cc: RawDataToHexString, HexStringToRawData, ByteToHex"]}
{"id": "C10", "title": "CPU lists: parsing a formatted list gives the list back", "statement": "ParseCPUNumbers(FormatCPUNumbers(l)) succeeds and returns l for every strictly increasing list of CPU numbers below 2^32-1. Without strictness it is false (duplicates such as [1,1] format to a range that the parser rejects). Any list of numbers and ranges below 2^32-1 is accepted just if each range ends above its beginning, and means the CPUs of each item in turn; a list with an item that does not end in a digit is never accepted.", "quantifier": "every strictly increasing list of 32-bit numbers", "why_tests_cant": "unbounded lists with arbitrary run structure", "anchors": ["src/quipper/string_utils.cc: ParseCPUNumbers, FormatCPUNumbers"]}
{"id": "C11", "title": "Build-ID string normalisation", "statement": "Padding a build-ID string gives exactly 40 characters and keeps the first min(40,len); trimming removes only whole trailing groups of 8 zeros, is idempotent, and trimming after padding then padding again gives the padded string, so two build IDs differing only in trailing zero padding normalise to the same string.", "quantifier": "every string", "why_tests_cant": "unbounded inputs", "anchors": ["src/quipper/perf_buildid.cc: PerfizeBuildIDString, TrimZeroesFromBuildIDString"]}
{"id": "C12", "title": "AddressMapper: a real address translates through the last mapping covering it", "statement": "After any history of MapWithID calls that finds room in the synthetic address space, every call succeeds; a lookup that succeeds returns the id of the most recent mapping covering the address, with that mapping's offset base advanced by the distance from its start; every address of a mapping that no later call overlaps is found; and an address is found exactly when it lies in a surviving piece, where a new mapping splits a larger mapping it lies in and removes every other piece it overlaps.", "quantifier": "every history of mapping calls whose ranges end below 2^64 and for which synthetic space remains, every page alignment, every 64-bit address", "why_tests_cant": "removal and splitting of partially overlapped older mappings depends on the complete history", "anchors": ["src/quipper/address_mapper.cc: AddressMapper::MapWithID, GetMappedAddressIDAndOffset, GetMappedAddress, Unmap"]}
{"id": "C13", "title": "AddressMapper: translated ranges never collide and keep the page offset", "statement": "In every reachable mapper the mapped (synthetic) ranges of distinct live mappings are disjoint, so translation is injective on covered addresses, it keeps distances inside a piece, and with page alignment enabled each translated address keeps the low bits (page offset) of the real address.", "quantifier": "every history of mapping calls whose ranges end below 2^64 and for which synthetic space remains", "why_tests_cant": "global invariant over histories of allocate/free in the synthetic space", "anchors": ["src/quipper/address_mapper.cc: AddressMapper::MapWithID"]}
{"id": "C14", "title": "Profile string table: interning is injective and stable", "statement": "In a Builder, entry 0 of the string table is the empty string; StringId returns an index holding exactly the given string; equal strings get equal ids, different strings different ids; ids handed out earlier keep denoting the same string after any later calls.", "quantifier": "every sequence of StringId calls with arbitrary strings", "why_tests_cant": "all call histories", "anchors": ["src/builder.cc: Builder::StringId, InternalStringId"]}
{"id": "C15", "title": "Profile functions: deduplication", "statement": "FunctionId returns the same id exactly for equal (name, system_name, file, start_line) tuples within a Builder, and the function with that id carries exactly that tuple; ids are 1..n in order of first use.", "quantifier": "every sequence of FunctionId calls", "why_tests_cant": "all call histories", "anchors": ["src/builder.cc: Builder::FunctionId"]}
{"id": "C16", "title": "CheckValid accepts only referentially sound profiles", "statement": "If CheckValid returns true then non-zero mapping, location and function ids are unique within their tables, every non-zero mapping id of a location, every function id of a line and every location id of a sample refers to an entry of the profile, and each sample has as many values as there are sample types. Conversely a profile violating one of these is rejected.", "quantifier": "every profile", "why_tests_cant": "all profile shapes", "anchors": ["src/builder.cc: Builder::CheckValid"]}
{"id": "C17", "title": "Finalize turns raw addresses into locations without losing or merging any", "statement": "For a profile without locations, Finalize replaces sample addresses by location ids so that, sample by sample and frame by frame, the location's address is the original address; distinct addresses get distinct locations, equal addresses share one, and each location's mapping is the mapping with the greatest start not above the address, provided the address is <= its limit.", "quantifier": "every list of samples and mappings", "why_tests_cant": "unbounded samples/mappings", "anchors": ["src/builder.cc: Builder::Finalize"]}
{"id": "C18", "title": "Resolved mappings always contain the instruction pointer", "statement": "Whenever the normalizer attaches a mapping to a sample address, that mapping's [start, limit) contains the address, so the internal range assertions of the normalizer can never fire.", "quantifier": "every event stream (mmap/fork/comm/sample) and every address", "why_tests_cant": "all histories of mapping changes", "anchors": ["src/perf_data_handler.cc: Normalizer::GetMappingFromPidAndIP, UpdateMapsWithMMapEvent"]}
{"id": "C19", "title": "Samples are attributed to the latest mapping of their process", "statement": "A user-space address of a process resolves to the most recent mmap event of that process (or inherited through fork) that covers it at the time of the sample; if none covers it, kernel (pid -1) mappings are consulted unless the sample context says user space; addresses tagged unmapped, and guest or hypervisor samples, resolve to nothing.", "quantifier": "every event stream and every address", "why_tests_cant": "all interleavings of mmap, fork and sample events of many processes", "anchors": ["src/perf_data_handler.cc: Normalizer::GetMappingFromPidAndIP, UpdateMapsWithForkEvent, UpdateMapsWithMMapEvent"]}
{"id": "C20", "title": "Fork inherits a snapshot and isolates the processes afterwards", "statement": "After a fork event of a process with known mappings the child resolves every user address as the parent did at that moment; later mmaps of either process do not change how the other resolves addresses; a fork with pid == ppid changes nothing.", "quantifier": "every event stream", "why_tests_cant": "all histories before and after the fork", "anchors": ["src/perf_data_handler.cc: Normalizer::UpdateMapsWithForkEvent"]}
{"id": "C21", "title": "Lost samples are accounted one by one", "statement": "A lost-event record with n lost samples makes exactly n deliveries to the handler, each with the reserved lost address and mapping, and statistics are increased by n; with the drop option the converter drops exactly these.", "quantifier": "every n and every event stream", "why_tests_cant": "unbounded counts", "anchors": ["src/perf_data_handler.cc: Normalizer::HandleLost", "src/perf_data_converter.cc: PerfDataConverter::Sample"]}
{"id": "C22", "title": "Event selection by id", "statement": "GetEventIndexForSample returns 0 when there is a single attribute, otherwise the index of the attribute owning the sample's id, and -1 when the sample has no id or an unknown id; it never returns an index outside the attribute table.", "quantifier": "every attribute table and sample", "why_tests_cant": "all id tables", "anchors": ["src/perf_data_handler.cc: Normalizer::GetEventIndexForSample"]}
{"id": "C23", "title": "Sample conservation: counts", "statement": "Summed over all profiles produced, the count value of event i equals the number of samples delivered for event i that were not dropped; no sample is counted twice or lost, whatever is merged.", "quantifier": "every stream of samples, mappings and comm events, every option set", "why_tests_cant": "aggregation over arbitrary streams", "anchors": ["src/perf_data_converter.cc: PerfDataConverter::AddOrUpdateSample, IncBuildIdStats, Sample"]}
{"id": "C24", "title": "Sample conservation: weights", "statement": "Summed over all profiles, the weight value of event i equals the sum over accepted samples of the sample's period if positive, else the attribute's period if positive, else 1.", "quantifier": "every stream of samples", "why_tests_cant": "aggregation over arbitrary streams", "anchors": ["src/perf_data_converter.cc: PerfDataConverter::AddOrUpdateSample"]}
{"id": "C25", "title": "Locations lie inside their mappings", "statement": "Every location added to a profile that refers to a mapping has memory_start <= address < memory_limit of that mapping; locations without mapping have no mapping id.", "quantifier": "every stream of samples and mmaps", "why_tests_cant": "all histories", "anchors": ["src/perf_data_converter.cc: PerfDataConverter::AddOrGetLocation, AddOrGetMapping, Sample"]}
{"id": "C26", "title": "Profiles under construction are referentially sound with dense ids", "statement": "In every profile of the converter, mapping and location ids are 1..n in table order and every id used by a sample or location exists, at every moment of the stream.", "quantifier": "every stream of events", "why_tests_cant": "all histories, including profile resets on exec", "anchors": ["src/perf_data_converter.cc: PerfDataConverter::AddOrGetMapping, AddOrGetLocation, AddOrUpdateSample"]}
{"id": "C27", "title": "Samples are merged exactly when their keys agree", "statement": "Two samples of one process land in the same profile sample exactly when their stack of locations, and all enabled label fields agree; otherwise they are separate entries.", "quantifier": "every pair of samples in every stream", "why_tests_cant": "all key combinations", "anchors": ["src/perf_data_converter.cc: SampleKey, SampleHash, PerfDataConverter::MakeSampleKey"]}
{"id": "C28", "title": "Callchain conversion", "statement": "The frames of a converted callchain are, in order, exactly the non-marker entries after the first that resolve to a mapping strictly above its start, each reported one byte before the return address; context markers never appear as frames.", "quantifier": "every callchain of every length", "why_tests_cant": "unbounded chains", "anchors": ["src/perf_data_handler.cc: Normalizer::HandleSample", "src/perf_data_converter.cc: PerfDataConverter::Sample"]}
{"id": "C29", "title": "Time span covers all timestamps", "statement": "After any stream, the recorded minimum and maximum timestamps bound every sample timestamp seen and are attained by some sample; with no timed sample nothing is recorded.", "quantifier": "every stream of samples", "why_tests_cant": "unbounded streams", "anchors": ["src/perf_data_converter.cc: PerfDataConverter::Sample, Profiles"]}
{"id": "C30", "title": "Combining huge-page mappings preserves address translation", "statement": "Merging adjacent mmap events never changes which file a process address belongs to nor its file offset: each process's covered addresses and the file/offset of each covered address are the same before and after, and non-mmap events keep their order and content.", "quantifier": "every event list", "why_tests_cant": "all orders and adjacency patterns", "anchors": ["src/quipper/huge_page_deducer.cc: CombineMappings"]}
{"id": "C31", "title": "Huge-page deduction only renames anonymous huge-page ranges", "statement": "DeduceHugePages changes nothing but the filename (and device/inode/pgoff data that accompany it) of huge-page mmap events; pid, start and length of each event, and the number and order of events are unchanged.", "quantifier": "every event list", "why_tests_cant": "all event lists", "anchors": ["src/quipper/huge_page_deducer.cc: DeduceHugePages"]}
{"id": "C32", "title": "Sample payloads round-trip", "statement": "Writing the sample fields selected by a sample_type and reading them back with the same attribute yields the same field values, for every supported combination of fields.", "quantifier": "every supported sample_type/read_format combination and every field value", "why_tests_cant": "2^20 field combinations with unbounded arrays", "anchors": ["src/quipper/sample_info_reader.cc: WritePerfSampleData, ReadPerfSampleFromData"]}
{"id": "C33", "title": "Announced sample size equals the bytes written", "statement": "GetPerfSampleDataSize equals the number of bytes WritePerfSampleInfo writes for the same sample and event type.", "quantifier": "every sample_type/read_format combination and every sample", "why_tests_cant": "all combinations", "anchors": ["src/quipper/sample_info_reader.cc: SampleInfoReader::GetPerfSampleDataSize, WritePerfSampleData"]}
{"id": "C34", "title": "Reading samples never goes past the event", "statement": "ReadPerfSampleInfo reads only bytes inside the event, allocates arrays no larger than the remaining payload, and succeeds only if the payload is consumed exactly.", "quantifier": "every byte payload", "why_tests_cant": "adversarial inputs of any length", "anchors": ["src/quipper/sample_info_reader.cc: SampleInfoReader::ReadPerfSampleInfo, ReadCallchain, ReadRawData, ReadBranchStack, ReadReadInfo"]}
{"id": "C35", "title": "Event data sizes are within the event", "statement": "GetEventDataSize of a raw event, when it succeeds, is at least the fixed payload size of the type, never exceeds the header size and is 8-byte aligned in its variable part.", "quantifier": "every event type and payload bytes", "why_tests_cant": "adversarial inputs", "anchors": ["src/quipper/perf_data_utils.cc: GetEventDataFixedPayloadSize, GetEventDataVariablePayloadSize, GetEventDataSize"]}
{"id": "C36", "title": "Sorting by time is a stable sort", "statement": "MaybeSortEventsByTime yields a permutation of the events sorted by timestamp in which events with equal timestamps keep their order; if some attribute has no timestamps the order is unchanged.", "quantifier": "every event list and attribute list", "why_tests_cant": "all permutations", "anchors": ["src/quipper/perf_reader.cc: PerfReader::MaybeSortEventsByTime"]}
{"id": "C37", "title": "Build-ID injection", "statement": "After InjectBuildIDs succeeds, every file named in the map has a build-ID entry with the injected id, marked injected; entries of other files are unchanged, nothing is removed, and a repeated injection of the same map changes nothing more.", "quantifier": "every existing build-id table, event list and injection map", "why_tests_cant": "all tables and maps", "anchors": ["src/quipper/perf_reader.cc: PerfReader::InjectBuildIDs"]}
{"id": "C38", "title": "Localization of filenames", "statement": "LocalizeUsingFilenames replaces exactly the filenames listed in the map, in mmap events and build-id entries, and leaves every other event and field unchanged, adjusting the event size by the change in aligned filename length; AlternateBuildIDFilenames only appends entries.", "quantifier": "every event list and map", "why_tests_cant": "all lists", "anchors": ["src/quipper/perf_reader.cc: PerfReader::LocalizeUsingFilenames, LocalizeMMapFilenames, AlternateBuildIDFilenames"]}
{"id": "C39", "title": "File section checks", "statement": "Every file section accepted by the reader lies inside the input; event headers accepted have a size of at least the header size and a payload inside the input; the event-reading loops terminate on every input.", "quantifier": "every input byte string", "why_tests_cant": "adversarial inputs of any length", "anchors": ["src/quipper/perf_reader.cc: ReadPerfFileSection, ReadPerfEventHeader, PerfReader::ReadDataSection, ReadPipedData"]}
{"id": "C40", "title": "ARM SPE decoding never reads out of bounds and always makes progress", "statement": "For any trace buffer NextRecord reads only inside the buffer, each successful call consumes at least one byte, so a decode loop terminates after at most as many records as bytes; once it fails it keeps failing at the same position; and a sequence of well-formed records, in either byte order, is decoded to exactly the records it encodes.", "quantifier": "every byte buffer", "why_tests_cant": "adversarial inputs", "anchors": ["src/quipper/arm_spe_decoder.cc: ArmSpeDecoder::NextRecord, SetPayloadAndSize, HandlePacketAddress, HandlePacketCounter, HandlePacketOperation"]}
{"id": "C41", "title": "Remapped addresses keep the page offset; unmapped ones are marked", "statement": "With remapping enabled every successfully mapped sample address keeps its low 12 bits; a sample address that is not covered by a mapping gets the reserved top nibble 8 and is never confused with a mapped one.", "quantifier": "every event stream", "why_tests_cant": "all histories", "anchors": ["src/quipper/perf_parser.cc: PerfParser::MapIPAndPidAndGetNameAndOffset"]}
{"id": "C42", "title": "Branch stacks and thread ids", "statement": "Trailing null branch entries are trimmed and a non-null entry after a null one is rejected; splitting and merging pid/tid pairs is lossless.", "quantifier": "every branch stack and pair", "why_tests_cant": "unbounded stacks, 2^64 pairs", "anchors": ["src/quipper/perf_parser.cc: PerfParser::MapBranchStack", "src/quipper/sample_info_reader.cc"]}
{"id": "C43", "title": "Written file size is exactly what GetSize announces", "statement": "Serializing a perf data file writes exactly the number of bytes announced, with each section at the offset recorded in the header.", "quantifier": "every perf data content", "why_tests_cant": "all contents", "anchors": ["src/quipper/perf_reader.cc: PerfReader::GetSize, GenerateHeader, WriteHeader, WriteAttrs, WriteData, WriteMetadata"]}
{"id": "C44", "title": "Raw events round-trip through the protobuf form", "statement": "Converting a raw kernel event to the protobuf representation and back yields the same bytes for all fields the format represents.", "quantifier": "every supported event type and field values", "why_tests_cant": "all field values", "anchors": ["src/quipper/perf_serializer.cc: SerializeEvent, DeserializeEvent"]}
{"id": "C45", "title": "Main-executable and build-id selection", "statement": "Two build ids are treated as the same exactly when one is the other followed by zero digits only; the relation is symmetric; deleted shared objects are recognised by name only.", "quantifier": "every pair of strings", "why_tests_cant": "unbounded strings", "anchors": ["src/perf_data_handler.cc: IsSameBuildId, IsDeletedSharedObject, IsVersionedSharedObject"]}
{"id": "C46", "title": "String utilities", "statement": "TrimWhitespace removes exactly the surrounding blanks; SplitString returns delimiter-free tokens whose join is the input (up to one trailing delimiter); RootPath returns a prefix of the path consisting of the first two directory levels. Names that begin with [anon:, /memfd: and /tmp/ have just [anon:, /memfd: and /tmp as root, and what is no absolute path has none.", "quantifier": "every string and delimiter", "why_tests_cant": "unbounded strings", "anchors": ["src/quipper/string_utils.cc: TrimWhitespace, SplitString, RootPath"]}
{"id": "C47", "title": "Call stacks become sample frames", "statement": "AddCallstackToSample appends, after the frames already present, one frame per stack entry in order; every entry is reported one byte lower (return address inside the call), except the leaf of an interrupt stack which is kept.", "quantifier": "every sample, stack and depth", "why_tests_cant": "unbounded stacks", "anchors": ["src/builder.cc: AddCallstackToSample"]}
{"id": "C48", "title": "Guess of the main executable", "statement": "Every delivered sample carries its process's main executable: the latest mapping at one of the two link addresses 0x400000 and 0x8048000, otherwise the first mapping since the last exec whose name can be a program's (not a library, module, virtual mapping, class archive or the kernel); fork copies it, exec forgets it. Kernel samples of a process without one get a stand-in named after the process, idle tasks get the kernel.", "quantifier": "every event stream", "why_tests_cant": "depends on the whole history of mmap, comm and fork events", "anchors": ["src/perf_data_handler.cc: UpdateMapsWithMMapEvent, UpdateMapsWithForkEvent, HandleSample, Normalize", "src/path_matching.cc"]}
{"id": "C49", "title": "Build id of every mapping", "statement": "A mapping reported to the handler has the build id its mmap event carries; if none, the last one the profile records for its file; if none and it is the kernel image, the first non-empty one recorded for the kernel; the reported source says which, and whether records disagreed.", "quantifier": "every event stream and every set of build id records", "why_tests_cant": "unbounded record lists and strings", "anchors": ["src/perf_data_handler.cc: Normalizer::Normalizer, GetBuildId"]}
{"id": "C50", "title": "Statistics of build id sources", "statement": "The statistics returned with a profile list the build id source of every code frame (program counter, callers, branch sources) of every accepted sample whose process id is the profile's.", "quantifier": "every event stream and option set", "why_tests_cant": "unbounded streams; the documented sum is false after an exec, without grouping, and with data address frames", "anchors": ["src/perf_data_converter.cc: PerfDataConverter::Sample, Profiles", "src/perf_data_handler.cc: IncBuildIdStats", "src/perf_data_converter.h: ProcessProfile::build_id_stats"]}
{"id": "C51", "title": "Labels of converted samples", "statement": "A profile sample carries exactly the labels asked for, with the values of the first recorded sample merged into it: pid, tid, comm, timestamp, execution mode, thread type, thread comm, cgroup, page sizes, cpu, cache latency, data source, snoop status and the three latencies, in this order, thread names being the last ones given since the last exec.", "quantifier": "every event stream, label set and sample", "why_tests_cant": "depends on all previous comm events; all label combinations", "anchors": ["src/perf_data_converter.cc: MakeSampleKey, AddOrUpdateSample, CommId", "src/perf_data_converter.h: SampleLabels"]}
{"id": "C52", "title": "Conversion succeeds", "statement": "Converting a recording never aborts and never has undefined behaviour, if failing on main mapping mismatch was not asked for, no process has the name and hash of the synthetic lost mapping, the weights cannot overflow a signed 64-bit sum and an ungrouped conversion sees no exec of process 0.", "quantifier": "every recording the normalizer accepts", "why_tests_cant": "all histories: every CHECK and every table access of the converter", "anchors": ["src/perf_data_converter.cc: PerfDataProtoToProfiles, PerfDataConverter"]}
{"id": "C53", "title": "The header and the mapping table of a profile describe the recording", "statement": "Every returned profile carries two sample types per event of the recording, in order, named <event>_sample and <event>_event (event_<n> for the n-th unnamed event) with unit count; the default sample type is the last of them; the comments are perf-version:<version> and perf-command:<command line> when the recording has them. The first mapping is the main mapping of the first sample filed into the profile (or a placeholder for [0,1) when it has none) and every further mapping shows start, limit, file offset, file name and build id of a mapping of the recording that a frame of one of the profile's samples lies in.", "quantifier": "all recordings, options and numbers of profiles, if process 0 does not exec when profiles are not grouped by pid", "why_tests_cant": "tests look at a handful of recordings; the string table, the mapping table and the samples are interned on demand in an order that depends on the whole event stream", "anchors": ["src/perf_data_converter.cc: PerfDataConverter::GetOrCreateBuilder, AddOrGetMapping", "src/perf_data_converter.cc: RawPerfDataToProfiles"]}
{"id": "C54", "title": "The lists of files and of build ids of a recording are complete and exact", "statement": "GetFilenames returns the name of every mapping event exactly once in increasing order and nothing else; GetFilenamesToBuildIDs gives each file that has a build-id entry the id of its last entry, as 40 hex digits (cut or padded with zeros), and no other file.", "quantifier": "all recordings (any events, any build-id entries)", "why_tests_cant": "tests list the files of a few recordings; duplicates and later entries can occur in any order", "anchors": ["src/quipper/perf_reader.cc: PerfReader::GetFilenames, GetFilenamesAsSet, GetFilenamesToBuildIDs"]}
{"id": "C55", "title": "Events do not depend on the byte order of the recording machine", "statement": "Every event of data read with success is a record of the data. If the data are of this machine's byte order it is that record byte by byte. If they are of the other byte order, each number of the event (type, misc and size of its header, the members of the structure of its type, the members of the entries behind it) has the value the bytes at that place have in the byte order of the data, and all other bytes are unchanged.", "quantifier": "all inputs below 2^63 bytes, both byte orders, all event types but ksymbol", "why_tests_cant": "the tests have recordings of one byte order for most event types; entry counts are unbounded and come from the data, and a count has to be turned round before it is used", "anchors": ["src/quipper/perf_reader.cc: ByteSwapEventDataFixedPayloadFields, ByteSwapEventDataVariablePayloadFields, ReadNonHeaderEventDataWithoutHeader", "src/quipper/kernel/perf_internals.h"]}
{"id": "C56", "title": "Sample addresses are attributed to the file mapped there", "statement": "After parsing, the address of every sample, its data address and the addresses of its call chain and branch stack carry the name and offset of the latest mapping of the sample's process, among the mapping events before it, that covers the address, and nothing when there is none. A forked process starts with the mappings of its parent, a process not mentioned before with those of the kernel; the first kernel mapping is the kernel image, taken from its pgoff on. The sample carries the last command given to its thread, or its parent thread's at the fork. Other events are unchanged. Parsing does not abort if every mapping event lies inside the address space and splits others at page boundaries.", "quantifier": "all event sequences in which each mapping can be entered, all processes, threads and addresses", "why_tests_cant": "depends on the whole history of mappings, forks and commands; tests have a few short recordings", "anchors": ["src/quipper/perf_parser.cc: PerfParser::ProcessEvents, MapSampleEvent, MapCallchain, MapIPAndPidAndGetNameAndOffset, MapMmapEvent, MapForkEvent, MapCommEvent, GetOrCreateProcessMapper"]}
{"id": "C57", "title": "Parser statistics, the file table and discarding of unused mappings are exact", "statement": "Every counter of the parser is the number of events of its kind (mapped samples: all addresses inside mappings and the branch stack accepted), modulo 2^32. The number beside a mapping is how often an address fell into it. The file table has one entry per mapped file, with device and inode of its first mapping and exactly the threads whose addresses fell into it. When unused mappings are discarded exactly the mapping events without a hit go and the rest keeps its order; otherwise every event keeps its place.", "quantifier": "all event sequences in which each mapping can be entered", "why_tests_cant": "every event of the history contributes; counters are shared between all lookups", "anchors": ["src/quipper/perf_parser.cc: PerfParser::ParseRawEvents, ProcessEvents, MapIPAndPidAndGetNameAndOffset", "src/quipper/perf_parser.h: PerfEventStats", "src/quipper/dso.h: DSOInfo"]}
{"id": "C58", "title": "Attributes of events survive the way into a message and back", "statement": "The message made of an event attribute says exactly what the struct says: every number, every known flag but bpf_event, aux_output and task_poke, precise_ip, and the wake-up value in the field the watermark flag selects; the period or frequency is in sample_period whatever the freq flag says. The struct made of that message is the original but for those flags, unused bits and padding, so it is identical if those are zero, and samples are read by it alike. A message with values in range and no sample_freq comes back from its struct unchanged.", "quantifier": "all contents of the struct and all messages", "why_tests_cant": "all combinations of some thirty flags and twenty numbers; a test compares a few recorded attributes", "anchors": ["src/quipper/perf_serializer.cc: PerfSerializer::SerializePerfEventAttr, DeserializePerfEventAttr", "src/quipper/kernel/perf_event.h: struct perf_event_attr", "src/quipper/perf_data.proto: PerfEventAttr"]}
{"id": "C59", "title": "A written file reads back as what was written", "statement": "Reading the file that the writer made (WriteToVector, or WriteToPointer into a caller's buffer) from a recording it can represent succeeds, and gives the same attributes and ids, the same event types, the same events with their traces in the same order, the same build ids (followed at most by those of mappings) and exactly the metadata that was asked for. Events that came from raw events are read back byte by byte.", "quantifier": "all recordings whose numbers fit their fields, texts have no NUL and asked-for lists are there; any mask of metadata, any number of attributes, events and build ids", "why_tests_cant": "the writer and the reader are two separate programs of some thousand lines; a test writes and reads a few recorded files, the content and the combination of metadata are unbounded", "anchors": ["src/quipper/perf_reader.cc: PerfReader::WriteToVector, WriteToPointer, ReadFromPointer, ReadFileData", "src/quipper/perf_serializer.cc: SerializePerfEventAttr, DeserializePerfEventAttr"]}
{"id": "C60", "title": "Only allowed options and no foreign command reach perf", "statement": "If ValidatePerfCommandLine accepts a command line in which no option that takes a value carries it behind '=', perf reads from it only options of the allowlist of its subcommand, each with its value, none of the banned ones, and no command to run. Every command the recorder runs is the trusted perf program with such options, the temporary file as output and sleep as workload (perf inject: the temporary files and no workload); nothing is run if the check refuses. A command line of allowed options written without '=' is never refused.", "quantifier": "all argument lists, all exit statuses of perf, any perf whose options take values as the tables say", "why_tests_cant": "security: one accepted argument list that perf reads differently is enough; tests have some eighty lists", "anchors": ["src/quipper/perf_option_parser.cc: ValidatePerfCommandLine, ValidatePerfCommandLineOptions", "src/quipper/perf_option_parser.h", "src/quipper/perf_recorder.cc: RunCommandAndGetSerializedOutput, FullPerfCommand, IsRecordingETM"]}
{"id": "C61", "title": "The counts perf stat prints are the counts of the message", "statement": "Parsing the output of perf stat never has undefined behaviour. For an output of count lines, time lines and other lines, in any order and with any white space in front, the message has exactly the counts printed, in order and with their names, all with the time printed last.", "quantifier": "all byte strings; all outputs of any number of lines and any counts below 2^64", "why_tests_cant": "outputs are free text of any length; tests have three outputs", "anchors": ["src/quipper/perf_stat_parser.cc: ParsePerfStatOutputToProto", "src/quipper/string_utils.cc: SplitString, TrimWhitespace"]}
{"id": "C62", "title": "The profiles of a file add up to its records", "statement": "When the bytes of a perf.data file are converted and give profiles, then for every event the sample counts of all profiles together are the number of sample records of the event plus the number of lost samples its records report (unless these are to be dropped), and the weights are the sum of the periods. What is converted are the messages of the records, in order of time if all events record it; records that are not mappings are neither changed, lost nor reordered otherwise, and every address of every process is mapped to the same place as by the mappings of the file, unless by a huge page.", "quantifier": "all byte strings that can be read; all options, labels and build ids; all orders of processes; all events, processes and addresses", "why_tests_cant": "the way from bytes to profiles goes through eight stages that each rewrite the events; a loss anywhere shows in no single stage's tests", "anchors": ["src/perf_data_converter.cc: RawPerfDataToProfiles", "src/quipper/perf_parser.cc: ParseRawEvents", "src/quipper/perf_reader.cc: ReadFromPointer"]}
{"id": "C63", "title": "A file of whole-page mappings always gives profiles", "statement": "Converting a readable perf.data file never aborts, never hits undefined behaviour and never fails if its mappings are of whole pages, not empty, each in one half of the address space and too few and small to fill it; its kernel symbols do not wrap; it has no Arm SPE traces, no lost-samples record of a process that was named so and no reset of a known process that would need one; the sum of its periods, counted for every event, is below 2^63. Without these conditions it does abort or overflow.", "quantifier": "all byte strings that can be read and meet the conditions; all options, labels, build ids and orders of processes", "why_tests_cant": "crashes hide in combinations of records of arbitrary number; a test converts a few good files", "anchors": ["src/perf_data_converter.cc: RawPerfDataToProfiles", "src/quipper/perf_parser.cc: ParseRawEvents", "src/quipper/address_mapper.cc: AddressMapper::MapWithID", "src/quipper/huge_page_deducer.cc: CombineMappings"]}
{"id": "C64", "title": "Each frame is shown in the mapping its address was first seen in", "statement": "Each location of each profile sample shows, by range, offset, name and build id, the mapping in which its address was first seen in a sample of the process since the last exec of the process and the last mapping of the process over the address; an address first seen without mapping has none. So a frame is shown in its own mapping whenever all samples of the process since then saw the address in that mapping.", "quantifier": "all recordings, options and labels; all samples and all frames of each, with or without grouping by process", "why_tests_cant": "locations and mappings are cached per process and dropped by exec and mmap; whether a stale one is used depends on the whole history", "anchors": ["src/perf_data_converter.cc: AddOrGetLocation, AddOrGetMapping, PerfDataConverter::Sample, Comm, MMap"]}
{"id": "C65", "title": "Every sample record is shown in a profile with its own process, time, addresses and labels", "statement": "Every sample of a known event, in a stored proto or a perf.data file that gives profiles, is counted by some sample of some profile: the profile of its process (if profiles are per process), with a time span that has its time; that sample has exactly the addresses of the record (data address if asked for, program counter, each mapped caller one byte before its return address, sources of branches), as mapped by the records before it; and, in recordings whose samples have the same fields (SPE and lost samples have process and thread only), exactly the labels asked for, with the values of the record and the names of thread, process and cgroup given before it.", "quantifier": "all protos and all files that give profiles, all options, label masks and thread types; every sample record, also one that shares its entry with earlier ones", "why_tests_cant": "the record passes reader, sorting, huge pages, parser, normalizer, merging and label building; a swapped field or a lost one at any of these boundaries shows only in combinations", "anchors": ["src/perf_data_converter.cc: RawPerfDataToProfiles, PerfDataProtoToProfiles, PerfDataConverter::Sample, MakeSampleKey, AddOrUpdateSample", "src/perf_data_handler.cc: Normalizer::HandleSample, Normalize", "src/quipper/perf_serializer.cc: SerializeSampleEvent"]}
{"id": "C66", "title": "Header, build ids and mapping table of the profiles of a file are those of the file and of the caller", "statement": "Every profile RawPerfDataToProfiles makes of a file has two sample types for each event, with the names the file gives, the last as default, and the perf version and command line of the file as comments. Every mapping of a profile is one of: a mapping or kernel symbol record of the file, with its start, offset and name (huge pages excepted, which can take over those of a mapping of the process) and with its own build id, else that of its file, else the kernel's; a process known only by its name; lost samples; the placeholder. Build ids come from the file's table, those the caller gives taking the place of the file's, files without entry getting one.", "quantifier": "all byte strings that can be read and converted, all build ids the caller can give, all label and option masks, all orders of processes", "why_tests_cant": "the claim is about every mapping of every profile after any history of events; tests look at a few files", "anchors": ["src/perf_data_converter.cc: RawPerfDataToProfiles, PerfDataConverter::AddOrGetMapping", "src/perf_data_handler.cc: Normalizer::GetBuildId, UpdateMapsWithMMapEvent", "src/quipper/perf_reader.cc: InjectBuildIDs, AlternateBuildIDFilenames", "src/quipper/huge_page_deducer.cc: DeduceHugePages, CombineMappings"]}
{"id": "C67", "title": "Every report of lost samples is shown with its number, process and thread", "statement": "Every record that reports n lost samples of a known event (LOST, or LOST_SAMPLES if perf 6.1 or later made the recording), in a stored proto or perf.data file that gives profiles and unless lost samples are dropped by option: one sample of a profile counts at least n samples of that event, the profile is that of the process of the record (if profiles are per process), and the sample has exactly one code address, the reserved one 0x9000000000000000. Without real samples at that address it has exactly the labels asked for among pid, tid and the names and type of the thread, of the process and thread of the record.", "quantifier": "all protos and all files that give profiles, all options but dropping, all label masks and thread types; every report, of any number of samples, anywhere among the records", "why_tests_cant": "the number is turned into that many separate deliveries which must all end up in one entry; tests use a few small reports", "anchors": ["src/perf_data_handler.cc: Normalizer::HandleLost, HandleSample", "src/perf_data_converter.cc: PerfDataConverter::Sample, AddOrUpdateSample", "src/quipper/perf_serializer.cc: SerializeLostEvent, SerializeLostSamplesEvent"]}
{"id": "C68", "title": "Running a command gives its status and output, survives SIGINT and passes it on", "statement": "RunCommand returns only after the child was waited for. -1 with errno e means exec failed with e and the command did not run; any other result is the exit status, 0 if SIGINT or SIGTERM ended the child, or minus the signal. The output vector ends up with what was in it followed by all the command wrote, or unchanged. From the moment it blocks SIGINT until the end of the process, neither SIGINT to the caller nor CTRL-C ends it; while it waits and the child leads its own process group, SIGINT is passed on exactly once, and if that is before exec the command never starts (first call only). RunCommand cannot hang of itself: it returns once the command has ended, and a command with much to write is never held up. A child past prctl learns of the death of the caller.", "quantifier": "all interleavings of parent, child and command; SIGINT, CTRL-C and killing signals at any point; all outputs, ways they are cut into reads, exit statuses and errnos", "why_tests_cant": "races between fork, setpgid, sigaction, exec and signals depend on the schedule; a test sees a few schedules", "anchors": ["src/quipper/run_command.cc: RunCommand, SigintHandler, ReadFromFd, GetSignaledExitStatus, HandleSignal"]}
{"id": "C69", "title": "Every record of an Arm SPE trace is shown with its process, thread, address and latencies", "statement": "In a stored proto or perf.data file that says it has SPE traces and gives profiles: every record a trace decodes to (for a well formed trace: every block) is counted, as often as it occurs in the trace, as a sample of the first event by a sample of the profile of its process (if profiles are per process). Its thread is the context of the record, its process the one the recording last gave to that thread. The sample has one code address, that of the instruction (0 if nothing is mapped there). If real samples have process and thread only, it has exactly the labels asked for among those of process and thread and the total, issue and translation latency.", "quantifier": "all protos and files with at least one event that give profiles, all traces that decode, all options, label masks and thread types; every record of every trace", "why_tests_cant": "a trace holds any number of records, and the process of each depends on all fork and name records; tests decode a few packets", "anchors": ["src/perf_data_handler.cc: Normalizer::HandleSpeAuxtrace, TidToPidMapping, Normalizer::HandleSample", "src/quipper/arm_spe_decoder.cc: ArmSpeDecoder", "src/perf_data_converter.cc: PerfDataConverter::Sample, MakeSampleKey"]}
{"id": "C70", "title": "perf_to_profile writes the one profile of its input or changes nothing", "statement": "The command takes -i, -o, -f, -j in any order, joined or not, with operands between them, and nothing else; the last names count. If it succeeds, the input had exactly one profile, the output file is that profile as far as there was room, it did not exist before unless -f was given, and no other file changed. If it does not succeed no file changed. A perf.data file of the byte order of the machine is never taken for a stored proto. So for every sound recording (C63) of that byte order with a sample of a known event it writes the profile, with the option for jitted code if -j was given.", "quantifier": "all command lines, all files, all perf.data files; for the last sentence all that meet the conditions", "why_tests_cant": "a perf.data file is tried as a proto first: whether that fails depends on every byte of it; the states of the file system and orders of options are unbounded", "anchors": ["src/perf_to_profile.cc: main", "src/perf_to_profile_lib.cc: ParseArguments, StringToProfiles, CreateFile, ReadFileToString, FileExists"]}
{"id": "C71", "title": "Files read as their bytes, and DSOs get the build id of the right file", "statement": "Reading a file through a FileReader, in any way, gives what reading its bytes in memory gives, and no call does anything but work or fail; a file that changes meanwhile gives its present bytes or a failure. ReadBuildIdNote gives the description of the first GNU build-id note, from memory or from a file; on any bytes it ends and gives false or a part of them; so does looking through the notes of a section of an ELF file, which is the first .note.gnu.build-id, else .notes, else .note. With read_missing_buildids the parser gives every DSO that had samples, and the reader, the id of the first file that has one among those of that name seen by the threads with samples in it and their processes, in order, then by itself, passing over files of another known device or inode; for kernel modules the one in their notes; for other parts of the kernel none. All other DSOs keep the recorded id.", "quantifier": "all files, clients of a reader, lists of notes, byte strings, file systems, sections libelf can give, maps of DSOs with any threads, and recorded build ids", "why_tests_cant": "a note section is untrusted input of any length; which file is found depends on the whole file system and on all threads; tests look at a few files", "anchors": ["src/quipper/file_reader.cc: FileReader", "src/quipper/file_utils.cc: FileToBuffer", "src/quipper/dso.cc: ReadBuildIdNote, GetBuildID, FindElfSection, ReadModuleBuildId, IsKernelNonModuleName, SameInode", "src/quipper/perf_parser.cc: FindDsoBuildId, ReadElfBuildIdIfSameInode, FillInDsoBuildIds"]}
{"id": "C72", "title": "A file that is read and written again reads as the same recording", "statement": "After ReadFile (or ReadFromString) of a perf.data file in the byte order of the machine, WriteFile (or WriteToString) of the same PerfReader gives a file which another PerfReader reads, and that one then holds the same events, to the last byte and with their traces, in the same order, the same ids, attributes (but for three flags a message has no field for, the unused bits and the padding), names of events, features, all metadata and the build ids of the table. The events must have nothing that a message has no field for, and no attribute may ask for both kinds of ids. Unless the command line is an empty one, writing succeeds if the size limit allows it.", "quantifier": "all files of less than 2 GB that are read, with any events, attributes, features and metadata, any limit on the size, any order of the entries of a map", "why_tests_cant": "reading, messages and writing each transform every part of a file; whether their composition is the identity depends on all the contents and the set of features at once", "anchors": ["src/quipper/perf_reader.cc: ReadFile, ReadFromData, ReadFileData, ReadMetadata, ReadEvent, WriteToVector, WriteToPointerWithoutCheckingSize, GetSize", "src/quipper/perf_serializer.cc: SerializeEvent, DeserializeEvent, SerializePerfEventAttr, DeserializePerfEventAttr"]}
{"id": "C73", "title": "The recorder command records what its arguments ask for", "statement": "If quipper, called with a duration of 1 to 999999 seconds in either of its two forms of command line, ends with success, it has run perf with just the words asked for and for just that many seconds, then perf inject with its words if that was asked for, nothing else, both have ended well, and the message made of the last output has been written to the file asked for. It does end with success if the words are allowed, the commands end well, their output can be read and the file can be written. Otherwise no other command is run, perf inject never runs unless perf has ended well, and the file is not written unless everything before has ended well. With any arguments at all, nothing is run unless they have one of the two forms, and every command run is safe in the sense of C60.", "quantifier": "all command lines, all values of the flags, all exit statuses of perf, all outputs of perf, files that can be written or not", "why_tests_cant": "two ways to parse the same arguments, one tried after the other, then a chain of commands each of which can fail", "anchors": ["src/quipper/quipper.cc: main, ParsePerfArguments, RecordPerf", "src/quipper/quipper_lib.cc: ParseOldPerfArguments, StringToInt", "src/quipper/perf_recorder.cc: RunCommandAndGetSerializedOutput, FullPerfCommand"]}
{"id": "C74", "title": "The converter command converts the file it is told to, or changes nothing", "statement": "perf_converter takes for input, output and their formats the last value given with the option for each, in any order and written in one word or two, or the documented default. The input formats are perf, text and proto, each alone or with one of the four sets of parser options, and no other text. If the input can be read as its format says, parsed with those options and written in the output format, and the output file has room, then success is reported, the output file is that conversion and no other file changes. Success is reported only for such a conversion. In every other case no file changes, except that the program is aborted in the middle of writing when the device is full.", "quantifier": "all command lines, formats, files and devices, whatever the reader, parser and writer do with the contents", "why_tests_cant": "format strings and command lines are unbounded; what happens to the files when any step fails depends on the order of all steps", "anchors": ["src/quipper/perf_converter.cc: main, ParseArguments", "src/quipper/conversion_utils.cc: ConvertFile, ReadInput, WriteOutput, ParseFormatOptions", "src/quipper/file_utils.h: BufferToFile"]}
{"id": "C75", "title": "A temporary file or directory goes away with all that is in it, and nothing else does", "statement": "A ScopedTempFile or ScopedTempDir that could be made is a new, empty file or directory whose name begins as asked for, and nothing else has changed; one that could not be made has no path and has changed nothing; it is made if a name tried is free, the directory is there and the system refuses nothing. If all that changes while it is there is below its path, the file system is in the end as it was before. When a ScopedTempFile or ScopedTempDir goes out of scope, its path and everything below it no longer exists. Nothing else in the file system has changed: symbolic links inside are removed, not followed, files with similar names and the directories that lead to the path stay. If the system refuses to remove some entries, just these and the directories around them are left, unchanged, and everything else is gone.", "quantifier": "all file systems and depths of directories, all orders in which directories are read, all sets of entries that cannot be removed", "why_tests_cant": "the trees are unbounded and the order in which entries are removed matters at every level; removing too much is not noticed by a test that looks at the temporary directory", "anchors": ["src/quipper/scoped_temp_path.cc: ScopedTempFile, ScopedTempDir, MakeTempfileTemplate, ~ScopedTempPath, FileDeletionCallback", "src/quipper/scoped_temp_path.h"]}
{"id": "C76", "title": "Messages are shown as the verbosity asks and a failed check always ends the program", "statement": "In any sequence of LOG, VLOG, CHECK and SetVerbosityLevel, just those messages are shown that the verbosity set last asks for, in order, up to the first failed CHECK or LOG(FATAL), and that one ends the program even if nothing is shown. Nothing of this is undefined.", "quantifier": "all sequences of such statements, all verbosities above the least int", "why_tests_cant": "the sequences are unbounded; a check that does not end the program at some verbosity lets it go on in a state nothing else expects", "anchors": ["src/quipper/base/logging.h: LOG, PLOG, VLOG, CHECK", "src/quipper/base/logging.cc", "src/quipper/compat/log_level.cc: SetVerbosityLevel"]}
{"id": "C77", "title": "Stored messages are read back, files mean what their contents mean, and option messages mean the options", "statement": "A PerfDataProto stored with WriteProtobufToFile is what ReadProtobufFromFile reads from that path, if the device has room and the protobuf library can encode it; no other file changes, and storing reports failure only if the file cannot be opened. SerializeFromFile gives just what SerializeFromString gives for the contents of the file, under any options, with the statistics of that parse. DeserializeToFile writes just what the message stands for, or changes nothing when it reports failure. A PerfParserOptionsProto with all fields set means just these options; a field left out means the default of PerfParserOptions, except the one for sorting. False: an empty options message means the default options (events are not sorted), unaligned JIT mappings can be asked for in a message, a message too big to encode is reported as not written.", "quantifier": "all messages, files, contents, options and whatever reader, parser and protobuf library do", "why_tests_cant": "options and files vary independently; a default that differs between a struct and its mapping is seen only by comparing every field", "anchors": ["src/quipper/perf_protobuf_io.cc: SerializeFromStringWithOptions, SerializeFromFileWithOptions, DeserializeToFile, WriteProtobufToFile, ReadProtobufFromFile", "src/quipper/perf_parser_options.proto", "src/quipper/perf_parser.h: PerfParserOptions"]}
{"id": "C78", "title": "A profile is emitted only if it is consistent and its URL good, and stored whole where there is room", "statement": "SetDocURL stores an empty URL or one that begins with http:// or https:// so that the field of the profile denotes just that text, and changes nothing else but that the string table grows; after any other URL the profile is unchanged and Finalize and Emit return false forever; without one no error is ever recorded. Emit succeeds just if the builder can be finalized and the profile encoded, gives then the encoding of the consistent profile of the builder, and else an empty output. MarshalToFile, on a device with room, makes the encoding the whole content of the file and changes no other file; if the file cannot be opened it reports failure and nothing changes. False: MarshalToFile reports failure if the data cannot be written (the last block, often all of it, is written where no error is seen).", "quantifier": "all builders and sequences of calls, all URLs, encodings, files and room on the device", "why_tests_cant": "the error must survive every later call; whether a failed write is seen depends on sizes, blocks and the order of destructors", "anchors": ["src/builder.cc: Builder::SetDocURL, Emit, Marshal, MarshalToFile, Finalize", "src/builder.h"]}
