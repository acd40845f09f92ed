# Formal model of google/perf_data_converter

Source under study: `/repo` (C++), read as text. Nothing in `/repo` was built or
run, so the tie between model and code is the line citation on every definition.

## Layout

`rocq/theories/` has, for each area of the code:

* `XModel.v`   executable Gallina transcription; every definition cites file:lines
* `XSpec.v`    small independent specification (what the English property says)
* `X*Proofs.v` lemmas
* `XProps.v`   the property theorems, `Print Assumptions` under each, and
               `Example`s showing that the hypotheses are satisfiable

`MANIFEST.json` lists the theorems of each property; `seeded/LOG.jsonl` the seeded
faults each group of theorems was tried against.

## Modelling conventions

* Machine words are `N` with explicit `mod 2^64` / `mod 2^32` where the code can
  wrap. Signed 64-bit numbers are `Z`. Bytes are `N` below 256, buffers and
  strings are `list N`.
* `outcome`: `Ok a | Fail | Abort | UB | Hang`. `Fail` is a function returning
  false or null. `Abort` is CHECK, LOG(FATAL) or an uncaught exception. `UB` is
  undefined behaviour: access outside a block, an invalid iterator, an
  uninitialised read. `Hang` is a loop that runs out of the fuel the model gives
  it. A theorem that says "succeeds" rules the other four out; a theorem of safety
  says that only `Ok` and `Fail` happen.
* `std::map`/`btree_map` are sorted association lists; `unordered_map`s whose
  order of iteration matters are quantified over every order, the others are
  association lists.
* Loops are structural recursion, folds, or fuel; that the fuel suffices is part
  of the theorems.
* Log output is not modelled. Allocation is taken to succeed.
* Only the Coq standard library is used.
* A claim that turned out false is a theorem `..._refuted` with a concrete
  witness, beside the theorem that is true instead.

## Properties

| id | what is modelled | how it is proved |
|----|------------------|------------------|
| C01-C03 | `src/intervalmap.h`: sorted list start -> (limit, value); lower/upper_bound, SplitInterval, RemoveInterval, Set, Lookup, FindNext | invariant over every sequence of operations; refinement to the last write covering a key |
| C04 | `quipper/buffer_reader.cc`, `data_reader.cc`: buffer, offset, 64-bit checks | all-or-nothing for each call; any sequence stays inside |
| C05 | `quipper/buffer_writer.cc` with UB for memcpy/memset outside | same; wrap-around refutation |
| C06 | writer and reader of length-prefixed strings together | round trip |
| C07 | `ByteSwap` and cross-endian reads | list reversal |
| C08 | `Align`, `GetNumBits`, aligned string lengths | least multiple; popcount |
| C09 | hex functions including strtol on two characters | round trip by induction |
| C10 | `ParseCPUNumbers`/`FormatCPUNumbers` with strtoul | parse after format |
| C11 | `perf_buildid.cc`, build id padding and trimming | induction over 4-byte groups |
| C12-C13 | `address_mapper.cc`: list of ranges with unmapped_space_after | invariant over histories; refinement to "last mapping covering the address"; injectivity |
| C14-C17 | `builder.cc`: string table, functions, CheckValid, Finalize | invariants; equivalence of CheckValid with a referential-soundness spec |
| C18-C22, C45, C47-C50 | `perf_data_handler.cc`, Normalizer: processes, mappings, build ids, callchains, lost events, statistics | invariant over every event list; refinement to specs that read the event history |
| C23-C29, C51-C53 | `perf_data_converter.cc`: handlers, profile and sample keys, locations, labels, header | conservation invariants over event histories, then over the whole conversion |
| C30-C31 | `huge_page_deducer.cc` over event lists | induction; translation of addresses before and after |
| C32-C34 | `sample_info_reader.cc` and the size function over byte lists | round trip field by field for every sample type; safety; the layout of perf_event.h as a separate list of fields, to which the stored chunks are equal (C33_layout, C34_layout) |
| C35 | `perf_data_utils.cc`, sizes of raw events | case analysis per event type, entry counts |
| C36-C38, C54 | `perf_reader.cc`: MaybeSortEventsByTime, InjectBuildIDs, Localize*, GetFilenames*; the build id serializer | stable sort uniqueness; lookups over lists |
| C39 | `perf_reader.cc`: all of ReadFromData (header, attributes, event types, data section, all metadata, piped data, both byte orders) | a weakest-precondition calculus for the reader; fuel bounds; an inductive spec of record streams |
| C40 | `arm_spe_decoder.cc` over a byte list and its address | progress, memory safety, decoding of encoded packets |
| C41-C42, C56-C57 | `perf_parser.cc`: ProcessEvents and all it calls but the filling in of build ids; discarding | a relation between the parser's tables and a replay of the events, kept by every step; uses C12/C13 for the mappers |
| C43 | `perf_reader.cc`: WriteToVector, WriteToPointer, GetSize, GenerateHeader and all they call; `perf_serializer.cc`: attributes | each step of the writer adds its part of a file image given by a separate spec; the sum of the sizes; following the offsets of the image |
| C44 | `perf_serializer.cc`: SerializeEvent, DeserializeEvent and all they call, the sample info readers | round trip per kind of event: a byte of the event is kept, or is in no field of the message |
| C55 | `perf_reader.cc`: byte swapping of events | each number and each other byte of an event, per type |
| C58 | `perf_serializer.cc`: SerializePerfEventAttr, DeserializePerfEventAttr | the members of the struct by offset; bit by bit for the bit field |
| C59 | the writer of C43 and the reader of whole files (`perf_reader.cc`: ReadFromPointer and all it calls) | the reader run over the file image of the writer's spec, section by section, with the state of the reader given for each prefix |
| C60 | `perf_option_parser.cc`, `perf_recorder.cc` (the command lines; not the processes) | a separate reading of command lines as perf does it; induction over the arguments |
| C61 | `perf_stat_parser.cc` (the conversion of seconds is an arbitrary function) | printing and parsing line by line |
| C62 | `perf_data_converter.cc`: RawPerfDataToProfiles, all stages from bytes to profiles | the models of the stages put together; each stage's theorem (C22-C24, C30, C31, C36) carried through views of the messages |
| C63 | the same as C62 | sound mappings stay sound through huge page deduction, merging and the parser; each stage's totality theorem applied to the views |
| C64 | the model of C23 to C29 | first_seen is a fold over the callbacks; the location cache of every process is invariantly that fold, with mapping entries that show the pointer |
| C65 | the composition of C62: reader, normalizer, converter | C19 (what is delivered) and the placing of C25 to C29 put together: the entry a record is counted in has the labels of the first record placed there, which look the same; names and cgroups of the callbacks are those of the events, these those of the messages |
| C66 | the composition of C62: reader, build id injection, huge pages, normalizer, converter | origin of every mapping object as an invariant of the normalizer's heap and of the references handed out; a mapping of the events is that of its message as an invariant of deducing and combining; C37 (injection), C38 (other names) and C53 (header) put together |
| C67 | the composition of C62; the samples a lost record makes | the n deliveries are one block without other callbacks between them, so they are alike (C24) and share an entry; that entry counts them (C23); its labels are those of the first, which can only be a lost sample too |
| C68 | `run_command.cc` as two programs with program counters, the pipes, the dispositions, masks and pending SIGINT of both, and signals from outside, as a relation on states | invariants over all runs: data (what was read and what is in the pipe make up what was written), dispositions by program counter; a rank that every own step lowers |
| C69 | the composition of C62; the decoder of C40 and the samples a trace makes | as C67: the deliveries of a trace are one block; equal records are alike (C24) and share an entry that counts them (C23); the process of a thread is a fold over forks and names of all events |
| C70 | `perf_to_profile.cc`, `perf_to_profile_lib.cc`; getopt; files by path | command lines: printing and parsing, both ways; the magic number as a proto is a field 10 whose content has a zero tag at byte 13, as the size in the header is small; with C63, C65 and C29 for sound recordings |
| C71 | `file_reader.cc`, `file_utils.cc`, `dso.cc`, build ids in `perf_parser.cc`; clients of a reader as an inductive type; libelf as an arbitrary function | a simulation between the two readers; notes by induction on the list (round trip) and on the bytes left (any input); the skipped parent processes were tried before, as threads are sorted; with C37 for the reader |
| C72 | `ReadFile` and then `WriteFile` of one `PerfReader` in `perf_reader.cc`, composed of the models of C40-C44, C58 and C59 | an invariant of what a reader holds while it reads (bounds, texts without NUL, which feature has been read, the serializer made of the attributes); it implies the conditions of C59 for the data that is written; events by C44, attributes by C58 |
| C73 | `quipper.cc`, `quipper_lib.cc`, on top of the recorder of C60; parsing of flags (gflags) is an arbitrary function | the arguments of both forms give the same call of the recorder as a specification of the wish; case analysis of the recorder; numbers by the lemmas of C09 about decimal text |
| C74 | `perf_converter.cc`, `conversion_utils.cc`, `BufferToFile` with the buffer of the C library; getopt and files as in C70; what is done with the contents is arbitrary | induction over the ways to write a command line; the language of formats by case analysis of the text behind the first dot; the rest by cases of the outcome of each step |
| C75 | `scoped_temp_path.cc` on a tree of directories, files and symbolic links, with `nftw` (depth first, links not followed) and `remove`, which the system may refuse for any set of paths; the constructors, with `mkstemp` and `mkdtemp` trying any sequence of names | what the removals leave is a recursive function of the tree, by induction over it and over the path; that function keeps just the entries above refused ones |
| C76 | `base/logging.h`, `base/logging.cc`, `compat/log_level.cc`: levels, the destructors that print and exit, reading of `errnum_`; the text in front of a message is left out | induction over the statements, with the least level as minus the verbosity |
| C77 | `perf_protobuf_io.cc`, `perf_parser_options.proto`, the defaults of `PerfParserOptions`; reader, parser and protobuf library as arbitrary functions | cases over the steps, with the files of C74 |
| C78 | `builder.cc`: SetDocURL, Emit, Marshal, MarshalToFile; encoding and compression as an arbitrary function, the blocks of FileOutputStream from the documentation | an error once set stays by induction over the calls; the rest by cases, on C14 and C17 |
| C46 | `string_utils.cc`, root paths | induction |

## Modelled and not modelled

Modelled (all of the functions named in the table):
`src/intervalmap.h`, `src/builder.cc`, `src/perf_to_profile.cc`, `src/perf_to_profile_lib.cc`, `src/path_matching.h` (as used by the
normalizer), `src/perf_data_handler.cc`, `src/perf_data_converter.cc`,
`quipper/address_mapper.cc`, `arm_spe_decoder.cc`, `binary_data_utils.cc`,
`buffer_reader.cc`, `buffer_writer.cc`, `data_reader.cc`, `data_writer.cc`,
`huge_page_deducer.cc`, `perf_buildid.cc`, `perf_data_utils.cc` (sizes of raw events and of messages),
`quipper.cc`, `quipper_lib.cc`, `perf_converter.cc`, `conversion_utils.cc`, `scoped_temp_path.cc` (removal), `base/logging.h`, `base/logging.cc`, `compat/log_level.cc`, `dso.cc`, `file_reader.cc`, `file_utils.cc`, `perf_option_parser.cc`, `run_command.cc`, `perf_recorder.cc` (the command lines), `perf_stat_parser.cc`, `perf_parser.cc`,
`sample_info_reader.cc`, `string_utils.cc`, `perf_reader.cc`
(reading, writing, and its operations on a proto: sorting, injection,
localization, file names), `perf_serializer.cc` (events, attributes, build ids).

Simplified, with the simplification said at the definition:
* protocol buffers are records; unknown fields and arenas are left out;
* MD5 prefixes are represented by the text that is hashed (C36-C38, C54), and by
  an arbitrary function in the normalizer;
* `std::stable_sort` is insertion sort (C36_stable_sort_is_unique shows that any
  stable sort gives the same list);
* in C39 `PerfSerializer::SerializeEvent` is an arbitrary predicate on the state
  and the raw event: the theorems hold whatever it accepts;
* in C62 all records are made into messages with the attributes known at the end of
  reading (for files these are the ones known from the start), and the address a trace
  is stored at is an arbitrary function;
* regular expressions in path matching are modelled by the functions they denote;
* `getopt` of the C library and the wire format of protocol buffers (as far as C70
  needs it) are modelled from their documentation.

Not modelled: libelf (an arbitrary function in C71), the text of messages, memory
exhaustion, the proto library itself, and test helpers.

## Findings

Claims of the documentation, of comments, or that a user would take for granted,
which are false of the code. Each is a theorem with a concrete witness.

* C03_documented_find_next: FindNext does not find an interval containing the key.
* C05_write_string_wrap: WriteString near 2^64 wraps its bound check.
* C08_align_wraps: Align of a number near 2^64 gives 0.
* C09_accepts_non_hex: HexStringToRawData accepts signs and blanks.
* C10_side_conditions: formatting reversed or empty ranges is not parsed back.
* C12_partial_overlap_drops_rest, C12_nested_mapping_drops_outer,
  C12_refused_split_loses_mapping, C12_range_to_end_of_memory: what remapping loses.
* C13_collision_when_full: mapped space that is full collides.
* C14_empty_url_duplicates: the empty string can be interned twice.
* C16_first_string_unchecked, C16_zero_ids_unchecked, C16_type_index_out_of_table:
  inconsistent profiles that CheckValid accepts.
* C17_address_at_limit: an address equal to a mapping's limit gets that mapping.
* C18_wrapping_mmap, C18_kernel_fixup, C18_process_named_lost,
  C18_nul_in_build_id, C18_perf_version: mappings that do not contain their address
  or carry another name or build id.
* C20_fork_of_unknown_parent; C45_plain_shared_object.
* C26_exec_of_process_0, C26_invalid_profile_returned; C27_latency_truncated;
  C28_kernel_remap_stale.
* C30_history, C30_end_of_memory; C31_offset_of_renamed_page, C31_timestamped_skipped.
* C32_write_back; C33_overrun (a write past the event), C33_uninitialised;
  C34_used_sample.
* C35_bpf_metadata_wrap: an entry count that wraps passes the size check.
* C36_untimed_events_move; C37_again, C37_bad_id; C38_md5_stale, C38_no_attributes.
* C39_skipped_trace: leaving out auxtrace events makes the reader take trace data
  for records. C39_cross_endian_features: metadata of files of the other byte order
  are lost. C39_cross_endian_attr_type: the attribute type is swapped twice.
  C39_feature_bit_0: bit 0 shifts the section table. C39_feature_number: refused
  feature numbers are accepted with 2^32 added.
* C40_depends_on_buffer_address: alignment packets are measured by the address of
  the buffer in memory.
* C41_mark_confused: below a huge mapping a marked address equals a mapped one.
  C41_marks_collide: two unmapped addresses become equal.
* C56_bad_mapping_aborts: an empty mapping event aborts the process.
  C56_unknown_event_leaves_rest: behind an event of an unknown kind samples keep
  their addresses, and the parser reports success. C57_discard_unset_counter: there
  discarding decides on a counter that was never set.
* C55_ksymbol: the type of a ksymbol event is not turned round. C55_cgroup: data of
  the other byte order with a cgroup event are refused.
* C44_dropped: messages drop some flags of branches and AUX events, and the lost
  count of a sample outside a group. C44_bpf: BPF metadata with a repeated key lose
  an entry; their order is not kept. C44_bpf_count: a huge entry count makes the
  serializer read outside the event. C44_other_order: the ids of events of the
  other byte order are looked up unswapped. C44_message_abort: a message with an
  unknown id, or a pid without a tid, aborts the process.
* C43_padding: the announced size counts metadata nobody asked for, so a file ends in
  bytes no section describes. C43_unset_strings, C43_hybrid: strings that are asked for
  and not set, and hybrid PMUs with an empty text, are written but not counted: a
  caller's buffer is written behind the announced size. C43_trace: a wrong size of
  trace data aborts the process; size 0 drops the trace.
* C58_frequency: sample_freq of a message is never set and never read, because freq is
  tested before it is set: a message that asks for a frequency gives a struct that asks
  for 0. C58_bits: bpf_event, aux_output and task_poke are lost.
* C59_attr_size: an attribute whose message says another size than 96 (a file of an older
  perf) is written with its full struct; the reader then looks for the ids at the wrong
  place and loses them. C59_refused: empty PMU mappings, or a CPU topology without the
  number of CPUs, give a written file the reader refuses. C59_build_id: a build id that
  ends with four zero bytes loses them, one of other than a multiple of four bytes is
  padded. C59_more_builds: the build ids of mappings are appended to the table again at
  each read, so a file grows each time it is read and written.
* C60_safe, C60_command: the check of perf command lines takes the argument behind
  "--event=cycles" for the value of --event and does not look at it, while perf takes it
  for an option or a command: `perf stat --event=cycles --post=reboot` and
  `perf record --event=cycles /tmp/evil` are accepted and run. C60_etm: --event cs_etm is
  not recognised as ETM. C60_stat_command_line: "-o" as a value leaks the name of the
  temporary file.
* C61_fields: two blanks behind the name of an event make its count 0; negative and too
  large counts are accepted.
* C62_readable_file_aborts: one mapping of length 0, or one beyond 2^64, and the
  conversion of an otherwise good file ends the program. C62_unknown_id: one sample whose
  id belongs to no event makes the whole file unreadable; the result is an empty list of
  profiles.
* C69_later_mappings_refuted: the record that announces an SPE trace has no time. If all
  events have one, sorting puts the trace before all of them: no mapping applies to it and
  all its addresses are shown as 0.
* C70_other_byte_order_refuted: StringToProfiles tries the input as a proto first. A
  perf.data file of this machine's byte order can never be one, but one of the other byte
  order with a few odd values in its attribute is a proto of unknown fields only: no
  profile is made of it and perf_to_profile aborts.
* C70_full_device_refuted: the result of SerializeToOstream is not looked at; on a full
  device the profile is cut off and the exit status is success.
* C70_race_refuted: the check that the output does not exist and its opening are two
  steps; a file made in between is overwritten without -f (O_EXCL would prevent it).
* C70_no_samples_refuted: perf_to_profile ends with LOG(FATAL) on a recording without samples.
* C71_pipe_refuted: the size of a pipe is taken for 2^64 - 1; FileToBuffer ends with an
  exception and a FileReader reads nothing.
* C71_module_padding_refuted: the build id of a kernel module includes the padding of its
  note, that of any other file does not.
* C71_device_refuted: a DSO on a device with major (or minor) number 0, as on overlay or
  tmpfs, counts as one without device information, and any file of its name is taken.
  (Seen, not modelled: when elf_begin fails, ReadElfBuildId closes a descriptor that its
  callers close again.)
* C78_full_device_refuted: MarshalToFile (builder.cc:138-160) returns the result of closing the gzip stream, but the
  FileOutputStream below it writes its last block (up to 8192 bytes) in its destructor, after the result is known.
  On a full device a small profile is reported as stored although the file is empty; the result of close() is ignored
  as well.
* C77_default_refuted: PerfParserOptionsProto is called a mapping of PerfParserOptions, but sort_events_by_time is
  false by default in the message and true in the struct (perf_parser_options.proto:15, perf_parser.h:165), so an
  empty options message turns sorting off; allow_unaligned_jit_mappings is missing from the message.
* C77_too_big_refuted: WriteProtobufToFile ignores the result of SerializeToString (perf_protobuf_io.cc:83). For a
  message of more than 2 GB it leaves an empty file and reports success, and an empty message is read from it.
* C76_plog_refuted: PLOG reads `errnum_`, which is never given a value (base/logging.h:87,92). Every PLOG that
  is shown is undefined behaviour: so are a failed perf in quipper, a failed fseek and failed system calls in
  RunCommand. (C68, C71 and C73 leave messages out.)
* C76_verbosity_refuted: `SetVerbosityLevel` negates an int; for the least one that is undefined.
* C74_full_device_refuted: on a full device the last part of the output (less than a block) is lost and
  perf_converter reports success; BufferToFile does not look at the result of fclose.
* C74_operand_refuted: `perf_converter my.data` converts perf.data, not my.data, without a message.
* C74_option_place_refuted: "perf.remap.discard" is a format, "perf.discard.remap" is not, and the format of
  the output takes no options; this is noticed after all of the input has been parsed.
* C73_duration_refuted: the duration of quipper is an int64 flag kept in an int: 4294967297
  seconds are recorded as one. It is handed to sleep with six digits: 1234567 becomes 1.23457e+06.
* C73_old_duration_refuted: in the old form of the command line any word is accepted as a duration
  ("ten" and even "--duration=60" are 0, "1.5" is 1), with success. So flags followed by a
  command that starts with "perf" are not read at all.
* C73_usage_refuted: the usage of quipper says that arguments of perf inject are separated by hyphens;
  they must be separated by ';'. Wrong ones are noticed only after the recording, which is then lost.
  The documented --perf_path makes every recording fail unless it is "perf" or empty.
* C72_empty_cmdline_refuted: a file with an empty command line (a count of zero) and
  all other features is read but cannot be written: `GetStringMetadataSize` counts the
  four bytes of the number of tokens only if there is a token, the writer writes them
  always.
* C72_attr_bits_refuted, C72_builds_refuted: `ReadFile` and `WriteFile` drop three flags
  of an attribute (see C58) and add the build ids of mappings once more every time
  (see C59).
* C68_interrupt_lost_refuted: SIGINT that arrives after the parent unblocked it and
  before the child called setpgid is lost: killpg finds no such group, and the command
  runs on as if nothing had happened. Calling setpgid in the parent too would close the gap.
* C68_success_unrun_refuted: SIGINT or SIGTERM between fork and exec makes RunCommand
  return 0 although the command never ran.
* C68_orphan_refuted: a parent that dies between fork and the child's prctl leaves the
  child running; the child does not look at its parent after prctl.
* C68_fork_failure_refuted: the result of fork is not looked at; after a failure
  waitpid(-1) does not set the exit status, which is then read.
* C68_second_call_refuted: after a first call SIGINT stays ignored, which the child of a
  second call inherits: it cannot be interrupted unless the command changes that.
* C68_stale_group_refuted: between the wait and the destructor SIGINT is sent to a process
  group that is not the command's any more (the comment expects ESRCH, but the number may be in use again).
* C66_given_id_padded: an id given by the caller for a file without an entry is shown with zeros up to
  a multiple of four bytes; for a file with an entry it is shown as given.
* C65_mixed_shapes: samples with and without a field (pid, tid, time, cpu) are one entry if the
  field is 0; the labels are those of the first, so a sample without a thread can be shown
  with thread 0, and one of thread 0 without.
* C64_return_address_spills: the mapping of a caller is looked up at its return address but
  shown at the byte before. If a mapping ends there, the frame is shown in the next one, and
  later samples at that byte share the location.
* C64_reused_pid: a fork onto a process id used before replaces its mappings but drops no
  cached location, so the child is shown in the mappings of the earlier process.
* C63_unaligned_overlap_aborts, C63_straddling_map_aborts, C63_heavy_samples_overflow: a
  map that cuts another off the page grid, or one across the middle of the address space
  with a wrapping offset, ends the program; periods that add up to 2^63 overflow.
* C50_documented_sum; C51_absent_is_zero; C52_process_named_lost, C52_overflow;
  C53_nul_in_event_name.

## Trusted base

* The Coq 8.16.1 kernel (and `coqchk`, which the gate runs).
* `Print Assumptions` of every theorem says "Closed under the global context":
  no axiom is used, of the standard library or otherwise.
* The definitions in `*Model.v` being faithful readings of the cited lines, and
  the statements in `*Spec.v`/`*Props.v` saying what the English says.
* The layouts of kernel structures (`quipper/kernel/*.h`) as cited; a
  little-endian 64-bit host.
