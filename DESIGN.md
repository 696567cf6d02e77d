# Formal model of redsea: design

Target: windytan/redsea, pinned commit in `/repo` (C++17 RDS decoder).
Proof assistant: Coq 8.16.1, standard library only. No axioms are added or used.

## 1. Layout of the development (`rocq/theories`)

| Directory | Content |
|---|---|
| `Model/` | Executable Gallina functions, one per C++ function, each citing file and lines. No proofs. |
| `Spec/`  | Small independent specifications: the RDS transmitter (polynomial division), Gregorian calendar, base64 decoder, CRC by polynomial division, UTF-8 well-formedness, ... Nothing here mentions the model. |
| `Proofs/` | Lemmas. |
| `Props/` | Only the property theorems (`C01_...`), each closed by `exact`, with `Print Assumptions` under it and an `Example` showing its hypotheses are met. |

## 2. Modelling conventions

* Unsigned integers are `N` (wrap-around written as `mod 2^n` where the C++ type can wrap), `int` is `Z`.
* Undefined behaviour and exceptions are distinct outcomes: `res A := Ok a | Throw msg | UB msg`.
  Every `operator[]` on an array/vector/string is a bounds-checked access returning `UB`; `.at()` and JSON type errors return `Throw`.
* Byte strings are `list N`; JSON keys are Coq strings. `nlohmann::ordered_json` is an insertion-ordered object.
* `std::map` is an association list with the find/insert/replace operations the code uses.
* Library and OS calls (mktime, localtime, strftime, clock, iconv, sndfile, liquid-dsp, getopt) are function arguments (oracles) or lie outside the model; see section 4.

## 3. Plan, property by property

| Id | What is modelled | How it is proved |
|---|---|---|
| C01 | calculateSyndrome, getOffsetForSyndrome; spec: transmitter by polynomial division | linearity of both sides over xor, basis check by computation |
| C02 | makeErrorLookupTable, correctBurstErrors | linearity reduces to the 51 error patterns per offset |
| C03 | same | inversion of table lookup + linearity |
| C04 | same | linearity + finite sweep of burst patterns |
| C05 | SyncPulse, SyncPulseBuffer, acquireSync, pushBit | invariant: the ring holds the last four recognised offsets of the history |
| C06 | RunningSum, findBlockInInputRegister | refinement of ring buffer to block history |
| C07, C08 | whole BlockStream | induction over blocks, then groups, using C01-C03 |
| C09 | whole BlockStream | case analysis on ring contents |
| C10, C11 | BlockStream + Channel::processBits | invariants over bit lists; fold over append |
| C12, C13 | Group, setBlock | invariant of groups built by the block decoder |
| C14 | printHex/printAsHex and readHexGroup | round trip |
| C15, C16 | CachedPI, Channel::processGroup | invariant over PI history |
| C17, C18 | Channel::processGroup + Station | two-run simulation; history invariant |
| C19 | RunningAverage<float,12> with SpecFloat binary32 | exact-arithmetic invariant + 49-case rounding sweep |
| C20 | Channel timestamps | monotonicity; counterexample for a clock that goes back |
| C21, C22 | Station and all group decoders, in the error monad | "never Throw/UB" preserved over all groups |
| C23-C27 | RDSString, RadioText, decodeType0/2/10A/15A, eRT | refinement to "last received byte per position"; C27: what was written since the first position determines a complete text |
| C28 | character table | 256-case sweep + induction |
| C29 | parseRadioTextPlus, charlen, the text buffer, within a run of the channel | the state of the item and of the text after all groups; the byte positions charlen yields are those of the characters when the characters at the edges are one byte (Spec/Plus.v); conversely an invariant on the last complete text, and that a substring which is valid UTF-8 was cut at characters |
| C30 | Station output | syntactic invariant on keys |
| C31 | CarrierFrequency | sweep |
| C32, C33 | AltFreqList, decodeType0 within a run of the channel | invariant: the list is a function of the type 0 groups decoded; round trip by induction on the codes |
| C34 | decodeType4A with SpecFloat binary64 | sweep over every day number, against an independent calendar |
| C35, C36 | decodePIN, getCallsignFromPI | sweeps |
| C37 | asBase64 | induction by 3 bytes |
| C38, C39 | RFTFile and decodeC, within a run of the channel | the file of each pipe as a function of the groups decoded and of their lines (Spec/Files.v) |
| C40 | crc16_ccitt | byte-step equivalence sweep + induction |
| C41-C46, C69 | tmc.cc, within a run of the channel | the state of the service as a function of the groups decoded; round trip of the free-form bits; counterexamples |
| C47-C50 | io/input.cc | induction over input |
| C51, C52 | dsp/subcarrier.cc (symbol level, sample values abstract) | induction |
| C53, C57 | options.cc, Resampler::setRatio | decision logic; the binary32 conversion and division of the rate by hand (RateP.v); counterexamples |
| C54, C55 | csv.hh, util.hh | induction; bit-level extensionality |
| C56 | Channel, processMPXInput loop | simulation over interleavings |
| C58 | decodeType3A, decodeODAGroup | invariant over history |
| C59, C60 | whole BlockStream | sweep of the 51 errors, by linearity for every information word; invariant over bits |
| C61 | Channel, MPX loop of redsea.cc | symbolic execution of the loop; counterexample |
| C62 | decodeHeader, decodeBasics | line of every group |
| C63, C64 | redsea.cc, options.cc, io/input.cc, the symbol loop of dsp/subcarrier.cc | induction over the input with an explicit measure; C21 lifted to the program |
| C65 | decodeType10A, decodeType15A | as C23, C25 |
| C66 | all group decoders, over whole runs | two runs whose groups differ only in the contents of blocks not received (Spec/Received.v) do the same; counterexamples for the exceptions |
| C67 | AltFreqList, decodeType0 within a run | invariant relating the list to the codes since the last count code |
| C68 | the same | a sublist of the announced length is the list; counterexample when a count code is lost |
| C70-C73 | decodeType0, 1, 3A, 14, 15B; receiveSystemGroup | each printed line against the bits of its group |
| C74 | decodeType5, decodeType6 | the same, with the history of announcements |
| C75 | processASCIIBitsInput, processHexInput, readHexGroup, printAsHex, the decoders | the groups read from the recording agree with those received in everything the decoders use (relation `alike` in ReceivedP.v, generalised from C66); groups of which nothing was received change nothing that lasts (RecordP.v) |
| C76 | BlockStream, Channel, decodeType0, processASCIIBitsInput | the groups the receiver delivers (BlockSyncE/G) are those sent, up to correction; run_groups over them is what the program prints (AirP.v), and the name is on the line by the round trip of C24 (PsP.v) |
| C77 | AsciiBitReader::readBit, readHexGroup, readTEFGroup, MPXReader::fillBuffer with feed_thru | the lines do not depend on the option (feed_* in StreamsP.v); by induction on the input, what is echoed is the input and one byte more |
| C78 | all decoders, Channel::processGroup, the text inputs | two runs are compared step by step: the station's state is the same, and the objects agree in all members outside `concerned` (Spec/OptionSets.v), by going through every decoder (OptionsP.v); an error report in one run is one in the other |
| C79 | Station::decodeC | the first word is classified by `purpose_of` (Spec/Channels.v) and shown to agree with the program's tests; then every branch, member by member (TypeCP.v); the applications of the pipes by induction on the history |
| C80 | decodeType14 and the per-network tables of names and frequency lists | invariant over the decoded history for every network at once; text buffer and frequency list lemmas of C24 and C32 |
| C81 | decodeType5, RDSString | invariant on the history: the buffer is the sequence of all writes since the station was new; completeness lemma of the string buffer |
| C82 | main, processMPXInput / ASCIIBits / Hex / TEF, MPXReader, flush | the groups found in a prefix of the input are a prefix of the groups found; runs are compositional; streams 1-3 stay initial so that the final flush prints nothing (Proofs/CutP.v) |
| C83 | Tmc.v receiveUserGroup, receiveTuningInfo | invariant on the provider text and the (always empty) map of frequencies over the decoded groups; field by field for one group |
| C84 | `parseEnhancedRT`, `decodeType3A`, `parseRadioTextPlus`, `RDSString` | invariant: the buffer is a function of the announcements and bytes in the groups decoded (`ErtP.v`, `ErtPlusP.v`); then the lemmas about text buffers in `StringP.v` |
| C85 | biphase_push, delta_decode, decode_symbol, process_samples | binary32 sums of multiples of 2^u are exact (FixedP); invariant tying the clock history to the steps of the current window; differential decoding undoes the coding, also inverted |
| C86 | redsea.cc processMPXInput, input.cc fillBuffer, subcarrier.cc processChunk, channel.cc processBits | induction over the buffers: the decoder state of stream 0, the block synchroniser's state as a function of all bits so far, and the channel up to its last-group time; the counter of bits since sync stays below the reset limit without long gaps |
| C87 | redsea.cc loop of processMPXInput, Channel::resetPI, getSecondsSinceCarrierLost, SubcarrierSet::reset, float comparisons | induction over buffers; exact characterisation of the out-of-sync counter; simulation between the reset channel and a new one up to confirmation |
| C88 | options.cc getOptions as a whole, main's early exits | the settings after each prefix of the options in closed form, by induction over the options |
| C89 | CachedPI::update, Channel::processGroup, every decoder's independence of block 1 | simulation between the two runs: same state but for the remembered codes |
| C90 | Tmc.v (quantities, sentences) | Spec/Traffic.v gives the meaning of all codes; all codes checked by computation; induction over the fields for which quantity belongs to which event |
| C91 | Csv.v, TmcFiles.v (loadServiceKeyTable, stoi, CSVRow) | induction over the lines of the file, then C41 |
| C92 | Csv.v, TmcFiles.v (readLTN, encoding_of, loadLocationTables, load_directories) | induction over rows and directories, then C46 |
| C93 | TmcFiles.v (program, location_table_info), Main.v | case analysis on the options (C88), printing of the info line read back by the JSON specification |
| C94 | tmc/events_data.cc (EventData.v), loadEventData, readCSV | a reader of the row format proved correct for every list of lines, then applied to the built-in lists through boolean checkers of the format evaluated by the kernel |
| C95 | decodeODAGroup (4BD8), parseRadioTextPlus, parseEnhancedRadioText | simulation: the station's text, bits and assignment are the fold of the events (announcements, characters, item bits) of the history; then the tagged characters as for C29, over Unicode characters |
| C96 | Channel::processBits/processGroup (receive times), MPXReader times | the double-precision age of a group is within 1 ms of n/1187.5 s (AgeP); induction over bits and buffers with the running maximum, then over the program's buffers |
| C97 | Channel::flush, BlockStream::flushCurrentGroup, processMPXInput | the group under assembly is read off the block-wise semantics of the receiver (EndingP); the flush loop equals a session of those groups; induction over the program's buffers (EndProgP) |
| C98 | getTimePointString, print_hex, Channel.processGroup with strftime as a host oracle | Spec/TimeText.v says what the text of a time is. Proofs/TimeTextP.v: the first %f is found and replaced by two digits that strftime copies; whole formats split at it. The hexadecimal lines are compared to those of the same groups without the option. |
| C99 | decoders of groups 0, 2 and 15A with --show-partial, RDSString::getData | invariant of the text buffer over the history (tracks), then the buffer after a run of in-order segments |
| C100 | option tables of options.cc, getopt_long as documented (Getopt.v), main | relation between words and options over the usage text; induction over it; invariant on everything getopt returns |
| C101 | subcarrier.cc SubcarrierSet and liquid_wrappers.cc down to the liquid-dsp objects (Model/Subcarrier.v) | the objects are oracles (record Parts); simulation between two runs that agree on the part of the state belonging to one stream |
| C102 | liquid_wrappers.cc NCO | invariant over all steps; rounding lemmas for binary32 addition, subtraction, product and quotient (Proofs/FloatB.v): rounding never crosses a representable number |
| C103 | subcarrier.cc resampleChunk, liquid_wrappers.cc Resampler | conservation law of the phase accumulator, binary32 bounds on the ratio and the step (Proofs/PacedP.v) |
| C104 | subcarrier.cc sample_num_ | induction over chunks with the counter modulo 2^32 |
| C105 | Model/BlockSync.v | Spec/Recovery.v defines chance blocks. Proofs/BlockSyncS.v: being right is preserved bit by bit; a wrong lock ends within 43 blocks plus one per chance block (error window); hunting locks within a triple of blocks unless two chance blocks fall into it; a lock is right unless a chance block ends a rhythm. The stream that is never synchronised is handled by a simulation between hunting states that differ in the bit counter. |
| C106 | text/rdsstring.cc in UCS-2 encoding, groups.cc parseEnhancedRT, with iconv as a parameter | the state of the text after any history (as in C84), then: bytes without an end mark never complete the text, the byte that completes it hands exactly the visible bytes to the converter, later bytes change nothing |
| C107 | Station, TMCService, RFTFile, RDSString, BlockStream, Channel; input readers | an invariant bounding every list and every key of every map, kept by each decoder, each bit and each call; induction over the calls |
| C108 | BlockSync.v, Channel.v, Station.v, Main.v together | recovery theorem of C105 gives the groups after the disturbance; the name theorem (C23, C76) holds after any earlier groups; the program's output is the concatenation |
| C109 | RDSString::set with its sequence counter; decodeType0 | the counter is at least the length of every sequence received (converse of the invariant of C24); a sequence of five characters needs parts 1 and 2 next to each other |
| C110 | decodeType2, RDSString::clear, hasPreviouslyReceivedTerminators | the text, the flag and the text at the last first part as a fold over the received parts; invariant that the buffer has no end mark, or that it keeps the old one |
| C111 | RDSString, decodeType2, decodeType10A, decodeType15A, parseEnhancedRT | any buffer tracks what was received once position 0 has been received (Proofs/PartsP.v any_buffer); then C109's completeness lemma applies |
| C112 | printUsage, printVersion, getOptions | reading the text by computation, then C88 and C100 |
| C113 | all of the bit input path | C105 and C76's delivery lemmas composed with C111 |
| C114 | ChunkCRC::getActualMode, getChunkLength, getByteAddress (src/rft.hh) | division with remainder; case distinction on the size thresholds |
| C115 | decodeType2, decodeODAGroup, parseRadioTextPlus (src/groups.cc) | the invariant of C29 composed with the assembly of lost and repeated parts (C111) |
| C116 | Message::pushMulti, getFreeformFields | whatever is stored before, after all groups of a message only its own parts are among those that are read (TmcMsgP.bits_any, whole_any); refutation by evaluation |
| C117 | processASCIIBitsInput, BlockSync, Channel, Station, Tmc | one lemma carries any statement about the last line of a run of groups over to the bits, from both ways of being heard; the statements about groups are those of C34, C111, C32, C33, C35, C69 to C74, C81, C29 and C116 |
| C118 | processASCIIBitsInput, BlockSync, Channel, Station | induction on the groups heard, from the last: each is confirmed and printed (last_shown), and the members every line has are read off the JSON text |
| C119 | readHexGroup, processHexInput, Channel, Station | the input splits at the ends of lines into the groups read from each part; each line written as in Spec/HexText.v is read as its group, and the theorems about histories of groups (C118, C23, C111, C32) apply |
| C120 | readTEFGroup, processTEFInput, Channel, Station | the reader's state between lines is a group of which block 2 has not come (an invariant); each pair of lines is read as its group from any such state, and the theorems about histories of groups apply as in C119 |
| C121 | readHexGroup, readTEFGroup, processHexInput, processTEFInput, Channel, Station | the groups read are a history with the station's groups at its end and every group of which is found in the input; the theorems about histories of groups (C29, C33, C34, C69, C111, C116 and others) then apply as in C117 |

None of the properties is "not applicable"; what a model cannot show is stated per property in `MANIFEST.json`.

## 4. Trusted base

* The Coq 8.16.1 kernel, including `vm_compute`, and `coqchk`.
* Axioms: none. Every `Print Assumptions` in `Props/` answers `Closed under the global context`. (coqchk also lists
  two axioms of the library file `Coq.ssr.ssrunder`, which the standard library loads; no theorem uses them.)
* The reading of the C++ source: the model is tied to the code only by the citations in its comments.
* The oracles below: what a theorem says holds for every value of an oracle that meets the stated assumption.

| Oracle | Stands for | Assumptions, where a theorem makes them |
|---|---|---|
| `Env` | iconv, strftime, localtime/mktime, the text of a double, the message of an exception, the TMC tables | `host_ok` (a double is written as a JSON number, TMC service keys in range), `host_text` (texts are UTF-8), `plain_clock` (no daylight saving time; C34 only) |
| `NumEnv` | strtoul, strtof | none |
| `SndEnv` | libsndfile | `audio_ok`: at most 1024 channels |
| `FileEnv` | the lines std::getline delivers from the files of a location table directory (none for a missing file), and iconv between named character sets | stated where used |
| `Liquid` | liquid-dsp (resampler, mixer, filters, AGC, symbol synchroniser, modem) | `audio_ok`: at most two samples out per sample in (proved of the demodulator made of `Parts`: C103_program) |
| `Parts` | the single liquid-dsp objects: oscillator, filter, gain control, symbol synchroniser, modem, resampling filter; complex product and std::polar | `turning` (C102 only): the oscillator's phase is a number between 0 and 2 pi; the resampler's pace (a phase with 2^24 units per input sample) is part of the model |
| clock readings | `std::chrono::system_clock::now` | none (C20 says what fails if the clock goes back) |

### Modelled

| Source | Model | Simplifications |
|---|---|---|
| util.hh, util.cc | Util, Freq, BlockSync (RunningSum), Channel (RunningAverage) | shifts by a type's width or more are not modelled as undefined; no call site reaches them (C55) |
| block_sync.* | BlockSync | none |
| groups.* | Group, Station | messages of exceptions are opaque |
| channel.* | Channel | the output stream is a list of lines |
| text/* | RdsString, Tables | iconv is an oracle |
| rft.hh, base64.hh | Rft | none |
| tmc/tmc.*, tmc/csv.*, tmc/locationdb.* | Tmc, Csv, TmcFiles, EventData | files are lists of lines (an oracle per file name), iconv is an oracle; administrative areas are left out (nothing reads them); the event and supplementary tables of events_data.cc are copied into EventData.v by a script; theorems about messages take the loaded tables as a parameter, P_Events.v puts in the real ones |
| tables.* | Tables | copied by a script |
| options.* | Options, Getopt | getopt_long is part of the C library and modelled as documented |
| io/* | Input, Main, Streams (standard output and error) | reading is from lists of bytes, lines or samples; audio echoed with --feed-through is modelled as samples, not as the bytes libsndfile makes of them |
| redsea.cc | Main, Usage (the usage text, copied by a script) | the version number is a parameter |
| dsp/subcarrier.* | Dsp (biphase and differential decoders), Main (chunk loop, resampler ratio; the carrier, filter and symbol recovery is the `Liquid` oracle there), Subcarrier (mixing, decimation, PLL, resampling, reset, as one such oracle) | what the liquid-dsp objects compute |
| dsp/liquid_wrappers.* | Subcarrier | numerical behaviour of the objects, their constructors' failures |
| nlohmann::ordered_json | Json | documented behaviour of the operations used: insertion order, error 305 on indexing a non-object, error 316 on invalid UTF-8 in dump() |

### Not modelled

* The numeric quality of the demodulator (which bits come out of which audio).
* liquid-dsp itself (see `Parts` above).
* The contents of the TMC data files given by the user. (Loading them, including the `--loctable` directories and the encodings, is modelled in Csv.v and TmcFiles.v.)
* Output to the terminal beyond the bytes written; errors of the output stream.

## 5. Findings

Properties that are false of the code, or that needed an exception, with the theorem that shows it. Line numbers are in the
model's comments.

| Finding | Theorem |
|---|---|
| A corrupted C' block can be corrected into a wrong C block | C59_cprime_block_miscorrected_refuted |
| PI code 0000 is never confirmed | C15_pi_zero_refuted |
| The receive time of a group can go back if the clock goes back, except for demodulated audio | C20_clock_going_back_refuted |
| ps mixes two names if a name changes and its first segment is missed | C27_mixed_name_refuted |
| A RadioText message with an end mark is shown cut off as complete ("Hell" for "Hello") if only its first parts arrive, three times in a row | C27_cut_off_refuted |
| RadioText of a station that mixes 2A and 2B groups shows 32 characters of a message of 64 as complete | C24_mixed_versions_refuted |
| Enhanced RadioText uses block 3 without checking that it was received | C24_enhanced_radiotext_refuted |
| The DAB cross-reference shows a frequency and an ensemble without checking that blocks 3 and 4 were received | C66_dab_without_blocks_refuted |
| Transparent data are shown without checking that blocks 3 and 4 were received | C66_transparent_data_refuted |
| With TEF input the group type, and what block 2 says, are taken from a block 2 with errors | C66_type_from_lost_block_refuted |
| A hex recording of a version B group without block 3 is decoded as if the type were certain; from the bits it is not | C75_version_B_refuted |
| A hex recording loses the programme identification of version B groups whose block 1 was lost | C75_identification_in_block_3_refuted |
| A hex recording has no trace of groups of which nothing was received, so a group with block 1 lost is attributed to a programme that the bits do not attribute it to | C75_after_a_missed_group_refuted |
| A frequency list mixing two repetitions is shown as complete when the groups in between are lost | C68_lost_groups_refuted |
| A medium wave frequency of another network (variant 9) is shown as an FM frequency | C72_medium_wave_refuted |
| A RadioText without end mark is shown in the group that changes the A/B flag | C26_changing_group_refuted |
| The date of clock time is wrong from 2100-03-02 on | C34_after_2100_refuted |
| A programme item number with hour 24 is accepted | C35_hour_24_refuted |
| A RadioText Plus tag whose last character (or the one before it) is not ASCII is cut inside a character, which costs the line | C29_accented_edge_refuted |
| A RadioText Plus tag up to the last of 64 characters is not shown | C29_end_of_full_text_refuted |
| A new file is cut off at the size of the file before it until its own size arrives | C38_old_size_refuted |
| Traffic messages of three and four groups lose the fields after their second group | C43_three_groups_refuted, C43_four_groups_refuted |
| A TMC service that becomes encrypted while a message is pending shows an encrypted location as a location | C44_after_becoming_encrypted_refuted |
| The end of an ASCII bit stream counts as a 0 bit | C47_bit_at_end_of_input_refuted |
| A hex line cut inside a block is taken as a block | C48_short_line_refuted |
| TEF lines: the error flags of a block apply to all later blocks of the line | C49_error_flags_of_other_blocks_refuted |
| Several channels: a last short buffer is handed to each channel still interleaved | C50_short_buffer_refuted, C56_short_buffer_refuted |
| `-c 4294967297` is taken as 1 channel; `-r nan` is accepted | C53_channels_truncated_refuted, C53_rate_nan_refuted |
| An empty CSV line has no fields | C54_empty_line_refuted |
| Sample rates above 34.200002 MHz are accepted but end the program with an uncaught exception | C57_highest_rates_refuted |
| Several channels: the receive time never advances | C61_clock_ignored_refuted |
| With --feed-through, standard output has a byte 255 after ASCII bits and an extra line end after lines of text | C77_unchanged_refuted |
| With --show-partial, a long station name received in part may be cut inside a character, which costs the whole line | C78_partial_long_name_refuted |
| transparent_data.full_raw is not raw: bytes 00 and 0D are shown as 20 and everything after the first 0D is hidden, although the channel is transparent | C81_raw_bytes_refuted |
| Bits that end with the last bit of a group missing: a 0 is put in its place, so that a block has an error (without error correction it is lost); the PI line of a tuner group at the end is printed as a group of its own; a hexadecimal line that ends within a number is read as a smaller number (`47` as `0047`) | C82_last_line_of_bits_refuted, C82_last_line_of_tuner_refuted, C82_unfinished_line_refuted |
| Two frequencies sent for another network in tuning information of a traffic message service (variant 6) are not shown: the list expects a length code, and is discarded after each group | C83_frequencies_refuted |
| An Enhanced RadioText of more than 64 bytes (the standard allows 128) is shown cut off after 64 bytes as if it were complete | C84_long_text_refuted |
| After the carrier is lost (or the PI code reset), groups are still printed as groups of the previous station until a PI code is received three times: a group carrying PI 1111 is printed with "pi" 0x2204 and its text becomes part of 2204's programme name | C87_old_label_refuted |
| An option that does not exist prints the usage but the exit status is success (getopt returns '?', which the code treats as --help; the default branch that would set init_error is never reached) | C88_unknown_option_refuted |
| Two different wrong PI codes in succession reset the PI memory: after three right codes the station counts as changed and its name, texts, frequencies and announced applications are forgotten | C89_two_wrong_codes_refuted |
| A quantity of kind time with code 0 is shown as `00:-10`; per cent codes 21 to 31 are shown as 105 % to 155 % (tmc.cc:205-287) | C90_code_without_meaning_refuted |
| A key in service_key_table.csv with a position of 32 or more, or a pattern that does not fit after shifting, makes decrypting undefined behaviour; nothing checks the file | C91_any_key_refuted |
| Road numbers of a location table are not converted to UTF-8 (names are): a message on a road whose number has a non-ASCII character in an ISO-8859-1 table is replaced by an error line | C92_converted_refuted |
| A point that gives a segment whose road is not in ROADS.DAT is left out of the location table, with its name and coordinates | C92_unknown_road_refuted |
| An encoding in README.DAT that iconv does not know ends the program with an uncaught exception | C93_unknown_encoding_refuted |
| num_names of location_table_info counts an empty name inserted while loading points | C93_names_counted_refuted |
| With -x and -l the hexadecimal output begins with JSON lines about the tables | C93_hex_only_groups_refuted |
| 29 traffic events (417–422, 445–450, 496, 499, 583–588, 606, 616, 655, 930, 1519, 1533, 1547, 1573, 1822) are listed as taking a quantity, but their text has no `(Q)`: the quantity of a message is not shown | C94_quantity_refuted |
| `Channel::flush` starts at data stream 1, so the blocks received of the last, unfinished group of the main data stream are dropped | C97_main_stream_refuted |
| The format "%%f" (a literal per cent sign and an f) is not respected: the last two characters are taken for %f | C98_percent_refuted |
| A complete long station name is shown as `partial_long_ps` when a 15A group arrives with neither block 3 nor block 4 | C99_complete_shown_as_partial_refuted |
| A mistyped option (unknown, ambiguous, argument missing) shows the usage but the exit status is success; the `default` case that sets `init_error` is unreachable | C100_wrong_word_refuted |
| SubcarrierSet::reset resets the symbol synchroniser and the oscillator, but not the biphase and differential decoders, the filter, the gain control or the phases derived for the other streams: the first bits after a reset depend on what was received before | C101_reset_like_new_refuted |
| sample_num_ wraps around after 2^32 samples (7 hours without a reset): the synchroniser is then given a value 16 samples after the one before instead of 24. The code documents this as a phase jump of 75 degrees; by its own formula it is 80 | C104_seven_hours_refuted |
| A stream of valid groups with a second valid reading 14 bits later is never synchronised by a receiver that is switched on during it: the pulse buffer holds four pulses, two of each reading, and three in rhythm are needed; a receiver in step with the other reading never leaves it | C105_never_in_sync_refuted, C105_two_readings_refuted |
| Enhanced RadioText in UCS-2: zero bytes are replaced by blanks before conversion, so every character below U+0100 and every blank is shown wrongly | C106_latin_refuted |
| Enhanced RadioText in UCS-2: the end mark is shown as a dagger (U+2020) | C106_end_mark_refuted |
| Enhanced RadioText in UCS-2: a character with a byte 0x0D, such as U+010D, cuts the text off | C106_cut_off_refuted |
| Enhanced RadioText in UCS-2: the byte order is left to the host's converter | C106_byte_order_refuted |
| A name of which one part is lost in each repetition is never shown, even after each of its parts has been received any number of times: the characters are kept but their count starts again with each part 0 | C109_each_part_received_refuted |
| A part of the station name is ignored if block 3 of its group was lost, although the name is in block 4: without any block 3 the name is never shown (groups.cc: decodeType0) | C109_without_block_3_refuted |
| `RDSString::clear` keeps the characters, so an end mark of an earlier message stays in the RadioText buffer even after an A/B change; a later, shorter message without end mark is then never shown, however often it is repeated | C110_repeated_message_refuted |
| A new RadioText Plus item in the middle of a RadioText makes the program forget the parts received so far: a completely received text is not shown | C115_new_item_refuted |
| A traffic message that lost a group is shown with the group of an earlier incomplete message with the same continuity index in its place (the parts are not cleared when a first group arrives) | C116_lost_group_refuted |
| A group that completes a long name which is not UTF-8 is answered with an error message instead of its line, also for what else the group says | C118_error_message_refuted |

Observed while reading, without a theorem of their own:
`Group::has_c_prime_` is never set; `Channel::flush` handles streams 1 to 3 only; an unknown option prints the usage and
exits with success; the characters 0x8D, 0x9D and 0xA4 of the RDS table differ from the standard (the specification in
`Spec/Texts.v` follows the code); the location database drops a point whose road is missing.

## 6. Testing the theorems

`seeded/LOG.jsonl` lists edits of the model that imitate realistic bugs and the theorems that no longer prove. Surviving
edits led to stronger theorems or new properties, as noted there.
