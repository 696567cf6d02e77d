{"id": "C01", "title": "Transmitted blocks are recognised", "statement": "For every 16-bit information word and each of the offsets A, B, C, C', D, the 26-bit block a standard RDS transmitter sends (information word followed by the remainder of its division by g(x)=x^10+x^8+x^7+x^5+x^4+x^3+1, xor the offset word) is recognised by the receiver as exactly that offset and as none other.", "quantifier": "all 2^16 information words x 5 offsets", "why_tests_cant": "the code uses a parity-check matrix instead of polynomial division; tests only feed a handful of recorded blocks", "anchors": ["src/block_sync.cc: calculateSyndrome, getOffsetForSyndrome"]}
{"id": "C02", "title": "Short bursts are corrected exactly", "statement": "With error correction on, a transmitted block of the expected offset hit by any error of one bit or of two adjacent bits is restored to exactly the transmitted information word, and is counted as having had errors.", "quantifier": "all information words, all 5 offsets, all 51 one- and two-bit burst positions", "why_tests_cant": "2^16 x 5 x 51 cases and aliasing between table entries; tests have a few literals", "anchors": ["src/block_sync.cc: makeErrorLookupTable, correctBurstErrors"]}
{"id": "C03", "title": "Correction is minimal and sound", "statement": "Whatever 26 bits are received, if error correction claims success for an expected offset then the result is a valid codeword of that offset and differs from what was received in exactly one bit or two adjacent bits; if it does not claim success the received bits are left unchanged.", "quantifier": "all 26-bit received words and all expected offsets", "why_tests_cant": "2^26 words x 5 offsets; soundness of the table is a global statement", "anchors": ["src/block_sync.cc: correctBurstErrors, makeErrorLookupTable"]}
{"id": "C04", "title": "Longer bursts are never accepted as good", "statement": "A transmitted block hit by an error burst of length 3 to 5 bits is never 'corrected' for its own offset, and without error correction no burst of length 1 to 10 bits makes a block be recognised with its own offset.", "quantifier": "all information words, offsets, burst positions and burst patterns of the given lengths", "why_tests_cant": "combinatorially many patterns; code-distance argument", "anchors": ["src/block_sync.cc: calculateSyndrome, correctBurstErrors"]}
{"id": "C05", "title": "Synchronisation needs three blocks in rhythm", "statement": "The decoder goes from unsynchronised to synchronised only if, among the offsets recognised in the bit stream so far, the current one and two earlier ones lie, successively, a whole number (1 to 6) of 26-bit blocks apart and follow the cyclic block order A, B, C/C', D accordingly.", "quantifier": "all bit streams from power-on, of any length", "why_tests_cant": "must hold for every bit history", "anchors": ["src/block_sync.cc: SyncPulse::couldFollow, SyncPulseBuffer::isSequenceFound, BlockStream::acquireSync"]}
{"id": "C06", "title": "Synchronisation is lost exactly on a high error rate", "statement": "While synchronised, the decoder drops synchronisation at a block boundary if and only if more than 42 of the last 50 blocks received since it synchronised (all of them if fewer than 50) were erroneous; and never between block boundaries.", "quantifier": "all bit streams, all block histories", "why_tests_cant": "the ring buffer is shared across resynchronisations and its write pointer is not reset; needs an invariant over all histories", "anchors": ["src/block_sync.cc: BlockStream::findBlockInInputRegister", "src/util.hh: RunningSum"]}
{"id": "C07", "title": "Error-free transmission is delivered exactly", "statement": "Once synchronised at a group boundary, any sequence of transmitted groups (version A or B) sent without errors is delivered in order, each exactly once, with all four information words equal to the transmitted ones and no block flagged erroneous, and synchronisation is kept.", "quantifier": "all group sequences of any length, any starting history", "why_tests_cant": "unbounded streams and all data", "anchors": ["src/block_sync.cc: BlockStream::pushBit, findBlockInInputRegister, handleNewlyReceivedGroup", "src/groups.cc: Group::setBlock"]}
{"id": "C08", "title": "Transmission with correctable errors is delivered exactly", "statement": "Once synchronised, any sequence of transmitted groups in which every block whose error is not zero is hit by one bit or two adjacent bits (blocks with offset C' excepted) is delivered with exactly the transmitted information words, as long as synchronisation is not lost through the 42-of-50 rule, and exactly the corrupted blocks are flagged.", "quantifier": "all group sequences, all correctable error patterns", "why_tests_cant": "unbounded streams x error patterns", "anchors": ["src/block_sync.cc: findBlockInInputRegister, correctBurstErrors"]}
{"id": "C09", "title": "Lock-on from a cold start", "statement": "From any unsynchronised state, receiving a block, then the block that follows it in cyclic order, then the next one, all error-free and contiguous, makes the decoder synchronised at the end of the third block, even if one spurious offset match happens in between.", "quantifier": "all unsynchronised states, all data, all positions of the spurious match", "why_tests_cant": "phantom matches occur for arbitrary data; cannot be enumerated", "anchors": ["src/block_sync.cc: SyncPulseBuffer, BlockStream::acquireSync"]}
{"id": "C10", "title": "Each group is delivered once, four blocks long", "statement": "While synchronisation is kept, counting from a group boundary, exactly one group is handed out per 104 bits, and none in between.", "quantifier": "all bit streams", "why_tests_cant": "history property", "anchors": ["src/block_sync.cc: BlockStream::hasGroupReady, popGroup", "src/channel.cc: Channel::processBits"]}
{"id": "C11", "title": "Chunking of the input does not matter", "statement": "Feeding a bit stream to a channel in one buffer or split at arbitrary places into several buffers yields the same sequence of groups with the same contents.", "quantifier": "all bit streams, all ways of cutting them", "why_tests_cant": "all cut points", "anchors": ["src/channel.cc: Channel::processBits, processBit"]}
{"id": "C12", "title": "Group type is only known when received", "statement": "For groups assembled from the bit stream, a group reports a type if and only if its second block was received and, for version B, the third block was received with offset C'; the type number and version are then the top five bits of the second block.", "quantifier": "all combinations of received/missing/erroneous blocks and data", "why_tests_cant": "all subsets of blocks in any state", "anchors": ["src/groups.cc: Group::setBlock, hasType, getType"]}
{"id": "C13", "title": "PI comes from a received block", "statement": "The PI code a group reports is the content of block 1 if received, otherwise that of block 3 if it was received with offset C', otherwise the group reports no PI.", "quantifier": "all groups", "why_tests_cant": "all combinations", "anchors": ["src/groups.cc: Group::getPI, hasPI"]}
{"id": "C14", "title": "Hex output read back gives the same group", "statement": "Printing any non-empty group as hex and reading the line back as hex input yields the same four blocks: received blocks with the same contents, missing blocks missing, and the same data-stream number.", "quantifier": "all groups (data, missing pattern, stream number)", "why_tests_cant": "2^64 data x 16 patterns; round trip between printer and a hand-written parser", "anchors": ["src/io/output.hh: printAsHex", "src/groups.cc: Group::printHex", "src/io/input.cc: readHexGroup"]}
{"id": "C15", "title": "PI change needs three agreeing receptions", "statement": "A channel adopts a new station only when the last three PI codes received in succession are the same value, and whenever three equal PI codes other than 0000 have been received in succession that value is the station's PI.", "quantifier": "all sequences of groups", "why_tests_cant": "history property", "anchors": ["src/channel.hh: CachedPI", "src/channel.cc: Channel::processGroup"]}
{"id": "C16", "title": "Nothing is printed before a station is confirmed", "statement": "No group line is printed before some PI code has been received three times in succession, and every printed line of the main data stream carries the PI code confirmed last (unless it only reports an encoding error).", "quantifier": "all sequences of groups, all options", "why_tests_cant": "history property", "anchors": ["src/channel.cc: Channel::processGroup", "src/groups.cc: Station::updateAndPrint"]}
{"id": "C17", "title": "No leftovers from another station", "statement": "After a station change, everything printed depends only on the groups processed since the change: two channels with different earlier histories print the same lines from then on (apart from reception-quality fields and PI bookkeeping).", "quantifier": "all pairs of histories", "why_tests_cant": "non-interference over all histories", "anchors": ["src/channel.cc: Channel::processGroup", "src/groups.cc: Station"]}
{"id": "C18", "title": "At most one PI-less group is attributed to a station", "statement": "A main-stream group without a PI is printed only if the previous main-stream group had one; of two successive PI-less groups the second is not printed, and empty groups never are.", "quantifier": "all sequences of groups", "why_tests_cant": "history property", "anchors": ["src/groups.cc: Station::updateAndPrint"]}
{"id": "C19", "title": "Reception quality figure", "statement": "When requested, the printed bler is the percentage, rounded to nearest with halves up, of erroneous or missing blocks among the last 12 groups (48 blocks), hence always between 0 and 100.", "quantifier": "all sequences of groups", "why_tests_cant": "floating-point running average over all histories", "anchors": ["src/util.hh: RunningAverage", "src/groups.cc: Group::getNumErrors", "src/channel.cc: processGroup"]}
{"id": "C20", "title": "Timestamps never go backwards", "statement": "With timestamps on, the reception times printed for successive groups of one channel never decrease: for demodulated audio whatever the clock readings passed in; for other inputs as long as the clock readings do not go back (the exception: a clock that is set back is printed as it is).", "quantifier": "all group sequences and clock readings", "why_tests_cant": "all clock sequences", "anchors": ["src/channel.cc: Channel::processGroup, processBits"]}
{"id": "C21", "title": "At most one well-formed line per group", "statement": "Each group yields at most one output line, which is a JSON object; its strings are valid UTF-8.", "quantifier": "all group histories and options", "why_tests_cant": "must hold for all inputs", "anchors": ["src/groups.cc: Station::updateAndPrint"]}
{"id": "C22", "title": "No crash or memory error on any broadcast", "statement": "No sequence of received groups, whatever their contents, errors and order, makes the group decoder index outside an array, throw an uncaught exception or run forever.", "quantifier": "all sequences of groups, all options", "why_tests_cant": "adversarial broadcast data; unbounded history", "anchors": ["src/groups.cc", "src/util.cc", "src/text/rdsstring.cc", "src/rft.hh", "src/tmc/tmc.cc"]}
{"id": "C23", "title": "Programme service name is the transmitted one", "statement": "From any state, receiving the four segments of a PS name in order (0,1,2,3) makes the last of these groups print exactly the transmitted eight characters (in the RDS character set) as ps.", "quantifier": "all prior histories, all 8-byte names", "why_tests_cant": "any prior state", "anchors": ["src/groups.cc: decodeType0", "src/text/rdsstring.cc", "src/text/radiotext.hh"]}
{"id": "C24", "title": "A text shown as complete has no gaps", "statement": "A text shown as complete (ps, radiotext, pty_name, long_ps) consists, at each of its positions, of the character most recently received there, and has no gaps: every position up to its end has been received, consecutively from the first, since its first position was last received or the text was last cleared. A radiotext without an end mark is shown once its first part arrives again and the same text had been received before. For radiotext: of a station that does not mix 2A and 2B groups. Enhanced RadioText is excepted.", "quantifier": "all histories of segments", "why_tests_cant": "history property over any order/duplication/loss of segments", "anchors": ["src/text/rdsstring.cc: RDSString::set, isComplete, getLastCompleteString", "src/groups.cc: decodeType0, decodeType2, decodeType10A, decodeType15A"]}
{"id": "C25", "title": "RadioText with terminator round trip", "statement": "Receiving, from any state, the segments of a RadioText message in order, with the same A/B flag, up to the one holding the 0x0D terminator or to the last of the full length, prints exactly the text (before the terminator; trailing spaces removed) with the last segment. Other groups may come between the segments, except RadioText+ groups.", "quantifier": "all texts and all prior states", "why_tests_cant": "any text, any prior state", "anchors": ["src/groups.cc: decodeType2", "src/text/rdsstring.cc"]}
{"id": "C26", "title": "RadioText A/B flag clears the text", "statement": "When the text A/B flag changes, no character received before the change is ever shown afterwards; excepted is the very group that changes the flag, if it carries the first part of a message (it may show the previous message once more).", "quantifier": "all histories", "why_tests_cant": "history property", "anchors": ["src/groups.cc: decodeType2", "src/text/radiotext.hh: RadioText::isABChanged"]}
{"id": "C27", "title": "Never a complete text mixing two messages", "statement": "Once the first segment of a station name was received, and as long as segments of no other name are received, a complete ps is that name: it never has characters of an earlier name, whichever segments were missed. (The exception: between a change of the name and the reception of its first segment, ps can mix both.) Likewise, once the first part of a RadioText message was received, and as long as no parts of another message are received, a radiotext shown is the text of that message, or, on the line of another first part, a beginning of it; whether or not the A/B flag was changed.", "quantifier": "all histories with lost segments", "why_tests_cant": "history property", "anchors": ["src/text/rdsstring.cc: RDSString::set"]}
{"id": "C28", "title": "RDS characters map to valid Unicode", "statement": "Every byte of RDS text decodes to exactly one Unicode character in valid UTF-8, so the number of characters shown equals the number of bytes received; letters and digits map to themselves.", "quantifier": "all byte strings", "why_tests_cant": "all strings", "anchors": ["src/text/rdsstring.cc: getRDSCharString, RDSString::str"]}
{"id": "C29", "title": "RadioText+ tags are the tagged characters", "statement": "After the program has settled on a station, a RadioText Plus group has begun an item and all characters of a RadioText have arrived in order (and any of them again), a RadioText Plus group of that item shows each of its two tags with the class of its content and exactly the characters of the text that it tags, without trailing spaces, in UTF-8; and the item's toggle and running bits. A tag must lie within the text, not reach the very end of a text without end mark, and its last character and the one before its first must be one byte in UTF-8. Conversely, whatever is received, each tag shown is a tag of that group, shown with exactly the characters it tags of a text that had been received completely since the A/B flag last changed (groups 2A and 2B not mixed within a message). And when a new item begins, only a text received completely since then is quoted: the group that begins it shows no tags.", "quantifier": "all histories, stations, group types RadioText Plus can be assigned to, texts of any characters, pairs of tags", "why_tests_cant": "all positions x texts incl. multibyte characters", "anchors": ["src/groups.cc: parseRadioTextPlus", "src/text/rdsstring.hh: charlen"]}
{"id": "C30", "title": "Partial texts are only shown on request", "statement": "Keys beginning with partial_ appear only if partial output was requested; bler, raw_data, rx_time, callsign and stream fields appear only under their options/conditions.", "quantifier": "all group histories and options", "why_tests_cant": "all histories", "anchors": ["src/groups.cc"]}
{"id": "C31", "title": "Carrier frequency codes", "statement": "For FM codes 1..204 the frequency is 87.5 MHz + code x 0.1 MHz; for LF/MF codes the 9 kHz raster 153..279 and 531..1602; all other codes are invalid; distinct valid codes give distinct frequencies.", "quantifier": "all codes and bands", "why_tests_cant": "exhaustive", "anchors": ["src/util.cc: CarrierFrequency"]}
{"id": "C32", "title": "Alternative frequency list, method A", "statement": "From any state, receiving a method-A list (count code, then that many different frequencies, fillers allowed) makes the group that carries its last code print exactly the transmitted frequencies, in order, as alt_frequencies_a.", "quantifier": "all lists of 1..25 frequencies, any earlier state", "why_tests_cant": "any prior state; any list", "anchors": ["src/util.cc: AltFreqList", "src/groups.cc: decodeType0"]}
{"id": "C33", "title": "Alternative frequency list, method B", "statement": "From any state, receiving without loss a method-B list (odd count, tuned frequency, then pairs containing the tuned frequency) makes the group that carries its last code print the tuned frequency and exactly the frequencies of the pairs, split into same-programme and regional-variant frequencies by the order of each pair.", "quantifier": "all method-B lists", "why_tests_cant": "any list", "anchors": ["src/util.cc: AltFreqList::isMethodB", "src/groups.cc: decodeType0"]}
{"id": "C34", "title": "Clock time is the calendar date", "statement": "For every modified Julian day from 1900-03-01 to 2100-02-28 the printed date is the Gregorian calendar date of that day; invalid hours, minutes and offsets are reported as invalid.", "quantifier": "all 17-bit day numbers", "why_tests_cant": "uses floating point; all days", "anchors": ["src/groups.cc: decodeType4A"]}
{"id": "C35", "title": "Programme item number", "statement": "A programme item number with day 1..31, hour 0..23 and minute 0..59 is shown as that day and time of day; one with day 0, an hour above 24 or a minute above 59 is not shown.", "quantifier": "all 16-bit values", "why_tests_cant": "exhaustive", "anchors": ["src/groups.cc: decodePIN"]}
{"id": "C36", "title": "North American callsign", "statement": "For every four-letter callsign K*** and W*** the PI code computed by the NRSC-4 rule (including the exceptions for zero nibbles) is decoded back to that callsign.", "quantifier": "all 2 x 26^3 callsigns", "why_tests_cant": "exhaustive", "anchors": ["src/tables.cc: getCallsignFromPI"]}
{"id": "C37", "title": "Base64 round trip", "statement": "Decoding the base64 text of any received file gives back the file.", "quantifier": "all byte sequences", "why_tests_cant": "all lengths/contents", "anchors": ["src/base64.hh: asBase64"]}
{"id": "C38", "title": "File transfer reassembly", "statement": "While a station is received, the segments of a file on a pipe, arriving in any order and any number of times, with other groups in between, are shown as exactly the transmitted file once its size and all its segments have arrived and a segment follows; no other content is shown for the pipe meanwhile. The file must be a new one (no segment before it, another toggle bit, or the file before was complete), and no size of another file may still be in force when its segments begin to arrive.", "quantifier": "all files of 1 to 163840 bytes, all pipes, all arrival orders and duplications, all prior histories", "why_tests_cant": "all permutations and prior histories", "anchors": ["src/rft.hh: RFTFile", "src/groups.cc: decodeC"]}
{"id": "C39", "title": "No premature or mixed file", "statement": "A file is shown only together with a segment of it, when its size is known and every byte of it has been received since the toggle bit last changed and since a file was last shown for the pipe, and each shown byte is the last one received at its position.", "quantifier": "all histories of received groups", "why_tests_cant": "history property", "anchors": ["src/rft.hh: RFTFile", "src/groups.cc: decodeC"]}
{"id": "C40", "title": "File checksum", "statement": "The checksum computed over a chunk is CRC-16/CCITT (polynomial 0x1021, initial value and final xor 0xFFFF) of the bytes of that chunk.", "quantifier": "all byte sequences", "why_tests_cant": "bit-twiddling identity", "anchors": ["src/rft.hh: crc16_ccitt"]}
{"id": "C41", "title": "Encrypted traffic messages show the true location", "statement": "For every message of one to five groups of an encrypted TMC service whose last announced key is known, the line of its last group shows as location the location that was encrypted with that key by the standard's rotate/xor rule, and beside it the encrypted one.", "quantifier": "all locations, all keys, all messages, all receptions of the service", "why_tests_cant": "2^16 locations x keys x histories", "anchors": ["src/tmc/tmc.cc: rotl16, decrypt, TMCService::receiveUserGroup"]}
{"id": "C42", "title": "Traffic messages of several groups", "statement": "For every message of two or five groups of an unencrypted TMC service, all received, the line of its last group shows exactly what was transmitted: events, supplementary information, extent, speed limit, diversion, start and end, direction, urgency and location, for any sequence of label/data fields that fits.", "quantifier": "all field sequences, all receptions of the service", "why_tests_cant": "variable-length bit packing across groups", "anchors": ["src/tmc/tmc.cc: getFreeformFields, popBits, Message::pushMulti, Message::json"]}
{"id": "C43", "title": "Traffic messages of any allowed length", "statement": "A message of 2 to 5 groups is shown with its event, extent, direction, urgency, update class, location and fields as transmitted; of a message of 3 or 4 groups, exactly those fields that are wholly in its second group, if the group of a message before it had another continuity index or was the last of its message (C116 is about other cases). (The exception is a defect: the fields in the other groups of such a message are lost.)", "quantifier": "all messages", "why_tests_cant": "depends on group numbering", "anchors": ["src/tmc/tmc.cc: Message::pushMulti, getFreeformFields"]}
{"id": "C44", "title": "Encrypted traffic locations stay hidden without a key", "statement": "If all system information received says that the TMC service is encrypted and no received key number is that of a known key, no line shows a location, coordinates, a place or a road.", "quantifier": "all group histories", "why_tests_cant": "history property", "anchors": ["src/tmc/tmc.cc: TMCService::receiveUserGroup, Message"]}
{"id": "C45", "title": "Only complete traffic messages are shown", "statement": "A line shows a traffic message only if its group is a single-group message or the last group of a multi-group message whose first group was received before, with only groups of the same message in between; event and location shown are those of that first group.", "quantifier": "all group histories", "why_tests_cant": "history property", "anchors": ["src/tmc/tmc.cc: TMCService::receiveUserGroup, Message::pushMulti"]}
{"id": "C46", "title": "Places of traffic messages", "statement": "The coordinates shown with a message are those of the points along the road from its location in its direction, at most one more than its extent, fewer only if the road ends; the names of the first and last of them are shown if there are several and both have names, and the number and name of the road if they are known; nothing is shown about the place if the location is not in the table. For any location table, including cyclic ones.", "quantifier": "all location tables, all messages", "why_tests_cant": "cyclic or dangling tables", "anchors": ["src/tmc/tmc.cc: Message::decodeLocation"]}
{"id": "C47", "title": "ASCII bit input ignores other characters", "statement": "Reading ASCII bits delivers exactly the 0 and 1 characters of the input in order, ignoring every other character (and, at the end of the input, one additional 0).", "quantifier": "all input byte strings", "why_tests_cant": "all inputs", "anchors": ["src/io/input.cc: AsciiBitReader"]}
{"id": "C48", "title": "Hex input marks only complete blocks as received", "statement": "Reading a hex line that has at least sixteen characters other than spaces marks a block as received exactly if its four characters are hexadecimal digits, and with that value.", "quantifier": "all input lines", "why_tests_cant": "all strings", "anchors": ["src/io/input.cc: readHexGroup"]}
{"id": "C49", "title": "TEF error flags are per block", "statement": "Reading a TEF6686-style line takes a block as received exactly when neither its own error bits nor those of an earlier block of the line are set; so a block with errors is never taken as received. (That the errors of an earlier block lose it, too, is a defect: the flags are meant to be per block.)", "quantifier": "all lines", "why_tests_cant": "all flag combinations", "anchors": ["src/io/input.cc: readTEFGroup"]}
{"id": "C50", "title": "Multichannel audio is deinterleaved", "statement": "Each channel receives exactly its own samples, in order, when there is one channel or when the input ends with a whole buffer (a last short buffer of several channels is the exception).", "quantifier": "all sample streams, channel counts", "why_tests_cant": "all lengths", "anchors": ["src/io/input.cc: MPXReader::readChunk, fillBuffer"]}
{"id": "C51", "title": "Differential decoding", "statement": "The differential decoder recovers the transmitted bits whatever the polarity of the received signal, after the first bit.", "quantifier": "all bit streams", "why_tests_cant": "all streams", "anchors": ["src/dsp/subcarrier.cc: DeltaDecoder"]}
{"id": "C52", "title": "Biphase clock recovery stays in bounds", "statement": "The biphase decoder never indexes outside its clock history and outputs at most one bit per symbol, at most one for every symbol of the selected clock phase.", "quantifier": "all symbol streams", "why_tests_cant": "all streams", "anchors": ["src/dsp/subcarrier.cc: BiphaseDecoder::push"]}
{"id": "C53", "title": "Command-line values are validated", "statement": "Sample rates and channel counts outside the documented ranges are rejected with an error, if they are numbers and the channel count fits in 32 bits (the exceptions: a rate of nan, and counts that fall in the range modulo 2^32, are accepted). The number of channels and the rate in effect are in range in any case, or the rate is nan.", "quantifier": "all option values", "why_tests_cant": "all numbers incl. overflow/nan", "anchors": ["src/options.cc: getOptions"]}
{"id": "C54", "title": "CSV splitting", "statement": "Splitting a line made by joining fields (without delimiter or line end characters) with the delimiter gives back those fields, unless the line is empty.", "quantifier": "all field lists", "why_tests_cant": "all lists", "anchors": ["src/tmc/csv.hh: CSVRow"]}
{"id": "C55", "title": "Bit-field extraction", "statement": "Extracting a field at a position from one or several concatenated words gives the corresponding bits of the concatenation.", "quantifier": "all words, positions and lengths", "why_tests_cant": "all combinations", "anchors": ["src/util.hh: getBits"]}
{"id": "C56", "title": "Data streams and channels are isolated", "statement": "Output for one channel depends only on the input of that channel (for inputs that end with a whole buffer); sync state of one data stream depends only on the bits of that stream.", "quantifier": "all interleavings", "why_tests_cant": "all interleavings", "anchors": ["src/redsea.cc: processMPXInput", "src/channel.cc: Channel"]}
{"id": "C57", "title": "Every accepted sample rate works", "statement": "No sample rate from 128 kHz to 34.200002 MHz makes the program terminate with an unhandled exception while setting up the demodulator, and the program never throws for another reason. (The exception: the accepted rates above it, up to 40 MHz, do.)", "quantifier": "all accepted rates", "why_tests_cant": "boundary arithmetic", "anchors": ["src/options.cc: getOptions", "src/dsp/liquid_wrappers.cc: Resampler::setRatio"]}
{"id": "C58", "title": "ODA dispatch follows the latest assignment", "statement": "Groups of a type that can carry an application are decoded by the application most recently assigned to that type by a 3A group of the same station: their line has no members of another application or decoder. If the application is not known, its number is shown. If none was ever assigned and the type has no meaning of its own, only the blocks are shown.", "quantifier": "all histories", "why_tests_cant": "history property", "anchors": ["src/groups.cc: decodeType3A, decodeODAGroup"]}
{"id": "C59", "title": "Erroneous C' blocks are not delivered wrong", "statement": "A version B group whose third block (offset C') suffers an error of one bit or two adjacent bits is delivered without the third block. (The exception: of the 51 such errors exactly two, with error correction on, are delivered with a wrong third block: bit 20 inverted, and bits 23 and 24 inverted.)", "quantifier": "all information words and short error bursts", "why_tests_cant": "correction is attempted only for offset C; whether a corrupted C' block can look like a correctable C block is a question about the whole code", "anchors": ["src/block_sync.cc: BlockStream::findBlockInInputRegister, correctBurstErrors"]}
{"id": "C60", "title": "No block is made up", "statement": "While synchronised, whatever 26 bits are received in a block's place, the delivered group contains that block if and only if those bits are a transmitted block of the expected offset with no error (or, with error correction, an error of one bit or two adjacent bits), and then contains exactly the transmitted information word, flagged as erroneous exactly if there was an error.", "quantifier": "all received words in all four places, after any history", "why_tests_cant": "2^104 group contents after any history", "anchors": ["src/block_sync.cc: BlockStream::findBlockInInputRegister, correctBurstErrors", "src/groups.cc: Group::setBlock"]}
{"id": "C61", "title": "Receive times of several channels", "statement": "When audio with several channels is received and receive times are printed, the time on a line is the time its group was received, as it is with one channel.", "quantifier": "all inputs and channel counts", "why_tests_cant": "needs the whole processing loop", "anchors": ["src/io/input.cc: MPXReader::readChunk, fillBuffer", "src/redsea.cc: processMPXInput"]}
{"id": "C62", "title": "What every line says", "statement": "Every printed JSON line (except one that only reports a text conversion error) gives the data stream number if streams are on, the channel number if there are several channels, the raw blocks if asked for, the group type of a main-stream group, and its traffic programme flag and programme type as transmitted.", "quantifier": "all histories and groups", "why_tests_cant": "all histories", "anchors": ["src/groups.cc: Station::updateAndPrint, decodeBasics", "src/groups.cc: Group::printHex"]}
{"id": "C63", "title": "The program ends by itself and in order", "statement": "For every command line and every input the program ends by itself and without undefined behaviour. If it exits with a failure code it has told the user and printed no line. The only exception not caught is the resampler's refusal of a sample rate.", "quantifier": "all command lines, audio and text inputs, clock readings", "why_tests_cant": "all inputs; termination of the whole program", "anchors": ["src/redsea.cc: main, processMPXInput, processASCIIBitsInput, processHexInput, processTEFInput", "src/options.cc: getOptions", "src/io/input.cc: MPXReader"]}
{"id": "C64", "title": "Every line the program prints is JSON", "statement": "With JSON output every line the program prints, for every kind of input and any number of channels, is a well-formed JSON text in UTF-8, and the lines of each channel are those a Channel object prints for some sequence of groups and bits.", "quantifier": "all command lines and inputs", "why_tests_cant": "all inputs", "anchors": ["src/redsea.cc: main", "src/channel.cc: Channel"]}
{"id": "C65", "title": "Type name and long name received in order are shown", "statement": "From any state, receiving the two halves of a programme type name in order, with the same A/B flag, makes the second group print exactly the eight characters as pty_name; receiving the parts of a long programme service name (UTF-8) in order, up to its end mark or up to 32 bytes, makes the last group print it as long_ps (trailing spaces removed), unless 15A groups have been assigned to another application.", "quantifier": "all prior histories, all names, other groups in between", "why_tests_cant": "any prior state", "anchors": ["src/groups.cc: decodeType10A, decodeType15A", "src/text/rdsstring.cc"]}
{"id": "C66", "title": "Nothing is shown from blocks that were not received", "statement": "What is printed, for a group and for all groups after it, does not depend on what the blocks that were not received contain: for groups whose type was taken from a received block 2, except transparent data (type 5), the DAB cross-reference and enhanced RadioText, whose blocks 3 and 4 must have been received.", "quantifier": "all sequences of groups with any subset of blocks received, any contents of the others, both output formats", "why_tests_cant": "each decoder must check each block it uses; any history decides which decoder runs", "anchors": ["src/groups.cc: decodeBasics, decodeType0 ... decodeType15B, parseEnhancedRT, parseDAB"]}
{"id": "C67", "title": "Frequency lists shown are what was received since the count", "statement": "Every alternative frequency list that is shown consists of exactly the frequencies received since a count code, in order: as many as announced for a complete list (method A, or method B split into its pairs), fewer for a partial list.", "quantifier": "all group histories and options", "why_tests_cant": "history property", "anchors": ["src/util.cc: AltFreqList", "src/groups.cc: decodeType0"]}
{"id": "C68", "title": "Frequency lists survive lost groups", "statement": "If what was received of an alternative frequency list since its last count code is some of its frequencies, the others being lost, a list shown as complete is the transmitted list. (The exception: if the count code of a repetition is lost, a list mixing two repetitions can be shown as complete.)", "quantifier": "all lists, all patterns of lost groups", "why_tests_cant": "all loss patterns", "anchors": ["src/util.cc: AltFreqList", "src/groups.cc: decodeType0"]}
{"id": "C69", "title": "Traffic messages of one group", "statement": "Every single-group message of an unencrypted TMC service is shown with its event, extent, direction, urgency, update class and location as transmitted.", "quantifier": "all messages, all receptions of the service", "why_tests_cant": "all messages x histories", "anchors": ["src/tmc/tmc.cc: TMCService::receiveUserGroup, Message::pushSingle, Message::json"]}
{"id": "C70", "title": "Flags of basic tuning groups", "statement": "Every printed line for a group of type 0 or 15B gives the traffic announcement flag, the music/speech flag and the decoder identification bit it selects, as transmitted.", "quantifier": "all groups of these types after any history", "why_tests_cant": "any history", "anchors": ["src/groups.cc: decodeType0, decodeType15B"]}
{"id": "C71", "title": "Slow labelling codes", "statement": "Every printed line for a fully received group of type 1A gives the linkage flag and exactly the field its variant code selects: country (from the PI code's country digit and the extended country code), TMC identification, language, broadcaster bits or emergency warning channel.", "quantifier": "all groups of type 1A after any history", "why_tests_cant": "2^16 codes x histories; the country depends on the station's state", "anchors": ["src/groups.cc: decodeType1", "src/tables.cc: getCountryString, getLanguageString"]}
{"id": "C72", "title": "What is said of other networks", "statement": "Every printed line for a group of type 14 gives the PI code and the traffic flags of the other network and, for 14A, exactly the field its variant selects: mapped FM frequency (variants 5 to 8), linkage, programme type and traffic announcement, programme item number, broadcaster data.", "quantifier": "all groups of type 14 after any history", "why_tests_cant": "2^21 contents x histories", "anchors": ["src/groups.cc: decodeType14"]}
{"id": "C73", "title": "Announcements of applications", "statement": "Every printed line for a fully received group of type 3A gives the group type assigned, the application's name if it is one that is decoded and its message otherwise; for traffic messages it gives the service's system information as transmitted.", "quantifier": "all groups of type 3A after any history", "why_tests_cant": "all contents x histories", "anchors": ["src/groups.cc: decodeType3A", "src/tmc/tmc.cc: TMCService::receiveSystemGroup"]}
{"id": "C74", "title": "Transparent and in-house data", "statement": "A group of type 5 or 6 that no application has been announced for is shown with its contents: channel number, bytes in hexadecimal and the text up to an end mark for type 5; the numbers received for type 6.", "quantifier": "all histories without an announcement for the type, all contents", "why_tests_cant": "any history", "anchors": ["src/groups.cc: decodeType5, decodeType6"]}
{"id": "C75", "title": "A recording in hex decodes to the same lines", "statement": "Decoding received bits directly, and decoding the hex recording the program makes of the same bits, print the same lines in the same order, provided that (a) the type of each group is known if its block 2 was received, (b) no group with block 1 lost has its programme identification in block 3, (c) after a group of which nothing was received, the next group with something received has block 1, (d) groups whose decoders do not check blocks 3 and 4 have them, and (e) the options for time stamps and error rates are off. Each of (a) to (c) is needed.", "quantifier": "all bit inputs, all other option values", "why_tests_cant": "all bit sequences; two whole program runs are compared", "anchors": ["src/groups.cc: Group::printHex, Group::setBlock", "src/io/input.cc: readHexGroup", "src/io/output.hh: printAsHex", "src/channel.cc: Channel::processGroup", "src/redsea.cc: processASCIIBitsInput, processHexInput"]}
{"id": "C76", "title": "From bits on the air to the station name", "statement": "Given bits that bring the receiver into sync and then groups of one station with errors the receiver tolerates, a station name sent in order in those groups is on the last line the program prints. For any bits at all, the lines printed are those of the groups the receiver finds in them.", "quantifier": "all bit inputs: any prefix that brings the receiver into sync, any correctable error pattern, any interleaving with other groups", "why_tests_cant": "all bit prefixes, error patterns and group sequences; the whole program is run", "anchors": ["src/block_sync.cc: BlockStream::pushBit", "src/channel.cc: Channel::processBit, Channel::processGroup", "src/groups.cc: decodeType0", "src/redsea.cc: processASCIIBitsInput"]}
{"id": "C77", "title": "Feed-through passes the input on", "statement": "With --feed-through and a text input (ASCII bits, hex, TEF) the lines that go to standard output without the option go to standard error, and standard output has the input, byte for byte, followed by one more byte: 255 after ASCII bits, a line end after hex or TEF lines. With raw audio on standard input, all the samples read are written, in order, and the lines go to standard error; feed-through of an audio file is refused.", "quantifier": "all inputs, all values of the other options", "why_tests_cant": "every byte sequence as input; two whole program runs are compared", "anchors": ["src/io/input.cc: AsciiBitReader::readBit, readHexGroup, readTEFGroup", "src/redsea.cc: processASCIIBitsInput, processHexInput, processTEFInput"]}
{"id": "C78", "title": "Options that add members change nothing else", "statement": "Two runs of the program on the same input with different options for time stamps, error rates, raw data, data streams, number of channels, RBDS and partial texts print lines for the same groups. Each line of one run agrees with that of the other in every member that the differing options do not concern (rx_time; bler; raw_data; stream; channel; callsign, callsign_uncertain, prog_type and other_network; partial_*, rt_ab and debug). Exception: with partial texts a line can be replaced by an error report.", "quantifier": "all inputs, all pairs of option values", "why_tests_cant": "all inputs times all pairs of option sets; two whole runs are compared", "anchors": ["src/groups.cc: decodeType0, decodeType2, decodeType14, decodeType15A, decodeBasics, updateAndPrint", "src/channel.cc: Channel::processGroup", "src/redsea.cc: processASCIIBitsInput, processHexInput, processTEFInput"]}
{"id": "C79", "title": "Additional data streams (RDS2): the words of a group are shown as what they mean", "statement": "The line of a group of an additional data stream shows exactly what its first word makes of the rest: a segment of a file (pipe, toggle bit, byte address, five bytes), data for a channel (channel number and seven bytes), the assignment of an application to a channel (application, and for the channels of files the version, number, size and checksum flag, the checksum of the file or of a chunk, or data of the application), or data of another purpose; with a block missing it shows nothing of them. A segment names the application that the station assigned last to its pipe.", "quantifier": "all groups, all states of the program, all histories of assignments", "why_tests_cant": "65536^4 groups and every history of assignments", "anchors": ["src/groups.cc: Station::decodeC", "src/rft.hh: receive"]}
{"id": "C80", "title": "Names and frequency lists of other networks are those sent for that network", "statement": "For another network announced in groups 14A, a name is shown only when its characters were received in order and without gaps, and consists of the characters most recently received for that network; a frequency list is shown only when as many frequencies as announced by the last count code for that network were received after it, and consists of exactly these. Conversely, once the station is confirmed, receiving the eight characters of a name in order, or a whole frequency list (with fillers and LF/MF frequencies), makes the line of the last of its groups show it, whatever is received for other networks in between.", "quantifier": "all environments, options, channels, group histories (with errors and PI changes), all networks, names and frequency lists, all interleavings of networks", "why_tests_cant": "interleavings of several networks and histories are unbounded", "anchors": ["src/groups.cc: Station::decodeType14", "src/util.cc: AltFreqList::insert", "src/text/rdsstring.cc: RDSString::set"]}
{"id": "C81", "title": "The transparent data channel as a whole", "statement": "Groups 5A of the transparent data channel each carry four of 128 bytes. Whenever a printed line has transparent_data.full_text or transparent_data.full_raw, it was printed for a group of the channel and the data shown are the bytes most recently received at positions 0, 1, 2, ... without gaps, up to the first end mark (0x0D) or all 128; full_text is their text in the RDS character set and full_raw their values in two hexadecimal digits each, except that the bytes 00 and 0D are shown as 20. Conversely, once all 128 bytes, or bytes with an end mark among them, were received in order from a confirmed station and group type 5A was not assigned to another application, the line of the last group shows them.", "quantifier": "every host, every set of options with JSON output, every history of groups, every station, every content of the channel", "why_tests_cant": "The contents are kept in a buffer over any number of groups of any type in any order; tests can only try a few messages and orders.", "anchors": ["src/groups.cc:Station::decodeType5", "src/text/rdsstring.cc:RDSString"]}
{"id": "C82", "title": "Cutting the input short only cuts the output short", "statement": "For text input the program always ends with success, and if the input is cut short - at any place for zeros and ones, after any line for hexadecimal groups and for the lines of a tuner - then what is printed for the shorter input is the beginning of what is printed for the longer one; for zeros and ones and for the tuner, all but at most the last line of it is. The same for audio with data stream 0 that is cut after a whole number of buffers: there, and for hexadecimal input, nothing is printed at the end of the input. (Not for the last line itself: a 0 is put in place of a missing last bit, the PI of a tuner group without its other line is shown as a group, and a hexadecimal line cut within a number is read as another number.)", "quantifier": "every world, set of options, input and continuation of it", "why_tests_cant": "no number of examples covers every place where an input can end", "anchors": ["src/redsea.cc:108-204 processMPXInput, processASCIIBitsInput, processHexInput, processTEFInput", "src/io/input.cc: MPXReader, AsciiBitReader, readHexGroup, readTEFGroup", "src/channel.cc: Channel::flush"]}
{"id": "C83", "title": "What is shown of a traffic message service is what it sends about itself and other networks", "statement": "Once a traffic message service has been announced: an administration group's line shows its service number, key number and location table; a tuning information group's line shows of other networks the PI codes, service, location table and scope that the group carries and nothing else; and the service provider's eight-character name is shown when its two parts have been received in order, whatever parts came before, and is never shown incomplete or mixed. Frequencies of other networks are an exception: two frequencies sent for another network are not shown.", "quantifier": "all sequences of groups received from a station with a traffic message service in group type 8A (any history before, any groups in between, lost blocks), all values of the fields", "why_tests_cant": "There are 2^37 administration and tuning groups, and the provider's name depends on the whole history of groups; tests show a few recordings.", "anchors": ["src/tmc/tmc.cc: TMCService::receiveUserGroup", "src/groups.cc: Station::decodeODAGroup", "src/util.cc: AltFreqList::insert", "src/text/rdsstring.cc: RDSString::set"]}
{"id": "C84", "title": "Enhanced RadioText received completely is shown, and what is shown is complete", "statement": "When a station announces Enhanced RadioText (application 6552, UTF-8) in groups of some type and then sends, in groups of that type and in order, the bytes of a UTF-8 text with its end mark or a text of exactly 64 bytes, the line of the last of these groups has a member enhanced_radiotext that is exactly this text without trailing blanks. Conversely, every enhanced_radiotext shown consists of the bytes received most recently at its positions, received from the first position to the last without a gap, ended by an end mark or filling all 64 places. (Texts of more than 64 bytes, which the standard allows, are shown cut off as if they were complete; groups that arrive without block 3 count as if it had been received.)", "quantifier": "every host, options with JSON output, earlier history, interleaving with other groups and repeated announcements, group type, UTF-8 text", "why_tests_cant": "The texts, interleavings and histories are unbounded.", "anchors": ["src/groups.cc:Station::parseEnhancedRT", "src/groups.cc:Station::decodeType3A", "src/text/rdsstring.cc:RDSString::set", "src/text/rdsstring.cc:RDSString::isComplete"]}
{"id": "C85", "title": "Bits sent on the subcarrier are recovered", "statement": "If data bits are coded differentially and each coded bit sent as two half-symbols with a step up or down between them, and the demodulator delivers these half-symbols (at any level, in either polarity, after any number of other symbols), then after 65 bits every data bit is recovered exactly - provided that over each 128 half-symbols the steps within the pairs are larger, taken together, than those between pairs. With several data streams, the bits of each depend only on the symbols found for it.", "quantifier": "all data, levels that are 17-bit integers times a power of two from 2^-100 to 2^100, both polarities, any leading symbols, any imaginary parts", "why_tests_cant": "the choice between the two clock phases depends on the sum of 128 differences in floating point and takes effect only at the end of a window; tests cover one recording", "anchors": ["src/dsp/subcarrier.cc: BiphaseDecoder::push, DeltaDecoder::decode, SubcarrierSet::processChunk"]}
{"id": "C86", "title": "From demodulated symbols to the lines printed", "statement": "For audio with one channel (data stream 0, whatever the sample rate accepted, resampled or not), the lines the program prints are exactly those it prints for the groups found in the bits that the demodulated symbols decode to, in order, whatever the buffer the samples came in and whatever the clock says; so long as the receiver is never out of sync for 10 seconds on end. In particular a station name sent in order in otherwise undisturbed groups is on the last line printed.", "quantifier": "every world (demodulator behaviour, clock, sample values), every command line that reads audio with one channel and data stream 0, every length of the input, every history of sync and errors without a gap of 11876 bits", "why_tests_cant": "depends on the whole history of the demodulator, the biphase and block decoders and the splitting of the samples into buffers, for every possible demodulator output", "anchors": ["src/redsea.cc:processMPXInput", "src/io/input.cc:MPXReader::fillBuffer", "src/dsp/subcarrier.cc:SubcarrierSet::processChunk", "src/channel.cc:Channel::processBits", "src/block_sync.cc:BlockStream::pushBit"]}
{"id": "C87", "title": "Loss of the carrier", "statement": "For audio with one channel, the lines printed are exactly those of a receiver that is given the groups found in the demodulated bits and, at the end of every buffer where it has been out of sync for more than 10 seconds and the demodulator was last reset more than 5 seconds ago, is told to confirm the PI code anew while the demodulator is reset. From the group on that then confirms a PI code, the lines are those of a receiver that never heard what came before the loss. (Until then groups are printed as groups of the old station, whatever PI code they carry.)", "quantifier": "all audio, all demodulators, all sequences of losses and buffer boundaries, all groups before and after a loss, all hosts", "why_tests_cant": "A loss needs more than ten seconds of audio at a point of the synchroniser's state that depends on all earlier bits; the claim is about every history before it", "anchors": ["src/redsea.cc: processMPXInput", "src/channel.cc: Channel::getSecondsSinceCarrierLost", "src/channel.cc: Channel::resetPI", "src/dsp/subcarrier.cc: SubcarrierSet::getSecondsSinceLastReset", "src/dsp/subcarrier.cc: SubcarrierSet::reset", "src/block_sync.cc: BlockStream::acquireSync"]}
{"id": "C88", "title": "What the options on the command line mean", "statement": "Whatever options are given, in whatever order and however often, the settings are those the help text describes: of options that set the same thing the last counts, flags count wherever they stand, directories of location tables accumulate. The options are refused exactly if one of them has an unacceptable argument or two do not go together (feed-through with a file, several channels or data streams with an input that has none), and the program then fails with a message. Help, version and left-over arguments end the program before it reads input, printing what was asked for.", "quantifier": "all sequences of known options with all arguments, all number parsers of the host, all inputs", "why_tests_cant": "Options combine in any order and number; the claim is an equivalence over all of them", "anchors": ["src/options.cc: getOptions", "src/options.hh: Options", "src/redsea.cc: main"]}
{"id": "C89", "title": "Isolated errors in the PI code change nothing", "statement": "Once a station has been confirmed, groups of that station received with a wrong PI code are printed exactly as if the code had been right, and so is everything after them, so long as no two wrong codes follow each other. (Two different wrong codes in succession make the receiver forget all it knows of the station once the right code has been received three times again.)", "quantifier": "all stations, all groups and their contents, all positions and values of the wrong codes, all histories", "why_tests_cant": "The claim compares two runs over arbitrary histories; state kept from any earlier group could differ", "anchors": ["src/channel.hh: CachedPI::update", "src/channel.cc: Channel::processGroup", "src/groups.cc: Station::updateAndPrint"]}
{"id": "C90", "title": "Descriptions of traffic messages", "statement": "The description shown with a completed traffic message consists of one sentence for each of its events that is in the table of events, in the order sent, followed by the texts of its supplementary codes; sentences start with a capital letter and end with a period.  An event's sentence is its plain text, or, if the event allows a quantity and one of the right size was sent after it and before the next event, its text with a quantity in which every mark is replaced by that quantity with its unit, as ISO 14819 codes it.  Codes that have no meaning are excluded; they are shown all the same (finding).", "quantifier": "every host with any tables of events and supplementary texts, every history of received groups, every message in one, two or five groups with any fields whose codes of quantities have a meaning", "why_tests_cant": "thirteen kinds of quantities times 32 or 256 codes, any number of events and quantities in any order, and any texts in the tables; tests show a few messages", "anchors": ["src/tmc/tmc.cc: getDescriptionWithQuantifier, getQuantifierSize, ucfirst, Message::decodeMulti, Message::json", "src/tmc/tmc.hh: Event"]}
{"id": "C91", "title": "The keys of encrypted traffic services are those of the key file", "statement": "When the program decrypts traffic messages, the key it uses for a key number is the one given by the first line of service_key_table.csv (in the working directory) with that number: pattern, position and rotation. Lines that are blank, have fewer than four fields, or have a field that does not begin like a number are skipped, numbers may have a sign and leading zeros, further fields and a carriage return at the end are ignored. So a message (of one, two or five groups) of an encrypted service whose key is in the file is shown with its true location and with the encrypted one. Keys must fit: the position below 32 and the shifted pattern below 2^32; for other keys, which nothing refuses, the behaviour is undefined (proved as a refutation).", "quantifier": "every key file consisting of such lines, every sequence of received groups", "why_tests_cant": "A test has one key file; quoting, signs, blank lines, duplicate numbers and out-of-range values are unbounded.", "anchors": ["src/tmc/tmc.cc: loadServiceKeyTable, Message::decrypt", "src/tmc/csv.cc: readCSV"]}
{"id": "C92", "title": "Places of traffic messages are those of the location table files", "statement": "With directories given by -l, the points, names, offsets, coordinates and roads used for a location table number are exactly those written in the files (NAMES, ROADS, SEGMENTS, POINTS, POFFSETS) of the last directory whose LOCATIONDATASETS.DAT has that number, columns being found by their titles in any order, the last row for a code counting, names converted from the encoding given in README.DAT (with known misspellings of ISO-8859-1 and -15), and a point's road being the one given or that of its segment; a message in that table is shown with these places. Excluded, and refuted otherwise: points whose segment is on a road missing from ROADS.DAT are lost, and road numbers, which are not converted, must be UTF-8 already.", "quantifier": "every set of files in this format, every list of directories, every sequence of received groups", "why_tests_cant": "The tables have tens of thousands of rows from different producers, with columns in different orders, optional cells and different encodings; a test has one small table.", "anchors": ["src/tmc/locationdb.cc: readLTN, loadLocationDatabase", "src/tmc/tmc.cc: TMCService::TMCService, decodeLocation", "src/tmc/csv.cc: readCSVWithTitles, get_int, get_uint16, get_string, row_contains"]}
{"id": "C93", "title": "Loading location tables only adds one line per table", "statement": "If the options are accepted and a channel is set up, a program given location table directories prints one well-formed JSON object per directory, in the order given, saying the table's number and how many points, roads and names it has, and then exactly what it prints for the same input with these tables and keys; without -l nothing is added. The exceptions are refuted: an unknown encoding in README.DAT ends the program with an uncaught exception; the number of names may exceed those in the file; and the line is also printed when the output is hexadecimal, so that such a recording is not only groups.", "quantifier": "every accepted command line, every set of table files of the format of C92, every input", "why_tests_cant": "Holds for every combination of options, directories and input; a test runs one of them.", "anchors": ["src/tmc/tmc.cc: TMCService::TMCService", "src/tmc/locationdb.cc: operator<<, loadLocationDatabase", "src/redsea.cc: main"]}
{"id": "C94", "title": "All events of the built-in list are known", "statement": "The program loads, in full, the lists of traffic events and supplementary sentences it is built with: every line of both lists is read, every event of the list has the texts written for it, the built-in data can never make loading fail, and each of the texts is valid UTF-8. A message with an event of the list is described by the text of that event in the list (with its quantity, if the event takes one and the message has one), followed by the supplementary sentences of the list. The quantity itself then appears in the description, except for 29 events whose text lacks the place for it (refuted otherwise).", "quantifier": "every event and supplementary code, every message, every quantity, every set of location table files", "why_tests_cant": "There are 1553 events and 233 supplementary sentences in a text table with seven columns, quotes and optional cells; a test looks at a few of them.", "anchors": ["src/tmc/events_data.cc: tmc_data_events, tmc_data_suppl", "src/tmc/tmc.cc: loadEventData, getEvent, isValidEventCode, Message::json", "src/tmc/csv.cc: readCSV"]}
{"id": "C95", "title": "Enhanced RadioText tags quote exactly the characters tagged", "statement": "RadioText Plus can also tag parts of the Enhanced RadioText. After the program has settled on a station that announces both, a tag group has begun an item and the text (UTF-8, at most 64 bytes) was received since, a tag group of that item shows each of its tags with the class of its content and exactly the characters tagged (counted as characters, not bytes), without trailing spaces, and the item's toggle and running bits; it shows no other tags. As for C29, a tag must lie within the text, and its last character and the one before its first must be one byte in UTF-8. Conversely, whatever is received, each tag shown is a tag of that group, shown with exactly the characters it tags of a text that had been received completely.", "quantifier": "all histories, stations, pairs of group types the two applications can be assigned to, texts of any Unicode characters, pairs of tags, any interleaving of tag, text, announcement and other groups", "why_tests_cant": "positions x texts with characters of 1 to 4 bytes x interleavings of two applications", "anchors": ["src/groups.cc: parseRadioTextPlus", "src/groups.cc: Station::decodeODAGroup", "src/text/rdsstring.hh: charlen"]}
{"id": "C96", "title": "The reception time shown is the time the group was received", "statement": "With --timestamp, each line shows when its group was received. A group read as text shows what the clock read when it was read. In demodulated audio with one channel, a group whose last bit is n bits before the end of its buffer shows the time at which the buffer was filled minus n bits at 1187.5 bits per second, to the millisecond; and the times shown never go back.", "quantifier": "every sequence of groups read while the clock does not go back; every split of every bit stream into buffers with any times; every audio input with one channel during which the receiver is never out of sync for 10 s on end, for every behaviour of the DSP library", "why_tests_cant": "a test fixes one clock and one split into buffers; the claim is about every position of a group in a buffer and the rounding of the floating-point subtraction", "anchors": ["src/channel.cc: Channel::processBits, Channel::processGroup", "src/block_sync.cc: BlockStream::pushBit", "src/io/input.cc: MPXReader::fillBuffer, MPXReader::readChunk", "src/redsea.cc: processMPXInput"]}
{"id": "C97", "title": "The group begun at the end of the input", "statement": "When the input ends in the middle of a group, the blocks of it that were received on the additional data streams 1 to 3 are decoded, as a group of just those blocks; nothing is made up for a stream that ends between groups. The program does this for every channel of the audio. (On the main data stream the blocks received are dropped.)", "quantifier": "every history of a channel, every number of blocks received, every content and correctable error pattern; every audio input and number of channels", "why_tests_cant": "a test cuts one recording at one place; the claim is about every place at which the input may end", "anchors": ["src/channel.cc: Channel::flush", "src/block_sync.cc: BlockStream::flushCurrentGroup", "src/redsea.cc: processMPXInput"]}
{"id": "C98", "title": "Reception times are written in the format the user gave", "statement": "A reception time is shown exactly as strftime writes it in the user's format, with the first %f replaced by the two digits of the hundredth of a second (rounded down). A text of more than 63 bytes, or an empty one, is shown as (format error). This holds for the rx_time of JSON lines and for the time at the end of hexadecimal lines, which are otherwise the same as without times. The format is a sequence of ordinary characters and conversions of strftime, with one %f that is not preceded by a % of its own.", "quantifier": "every format of that kind, every time after the epoch, every host strftime that expands formats piece by piece, every sequence of groups", "why_tests_cant": "The text depends on the host's strftime and on every format and time; tests use one or two formats.", "anchors": ["src/util.cc: getTimePointString", "src/io/output.hh: printAsHex", "src/channel.cc: Channel::processGroup"]}
{"id": "C99", "title": "Partial texts are what has been received so far", "statement": "With the option to show partial texts, an unfinished station name, long station name or RadioText is shown as the characters most recently received at its first positions without a gap, then blanks; if the first characters of a text have been received in order, exactly these are shown. Beside RadioText the A/B flag of the group itself is shown.", "quantifier": "all hosts, option sets with JSON output, histories of received groups, and all beginnings of texts", "why_tests_cant": "A test shows a few beginnings; which characters count as received so far depends on the whole history of segments, repetitions, gaps and end marks.", "anchors": ["src/text/rdsstring.hh: getData", "src/groups.cc: decodeType0", "src/groups.cc: decodeType2", "src/groups.cc: decodeType15A"]}
{"id": "C100", "title": "The command line, word by word", "statement": "The program understands its options however they are written: letters alone or together, long names or unambiguous beginnings of them, arguments in the same word, after '=' or in the next word, other words in between, '--' at the end; it then does what the options mean, and the same for every spelling of the same options. Whatever the words are, no option reads an argument that is not there, and the program ends in order; a word that is no proper option makes it show the usage (or a message) and decode nothing.", "quantifier": "all lists of words, all environments of the program", "why_tests_cant": "There are unboundedly many command lines; that the table of letters and the table of long names agree with each other and with what each case reads is only visible for all of them.", "anchors": ["src/options.cc: getOptions", "src/options.cc: long_options", "src/redsea.cc: main", "src/redsea.cc: printUsage"]}
{"id": "C101", "title": "Data streams are received independently of each other", "statement": "What is received on one of the four data streams does not depend on how many data streams are received beside it, whatever audio comes in, however it is cut into chunks and however often the receiver is reset; and the demodulator never fails.", "quantifier": "every implementation of the signal processing objects (oscillator, filter, gain control, symbol synchroniser, modem, resampler), every accepted sample rate, every sequence of chunks and resets, every data stream and any two numbers of streams", "why_tests_cant": "Tests run a few recordings with one number of streams; that no state is shared between the streams (counters, oscillators, filters) has to hold for every signal.", "anchors": ["src/dsp/subcarrier.cc: processChunk", "src/dsp/subcarrier.cc: reset", "src/dsp/subcarrier.cc: resampleChunk", "src/dsp/liquid_wrappers.cc: step"]}
{"id": "C102", "title": "The phases used for mixing never drift away", "statement": "However long the program runs, the phases with which the four subcarriers are mixed down stay between -pi and pi, in binary32 arithmetic with rounding; they never become infinite or NaN, and mixing never reads a phase that does not exist.", "quantifier": "every implementation of the signal processing objects whose oscillator phase is between 0 and 2 pi, every sample rate, every sequence of chunks and resets of any length", "why_tests_cant": "Rounding errors accumulate over billions of steps (171000 a second); a test cannot run that long nor try all phases.", "anchors": ["src/dsp/liquid_wrappers.cc: unwrap", "src/dsp/liquid_wrappers.cc: step", "src/dsp/liquid_wrappers.cc: mixDown"]}
{"id": "C103", "title": "Resampled audio fits in the buffers", "statement": "For every sample rate the program accepts, and chunks of up to 8192 samples, the resampler never writes behind the end of the two elements for one sample nor behind the end of the buffer for a chunk, whatever the chunks before were.", "quantifier": "every resampling filter, every accepted whole sample rate from 128000 Hz on, every sequence of chunks of up to 8192 samples", "why_tests_cant": "The number of resampled samples in a chunk depends on a phase that all chunks before have moved; at the lowest rate one element of the buffer is left.", "anchors": ["src/dsp/subcarrier.cc: resampleChunk", "src/dsp/liquid_wrappers.cc: setRatio", "src/dsp/liquid_wrappers.cc: execute", "src/io/input.hh: kBufferSize"]}
{"id": "C104", "title": "The symbol clock is taken at an even pace", "statement": "The symbol synchroniser is given a value at exactly every 24th sample of the 171 kHz signal, beginning with the first after start or reset, however the audio is cut into chunks, for the first 2^32 samples.", "quantifier": "every demodulator, every sample rate, every sequence of chunks, any number of data streams", "why_tests_cant": "The pace must not depend on where the chunks end; the exception occurs only after 7 hours.", "anchors": ["src/dsp/subcarrier.cc: processChunk", "src/dsp/subcarrier.cc: reset"]}
{"id": "C105", "title": "Synchronisation recovers from any disturbance within 14 error-free groups", "statement": "Whatever has been received before (noise, slipped or missing bits, another station, a false lock), once 14 groups in a row arrive without error, in which at most seven stretches of 26 bits look like a block without being one and none of these ends three blocks in rhythm, the receiver is in sync at the right place and every further error-free group is delivered exactly. Eleven groups are not enough. Without the condition on chance blocks it fails: there are groups which, sent over and over without error, can be read in two ways, so that a receiver in step with the other reading never delivers the transmitted group, and a receiver switched on during the transmission never delivers anything.", "quantifier": "every earlier bit history (hence every reachable receiver state, including false synchronisation with any error window contents and any remembered pulses), every 14 error-free groups meeting the condition, every later sequence of error-free groups, error correction on or off; for the counterexamples every number of repetitions", "why_tests_cant": "The states a disturbance can leave are unbounded (remembered pulses, error window, bit counter wrapping at 2^32, any phase and expected offset); a test can only try some of them, and non-recovery can only be seen by waiting forever.", "anchors": ["src/block_sync.cc: BlockStream::findBlockInInputRegister", "src/block_sync.cc: BlockStream::acquireSync", "src/block_sync.cc: SyncPulseBuffer::isSequenceFound", "src/block_sync.cc: SyncPulse::couldFollow", "src/block_sync.cc: BlockStream::pushBit"]}
{"id": "C106", "title": "An Enhanced RadioText sent in UCS-2 is shown as the host's converter reads it, with zero bytes and end marks blanked", "statement": "Once Enhanced RadioText in UCS-2 has been announced and a text has been received from its first byte on, up to an end mark or over all 64 places, the line of that group shows what the host's UCS-2 converter makes of these bytes, with a blank in place of each zero byte and of the end mark; if the converter refuses them, the line shows no Enhanced RadioText. Hence a text of 32 characters none of which has a zero byte or a byte equal to 0x0D is shown exactly as sent, if the converter takes the more significant byte first. The unrestricted claim is false: Latin characters and blanks are shown as other characters, the end mark as a dagger, a character such as U+010D cuts the text off, and a converter that takes the less significant byte first misreads every text.", "quantifier": "all earlier histories, all converters of the host, all texts, all interleavings with other groups of the station", "why_tests_cant": "Any bytes may have been in the buffer before, texts are interleaved with any other groups, and the result depends on every byte of the text.", "anchors": ["src/text/rdsstring.cc: RDSString::set", "src/text/rdsstring.cc: RDSString::getData", "src/text/rdsstring.cc: RDSString::str", "src/groups.cc: Station::parseEnhancedRT"]}
{"id": "C107", "title": "What a channel keeps in memory is bounded", "statement": "However long a channel runs and whatever is sent to it, everything it stores - texts, names and frequencies of other networks, announced applications, traffic messages being collected, files being transferred, error statistics - stays below one fixed amount: fewer than 8000000 bytes, numbers and table entries. Groups read from hexadecimal or TEF6686 text always have the 16-bit words this relies on, whatever the text is.", "quantifier": "all hosts, options, new channels and unbounded sequences of groups, bits, bit buffers, flushes and carrier losses", "why_tests_cant": "A leak shows after days of reception or under a transmission made to provoke it; a test run has one finite history", "anchors": ["src/groups.cc: Station::decodeType14", "src/groups.cc: Station::decodeType3A", "src/tmc/tmc.cc: TMCService::receiveUserGroup", "src/rft.hh: RFTFile::receive", "src/text/rdsstring.cc: RDSString::set", "src/channel.cc: Channel::processGroup", "src/io/input.cc: readHexGroup"]}
{"id": "C108", "title": "From any disturbance to the station's name", "statement": "Whatever the program received before - noise, lost or repeated bits, other stations, a receiver in step with a wrong position - once 14 groups have been received without error (1.2 seconds, in which no more than seven stretches look like a block by chance and none of these keeps a rhythm), followed by three groups of a station and its name sent in order, the name is printed; nothing received earlier can prevent it or mix into it.", "quantifier": "all bits received before, all 14 groups and all later groups of a station, all names, everything that follows, every host and option set with JSON output", "why_tests_cant": "Recovery has to work from every state the receiver and the decoder can be in; tests start from a fresh program or from a few recorded disturbances.", "anchors": ["src/block_sync.cc: BlockStream::pushBit", "src/channel.cc: Channel::processGroup", "src/groups.cc: Station::decodeType0"]}
{"id": "C109", "title": "A station name received with lost and repeated parts", "statement": "Once a station is confirmed, whatever name parts are lost, repeated or sent out of order: as soon as the parts received since the last part 0 include parts 1, 2 and 3, each received directly after the part before it (or an end mark is reached in this way), the line of every group with a name part shows the name made of the latest characters; and a name whose part 2 never comes directly after part 1 is never shown, however often each part is received.", "quantifier": "all hosts, all histories before, all sequences of groups of a station with any parts lost, repeated or exchanged, of any length", "why_tests_cant": "Which parts are lost differs at every reception; tests try a few orders, and cannot show that a name never appears", "anchors": ["src/text/rdsstring.cc: RDSString::set", "src/text/rdsstring.cc: RDSString::isComplete", "src/groups.cc: Station::decodeType0"]}
{"id": "C110", "title": "A RadioText sent without end mark is shown once it has been repeated, unless an end mark was received before", "statement": "A RadioText shorter than the longest possible and sent without an end mark is shown when the first part after its second repetition arrives, whatever that part is, provided that no end mark has been received in any RadioText so far. After a message with an end mark, a message without one that is no longer is never shown, not even if the A/B flag asks the receiver to discard the old message.", "quantifier": "all earlier histories after which the station is confirmed, all messages without end mark in groups 2A or 2B, all groups of other types in between, all first parts that follow; for the second part all messages with end mark and all later shorter messages, repeated any number of times", "why_tests_cant": "Whether the message is shown depends on the whole history: every end mark ever received in the buffer, the text at the previous first part and the flag. A test covers one history.", "anchors": ["src/groups.cc: decodeType2", "src/text/rdsstring.cc: clear", "src/text/rdsstring.cc: hasPreviouslyReceivedTerminators", "src/text/radiotext.hh: RadioText"]}
{"id": "C111", "title": "RadioText, Enhanced RadioText, programme type name and long name with lost and repeated parts are shown once complete", "statement": "Once a station is confirmed, the parts of its RadioText message, of its Enhanced RadioText in UTF-8 (within the limits of C84), of its programme type name or of its long name may arrive in any order, be repeated, and be lost. As soon as since the last first character each later one has arrived directly after the one before it, up to the end mark or the last position, each group of that text is printed with the text: the character received last at each position, in the RDS character set (in UTF-8 for the long name and Enhanced RadioText), without trailing blanks (the programme type name with them).", "quantifier": "every host, option set with JSON output, earlier history that confirms the station, sequence of groups of the station in which the parts of one message are received in any order and number, and text", "why_tests_cant": "A test replays a few orders of parts; the claim is about every order and loss pattern and every content left in the buffer by what was received before.", "anchors": ["src/text/rdsstring.cc: set", "src/text/rdsstring.cc: isComplete", "src/groups.cc: decodeType2", "src/groups.cc: decodeType10A", "src/groups.cc: decodeType15A", "src/groups.cc: parseEnhancedRT"]}
{"id": "C112", "title": "The help text lists exactly the options and formats that exist", "statement": "Every option listed by the help text is accepted, by its letter and by its name, and with an argument exactly if it is listed with one, whatever the argument. Whatever the command line is, every option that takes effect is listed, except --help itself. A format for --input or --output is refused exactly if it is not listed. --help prints this text, --version the version line, and both end the program successfully.", "quantifier": "every listed option with every argument, every sequence of command line words, every format name", "why_tests_cant": "A test tries some options; that no command line gives the program an undocumented option, and that every format name not listed is refused, is about all command lines and names.", "anchors": ["src/redsea.cc: printUsage", "src/redsea.cc: printVersion", "src/redsea.cc: main", "src/options.cc: getOptions"]}
{"id": "C113", "title": "A RadioText message is shown from the bits on the air, and again after any disturbance", "statement": "From the bits of the input to the printed line: if the receiver is in sync, or after any disturbance has received 14 groups without error (under the conditions of C105), and three groups have confirmed the station, then a RadioText message whose parts are sent in any order and repeated is printed as soon as it is complete, even if blocks have errors that the receiver tolerates, provided RadioText Plus is not announced.", "quantifier": "every host, option set with JSON output, earlier bits, group stream of the station with tolerated errors, order of parts and text; for the second theorem every disturbance and everything that follows", "why_tests_cant": "A test replays one recording; the claim joins bit synchronisation, error correction, station tracking and text assembly for every bit stream.", "anchors": ["src/redsea.cc: processASCIIBitsInput", "src/block_sync.cc: pushBit", "src/channel.cc: processGroup", "src/groups.cc: decodeType2", "src/text/rdsstring.cc: set"]}
{"id": "C114", "title": "A file checksum names exactly the bytes it is about", "statement": "In a file transfer, checksum groups carry a mode and an address. For every mode and every file size the program accepts, each byte of the file lies in the chunk of exactly one address; mode 0 means the whole file; modes 1 to 6 mean chunks of 80, 160, ... 2560 bytes one after the other; and the automatic mode selects the shortest of these chunk lengths with which the 512 available addresses suffice for the file.", "quantifier": "All modes, addresses, file sizes up to the largest accepted and byte positions", "why_tests_cant": "The size thresholds and the 16- and 32-bit arithmetic must fit together at every size and address; tests try a few", "anchors": ["src/rft.hh: ChunkCRC::getActualMode", "src/rft.hh: ChunkCRC::getChunkLength", "src/rft.hh: ChunkCRC::getByteAddress"]}
{"id": "C115", "title": "RadioText beside RadioText Plus", "statement": "If a station also sends RadioText Plus, its RadioText is still shown as soon as it has been received completely (parts in any order, repeated or lost), as long as the RadioText Plus groups received since the text began are all of one item. (Not so if the item changes in between: then the text is forgotten although all of it was received.)", "quantifier": "every host, option set with JSON output, history, assignment of RadioText Plus, order of parts, and RadioText Plus groups of one item in between", "why_tests_cant": "Two kinds of groups interleaved in any way act on the same text buffer; tests replay one recording.", "anchors": ["src/groups.cc: parseRadioTextPlus", "src/groups.cc: decodeType2", "src/groups.cc: decodeODAGroup", "src/text/rdsstring.cc: set"]}
{"id": "C116", "title": "Traffic messages are not mixed with others", "statement": "A message of two to five groups all of which are received is shown with nothing of any other message, also if parts of another message with the same continuity index were received before it: all of its fields are shown, or, of a message of three or four groups, those in its second group. (If one of its groups is lost, the exclusion is needed: a group of the other message can be shown in its place.)", "quantifier": "all messages, all earlier histories of the service, including incomplete messages with the same continuity index", "why_tests_cant": "which stale parts are present depends on an unbounded history of lost groups", "anchors": ["src/tmc/tmc.cc: Message::pushMulti", "src/tmc/tmc.cc: getFreeformFields", "src/tmc/tmc.cc: TMCService::receiveUserGroup"]}
{"id": "C117", "title": "What a station sends is shown from the bits on the air, and again after any disturbance", "statement": "The input is text of the characters 0 and 1, the bits received. Once the receiver has got into sync in any way and has received three groups of a station, with errors it tolerates, everything the station then sends completely is printed on the line of the group that completes it: the clock time, the programme type name, the long programme service name, a list of alternative frequencies by method A or B, traffic messages of one group and of two to five groups, the traffic announcement and music flags, the programme item, the slow labelling codes, other networks, announcements of applications, Enhanced RadioText, the characters tagged by RadioText Plus, and transparent and in-house data. The same holds after any disturbance, that is after any bits at all, in sync or not, from whichever stations, followed by 14 groups without errors (the conditions of C105) and by three groups of the station; then whatever bits follow.", "quantifier": "all inputs of bits, all ways of getting into sync and all tolerated errors, all bits before and after the disturbance, all stations, all contents of the groups, any order and repetition of the parts of names, all hosts and options with JSON output", "why_tests_cant": "the result depends on the whole of what was received before, in every alignment, and on all contents that may be sent; a test has one recording", "anchors": ["src/redsea.cc: processASCIIBitsInput", "src/block_sync.cc: BlockStream::pushBit", "src/channel.cc: Channel::processBit", "src/groups.cc: Station::decodeType4A", "src/groups.cc: Station::decodeType10A", "src/groups.cc: Station::decodeType15A", "src/groups.cc: Station::decodeType0", "src/groups.cc: Station::decodeType1", "src/groups.cc: Station::decodeType3A", "src/groups.cc: Station::decodeType14", "src/groups.cc: parseRadioTextPlus", "src/tmc/tmc.cc: TMCService::receiveUserGroup"]}
{"id": "C118", "title": "Every group heard gives one line, in the order sent", "statement": "The input is text of the characters 0 and 1, the bits received. Once the receiver has got into sync and has received three groups of a station, with errors it tolerates, every further group of the station gives exactly one line, in the order sent and with no other lines between: in JSON the line states the station's PI code, the group type, the TP flag and the programme type as sent; with --output hex it is the four blocks as sent. The same holds after any disturbance followed by 14 groups without errors (the conditions of C105) and three groups of the station. (The exception is a group of a type that applications may use, such as 15A: if it completes a text that is not UTF-8, its one line is an error message.)", "quantifier": "all inputs of bits, all ways of getting into sync and all tolerated errors, all disturbances, all stations, all numbers and contents of groups, all hosts and options without --timestamp for hex output", "why_tests_cant": "a missing, repeated or reordered line may depend on the whole of what was received before; a test has one recording", "anchors": ["src/redsea.cc: processASCIIBitsInput", "src/block_sync.cc: BlockStream::pushBit", "src/channel.cc: Channel::processGroup", "src/groups.cc: Station::updateAndPrint", "src/groups.cc: Station::decodeBasics", "src/groups.cc: Group::printHex"]}
{"id": "C119", "title": "Groups written as hexadecimal text are all shown", "statement": "The input is text: first anything, then lines with groups of one station as sixteen hexadecimal digits (upper or lower case, blanks anywhere between the digits, anything after them), then anything. After the first three of those groups every further one gives exactly one line, in the same order and with no other lines between: in JSON it states the PI code, the group type, the TP flag and the programme type; with --output hex it is the four blocks again. (The exception is that of C118.) A station name whose four parts come in order, a programme type name or a RadioText message that is complete (no group of the input announcing RadioText Plus), and a list of alternative frequencies by method A are shown as they were written by the line of the group that completes them. The text before and after, whatever it is, changes none of this.", "quantifier": "all texts before and after, all ways of writing the groups, all stations, all numbers and contents of groups, all hosts and options (no --timestamp for hex output)", "why_tests_cant": "a line may be lost or misread because of any text before it, and tests contain a few files written in one way", "anchors": ["src/io/input.cc: readHexGroup", "src/redsea.cc: processHexInput", "src/channel.cc: Channel::processGroup", "src/groups.cc: Station::updateAndPrint"]}
{"id": "C120", "title": "Groups from a tuner's lines are all shown", "statement": "The input (-i tef) is text: first anything, then for each group of one station a line P with the PI code and a line R with the other blocks and no errors, with lines of other kinds between, then anything. After the first three of those groups every further one gives exactly one line, in the same order and with no other lines between: in JSON it states the PI code, the group type, the TP flag and the programme type; with --output hex it is the four blocks. (The exception is that of C118.) A station name whose four parts come in order, a programme type name or a RadioText message that is complete (no group of the input announcing RadioText Plus), and a list of alternative frequencies by method A are shown as they were sent by the line of the group that completes them. The text before and after, such as half a pair of lines, changes none of this.", "quantifier": "all texts before and after, all other lines between, all stations, all numbers and contents of groups, all hosts and options (no --timestamp for hex output)", "why_tests_cant": "a PI code could be kept from one group for another, and a line lost, because of any text before it; tests contain a few files", "anchors": ["src/io/input.cc: readTEFGroup", "src/redsea.cc: processTEFInput", "src/channel.cc: Channel::processGroup", "src/groups.cc: Station::updateAndPrint"]}
{"id": "C121", "title": "What a station sends is shown from text input as from the bits on the air", "statement": "The input is hexadecimal text (-i hex) or the lines of a tuner (-i tef): first anything, then the groups of one station, at least three before those in question, then anything. The line of the group that completes them shows, as they were sent: the clock time; the long name; a traffic message of one group, and one of several groups; the decoder identification, the music flag and the traffic announcement flag; the programme item; the slow labelling codes; another network; an announced application; a list of alternative frequencies by method B; enhanced RadioText; the tags of RadioText Plus; data for a transparent channel; transparent data; and in-house data.", "quantifier": "both kinds of text, all texts before and after, all stations, all numbers and contents of groups, all hosts and options with JSON output; with the conditions about announced applications that C117 has, for all the groups that are found in the input", "why_tests_cant": "the groups that are found depend on the whole input, and the state that each field needs on all earlier groups; tests contain a few files", "anchors": ["src/io/input.cc: readHexGroup", "src/io/input.cc: readTEFGroup", "src/redsea.cc: processHexInput", "src/redsea.cc: processTEFInput", "src/channel.cc: Channel::processGroup", "src/groups.cc: Station::updateAndPrint"]}
