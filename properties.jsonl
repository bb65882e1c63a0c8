{"id": "C01", "title": "Little-endian integer channel read returns exactly the channel's bit field", "statement": "Reading an unsigned little-endian channel of 1..64 bits at any byte offset / bit offset / array index from a record returns the integer formed by those bits of the record seen as one little-endian number, and nothing else of the record influences the value.", "quantifier": "every record (any length, any bytes), every byte offset, bit offset, bit count 1..64 and array index whose bits lie inside the record", "why_tests_cant": "the product of offsets, widths and record contents is unbounded; tests use byte aligned 8/16/32/64 bit channels", "anchors": ["mdflib/src/dbchelper.cpp RawToUnsigned", "mdflib/src/ichannel.cpp IChannel::GetUnsignedValue"]}
{"id": "C02", "title": "Big-endian integer channel read returns exactly the channel's bit field", "statement": "Reading an unsigned big-endian channel returns the number obtained by taking the bytes the channel spans as one big-endian number, dropping the lowest bit-offset bits and keeping bit-count bits.", "quantifier": "every record, byte offset, bit offset < 8 and bit count 1..64 inside the record", "why_tests_cant": "bit-walk crosses byte boundaries in a different direction than little-endian; only a universal argument covers every alignment", "anchors": ["mdflib/src/dbchelper.cpp RawToUnsigned", "mdflib/src/ichannel.cpp IChannel::GetUnsignedValue"]}
{"id": "C03", "title": "Signed channel read is the two's complement reading of the same bits", "statement": "For every width 1..64 the signed value is the unsigned value u if its top bit is clear and u - 2^width otherwise, so it is in [-2^(w-1), 2^(w-1)).", "quantifier": "every record, every offset, every width 1..64, both byte orders", "why_tests_cant": "the code handles each of the 64 widths and both endians by one formula; boundary values at every width cannot be enumerated with every record", "anchors": ["mdflib/src/dbchelper.cpp RawToSigned", "mdflib/src/ichannel.cpp IChannel::GetSignedValue"]}
{"id": "C04", "title": "A channel that does not fit in the record is reported invalid and nothing outside the record is read", "statement": "If the channel's last bit lies beyond the end of the record buffer, the read returns false; if the read returns true every byte it looked at is inside the record.", "quantifier": "every record length and every channel geometry", "why_tests_cant": "a test can only observe particular over-reads; absence of out-of-bounds reads is a universal statement", "anchors": ["mdflib/src/ichannel.cpp GetUnsignedValue/GetSignedValue/GetFloatValue", "mdflib/src/dbchelper.cpp RawToUnsigned"]}
{"id": "C05", "title": "Writing a channel value into the sample buffer and reading it back returns the same value", "statement": "After setting an integer (1,2,4,8 bytes) or float (4,8 bytes) channel, in either byte order and for any in-range array index, reading the same channel/index from the sample buffer returns the value written (modulo the channel width) and marks it valid as requested.", "quantifier": "every value, byte order, width, offset, array index and buffer content", "why_tests_cant": "value x width x offset x index space is unbounded", "anchors": ["mdflib/src/ichannel.cpp SetUnsignedValueLe/Be, SetSignedValueLe/Be, SetFloatValueLe/Be, Get*Value"]}
{"id": "C06", "title": "Setting a channel changes only that channel's bytes", "statement": "Setting a value for one channel/array index leaves every byte of the sample buffer outside the bytes of that element (and the channel's own invalidation bit) unchanged and keeps the buffer length.", "quantifier": "every buffer, every channel geometry, every value", "why_tests_cant": "frame condition: a test only observes the channels it looks at", "anchors": ["mdflib/src/ichannel.cpp SetUnsignedValueLe/Be, SetSignedValueLe/Be, SetFloatValueLe/Be"]}
{"id": "C07", "title": "Setting an out-of-range array element never writes outside the sample buffer", "statement": "For every array index, if the element does not fit in the sample buffer the setter marks the channel invalid and writes no data byte (no memory outside the buffer is touched).", "quantifier": "every buffer size, offset, width and array index", "why_tests_cant": "memory safety is universal over sizes and indexes; an overrun by a few bytes is normally silent in a test", "anchors": ["mdflib/src/ichannel.cpp SetUnsignedValueLe, SetUnsignedValueBe (missing +1), SetSignedValueBe"]}
{"id": "C08", "title": "Invalidation bits are independent per channel", "statement": "Setting the valid flag of one channel and reading it back gives the flag; the valid flag of every channel with another invalidation bit position and all data bytes are unchanged.", "quantifier": "every buffer, every pair of distinct invalidation bit positions, every history of set operations", "why_tests_cant": "bit packing errors only show for particular neighbours; histories are unbounded", "anchors": ["mdflib/src/cn4block.cpp Cn4Block::SetValid, Cn4Block::GetValid"]}
{"id": "C09", "title": "Channel layout prepared for writing is overlap-free and fits the sample buffer", "statement": "After a writer is initialised, the byte ranges assigned to the channels of a group without explicit offsets are pairwise disjoint, consecutive and exactly fill the record data bytes, and the invalidation bits are pairwise distinct and fit in the computed number of invalidation bytes.", "quantifier": "every list of channels with arbitrary sizes, array sizes and invalidation flags", "why_tests_cant": "number and sizes of channels are unbounded", "anchors": ["mdflib/src/cg4block.cpp PrepareForWriting", "mdflib/src/cn4block.cpp PrepareForWriting, DataBytes"]}
{"id": "C10", "title": "MDF4 record ids are unique and fit the record id size", "statement": "After any number of channel groups have been created in a data group, the record ids are pairwise distinct and every id fits in the data group's record id size (0,1,2,4 or 8 bytes); a single group uses no id.", "quantifier": "every number of channel groups", "why_tests_cant": "size class changes at 2, 256, 65536, 2^32 groups; cannot be tested exhaustively", "anchors": ["mdflib/src/dg4block.cpp Dg4Block::AddCg4"]}
{"id": "C11", "title": "MDF3 record ids are unique", "statement": "After any number of channel groups are created in an MDF3 data group their record ids are pairwise distinct, so records can be attributed to their group.", "quantifier": "every number of channel groups", "why_tests_cant": "the id is a byte; collisions only appear with more than 255 groups", "anchors": ["mdflib/src/dg3block.cpp Dg3Block::AddCg3, FindCgRecordId"]}
{"id": "C12", "title": "Records written to the data block are read back unchanged, in order and attributed to their group", "statement": "Parsing the byte stream that the writer emits for any interleaving of samples of the groups of a data group notifies observers with exactly those (record id, record bytes) pairs in the same order, for every record id size, including variable length (VLSD) group records.", "quantifier": "every list of groups, every record id size, every finite sequence of samples", "why_tests_cant": "unbounded histories and interleavings", "anchors": ["mdflib/src/writer4samplequeue.cpp SaveQueue", "mdflib/src/cg4block.cpp WriteSample, WriteVlsdSample, ReadDataRecord", "mdflib/src/dg4block.cpp ParseDataRecords, ReadRecordId"]}
{"id": "C13", "title": "Reading does not depend on how the data bytes are split over data blocks", "statement": "The records delivered by the reader from a data list are the same for every split of the same byte stream in (non-empty) data blocks, including records, record ids and length fields that straddle block boundaries.", "quantifier": "every byte stream and every way to cut it in non-empty blocks", "why_tests_cant": "number of splits is exponential; straddling corner cases", "anchors": ["mdflib/src/readcache.cpp GetNextByte, GetArray, ParseRecordId, ParseRecord, SkipBytes"]}
{"id": "C14", "title": "Subscribing to fewer groups does not change the records seen for the subscribed groups", "statement": "Reading a data group with observers on a subset of groups delivers, for these groups, the same records with the same sample numbers as reading with observers on all groups.", "quantifier": "every stream, every subset of groups, every block split", "why_tests_cant": "the skip path is a different code path (SkipBytes) than the read path; all combinations of skipped/read records and block borders are needed", "anchors": ["mdflib/src/readcache.cpp ParseRecord, SkipBytes, SkipByte"]}
{"id": "C15", "title": "Range reading equals the slice of the full reading", "statement": "Reading samples min..max delivers for each non-VLSD group exactly the samples of the complete reading whose number lies in min..max, with the same numbers.", "quantifier": "every stream, every (min,max), every group subset", "why_tests_cant": "unbounded number of ranges; early termination logic", "anchors": ["mdflib/src/readcache.cpp ParseRangeRecord", "mdflib/src/dgrange.cpp", "mdflib/src/cgrange.cpp", "mdflib/src/mdfreader.cpp ReadPartialData"]}
{"id": "C16", "title": "VLSD index stored in a record points at the payload of that sample", "statement": "For every sequence of samples written to a group with variable length data, the 8-byte index stored in the n:th record is the offset, in the concatenation of all length-prefixed VLSD payloads, of the n:th payload; looking it up returns the payload bytes.", "quantifier": "every sequence of payloads of any lengths (incl. empty), both writing paths", "why_tests_cant": "unbounded histories", "anchors": ["mdflib/src/cg4block.cpp WriteVlsdSample, WriteCompressedVlsdSample", "mdflib/src/writer4samplequeue.cpp SaveQueue, CleanQueueCompressed"]}
{"id": "C17", "title": "Signal data (SD) lookup returns the stored bytes and never reads outside the SD data", "statement": "For each value appended to a variable length channel's signal data the index handed out later retrieves exactly the value; for every index whatsoever (also from a corrupt file) the lookup either fails or stays inside the buffer.", "quantifier": "every sequence of appended values and every 64-bit index", "why_tests_cant": "unbounded sequences; adversarial indexes", "anchors": ["mdflib/src/cn4block.cpp SetTextValue, SetByteArray, GetByteArrayValue, GetTextValue, WriteSdSample"]}
{"id": "C18", "title": "Transposition is undone by the inverse transposition", "statement": "Inverse transposing the transposed data with the same record size gives the original bytes; the trailing bytes that do not fill a record are untouched.", "quantifier": "every data vector and every record size", "why_tests_cant": "universal over sizes; partial last record", "anchors": ["mdflib/src/zlibutil.cpp Transpose, InvTranspose"]}
{"id": "C19", "title": "Compressed data block round trip", "statement": "A data block written compressed (deflate or transpose+deflate) and read back yields the original bytes, assuming only that inflate undoes deflate; original and compressed sizes in the header are the true sizes.", "quantifier": "every payload, every record size used for the transposition", "why_tests_cant": "universal over payloads", "anchors": ["mdflib/src/dz4block.cpp Write, CopyDataToBuffer", "mdflib/src/zlibutil.cpp Deflate, Inflate"]}
{"id": "C20", "title": "Compressed writing stores the same stream as uncompressed writing", "statement": "For every sequence of queued samples and every timing of the save steps, the concatenation of the data blocks produced by the compressed writer is the byte stream the uncompressed writer would store, and each list entry's offset equals the sum of the sizes of the preceding blocks.", "quantifier": "every sample sequence, every schedule of intermediate saves, every chunk limit", "why_tests_cant": "depends on queue length at each step and on chunk boundaries", "anchors": ["mdflib/src/writer4samplequeue.cpp SaveQueueCompressed, CleanQueueCompressed", "mdflib/src/dl4block.cpp Offset"]}
{"id": "C21", "title": "The sample queue loses, duplicates and reorders nothing", "statement": "Over any schedule of producer saves and worker drain steps the samples written followed by the samples still queued are exactly the samples accepted so far in order; after finalize the queue is empty.", "quantifier": "every interleaving of save and drain operations", "why_tests_cant": "schedules are unbounded", "anchors": ["mdflib/src/samplequeue.cpp AddSample, GetSample, PushSample", "mdflib/src/writer4samplequeue.cpp SaveQueue, CleanQueueCompressed", "mdflib/src/writecache.cpp WorkThread"]}
{"id": "C22", "title": "Queue size accounting is exact", "statement": "The queue size the flow control uses equals the sum of the sizes of the queued samples at all times and never wraps below zero.", "quantifier": "every history of add, push-back, get and reset", "why_tests_cant": "counter drift shows only after long histories", "anchors": ["mdflib/src/samplequeue.cpp AddSample, PushSample, GetSample, Reset, QueueSize"]}
{"id": "C23", "title": "Pre-trigger trimming keeps exactly the pre-trigger window", "statement": "While waiting for the trigger the queue keeps the newest samples covering the pre-trigger time and drops only samples older than that; trimming removes a prefix only and never empties a non-empty queue.", "quantifier": "every queue with increasing time stamps, every pre-trigger time, start time", "why_tests_cant": "universal over histories and times; unsigned underflow corner", "anchors": ["mdflib/src/samplequeue.cpp TrimQueue", "mdflib/src/mdfwriter.cpp PreTrigTime, StartMeasurement"]}
{"id": "C24", "title": "Number of samples stored in each channel group equals the number of its records in the data", "statement": "After every drain the sample counter of each channel group equals the number of records of that group written to the data block since start.", "quantifier": "every sequence of samples and drains", "why_tests_cant": "counts must agree for all histories; a single missed update corrupts range reads", "anchors": ["mdflib/src/samplequeue.cpp IncrementNofSamples", "mdflib/src/writer4samplequeue.cpp SaveQueue"]}
{"id": "C25", "title": "Samples after the stop time are not stored", "statement": "After the measurement has been stopped at time T no sample with a later time stamp is written to the file and every sample saved before T is.", "quantifier": "every sample sequence and stop time, every schedule of the worker", "why_tests_cant": "race between stop and worker; schedule dependent", "anchors": ["mdflib/src/mdfwriter.cpp StopMeasurement, FinalizeMeasurement", "mdflib/src/writer4samplequeue.cpp SaveQueue"]}
{"id": "C26", "title": "Finalizing an unfinalized file restores the sample counts", "statement": "For every unfinalized sorted or unsorted file, finalization sets each group's sample count to the number of complete records of the group in the data and each VLSD group's size to the number of payload bytes.", "quantifier": "every record stream, including a stream truncated by a crash at any byte", "why_tests_cant": "crash points are unbounded", "anchors": ["mdflib/src/dg4block.cpp FinalizeDtBlocks, FinalizeCgAndVlsdBlocks"]}
{"id": "C27", "title": "Block header round trip", "statement": "Writing a block header (id, length, link count, links) and reading it back yields the same type, length and links.", "quantifier": "every block type, every length < 2^64, every list of link values", "why_tests_cant": "universal over link lists and values", "anchors": ["mdflib/src/mdfblock.cpp ReadHeader4, Write", "mdflib/src/mdfblock.h WriteBlock4, ReadNumber, WriteNumber"]}
{"id": "C28", "title": "Appended blocks are 8-byte aligned and do not overlap earlier blocks", "statement": "Every block appended to a file starts at a multiple of 8 at or after the previous end of file, all earlier bytes are preserved.", "quantifier": "every file content and size", "why_tests_cant": "universal over histories of writes", "anchors": ["mdflib/src/mdfblock.cpp MdfBlock::Write, SetLastFilePosition"]}
{"id": "C29", "title": "Linked lists of blocks are recovered completely and in order", "statement": "After writing a list of child blocks (in any number of sessions) and reading the file, the reader finds exactly these children in the same order.", "quantifier": "every list length, every sequence of writes", "why_tests_cant": "unbounded lists; update of previous link", "anchors": ["mdflib/src/mdfblock.h WriteLink4List, ReadLink4List", "mdflib/src/mdfblock.cpp UpdateLink"]}
{"id": "C30", "title": "Updating a link or block size changes only its 8 bytes", "statement": "Updating link i of a block on disk changes exactly the 8 bytes of that link; everything else in the file is preserved; an index outside the link list is rejected.", "quantifier": "every file, every block position, every index", "why_tests_cant": "frame property of in-place file updates", "anchors": ["mdflib/src/mdfblock.cpp UpdateLink, UpdateBlockSize"]}
{"id": "C31", "title": "Fixed width strings round trip", "statement": "A string without NUL and without leading/trailing white space that fits in the field is read back identically; the field always occupies exactly its width.", "quantifier": "every string and width", "why_tests_cant": "universal over strings", "anchors": ["mdflib/src/mdfblock.cpp ReadStr, WriteStr", "mdflib/src/mdfhelper.cpp Trim"]}
{"id": "C32", "title": "Text blocks preserve the text", "statement": "A text stored in a TX/MD block is read back identically.", "quantifier": "every text", "why_tests_cant": "white space and NUL corner cases over all texts", "anchors": ["mdflib/src/tx4block.cpp Read, Write", "mdflib/src/mdfblock.cpp ReadStr"]}
{"id": "C33", "title": "Reading a linked list terminates on every file", "statement": "Opening any file, also a corrupt one whose links form a cycle, terminates.", "quantifier": "every file content", "why_tests_cant": "adversarial link structures are unbounded", "anchors": ["mdflib/src/mdfblock.h ReadLink4List"]}
{"id": "C34", "title": "Data list offsets locate every data block", "statement": "For every list of data blocks the list block written describes them so that the block containing stream position x is found by the stored offsets / equal length.", "quantifier": "every list of block sizes and every position", "why_tests_cant": "unbounded lists; equal length flag corner case (last block shorter)", "anchors": ["mdflib/src/dl4block.cpp Read, Write, Offset", "mdflib/src/datalistblock.cpp"]}
{"id": "C35", "title": "Linear, rational, polynomial conversion compute the documented formulas", "statement": "A linear conversion returns P1 + P2*x, a rational one (P1 x^2+P2 x+P3)/(P4 x^2+P5 x+P6), and missing parameters make the conversion fail instead of returning a value.", "quantifier": "every raw value and parameter list", "why_tests_cant": "universal over reals/parameters", "anchors": ["mdflib/src/ichannelconversion.cpp ConvertLinear, ConvertRational, ConvertPolynomial"]}
{"id": "C36", "title": "Value-to-value table conversions return table values at keys, clamp outside and stay between neighbours", "statement": "For a table with increasing keys the interpolating conversion returns the table value at each key, the first/last value outside, and a value between the neighbours inside; the non-interpolating one returns a table value of the nearest key (lower on ties).", "quantifier": "every strictly increasing table of any length and every raw value", "why_tests_cant": "unbounded tables", "anchors": ["mdflib/src/ichannelconversion.cpp ConvertValueToValueInterpolate, ConvertValueToValue"]}
{"id": "C37", "title": "Value-range conversions select the first matching range", "statement": "The value range to value (or text) conversion returns the value (text) of the first range containing the raw value (upper bound inclusive for integer channels, exclusive for float channels) and the default otherwise.", "quantifier": "every table, raw value and channel kind", "why_tests_cant": "boundaries of an unbounded table", "anchors": ["mdflib/src/ichannelconversion.cpp ConvertValueRangeToValue", "mdflib/src/cc4block.cpp ConvertValueRangeToText"]}
{"id": "C38", "title": "Value-to-text and text conversions select the right reference", "statement": "Value to text returns the text of the first key equal to the raw value or the default text; text to value returns the value at the first equal text or the default; text to text the translation or default.", "quantifier": "every table and raw value/text", "why_tests_cant": "unbounded tables, default handling", "anchors": ["mdflib/src/cc4block.cpp ConvertValueToText, ConvertTextToValue, ConvertTextToTranslation"]}
{"id": "C39", "title": "Copying a conversion preserves its behaviour", "statement": "A conversion created as a copy of another one converts every raw value to the same result.", "quantifier": "every conversion (all types) and every raw value", "why_tests_cant": "universal over conversions", "anchors": ["mdflib/src/ichannelconversion.cpp CopyFrom", "mdflib/src/cc4block.cpp Cc4Block::CopyFrom"]}
{"id": "C40", "title": "MDF3 conversion parameters survive write and read", "statement": "The numeric parameters of a conversion written to an MDF3 file are the parameters read back.", "quantifier": "every conversion type and parameter list", "why_tests_cant": "universal over parameter lists", "anchors": ["mdflib/src/cc3block.cpp Write, Read"]}
{"id": "C41", "title": "CAN data length codes", "statement": "For each payload length 0..64 the stored DLC is the smallest DLC whose length is at least the payload length, and DLC to length is its inverse on valid lengths; the DLC is monotone in the length.", "quantifier": "every length and DLC value", "why_tests_cant": "must hold for all lengths, also those above 64", "anchors": ["mdflib/src/canmessage.cpp DataLength, Dlc, DlcToLength, DataBytes"]}
{"id": "C42", "title": "A CAN message stored by the writer is read back with the same fields", "statement": "For every CAN message, the record produced for the message, decoded by the channels that the CAN configuration creates (as the CAN bus observer does), returns the same bus channel, id, IDE, DLC, length, flags, CRC, frame duration and data bytes.", "quantifier": "every CAN message (all fields), every storage type, mandatory-only or not", "why_tests_cant": "field space is unbounded; bit packing must agree between three source files", "anchors": ["mdflib/src/canmessage.cpp ToRaw", "mdflib/src/canconfigadapter.cpp", "mdflib/src/canbusobserver.cpp ParseCanMessage"]}
{"id": "C43", "title": "CAN identifier and flags are independent fields", "statement": "Setting message id, extended flag and the individual flag bits in any order and reading them back gives the last value set for each.", "quantifier": "every history of setter calls", "why_tests_cant": "unbounded histories", "anchors": ["mdflib/src/canmessage.cpp MessageId, ExtendedId, Dir, Srr, Edl, Brs, Esi, Rtr, WakeUp, SingleWire, R0, R1"]}
{"id": "C44", "title": "A LIN message stored by the writer is read back with the same fields", "statement": "For every LIN message of each type the record produced, decoded by the channels of the LIN configuration, returns the same fields.", "quantifier": "every LIN message and message type", "why_tests_cant": "field space unbounded; three files must agree", "anchors": ["mdflib/src/linmessage.cpp ToRaw", "mdflib/src/linconfigadapter.cpp"]}
{"id": "C45", "title": "UTF-8 / wide string conversion round trip", "statement": "Converting any sequence of Unicode scalar values to UTF-8 and back (and UTF-16 surrogate pairs) yields the same sequence; the output length computed in advance is the length written.", "quantifier": "every sequence of code points", "why_tests_cant": "universal over strings", "anchors": ["mdflib/src/cutf.cpp cutf_append, cutf_next, cutf_8to32, cutf_32to8, cutf_8to16, cutf_16to8"]}
{"id": "C46", "title": "UTF-8 decoding of arbitrary bytes never reads outside the string", "statement": "For every byte string, also malformed UTF-8, conversion reads only bytes of the string and its terminator.", "quantifier": "every byte string", "why_tests_cant": "adversarial input", "anchors": ["mdflib/src/cutf.cpp cutf_next, cutf_codepoint_length"]}
{"id": "C47", "title": "Latin-1 to UTF-8 conversion", "statement": "The conversion of every Latin-1 byte string is valid UTF-8 that decodes to the same code points.", "quantifier": "every byte string", "why_tests_cant": "universal over strings", "anchors": ["mdflib/src/mdfhelper.cpp Latin1ToUtf8"]}
{"id": "C48", "title": "ISO 8601 time stamps are parsed to the instant they denote", "statement": "For every date, time, fraction and UTC offset the parsed value is the number of nanoseconds from 1970 of the instant denoted.", "quantifier": "every valid ISO string", "why_tests_cant": "universal over dates, offsets, number of fraction digits", "anchors": ["mdflib/src/timestamp.cpp FromIsoDateTime"]}
{"id": "C49", "title": "CANopen date and time encodings round trip", "statement": "Encoding an instant (millisecond resolution) as CANopen time/date and decoding it gives the same instant within the representable range.", "quantifier": "every instant in the representable range", "why_tests_cant": "universal over instants; leap years", "anchors": ["mdflib/src/mdfhelper.cpp NsToCanOpenTimeArray, CanOpenTimeArrayToNs, NsToCanOpenDateArray, CanOpenDateArrayToNs"]}
{"id": "C50", "title": "File checksum is the RFC 1321 MD5 of the bytes, however they are chunked", "statement": "The MD5 digest computed incrementally over any chunking of the bytes equals the RFC 1321 digest of the whole byte string.", "quantifier": "every byte string and every chunking", "why_tests_cant": "universal over lengths (padding/length counters) and chunkings", "anchors": ["mdflib/src/cryptoutil.cpp MD5 Update, Final, body"]}
{"id": "C51", "title": "Array element linearisation is a bijection", "statement": "The number of elements of a channel array is the product of its dimension sizes, and each element index tuple maps to a distinct value index below that product.", "quantifier": "every dimension list", "why_tests_cant": "unbounded dimensions", "anchors": ["mdflib/src/ca4block.cpp ProductOfArray", "mdflib/src/ichannel.cpp ArraySize", "mdflib/src/ichannelarray.cpp"]}
{"id": "C52", "title": "Observer sample buffers hold the value of the requested sample", "statement": "After any sequence of record notifications the channel observer returns for each sample and array index the value stored in that sample's record, or invalid if the sample was not delivered.", "quantifier": "every sequence of notifications, every array size", "why_tests_cant": "unbounded histories", "anchors": ["mdflib/src/channelobserver.h OnSample, GetSampleUnsigned", "mdflib/src/ichannelobserver.cpp"]}
{"id": "C53", "title": "Notification reaches exactly the interested observers", "statement": "Each record is delivered to each attached observer that subscribed to its record id and to no other, until an observer asks to stop.", "quantifier": "every observer list and record sequence", "why_tests_cant": "unbounded observer sets", "anchors": ["mdflib/src/idatagroup.cpp NotifySampleObservers, InitFastObserverList, IsSubscribingOnRecord"]}
{"id": "C54", "title": "A data group written compressed is read back whole", "statement": "After any sequence of compressed save steps of a data group, interleaved with any other writes to the file that do not touch its blocks, reading the file from the data group's data link finds exactly the stored pieces, in order, with the right sizes, and the offsets in the chained list blocks are the running sums of the sizes; nothing before the data is changed except the data link. The bytes read are those the uncompressed writer stores.", "quantifier": "every number of steps, every content of every step (also empty steps), every other write in between", "why_tests_cant": "unbounded histories and file layouts", "anchors": ["mdflib/src/writer4samplequeue.cpp CleanQueueCompressed", "mdflib/src/dg4block.cpp Write", "mdflib/src/hl4block.cpp", "mdflib/src/dl4block.cpp", "mdflib/src/datalistblock.cpp"]}
{"id": "C55", "title": "Signal data of any size are read back", "statement": "The signal data of a variable length channel, written as a plain block, a compressed block or a list of compressed blocks depending on size and settings, are read back identically from the channel's data link, so every value appended is found by its index.", "quantifier": "every byte list, every size, compressed or not, every sequence of values", "why_tests_cant": "size classes with boundaries at 100 and 4000000 bytes; universal over contents", "anchors": ["mdflib/src/cn4block.cpp WriteSignalData, ReadSignalData", "mdflib/src/sd4block.cpp", "mdflib/src/dz4block.cpp"]}
{"id": "C56", "title": "Conversions survive saving", "statement": "A version 4 conversion (its type, parameters, decimals, texts and the conversions it refers to, nested to any depth) that is written to a file and read back converts every value to the same result as the object that was written.", "quantifier": "every conversion that fits the block format, nested to any depth, every channel value, every file content before and after", "why_tests_cant": "Conversions refer to texts and to further conversions through links, so the round trip is a statement over all finite trees of blocks at arbitrary file positions, and over all doubles converted.", "anchors": ["mdflib/src/cc4block.cpp: Cc4Block::Read, Cc4Block::Write, Cc4Block::ConvertValueToText, Cc4Block::ConvertValueRangeToText", "mdflib/src/ichannelconversion.cpp"]}
{"id": "C57", "title": "An Ethernet message is stored and read without loss", "statement": "Whatever a user sets on an Ethernet message of any of the four types is what the channels of the corresponding channel group yield after the message is saved: addresses, type, counters, checksums, direction, error type and the data bytes, with all members or the mandatory ones only; setting a property changes only that property (the data bytes also set the length), and a reset message equals a new one.", "quantifier": "every message content, every history of setter calls, every message type, with mandatory members only or not, every previous content of the record buffer, every position of the payload in the signal data", "why_tests_cant": "fields of 1 to 48 bits packed at fixed positions of several different records; a shifted or overlapping field only shows for particular values", "anchors": ["mdflib/src/ethmessage.cpp: EthMessage::ToRaw, Reset, DataBytes", "include/mdf/ethmessage.h: setters", "mdflib/src/ethconfigadapter.cpp: CreateConfig, Create...Channels"]}
{"id": "C58", "title": "A FlexRay message is stored and read without loss", "statement": "Whatever a user sets on a FlexRay frame, PDU, frame header, null frame, error frame or symbol is what the channels of the corresponding channel group yield after the message is saved: identifier, cycle, FlexRay channel, direction, lengths, checksums, flags, offsets, symbol properties and the data bytes, with all members or the mandatory ones only; setting a property changes only that property.", "quantifier": "every message content in the ranges of the FlexRay fields, every history of setter calls, every message type, with mandatory members only or not, every previous content of the record buffer, every position of the payload in the signal data", "why_tests_cant": "fields of 1 to 32 bits packed in shared bytes of twelve different records, and an index whose place only matters when it is not zero", "anchors": ["mdflib/src/flexraymessage.cpp: ToRaw of the six classes", "include/mdf/flexraymessage.h: setters", "mdflib/src/flexrayconfigadapter.cpp: CreateConfig, Create...Channel"]}
{"id": "C59", "title": "A MOST message is stored and read without loss", "statement": "Whatever a user sets on a MOST message, packet, Ethernet packet, signal state, maximum position, boundary descriptor, allocation table, system lock state or shutdown flag is what the channels of the corresponding channel group yield after the event is saved: addresses, byte counts, checksum, acknowledge codes, flags and the data or table bytes, with all members or the mandatory ones only; setting a property changes only that property, except that giving data bytes raises the two byte counts to the number of bytes.", "quantifier": "every message content in the ranges of the MOST fields, every history of setter calls, every message type, with mandatory members only or not, every previous content of the record buffer, every position of the payload in the signal data", "why_tests_cant": "fields of 1 to 48 bits packed in shared bytes of twelve different records, and byte counts that depend on the order of the calls", "anchors": ["mdflib/src/mostmessage.cpp: ToRaw of the nine classes, DataBytes", "include/mdf/mostmessage.h: setters", "mdflib/src/mostconfigadapter.cpp: CreateConfig, Create...Channel, CreateMandatoryMembers"]}
{"id": "C60", "title": "An observer delivers every sample once, with its own data", "statement": "While a file is read, a CAN bus observer hands every message of its channel group to the user exactly once, in the order of the file and with its sample number, made from the record and the variable length data of that same sample; without a callback GetCanMessage(i) is message i. The sample record observer passes on every sample with its own record, its own variable length data and its own time. If the user's callback returns false, reading ends.", "quantifier": "every sequence of records of the observed group, of the group of its variable length data and of any other groups, interleaved in any way; every number of samples; every callback", "why_tests_cant": "the observer keeps one partly filled sample between notifications, and the interleaving of the records in the file decides what it is completed with", "anchors": ["mdflib/src/canbusobserver.cpp: OnSample, HandleCallback, HandleSample, GetCanMessage", "mdflib/src/samplerecordobserver.cpp: OnSample, HandleSample", "include/mdf/samplerecordobserver.h: GetSampleTime"]}
{"id": "C61", "title": "Sorting a file keeps every sample of every group", "statement": "The sorting task writes a file in which every data group has one channel group; reading it back yields, for each channel group of the source that is not itself a container of variable length data, exactly the records of that group in their order, numbered from zero, and the variable length value of every sample is the value it had in the source.", "quantifier": "every data group with any number of channel groups, every interleaving of their records, every division of the data into blocks, every interleaving of saving and writing in the destination, compressed or not", "why_tests_cant": "the records of all groups are interleaved arbitrarily in the source, each sample is reassembled by a stateful observer and passes through an asynchronous queue", "anchors": ["mdflib/src/sortingtask.cpp", "mdflib/src/copysampleobserver.cpp", "mdflib/src/samplerecordobserver.cpp", "mdflib/src/convertersamplequeue.cpp", "mdflib/src/samplequeue.cpp: AddSample, RecalculateTime"]}
{"id": "C62", "title": "The start time of a measurement survives the file", "statement": "A time stamp (UTC, local or with zone and daylight saving offsets) set on a header or a file history is returned by a reader of the file with the same nanoseconds, kind and offsets; an MDF 3 header holds the date and time of day on the local clock.", "quantifier": "every time stamp and every machine time zone", "why_tests_cant": "universal over instants, offsets (negative, half hours) and machine zones", "anchors": ["mdflib/src/mdf4timestamp.cpp SetTime, Read, Write", "mdflib/src/mdf3timestamp.cpp SetTime", "mdflib/src/mdfhelper.cpp NanoSecTzToDDMMYYYY, NanoSecTzToHHMMSS"]}
{"id": "C63", "title": "Channel arrays survive the file", "statement": "A channel array with any shape, storage, flags, references, axis values and cycle counts is read back exactly as it was written.", "quantifier": "every array description, number and size of dimensions, position in the file", "why_tests_cant": "the layout depends on the flags, the storage and on unbounded lists of sizes", "anchors": ["mdflib/src/ca4block.cpp Ca4Block::Write, Read, FindAllReferences", "mdflib/src/ichannelarray.cpp"]}
{"id": "C64", "title": "Channel definitions survive the file", "statement": "Name, type, data type, position, flags, ranges, unit, comment, conversion, source, attachments, default X reference and the arrays or member channels of a channel, nested to any depth, are read back exactly as they were written; the conversion read back gives the same results as the one written.", "quantifier": "every channel tree and every file it is written into", "why_tests_cant": "unbounded nesting and lists", "anchors": ["mdflib/src/cn4block.cpp Cn4Block::Write, Read", "mdflib/src/si4block.cpp", "mdflib/src/mdfblock.h WriteLink4List, ReadLink4List, WriteBlock4", "mdflib/src/cc4block.cpp Cc4Block::Write, Read"]}
{"id": "C65", "title": "The description of a measurement survives the file", "statement": "The header with its history, attachments, hierarchies, events, data groups, channel groups and channels is read back exactly as it was written, in the same order, also after data has been appended to the file.", "quantifier": "every measurement description", "why_tests_cant": "unbounded trees and lists", "anchors": ["mdflib/src/hd4block.cpp Hd4Block::Write, Read, ReadMeasurementInfo, ReadEverythingButData", "mdflib/src/dg4block.cpp", "mdflib/src/cg4block.cpp"]}
{"id": "C66", "title": "History, attachments, events and hierarchies survive the file", "statement": "Each file history entry, embedded attachment, event and hierarchy level is read back exactly as it was written, with its references.", "quantifier": "every such block and list of them", "why_tests_cant": "unbounded lists of references and nesting", "anchors": ["mdflib/src/fh4block.cpp", "mdflib/src/at4block.cpp", "mdflib/src/ev4block.cpp", "mdflib/src/ch4block.cpp"]}
{"id": "C67", "title": "A written file is recognised and opened as what it is", "statement": "A file written with any version, program name, flags and description of a measurement is recognised as an MDF file, opened by the class for its version, and yields the same identification and description; files that do not start as MDF files do are not recognised; the version text and the version number agree for every minor version set.", "quantifier": "every identification, description and continuation of the file", "why_tests_cant": "every text, number and description", "anchors": ["mdflib/src/idblock.cpp IdBlock::Read, Write, MinorVersion", "mdflib/src/mdf4file.cpp Mdf4File::Write, ReadHeader", "mdflib/src/mdfreader.cpp IsMdfFile, MdfReader::VerifyMdfFile", "mdflib/src/mdffile.cpp MdfFile::MainVersion, MinorVersion"]}
{"id": "C68", "title": "The finalized mark can be trusted", "statement": "Marking a file as finalized or not changes only the mark and its flags, which a reader then finds together with the unchanged description; a measurement interrupted at any point leaves a file that a reader does not take for a finalized one.", "quantifier": "every file, mark, flags and point of interruption", "why_tests_cant": "every crash point", "anchors": ["mdflib/src/idblock.cpp IdBlock::IsFinalized", "mdflib/src/mdf4file.cpp Mdf4File::ReadEverythingButData", "mdflib/src/mdfwriter.cpp MdfWriter::InitMeasurement, FinalizeMeasurement"]}
{"id": "C69", "title": "A measurement is read back from its file", "statement": "After InitMeasurement, StartMeasurement, any number of saves of the sample queues and FinalizeMeasurement, in any order the library makes them, a reader of the file gets the identification, the whole description, the start time, the right number of samples of every channel group and every saved sample in order; between the calls, and with bytes of an interrupted save behind the data, the reader gets what was saved so far.", "quantifier": "every description, every sequence of calls, every sequence of samples, every schedule of the worker thread, every appended rest", "why_tests_cant": "the file is rewritten in place at positions that depend on everything written before, in every order of calls", "anchors": ["mdflib/src/mdfwriter.cpp MdfWriter::InitMeasurement, StartMeasurement, FinalizeMeasurement", "mdflib/src/writer4samplequeue.cpp Writer4SampleQueue::SaveQueue", "mdflib/src/dg4block.cpp Dg4Block::CreateOrGetDt4", "mdflib/src/cg4block.cpp Cg4Block::Write", "mdflib/src/mdf4file.cpp Mdf4File::Write"]}
{"id": "C70", "title": "A measurement that is interrupted stays readable", "statement": "If the process stops at any point of a save of a sample queue or of FinalizeMeasurement, after any sequence of calls, the file is read: the identification and the description are complete, the start time and each counter are the old or the new value, and a reader gets exactly the samples saved before the call, or, if all writes of the call were made, also those of the call. A save is atomic for a reader.", "quantifier": "every description, every sequence of calls, every next call, every number of its writes (appended bytes counted one by one)", "why_tests_cant": "the crash point may be after any byte of any save of any measurement", "anchors": ["mdflib/src/writer4samplequeue.cpp Writer4SampleQueue::SaveQueue", "mdflib/src/dg4block.cpp Dg4Block::CreateOrGetDt4", "mdflib/src/cg4block.cpp Cg4Block::Write", "mdflib/src/mdfblock.cpp MdfBlock::UpdateBlockSize, UpdateLink", "mdflib/src/mdfwriter.cpp MdfWriter::FinalizeMeasurement"]}
{"id": "C71", "title": "A compressed measurement is read back from its file", "statement": "After InitMeasurement with compression, StartMeasurement, any number of saves of the sample queues of any data groups in any order and FinalizeMeasurement, a reader of the file gets the identification, the whole description, the start time, the number of samples of every channel group and, for each data group, all saved samples in order; the bytes are those an uncompressed measurement stores, the saves of one data group never disturb the data of another, and this holds between the calls and with any bytes behind the data.", "quantifier": "every description, every sequence of calls, every interleaving of the data groups, every sequence of samples, every schedule of the worker thread, every compressor that its decompressor inverts, every appended rest", "why_tests_cant": "the chains of list blocks of the data groups are interleaved in the file in every order of calls, and each save patches blocks written by earlier ones", "anchors": ["mdflib/src/writer4samplequeue.cpp Writer4SampleQueue::SaveQueueCompressed, CleanQueueCompressed, SetLastPosition", "mdflib/src/dg4block.cpp Dg4Block::Write, CreateOrGetHl4", "mdflib/src/hl4block.cpp Hl4Block::Write", "mdflib/src/dl4block.cpp Dl4Block::Write", "mdflib/src/mdfwriter.cpp MdfWriter::FinalizeMeasurement"]}
{"id": "C72", "title": "A compressed measurement that is interrupted stays readable", "statement": "If the program stops after any of the writes to the file that a call of a compressed measurement makes, a reader of the file gets the identification, the whole description and, for each data group, all records saved by earlier calls in order and nothing else, or, if the call was complete, also those of the call.", "quantifier": "every description, every sequence of calls, every call that is interrupted, every write after which it stops, every data group, every compressor that its decompressor inverts", "why_tests_cant": "one save makes dozens of writes whose number depends on the data, and a test cannot stop after each of them in every history", "anchors": ["mdflib/src/writer4samplequeue.cpp Writer4SampleQueue::SaveQueueCompressed, CleanQueueCompressed, SetLastPosition", "mdflib/src/dg4block.cpp Dg4Block::Write", "mdflib/src/hl4block.cpp Hl4Block::Write", "mdflib/src/dl4block.cpp Dl4Block::Write", "mdflib/src/mdfblock.cpp MdfBlock::UpdateBlockSize, UpdateLink"]}
{"id": "C73", "title": "The description of an MDF 3 measurement survives the file", "statement": "What a user puts into the header, the data groups, channel groups, channels and conversions of an MDF 3 file is what a reader of the file gets: the same groups and channels in the same order, the same numbers, names, comments, units and conversions.", "quantifier": "every header, every number of data groups, channel groups and channels, every text without zero bytes that fits its field, every conversion", "why_tests_cant": "blocks are linked by positions that depend on the length of everything written before them; a test has one layout", "anchors": ["mdflib/src/hd3block.cpp Hd3Block::Read, Write", "mdflib/src/dg3block.cpp Dg3Block::Read, Write", "mdflib/src/cg3block.cpp Cg3Block::Read, Write", "mdflib/src/cn3block.cpp Cn3Block::Read, Write", "mdflib/src/cc3block.cpp Cc3Block::Read, Write", "mdflib/src/tx3block.cpp Tx3Block::Read, Write"]}
{"id": "C74", "title": "The file of an MDF 3 measurement holds all records that were saved", "statement": "After InitMeasurement, any sequence of StartMeasurement, saves of the sample queues and FinalizeMeasurement, an MDF 3 file can be read: it has the description, each channel group has the number of its records, reading a data group delivers every saved record once, in order and numbered within its group, and the start time is the one of the first StartMeasurement once the measurement is finalized.", "quantifier": "every description, every sequence of calls, every number, size and order of records, and every content appended to the file", "why_tests_cant": "the positions of counters and links that are rewritten depend on the whole description; a test fixes one description and one sequence of calls", "anchors": ["mdflib/src/mdfwriter.cpp MdfWriter::InitMeasurement, StartMeasurement, FinalizeMeasurement", "mdflib/src/samplequeue.cpp SampleQueue::CleanQueue, IncrementNofSamples, SetLastPosition", "mdflib/src/hd3block.cpp Hd3Block::Write", "mdflib/src/dg3block.cpp Dg3Block::Write", "mdflib/src/cg3block.cpp Cg3Block::Write"]}
{"id": "C75", "title": "A program that stops during a call of an MDF 3 measurement keeps all earlier records", "statement": "If the program stops after any of the writes of any call, the MDF 3 file can still be read: the description is complete, all records saved by earlier calls are delivered first and in order, and after them only records of the interrupted call in their order; each counter and each field of the start time is the one from before or after the call.", "quantifier": "every description, every sequence of calls, every interrupted call and every number of its writes that were made, and every content after the end", "why_tests_cant": "there is one crash point between any two writes of any call; a test cannot stop the program at all of them", "anchors": ["mdflib/src/samplequeue.cpp SampleQueue::CleanQueue", "mdflib/src/mdfwriter.cpp MdfWriter::FinalizeMeasurement", "mdflib/src/dt3block.cpp Dt3Block::DataSize", "mdflib/src/dg3block.cpp Dg3Block::ParseDataRecords"]}
{"id": "C76", "title": "A tree of XML tags is read as it was written", "statement": "For every tree of tags whose names, attributes and values are text that XML 1.0 can hold, the text that WriteString produces - in whatever order the attributes are listed - is read by ParseString to its end and gives the same tags, attributes and (in tags without children) values; also when the white space at its ends is dropped, as the text blocks of a file do. Two trees that differ are never written as the same text.", "quantifier": "every tree of tags (any depth, any number of children and attributes, any UTF-8 text without control characters), every order of a hash map", "why_tests_cant": "the property covers every text with every combination of the characters that must be escaped and every nesting; tests try a few documents", "anchors": ["mdflib/src/ixmlnode.cpp: IXmlNode::Write", "mdflib/src/ixmlfile.cpp: WriteString", "mdflib/src/expatxml.cpp: ExpatXml::ParseString, StartElementHandler, EndElementHandler, CharacterDataHandler"]}
{"id": "C77", "title": "A metadata property is what was last set", "statement": "After any sequence of StringProperty and CommonProperty setters on the comment of a block, StringProperty(tag) returns the last text set for the tag (equal but for case), CommonProperty(name) returns the last value set for a name that was never a tree, and a property or tree of properties that was set once is returned with its name, description, unit, type, language, read-only flag, creator index, value and children, whatever was set before or after under other names; and the comment stays XML that is read to its end.", "quantifier": "every sequence of setter calls of any length, every name, text and tree of properties, every order of a hash map", "why_tests_cant": "the state is a document that every call parses, edits and writes again; only an invariant of all documents that calls can reach shows that no call damages another property", "anchors": ["mdflib/src/imetadata.cpp: InitMd, StringProperty, CommonProperty, CommonProperties, InsertETag, FetchETag", "include/mdf/etag.h: ETag", "mdflib/src/ixmlnode.cpp: AddUniqueNode, GetNode"]}
{"id": "C78", "title": "A property of the file header is what was last set", "statement": "After any sequence of the header's setters Author, Department, Project, Subject, MeasurementId, RecorderId, RecorderIndex and Description on a new MDF 4 header, each getter returns what was last set with its own setter (texts without white space at the ends), and nothing or 0 if it was never set.", "quantifier": "every sequence of setter calls of any length with any text that XML can hold and any number", "why_tests_cant": "each setter rewrites the whole comment; independence of the eight properties for every history and every text is beyond enumerating", "anchors": ["mdflib/src/hd4block.cpp: GetCommonProperty, SetCommonProperty, Hd4Block::Author, Department, Project, Subject, Description, MeasurementId, RecorderId, RecorderIndex", "mdflib/src/md4block.cpp: Md4Block::TxComment, IsTxtBlock"]}
{"id": "C79", "title": "Sample reductions return the mean, minimum and maximum of the asked sample", "statement": "When a file stores reduced samples (sample reduction blocks) in row or in column order, in one block or in several, compressed or not, then asking a sample reduction for a channel value of sample k returns the mean, the minimum and the maximum that were stored for sample k, each with its own validity.", "quantifier": "all numbers of reduced samples, record and invalidation sizes, channels, sample numbers, storage layouts (one block, list of blocks, compressed blocks cut anywhere), and all bytes that follow in the file", "why_tests_cant": "The position of a value is computed from the sample number, the record sizes and the storage order; a test covers a few sizes and one layout, and the position arithmetic wraps at sizes no test file has.", "anchors": ["mdflib/src/sr4block.cpp: Sr4Block::Read, ReadData", "mdflib/src/sr4block.h: GetChannelValueT", "mdflib/src/ld4block.cpp: Ld4Block::Read", "mdflib/src/sr3block.cpp: Sr3Block::Read, ReadData", "mdflib/src/sr3block.h: GetChannelValueT"]}
{"id": "C80", "title": "A reader shows the values the application set", "statement": "An application creates a data group with channel groups and numeric channels, prepares it for writing, sets channel values, saves samples while the writer thread works, starts and stops the measurement and finalizes the file. A reader of the file then shows, for every channel, every sample and every array element, the value that was set last before the sample was saved, with its validity, and zero if none was set; in the time master of a group it shows the time of the sample since the start, also for samples saved before the start.", "quantifier": "all descriptions (groups, channels, data types, sizes, arrays, invalidation bits), all programs of SetChannelValue and SaveSample calls, all schedules of the writer thread, all start times and pre-trigger windows that keep the samples, all interleavings with the saves of other data groups, all subscriptions of the reader, all bytes after the file", "why_tests_cant": "The value passes the layout of the record, the sample buffer, the queue, the thread, the blocks of the file, the description read back and the observer; tests check a few channel layouts with one schedule.", "anchors": ["mdflib/src/cg4block.cpp: Cg4Block::PrepareForWriting", "mdflib/src/cn4block.cpp: Cn4Block::PrepareForWriting", "include/mdf/ichannel.h: IChannel::SetChannelValue", "mdflib/src/samplequeue.cpp: SampleQueue::SaveSample, RecalculateTime, RecalculateTimeMaster", "mdflib/src/mdfwriter.cpp: MdfWriter::StartMeasurement, StopMeasurement", "include/mdf/ichannelobserver.h: IChannelObserver::GetChannelValue"]}
{"id": "C81", "title": "The times of the samples are right and in order", "statement": "The time a sample gets in the time master of its group is its time stamp minus the start time, in seconds: right to the last bit of a double, never decreasing when the time stamps do not decrease, and different for different time stamps; integer time masters have the whole seconds.", "quantifier": "all start times and time stamps below 2^63 ns, all integer and float time masters", "why_tests_cant": "The difference of two 64 bit numbers is converted to a double, divided, and cast to the type of the channel; rounding, overflow and the order of the steps matter only for some of the 2^126 pairs.", "anchors": ["mdflib/src/samplequeue.cpp: SampleQueue::RecalculateTime, RecalculateTimeMaster", "mdflib/src/ichannel.cpp: IChannel::SetTimestamp, GetTimestamp", "mdflib/src/mdfwriter.cpp: MdfWriter::StartMeasurement"]}
{"id": "C82", "title": "Attachments are exported as they were attached", "statement": "For any number of attachments of existing, non-empty files in the file of any measurement, the reader lists them in order with name, type, comment, creator index, the size of the attached file and its MD5 checksum. ExportAttachmentData of an embedded attachment, compressed or not, to a file or to a stream, gives exactly the bytes that the attached file had at InitMeasurement, whatever has become of that file since. Of an attachment that is not embedded, the file is copied as it is at the time of the export, and the export to a file succeeds exactly when the checksum is still the same. Copied into another measurement file with CopyFrom the attachments keep bytes, size and checksum. An export to a file that succeeds has written bytes with the stored checksum, even from a damaged file.", "quantifier": "all lists of attachments, all file contents and file systems, at the time of writing, copying and exporting, all measurements written into the file, all compressors whose output their decompressor understands", "why_tests_cant": "tests attach a few small files that compress well and still exist; the buffer for the compressed bytes, the chain of blocks after one that failed, and the interplay of stored size, checksum and current files range over all contents and histories", "anchors": ["mdflib/src/at4block.cpp: At4Block::Write, Read, ReadData, CopyFrom, Md5, OriginalSize", "mdflib/src/mdfreader.cpp: MdfReader::ExportAttachmentData, ReadInDataBuffer", "mdflib/src/zlibutil.cpp: Deflate, Inflate", "mdflib/src/mdfblock.h: WriteLink4List", "include/mdf/iattachment.h: IAttachment"]}
{"id": "C83", "title": "A typed comment is read back as it was set", "statement": "An application that fills an MdComment, FhComment or HdComment and sets it at a block finds, in the comment object read from the stored text: the text, every property with name, description, unit, unit reference, data type, read-only flag and value, every tree, list and enumerate at any depth with its content, history index, language and custom attributes, tool, vendor, version and user, time source and constants. Only white space at the ends of values and descriptions is dropped and a hexadecimal integer becomes an integer. GetProperty finds the same property, or none, before and after, by any name. This holds for any sequence of AddProperty, AddTree, AddList and AddEnumerate calls, duplicate names included, in which no tree is added with the name of an earlier list or enumerate, and for any sequence of calls that set author, department, project, subject, measurement, recorder and file index, each of which keeps its first value.", "quantifier": "all comments of any depth with texts that XML can hold, all sequences of calls, all orders in which the attributes are listed, the text as written or trimmed by the block", "why_tests_cant": "tests fill one comment of depth one or two with plain words; the maps, the check for duplicate names and the attributes that are read twice only differ for other names, depths and orders of calls", "anchors": ["mdflib/src/mdcomment.cpp MdComment::ToXml, FromXml", "mdflib/src/mdlist.cpp MdList::ToXml, FromXml, AddTree, GetProperty, IsDuplicateName", "mdflib/src/mdproperty.cpp MdProperty::ToXml, FromXml", "mdflib/src/mdstring.cpp", "mdflib/src/mdstandardattribute.cpp", "mdflib/src/mdenumerate.cpp", "mdflib/src/fhcomment.cpp", "mdflib/src/hdcomment.cpp"]}
{"id": "C84", "title": "Records built with data writers are read with the values that were set", "statement": "For every program of SetChannelValue, SaveSample, CreateDataWriter, SetValue, Reset, WriteRawRecord, Commit and AddSample calls on the groups of a measurement, with any number of data writers used in any order, a reader of the finished file shows for every numeric channel and every sample the value set last in the buffer from which the sample was made, with its validity and with the time of the sample in the time master; SetValue never reaches another channel and never makes anything undefined, values of another size and raw records of another length have no effect, and a raw record of the right length is stored byte for byte.", "quantifier": "all group descriptions, all programs of calls on groups and data writers, all values that fit their channel, all schedules of the worker, all times", "why_tests_cant": "The statement ranges over all interleavings of data writers, group buffers and the worker and over all layouts; a test fixes one layout and one order of calls.", "anchors": ["include/mdf/idatawriter.h: IDataWriter::SetValue", "mdflib/src/cg4datawriter.cpp: Cg4DataWriter", "mdflib/src/mdffactory.cpp: MdfFactory::CreateDataWriter", "mdflib/src/samplequeue.cpp: SampleQueue::AddSample"]}
{"id": "C85", "title": "Texts, byte arrays and dates are read as they were set", "statement": "For every program of SetChannelValue calls with numbers, texts, byte arrays and CANopen dates on the fixed-length channels of a measurement, and of SaveSample calls, a reader of the finished file shows for every channel and every sample what was set last, with its validity: a text without zero bytes that leaves room for the final zero as it was, a byte array of the size of the channel as it was (and as hexadecimal digits when read as text), a CANopen date or time to the millisecond, zero bytes if nothing was set; setting one channel never changes another.", "quantifier": "all group descriptions, all programs of calls, all texts, byte arrays and instants, all schedules of the worker", "why_tests_cant": "The statement ranges over all layouts, all texts and all orders of calls; a test fixes a few of them.", "anchors": ["mdflib/src/ichannel.cpp: IChannel::SetChannelValue, GetChannelValue, SetTextValue, SetByteArray", "include/mdf/ichannel.h: SetChannelValue", "mdflib/src/cn4block.cpp: Cn4Block::GetTextValue, GetByteArrayValue", "mdflib/src/mdfhelper.cpp: NanoSecToCanOpenDateArray, CanOpenDateArrayToNanoSec"]}
{"id": "C86", "title": "A CAN bus log is read as it was saved", "statement": "For every program of SaveCanMessage calls with data, remote, error and overload frames on the groups CreateConfig made for a CAN bus (data bytes in the record or in a group of their own), mixed with saves to other groups, the CAN bus observer of each group, set up from nothing but the finished file, delivers every message saved with that group exactly once, in order and with its sample number, to a callback and without one; every field the observer decodes is the field that was saved, and the time of the message is the time it was saved with, in seconds since the start of the measurement. No such program fails or does anything undefined, and the names MakeGroupName gives are names the writer and the observer recognize.", "quantifier": "all CAN configurations with at least 8 bytes of room, all programs of messages with any identifiers, flags and data bytes that fit, all schedules of the worker, all other samples between them", "why_tests_cant": "The statement ranges over all messages, all interleavings of the groups and the worker and all lengths of the data; tests fix a few messages.", "anchors": ["mdflib/src/canconfigadapter.cpp CanConfigAdapter::CreateConfig", "mdflib/src/iconfigadapter.cpp IConfigAdapter::MakeGroupName", "mdflib/src/samplequeue.cpp SampleQueue::SaveCanMessage", "mdflib/src/canmessage.cpp CanMessage::ToRaw", "mdflib/src/canbusobserver.cpp CanBusObserver", "mdflib/src/ichannelgroup.cpp GetChannel"]}
{"id": "C87", "title": "The comments of channels, sources, events and units are read back as set", "statement": "A typed comment (MdComment at any block, CnComment, SiComment, EvComment, CcUnit, CnUnit) that is set at a block and read from the stored text has the text, the common properties, the alternative names with their default name, display names, vendors and descriptions, the formula with its syntax, custom syntaxes and variables, and the own parts (linker name and offset, addresses, raster, monotony; path, bus, protocol; trigger intervals and timeout; unit reference) that were set, with their attributes, but for white space at the ends of values. An unsigned number set in any of them, in decimal or hexadecimal, is the number got from the comment read back.", "quantifier": "all comments whose texts XML can hold, any number of names, syntaxes and variables, all custom attributes whose names are not those of the own attributes, all orders of attributes, all numbers below 2^64", "why_tests_cant": "The statement ranges over all texts, all combinations of present and absent parts and attributes and all 64-bit numbers; tests fix a few comments.", "anchors": ["mdflib/src/mdnumber.cpp MdNumber", "mdflib/src/mdalternativename.cpp MdAlternativeName", "mdflib/src/mdformula.cpp MdFormula", "mdflib/src/mdvariable.cpp MdVariable", "mdflib/src/cncomment.cpp CnComment", "mdflib/src/sicomment.cpp SiComment", "mdflib/src/evcomment.cpp EvComment", "mdflib/src/ccunit.cpp CcUnit", "mdflib/src/mdcomment.cpp MdComment"]}
{"id": "C88", "title": "The computation method in a conversion's comment is read back as set", "statement": "The comment of a conversion (CcComment) with a computation method that is set and read from the stored text has, besides the parts that all comments have, the category, the unit reference, every physical and internal constraint that has a limit, with the types of its limits and its validity, every scale in its order with descriptions, limits, constants, numerators, denominators and generic math, and the default values that were set, but for white space at the ends of texts. A number is read as the text it was written as; if that is the number again, it is kept exactly.", "quantifier": "all comments whose texts XML can hold, any number of constraints, scales and coefficients, all combinations of present and absent parts, all orders of attributes, all conversions between numbers and texts", "why_tests_cant": "The statement ranges over all combinations of optional parts, all list lengths and all texts and numbers; the tests of the repository fix one method.", "anchors": ["mdflib/src/cccomment.cpp CcComment::ToXml, CcComment::FromXml", "mdflib/src/hocompumethod.cpp HoCompuMethod", "mdflib/src/hocompuscale.cpp HoCompuScale", "mdflib/src/hoscaleconstraint.cpp HoScaleConstraint", "mdflib/src/hointerval.cpp HoInterval", "mdflib/src/honamedetails.cpp HoNameDetails", "mdflib/src/hoenumerates.cpp"]}
{"id": "C89", "title": "The unit specification in the header's comment is read back as set", "statement": "The comment of the header (HdComment) with a unit specification that is set and read from the stored text has, besides its other parts, every revision in the order of the calls with its company revisions and modifications, and of the physical dimensions, unit groups and units those that were the first to be added under their name: dimensions with the exponents of length, mass, time, current and temperature, groups with names, category and unit references, units with display name, factor, offset and dimension, but for white space at the ends of texts. Nothing else is read. A number is read as the text it was written as. The date of a revision set as nanoseconds is read as the second it is in.", "quantifier": "all sequences of calls that add revisions, dimensions, groups and units, all texts XML can hold, all combinations of present and absent parts, all orders of attributes, all conversions between numbers and texts", "why_tests_cant": "The statement ranges over all sequences of calls with repeated and missing names, all list lengths and all texts and numbers; the tests of the repository fix one specification.", "anchors": ["mdflib/src/hdcomment.cpp HdComment::ToXml, HdComment::FromXml", "mdflib/src/hounitspecification.cpp HoUnitSpecification", "mdflib/src/hoadmindata.cpp HoAdminData", "mdflib/src/horevision.cpp HoRevision", "mdflib/src/hophysicaldimension.cpp HoPhysicalDimension", "mdflib/src/hounitgroup.cpp HoUnitGroup", "mdflib/src/hounit.cpp HoUnit", "mdflib/src/honamedetails.cpp HoNameDetails"]}
{"id": "C90", "title": "The typed value of a property is what was set", "statement": "A number set at a property (MdProperty::Value) is read as it was set for the data types text, decimal, integer and float, and to the millisecond for date and time; a flag and a signed number are read as they were set. The same holds for the property that is found by its name in the comment that was read from a file, where it also holds for hexadecimal integers. The text of the value is the ISO 8601 date, time or both in UTC, true or false, or the hexadecimal number, and can always be stored.", "quantifier": "all numbers of 64 bits, all signed numbers, all flags, all data types, all properties and comments with texts XML can hold, all places of the property in the tree, all orders of attributes", "why_tests_cant": "The statement ranges over all 64 bit values and data types and over all comments that can hold the property; the tests of the repository set a few values.", "anchors": ["mdflib/src/mdproperty.cpp MdProperty::Value, MdProperty::ToXml, MdProperty::FromXml", "include/mdf/mdproperty.h MdProperty::Value", "mdflib/src/timestamp.cpp UtcTimestamp", "mdflib/src/mdlist.cpp MdList::GetProperty"]}
{"id": "C91", "title": "An observer holds its channel's values without loss and observes the right channel", "statement": "The observer that CreateChannelObserver makes for an integer or floating-point channel holds exactly the value that the channel decodes from the record, whatever the number of bits: asked for a 64-bit number it gives the number in the record's bits, asked for a text it gives that number in decimals. Asked for a channel by name, the reader observes a channel with that name (letters of either case) in a group with the most samples, the last such channel, and none exactly if no channel has the name. The list made for a data group has one entry for each channel of each group that has samples, in file order, and no other.", "quantifier": "all integer and floating-point channels of any bit count and place, all records, all array indexes; all lists of groups, sample counts and names", "why_tests_cant": "The type of the samples is chosen by the number of bytes and the value is cast to it; that no value of any width is cut off ranges over all widths and records. The search ranges over all lists of groups and names.", "anchors": ["mdflib/src/mdfreader.cpp CreateChannelObserver, CreateChannelObserverForDataGroup", "mdflib/src/channelobserver.h ChannelObserver", "include/mdf/ichannel.h IChannel::GetChannelValue", "mdflib/src/ichannelobserver.cpp IChannelObserver::GetChannelValue"]}
{"id": "C92", "title": "The value of a virtual channel is the number of the sample", "statement": "The observer of a virtual channel (virtual master or virtual data) that this library wrote shows for every sample that has a record the number of the sample, as valid, whatever data type and size the user gave the channel.", "quantifier": "all virtual channels, all sample numbers, all record streams, groups, attached observers and block boundaries", "why_tests_cant": "The number is cast to a type that depends on the size in the file, which the writer changes; tests read a few samples only, so numbers that do not fit the type do not occur.", "anchors": ["include/mdf/ichannel.h IChannel::GetVirtualSample", "mdflib/src/channelobserver.h ChannelObserver::OnSample", "mdflib/src/cn4block.cpp Cn4Block::PrepareForWriting", "mdflib/src/mdfreader.cpp CreateChannelObserver"]}
{"id": "C93", "title": "Groups and channels are created once per name and found by it", "statement": "CreateChannelGroup and CreateChannel with a name return a group or channel of that name, the existing one if there is one, and never move or duplicate the others; GetChannelGroup and GetChannel with the name then return that same object; GetChannelGroup falls back to a part of a name only if no group has the full name. GetChannelGroup with the record id of a group returns that group.", "quantifier": "all sequences of creating calls, all names, both file versions", "why_tests_cant": "It is about every sequence of calls and every set of names, including names that are parts of each other; tests use a few names.", "anchors": ["mdflib/src/idatagroup.cpp IDataGroup::CreateChannelGroup", "mdflib/src/idatagroup.cpp IDataGroup::GetChannelGroup", "mdflib/src/ichannelgroup.cpp IChannelGroup::CreateChannel", "mdflib/src/ichannelgroup.cpp IChannelGroup::GetChannel", "mdflib/src/cg3block.cpp Cg3Block::Name"]}
