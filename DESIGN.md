# Formal model of ihedvall/mdflib in Rocq (Coq 8.16.1)

Source under study: `/repo` (C++), read as text only.

## Approach

* Everything that the library does with bytes is modelled function by function as total Gallina
  functions on `list N` (bytes are `N` values below 256; theorems carry the well-formedness
  hypothesis `bytes_ok` only where it is needed).
* Machine integers are `N`/`Z` with the wrap (`mod 2^n`) written out where the C++ type can wrap.
* Undefined behaviour (out-of-bounds access, use after free) is a separate outcome `UB`, never a default.
* Unbounded loops over file contents use fuel with an explicit `OutOfFuel` outcome, and the theorems
  show that enough fuel is computed from the input.
* `double` is IEEE binary64 as formalised by Flocq (round to nearest, ties to even). `std::exp`, `std::log`
  and the `float` to `double` conversion are parameters of the functions that use them.
* zlib is a pair of function parameters; the theorems that need it have the premise `zlib_ok` (inflating
  what was deflated gives the data back). No `Variable` or `Hypothesis` stands outside a section.
* Each area has: `XModel.v` (definitions, citing file:lines), `XSpec.v` (independent specification),
  `XProofs*.v` (lemmas) and the property file `XProps.v` (final theorems, non-vacuity examples
  `Cnn_witness`, `Print Assumptions`).
* When the faithful model violates a property, the counterexample is proved (`..._refuted`) and the largest
  true part is proved with suffix `_partial`.

## Plan per property

| id | modelled | proof idea |
|----|----------|------------|
| C01 | RawToUnsigned LE bit walk, GetUnsignedValue bounds test | loop invariant on consumed bits; value = (le_number(record) >> start) mod 2^len |
| C02 | RawToUnsigned BE walk | same with be_number of the spanned bytes |
| C03 | RawToSigned for both orders | arithmetic on top of C01/C02 |
| C04 | bounds tests of the three getters, reads via a checked `nth_error` that yields UB | show no UB for every geometry when the test passes |
| C05 | Set{Unsigned,Signed,Float}Value{Le,Be} as buffer updates | codec round trip + C01/C02 |
| C06 | same | frame lemma on buffer update |
| C07 | same, with UB outcome for memcpy beyond the buffer | proved for all setters but the big-endian unsigned one, refuted there |
| C08 | SetValid/GetValid | bit lemma, induction over histories |
| C09 | Cg4/Cn4 PrepareForWriting | induction over channel list |
| C10 | AddCg4 | induction over number of groups |
| C11 | AddCg3 | partial (<=255 groups) + refutation |
| C12 | WriteSample/WriteVlsdSample/SaveQueue, ParseDataRecords | round trip by induction over sample list |
| C13 | ReadCache over list of blocks | refinement to a flat byte cursor |
| C14 | ReadCache with filter | simulation |
| C15 | ParseRangeRecord/DgRange | simulation/slice |
| C16 | VLSD index bookkeeping | invariant over histories |
| C17 | SD append and lookup | invariant, bounds |
| C18 | Transpose/InvTranspose | index arithmetic |
| C19 | Dz4 write/read with deflate oracle | composition |
| C20 | CleanQueueCompressed with arbitrary limit | invariant over schedules |
| C21 | queue + worker as labelled transition system | invariant over schedules |
| C22 | queue size | invariant |
| C23 | TrimQueue | prefix removal, window spec |
| C24 | IncrementNofSamples | invariant |
| C25 | StopMeasurement order of operations | counterexample (stop time set after the cache was drained) |
| C26 | finalize scan | scan of a truncated stream |
| C27-C31 | file as byte list with position; header, write, update | codec and frame lemmas |
| C32 | Tx4 text, Trim | partial (trimmed texts), refutation for others |
| C33 | ReadLink4List | non-termination on cyclic links: fuel exhausted for every fuel |
| C34 | Dl4 | arithmetic over lists |
| C35-C38 | conversions over IEEE doubles (Flocq) | error bounds and exactness lemmas; case analysis/induction on tables |
| C39 | CopyFrom | refutation for reference tables, proof for numeric conversions |
| C40 | Cc3 Write/Read | refutation and partial |
| C41-C43 | CanMessage, adapter layout, observer | bit-field lemma instances, refutation for R0 etc. |
| C44 | LinMessage, adapter layout | same |
| C45-C47 | cutf, Latin1ToUtf8 | induction |
| C48-C49 | `UtcTimestamp::FromIsoDateTime` character by character, the printers, the CANopen arrays; `gmtime`/`timegm` by the POSIX formula, the time zone as a parameter | the calendar as iterated `next_day`; the day formula is injective and steps by one; scan lemmas per part of the text; refutations for short and long fractions, western minutes, basic offsets |
| C50 | MD5 | RFC 1321 specification, chunk invariance |
| C51 | `ProductOfArray`, `ArraySize`, the bit offset of an element | mixed radix lemma by induction on the sizes |
| C52-C53 | the observer lists of a data group, the notification, the channel observer's lists | induction over histories and notifications; composed with the record stream reader of C12 from the bytes to the samples |
| C54 | drain, DZ/DL/HL blocks, file image, data list reading | composition of C19, C20, C29, C34 and C13 |
| C55 | SD chain of a channel, written and read | composition of C17, C19, C34 |
| C56 | CC block tree written and read | induction over the nesting of conversions |
| C57 | EthMessage, its ToRaw functions and the Ethernet channel layout | running the record statements symbolically, then the channel lemmas; induction on setter histories |
| C58 | the six FlexRay message classes, their ToRaw functions and the FlexRay channel layout | same; the place of the payload index against the place the channel reads |
| C59 | the nine MOST event classes, their ToRaw functions and the MOST channel layout | same; a separate description of the byte counts after a history |
| C60 | `CanBusObserver::OnSample` with callback and buffer, `GetCanMessage`, `SampleRecordObserver::OnSample` as state machines over notifications | step lemmas for a new and a continued sample, induction over the samples; counterexamples for other orders |
| C61 | `SortingTask` for a data group: construction of observers, reading, `CopySampleObserver`, the destination data group and the converter's queue; `RecalculateTime` and the time of a record are parameters | composition of the reading theorem (C11), the observer theorem (C60) and the queue theorem (C21) |
| C62 | `Mdf4Timestamp` and `Mdf3Timestamp`: set, write, read, get | codec round trip; calendar lemmas; refutations for western and half-hour zones |
| C63 | Ca4Block `Write` and `Read` | the written block is the list of its links and fields; both are taken apart again |
| C64 | Cn4Block `Write` and `Read` with SI, CA, CC, TX and MD blocks | induction on the tree; each block is read from the region of the file it was appended to, whatever its link 0 becomes |
| C65 | Cg4Block, Dg4Block, Hd4Block `Write` and `Read` | the same, and induction on the lists of blocks (`WriteLink4List`, `ReadLink4List`) |
| C66 | Fh4Block, At4Block, Ev4Block, Ch4Block `Write` and `Read` | the same; refutation for the elements of a hierarchy |
| C67 | IdBlock `Write`, `Read`, `MinorVersion`, whole files, `IsMdfFile` | the block is a list of fields at known places; composition with C65 |
| C68 | IdBlock `IsFinalized` and the mark in the file | the two places that change; refutation: the writer never sets the mark |
| C69 | the file during a measurement: InitMeasurement, saves of the sample queues, FinalizeMeasurement | invariant: the file is what the writer would write for the current description, with the counters and data links patched in place, followed by the data blocks; composed with C12 and C25 |
| C70 | the writes of each call of a measurement, in order, and the file after any number of them | each prefix of the writes is the file of a description with some of the counters changed, followed by the data blocks; the size of the data block is the last write |
| C71 | the file during a measurement with compression: SetLastPosition, counters, HL, DL, DZ and DT blocks of any data groups in turn, FinalizeMeasurement | invariant: the front of the file is what the writer would write for the current description, and each data group's chain of list blocks lies in the rest, untouched by the saves of the others; composed with C54, C20 and C25 |
| C72 | the writes of one call of a compressed measurement in their order in the file, cut after any of them | each save is a list of single writes whose composition is C71's step; every prefix changes only the counters, the data link and the bytes behind the end, so the chain of old list blocks is still there until the last write links the new one |
| C73 | the description blocks of an MDF 3 file (HD, PR-less DG, CG, CN, CC, TX) written from the end of the file and read back | each block's writer appends its texts, children and itself, and every reader of a file that agrees with it up to the link to the next block gets the same description; induction over the lists |
| C74 | the file of a measurement with the MDF 3 writer: InitMeasurement, StartMeasurement, saves of the sample queues, FinalizeMeasurement as lists of single writes | closed form of the layout of all blocks; each write in place equals the writer of a changed description; invariant over the calls; then C73's reader and the record reader |
| C75 | the same, stopped after any number of writes of any call | the file after a prefix of the writes is the layout of a description with some old and some new numbers; the record loop with counters between old and new |
| C76 | The writer of a tree of tags and the Expat reader with its handlers, over bytes. | Induction over the tree: the lexer run over the written text of a tag ends behind it with the same tag on the stack, for any order of attributes; escaping is inverted character by character for UTF-8 text. |
| C77 | The setters and getters of IMetaData: parse, edit the first matching tag or add one, write. | An invariant of the trees that calls can reach (own attribute keys, no children where a value is kept), preserved by reading back; laws of the edit for the same and for other names; induction over the calls. |
| C78 | The setters and getters of the MDF 4 header that keep their value in the XML comment. | Each setter is shown to be a C77 edit; induction over the calls with one view per property. |
| C79 | SR blocks (sample reductions), the RD/RV/RI data behind them in one block, in a DL list or in a chain of LD lists, with or without header blocks, DZ included, and the extraction of the three records of a sample by byte arithmetic (with its 64 and 32 bit wraps). | The bytes of sample k at their row or column place are the records of the k-th reduced sample; composition with the block round trips of C19/C20 and the frame lemmas; refutations for LD invalidation links, sample numbers beyond the end, 4 GiB data and MDF 3. |
| C80 | PrepareForWriting of a description, the sample buffers, SetChannelValue and SaveSample programs, the time master, on top of the models of the queue, the worker, the file and the observers. | A program's samples are the fresh buffer with the calls before each save (induction over the program); a measurement with times equals one whose samples had them (simulation of the worker); then C69 for the file, C48/C52 for the observers and C06 for the last write. |
| C81 | RecalculateTime, SetTimestamp, GetTimestamp with IEEE doubles (Flocq). | Rounding lemmas: relative error, monotonicity, half an ulp below 2^23 s; truncation to whole seconds; refutations for later times, small masters, unsigned pre-trigger times, conversions and the order of the steps of StartMeasurement. |
| C82 | At4Block::Write with the attached file (MD5, deflate), the list of attachments in InitMeasurement with blocks that fail, Read, ExportAttachmentData to file and stream, CopyFrom; a file system as a function, zlib as parameters. | The list is [write_chain] of the loaded attachments; C69 gives the file; a chain of heads from the chain of attachments; refutations for files that do not shrink, missing files, truncated files, copies of empty ones. |
| C83 | MdStandardAttribute, MdString, MdProperty, MdEnumerate, MdList, MdComment, FhComment, HdComment: calls, ToXml, FromXml, over the XML model of C76. | The tag that each ToXml writes is named, with its attributes; what [same] tags give to FromXml, by induction on the depth of lists; maps are ascending lists of names; calls keep the names apart; refutations by computed cases. |
| C84 | IDataWriter::SetValue, Cg4DataWriter (layouts, Reset, WriteRawRecord, Commit), CreateDataWriter, AddSample, mixed with the calls of C80. | SetValue is shown to be SetChannelValue with the validity the buffer has; each buffer is related to a history of calls by induction over the program; the end-to-end theorem of C80 for lists of samples with known calls. |
| C85 | SetChannelValue and GetChannelValue for std::string, byte arrays and CANopen dates in channels of fixed length, mixed with numbers, in the programs of C80. | Every call is shown to write one cell of the record; cells of different channels are disjoint, so every cell holds the last write (induction over the calls); the readers are functions of the cell; the end-to-end theorem of C80 for any observer. |
| C86 | The groups and channels CreateConfig makes for a CAN bus and their names, SaveCanMessage with the message types it finds in the group name, the programs of saves, the observer that finds its type and channels by name, on top of C42 (one message), C60 (sorting), C69 (files), C25 (queue) and C81 (times). | The bytes of ToRaw above byte 8 do not depend on the time bytes, so RecalculateTime after ToRaw is the same as before it; the records of a log group in the stream are its samples, or value and record pairs, to which C60 applies; parsing a record is C42 with the channels found by name; names by computation on the frame names and induction on the digits. |
| C87 | Numbers, alternative names and formulas with their tags, and the comments that hold them: CnComment, SiComment, EvComment, CcUnit/CnUnit and MdComment at any block, each with ToXml and FromXml, on top of the tags of C75 and the common properties of C83. The conversion between doubles and texts is a parameter. | Each part is read from its own tag: attributes are collected in any order and each kind is picked once, custom attributes are told apart by name; the reading of a comment is a fold over its tags in which every tag changes one part and is skipped by the others. Hexadecimal and decimal texts by induction on the digits. |
| C88 | The comment of a conversion, CcComment, with the computation method in it: HoCompuMethod, HoCompuScale, HoScaleConstraint, HoInterval and HoNameDetails, each with ToXml and FromXml, as trees of tags with the prefix `ho`. The conversion between doubles and texts is a parameter, and every number is read as its text is read. | Per kind of tag: the tags written are tags that XML can hold, and reading a tag that is the same but for the order of attributes gives the part back; lists by induction, the whole by folding over the children, on top of C75 and C87. |
| C89 | The unit specification in the header's comment: HoUnitSpecification with HoAdminData, HoRevision, HoPhysicalDimension, HoUnitGroup, HoUnit and HoNameDetails, each with ToXml and FromXml, the calls that add members, and HdComment with it. The conversion between doubles and texts is a parameter. | Per kind of tag as in C88; the maps by induction over the calls (the first member with each name stays) and over the tags read (names in ascending order are added at the end); the other parts of the comment from C83, because every step of reading them passes over the new tag. |
| C90 | Typed access to the value of a property: MdProperty::Value for numbers, flags, signed numbers and texts by the declared data type, with the ISO times of TimeModel.v, the hexadecimal numbers of NoteModel.v and the stored property of CommentModel.v. | The texts are free of white space and control characters, so storing keeps them (C83); reading inverts printing for each type (C48 for times). Types for which it does not are refuted. |
| C91 | The observers a reader makes: the type picked for a channel's samples, the cast of the decoded value to it and back, the choice of a channel by its name, the list for a data group. | The decoded value is shown to fit the picked type for every record and every bit count, then C01 to C03 give the field. The search by name keeps an invariant over the places seen so far. |
| C92 | Virtual channels: what the writer makes of their size, the type the reader picks for it, the cast of the sample number to it. | Unsigned channels from the bytes of the data group to the observer, by C52; signed and floating-point channels by what they show instead, with the number refuted for signed ones. |
| C93 | Finding and creating channel groups and channels by name, and groups by record id; the lists as lists of names, for MDF 4 and for MDF 3 groups. | The found place is the first that fits the rule, both ways; names are distinct and places kept over any program of creating calls, by induction over the calls; looking a channel up by its own name, and groups of MDF 3 files, refuted. |

## Trusted base

* The kernel of Coq 8.16.1 (with its VM for `vm_compute`, used in examples and in a few finite case
  checks) and the `coqc` front end. No OCaml plugin beyond those of the standard library, Flocq.
* The axioms `Print Assumptions` lists, see the last section. They are axioms of Coq's standard library, and
  come in only with the real numbers, through Flocq: `ClassicalDedekindReals.sig_not_dec`,
  `ClassicalDedekindReals.sig_forall_dec`, `FunctionalExtensionality.functional_extensionality_dep`,
  `Classical_Prop.classic`. All theorems that use no floating point arithmetic are closed under the global context.
* The reading of the C++ source. Every definition cites the file and lines it models, and comments
  name the simplifications. Nothing of the source was executed.
* The premises written in the theorems, in particular `zlib_ok` for compressed blocks.

## What is modelled

| files | code |
|-------|------|
| `ChannelModel.v` | `DbcHelper` raw conversions, `IChannel` getters and setters (unsigned, signed, float, text, byte arrays, valid flags), channel and group layout (`Cn4Block`/`Cg4Block::PrepareForWriting`), record ids, `VlsdData`, look-up of signal data |
| `StreamModel.v`, `Stream3Model.v` | `ReadCache`, `Dg4Block`/`Dg3Block` reading, record ids, filters, ranges, VLSD reading, sample counts |
| `QueueModel.v`, `WriterModel.v` | `SampleQueue`, both drains of `Writer4SampleQueue`, `ConverterSampleQueue`, the states of `MdfWriter`, trimming, stop time, as a transition system with the application, the worker and the clock |
| `BlockModel.v` | block headers, links, aligned appending, link updates, linked lists, fixed strings, TX blocks of both versions on a byte-exact file |
| `DataModel.v` | `Dz4Block`, transposition, `ZlibUtil` calling conventions, `Dl4Block`, `Hl4Block`, DT/SD blocks, compressed drain into the file and reading it back |
| `TextModel.v` | UTF-8/16/32 conversions and Latin-1 |
| `FinalModel.v` | scanning and finalizing unfinalized files |
| `ConvModel.v`, `CcModel.v` | channel conversions of both versions, CC blocks in both directions, copying |
| `BusModel.v`, `LinModel.v`, `CanModel.v`, `EthModel.v`, `FlxModel.v`, `MostModel.v` | record layout helpers, LIN, CAN, Ethernet, FlexRay and MOST messages, their channel groups, the message decoder of the CAN observer |
| `Md5Model.v` | the MD5 context, update, final and the file checksum functions (the file reads are the list of pieces that fread returned) |
| `ObsModel.v` | attaching, detaching, InitFastObserverList, NotifySampleObservers, IsSubscribingOnRecord; ChannelObserver's constructor, OnSample and the sample getters (decoding one record is a parameter here, it is the subject of `ChannelModel.v`) |
| `SortModel.v` | the CAN observer's and the sample record observer's OnSample, the sorting task for one data group (decoding a CAN message is in `CanModel.v`; the time of a record and RecalculateTime are parameters) |
| `TimeModel.v` | ISO 8601 parsing and printing, CANopen dates and times, the time stamps of MDF 3 and MDF 4 files (the C library's timegm, gmtime, mktime and localtime by what POSIX says, times from 1970 on; a zone is a fixed offset with a one hour daylight saving shift) |
| `MetaModel.v` | the blocks that describe a measurement in MDF 4: SI, CA, CN, CG, DG, FH, AT, CH, EV, HD, and the conversions of channels, written as new blocks and read back (not the name, unit and inverse of a conversion, sample reductions, signal data, the links DG and CG store in channels of other groups, XML inside comments; a reference to another block is the position stored for it) |
| `IdentModel.v` | the ID block, the finalized mark, recognition of MDF files, MainVersion and MinorVersion, a whole MDF 4 file as ID block and description (not FindAllReferences) |
| `MeasModel.v` | the file of an uncompressed MDF 4 measurement: data block creation, appended samples, counters and sizes rewritten in place, FinalizeMeasurement (not SD blocks, the links of VLSD channels, a second measurement in the file) |
| `CutModel.v` | the writes of SaveQueue and FinalizeMeasurement in the order of the code, cut at any point (a number rewritten in place is one write; the operating system keeps the order) |
| `CompModel.v` | the file of a compressed MDF 4 measurement with any number of data groups saved in any order (not SD blocks, the links of VLSD channels, a second measurement in the file) |
| `CompCutModel.v` | the single writes of a compressed save and the file after any prefix of them (a number rewritten in place is one write; new bytes at the end are one write each) |
| `Meta3Model.v` | writing and reading of MDF 3 HD, DG, CG, CN, CC and TX blocks (not CE, CD, TR, PR and SR blocks; the header of length 208) |
| `Meas3Model.v` | the calls of a measurement with the MDF 3 writer as lists of single writes to the file (one measurement in a new file; the queue, trimming and stop time are in `QueueModel.v`) |
| `XmlModel.v` | ixmlnode.cpp, ixmlnode.h, xmlnode.cpp, ixmlfile.cpp, expatxml.cpp (with the tokens of the Expat library for documents without declaration, comments, CDATA, DTD and character references), imetadata.cpp (string and common properties), etag.h, hd4block.cpp:25-66, 304-372, md4block.cpp:262-310. Not modelled: FloatProperty (decimal text of floating-point numbers); the typed comment classes are in `CommentModel.v`. |
| `SrModel.v` | sr4block.cpp (Read, ReadData), sr4block.h (GetChannelValueT and the three value copies), ld4block.cpp (Read), rd4/rv4/ri4 blocks, sr3block.cpp/.h. Not modelled: the display of block properties, the conversion of the three values to engineering values. |
| `ValueModel.v` | cg4block.cpp/cn4block.cpp (PrepareForWriting, as a map over the description), ichannelgroup.cpp (GetSampleRecord), samplequeue.cpp (SaveSample, RecalculateTime, RecalculateTimeMaster), ichannel.cpp (SetTimestamp, GetTimestamp), mdfwriter.cpp (StartMeasurement). Not modelled: variable length values in these samples (C17, C50 have them), bus messages. |
| `AttModel.v` | at4block.cpp (Write with the attached file, Read, ReadData to file and stream, CopyFrom, Md5), zlibutil.cpp (Deflate of a file, Inflate of a stream part), cryptoutil.cpp (CreateMd5FileChecksum), mdfblock.h (WriteLink4List with blocks that are not written), mdfreader.cpp (ExportAttachmentData, ReadInDataBuffer) | zlib (parameters); paths are texts, files can be read and written or are not there; a second Write of a block that failed; the comment of a copy |
| `CommentModel.v` | mdstandardattribute.cpp, mdstring.cpp, mdproperty.cpp, mdenumerate.cpp, mdlist.cpp (ToXml, FromXml, Add*, GetProperty, IsDuplicateName), mdcomment.cpp (CreateRootNode, ToXml, ToTx, ToCommonProp, FromXml), fhcomment.cpp, hdcomment.cpp | extensions; alternative names, formula, the unit specification and the other comments (in NoteModel.v, MethModel.v, UnitModel.v); typed access to property values (in PvModel.v); the state after an exception in FromXml |
| `BulkModel.v` | idatawriter.h, cg4datawriter.cpp, mdffactory.cpp (CreateDataWriter for MDF4), mdf4writer.cpp, writecache.cpp and samplequeue.cpp (AddSample of a record). Not modelled: datawriter.cpp (a copy that is not used), direct writes through Buffer(), a record added to another group than its own |
| `StrModel.v` | ichannel.cpp and ichannel.h (SetChannelValue and GetChannelValue for std::string, std::vector<uint8_t> and for uint64_t on CANopen channels), cn4block.cpp GetTextValue for fixed length. Not modelled: numbers given as text and texts made of numbers, variable-length channels (C46, C53 have their blocks), complex numbers |
| `BusLogModel.v` | canconfigadapter.cpp (channels and groups for MLSD and VLSD storage), iconfigadapter.cpp CreateTimeChannel, MakeGroupName, samplequeue.cpp SaveCanMessage, canbusobserver.cpp (message type and channels by name), ichannelgroup.cpp GetChannel and GetMasterChannel. Not modelled: comments, ranges and source information of the groups, SD storage end to end, observers for groups without a frame name |
| `NoteModel.v` | mdnumber.cpp, mdalternativename.cpp, mdformula.cpp, mdsyntax.cpp, mdvariable.cpp, cncomment.cpp, sicomment.cpp, evcomment.cpp, ccunit.cpp, cnunit.cpp, mdcomment.cpp (ToXml, FromXml with names and formula). Not modelled: extensions; the unit specification (UnitModel.v), CcComment (MethModel.v), and the double conversions, which are parameters |
| `MethModel.v` | cccomment.cpp, hocompumethod.cpp, hocompuscale.cpp, hoscaleconstraint.cpp, hointerval.cpp, honamedetails.cpp, the three enumerations of hoenumerates.cpp that they use. Simplified: a double is its 64 bits, operator<< and operator>> of doubles are parameters. Not modelled: the log. |
| `UnitModel.v` | hounitspecification.cpp, hoadmindata.cpp, horevision.cpp, hophysicaldimension.cpp, hounitgroup.cpp, hounit.cpp, honamedetails.cpp, hdcomment.cpp (with the unit specification). Simplified: a double is its 64 bits, operator<< and operator>> of doubles are parameters, a map is the list of its members in the order of their names. HoRevision::DateNs is in PvModel.v. Not modelled: changes of members that are in a map already, the log. |
| `PvModel.v` | mdproperty.cpp and mdproperty.h (DataType, Value for uint64_t, bool, std::string and the signed integers), horevision.cpp (DateNs). Not modelled: floating-point values. |
| `PickModel.v` | mdfreader.cpp (CreateChannelObserver for a channel and by name, CreateChannelObserverForChannelGroup, CreateChannelObserverForDataGroup), ichannel.h (the cast in GetChannelValue), channelobserver.h (GetSampleUnsigned, GetSampleSigned), ichannelobserver.cpp (integers as text). Not modelled: null pointers in the lists, virtual channels, the text of floating-point values. |
| `PickFileModel.v` | channelobserver.h (OnSample of a channel that is stored in the record, with the decoding of ChannelModel.v). A read outside the record is shown as a value that could not be decoded; the theorems exclude it. |
| `VirtModel.v` | ichannel.h (GetVirtualSample), channelobserver.h (OnSample of virtual channels). Not modelled: virtual channels of byte arrays; the cast of an integer to float or double is a parameter. |
| `LookModel.v` | idatagroup.cpp:104-147 (CreateChannelGroup by name, GetChannelGroup by name and by record id), ichannelgroup.cpp:42-71 (CreateChannel, GetChannel by name), cg3block.cpp:26-28, cg4block.cpp:65-67. Not modelled: null pointers in the lists, names with NUL, renaming after creation. |
| `LookTreeModel.v` | The same for MDF 4 groups whose channels have member channels: ichannelgroup.cpp:42-71, cg4block.cpp:39-54, 345-358. Of a new channel only the name is kept. |

## What is not modelled

* zlib's algorithm, Expat beyond the documents named at `XmlModel.v`, the calls to the file system below
  `std::streambuf`, locale functions, `printf` formats, the decimal text of floating point numbers.
* Extensions in comments, and the state of a comment after an exception while it is read.
* Thread scheduling below the level of the mutex-protected sections; the transition system interleaves
  those sections in every order.
* Byte order of the host: the code is read as run on a little-endian machine.
* DV/DI blocks and column oriented storage (LD blocks are read, `SrModel.v`); MDF 3 CE, CD, TR, PR blocks;
  `MdfConverter` beyond its queue; validating tasks; creation of the destination file's other blocks in the
  sorting task; the bus logger.
* Half-precision floats (a parameter), MIME samples, bit-field text conversions.
* Direct writes into the reference that `IDataWriter::Buffer()` returns.
* Memory exhaustion and exceptions from `new`.

## Findings

Claims that are false of the code as modelled, each with a proved counterexample:

* `C04_big_record_refuted`: In every record of more than 2^28 bytes an 8-bit channel at byte 2^28 is read out of bounds.
* `C04_index_wrap_refuted`: An array index near 2^64 / bit count wraps the range check: out-of-bounds read.
* `C04_mlsd_wrap_refuted`: A length channel (MLSD) with the value 2^64-1 wraps the range check of a byte array.
* `C04_offset_wrap_refuted`: A byte offset of 2^29 wraps to 0: a channel outside the record is read as valid.
* `C07_index_wrap_refuted`: Index 2^64-1 passes the check of every setter.
* `C07_neighbour_refuted`: An index beyond the channel's own array, but inside the buffer, overwrites the next channel.
* `C07_unsigned_be_refuted`: SetUnsignedValueBe checks the start of the element only.
* `C11_many_groups_refuted`: With 257 groups two of them share an id.
* `C12_zero_size_refuted`: A group without any record bytes and without record ids makes the reader loop forever.
* `C13_empty_block_refuted`: An empty block in the list ends the reading: the records after it are lost.
* `C14_cut_unsubscribed_refuted`: A file cut off inside a record of a group that is not subscribed: the reader skips beyond the end and then reads bytes that are not at the cursor of any block.
* `C15_mdf3_numbered_group_refuted`: MDF3 without record ids but with a group numbered 1 in the file: the complete reading delivers the records, the range reading nothing.
* `C15_mdf3_reduction_refuted`: MDF3: the sample reduction data is read before the records and leaves the file position behind it; the range reading then takes its records from there.
* `C15_zero_based_refuted`: The sample numbers handed to observers count from 0 but the range counts from 1: asking for sample 0 only delivers nothing, asking for 1..1 delivers sample 0.
* `C17_index_wrap_refuted`: The four largest indexes pass the check: out-of-bounds read (a corrupt file is enough).
* `C17_vlsd_invalid_flag_refuted`: Setting a variable-length value as invalid leaves it valid.
* `C19_long_stream_refuted`: Without [fits] the property is false: the buffer for the compressed stream has 100 bytes more than the data, Deflate's result is ignored, and a stream that is longer is cut. Reading the block then copies bytes beyond the end of the inflated buffer.
* `C19_wrong_size_refuted`: A file whose DZ block states a larger original size than its stream has makes the reader copy beyond the end of its buffer.
* `C20_empty_block_refuted`: A sample of 4,000,000 bytes or more saved first makes the writer store an empty block, at which every reader stops (C13_empty_block_refuted).
* `C22_size_after_pop_refuted`: PopSample reads the size after the record is destroyed; if it finds anything else, e.g. zero, the counter stays too large for ever.
* `C23_underflow_refuted`: A pre-trigger time longer than the start time (relative times): the unsigned difference wraps and everything but the newest sample is dropped, although all samples are in the window.
* `C23_unordered_refuted`: Time stamps out of order while waiting: the difference wraps and samples inside the window are dropped.
* `C25_race_refuted`: A sample saved by another thread while StopMeasurement waits can be lost although its time is before the stop time: it is queued after the last drain and destroyed with the queue.
* `C25_stop_time_refuted`: The stop time given to StopMeasurement has no effect: the sample of time 1000 is stored although the measurement is stopped at time 500.
* `C26_cut_header_refuted`: A cut inside the length of a variable length record loses everything: no count is stored, opening the file reports an error.
* `C26_cut_record_refuted`: The count of complete records is not what is stored when the last one is cut: two bytes of the last record are there, and it counts.
* `C26_vlsd_size_refuted`: The size of a VLSD group is not the number of payload bytes the writer stores there: the length fields are counted too.
* `C26_zero_size_refuted`: Records of no bytes without record id: the finalization never ends.
* `C30_mdf3_wrap_refuted`: In an MDF3 file above 4 GB the link is cut to 32 bits.
* `C31_end_of_file_refuted`: Behind the end of the file characters 255 are read: a field cut off by the end of the file does not fail, it yields text that is not in the file.
* `C32_blank_refuted`: So the property fails for a text that starts with a blank.
* `C32_mdf3_long_refuted`: A longer one comes back cut: the block size has 16 bits.
* `C33_cycle_refuted`: A file of 96 bytes on which reading a list never ends.
* `C35_one_parameter_refuted`: Except for a linear conversion: with P2 missing it returns P1 for every value.
* `C36_between_refuted`: Between the values 1e16 and 0.1 the interpolation can give 0.
* `C36_nearest_refuted`: Between the keys -1e16 and 1e16 the value 0.5, nearer to the upper key, gets the lower one.
* `C36_unwritten_refuted`: A table that has been set up but neither written nor read has no rounds to search: every value is converted to the last one.
* `C37_float3_refuted`: The conversions of version 3 files never learn the data type of their channel (it stays 0, unsigned): a float channel's upper bound is included there.
* `C38_unwritten_refuted`: Until the conversion has been written, its texts are not found; text conversions then report success with the caller's variable unchanged.
* `C39_written_refuted`: But of a conversion that has been written or read no text and no conversion is copied: the copy of a text table that converts 1 to "A" converts nothing.
* `C40_parameters_refuted`: The second parameter read is the tag of the variant and padding, so it is wrong whatever the padding is, for every finite second parameter whose lowest byte is not 1 (every integer up to 2^44, for instance).
* `C40_range_texts_refuted`: The bounds of a text range table survive, all its texts are lost.
* `C42_code_refuted`: A data length code set by the user, as a classic CAN remote or data frame may have (codes 9 to 15 with 8 bytes), is replaced by the one of the data length.
* `C42_error_buffer_refuted`: An error frame does not shorten a record buffer that is too long: the index of its data then goes to the end of the buffer, where the channel does not look, and the data cannot be read.
* `C42_error_frame_refuted`: A decoded error frame has the bit position as its frame duration, and neither bit position nor error type.
* `C42_reserved_bit_refuted`: The reserved bit R0 is stored but never decoded.
* `C43_extended_refuted`: But setting an identifier of 11 bits after the extended flag clears the flag.
* `C43_reset_refuted`: And Reset leaves the checksum of the old message.
* `C44_checksum_model_refuted`: The checksum model of a receive error is read from the identifier byte.
* `C44_direction_refuted`: The direction bit is stored at bit 6 of the identifier byte, its channel is at bit 7.
* `C44_start_of_frame_refuted`: Only the low 8 bits of the start of frame of a wake up or spike message can be read.
* `C45_channel_text_refuted`: Missing in it, and false: texts with surrogate pairs. Each half is encoded by itself.
* `C45_to_utf16_refuted`: Missing there, and false: the string made for the result has one unit for each code point.
* `C46_half_pair_refuted`: The same with 16-bit wide characters that end with half a pair.
* `C46_malformed_refuted`: A string that ends after the first byte of a sequence of four makes the conversion read behind the terminator.
* `C48_basic_offset_refuted`: An offset in the basic form is read as that many hours: "+0530" as 530 hours.
* `C48_before_1970_refuted`: Years before 1970 are taken for 1970.
* `C48_long_fraction_refuted`: A fraction with more than nine digits is added as if it were nanoseconds.
* `C48_offset_overflow_refuted`: A long offset overflows an int: "1970-01-01T00+9999999" has undefined behaviour.
* `C48_short_fraction_refuted`: A fraction with one or two digits is read as milliseconds: half a second, ".5", is 5 ms.
* `C48_time_only_refuted`: The time of day printed alone is not read back: its digits are taken for a date. 12:34:56 is read as the year 1970 (1234 is too early) and the month 56 (out of range, taken as January).
* `C48_west_minutes_refuted`: The minutes of a western offset are added to the hours instead of taken away: every text with such an offset is read twice the minutes too early.
* `C49_short_array_refuted`: The arrays are not checked: one that is too short is read out of bounds.
* `C51_empty_refuted`: A size of 0 counts as 1: an array without elements has a value.
* `C51_overflow_refuted`: Sizes whose product passes 64 bits give a small number of values, here none.
* `C52_byte_array_refuted`: The samples of an array of byte arrays, asked for as byte arrays: the array index is ignored and the sample number used as the position in the list, so sample 1 gives an element of sample 0.
* `C52_index_refuted`: An array index beyond the array is not refused: it gives a value of the next sample, as valid.
* `C52_shared_value_refuted`: Two samples with the offset of the same value, which the format allows: the observer shows an empty value for the second.
* `C53_once_refuted`: A channel observer is attached twice, by the constructors of its base class and its own, and is called twice for each record.
* `C53_unsubscribed_refuted`: An observer without any subscription (such as a CAN observer that did not recognise its group) gets the records of a group all the same when that is the only group with subscribers, and with MDF3, where every record is notified, the records of the other groups, too.
* `C56_markup_refuted`: A text that starts with '<' is written as an MD block, which is not read: the value is then converted to the empty text.
* `C57_reset_refuted`: A reset message is not a new message: the direction and the error type stay.
* `C58_channel_refuted`: The FlexRay channel of a message is never stored: a message on channel B reads as channel A, in every group that has the channel.
* `C58_data_refuted`: In every group with data bytes but the full PDU, the index of the payload is stored two bytes behind the place the data channel reads, so the channel looks for the payload at 65536 times its index: with two payloads in the signal data the second one is not found.
* `C58_mask_refuted`: The channel mask of a symbol is never stored: it always reads as 0, which is none of its values.
* `C59_long_data_refuted`: More than 65535 data bytes: the payload is stored, but the counts and the data length are cut to 16 bits.
* `C59_tx_ack_refuted`: TxAck takes any byte, but the channel of a packet has four bits: larger values are cut.
* `C60_order_refuted`: C60 fails when the values of two samples precede their records, as in data sorted by group: the first value is lost, both messages are delivered as sample 1 with the value of the second, and the buffer has no first message. The sample record observer passes on the first record with the second value, and not the second record.
* `C60_overrun_refuted`: C60: a value beyond the number of records, which a group shared by two channels can have, makes OnSample answer false, and reading stops before the remaining records.
* `C60_sample_time_refuted`: C60: GetSampleTime of the sample record observer is the start time for every sample.
* `C60_stop_refuted`: C60: the answer of the user's callback is ignored; false does not end the reading, unlike the answer of DoOnSample.
* `C61_empty_refuted`: C61: a group whose records have no bytes, such as a group of event markers, loses all its samples.
* `C61_order_refuted`: C61 fails when the values of two samples precede their records: the new file has one sample of two, with the value of the other.
* `C61_position_refuted`: C61: if the offset is not in the last 8 bytes of the record, the last 8 bytes are overwritten all the same: here the byte 77 after the offset is lost, and the offset is wrong.
* `C61_signal_data_refuted`: C61: variable length values in signal data, the way the library's own writer stores them when there is no group for them, are not copied: the group is read as fixed length storage, the records keep their old offsets, and the new signal data is empty.
* `C61_two_values_refuted`: C61: with two variable length channels the sample is passed on with the first value, and the second is kept for nothing.
* `C62_mdf3_half_hour_refuted`: A zone with a half hour loses it in an MDF 3 file: India, 330 minutes, is read as 300.
* `C62_mdf3_west_refuted`: On a machine five hours west of Greenwich the offset in an MDF 3 header is 12282 hours: the signed nanoseconds are divided as an unsigned number.
* `C62_mdf4_west_refuted`: The offsets are handed out as unsigned numbers: five hours west, -300 minutes, is 65236.
* `C63_data_links_refuted`: With fewer data links than elements the block cannot be written.
* `C63_dimensions_refuted`: An array with 65536 dimensions loses its shape.
* `C64_composition_refuted`: A file whose channel has another block as its composition is never read to the end.
* `C64_mixed_refuted`: A channel that is both an array and a structure loses its members: they are read as arrays.
* `C66_elements_refuted`: The elements of a hierarchy are written from link 4 on and read from link 5 on: each reference is taken for the one before it.
* `C67_two_digits_refuted`: The version text does not always have two digits after the point, as the format asks for.
* `C68_unfinished_refuted`: The writer never marks the file it works on: whatever is appended or changed behind the identification block, an interrupted measurement is taken for a finalized file, with no work left to do.
* `C72_counters_refuted`: The counters are written before the data: after an interruption the number of samples of a channel group may be larger than the number of its records that can be read.
* `C72_first_refuted`: The data link is set before the list block is written: if the first save of a data group is interrupted, reading the data of the group may fail instead of finding no data.
* `C73_author_refuted`: The author, like the other texts of the header, is cut to 32 bytes without an error.
* `C73_blank_name_refuted`: White space around the name of a channel is lost.
* `C73_reduction_refuted`: A channel group as the writer writes it, with a link to sample reductions, loses the link: it is read only from blocks longer than the 30 bytes that hold it (cg3block.cpp:103).
* `C76_control_refuted`: A value with characters below 32 other than tab and line feed is written but not read: the reading ends at it.
* `C76_mixed_refuted`: A tag with a value and children is written without its value.
* `C77_attributes_refuted`: A property that is set again keeps its old description, unit and type: an attribute that is there is not changed.
* `C77_case_refuted`: Two properties whose names differ in upper and lower case only are one: the second value replaces the first.
* `C77_control_refuted`: One text with a control character makes the next setter drop the properties that follow it in the comment.
* `C77_plain_refuted`: Setting a text property of a comment that is plain text erases the comment.
* `C77_stale_refuted`: A tree that is set again with fewer properties keeps those of the first time.
* `C77_tree_refuted`: A plain value set under the name of a tree is written but not seen: the tree is returned.
* `C78_comment_refuted`: A header whose comment is plain text loses it when a property is set.
* `C79_beyond_refuted`: A sample number beyond the last sample gives zeros that are marked as valid.
* `C79_invalid_refuted`: The links of an LD block to invalidation data are not followed: a value that the file marks as invalid is returned as valid.
* `C79_large_refuted`: With 4 GiB of data or more the position is cut to 32 bits: the values of another sample are returned.
* `C79_mdf3_refuted`: The data of an MDF 3 sample reduction is never read: whatever is asked for, no value is returned.
* `C81_conversion_refuted`: A time master with a conversion that is neither linear nor one to one is not written: the record keeps the bytes it had, for any time.
* `C81_distinct_refuted`: After that they may be equal: two samples one nanosecond apart, 104 days after the start.
* `C81_pretrigger_refuted`: Samples of the pre-trigger window all have the time zero in an unsigned time master.
* `C81_race_refuted`: StartMeasurement opens the queue for the worker before it rewrites the times in it: a sample saved before the start and written between the two has no time.
* `C81_too_small_refuted`: A time master that is too small has no check: 256 s after the start the cast of the time to an unsigned byte is undefined.
* `C82_copy_refuted`: An attached file that was empty has no size in the file, and a copy of the attachment attaches the file anew: the copy has the bytes the file has by then.
* `C82_incompressible_refuted`: The buffer for a compressed attachment is not longer than the file (100 bytes at least), and a file that does not shrink is not written: InitMeasurement reports success and the file has no such attachment when it is the last; when another one follows, InitMeasurement fails. The same for an empty file.
* `C82_missing_refuted`: A file that is not there is attached as an empty one: InitMeasurement succeeds, and the export of the embedded attachment reports success and makes an empty file.
* `C82_stream_refuted`: An export to a stream is not checked: when the file ends inside the attachment, the missing bytes are written as 255 and success is reported.
* `C83_clear_refuted`: A description that is cleared in a comment that was read comes back when the comment is stored and read again: the reading has kept it among the custom attributes.
* `C83_hex_refuted`: A hexadecimal integer is read as an integer: both types are stored as the same text.
* `C83_index_refuted`: A property whose history index is 2^63 or more is stored but makes the reading fail.
* `C83_slash_refuted`: A property with '/' in its name is stored but never found by its name.
* `C83_tree_refuted`: A list and everything in it is lost on reading when a tree with the same name was added after it.
* `C83_twice_refuted`: A value that is set a second time is ignored: the author stays the first one.
* `C84_early_refuted`: A data writer made before InitMeasurement, when the sample buffer of the group is empty, ignores every value and gives samples without bytes, though the records of the group have some.
* `C84_invalid_refuted`: SetValue does not make a value valid: if the channel was marked invalid when the data writer was made, every value set with it is shown as invalid.
* `C84_kind_refuted`: SetValue does not convert: a double given to an unsigned channel of eight bytes is stored by its bits, 1.0 is read as 4607182418800017408.
* `C84_size_refuted`: A value of another size is dropped without a word: an int given to a channel of 16 bits leaves the value before it.
* `C84_snapshot_refuted`: A data writer does not follow its group: what SetChannelValue sets after the data writer was made is not in its samples.
* `C85_cut_refuted`: A text that is too long is cut without a word, and is still valid; the cut may be inside a character: "aä" in a UTF-8 channel of three bytes.
* `C85_dropped_refuted`: A byte array for a number, or a text for a date, is dropped; without an invalidation bit nothing tells: the record stays as it was.
* `C85_latin1_refuted`: Texts with other than 7 bit characters do not come back from StringAscii channels: SetChannelValue stores the UTF-8 bytes as they are, the reader takes them for Latin-1.
* `C85_length_refuted`: The length of a byte array is not kept: a shorter one comes back with zeros up to the size of the channel.
* `C85_utf16_refuted`: No text comes back from the UTF-16 channels: SetChannelValue stores the UTF-8 bytes as they are; the reader takes two of them for one character ("Hi" is shown as one Chinese character).
* `C86_channel_name_refuted`: The number of the bus channel, a uint8_t, is put into the name of the group as a character: the groups of channel 1 are named CAN, the control character 1, _DataFrame and not CAN1_DataFrame (iconfigadapter.cpp:343, 349).
* `C86_short_max_refuted`: With data bytes in the record and MaxLength below 8, CreateConfig raises the length of the groups to 8 but makes the channels with the length of the writer (canconfigadapter.cpp:25-27, 129, 228, 293): the records of the messages are longer than the group tells, and a reader loses its place after the first one.
* `C87_array_refuted`: The array indexes of a formula's variable are lost: they are written as one attribute and looked for in another.
* `C87_default_refuted`: A default name without alternative names is not stored.
* `C87_event_names_refuted`: The alternative names of an event are not stored.
* `C87_rename_refuted`: A default name that is changed in a comment that was read is the old one when the comment is stored and read again: the reading has kept the old one among the custom attributes.
* `C87_source_formula_refuted`: The formula of a source's comment is not stored.
* `C87_type_refuted`: The data type of a number is not stored: a raster set as a float is a decimal in the comment read back.
* `C87_variables_refuted`: Variables and custom syntaxes without the text of a formula are not stored.
* `C88_category_refuted`: A method of which only the category is set is not stored: it is read as identical.
* `C88_digits_refuted`: Numbers are written with six digits, as the streams of the C++ library do if no precision is set: then 1234567 and 1234568 have the same text, so that, however it is read, one of them is not kept.
* `C88_infinite_refuted`: A limit that is set to infinite, and so has no value, is not stored: it is read as closed.
* `C88_names_refuted`: The short name, the long names and the descriptions of a computation method are written as tags of the method and looked for in another tag: they are lost.
* `C88_validity_refuted`: A scale has a validity that can be set, but it is neither written nor read: a scale that is not valid is read as valid.
* `C89_dimension_name_refuted`: So is the short name of a physical dimension.
* `C89_luminous_refuted`: The exponent of the luminous intensity is lost in the same way.
* `C89_molar_refuted`: The exponent of the amount of substance of a physical dimension is written under one tag and looked for under another: it is read as 0.
* `C89_spaces_refuted`: Identities that differ in white space at their ends are different names when they are added, and the same name when they are read: one of the two units is lost.
* `C89_unit_name_refuted`: The short name of a unit, which is set together with its identity, is written and not read.
* `C90_boolean_refuted`: A boolean is read as the number 0, whatever the value.
* `C90_date_refuted`: A date is not read back: the number is the year.
* `C90_first_digit_refuted`: A number as a flag depends on its first digit: 2 is false and 10 is true.
* `C90_hex_refuted`: A hexadecimal number is read as 0 until the property was stored and read, whatever the number.
* `C90_time_refuted`: A time of day is not read back: the number is the hour.
* `C91_every_channel_refuted`: FINDING. Every channel of the list has an observer: false. For a channel of complex numbers the reader makes none and puts a null pointer in the list, which the user meets when they go through it (mdfreader.cpp:176-179, 221, 241).
* `C92_signed_refuted`: FINDING. The value of a virtual channel is the number of the sample: false for signed channels. The writer sets the size of a virtual channel to 0 bits (cn4block.cpp:1057-1062), and the reader observes a signed channel of 0 bytes in an int8_t (mdfreader.cpp:127-130): sample 128 of a virtual master has the time -128.
* `C93_by_id3_refuted`: FINDING. In an MDF 3 data group every group is found by its record id: false with 257 groups or more. The ids are 8 bits and wrap (dg3block.cpp:151-153), so the id of the 257th group gives the first one.
* `C93_create_members_refuted`: FINDING. CreateChannel returns a channel of the group itself: false. Members are searched as well (ichannelgroup.cpp:42-57 with cg4block.cpp:345-358), so with a member of that name, at any depth, the member is returned and the group gets no channel of the name.
* `C93_get_channel_refuted`: FINDING. GetChannel with the name of a created channel gives that channel: false. The names are searched for a part (ichannelgroup.cpp:59-71), so an earlier channel with a longer name is given instead: after creating "SpeedLimit" and "Speed", asking for "Speed" gives "SpeedLimit". GetChannelGroup prefers the full name.
* `C93_groups3_refuted`: FINDING. CreateChannelGroup with a name that was used before returns the group of that call: false of MDF 3 files. An MDF 3 group drops its name (cg3block.cpp:26-28), so the second call adds a second group and GetChannelGroup finds neither.

Observed while reading, not stated as theorems:

* `Writer4SampleQueue` returns early with the queue's mutex locked when the file or the data group is
  missing (writer4samplequeue.cpp:56-62).
* The writer never marks a file as unfinalized while a measurement runs.
* `DbcHelper` big-endian writers and readers number the bits differently for start bits other than 0.
* The block size of a CC3 block is 16 bits wide and wraps for long tables.
* A channel composition with an unknown block type is read in an endless loop.
* Time, angle and distance values of a DL block are written but never read.

## Print Assumptions for each theorem

**No axioms ("Closed under the global context")** (422 theorems)

* `AttProps.v`: `C82_checked`, `C82_copy_refuted`, `C82_stream_refuted`
* `BlockProps.v`: `C27_block_round_trip`, `C27_mdf3`, `C27_read`, `C28_appended`, `C29_list_round_trip`, `C30_bad_index`, `C30_link`, `C30_mdf3_link`, `C30_mdf3_wrap_refuted`, `C30_size`, `C31_any_string`, `C31_end_of_file_refuted`, `C31_plain`, `C31_trim`, `C32_any_text`, `C32_blank_refuted`, `C32_mdf3_long_refuted`, `C32_mdf3_partial`, `C32_text_partial`, `C33_cycle_refuted`, `C33_ends_iff_no_cycle_partial`, `C33_length`
* `BulkProps.v`: `C84_early_refuted`, `C84_invalid_refuted`, `C84_layouts`, `C84_program`, `C84_raw`, `C84_size_refuted`, `C84_snapshot_refuted`
* `BusLogProps.v`: `C86_channel_name_refuted`, `C86_config_partial`, `C86_names`, `C86_program`, `C86_short_max_refuted`
* `CanProps.v`: `C41_data_bytes`, `C41_inverse`, `C41_monotone`, `C41_smallest_code`, `C41_too_long`, `C42_channels`, `C42_code_refuted`, `C42_error_buffer_refuted`, `C42_error_frame_refuted`, `C42_observer_partial`, `C42_reserved_bit_refuted`, `C43_defaults`, `C43_extended_refuted`, `C43_identifier`, `C43_last_flag`, `C43_reset_refuted`, `C43_setter_history`
* `ChannelProps.v`: `C01_only_field_bits_matter`, `C01_unsigned_le_read`, `C02_unsigned_be_read`, `C03_signed_read`, `C04_big_record_refuted`, `C04_index_wrap_refuted`, `C04_mlsd_wrap_refuted`, `C04_offset_wrap_refuted`, `C04_read_bounds_partial`, `C05_set_get`, `C05_unsigned_modulo_width`, `C06_history_last_write`, `C06_setter_frame`, `C07_index_wrap_refuted`, `C07_neighbour_refuted`, `C07_set_bounds_partial`, `C07_unsigned_be_refuted`, `C08_valid_bits_independent`, `C08_valid_changes_one_bit`, `C09_layout`, `C17_fixed_bytes_set_get`, `C17_fixed_text_set_get`, `C17_index_wrap_refuted`, `C17_sd_lookup_appended`, `C17_sd_lookup_safe_partial`, `C17_vlsd_invalid_flag_refuted`, `C17_vlsd_set_get`
* `CommentProps.v`: `C83_calls`, `C83_clear_refuted`, `C83_fh`, `C83_hd`, `C83_header`, `C83_hex_refuted`, `C83_index_refuted`, `C83_md`, `C83_property`, `C83_slash_refuted`, `C83_tree_refuted`, `C83_twice_refuted`
* `CompProps.v`: `C71_same_bytes`
* `ConvProps.v`: `C36_written`, `C38_set_references`, `C38_text_to_text`, `C39_unwritten_partial`
* `DataProps.v`: `C18_columns`, `C18_inverse`, `C18_inverse_first`, `C18_tail`, `C19_long_stream_refuted`, `C19_round_trip`, `C19_sizes`, `C19_wrong_size_refuted`, `C34_by_equal_length`, `C34_by_offset`, `C34_list_round_trip`, `C54_history`, `C54_rest_kept`, `C54_same_stream`, `C55_round_trip`, `C55_values`
* `EthProps.v`: `C57_complete`, `C57_data_length`, `C57_defaults`, `C57_reset_refuted`, `C57_round_trip`, `C57_setter_history`
* `FinalProps.v`: `C26_already_final`, `C26_counts`, `C26_cut_header_refuted`, `C26_cut_partial`, `C26_cut_record_refuted`, `C26_cut_records_back`, `C26_records_back`, `C26_vlsd_size_refuted`, `C26_zero_size_refuted`
* `FlxProps.v`: `C58_channel_refuted`, `C58_data_refuted`, `C58_defaults`, `C58_first_data`, `C58_mask_refuted`, `C58_pdu_data`, `C58_round_trip_partial`, `C58_setter_history`
* `IdentProps.v`: `C67_class`, `C67_id`, `C67_minor`, `C67_only`, `C67_two_digits_refuted`, `C68_undone`
* `LinProps.v`: `C44_checksum_model_refuted`, `C44_data_bytes`, `C44_defaults`, `C44_direction_refuted`, `C44_round_trip_partial`, `C44_setter_history`, `C44_start_of_frame_refuted`, `C44_start_of_frame_stored`
* `LookIdProps.v`: `C93_by_id`, `C93_by_id3_partial`, `C93_by_id3_refuted`
* `LookProps.v`: `C93_create_channel`, `C93_create_group`, `C93_get_channel`, `C93_get_channel_refuted`, `C93_get_group`, `C93_groups3`, `C93_groups3_refuted`, `C93_groups_distinct`, `C93_unnamed`
* `LookTreeProps.v`: `C93_create_members`, `C93_create_members_refuted`, `C93_get_members`, `C93_members`
* `Md5Props.v`: `C50_any_prefix`, `C50_checksum`, `C50_padding`, `C50_string`
* `Meas3Props.v`: `C74_start_time`
* `MeasProps.v`: `C69_start_time`
* `MetaProps.v`: `C51_bijection`, `C51_channel_count`, `C51_count`, `C51_empty_refuted`, `C51_overflow_refuted`, `C51_places`, `C63_array`, `C63_array_list`, `C63_data_links_refuted`, `C63_dimensions_refuted`, `C64_same`, `C66_attachment_partial`, `C66_elements_refuted`, `C66_event`, `C66_hierarchy_partial`, `C66_history`
* `MethProps.v`: `C88_category_refuted`, `C88_digits_refuted`, `C88_exact`, `C88_infinite_refuted`, `C88_method`, `C88_names_refuted`, `C88_prefix`, `C88_validity_refuted`
* `MostProps.v`: `C59_byte_counts`, `C59_complete`, `C59_counts_cover_data`, `C59_defaults`, `C59_long_data_refuted`, `C59_round_trip`, `C59_setter_history`, `C59_tx_ack_refuted`
* `NoteProps.v`: `C87_array_refuted`, `C87_channel`, `C87_comment`, `C87_default_refuted`, `C87_event`, `C87_event_names_refuted`, `C87_number`, `C87_rename_refuted`, `C87_source`, `C87_source_formula_refuted`, `C87_type_refuted`, `C87_unit`, `C87_variables_refuted`
* `ObsProps.v`: `C52_byte_array_partial`, `C52_byte_array_refuted`, `C52_file`, `C52_file_vlsd_partial`, `C52_index_refuted`, `C52_offsets`, `C52_samples`, `C52_shared_value_refuted`, `C52_vlsd_group_partial`, `C53_attach_history`, `C53_delivery_partial`, `C53_delivery_stateful_partial`, `C53_file`, `C53_nobody`, `C53_once_refuted`, `C53_single_group`, `C53_unsubscribed_refuted`
* `PickFileProps.v`: `C91_file_missing`, `C91_file_signed`, `C91_file_unsigned`
* `PickProps.v`: `C91_every_channel_refuted`, `C91_list`, `C91_named`, `C91_none`, `C91_once`, `C91_other_sign`, `C91_signed`, `C91_unsigned`, `C91_value`
* `PvProps.v`: `C89_date`, `C89_dates`, `C90_boolean_refuted`, `C90_date_refuted`, `C90_file`, `C90_first_digit_refuted`, `C90_flag`, `C90_hex_refuted`, `C90_number`, `C90_only`, `C90_signed`, `C90_storable`, `C90_texts`, `C90_time_refuted`
* `QueueProps.v`: `C12_measure_and_read`, `C16_index_of_sd_value`, `C16_index_of_value`, `C20_block_size`, `C20_empty_block_refuted`, `C20_no_empty_block`, `C20_same_stream`, `C21_finalize`, `C21_finalize_compressed`, `C21_ledger`, `C21_ledger_any`, `C21_ledger_compressed`, `C22_size_after_pop_refuted`, `C22_size_compressed_partial`, `C22_size_no_pop`, `C22_size_partial`, `C23_prefix`, `C23_started`, `C23_underflow_refuted`, `C23_unordered_refuted`, `C23_waiting`, `C24_counts`, `C24_counts_compressed`, `C25_accounted`, `C25_race_refuted`, `C25_stop_time_refuted`, `C25_stored_partial`
* `SortProps.v`: `C60_can_buffer_partial`, `C60_can_callback_partial`, `C60_can_fixed`, `C60_order_refuted`, `C60_overrun_refuted`, `C60_record_fixed`, `C60_record_pairs_partial`, `C60_sample_time_refuted`, `C60_stop_refuted`, `C61_empty_refuted`, `C61_fixed`, `C61_order_refuted`, `C61_own_files`, `C61_position_refuted`, `C61_signal_data_refuted`, `C61_two_values_refuted`, `C61_vlsd_partial`
* `SrProps.v`: `C79_beyond_refuted`, `C79_columns`, `C79_invalid_refuted`, `C79_large_refuted`, `C79_mdf3_none`, `C79_mdf3_refuted`, `C79_rows`
* `StrProps.v`: `C85_bytes_partial`, `C85_cut_refuted`, `C85_date`, `C85_dropped_refuted`, `C85_hex`, `C85_latin1_refuted`, `C85_length_refuted`, `C85_program`, `C85_text_partial`, `C85_time`, `C85_utf16_partial`, `C85_utf16_refuted`
* `StreamProps.v`: `C10_groups_kept`, `C10_id_fields_differ`, `C10_record_ids`, `C11_many_groups_refuted`, `C11_record_ids_partial`, `C12_cut_record`, `C12_read_stream`, `C12_write_read`, `C12_write_read_mdf3`, `C12_zero_size_refuted`, `C13_empty_block_refuted`, `C13_split_any_bytes`, `C13_split_range`, `C13_split_records`, `C14_cut_unsubscribed_refuted`, `C14_subscription`, `C15_mdf3_numbered_group_refuted`, `C15_mdf3_reduction_refuted`, `C15_range_slice_mdf3_partial`, `C15_range_slice_partial`, `C15_zero_based_refuted`, `C16_read_signal_data`, `C16_read_vlsd_group`
* `TextProps.v`: `C45_any_wide_string`, `C45_channel_text_partial`, `C45_channel_text_refuted`, `C45_from_utf16`, `C45_from_utf8`, `C45_injective`, `C45_round_trip`, `C45_to_utf16_partial`, `C45_to_utf16_refuted`, `C45_to_utf8`, `C46_half_pair_refuted`, `C46_malformed_refuted`, `C46_reads_inside_partial`, `C47_channel_text`, `C47_latin1`
* `TimeProps.v`: `C48_basic_offset_refuted`, `C48_before_1970_refuted`, `C48_date_only`, `C48_every_date`, `C48_instant_partial`, `C48_long_fraction_refuted`, `C48_offset_overflow_refuted`, `C48_print_read`, `C48_printed`, `C48_printed_parts`, `C48_short_fraction_refuted`, `C48_time_only_refuted`, `C48_west_minutes_refuted`, `C49_date`, `C49_date_fields`, `C49_epoch`, `C49_short_array_refuted`, `C49_time`, `C62_mdf3_half_hour_refuted`, `C62_mdf3_utc_partial`, `C62_mdf3_west_refuted`, `C62_mdf3_zone_partial`, `C62_mdf4`, `C62_mdf4_ns`, `C62_mdf4_west_refuted`
* `UnitProps.v`: `C89_calls`, `C89_dimension_name_refuted`, `C89_exact`, `C89_identity`, `C89_luminous_refuted`, `C89_molar_refuted`, `C89_prefix`, `C89_spaces_refuted`, `C89_unit_name_refuted`, `C89_units`
* `ValueProps.v`: `C80_program`
* `VirtProps.v`: `C92_float`, `C92_signed`, `C92_signed_refuted`, `C92_text_partial`, `C92_unsigned_partial`
* `XmlProps.v`: `C76_control_refuted`, `C76_distinct`, `C76_mixed_refuted`, `C76_trimmed`, `C76_xml`, `C77_attributes_refuted`, `C77_case_refuted`, `C77_common`, `C77_control_refuted`, `C77_file`, `C77_once`, `C77_plain_refuted`, `C77_readable`, `C77_stale_refuted`, `C77_string`, `C77_tree_refuted`, `C78_comment_refuted`, `C78_file`, `C78_header`

**classic, functional_extensionality_dep, sig_forall_dec, sig_not_dec** (108 theorems)

* `AttProps.v`: `C82_copy`, `C82_export`, `C82_incompressible_refuted`, `C82_missing_refuted`
* `BulkProps.v`: `C84_file`, `C84_kind_refuted`, `C84_measurement`
* `BusLogProps.v`: `C86_file_partial`, `C86_measurement_partial`
* `CompCutProps.v`: `C72_counters_refuted`, `C72_first_refuted`, `C72_interrupted`, `C72_records`, `C72_writes`
* `CompProps.v`: `C71_file`, `C71_measurement`, `C71_records`
* `ConvProps.v`: `C35_exponential`, `C35_exponential_neither`, `C35_exponential_second`, `C35_linear`, `C35_linear_error`, `C35_linear_integers`, `C35_missing_parameters`, `C35_one_parameter_refuted`, `C35_polynomial`, `C35_rational`, `C35_set_parameters`, `C36_a_neighbour`, `C36_above`, `C36_at_key`, `C36_below`, `C36_between_partial`, `C36_between_refuted`, `C36_interpolated`, `C36_nan`, `C36_nearest_lower`, `C36_nearest_refuted`, `C36_nearest_upper_partial`, `C36_unwritten_refuted`, `C37_default_text`, `C37_default_value`, `C37_float3_refuted`, `C37_nested`, `C37_text`, `C37_text3`, `C37_value`, `C38_default_text`, `C38_nested`, `C38_text`, `C38_text3`, `C38_text_to_value`, `C38_unwritten_refuted`, `C39_numeric`, `C39_texts_partial`, `C39_written_refuted`, `C40_formula`, `C40_parameters_refuted`, `C40_range_texts_refuted`, `C40_shifted`, `C40_single_partial`, `C40_text_table`, `C56_markup_refuted`, `C56_results`, `C56_round_trip`
* `CutProps.v`: `C70_interrupted`, `C70_records`, `C70_writes`
* `IdentProps.v`: `C67_file`, `C68_mark`, `C68_unfinished_refuted`
* `Meas3Props.v`: `C74_file`, `C75_stopped`
* `MeasProps.v`: `C69_file`, `C69_measurement`, `C69_records`
* `Meta3Props.v`: `C73_author_refuted`, `C73_blank_name_refuted`, `C73_channel_group_partial`, `C73_channel_partial`, `C73_conversion_partial`, `C73_data_group_partial`, `C73_file_partial`, `C73_name`, `C73_reduction_refuted`
* `MetaProps.v`: `C64_channel`, `C64_channels`, `C64_composition_refuted`, `C64_conversion`, `C64_mixed_refuted`, `C65_channel_group_partial`, `C65_data_group_partial`, `C65_links`, `C65_measurement_partial`
* `StrProps.v`: `C85_file`, `C85_measurement`
* `ValueProps.v`: `C80_file`, `C80_measurement`, `C81_conversion_refuted`, `C81_distinct_partial`, `C81_distinct_refuted`, `C81_error_partial`, `C81_order`, `C81_pretrigger_refuted`, `C81_race_refuted`, `C81_timestamp`, `C81_too_small_refuted`, `C81_whole`
