{"id": "C01", "title": "Linked list behaves like a sequence under every call history", "statement": "For every history of MP4MakeLinkedList / MP4AddListEntry / MP4PrependListEntry / MP4DeleteListEntry / MP4GetListEntry / MP4GetListEntryCount calls on one list, the list behaves as a plain mathematical sequence: an index below the count returns the element at that index, an index at or beyond the count returns MP4BadParamErr, deleting removes exactly that position, and the internal last-lookup cache never changes any answer.", "quantifier": "every finite interleaving of operations, every index, every list length", "why_tests_cant": "A unit test exercises one call order; the cached cursor makes the answer depend on the whole history of lookups, inserts and deletes.", "anchors": ["IsoLib/libisomediafile/src/MP4LinkedList.c: MP4MakeLinkedList, MP4PrependListEntry, MP4AddListEntry, MP4GetListEntry, MP4GetListEntryCount, MP4DeleteListEntry"]}
{"id": "C02", "title": "Handles hold exactly the bytes put in them", "statement": "For every history of MP4NewHandle / MP4SetHandleSize / MP4HandleCat / MP4GetHandleSize on distinct handles whose total size stays below 2^32, a handle's reported size and contents are those of a byte string: growing keeps the old bytes, shrinking truncates, MP4HandleCat appends the source's bytes and leaves the source untouched. Concatenating a handle to itself, or a total of 2^32 or more, does not have this property.", "quantifier": "every sequence of handle operations and every size", "why_tests_cant": "Sizes near 2^32 and self-concatenation cannot be enumerated; the interplay of allocated size, offset and size is history dependent.", "anchors": ["IsoLib/libisomediafile/src/MP4Handle.c: MP4NewHandle, MP4SetHandleSize, MP4GetHandleSize, MP4HandleCat, MP4SetHandleOffset"]}
{"id": "C03", "title": "A memory input stream never reads outside its buffer and reads big-endian", "statement": "For every buffer and every sequence of read8/read16/read32/readData/skipData requests, each request either consumes exactly the requested number of bytes from the front of the unread part and returns their big-endian value, or fails with MP4IOErr leaving the unread part unchanged when fewer bytes are available; no access outside the buffer happens. Exception in the code: a memory stream accepts a rewind past its start (refuted).", "quantifier": "every buffer contents/length and every request sequence", "why_tests_cant": "Out-of-bounds behaviour depends on all lengths and all request interleavings.", "anchors": ["IsoLib/libisomediafile/src/MP4MemoryInputStream.c: read8, read16, read32, readData, skipData, rewindData", "IsoLib/libisomediafile/src/MP4FileMappingInputStream.c: read8, read16, read32, readData"]}
{"id": "C04", "title": "Box header size and type survive a write/read cycle", "statement": "Every box header the library writes (32-bit size, or size field 1 with a 64-bit size; full boxes with version and flags) is parsed back to the same size, type, version and flags, and the number of header bytes consumed equals the number written. Exception in the code: a size field of 0 with 2^32 or more bytes left is misread (refuted).", "quantifier": "every type code, size and version/flags value", "why_tests_cant": "The space of 2^32 types times 2^64 sizes cannot be tested; boundaries at 2^32 are exactly where mistakes hide.", "anchors": ["IsoLib/libisomediafile/src/MP4Atoms.c: MP4SerializeCommonBaseAtomFields, MP4SerializeCommonFullAtomFields, MP4ParseAtomUsingProtoList, fullAtomCreateFromInputStream"]}
{"id": "C05", "title": "Parsing any byte string terminates and stays inside it", "statement": "For every byte string, box parsing terminates (recursion depth and the number of steps are bounded by the input length), returns a box tree or an error code, and never consumes more bytes than the string holds. Exception in the code: the number of steps is not bounded when a box announces a 64-bit size (refuted).", "quantifier": "every input byte string, every nesting depth", "why_tests_cant": "Hostile or truncated files form an infinite input space; fuzzing samples it.", "anchors": ["IsoLib/libisomediafile/src/MP4Atoms.c: MP4ParseAtomUsingProtoList, MP4ParseAtom", "IsoLib/libisomediafile/src/MP4Impl.h: PARSE_ATOM_LIST, GETATOM_LIST", "IsoLib/libisomediafile/src/UnknownAtom.c: createFromInputStream"]}
{"id": "C06", "title": "A tree of boxes written and read back is the same tree", "statement": "For every tree of container boxes and opaque boxes whose total size is below 2^32, the size announced by calculateSize is exactly the number of bytes written by serialize, and parsing those bytes yields the same tree (types, order, payload bytes), consuming exactly that many bytes and leaving following bytes untouched. Free-space boxes are the only ones dropped.", "quantifier": "every box tree of any depth and width", "why_tests_cant": "Trees are unbounded; the property composes size calculation, serialization and parsing recursively.", "anchors": ["IsoLib/libisomediafile/src/MP4Impl.h: ADD_ATOM_LIST_SIZE, SERIALIZE_ATOM_LIST, PARSE_ATOM_LIST", "IsoLib/libisomediafile/src/MP4Atoms.c", "IsoLib/libisomediafile/src/UnknownAtom.c", "IsoLib/libisomediafile/src/MovieAtom.c", "IsoLib/libisomediafile/src/TrackAtom.c", "IsoLib/libisomediafile/src/FreeSpaceAtom.c"]}
{"id": "C07", "title": "Decoding time of a sample is the sum of earlier durations", "statement": "After any sequence of sample additions with given durations (total below 2^32), asking the decoding time of sample n returns the sum of the durations of samples 1..n-1 and the duration of sample n, for every n from 1 to the number of samples.", "quantifier": "every sequence of additions, every sample number", "why_tests_cant": "Run-length compression boundaries depend on the whole history.", "anchors": ["IsoLib/libisomediafile/src/TimeToSampleAtom.c: addSample, addSamples, getTimeForSampleNumber, getTotalDuration"]}
{"id": "C08", "title": "Sample time lookups do not depend on earlier lookups", "statement": "The answer to a decoding-time query depends only on the samples added so far, not on which queries were made before (the lookup cache is transparent). If the claim fails, a history exhibiting it must exist. Exception in the code: asking for a sample beyond the end and then extending the last run leaves a stale cache (refuted with a history); the claim is for questions about samples that exist, or after which nothing is added.", "quantifier": "every interleaving of additions, extensions and lookups", "why_tests_cant": "Cache staleness appears only for particular query/add interleavings.", "anchors": ["IsoLib/libisomediafile/src/TimeToSampleAtom.c: getTimeForSampleNumber, addSample, extendLastSampleDuration"]}
{"id": "C09", "title": "Media time to sample number finds the covering sample", "statement": "For every table of positive durations and every time before the total duration, the media-time lookup returns as prior sample the unique sample whose interval [start, start+duration) contains the time (or reports it as exact when it starts there), and the next sample is its successor. Exceptions in the code: a sample that starts at the time is reported as exact only if it is the first of a run of equal durations, and the decoding time reported for other samples of a run is all ones (refuted); past the end the number after the last sample is returned.", "quantifier": "every duration table and every time", "why_tests_cant": "All times and all run-length layouts cannot be enumerated.", "anchors": ["IsoLib/libisomediafile/src/TimeToSampleAtom.c: findSamples", "IsoLib/libisomediafile/src/MP4Media.c: MP4MediaTimeToSampleNum, MediaNextInterestingTime"]}
{"id": "C10", "title": "Composition offsets are kept per sample", "statement": "After any sequence of sample batches carrying composition offsets, the offset returned for sample n is the one given for it (0 for samples added in batches without offsets). Exception in the code: if the first batches come without offsets and a later one with, the offsets are attached to the wrong samples (refuted).", "quantifier": "every sequence of batches with and without offsets", "why_tests_cant": "Lazy creation of the table and gap filling depend on the whole batch history.", "anchors": ["IsoLib/libisomediafile/src/DecodingOffsetAtom.c: addSample, addSamples, getOffsetForSampleNumber", "IsoLib/libisomediafile/src/SampleTableAtom.c: addSamples"]}
{"id": "C11", "title": "Sample sizes are kept per sample", "statement": "After any sequence of sample batches (one common size, or one size per sample) the size returned for sample n is the size given for that sample, for every n in range; sample 0 and numbers past the end return MP4BadParamErr. Exception in the code: a table read back from a file without samples loses the sizes of a first batch of equal sizes when a different size follows (refuted).", "quantifier": "every sequence of batches mixing constant and per-sample sizes", "why_tests_cant": "The constant-size representation is converted to a table at history-dependent moments.", "anchors": ["IsoLib/libisomediafile/src/SampleSizeAtom.c: addSamples, getSampleSize, getSampleSizeAndOffset"]}
{"id": "C12", "title": "Sample size box round trip including compact field sizes", "statement": "Writing a sample size table as stsz, or as stz2 with 4-, 8- or 16-bit fields when every size fits the field, and reading it back returns the same sample count and the same size for every sample, and the announced box size is exact. Sizes that do not fit the chosen field are cut off (refuted), and a box announcing 2^32-1 samples overruns its buffer (refuted).", "quantifier": "every table and every permitted field size", "why_tests_cant": "Odd counts, nibble packing and field-size limits multiply over unbounded tables.", "anchors": ["IsoLib/libisomediafile/src/SampleSizeAtom.c: setfieldsize, serialize, calculateSize, createFromInputStream"]}
{"id": "C13", "title": "Sample to chunk mapping follows the chunk runs", "statement": "For every run table with ascending first-chunk numbers and positive samples-per-chunk, looking up sample n returns the chunk that contains it, the first sample of that chunk, and the sample description index of the run that chunk belongs to. Exceptions in the code: for the first sample of a run the description index of the previous run is returned, and a run of chunks without samples divides by zero (both refuted).", "quantifier": "every run table, every sample number, every lookup order", "why_tests_cant": "Off-by-one errors at run boundaries depend on all run lengths; the lookup cache adds history dependence.", "anchors": ["IsoLib/libisomediafile/src/SampleToChunkAtom.c: setEntry, lookupSample"]}
{"id": "C14", "title": "Chunk offsets survive write/read and 64-bit promotion is automatic", "statement": "Writing a chunk offset table picks the 64-bit box exactly when some offset needs more than 32 bits, the announced size is exact, and reading back returns the same offsets in order.", "quantifier": "every list of 64-bit offsets", "why_tests_cant": "Promotion boundary at 2^32 with unbounded table length.", "anchors": ["IsoLib/libisomediafile/src/ChunkOffsetAtom.c: calculateSize, serialize, createFromInputStream, addOffset, getChunkOffset"]}
{"id": "C15", "title": "Saving a movie does not change it", "statement": "Writing a movie to a handle shifts the chunk offsets that point into the media data by the header size and shifts them back afterwards: when every offset lies inside the media data and the shift fits, the table after the save equals the table before it, so saving twice gives the same bytes. Offsets outside the media data are not touched. Exceptions in the code: an own chunk just past the end of the media data is moved down by a save, tracks with auxiliary information offsets read past the end of that table, an offset pushed over 4 GiB by the shift is cut off, and heads of 2 GiB or more flip the sign of the shift (all refuted).", "quantifier": "every offset table, media data size and header size", "why_tests_cant": "The shift-back uses a different interval than the shift; overlap of the two intervals depends on all values.", "anchors": ["IsoLib/libisomediafile/src/MP4MovieFile.c: LocalPutMovieIntoHandle", "IsoLib/libisomediafile/src/ChunkOffsetAtom.c: mdatMoved", "IsoLib/libisomediafile/src/SampleToChunkAtom.c: mdatMoved", "IsoLib/libisomediafile/src/ItemLocationAtom.c: mdatMoved"]}
{"id": "C16", "title": "Sync sample marking is kept per sample", "statement": "After any sequence of batches marking all samples, some samples or none as sync samples, asking whether sample n is a sync sample answers yes exactly for the samples marked, and when no sync table exists every sample is a sync sample. Exceptions in the code: a batch added without a list after a non-sync sample occurred is taken as not sync, lists must be ascending, and a table read back without entries is taken for a new one (all refuted).", "quantifier": "every sequence of batches, every sample number", "why_tests_cant": "The sync table is created lazily and back-filled; correctness depends on the whole history.", "anchors": ["IsoLib/libisomediafile/src/SyncSampleAtom.c: addSamples, isSyncSample", "IsoLib/libisomediafile/src/SampleTableAtom.c: addSamples"]}
{"id": "C17", "title": "Every sample added is read back with its own bytes, size and times", "statement": "For every history of sample batches added to a media in its own file, reading sample n returns exactly the bytes supplied for sample n, with its size, decoding time, composition offset, duration and sync flag. This holds for tracks whose batches carry offsets from the first one on or never, and that say which samples are sync once a non-sync sample occurred, for questions about existing samples, fewer than 2^29-1 samples, and total time and data below 2^32. Exceptions in the code: sizes that do not add up to the data are accepted, and an empty sample cannot be fetched by time (both refuted).", "quantifier": "every sequence of batches, every sample", "why_tests_cant": "It composes five run-length tables and the media data; each batch history is a different path.", "anchors": ["IsoLib/libisomediafile/src/SampleTableAtom.c: addSamples", "IsoLib/libisomediafile/src/MediaInformationAtom.c: addSamples", "IsoLib/libisomediafile/src/MP4Media.c: MP4AddMediaSamples, MP4GetIndMediaSample", "IsoLib/libisomediafile/src/MediaDataAtom.c: addData", "IsoLib/libisomediafile/src/MdatDataHandler.c: copyData"]}
{"id": "C18", "title": "Time tables survive write/read", "statement": "Time-to-sample, composition-offset, sync-sample, shadow-sync, sample-dependency, degradation-priority and padding-bits boxes written and read back give the same answers for every sample, the announced size is exact, and truncated input yields an error rather than a different table. Exception in the code: stss and padb boxes announcing 2^32-1 entries overrun their buffer (refuted).", "quantifier": "every table contents and length", "why_tests_cant": "Unbounded tables; each field boundary.", "anchors": ["IsoLib/libisomediafile/src/TimeToSampleAtom.c", "IsoLib/libisomediafile/src/DecodingOffsetAtom.c", "IsoLib/libisomediafile/src/SyncSampleAtom.c", "IsoLib/libisomediafile/src/SampleDependencyAtom.c", "IsoLib/libisomediafile/src/DegradationPriorityAtom.c", "IsoLib/libisomediafile/src/PaddingBitsAtom.c", "IsoLib/libisomediafile/src/ShadowSyncAtom.c"]}
{"id": "C19", "title": "Media language codes round trip", "statement": "Setting a three-letter language code and getting it back returns the same three letters, for every code made of characters in the packable range, and two different such codes never pack to the same 16-bit value. Characters below 96 are outside the packable range; packing them shifts a negative number (refuted).", "quantifier": "every triple of characters", "why_tests_cant": "Bit packing; 32^3 codes and what happens outside the range.", "anchors": ["IsoLib/libisomediafile/src/MP4Media.c: MP4SetMediaLanguage, MP4GetMediaLanguage"]}
{"id": "C20", "title": "Edit lists survive write/read", "statement": "An edit list written and read back has the same entries (segment duration, media time including empty edits, rate) in order, with exact size; with the 32-bit version this requires the values to fit 32 bits. Exception in the code: the library never chooses the 64-bit version itself, so longer segments, which the insertion call accepts, are cut off (refuted).", "quantifier": "every edit list", "why_tests_cant": "Version choice, sign extension of -1 and rate scaling over unbounded lists and 64-bit values.", "anchors": ["IsoLib/libisomediafile/src/EditListAtom.c: serialize, calculateSize, createFromInputStream, insertSegment"]}
{"id": "C21", "title": "Edit lists map presentation time to media time", "statement": "For a track whose edit list has one segment per interval, the mapping of a track time to a media time returns the media time of the segment containing that track time plus the elapsed time inside the segment, converted between time scales. The segments themselves (start, media time, duration, track offset, order of insertion, total duration) are always reported right. The map of a time holds for tracks without edits and inside the last segment, at whole seconds after its start. Exceptions in the code: fractions of a second are dropped, in an earlier segment a later one long enough is used instead, and in an empty edit memory outside the list is read (all refuted).", "quantifier": "every edit list, time and pair of time scales", "why_tests_cant": "Time scale conversion truncation and segment boundaries over 64-bit values.", "anchors": ["IsoLib/libisomediafile/src/EditListAtom.c: getTimeAndRate, getTrackOffset, setTrackOffset, getEffectiveDuration, getIndSegmentTime", "IsoLib/libisomediafile/src/MovieTracks.c: MP4TrackTimeToMediaTime"]}
{"id": "C22", "title": "Track fragment runs survive write/read", "statement": "A track run and a track fragment header written and read back give the same per-sample durations, sizes, flags and composition offsets for the fields announced present, for every combination of the optional-field flags, and the announced size is exact. Unknown flag bits are not among the combinations: the reader skips fields for them that the writer does not write.", "quantifier": "every flag combination and sample list", "why_tests_cant": "Optional fields per sample multiply with the length.", "anchors": ["IsoLib/libisomediafile/src/TrackFragmentRunAtom.c: serialize, calculateSize, createFromInputStream, setFlags, calculateDefaults", "IsoLib/libisomediafile/src/TrackFragmentHeaderAtom.c"]}
{"id": "C23", "title": "Default compression in fragments is lossless", "statement": "Omitting per-sample fields in favour of track or fragment defaults never changes what a reader reconstructs: for every run the duration, size, flags and offset recovered for each sample from the written fields plus defaults equal the ones added. For a whole movie this holds below 2 GiB, for additions of at least one sample, with sync samples and offsets as in C17 and without padding, when not all samples of a fragment are empty. Exceptions in the code: sync samples after others in a later addition are read back as not sync, offsets that start late are attached to other samples, padding and one common offset read memory outside the arguments, an addition of no samples makes the writer read a sample that does not exist, the sample description of the fragment is ignored, runs and track fragments that leave their position implied are put in the wrong place, and a fragment for a track without defaults uses an uninitialised pointer (all refuted).", "quantifier": "every run of samples and every set of track defaults", "why_tests_cant": "Default choice depends on all samples of a run and interacts with zero meaning unset.", "anchors": ["IsoLib/libisomediafile/src/TrackFragmentAtom.c: calculateSize, mergeRuns, addSamples", "IsoLib/libisomediafile/src/TrackFragmentRunAtom.c: setFlags, calculateDefaults"]}
{"id": "C24", "title": "Sample group assignment is kept per sample", "statement": "After any sequence of adding samples and mapping ranges of samples to a group description index, the group index returned for sample n is the last one mapped to it (0 if none), ranges outside the track are rejected without any change, and no memory outside the table is touched. Exceptions in the code: a negative index reaching before the first sample, and an index and count whose sum passes 2^32, write outside the table (refuted).", "quantifier": "every sequence of add/map operations including negative indices", "why_tests_cant": "Signed/unsigned index arithmetic over all ranges and histories.", "anchors": ["IsoLib/libisomediafile/src/SampleToGroupAtom.c: addSamples, mapSamplestoGroup, getSampleGroupMap"]}
{"id": "C25", "title": "Sample-to-group boxes survive write/read", "statement": "Writing a sample-to-group map in run-length form and reading it back returns the same group index for every sample and the announced size is exact. Exceptions in the code: a map without samples cannot be saved (memory outside the table is read), and a box announcing a run of 2^30 samples makes the reader write outside its table (refuted).", "quantifier": "every group index sequence", "why_tests_cant": "Run boundaries over unbounded sequences.", "anchors": ["IsoLib/libisomediafile/src/SampleToGroupAtom.c: serialize, calculateSize, createFromInputStream"]}
{"id": "C26", "title": "Compact sample-to-group boxes are lossless", "statement": "The pattern-compressed (csgp) form of a sample-to-group map, as chosen by the library's pattern search, expands back to the same group index for every sample. This holds for up to 2^25 samples and 34 patterns, which any 34 samples need at most, for a first save. Exceptions in the code: with more patterns the reader overruns a text buffer, groups mapped after a save are not saved, a box read back and saved again keeps four bits of each index, and the reader accepts truncated boxes and empty patterns with undefined results (all refuted).", "quantifier": "every group index sequence and pattern choice", "why_tests_cant": "The encoder is a dynamic program over all pattern lengths and starts; only a proof covers all sequences.", "anchors": ["IsoLib/libisomediafile/src/SampleToGroupAtom.c: InitializeSampleGroupInput, FindPatternsStartingAtIndex, SetMemoryCostForPattern, CombineNonPatterns, CreateCompactSampleGroups, GetData, PackData"]}
{"id": "C27", "title": "Sample group descriptions are indexed stably", "statement": "Adding a group description returns an index from which exactly those bytes are read back from then on, equal descriptions are never stored twice, and index 0 or an index beyond the count is rejected; the box round trips. Exceptions in the code: a refused empty description leaves an empty box behind whose saving reads through a null pointer, and boxes of versions 0 and 2 are not written back as read (refuted).", "quantifier": "every sequence of added descriptions", "why_tests_cant": "Index stability over unbounded histories.", "anchors": ["IsoLib/libisomediafile/src/SampleGroupDescriptionAtom.c: addGroupDescription, getGroupDescription, findGroupDescriptionIdx, serialize, calculateSize, createFromInputStream"]}
{"id": "C28", "title": "Item location boxes survive write/read", "statement": "The item location box written and read back gives the same item ids, construction methods, base offsets and extents, with field widths chosen wide enough for every value and exact size. Exception in the code: the width is chosen before the positions are moved to their place in the file, so a position moved past 4 GiB is cut to 32 bits (refuted).", "quantifier": "every item/extent list", "why_tests_cant": "Field width selection is a global maximum over unbounded lists.", "anchors": ["IsoLib/libisomediafile/src/ItemLocationAtom.c: serialize, calculateSize, createFromInputStream"]}
{"id": "C29", "title": "Item data is read back as it was added", "statement": "Reading the data of a metadata item returns the concatenation, in order, of the extents added to that item, regardless of what was added to other items. This holds for distinct item ids, pieces that are not empty and are all of one kind, and less than 4 GiB of data. Exceptions in the code: of an item in the media data that was not the first there, the first piece is read from twice its offset; pieces of different kinds and empty pieces are accepted and read wrongly; an item made part of itself is read without end; locations of a file that are out of range are read outside the data; and the positions written to a file are, by the standard's rule, wrong (all refuted).", "quantifier": "every interleaving of extent additions to any items", "why_tests_cant": "Offsets accumulate across items; the base offset/extent offset split is history dependent.", "anchors": ["IsoLib/libisomediafile/src/ISOMeta.c: ISOAddItemExtent, ISOAddItemExtentUsingItemData, ISOGetItemData", "IsoLib/libisomediafile/src/ItemDataAtom.c: getData"]}
{"id": "C30", "title": "Item ids are unique", "statement": "Two items created in one meta box never have the same item id: requesting an id already in use is rejected and automatically assigned ids are fresh. Exceptions in the code: an id in use is not rejected when asked for, after id 65535 there are no automatic ids, and in a file that was opened automatic ids start again at 1 (all refuted). Automatic ids are fresh, and ids distinct, in all histories where no chosen id was in use and none reached 65535.", "quantifier": "every sequence of item creations with chosen or automatic ids", "why_tests_cant": "Freshness is a property of the whole history including 16-bit wrap-around.", "anchors": ["IsoLib/libisomediafile/src/ISOMeta.c: requestItemID, ISOAddMetaItem, ISOAddMetaItemWithID"]}
{"id": "C31", "title": "Track ids are unique", "statement": "Two tracks created in one movie never have the same track id, chosen ids already in use are refused, and the next track id stays larger than every id in use as long as ids stay below 2^32-1. Exceptions in the code: after the id 2^32-1 the next id is 0, so no automatic id is left and ids in use are given again; so they are in a movie opened from a file whose header names a next id not above the ids in use (both refuted).", "quantifier": "every sequence of track creations with chosen or automatic ids", "why_tests_cant": "History property including 32-bit wrap-around.", "anchors": ["IsoLib/libisomediafile/src/MovieAtom.c: requestTrackID, newTrackWithID, newTrack"]}
{"id": "C32", "title": "Descriptor lengths are encoded and decoded consistently", "statement": "The variable-length size of an MPEG-4 descriptor written by the library is decoded to the same value by its reader, the header size announced is exact, and a descriptor whose length exceeds the input is rejected. Exceptions in the code: lengths of 2^28 or more lose their high bits; descriptors with fields of a fixed size and descriptors whose length makes the 32-bit size wrap are accepted although the input is shorter than announced; a stream priority of 32 or more turns into flags, a predefined synchronization configuration other than 2 and a duration beside it are not read back, an initial object descriptor with a URL loses its other descriptors; reading an IPMP tool or tool description overwrites the stack; MP4CopyDescriptor reports no error when it fails (refuted).", "quantifier": "every length and every input byte string", "why_tests_cant": "Length bytes 7-bit groups over the full 32-bit range.", "anchors": ["IsoLib/libisomediafile/src/MP4Descriptors.c: MP4ParseDescriptor", "IsoLib/libisomediafile/src/BaseDescriptor.c", "IsoLib/libisomediafile/src/MP4DefaultDescriptor.c"]}
{"id": "C33", "title": "Elementary stream packet headers round trip", "statement": "A synchronization-layer packet produced for a sample carries the sequence number modulo 32, the sync flag and the decoding/composition time such that a reader following the header layout recovers them, followed by exactly the sample bytes. Exceptions in the code: a sample whose size and header together reach 2^32 bytes overflows the packet buffer; once a configuration is set no packets are made (refuted).", "quantifier": "every sample, time pair and sequence number", "why_tests_cant": "Bit packing over all values and presence flags.", "anchors": ["IsoLib/libisomediafile/src/MP4SLPacket.c: MP4GetElementaryStreamPacket", "IsoLib/libisomediafile/src/MP4OrdinaryTrackReader.c: getNextPacket"]}
{"id": "C34", "title": "A track reader delivers every sample once and in order", "statement": "Reading a track without edits delivers samples 1..n in order, each exactly once, with decoding time equal to the sample's media time, and then reports end of file. Exceptions in the code: times are reported in 32 bits, so a decoding time of 2^31 or more comes out negative and a composition time outside the range is undefined behaviour (refuted).", "quantifier": "every track contents", "why_tests_cant": "Property of the whole read history.", "anchors": ["IsoLib/libisomediafile/src/MP4OrdinaryTrackReader.c: getNextAccessUnit, getNextSegment, setupReader"]}
{"id": "C35", "title": "Auxiliary information boxes survive write/read and merge", "statement": "Sample auxiliary information sizes and offsets keep per-sample sizes and chunk offsets under addition, survive write/read with exact size, and the offset box picks 64-bit fields when needed. This holds for information below 256 bytes per sample and below 4 GiB of media. Exceptions in the code: the offset box is never given 64-bit fields, so offsets past 4 GiB are cut off; reading a size box with individual sizes stores up to three bytes past the end of its array, so such boxes read back only where the array has that much room; longer information is cut off; a call refused for its number of sizes has already counted its samples; a file with a size box but no offset box makes a lookup use an uninitialised pointer (all refuted).", "quantifier": "every table of sizes and offsets", "why_tests_cant": "Constant-size collapse and 64-bit promotion over unbounded tables.", "anchors": ["IsoLib/libisomediafile/src/SampleAuxiliaryInformationSizesAtom.c", "IsoLib/libisomediafile/src/SampleAuxiliaryInformationOffsetsAtom.c"]}
{"id": "C36", "title": "Segment index boxes survive write/read", "statement": "Segment index and subsegment index boxes written and read back give the same references (type, size, duration, SAP fields), with exact size; every field within its bit width is preserved. Exceptions in the code: a segment index with n > 0 references announces 4n bytes too many, is read with 65536 - n references (an error unless that many bytes follow), and sizes of 32768 or more are cut; a subsegment index is written with levels shifted too far and with the wrong range of each subsegment, or not at all (refuted). Segment index version 1 is not supported.", "quantifier": "every reference list and bit-field value", "why_tests_cant": "Bit packing and version-dependent field widths over unbounded lists.", "anchors": ["IsoLib/libisomediafile/src/SegmentIndexAtom.c", "IsoLib/libisomediafile/src/SubsegmentIndexAtom.c", "IsoLib/libisomediafile/src/SubSampleInformationAtom.c"]}
{"id": "C37", "title": "Movie, track and media headers survive write/read", "statement": "Movie, track and media header boxes written and read back have the same times, time scale, durations, ids and matrix; the 64-bit version is used when a time needs it, and values that fit are never altered. Exception in the code: the library never chooses the 64-bit version itself, so creation times from 2^32 seconds (year 2040) on are cut off (refuted).", "quantifier": "every field value", "why_tests_cant": "Version selection at the 2^32 boundary for several independent fields.", "anchors": ["IsoLib/libisomediafile/src/MovieHeaderAtom.c", "IsoLib/libisomediafile/src/TrackHeaderAtom.c", "IsoLib/libisomediafile/src/MediaHeaderAtom.c"]}
{"id": "C38", "title": "Media data offsets stay valid as data is appended", "statement": "The offset at which a block of data is appended to the media data is the previous size, blocks never overlap, and bytes already appended never change. Exception in the code: the size field of the written box wraps for data of 2^32-8 to 2^32-1 bytes (refuted).", "quantifier": "every sequence of appended blocks", "why_tests_cant": "Growth policy and reallocation over unbounded histories.", "anchors": ["IsoLib/libisomediafile/src/MediaDataAtom.c: addData, addMdat", "IsoLib/libisomediafile/src/MdatDataHandler.c: copyData, getDataSize"]}
{"id": "C39", "title": "Track references are indexed stably", "statement": "Adding a reference to a track id returns an index from which that id is read back from then on; adding the same id again returns the same index; the box round trips. Exceptions in the code: the index returned when an id is added again is the index of the last id; references of type 0 can be added but not read (both refuted).", "quantifier": "every sequence of additions", "why_tests_cant": "Stability over unbounded histories.", "anchors": ["IsoLib/libisomediafile/src/TrackReferenceTypeAtom.c: addTrackID", "IsoLib/libisomediafile/src/MovieTracks.c: MP4AddTrackReference, MP4GetTrackReference, MP4GetTrackReferenceCount"]}
{"id": "C40", "title": "Item property associations keep their properties", "statement": "Associating properties with items and asking for the properties of an item returns exactly those associated, in order; the association box round trips with indices of 7 or 15 bits as announced. Exceptions in the code: asking before anything was associated dereferences a null pointer; the essential flag of a 15-bit index is read as part of the index; indices are always written with 7 bits, so properties from the 128th on are lost in the file; the 256th association of an item is not counted in the file; the 65536th property gets the index 0 (refuted).", "quantifier": "every sequence of associations", "why_tests_cant": "Index width selection and sharing over unbounded histories.", "anchors": ["IsoLib/libisomediafile/src/ItemPropertyAssociationAtom.c", "IsoLib/libisomediafile/src/ItemPropertiesAtom.c", "IsoLib/libisomediafile/src/ItemPropertyContainerAtom.c"]}
{"id": "C41", "title": "Composition summary bounds the offsets and composition times", "statement": "When signed composition offsets are used, the composition summary kept for the track always holds the least and greatest offset given so far, the shift that makes every composition time reach its decoding time (0, or minus the least offset), and the earliest and latest composition time of a sample, for any sequence of batches. Exception in the code: batches added without offsets are not reported to the summary (refuted).", "quantifier": "every sequence of batches of samples with durations and signed offsets whose composition times fit 32 bits", "why_tests_cant": "The summary is folded over the whole history; tests check a few streams.", "anchors": ["CompositionToDecodeAtom.c: updateFields", "SampleTableAtom.c: addSamples"]}
{"id": "C42", "title": "Sample dependency flags are kept per sample", "statement": "Setting dependency flags for a range of samples (counted from the start, or from the end with a negative index) and asking for them returns, for every sample, the flags set last, 0 for samples never set and past the end; ranges that do not fit are rejected and change nothing. Exception in the code: a negative index reaching before the first sample is not rejected (refuted).", "quantifier": "every history of adding samples, setting ranges and asking", "why_tests_cant": "Ranges, growth and late creation of the table interact over unbounded histories.", "anchors": ["IsoLib/libisomediafile/src/SampleDependencyAtom.c", "IsoLib/libisomediafile/src/SampleTableAtom.c: setSampleDependency, getSampleDependency"]}
{"id": "C43", "title": "Padding bits are kept per sample", "statement": "The padding returned with a sample is the one given when it was added (one value for the batch, or one per sample), 0 for samples added without, also when the table is created late; a track without any padding information says so. Written and read back, the low three bits are kept.", "quantifier": "every sequence of batches with and without padding", "why_tests_cant": "The table is created at a history-dependent moment and packed two samples to a byte.", "anchors": ["IsoLib/libisomediafile/src/PaddingBitsAtom.c", "IsoLib/libisomediafile/src/SampleTableAtom.c: addSamples"]}
{"id": "C44", "title": "Several media data boxes are joined without losing chunks", "statement": "Opening a file with any number of media data boxes gives a movie in which every chunk kept in this file designates the same bytes as in the file, whichever box they were in. Exception in the code: media data starting at 2 GiB or later is moved the wrong way (refuted).", "quantifier": "every number, position and length of media data boxes in file order, every chunk table", "why_tests_cant": "Each further box moves offsets already moved; a collision shows only for particular positions.", "anchors": ["IsoLib/libisomediafile/src/MP4Movies.c: MergeMovieData", "IsoLib/libisomediafile/src/MediaDataAtom.c: addMdat"]}
{"id": "C45", "title": "Fixed header boxes survive write/read", "statement": "Sound, video, hint, volumetric and the four empty media headers, movie fragment header, track extends, track fragment decode time, primary item, metabox relation, producer reference time, original format, bit rate and PCM configuration boxes written and read back have the same field values, the announced size is exact, and every truncated copy is rejected; on any other input the parsers return without touching memory outside it.", "quantifier": "every field value and every input", "why_tests_cant": "The field order and widths are fixed; a swapped or narrowed field shows only for values that differ there.", "anchors": ["IsoLib/libisomediafile/src/SoundMediaHeaderAtom.c", "IsoLib/libisomediafile/src/VideoMediaHeaderAtom.c", "IsoLib/libisomediafile/src/HintMediaHeaderAtom.c", "IsoLib/libisomediafile/src/TrackExtendsAtom.c", "IsoLib/libisomediafile/src/MovieFragmentHeaderAtom.c", "IsoLib/libisomediafile/src/TrackFragmentDecodeTimeAtom.c", "IsoLib/libisomediafile/src/PrimaryItemAtom.c", "IsoLib/libisomediafile/src/MetaboxRelationAtom.c", "IsoLib/libisomediafile/src/ProducerReferenceTimeAtom.c", "IsoLib/libisomediafile/src/OriginalFormatAtom.c", "IsoLib/libisomediafile/src/BitRateAtom.c", "IsoLib/libisomediafile/src/PCMConfigAtom.c"]}
{"id": "C46", "title": "The samples of a group can be listed", "statement": "Asking for the numbers of the samples in a group returns numbers in ascending order of samples that are in that group, and one for every unbroken run of them. Exceptions in the code: of several neighbouring samples only the last is listed, and on a track without samples memory outside the table is read (refuted).", "quantifier": "every sequence of additions, descriptions and mappings", "why_tests_cant": "What is listed depends on the whole map; a test sees a few maps.", "anchors": ["IsoLib/libisomediafile/src/SampleTableAtom.c: getSampleGroupSampleNumbers", "IsoLib/libisomediafile/src/MP4Media.c: ISOGetSampleGroupSampleNumbers"]}
{"id": "C47", "title": "Track groups keep the last id", "statement": "The group id of a type that was set last is the one read back; other types are not affected; the box round trips and reading any bytes is safe. Exception in the code: type 0 can be set but not read (refuted).", "quantifier": "every sequence of settings, every group box and byte string", "why_tests_cant": "Stability over unbounded histories.", "anchors": ["IsoLib/libisomediafile/src/MovieTracks.c: MP4AddTrackGroup, MP4GetTrackGroup", "IsoLib/libisomediafile/src/TrackGroupAtom.c", "IsoLib/libisomediafile/src/TrackGroupTypeAtom.c"]}
{"id": "C48", "title": "Item references are kept in order", "statement": "The ids an item refers to with a reference type are given back in the order in which they were added, whatever is added to other items or with other types, and following one of them gives the item with that id. The box that holds them is written with exact size, and in its large form read back as written. Exceptions in the code: several references added at once are lost when there are some already, an empty list hides what follows, the 65536th reference and reference number 0 are outside the array, and reading the small form, which is what is written, writes outside an allocation (all refuted).", "quantifier": "every sequence of item creations, additions of data and of references; every reference box", "why_tests_cant": "Entries of different items and types are kept in one list searched from the front.", "anchors": ["IsoLib/libisomediafile/src/ISOMeta.c: ISOAddItemReference, ISOAddItemReferences, ISOGetItemReferences, ISOGetItemReference", "IsoLib/libisomediafile/src/ItemReferenceAtom.c", "IsoLib/libisomediafile/src/SingleItemTypeReferenceAtom.c"]}
{"id": "C49", "title": "Sub-sample information comes back as added", "statement": "Sub-sample entries added to a track (sample delta, sizes, priorities, discardable fields, codec parameters) are returned in order with the flags set last, also after saving and opening the file; sizes of any 32-bit value are kept. Exceptions in the code: an entry without sub-samples, or with 65536, makes the file unreadable; priorities and discardable fields above 255 are accepted and cut in the file; of several boxes of a track only the first is returned; an array shorter than announced is read past its end (refuted).", "quantifier": "every sequence of entries added and flags set", "why_tests_cant": "Version promotion at sizes above 16 bits and counted arrays over unbounded histories.", "anchors": ["IsoLib/libisomediafile/src/SubSampleInformationAtom.c", "IsoLib/libisomediafile/src/MovieTracks.c: MP4AddSubSampleInformationToTrack, MP4AddSubSampleInformationEntry, MP4AddSubSampleInformationEntry2, MP4GetSubSampleInformationEntryFromTrack"]}
{"id": "C50", "title": "A reader follows the edit list", "statement": "Reading a track that has an edit list delivers, for each edit that presents media, the samples decoded in the edit's part of the media, in order, each at its decoding time moved to the edit's place in the movie and the last one cut at the end of the edit; empty edits only move what follows; after the last edit the end of the track is reported. Exceptions in the code: with an empty edit at the end the call that delivers the last access unit fails; an edit shorter than one unit of media time still presents a sample; an edit that lasts longer than the media ends with an error in place of the end; a movie time scale of 0 is a division by zero (refuted).", "quantifier": "every sequence of additions and reads, every track with samples of positive length, every edit list whose edits lie inside the media and that does not end with an empty edit, any movie and media time scales", "why_tests_cant": "the range of samples and times of each edit depends on divisions of products of time scales and on the positions in the sample table; unit tests fix one time scale and one or two edits", "anchors": ["IsoLib/libisomediafile/src/MP4OrdinaryTrackReader.c: getNextSegment, getNextAccessUnit, setupReader", "IsoLib/libisomediafile/src/EditListAtom.c: getIndSegmentTime, isEmptyEdit", "IsoLib/libisomediafile/src/MP4TrackReader.c: MP4CreateTrackReader, MP4TrackReaderGetNextAccessUnitWithDuration"]}
{"id": "C51", "title": "A boxed metadata reader delivers the items of its key", "statement": "For a boxed metadata track whose samples are sequences of items (length, key, payload), a reader opened for a local key delivers for each sample, at the times an ordinary reader would report, the payload of the item with that key, and no payload when there is none. Exceptions in the code: an item cut short, or whose length is less than eight or more than the sample has left, is read past the end of the sample; a packet for a sample without an item of the key has an undefined size (refuted).", "quantifier": "every sequence of items of any number and length in each sample, every key, with or without edits", "why_tests_cant": "the loop runs over lengths stored in the sample; the number, order and sizes of items cannot be enumerated", "anchors": ["IsoLib/libisomediafile/src/MP4OrdinaryTrackReader.c: getNextAccessUnit", "IsoLib/libisomediafile/src/MP4MebxTrackReader.c: MP4CreateMebxTrackReader", "IsoLib/libisomediafile/src/MP4TrackReader.c: MP4SetMebxTrackReader"]}
{"id": "C52", "title": "Text set on a movie is the text a reader gets", "statement": "The handler name of a media, the location of external media, the extended language tag, the copyright notice and the address of a protection scheme, once set and saved, are returned unchanged, byte for byte, by a reader of the file, with the numbers beside them. Exceptions in the code: a handler name whose first character has the code of its length is read back without that character; the name and location of a urn entry come back exchanged, and saved again it loses its name; a second language tag does not replace the first (refuted).", "quantifier": "every text of non-zero bytes of any length that fits its box, every value of the numbers beside it", "why_tests_cant": "where a text ends depends on its contents (terminating zero, length byte, QuickTime form), so every first byte and length matters; tests try a few names", "anchors": ["IsoLib/libisomediafile/src/HandlerAtom.c", "IsoLib/libisomediafile/src/DataEntryURLAtom.c", "IsoLib/libisomediafile/src/DataEntryURNAtom.c", "IsoLib/libisomediafile/src/ExtendedLanguageTag.c", "IsoLib/libisomediafile/src/CopyrightAtom.c", "IsoLib/libisomediafile/src/SchemeTypeAtom.c", "IsoLib/libisomediafile/src/MP4Media.c: MP4SetMediaExtendedLanguageTag, MP4GetMediaExtendedLanguageTag, MP4GetMediaHandlerDescription"]}
{"id": "C53", "title": "A file carries the brands it was given", "statement": "After any sequence of setting the brand and adding compatible brands, the file type box names the brand and version set last and every brand ever given exactly once, in the order given; a saved file answers the question whether it is compatible with a brand by yes exactly for those. Exceptions in the code: brand 0 is added again each time; a file whose list of compatible brands is empty cannot be opened again (refuted).", "quantifier": "every sequence of brand settings and additions", "why_tests_cant": "the list grows with the history and is searched before each addition; only an induction over the history covers all repetitions and orders", "anchors": ["IsoLib/libisomediafile/src/MJ2FileTypeAtom.c", "IsoLib/libisomediafile/src/MP4Movies.c: ISOSetMovieBrand, ISOSetMovieCompatibleBrand, ISOIsMovieCompatibleBrand"]}
{"id": "C54", "title": "Hostile text in a file does no harm", "statement": "Whatever bytes a file has where a handler name, a data location, an alias, a language tag or a copyright notice is expected, opening the file, asking for the text and saving it again read and write inside their buffers. Exceptions in the code: an empty handler name field, or one that holds neither a QuickTime string nor a terminated string of at most 237 characters, is read past its end or overruns a buffer; so is a location of less than 200 bytes without zero; an alias of more than 256 bytes overruns the stack; a longer location or a language tag without zero is read past its end when used or saved; an empty copyright notice cannot be saved (each characterised or refuted).", "quantifier": "every content of the text field, of any length, in a well-formed box", "why_tests_cant": "the bytes come from an adversary; tests cannot enumerate unterminated and over-long strings", "anchors": ["IsoLib/libisomediafile/src/HandlerAtom.c: createFromInputStream", "IsoLib/libisomediafile/src/DataEntryURLAtom.c: createFromInputStream, serialize", "IsoLib/libisomediafile/src/ExtendedLanguageTag.c", "IsoLib/libisomediafile/src/CopyrightAtom.c", "IsoLib/libisomediafile/src/MP4Media.c: MP4GetMediaExtendedLanguageTag"]}
{"id": "C55", "title": "Sample descriptions come back as they were attached", "statement": "Whatever sequence of sample descriptions is attached to a track, asking for the description with number k returns exactly the bytes of the k-th and its data reference index, every other number is refused, and after the track is saved and opened the answers are the same. Reading any description, from whatever source, is safe. Exceptions in the code: one to seven bytes after the boxes of a visual or MPEG description are dropped; in an audio description they (or any box that does not parse) make the library dereference a null pointer; a QuickTime sound description of version 1 loses its four extra numbers when saved (refuted).", "quantifier": "every sequence of descriptions of visual, audio, MPEG and all other types, with any extension boxes, every number, any bytes as description", "why_tests_cant": "a description is parsed when attached and serialised when asked for; a test can compare a few, the claim is about every type, tail and history", "anchors": ["IsoLib/libisomediafile/src/SampleDescriptionAtom.c", "IsoLib/libisomediafile/src/GenericSampleEntryAtom.c", "IsoLib/libisomediafile/src/MPEGSampleEntryAtom.c", "IsoLib/libisomediafile/src/VisualSampleEntryAtom.c", "IsoLib/libisomediafile/src/AudioSampleEntryAtom.c", "IsoLib/libisomediafile/src/MP4Media.c: MP4GetMediaSampleDescription", "IsoLib/libisomediafile/src/ISOSampleDescriptions.c: sampleEntryHToAtomPtr, ISONewGeneralSampleDescription"]}
{"id": "C56", "title": "Calls on a description handle change only what they name", "statement": "Setting the dimensions of a visual description changes these four bytes of the handle and nothing else, and they are what is returned afterwards. A box added to a description is found again by its type, unless one of that type was there before, and all other boxes stay. Exceptions in the code: setting or getting dimensions takes an audio or MPEG description for a visual one; a box added to a description whose type the library does not know is never found again (refuted).", "quantifier": "every visual description and every pair of dimensions; every description and every box added to it", "why_tests_cant": "each call parses and serialises the whole handle; that no other byte changes must hold for all contents", "anchors": ["IsoLib/libisomediafile/src/ISOSampleDescriptions.c: ISOSetSampleDescriptionDimensions, ISOGetSampleDescriptionDimensions, ISOGetSampleDescriptionType, ISOAddAtomToSampleDescription, ISOGetAtomFromSampleDescription"]}
{"id": "C57", "title": "Data references keep their numbers", "statement": "A data reference added to a media gets the next number; under that number, now and after any further additions, and after the file is saved and opened, the media returns the kind and location that were given, and every number not given out is refused. Exceptions in the code: asked for the name of a urn reference, the media returns the location cut to the length of the name, reads past it if it is shorter, and writes through the location handle even if there is none (refuted).", "quantifier": "every history of added references with locations of any length", "why_tests_cant": "numbers given out early must stay valid whatever is added later; a property of histories", "anchors": ["IsoLib/libisomediafile/src/DataReferenceAtom.c", "IsoLib/libisomediafile/src/MP4Media.c: MP4AddMediaDataReference, MP4GetMediaDataReference"]}
{"id": "C58", "title": "Saving a movie and opening the file gives the movie back", "statement": "Writing a movie to a file or a handle leaves the movie as it was. The file starts with the file level boxes and the movie box and ends with the media data; every chunk offset in the file leads to the bytes the chunk had in the media data, chunks in other files keep their offsets. Opening the file gives the same boxes in the same order, the same chunk offsets into the media data and the same media data, free space boxes and caches left out. Exceptions in the code: a movie without media data, saved and opened, has no media data box, and writing it to a file uses that box without a check (refuted). Movies with metadata boxes are left out.", "quantifier": "every movie with any boxes, tracks, sample descriptions, data references and media data up to 2 GiB", "why_tests_cant": "the boxes, the moved offsets, the search of the media data and the way back depend on every size in the file; tests check single files", "anchors": ["IsoLib/libisomediafile/src/MP4MovieFile.c: LocalPutMovieIntoHandle, MP4WriteMovieToFile, MP4PutMovieIntoHandle", "IsoLib/libisomediafile/src/MP4Movies.c: parseMovie, MergeMovieData", "IsoLib/libisomediafile/src/MovieAtom.c: mdatMoved", "IsoLib/libisomediafile/src/TrackAtom.c: mdatMoved, addAtom", "IsoLib/libisomediafile/src/MediaInformationAtom.c: mdatMoved", "IsoLib/libisomediafile/src/SampleToChunkAtom.c: mdatMoved"]}
{"id": "C59", "title": "Samples survive any number of savings, and an opened movie can be extended", "statement": "Samples are added to the tracks of a movie and read, the movie is saved and opened again, more samples are added to the opened movie, and so on. At every point every sample that was ever added is answered for with the same bytes, times, offset, sync flag and padding, by number and by time; samples can be added; the movie can be saved, which leaves it as it was, and the file can be opened. Exceptions in the code: after opening, a batch needs a description even where the track has some; a second batch with composition offsets gets wrong offsets, adding to a track without sync sample turns its samples into sync samples, and a track opened without samples loses the sizes of equal samples when another size follows; paddings over seven bits are cut in the file (all refuted).", "quantifier": "every history of additions, questions and savings, with any tracks, batches and other boxes, up to 2 GiB", "why_tests_cant": "the tables that are read are not the tables that were built (caches, final counts and buffers differ), and the next addition depends on them; tests check single histories", "anchors": ["IsoLib/libisomediafile/src/MP4Media.c: MP4AddMediaSamplesPad, MP4GetIndMediaSampleWithPad, MP4GetMediaSample", "IsoLib/libisomediafile/src/SampleTableAtom.c: addSamples, getCurrentDataReferenceIndex", "IsoLib/libisomediafile/src/MP4MovieFile.c: MP4WriteMovieToFile, MP4PutMovieIntoHandle", "IsoLib/libisomediafile/src/MP4Movies.c: parseMovie", "IsoLib/libisomediafile/src/MediaInformationAtom.c: mdatArrived"]}
{"id": "C60", "title": "User data are the lists of what was added, also after saving", "statement": "Data are added to the user data of a movie or a track under a type, deleted, and the user data are saved and opened again, in any order. At every point the number of items of a type, the data of the i-th item, the number of types and the i-th type are those of the lists of what was added; a wrong index or type is refused. A terminator at the end of the box is skipped, and any bytes are read without undefined behaviour. Exceptions in the code: data whose type is that of a box with its own reader is taken for another structure after saving, and data of the type of free space is lost (refuted).", "quantifier": "every history of additions, deletions and savings, every type and data, every input", "why_tests_cant": "the items are written grouped by type and read back as unknown boxes, so the answer depends on the whole history; tests try single items", "anchors": ["IsoLib/libisomediafile/src/MP4UserData.c: MP4AddUserData, MP4GetUserDataEntryCount, MP4GetIndUserDataType, MP4GetUserDataItem, MP4GetAtomFromUserData, MP4DeleteUserDataItem", "IsoLib/libisomediafile/src/UserDataAtom.c: addUserData, getItem, deleteItem, serialize, createFromInputStream"]}
{"id": "C61", "title": "An HEVC sample description says what the parameter sets say", "statement": "A sample description made from an HEVC sequence parameter set, a video parameter set and possibly a picture parameter set carries the profile, level, chroma format, bit depths, temporal nesting and picture size that the sequence parameter set codes (emulation prevention bytes removed, cropping and all optional fields of the syntax included), with the NAL length size given; the three sets, and only they, are read back from it, and it stays the same over saving. Every configuration box (avcC, hvcC, vvcC, vvnC) within the limits of its fields is read back as written. Exceptions in the code: without a video parameter set the last of the other sets is not written; a sequence parameter set that ends early is read past its end; profile space, tier and constraint flags are lost when a file is read and written, nine arrays overrun the structure, and avcC of a high profile without its last fields reads into the next box (refuted).", "quantifier": "every sequence parameter set of the syntax of H.265 up to the bit depths, every value of its fields, every set of bytes given, every box", "why_tests_cant": "the reader is a hand-written bit reader with variable-length codes over unit data; a test tries a few streams", "anchors": ["IsoLib/libisomediafile/src/ISOSampleDescriptions.c: ISONewHEVCSampleDescription, ISOGetHEVCSampleDescriptionPS, ISOGetNALUnitLength", "IsoLib/libisomediafile/src/HEVCConfigAtom.c: serialize, calculateSize, createFromInputStream, addParameterSet, getParameterSet", "IsoLib/libisomediafile/src/VCConfigAtom.c", "IsoLib/libisomediafile/src/VVCConfigAtom.c", "IsoLib/libisomediafile/src/VVCNALUConfigAtom.c", "IsoLib/libisomediafile/src/BitBuffer.c: BitBuffer_Init, GetBits, read_golomb_uev"]}
{"id": "C62", "title": "An AVC description keeps the parameter sets given to it", "statement": "A description made from an AVC sequence parameter set and a picture parameter set has the profile, compatibility, level and, for the high profiles, the chroma format and bit depths of the sequence parameter set. Then parameter sets and other boxes are added and sizes set, in any order: the description is always the box of the standard with the first 31 sequence and picture parameter sets and all extensions in the order given, the other boxes and the last size; what is refused (a 32nd set, a wrong list) changes nothing; counts, the i-th set of each list and the NAL length size are read back. Exceptions in the code: without a picture parameter set the sequence parameter set is not stored; with 4:4:4 the bit depths are wrong; extensions are lost with profiles that are not high and beyond 255; a NAL length size other than 1 to 4 is taken and another one stored (refuted).", "quantifier": "every sequence parameter set of the syntax of H.264 up to the bit depths, every history of calls, every set of bytes", "why_tests_cant": "the handle is parsed and rewritten by every call, so the result depends on the whole history; tests add one or two sets", "anchors": ["IsoLib/libisomediafile/src/ISOSampleDescriptions.c: ISONewAVCSampleDescription, ISOAddVCSampleDescriptionPS, ISOGetAVCSampleDescription, ISOGetVCSampleDescriptionPS, ISOGetNALUnitLength", "IsoLib/libisomediafile/src/VCConfigAtom.c: serialize, calculateSize, createFromInputStream, addParameterSet, getParameterSet"]}
{"id": "C63", "title": "A VVC description keeps what the parameter sets say and the units given to it", "statement": "A description made from a VVC sequence parameter set, with all optional fields of its syntax, and possibly a picture parameter set carries the profile, tier, level, constraint bits, sublayer levels, chroma format, bit depth and picture size coded in it. Then units and other boxes are added and sizes set in any order: units of each of the seven types are kept in the order given (of decoding capability and operating point units the first), other types are refused without effect, and counts, the i-th unit and the NAL length size are read back. A description for subpictures gives back its size and NAL length size. Exceptions in the code: five or more additional constraint bits read past a buffer, a sub-profile writes through NULL, eight arrays can overrun the structure, a repeated array replaces the first, a second unit of a type without count is taken and lost, a record without constraint bytes cannot be written again, and the NAL length size is not given for subpicture descriptions (refuted).", "quantifier": "every sequence parameter set of the syntax of H.266 up to the bit depth without additional constraint bits and sub-profiles, every history of calls, every unit", "why_tests_cant": "the syntax has variable-length fields depending on earlier fields, alignment and emulation prevention; tests try a few streams", "anchors": ["IsoLib/libisomediafile/src/ISOSampleDescriptions.c: ISONewVVCSampleDescription, ISOAddVVCSampleDescriptionPS, ISOGetVVCSampleDescription, ISOGetVVCSampleDescriptionPS, ISOGetVVCNaluNums, ISONewVVCSubpicSampleDescription, ISOGetVVCSubpicSampleDescription", "IsoLib/libisomediafile/src/VVCConfigAtom.c: serialize, calculateSize, createFromInputStream, addParameterSet, getParameterSet", "IsoLib/libisomediafile/src/VVCNALUConfigAtom.c"]}
{"id": "C64", "title": "The primary item and item information are kept", "statement": "Setting the primary item, giving items a name and protection index, a type with URI or an extension, and hiding items, together with protections, groups and savings in any order: every call is accepted or refused as stated and a refused call changes nothing; the primary item, the name and protection index, the extension, the type with its URI and whether an item is hidden are always those of the last calls, before and after writing the meta box and reading it again. Any meta box is written to the bytes of the standard and read back; the QuickTime form without version and flags is read too. Exceptions in the code: a content type or encoding is stored without its end and breaks reading and saving it; the type of an extension comes back reversed; asking for the content type of an item without one loses the name or writes through NULL; with information set twice, name and type are those of different entries; hiding without a primary item reads through NULL; 65536 entries cannot be read again; long entries, strings without end and short extensions break the reader (refuted).", "quantifier": "every history of calls and savings, every other content of the meta box, every string and number", "why_tests_cant": "each call rewrites boxes shared by all items, and saving changes which fields exist; tests call each function once", "anchors": ["IsoLib/libisomediafile/src/ISOMeta.c: ISOSetPrimaryItem, ISOGetPrimaryItemID, ISOSetItemInfo, ISOGetItemInfo, ISOSetItemInfoExtension, ISOGetItemInfoExtension, ISOSetItemInfoItemType, ISOGetItemInfoItemType, ISOHideItem, ISOIsItemHidden", "IsoLib/libisomediafile/src/ItemInfoEntryAtom.c", "IsoLib/libisomediafile/src/ItemInfoAtom.c: getEntry, serialize, createFromInputStream", "IsoLib/libisomediafile/src/MetaAtom.c: addAtom, createFromInputStream"]}
{"id": "C65", "title": "Item protections are kept", "statement": "Protections made in a meta box are numbered from 1 in the order made; scheme type, version and address of each, and the boxes of scheme information given to it, found by type, are those given, through any history of other calls and savings. A number without protection is refused. Protection boxes are written to the bytes of the standard and read back. Exceptions in the code: asking about a protection without scheme type box reads through NULL, and a short scheme address without end breaks the reader (refuted).", "quantifier": "every history of calls and savings, every scheme, every box of information", "why_tests_cant": "the number is an index in a list shared by the history; tests make one protection", "anchors": ["IsoLib/libisomediafile/src/ISOMeta.c: ISONewMetaProtection, ISOAddMetaProtectionInfo, ISOGetMetaProtection, ISOGetMetaProtectionInfo", "IsoLib/libisomediafile/src/ItemProtectionAtom.c", "IsoLib/libisomediafile/src/SecurityInfoAtom.c", "IsoLib/libisomediafile/src/SchemeTypeAtom.c"]}
{"id": "C66", "title": "Entity groups are kept", "statement": "A group is made once for each group id, and a second one with the id is refused; entities are added to the group of the id, in order and with repetitions; the number of entities of a group and the list of all groups with type, id and entities are those given, through any history of other calls and savings. Any bytes in place of a groups list are read safely. Exceptions in the code: a group box with bytes after its members is read but cannot be saved, and a group of type free or skip is lost by saving (refuted).", "quantifier": "every history of calls and savings, every group and entity id, every sequence of bytes", "why_tests_cant": "group membership depends on the history of calls; tests make one or two groups", "anchors": ["IsoLib/libisomediafile/src/ISOMeta.c: ISONewEntityGroup, ISOAddEntityIDToGroup, ISOGetEntityIDCnt, ISOGetEntityGroupEntries", "IsoLib/libisomediafile/src/EntityToGroupBox.c", "IsoLib/libisomediafile/src/GroupsListBox.c"]}
{"id": "C67", "title": "Small boxes are kept", "statement": "AMR, AMR-WB+ and H.263 parameters, ISMA sample format, salt and key server, compatible scheme types, track and segment types after any history of setting and adding brands, track extension properties, additional metadata containers, stereo groups and stereo video, degradation priorities, loudness, channel layouts, downmix instructions, and colour by number or profile are written to the bytes of their standards with the right size, and read back equal; truncated copies are refused. Track extension properties return the first box added of a type; a container accepts one metadata box. Exceptions in the code: the JPEG 2000 signature and image header are written with reversed bytes; bit depths, measurements of loudness, speakers given by angles and indications of stereo video are written but reading them is undefined; boxes in stereo video are not in its size; speaker positions of version 0 and downmix coefficients are lost when what was read is saved, and positions with objects cannot be read; colour by other methods is lost; segment types of the standard are misread by four bytes; a new compatible scheme is written as a scheme; a key server address without end breaks saving (refuted).", "quantifier": "every value of every field, every number of priorities, speakers and coefficients, every list of child boxes, every history of brands", "why_tests_cant": "each box has its own serialiser, size computation and reader, which must agree for all values; tests write one value of a few of them", "anchors": ["IsoLib/libisomediafile/src/AMRSpecificInfoAtom.c", "IsoLib/libisomediafile/src/AMRWPSpecificInfoAtom.c", "IsoLib/libisomediafile/src/H263SpecificInfoAtom.c", "IsoLib/libisomediafile/src/ISMASampleFormatAtom.c", "IsoLib/libisomediafile/src/ISMASaltAtom.c", "IsoLib/libisomediafile/src/ISMAKMSAtom.c", "IsoLib/libisomediafile/src/CompatibleSchemeTypeAtom.c", "IsoLib/libisomediafile/src/TrackTypeAtom.c", "IsoLib/libisomediafile/src/SegmentTypeAtom.c", "IsoLib/libisomediafile/src/TrackExtensionPropertiesAtom.c", "IsoLib/libisomediafile/src/AdditionalMetaDataContainerAtom.c", "IsoLib/libisomediafile/src/StereoVideoAtom.c", "IsoLib/libisomediafile/src/StereoVideoGroupAtom.c", "IsoLib/libisomediafile/src/DegradationPriorityAtom.c", "IsoLib/libisomediafile/src/LoudnessBaseAtom.c", "IsoLib/libisomediafile/src/LoudnessAtom.c", "IsoLib/libisomediafile/src/ChannelLayoutAtom.c", "IsoLib/libisomediafile/src/DownMixInstructionsAtom.c", "IsoLib/libisomediafile/src/MJ2SignatureAtom.c", "IsoLib/libisomediafile/src/MJ2ImageHeaderAtom.c", "IsoLib/libisomediafile/src/MJ2BitsPerComponentAtom.c", "IsoLib/libisomediafile/src/MJ2ColorSpecificationAtom.c"]}
{"id": "C68", "title": "Small boxes from elsewhere are read safely", "statement": "Reading codec parameters, ISMA boxes, types, extension properties, metadata containers, loudness containers, stereo groups, priorities, downmix, signature, image header and colour boxes from any bytes gives a box or an error code, without undefined behaviour, and consumes a prefix of the input; so does reading channel layouts without speaker 126, loudness without measurements and stereo video without indications. Exceptions in the code: see the boxes of C67 whose reading is undefined (refuted there).", "quantifier": "every sequence of bytes, every claimed size", "why_tests_cant": "the inputs come from others", "anchors": ["IsoLib/libisomediafile/src/*SpecificInfoAtom.c: createFromInputStream", "IsoLib/libisomediafile/src/DownMixInstructionsAtom.c: createFromInputStream", "IsoLib/libisomediafile/src/ChannelLayoutAtom.c: createFromInputStream", "IsoLib/libisomediafile/src/LoudnessBaseAtom.c: createFromInputStream"]}
{"id": "C69", "title": "Boxed metadata descriptions describe what was added", "statement": "For any history of adding metadata to a boxed metadata configuration (asked id, key namespace, optional key value, locale and setup data) each call answers with the first unused id from the one asked for, or is refused: the reserved last id, a missing value, a value that must be the id and is not, setup data where none may be, no id left. Ids are distinct. The description made from the configuration has exactly the bytes of the accepted metadata, its count and the configuration of each number are the accepted metadata in order, other numbers are refused, and attached to a track it comes back unchanged, also after saving and reading. Key tables and descriptions holding any further boxes survive saving and reading, and reading them from any bytes is safe. Exceptions in the code: a value whose last byte is 128 or more is compared as signed bytes and refused although it is the id; a value shorter than four bytes is read past its end; the id of the extended type makes a description whose key cannot be asked for; key tables of QuickTime files are lost, or taken for one key at the end of a file; a locale box without contents is read and saving it is undefined; an empty locale is lost; asking a description of another kind is undefined (refuted).", "quantifier": "every history of calls, every id, namespace, value, locale and setup data, every number asked; every key table", "why_tests_cant": "ids depend on the whole history; tests add one or two keys", "anchors": ["IsoLib/libisomediafile/src/ISOSampleDescriptions.c: ISONewMebxSampleDescription, ISOAddMebxMetadataToSampleEntry, ISOGetMebxHandle, ISOGetMebxMetadataCount, ISOGetMebxMetadataConfig", "IsoLib/libisomediafile/src/BoxedMetadataSampleEntry.c", "IsoLib/libisomediafile/src/MetadataKeyTableBox.c", "IsoLib/libisomediafile/src/MetadataKeyBox.c", "IsoLib/libisomediafile/src/MetadataKeyDeclarationBox.c", "IsoLib/libisomediafile/src/MetadataLocaleBox.c", "IsoLib/libisomediafile/src/MetadataSetupBox.c"]}
{"id": "C70", "title": "XML, text and 3GPP descriptions", "statement": "Descriptions of XML metadata (encoding, namespace, schema location) and text metadata (encoding, MIME type) with strings below 1024 bytes, of H.263 video (vendor, version, level, profile) and of AMR and AMR-WB+ audio (vendor, version, modes, period, frames; sample rate of the track) have the bytes of their standards, come back from the track they are attached to under number 1 with their data reference index, other numbers are refused, and they survive saving and reading; the parameters asked of the description are those it was made with; a track of another kind is refused. Exceptions in the code: a string of 1024 bytes or more is written, and attaching the description is undefined; XML metadata with two strings is read as the encoding alone; larger time scales are stored by their low 16 bits (refuted).", "quantifier": "every string, data reference index, parameter and time scale below 65536", "why_tests_cant": "each description has its own writer, size computation and parser", "anchors": ["IsoLib/libisomediafile/src/ISOSampleDescriptions.c: ISONewXMLMetaDataSampleDescription, ISONewTextMetaDataSampleDescription, ISONewH263SampleDescription, ISONewAMRSampleDescription, ISONewAMRWPSampleDescription", "IsoLib/libisomediafile/src/XMLMetaSampleEntry.c", "IsoLib/libisomediafile/src/TextMetaSampleEntry.c"]}
{"id": "C71", "title": "Protecting a description can be undone", "statement": "For any visual or audio sample description, of any type and with any boxes but a protection, protecting it for ISMA with any selective-encryption flag, key and IV lengths, key-server address (or none) and salt returns the description with its fields and boxes unchanged, the type encv or enca, and a protection box holding original type, scheme and parameters; unprotecting it returns exactly these parameters and the original description byte for byte. Attached to a track the protected description comes back, also after saving and reading. Other tracks are refused; boxes that are not protected descriptions, and descriptions without protection or with another scheme or version, are refused by unprotecting. Exceptions in the code: protecting a protected description loses the first protection, so the original type and the first parameters cannot be found again; unprotecting a description whose ISMA protection lacks the key-server or sample-format box, or has an address of no bytes, is undefined (refuted).", "quantifier": "every description, parameter, address and salt", "why_tests_cant": "the inverse must hold for every description and every parameter; tests protect one stream", "anchors": ["IsoLib/libisomediafile/src/ISMASecurity.c: ISMATransformSampleEntry, ISMATransformSampleEntrySalt, ISMAUnTransformSampleEntry, ISMAUnTransformSampleEntrySalt", "IsoLib/libisomediafile/src/EncVisualSampleEntryAtom.c", "IsoLib/libisomediafile/src/EncAudioSampleEntryAtom.c", "IsoLib/libisomediafile/src/SecurityInfoAtom.c"]}
{"id": "C72", "title": "Restricted video descriptions answer what they hold", "statement": "A restricted video description with any boxes, attached to a track, comes back unchanged, also after saving and reading. Its dimensions, original format, restriction scheme (type, version, address) and scheme-specific boxes asked for are those it holds, a missing format is a parameter error and a missing scheme or scheme information a data error; descriptions of other kinds are refused. Parameter sets found in it are those found in an unrestricted description with the same configuration (HEVC before AVC), and the NAL unit length is that of its configuration. Exceptions in the code: asking a restricted description without restriction box, asking for the address of a scheme without one, and asking for a scheme box that is not there are undefined (refuted).", "quantifier": "every restricted description, every box type, parameter set kind and index", "why_tests_cant": "queries search nested optional boxes; the combinations are unbounded", "anchors": ["IsoLib/libisomediafile/src/RestrictedVideoSampleEntry.c", "IsoLib/libisomediafile/src/RestrictedSchemeInfoAtom.c", "IsoLib/libisomediafile/src/ISOSampleDescriptions.c: ISOGetRESVOriginalFormat, ISOGetRESVSchemeType, ISOGetRESVSchemeInfoAtom, ISOGetRESVSampleDescriptionPS, ISOGetNALUnitLength, ISOGetSampleDescriptionDimensions"]}
{"id": "C73", "title": "Commands of object descriptor streams", "statement": "Any object descriptor update, elementary stream update, IPMP tool update or other command, with any descriptors in any of its lists, is written with exactly the size it announces, as tag, length, fields and descriptors list after list; from any input that starts with these bytes it is read back, leaving what follows, and a command cut short anywhere is an I/O error. A sample is its commands one after the other; commands that were read are written to bytes that read the same. Reading any bytes ends, and without a byte that is the tag of an IPMP tool nothing undefined happens. Exceptions in the code: an object descriptor number from 1024 on in a stream update loses its high bits; the announced length of a command does not bound its descriptors (refuted).", "quantifier": "every command, list of commands, cut and input", "why_tests_cant": "commands nest descriptors to any depth and number; tests use one frame", "anchors": ["IsoLib/libisomediafile/src/ODUpdateCommand.c", "IsoLib/libisomediafile/src/ESUpdateCommand.c", "IsoLib/libisomediafile/src/IPMPToolUpdateCommand.c", "IsoLib/libisomediafile/src/MP4DefaultCommand.c", "IsoLib/libisomediafile/src/MP4Commands.c: MP4ParseCommand"]}
{"id": "C74", "title": "Object descriptor samples come back with the descriptors of the movie", "statement": "Adding samples to an object descriptor track, any number one after the other, extends the list of referenced tracks by the streams the samples name and do not find there, in that order, and stores references to positions in place of elementary stream descriptors and stream numbers; reading any of the samples with the list as it is in the end gives the commands that were added with, for every stream, the elementary stream descriptor the movie has for that track, and the sample unchanged if these are the ones that were added. That descriptor is the one of the media with the number of the track, the tracks it depends on or is synchronised to, and an SL configuration with the time scales of media and movie. More than one sample at a time is refused, a reference beyond the list and a media without SL configuration are reported. Exceptions in the code: a stream that is in the list but not last gets a reference to the last; a stream whose descriptor points to another gets a reference to that other; no error is ever reported, so a sample that cannot be read or names the stream 0 is stored as it is; the reference 0 and pointers beyond the list are followed; an SL configuration other than that of the file format is used after it was freed (refuted).", "quantifier": "every history of samples with commands as a player expects them, each stream new or the last one added", "why_tests_cant": "what is stored depends on all samples before; tests add one sample", "anchors": ["IsoLib/libisomediafile/src/MediaAtom.c: MP4ParseODFrame, storeIPMPDescriptorPointers, addSamples", "IsoLib/libisomediafile/src/MP4SLPacket.c: rewriteODFrame, rewriteIPMPDescriptorPointers", "IsoLib/libisomediafile/src/TrackReferenceTypeAtom.c: addTrackID", "IsoLib/libisomediafile/src/MP4Movies.c: makeESD"]}
{"id": "C75", "title": "The initial object descriptor of a movie", "statement": "The initial object descriptor made with a movie has the given identifier, profiles and levels and the inline flag 0, and the file keeps them; without profiles the movie has an object descriptor instead, which has neither, and with the identifier 0 none. After any calls that add tracks, add descriptors, set the flag or ask for the descriptor, it holds the tracks and descriptors in the order in which they were added and the flag last set; each time it is asked for, the bytes are the tag, length and fields, the elementary stream descriptor of every track added so far in that order, and the other descriptors, a player reads exactly these, and asking changes nothing. Descriptors with a tag that has no place there are refused and change nothing; asking without descriptor, or one with references, is an error. Exceptions in the code: without a descriptor the flag, the profiles and added descriptors are undefined, and so is a location given when the movie is made; an object descriptor read from a file takes no descriptors, and asking for it gives bytes that are no descriptor; a track without elementary stream descriptor leaves those of the tracks before it in the movie; elementary stream descriptors of the file itself are gone after they were asked for (refuted).", "quantifier": "every history of these calls, every number of tracks and descriptors", "why_tests_cant": "what is given depends on all calls before, and each call rewrites the descriptor in place; tests ask once", "anchors": ["IsoLib/libisomediafile/src/MP4Movies.c: MP4NewMovieExt, MP4NewMovie, MP4GetMovieInitialObjectDescriptorUsingSLConfig, MP4GetMovieObjectDescriptorUsingSLConfig, MP4AddDescToMovieIOD, MP4GetMovieIODInlineProfileFlag, MP4SetMovieIODInlineProfileFlag, MP4GetMovieProfilesAndLevels, addTrackToMovieIOD", "IsoLib/libisomediafile/src/MovieTracks.c: MP4AddTrackToMovieIOD"]}
{"id": "C76", "title": "MPEG-4 sample descriptions", "statement": "A sample description made for a decoder (object type, stream type, buffer size, rates, specific information) is an entry of the kind of its track with one esds box, whose elementary stream descriptor has exactly these values. Any number of them attached to a track are numbered from 1 in that order; asked by number, the media gives back the values, the specific information and the decoder configuration each was made from, before and after saving and opening the file, and numbers out of range are refused. Setting the priority (below 32) changes that field and nothing else of the description; adding a descriptor puts it after those already in its place and keeps the rest, and a second decoder configuration, synchronization configuration, identification pointer or quality of service descriptor is refused; changing the type between types of mp4 changes the type only; bit rates are added in a box behind the others. Exceptions in the code: a priority of 64 or more overwrites the flags and the decoder configuration is lost; a type outside mp4 makes the call use the esds box after freeing it, and without that box it is refused; the tag of the specific information is not checked when the description is made, and one with another tag is not given back; specific information that cannot be parsed is reported as not found; content descriptors (tags 74 to 95) change their place when the description is parsed and written again; descriptions of a type the library has no layout for keep the descriptor but no call finds it; another descriptor in the esds box is used as an elementary stream descriptor (refuted).", "quantifier": "all parameters of a decoder, all numbers of descriptions, all descriptions with any other boxes and descriptors in them", "why_tests_cant": "every call parses the whole description and writes it again, so that any box or descriptor in it can be lost; tests use descriptions with one box", "anchors": ["IsoLib/libisomediafile/src/ISOSampleDescriptions.c: MP4NewSampleDescription, MP4NewSampleDescriptionWithOCRAssociation, MP4SetSampleDescriptionPriority, MP4AddDescToSampleDescription, ISOSetSampleDescriptionType, ISOAddBitrateToSampleDescription", "IsoLib/libisomediafile/src/MP4Media.c: MP4GetMediaESD, MP4GetMediaDecoderConfig, MP4GetMediaDecoderInformation"]}
{"id": "C77", "title": "Settings of movies, tracks and media", "statement": "After any sequence of calls that set the matrix, layer, dimensions, volume and enabled flag of a track, the track reports for each of them the value set last (the identity matrix for a missing one) or what it reported before; its identifier, dates, duration, group and other flags are untouched. The same holds for time scale, matrix, rate and volume of a movie, where a time scale of zero is refused and leaves the movie alone. The header is written in the size of its version and a reader of the file gets the same answers; negative layers and volumes stay negative. Graphics mode and colour of visual media and the balance of sound media are reported as set, before and after saving; media of other kinds refuse these calls. Exceptions in the code: widths and heights of 65536 or more are accepted and cut; a graphics mode of 65536 or more is cut when the file is saved; the identifier and the enabled flag of a track without a header are read through a null pointer; a media header of another kind than the handler says is used as if it were of that kind (refuted).", "quantifier": "all headers a file can hold, all sequences of calls with arguments in range, all handler types", "why_tests_cant": "a lost sign, a shifted field or a setting that overwrites its neighbour shows only for particular combinations of calls and values", "anchors": ["IsoLib/libisomediafile/src/MovieTracks.c: MJ2SetTrackMatrix, MJ2SetTrackLayer, MJ2SetTrackDimensions, MJ2SetTrackVolume, MP4SetTrackEnabled, MP4GetTrackID", "IsoLib/libisomediafile/src/MP4Movies.c: MP4SetMovieTimeScale, MJ2SetMovieMatrix, MJ2SetMoviePreferredRate, MJ2SetMoviePreferredVolume", "IsoLib/libisomediafile/src/MP4Media.c: MJ2SetMediaGraphicsMode, MJ2SetMediaSoundBalance", "IsoLib/libisomediafile/src/TrackAtom.c: setMatrix, setLayer, setDimensions, setVolume, setEnabled"]}
{"id": "C78", "title": "Durations of movies, tracks and media", "statement": "A media lasts as long as its samples together. A track lasts as long as the edits in its edit list together or, without any, as long as its media, converted to the time scale of the movie and rounded down. A movie lasts as long as its longest track, and no time without tracks. Once the edits of all media have ended, any sequence of questions about durations in any order gets these answers every time; asking and saving put them into the headers and change nothing else. Exceptions in the code: a movie asked or saved before the edits of its media have ended does not count their new samples; lengths of 2^32 and more are cut to 32 bits although the headers could hold them; a media without a header and an edit box without a list are followed through null pointers (refuted).", "quantifier": "all movies with any number of tracks, any sample and edit tables with lengths below 2^32, all sequences of questions", "why_tests_cant": "every question recomputes and stores part of the durations, so an answer can depend on which questions were asked before; tests ask once", "anchors": ["IsoLib/libisomediafile/src/MP4Media.c: MP4EndMediaEdits, MP4GetMediaDuration", "IsoLib/libisomediafile/src/MovieTracks.c: MP4GetTrackDuration", "IsoLib/libisomediafile/src/MP4Movies.c: MP4GetMovieDuration", "IsoLib/libisomediafile/src/TrackAtom.c: calculateDuration", "IsoLib/libisomediafile/src/MovieAtom.c: calculateDuration"]}
{"id": "C79", "title": "Finding items, and data in the meta box itself", "statement": "After any history of calls on a meta box, including savings, finding an item by name gives the item of the first information with that name, exactly or without regard to the case of Latin letters, and no item when there is none. Finding all items of a type gives exactly the items of that type in the order of the items, when all items have a type. Data put into the meta box in a box of its own is given back unchanged, the first box of a type when there are several. The data of the primary item is that box or, without one, what the primary item holds. A relation between two items is a reference to the second. Exceptions in the code: one item without a type makes finding items by type fail altogether; an entry of a file that ends before its name is followed through a null pointer; a data box of fewer than four bytes asked for with version and flags is read past its end (refuted).", "quantifier": "all histories of calls and savings, all lists of items, names, types and data", "why_tests_cant": "names, types and data go through several boxes and survive savings; tests try a few items and names", "anchors": ["IsoLib/libisomediafile/src/ISOMeta.c: ISOFindItemByName, ISOFindItemByID, ISOGetAllItemsWithType, ISOAddPrimaryData, ISOGetPrimaryData, ISOGetPrimaryItemData, ISOAddItemRelation", "IsoLib/libisomediafile/src/MetaAtom.c: getData"]}
{"id": "C80", "title": "IPMP tools, pointers and initialization data in handles", "statement": "A handle of IPMP initialization data made with any control point but 255 and given any number of pieces of data up to 255, each with its length in any form, holds the two codes, the number of pieces and all pieces in order, and reading it gives exactly those; data of another version is refused and changes nothing. The handle of a tool holds its identifier, the alternative identifiers in order and its description; a handle of alternatives that is empty or not a multiple of 16 bytes is refused. A descriptor pointer is made exactly if either its identifier is 255 and a tool descriptor is named, or neither, and reading it gives it back. Descriptors of tools at a URL added to an update command are all in it in order; other descriptors are refused. Exceptions in the code: with 256 pieces, or 256 alternatives, the number written is 0, and the next piece loses all; a tool that was made cannot be given a URL or put into a list, a tool descriptor with an identifier can be given neither data nor an update command, and one with initialization data cannot be made: all of these are undefined; data added to a descriptor of a tool at a URL is lost (refuted).", "quantifier": "all identifiers, codes, lists of pieces with lengths in any form, alternatives, descriptions and sequences of calls", "why_tests_cant": "each call reads the handle, changes it and writes it again, so a sequence of calls must keep what earlier ones put in; tests try one or two pieces", "anchors": ["IsoLib/libisomediafile/src/MP4IPMPX.c: MP4NewIPMPTool, MP4NewIPMPDescriptorPointer, MP4NewIPMPToolDescriptor, MP4NewIPMPInitialize, MP4AddIPMPDataToIPMPInitialize, MP4AddIPMPDataToIPMPToolDescriptor, MP4AddIPMPToolDescriptorToUpdate", "IsoLib/libisomediafile/src/MP4IPMPInitialize.c", "IsoLib/libisomediafile/src/MP4IPMPXData.c", "IsoLib/libisomediafile/src/MP4IPMPTool.c"]}
{"id": "C81", "title": "Defaults of fragments and track properties in the movie extends box", "statement": "After any sequence of calls that set fragment defaults and composition properties of tracks, the movie extends box has one box of defaults for each call that set defaults and one box of properties for each call that set properties after the first defaults, all in order and with the values given (padding in three bits above the bit for samples that are not sync samples); before the first defaults properties are refused. The box is read back with all of these and written again as the same bytes, from any bytes it is read without undefined behaviour, and the defaults of a track are the first that were set for it. Starting the first fragment puts the current sample entry of every track into its box and makes, for each call that set defaults, a track fragment with these defaults that starts at the duration of the media; without defaults it is refused. A delay at any point of a fragment has the effect of all tracks having started later by it, in this fragment and those that follow. Exceptions in the code: properties set a second time for a track, or in a file that was read, go into a further box instead of replacing those there; a movie with track properties that was saved and read cannot be continued with fragments, nor one with defaults of a track that is gone (undefined); both calls are undefined once there is a fragment; a delay past 2^32 wraps the start of the next fragment but not the time of the current one (refuted).", "quantifier": "all sequences of calls with all argument values, all tracks with their sample entries and durations, all fragments with all sequences of additions before and after a delay", "why_tests_cant": "the boxes are the sum of a whole history of calls, and delays act together with all additions of samples; tests set the defaults of one or two tracks once", "anchors": ["IsoLib/libisomediafile/src/MovieExtendsAtom.c: addAtom, setCompositionToDecodeProperties, maketrackfragments, getTrackExtendsAtom, getTrackExtensionPropertiesAtom, setSampleDescriptionIndexes, createFromInputStream", "IsoLib/libisomediafile/src/MovieTracks.c: ISOSetTrackFragmentDefaults", "IsoLib/libisomediafile/src/MP4MovieFile.c: ISOStartMovieFragment, ISOAddDelayToTrackFragmentDecodeTime, ISOSetCompositonToDecodePropertiesForFragments"]}
{"id": "C82", "title": "Meta boxes of files, movies and tracks, and relations between them", "statement": "After any sequence of calls that make meta boxes for a file, a movie or a track, the first call has made the box of its owner and the first further one whose type is not the type of the box itself has made the box in the container for additional metadata; every other call was refused and changed nothing. A box is found by its handler type, the first also without a type, and without a match asking is refused while there is no container. Each is written with its handler type and the type in characters as name, and read back so; the container is written with its box and all relations between the two in the order they were given, and read back so. Exceptions in the code: a second box of the same handler type is made and then never found, as the type of the box is compared instead of the handler type; with a container, asking for a type that is not there is undefined; relations of movies and tracks, and any in a file that was read, are refused; asking for a relation that was given returns 0 (refuted).", "quantifier": "all sequences of calls with all types for each kind of owner, all sequences of relations with all values", "why_tests_cant": "which box a call makes depends on all earlier calls; tests make one box of each kind", "anchors": ["IsoLib/libisomediafile/src/ISOMeta.c: newMeta, ISONewFileMeta, ISONewMovieMeta, ISONewTrackMeta, ISOAddMetaBoxRelation, ISOGetMetaBoxRelation, ISOGetFileMeta, ISOGetMovieMeta, ISOGetTrackMeta", "IsoLib/libisomediafile/src/AdditionalMetaDataContainerAtom.c: addMeta, getMeta", "IsoLib/libisomediafile/src/MP4Atoms.c: MP4TypeToString"]}
{"id": "C83", "title": "Items whose data are in other files", "statement": "After any sequence of calls that give data references to a meta box, make items, add extents in other files and read items, references have the numbers of the order they were given in and are kept as given, also through writing and reading the box; extents are added in order to the item named, and refused for items without a reference and before there is one. Reading an item whose first extent is at its base offset gives its extents of the file its reference leads to (a name after file://, or beside the file of the movie), one after the other, and its base offset; an extent of length 0 is the whole file; what was read before and in which order makes no difference; a missing reference or file is reported, and the check of all references succeeds when all files are there and fails at the first that is not. Exceptions in the code: the 65536th reference is given the number 0; a first extent that is not at the base offset is taken from twice its offset; a location without a zero at its end and an extent that ends after its file are read past their ends (refuted).", "quantifier": "all sequences of such calls, all contents of the file system during them, all orders of reading", "why_tests_cant": "the file opened last is kept open between calls, so each result could depend on all earlier ones; tests read one file", "anchors": ["IsoLib/libisomediafile/src/ISOMeta.c: ISOAddMetaDataReference, ISOAddItemExtentReference, ISOGetItemData, ISOCheckMetaDataReferences", "IsoLib/libisomediafile/src/MetaAtom.c: openDataHandler, closeDataHandler", "IsoLib/libisomediafile/src/MP4DataHandler.c: MP4CreateDataHandler, MP4PreflightDataHandler", "IsoLib/libisomediafile/src/FileMappingDataHandler.c: createCanonicalPathName, doOpen, copyData", "IsoLib/libisomediafile/linux/SimpleFileMappingObject.c: MP4CreateFileMappingObject, MP4AssertFileExists"]}
{"id": "C84", "title": "Samples, groups and marks of a fragment that is being written", "statement": "While a movie fragment is open, the samples of a track are one sequence, whatever calls added them: each call appends its samples with their durations, sizes, sync flags and composition offsets, and samples with data and by reference are not mixed. Mapping samples to a group and marking their dependencies change exactly the samples named, counted from the first or from the last and across all calls that added them, and nothing else of them; samples added later have group 0; a request that ends after the last sample is refused and changes nothing. The data of samples added by reference are found by a reader at the positions given, and marks are read as given. Exceptions in the code: marks from a position before the first sample are accepted when they reach to the first, and all stored from it on; the two bits of a mark saying whether the sample is leading are not read; sync samples, padding and composition offsets of samples by reference are read from outside the lists given; a reference after one to position 0 moves the earlier one (refuted).", "quantifier": "all sequences of adding, mapping, marking and asking in an open fragment, all positions and values", "why_tests_cant": "the samples are spread over runs and a mark has to be carried across them; tests add one batch", "anchors": ["IsoLib/libisomediafile/src/TrackFragmentAtom.c: addSamples, addSampleReference, addSampleGroups, mapSamplestoGroup, getSampleGroupMap, setSampleDependency, mergeRuns"]}
{"id": "C85", "title": "The sample description in force at a time", "statement": "Asked which sample description is in force at a time of a media, the library names the description of the sample that is decoded at this time: for all tables of durations and chunks, whatever was asked before and whatever samples were read in between. A time after the last sample is refused. Exceptions in the code: during the first sample of a chunk after the first, the description of the chunk before is named; at the end of the last sample exactly, a description is named although no sample is decoded (refuted).", "quantifier": "all media whose durations are positive and whose samples are all in chunks, all times, all sequences of questions and sample lookups", "why_tests_cant": "two tables are combined and one of them remembers where the last lookup ended; tests ask once, with one description", "anchors": ["IsoLib/libisomediafile/src/MP4Media.c: MP4GetMediaSampleDescIndex", "IsoLib/libisomediafile/src/TimeToSampleAtom.c: findSamples", "IsoLib/libisomediafile/src/SampleToChunkAtom.c: lookupSample"]}
{"id": "C86", "title": "Boxes of one's own in a movie and its tracks", "statement": "Boxes of a type of one's own, or with a uuid, may be added to a movie and to its tracks in any number and order. They are all in the movie when it is written and read again, in their places, in the order they were added and after those there before, with type, uuid and payload as given; nothing else of the movie is changed by them. Exceptions in the code: a box that is refused, as a second one of a type a movie or track has only one of, stays in it, and the movie cannot be read; boxes of types the library reads in its own way come back as such and cannot be asked for their payload; free space is dropped (refuted).", "quantifier": "all movies (any tree of boxes), all boxes and all sequences of additions", "why_tests_cant": "any box may stand beside any other, and every reader has to skip and keep it; tests add one box", "anchors": ["IsoLib/libisomediafile/src/MP4UserData.c: MP4NewForeignAtom, MP4NewUUIDAtom, MP4GetForeignAtom", "IsoLib/libisomediafile/src/MP4Movies.c: MP4AddAtomToMovie", "IsoLib/libisomediafile/src/MovieTracks.c: MP4AddAtomToTrack", "IsoLib/libisomediafile/src/MovieAtom.c: addAtom", "IsoLib/libisomediafile/src/TrackAtom.c: addAtom", "IsoLib/libisomediafile/src/UnknownAtom.c"]}
{"id": "C87", "title": "Samples whose data are in other files", "statement": "Every sample of a media is read from the file that the data reference of its description leads to, at the place its chunk and the sizes of the samples before it in the chunk give. This holds in any order of reading, whatever file was open before and whether or not other reads failed. A sample whose file is missing is refused, and the samples of other files can still be read. The check of the data references succeeds when every file is there and fails when one is missing. Exceptions in the code: the first sample of a chunk whose description differs from that of the chunk before is read from the file of the chunk before; a file shorter than the tables say is read past its end (refuted).", "quantifier": "all media (tables of chunks, sizes, offsets, descriptions and data references), all contents of the files, all sequences of reads", "why_tests_cant": "one file at a time is kept open and reused, so an answer depends on all reads before it; tests use files that contain their own data", "anchors": ["IsoLib/libisomediafile/src/MP4Media.c: MP4GetIndMediaSampleWithPad, MP4CheckMediaDataReferences", "IsoLib/libisomediafile/src/MediaInformationAtom.c: openDataHandler, closeDataHandler, testDataEntry", "IsoLib/libisomediafile/src/MP4DataHandler.c: MP4CreateDataHandler, MP4PreflightDataHandler", "IsoLib/libisomediafile/src/FileMappingDataHandler.c: doOpen, copyData"]}
{"id": "C88", "title": "Settings of the synchronization layer", "statement": "A configuration of the synchronization layer tells the settings it was given last, whatever settings it had before. When it is written in a descriptor and read again it has the same flags on, the same resolutions and lengths of fields, and the same durations when it has any. Exceptions in the code: the OCR stream is not stored; a configuration without time stamps cannot be written; start times are not written; other settings of the predefined configuration are told but are not written; a length too large for its field changes the length beside it (refuted).", "quantifier": "all values of all settings, all sequences of settings", "why_tests_cant": "twenty-three settings share bits and optional parts of one descriptor; tests use the predefined configuration", "anchors": ["IsoLib/libisomediafile/src/SLConfigDescriptor.c: MP4NewSLConfig, MP4SetSLConfigSettings, MP4GetSLConfigSettings, serialize, createFromInputStream"]}
