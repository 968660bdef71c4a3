# Formal model of MPEGGroup/isobmff in Rocq (Coq 8.16.1)

Source modelled: `/repo/IsoLib/libisomediafile/src` (the C library). File names below are relative to it, or are
Coq files in `rocq/theories`.

## 1. Conventions

* Unsigned C integers are `N`. Every place where the C code computes in u8, u16, u32 or u64 has an explicit wrap
  (`w8`, `w16`, `w32`, `w64`; `sub32`, `sub64` for differences). Signed values are `Z`, with `s32_of`, `u32_of`
  and the like for conversions.
* `res A := Ok a | Err code | UB`. `Err` carries the MP4Err code. `UB` is undefined behaviour: an access outside
  a block, a NULL dereference, a division by zero, a signed overflow, the use of a value never set. A theorem
  that promises success therefore also promises that there is none of these.
* Mutation through a pointer returns the new value. Where a failed call leaves a change behind, the function
  returns the changed state beside the error.
* Loops are structural recursion over lists, or recursion on fuel that is proved sufficient.
* Box readers are functions on (bytes left, bytes read so far) and box writers on (bytes written, size counter);
  `Base.v` and `Codec.v` hold these two small monads and the lemmas about them.
* Every definition of a `*Model.v` file cites the file and lines it models, and says what it leaves out.
* Per topic X: `XModel.v` (definitions only), `XSpec.v` (the specification, which does not use the model's
  functions), `XProofs.v` (lemmas), `XProps.v` (the theorems named after properties, each with an example that
  meets its hypotheses and a `Print Assumptions`).
* A box is described by a codec (size, writer, reader, type) in the model and by a layout (the bytes of the body,
  what a reader gets back, which values fit) in the specification. `exact c y` says: the size calculated is the
  number of bytes of the layout, the writer writes them, and the reader takes exactly them and returns the value.
  `robust c` says: on any bytes whatsoever the reader has no undefined behaviour and never leaves the box.
* Where the code does not do what a property says in a corner, the property states the exception, a theorem with
  the suffix `_refuted` shows the code violating it on a concrete value, and the main theorem has the condition
  that excludes that corner.

## 2. Properties, models and proofs

| id | property | modelled in | proved by | theorems | status |
|----|----------|-------------|-----------|----------|--------|
| C01 | Linked list behaves like a sequence under every call history | LListModel: records on a heap, with the cursor cache | refinement to a sequence, invariant over any list of calls | LListProps.v | proved |
| C02 | Handles hold exactly the bytes put in them | HandleModel: block, allocated size, size, offset | refinement to a byte string; self-concatenation and wrap of 2^32 refuted | HandleProps.v | proved |
| C03 | A memory input stream never reads outside its buffer and reads big-endian | StreamModel: buffer, position, bytes left | reads equal the big-endian value of the next bytes; no UB for any calls | StreamProps.v | proved |
| C04 | Box header size and type survive a write/read cycle | AtomModel: header writers, header phase of MP4ParseAtom | round trip for 32- and 64-bit sizes and uuid | AtomProps.v | proved |
| C05 | Parsing any byte string terminates and stays inside it | AtomModel: recursive MP4ParseAtom over an abstract leaf parser | recursion on fuel = input length, shown sufficient; position stays inside | AtomProps.v | proved |
| C06 | A tree of boxes written and read back is the same tree | AtomModel, KidsModel: writer and parser of trees | induction over trees, for every leaf box with an exact codec | AtomProps.v | proved |
| C07 | Decoding time of a sample is the sum of earlier durations | SttsModel | lookup equals prefix sum, induction over runs and histories | SttsProps.v | proved |
| C08 | Sample time lookups do not depend on earlier lookups | SttsModel with its cache | cache invariant; the histories that break it refuted | SttsProps.v | proved |
| C09 | Media time to sample number finds the covering sample | SttsModel: find sample for media time | the unique covering interval, all search flags | SttsProps.v | proved |
| C10 | Composition offsets are kept per sample | CttsModel | expansion of the table is the list of offsets, induction over batches | CttsProps.v | proved |
| C11 | Sample sizes are kept per sample | SizeModel | as C10 for sizes | SizeProps.v | proved |
| C12 | Sample size box round trip including compact field sizes | SizeModel codecs stsz, stz2 | exact codec (size, bytes, parse) | SizeProps.v | proved |
| C13 | Sample to chunk mapping follows the chunk runs | ChunkModel: stsc | expanded chunk table; description index at run boundaries refuted | ChunkProps.v | proved |
| C14 | Chunk offsets survive write/read and 64-bit promotion is automatic | ChunkModel: stco, co64 | exact codec, promotion iff an offset needs it | ChunkProps.v | proved |
| C15 | Saving a movie does not change it | SaveModel, IlocModel: offsets moved before and after writing | moving back is the identity, for any saves | SaveProps.v | proved |
| C16 | Sync sample marking is kept per sample | SyncModel | set of sync samples, induction over batches | SyncProps.v | proved |
| C17 | Every sample added is read back with its own bytes, size and times | MediaModel: all sample tables and the media data together | invariant over any adds and reads on any number of tracks | MediaProps.v | proved |
| C18 | Time tables survive write/read | codecs of stts, ctts, stss, stsh, padb, sdtp | exact codecs | CttsProps.v, MarkProps.v, SttsProps.v, SyncProps.v | proved |
| C19 | Media language codes round trip | LangModel | bit fields, injectivity | LangProps.v | proved |
| C20 | Edit lists survive write/read | EditModel: elst codec | exact codec; times of 2^32 and more refuted | EditProps.v | proved |
| C21 | Edit lists map presentation time to media time | EditModel: segment lookup and times | closed form per segment; rounding refuted | EditProps.v | proved |
| C22 | Track fragment runs survive write/read | FragModel, MoofModel: trun, tfhd, traf, moof codecs | exact or faithful codecs for every flag combination | FragProps.v | proved |
| C23 | Default compression in fragments is lossless | FragModel, MoofModel: defaults, runs, merging into tables | samples read back from fragments are the samples added | FragProps.v | proved |
| C24 | Sample group assignment is kept per sample | GroupModel: sample to group map | invariant over histories | GroupProps.v | proved |
| C25 | Sample-to-group boxes survive write/read | GroupModel: sbgp codec | exact codec | GroupProps.v | proved |
| C26 | Compact sample-to-group boxes are lossless | GroupModel, CsgpProofs: pattern search and csgp codec | chain invariant: expansion is the input | GroupProps.v | proved |
| C27 | Sample group descriptions are indexed stably | GroupModel: sgpd | indices stable, round trip | GroupProps.v | proved |
| C28 | Item location boxes survive write/read | IlocModel: iloc codec | exact codec with chosen field widths | IlocProps.v | proved |
| C29 | Item data is read back as it was added | ItemModel: items added, saved and read | read-back invariant; interfering cases refuted | ItemProps.v | proved |
| C30 | Item ids are unique | ItemModel: id choice | freshness by pigeonhole; duplicates refuted | ItemProps.v | proved |
| C31 | Track ids are unique | TrackModel: track ids | uniqueness invariant by pigeonhole | TrackProps.v | proved |
| C32 | Descriptor lengths are encoded and decoded consistently | DescModel: MPEG-4 descriptors | length coding, round trip of descriptor trees, robustness | DescProps.v | proved |
| C33 | Elementary stream packet headers round trip | ReaderModel: packet headers | bit fields; any history of readers | ReaderProps.v | proved |
| C34 | A track reader delivers every sample once and in order | ReaderModel: readers without edits | cursor invariant over any interleaving of readers and additions | ReaderProps.v | proved |
| C35 | Auxiliary information boxes survive write/read and merge | AuxModel: saiz, saio | exact codecs, merging | AuxProps.v | proved |
| C36 | Segment index boxes survive write/read | IndexModel: sidx, subs, tfra, mfra | exact codecs, entries as added | IndexProps.v | proved |
| C37 | Movie, track and media headers survive write/read | HeaderBoxModel: mvhd, tkhd, mdhd | exact codecs, version choice | HeaderProps.v | proved |
| C38 | Media data offsets stay valid as data is appended | MdatModel, SaveModel | append-only invariant, exact codec | SaveProps.v | proved |
| C39 | Track references are indexed stably | TrackModel: tref | indices stable, round trip | TrackProps.v | proved |
| C40 | Item property associations keep their properties | PropertyModel: ipma, ipco, iprp | association map over histories, exact codecs | PropertyProps.v | proved |
| C41 | Composition summary bounds the offsets and composition times | CttsModel: cslg | bounds over the expanded table | CttsProps.v | proved |
| C42 | Sample dependency flags are kept per sample | MarkModel: sdtp | as C10 | MarkProps.v | proved |
| C43 | Padding bits are kept per sample | MarkModel: padb | as C10 | MarkProps.v | proved |
| C44 | Several media data boxes are joined without losing chunks | SaveModel: merging media data | every chunk keeps its bytes, any number of boxes | MergeProps.v | proved |
| C45 | Fixed header boxes survive write/read | HeaderModel, HeaderBoxModel: fixed boxes | exact codecs | HeaderProps.v | proved |
| C46 | The samples of a group can be listed | GroupModel: samples of a group | list equals the filtered sample numbers | GroupProps.v | proved |
| C47 | Track groups keep the last id | TrackModel: trgr | last id per type, round trip | TrackProps.v | proved |
| C48 | Item references are kept in order | ItemModel, IlocModel: iref | lists per type over histories, round trip | IlocProps.v, ItemProps.v | proved |
| C49 | Sub-sample information comes back as added | IndexModel: subs | entries as added, exact codec | IndexProps.v | proved |
| C50 | A reader follows the edit list | ReaderModel with edits | invariant per segment, induction over the edit list | ReaderProps.v | proved |
| C51 | A boxed metadata reader delivers the items of its key | ReaderModel with key | simulation of the ordinary reader; loop over items | ReaderProps.v | proved |
| C52 | Text set on a movie is the text a reader gets | TextModel: hdlr, url, urn, elng, cprt, schm | exact codecs over text of any length | TextProps.v | proved |
| C53 | A file carries the brands it was given | TextModel: ftyp and its calls | induction over the history of calls, exact codec | TextProps.v | proved |
| C54 | Hostile text in a file does no harm | TextModel readers on any bytes | case analysis of the whole reader: undefined if and only if | TextProps.v | proved |
| C55 | Sample descriptions come back as they were attached | EntryModel: stsd, generic, MPEG, visual and audio entries; describe, description | faithful codec over any children; induction over the history | EntryProps.v | proved |
| C56 | Calls on a description handle change only what they name | EntryModel: set_dims, get_dims, get_type, add_ext, get_ext on handles | parse of the serialised handle computed for all entries | EntryProps.v | proved |
| C57 | Data references keep their numbers | EntryModel: dref, dref_add, dref_describe | induction over the history, faithful codec | EntryProps.v | proved |
| C58 | Saving a movie and opening the file gives the movie back | FileModel: put_movie, to_file, to_handle, open_movie on box trees | faithful codec of the whole tree; replacing the offset table commutes with reading; C15 on the extracted tracks; induction over boxes | FileProps.v | proved |
| C59 | Samples survive any number of savings, and an opened movie can be extended | ReopenModel: tables of the tracks in the box tree, opened_step | inductive reachability of movies; the tables read are equal to the tables built up to fields that later calls do not use; C17 and C58 composed | ReopenProps.v | proved |
| C60 | User data are the lists of what was added, also after saving | UserModel: lists of boxes by type, add_data, delete_item, get_item, the udta codec | refinement to lists by type, induction over the history; faithful codec over any children | UserProps.v | proved |
| C61 | An HEVC sample description says what the parameter sets say | BitModel: the bit buffer; ParamModel: hvcC, avcC, vvcC, vvnC codecs, the sequence parameter set readers and the description calls | bit-level refinement: each reader takes exactly the bits of the syntax; faithful codecs; handle read back by C55 lemmas | ParamProps.v | proved |
| C62 | An AVC description keeps the parameter sets given to it | ParamModel: avcC, the sequence parameter set reader, new_avc, add_vc, get_avc, get_vc_ps | bit-level refinement; induction over the history of calls on the handle | AvcProps.v | proved |
| C63 | A VVC description keeps what the parameter sets say and the units given to it | ParamModel: vvcC, vvnC, the sequence parameter set reader with subpictures, new_vvc, add_vvc, get_vvc, new_subpic | bit-level refinement with alignment; induction over the history of calls on the handle | VvcProps.v | proved |
| C64 | The primary item and item information are kept | MboxModel: meta, pitm, iinf, infe and the calls on them | refinement of the box to a record of what was given, induction over the history; faithful codec over any other boxes | MboxProps.v | proved |
| C65 | Item protections are kept | MboxModel: ipro, sinf, schi and the calls on them | same refinement and induction | MboxProps.v | proved |
| C66 | Entity groups are kept | MboxModel: grpl, entity groups and the calls on them | same refinement and induction; robust reader | MboxProps.v | proved |
| C67 | Small boxes are kept | SmallModel: the listed boxes, field by field | exact or faithful codec for each; loops by induction over speakers, coefficients and children; refutations by the bytes written | SmallProps.v | proved |
| C68 | Small boxes from elsewhere are read safely | SmallModel: the readers | each reader is built from safe steps; loops by induction over the input | SmallProps.v | proved |
| C69 | Boxed metadata descriptions describe what was added | MebxModel: key table, keys and their boxes, mebx entry, the configuration calls | faithful codecs; induction over the history of calls with the list of accepted items as specification state; id search by pigeonhole; C55 for the track | MebxProps.v | proved |
| C70 | XML, text and 3GPP descriptions | MebxModel: metx, mett and 3GPP entries and their constructors | faithful codecs and C55; refutations by symbolic evaluation of the string reader | MebxProps.v | proved |
| C71 | Protecting a description can be undone | CryptModel: enca and encv entries, transform and untransform, ISMASecurity.c | faithful codecs; the bytes after protection in closed form; unprotecting by the reading lemma; C55 for the track | CryptProps.v | proved |
| C72 | Restricted video descriptions answer what they hold | CryptModel: resv entries and the calls on them | faithful codec; the first box of a type as specification; equality with the calls of C61 and C62 on unrestricted descriptions | CryptProps.v | proved |
| C73 | Commands of object descriptor streams | OdModel: commands, their sizes, writers and readers over the descriptors of C32 | frames and descriptors as bytes (OdSpec); induction on lists of descriptors and commands | OdProps.v | proved |
| C74 | Object descriptor samples come back with the descriptors of the movie | OdModel: store_frame with the list of tracks as state, fetch_frame with the list and the movie descriptors as arguments, make_esd | positions in any extension of the list (pre), induction on samples | OdProps.v | proved |
| C75 | The initial object descriptor of a movie | IodModel: the calls on the descriptor in the iods box as functions of it, with the descriptor of a track as a parameter | members of a list of descriptors (OdProofs), writer and reader of C32, induction on the calls | IodProps.v | proved |
| C76 | MPEG-4 sample descriptions | EsdModel: the calls as functions from handle bytes to handle bytes over the entries of C55 and the descriptors of C32 | the descriptor a handle holds (EsdSpec.holds) as invariant of the calls, entries as bytes by C55 | EsdProps.v | proved |
| C77 | Settings of movies, tracks and media | SetModel.v | the calls change one member of the header records of HeaderModel.v; a history of calls is folded over a record of values (SetSpec.v), and writing a header with sign extended 16 bit members writes the header with these members reduced, to which the round trip of C37 applies | SetProps.v | proved |
| C78 | Durations of movies, tracks and media | DurModel.v | the headers, sample times and edits of any number of tracks; each question is a transition that stores what it computed; invariant: the movie with all durations filled in is the same before and after | DurProps.v | proved |
| C79 | Finding items, and data in the meta box itself | FindModel.v: the searches over item information and items, adding and reading data boxes, on the meta box of MboxModel.v and the items of ItemModel.v | invariant of MboxHist.v with a growing list of data boxes, by induction over histories; specification of first match and positions in FindSpec.v | FindProps.v | proved |
| C80 | IPMP tools, pointers and initialization data in handles | IpmpModel.v (handles as lists of bytes; the calls of MP4IPMPX.c on top of DescModel.v and OdModel.v) | induction over the list of pieces or descriptors for readers, sizes, writers and sequences of calls; bytes against IpmpSpec.v | IpmpProps.v | proved |
| C81 | Defaults of fragments and track properties in the movie extends box | MvexModel.v: the movie extends box on top of the boxes of HeaderModel.v, CttsModel.v and SmallModel.v, the calls, the first fragment and delays on the fragments of MoofModel.v | induction over the calls for the state, round trip of the box by C06; a delay commutes with adding samples, by induction over the additions | MvexProps.v | proved |
| C82 | Meta boxes of files, movies and tracks, and relations between them | MmetaModel.v: owners with their meta and meco boxes (MboxModel.v, SmallModel.v), making, finding and relating them | induction over the calls gives the owner as a function of the accepted types (MmetaSpec.v); round trips of meta and meco boxes by C06 | MmetaProps.v | proved |
| C83 | Items whose data are in other files | ElsewhereModel.v: data references (EntryModel.v) and items (ItemModel.v) of a meta box, names of files, the open file kept between calls; the file system is a function from names to contents | invariant over all calls: what was made (ElsewhereSpec.v) and that the open file is the one its number leads to | ElsewhereProps.v | proved |
| C84 | Samples, groups and marks of a fragment that is being written | TrafModel.v: the track fragment of MoofModel.v with its group maps (GroupModel.v), samples by reference, dependency marks through the loops over runs | invariant over all calls relating runs and maps to one sequence of samples (TrafSpec.v); bits of the flags word by bit extensionality | TrafProps.v | proved |
| C85 | The sample description in force at a time | DescAtModel.v: the search by time (SttsModel.v) followed by the chunk lookup with its remembered position (ChunkModel.v) | invariant of the lookup (C13) over all questions, covering sample by C09 | DescAtProps.v | proved |
| C86 | Boxes of one's own in a movie and its tracks | ForeignModel.v: making, adding and asking boxes of one's own in the tree of AtomModel.v | induction over the calls keeps the tree legal; what a reader sees by C06 | ForeignProps.v | proved |
| C87 | Samples whose data are in other files | MediaFilesModel: get_sample (MP4GetIndMediaSampleWithPad without times, sync marks and padding), open_data (openDataHandler with closeDataHandler), check_media (MP4CheckMediaDataReferences, testDataEntry), over the tables of C10, C13, C14 and the files of C83 | invariant: the open file is the one of its entry, the tables keep what they say; kept by every read, by induction over the reads; the reported description is related to that of the sample with the lemmas of C13 | MediaFilesProps.v | proved |
| C88 | Settings of the synchronization layer | SlSetModel: sl_new, sl_set, sl_get field by field, sl_save and sl_load over the descriptor codec of C32 | induction is not needed for the last settings (every field is replaced); written settings by the descriptor round trip of C32 and the meaning of each field | SlSetProps.v | proved |

`MANIFEST.json` has the theorem names of each property and what its theorems do not cover.

## 3. Trusted base

* Coq 8.16.1's kernel, including its virtual machine (`vm_compute` in examples and refutations).
* `Print Assumptions` gives "Closed under the global context" for every theorem in the manifest: no axioms.
* The whole development loads parts of the standard library's ssreflect files, through which a check of all
  loaded modules lists these declarations of `Coq.ssr.ssrunder.Under_rel`: `Over_rel`, `Under_rel_from_rel`,
  `over_rel`, `over_rel_done`, `Under_rel`, `Under_relE`, `under_rel_done`. They are the fields of a module
  type of the standard library, and no theorem here depends on them.
* The reading of the C source into Gallina. The citations let a reader compare; `seeded/LOG.jsonl` records which
  wrong variants of the model the theorems reject.

### Assumptions of the model

* Allocation succeeds unless the requested size is computed wrongly (a size that wraps is modelled).
* `assert` is compiled out.
* `DEBUG_SPRINTF`, `msgString`, XML output and other debug printing have no effect, except that their buffers are
  not modelled.
* The stack is large enough for the recursion of nested boxes and descriptors.
* `read8`, `read16` and `read32` store a full u32. Where the variable is narrower and the bytes after it are
  padding or are set later, the store is taken as harmless; where it overruns an array the model says UB or the
  box is not modelled (below).
* `char` and pointer sizes play no role; `int` is 32 bits, `long long` 64 bits, two's complement.
* The file system reads back what was written, and nothing else changes the file.

### What is not modelled

* MPEG-J and OCI around object descriptors (their commands and descriptors are).
* The movie file drivers for disk and memory maps beyond byte access; `movieviewer` and the other programs in
  the repository, and the C++ wrappers.
