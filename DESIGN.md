# Formal model of pdfmm — design

Source: `/repo` (C++), read as text, never built. Model: Rocq/Coq 8.16.1 in `rocq/theories` (logical name `Verif`).

## Conventions

* A byte is a `Z` in `0..255` (`is_byte`); a byte string is `list Z`. C++ `char` is **signed** on the platforms the
  library targets (x86); wherever the code's result depends on it the model converts explicitly (`schar`).
* Fixed-width arithmetic is written explicitly (`mod 2^32`, ...). Errors the code raises are constructors of a result
  type; undefined behaviour (out-of-bounds access, division by zero, non-termination) is a *separate* outcome, never a default value.
* Loops over input are structural recursion, or fuelled with an explicit `OutOfFuel` outcome which theorems exclude.
* Files: `<Area>Model.v` (definitions with citations, no proofs), `<Area>Spec.v` (independent specification),
  `<Area>Proofs.v` (lemmas), `<Area>Props.v` (only the property theorems, each closed by `exact lemma`, with
  `Print Assumptions` and concrete `Example`s). Small areas merge Spec into Props so a reader sees the statement at once.
* A property that is false of the code is reported as such: `..._refuted` proves the negation of the full statement with a
  concrete witness, and `..._partial` proves the strongest restricted form found.

## Trusted base

* Coq kernel (and `vm_compute`, part of it).
* `Print Assumptions` for every property theorem: expected "Closed under the global context" throughout (list updated below if not).
* Faithfulness of the hand-made model to the cited lines; the comments next to the definitions name every simplification.
* External code is not modelled: zlib, OpenSSL (RC4/MD5/AES/SHA), libjpeg, freetype, fmt, iostreams, the allocator.
  Where a theorem depends on one, it is a universally quantified function argument (e.g. MD5) or modelled by its published
  algorithm (RC4, UTF-8/16, `from_chars`).

## Plan per property

| Id | Modelled | Approach |
|----|----------|----------|
| C01 | EscapeNameTo, UnescapeName, ReadName, token reader | round trip by induction on bytes |
| C02 | PdfString::Write escape table, ReadString automaton | simulation: automaton run over escaped text |
| C03 | hex writer, ReadHexString | round trip + conformance to a spec decoder |
| C04 | decimal writer, DetermineDataType number scan, from_chars | round trip |
| C05 | Write of all variants, tokenizer, recursive reader | mutual induction on object trees over a grammar-free reader |
| C06 | fixed formatting + trailing zero removal on decimal values | refuted (type) / partial (value) |
| C07 | whole tokenizer with fuel | fuel bound lemma; remaining input shrinks |
| C08 | TryReadNextToken | characterisation against a spec splitter |
| C09–C11 | Hex and ASCII85 filters as state machines | invariants over state, chunk lemma |
| C12, C13 | chain construction, CreateFilterList | composition by induction; array case refuted |
| C14 | predictor decoder state machine | inverse of spec encoder; Average and sub-byte pixels refuted |
| C15, C16 | RLE, LZW decoders | refuted with witnesses; restricted forms |
| C17, C18 | date formatting/parsing, civil calendar | round trip over Z days; malformed accepted: refuted |
| C19–C21 | xref blocks, insertion, merge, free list, text writer | invariants by induction over insertions |
| C20 | ReadXRefSubsection | parser∘writer = id |
| C22, C23 | xref stream entry codec, parseStream | round trip; bounds: refuted |
| C24–C26 | section chain walk, visited set, Reset | induction on chain; reuse refuted |
| C27 | ReadMagicWord | refuted; partial for '%'-free garbage |
| C28–C31 | object list state machine | invariants over histories; 65536th object refuted; GC = reachability |
| C32, C33 | append, InsertDocumentPageAt | injectivity of shift; gaps refuted; non-termination |
| C34 | dictionary ops | refinement to finite map |
| C35 | operator==/!= | refuted |
| C36, C37 | dirty flags, incremental save | invariants + combination with C19, C24 |
| C38–C40 | page tree, cache | rose tree with counts refining a list |
| C41 | name tree | B-tree invariants refining a map |
| C42 | outlines | linked list heap |
| C43 | char code map | trie built from any permutation |
| C44, C45 | PDFDocEncoding, UTF-8/16 | finite table checks lifted |
| C46–C49 | CMap ranges, ToUnicode export, CID map, identity | round trips / refuted |
| C50–C52 | RC4, key derivation with abstract MD5 | involution, cache invariant |
| C53 | memory devices, SeekPosition | invariants over histories |
| C54–C58 | guard, overflow, BE ints, keywords, tables | arithmetic / finite checks |
| C59 | rectangles over exact integers | arithmetic; zero/disjoint refuted |
| C60 | stream data with DecodeParms, MoveFrom | refuted / partial |
| C61, C62 | object stream parser, FindKeyParent | partial / cycle refuted |

Not expressible: timing, memory use, thread interleavings (the library keeps no threads of its own).

## What is modelled so far

* Tokenizer, object reader and writer (`TokModel.v`, `WriteModel.v`): C01–C08, C75, C76. Reals are exact decimals (no IEEE rounding).
* Filters (`FilterModel.v`): ASCIIHex, ASCII85, RunLength and LZW decoders as block-wise state machines, the predictor, the
  encode/decode chains with the buffered reader, CreateFilterList: C09–C16, C64, C65. Not modelled: zlib inside the
  Flate filter (any filter pair with the round-trip property stands for it), CCITT, JBIG2, DCT, JPX.
* Utilities (`UtilModel.v`): recursion guard, overflow test, big-endian integers (host byte order is a parameter), integer
  formatting, name tables: C54–C56, C58, C67.
* Text (`TextModel.v`): utfcpp's UTF-8/UTF-16 conversions, PDFDocEncoding, PdfString states, evaluation, writing and
  comparison, keyword lists: C44, C45, C57, C66, C68, C69. Encryption of strings is left out here. utfcpp exceptions are an error outcome.
* Dates (`DateModel.v`): calendar of date.h, both text formats, both parsers: C17, C18, C70. The text is NUL-terminated in the
  model; the code ignores the length of its string_view. The current time and local zone are not modelled.
* Object list (`ListModel.v`): creation, removal, replacement, free list, counter, garbage collection, clearing, and the merging of two
  documents' objects: C28–C33, C71. Pointers, observers and stream factories are left out; an object is its value and stream data.
* Containers and ownership (`OwnModel.v`): dictionaries, inherited attributes, comparison, arrays and dictionaries inside an object with
  the links to parent, owner and document, dirty flags, vector growth, assignment inside one object: C34–C36, C62, C72–C74. Vector
  growth is that of libstdc++ (doubling); immutable objects and delayed loading are left out.
* Cross-reference sections (`XrefModel.v`): collecting objects into blocks, the table as text, the table reader with its token queue,
  the binary entries of cross-reference streams and their reader: C19–C23. A vector's out-of-range reference that is formed but not
  read is not counted as undefined; the string behind charbuff ends with a readable NUL.
* Structure of a file (`ParserModel.v`): header, end-of-file marker, startxref, the walk over tables, streams and trailers with its
  recursion guard and visited offsets, re-use of the parser: C24–C27, C77, C78. The loading of a cross-reference stream as an object
  is an argument (`pstm`); linearised files, encryption and the change of the tokenizer's buffer size are left out.
* Saving and loading (`UpdateModel.v`): indirect objects as text, whole saves and incremental updates with table and trailer, the
  loading of an object at an offset, the filling of the object list: C37, C79. Streams, compressed objects and encryption are left out
  here.
* Stream objects (`StreamModel.v`): setting, appending, reading, copying, moving and unwrapping stream data through the filters with
  their parameters, writing an object with a stream, loading it, object streams: C60, C61, C63, C80–C82. zlib is an argument, any
  pair of filters where one undoes the other; the data is kept in memory (`PdfMemoryObjectStream`); encryption and streams written
  directly to a file are left out.
* Page tree (`PageModel.v`): lookup by index with its recursion guard, insertion, removal, the page cache, creation of pages, inherited
  resources, page numbers: C38–C40, C83, C84. The constructor of `PdfPage` (resources and contents made), /OpenAction on removal and
  `AppendDocumentPages` are left out; the objects are a map from references to objects.
* Name trees (`NameModel.v`): addition with the splitting of nodes and their limits, lookup, conversion to a dictionary: C41, C85. Keys
  are evaluated strings compared by their bytes; the catalog entry that leads to the root is left out.
* Outlines (`OutlineModel.v`): links in memory and in the dictionaries, CreateChild, CreateNext, InsertChild, Erase, loading: C42, C86. Titles,
  destinations and colours are left out.
* Encryption (`Rc4Model.v`, `EncryptModel.v`, `AesModel.v`): RC4 with its shared key schedule cache, padding of passwords, the O and U entries,
  keys, authentication, encryption dictionaries, saving and opening, AES strings and streams: C50-C52, C87, C88. The hash is a parameter (any
  function to 16 bytes; the witnesses use `Md5.v`), the AES block cipher is a parameter. AES-256 (built only with libidn) is left out, so are
  crypt filters other than by their CFM name, and which objects of a document are encrypted.
* Rectangles and matrices (`RectModel.v`): C59, C90. Doubles are rational numbers.
* Devices in memory (`DevModel.v`): spans, containers and the device without bytes with the public operations on them, and the identifier of a
  file which is computed through them: C53, C89. Files and standard streams are left out.
* Maps of character codes (`CodeModel.v`): `PdfCharCodeMap` with the search tree of its texts, and the loops of `PdfEncoding` that encode and
  decode with such a map: C43, C91. Text is a list of code points (UTF-8 is left out), the shuffle is any permutation.
* CMaps (`CMapModel.v`): the PostScript tokenizer, all sections `PdfCMapEncoding` reads, and the ToUnicode maps which are written for maps of codes
  and for one byte encodings: C46, C47, C92, C93. `CMapSpec.v` describes sections with any white space and any spelling of the strings; the head
  and the foot of the text are those that are written. `usecmap` and the headers of CID maps are left out.
* CID fonts (`CidModel.v`): `PdfCIDToGIDMap`, `PdfIdentityEncoding`, the exporter and the reader of /W and /DW, and the /CIDSet of a subset:
  C48, C49, C94, C95. Widths are whole or decimal numbers of thousandths; the logarithm of `GetCharCodeSize` is taken to be exact, and the
  conversion of minus infinity to be undefined, as the standard says.
* Created fonts (`FontModel.v`): the glyphs of a subset and their CIDs, dynamic encodings, strings to CIDs, lengths, and the widths of simple
  fonts: C95, C96, C97, C98. The metrics are a function from characters to glyphs and one from glyphs to widths. The size of the code 0
  is undefined where it is computed for a new code, and a parameter where the limits of a loaded font are computed.
* Differences (`DiffModel.v`, `DiffTables.v`): lists of differences and their arrays, names of glyphs, difference encodings over any base, and the
  built-in encodings: C99, C100, C101. The tables are taken from the source by a script. Names are the evaluated text of a name; what the keys of
  the dictionary lead to and the implicit encoding of the metrics are parameters.
* Content streams (`ContentsModel.v`, `OpTables.v`): the canvas device, the tables of operators, the reader of contents with forms, recursion and
  inline images: C102, C103, C104, C105, C106. The streams are decoded bytes; the XObjects that the resources of a canvas name, with their kinds,
  and the handler of inline images are parameters. The tokenizer's queue is carried from one content to the next as in the code.
* Subsets of TrueType fonts (`TtfModel.v`): the tables, the glyphs and their components, the order, glyf, hmtx, loca, the directory and the
  checksums: C107, C108, C109. The font is the bytes of its file; collections and OpenType fonts with other outlines are not subset by this code.
  The floating point logarithm and power of the header are taken to be exact for whole numbers.
* The texts of objects (`GrammarSpec.v`, over `TokModel.v`): every spelling under the standard's grammar, with comments, is read as its object: C110.
* Signing (`SignModel.v`): the placeholders and where they are written, the range of bytes, what the signer is given, the signature written into
  the file: C111. The signer is any function from the parts it is given to bytes; which objects of the form are modified is given.
* Collections of annotations, form fields and child fields (`CollModel.v`): the map of indices, the items and the array, with pointers into the
  array that has been moved counted as undefined: C112. SetPage, SetParent and the classes of annotations are left out.
* Form fields (`FieldModel.v`): flags, kinds, new fields, names, choice items, text, check marks, highlighting, additional actions: C113-C116.
  PdfField::Create from a widget, appearance streams and /SigFlags are left out; strings are bytes (their encodings are C45).
* Painting (`PainterModel.v`): the calls of the painter with its caches, the streams of pages and forms, resources: C117-C121. Numbers are exact
  rationals; what is shown is told by a machine for content streams in `PainterSpec.v`. Images, patterns, arcs, rotated rectangles, texts of more than
  one line and SetPrecision are left out; a font is its name, its encoding and its lengths.
* Colours (`ColorModel.v`, `ColorTable.v`): constructors, conversions, arrays, texts, named colours, the colour spaces of separations: C122, C123,
  C124. Parts are exact rationals; from_chars has no limits of doubles; char is signed. The independent table of named colours is in `ColorSpec.v`.
* Destinations, actions, and what has them (`LinkModel.v`): C125, C126. Doubles are decimal fractions; the name tree is that of C41 and C85.
* Annotations and file specifications (`AnnotModel.v`): entries, rectangles, appearances, names and embedded files: C127, C128, C129. Strings are
  their bytes; the resources that forms get, the quad points and the other classes of annotations are left out.
* Extraction of text (`ExtractModel.v`): the states, strings, chunks, lines, trimming, words and searches: C130, C131, C132, C133. Texts are lists of
  code points; doubles are exact rationals; the square root, the regular expressions and the fonts are parameters; bounding boxes are left out.
  `ExtractSpec.v` has an independent machine for the text operators (8.4, 9.3, 9.4).
* XMP packets (`XmpModel.v`): the normal form, reading, and updating of metadata: C134, C135. A packet is the tree that libxml2 holds, a namespace
  is its prefix, and reading and writing the XML text is left out; what libxml2 makes of entities other than the predefined ones is a parameter.
* Metadata of documents (`MetaModel.v`): the Info dictionary, the cache, the synchronisation with the packet, saving, and keywords: C136, C137.
  Dictionaries are sorted maps, strings are their bytes; the packet that is written is the tree that is read again.
* Settings of the catalog and developer extensions (`CatalogModel.v`): C138, C139. The catalog is its dictionary beside the other objects.
* Appending pages (`AppendModel.v`): the inherited entries, the insertion of the copies into the page tree, and ranges: C140, C141. Copying the
  objects is C32; the outlines are left out.
* Boxes, rotation and size of pages, and forms made of pages (`BoxModel.v`): C142, C143, C144. Doubles are exact; the cosine and sine of a turn are a
  parameter that is exact for multiples of 90 degrees; streams are decoded bytes; objects other than references in an array of contents are a parameter.
* Documents that are written while they are made (`ImmediateModel.v`): the writer, its streams and the order of calls on them: C145, C146. Filters
  are outside: the bytes are those the filters pass on. Encryption, the header and the text of the table are left out (the latter is C19 and C20).
* Images (`ImageModel.v`): setting pixels from buffers, decoding to buffers with soft masks, and setting raw data with a
  description (base/PdfImage.cpp:51-88, 179-241, 277-388, 1332-1367; private/ImageUtils.cpp:35-83, 174-362): C147, C148, C149.
  Not modelled: loading of JPEG, TIFF and PNG files, media filters, black and white images (CCITT), and what is left of an image
  after an exception. UnsupportedImageFormat is written EUnsupportedFilter.
* XObjects and extended graphics states (`XObjectModel.v`): making objects for XObjects that are found, new ones, matrices, identifiers
  (base/PdfXObject.cpp, PdfXObjectForm.cpp:15-33, 92-117, PdfImage.cpp:46-49, 172-177) and the parameters of graphics states
  (base/PdfExtGState.cpp): C150, C151, C152, C153. Doubles are decimal fractions.
* Fonts of a document (`FontCacheModel.v`): asking for fonts by name, standard fonts, faces and objects, adding and embedding them, subset
  prefixes (base/PdfFontManager.cpp:48-180, 267-316, 412-430, 474-477, 512-549, without Windows): C154, C155, C156, C157. Fonts are what is
  compared of them; which keys a table of hashes compares, what is installed and how fonts are made of objects are parameters.
* Fonts of font dictionaries (`FontLoadModel.v`): the factory of fonts and of encodings and the metrics of simple fonts
  (base/PdfFontFactory.cpp:76-180, PdfEncodingFactory.cpp:25-107, PdfFontMetricsObject.cpp:22-130, 232-305, 527-537): C158, C159. Font
  programs, CMaps and the metrics of CID fonts are parameters; doubles are fractions; of standard fonts only the choice is modelled.
- Values of signature fields (`SigValueModel`, C160–C161; PdfSignature.cpp): finding and making the value, setting, clearing and getting
  its texts and date, the application, preparing and certifying. Operations are state transformers that keep what was changed before they
  raised. Texts are bytes; `/SigFlags`, appearances and the raw data of `/Contents` and `/ByteRange` are not modelled.
- Appearance characteristics and captions (`CharsModel`, C162–C163; PdfAnnotationActionBase.h/.cpp, PdfButton.cpp, PdfPushButton.cpp):
  finding and making the dictionary, setting, clearing and getting captions and colours, and which buttons have a widget. A colour is the
  array that is written or the error of making it; reading one is `ColorModel.get_color`.
- Widths of standard fonts (`Std14Model`, C164; PdfFontMetricsStandard14.cpp, PdfFontObject.cpp, PdfFont.cpp:409-416,
  private/PdfStandard14FontData.cpp): parsing widths, glyphs of characters and of codes, widths of glyphs. Only the tables of Times-Roman
  are written out; numbers are fractions.
- Errors (`ErrorModel`, C165; PdfError.h, PdfError.cpp): names and messages of codes, frames, their paths and whether printing ends. Lines of
  frames, logging and the text that is printed are not modelled.
- Copying and moving objects (`ObjCopyModel`, C166; PdfObject.cpp:104-120, 318-341, 366-396, 432-452, PdfObjectStream.cpp:201-265,
  PdfVariant.cpp:240-255): copy and move construction and assignment with streams, which know the object they were made for. Reading and
  writing data is `StreamModel`. Objects are loaded and top-level; delayed loading, documents and the dirty flag are not modelled.
- Files of embedded fonts (`EmbedModel`, C167; PdfFont.cpp:501-565, PdfFontMetricsFreetype.cpp:227-317, 463-485): the entries that are written
  for each kind of file and the search for the parts of Type 1 files. Sizes are below 2^32; the descriptor and the data itself are not
  modelled. A loop that never changes its state is taken as running for ever (`Fuel` for every number of rounds).
- Font descriptors (DescModel.v): FillDescriptor with GetBoundingBox and GetWeight, and reading the entries back in PdfFontMetricsObject. Doubles are fractions,
  std::round is half away from zero, texts of strings are their bytes, the name of /BaseFont is taken to be that of the descriptor, and casts of numbers that are
  too large are left out. Theorems: C168 (DescProps.v); no axioms.
- Outlines of appended documents (OutMergeModel.v): the end of Append and of InsertDocumentPageAt, on the outlines of OutlineModel.v; copies of objects are
  those of AppendModel.v with numbers larger by the difference. Theorems: C169 (OutMergeProps.v); no axioms.
- Limits of the tests against wrong programs: seeded/LOG.jsonl has no entry for 65 of the properties, whose theorems have no recorded test of this kind:
  C15, C38, C39, C40, C41, C42, C43, C46, C47, C49, C50, C51, C52, C53, C59, C60, C61, C63, C68, C80, C81, C82, C83, C84, C85, C86, C87, C88, C89, C90, C91, C92, C93, C103, C110, C112, C113, C114, C115, C116, C117, C118, C119, C120, C121, C122, C123, C124, C125, C126, C127, C128, C129, C145, C146, C147, C148, C149, C150, C151, C152, C153, C166, C167, C168.
  C169 has one entry only. 14 entries have the outcome "survived"; where a theorem was added later, a later entry for the same edit says so.
