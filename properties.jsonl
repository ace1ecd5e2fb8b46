{"id": "C01", "title": "Names survive writing and reading", "statement": "Writing any name that contains no NUL byte and reading the written text back yields a name with the same bytes; the written form is one '/' followed only by regular printable characters, so it can never merge with what follows it. A name holding a NUL byte is refused with InvalidName.", "quantifier": "all byte strings used as a name", "why_tests_cant": "256 possible bytes at every position and any length; '#' sequences inside a name interact with the escaping", "anchors": ["src/pdfmm/base/PdfName.cpp: EscapeNameTo, UnescapeName, hexchr", "src/pdfmm/base/PdfTokenizer.cpp: ReadName, IsRegular, IsPrintable", "src/pdfmm/private/PdfDeclarationsPrivate.cpp: WriteCharHexTo"]}
{"id": "C02", "title": "Literal strings survive writing and reading", "statement": "Writing any byte string as a PDF literal string '(...)' and parsing it returns exactly the same bytes and leaves the reader right after the closing parenthesis, whatever follows.", "quantifier": "all byte strings and all continuations of the file", "why_tests_cant": "parentheses, backslashes, digits after escapes and control bytes combine without bound", "anchors": ["src/pdfmm/base/PdfString.cpp: Write", "src/pdfmm/base/PdfTokenizer.cpp: ReadString, getEscapedCharacter"]}
{"id": "C03", "title": "Hex strings survive writing and reading", "statement": "Writing any byte string as '<...>' and parsing it returns the same bytes; any hexadecimal text with interspersed white space decodes as ISO 32000 requires (an odd final digit counts as the high nibble).", "quantifier": "all byte strings; all spacings of hex text", "why_tests_cant": "unbounded length, odd/even digit counts and arbitrary white space", "anchors": ["src/pdfmm/base/PdfString.cpp: Write, FromHexData", "src/pdfmm/base/PdfTokenizer.cpp: ReadHexString, readHexString", "src/pdfmm/private/PdfDeclarationsPrivate.cpp: TryGetHexValue, WriteCharHexTo"]}
{"id": "C04", "title": "Integers survive writing and reading", "statement": "Writing any 64-bit signed integer and reading the text back yields the same integer, as an integer and not as a reference or a real, whatever delimiter follows.", "quantifier": "all int64 values", "why_tests_cant": "2^64 values", "anchors": ["src/pdfmm/base/PdfVariant.cpp: Write", "src/pdfmm/base/PdfTokenizer.cpp: DetermineDataType"]}
{"id": "C05", "title": "Whole objects survive writing and reading", "statement": "For every object built from null, booleans, integers, names, strings, references, arrays and dictionaries nested to any depth the reader accepts, parsing the text produced by Write returns an equal object and consumes exactly that text.", "quantifier": "all finite object trees of allowed nesting, all write flags that change spacing", "why_tests_cant": "objects are recursive; separators between adjacent tokens depend on every pair of neighbours (e.g. '1 2' followed by a name beginning with R, or two integers followed by an R token)", "anchors": ["src/pdfmm/base/PdfVariant.cpp: Write", "src/pdfmm/base/PdfArray.cpp: Write", "src/pdfmm/base/PdfDictionary.cpp: Write", "src/pdfmm/base/PdfReference.cpp: Write", "src/pdfmm/base/PdfTokenizer.cpp: TryReadNextVariant, ReadDictionary, ReadArray"]}
{"id": "C06", "title": "Real numbers keep their value and type", "statement": "A real number written with the library's fixed precision reads back as a real equal to the value rounded to that precision.", "quantifier": "all decimal values representable at the writing precision", "why_tests_cant": "unbounded set of values; trailing-zero removal depends on every digit pattern", "anchors": ["src/pdfmm/base/PdfVariant.cpp: Write", "src/pdfmm/private/PdfDeclarationsPrivate.cpp: removeTrailingZeroes, FormatTo", "src/pdfmm/base/PdfTokenizer.cpp: DetermineDataType"]}
{"id": "C07", "title": "Parsing arbitrary bytes always terminates", "statement": "Reading one object from any byte sequence ends with a value or an error after a number of steps bounded by the input, never by running past the end of the buffer, and never nests deeper than the recursion limit.", "quantifier": "all byte sequences", "why_tests_cant": "the input space is every file, including hostile ones", "anchors": ["src/pdfmm/base/PdfTokenizer.cpp: TryReadNextToken, TryReadNextVariant, ReadDictionary, ReadArray, ReadString", "src/pdfmm/private/PdfDeclarationsPrivate.cpp: RecursionGuard"]}
{"id": "C08", "title": "Token boundaries", "statement": "For any input, the next token returned is the first maximal run of regular characters after white space and comments, or a delimiter; joining any two regular tokens by at least one white-space character makes them read back as two tokens.", "quantifier": "all byte sequences and token pairs", "why_tests_cant": "all comment/white space/delimiter interleavings", "anchors": ["src/pdfmm/base/PdfTokenizer.cpp: TryReadNextToken, IsWhitespace, IsDelimiter"]}
{"id": "C09", "title": "ASCIIHex filter round trip", "statement": "Encoding any bytes with the ASCIIHex filter and decoding the result returns the bytes, however the data is split into blocks on either side.", "quantifier": "all byte sequences and all ways to split them in blocks", "why_tests_cant": "block boundaries may fall anywhere (also between the two digits of a byte)", "anchors": ["src/pdfmm/private/PdfFiltersPrivate.cpp: PdfHexFilter", "src/pdfmm/base/PdfFilter.cpp"]}
{"id": "C10", "title": "ASCIIHex filter accepts the standard encoding", "statement": "Decoding data encoded by a conforming ASCIIHex producer ('>' ends the data, an odd last digit is the high nibble, white space is ignored) returns the original bytes.", "quantifier": "all conforming encodings of all byte sequences", "why_tests_cant": "odd digit counts, EOD marker and white space positions", "anchors": ["src/pdfmm/private/PdfFiltersPrivate.cpp: PdfHexFilter::DecodeBlockImpl, EndDecodeImpl"]}
{"id": "C11", "title": "ASCII85 filter round trip", "statement": "Encoding any bytes with the ASCII85 filter and decoding the result returns the bytes, however the data is split into blocks on either side; the encoded text only uses '!'..'u' and 'z'.", "quantifier": "all byte sequences and all block splits", "why_tests_cant": "2^32 tuples, partial final tuples, zero tuples and block boundaries", "anchors": ["src/pdfmm/private/PdfFiltersPrivate.cpp: PdfAscii85Filter"]}
{"id": "C12", "title": "Filter chains are undone in the right order", "statement": "Encoding data with any list of filters and decoding it with the same list returns the data, provided each filter is the inverse of its own encoder.", "quantifier": "all lists of filters, all data", "why_tests_cant": "any length of list; order matters", "anchors": ["src/pdfmm/base/PdfFilter.cpp: CreateEncodeStream, CreateDecodeStream", "src/pdfmm/base/PdfObjectStream.cpp: setData, getInputStream"]}
{"id": "C13", "title": "Declared filters of a stream are honoured", "statement": "The list of filters the reader derives from a /Filter entry equals the entry: nothing for a missing entry, one filter for a name, all filters in order for an array.", "quantifier": "all /Filter values", "why_tests_cant": "arrays of any length", "anchors": ["src/pdfmm/base/PdfFilter.cpp: CreateFilterList", "src/pdfmm/base/PdfObjectStream.cpp"]}
{"id": "C14", "title": "PNG and TIFF predictors", "statement": "Decoding data prepared with a PNG predictor (None, Sub, Up, Average, Paeth per row) or TIFF predictor 2, for any row width, returns the original samples, independently of block splits.", "quantifier": "all predictor kinds, column counts, component counts, bit depths and data", "why_tests_cant": "every row depends on the whole previous row; bytes above 127 behave differently as signed chars", "anchors": ["src/pdfmm/private/PdfFiltersPrivate.cpp: PdfPredictorDecoder"]}
{"id": "C15", "title": "RunLength decoding follows the standard", "statement": "Decoding any run-length encoded data returns the bytes a conforming encoder compressed.", "quantifier": "all run-length encodings", "why_tests_cant": "runs of any kind, order and count", "anchors": ["src/pdfmm/private/PdfFiltersPrivate.cpp: PdfRLEFilter"]}
{"id": "C16", "title": "LZW decoding is independent of block splits", "statement": "Decoding the same LZW data yields the same output no matter how it is delivered in blocks.", "quantifier": "all LZW data and all block splits", "why_tests_cant": "splits may fall inside any code", "anchors": ["src/pdfmm/private/PdfFiltersPrivate.cpp: PdfLZWFilter"]}
{"id": "C17", "title": "Dates survive writing and parsing", "statement": "Formatting any date with second precision (years 0..9999, with or without zone offset) as a PDF date string and parsing it yields the same instant and offset; same for W3C format.", "quantifier": "all dates in range and all zone offsets", "why_tests_cant": "the calendar has hundreds of millions of days x seconds x offsets", "anchors": ["src/pdfmm/base/PdfDate.cpp: ToString, ToStringW3C, tryParse, tryParseW3C, inferTimeComponents"]}
{"id": "C18", "title": "Malformed dates are rejected", "statement": "Text that is not a PDF date is not accepted as one: each field has its fixed number of digits within range and nothing follows.", "quantifier": "all strings", "why_tests_cant": "infinitely many malformed strings", "anchors": ["src/pdfmm/base/PdfDate.cpp: tryParse, parseFixLenNumber"]}
{"id": "C19", "title": "Cross-reference table lists every object at its offset", "statement": "The written table contains, for every object added, exactly one entry with its offset and generation, and for every other number below /Size at most a free entry; entries are 20 bytes long.", "quantifier": "all sets of objects and free entries added in any order", "why_tests_cant": "blocks are split and merged depending on the order of insertion", "anchors": ["src/pdfmm/base/PdfXRef.cpp: addObject, InsertItem, mergeBlocks, Write, WriteXRefEntry"]}
{"id": "C20", "title": "A written cross-reference table is read back identically", "statement": "Parsing a written table section yields for each object number the same kind, offset and generation that were written.", "quantifier": "all tables with offsets below 10^10", "why_tests_cant": "every number of subsections and entries", "anchors": ["src/pdfmm/base/PdfXRef.cpp: Write", "src/pdfmm/base/PdfParser.cpp: ReadXRefContents, ReadXRefSubsection"]}
{"id": "C21", "title": "Free list of the cross-reference table is a closed chain", "statement": "Starting at object 0 and following the next-free links visits every free object exactly once and comes back to 0.", "quantifier": "all sets of used and free objects", "why_tests_cant": "chain crosses arbitrarily many blocks", "anchors": ["src/pdfmm/base/PdfXRef.cpp: GetFirstFreeObject, GetNextFreeObject, Write"]}
{"id": "C22", "title": "Cross-reference streams round trip", "statement": "Decoding the binary entries written for a cross-reference stream returns the type, offset/number and generation/index written.", "quantifier": "all entries", "why_tests_cant": "offset range exceeds what is exercised (files above 4 GiB)", "anchors": ["src/pdfmm/base/PdfXRefStream.cpp: WriteXRefEntry", "src/pdfmm/base/PdfXRefStreamParserObject.cpp: readXRefStreamEntry, parseStream"]}
{"id": "C23", "title": "Reading a cross-reference stream stays inside its data", "statement": "Parsing entries from cross-reference stream data of any length with any field widths never reads beyond the data.", "quantifier": "all data lengths, widths and indices", "why_tests_cant": "hostile files", "anchors": ["src/pdfmm/base/PdfXRefStreamParserObject.cpp: parseStream"]}
{"id": "C24", "title": "The newest revision wins", "statement": "When a file has several cross-reference sections chained by /Prev, each object number is resolved by the newest section that mentions it, and trailer keys likewise.", "quantifier": "all chains of sections", "why_tests_cant": "any number of incremental updates", "anchors": ["src/pdfmm/base/PdfParser.cpp: ReadXRefContents, ReadXRefSubsection, MergeTrailer"]}
{"id": "C25", "title": "Following /Prev always terminates", "statement": "Reading chained cross-reference sections visits each file offset at most once and stops, whatever the offsets in the file.", "quantifier": "all /Prev graphs including cyclic ones", "why_tests_cant": "hostile files with cycles of any length", "anchors": ["src/pdfmm/base/PdfParser.cpp: ReadXRefContents"]}
{"id": "C26", "title": "A parser can be used again", "statement": "After a failed or successful parse, parsing the same file again with the same parser behaves like the first time (the documented way to retry with another password).", "quantifier": "all files and all previous parse histories", "why_tests_cant": "state left by earlier calls", "anchors": ["src/pdfmm/base/PdfParser.cpp: Reset, Parse, ReadXRefContents"]}
{"id": "C27", "title": "PDF header detection", "statement": "A file is recognised as PDF exactly when '%PDF-' followed by a version occurs in it, at the first such place.", "quantifier": "all leading garbage", "why_tests_cant": "garbage may contain partial headers such as '%%PDF-'", "anchors": ["src/pdfmm/base/PdfParser.cpp: ReadMagicWord, IsPdfFile"]}
{"id": "C28", "title": "New objects never clobber live ones", "statement": "Creating an object always uses a reference no live object has, so no existing object is lost, in any history of create, remove and load operations.", "quantifier": "all operation histories", "why_tests_cant": "long histories; the failure needs more than 65535 objects", "anchors": ["src/pdfmm/base/PdfIndirectObjectList.cpp: getNextFreeObject, PushObject, addNewObject"]}
{"id": "C29", "title": "Reused object numbers get a higher generation", "statement": "When the number of a removed object is reused, its generation is greater than that of any earlier object of that number, and numbers at the generation limit are not reused.", "quantifier": "all operation histories", "why_tests_cant": "needs long remove/create histories", "anchors": ["src/pdfmm/base/PdfIndirectObjectList.cpp: RemoveObject, SafeAddFreeObject, AddFreeObject, tryAddFreeObject"]}
{"id": "C30", "title": "Replacing an object replaces that object", "statement": "Replacing the object with a given reference affects only that reference.", "quantifier": "all object lists and references", "why_tests_cant": "depends on neighbouring references present", "anchors": ["src/pdfmm/base/PdfIndirectObjectList.cpp: ReplaceObject"]}
{"id": "C31", "title": "Garbage collection removes exactly the unreachable objects", "statement": "After collection, an object remains exactly when it can be reached from the trailer through references or is a registered object stream.", "quantifier": "all object graphs, also cyclic", "why_tests_cant": "all graphs", "anchors": ["src/pdfmm/base/PdfIndirectObjectList.cpp: CollectGarbage, visitObject"]}
{"id": "C32", "title": "Appending a document keeps both documents' objects", "statement": "Appending another document's objects leaves all existing objects unchanged and adds every appended object under a shifted number with references shifted likewise.", "quantifier": "all pairs of documents", "why_tests_cant": "number gaps and free lists in any state", "anchors": ["src/pdfmm/base/PdfDocument.cpp: append, fixObjectReferences"]}
{"id": "C33", "title": "Inserting a page of another document", "statement": "Inserting a page taken from another document terminates and adds the page of that document at the requested position.", "quantifier": "all pairs of documents and page indices", "why_tests_cant": "all document contents", "anchors": ["src/pdfmm/base/PdfDocument.cpp: InsertDocumentPageAt"]}
{"id": "C34", "title": "Dictionaries behave as maps", "statement": "After any sequence of key additions and removals, looking up a key returns the last value added for it and not removed since, other keys are unaffected, and removal reports whether the key was present.", "quantifier": "all operation sequences", "why_tests_cant": "all histories", "anchors": ["src/pdfmm/base/PdfDictionary.cpp: AddKey, RemoveKey, FindKey, HasKey"]}
{"id": "C35", "title": "Equality and inequality agree", "statement": "For any two values, a == b and a != b are never both true or both false; == is symmetric and reflexive.", "quantifier": "all pairs of values", "why_tests_cant": "all pairs", "anchors": ["src/pdfmm/base/PdfVariant.cpp: operator==, operator!=", "src/pdfmm/base/PdfDictionary.cpp", "src/pdfmm/base/PdfObject.cpp"]}
{"id": "C36", "title": "Every modification marks the enclosing indirect object dirty", "statement": "Changing any nested direct value marks its enclosing indirect object, and no other object, as modified, so an incremental update writes it.", "quantifier": "all nestings and modification histories", "why_tests_cant": "any depth", "anchors": ["src/pdfmm/base/PdfObject.cpp: SetDirty, ResetDirty", "src/pdfmm/base/PdfDataContainer.cpp: SetDirty"]}
{"id": "C37", "title": "Incremental updates preserve unmodified objects", "statement": "After an incremental save, a reader resolves each modified object to its new content, each removed one to free and every other one to its old content.", "quantifier": "all documents and sets of modifications", "why_tests_cant": "all histories", "anchors": ["src/pdfmm/base/PdfWriter.cpp: Write, WritePdfObjects", "src/pdfmm/base/PdfXRef.cpp", "src/pdfmm/base/PdfParser.cpp"]}
{"id": "C38", "title": "Page tree behaves as a list of pages", "statement": "Inserting, removing and fetching pages by index on any well-formed page tree behaves like the same operation on the list of pages, and the counts in all nodes stay right.", "quantifier": "all well-formed page trees and operation sequences", "why_tests_cant": "trees of any shape", "anchors": ["src/pdfmm/base/PdfPageCollection.cpp: InsertPagesAt, RemovePageAt, getPageNode, insertPagesIntoNode, deletePageFromNode"]}
{"id": "C39", "title": "Fetching a page of any page tree terminates", "statement": "Looking up a page terminates with a page or an error for any node graph, also cyclic ones.", "quantifier": "all object graphs", "why_tests_cant": "hostile files", "anchors": ["src/pdfmm/base/PdfPageCollection.cpp: getPageNode"]}
{"id": "C40", "title": "Cached pages follow insertions and removals", "statement": "A page fetched by index is the same object whether or not it was cached, after any history of insertions and removals.", "quantifier": "all histories", "why_tests_cant": "cache state depends on history", "anchors": ["src/pdfmm/base/PdfPageTreeCache.cpp", "src/pdfmm/base/PdfPageCollection.cpp"]}
{"id": "C41", "title": "Name trees behave as maps", "statement": "After any sequence of additions a name tree returns the last value added for each key, and nothing for other keys; limits enclose every key below.", "quantifier": "all addition sequences", "why_tests_cant": "rebalancing happens only for large trees", "anchors": ["src/pdfmm/base/PdfNameTree.cpp: AddValue, GetKeyValue, SetLimits, Rebalance, CheckLimits"]}
{"id": "C42", "title": "Outline siblings form a doubly linked list", "statement": "After any sequence of creating children and siblings and erasing items, walking First/Next and Last/Prev gives the same items in opposite order.", "quantifier": "all histories, including outlines loaded from a file", "why_tests_cant": "all histories", "anchors": ["src/pdfmm/base/PdfOutlines.cpp: CreateChild, CreateNext, Erase, InsertChildInternal"]}
{"id": "C43", "title": "Character code lookup is independent of internal order", "statement": "For any set of mappings, encoding text finds the longest mapped code point sequence and decoding a code finds what was mapped to it, on every run.", "quantifier": "all sets of mappings and all internal shuffles", "why_tests_cant": "the lookup structure is built from a random shuffle", "anchors": ["src/pdfmm/base/PdfCharCodeMap.cpp: PushMapping, reviseCPMap, TryGetNextCharCode, TryGetCharCode", "src/pdfmm/base/PdfEncodingCommon.cpp: operator<"]}
{"id": "C44", "title": "PDFDocEncoding round trip", "statement": "Any byte string that PDFDocEncoding defines converts to Unicode and back to the same bytes; converting text succeeds exactly for characters of the standard's table.", "quantifier": "all byte strings", "why_tests_cant": "all strings and combinations", "anchors": ["src/pdfmm/private/PdfEncodingPrivate.cpp: s_cEncoding, ConvertPdfDocEncodingToUTF8, TryConvertUTF8ToPdfDocEncoding, IsPdfDocEncodingCoincidentToUTF8"]}
{"id": "C45", "title": "Unicode text strings round trip", "statement": "Any sequence of Unicode scalar values written as a text string (UTF-16BE with mark, or PDFDocEncoding) reads back as the same sequence.", "quantifier": "all Unicode strings", "why_tests_cant": "1.1 million code points, any length", "anchors": ["src/pdfmm/base/PdfString.cpp", "src/pdfmm/private/PdfDeclarationsPrivate.cpp: ReadUtf16BEString, WriteUtf16BEString"]}
{"id": "C46", "title": "CMap ranges map each code", "statement": "A bfrange <lo> <hi> <dst> maps every code c in lo..hi to dst with its last code point increased by c-lo; an embedded array maps element-wise.", "quantifier": "all ranges and destinations", "why_tests_cant": "destinations of several code points; ranges of any size", "anchors": ["src/pdfmm/base/PdfCMapEncoding.cpp: handleRangeMapping, parseCMapObject"]}
{"id": "C47", "title": "Exported one-byte ToUnicode maps cover every code", "statement": "The ToUnicode map exported for a one-byte encoding contains each code from the first to the last.", "quantifier": "all one-byte encodings", "why_tests_cant": "all limits", "anchors": ["src/pdfmm/base/PdfEncodingMap.cpp: PdfEncodingMapOneByte::AppendToUnicodeEntries"]}
{"id": "C48", "title": "CID to GID maps survive export and import", "statement": "Exporting a CID-to-GID map and loading it returns the same glyph for every mapped CID.", "quantifier": "all maps", "why_tests_cant": "all key sets and values", "anchors": ["src/pdfmm/base/PdfCIDToGIDMap.cpp: Create, ExportTo"]}
{"id": "C49", "title": "Identity encodings have the full code range", "statement": "An identity encoding of n bytes encodes exactly the code points below 2^(8n) as their n big-endian bytes and decoding inverts it.", "quantifier": "all n in 1..4 and all code points", "why_tests_cant": "2^32 codes", "anchors": ["src/pdfmm/base/PdfIdentityEncoding.cpp", "src/pdfmm/base/PdfEncodingCommon.cpp: AppendTo", "src/pdfmm/private/PdfDeclarationsPrivate.cpp: GetCharCodeSize"]}
{"id": "C50", "title": "RC4 encryption is undone by decryption", "statement": "Decrypting encrypted data with the same object key returns it, however reads and writes are split, and whatever objects were encrypted before.", "quantifier": "all data, keys, splits and histories", "why_tests_cant": "a key schedule cache is shared between streams", "anchors": ["src/pdfmm/base/PdfEncrypt.cpp: PdfRC4Stream, PdfRC4OutputStream, PdfRC4InputStream"]}
{"id": "C51", "title": "User and owner passwords open the document", "statement": "A document protected with any user and owner password authenticates with either, giving the same file key; with an unrelated password the key test is only passed on a hash coincidence.", "quantifier": "all passwords, ids, permissions, key lengths", "why_tests_cant": "all byte strings", "anchors": ["src/pdfmm/base/PdfEncrypt.cpp: ComputeOwnerKey, ComputeEncryptionKey, PadPassword, Authenticate, CheckKey, GenerateEncryptionKey, CreateFromObject"]}
{"id": "C52", "title": "Encryption settings survive the file", "statement": "The key length recovered from a written encryption dictionary equals the one data was encrypted with.", "quantifier": "all algorithms and key lengths", "why_tests_cant": "all combinations", "anchors": ["src/pdfmm/base/PdfEncrypt.cpp: Create, CreateEncryptionDictionary, CreateFromObject"]}
{"id": "C53", "title": "Memory devices stay in bounds and behave as files", "statement": "Reads return the bytes last written at that position; no read or write goes outside the buffer; seeks to invalid places are refused.", "quantifier": "all operation sequences", "why_tests_cant": "all histories", "anchors": ["src/pdfmm/base/PdfStreamDevice.cpp: SpanStreamDevice, SeekPosition", "src/pdfmm/base/PdfStreamDevice.h: ContainerStreamDevice"]}
{"id": "C54", "title": "Recursion guard", "statement": "Entering nested processing more than the limit is refused and every other nesting is accepted; after errors the guard can be used again at full depth.", "quantifier": "all enter/exit histories", "why_tests_cant": "all histories", "anchors": ["src/pdfmm/private/PdfDeclarationsPrivate.cpp: RecursionGuard"]}
{"id": "C55", "title": "Size multiplication overflow is detected", "statement": "The overflow test answers true exactly when the product of two sizes does not fit.", "quantifier": "all pairs of 64-bit sizes", "why_tests_cant": "2^128 pairs", "anchors": ["src/pdfmm/private/PdfDeclarationsPrivate.cpp: DoesMultiplicationOverflow"]}
{"id": "C56", "title": "Big-endian integers round trip", "statement": "Reading back a written big-endian integer returns it for each width.", "quantifier": "all values", "why_tests_cant": "2^64 values", "anchors": ["src/pdfmm/private/PdfDeclarationsPrivate.cpp: Write/ReadUInt*BE"]}
{"id": "C57", "title": "Keyword lists round trip", "statement": "Splitting the text made from a list of keywords returns the list.", "quantifier": "all keyword lists", "why_tests_cant": "all lists", "anchors": ["src/pdfmm/private/PdfDeclarationsPrivate.cpp: ToPdfKeywordsList, ToPdfKeywordsString"]}
{"id": "C58", "title": "Names of kinds and versions are inverse tables", "statement": "For filters, versions, annotation types and colour spaces, converting a kind to its PDF name and back returns the kind, and every accepted name maps to a kind with that name.", "quantifier": "all kinds and all strings", "why_tests_cant": "finite on one side, infinite on the other", "anchors": ["src/pdfmm/private/PdfDeclarationsPrivate.cpp"]}
{"id": "C59", "title": "Rectangles are normalised and intersect correctly", "statement": "A rectangle read from any four numbers contains exactly the points between its corners; intersecting two rectangles gives exactly the common points.", "quantifier": "all rectangles", "why_tests_cant": "all coordinates", "anchors": ["src/pdfmm/base/PdfRect.cpp: FromArray, CreateRect, Intersect, Contains, operator*"]}
{"id": "C60", "title": "Stream data survives setting and reading", "statement": "Data set on a stream is what is read from it, whatever the dictionary contained before.", "quantifier": "all dictionaries and data", "why_tests_cant": "previous filter parameters", "anchors": ["src/pdfmm/base/PdfObjectStream.cpp: SetData, getInputStream, MoveFrom, CopyFrom"]}
{"id": "C61", "title": "Objects of an object stream are found at their offsets", "statement": "Parsing an object stream returns each requested object as parsed at its declared offset and nothing else.", "quantifier": "all streams and offset tables", "why_tests_cant": "all streams", "anchors": ["src/pdfmm/base/PdfObjectStreamParser.cpp"]}
{"id": "C62", "title": "Looking up an inherited attribute", "statement": "The value returned for an inheritable page attribute is that of the nearest ancestor that has it, and lookup terminates on any parent graph.", "quantifier": "all parent graphs", "why_tests_cant": "hostile files with cycles", "anchors": ["src/pdfmm/base/PdfDictionary.cpp: findKeyParent"]}
{"id": "C63", "title": "Writing an object does not lose stream data", "statement": "Writing an object with a stream to a device emits the stream data the object holds, filtered or not, and leaves the object's own stream data unchanged.", "quantifier": "all stream objects, all data, all write flags", "why_tests_cant": "the data loss only shows for streams without filters written with compression enabled", "anchors": ["src/pdfmm/base/PdfObject.cpp: Write", "src/pdfmm/base/PdfObjectStream.cpp: MoveFrom"]}
{"id": "C64", "title": "ASCII85 filter accepts the standard encoding", "statement": "Decoding data encoded by a conforming ASCII85 producer (white space anywhere, '~>' ends the data) returns the original bytes, however the text is split into blocks.", "quantifier": "all byte sequences, all white space, all block splits", "why_tests_cant": "the marker may be cut by a block boundary; whitespace can be anywhere", "anchors": ["src/pdfmm/private/PdfFiltersPrivate.cpp: PdfAscii85Filter::DecodeBlockImpl"]}
{"id": "C65", "title": "ASCII encoded streams end with the marker", "statement": "The ASCIIHex and ASCII85 encoders end their output with the end-of-data marker the standard requires.", "quantifier": "all byte sequences and block splits", "why_tests_cant": "a claim about every output", "anchors": ["src/pdfmm/private/PdfFiltersPrivate.cpp: PdfHexFilter, PdfAscii85Filter"]}
{"id": "C66", "title": "String comparison does not depend on evaluation", "statement": "Two strings compare equal exactly when their texts are equal, whether or not the text of either has been looked at before; != is the negation of ==.", "quantifier": "all pairs of strings in all states", "why_tests_cant": "the answer depends on hidden evaluation state, which tests rarely vary", "anchors": ["src/pdfmm/base/PdfString.cpp: operator==, operator!=, canPerformComparison, evaluateString"]}
{"id": "C67", "title": "Integer formatting", "statement": "FormatTo writes the decimal text of every value of the integer type.", "quantifier": "all values of all integer types", "why_tests_cant": "only values with the most digits fail, and what is then copied is uninitialised memory", "anchors": ["src/pdfmm/private/PdfDeclarationsPrivate.cpp: formatTo"]}
{"id": "C68", "title": "PDFDocEncoding coincidence test", "statement": "The test whether a PDFDocEncoding text reads the same as UTF-8 stays in bounds and answers correctly.", "quantifier": "all byte strings", "why_tests_cant": "long and unusual inputs decide", "anchors": ["src/pdfmm/private/PdfEncodingPrivate.cpp: IsPdfDocEncodingCoincidentToUTF8"]}
{"id": "C69", "title": "UTF-8 and UTF-16 conversion", "statement": "A byte string is accepted as UTF-8 exactly when it is the encoding of a sequence of Unicode scalar values, which are the ones returned; conversion to UTF-16 and back is exact.", "quantifier": "all byte strings, all scalar sequences", "why_tests_cant": "overlong forms, surrogates and truncations cannot be enumerated", "anchors": ["3rdparty/utfcpp/utf8/core.h", "3rdparty/utfcpp/utf8/checked.h", "src/pdfmm/private/utfcpp_extensions.h"]}
{"id": "C70", "title": "Meaning of conforming dates", "statement": "Every date text of the form allowed by ISO 32000-1 7.9.4, including shortened ones, is read as the instant the standard assigns to it (missing month and day default to 1, missing time to 0).", "quantifier": "all conforming date texts", "why_tests_cant": "millions of texts in several shapes; calendar corner cases", "anchors": ["src/pdfmm/base/PdfDate.cpp: tryParse, inferTimeComponents"]}
{"id": "C71", "title": "Clearing an object list resets it", "statement": "Clearing an object list brings it back to its default state: later operations behave as on a new list.", "quantifier": "all object lists", "why_tests_cant": "needs lists with free entries, unavailable numbers and object streams", "anchors": ["src/pdfmm/base/PdfIndirectObjectList.cpp: Clear"]}
{"id": "C72", "title": "Assigning one part of an object to another", "statement": "Assigning an element or key of an object the value of another element or key of the same object stores exactly that value there and changes nothing else, also when source and target are the same or one contains the other.", "quantifier": "all values, all pairs of places inside them", "why_tests_cant": "aliasing between any two places", "anchors": ["src/pdfmm/base/PdfVariant.cpp: operator=", "src/pdfmm/base/PdfObject.cpp: operator=, assign", "src/pdfmm/base/PdfArray.cpp: SetAt"]}
{"id": "C73", "title": "References inside nested values stay resolvable", "statement": "In an object that belongs to a document, looking up a key of any nested dictionary follows references through the document, after any sequence of modifications.", "quantifier": "all nestings and modification histories", "why_tests_cant": "depends on which elements were moved by vector growth", "anchors": ["src/pdfmm/base/PdfDataContainer.cpp: GetIndirectObject", "src/pdfmm/base/PdfArray.cpp", "src/pdfmm/base/PdfObject.cpp: SetParent, SetVariantOwner"]}
{"id": "C74", "title": "Arrays behave as lists", "statement": "Adding, inserting, removing and replacing array elements yields the array value obtained by the same operation on a list, whatever elements are moved or reallocated; adding a dictionary key yields the same dictionary but for that key.", "quantifier": "all arrays, positions, capacities and values", "why_tests_cant": "any length and capacity", "anchors": ["src/pdfmm/base/PdfArray.cpp: Add, insert, RemoveAt, SetAt", "src/pdfmm/base/PdfDictionary.cpp: AddKey"]}
{"id": "C75", "title": "Literal strings are read as the standard defines them", "statement": "Any literal string made of ordinary characters, balanced parentheses, named and octal escapes, escaped line ends and ignored backslashes (ISO 32000-1, 7.3.4.2) is read as the bytes it denotes, and reading stops after its closing parenthesis.", "quantifier": "all literal strings of the standard's grammar", "why_tests_cant": "combinations of escapes and nesting; only strings the library writes itself are covered by round trips", "anchors": ["src/pdfmm/base/PdfTokenizer.cpp: ReadString, getEscapedCharacter"]}
{"id": "C76", "title": "Written objects are texts of the standard's grammar", "statement": "Every object the writer can express is written as a text that stands for exactly that object in the grammar of ISO 32000-1, 7.2 and 7.3: names with number-sign escapes, literal and hexadecimal strings, numbers, references, arrays and dictionaries, with separators wherever two parts would otherwise run into each other. Any conforming reader, not only the library's own, therefore reads the object back.", "quantifier": "all objects, all nestings, all write flags", "why_tests_cant": "round trips through the library's own reader hide deviations that writer and reader share (a bare carriage return in a literal string for example)", "anchors": ["src/pdfmm/base/PdfVariant.cpp: Write", "src/pdfmm/base/PdfString.cpp: Write, getEscapedCharacter", "src/pdfmm/base/PdfName.cpp: EscapeNameTo", "src/pdfmm/base/PdfDictionary.cpp: Write", "src/pdfmm/base/PdfArray.cpp: Write"]}
{"id": "C77", "title": "The cross-reference offset at the end of the file is found", "statement": "For every file whose last lines are startxref, a number and the end-of-file marker (ISO 32000-1, 7.5.5), with any white space between them and anything before, the parser finds exactly that number.", "quantifier": "all files, all amounts of white space, both parsing modes", "why_tests_cant": "the search runs backwards over buffers of fixed size; where the words fall in the buffer depends on the file", "anchors": ["src/pdfmm/base/PdfParser.cpp: CheckEOFMarker, FindXRef, FindTokenBackward"]}
{"id": "C78", "title": "A file without trailer is an error, not a crash", "statement": "Whatever the file, reading its structure either fails with an error or ends with a trailer dictionary; the trailer is never used when there is none.", "quantifier": "all files", "why_tests_cant": "hostile files; a table without trailer is accepted by the table reader", "anchors": ["src/pdfmm/base/PdfParser.cpp: ReadDocumentStructure, ReadXRefContents, ReadNextTrailer, GetTrailer"]}
{"id": "C79", "title": "A saved document is loaded with the same objects", "statement": "Saving a document and loading the file gives a list with exactly the same indirect objects, references and values, the same catalogue and information dictionary, and the same free entries.", "quantifier": "all documents, all layouts of the writer", "why_tests_cant": "the combination of object writer, table writer, trailer, file structure parser, table reader and object loader over all documents", "anchors": ["src/pdfmm/base/PdfWriter.cpp: Write, WritePdfObjects, FillTrailerObject", "src/pdfmm/base/PdfParser.cpp: ReadDocumentStructure, ReadObjectsInternal", "src/pdfmm/base/PdfParserObject.cpp: Parse"]}
{"id": "C80", "title": "Refused changes leave stream data alone", "statement": "When setting, appending or unwrapping stream data raises an error the stream reads as before.", "quantifier": "all streams, filters and data", "why_tests_cant": "The error paths need filters that cannot encode or data that cannot be decoded, and the state afterwards is rarely looked at.", "anchors": ["src/pdfmm/base/PdfObjectStream.cpp:109-170", "src/pdfmm/base/PdfObjectStream.cpp:353-367", "src/pdfmm/base/PdfObjectStream.cpp:476-507"]}
{"id": "C81", "title": "Unwrapping a stream keeps its data", "statement": "After removing the filters of a stream it reads as before, media filters and their parameters staying declared.", "quantifier": "all streams and filter lists", "why_tests_cant": "The result depends on the order of destructors and on which filters are combined.", "anchors": ["src/pdfmm/base/PdfObjectStream.cpp:109-170", "src/pdfmm/base/PdfObjectStream.cpp:426-455"]}
{"id": "C82", "title": "Stream data is taken from the right place of the file", "statement": "Loading a stream object yields the /Length bytes that follow the keyword and its line end, or an error if the file does not hold them.", "quantifier": "all files, lengths and line ends", "why_tests_cant": "Truncated files and odd lengths come in unlimited variety.", "anchors": ["src/pdfmm/base/PdfParserObject.cpp:161-246", "src/pdfmm/base/PdfObjectStream.cpp:369-374"]}
{"id": "C83", "title": "Inherited page resources", "statement": "The resources of a page are its own entry or else that of the nearest ancestor that has one.", "quantifier": "all chains of ancestors", "why_tests_cant": "any number of ancestors, with or without the entry", "anchors": ["src/pdfmm/base/PdfPage.cpp: getResources"]}
{"id": "C84", "title": "Page numbers agree with the page list", "statement": "The number of a page computed from its parents is its index in the page list plus one, for every page of every well-formed tree, and the computation ends for any graph.", "quantifier": "all page trees and all object graphs", "why_tests_cant": "trees of any shape, cyclic parents", "anchors": ["src/pdfmm/base/PdfPage.cpp: GetPageNumber"]}
{"id": "C85", "title": "Name trees of any document", "statement": "Lookup, addition and conversion to a dictionary end with a result or an error for every graph of objects, with loops and malformed arrays.", "quantifier": "all object graphs", "why_tests_cant": "hostile graphs are not in the samples", "anchors": ["src/pdfmm/base/PdfNameTree.cpp: GetKeyValue, AddValue, AddToDictionary"]}
{"id": "C86", "title": "Loading an outline always ends and gives the items that were written", "statement": "Loading the outline of a document ends for any object graph, with work bounded by its size, and an outline that the library made is loaded with the same items and links.", "quantifier": "all object graphs; all outlines", "why_tests_cant": "cycles, shared items and long lists of siblings behave differently from the small outlines of tests", "anchors": ["src/pdfmm/base/PdfOutlines.cpp: PdfOutlineItem(PdfObject&, ...)", "src/pdfmm/private/PdfDeclarationsPrivate.h: RecursionGuard"]}
{"id": "C87", "title": "Saving a protected document keeps its protection", "statement": "After a protected document is opened with one of its passwords and saved, wholly or as an update, the same passwords open it and no others.", "quantifier": "all documents, passwords and identifiers", "why_tests_cant": "only one password is known when a document is opened; identifiers change with each save", "anchors": ["src/pdfmm/base/PdfWriter.cpp: Write, FillTrailerObject, SetEncrypt", "src/pdfmm/base/PdfParser.cpp: ReadObjects, GetDocumentId", "src/pdfmm/base/PdfEncrypt.cpp: GenerateEncryptionKey, Authenticate"]}
{"id": "C88", "title": "AES strings and streams are read back", "statement": "Strings and streams encrypted with AES as the standard says are decrypted to their data, in strings, when a stream is loaded and however it is read; wrong data raises an error.", "quantifier": "all data, vectors, block ciphers, sizes and splits of reads", "why_tests_cant": "padding, buffering and sizes around 4096 bytes interact", "anchors": ["src/pdfmm/base/PdfEncrypt.cpp: PdfAESInputStream, EncryptTo, DecryptTo, BaseEncrypt, BaseDecrypt, CalculateStreamLength", "src/pdfmm/base/PdfInputStream.cpp: CopyTo"]}
{"id": "C89", "title": "File identifiers depend on the information of the document", "statement": "The identifier created when a file is written is a digest of the information dictionary: documents with different information get different identifiers unless the digest collides.", "quantifier": "all information dictionaries", "why_tests_cant": "every single run gives some plausible identifier; only all pairs of documents show what it depends on", "anchors": ["src/pdfmm/base/PdfWriter.cpp: CreateFileIdentifier", "src/pdfmm/base/PdfStreamDevice.h: ContainerStreamDevice", "src/pdfmm/common/types.h: charbuff_t"]}
{"id": "C90", "title": "Matrices compose as transformations", "statement": "The product of two matrices transforms a point by the first and then by the second; translations, scalings and rotations transform as named; a rotation keeps its centre and all distances.", "quantifier": "all matrices and points", "why_tests_cant": "all coordinates and angles", "anchors": ["src/pdfmm/base/PdfMath.cpp: operator*, Translate, CreateRotation, CreateScale, CreateTranslation", "src/pdfmm/base/PdfMath.cpp: Vector2::operator*"]}
{"id": "C91", "title": "Encoding with a map of codes and decoding are inverse", "statement": "Text that can be encoded with the mappings of a font is decoded to the same text, and text is refused only where no mapped sequence begins.", "quantifier": "all mappings, texts and internal orders", "why_tests_cant": "greedy choice of codes of several sizes on both sides", "anchors": ["src/pdfmm/base/PdfEncoding.cpp: tryConvertEncodedToUtf8, TryConvertToEncoded, fetchFallbackCharCode", "src/pdfmm/base/PdfEncodingMap.cpp: tryGetNextCodePoints", "src/pdfmm/base/PdfCMapEncoding.cpp: PdfCMapEncoding(PdfCharCodeMap&&)"]}
{"id": "C92", "title": "Written ToUnicode maps are read back", "statement": "Reading the ToUnicode CMap which is written for a map of character codes gives the same text for every code and the same sizes of the codes.", "quantifier": "all maps, all orders of the code space ranges", "why_tests_cant": "The order of the ranges comes from a hash table, and the codes, sizes and texts are unbounded in number.", "anchors": ["src/pdfmm/base/PdfEncodingMap.cpp: AppendToUnicodeEntries, AppendCodeSpaceRange, AppendUTF16CodeTo", "src/pdfmm/base/PdfEncodingCommon.cpp: WriteHexTo", "src/pdfmm/base/PdfEncoding.cpp: writeToUnicodeCMap", "src/pdfmm/base/PdfCMapEncoding.cpp: CreateFromObject, parseCMapObject"]}
{"id": "C93", "title": "The sizes of the codes of a CMap are those of its codes", "statement": "The smallest and the largest size of the codes read from a CMap are those of the codes written in it.", "quantifier": "all CMaps", "why_tests_cant": "Wrong sizes only show in how later texts are cut into codes.", "anchors": ["src/pdfmm/base/PdfCMapEncoding.cpp: getCodeFromVariant, parseCMapObject"]}
{"id": "C94", "title": "Widths of CID fonts survive saving and loading", "statement": "The /W and /DW entries written for a CID font give each CID the width of its glyph, and reading them back returns the same widths; every well formed /W array is read as ISO 32000-1, 9.7.4.3 says.", "quantifier": "all maps from CIDs to glyphs, all widths, all arrays", "why_tests_cant": "The writer is a state machine over runs of equal and different widths and gaps; the runs and arrays are unbounded.", "anchors": ["src/pdfmm/base/PdfFontCID.cpp: WidthExporter, createWidths", "src/pdfmm/base/PdfFontMetricsObject.cpp: the constructor, TryGetGlyphWidth", "src/pdfmm/base/PdfFont.cpp: GetCIDLengthRaw"]}
{"id": "C95", "title": "A font subset numbers its glyphs without gaps", "statement": "Whatever glyphs are added to a subset and in whatever order, each gets one CID, the CIDs are 1 to n, the map from CIDs to glyphs inverts the numbering, and the set of CIDs has exactly these bits.", "quantifier": "all histories of added glyphs", "why_tests_cant": "The numbering depends on the whole history of the document.", "anchors": ["src/pdfmm/base/PdfFont.cpp: tryAddSubsetGID, AddSubsetGIDSafe, AddSubsetGIDs", "src/pdfmm/base/PdfFontCID.cpp: getCIDToGIDMapSubset", "src/pdfmm/base/PdfFontCIDTrueType.cpp: embedFontSubset"]}
{"id": "C96", "title": "Text written with a growing encoding is read again", "statement": "When a created font with a dynamic encoding encodes a text, decoding the bytes gives the text again, and their CIDs are those of the glyphs, also after more texts were encoded; any string of bytes can be turned into CIDs.", "quantifier": "all fonts, all histories of texts, all texts", "why_tests_cant": "The code of a character depends on everything that was written before, and the codes change their length at the 256th glyph.", "anchors": ["src/pdfmm/base/PdfEncoding.cpp: TryConvertToEncoded, tryGetCharCode, tryConvertEncodedToCIDs", "src/pdfmm/base/PdfFont.cpp: tryAddSubsetGID, AddCharCodeSafe, InitImported", "src/pdfmm/base/PdfEncodingMap.cpp: TryGetNextCID"]}
{"id": "C97", "title": "Measured lengths are the sums of the widths of the glyphs", "statement": "The length of a text or of an encoded string in a font is the sum of the widths of the glyphs it is shown with, scaled by the text state.", "quantifier": "all fonts, texts and text states", "why_tests_cant": "The result is a plausible number in any case; which glyph is measured shows in fonts whose CIDs differ from the glyphs.", "anchors": ["src/pdfmm/base/PdfFont.cpp: TryGetStringLength, tryConvertToGIDs, GetCIDLengthRaw, tryMapCIDToGID"]}
{"id": "C98", "title": "The widths of simple fonts survive saving and loading", "statement": "For every code from FirstChar to LastChar the width that is written is the one the loaded font reports, and other codes get the missing width.", "quantifier": "all ranges of codes, all widths", "why_tests_cant": "The index of a width depends on limits that are taken from the font or from the encoding; fonts with one code are rare in tests.", "anchors": ["src/pdfmm/base/PdfFontSimple.cpp: getWidthsArray, embedFont", "src/pdfmm/base/PdfEncoding.cpp: PdfEncoding, GetLimits, GetFirstChar", "src/pdfmm/base/PdfFontObject.cpp: tryMapCIDToGID"]}
{"id": "C99", "title": "Differences of an encoding are read and written as the standard says", "statement": "An array of differences gives each code the last name it names for it, counting from the number before; codes outside 0..255 and names before any number are refused; a list that is made by adding differences has for each code what was added last; a list, and an encoding with its base, is read back from what is written for it.", "quantifier": "all arrays, all histories of additions, all bases", "why_tests_cant": "Arrays may repeat codes, run over 255, start without a number and hold other objects; test files have ordinary ones.", "anchors": ["src/pdfmm/base/PdfDifferenceEncoding.cpp: PdfDifferenceList, Create, getExportObject, ToArray"]}
{"id": "C100", "title": "Names of glyphs and code points", "statement": "Each code point survives the way to its name and back; the names of the table and the names uniXXXX have their code points; other names of the Adobe glyph list's forms are read by its rules or taken for unknown ones.", "quantifier": "all code points, all names", "why_tests_cant": "Two tables of more than a thousand entries each and 1.1 million code points.", "anchors": ["src/pdfmm/base/PdfDifferenceEncoding.cpp: nameToUnicodeTab, UnicodeToNameTab, NameToCodePoint, CodePointToName"]}
{"id": "C101", "title": "Text in simple encodings survives encoding and decoding", "statement": "In a built-in encoding or a difference encoding a code point is encoded exactly if a code stands for it, in one byte, and the bytes are decoded to the same text.", "quantifier": "all lists of differences, all one byte bases, all texts", "why_tests_cant": "Depends on the order of codes with the same code point, on the limits of the base and on the differences together.", "anchors": ["src/pdfmm/base/PdfDifferenceEncoding.cpp: tryGetCharCode, tryGetCodePoints, buildReverseMap", "src/pdfmm/base/PdfEncodingMap.cpp: PdfBuiltInEncoding", "src/pdfmm/base/PdfPredefinedEncoding.cpp: s_cEncoding"]}
{"id": "C102", "title": "The canvas device gives the streams of a page in order", "statement": "Reading a page character by character gives its streams which are not empty, in order, divided by one line feed; looking at a character changes nothing; buffers of any size give the same bytes.", "quantifier": "all arrays of streams, empty ones and objects without streams included; all interleavings of reading and looking", "why_tests_cant": "The state (device switched, end reached, current stream empty) depends on where the streams end relative to the calls.", "anchors": ["src/pdfmm/base/PdfCanvasInputDevice.cpp: readChar, peek, readBuffer, tryGetNextDevice, tryPopNextDevice"]}
{"id": "C103", "title": "The operators are those of the standard with the right number of operands", "statement": "Exactly the 73 operators of annex A are recognised; names and enumerators are inverse to each other; each has the number of operands that the standard gives it.", "quantifier": "all names and enumerators", "why_tests_cant": "Four hand written switch statements over 73 operators each; a test touches the common ones.", "anchors": ["src/pdfmm/base/PdfOperatorUtils.cpp: TryGetPdfOperator, TryGetOperandCount, TryGetPdfOperatorName"]}
{"id": "C104", "title": "Reading content streams shows the program that they spell", "statement": "Whatever spelling of the operands, white space and division into streams, reading a page shows each instruction with its operands in order, a warning exactly if their number is wrong, unknown operators as such, inline images with dictionary and data, and forms with what is in them, unless they are already being read; with the argument to throw on warnings reading fails exactly if there is a warning.", "quantifier": "all programs, all spellings, all worlds of forms", "why_tests_cant": "Programs, nesting of forms, recursion and division into streams combine without bound.", "anchors": ["src/pdfmm/base/PdfContentsReader.cpp: TryReadNext, tryReadNextContent, tryHandleOperator, tryFollowXObject, isCalledRecursively, handleWarnings", "src/pdfmm/base/PdfPostScriptTokenizer.cpp: TryReadNext"]}
{"id": "C105", "title": "Inline images are read up to their end", "statement": "The data of an inline image are the bytes between the white space after ID and the EI that ends them; the dictionary has the entries between BI and ID; malformed images give a warning and nothing else changes.", "quantifier": "all dictionaries, all data", "why_tests_cant": "Data are arbitrary bytes; the end is found by an automaton over them.", "anchors": ["src/pdfmm/base/PdfContentsReader.cpp: tryReadInlineImgDict, tryReadInlineImgData, TryReadNext"]}
{"id": "C106", "title": "Reading content streams ends", "statement": "On any bytes, with forms which draw each other and themselves, reading ends after finitely many contents or raises an error, and nothing undefined happens.", "quantifier": "all byte strings, all finite sets of forms, all arguments", "why_tests_cant": "Non-termination shows only on particular cycles and malformed contents.", "anchors": ["src/pdfmm/base/PdfContentsReader.cpp: TryReadNext, tryFollowXObject, isCalledRecursively"]}
{"id": "C107", "title": "A subset of a TrueType font shows the glyphs asked for", "statement": "For a valid TrueType font and a list of glyphs, BuildFont writes a font whose glyph 0 is glyph 0 of the original and whose glyph i+1 is the i-th listed glyph: the same outline, the same advance and the same left side bearing, where a glyph of components refers to the places its components have in the subset. The subset has exactly the glyphs that are needed: glyph 0, the listed ones, and their components at any depth, each once.", "quantifier": "all valid fonts with short or long offsets, all lists of glyphs, all nestings of components", "why_tests_cant": "The components form a graph of any depth which is walked recursively while a map and an order are built, and positions inside the glyph are patched later; a test has a font or two.", "anchors": ["src/pdfmm/base/PdfFontTrueTypeSubset.cpp:201-347", "src/pdfmm/base/PdfFontTrueTypeSubset.cpp:349-414"]}
{"id": "C108", "title": "The file of a subset can be read", "statement": "The directory of a subset has the tables of the font that PDF asks for, in the order of the font, each aligned to four bytes and inside the file. cvt, fpgm and prep are unchanged, and head is but for the adjustment of the checksum. The checksums are the sums of the words of the tables, and the three fields for searching are those of the OpenType specification.", "quantifier": "all valid fonts, all lists of glyphs", "why_tests_cant": "Renderers mostly ignore checksums, search fields and the revision of the font, so that a wrong value is not seen.", "anchors": ["src/pdfmm/base/PdfFontTrueTypeSubset.cpp:112-190", "src/pdfmm/base/PdfFontTrueTypeSubset.cpp:416-523", "src/pdfmm/base/PdfFontTrueTypeSubset.cpp:567-580"]}
{"id": "C109", "title": "Building a subset is safe", "statement": "Building a subset ends for every file and every list of glyphs. It writes only inside its buffers, and a font without a required table is refused.", "quantifier": "all files, all lists of glyphs", "why_tests_cant": "Malformed fonts reach this code through PdfFont; tests use well-formed system fonts, where no loop of components and no short table occurs.", "anchors": ["src/pdfmm/base/PdfFontTrueTypeSubset.cpp:112-190", "src/pdfmm/base/PdfFontTrueTypeSubset.cpp:242-347", "src/pdfmm/base/PdfFontTrueTypeSubset.cpp:416-523"]}
{"id": "C110", "title": "Every spelling of an object is read as that object", "statement": "Every text that stands for an object under ISO 32000-1 7.2 and 7.3, with any white space and comments between its parts, any order of keys, any digits and escapes, is read as that object, and reading goes on right after it. A text stands for one object only.", "quantifier": "all texts, all objects, all blanks before and texts after", "why_tests_cant": "The number of spellings of one object has no bound; tests read what pdfmm or a few other programs write.", "anchors": ["src/pdfmm/base/PdfTokenizer.cpp:46-176", "src/pdfmm/base/PdfTokenizer.cpp:216-488", "src/pdfmm/base/PdfTokenizer.cpp:590-649", "src/pdfmm/base/PdfName.cpp:193-221"]}
{"id": "C111", "title": "Signing covers the whole file but the signature and leaves a readable document", "statement": "After SignDocument the bytes given to the signer are exactly those that /ByteRange covers in the final file, which are all bytes except the /Contents string with its angle brackets; a reader of the file finds the signature dictionary with this range and with the signature padded with zeros, the other modified objects and everything else as after an incremental update; a signature longer than the one of the dry run is an error.", "quantifier": "for all documents with any chain of cross-reference sections, all modified objects before and after the signature dictionary, all entries of the dictionary, all sizes of the dry run, all signers and all writing options", "why_tests_cant": "The offsets depend on the whole layout of the file and are patched into placeholders after writing; a test signs a few documents, with small offsets, and never sees a boundary of the read buffer fall on a boundary of the ranges.", "anchors": ["src/pdfmm/base/PdfSigner.cpp:34-161", "src/pdfmm/base/PdfSignature.cpp:96-118", "src/pdfmm/base/PdfData.cpp:31-42", "src/pdfmm/base/PdfMemDocument.cpp:265-298"]}
{"id": "C112", "title": "Collections of annotations, fields and kids behave as lists", "statement": "A collection of annotations, form fields or child fields behaves as the list of the references of its array under every sequence of counting, indexing, finding, adding and removing, and the array in the document always has the references of this list.", "quantifier": "all documents with an array of distinct references, all sequences of requests", "why_tests_cant": "The collection keeps three structures in step (map of indices, items, array), and the errors need a removal before an addition or an array with repeated or direct elements.", "anchors": ["src/pdfmm/base/PdfAnnotationCollection.cpp:14-188", "src/pdfmm/base/PdfAcroForm.cpp:65-247", "src/pdfmm/base/PdfFieldChildrenCollection.cpp:16-197", "src/pdfmm/base/PdfAnnotation.cpp:385-586"]}
{"id": "C113", "title": "Flags and kinds of form fields", "statement": "Setting a flag changes exactly the bit that ISO 32000-1 gives it in the flags the field has or inherits, and no other entry or object; a new field, with or without a parent, has the kind it was made for, and flags that do not tell kinds apart keep the kind.", "quantifier": "all documents, all fields and chains of parents, all flags", "why_tests_cant": "There are eighteen flags at inherited positions, shared between kinds; a wrong bit is seen only in a viewer.", "anchors": ["src/pdfmm/base/PdfField.cpp:30-68", "src/pdfmm/base/PdfField.cpp:269-566", "src/pdfmm/base/PdfTextBox.cpp:32-36", "src/pdfmm/base/PdfComboBox.cpp:14-24"]}
{"id": "C114", "title": "Full names of form fields", "statement": "The full name of a field is its partial names from the root down joined by periods, fields with different names have different full names, escaped names too, and reading it ends.", "quantifier": "all documents, all chains of parents, all names", "why_tests_cant": "The ambiguity needs particular pairs of names, and cyclic parents do not occur in test files.", "anchors": ["src/pdfmm/base/PdfField.cpp:615-668", "src/pdfmm/base/PdfField.cpp:842-876"]}
{"id": "C115", "title": "Choice fields keep their items and selection", "statement": "Items are inserted, removed, counted and read as in a list of values and shown texts, and the selected index is the one that was set.", "quantifier": "all choice fields, /Opt absent, direct or an object of its own, all indices", "why_tests_cant": "Values that occur twice, items of one element and indirect arrays are not in the tests.", "anchors": ["src/pdfmm/base/PdfChoiceField.cpp:33-173"]}
{"id": "C116", "title": "Text fields, check boxes, highlighting and actions are read back as set", "statement": "The text, maximum length, spell checking, scrolling, check mark, highlighting mode and additional actions of a field are read back as they were set, under the keys of ISO 32000-1.", "quantifier": "all documents, all fields, all values", "why_tests_cant": "The setters and getters are inverse in the author's mind only; tests set values without reading them back.", "anchors": ["src/pdfmm/base/PdfTextBox.cpp:38-153", "src/pdfmm/base/PdfCheckBox.cpp:51-73", "src/pdfmm/base/PdfField.cpp:568-613", "src/pdfmm/base/PdfField.cpp:706-803"]}
{"id": "C117", "title": "Calls of the painter become instructions which do what the calls mean", "statement": "For every sequence of painter calls that stand where ISO 32000-1 allows them, the painter's buffer is a text of instructions, and running those instructions on the standard's graphics machine gives the paths, texts and objects that the calls mean, in the graphics state that the calls set.", "quantifier": "all sequences of calls, all numbers, colours, fonts and names", "why_tests_cant": "The painter keeps caches of the state and leaves out what it takes to be set; whether that is sound depends on the whole history of calls.", "anchors": ["src/pdfmm/base/PdfPainter.cpp:60-1220", "src/pdfmm/base/PdfPainter.cpp:1311-1690", "src/pdfmm/base/PdfGraphicsState.cpp:12-18"]}
{"id": "C118", "title": "A painted page shows its old contents and the new ones", "statement": "After a painter has finished, the page shows what it showed before and what was painted (before it, if prepended), whatever the flags, and other pages are unchanged; the contents are read back as that.", "quantifier": "all pages, all sequences of calls, all flags", "why_tests_cant": "Old and new contents are joined as bytes in streams; whether the joint is sound depends on both texts.", "anchors": ["src/pdfmm/base/PdfContents.cpp:62-142", "src/pdfmm/base/PdfPainter.cpp:88-171", "src/pdfmm/base/PdfXObjectForm.cpp:73-77"]}
{"id": "C119", "title": "Every resource which is named in painted contents is in the resources of the canvas", "statement": "For every sequence of calls, each font, colour space, object and graphics state that was asked for on a canvas is in the resources of that canvas when it is finished, and no resource is lost; also when the painter moves to another canvas.", "quantifier": "all sequences of calls, all canvases", "why_tests_cant": "The painter skips what its cache says is set; a test with one canvas does not notice that the cache outlives it.", "anchors": ["src/pdfmm/base/PdfPainter.cpp:88-116", "src/pdfmm/base/PdfPainter.cpp:1215-1221", "src/pdfmm/base/PdfPainter.cpp:1433-1446", "src/pdfmm/base/PdfResources.cpp:24-146"]}
{"id": "C120", "title": "Every call of the painter has its effect", "statement": "Whatever was called before, setting a width, cap, matrix, spacing, text mode or tab, beginning a text, drawing lines of text, and lines and corners relative to the last point have the effect that they are meant to have.", "quantifier": "all calls after all other calls", "why_tests_cant": "Each call alone works; what goes wrong depends on values and on what was called before.", "anchors": ["src/pdfmm/base/PdfPainter.cpp:364-392", "src/pdfmm/base/PdfPainter.cpp:490-606", "src/pdfmm/base/PdfPainter.cpp:851-932", "src/pdfmm/base/PdfPainter.cpp:1415-1431", "src/pdfmm/base/PdfPainter.cpp:1499-1637"]}
{"id": "C121", "title": "Circles, ellipses, round corners and quadratic curves have their shapes", "statement": "Every point of a drawn circle or ellipse is at its distance from the centre within 3 in 10000, a rectangle with round corners stays inside its rectangle, and quadratic curves are the curves with the given control points.", "quantifier": "all centres, radii, sizes, and all points of the curves", "why_tests_cant": "A statement about every point of a curve with every size.", "anchors": ["src/pdfmm/base/PdfPainter.cpp:364-438", "src/pdfmm/base/PdfPainter.cpp:861-932", "src/pdfmm/base/PdfPainter.cpp:1223-1262"]}
{"id": "C122", "title": "Conversions of colours keep what is seen", "statement": "A gray, RGB or CMYK colour with parts between 0 and 1 converts to each of the three spaces without an error, to a colour with parts between 0 and 1; the light that is seen stays the same (gray: the luminance, close to the standard's weights); RGB through CMYK and gray through RGB or CMYK come back unchanged, and CMYK through RGB when it has as much black as can be.", "quantifier": "all colours of device spaces, exact arithmetic", "why_tests_cant": "The conversions are rational functions with a division and a minimum; tests take a few colours and cannot show that the range check never refuses a converted colour.", "anchors": ["PdfColor.cpp:460-625"]}
{"id": "C123", "title": "Colours are read back from arrays and texts", "statement": "The array of a colour is read as that colour; exactly the arrays of one, three or four numbers between 0 and 1 are colours; hexadecimal texts, texts of arrays, names in any case and numbers are read as the colours they stand for; inequality is the negation of equality.", "quantifier": "all colours, arrays, texts", "why_tests_cant": "The named colours are found by binary search in a table, arrays by the tokenizer; wrong values appear for particular texts only.", "anchors": ["PdfColor.cpp:147-295", "PdfColor.cpp:627-860", "PdfColor.cpp:1126-1144"]}
{"id": "C124", "title": "The colour space of a separation shows its colour", "statement": "The tint function written for a separation has the form of the standard and gives, for every tint, the alternate colour times the tint up to one part of 255.", "quantifier": "all separations over device colours and Lab", "why_tests_cant": "The bytes of the function are computed by narrowing conversions, which are undefined for some colours and silently wrong for others.", "anchors": ["PdfColor.cpp:386-458", "PdfColor.cpp:862-1098"]}
{"id": "C125", "title": "Destinations are made and read as the standard describes them", "statement": "A destination made from a page, a kind and values is an array of the standard with this page, kind and values; the getters give the page, the kind and the values of every destination array; destinations are found by their names in the catalog and the name tree.", "quantifier": "all pages, kinds, values, arrays, names and documents", "why_tests_cant": "Eight kinds with optional parameters at different places, read by getters that share indexes; each test uses one kind and a rectangle at the origin.", "anchors": ["PdfDestination.cpp:19-330", "PdfDestination.h:21-40"]}
{"id": "C126", "title": "Outline items and links have one destination or action, the one that was set", "statement": "An outline item or a link never has both a destination and an action; the one set is read back from the document; actions have the kind and the address or script that they were made with.", "quantifier": "all documents, items and sequences of calls", "why_tests_cant": "The objects cache what they were given, so that only what another object reads from the document shows what was written.", "anchors": ["PdfOutlines.cpp:200-300", "PdfAction.cpp:1-180", "PdfAnnotationActionBase.cpp:1-60", "PdfAnnotation_Types.cpp:20-62"]}
{"id": "C127", "title": "File specifications name and embed the file they are made for", "statement": "A file specification made from a path and data has the last part of the path as its name, which is read back, spells the path as the standard prescribes, and embeds the data with its size.", "quantifier": "all paths and data", "why_tests_cant": "The escaping of other bytes reads a buffer that is not terminated, which often goes well.", "anchors": ["PdfFileSpec.cpp:20-164"]}
{"id": "C128", "title": "Entries of annotations are kept, and are the annotation's own", "statement": "A new annotation has its type, page, rectangle and the Print flag. The rectangle, the flags, the title, the contents, the border and the open state that are set are in the document and are read back, and nothing else changes; what is read is an entry of the annotation itself.", "quantifier": "all documents, annotations, rectangles, flags and texts", "why_tests_cant": "Rectangles with any two opposite corners, entries that are references, and parents are seldom in tests.", "anchors": ["PdfAnnotation.cpp:23-61", "PdfAnnotation.cpp:279-347", "PdfAnnotation_Types.cpp:66-90", "PdfRect.cpp:73-88"]}
{"id": "C129", "title": "Appearances of annotations", "statement": "A form set as the appearance of a kind and a state is that appearance and is found; other appearances stay; the list of appearances has exactly those that are streams; the first state set is the one shown.", "quantifier": "all documents, annotations with direct or indirect appearance dictionaries, kinds and states", "why_tests_cant": "Dictionaries that are direct, indirect or absent on two levels, and states beside forms for all states.", "anchors": ["PdfAnnotation.cpp:63-100", "PdfAnnotation.cpp:195-277"]}
{"id": "C130", "title": "The text extracted from a page", "statement": "Whatever operators and forms a page has, the characters of the extracted entries that are not white space are those of the strings that the page shows, in their order: none is lost, added or moved, with white space kept, trimmed or between words.", "quantifier": "all content streams allowed by the standard, all fonts, all trimming and splitting modes", "why_tests_cant": "Content streams nest forms and states without bound, and the code point texts of codes are arbitrary.", "anchors": ["PdfPage_TextExtraction.cpp:200-439", "PdfPage_TextExtraction.cpp:978-1078"]}
{"id": "C131", "title": "Lines of text and their places", "statement": "Strings on one base line whose gap is less than a space are one entry; a gap up to six spaces becomes a space, and other strings are separate entries; each entry is at the place of its first string, as the transformations of the standard give it; trimming leaves out white space only.", "quantifier": "all content streams, gaps, matrices and fonts", "why_tests_cant": "The places are sums and products over histories of any length.", "anchors": ["PdfPage_TextExtraction.cpp:441-663", "PdfPage_TextExtraction.cpp:912-976", "PdfPage_TextExtraction.cpp:1033-1089", "PdfPage_TextExtraction.cpp:1181-1252"]}
{"id": "C132", "title": "Words", "statement": "With the flag for words the entries of each line are exactly its words, in their order.", "quantifier": "all content streams and lines", "why_tests_cant": "Words are cut across strings and chunks in any combination.", "anchors": ["PdfPage_TextExtraction.cpp:441-504", "PdfPage_TextExtraction.cpp:1092-1179"]}
{"id": "C133", "title": "Searching for text", "statement": "The entries found with a pattern and a rectangle are exactly those entries of the page without them that have the pattern and are in the rectangle; for parts, the part of the entry that matches is given.", "quantifier": "all contents, patterns, rectangles and modes", "why_tests_cant": "Quantifies over all pages and patterns.", "anchors": ["PdfPage_TextExtraction.cpp:506-663", "PdfPage_TextExtraction.cpp:1327-1365", "PdfPage_TextExtraction.cpp:1390-1413"]}
{"id": "C134", "title": "Metadata of an XMP packet are read in every form in which they may be written", "statement": "For every packet: when a property stands in any one of its descriptions, as an attribute, as an element with a text or as an element with a list, the metadata read from the packet have this value for it (keywords, producer, title, author, subject, dates, PDF/A level), a property that the packet does not have is absent, and reading gives metadata or an error and never crashes.", "quantifier": "all XML trees of packets, all positions and forms of the properties, all texts, all behaviours of libxml2 on other entities", "why_tests_cant": "The forms multiply: attributes or elements, any description, other properties between them, qualifiers and further items; tests have a few packets.", "anchors": ["src/pdfmm/base/PdfXMPPacket.cpp:50-291", "src/pdfmm/private/XMPUtils.cpp:50-115", "src/pdfmm/private/XmlUtils.cpp:18-124"]}
{"id": "C135", "title": "Updating an XMP packet changes the metadata and nothing else", "statement": "For every packet as the library makes it on loading and all metadata: after the update the packet says exactly the given metadata, elements of other names are kept in their order, nothing outside of the description is changed, and reading the updated packet gives the metadata back.", "quantifier": "all packets, all metadata with texts without ampersands, all levels and dates", "why_tests_cant": "Losing properties of other software or leaving stale values depends on what else is in a packet.", "anchors": ["src/pdfmm/private/XMPUtils.cpp:117-494", "src/pdfmm/base/PdfXMPPacket.cpp:67-82", "src/pdfmm/base/PdfXMPPacket.cpp:338-371"]}
{"id": "C136", "title": "Metadata calls do what they mean", "statement": "For every document with an Info dictionary and an XMP packet: the metadata are those of the dictionary, or else those of the packet; any sequence of calls that set dates and the level, synchronise, save and read answers what was set last or was there before; the document that is loaded from what was saved answers the same; the setters of the texts set the texts.", "quantifier": "all loaded documents, all sequences of calls, all dates", "why_tests_cant": "Whether two copies of the metadata and a cache stay equal depends on the order of the calls and on what was synchronised before.", "anchors": ["src/pdfmm/base/PdfMetadata.cpp:16-330", "src/pdfmm/base/PdfInfo.cpp:30-230", "src/pdfmm/base/nullable.h:130-260", "src/pdfmm/base/PdfMemDocument.cpp:299-305"]}
{"id": "C137", "title": "Keywords are read back", "statement": "For every list of keywords, splitting the text that is made of it gives the keywords back.", "quantifier": "all lists of keywords and all texts", "why_tests_cant": "The separators are part of the tokens only if there are at least two keywords.", "anchors": ["src/pdfmm/private/PdfDeclarationsPrivate.cpp:456-502", "src/pdfmm/base/PdfMetadata.cpp:96-129"]}
{"id": "C138", "title": "Settings of the catalog are what was set last", "statement": "For every catalog and every sequence of calls that set the page mode, the layout, viewer preferences, the language and the base URI: the calls succeed, every setting is what was set last or what was there before, and no other entry and no other object is changed.", "quantifier": "all catalogs, all sequences of calls", "why_tests_cant": "Settings that are kept in a dictionary of their own, which may be missing, direct or a reference, interact over sequences of calls.", "anchors": ["src/pdfmm/base/PdfCatalog.cpp:102-283"]}
{"id": "C139", "title": "Developer extensions are added, found, listed and removed", "statement": "For every document: an extension that was added is found at its level and listed with its version, all others stay as they are, and an extension that was removed is not found.", "quantifier": "all documents, names, versions and levels", "why_tests_cant": "Losing other extensions depends on what is in the document.", "anchors": ["src/pdfmm/base/PdfMemDocument.cpp:152-230", "src/pdfmm/private/PdfDeclarationsPrivate.cpp:126-163"]}
{"id": "C140", "title": "Appended pages come after the own pages, in order", "statement": "For every document and every other document whose objects were copied: appending makes the page list the own pages followed by the copies of the other document's pages in order, with no own page changed; appending a range keeps exactly the pages of the range, and a range that cannot be appended changes nothing.", "quantifier": "all documents, all histories of them, all ranges", "why_tests_cant": "Ranges are computed with unsigned arithmetic, and page trees have any shape.", "anchors": ["src/pdfmm/base/PdfDocument.cpp:114-200", "src/pdfmm/base/PdfDocument.cpp:288-331"]}
{"id": "C141", "title": "Appended pages keep the entries they inherited", "statement": "For every page of another document, with any chain of parents: the appended copy has Resources, MediaBox, CropBox and Rotate as the page had them, with shifted references, all other entries as copied, and inherits nothing from the nodes of the document it was appended to.", "quantifier": "all pages, all chains of parents, all dictionaries", "why_tests_cant": "Inherited entries can stand at any level above the page or nowhere.", "anchors": ["src/pdfmm/base/PdfDocument.cpp:150-184"]}
{"id": "C142", "title": "Boxes and rotation of pages are those of the standard", "statement": "For every page with any chain of parents: each box is the one the standard gives it (inherited or defaulted as tables 30 and 14.11.2 say), the rotation is the inherited one, and a box or rotation that is set is the one read back, with nothing else changed.", "quantifier": "all pages, all chains of parents, all boxes and rotations", "why_tests_cant": "Inheritance and defaults interact; arrays can name any two opposite corners.", "anchors": ["src/pdfmm/base/PdfPage.cpp:50-63", "src/pdfmm/base/PdfPage.cpp:164-211", "src/pdfmm/base/PdfPage.cpp:314-326", "src/pdfmm/base/PdfPage.cpp:478-511"]}
{"id": "C143", "title": "Setting the size of a page sets it, and of that page only", "statement": "For every page and size: SetPageWidth and SetPageHeight give the media box and the crop box of that page the size, leave its lower left corner where it was, change no other page, and answer whether the size was set.", "quantifier": "all pages, all sizes, all documents", "why_tests_cant": "Boxes can be inherited and shared by any number of pages.", "anchors": ["src/pdfmm/base/PdfPage.cpp:241-312"]}
{"id": "C144", "title": "A form made of a page shows the page", "statement": "For every page: the form filled from it has the common part of the boxes of the page as its box, a matrix that puts it upright at the origin, the resources of the page, and the instructions of the page.", "quantifier": "all pages, boxes, rotations, contents", "why_tests_cant": "Contents can be split into streams at any token; resources and boxes may be inherited.", "anchors": ["src/pdfmm/base/PdfDocument.cpp:347-440", "src/pdfmm/base/PdfXObjectForm.cpp:21-39", "src/pdfmm/base/PdfXObjectForm.cpp:88-192"]}
{"id": "C145", "title": "Streams of a document that is written while it is made are loaded as they were given", "statement": "For every document that is written immediately: after any calls that create objects and streams, set entries and write data, each stream object is in the file where the table says, with its dictionary, a length that is right, and the data in the filters that were asked for.", "quantifier": "all sequences of calls, dictionaries, filters and data", "why_tests_cant": "The order of the calls and the number of streams open at once are unbounded; the object is written before its data and its length.", "anchors": ["src/pdfmm/base/PdfImmediateWriter.cpp:66-81", "src/pdfmm/base/PdfImmediateWriter.cpp:127-170", "src/pdfmm/base/PdfStreamedObjectStream.cpp:20-138", "src/pdfmm/base/PdfObjectStream.cpp:418-508", "src/pdfmm/base/PdfObject.cpp:209-341"]}
{"id": "C146", "title": "Closing a document that is written while it is made completes the file", "statement": "For every document that is written immediately: closing it writes every object that is still in memory once, where the table says, and succeeds; streams do not stay in memory.", "quantifier": "all sequences of calls", "why_tests_cant": "The objects in memory depend on the whole history of calls.", "anchors": ["src/pdfmm/base/PdfImmediateWriter.cpp:83-125", "src/pdfmm/base/PdfImmediateWriter.cpp:127-170", "src/pdfmm/base/PdfObjectStream.cpp:453-460", "src/pdfmm/base/PdfStreamedDocument.cpp:36-40"]}
{"id": "C147", "title": "Images show the pixels they are given", "statement": "After SetData with a buffer of pixels, a width, a height, a format and a row size, the image has that width and height, eight bits for each component, and shows at each place the pixel of the buffer at that place, whatever the padding of the rows and the order of the components. A buffer that is too short is an error and no memory outside it is read.", "quantifier": "for all buffers, sizes, formats, row sizes, places and earlier contents of the image", "why_tests_cant": "Tests set a few images of common formats; they cannot try all widths with their paddings, all row sizes and all lengths of buffers.", "anchors": ["src/pdfmm/base/PdfImage.cpp:277-338", "src/pdfmm/base/PdfImage.cpp:1349-1367"]}
{"id": "C148", "title": "Decoded images have the pixels of the image", "statement": "DecodeTo gives a buffer in which each pixel is the one that the image shows at that place, according to its colour space, its data and its array for decoding, and is as opaque as the soft mask says; this holds for each format and row size. An image whose data or whose soft mask is too short is an error, and no memory outside the buffers is read or written.", "quantifier": "for all images, soft masks, formats, row sizes, buffers and places", "why_tests_cant": "Tests decode some images of valid files; images with all widths, with gray components, short data, small masks or unusual row sizes are not tried.", "anchors": ["src/pdfmm/base/PdfImage.cpp:51-88", "src/pdfmm/base/PdfImage.cpp:179-241", "src/pdfmm/base/PdfImage.cpp:1332-1347", "src/pdfmm/private/ImageUtils.cpp:35-83", "src/pdfmm/private/ImageUtils.cpp:174-362"]}
{"id": "C149", "title": "Images set raw have the colour space and filters given", "statement": "After SetDataRaw the entries of the image are those of the description: sizes, bits, colour space with its parameters, array for decoding and filters; the data are those given, the stream is read through the filters that are declared, and saving keeps the data.", "quantifier": "for all descriptions, data and earlier contents of the image", "why_tests_cant": "Tests look at the images of a few formats; the entries for all colour spaces and filters, and what reading and saving then do, are not tried.", "anchors": ["src/pdfmm/base/PdfImage.cpp:346-388", "src/pdfmm/base/PdfObjectStream.cpp:353-367"]}
{"id": "C150", "title": "XObjects are recognised for what they are", "statement": "TryCreateFromObject makes an object of the class for the kind of an XObject exactly when the dictionary is an XObject (Type, where it is given, and Subtype, direct or indirect) of the kind that is asked for, with the size or rectangle of its entries. It answers false otherwise and raises no error.", "quantifier": "for all dictionaries, documents, object numbers and kinds asked for", "why_tests_cant": "Tests open the XObjects of a few files, all of which have a direct type and valid entries.", "anchors": ["src/pdfmm/base/PdfXObject.cpp:26-120", "src/pdfmm/base/PdfXObjectForm.cpp:15-33", "src/pdfmm/base/PdfXObjectForm.cpp:92-117", "src/pdfmm/base/PdfImage.cpp:172-177"]}
{"id": "C151", "title": "The matrix of an XObject is that of its dictionary", "statement": "GetMatrix gives the matrix of the dictionary, direct or indirect, and the identity where there is none; after SetMatrix it gives what was set, and the dictionary has that matrix; new forms have the identity.", "quantifier": "for all dictionaries, documents and matrices", "why_tests_cant": "Tests use direct arrays of literal numbers only.", "anchors": ["src/pdfmm/base/PdfXObject.cpp:122-143", "src/pdfmm/base/PdfMath.cpp:31-34"]}
{"id": "C152", "title": "Identifiers distinguish objects", "statement": "Different XObjects of a document have different identifiers, as have different graphics states, so that a name in the resources is that of one object.", "quantifier": "for all pairs of objects and all prefixes of callers", "why_tests_cant": "Tests draw a few objects and cannot try all numbers and prefixes.", "anchors": ["src/pdfmm/base/PdfXObject.cpp:159-172", "src/pdfmm/base/PdfExtGState.cpp:18-29"]}
{"id": "C153", "title": "Graphics states have the parameters that were set", "statement": "After any calls on an extended graphics state each parameter, as the standard reads it from the dictionary, is the one set by the last call for it, and parameters without a call are not mentioned: opacities, blend mode, overprinting of strokes, of fills and of both, overprint mode, rendering intent and halftone.", "quantifier": "for all sequences of calls", "why_tests_cant": "Tests make single calls and do not look at parameters that depend on two entries.", "anchors": ["src/pdfmm/base/PdfExtGState.cpp:35-85"]}
{"id": "C154", "title": "Asking twice for a font gives the same font", "statement": "A font that a document has given for a name or for a standard font is given again when it is asked for again, and nothing new is made; the font of an object of the document is made once and got again, also for the objects of fonts that were made in the document.", "quantifier": "for all states of the document's fonts, names, search parameters, encodings, flags and installed fonts", "why_tests_cant": "Tests ask for few fonts, and do not look whether a second object is made after other calls.", "anchors": ["src/pdfmm/base/PdfFontManager.cpp:85-180", "src/pdfmm/base/PdfFontManager.cpp:412-430", "src/pdfmm/base/PdfFontManager.cpp:512-549"]}
{"id": "C155", "title": "The font got is the one asked for", "statement": "Whatever has been asked for before, the font has the encoding that is asked for, the base name and style that are asked for or that the installed font has, the exact name if that is asked for, and the standard font and the flags that are asked for.", "quantifier": "for all histories of calls, names, encodings, flags and tables of hashes", "why_tests_cant": "What goes wrong depends on fonts asked for before and on which keys a table of hashes compares.", "anchors": ["src/pdfmm/base/PdfFontManager.cpp:110-180", "src/pdfmm/base/PdfFontManager.cpp:454-477", "src/pdfmm/base/PdfFontManager.cpp:512-549"]}
{"id": "C156", "title": "Requests for fonts are never undefined", "statement": "No request for a font reads beyond a list of fonts or keeps a pointer to a destroyed font, whatever has been asked for before.", "quantifier": "for all histories of calls, including those that raise errors", "why_tests_cant": "The failing histories have a request that fails before another one for the same font.", "anchors": ["src/pdfmm/base/PdfFontManager.cpp:64-90", "src/pdfmm/base/PdfFontManager.cpp:145-180", "src/pdfmm/base/PdfFontManager.cpp:267-316", "src/pdfmm/base/PdfFontManager.cpp:412-430", "src/pdfmm/base/PdfFontManager.cpp:512-549"]}
{"id": "C157", "title": "Subset prefixes are unique", "statement": "Every subset prefix of a document is six capital letters and a plus sign, and differs from those given before.", "quantifier": "for all histories of calls", "why_tests_cant": "Tests make a handful of prefixes, and none that carry into the next letter.", "anchors": ["src/pdfmm/base/PdfFontManager.cpp:48-53", "src/pdfmm/base/PdfFontManager.cpp:73-83"]}
{"id": "C158", "title": "Fonts of a document have the metrics their dictionaries give", "statement": "The widths, the width of glyphs without one, the bounding box and the name of a simple font are those of its dictionary and descriptor, in the unit of glyph space of the font, also where they are behind references.", "quantifier": "for all font dictionaries, descriptors and documents", "why_tests_cant": "Tests read a few well-made fonts, without missing widths, font matrices or references in arrays.", "anchors": ["src/pdfmm/base/PdfFontMetricsObject.cpp:22-130", "src/pdfmm/base/PdfFontMetricsObject.cpp:232-305", "src/pdfmm/base/PdfFontMetricsObject.cpp:527-537"]}
{"id": "C159", "title": "Font dictionaries are opened without undefined behaviour and with their encoding", "statement": "Opening a font dictionary gives a font with the encoding it names, or an error, but never dereferences what is not there; fonts that the standard allows are not refused.", "quantifier": "for all font dictionaries and documents", "why_tests_cant": "Malformed dictionaries have endless forms, and the missing part is reached in one branch only.", "anchors": ["src/pdfmm/base/PdfFontFactory.cpp:76-180", "src/pdfmm/base/PdfEncodingFactory.cpp:25-107", "src/pdfmm/base/PdfFontMetricsObject.cpp:22-130", "src/pdfmm/base/PdfFontMetricsObject.cpp:232-280"]}
{"id": "C160", "title": "A signature field says what was last set", "statement": "For every sequence of operations (setting and clearing name, reason, location, date and application, making the value, preparing for signing, certifying) on a signature field that has no value at first, the field afterwards says exactly what was last set, the getters return it, opening the field again from its object gives the same, an operation raises only if there is no value yet and then changes nothing, dates within the calendar come back, and no object but the field, the catalog and new ones changes.", "quantifier": "all documents, fields, catalogs and sequences of operations", "why_tests_cant": "Sequences of setters, removals, preparations and certifications are unbounded and interact through one dictionary; tests set each attribute once.", "anchors": ["src/pdfmm/base/PdfSignature.cpp:21-56", "src/pdfmm/base/PdfSignature.cpp:57-175", "src/pdfmm/base/PdfSignature.cpp:177-253"]}
{"id": "C161", "title": "Signature fields that were read can be changed and certified without loss", "statement": "For a signature field read from a file, whether its value is direct, indirect or null, setting a text is seen by the getter and leaves the other texts; the field can be prepared for signing; a certification either succeeds or changes nothing, makes only objects that are referred to, and keeps the other permissions of the document; setting the application keeps the rest of the build dictionary.", "quantifier": "all documents and fields", "why_tests_cant": "Values that are null, direct or already hold references, and catalogs with other permissions, do not occur in the samples.", "anchors": ["src/pdfmm/base/PdfSignature.cpp:37-42", "src/pdfmm/base/PdfSignature.cpp:96-175", "src/pdfmm/base/PdfSignature.cpp:243-253"]}
{"id": "C162", "title": "The appearance characteristics of a widget are what was last set", "statement": "For every sequence of setting and clearing captions and colours on a widget that has no appearance characteristics at first, the widget afterwards has exactly the characteristics last set, in one dictionary made when the first is set; clearing never makes one; the getters return what was set; opening the widget again gives the same; an operation raises only if a colour has no array; no other object changes.", "quantifier": "all documents, widgets and sequences of operations", "why_tests_cant": "Sequences are unbounded; tests set a caption once on a new button.", "anchors": ["src/pdfmm/base/PdfAnnotationActionBase.h:44-95", "src/pdfmm/base/PdfAnnotationActionBase.cpp:49-154"]}
{"id": "C163", "title": "Captions and colours of widgets and buttons that were read", "statement": "For every widget that was read and every push button, setting a caption is seen by the getter; clearing it makes it absent; colours that can be set can be got, and absent and transparent ones are told from black; an operation that raises changes nothing; an entry that is null is as an absent one.", "quantifier": "all documents, widgets and buttons", "why_tests_cant": "Needs buttons reached through the form, dictionaries with parents, transparent and Lab colours and null entries, none of which the samples have.", "anchors": ["src/pdfmm/base/PdfButton.cpp:47-68", "src/pdfmm/base/PdfPushButton.cpp:38-82", "src/pdfmm/base/PdfAnnotationActionBase.cpp:59-154", "src/pdfmm/base/PdfField.cpp:30-78"]}
{"id": "C164", "title": "Standard fonts: the widths of codes", "statement": "In a standard font the width of a code is that of the character it stands for, in thousandths: the one that /Widths gives when the font dictionary has it, and the one of the built-in tables otherwise.", "quantifier": "for all font dictionaries, arrays of widths, limits and codes", "why_tests_cant": "Fonts that are made by the library map characters to glyphs and are right; the widths differ only for fonts that are read, where codes are mapped to glyphs, and no test compares them with the tables.", "anchors": ["src/pdfmm/base/PdfFontMetricsStandard14.cpp:19-129", "src/pdfmm/base/PdfFontObject.cpp:14-55", "src/pdfmm/base/PdfFont.cpp:409-416"]}
{"id": "C165", "title": "Errors tell what and where", "statement": "Every error code has a name of its own, the one it is declared with, and a message; an error keeps every place it was passed through, in order, and can be printed wherever these places are.", "quantifier": "for all codes, sequences of frames and paths", "why_tests_cant": "Tests look at the codes of a few errors; names and messages are large tables, and the paths of frames depend on where the sources and the program were compiled.", "anchors": ["src/pdfmm/base/PdfError.h:28-93", "src/pdfmm/base/PdfError.cpp:18-37", "src/pdfmm/base/PdfError.cpp:56-315"]}
{"id": "C166", "title": "Copies of objects and moved objects", "statement": "An object that is copied, assigned or moved from another has its value and its stream, which reads the same; copies are independent of each other, and assigning an object to itself changes nothing.", "quantifier": "for all objects, streams, filters and programs of makings, copies, assignments and changes", "why_tests_cant": "Tests copy an object and look at its value; that the stream of a moved object refers to the old one shows only when the data is decoded after the move, and self assignment needs a sanitizer.", "anchors": ["src/pdfmm/base/PdfObject.cpp:104-120", "src/pdfmm/base/PdfObject.cpp:366-396", "src/pdfmm/base/PdfObject.cpp:432-452", "src/pdfmm/base/PdfObjectStream.cpp:201-265", "src/pdfmm/base/PdfVariant.cpp:240-255"]}
{"id": "C167", "title": "The files of embedded fonts", "statement": "Embedding the file of a font ends and writes the file under the entry for its kind: a Type 1 file with the lengths of its three parts, a TrueType file with its length, and a CFF or OpenType file with the name of its kind.", "quantifier": "for all files, kinds of fonts and metrics", "why_tests_cant": "Tests embed TrueType fonts; Type 1 and OpenType files need fonts of these kinds on the machine, and a loop that does not end is not reached by any of them.", "anchors": ["src/pdfmm/base/PdfFont.cpp:501-565", "src/pdfmm/base/PdfFontMetricsFreetype.cpp:227-317", "src/pdfmm/base/PdfFontMetricsFreetype.cpp:463-485"]}
{"id": "C168", "title": "Font descriptors are read as they were written", "statement": "For every font but Type 3 ones, what is read from a font descriptor that was written is what was written: the name, family, stretch, flags and weight exactly, and each number and the box but for half a thousandth of the unit of text space, where numbers that are not positive and optional are absent; writing what was read again gives a descriptor that says the same under every key. This does not hold for /MissingWidth of simple fonts, which is read unscaled so that a thousand times as much is written, for Type 3 fonts, whose descriptor has no box so that writing it again reads outside of a vector, for Type 3 fonts whose matrix is flipped, where absent numbers are written as -1, and for angles with a fraction, which is cut off.", "quantifier": "for all metrics with a box of four numbers, fonts, objects that references lead to, default widths of CID fonts and hints of names", "why_tests_cant": "the numbers are arbitrary fractions and the entries are there in any combination; tests compare the descriptors of single fonts that were just created", "anchors": ["src/pdfmm/base/PdfFont.cpp:418-499", "src/pdfmm/base/PdfFontMetrics.cpp:108-197", "src/pdfmm/base/PdfFontMetricsObject.cpp:66-112", "src/pdfmm/base/PdfFontMetricsObject.cpp:258-305"]}
{"id": "C169", "title": "The outlines of an appended document follow those of the document", "statement": "When a document with outlines is appended to one with outlines, both made in memory, following First and Next from the root gives the items of the document and then those of the appended one, in order. Last is right exactly when the appended document has one item at the top. Appending to a document without outlines never succeeds when the other has an item, the parent of the new items is a copy of the root of the other document, and new items cannot be reached when the outlines of the document were loaded.", "quantifier": "for all outlines that histories of creating and erasing items can make, all differences of object numbers and all fuel", "why_tests_cant": "the lists of siblings are of any length and shape in both documents; tests append documents without looking at their outlines", "anchors": ["src/pdfmm/base/PdfDocument.cpp:181-195", "src/pdfmm/base/PdfDocument.cpp:272-283", "src/pdfmm/base/PdfOutlines.cpp:46-64", "src/pdfmm/base/PdfOutlines.cpp:84-139"]}
