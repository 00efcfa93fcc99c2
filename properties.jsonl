{"id": "C01", "title": "ASCII85 decoding inverts ASCII85 encoding", "statement": "For every byte string s, decoding the standard ASCII85 encoding of s (with 'z' for zero groups, a short final group and the '~>' terminator) yields exactly s, whatever characters outside the ASCII85 alphabet (line breaks, blanks) are interspersed and whatever follows '~>'.", "quantifier": "every byte string, every placement of ignorable characters, every trailing garbage", "why_tests_cant": "the group arithmetic is base-85 over 32-bit words with a variable-length last group; tests sample a few strings of the 2^32 groups and lengths", "anchors": ["pdfmajor/utils/ascii85.py: ascii85decode"]}
{"id": "C02", "title": "ASCIIHex decoding inverts hexadecimal encoding", "statement": "For every byte string s, asciihexdecode of the hex spelling of s (either case, any white space, anywhere between digits, optional odd final digit standing for digit+0, terminated by '>') yields s.", "quantifier": "every byte string and every layout of white space", "why_tests_cant": "the layout of white space relative to digit pairs is unbounded", "anchors": ["pdfmajor/utils/ascii85.py: asciihexdecode"]}
{"id": "C03", "title": "RunLength decoding inverts run-length encoding", "statement": "For every sequence of literal runs (1..128 bytes) and repeated runs (2..128 copies) the decoder returns the concatenation of the runs; it ignores everything after the EOD byte 128, and a record whose payload is cut short is reported rather than silently accepted.", "quantifier": "every sequence of runs, every suffix after EOD, every truncation point", "why_tests_cant": "unbounded sequences of runs and truncation points", "anchors": ["pdfmajor/parser/PDFStream/util.py: rldecode"]}
{"id": "C04", "title": "LZW decoding inverts LZW encoding", "statement": "For every byte string s, decoding the LZW code stream (9..12-bit codes, MSB first, early change, Clear and EOD codes) produced from s by the standard encoder yields exactly s, including when code widths change and when the table is cleared and rebuilt.", "quantifier": "every byte string of every length", "why_tests_cant": "the dictionary state, width switches at 511/1023/2047 entries and the not-yet-defined code (KwKwK) case only occur on long or specially shaped inputs", "anchors": ["pdfmajor/utils/lzw.py: LZWDecoder.readbits, feed, run; lzwdecode"]}
{"id": "C05", "title": "Corrupt LZW data ends the output instead of corrupting it", "statement": "Decoding never loses or alters output produced before the first invalid code: the output of a code sequence followed by anything is a prefix-extension of the output of the sequence, and a code beyond the table ends the output normally.", "quantifier": "every code sequence and every continuation", "why_tests_cant": "needs all decoder states reachable through any code history", "anchors": ["pdfmajor/utils/lzw.py: LZWDecoder.run"]}
{"id": "C06", "title": "PNG predictor decoding inverts PNG row filtering", "statement": "For every image of 8-bit samples, any number of colour components and columns, applying the PNG predictor to rows filtered with None, Sub, Up, Average or Paeth (chosen per row) restores the original rows.", "quantifier": "every image size, every component count, every sequence of per-row filter choices, every sample value", "why_tests_cant": "each row depends on all previous rows and filter choices; the space is exponential", "anchors": ["pdfmajor/utils/generic.py: apply_png_predictor"]}
{"id": "C07", "title": "A stream's filter chain is decoded in order and exactly once", "statement": "Reading a stream's data returns the raw data passed through the declared filters in declaration order (each followed by its own predictor), so data encoded by the inverse filters in reverse order comes back unchanged; asking again, any number of times, returns the same bytes.", "quantifier": "every list of supported filters, every raw data, every number and order of accesses", "why_tests_cant": "chains of filters and repeated access histories are unbounded", "anchors": ["pdfmajor/parser/PDFStream/__init__.py: PDFStream.get_filters, decode, get_data"]}
{"id": "C08", "title": "Every declared filter gets its own parameters", "statement": "The list of (filter, parameters) pairs of a stream has one entry per declared filter, in order, and the i-th filter gets the i-th parameter dictionary (or none).", "quantifier": "every Filter and DecodeParms/F/FDecodeParms value, scalar or list of any length", "why_tests_cant": "lists of any and unequal lengths", "anchors": ["pdfmajor/parser/PDFStream/__init__.py: PDFStream.get_filters"]}
{"id": "C09", "title": "Tokenisation does not depend on how the file is buffered", "statement": "For every byte sequence and every way of cutting it into read chunks, the tokenizer yields the same tokens at the same positions and ends in the same way.", "quantifier": "every byte sequence and every chunking (buffer size)", "why_tests_cant": "a token, escape, octal code or hex pair can straddle a buffer boundary at any offset in any lexer state", "anchors": ["pdfmajor/parser/PSStackParser/PSBaseParser.py: PSBaseParser.nexttoken, fillbuf and _parse_* methods"]}
{"id": "C10", "title": "Line reading does not depend on buffering and loses no bytes", "statement": "nextline yields, for every file and every chunking, the successive lines each including its CR, LF or CRLF terminator; concatenating them gives the file back.", "quantifier": "every byte sequence and chunking", "why_tests_cant": "CR and LF can fall on either side of a buffer boundary", "anchors": ["pdfmajor/parser/PSStackParser/PSBaseParser.py: PSBaseParser.nextline"]}
{"id": "C11", "title": "Backward line reading does not depend on buffering", "statement": "revreadlines yields the lines of the file from last to first, and the sequence is the same whatever the buffer size; hence locating startxref does not depend on it.", "quantifier": "every byte sequence and buffer size", "why_tests_cant": "line ends straddle buffer boundaries at any offset", "anchors": ["pdfmajor/parser/PSStackParser/PSBaseParser.py: PSBaseParser.revreadlines", "pdfmajor/parser/PDFDocument/__init__.py: PDFDocument.find_xref"]}
{"id": "C12", "title": "Literal strings round-trip", "statement": "Every byte string written as a literal string, with delimiters and any other byte escaped (backslash letter or octal escapes) or balanced parentheses left raw, is tokenised back to exactly those bytes.", "quantifier": "every byte string, every nesting of parentheses, every choice of escapes", "why_tests_cant": "nesting depth and escapes are unbounded", "anchors": ["pdfmajor/parser/PSStackParser/PSBaseParser.py: _parse_string, _parse_string_1"]}
{"id": "C13", "title": "Hexadecimal strings round-trip", "statement": "Every byte string written between < and > as hex digits of either case with white space anywhere is tokenised to exactly those bytes; an odd final digit is completed with 0.", "quantifier": "every byte string and layout", "why_tests_cant": "unbounded layouts", "anchors": ["pdfmajor/parser/PSStackParser/PSBaseParser.py: _parse_hexstring, _parse_wopen"]}
{"id": "C14", "title": "Names round-trip", "statement": "Every name written after '/' with special bytes as #xx is tokenised to the name with exactly those bytes.", "quantifier": "every non-empty byte string, every choice of which regular bytes to escape", "why_tests_cant": "unbounded names and escape choices", "anchors": ["pdfmajor/parser/PSStackParser/PSBaseParser.py: _parse_literal, _parse_literal_hex"]}
{"id": "C15", "title": "Integers round-trip", "statement": "Every integer written in decimal with optional sign and leading zeros is tokenised to that integer, and to nothing else.", "quantifier": "every integer, every number of leading zeros", "why_tests_cant": "integers are unbounded", "anchors": ["pdfmajor/parser/PSStackParser/PSBaseParser.py: _parse_number"]}
{"id": "C16", "title": "Nested objects round-trip", "statement": "Writing any object built from null, booleans, integers, strings, names, arrays and dictionaries in PDF syntax and parsing it returns the same object, at any nesting depth and with any white space and comments between tokens.", "quantifier": "every finite object tree, every separator layout", "why_tests_cant": "nesting is unbounded", "anchors": ["pdfmajor/parser/PSStackParser/__init__.py: PSStackParser.nextobject, start_type, end_type"]}
{"id": "C17", "title": "No token is lost at the end of data", "statement": "Every complete token of the data is delivered, including one that ends exactly at the end of the data with no delimiter after it.", "quantifier": "every byte sequence", "why_tests_cant": "depends on the final lexer state, for all inputs", "anchors": ["pdfmajor/parser/PSStackParser/PSBaseParser.py: nexttoken, fillbuf, _parse_keyword, _parse_number"]}
{"id": "C18", "title": "White space and comments only separate tokens", "statement": "Inserting white space or comments between tokens changes neither the values nor the order of the tokens delivered.", "quantifier": "every token sequence, every separator", "why_tests_cant": "unbounded layouts", "anchors": ["pdfmajor/parser/PSStackParser/PSBaseParser.py: _parse_main, _parse_comment"]}
{"id": "C19", "title": "Names and keywords are interned", "statement": "Interning the same name twice, with any interning in between, returns the identical object, different names never share an object, and previously returned objects keep their name.", "quantifier": "every history of intern calls", "why_tests_cant": "quantifies over all histories", "anchors": ["pdfmajor/parser/PSStackParser/types.py: PSSymbolTable.intern"]}
{"id": "C20", "title": "A stream object carries exactly its declared bytes", "statement": "For every payload (including one containing 'endstream' or 'endobj') declared with the right Length, parsing the stream object yields that payload byte for byte.", "quantifier": "every payload", "why_tests_cant": "payloads are arbitrary and may contain the delimiters", "anchors": ["pdfmajor/parser/PDFParser.py: PDFParser.do_keyword"]}
{"id": "C21", "title": "Inline image data is extracted exactly", "statement": "For every inline image payload that does not contain the end marker, the bytes between 'ID ' and the end marker EI are returned exactly and parsing resumes after it, whatever the chunking.", "quantifier": "every payload and chunking", "why_tests_cant": "partial matches of the end marker occur anywhere", "anchors": ["pdfmajor/parser/PDFContentParser.py: get_inline_data, do_keyword"]}
{"id": "C22", "title": "Splitting a page's content into several streams is transparent", "statement": "A page whose content is given as several streams yields the tokens of the streams one after the other: no token is glued across a boundary, none is lost.", "quantifier": "every list of streams", "why_tests_cant": "boundaries may fall anywhere", "anchors": ["pdfmajor/parser/PDFContentParser.py: fillfp, fillbuf"]}
{"id": "C23", "title": "The newest revision of an object wins", "statement": "Looking up an object returns the entry of the first cross-reference section, in most-recent-first order, that has a parsable entry for it, falling back to older ones only if the newer entry cannot be read; an id in no section raises not-found.", "quantifier": "every list of cross-reference sections, every object id, every pattern of read failures", "why_tests_cant": "incremental updates of any number and overlap", "anchors": ["pdfmajor/parser/PDFDocument/__init__.py: PDFDocument.getobj"]}
{"id": "C24", "title": "Cross-reference streams are decoded per specification", "statement": "For every cross-reference stream with any field widths and any Index subsections, looking up an object id gives the entry written for it (free, offset, or object-stream member) and the listed object ids are exactly the in-use ones.", "quantifier": "every width triple, every list of subsections, every table content, every id", "why_tests_cant": "unbounded tables, several subsections", "anchors": ["pdfmajor/parser/PDFDocument/PDFXRef.py: PDFXRefStream.load, get_pos, get_objids", "pdfmajor/utils/generic.py: nunpack"]}
{"id": "C25", "title": "Object caching is transparent", "statement": "Any sequence of object lookups returns, with caching, what it returns without.", "quantifier": "every history of lookups", "why_tests_cant": "quantifies over histories", "anchors": ["pdfmajor/parser/PDFDocument/__init__.py: PDFDocument.getobj"]}
{"id": "C26", "title": "Object-stream members are found by index", "statement": "In an object stream holding n objects preceded by n (id, offset) pairs, requesting index i returns the i-th object for every i < n.", "quantifier": "every n and i, every object contents", "why_tests_cant": "unbounded", "anchors": ["pdfmajor/parser/PDFDocument/__init__.py: PDFDocument._getobj_objstm, _get_objects"]}
{"id": "C27", "title": "Following the cross-reference chain terminates and visits every section", "statement": "Loading the cross-reference chain visits the starting section, its hybrid stream and previous sections in order, and terminates for every chain, including a cyclic one.", "quantifier": "every chain of Prev/XRefStm links", "why_tests_cant": "chains and cycles of any length", "anchors": ["pdfmajor/parser/PDFDocument/__init__.py: PDFDocument.read_xref_from"]}
{"id": "C28", "title": "Pages are the leaves of the page tree, in order, with inherited attributes", "statement": "Iterating the pages yields exactly the leaf pages of the page tree in document order; each page's Resources, MediaBox, CropBox and Rotate is its own or else that of the nearest ancestor that has one, and no other attribute is inherited.", "quantifier": "every page tree", "why_tests_cant": "trees of any depth and width", "anchors": ["pdfmajor/parser/PDFPage.py: PDFPage.create_pages, INHERITABLE_ATTRS"]}
{"id": "C29", "title": "Page selection returns the requested pages", "statement": "Requesting page numbers and a maximum count yields, in order, the requested pages only, and never more than the maximum.", "quantifier": "every document length, every set of page numbers, every maximum", "why_tests_cant": "combinations are unbounded", "anchors": ["pdfmajor/parser/PDFPage.py: PDFPage.get_pages"]}
{"id": "C30", "title": "Page rotation is normalised", "statement": "The rotation reported for a page is in 0..359 and congruent to the declared one modulo 360.", "quantifier": "every integer rotation", "why_tests_cant": "unbounded integers", "anchors": ["pdfmajor/parser/PDFPage.py: PDFPage.__init__"]}
{"id": "C31", "title": "Page coordinates start at the origin", "statement": "For each supported rotation the page's coordinate transform maps the media box onto a box with a corner at the origin and the dimensions of the (rotated) media box, preserving distances.", "quantifier": "every media box, rotations 0/90/180/270", "why_tests_cant": "continuous family of boxes", "anchors": ["pdfmajor/interpreter/PageInterpreter.py: PageInterpreter.__init__", "pdfmajor/utils/matrix.py"]}
{"id": "C32", "title": "A document can be iterated repeatedly", "statement": "Every iteration over an interpreted document yields the same complete sequence of pages, whatever was consumed of earlier iterations.", "quantifier": "every history of (possibly abandoned) iterations", "why_tests_cant": "quantifies over interleavings of consumers", "anchors": ["pdfmajor/interpreter/__init__.py: PDFInterpreter.__iter__"]}
{"id": "C33", "title": "Matrix operations obey affine algebra", "statement": "Composing matrices then applying equals applying one after the other; composition is associative with the identity as unit; translate prepends a translation; the norm of a vector is the difference of the images of its end points.", "quantifier": "every matrix and point", "why_tests_cant": "continuous families", "anchors": ["pdfmajor/utils/matrix.py: mult_matrix, translate_matrix, apply_matrix_pt, apply_matrix_norm"]}
{"id": "C34", "title": "The bounding box of points is the least box containing them", "statement": "For every non-empty list of points, the computed bounding box contains each of them and is contained in every box that does.", "quantifier": "every list of points", "why_tests_cant": "unbounded lists and coordinates", "anchors": ["pdfmajor/utils/types.py: Bbox, Bbox.from_points"]}
{"id": "C35", "title": "Spatial lookup finds exactly the objects overlapping the query", "statement": "After any sequence of additions and removals, find returns exactly the present objects whose box overlaps the query box, each once.", "quantifier": "every history of add/remove and every query box", "why_tests_cant": "grid cells straddled by boxes, histories", "anchors": ["pdfmajor/utils/generic.py: Plane, drange"]}
{"id": "C36", "title": "Operators take exactly their operands", "statement": "Executing a content operator consumes exactly its declared number of operands from the top of the operand stack, rejects too few operands without effect on the graphics state, and leaves the others untouched; an unknown operator has no effect.", "quantifier": "every operator, every operand stack", "why_tests_cant": "unbounded stacks and sequences", "anchors": ["pdfmajor/interpreter/commands/__init__.py: process_command_stream", "pdfmajor/interpreter/commands/PDFCommands.py", "pdfmajor/interpreter/commands/commands.py"]}
{"id": "C37", "title": "q/Q save and restore the graphics state", "statement": "For every operator sequence between a q and its matching Q, the CTM, text state and graphics parameters after Q equal those before q.", "quantifier": "every balanced operator sequence", "why_tests_cant": "sequences of any length and nesting", "anchors": ["pdfmajor/interpreter/commands/commands.py: SaveGraphicsState, RestoreGraphicsState"]}
{"id": "C38", "title": "Text positioning operators follow their definitions", "statement": "TD is TL then Td, T* is a Td by the leading, Td moves relative to the start of the current line, Tm replaces text and line matrix.", "quantifier": "every operand and every preceding operator history", "why_tests_cant": "state-dependent, all histories", "anchors": ["pdfmajor/interpreter/commands/commands.py"]}
{"id": "C39", "title": "A path is painted once with all its segments", "statement": "Painting operators emit every segment built since the last painting operator, in order, exactly once, with the right stroke/fill/even-odd flags, and clear the path; n discards it; re equals m l l l h.", "quantifier": "every sequence of path operators", "why_tests_cant": "unbounded paths and histories", "anchors": ["pdfmajor/interpreter/commands/commands.py"]}
{"id": "C40", "title": "Colour operators set the colour they name", "statement": "RG/G/K set the stroking colour and rg/g/k the non-stroking colour, leaving the other one untouched.", "quantifier": "every operand and state", "why_tests_cant": "all operand values and states", "anchors": ["pdfmajor/interpreter/commands/commands.py", "pdfmajor/interpreter/commands/state/PDFGraphicState/PDFColor.py"]}
{"id": "C41", "title": "Text advance follows the text-space formula", "statement": "Showing a string moves the text position by the sum over its characters of (width*size + character spacing + word spacing on spaces)*scaling minus the adjustments, and shows each character at the position reached so far.", "quantifier": "every string, adjustment list and text state", "why_tests_cant": "unbounded sequences", "anchors": ["pdfmajor/interpreter/commands/state/layout/utils/textdecoder.py"]}
{"id": "C43", "title": "Character widths are read per specification", "statement": "For every W array built of 'c [w1..wn]' and 'c1 c2 w' entries, each character gets the width declared last for it and no other character gets one.", "quantifier": "every sequence of entries", "why_tests_cant": "unbounded arrays with overlaps", "anchors": ["pdfmajor/interpreter/commands/state/PDFTextState/PDFFont/util.py: get_widths, get_widths2"]}
{"id": "C44", "title": "Encoding differences override the base encoding only where declared", "statement": "With a Differences array each code gets the name declared last for it, all other codes keep their base meaning, and the base encoding itself is never modified.", "quantifier": "every Differences array, every code, every history of fonts", "why_tests_cant": "unbounded arrays and sharing across fonts", "anchors": ["pdfmajor/parser/EncodingDB.py: EncodingDB.get_encoding"]}
{"id": "C45", "title": "Multi-byte character codes are segmented uniquely", "statement": "For every prefix-free code map, decoding the concatenation of codes returns their CIDs in order.", "quantifier": "every prefix-free map and every sequence of codes", "why_tests_cant": "unbounded code sequences", "anchors": ["pdfmajor/parser/cmapdb/__init__.py: CMap.decode, CMap.add_code2cid"]}
{"id": "C46", "title": "ToUnicode ranges map each code in the range", "statement": "A bfrange from lo to hi with a base value maps every code lo+i to the base with i added to its low bytes; with an array maps it to the i-th entry.", "quantifier": "every range and base", "why_tests_cant": "unbounded ranges", "anchors": ["pdfmajor/parser/cmapdb/__init__.py: CMapParser.do_keyword"]}
{"id": "C47", "title": "Identity maps decode two bytes per CID", "statement": "For every sequence of 16-bit CIDs the identity map decodes their big-endian encoding to that sequence.", "quantifier": "every sequence", "why_tests_cant": "unbounded", "anchors": ["pdfmajor/parser/cmapdb/__init__.py: IdentityCMap.decode"]}
{"id": "C48", "title": "Decryption inverts encryption object by object", "statement": "For every object id, generation and data, data encrypted for that object under the document key (RC4 or AES, as the document's crypt filter says) and decrypted by the document's handler gives the data back; applied to an object, every string in it comes back.", "quantifier": "every key, object id, data and object tree", "why_tests_cant": "2^128 keys, unbounded data", "anchors": ["pdfmajor/parser/PDFDocument/PDFSecurityHandler.py: PDFStandardSecurityHandler.decrypt_rc4"]}
{"id": "C49", "title": "The right password opens the document", "statement": "For a document protected per the standard handler with user password u and owner password o, authenticating with u or with o succeeds and yields the key the document was encrypted with; another password is refused as an incorrect password.", "quantifier": "every pair of passwords, ids, permissions, key lengths", "why_tests_cant": "all passwords", "anchors": ["pdfmajor/parser/PDFDocument/PDFSecurityHandler.py: authenticate, authenticate_user_password, authenticate_owner_password"]}
{"id": "C50", "title": "Permissions are read from the right bits", "statement": "is_printable, is_modifiable, is_extractable equal bits 3, 4 and 5 of the permission flags.", "quantifier": "every integer flags value", "why_tests_cant": "32-bit and signed values", "anchors": ["pdfmajor/parser/PDFDocument/PDFSecurityHandler.py: is_printable, is_modifiable, is_extractable"]}
{"id": "C51", "title": "CCITT Group 4 decoding inverts encoding", "statement": "For every bilevel image, decoding its Group 4 encoding returns the image.", "quantifier": "every width, height and image", "why_tests_cant": "2^(w*h) images", "anchors": ["pdfmajor/parser/PDFStream/ccitt.py: CCITTG4Parser, CCITTFaxDecoder"]}
{"id": "C52", "title": "CCITT output has image geometry whatever the input", "statement": "For every input, every emitted line has exactly ceil(width/8) bytes.", "quantifier": "every byte string and width", "why_tests_cant": "arbitrary corrupt data", "anchors": ["pdfmajor/parser/PDFStream/ccitt.py"]}
{"id": "C53", "title": "JSON output is well-formed and carries the data", "statement": "For every tree of written values the JSON writer's output parses back to that tree.", "quantifier": "every tree and every string", "why_tests_cant": "arbitrary strings and nesting", "anchors": ["pdfmajor/converters/writers/json.py"]}
{"id": "C54", "title": "XML output is well-formed", "statement": "For every nesting of elements the XML writer closes every element it opens, in the right order.", "quantifier": "every element tree", "why_tests_cant": "unbounded nesting", "anchors": ["pdfmajor/converters/writers/xml.py"]}
{"id": "C55", "title": "Text is escaped reversibly in markup", "statement": "Escaping a text for markup output leaves no raw markup character and unescaping gives the text back.", "quantifier": "every text", "why_tests_cant": "arbitrary strings", "anchors": ["pdfmajor/utils/text.py: enc"]}
{"id": "C57", "title": "BMP images are written row by row, aligned and bottom-up", "statement": "For every image the written file has the declared size, rows padded to 32 bits and placed bottom-up, so reading it back gives the rows.", "quantifier": "every geometry and pixel data", "why_tests_cant": "all sizes and alignments", "anchors": ["pdfmajor/BMPWriter/__init__.py"]}
{"id": "C58", "title": "Big-endian unpacking inverts packing", "statement": "For every byte string of a supported length nunpack gives its big-endian value.", "quantifier": "every byte string", "why_tests_cant": "2^64 values", "anchors": ["pdfmajor/utils/generic.py: nunpack"]}
{"id": "C59", "title": "Reference resolution reaches the referenced object", "statement": "Resolving follows chains of references to the final non-reference object, returns the default for missing ones, and terminates on every document.", "quantifier": "every object graph, including cyclic ones", "why_tests_cant": "arbitrary graphs", "anchors": ["pdfmajor/parser/PDFStream/util.py: resolve1, resolve_all"]}
{"id": "C60", "title": "Decryption preserves object structure", "statement": "Decrypting an object applies the decipher function to every string in it and changes nothing else.", "quantifier": "every object tree", "why_tests_cant": "unbounded nesting", "anchors": ["pdfmajor/parser/PDFStream/util.py: decipher_all"]}
{"id": "C61", "title": "Tokenisation terminates on every input", "statement": "Reading tokens from any byte sequence, however it is buffered, ends with end of file or, only because of an octal escape above \\377, with struct.error; it never loops.", "quantifier": "every byte sequence and chunking", "why_tests_cant": "all inputs, including adversarial ones; non-termination cannot be observed by a test", "anchors": ["pdfmajor/parser/PSStackParser/PSBaseParser.py: nexttoken"]}
{"id": "C62", "title": "Cross-reference tables are read as written", "statement": "For every cross-reference table with any number of subsections, any end-of-line markers and any buffering, each in-use entry is found at its object number with its offset and generation, and free or uncovered numbers are absent.", "quantifier": "every table, every object number, every buffering", "why_tests_cant": "unbounded tables and all chunkings", "anchors": ["pdfmajor/parser/PDFDocument/PDFXRef.py: PDFXRef.load, get_pos"]}
{"id": "C63", "title": "The last startxref is found", "statement": "Opening a file uses the number on the line after the last startxref line, whatever precedes or follows it and however the file is read; without one it reports no valid cross-reference.", "quantifier": "every file, every buffer size", "why_tests_cant": "all files and buffer boundaries", "anchors": ["pdfmajor/parser/PDFDocument/__init__.py: find_xref", "pdfmajor/parser/PSStackParser/PSBaseParser.py: revreadlines"]}
{"id": "C64", "title": "Every object of a well-formed file can be looked up", "statement": "In every file made of any number of revisions, each with objects, a cross-reference table, a trailer and startxref, opening it and looking up any object number returns the object written where the newest revision says, with or without caching.", "quantifier": "every such file, every object, every layout, every buffer size", "why_tests_cant": "end-to-end over unbounded files and histories", "anchors": ["pdfmajor/parser/PDFDocument/__init__.py: PDFDocument, getobj, _getobj_parse, read_xref_from"]}
{"id": "C65", "title": "ignore_bad_chars suppresses undefined characters", "statement": "With ignore_bad_chars set, no content stream makes page interpretation fail because a character has no Unicode value; such characters are shown as empty texts. Without it the first one raises.", "quantifier": "every operator sequence, every reachable state, every font", "why_tests_cant": "all operator histories including saved and restored states and nested forms", "anchors": ["pdfmajor/interpreter/commands/state/PDFTextState/__init__.py: PDFTextState.to_unichr", "pdfmajor/interpreter/commands/__init__.py: process_command_stream, prep_state"]}
{"id": "C66", "title": "A form is drawn in isolation", "statement": "Do on a form XObject produces one item containing the items of the form's content, run with the page's graphics parameters and transformation matrix in an otherwise fresh state, and the page continues in exactly the state it had.", "quantifier": "every state, every form, every content before and after it, every nesting depth", "why_tests_cant": "all states and all nested contents", "anchors": ["pdfmajor/interpreter/commands/__init__.py: process_command_stream, prep_state", "pdfmajor/interpreter/commands/commands.py: Do", "pdfmajor/interpreter/commands/utils.py: init_resources"]}
{"id": "C67", "title": "Glyph names give their characters", "statement": "A glyph name found in the glyph list, or of the form uniXXXX, or ending in a decimal number, gives the corresponding text, and every other name is rejected.", "quantifier": "every name and every glyph list", "why_tests_cant": "unbounded names", "anchors": ["pdfmajor/parser/EncodingDB.py: name2unicode"]}
{"id": "C70", "title": "Built-in encodings of Type 1 fonts are recovered", "statement": "From every Type 1 font header, 'dup code /name put' sequences give each code the character of the name declared last for it, however the header is laid out and buffered.", "quantifier": "every header, every layout, every buffer size", "why_tests_cant": "all headers and chunkings", "anchors": ["pdfmajor/interpreter/commands/state/PDFTextState/PDFFont/Type1FontHeaderParser.py: Type1FontHeaderParser.get_encoding"]}
{"id": "C68", "title": "Characters come from ToUnicode, then the encoding", "statement": "For every font the character of a code is the one its ToUnicode stream assigns to it; without one, the one given by the font's encoding (Differences over the base); otherwise it is undefined.", "quantifier": "every font dictionary, every ToUnicode stream in every layout, every code", "why_tests_cant": "unbounded fonts and codes", "anchors": ["pdfmajor/interpreter/commands/state/PDFTextState/PDFFont/PDFFont.py: PDFSimpleFont.to_unichr", "pdfmajor/interpreter/commands/state/PDFTextState/PDFFont/fonts.py: PDFCIDFont.to_unichr"]}
{"id": "C69", "title": "The font cache is transparent", "statement": "Whatever fonts were requested before, a request for a font gives the font that would be built afresh from its dictionary.", "quantifier": "every history of requests", "why_tests_cant": "all histories", "anchors": ["pdfmajor/interpreter/commands/state/PDFTextState/PDFFont/__init__.py: get_font", "pdfmajor/interpreter/commands/utils.py: init_resources"]}
{"id": "C71", "title": "Composite fonts take Encoding and ToUnicode from the Type0 font", "statement": "A Type0 font behaves as its first descendant with the Encoding and ToUnicode entries of the Type0 font, and decodes strings with the CMap its Encoding names.", "quantifier": "every Type0 font and descendant, every string", "why_tests_cant": "unbounded dictionaries and strings", "anchors": ["pdfmajor/interpreter/commands/state/PDFTextState/PDFFont/__init__.py: get_font", "pdfmajor/interpreter/commands/state/PDFTextState/PDFFont/fonts.py: PDFCIDFont"]}
{"id": "C72", "title": "The text file holds the characters of the pages", "statement": "For every document, also one that ends with an exception, the text output is UTF-8 and decodes to, for each page, its title line with the page number in decimal, the texts of its characters in order (those of text blocks, and those of forms in the place of the form), and a line end; on an exception it holds everything before it.", "quantifier": "every document (any pages, items, nested forms, texts of Unicode scalar values), every point at which an exception ends it", "why_tests_cant": "all documents, all failure points", "anchors": ["pdfmajor/converters/text.py: convert_to_text", "pdfmajor/interpreter/PageInterpreter.py"]}
{"id": "C73", "title": "The text of a page is what its content streams show", "statement": "For every content stream made of well-formed instructions, the characters on the page are, in order, those that the strings of Tj, TJ, ' and double-quote decode to in the font selected at that point (Tf, saved and restored by q and Q) of the page's resources, and those of the forms drawn by Do, recursively with the forms' own resources; no other operator adds, drops or changes text.", "quantifier": "every content stream, all resources, all nestings of forms, every font", "why_tests_cant": "unbounded programs, graphics state stacks and form nestings", "anchors": ["pdfmajor/interpreter/commands/commands.py: Tf, q, Q, Tj, TJ, Do", "pdfmajor/interpreter/commands/__init__.py: process_command_stream, prep_state", "pdfmajor/interpreter/commands/utils.py: init_resources", "pdfmajor/converters/text.py: convert_to_text"]}
{"id": "C74", "title": "List helpers do what they say", "statement": "uniq returns the distinct objects at their first occurrences; pick returns the first object of highest score, or the default for an empty list; choplist cuts a list into consecutive groups of n and drops the incomplete rest; csort sorts by key and keeps the order of equal keys.", "quantifier": "every list, every key or score function, every n", "why_tests_cant": "unbounded lists and functions", "anchors": ["pdfmajor/utils/generic.py: uniq, csort, pick, choplist"]}
{"id": "C75", "title": "Operators set exactly the parameters they name", "statement": "After any sequence of operators, the transformation matrix and the text parameters (spacings, scale, leading, rise, mode, font and size) are those given by the latest operators that set them, as saved by q and restored by Q; the general graphics parameters are those of the latest operator that sets them.", "quantifier": "every operator sequence, every nesting of q and Q, every starting state", "why_tests_cant": "all operator histories", "anchors": ["pdfmajor/interpreter/commands/commands.py", "pdfmajor/interpreter/commands/state/__init__.py: PDFStateStack", "pdfmajor/interpreter/commands/state/PDFTextState/__init__.py", "pdfmajor/interpreter/commands/state/PDFGraphicState/__init__.py"]}
{"id": "C76", "title": "A document's catalog, information and permissions come from its trailers", "statement": "For every file without encryption the catalog is that of the newest trailer with a Root and the information dictionaries those of the trailers up to it, newest first, through any chain of references, with or without caching; everything is permitted; a file with no Root in any trailer is refused with PDFSyntaxError.", "quantifier": "every list of trailers, every file, every password, caching on or off", "why_tests_cant": "all revision histories and reference chains", "anchors": ["pdfmajor/parser/PDFDocument/__init__.py: PDFDocument.__init__, _initialize_password, getobj"]}
{"id": "C77", "title": "An encrypted file opens to its plain objects", "statement": "Opening a file protected with RC4 with its user or its owner password gives the catalog, information and permissions that were protected, and in every later history of lookups, with or without caching, every object has its strings, at any depth, and its stream data as they were before encryption.", "quantifier": "every file of any number of revisions, every pair of passwords, every object, every lookup history", "why_tests_cant": "all keys, files and histories", "anchors": ["pdfmajor/parser/PDFDocument/__init__.py: PDFDocument.__init__, _initialize_password, getobj", "pdfmajor/parser/PDFDocument/PDFSecurityHandler.py", "pdfmajor/parser/PDFStream/util.py: decipher_all"]}
{"id": "C78", "title": "The XML file of a document is well-formed and holds its pages", "statement": "For every document whose iteration ends normally and whose values are characters of XML, the XML output is its declaration and one well-formed element; read by an XML reader it is the tree of the pages and their items, in order and nested as they are, with boxes, colours, font descriptor entries, path segments and the exact text of every character.", "quantifier": "every document (any pages, items, nested forms, texts, colours and descriptors), every way of printing numbers", "why_tests_cant": "all documents and nestings", "anchors": ["pdfmajor/converters/xml.py: convert_to_xml", "pdfmajor/converters/writers/xml.py: XMLMaker"]}
{"id": "C79", "title": "The JSON file of a document is one JSON text and holds its pages", "statement": "For every document, also one whose iteration ends with an exception at any point, the JSON output is one JSON text (RFC 8259); its value lists the pages reached and their items, in order and nested as they are, with boxes, colours, font descriptor entries, path segments and texts.", "quantifier": "every document (any pages, items, nested forms, texts, colours and descriptors), every point at which an exception ends it", "why_tests_cant": "all documents, nestings and failure points", "anchors": ["pdfmajor/converters/json.py: convert_to_json", "pdfmajor/converters/writers/json.py: JSONMaker"]}
{"id": "C80", "title": "Objects are recovered from a file without a cross-reference table", "statement": "A file without startxref can be opened, and every object that begins a line before the first trailer - plain, stream, or packed in an object stream - can be looked up; under each number it is the last one in the file; other numbers are reported as not found; the first trailer is the document's. In a file that has tables, doing the same scan by default changes no object the tables define.", "quantifier": "every such file, every layout of its objects, every buffer size, every object number, with and without caching", "why_tests_cant": "unbounded files, layouts and buffer splits", "anchors": ["pdfmajor/parser/PDFDocument/PDFXRef.py: PDFXRefFallback.load", "pdfmajor/parser/PDFDocument/__init__.py: PDFDocument.__init__, getobj"]}
{"id": "C81", "title": "Named destinations and name trees are looked up completely", "statement": "For every name tree of any depth whose keys are in order, looking up a name that it holds gives the object stored with it, and any other name is reported: KeyError from lookup_name, PDFDestinationNotFound from get_dest, which also finds destinations of the older dictionary.", "quantifier": "every name tree (any depth, width, indirect or direct nodes and arrays), every name", "why_tests_cant": "all trees and names", "anchors": ["pdfmajor/parser/PDFDocument/__init__.py: PDFDocument.lookup_name, get_dest"]}
{"id": "C82", "title": "The outline lists its items in order with their levels", "statement": "For every outline, get_outlines yields each item that has a destination or an action once, parents before their children and children before the next item, with its level, its decoded title, its destination, action and structure element, and then ends; without an outline it raises PDFNoOutlines.", "quantifier": "every outline of any depth and width", "why_tests_cant": "all trees of linked items", "anchors": ["pdfmajor/parser/PDFDocument/__init__.py: PDFDocument.get_outlines", "pdfmajor/utils/text.py: decode_text"]}
{"id": "C83", "title": "Text strings are decoded to the text they stand for", "statement": "decode_text gives, for every text string of PDFDocEncoding (all defined codes) and of UTF-16BE with a byte order mark (all Unicode scalar values), the text it stands for; every text has such a string.", "quantifier": "every text string of any length", "why_tests_cant": "all code and surrogate combinations at every length", "anchors": ["pdfmajor/utils/text.py: PDFDocEncoding, decode_text"]}
{"id": "C84", "title": "Well-formed content runs without exceptions and loses no text", "statement": "A page whose resources and content follow the operator summary of the standard - any operators with operands of their kinds, nested q and Q, text objects, fonts of the resources, colour spaces, inline images, images and forms nested to any depth - is interpreted to the end without an exception, and the characters of its items are exactly those its strings show, in order.", "quantifier": "every such page: all operator sequences, resources, nestings of forms and fonts", "why_tests_cant": "all programs of the content language", "anchors": ["pdfmajor/interpreter/commands/__init__.py: process_command_stream, prep_state", "pdfmajor/interpreter/commands/commands.py", "pdfmajor/interpreter/PageInterpreter.py: PageInterpreter"]}
{"id": "C85", "title": "Content streams are read into their operands and operators", "statement": "For every page content written in any way as tokens, over any number of streams cut between tokens and with any number of inline images, the parser delivers exactly its operands (numbers, strings, names, nested arrays and dictionaries), operators and images, in order, and then signals the end; for every read size.", "quantifier": "every sequence of operands, operators and inline images, every spelling and layout, every cut into streams, every read size", "why_tests_cant": "unbounded contents, spellings, cuts and buffer splits", "anchors": ["pdfmajor/parser/PDFContentParser.py: PDFContentParser", "pdfmajor/parser/PSStackParser/__init__.py: PSStackParser.nextobject"]}
{"id": "C86", "title": "Every well-formed font dictionary can be used", "statement": "For every well-formed font dictionary (standard, Type 1, TrueType, Type 3, CID and Type0 fonts, with any ToUnicode CMap, encoding, embedded Type 1 program or predefined or identity CMap), building the font raises no exception, and strings shown in it are cut into codes and the codes given texts exactly as the dictionary declares.", "quantifier": "every well-formed font dictionary, every string and code, every object store and chain of references", "why_tests_cant": "unbounded dictionaries, CMap programs, differences, width arrays, strings and reference chains", "anchors": ["pdfmajor/interpreter/commands/state/PDFTextState/PDFFont/__init__.py: get_font", "pdfmajor/interpreter/commands/state/PDFTextState/PDFFont/fonts.py: PDFType1Font, PDFType3Font, PDFCIDFont", "pdfmajor/interpreter/commands/state/PDFTextState/PDFFont/PDFFont.py: PDFFont, PDFSimpleFont"]}
{"id": "C87", "title": "Converting a file to text gives the text the file shows", "statement": "For every PDF file whose pages are well formed, convert to text writes, in UTF-8, for each chosen page in order its title and exactly the characters its strings show, and raises no exception: from the bytes of the file over its cross-reference tables (or the objects found without them), page tree with inheritance, fonts, filters and content streams to the bytes of the output; with or without caching and the check for extractability, for every read size.", "quantifier": "every such file of any size: all revisions, layouts, page trees, fonts, contents, forms, filters, page selections", "why_tests_cant": "unbounded files; the claim composes the whole program", "anchors": ["pdfmajor/converters/text.py: convert_to_text", "pdfmajor/interpreter/__init__.py: PDFInterpreter", "pdfmajor/interpreter/PageInterpreter.py: PageInterpreter", "pdfmajor/parser/PDFPage.py: PDFPage.get_pages"]}
{"id": "C88", "title": "Objects of files with cross-reference streams, hybrid files and object streams", "statement": "For every file whose cross-reference sections are tables and cross-reference streams linked by XRefStm and Prev in any way (ISO 32000-1, 7.5.8.4: hybrid files), opening it reads the sections in the order in which they are linked, and looking up an object gives what the first section that has it in use refers to: the object at that offset, or the k-th member of an object stream; an object that no section lists is the last one found in the file, and one neither listed nor found is reported as not found. With fallback=False the data of streams is exactly as long as Length says.", "quantifier": "every such file: any number and nesting of sections, any field widths the code knows, any layout, object streams with any number of members, every object number, every read size, with and without caching", "why_tests_cant": "unbounded files and chains of sections; all layouts", "anchors": ["pdfmajor/parser/PDFDocument/__init__.py: PDFDocument.read_xref_from, PDFDocument.getobj, PDFDocument._getobj_objstm", "pdfmajor/parser/PDFDocument/PDFXRef.py: PDFXRefStream, PDFXRef, PDFXRefFallback"]}
{"id": "C89", "title": "convert_file writes only the file it says, with the converter of the type", "statement": "convert_file with an output file whose name ends with the type runs exactly the converter of that type, once, with the same input and the same options; with a name that does not end with the type, or another type, ConverterException is raised and no file is touched. Without an output file, the output is the file beside the input with the type as its extension in place of its own; an input without an extension is refused. Converting to text changes no file but the output, and for a document whose pages show certain texts the output holds them. The command line tool hands its options on, counting pages from 1.", "quantifier": "every path (any folders, dots, repeated slashes), every type, every set of options, every content of the file system, every document of the class of C87", "why_tests_cant": "the set of path strings and file systems is unbounded; the claim that nothing else is touched ranges over all files", "anchors": ["pdfmajor/converters/__init__.py: convert_file", "pdfmajor/converters/text.py: convert_to_text", "tools/pdfconvert.py: main"]}
{"id": "C90", "title": "The YAML file says what the pages hold", "statement": "The file that convert_to_yaml writes is YAML, and reading it gives the pages in order, each with its number, size and items in order: text blocks with their runs (size, box, colour, shown entries of the font descriptor, text), forms with their children, images, rectangles, lines and curves with their segments, with boxes and colours. If a page cannot be interpreted the exception comes out and the file holds the pages before it and what was found on it.", "quantifier": "every list of pages with items of every kind nested to any depth whose texts and names are plain scalars of one line; every point at which an exception ends the interpretation", "why_tests_cant": "the set of item trees is unbounded, and whether the file is YAML depends on the indentation of every nested collection and on every character of the texts", "anchors": ["pdfmajor/converters/yaml.py: convert_to_yaml, render_page, render, place_text_block, place_char_block, place_curve", "pdfmajor/converters/writers/yaml.py: YAMLMaker, YAMLMakerObject, YAMLMakerArray"]}
{"id": "C91", "title": "The HTML file shows what the pages hold", "statement": "The file that convert_to_html writes is one well-formed element with the pages in order, each with its number, size and items in order: a text block as one element for each run (position, size, colour, font) with one element for each character, a form with its children inside, an image by its file name, a curve as a drawing whose path has the move, line, curve and close segments in order. The drawing of a curve is placed at the box of the curve, and every point of the curve is shown where it is on the page.", "quantifier": "every list of pages with items of every kind nested to any depth; every box and point of a curve; every point at which an exception ends the interpretation", "why_tests_cant": "the set of item trees, boxes and points is unbounded; an error in the scaling shows only for boxes of certain proportions", "anchors": ["pdfmajor/converters/html.py: convert_to_html, render_page, render, render_curve, get_color, create_svg_path", "pdfmajor/converters/writers/html.py: HTMLMaker"]}
{"id": "C92", "title": "Distances between layout components are distances", "statement": "Of two layout components with boxes, is_hoverlap and is_voverlap hold exactly if the extents have a point in common, hdistance and vdistance are the least distances of points of the two extents, hoverlap and voverlap are the lengths of the common extents, is_empty holds exactly if the box has no area, and all are symmetric. vecBetweenBoxes is the vector of the two distances if the boxes have no area in common, and otherwise the vector from centre to centre.", "quantifier": "every pair of boxes, in every relative position: apart, touching, overlapping, one inside the other", "why_tests_cant": "boxes range over an infinite set with many relative positions; an error shows only in some of them", "anchors": ["pdfmajor/interpreter/commands/state/layout/_base.py: LTComponent", "pdfmajor/utils/text.py: vecBetweenBoxes"]}
{"id": "C93", "title": "The text of an encrypted file is extracted with its passwords, and only if allowed", "statement": "For every file that is a document whose pages show certain texts, encrypted with RC4 by the standard security handler: given the user or the owner password, converting the file to text gives exactly the output of C87, if its permissions allow extraction or they are not checked; if they are checked and do not allow it, nothing is written and PDFTextExtractionNotAllowed is raised; with any other password nothing is written and an exception is raised.", "quantifier": "every such file (V 1, 2, or 4 with a crypt filter of method V2; any revision of the handler up to 4, key length, permissions, identifiers, passwords of Latin-1 characters; encrypted metadata or not; the encryption dictionary direct or a reference), any document of the class of C87 whose objects stand by themselves, every read size, page selection, with and without caching", "why_tests_cant": "unbounded files, keys and passwords; the claim composes the whole program", "anchors": ["pdfmajor/parser/PDFDocument/__init__.py: PDFDocument.set_parser, PDFDocument.getobj", "pdfmajor/parser/PDFDocument/PDFSecurityHandler.py: PDFStandardSecurityHandler, PDFStandardSecurityHandlerV4", "pdfmajor/parser/PDFPage.py: PDFPage.get_pages", "pdfmajor/converters/text.py: convert_to_text"]}
{"id": "C94", "title": "Characters are placed where the page says", "statement": "For every document whose pages show text in horizontal fonts with the operators for the text state, text lines, showing text, saving and transforming: interpreting the file gives, for each chosen page in order, the size of its media box, and for each text object, string by string, exactly the characters the content shows, each with the box its glyph occupies: font size, horizontal scaling, rise, widths, word spaces, adjustments, line matrix, current transformation, and the rotation and origin of the page all applied as the PDF Reference says.", "quantifier": "every file, page tree, rotation, media box, content and font of the described class, with unbounded numbers of pages, operators, saved states and characters; every read size, page selection, password, with and without caching", "why_tests_cant": "unbounded content and arbitrary rational operands; composes the whole program from the bytes of the file to the boxes", "anchors": ["pdfmajor/interpreter/__init__.py: PDFInterpreter", "pdfmajor/interpreter/PageInterpreter.py: PageInterpreter", "pdfmajor/interpreter/commands/commands.py: set_font, move_text_x, move_text_y, set_text_matrix, nextline, add_char_blocks, concat_transition_matrix, save_state, restore_state", "pdfmajor/interpreter/commands/state/PDFItem/PDFText.py: PDFText", "pdfmajor/interpreter/commands/state/layout/LTCharBlock.py: LTCharBlock", "pdfmajor/interpreter/commands/state/layout/LTChar.py: LTChar"]}
{"id": "C95", "title": "The boxes of text enclose their characters and nothing more", "statement": "In the items of every page, also in nested forms: every string of a text object has at least one character, boxes with ordered sides, and as its box the smallest box around its characters; a text object has the smallest box around its strings, and none if it has no string.", "quantifier": "all documents, resources, contents (well formed or not), also when an exception ends the page", "why_tests_cant": "any number of strings and characters, nested forms to any depth", "anchors": ["pdfmajor/interpreter/commands/state/layout/LTTextBlock.py: LTTextBlock", "pdfmajor/interpreter/commands/state/layout/LTCharBlock.py: LTCharBlock", "pdfmajor/interpreter/commands/state/layout/_base.py: LTComponent"]}
{"id": "C96", "title": "The widths and heights of fonts are those of their dictionaries", "statement": "For every font object of the described class: the advance width of each code is the one Widths gives from FirstChar on, or MissingWidth (for a standard font, the width of the character in its metrics; for a CID font, the last entry of W, or DW), in thousandths, or scaled by FontMatrix for Type 3; the line starts at Descent and is as tall as FontBBox, or as Ascent above Descent if the box has no height; the font is horizontal, and composite exactly if it is a CID font.", "quantifier": "all font dictionaries of the class, with any references, all codes, with arrays of widths of any length", "why_tests_cant": "unbounded arrays and dictionaries", "anchors": ["pdfmajor/interpreter/commands/state/PDFTextState/PDFFont/PDFFont.py: PDFFont.char_width, PDFFont.get_height, PDFFont.get_descent", "pdfmajor/interpreter/commands/state/PDFTextState/PDFFont/fonts.py: PDFType1Font, PDFType3Font, PDFCIDFont", "pdfmajor/interpreter/commands/state/PDFTextState/PDFFont/util.py: get_widths"]}
{"id": "C97", "title": "Composite fonts that only carry an embedded TrueType program", "statement": "A CID font with collection Adobe-Identity or Adobe-UCS, no ToUnicode and an embedded TrueType program should give each glyph the character the program's own character map gives it. It gives no glyph any character, for any program; and no program, however damaged, keeps the font from being read with its widths and codes.", "quantifier": "all font dictionaries of the class, all byte strings as programs, all characters and glyphs of their maps (formats 0 and 4)", "why_tests_cant": "programs are arbitrary byte strings with tables of any number and size", "anchors": ["pdfmajor/interpreter/commands/state/PDFTextState/PDFFont/TrueTypeFont.py: TrueTypeFont, create_unicode_map", "pdfmajor/interpreter/commands/state/PDFTextState/PDFFont/fonts.py: PDFCIDFont"]}
{"id": "C98", "title": "Name, slant and weight of fonts", "statement": "The name and the italic angle of every font that is not one of the standard 14 are those of its font descriptor (that of the descendant for a composite font), whatever references are in the way; a numeric FontWeight is its weight, and it is bold exactly if that is above 549; without one it is bold if its name contains the word bold in any case. (That a font which says nothing of its weight, or a standard font, can be asked whether it is bold is refuted.)", "quantifier": "all font dictionaries of all types, with any nesting of composite fonts and any references; all names", "why_tests_cant": "names, descriptors and nestings are unbounded", "anchors": ["pdfmajor/interpreter/commands/state/PDFTextState/PDFFont/PDFFont.py: PDFFont.__init__, PDFFont.font_weight, PDFFont.is_bold", "pdfmajor/interpreter/commands/state/PDFTextState/PDFFont/fonts.py: PDFType1Font, PDFType3Font, PDFCIDFont", "pdfmajor/utils/fontmetrics.py: FONT_METRICS"]}
{"id": "C99", "title": "Saved images hold the data of the image", "statement": "Saving an image writes, under the directory and name given and with the documented ending, the decoded data of the image; the JPEG file itself for a JPEG image; for one bit a bitmap of the size of the image with its rows. This holds for every sequence of saves and requests for the data on one image, and no other file is touched. (Refuted: JPEG images after their data was asked for, or of encrypted documents; bitmaps whose page box is not an integer box of the image's size.)", "quantifier": "all images with any filter chain and parameters, all depths and sizes, all histories of uses, all paths", "why_tests_cant": "histories, images and paths are unbounded, and the order of calls matters", "anchors": ["pdfmajor/interpreter/commands/state/layout/LTImage.py: LTImage.save_image", "pdfmajor/BMPWriter/__init__.py: BMPWriter.write_all", "pdfmajor/parser/PDFStream/__init__.py: PDFStream.get_data, PDFStream.get_rawdata"]}
{"id": "C100", "title": "The built-in encodings are the standard ones", "statement": "A font whose Encoding names StandardEncoding, MacRomanEncoding, WinAnsiEncoding or PDFDocEncoding (and that has no ToUnicode map) gives each code the character that Annex D of the PDF standard assigns to it, and gives no text to codes without a character.", "quantifier": "every code and every one of the four encodings; every simple or Type 3 font dictionary that is well formed", "why_tests_cant": "A unit test samples codes; the claim is about all codes of four tables built by a loop over a fifth table of glyph names, and about every font dictionary that refers to them.", "anchors": ["pdfmajor/utils/encoding/latin_enc.py:LATIN_ENCODING", "pdfmajor/parser/EncodingDB.py:EncodingDB", "pdfmajor/parser/EncodingDB.py:name2unicode"]}
{"id": "C101", "title": "The colours of items are colours", "statement": "Whatever bytes a file has, every colour of an item of a page that is given (the colour of a string shown, stroke and fill of a line, rectangle or curve, at the top of the page or inside forms) has no colour space or a space whose name is one of the eleven families of ISO 32000-1, 8.6.3, and its values are integers or objects that stand in the content of the page or of a form; nothing else can get into the colour attributes of the output.", "quantifier": "all files, resources, content streams, nestings of forms and exceptions", "why_tests_cant": "the colours depend on every operator and resource before the item; an attribute with an unexpected name or value breaks the files made from it, for some content no test has", "anchors": ["pdfmajor/interpreter/commands/commands.py", "pdfmajor/interpreter/commands/utils.py:get_colorspace", "pdfmajor/interpreter/commands/state/PDFGraphicState"]}
{"id": "C102", "title": "Converting a file to XML gives the characters the file shows, where it shows them", "statement": "For every PDF file whose chosen pages show given characters at given places (as the PDF specification defines them, from the bytes of the file), convert_file to XML makes one well-formed XML document whose page elements have the number and the size of the pages, in order, and whose text elements hold exactly the characters, each with its text and its box.", "quantifier": "all well-formed files, all selections of pages, all read sizes", "why_tests_cant": "parsing, decoding, font reading, interpretation and output must fit together for every file", "anchors": ["pdfmajor/converters/xml.py:convert_to_xml", "pdfmajor/interpreter/__init__.py:PDFInterpreter"]}
{"id": "C103", "title": "The lines, rectangles, curves and images of a page stand where the page draws them", "statement": "For every unencrypted file whose chosen pages are well formed (C87) and draw, according to the PDF Reference, a list of painted paths and images (the transformation, the line width, the device colours and the current path followed from operator to operator, images taken from the resources or inline), interpreting the file yields pages whose items other than text and forms are exactly these, in this order: a path of one straight segment is a line item, vertical or horizontal exactly when its ends are, a closed axis-parallel quadrilateral is a rectangle item, any other path a curve item; each carries the path, the fill rule, and the line width and colours set last; and the box of a line, rectangle or image is the smallest box around its points where the page's rotation, media box and transformations put them. Where the page has set no width or colour, the items carry width 0 and no colour components instead of the PDF defaults.", "quantifier": "all files, page selections, passwords, caching and permission settings, buffer sizes, contents of any length, nesting and operand values", "why_tests_cant": "The content, the nesting of q/Q, the matrices and the number of shapes are unbounded, and the boxes are statements over all real coordinates.", "anchors": ["pdfmajor/interpreter/commands/commands.py", "pdfmajor/interpreter/commands/__init__.py:process_command_stream, prep_state", "pdfmajor/interpreter/commands/state/layout/__init__.py:make_curve, make_image"]}
{"id": "C104", "title": "CFF DICT data are read as written", "statement": "getdict(data) of the bytes of a DICT (Adobe Technical Note 5176, section 4) is the dictionary that has each operator with its operands: integers in all five encodings, and real numbers from their nibbles.", "quantifier": "every list of entries (distinct operators), every encoding of each operand", "why_tests_cant": "The encodings overlap (one integer can be written in up to five ways) and reals have any number of digits, exponents and signs.", "anchors": ["pdfmajor/interpreter/commands/state/PDFTextState/PDFFont/CFFFont.py: getdict, NIBBLES"]}
{"id": "C105", "title": "CFF INDEX data are read as written", "statement": "Reading an INDEX at any position of a file gives as many objects as were written, each with its bytes, by number and by iteration, and leaves the file after the INDEX.", "quantifier": "every list of objects, offset size 1-4, position and surrounding bytes", "why_tests_cant": "Positions, sizes and contents are unbounded; the offsets and the base have to agree for each of them.", "anchors": ["pdfmajor/interpreter/commands/state/PDFTextState/PDFFont/CFFFont.py: CFFFont.INDEX"]}
{"id": "C106", "title": "A CFF font gives its glyphs their names and codes", "statement": "CFFFont(name, fp) has the name, strings, subroutines and charstrings of the font program; gid2name maps each glyph to its name (standard string or string of the font), name2gid goes the other way, code2gid and gid2code are the encoding.", "quantifier": "every font program with the structure of the note (version 1.0, charset of format 0, encoding of format 0 or 1 or standard)", "why_tests_cant": "All of names, strings, offsets and glyph numbers vary.", "anchors": ["pdfmajor/interpreter/commands/state/PDFTextState/PDFFont/CFFFont.py: CFFFont"]}
{"id": "C107", "title": "The characters of a form stand where the page and the forms say", "statement": "For a file and the pages chosen, the items of a page hold one item per form the page draws with Do, in order, nested as the file nests the forms; the item of a form holds the characters of the text objects of its content, each with its text and the box around its glyph, with the positions in the form mapped by the form matrix and by the transformations in force at the place where it is drawn, down to the page.", "quantifier": "every file that is well formed in the sense of the file specification, every choice of pages, every depth of nesting, every content of pages and forms described by the specification, every way of opening the file", "why_tests_cant": "A test fixes one file, one nesting and one transformation; the property combines every nesting of forms, every stack of q/Q/cm around a Do, every text state and every font.", "anchors": ["pdfmajor/interpreter/commands/__init__.py:process_command_stream", "pdfmajor/interpreter/commands/commands.py:Do", "pdfmajor/interpreter/commands/state/__init__.py", "pdfmajor/interpreter/__init__.py:PDFInterpreter"]}
{"id": "C108", "title": "The pages of an encrypted file, opened with a password of the file, are those of the document that was encrypted", "statement": "Take a document, encrypt it with RC4 under a user and an owner password, and lay it out in a file in any way. Interpreting the file with either password gives, for the pages chosen, the characters, each with its text and its box, the lines, rectangles, curves and images, and the forms nested in the pages, exactly as the document says them before encryption; and converting it to XML gives a well-formed document that says the same. If the permissions do not allow extraction and they are checked, no page comes out and PDFTextExtractionNotAllowed is raised.", "quantifier": "all documents, all pairs of passwords, keys of 40 to 128 bits, all layouts of the file, all selections of pages, all read sizes, with or without caching", "why_tests_cant": "A test fixes one document and one password; a wrong object key, a string left encrypted or a cache of the wrong object shows only for some objects of some documents.", "anchors": ["pdfmajor/parser/PDFDocument.py:PDFDocument", "pdfmajor/parser/_PDFSecurityHandlers.py:PDFStandardSecurityHandler", "pdfmajor/interpreter/__init__.py:PDFInterpreter", "pdfmajor/converters/xml.py:convert_to_xml"]}
{"id": "C109", "title": "Predefined CMaps come from the CMap directories, and the caches do not change the answers", "statement": "CMapDB gives for a name the CMap (or the Unicode map) of the file of that name in the first of its two directories that has it, and raises CMapNotFound if neither has it; no other file is opened. In every history of lookups the answer is the one a first lookup would give; a name that was answered once is answered in the same way ever after, without reading a file.", "quantifier": "all names, all contents of the file system, all histories of lookups of CMaps and Unicode maps in any order, with the file system changing in between", "why_tests_cant": "The caches are shared by all documents of a process; a wrong key (vertical or not, kind of map) shows only after particular histories, and names come from the PDF file.", "anchors": ["pdfmajor/parser/cmapdb/__init__.py: CMapDB, PyCMap, PyUnicodeMap", "pdfmajor/interpreter/commands/state/PDFTextState/PDFFont/fonts.py: PDFCIDFont"]}
{"id": "C110", "title": "Converting a file to JSON gives one JSON text with what its pages and forms show", "statement": "Converting a PDF file, not encrypted, to JSON gives one JSON text: an object whose pages are the chosen pages in order, each with its number, its width and height, and its children. Among the children of a page the text blocks are the text objects of the page in order, each with exactly the strings shown, every string as its text in the least box around its characters; and the forms drawn are children in order, which hold in the same way the text objects of the form and the forms it draws, to any depth.", "quantifier": "every file whose pages and forms are described by the PDF Reference as in C107, any depth of nesting, every choice of pages, whatever the password, with or without caching and the check for permission", "why_tests_cant": "the claim joins the file, its page tree, content streams, fonts, forms and the writer of JSON; tests compare a few fixed files", "anchors": ["pdfmajor/converters/json.py:convert_to_json", "pdfmajor/converters/writers/json.py", "pdfmajor/interpreter/__init__.py:PDFInterpreter", "pdfmajor/interpreter/commands/__init__.py:process_command_stream"]}
{"id": "C111", "title": "Converting a file to YAML gives one YAML document with what its pages and forms show", "statement": "Converting a PDF file, not encrypted, to YAML gives one YAML document: a mapping whose pages are the chosen pages in order, each with its number, its width and height, and its children. Among the children of a page the text blocks are the text objects of the page in order, each with exactly the strings shown, every string as its text in the least box around its characters; and the forms drawn are children in order, which hold in the same way the text objects of the form and the forms it draws, to any depth. This holds when every string shown is a plain scalar of YAML.", "quantifier": "every file whose pages and forms are described by the PDF Reference as in C107 and show strings that are plain scalars, any depth of nesting, every choice of pages, whatever the password, with or without caching and the check for permission", "why_tests_cant": "the claim joins the file, its page tree, content streams, fonts, forms and the writer of YAML; tests compare a few fixed files", "anchors": ["pdfmajor/converters/yaml.py:convert_to_yaml", "pdfmajor/converters/writers/yaml.py", "pdfmajor/interpreter/__init__.py:PDFInterpreter", "pdfmajor/interpreter/commands/__init__.py:process_command_stream"]}
{"id": "C112", "title": "Converting a file to HTML gives one document with what its pages and forms show", "statement": "Converting a PDF file, not encrypted, to HTML completes exactly if no item of its pages is a curve without extent or has a colour of one component without a value. Then the file is one HTML element tree whose pages are the chosen pages in order, with number, width and height. In a page the text blocks are the text objects of the page in order, each string in it an element at the lower left corner of the least box around its characters, each character an element with exactly its text and its width; and the forms drawn are elements in order, which hold in the same way the text objects of the form and the forms it draws, to any depth. This holds when the texts have no characters of markup.", "quantifier": "every file whose pages and forms are described by the PDF Reference as in C107 and show texts without <, > and &, any depth of nesting, every choice of pages and codec, whatever the password, with or without caching and the check for permission", "why_tests_cant": "the claim joins the file, its page tree, content streams, fonts, forms and the writer of HTML; tests compare a few fixed files", "anchors": ["pdfmajor/converters/html.py:convert_to_html", "pdfmajor/converters/writers/html.py", "pdfmajor/interpreter/__init__.py:PDFInterpreter", "pdfmajor/interpreter/commands/__init__.py:process_command_stream"]}
