# Formal model of pdfmajor in Rocq (Coq 8.16.1)

## 1. Layout and method

* `rocq/theories/X_Model.v`: an executable Gallina mirror of the Python, function by function; every definition cites the
  file and lines in /repo it models, and says where it simplifies. `X_Spec.v`: the independent specification (what a PDF,
  JSON, XML, BMP, CCITT ... text means, after ISO 32000-1, RFC 8259, ...), written without reference to the model.
  `X_Proofs.v`: lemmas. `X_Props.v`: the property theorems `Cnn_...`, with examples (`..._case`, `..._hyps`, `Witness.v`,
  `Interp_Witness.v`, `Sec_Witness.v`, `Extract_Cases.v`) showing that concrete cases meet their hypotheses. `Assumptions.v` prints the
  assumptions of every property theorem.
* Python exceptions are values (`Err e`, `Base.exn`). Loops are structural recursion, or recursion on fuel with an explicit
  error `OutOfFuel`; theorems either say "for all fuel from some n on", or exclude `OutOfFuel`. Where a loop of the code does
  not terminate the theorem says that every fuel runs out.
* Bytes are `Z`, byte strings `list Z`; Python `int` is `Z`; numbers of the graphics part are exact rationals (`Qc`). Python
  `str` is a list of code points. Dictionaries are association lists with Python's order of insertion. Objects with identity
  (symbol table, page items) carry explicit numbers where identity matters (C19, C74).
* A theorem is named `_partial` when it proves part of its property; what is missing is in the note. If the missing part is
  false of the code there is a `_refuted` theorem (a concrete file or value, evaluated in the kernel, or a general statement).
* `seeded/LOG.jsonl`: wrong programs. Each line is an edit of the model, made in a scratch copy, and the theorems that no
  longer prove; `tightened` names theorems that were strengthened because the edit went unnoticed at first.

## 2. Trusted base

1. Coq 8.16.1's kernel (including its `vm_compute` machine), `coqc`, and `coqchk` as run by the checker. No plugin other than
   those of the standard distribution (lia, nia, ring, field and the like, which produce terms the kernel checks); only the standard library is imported.
2. Axioms: none. `Print Assumptions` prints "Closed under the global context" for the property theorems, sixty at a time (`Assumptions.v`
   is part of the build and prints them all). No axiom of ours, none of the standard library, no `Admitted`.
3. That the model says what the Python says. The code cannot be run here; the tie is the citation at each definition. The
   Python and library semantics relied on (slicing, dictionary order, `struct`, regular expressions on bytes, `int(bytes)`,
   iterators, exceptions leaving generators) are written into the model and commented there.
4. Parameters (section variables, universally quantified in the theorems): zlib (`C07`), MD5, SHA-256, AES
   (`Sec_*`, `Open_*`: any function with results of the right length, any inverse pair for AES), the resolution of
   references (`resolve`, `getobj`: any document), fonts in the text file theorems (C73), the way Python prints floats and
   `repr` of values in the converters (C78, C79: any printing with digits, signs, dots).
5. The specifications (`*_Spec.v`) say what the English properties mean.

## 3. What is modelled

| source (pdfmajor/...) | model | 
|---|---|
| utils/ascii85.py, lzw.py, PDFStream/util.py (PNG), PDFStream/__init__.py | A85_Model, LZW_Model, PNG_Model, Stream_Model |
| parser/PDFStream/ccitt.py | CCITT_Model (Group 4 machine, bit reader) |
| parser/PSStackParser/* (lexer, line readers, stack parser, symbol table) | Lex_Model, Lex_Chunk, Lines_Model, Stack_Model |
| parser/PDFParser.py, PDFContentParser.py | Stack_Model, Content_Model |
| parser/PDFDocument/PDFXRef.py (tables, streams, fallback scan) | XRef_Model, Fallback_Model |
| parser/PDFDocument/__init__.py (opening, sections, lookup, caching, encryption set-up) | Doc_Model, Open_Model, Fallback_Model |
| parser/PDFDocument/PDFSecurityHandler.py | RC4, Sec_Model (V 1, 2, 4, 5) |
| parser/PDFDocument/__init__.py (get_outlines, lookup_name, get_dest), utils/text.py | Names_Model |
| parser/PDFPage.py, interpreter/PageInterpreter.py, interpreter/__init__.py | Page_Model |
| interpreter/commands/*.py, state/*, PDFItem/* , layout items built by them | Interp_Model |
| PDFTextState/PDFFont/* (widths, encodings, Type 1 header, CID fonts) | Font_Model; names, slant and weight: Weight_Model |
| PDFTextState/PDFFont/TrueTypeFont.py | TrueType_Model |
| PDFTextState/PDFFont/CFFFont.py (not imported by the package) | CFF_Model (C104-C106) |
| parser/cmapdb/__init__.py: CMapDB, PyCMap, PyUnicodeMap | CMapDB_Model (C109) |
| state/layout/LTImage.py (save_image) | Image_Model |
| utils/encoding/latin_enc.py, the entries of glyphlist.py it uses | Latin_Model |
| parser/cmapdb/__init__.py (the rest), parser/EncodingDB.py, utils/encoding | CMap_Model (the glyph list is a parameter of the theorems about it) |
| utils/matrix.py, utils/generic.py (boxes, plane, lists) | Geom_Model, Generic model in Generic_Props |
| BMPWriter | BMP_Model |
| the whole path of converters/text.py: opening, pages, contents, fonts, interpreter, output | Extract_Model (composes the models above; C87, C93, C94) |
| converters/__init__.py (convert_file), tools/pdfconvert.py, and which files converters/text.py opens | Dispatch_Model (C89) |
| converters/text.py, xml.py, json.py, writers/xml.py, html.py, json.py | Markup_Model, Convert_Model |
| converters/yaml.py, writers/yaml.py | Yaml_Model (C90) |
| converters/html.py | Html_Model (C91) |
| interpreter/commands/state/layout/_base.py, vecBetweenBoxes of utils/text.py | Layout_Model (C92) |

## 4. What is not modelled

* The bundled CMap pickles and the font metrics as data, and the glyph list but for the names in latin_enc.py; logging, argparse; file access beyond which files are opened and written (Dispatch_Model).
* Rounding of floating point numbers: coordinates, widths and matrices are exact rationals; printing of floats is a parameter.
* Decoding of names as UTF-8 with dropped invalid bytes (names are byte strings), `getobj` results mutated by callers,
  indirect `Prev`/`XRefStm`, equality 1 == True == 1.0 between dictionary keys (see the comments in Obj, Doc_Model,
  Fallback_Model).
* `settings.STRICT` is False throughout, as by default.
* In the end-to-end model (Extract_Model) lookups after opening do not change the caches (justified by C25), fonts are built anew
  for each page (C69), streams of a page are decoded before its first operator runs.
* JPEG/JBIG2 data (passed through by the code); the inversion of CMYK images by PIL when they are saved.

## 5. Property by property

Status and notes are those of MANIFEST.json. *How*: what is modelled and how it is proved. Theorems named `_refuted` show, with a witness or for a whole class of inputs, that the code violates the property in some case.

### C01 ASCII85 decoding inverts ASCII85 encoding  (proved)
For every byte string s, decoding the standard ASCII85 encoding of s (with 'z' for zero groups, a short final group and the '~>' terminator) yields exactly s, whatever characters outside the ASCII85 alphabet (line breaks, blanks) are interspersed and whatever follows '~>'.

* How: decoder as a function on bytes; encoder and line breaking in the specification; induction on groups of four bytes
* Theorems (A85_Props.v): `C01_ascii85_roundtrip`, `C01_ascii85_encodable`
* Scope: ascii85 round trip for every byte string and every line-breaking of the encoding

### C02 ASCIIHex decoding inverts hexadecimal encoding  (partial)
For every byte string s, asciihexdecode of the hex spelling of s (either case, any white space, anywhere between digits, optional odd final digit standing for digit+0, terminated by '>') yields s.

* How: decoder with its regular expression as a scan over the bytes; encodings as an inductive relation; induction
* Theorems (A85_Props.v): `C02_asciihex_even_partial`, `C02_asciihex_odd_partial`, `C02_asciihex_split_refuted`, `C02_asciihex_eod_refuted`
* Scope: even/odd digit counts proved for data whose digit pairs are not split by white space; split pairs and data after EOD refuted with witnesses

### C03 RunLength decoding inverts run-length encoding  (proved)
For every sequence of literal runs (1..128 bytes) and repeated runs (2..128 copies) the decoder returns the concatenation of the runs; it ignores everything after the EOD byte 128, and a record whose payload is cut short is reported rather than silently accepted.

* How: run-length decoder and an encoder relation; induction on the runs; soundness by inversion
* Theorems (A85_Props.v): `C03_runlength_roundtrip`, `C03_runlength_only_runs`, `C03_runlength_truncated`, `C03_runlength_only_error`
* Scope: round trip, soundness, truncation, only IndexError

### C04 LZW decoding inverts LZW encoding  (proved)
For every byte string s, decoding the LZW code stream (9..12-bit codes, MSB first, early change, Clear and EOD codes) produced from s by the standard encoder yields exactly s, including when code widths change and when the table is cleared and rebuilt.

* How: LZW machine (bit buffer, table, code width); a relation saying which codes a conforming encoder may emit; simulation with an invariant tying the decoder's table to the encoder's
* Theorems (LZW_Props.v): `C04_lzw_roundtrip`, `C04_lzw_any_encoder`
* Scope: any conforming LZW encoder output is decoded, including code width changes and table resets

### C05 Corrupt LZW data ends the output instead of corrupting it  (partial)
Decoding never loses or alters output produced before the first invalid code: the output of a code sequence followed by anything is a prefix-extension of the output of the sequence, and a code beyond the table ends the output normally.

* How: same machine; induction on the input bytes
* Theorems (LZW_Props.v): `C05_lzw_prefix_partial`, `C05_lzw_errors`, `C05_lzw_after_eod_refuted`
* Scope: prefix stability and error set proved; data after EOD is still decoded (refuted)

### C06 PNG predictor decoding inverts PNG row filtering  (partial)
For every image of 8-bit samples, any number of colour components and columns, applying the PNG predictor to rows filtered with None, Sub, Up, Average or Paeth (chosen per row) restores the original rows.

* How: row decoder; PNG filters specified on pixels; induction on rows
* Theorems (PNG_Props.v): `C06_png_roundtrip_partial`, `C06_png_average_refuted`, `C06_png_paeth_refuted`, `C06_png_sub_rgb_refuted`, `C06_png_up_rgb_refuted`, `C06_png_total`
* Scope: None/Sub/Up rows for 1-byte pixels round-trip; Average, Paeth and multi-byte Sub/Up refuted with witnesses; totality

### C07 A stream's filter chain is decoded in order and exactly once  (proved)
Reading a stream's data returns the raw data passed through the declared filters in declaration order (each followed by its own predictor), so data encoded by the inverse filters in reverse order comes back unchanged; asking again, any number of times, returns the same bytes.

* How: get_data/decode as a fold over the declared filters with memoisation; encoders composed in the opposite order; induction on the chain and on the history of calls
* Theorems (Stream_Props.v): `C07_filter_chain`, `C07_same_answer`, `C07_rawdata_lost_refuted`, `C07_indirect_parms_refuted`, `C07_corrupt_flate_refuted`, `C07_unsupported_filter_refuted`
* Scope: every chain of supported filters (zlib and CCITT are parameters), with predictors where C06 holds, any history of calls; outside the property: raw data lost, indirect parameters, unsupported filters: refuted witnesses

### C08 Every declared filter gets its own parameters  (partial)
The list of (filter, parameters) pairs of a stream has one entry per declared filter, in order, and the i-th filter gets the i-th parameter dictionary (or none).

* How: all direct forms of Filter and DecodeParms; case analysis over the declaration
* Theorems (Stream_Props.v): `C08_filters_partial`, `C08_short_parms_refuted`, `C08_indirect_filters_refuted`, `C08_indirect_filter_name_refuted`, `C08_file_specification_refuted`
* Scope: every direct form of the declaration; short parameter arrays, indirect filters and file specifications refuted

### C09 Tokenisation does not depend on how the file is buffered  (proved)
For every byte sequence and every way of cutting it into read chunks, the tokenizer yields the same tokens at the same positions and ends in the same way.

* How: the lexer with its buffer, position and partial token, next to a machine that sees one byte list; simulation, hence equality for every chunking
* Theorems (Lex_Props.v): `C09_tokens_any_chunks`, `C09_tokens_bufsiz`, `C09_nexttoken_step`
* Scope: token sequence, positions and final exception are the same for every chunking of the bytes

### C10 Line reading does not depend on buffering and loses no bytes  (partial)
nextline yields, for every file and every chunking, the successive lines each including its CR, LF or CRLF terminator; concatenating them gives the file back.

* How: forward line reader over buffers; lines specified on the whole text; induction over the chunks
* Theorems (Lines_Props.v): `C10_nextline`, `C10_all_lines_partial`, `C10_lines_bufsiz`, `C10_last_line_refuted`
* Scope: lines and positions proved for every chunking; that no byte is lost is refuted for an unfinished last line

### C11 Backward line reading does not depend on buffering  (proved)
revreadlines yields the lines of the file from last to first, and the sequence is the same whatever the buffer size; hence locating startxref does not depend on it.

* How: backward reader over buffers; segments specified on the whole text; induction
* Theorems (Lines_Props.v): `C11_revreadlines`, `C11_revreadlines_bufsiz`
* Scope: backward reader yields the segments for every buffer size

### C12 Literal strings round-trip  (partial)
Every byte string written as a literal string, with delimiters and any other byte escaped (backslash letter or octal escapes) or balanced parentheses left raw, is tokenised back to exactly those bytes.

* How: string states of the lexer; spellings as a relation; induction on the spelling, under any chunking via C09
* Theorems (Lex_Props.v): `C12_literal_string_partial`, `C12_write_string_roundtrip`, `C12_unknown_escape_refuted`, `C12_octal_overflow_refuted`, `C12_crlf_continuation_refuted`, `C12_raw_eol_refuted`
* Scope: every spelling of Lex_Spec.StrBody is read back; unknown escapes, octal overflow, CRLF continuation, raw CR refuted

### C13 Hexadecimal strings round-trip  (partial)
Every byte string written between < and > as hex digits of either case with white space anywhere is tokenised to exactly those bytes; an odd final digit is completed with 0.

* How: as C12 for hexadecimal strings
* Theorems (Lex_Props.v): `C13_hex_string_partial`, `C13_write_hexstring_roundtrip`, `C13_odd_digit_refuted`
* Scope: every even-length spelling is read back; odd number of digits refuted

### C14 Names round-trip  (proved)
Every name written after '/' with special bytes as #xx is tokenised to the name with exactly those bytes.

* How: as C12 for names with #xx
* Theorems (Lex_Props.v): `C14_name`, `C14_write_name_roundtrip`
* Scope: every spelling of a name is read back as its bytes (UTF-8 decoding of the name not modelled)

### C15 Integers round-trip  (proved)
Every integer written in decimal with optional sign and leading zeros is tokenised to that integer, and to nothing else.

* How: as C12 for numerals; value by the specification of decimals
* Theorems (Lex_Props.v): `C15_integer`, `C15_integer_roundtrip`
* Scope: numerals of any length and sign; every integer has one

### C16 Nested objects round-trip  (partial)
Writing any object built from null, booleans, integers, strings, names, arrays and dictionaries in PDF syntax and parsing it returns the same object, at any nesting depth and with any white space and comments between tokens.

* How: stack parser with contexts; written forms as a mutual inductive relation; induction on the written object generalised over the stack
* Theorems (Stack_Props.v): `C16_pdf_object`, `C16_pdf_object_resumes`, `C16_stream_strays`, `C16_stream_objects_partial`, `C16_stream_null_refuted`, `C16_stream_toplevel_ref_refuted`, `C16_odd_dictionary`, `C16_stray_bracket`
* Scope: file objects: every written form, at any offset, with any gaps and buffer size; object streams likewise but null and top-level references refuted with witnesses

### C17 No token is lost at the end of data  (partial)
Every complete token of the data is delivered, including one that ends exactly at the end of the data with no delimiter after it.

* How: lexer at the end of input; case analysis by lexer state
* Theorems (Lex_Props.v): `C17_last_token_refuted`, `C17_complete_partial`
* Scope: complete when a boundary follows; a last undelimited token is lost (refuted for all of them)

### C18 White space and comments only separate tokens  (partial)
Inserting white space or comments between tokens changes neither the values nor the order of the tokens delivered.

* How: token positions; induction over a layout (gaps and spellings)
* Theorems (Lex_Props.v): `C18_layout_positions_partial`, `C18_layout_values`, `C18_position_after_hex_refuted`, `C18_gaps_irrelevant`, `C18_nul_refuted`
* Scope: layout theorem: any gaps of white space and comments; NUL refuted; position of >> right after a hex string refuted

### C19 Names and keywords are interned  (proved)
Interning the same name twice, with any interning in between, returns the identical object, different names never share an object, and previously returned objects keep their name.

* How: histories of intern calls as lists, objects as creation numbers; invariant on the table
* Theorems (Content_Props.v): `C19_identity`, `C19_names_kept`
* Scope: every history of intern calls; object identity is a creation number

### C20 A stream object carries exactly its declared bytes  (partial)
For every payload (including one containing 'endstream' or 'endobj') declared with the right Length, parsing the stream object yields that payload byte for byte.

* How: do_keyword for stream/endstream with the line reader and seeks; file as before ++ stream ++ rest; position arithmetic
* Theorems (Stack_Props.v): `C20_exact_length`, `C20_fallback_data_partial`, `C20_fallback_extra_newline_refuted`, `C20_fallback_truncated_refuted`, `C20_negative_length_loops_refuted`
* Scope: exact for every payload when the Length is used (fallback off); with fallback (the default for unencrypted documents) the data up to the first endstream including the newline before it: proved, and exactness refuted with witnesses

### C21 Inline image data is extracted exactly  (partial)
For every inline image payload that does not contain the end marker, the bytes between 'ID ' and the end marker EI are returned exactly and parsing resumes after it, whatever the chunking.

* How: the search for EI as a state machine; payloads characterised; induction
* Theorems (Content_Props.v): `C21_get_inline_data`, `C21_no_marker`, `C21_inline_image_partial`, `C21_payload_ending_in_E_refuted`, `C21_payload_ending_in_EI_refuted`, `C21_payload_ending_in_newline_refuted`
* Scope: any payload without the marker, under conditions on its last bytes; the conditions are necessary (three refutations)

### C22 Splitting a page's content into several streams is transparent  (partial)
A page whose content is given as several streams yields the tokens of the streams one after the other: no token is glued across a boundary, none is lost.

* How: content parser over several streams against the lexer on the concatenation; simulation
* Theorems (Content_Props.v): `C22_concatenation_partial`, `C22_any_split`, `C22_glued_refuted`, `C22_glued_comment_refuted`, `C22_last_token_lost_refuted`
* Scope: proved when every token is finished inside its stream; gluing and loss of the last token refuted

### C23 The newest revision of an object wins  (partial)
Looking up an object returns the entry of the first cross-reference section, in most-recent-first order, that has a parsable entry for it, falling back to older ones only if the newer entry cannot be read; an id in no section raises not-found.

* How: getobj over an arbitrary list of sections with arbitrary outcomes of parsing; `Newest` as specification; induction over the sections
* Theorems (Doc_Props.v): `C23_newest_wins_partial`, `C23_absent`, `C23_fuel`, `C23_zero`, `C23_freed_object_refuted`, `C23_freed_object_general_refuted`, `C23_syntax_error_not_skipped_refuted`, `C23_offset_before_header_refuted`
* Scope: exact characterisation for every document: first readable entry in section order, else not-found; freed objects reappearing, PSSyntaxError not skipped and the broken offset recovery are refuted with witnesses

### C24 Cross-reference streams are decoded per specification  (partial)
For every cross-reference stream with any field widths and any Index subsections, looking up an object id gives the entry written for it (free, offset, or object-stream member) and the listed object ids are exactly the in-use ones.

* How: nunpack and index arithmetic of cross-reference streams; written entries in the specification; induction over subsections
* Theorems (XRef_Props.v): `C24_get_pos_partial`, `C24_objids_partial`, `C24_objids_two_subsections_refuted`, `C24_width5_refuted`, `C24_wide_general_refuted`
* Scope: lookup exact for widths 0,1,2,3,4,8 and any Index; listing exact for one subsection; widths 5-7 and several subsections refuted

### C25 Object caching is transparent  (proved)
Any sequence of object lookups returns, with caching, what it returns without.

* How: getobj with caches as state; simulation invariant between cached and uncached runs over every history
* Theorems (Doc_Props.v): `C25_caching`, `C25_repeat`
* Scope: every history of lookups on every document; returned objects are values (mutation by the caller not modelled)

### C26 Object-stream members are found by index  (proved)
In an object stream holding n objects preceded by n (id, offset) pairs, requesting index i returns the i-th object for every i < n.

* How: object streams: header pairs and objects; composition of C16 and the lookup theorem
* Theorems (Doc_Props.v): `C26_members`, `C26_lookup`, `C26_index_out_of_range`
* Scope: any n, i, object contents and layout, and through lookup; objects that are references at top level are outside (see C16)

### C27 Following the cross-reference chain terminates and visits every section  (partial)
Loading the cross-reference chain visits the starting section, its hybrid stream and previous sections in order, and terminates for every chain, including a cyclic one.

* How: read_xref_from over an arbitrary loader; chain as inductive specification; soundness, completeness, measure on positions
* Theorems (Doc_Props.v): `C27_chain_in_order`, `C27_chain_only`, `C27_terminates_partial`, `C27_cycle_refuted`
* Scope: visited list is exactly the chain, in order, for every chain; termination when links point backwards; cyclic chains do not terminate (refuted)

### C28 Pages are the leaves of the page tree, in order, with inherited attributes  (partial)
Iterating the pages yields exactly the leaf pages of the page tree in document order; each page's Resources, MediaBox, CropBox and Rotate is its own or else that of the nearest ancestor that has one, and no other attribute is inherited.

* How: page tree traversal over an object graph, generator as list with outcome; trees as an inductive specification with inheritance; induction on the tree
* Theorems (Page_Props.v): `C28_pages_partial`, `C28_not_inherited`, `C28_fallback`, `C28_direct_kid_refuted`, `C28_indirect_type_refuted`, `C28_no_mediabox_refuted`, `C28_cycle_refuted`, `C28_catalog_refuted`
* Scope: every page tree with at least one page whose leaves have a MediaBox; direct or indirectly typed kids, missing MediaBox, cyclic trees and catalog attributes refuted with witnesses

### C29 Page selection returns the requested pages  (partial)
Requesting page numbers and a maximum count yields, in order, the requested pages only, and never more than the maximum.

* How: selection loop over any page list; comparison with filter/firstn
* Theorems (Page_Props.v): `C29_selection`, `C29_maximum`, `C29_both_partial`, `C29_both_refuted`, `C29_empty_selection_refuted`, `C29_extractable`
* Scope: page numbers alone and maximum alone exact; both together: sound and bounded, but not complete (refuted); empty selection refuted

### C30 Page rotation is normalised  (proved)
The rotation reported for a page is in 0..359 and congruent to the declared one modulo 360.

* How: normalisation of the Rotate entry; arithmetic modulo 360
* Theorems (Page_Props.v): `C30_rotation`, `C30_default`

### C31 Page coordinates start at the origin  (partial)
For each supported rotation the page's coordinate transform maps the media box onto a box with a corner at the origin and the dimensions of the (rotated) media box, preserving distances.

* How: matrix set-up for each rotation; algebra over Qc
* Theorems (Page_Props.v): `C31_rotation_partial`, `C31_onto_origin`, `C31_distance`, `C31_size_refuted`
* Scope: transform exact for all boxes and rotations; reported width and height are not rotated (refuted)

### C32 A document can be iterated repeatedly  (partial)
Every iteration over an interpreted document yields the same complete sequence of pages, whatever was consumed of earlier iterations.

* How: iterator states (position, preloaded list) and interleavings as schedules; invariant over schedules
* Theorems (Page_Props.v): `C32_serial_partial`, `C32_preloaded_partial`, `C32_abandoned_refuted`, `C32_interleaved_refuted`, `C32_error_forgotten_refuted`, `C32_empty`
* Scope: complete serial iterations; every interleaving when preloaded; abandoned, interleaved or failed first iterations truncate (refuted for every document)

### C33 Matrix operations obey affine algebra  (proved)
Composing matrices then applying equals applying one after the other; composition is associative with the identity as unit; translate prepends a translation; the norm of a vector is the difference of the images of its end points.

* How: matrices over Qc; ring
* Theorems (Geom_Props.v): `C33_compose`, `C33_assoc`, `C33_identity`, `C33_translate`, `C33_translate_is_mult`, `C33_norm`
* Scope: exact rationals; floating-point rounding not modelled

### C34 The bounding box of points is the least box containing them  (partial)
For every non-empty list of points, the computed bounding box contains each of them and is contained in every box that does.

* How: min/max folds with the code's initial values; order reasoning
* Theorems (Geom_Props.v): `C34_corners`, `C34_from_points_partial`, `C34_contains`, `C34_large_coordinates_refuted`, `C34_no_points_refuted`
* Scope: least box for every non-empty list with coordinates within 2^31-1; containment always; larger coordinates and the empty list refuted

### C35 Spatial lookup finds exactly the objects overlapping the query  (partial)
After any sequence of additions and removals, find returns exactly the present objects whose box overlaps the query box, each once.

* How: plane as cells; histories of add/extend/remove/find; invariant relating cells and boxes
* Theorems (Geom_Props.v): `C35_find_partial`, `C35_find_outside`, `C35_find_anywhere_partial`, `C35_sound`, `C35_iter`, `C35_zero_width_refuted`, `C35_negative_fraction_refuted`, `C35_outside_refuted`, `C35_readd_refuted`, `C35_iter_twice_refuted`
* Scope: every valid history on every plane in the first quadrant (objects of positive size inside it), and anywhere if no right or upper edge lies strictly between -1 and 0; soundness for every history; zero-width, outside, re-added objects and negative fractions refuted

### C36 Operators take exactly their operands  (proved)
Executing a content operator consumes exactly its declared number of operands from the top of the operand stack, rejects too few operands without effect on the graphics state, and leaves the others untouched; an unknown operator has no effect.

* How: operand popping for every operator; table of arities in the specification; case analysis and induction over programs
* Theorems (Interp_Props.v): `C36_operand_pushed`, `C36_unknown_no_effect`, `C36_exact_operands`, `C36_too_few_rejected`, `C36_program_frame`, `C36_colour_operands`
* Scope: every operator of fixed arity and every program of them; SC/SCN/sc/scn with enough operands (too few are accepted: C36_colour_too_few_accepted); names T_a, f_a, B_a, b_a, _q, _w are accepted as operators, and keywords with bytes over 127 are outside the model

### C37 q/Q save and restore the graphics state  (partial)
For every operator sequence between a q and its matching Q, the CTM, text state and graphics parameters after Q equal those before q.

* How: state stack; balanced programs as an inductive relation; induction
* Theorems (Interp_Props.v): `C37_restored_partial`, `C37_graphics_not_restored`, `C37_position_partial`, `C37_reachable`
* Scope: CTM and text state for every balanced content; position in the line for content with page structure; the graphics parameters are never restored (C37_graphics_not_restored)

### C38 Text positioning operators follow their definitions  (partial)
TD is TL then Td, T* is a Td by the leading, Td moves relative to the start of the current line, Tm replaces text and line matrix.

* How: text line matrix arithmetic; histories by induction
* Theorems (Interp_Props.v): `C38_Tm`, `C38_Td`, `C38_TD_is_TL_Td`, `C38_Tstar_is_Td`, `C38_TL_stored`, `C38_quote`, `C38_dquote_partial`, `C38_line_history`
* Scope: Td TD TL T* Tm ' and every history of them; the double-quote operator does not move to the next line (refuted)

### C39 A path is painted once with all its segments  (partial)
Painting operators emit every segment built since the last painting operator, in order, exactly once, with the right stroke/fill/even-odd flags, and clear the path; n discards it; re equals m l l l h.

* How: path state machine; item geometry via Geom; histories by induction
* Theorems (Interp_Props.v, PathBox_Props.v): `C39_painted_partial`, `C39_item_line`, `C39_item_rect`, `C39_stroke_or_fill_lost`, `C39_item_curve_partial`, `C39_curve_box_not_transformed_refuted`, `C39_curve_leaves_box_refuted`
* Scope: every path history, order, even-odd flag and clearing; skewed rectangles come out as None and stroke/fill is not recorded (both refuted); boxes of lines and rectangles exact; those of other paths are the least around the end points before the matrix is applied (refuted: the matrix is ignored, and curves can leave the box)

### C40 Colour operators set the colour they name  (partial)
RG/G/K set the stroking colour and rg/g/k the non-stroking colour, leaving the other one untouched.

* How: colour state; case analysis over operators
* Theorems (Interp_Props.v): `C40_gray`, `C40_rgb`, `C40_cmyk_stroke_partial`, `C40_k_is_K`, `C40_others_keep_colours`
* Scope: G g RG rg K exact; k sets the stroking colour (refuted); no other operator changes colours

### C41 Text advance follows the text-space formula  (partial)
Showing a string moves the text position by the sum over its characters of (width*size + character spacing + word spacing on spaces)*scaling minus the adjustments, and shows each character at the position reached so far.

* How: showing loop over the characters; positions as a fold in the specification
* Theorems (Interp_Props.v): `C41_show_partial`, `C41_show_exact_without_Tc_partial`, `C41_vertical_partial`, `C41_empty_string_raises`, `C41_Tj_is_TJ`
* Scope: every TJ array and horizontal font: each character's box and the final position, exact but for one character spacing (lost between two showing operators: refuted); exact when Tc is 0; vertical fonts: displacement only, with Th applied; empty strings raise

### C43 Character widths are read per specification  (partial)
For every W array built of 'c [w1..wn]' and 'c1 c2 w' entries, each character gets the width declared last for it and no other character gets one.

* How: width tables of each font kind; lookup by induction over W arrays
* Theorems (Font_Props.v, Font_Witness.v): `C43_widths`, `C43_widths_vertical`, `C43_cid_declared`, `C43_cid_default`, `C43_cid_zero_partial`, `C43_vertical_declared`, `C43_vertical_default`, `C43_simple`, `C43_standard`, `C43_type3_partial`, `C43_zero_refuted`, `C43_default_reference_refuted`, `C43_array_reference_refuted`, `C43_vertical_reference_refuted`, `C43_standard_widths_refuted`, `C43_type3_skew_refuted`
* Scope: W, W2, DW, DW2, Widths, MissingWidth, standard metrics and Type 3 scaling for every font of these kinds; DW 0, references as DW, DW2 or inside W, Widths of fonts with standard names and skewed Type 3 matrices refuted

### C44 Encoding differences override the base encoding only where declared  (partial)
With a Differences array each code gets the name declared last for it, all other codes keep their base meaning, and the base encoding itself is never modified.

* How: Differences walk over the base tables; histories of encodings
* Theorems (CMap_Props.v): `C44_differences_partial`, `C44_base`, `C44_history`, `C44_tables`, `C44_unknown_refuted`, `C44_large_refuted`
* Scope: every Differences array over names with a meaning, every base, every history (base tables never modified); a name without meaning keeps the base character (as coded), a name over U+10FFFF raises ValueError (refuted)

### C45 Multi-byte character codes are segmented uniquely  (proved)
For every prefix-free code map, decoding the concatenation of codes returns their CIDs in order.

* How: cmap tree insertion and walk; prefix-free code sets; induction
* Theorems (CMap_Props.v): `C45_segmentation`, `C45_concatenation`, `C45_order`
* Scope: every prefix-free map, any order of declarations; overlapping codes raise TypeError (example)

### C46 ToUnicode ranges map each code in the range  (partial)
A bfrange from lo to hi with a base value maps every code lo+i to the base with i added to its low bytes; with an array maps it to the i-th entry.

* How: CMap parser over the token stream; sections written in the specification; induction, composed with the lexer theorems
* Theorems (CMap_Props.v): `C46_tounicode_partial`, `C46_range`, `C46_wrap_refuted`, `C46_short_array_refuted`, `C46_name_refuted`
* Scope: every ToUnicode file written of bfchar/bfrange/cidrange sections, any layout and buffering, codes of 1-4 bytes; bases whose low part overflows, arrays shorter than the range and name targets refuted

### C47 Identity maps decode two bytes per CID  (proved)
For every sequence of 16-bit CIDs the identity map decodes their big-endian encoding to that sequence.

* How: identity CMaps by arithmetic on byte pairs
* Theorems (CMap_Props.v): `C47_identity`, `C47_even`, `C47_odd`
* Scope: odd lengths raise struct.error (C47_odd)

### C48 Decryption inverts encryption object by object  (partial)
For every object id, generation and data, data encrypted for that object under the document key (RC4 or AES, as the document's crypt filter says) and decrypted by the document's handler gives the data back; applied to an object, every string in it comes back.

* How: RC4 concrete (key schedule and stream), MD5/AES parameters; involution of RC4; induction over object trees
* Theorems (Sec_Props.v): `C48_rc4`, `C48_objects_partial`, `C48_aes_refuted`
* Scope: RC4 (V 1, 2, 4) exact for every key, object and data, and for every string of an object tree; AES leaves the padding on the data (refuted). MD5 and AES are parameters (any 16-byte hash, any inverse pair); RC4 is concrete

### C49 The right password opens the document  (partial)
For a document protected per the standard handler with user password u and owner password o, authenticating with u or with o succeeds and yields the key the document was encrypted with; another password is refused as an incorrect password.

* How: key derivation and verification for R 2-5, MD5/SHA parameters; equations between set-up and verification
* Theorems (Sec_Props.v): `C49_user_partial`, `C49_owner_partial`, `C49_wrong_refuted`, `C49_unsigned_refuted`, `C49_owner5_partial`, `C49_user5_partial`, `C49_wrong5_refuted`
* Scope: revisions 2, 3, 4 and 5, all passwords, keys of 40 to 128 bits, any hash of the right length; a wrong password gives NameError instead of PDFPasswordIncorrect and unsigned P raises struct.error (both refuted)

### C50 Permissions are read from the right bits  (proved)
is_printable, is_modifiable, is_extractable equal bits 3, 4 and 5 of the permission flags.

* How: bit tests on two's complement
* Theorems (Sec_Props.v): `C50_permissions`
* Scope: every integer

### C51 CCITT Group 4 decoding inverts encoding  (partial)
For every bilevel image, decoding its Group 4 encoding returns the image.

* How: bit-level decoder machine with the code tree; T.6 coding as an inductive relation; simulation row by row
* Theorems (CCITT_Props.v): `C51_roundtrip_partial`, `C51_roundtrip_aligned`, `C51_t6_coding_exists`, `C51_columns_refuted`, `C51_group3_refuted`
* Scope: Group 4 (K -1) for every width, every image and every coding of it, with or without byte alignment and EOFB; K >= 0 (Group 3) and missing Columns raise (refuted)

### C52 CCITT output has image geometry whatever the input  (proved)
For every input, every emitted line has exactly ceil(width/8) bytes.

* How: invariant on the rows produced
* Theorems (CCITT_Props.v): `C52_geometry`, `C52_zero_width`
* Scope: every data and every positive width; a width of 0 raises IndexError (C52_zero_width)

### C53 JSON output is well-formed and carries the data  (partial)
For every tree of written values the JSON writer's output parses back to that tree.

* How: writer as a state machine over calls (with exceptions); independent JSON reader; induction over call trees
* Theorems (Markup_Props.v): `C53_roundtrip_partial`, `C53_unambiguous`, `C53_place_object`, `C53_integers`, `C53_backslash_refuted`, `C53_backslash_altered_refuted`, `C53_newline_refuted`, `C53_duplicate_refuted`, `C53_number_refuted`
* Scope: Round trip against an independent RFC 8259 reader for every tree of calls, with exceptions at any point (every object and array is closed and what was told before is there); json.dumps values unrestricted. Missing because false: strings with a backslash or control character, repeated keys, None and nan are written wrongly (refuted theorems).

### C54 XML output is well-formed  (partial)
For every nesting of elements the XML writer closes every element it opens, in the right order.

* How: element writer; independent XML reader; induction over trees
* Theorems (Markup_Props.v): `C54_wellformed_partial`, `C54_character_good`, `C54_character_text`, `C54_enc_value`, `C54_attribute_refuted`, `C54_exception_refuted`, `C54_declaration_refuted`, `C54_html_text_refuted`
* Scope: Every element tree with proper names and escaped values reads back, by an independent XML reader, as the same tree with the same attributes and texts. False when the client passes unescaped attribute values (the XML converter does for font descriptors), when an exception leaves an element open, for the XML declaration's version and for HTML text (refuted theorems).

### C55 Text is escaped reversibly in markup  (proved)
Escaping a text for markup output leaves no raw markup character and unescaping gives the text back.

* How: html escaping; independent expander of references
* Theorems (Markup_Props.v): `C55_roundtrip`, `C55_ascii`, `C55_injective`, `C55_character_text`, `C55_bytes_refuted`, `C55_control_refuted`
* Scope: Escaping is reversed by an independent expander of references for every text; no raw markup character remains. Limits: bytes become empty and control characters pass (refuted theorems).

### C57 BMP images are written row by row, aligned and bottom-up  (partial)
For every image the written file has the declared size, rows padded to 32 bits and placed bottom-up, so reading it back gives the rows.

* How: writer of rows into a byte file; independent BMP reader
* Theorems (BMP_Props.v): `C57_rows`, `C57_size_partial`, `C57_size_refuted`, `C57_write_all_partial`, `C57_depth_refuted`, `C57_bad_depth`
* Scope: Any history of line writes reads back row by row through an independent reader of the bitmap format. False: declared size when rows need padding, and depth of 8/24-bit images written by write_all (refuted theorems, for all such images).

### C58 Big-endian unpacking inverts packing  (proved)
For every byte string of a supported length nunpack gives its big-endian value.

* How: unpacking arithmetic
* Theorems (PNG_Props.v): `C58_nunpack`, `C58_default`, `C58_widths`
* Scope: all supported lengths

### C59 Reference resolution reaches the referenced object  (partial)
Resolving follows chains of references to the final non-reference object, returns the default for missing ones, and terminates on every document.

* How: resolve1/resolve_all over any document; reference chains as relation
* Theorems (Stream_Props.v): `C59_resolve1`, `C59_never_a_reference`, `C59_terminates`, `C59_cycle_refuted`, `C59_diverges`, `C59_resolve_all_partial`, `C59_resolve_all_no_refs`, `C59_resolve_all_dict_refuted`
* Scope: resolve1 exactly follows the chain; terminates on acyclic documents, diverges on cycles (refuted); resolve_all for arrays, dictionaries refuted

### C60 Decryption preserves object structure  (proved)
Decrypting an object applies the decipher function to every string in it and changes nothing else.

* How: decipher over object trees; structural induction
* Theorems (Stream_Props.v): `C60_decipher_all`, `C60_inverse`
* Scope: if and only if, at any depth

### C61 Tokenisation terminates on every input  (proved)
Reading tokens from any byte sequence, however it is buffered, ends with end of file or, only because of an octal escape above \377, with struct.error; it never loops.

* How: the tokeniser loop with fuel; a measure (bytes left, chunks left) shows that a fuel bounded by the size of the input always suffices
* Theorems (Lex_Props.v): `C61_tokenizer_total`

### C62 Cross-reference tables are read as written  (proved)
For every cross-reference table with any number of subsections, any end-of-line markers and any buffering, each in-use entry is found at its object number with its offset and generation, and free or uncovered numbers are absent.

* How: table reader over lines; written tables in the specification; induction
* Theorems (XRef_Props.v): `C62_table`, `C62_damaged_subsection_refuted`, `C62_missing_trailer_refuted`
* Scope: every table, chunking and end-of-line; damaged tables raise NameError instead of starting the recovery scan (refuted separately)

### C63 The last startxref is found  (partial)
Opening a file uses the number on the line after the last startxref line, whatever precedes or follows it and however the file is read; without one it reports no valid cross-reference.

* How: backward lines composed with the search
* Theorems (Doc_Props.v): `C63_startxref_partial`, `C63_missing`, `C63_no_number_refuted`, `C63_bad_number_refuted`
* Scope: every file and buffer size; bad or missing numbers escape as ValueError/TypeError (refuted)

### C64 Every object of a well-formed file can be looked up  (partial)
In every file made of any number of revisions, each with objects, a cross-reference table, a trailer and startxref, opening it and looking up any object number returns the object written where the newest revision says, with or without caching.

* How: composition of C62, C63, C27, C16, C23
* Theorems (Doc_Props.v): `C64_sections`, `C64_object_partial`, `C64_stream_partial`, `C64_absent`
* Scope: any number of revisions with tables (cross-reference streams: C88), plain and stream objects, any layout, with and without caching; freed objects reappear (refuted)

### C65 ignore_bad_chars suppresses undefined characters  (partial)
With ignore_bad_chars set, no content stream makes page interpretation fail because a character has no Unicode value; such characters are shown as empty texts. Without it the first one raises.

* How: interpreter run with the flag as parameter; invariant over histories
* Theorems (Forms_Props.v): `C65_page_partial`, `C65_reported`
* Scope: page content, for every operator history; forms always report (refuted)

### C66 A form is drawn in isolation  (proved)
Do on a form XObject produces one item containing the items of the form's content, run with the page's graphics parameters and transformation matrix in an otherwise fresh state, and the page continues in exactly the state it had.

* How: Do as a nested run; state comparison
* Theorems (Forms_Props.v): `C66_form_isolated`, `C66_form_start`
* Scope: statement covers the state seen by the form and by the page afterwards; the form's Matrix is not applied to its content and BBox is read as x y w h (noted as deviations from the PDF Reference)

### C67 Glyph names give their characters  (partial)
A glyph name found in the glyph list, or of the form uniXXXX, or ending in a decimal number, gives the corresponding text, and every other name is rejected.

* How: name2unicode over any glyph list
* Theorems (CMap_Props.v): `C67_meaning_partial`, `C67_meaningless`, `C67_uni_refuted`, `C67_uni_hex_refuted`, `C67_large_refuted`
* Scope: glyph list, numeric suffixes and rejection for every name; uniXXXX reads the digits as decimal (refuted) and large numbers raise ValueError (refuted)

### C70 Built-in encodings of Type 1 fonts are recovered  (partial)
From every Type 1 font header, 'dup code /name put' sequences give each code the character of the name declared last for it, however the header is laid out and buffered.

* How: Type 1 header parser over tokens; induction over puts
* Theorems (CMap_Props.v): `C70_header_partial`, `C70_standard_refuted`
* Scope: every header of dup/put sequences in any layout and buffering; StandardEncoding headers give the empty encoding (refuted)

### C68 Characters come from ToUnicode, then the encoding  (partial)
For every font the character of a code is the one its ToUnicode stream assigns to it; without one, the one given by the font's encoding (Differences over the base); otherwise it is undefined.

* How: composition of encodings, ToUnicode and widths per font kind
* Theorems (Font_Props.v): `C68_simple_partial`, `C68_cid_partial`
* Scope: simple fonts (ToUnicode, Differences, base) and CID fonts with ToUnicode; encodings read from the font program are covered by C70; exotic Differences names as in C44

### C69 The font cache is transparent  (proved)
Whatever fonts were requested before, a request for a font gives the font that would be built afresh from its dictionary.

* How: font cache as state over histories
* Theorems (Font_Props.v): `C69_cache`
* Scope: every history, every document

### C71 Composite fonts take Encoding and ToUnicode from the Type0 font  (partial)
A Type0 font behaves as its first descendant with the Encoding and ToUnicode entries of the Type0 font, and decodes strings with the CMap its Encoding names.

* How: composite font set-up from the CMap and descendant; composition with C45
* Theorems (Font_Props.v): `C71_composite_partial`, `C71_decode`, `C71_unknown_refuted`, `C71_embedded_refuted`
* Scope: merge and decoding for every font; embedded CMap streams and unknown CMap names refuted

### C72 The text file holds the characters of the pages  (proved)
For every document, also one that ends with an exception, the text output is UTF-8 and decodes to, for each page, its title line with the page number in decimal, the texts of its characters in order (those of text blocks, and those of forms in the place of the form), and a line end; on an exception it holds everything before it.

* How: text converter as a generator with an outcome; induction over item trees
* Theorems (TextFile_Props.v): `C72_text_file`, `C72_one_text`, `C72_surrogate_refuted`
* Scope: every document and every failure point; a text with a lone surrogate (ToUnicode can produce one) makes the converter fail (C72_surrogate_refuted)

### C73 The text of a page is what its content streams show  (proved)
For every content stream made of well-formed instructions, the characters on the page are, in order, those that the strings of Tj, TJ, ' and double-quote decode to in the font selected at that point (Tf, saved and restored by q and Q) of the page's resources, and those of the forms drawn by Do, recursively with the forms' own resources; no other operator adds, drops or changes text.

* How: composition of the interpreter with C72 over programs
* Theorems (TextFile_Props.v): `C73_content_text`, `C73_page_text`, `C73_text_file`
* Scope: every program whose text operators have their operands directly before them, Do outside text objects, forms nested to any depth, and from there to the bytes of the text file; fonts (decoding and characters) and the content parser are parameters here (C68, C71, C19)

### C74 List helpers do what they say  (partial)
uniq returns the distinct objects at their first occurrences; pick returns the first object of highest score, or the default for an empty list; choplist cuts a list into consecutive groups of n and drops the incomplete rest; csort sorts by key and keeps the order of equal keys.

* How: list helpers; induction
* Theorems (Generic_Props.v): `C74_uniq`, `C74_uniq_set`, `C74_pick`, `C74_pick_empty`, `C74_choplist`, `C74_choplist_zero`, `C74_groups_unique`, `C74_csort_partial`, `C74_csort_duplicates_refuted`
* Scope: uniq, pick, choplist for every list; csort is stable only for lists without repeated objects (with repetitions refuted: C74_csort_duplicates_refuted)

### C75 Operators set exactly the parameters they name  (partial)
After any sequence of operators, the transformation matrix and the text parameters (spacings, scale, leading, rise, mode, font and size) are those given by the latest operators that set them, as saved by q and restored by Q; the general graphics parameters are those of the latest operator that sets them.

* How: a denotational state for nesting of q/Q against the machine; induction
* Theorems (State_Props.v): `C75_state`, `C75_graphics_partial`
* Scope: matrix and all text parameters exact through every nesting of q and Q; general graphics parameters only as set by the latest operator, since Q does not restore them (see C36)

### C76 A document's catalog, information and permissions come from its trailers  (proved)
For every file without encryption the catalog is that of the newest trailer with a Root and the information dictionaries those of the trailers up to it, newest first, through any chain of references, with or without caching; everything is permitted; a file with no Root in any trailer is refused with PDFSyntaxError.

* How: constructor over any list of trailers
* Theorems (Open_Props.v): `C76_plain`, `C76_rootless`, `C76_permissions`
* Scope: every list of trailers and every document without compressed-object restrictions of C25; permissions for every P; the fallback section (PDFXRefFallback) is not part of the list of trailers here

### C77 An encrypted file opens to its plain objects  (partial)
Opening a file protected with RC4 with its user or its owner password gives the catalog, information and permissions that were protected, and in every later history of lookups, with or without caching, every object has its strings, at any depth, and its stream data as they were before encryption.

* How: composition of C64, C25, C48, C49 over histories
* Theorems (ExtractEnc_Props.v, Open_Props.v): `C77_sealed_partial`, `C77_history_partial`, `C77_stream_data`, `C77_stream_dictionary_refuted`, `C77_user`, `C77_owner`
* Scope: V 1 and 2 (RC4), user and owner passwords, every file of revisions with cross-reference tables, every history of lookups. MD5 is any function with 16-byte results. False: strings in stream dictionaries stay encrypted (C77_stream_dictionary_refuted). C77_sealed_partial: also V 4 with RC4 crypt filters, every layout of the file (C88), streams, missing objects. V 5 and AES are refuted at the level of the handler (C48)

### C78 The XML file of a document is well-formed and holds its pages  (partial)
For every document whose iteration ends normally and whose values are characters of XML, the XML output is its declaration and one well-formed element; read by an XML reader it is the tree of the pages and their items, in order and nested as they are, with boxes, colours, font descriptor entries, path segments and the exact text of every character.

* How: converter and writer over every document; independent XML reader and description of the pages
* Theorems (XmlFile_Props.v): `C78_xml_partial`, `C78_exception_refuted`, `C78_descriptor_refuted`
* Scope: every document that ends normally, with descriptor values that need no escaping; refuted for every document that ends with an exception (open elements are never closed) and for descriptor values with <, & or a quote, which are written raw. How numbers, colour values and descriptor values are printed is a parameter; text encoding of the file is not modelled

### C79 The JSON file of a document is one JSON text and holds its pages  (partial)
For every document, also one whose iteration ends with an exception at any point, the JSON output is one JSON text (RFC 8259); its value lists the pages reached and their items, in order and nested as they are, with boxes, colours, font descriptor entries, path segments and texts.

* How: converter and writer with exceptions at any point; independent JSON reader
* Theorems (JsonFile_Props.v): `C79_json_partial`, `C79_empty_refuted`, `C79_backslash_refuted`, `C79_escape_refuted`, `C79_descriptor_refuted`
* Scope: every document and failure point, for texts and descriptor values without backslash and control characters, distinct descriptor keys, colour values that HTML does not escape; refuted for an empty text object (None is written), a backslash in page text (broken or other text), escaped colour names and repeated keys

### C80 Objects are recovered from a file without a cross-reference table  (partial)
A file without startxref can be opened, and every object that begins a line before the first trailer - plain, stream, or packed in an object stream - can be looked up; under each number it is the last one in the file; other numbers are reported as not found; the first trailer is the document's. In a file that has tables, doing the same scan by default changes no object the tables define.

* How: the scan over lines and objects with the parser's position after each object; contents of a file as an inductive relation; induction over it, then lookups by C23/C26 and the appended section by C64
* Theorems (Fallback_Props.v): `C80_scan`, `C80_recovered_partial`, `C80_absent`, `C80_kept`, `C80_unlisted`, `C80_second_part_refuted`, `C80_line_start_refuted`, `C80_truncated_refuted`, `C80_damaged_refuted`, `C80_valid_file_refuted`
* Scope: any number of plain, stream and packed objects between lines without interest, up to a trailer or the end; the data of a stream go to the first endstream, and endobj must be there. For a file with tables: objects that the tables define, in use, and objects they do not list (found by the scan). Refuted: objects after the first trailer or not at the beginning of a line are lost; a file cut off within an object, or with a damaged table, cannot be opened; a valid file with endstream in the data of a stream is misread or cannot be opened by default (it can with fallback=False)

### C81 Named destinations and name trees are looked up completely  (partial)
For every name tree of any depth whose keys are in order, looking up a name that it holds gives the object stored with it, and any other name is reported: KeyError from lookup_name, PDFDestinationNotFound from get_dest, which also finds destinations of the older dictionary.

* How: the recursive lookup with fuel for the depth of the tree; inductive description of name trees; mutual induction over nodes and kids with the order of keys
* Theorems (Names_Props.v): `C81_found_partial`, `C81_absent`, `C81_false_value_refuted`, `C81_dest`, `C81_old_dest`, `C81_dest_absent`, `C81_mixed_refuted`, `C81_root_limits_refuted`, `C81_indirect_limits_refuted`
* Scope: every name tree with keys in order and limits as in ISO 32000-1; objects found must be true in Python. Refuted: objects that are false (0, empty, null) are not found when the tree has kids; with a name tree present a destination of the old dictionary cannot be asked for by its name (TypeError); a root that has limits gives None for other names; indirect limits are a TypeError

### C82 The outline lists its items in order with their levels  (partial)
For every outline, get_outlines yields each item that has a destination or an action once, parents before their children and children before the next item, with its level, its decoded title, its destination, action and structure element, and then ends; without an outline it raises PDFNoOutlines.

* How: nested generators with fuel; inductive description of linked items; mutual induction
* Theorems (Names_Props.v): `C82_outline`, `C82_no_outline`, `C82_ring_refuted`, `C82_title_refuted`
* Scope: every outline, with titles that are text strings; refuted for items linked in a ring (never ends) and a title that is no string (TypeError, what follows is lost)

### C83 Text strings are decoded to the text they stand for  (proved)
decode_text gives, for every text string of PDFDocEncoding (all defined codes) and of UTF-16BE with a byte order mark (all Unicode scalar values), the text it stands for; every text has such a string.

* How: the table and UTF-16 decoding; inductive description of text strings; induction
* Theorems (Names_Props.v): `C83_text`, `C83_every_text`
* Scope: text strings made of bytes; undefined codes are outside of the claim. utf16be decoding with errors='ignore' is the model of CMap_Model

### C84 Well-formed content runs without exceptions and loses no text  (proved)
A page whose resources and content follow the operator summary of the standard - any operators with operands of their kinds, nested q and Q, text objects, fonts of the resources, colour spaces, inline images, images and forms nested to any depth - is interpreted to the end without an exception, and the characters of its items are exactly those its strings show, in order.

* How: the grammar of content as an inductive relation over the objects; an invariant of the interpreter state kept by every operator; induction over the grammar, then over the nesting of forms with bounds for references and fuel
* Theorems (Total_Props.v): `C84_content`, `C84_page`, `C84_page_text`, `C84_ICC_N_refuted`, `C84_CalCMYK_refuted`, `C84_missing_space_refuted`
* Scope: Well-formedness (Total_Spec.v: Shows, Draws) asks for: every shown string has at least one code, and its codes have text unless bad characters are ignored; balanced text objects, no Do inside one; colour spaces of the families whose component number the code knows, N of an ICC profile direct (refuted otherwise: C84_ICC_N_refuted, C84_CalCMYK_refuted, C84_missing_space_refuted; for empty strings C41_empty_string_raises).

### C85 Content streams are read into their operands and operators  (partial)
For every page content written in any way as tokens, over any number of streams cut between tokens and with any number of inline images, the parser delivers exactly its operands (numbers, strings, names, nested arrays and dictionaries), operators and images, in order, and then signals the end; for every read size.

* How: the grammar of operands and operators over tokens and of inline images over bytes as inductive relations; the object parser over the content tokens; induction over the grammar with C21 and C22; for several streams a simulation with a lexer over the concatenated streams, whose positions are those of the streams shifted
* Theorems (Instr_Props.v, Multi_Props.v): `C85_streams_partial`, `C85_inline_images_partial`, `C85_unambiguous`, `C85_cutting`, `C85_null_refuted`, `C85_open_array_refuted`, `C85_page_partial`, `C85_page_unambiguous`
* Scope: C85_page_partial: any number of streams and of inline images (C85_streams_partial and C85_inline_images_partial are its special cases), operands may begin in one stream and end in a later one; tokens must be finished and comments closed within their stream (C22), the data of an image is in the stream of its ID, images as in C21. Refuted: null is not the null object in contents but an operator; an array left open swallows the rest of the page

### C86 Every well-formed font dictionary can be used  (proved)
For every well-formed font dictionary (standard, Type 1, TrueType, Type 3, CID and Type0 fonts, with any ToUnicode CMap, encoding, embedded Type 1 program or predefined or identity CMap), building the font raises no exception, and strings shown in it are cut into codes and the codes given texts exactly as the dictionary declares.

* How: a declarative grammar of font dictionaries (FontReads); every lookup is shown to give a fixed value for all sufficiently large depths, and the values are composed through the constructors of the fonts, with C43-C46 and C70; Type0 by induction over the nesting
* Theorems (FontTotal_Props.v): `C86_font`, `C86_resource`
* Scope: well-formed: entries that are looked at have references that end; Encoding, ToUnicode, W/W2, DW2 and CIDSystemInfo as in C43, C44, C46, C68, C70, C71, whose refuted cases (indirect DW2, embedded CMaps, odd bfranges, ...) are outside

### C87 Converting a file to text gives the text the file shows  (partial)
For every PDF file whose pages are well formed, convert to text writes, in UTF-8, for each chosen page in order its title and exactly the characters its strings show, and raises no exception: from the bytes of the file over its cross-reference tables (or the objects found without them), page tree with inheritance, fonts, filters and content streams to the bytes of the output; with or without caching and the check for extractability, for every read size.

* How: composition: objects of the file by C80, C64, C25; opening by C76; pages by C28, C29; content by C85 and C08; fonts by C86; interpretation by C84; the file by C72. Lookups give the same object for all sufficiently large bounds, so each step transfers to the document's view
* Theorems (Extract_Cases.v, Extract_Props.v): `C87_blank_page_refuted`, `C87_text_file_partial`, `C87_none_chosen`
* Scope: files without encryption, with cross-reference tables and streams linked in any way (C88; objects they list, also in object streams, or that are found by the scan) or without any (objects found by the scan, also in object streams); at least one page chosen. Encrypted files: C93. Refuted: a page without contents ends the conversion with PSEOF

### C88 Objects of files with cross-reference streams, hybrid files and object streams  (partial)
For every file whose cross-reference sections are tables and cross-reference streams linked by XRefStm and Prev in any way (ISO 32000-1, 7.5.8.4: hybrid files), opening it reads the sections in the order in which they are linked, and looking up an object gives what the first section that has it in use refers to: the object at that offset, or the k-th member of an object stream; an object that no section lists is the last one found in the file, and one neither listed nor found is reported as not found. With fallback=False the data of streams is exactly as long as Length says.

* How: mutual induction over the linked sections (section, what XRefStm refers to, what Prev refers to): each section of the program answers like the section of the file (C24, C25, C62); then the first section in use decides, and members of object streams by C26; the section made by the search comes last (C80)
* Theorems (Sections_Props.v): `C88_sections`, `C88_lookup_exact`, `C88_lookup_partial`, `C88_absent`
* Scope: with fallback=False proved in full; opened as by default, with the additional search through the file, stream data extends to the first endstream, so the objects are stated with that data (C88_lookup_partial). Field widths are those of the code (C24); XRefStm and Prev are direct integers; a file whose links form a cycle is read until RecursionError (C27)

### C89 convert_file writes only the file it says, with the converter of the type  (partial)
convert_file with an output file whose name ends with the type runs exactly the converter of that type, once, with the same input and the same options; with a name that does not end with the type, or another type, ConverterException is raised and no file is touched. Without an output file, the output is the file beside the input with the type as its extension in place of its own; an input without an extension is refused. Converting to text changes no file but the output, and for a document whose pages show certain texts the output holds them. The command line tool hands its options on, counting pages from 1.

* How: the regular expressions and os.path functions of convert_file are modelled on strings and shown by induction to be the relations Beside and EndsWith of the specification; a file system is a function, and the effect of a converter is a change of it; the text case composes C87
* Theorems (Dispatch_Props.v): `C89_dispatch`, `C89_mismatch`, `C89_types`, `C89_default`, `C89_no_extension`, `C89_cli_partial`, `C89_cli_output_refuted`, `C89_cli_several`, `C89_others_kept`, `C89_text_file_partial`, `C89_missing_input`, `C89_input_kept_refuted`
* Scope: the command line tool is proved only without an output file (C89_cli_partial): with one, the file is emptied and TypeError comes out (C89_cli_output_refuted), and the type asked for with -t is ignored. An input whose own name ends with the type is its own default output, and is emptied before it is read (C89_input_kept_refuted); a missing input leaves an empty output (C89_missing_input). The end-to-end theorem is for text (within C87); the other converters are parameters, their outputs are C54, C55, C78, C79. Not modelled: links and relative components in paths, files that cannot be written, other codecs than UTF-8

### C90 The YAML file says what the pages hold  (partial)
The file that convert_to_yaml writes is YAML, and reading it gives the pages in order, each with its number, size and items in order: text blocks with their runs (size, box, colour, shown entries of the font descriptor, text), forms with their children, images, rectangles, lines and curves with their segments, with boxes and colours. If a page cannot be interpreted the exception comes out and the file holds the pages before it and what was found on it.

* How: a reader for block and flow collections of YAML as the specification; the writer's text is related to lines with indentations, and the reader is shown to read back the calls by mutual induction over the calls on objects and arrays, with unbounded nesting; then the calls of the converter are shown to be those of the expected tree
* Theorems (YamlFile_Props.v): `C90_yaml_partial`, `C90_injection_refuted`, `C90_colon_refuted`, `C90_text_refuted`, `C90_descriptor_refuted`, `C90_nested_first_refuted`
* Scope: texts, image names, colour values and descriptor entries that are plain scalars on one line (plainb), descriptor entries with other names than the members; an empty collection is read as null. Refuted beyond this, as nothing is quoted or escaped: a line end in the text of a page adds keys to the document (C90_injection_refuted), a colon, dash, bracket or quote makes the file unreadable (C90_colon_refuted) or changes the text (C90_text_refuted), an entry named text of a font descriptor replaces the text (C90_descriptor_refuted). Scalars are read as strings; the reader covers the part of YAML named in Yaml_Spec; the codec is not modelled; values of descriptors that are lists are outside

### C91 The HTML file shows what the pages hold  (partial)
The file that convert_to_html writes is one well-formed element with the pages in order, each with its number, size and items in order: a text block as one element for each run (position, size, colour, font) with one element for each character, a form with its children inside, an image by its file name, a curve as a drawing whose path has the move, line, curve and close segments in order. The drawing of a curve is placed at the box of the curve, and every point of the curve is shown where it is on the page.

* How: the calls of the converter are related to the expected tree by induction over the items, then the theorem on the writer (C54) gives the document; the placement is algebra on rationals for every box and point: the scaled point, mapped back by the view box to the rectangle of the curve, is the point of the page
* Theorems (Html_Props.v): `C91_placement`, `C91_inside`, `C91_html_partial`, `C91_exception_refuted`, `C91_curves_refuted`, `C91_text_refuted`, `C91_narrow_refuted`, `C91_vertical_refuted`
* Scope: texts without the characters of markup, clean attribute values (no quote, <, & or line end), a value for colours of one component, curves with an extent. C91_placement: boxes at least 1/100 wide with a height, or flat ones; C91_inside: the points of every box with an extent are within the drawing. Refuted beyond this: text is not escaped, so it makes elements of its own or a file that is no document (C91_text_refuted); a curve without extent raises ZeroDivisionError and, as after any exception, the file has no end (C91_exception_refuted); the segments of v and y are not drawn (C91_curves_refuted); narrow curves are squeezed (C91_narrow_refuted) and vertical lines have a coordinate system of no width (C91_vertical_refuted). Text of numbers, fonts' names and image names are parameters; the codec is not modelled

### C92 Distances between layout components are distances  (partial)
Of two layout components with boxes, is_hoverlap and is_voverlap hold exactly if the extents have a point in common, hdistance and vdistance are the least distances of points of the two extents, hoverlap and voverlap are the lengths of the common extents, is_empty holds exactly if the box has no area, and all are symmetric. vecBetweenBoxes is the vector of the two distances if the boxes have no area in common, and otherwise the vector from centre to centre.

* How: both directions are one statement on intervals; the distance is characterised as a lower bound that is attained, and the cases of minima and absolute values are closed by linear arithmetic on rationals
* Theorems (Layout_Props.v): `C92_overlap`, `C92_distance`, `C92_symmetric`, `C92_common_partial`, `C92_inside_refuted`, `C92_empty`, `C92_vector`
* Scope: distances, overlap tests, is_empty, symmetry and vecBetweenBoxes are proved for all proper boxes; hoverlap and voverlap only when neither extent is strictly inside the other, and refuted otherwise (C92_inside_refuted: the result is larger than the inner width). Rounding is not modelled

### C93 The text of an encrypted file is extracted with its passwords, and only if allowed  (partial)
For every file that is a document whose pages show certain texts, encrypted with RC4 by the standard security handler: given the user or the owner password, converting the file to text gives exactly the output of C87, if its permissions allow extraction or they are not checked; if they are checked and do not allow it, nothing is written and PDFTextExtractionNotAllowed is raised; with any other password nothing is written and an exception is raised.

* How: as C87, with the objects of the file encrypted one by one: each object looked up is the deciphered one (C48, C77) for every state of the cache, except the encryption dictionary, about which nothing is assumed; the handler is the one of C49, for V 4 with the method of its crypt filter
* Theorems (ExtractEnc_Denied.v, ExtractEnc_Props.v): `C93_owner_denied_refuted`, `C93_user_partial`, `C93_owner_partial`, `C93_denied`, `C93_wrong_password_refuted`
* Scope: RC4 only (AES leaves the padding and V 5 is refuted: C50, C51); objects that stand by themselves in the file, not in object streams; no strings that matter in the dictionaries of streams (refuted, C77). MD5 is a parameter with results of 16 bytes. Refuted: a wrong password raises NameError instead of PDFPasswordIncorrect (C93_wrong_password_refuted); the owner is refused what the permissions do not give to users (C93_owner_denied_refuted)

### C94 Characters are placed where the page says  (partial)
For every document whose pages show text in horizontal fonts with the operators for the text state, text lines, showing text, saving and transforming: interpreting the file gives, for each chosen page in order, the size of its media box, and for each text object, string by string, exactly the characters the content shows, each with the box its glyph occupies: font size, horizontal scaling, rise, widths, word spaces, adjustments, line matrix, current transformation, and the rotation and origin of the page all applied as the PDF Reference says.

* How: an inductive relation Places follows the text state, line matrix, transformations and saved states through the tokens of a content and says the box of each glyph; an invariant relates it to the state of the interpreter, and induction over Places with C41 for single strings gives the items; fonts with equal measures place alike, so C96 provides the fonts of the file, and C87's composition provides the file
* Theorems (PlaceFile_Props.v, Place_Props.v): `C94_file_partial`, `C94_run`
* Scope: Horizontal fonts, strings of at least one character, and a character space of 0 (with another one the boxes are refuted, C41); not the operator " (refuted, C38), and of nested forms only that they are read (C84), not where their characters stand. C94_run is the theorem on contents, C94_file_partial the one on files (encrypted ones: C108), which also gives the texts; C94_hypotheses is a file of two pages

### C95 The boxes of text enclose their characters and nothing more  (proved)
In the items of every page, also in nested forms: every string of a text object has at least one character, boxes with ordered sides, and as its box the smallest box around its characters; a text object has the smallest box around its strings, and none if it has no string.

* How: an invariant of the open text object, kept by every operator; induction over the content, then over the nesting of forms
* Theorems (Boxes_Props.v, Whole_Props.v): `C95_text_boxes`, `C95_page`, `C95_file`
* Scope: C95_text_boxes for any state without an open text object, C95_page for any page whose resources can be read, C95_file for any file whatever its bytes

### C96 The widths and heights of fonts are those of their dictionaries  (proved)
For every font object of the described class: the advance width of each code is the one Widths gives from FirstChar on, or MissingWidth (for a standard font, the width of the character in its metrics; for a CID font, the last entry of W, or DW), in thousandths, or scaled by FontMatrix for Type 3; the line starts at Descent and is as tall as FontBBox, or as Ascent above Descent if the box has no height; the font is horizontal, and composite exactly if it is a CID font.

* How: the measures are related to the font dictionary by an inductive relation; the fields of the font made are computed for any dictionary with the same entries, Type0 by induction over the nesting; with C86 for the existence of the font
* Theorems (Measure_Props.v): `C96_measures`
* Scope: For the fonts of C86 (FontReads) with numbers in their places, not vertical, and Type 3 with a FontMatrix that only scales. The height of a Type 3 line is that of its FontBBox

### C97 Composite fonts that only carry an embedded TrueType program  (partial)
A CID font with collection Adobe-Identity or Adobe-UCS, no ToUnicode and an embedded TrueType program should give each glyph the character the program's own character map gives it. It gives no glyph any character, for any program; and no program, however damaged, keeps the font from being read with its widths and codes.

* How: the keys of the table dictionary are shown to be byte strings by induction over the directory, so the lookup of the text key fails; Glyph (TrueType_Spec.v) says by positions in the file which glyph a character has; harmlessness is C86 with the program read and thrown away
* Theorems (TrueType_Props.v): `C97_program_refuted`, `C97_program_harmless`
* Scope: the first half is refuted for every program (C97_program_refuted): the tables are keyed by byte strings and looked up by the text 'cmap', so that the map is never found; what is proved is that the program is harmless (C97_program_harmless). The inversion of the map (create_unicode_map, formats 0, 2, 4) is modelled but never reached.

### C98 Name, slant and weight of fonts  (partial)
The name and the italic angle of every font that is not one of the standard 14 are those of its font descriptor (that of the descendant for a composite font), whatever references are in the way; a numeric FontWeight is its weight, and it is bold exactly if that is above 549; without one it is bold if its name contains the word bold in any case. (That a font which says nothing of its weight, or a standard font, can be asked whether it is bold is refuted.)

* How: the descriptor is related to the dictionary inductively (Weight_Spec.v), the choice of the code computed for any dictionary with the same entries, Type0 by induction; SaysBold is proved equivalent to the search in the lowered name
* Theorems (Weight_Props.v): `C98_style`, `C98_weight`, `C98_bold_name`, `C98_plain_refuted`, `C98_indirect_refuted`, `C98_standard_refuted`
* Scope: is_bold raises TypeError instead of answering for fonts with neither a FontWeight nor bold in the name (C98_plain_refuted), for each of the standard 14, whose weight is a word (C98_standard_refuted), and for a FontWeight given by reference (C98_indirect_refuted). Lower case is modelled for ASCII letters only.

### C99 Saved images hold the data of the image  (partial)
Saving an image writes, under the directory and name given and with the documented ending, the decoded data of the image; the JPEG file itself for a JPEG image; for one bit a bitmap of the size of the image with its rows. This holds for every sequence of saves and requests for the data on one image, and no other file is touched. (Refuted: JPEG images after their data was asked for, or of encrypted documents; bitmaps whose page box is not an integer box of the image's size.)

* How: two states of the stream (raw, decoded) form an invariant of every history; each use keeps it and writes the stated file; the bitmap is C57, the decoded data C07/C08
* Theorems (Image_Props.v): `C99_data`, `C99_absolute`, `C99_jpeg_partial`, `C99_bitmap_partial`, `C99_float_refuted`, `C99_size_refuted`, `C99_jpeg_used_refuted`, `C99_jpeg_encrypted_refuted`
* Scope: C99_data is full for images that are neither JPEG nor of one bit. JPEG: not after get_data (C99_jpeg_used_refuted), not in encrypted documents (C99_jpeg_encrypted_refuted), CMYK left out (done by PIL). One bit: only if the sides of the box are ints equal to the size in pixels (C99_float_refuted, C99_size_refuted). A file name that begins with a slash is the whole path (C99_absolute). open() is taken to succeed.

### C100 The built-in encodings are the standard ones  (partial)
A font whose Encoding names StandardEncoding, MacRomanEncoding, WinAnsiEncoding or PDFDocEncoding (and that has no ToUnicode map) gives each code the character that Annex D of the PDF standard assigns to it, and gives no text to codes without a character.

* How: Latin_Model transcribes LATIN_ENCODING and the glyph list entries it uses; CMap_Model.encodings is the loop that builds the tables. Latin_Spec has the encodings by code, written from Annex D and Python's own codecs. The tables are computed by the kernel and compared code by code; outside 0-255 both are empty, by a lemma about keys. The font theorem composes this with C86.
* Theorems (Latin_Props.v): `C100_tables_partial`, `C100_hyphen_refuted`, `C100_expert_refuted`, `C100_font_partial`
* Scope: Proved for all codes of the four encodings except one, and for fonts: C100_tables_partial, C100_font_partial. False for code 173 of WinAnsiEncoding, which the library reads as a space instead of a hyphen (C100_hyphen_refuted), and MacExpertEncoding is read as StandardEncoding (C100_expert_refuted). The bullet that WinAnsiEncoding gives to its unused codes is not in the specification used here.

### C101 The colours of items are colours  (proved)
Whatever bytes a file has, every colour of an item of a page that is given (the colour of a string shown, stroke and fill of a line, rectangle or curve, at the top of the page or inside forms) has no colour space or a space whose name is one of the eleven families of ISO 32000-1, 8.6.3, and its values are integers or objects that stand in the content of the page or of a form; nothing else can get into the colour attributes of the output.

* How: an invariant (colour spaces in use and in the resources, operands) kept by every operator; induction over the content, then over the nesting of forms, then over the pages of any document
* Theorems (Colour_Props.v, Whole_Props.v): `C101_page_colours`, `C101_file`
* Scope: C101_page_colours for any content and resources, C101_file for any file (colour spaces)

### C102 Converting a file to XML gives the characters the file shows, where it shows them  (partial)
For every PDF file whose chosen pages show given characters at given places (as the PDF specification defines them, from the bytes of the file), convert_file to XML makes one well-formed XML document whose page elements have the number and the size of the pages, in order, and whose text elements hold exactly the characters, each with its text and its box.

* How: C94 gives the pages, C101 the colours, Reads the characters inside forms; together they meet the hypotheses of C78, whose tree is compared with SaysFile (FileXml_Spec.v), which is stated on the characters and boxes alone; FileNest_Props.v the same with C107 in place of C94, by induction on the tree of forms
* Theorems (FileNest_Props.v, FileXml_Props.v): `C102_forms_partial`, `C102_xml_partial`
* Scope: C102_xml_partial, from the bytes of the file to the bytes of the XML document. C102_forms_partial adds the forms, nested as the file nests them, with their characters at their places (for forms without a matrix or with the identity, as C107). Missing: colour values, image names and entries of font descriptors are assumed to be texts XML can hold (C78_descriptor_refuted shows that they need not be); restrictions of C94 (horizontal fonts, no character spacing).

### C103 The lines, rectangles, curves and images of a page stand where the page draws them  (partial)
For every unencrypted file whose chosen pages are well formed (C87) and draw, according to the PDF Reference, a list of painted paths and images (the transformation, the line width, the device colours and the current path followed from operator to operator, images taken from the resources or inline), interpreting the file yields pages whose items other than text and forms are exactly these, in this order: a path of one straight segment is a line item, vertical or horizontal exactly when its ends are, a closed axis-parallel quadrilateral is a rectangle item, any other path a curve item; each carries the path, the fill rule, and the line width and colours set last; and the box of a line, rectangle or image is the smallest box around its points where the page's rotation, media box and transformations put them. Where the page has set no width or colour, the items carry width 0 and no colour components instead of the PDF defaults.

* How: Shape_Spec follows transformation, pen, saved states and current path through the objects of the content and gives what is drawn; ShapeFile_Spec takes them from the pages of a file. Proved by induction over that derivation with an invariant on the interpreter's state (C103_run), the resources (images, device colour spaces) by folding over the resource dictionary, and lifted to files by pages_of_file as in C94.
* Theorems (ShapeFile_Cases.v, ShapeFile_Props.v, Shape_Props.v): `C103_defaults_refuted`, `C103_file_partial`, `C103_run`
* Scope: C103_file_partial for files (C103_run for a content stream in any state). Missing: slanted quadrilaterals, which the code loses (C39), pens changed between q and Q (Q does not restore them, C37), k, sc and scn (C40), the box of general curves (C39), shapes inside forms (encrypted files: C108). C103_defaults_refuted: without w, G and the like the items have width 0 and no colour components.

### C104 CFF DICT data are read as written  (partial)
getdict(data) of the bytes of a DICT (Adobe Technical Note 5176, section 4) is the dictionary that has each operator with its operands: integers in all five encodings, and real numbers from their nibbles.

* How: CFF_Model mirrors getdict and Python's float() on the texts nibbles can give; CFF_Spec says how operands are written; induction over the entries, with a lemma per encoding (two's complement, nibble packing, decimal notation).
* Theorems (CFF_Props.v): `C104_dict_partial`, `C104_integers`, `C104_escape_refuted`
* Scope: Proved for operators of one byte. Two-byte operators (12 k) are misread: C104_escape_refuted shows that for every DICT, 12 k with k <= 21 leaves the entry of operator k empty. Floats are exact rationals.

### C105 CFF INDEX data are read as written  (partial)
Reading an INDEX at any position of a file gives as many objects as were written, each with its bytes, by number and by iteration, and leaves the file after the INDEX.

* How: offsets as prefix sums; induction over the objects.
* Theorems (CFF_Props.v): `C105_index_partial`, `C105_empty_partial`, `C105_empty_refuted`
* Scope: Proved for INDEXes with objects, and for the empty one before a byte 0. An empty INDEX at the end or before other bytes is misread (C105_empty_refuted).

### C106 A CFF font gives its glyphs their names and codes  (partial)
CFFFont(name, fp) has the name, strings, subroutines and charstrings of the font program; gid2name maps each glyph to its name (standard string or string of the font), name2gid goes the other way, code2gid and gid2code are the encoding.

* How: composition of C104 and C105 along the layout of the file, with the charset and encoding loops by induction.
* Theorems (CFF_Props.v): `C106_standard_strings`, `C106_font_partial`, `C106_encoding_refuted`, `C106_ranges_refuted`, `C106_predefined_charset_refuted`, `C106_charset1_refuted`
* Scope: Proved but for the codes: for every encoding of format 0 or 1 the codes are wrong (C106_encoding_refuted, C106_ranges_refuted: index and value are exchanged). Charsets of format 1 give no names (C106_charset1_refuted, first identifier below 256), the predefined one neither (C106_predefined_charset_refuted); format 2 raises AssertionError. The standard strings are checked for number, distinctness and 34 positions. CFFFont is not imported by the rest of the package.

### C107 The characters of a form stand where the page and the forms say  (partial)
For a file and the pages chosen, the items of a page hold one item per form the page draws with Do, in order, nested as the file nests the forms; the item of a form holds the characters of the text objects of its content, each with its text and the box around its glyph, with the positions in the form mapped by the form matrix and by the transformations in force at the place where it is drawn, down to the page.

* How: Nest_Spec: Calls follows q, Q and cm to each Do; Nested describes a content by its own text objects (Places, as in C94) and, recursively to any depth, by its forms. Nest_Props: no other command changes the transformation or adds a form (exec_still, step_still); calls_run gives the forms run, in order, with the matrix of the place; nest_lemma by induction on the depth of nesting, with C94_run for each content; then pages and files as in C94.
* Theorems (Nest_Cases.v, Nest_Props.v): `C107_matrix_refuted`, `C107_inherit_refuted`, `C107_file_partial`
* Scope: C107_file_partial (every form without a matrix, or with the identity; each form sets the text state it uses; horizontal fonts; C108 has the encrypted files). Refuted: the matrix of a form is ignored for its characters (C107_matrix_refuted); a form does not start with the text state of the page (C107_inherit_refuted: it ends with an error where the font is inherited). A concrete file with a form meets the hypotheses (C107_hypotheses).

### C108 The pages of an encrypted file, opened with a password of the file, are those of the document that was encrypted  (partial)
Take a document, encrypt it with RC4 under a user and an owner password, and lay it out in a file in any way. Interpreting the file with either password gives, for the pages chosen, the characters, each with its text and its box, the lines, rectangles, curves and images, and the forms nested in the pages, exactly as the document says them before encryption; and converting it to XML gives a well-formed document that says the same. If the permissions do not allow extraction and they are checked, no page comes out and PDFTextExtractionNotAllowed is raised.

* How: PlaceEnc_Spec: FileSealed says of the chosen pages of an encrypted file whatever can be said of a page of the document; PlaceEnc_Props: pages_of_sealed (C93) gives the pages, read as if not encrypted, and sealed_pages joins it to the theorems on pages of C94, C103 and C107; the XML, JSON, YAML and HTML files as C102, C110, C111 and C112 (PlaceEncFile_Props).
* Theorems (PlaceEncFile_Props.v, PlaceEnc_Props.v): `C108_json_partial`, `C108_xml_forms_partial`, `C108_yaml_partial`, `C108_html_partial`, `C108_characters_partial`, `C108_shapes_partial`, `C108_forms_partial`, `C108_xml_partial`, `C108_denied`
* Scope: C108_characters_partial, C108_shapes_partial, C108_forms_partial, C108_xml_partial, C108_xml_forms_partial, C108_json_partial, C108_yaml_partial, C108_html_partial and C108_denied, for the user password and for the owner password. Missing: AES (refuted, C48) and V 5; what C93, C94, C102, C103, C107 and C110 to C112 leave out. MD5 is a parameter with results of 16 bytes.

### C109 Predefined CMaps come from the CMap directories, and the caches do not change the answers  (partial)
CMapDB gives for a name the CMap (or the Unicode map) of the file of that name in the first of its two directories that has it, and raises CMapNotFound if neither has it; no other file is opened. In every history of lookups the answer is the one a first lookup would give; a name that was answered once is answered in the same way ever after, without reading a file.

* How: CMapDB_Model follows the class method by method, with the two caches as a state and the files opened as an output; CMapDB_Spec says what a search in two directories gives. C109_search by cases on the two directories; C109_history by the invariant that what is kept is what the disk gives; C109_kept since caches only grow.
* Theorems (CMapDB_Props.v): `C109_search`, `C109_history`, `C109_kept`, `C109_outside_refuted`, `C109_climb_refuted`, `C109_font`
* Scope: C109_search for names that are one component of a path; C109_history and C109_kept for every name. Refuted: a name is not checked, so that one with a slash in front (C109_outside_refuted) or with .. (C109_climb_refuted) makes the library open and unpickle a file outside of its directories; the name is that of the Encoding of a font. C109_font ties the fonts of Font_Model, which read CMaps without caches, to the cached lookups. gzip and pickle are parameters; type() with odd names is not modelled.

### C110 Converting a file to JSON gives one JSON text with what its pages and forms show  (partial)
Converting a PDF file, not encrypted, to JSON gives one JSON text: an object whose pages are the chosen pages in order, each with its number, its width and height, and its children. Among the children of a page the text blocks are the text objects of the page in order, each with exactly the strings shown, every string as its text in the least box around its characters; and the forms drawn are children in order, which hold in the same way the text objects of the form and the forms it draws, to any depth.

* How: C107 gives the pages with their nested forms, C95 the boxes and C101 the colours of the items; together they meet the hypotheses of C79, whose JSON value is compared with SaysJFile (FileJson_Spec.v), by induction on the tree of forms
* Theorems (FileJson_Props.v): `C110_json_partial`
* Scope: C110_json_partial. Partial as C107 and C79 are: forms without a matrix or with the identity, horizontal fonts, no control character or backslash in the texts (C79_backslash_refuted), no text object without a string (C79_empty_refuted); colour values, image names and entries of font descriptors are assumed to be plain texts. The positions of single characters are not in the JSON file. A concrete file with a form meets the hypotheses (C110_hypotheses).

### C111 Converting a file to YAML gives one YAML document with what its pages and forms show  (partial)
Converting a PDF file, not encrypted, to YAML gives one YAML document: a mapping whose pages are the chosen pages in order, each with its number, its width and height, and its children. Among the children of a page the text blocks are the text objects of the page in order, each with exactly the strings shown, every string as its text in the least box around its characters; and the forms drawn are children in order, which hold in the same way the text objects of the form and the forms it draws, to any depth. This holds when every string shown is a plain scalar of YAML.

* How: C107 gives the pages with their nested forms, C95 the boxes and C101 the colours of the items; together they meet the hypotheses of C90, whose YAML value is compared with SaysYFile (FileYaml_Spec.v), by induction on the tree of forms
* Theorems (FileYaml_Props.v): `C111_yaml_partial`
* Scope: C111_yaml_partial; for encrypted files C108_yaml_partial. Partial as C107 and C90 are: forms without a matrix or with the identity, horizontal fonts, every string a plain scalar on one line (C90_colon_refuted, C90_text_refuted, C90_injection_refuted), no text object without a string; colour values, image names and entries of font descriptors are assumed to be plain scalars. A concrete file with a form meets the hypotheses (C111_hypotheses).

### C112 Converting a file to HTML gives one document with what its pages and forms show  (partial)
Converting a PDF file, not encrypted, to HTML completes exactly if no item of its pages is a curve without extent or has a colour of one component without a value. Then the file is one HTML element tree whose pages are the chosen pages in order, with number, width and height. In a page the text blocks are the text objects of the page in order, each string in it an element at the lower left corner of the least box around its characters, each character an element with exactly its text and its width; and the forms drawn are elements in order, which hold in the same way the text objects of the form and the forms it draws, to any depth. This holds when the texts have no characters of markup.

* How: C107 gives the pages with their nested forms, C95 the boxes and C101 the colours of the items; calls among which no exception comes out (render_calm) come from drawable items (calm_drawable), which meet the hypotheses of C91; its tree is compared with SaysHFile (FileHtml_Spec.v) by induction on the tree of forms
* Theorems (FileHtml_Props.v): `C112_html_partial`
* Scope: C112_html_partial; for encrypted files C108_html_partial. Partial as C107 and C91 are: forms without a matrix or with the identity, horizontal fonts, no character of markup in the texts (C91_text_refuted); colour values, image names and names of fonts are assumed to be plain. At a curve without extent the file has no end (C91_exception_refuted). A concrete file with a form meets the hypotheses (C112_hypotheses); that the conversion completes is a condition on the items of the pages (C112_drawable has one that meets it and one that does not), not on the content streams.

## 6. Findings

Every `_refuted` theorem, i.e. behaviour of the code that contradicts the property as a user would understand it:

* C02 (ASCIIHex decoding inverts hexadecimal encoding): `C02_asciihex_split_refuted`, `C02_asciihex_eod_refuted`
* C05 (Corrupt LZW data ends the output instead of corrupting it): `C05_lzw_after_eod_refuted`
* C06 (PNG predictor decoding inverts PNG row filtering): `C06_png_average_refuted`, `C06_png_paeth_refuted`, `C06_png_sub_rgb_refuted`, `C06_png_up_rgb_refuted`
* C07 (A stream's filter chain is decoded in order and exactly once): `C07_rawdata_lost_refuted`, `C07_indirect_parms_refuted`, `C07_corrupt_flate_refuted`, `C07_unsupported_filter_refuted`
* C08 (Every declared filter gets its own parameters): `C08_short_parms_refuted`, `C08_indirect_filters_refuted`, `C08_indirect_filter_name_refuted`, `C08_file_specification_refuted`
* C10 (Line reading does not depend on buffering and loses no bytes): `C10_last_line_refuted`
* C12 (Literal strings round-trip): `C12_unknown_escape_refuted`, `C12_octal_overflow_refuted`, `C12_crlf_continuation_refuted`, `C12_raw_eol_refuted`
* C13 (Hexadecimal strings round-trip): `C13_odd_digit_refuted`
* C16 (Nested objects round-trip): `C16_stream_null_refuted`, `C16_stream_toplevel_ref_refuted`
* C17 (No token is lost at the end of data): `C17_last_token_refuted`
* C18 (White space and comments only separate tokens): `C18_position_after_hex_refuted`, `C18_nul_refuted`
* C20 (A stream object carries exactly its declared bytes): `C20_fallback_extra_newline_refuted`, `C20_fallback_truncated_refuted`, `C20_negative_length_loops_refuted`
* C21 (Inline image data is extracted exactly): `C21_payload_ending_in_E_refuted`, `C21_payload_ending_in_EI_refuted`, `C21_payload_ending_in_newline_refuted`
* C22 (Splitting a page's content into several streams is transparent): `C22_glued_refuted`, `C22_glued_comment_refuted`, `C22_last_token_lost_refuted`
* C23 (The newest revision of an object wins): `C23_freed_object_refuted`, `C23_freed_object_general_refuted`, `C23_syntax_error_not_skipped_refuted`, `C23_offset_before_header_refuted`
* C24 (Cross-reference streams are decoded per specification): `C24_objids_two_subsections_refuted`, `C24_width5_refuted`, `C24_wide_general_refuted`
* C27 (Following the cross-reference chain terminates and visits every section): `C27_cycle_refuted`
* C28 (Pages are the leaves of the page tree, in order, with inherited attributes): `C28_direct_kid_refuted`, `C28_indirect_type_refuted`, `C28_no_mediabox_refuted`, `C28_cycle_refuted`, `C28_catalog_refuted`
* C29 (Page selection returns the requested pages): `C29_both_refuted`, `C29_empty_selection_refuted`
* C31 (Page coordinates start at the origin): `C31_size_refuted`
* C32 (A document can be iterated repeatedly): `C32_abandoned_refuted`, `C32_interleaved_refuted`, `C32_error_forgotten_refuted`
* C34 (The bounding box of points is the least box containing them): `C34_large_coordinates_refuted`, `C34_no_points_refuted`
* C35 (Spatial lookup finds exactly the objects overlapping the query): `C35_zero_width_refuted`, `C35_negative_fraction_refuted`, `C35_outside_refuted`, `C35_readd_refuted`, `C35_iter_twice_refuted`
* C37 (q/Q save and restore the graphics state): `C37_graphics_not_restored`
* C39 (A path is painted once with all its segments): `C39_stroke_or_fill_lost`, `C39_curve_box_not_transformed_refuted`, `C39_curve_leaves_box_refuted`
* C40 (Colour operators set the colour they name): `C40_k_is_K`
* C41 (Text advance follows the text-space formula): `C41_empty_string_raises`
* C43 (Character widths are read per specification): `C43_zero_refuted`, `C43_default_reference_refuted`, `C43_array_reference_refuted`, `C43_vertical_reference_refuted`, `C43_standard_widths_refuted`, `C43_type3_skew_refuted`
* C44 (Encoding differences override the base encoding only where declared): `C44_unknown_refuted`, `C44_large_refuted`
* C46 (ToUnicode ranges map each code in the range): `C46_wrap_refuted`, `C46_short_array_refuted`, `C46_name_refuted`
* C48 (Decryption inverts encryption object by object): `C48_aes_refuted`
* C49 (The right password opens the document): `C49_wrong_refuted`, `C49_unsigned_refuted`, `C49_wrong5_refuted`
* C51 (CCITT Group 4 decoding inverts encoding): `C51_columns_refuted`, `C51_group3_refuted`
* C53 (JSON output is well-formed and carries the data): `C53_backslash_refuted`, `C53_backslash_altered_refuted`, `C53_newline_refuted`, `C53_duplicate_refuted`, `C53_number_refuted`
* C54 (XML output is well-formed): `C54_attribute_refuted`, `C54_exception_refuted`, `C54_declaration_refuted`, `C54_html_text_refuted`
* C55 (Text is escaped reversibly in markup): `C55_bytes_refuted`, `C55_control_refuted`
* C57 (BMP images are written row by row, aligned and bottom-up): `C57_size_refuted`, `C57_depth_refuted`
* C59 (Reference resolution reaches the referenced object): `C59_cycle_refuted`, `C59_diverges`, `C59_resolve_all_dict_refuted`
* C62 (Cross-reference tables are read as written): `C62_damaged_subsection_refuted`, `C62_missing_trailer_refuted`
* C63 (The last startxref is found): `C63_no_number_refuted`, `C63_bad_number_refuted`
* C67 (Glyph names give their characters): `C67_uni_refuted`, `C67_uni_hex_refuted`, `C67_large_refuted`
* C70 (Built-in encodings of Type 1 fonts are recovered): `C70_standard_refuted`
* C71 (Composite fonts take Encoding and ToUnicode from the Type0 font): `C71_unknown_refuted`, `C71_embedded_refuted`
* C72 (The text file holds the characters of the pages): `C72_surrogate_refuted`
* C74 (List helpers do what they say): `C74_csort_duplicates_refuted`
* C77 (An encrypted file opens to its plain objects): `C77_stream_dictionary_refuted`
* C78 (The XML file of a document is well-formed and holds its pages): `C78_exception_refuted`, `C78_descriptor_refuted`
* C79 (The JSON file of a document is one JSON text and holds its pages): `C79_empty_refuted`, `C79_backslash_refuted`, `C79_escape_refuted`, `C79_descriptor_refuted`
* C80 (Objects are recovered from a file without a cross-reference table): `C80_second_part_refuted`, `C80_line_start_refuted`, `C80_truncated_refuted`, `C80_damaged_refuted`, `C80_valid_file_refuted`
* C81 (Named destinations and name trees are looked up completely): `C81_false_value_refuted`, `C81_mixed_refuted`, `C81_root_limits_refuted`, `C81_indirect_limits_refuted`
* C82 (The outline lists its items in order with their levels): `C82_ring_refuted`, `C82_title_refuted`
* C84 (Well-formed content runs without exceptions and loses no text): `C84_ICC_N_refuted`, `C84_CalCMYK_refuted`, `C84_missing_space_refuted`
* C85 (Content streams are read into their operands and operators): `C85_null_refuted`, `C85_open_array_refuted`
* C87 (Converting a file to text gives the text the file shows): `C87_blank_page_refuted`
* C89 (convert_file writes only the file it says, with the converter of the type): `C89_cli_output_refuted`, `C89_input_kept_refuted`
* C90 (The YAML file says what the pages hold): `C90_injection_refuted`, `C90_colon_refuted`, `C90_text_refuted`, `C90_descriptor_refuted`, `C90_nested_first_refuted`
* C91 (The HTML file shows what the pages hold): `C91_exception_refuted`, `C91_curves_refuted`, `C91_text_refuted`, `C91_narrow_refuted`, `C91_vertical_refuted`
* C92 (Distances between layout components are distances): `C92_inside_refuted`
* C93 (The text of an encrypted file is extracted with its passwords, and only if allowed): `C93_owner_denied_refuted`, `C93_wrong_password_refuted`
* C97 (Composite fonts that only carry an embedded TrueType program): `C97_program_refuted`
* C98 (Name, slant and weight of fonts): `C98_plain_refuted`, `C98_indirect_refuted`, `C98_standard_refuted`
* C99 (Saved images hold the data of the image): `C99_float_refuted`, `C99_size_refuted`, `C99_jpeg_used_refuted`, `C99_jpeg_encrypted_refuted`
* C100 (The built-in encodings are the standard ones): `C100_hyphen_refuted`, `C100_expert_refuted`
* C103 (The lines, rectangles, curves and images of a page stand where the page draws them): `C103_defaults_refuted`
* C104 (CFF DICT data are read as written): `C104_escape_refuted`
* C105 (CFF INDEX data are read as written): `C105_empty_refuted`
* C106 (A CFF font gives its glyphs their names and codes): `C106_encoding_refuted`, `C106_ranges_refuted`, `C106_predefined_charset_refuted`, `C106_charset1_refuted`
* C107 (The characters of a form stand where the page and the forms say): `C107_matrix_refuted`, `C107_inherit_refuted`
* C109 (Predefined CMaps come from the CMap directories, and the caches do not change the answers): `C109_outside_refuted`, `C109_climb_refuted`
