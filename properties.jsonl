{"id": "C01", "title": "32-bit container build/read round trip", "statement": "Building a container (Container format) at offset 0 from a non-empty folder of files and reading the result back yields exactly the same file names, in sorted order, with exactly the same bytes and the creation/modification stamps that were written, no matter how many files there are (including tables of contents spanning several blocks) or how large each one is.", "quantifier": "every non-empty finite set of files with distinct names made of Unicode scalar values (no NUL, no leading byte order mark), any contents, as long as the container stays below 2^31-1 bytes", "why_tests_cant": "the number of files, the block chaining of the table of contents and the content bytes (which may contain end markers, fake block headers, etc.) range over an infinite set", "anchors": ["src/v8unpack/container.py:Container.build", "src/v8unpack/container.py:Container.write_table_off_content", "src/v8unpack/container.py:Container.read_files", "src/v8unpack/container_doc.py:Document.write_block", "src/v8unpack/container_doc.py:Document._read_gen"]}
{"id": "C02", "title": "64-bit container build/read round trip", "statement": "The same round trip holds for the Container64 format (8-byte offsets, 16-digit block headers, 64 KiB index block).", "quantifier": "every non-empty finite set of files as in C01, as long as the container stays below 2^64-1 bytes", "why_tests_cant": "unbounded number and size of files; multi-block tables of contents only appear above 2730 files", "anchors": ["src/v8unpack/container.py:Container64", "src/v8unpack/container.py:Container.build", "src/v8unpack/container.py:Container.read_files"]}
{"id": "C03", "title": "A table of contents entry never splits or merges", "statement": "The table of contents the reader reconstructs is exactly the list of (description offset, data offset) pairs that were written, whatever the offsets are: the separator search that the reader performs over the raw bytes never finds a spurious end marker inside or across entries.", "quantifier": "every list of offset pairs below the end marker, in both formats", "why_tests_cant": "a spurious match depends on particular byte values of offsets in files of gigabyte size", "anchors": ["src/v8unpack/container.py:Container.read_files", "src/v8unpack/container.py:Container.write_table_off_content"]}
{"id": "C04", "title": "Extracting a built single-container file yields exactly one container folder", "statement": "For a file produced by a successful build of one container, extract() finds exactly one container (folder \"0\") and then stops: the size the reader computes for the container is never smaller than the real length of the file, so the scan never resumes inside the container.", "quantifier": "every successful single-container build", "why_tests_cant": "the computed size depends on all block sizes; the scan would misinterpret the tail only for particular size combinations", "anchors": ["src/v8unpack/container_reader.py:extract", "src/v8unpack/container_reader.py:detect_format", "src/v8unpack/container_doc.py:Document._read_gen", "src/v8unpack/container.py:Container.read_files"]}
{"id": "C05", "title": "Writing more documents never disturbs documents already written", "statement": "Each document written to a container stays readable with identical bytes after any sequence of further writes and after the final table of contents is written in place at the beginning of the file.", "quantifier": "every sequence of documents and every position in it", "why_tests_cant": "it is a frame property over arbitrary histories of writes", "anchors": ["src/v8unpack/container_doc.py:Document.write_block", "src/v8unpack/container.py:Container.write_header", "src/v8unpack/container.py:Container.write_table_off_content"]}
{"id": "C06", "title": "Build does not depend on directory enumeration order", "statement": "The bytes produced by building a folder are the same whatever order the operating system enumerates the folder in.", "quantifier": "every folder content and every permutation of its listing", "why_tests_cant": "a test runs with the one order the local file system happens to give", "anchors": ["src/v8unpack/container.py:Container.build"]}
{"id": "C07", "title": "Block header fields survive, and overflow is silent", "statement": "A block header field (document size, block size, next offset) written by the program and read back by the program is the same number exactly when it fits the fixed-width field; a larger value (4 GiB and more in the 32-bit format) is not rejected: the writer succeeds and the field silently reads back as a different number.", "quantifier": "every non-negative integer, both formats", "why_tests_cant": "needs multi-gigabyte inputs", "anchors": ["src/v8unpack/container.py:Container.int2hex", "src/v8unpack/container.py:Container64.int2hex", "src/v8unpack/container_doc.py:Document.write_block", "src/v8unpack/container_doc.py:Document.read_block"]}
{"id": "C08", "title": "Two-container build and extract", "statement": "Building a folder holding containers \"0\" and \"1\" and extracting the file again yields both containers. (User expectation; the code violates it: the table of contents of the second container is written at an absolute offset inside the first one.)", "quantifier": "every pair of non-empty folders", "why_tests_cant": "requires reasoning about absolute versus relative offsets for every layout", "anchors": ["src/v8unpack/container_writer.py:build", "src/v8unpack/container.py:Container.build", "src/v8unpack/container_doc.py:Document.write_block", "src/v8unpack/container_doc.py:Document.read_block"]}
{"id": "C09", "title": "build() with default arguments", "statement": "build(src_dir, filename) with its default nested=False packs every folder of plain files. (User expectation; the code violates it: with nested=False every non-empty folder raises an error.)", "quantifier": "every non-empty folder of files, any compressor behaviour", "why_tests_cant": "the failure for all inputs is a universal statement", "anchors": ["src/v8unpack/container_writer.py:build", "src/v8unpack/container.py:Container.add_file", "src/v8unpack/container_doc.py:Document.compress"]}
{"id": "C10", "title": "Reader result is bounded by the declared document size", "statement": "Whatever bytes are in the file, a document that the reader returns successfully has at most the declared document size bytes, and the first value is the declared size itself.", "quantifier": "every byte string used as container file and every offset", "why_tests_cant": "adversarial inputs are unbounded", "anchors": ["src/v8unpack/container_doc.py:Document._read_gen", "src/v8unpack/container_doc.py:Document.read_block"]}
{"id": "C11", "title": "Reader termination on arbitrary bytes", "statement": "Reading a document stops on every input in which every block reached carries at least one data byte; conversely there is a 100-byte file on which the reader never stops (a zero-length block pointing to itself).", "quantifier": "every byte string and offset", "why_tests_cant": "non-termination cannot be observed by a test and termination cannot be sampled", "anchors": ["src/v8unpack/container_doc.py:Document._read_gen"]}
{"id": "C12", "title": "Extraction stays inside the destination folder", "statement": "Extracting a container writes only below the destination folder. (User expectation; the code violates it: member names are joined to the path without validation, so \"../x\" escapes.) For member names without path separators, other than \".\" and \"..\", the written path is directly below the destination.", "quantifier": "every member name", "why_tests_cant": "universal over names; adversarial", "anchors": ["src/v8unpack/container.py:Container.extract_file"]}
{"id": "C13", "title": "Whole compress/build/extract/decompress pipeline is the identity on one container of plain files", "statement": "compress_and_build + build(nested=True) followed by extract(deflate=False, recursive=False) + decompress_and_extract gives back exactly the original file names and contents, for any correct deflate/inflate pair, provided no file begins with the 4-byte container signature.", "quantifier": "every folder of files without configinfo and every compressor for which inflating a deflated stream gives the original bytes", "why_tests_cant": "unbounded contents and all compressors", "anchors": ["src/v8unpack/container_writer.py:compress_and_build", "src/v8unpack/container_writer.py:build", "src/v8unpack/container_reader.py:extract", "src/v8unpack/container_reader.py:decompress_and_extract", "src/v8unpack/container_doc.py:Document.compress"]}
{"id": "C14", "title": "A one-level sub-folder survives the pipeline as a nested container", "statement": "In the pipeline of C13 an entry that is itself a folder of plain files comes back as a folder with the same files; and a plain file that merely begins with FF FF FF 7F is taken for a container.", "quantifier": "every one-level folder tree; every file starting with the signature", "why_tests_cant": "unbounded contents", "anchors": ["src/v8unpack/container_writer.py:compress_and_build", "src/v8unpack/container_reader.py:decompress_file_and_extract", "src/v8unpack/container.py:Container.extract_file"]}
{"id": "C15", "title": "Time stamps", "statement": "The stamp stored for a file time is the number of whole 100-microsecond intervals since 0001-01-01, decoding loses less than 100 microseconds, is monotone, and stamps outside the calendar decode to 9999-12-31 23:59:59.", "quantifier": "every time between year 1 and 9999 and every 64-bit stamp", "why_tests_cant": "continuous domain", "anchors": ["src/v8unpack/container_doc.py:epoch2int", "src/v8unpack/container.py:Container.parse_datetime"]}
{"id": "C16", "title": "Brace-file round trip on trees", "statement": "For every canonical tree of lists and scalars, decoding the text that the encoder produces (after the universal-newline translation of a text-mode read) gives back the same tree.", "quantifier": "every canonical tree of any depth and width, with string leaves containing quotes, commas, braces and newlines", "why_tests_cant": "the decoder is a character-level state machine over unbounded nesting", "anchors": ["src/v8unpack/json_container_decoder.py:JsonContainerDecoder.encode_root_object", "src/v8unpack/json_container_decoder.py:JsonContainerDecoder.decode_file", "src/v8unpack/json_container_decoder.py:JsonContainerDecoder.decode_object"]}
{"id": "C17", "title": "Brace-file round trip at byte level", "statement": "brace_file_write followed by brace_file_read through a real file (UTF-8 with byte order mark, newline translation) returns the same tree.", "quantifier": "every canonical tree whose strings are made of Unicode scalar values", "why_tests_cant": "composition of UTF-8, BOM handling, newline translation and the parser over all inputs", "anchors": ["src/v8unpack/helper.py:brace_file_write", "src/v8unpack/helper.py:brace_file_read", "src/v8unpack/json_container_decoder.py:JsonContainerDecoder.write_data"]}
{"id": "C18", "title": "Distinct trees give distinct brace files", "statement": "Two canonical trees with the same encoded text are equal.", "quantifier": "every pair of canonical trees", "why_tests_cant": "pairs of unbounded inputs", "anchors": ["src/v8unpack/json_container_decoder.py:JsonContainerDecoder.encode_root_object"]}
{"id": "C19", "title": "Binary (base64) payloads survive", "statement": "A base64 payload held as the only element of an object comes back unchanged from encode+decode, both in the folded form (lines of 64 characters) and in the single-line form.", "quantifier": "every payload length and content over the base64 alphabet", "why_tests_cant": "line folding depends on length modulo 64", "anchors": ["src/v8unpack/json_container_decoder.py:JsonContainerDecoder.encode_object", "src/v8unpack/json_container_decoder.py:JsonContainerDecoder.decode_b64_line"]}
{"id": "C20", "title": "Long quoted strings", "statement": "A quoted string leaf is written verbatim whatever its length. (User expectation; violated: a string of more than 64 ASCII characters whose base64-alphabet characters happen to form complete quads gets line breaks inserted in the middle and decodes to a different value.) A string with a non-ASCII character, or of at most 64 characters, is always written verbatim.", "quantifier": "every string leaf", "why_tests_cant": "the condition depends on a count modulo 4 over the whole string", "anchors": ["src/v8unpack/json_container_decoder.py:JsonContainerDecoder.encode_object"]}
{"id": "C21", "title": "Truncated brace files are rejected", "statement": "A brace file cut off in the middle is reported as an error. (User expectation; violated for cuts outside strings: the reader returns a shorter tree.) A file that ends inside a quoted string is always rejected.", "quantifier": "every text and cut point", "why_tests_cant": "all cut points of all files", "anchors": ["src/v8unpack/json_container_decoder.py:JsonContainerDecoder.decode_file"]}
{"id": "C22", "title": "Text files given to the brace reader", "statement": "A file whose first non-empty line starts with neither brace is returned as its text from that line on. (User expectation, for which the reader has a text mode; violated: every such file is rejected, because the end-of-file check only accepts the parameter mode.) A file of blank lines gives the empty string.", "quantifier": "every text", "why_tests_cant": "unbounded text", "anchors": ["src/v8unpack/json_container_decoder.py:JsonContainerDecoder._decode_line_read_param", "src/v8unpack/json_container_decoder.py:JsonContainerDecoder._decode_line_read_text_file"]}
{"id": "C23", "title": "Version-suffixed file names", "statement": "Inserting a version number into a file name and removing it again gives the original name; the inserted name differs for different versions; and names without a version are left alone by removal.", "quantifier": "every file name with an extension and every non-zero version", "why_tests_cant": "unbounded strings and integers", "anchors": ["src/v8unpack/helper.py:get_descent_file_name", "src/v8unpack/helper.py:remove_descent_from_filename"]}
{"id": "C24", "title": "Nearest version selection", "statement": "Choosing a file for version v returns the greatest stored positive version not exceeding v, else the unversioned file if present, else nothing; in any listing order.", "quantifier": "every directory listing with positive versions and every positive target version", "why_tests_cant": "all directory contents and orders", "anchors": ["src/v8unpack/helper.py:get_near_descent_file_name"]}
{"id": "C25", "title": "Version history", "statement": "After unpacking content c for version v, packing version v yields c; packing any older version is unaffected; packing a newer version is unaffected if a file of a version in (v, v_new] exists. This holds after any sequence of unpacks.", "quantifier": "every history of unpack operations over positive versions", "why_tests_cant": "histories are unbounded", "anchors": ["src/v8unpack/organizer_file_ce.py:OrganizerFileCE.unpack_get_descent_filename", "src/v8unpack/organizer_file_ce.py:OrganizerFileCE.pack_get_descent_filename", "src/v8unpack/organizer_file.py:OrganizerFile.unpack_file"]}
{"id": "C26", "title": "Source/tool version check", "statement": "check_version accepts exactly when both version strings have three dot-separated parts and their first two parts are equal as integers.", "quantifier": "every pair of strings", "why_tests_cant": "unbounded strings", "anchors": ["src/v8unpack/helper.py:check_version"]}
{"id": "C27", "title": "Index merging", "statement": "Merging index dictionaries keeps every key of every input, the later input winning for scalars, recursing for dictionaries and concatenating lists; merging with an empty dictionary changes nothing.", "quantifier": "every pair of nested dictionaries of compatible shape", "why_tests_cant": "nested unbounded structures", "anchors": ["src/v8unpack/helper.py:update_dict", "src/v8unpack/helper.py:_update_dict", "src/v8unpack/helper.py:check_index"]}
{"id": "C28", "title": "update_index only adds", "statement": "Updating an index from a source folder never changes an existing entry, afterwards every file of the folder is present, and updating twice is the same as updating once.", "quantifier": "every folder tree and every prior index of compatible shape", "why_tests_cant": "all trees and all prior indexes", "anchors": ["src/v8unpack/index.py:update_index"]}
{"id": "C29", "title": "Index lookup and redirection", "statement": "get_dest_path returns the indexed location when the index has one for this path and file, falls back to the \"*\" entry of the folder, and otherwise leaves the path unchanged.", "quantifier": "every index, path and file name", "why_tests_cant": "nested unbounded structures", "anchors": ["src/v8unpack/index.py:get_from_index", "src/v8unpack/index.py:get_dest_path"]}
{"id": "C30", "title": "Code include areas round trip", "statement": "Splitting a module into its include areas and re-assembling it gives back the same text, including the directive that an area header puts on the marked lines of its body. Expected without further conditions; it needs: the areas are well nested, their names resolve to distinct files and are not \"root\", an area whose file is in another folder contains only areas with an underscore in their name, marked lines occur only under a header with that directive, and files of read-only (includr) areas hold what was split off.", "quantifier": "every module text, include table and starting set of files", "why_tests_cant": "arbitrary nesting and text", "anchors": ["src/v8unpack/organizer_code.py:OrganizerCode.unpack", "src/v8unpack/organizer_code.py:OrganizerCode.pack_file", "src/v8unpack/organizer_file.py:OrganizerFile.unpack_code_file"]}
{"id": "C31", "title": "Splitting a module loses no line", "statement": "Every line of a module (without dynamic directives) ends up in exactly one area, in order, when include names are distinct.", "quantifier": "every module text", "why_tests_cant": "arbitrary text", "anchors": ["src/v8unpack/organizer_code.py:OrganizerCode.unpack"]}
{"id": "C32", "title": "Where the file of an include area lies", "statement": "An include name without underscore resolves to <name>.bsl next to the including module (or two levels above the sources in version mode); a name a_b_c resolves to ../a/b/c.bsl; empty components go up one level.", "quantifier": "every include name", "why_tests_cant": "unbounded names", "anchors": ["src/v8unpack/organizer_code.py:OrganizerCode.parse_include_path"]}
{"id": "C33", "title": "Parallel assembly of nested metadata is schedule independent", "statement": "The object tree that encode() assembles equals the bottom-up combination of the source tree, whatever order the worker pool finishes tasks in, for trees of any depth and width.", "quantifier": "every source tree with distinct sibling names and every completion order in each round", "why_tests_cant": "all schedules", "anchors": ["src/v8unpack/decoder.py:Decoder.encode", "src/v8unpack/helper.py:run_in_pool_encode_include", "src/v8unpack/MetaDataObject/__init__.py:MetaDataObject.encode"]}
{"id": "C34", "title": "Object header round trip", "statement": "Decoding an object header (uuid moved to a separate file, prefix stripped, name/locale names/comment extracted) and encoding it again restores the original header for top-level own objects; for borrowed or nested objects the stripped prefix is not restored.", "quantifier": "every header and prefix", "why_tests_cant": "unbounded strings", "anchors": ["src/v8unpack/helper.py:decode_header", "src/v8unpack/helper.py:encode_header"]}
{"id": "C35", "title": "Product comment is idempotent", "statement": "Setting the product version in a comment that already contains one replaces it; setting it twice with the same version equals setting it once.", "quantifier": "every comment and version", "why_tests_cant": "unbounded strings", "anchors": ["src/v8unpack/MetaObject/__init__.py:MetaObject.set_product_comment"]}
{"id": "C36", "title": "Directive commenting round trip", "statement": "Commenting the compiler directives of a module and uncommenting them again gives back the original text, provided the text does not already contain the marker; after commenting, no line but the first starts with a directive (a directive on the first line is left as it is).", "quantifier": "every module text", "why_tests_cant": "unbounded text with overlapping matches", "anchors": ["src/v8unpack/MetaObject/__init__.py:MetaObject.write_raw_code", "src/v8unpack/MetaObject/__init__.py:MetaObject.read_raw_code"]}
{"id": "C37", "title": "Exception wrapping keeps the original message", "statement": "Wrapping an error any number of times without giving a message keeps the message, detail, code and class of the innermost error and every dump entry (later ones win), and the stack lists the actions of the wraps in order, equal neighbours collapsed; a detail given to a wrap without a message is lost.", "quantifier": "every chain of wraps", "why_tests_cant": "chains are unbounded", "anchors": ["src/v8unpack/ext_exception.py:ExtException"]}
{"id": "C38", "title": "Counter-based offsets", "statement": "calc_offset walks exactly over the counted records: for data laid out as counters followed by that many records the returned index is the position after them.", "quantifier": "every layout", "why_tests_cant": "unbounded counters", "anchors": ["src/v8unpack/helper.py:calc_offset"]}
{"id": "C39", "title": "Text written with transient permission errors", "statement": "txt_write and makedirs retry at most three times, succeed if any of the first three attempts succeeds, and fail otherwise.", "quantifier": "every pattern of permission failures", "why_tests_cant": "failure schedules", "anchors": ["src/v8unpack/helper.py:txt_write", "src/v8unpack/helper.py:makedirs"]}
{"id": "C40", "title": "Form code quoting round trip", "statement": "Unpacking a managed form takes its module text out of the form (from the place where forms of that kind keep it) and building puts it back: an unedited form is restored exactly, any edited text comes back exactly, nothing else in the form changes, and a form without such a place is left unchanged.", "quantifier": "every text and every form tree", "why_tests_cant": "unbounded text and nesting", "anchors": ["src/v8unpack/MetaDataObject/Form/FormCore.py:FormCore.getset_form_code", "src/v8unpack/MetaDataObject/Form/FormCore.py:FormCore.encode_data"]}
{"id": "C41", "title": "A failed brace-file write", "statement": "If brace_file_write fails, the previous content of the file is kept. (User expectation; violated: the file is truncated before the data is encoded, so a failure always leaves an empty file.)", "quantifier": "every value that cannot be encoded and every previous content", "why_tests_cant": "all failing values and all previous contents", "anchors": ["src/v8unpack/helper.py:brace_file_write", "src/v8unpack/json_container_decoder.py:JsonContainerDecoder.write_data"]}
{"id": "C42", "title": "Packing a versioned folder", "statement": "Packing a folder for version v copies, for every file of the folder, its nearest version under the name without version. (User expectation; violated when the folder holds a file that first appears in a later version: the whole pack fails instead of leaving the file out.)", "quantifier": "every folder of plain and versioned files with distinguishable names, every version", "why_tests_cant": "all folders and all version sets", "anchors": ["src/v8unpack/organizer_file_ce.py:OrganizerFileCE.list_descent_dir", "src/v8unpack/organizer_file_ce.py:OrganizerFileCE.pack_get_descent_filename", "src/v8unpack/organizer_file.py:OrganizerFile._pack"]}
{"id": "C43", "title": "Version selection applied twice", "statement": "The code modules go through the version selection twice (once when listing, once when packing); selecting again with the selected file name returns the same file.", "quantifier": "every listing in which nothing looks like a version of the selected name", "why_tests_cant": "all listings", "anchors": ["src/v8unpack/helper.py:get_near_descent_file_name", "src/v8unpack/organizer_code.py:OrganizerCode.pack_file"]}
{"id": "C44", "title": "Unpacking one version keeps the others", "statement": "extract in version mode keeps the files of other versions that are already in the source folder. (User expectation, and extract() itself skips clearing the folder in that mode; violated: the inherited organizer clears the destination, so nothing of an older version survives.)", "quantifier": "every folder content, every version, every set of unpacked files", "why_tests_cant": "all folders and histories", "anchors": ["src/v8unpack/organizer_file.py:OrganizerFile.unpack", "src/v8unpack/v8unpack.py:extract"]}
{"id": "C45", "title": "Index file with sub-indexes", "statement": "Loading an index file merges the files named under its index.json key in order and the index file itself last, so an entry of the index file wins over its sub-indexes and a later sub-index over an earlier one; a file without that key is returned as it is; a missing sub-index is an error; a sub-index named by a sub-index is not loaded (its list stays as an ordinary entry).", "quantifier": "every set of index files, names and nesting", "why_tests_cant": "unbounded nesting and number of files", "anchors": ["src/v8unpack/helper.py:check_index", "src/v8unpack/helper.py:load_json", "src/v8unpack/helper.py:update_dict"]}
{"id": "C46", "title": "Index written by update_index is understood by get_dest_path", "statement": "A file newly entered by update_index with destination R is afterwards resolved by get_dest_path to the folder ../R/<folder of the file> (one more .. in version mode) under its own name; with an empty destination it stays where it is.", "quantifier": "every folder tree, prior index, relative destination and file", "why_tests_cant": "unbounded trees; composes two functions", "anchors": ["src/v8unpack/index.py:update_index", "src/v8unpack/index.py:get_dest_path"]}
{"id": "C47", "title": "Splitting fails only on surplus closings", "statement": "Splitting a module into areas succeeds unless, after some line, two more areas have been closed than opened; then it fails with ExtException. One surplus closing and any number of unclosed areas are accepted.", "quantifier": "every module text", "why_tests_cant": "arbitrary text", "anchors": ["src/v8unpack/organizer_code.py:OrganizerCode.unpack"]}
{"id": "C48", "title": "The packed configinfo lists every other stored file with its digest", "statement": "When a container folder has a configinfo text with the versions mark, the packed configinfo is the same text with the mark replaced by {count,\"name\",digest,...} over all other stored files in ascending name order, the digest taken of the stored (compressed) bytes; nothing else of the text changes.", "quantifier": "every folder of files, every configinfo text with one mark, every compressor, digest function and platform line end", "why_tests_cant": "unbounded texts and folders", "anchors": ["src/v8unpack/container_writer.py:calc_sha1", "src/v8unpack/container_writer.py:compress_and_build", "src/v8unpack/json_container_decoder.py:JsonContainerDecoder.encode_root_object"]}
{"id": "C49", "title": "A folder converted to JSON files and back is byte for byte the folder it was", "statement": "Take any folder tree with distinct names in every folder, in which no file name consists of dots only and no folder is named like the converted form (name.json, name.bin, name.c1b64) of a file beside it. If every file either does not start with an opening brace, or is a JSON text in UTF-8, or is a brace file as the program writes it, or is a brace file that holds one big binary payload, then json_decode succeeds whatever the order of its parallel tasks and always leaves the same folder; json_encode of that folder, listed in any order and again with any order of tasks, succeeds and leaves exactly the original tree, same files and same bytes. Brace files (not also JSON) become name.json files whose JSON is their tree, other files are kept untouched as name.bin or name.c1b64. A file that starts with a brace and is neither makes the whole conversion fail.", "quantifier": "all folder trees of any depth and size, all file contents, all orders of the pool tasks, all listing orders, both newline conventions", "why_tests_cant": "Needs every tree shape, every content that is a brace file in one reading and JSON in another or valid in two code pages, and every completion order of the task pool; tests convert a few sample folders.", "anchors": ["src/v8unpack/json_container_decoder.py:json_decode", "src/v8unpack/json_container_decoder.py:json_encode", "src/v8unpack/json_container_decoder.py:JsonContainerDecoder.decode", "src/v8unpack/json_container_decoder.py:JsonContainerDecoder.encode"]}
{"id": "C50", "title": "Brace files in windows-1251 are recognised and read correctly", "statement": "If the text the program writes for a tree, stored in windows-1251, contains somewhere a Russian letter followed by an ASCII character (such as the closing quote of a string), then reading that file returns the tree: the reader notices that it is not UTF-8 and falls back to windows-1251. Bytes that happen to be valid UTF-8 in both readings are read as UTF-8 and give another tree.", "quantifier": "all trees the format can carry, all windows-1251 files that contain a Russian letter before an ASCII character, both newline conventions", "why_tests_cant": "The ambiguity between the two encodings depends on the exact bytes of the whole file; tests read a few sample files.", "anchors": ["src/v8unpack/helper.py:brace_file_read"]}
{"id": "C51", "title": "Modules of an object survive the cycle", "statement": "For every object, every set of modules (files or folders with info and text) whose contents are UTF-8 text with or without a byte order mark, windows-1251 text or bytes that are no text, with the line ends of the platform: extracting the object writes each module to its own source file, and building from these sources yields the same entries with the same bytes, the same list of files, and nothing else. A module in the encrypted form (image instead of text) and line ends of the other platform are not in the class: the first is silently replaced by an empty module, the second are rewritten.", "quantifier": "all object identifiers, module tables with distinct names and suffixes, container folders, module contents, earlier contents of the target folders, platforms, with and without hidden directives", "why_tests_cant": "the contents, the encodings and the combination of absent and present modules range over unbounded sets", "anchors": ["src/v8unpack/MetaObject/__init__.py:read_raw_code", "src/v8unpack/MetaObject/__init__.py:write_raw_code", "src/v8unpack/MetaObject/__init__.py:decode_code", "src/v8unpack/MetaObject/__init__.py:write_decode_code", "src/v8unpack/MetaObject/__init__.py:encode_code", "src/v8unpack/MetaObject/__init__.py:write_encode_code"]}
{"id": "C52", "title": "A build contains exactly the edited modules", "statement": "For every folder of sources, whatever was edited, deleted or added: if the modules of an object build at all, each module recorded in the header contains exactly the text of its source file (empty if the file is missing) in the recorded encoding, binary modules are copied byte for byte, modules without a record leave the container folder as it was; a character that the recorded encoding lacks stops the build instead of being replaced.", "quantifier": "all source folders, headers, module tables, platforms, target folders", "why_tests_cant": "the edits are arbitrary texts in arbitrary encodings", "anchors": ["src/v8unpack/MetaObject/__init__.py:encode_code", "src/v8unpack/MetaObject/__init__.py:write_encode_code", "src/v8unpack/MetaObject/__init__.py:write_raw_code", "src/v8unpack/helper.py:txt_read", "src/v8unpack/helper.py:txt_write"]}
{"id": "C53", "title": "Containers one after another", "statement": "Extracting a file in which several containers follow one another gives every container, each exactly as it would be extracted from a file of its own; the bytes before a container do not influence how it is read.", "quantifier": "every file below 2^63 bytes and every sequence of containers in it", "why_tests_cant": "the number, the sizes and the positions of the containers are unbounded; all offsets inside a container are relative to its start, which a test with one container never exercises", "anchors": ["src/v8unpack/container_reader.py: extract; src/v8unpack/container_doc.py"]}
{"id": "C54", "title": "Help texts", "statement": "The help text of an object (or an HTML template) is written among the sources as a file of its own; building from unchanged sources restores the help file byte for byte (whichever mark precedes the payload, for files above the size limit too), and building from an edited or deleted source gives a help file that differs only in its payload, which holds exactly the new bytes and is extracted again unchanged. Help files without a readable root are the exception: they are lost.", "quantifier": "every help file that is the text of a brace tree (any tree, any payload bytes), every file above the size limit, every edited content, both platforms", "why_tests_cant": "the payload bytes, their length modulo 3, the surrounding tree and the size around the limit are unbounded", "anchors": ["src/v8unpack/MetaObject/__init__.py:_decode_html_data", "src/v8unpack/MetaObject/__init__.py:_encode_html_data", "src/v8unpack/MetaObject/__init__.py:_extract_b64_data"]}
{"id": "C55", "title": "Templates", "statement": "The content of a template of any of the ten types is restored byte for byte by extracting and building; a binary file placed among the sources is built into a template that holds exactly its bytes and is carried unchanged by later cycles. Refuted for comments ending in the words c1b64 or json, and for text templates with foreign line ends or encodings.", "quantifier": "every template type, every content of that type, every comment, both platforms", "why_tests_cant": "contents, comments and names are unbounded; the extension is computed from the free text of a comment, and collides with other source files only for particular words", "anchors": ["src/v8unpack/MetaDataObject/Template.py", "src/v8unpack/helper.py:get_extension_from_comment", "src/v8unpack/MetaObject/__init__.py:_get_b64_string"]}
{"id": "C56", "title": "Pictures and the splash screen", "statement": "A common picture and the splash picture of a configuration are written among the sources with exactly their bytes, restored byte for byte by a build, and replaced by exactly the new bytes when the source file was edited. Refuted for a common picture without a payload, which is lost.", "quantifier": "every picture file that is the text of a brace tree with a payload, every content, every comment, both platforms", "why_tests_cant": "the payload and the tree around it are unbounded", "anchors": ["src/v8unpack/MetaDataObject/CommonPicture.py", "src/v8unpack/MetaObject/Configuration.py:_decode_images", "src/v8unpack/MetaObject/Configuration.py:_encode_images"]}
{"id": "C57", "title": "Files copied as they are", "statement": "Information files, predefined data, XDTO packages and WS reference folders appear among the sources and in the next container with the same content, and nothing else is touched; an absent one stays absent.", "quantifier": "every content, every name, every folder tree", "why_tests_cant": "contents and folders are unbounded", "anchors": ["src/v8unpack/MetaDataObject/core/SimpleWithInfo.py", "src/v8unpack/MetaDataObject/core/Container.py", "src/v8unpack/MetaDataObject/XDTOPackage.py", "src/v8unpack/MetaDataObject/WSReference.py"]}
{"id": "C58", "title": "Whole objects", "statement": "An object of any of the metadata classes is extracted to a folder of its own: its header tree, its modules and every other file the class has. A build from that folder writes the same container files with the same content and no others, lists exactly these files, and gives the parent the same header tree; with a prefix given both times the names in the container are those of the original. Refuted for a picture whose comment ends in the word json, and for two objects whose names differ by the prefix, which get one folder.", "quantifier": "every class of the tool but forms and roots, every header tree, identifier, name, comment, every set of module and payload files that are well formed, both platforms, whatever else stands in the folders", "why_tests_cant": "the combinations of class, header tree, files present, and their contents are unbounded; files of different parts collide only for particular names", "anchors": ["src/v8unpack/MetaDataObject/__init__.py", "src/v8unpack/MetaDataObject/core/Container.py", "src/v8unpack/MetaDataObject/core/Simple.py", "src/v8unpack/MetaDataObject/core/IncludeSimple.py", "src/v8unpack/MetaObject/__init__.py:_decode_info"]}
{"id": "C59", "title": "Lists of included objects are restored", "statement": "Taking the objects out of the list of included objects in the header of an object and building it again from what the sources hold gives the same list: without auto_include identical, in the same order, whatever the order of the sources; with auto_include every type that had an object gets all objects of its type there are, in order of their names, with their number. A listed object without source stops the build, a source that is not listed is left out. (Not restored: with auto_include the first object of a type that had none; all objects of an inner type deleted.)", "quantifier": "every list (any groups, types known or not, objects by identifier or in place), both modes, every set and order of sources, every inner class", "why_tests_cant": "the lists, their order and the objects are unbounded; a lost or exchanged object shows only for particular orders of the folder listing", "anchors": ["src/v8unpack/MetaObject/__init__.py:decode_include", "src/v8unpack/MetaObject/__init__.py:fill_header_include", "src/v8unpack/MetaDataObject/core/IncludeSimple.py"]}
{"id": "C60", "title": "Objects in objects: the whole tree is restored", "statement": "Extracting objects that include objects, to any depth, with the tasks ending in any order, makes one source folder for each object and no others; building from these folders, listed in any order and with the tasks ending in any order, writes exactly the files of all the objects, each with the content it had and each once, and passes to the parent the same list of objects. (Fails: a list that names the object itself is extracted without end; two objects of one type and name in one list stop the extraction.)", "quantifier": "every tree of objects of every class (forms by their own round trip), any depth and width; every schedule of extraction and build, every listing order; both modes of auto_include", "why_tests_cant": "the trees and the schedules are unbounded: a test runs one schedule of one tree", "anchors": ["src/v8unpack/decoder.py:Decoder.decode", "src/v8unpack/decoder.py:Decoder.decode_include", "src/v8unpack/helper.py:run_in_pool", "src/v8unpack/helper.py:run_in_pool_encode_include", "src/v8unpack/MetaObject/__init__.py:encode_includes", "src/v8unpack/MetaDataObject/__init__.py"]}
{"id": "C61", "title": "A configuration is restored", "statement": "Extracting a configuration and building it again from the extracted sources writes every file of the configuration root and of all its objects with the content it had, each once and nothing else besides the file versions, which lists exactly the files written, each with an identifier.", "quantifier": "every configuration of the formats that the program recognises, with any number of metadata groups and objects of every class (forms by their own round trip); every schedule of extraction and build; both modes of auto_include; no option version at the build", "why_tests_cant": "configurations have thousands of objects in arbitrary trees: a test covers the few that are in the repository", "anchors": ["src/v8unpack/decoder.py:Decoder.detect_version", "src/v8unpack/decoder.py:Decoder.decode", "src/v8unpack/decoder.py:Decoder.encode", "src/v8unpack/MetaObject/Configuration.py:Configuration"]}
{"id": "C62", "title": "An external processor or report is restored", "statement": "The same for an external data processor or report of the formats 8.1, 8.2 and 8.3.", "quantifier": "every external processor or report of these formats with any objects; every schedule; both modes of auto_include; a comment with a version mark only when no product version is given", "why_tests_cant": "the trees of objects and the schedules are unbounded", "anchors": ["src/v8unpack/MetaObject/ExternalDataProcessor.py:ExternalDataProcessor", "src/v8unpack/decoder.py:Decoder"]}
{"id": "C63", "title": "An extension is restored", "statement": "The same for a configuration extension built with the product version that extraction recorded; only its file configinfo is written anew, with the same format and copy record and a mark in the place of the versions.", "quantifier": "every extension with any objects; every schedule; both modes of auto_include; product version as recorded, no options version, prefix and product", "why_tests_cant": "the trees of objects and the schedules are unbounded", "anchors": ["src/v8unpack/MetaObject/ConfigurationExtension.py:ConfigurationExtension", "src/v8unpack/decoder.py:Decoder"]}
{"id": "C64", "title": "The build recognises what was extracted", "statement": "The kind of container (configuration, extension, external processor or report) and the format version found at extraction are those that the build takes from the sources.", "quantifier": "every container of a recognised format", "why_tests_cant": "the version is computed from data in several places and in two different files at extraction and at build", "anchors": ["src/v8unpack/decoder.py:Decoder.get_handler_by_version_file", "src/v8unpack/decoder.py:Decoder.get_encoder"]}
{"id": "C65", "title": "Sources of another release are refused", "statement": "A build that succeeds was made from sources whose root records a release of the form 1.2.x, the release of the program up to the second number.", "quantifier": "all sources, all options", "why_tests_cant": "tests try one or two numbers; the check is on a text that may be anything", "anchors": ["src/v8unpack/helper.py:check_version", "src/v8unpack/MetaObject/Configuration.py", "src/v8unpack/MetaObject/ConfigurationExtension.py", "src/v8unpack/MetaObject/ExternalDataProcessor.py"]}
{"id": "C66", "title": "Elements of a managed form come back", "statement": "Extraction of a managed form writes the tree of its elements, one entry per element under its path, and its properties with columns, commands and parameters by name; a build from these sources gives the same form, with every element, number, link and column in its place.", "quantifier": "every managed form of the described layout: any number and nesting of groups, tables, fields, buttons, decorations and additions, any properties, columns, commands and parameters, elements to be shared (include_) and renamed (includr_) or not, with and without a parent object", "why_tests_cant": "the tree is of any depth and every kind of element has its own places counted from variable records; links are removed and put back by name", "anchors": ["src/v8unpack/MetaDataObject/Form/FormElements4/FormElements4.py:FormElements4", "src/v8unpack/MetaDataObject/Form/FormElements4/FormElement.py:FormElement", "src/v8unpack/MetaDataObject/Form/FormElements4/Group.py", "src/v8unpack/MetaDataObject/Form/FormElements4/Table.py"]}
{"id": "C67", "title": "Elements taken from another form are linked to this one", "statement": "A build from sources in which elements were edited, moved or taken from another form makes exactly the form they describe: each shared element is linked to the property, column or command of this form that its source names, each renamed group gets its own name, properties get the type of this object for the parent mark, and all numbers of children, columns and items are the true ones.", "quantifier": "every such set of sources: any tree, any entries, any lists of properties and commands with distinct names", "why_tests_cant": "the result depends on names found in unbounded lists and on paths of any depth", "anchors": ["src/v8unpack/MetaDataObject/Form/FormElements4/FormElement.py:FormElement.encode", "src/v8unpack/MetaDataObject/Form/FormElements4/FormElement.py:FormProps", "src/v8unpack/MetaDataObject/Form/FormElements4/FormElements4.py:FormElements4.encode"]}
{"id": "C68", "title": "A form that could not be taken apart is built as it is", "statement": "If no part of the stored form is marked as kept separately (the extraction gave up on it and put the form back), the build leaves the form unchanged whatever the file of elements holds.", "quantifier": "every stored form with a findable list of elements and no marks; every content of the file of elements", "why_tests_cant": "the file of elements then holds whatever the interrupted extraction left", "anchors": ["src/v8unpack/MetaDataObject/Form/FormElements4/FormElements4.py:FormElements4.encode", "src/v8unpack/MetaDataObject/Form/FormElements4/FormElement.py:FormProps.encode_list"]}
{"id": "C69", "title": "The options of a build change exactly what they name", "statement": "Building the sources of a configuration, an extension or an external processor with the options version, prefix, product version and file name writes the same set of files as without them; every file of every object and of the root has its old content, except the file of the root itself, which is the old one with the named values replaced: the compatibility version, the prefix, the product version, and the text after the mark ver: in the comment, where the options apply to that kind of container.", "quantifier": "For all containers, objects, option values that a brace file can hold, orders of tasks and listings of folders", "why_tests_cant": "The option values are replaced in a tree that is taken apart and put together again around them; tests try one configuration with one value.", "anchors": ["src/v8unpack/MetaDataObject/Configuration.py: set_product_version, encode_object", "src/v8unpack/MetaDataObject/ConfigurationExtension.py: encode_object", "src/v8unpack/MetaObject/__init__.py: set_product_info, set_product_comment"]}
{"id": "C70", "title": "Elements of an ordinary form come back", "statement": "Extraction of an ordinary form (version 26 or 27) writes the tree of its elements, one entry for every page and every element at any depth of panels under its path, the records of every page, and the property each element is linked to; a build from these sources gives the same form, with every panel, page, record, element and property in its place.", "quantifier": "every ordinary form: any number of pages and elements, any nesting of panels, any values around them", "why_tests_cant": "forms nest without bound, page records are shared out by count, and paths depend on names on every level; tests have a few forms", "anchors": ["src/v8unpack/MetaDataObject/Form/FormElements27/Panel.py: decode, decode_pages, decode_elements, encode, encode_pages, encode_elements, add_elem, calc_id", "src/v8unpack/MetaDataObject/Form/FormElements27/FormElement.py: FormElement, FormProps", "src/v8unpack/MetaDataObject/Form/FormElements27/FormElements27.py: decode, encode, create_prop_index_by_elem_id"]}
{"id": "C71", "title": "Edited sources of an ordinary form make the form they describe", "statement": "A build of an ordinary form from sources in which pages and elements were added, removed, moved or edited makes the form they describe: the listed pages with their records, the elements of the tree, both counted, each with the values of its entry, and the properties of the sources.", "quantifier": "all sources that describe a form, however they came about", "why_tests_cant": "any edit of any tree; tests build only what was extracted", "anchors": ["src/v8unpack/MetaDataObject/Form/FormElements27/Panel.py: encode, encode_pages, encode_elements, encode_element", "src/v8unpack/MetaDataObject/Form/FormElements27/FormElements27.py: encode"]}
{"id": "C72", "title": "Whole forms come back", "statement": "A form of any class - managed or ordinary, with its module, elements, properties, commands, parameters and second file, or without files - is extracted to its header file, identifier file, module and file of elements; a build from these files writes the header file, <uuid>.0 and <uuid>.1 byte for byte as they were (a folder <uuid>.0 with the same files), lists exactly these files, and touches nothing else.", "quantifier": "every platform, form class, header tree, form file, element tree, module text and encoding, prefix option, parent, other content of the source and target folders", "why_tests_cant": "The form, its module, its elements and its header are taken apart by four interleaved mechanisms that edit the same nested list; examples cannot show that each undoes the other for every nesting, text and count.", "anchors": ["src/v8unpack/MetaDataObject/Form/FormCore.py:decode_includes", "src/v8unpack/MetaDataObject/Form/FormCore.py:write_encode_object", "src/v8unpack/MetaDataObject/Form/FormCore.py:write_old_encode_object", "src/v8unpack/MetaDataObject/Form/FormCore.py:encode_nested_includes", "src/v8unpack/MetaDataObject/Form/__init__.py:Form", "src/v8unpack/MetaDataObject/__init__.py:encode"]}
{"id": "C73", "title": "An edited form module is built into the form", "statement": "If only the module source of a form is changed (or removed), a build puts exactly that text where the module stood: in the form file of a managed form as a quoted text, in the module file of an ordinary form with its directives hidden and in the encoding the module had; everything else of the form is as it was.", "quantifier": "every form with a place for a module, every module text old and new, every nesting of the form, every platform and encoding", "why_tests_cant": "The edit must be right for every text (quotes, line ends, directives, encodings) and must not disturb the elements, which are stored in the same list.", "anchors": ["src/v8unpack/MetaDataObject/Form/FormCore.py:getset_form_code", "src/v8unpack/MetaDataObject/Form/FormCore.py:encode_data", "src/v8unpack/MetaDataObject/Form/FormCore.py:write_old_encode_object", "src/v8unpack/MetaObject/__init__.py:write_raw_code"]}
{"id": "C74", "title": "Objects with their forms come back", "statement": "Objects of any classes, forms of all 21 classes among them, at any depth of inclusion, are extracted to a source folder each; a build from these folders gives back every one of their container files (header, modules, form files) unchanged, whatever order the parallel tasks end in.", "quantifier": "every set of objects in place (any depth, any classes, forms managed or ordinary), every order in which tasks end, both auto_include modes", "why_tests_cant": "A test has one container and one schedule; the claim is for every tree of objects and every schedule", "anchors": ["src/v8unpack/MetaDataObject/Form/FormCore.py: decode_object, encode_object", "src/v8unpack/decoder.py: decode_include, encode_include", "src/v8unpack/MetaDataObject/*Form.py"]}
{"id": "C75", "title": "Configurations, processors and extensions with forms come back", "statement": "A whole configuration, external processor or report, or extension with forms anywhere in it: extraction and build give the same container files again (but for the list of versions, which is written anew, and the mark in configinfo of extensions).", "quantifier": "every container in place, every schedule of both loops, every option that keeps the root", "why_tests_cant": "No finite set of containers covers all combinations of roots, objects and forms", "anchors": ["src/v8unpack/decoder.py: decode, encode", "src/v8unpack/MetaObject/Configuration.py", "src/v8unpack/MetaObject/ExternalDataProcessor.py", "src/v8unpack/MetaObject/ConfigurationExtension.py"]}
{"id": "C76", "title": "Forms are told the same parent at extraction and at the build", "statement": "The identifier of its parent that a form of a catalog, document or processor is given when it is extracted is the identifier that a build reads in the extracted sources of the parent and gives to the form, although for processors it has been moved to the file of identifiers.", "quantifier": "every catalog, document and data processor in place, every version of the format", "why_tests_cant": "The identifier moves between two files and the header tree; that it is the same must hold for all contents", "anchors": ["src/v8unpack/MetaDataObject/core/Container.py: FormContainer.get_container_uuid", "src/v8unpack/MetaDataObject/__init__.py: encode", "src/v8unpack/MetaDataObject/DataProcessor.py: decode_ids, encode_ids"]}
{"id": "C77", "title": "Areas of a form kept in separate files come back", "statement": "For a form elements file (*.elem.json) whose elements named include_<area> have different area names, none of them \"root\", and no null values in its data: if extraction writes its files, then there is exactly one file for each area and one for the rest of the form, and a build that finds in these files the same elements and data (in any order of the data) restores the document: the same element tree and the same data under the same paths.", "quantifier": "every document, every nesting of elements, pages and areas, every set of files read back", "why_tests_cant": "Elements nest without bound, areas can be on pages of panels inside groups; that every value moved to a file is put back under the very path it was taken from is a fact about all trees", "anchors": ["organizer_form_elem.py:OrganizerFormElem.unpack", "organizer_form_elem.py:OrganizerFormElem.pack"]}
{"id": "C78", "title": "Read-only areas of a form are not written and come back from the file of their owner", "statement": "An element named includr_<area> takes its inner elements from a file that another form owns: extraction of the form writes no file for it; if the file holds what this form would have written as the owner and the area has no pages at its top, the build restores the document.", "quantifier": "every document with any mix of owned and read-only areas", "why_tests_cant": "The same, and the rename between includr_ and include_ in the paths must agree in both directions for every area", "anchors": ["organizer_form_elem.py:OrganizerFormElem._unpack_get_areas", "organizer_form_elem.py:OrganizerFormElem._append_area_data"]}
{"id": "C79", "title": "The files of areas hold the values of the form, and each value is in one place", "statement": "In the form file the inner elements of each area are replaced by a remark, all other elements and fields stay as they are. Every value left in the form file is the value of the form under the same path; every value in an area file is the value of the form under the path of the place of the area followed by its path in the file, which begins with include_<area>; it does not stay in the form file.", "quantifier": "every document with owned areas of different names, every path", "why_tests_cant": "A value moved under a wrong path is seen only in the form that has that path", "anchors": ["organizer_form_elem.py:OrganizerFormElem._pop_area_data"]}
{"id": "C80", "title": "A form without areas is left alone", "statement": "If no element of a form is an area, extraction writes its elements file as it is and no other file, and the build returns it as it is without reading another file.", "quantifier": "every document without areas, any data", "why_tests_cant": "Holds for every tree of elements", "anchors": ["organizer_form_elem.py:OrganizerFormElem.unpack", "organizer_form_elem.py:OrganizerFormElem.pack"]}
{"id": "C81", "title": "A folder of sources is built back from what extraction wrote", "statement": "For a folder of sources of any depth whose modules (*.bsl) and form element files (*.elem.json) can be split (their areas lie in files of their own, outside the sources; read-only areas are on the disk with the right content), in which no two files write one area with different contents: after extraction into a folder and a build from it into another folder, the other folder has exactly the files of the original under the same paths; every module has the same bytes but for a byte order mark at its start, every form elements file is the same document, and every other file has the same bytes; nothing outside that folder changes during the build.", "quantifier": "every folder of sources, every order in which the processes extract and build, every content of the disk before", "why_tests_cant": "Folders nest without bound and areas are shared between files; that no write of one file destroys another, in any schedule, and that the listing of the build finds exactly the original files, is a fact about all folders", "anchors": ["organizer_file.py:OrganizerFile.unpack", "organizer_file.py:OrganizerFile.pack", "organizer_file.py:OrganizerFile._unpack", "organizer_file.py:OrganizerFile._pack", "organizer_code.py:OrganizerCode.unpack", "organizer_code.py:OrganizerCode.pack", "organizer_form_elem.py:OrganizerFormElem.unpack"]}
{"id": "C82", "title": "Extraction into sources does not depend on the order of its processes", "statement": "Under the same conditions on modules and forms, if no two files of the folder write one area with different contents, then after extraction every file holds what extraction of its one source file alone would write, nothing else is left in the folder of sources, nothing else outside it changes, and any other order of the processes gives the same disk.", "quantifier": "every folder, every schedule of the pool, every content of the disk before", "why_tests_cant": "Quantifies over every interleaving of the processes and over every old content of the disk", "anchors": ["organizer_file.py:OrganizerFile.unpack", "helper.py:run_in_pool", "helper.py:clear_dir"]}
{"id": "C83", "title": "A configuration or external processor file is restored from its extracted objects", "statement": "Take the bytes of a file that unpacks to one container holding a configuration or an external processor or report with any number of objects, forms among them. Extraction succeeds and gives one folder per object; a build from the extracted sources without options succeeds, and the file it writes unpacks to a container with the same names, in which every file has the same content except the file versions, which lists exactly the names.", "quantifier": "every file of these kinds, every schedule of both pools, every order in which folders are listed, every file time, every compression that reads back", "why_tests_cant": "Composes three stages over unbounded data; a unit test runs one sample with one compression, one listing order and one schedule", "anchors": ["decoder.py:encode", "decoder.py:decode", "v8unpack.py:extract", "v8unpack.py:build", "container_reader.py:decompress_and_extract", "container_writer.py:compress_and_build"]}
{"id": "C84", "title": "An extension file is restored and signed", "statement": "The same for the file of an extension, built with the product version that extraction stored: the only file with another content is configinfo, which keeps its format and copy record and lists the number of all other files with the name and digest of each in the compressed form in which it stands in the new file.", "quantifier": "every extension file, every schedule, listing order and file time, every digest of 28 base64 characters", "why_tests_cant": "The digests must match the bytes actually stored, for every set of files", "anchors": ["decoder.py:encode", "container_writer.py:ContainerWriter.calc_sha1", "MetaObject/ConfigurationExtension.py:ConfigurationExtension"]}
{"id": "C85", "title": "Of two containers the second is decoded", "statement": "A file of one container is decoded from it; of two containers the second is decoded and the first is kept aside; any other number is refused.", "quantifier": "every number of containers, every order in which the folders are listed", "why_tests_cant": "The order of os.listdir depends on the file system; a test sees one", "anchors": ["decoder.py:decode"]}
{"id": "C86", "title": "Products of a file are done in order", "statement": "With no product code, build_all, extract_all and update_index_all call build, extract or update_index once for every product that is not disabled, in the order of the file, each with its own src, bin, temp, index and options (build_all adds the product name to the options); the first error ends the command. With a code exactly that product is done, even a disabled one; an unknown code is an error before anything is touched. A product that cannot be started ends the command with the earlier ones done and no later one.", "quantifier": "every file of products, every behaviour of the single calls (including errors), every disk", "why_tests_cant": "The number of products and the point of failure are unbounded; a test sees one list", "anchors": ["v8unpack.py:build_all", "v8unpack.py:extract_all", "v8unpack.py:update_index_all"]}
{"id": "C87", "title": "extract leaves no stale files; failures before it starts touch nothing", "statement": "Without inheritance the result of extract does not depend on what the folder of sources and the temporary folder held before. An index that cannot be loaded is reported before anything is touched. (Refuted: a call that ends without an error did its work - with an empty index file nothing happens; an extract that fails leaves the old sources - the folder is emptied before the file is opened.)", "quantifier": "every disk before, every behaviour of the stages, every options without descent", "why_tests_cant": "What was left in a folder by earlier runs is unbounded history", "anchors": ["v8unpack.py:extract", "helper.py:clear_dir", "helper.py:check_index"]}
{"id": "C88", "title": "build touches its output file and temporary folder only", "statement": "Whatever happens, build changes no file except the output file and files in the temporary folder; the old output file survives a build in which collecting the sources, encoding or compressing fails; a temporary folder build made itself is gone after a build that worked. (Refuted for temp_dir empty: the current folder is emptied.)", "quantifier": "every disk, every stages that write into their own folders, every point of failure", "why_tests_cant": "The point of failure and the content of the disk are unbounded", "anchors": ["v8unpack.py:build", "helper.py:clear_dir", "helper.py:get_pool"]}
{"id": "C89", "title": "The command line does what it says", "statement": "-E, -B, -I, -EA, -BA, -IA run the command with the files given; the options passed are exactly those given that are not empty or zero; the exit code is 0 if the command worked and 1 if it did not. (Refuted: --processes has an effect; the other options have an effect with -EA and -BA.)", "quantifier": "every combination of arguments, every behaviour of the commands", "why_tests_cant": "Combinations of options are many; that an option never has an effect is a statement about all runs", "anchors": ["v8unpack.py:main"]}
{"id": "C90", "title": "A file is restored through its sources on the disk, include areas and all", "statement": "Take the bytes of a file that unpacks to one container holding a configuration, an external processor or report, or an extension, with any number of objects, forms among them. Extraction gives the files of the root and a folder for each object; laid out in a folder and split into include areas by the organizer, then assembled from the disk into another folder (whose files the build reads by listing), the build succeeds, and the file it writes unpacks to a container with the same names and contents, except the file versions (for an extension: configinfo), which is made anew.", "quantifier": "every such file, every schedule of both pools and of the processes that split and assemble modules, every order in which folders are listed, every content of the disk before; modules and forms that can be split (the conditions of C81)", "why_tests_cant": "Composes seven stages over unbounded data; unit tests run the stages one by one on samples, and never with the form elements in another order or with files of areas on the disk", "anchors": ["v8unpack.py:extract", "v8unpack.py:build", "organizer_file.py:OrganizerFile.unpack", "organizer_file.py:OrganizerFile.pack", "decoder.py:encode", "decoder.py:decode", "MetaObject/__init__.py:MetaObject.encode_includes"]}
{"id": "C91", "title": "A build finds the folders of the objects, whatever is on the disk", "statement": "For every content of the disk and every folder there are exactly the files directly in the folder, the folders <type>/<name> of the objects at any depth that hold a file, and an order of listing them: what the build of C90 is said to read exists.", "quantifier": "every content of the disk, every folder", "why_tests_cant": "The folders nest without bound; a hypothesis about them that no disk meets would make C90 empty", "anchors": ["MetaObject/__init__.py:MetaObject.encode_includes", "MetaObject/__init__.py:MetaObject.encode_get_include_obj"]}
{"id": "C92", "title": "With an index the sources come back", "statement": "With an index of names and folders (--index), extraction puts every file of the sources where the index says: a file that the index names at <one folder above the sources>/<the place>, any other at its own place; files other than modules and forms are copied unchanged. Building with the same index from the resulting disk restores every file: modules as their text, forms as the same document, other files byte for byte; the folder that is built holds exactly the files of the sources; nothing outside it changes. Conditions: the index names files of the sources, without entries that begin with a star; a moved module or form has no include area whose name has no underscore (refuted otherwise: the build looks for it in another folder); two files do not go to one place (refuted otherwise: both are built from what came last); a moved form keeps its ending (refuted otherwise); every entry of the index has its file (refuted otherwise: the build ends).", "quantifier": "every folder of sources, every index as described, at any depth, every order of the processes, every disk before", "why_tests_cant": "The folders and the index nest without bound, and the places of moved files and of include areas interact for every choice of names", "anchors": ["organizer_file.py:OrganizerFile.unpack", "organizer_file.py:OrganizerFile.pack", "organizer_file.py:OrganizerFile._pack_index", "organizer_file.py:OrganizerFile._pack_index_elem", "index.py:get_dest_path"]}
{"id": "C93", "title": "Extraction with an index does not depend on the order of the processes", "statement": "With an index (as in C92), if no two files give one file with different contents, what extraction leaves on the disk is the same for every order in which the processes of the pool work: the files given by each source file alone, nothing else below the folder of the sources, and everything outside it otherwise unchanged.", "quantifier": "every folder of sources, every index, every order of the processes, every disk before", "why_tests_cant": "All schedules of the pool", "anchors": ["organizer_file.py:OrganizerFile.unpack", "helper.py:run_in_pool", "index.py:get_dest_path"]}
{"id": "C94", "title": "Extracting what was built gives the same sources", "statement": "After the sources of an object have been extracted and a build has given every file back (modules without their byte order mark, forms as documents whose data may stand in another order, the other files with the same bytes), extracting what the build gave succeeds and leaves every file on the disk as it was: extract, build, extract again and version control sees no difference. More generally, extracting a folder whose files are those of another, come back so, gives the same files whatever lay on the disk before and in whatever order the processes work; files outside are left alone. The same with an index.", "quantifier": "every folder of sources whose modules and forms can be split, every index, every order of the processes of all three runs, every disk before", "why_tests_cant": "All folders and all schedules of three runs", "anchors": ["organizer_file.py:OrganizerFile.unpack", "organizer_file.py:OrganizerFile.pack", "organizer_code.py:OrganizerCode.unpack", "organizer_form_elem.py:OrganizerFormElem.pack", "index.py:get_dest_path", "helper.py:run_in_pool"]}
{"id": "C95", "title": "A form that was built is split into the same files", "statement": "A managed form whose areas are kept in separate files is built from what the extraction wrote, the files of areas it only reads being those of their owner, in any order of their data. Splitting the built form again gives the same files: the same names in the same order, the same elements, and the same data in the same order as at the first extraction. With areas of its own only, any number of extractions and builds in turn changes none of the files.", "quantifier": "every document of a form with inner areas of different names, every order of the data in the files that are read, any number of rounds", "why_tests_cant": "All forms, all orders of the data and all numbers of rounds", "anchors": ["organizer_form_elem.py:OrganizerFormElem.unpack", "organizer_form_elem.py:OrganizerFormElem.pack", "organizer_form_elem.py:OrganizerFormElem._unpack_get_areas", "organizer_form_elem.py:OrganizerFormElem._append_area_data"]}
{"id": "C96", "title": "Edited sources of a module are what is built, and are kept", "statement": "Whatever wrote them, if the files on the disk are the sources of a well nested module (its own lines in the file of the module, the lines of every include area in the file of the area), the build gives that module, and extracting it again changes no file. The files that extraction writes are such sources, and they stay so when the file of one area is replaced by other lines, which may include further areas and marks of dynamic directives: the build gives the module with the new lines in the place of the old, and the next extraction leaves the edit as it is.", "quantifier": "every module with include areas of different names, every edit of an area that keeps the module well nested, every table of areas, every content of the disk", "why_tests_cant": "All modules, edits and folders", "anchors": ["organizer_code.py:OrganizerCode.unpack", "organizer_code.py:OrganizerCode.pack_file", "organizer_code.py:OrganizerCode.parse_include_path", "organizer_file.py:OrganizerFile.unpack_code_file"]}
{"id": "C97", "title": "An interrupted build never passes damaged files off as whole", "statement": "When the program is stopped while it writes a container, extracting the bytes it leaves either reports an error, or finds an empty file (and extracts nothing from it), or extracts a first folder that holds the first files of the listing, in order and each of them whole: never a damaged file, never a file with the data of another. Until the contents table is begun every file that is not empty is rejected.", "quantifier": "every valid listing of files, both formats, every point at which the build is stopped (in the header, in or between the files, in the first block of the contents table, in its further blocks), every number of containers looked for", "why_tests_cant": "All listings and all points of interruption, which a test would have to hit one by one", "anchors": ["container.py:Container.build", "container.py:Container.write_header", "container.py:Container.add_file", "container.py:Container.write_table_off_content", "container.py:Container.extract", "container_doc.py:Document.write_block", "container_doc.py:Document.read_block"]}
{"id": "C98", "title": "A container that was cut is rejected or loses its end only", "statement": "When a built container is cut after any number of bytes (a broken copy or download), extracting it either reports an error, or nothing was left, or the first folder holds the first files of the listing, each of them whole, or all of them with only the last one shortened: nothing is invented, reordered or mixed up. When the contents table fits into one block, single files never disappear: without an error every file is there, only the last one shortened, or the cut was inside the table and the folder is empty.", "quantifier": "every valid listing of files, both formats, every length at which the built file is cut", "why_tests_cant": "All listings and all lengths of the cut", "anchors": ["container.py:Container.build", "container.py:Container.read", "container.py:Container.read_files", "container.py:Container.extract", "container_doc.py:Document.read_block", "container_doc.py:Document.read"]}
