# Formal model of saby-integration/v8unpack in Coq 8.16

## Conventions

* A Python `str` is a `list N` of code points, a `bytes` a `list N` of values below 256,
  an `int` a `Z`.  A Python exception is a value: `res A := Ok a | Err e`.
* Files opened in binary mode are records `(data, pos)` with `seek/tell/read/write`
  (`PyFile.v`); a write past the end zero-fills, a write inside overwrites in place.
* Loops whose Python termination is not structural take explicit fuel and return
  `Err Timeout` when it runs out; theorems state either "for enough fuel" or
  "for every fuel it is Timeout".
* zlib, SHA-1, the process pool and the operating system are not modelled; where a
  property needs them they are universally quantified functions in the *statement*
  (compressor/decompressor, failure pattern, completion order, directory listing order).
* Each definition cites the file and lines it models and names every simplification.
* `Spec*.v` files hold the small independent specifications; `Props*.v` hold nothing
  but theorem statements closed by `exact`, each followed by `Print Assumptions`,
  and, beside them, `Example`s showing that the hypotheses are met.

## Plan per property

| Property | Modelled | Proof |
|---|---|---|
| C01 C02 C03 C05 | file record, int2hex/int(,16), struct pack/unpack, utf-16, write_header/write_block/add_file/write_table_off_content, read_header/read_files/_read_gen/read_block | a document-at-offset predicate over the final byte string, frame lemmas for append and in-place overwrite, induction over files and over TOC blocks; the end-marker split is treated by a separate lemma on offsets below the marker |
| C04 | extract() scan, full_size accounting | arithmetic invariant: computed size >= bytes written |
| C06 | sorted() over code points | permutation + uniqueness of sorted lists |
| C07 | int2hex, pack 'Ns', int(x,16) | number/digit lemmas |
| C08 C09 | container_writer.build | witness by computation (C08), universal failure lemma (C09) |
| C10 C11 | _read_gen on arbitrary bytes | induction on fuel; explicit looping file |
| C12 | os.path.join (posix) on member names | character-level argument |
| C13 C14 | compress_and_build, build, extract, decompress_and_extract over an abstract compressor/decompressor pair, chunked decompression, renames of temporary copies, nested containers | composition of C01/C04 with a file-system invariant that is stable under every order of the pool tasks; refuting trees by computation |
| C15 | integer microsecond arithmetic | div/mod arithmetic |
| C16 C17 C18 C19 C20 C21 C22 | the whole JsonContainerDecoder state machine, encoder, universal newlines, utf-8-sig | simulation lemma: state after consuming the encoding of a value; induction over the tree |
| C23 C24 C25 | helper descent functions, OrganizerFileCE file choice | list/string lemmas; invariant over histories |
| C26 | check_version, str.split, int() | direct |
| C27 | _update_dict | induction on nested dictionaries |
| C28 C29 | index.py | induction on directory trees |
| C30 C31 C32 | organizer_code.py | stack-machine invariant; induction over nested areas |
| C33 | Decoder.encode loop with abstract handlers | induction over source trees; permutation of completions |
| C34 C35 | decode_header/encode_header/set_product_comment | string lemmas |
| C36 | the two regular-expression substitutions as deterministic scanners | induction over the text |
| C37 | ExtException.__init__ bookkeeping | induction over the chain |
| C38 | calc_offset | induction over counters |
| C39 | retry loops over a failure pattern | case analysis |
| C40 | quote doubling | induction |
| C41 | helper.brace_file_write as open-truncate-encode-write on a one-file store | direct; refuting witness for every file and every unencodable text |
| C42 C43 C44 | OrganizerFileCE.pack/unpack over a flat folder of versioned files, clear_dir | induction over the folder; selection is idempotent; witness for the loss of older versions |
| C45 C46 | helper.check_index and the composition update_index / get_dest_path | list-of-keys induction on the index; index built from a tree is looked up along the path of each file |
| C47 | the area stack of OrganizerCode.unpack | exact characterisation: fails iff some prefix closes two more areas than it opens |
| C48 | calc_sha1 (abstract digest), the configinfo brace file, its in-place rewrite | composition with C16; tail bytes characterised |
| C49 | json_container_decoder.decode/encode over a directory tree (`JsonStage.v`), json.dump/json.load on list-of-string trees (`JsonText.v`), the encoding guesses | per-file lemmas, then permutation of the pool tasks, then an induction over the entries of the tree |
| C50 | brace_file_read with the concrete cp1251 table | every byte above 0x7f that is a Cyrillic letter breaks UTF-8 at a decidable place |
| C51 C52 | read_raw_code ... write_encode_code on association-list folders (`ObjCode.v`), codecs by name with their inverses (`Codecs.v`) | a per-file cycle lemma for each encoding, then induction over the module table; success of a build characterised module by module |
| C53 | the extract loop over containers at positions > 0 (`ContainerShift.v`) | a shift lemma for every reading function (a read that succeeds at 0 of a suffix gives the same at the position of the suffix), then induction over the chain |
| C54 C56 | help texts, pictures, splash (`Payload.v`) over the concrete base64 (`B64.v`) and brace models | brace file round trip (C17) + base64 round trip + the payload slot; edits by a lemma that replacing a payload keeps a tree canonical (`PayloadEdit.v`) |
| C55 | the ten template types (`Payload.v`), the extension from the comment with `isalnum` as a parameter | per kind: copy, help, text codec, big base64; refuted cases computed |
| C57 | the copying functions (`Payload.v`) | direct |
| C58 | a whole object, decode and encode, with the classes as data (`MetaObj.v`, `Classes.v`), JSON text with dictionaries (`JsonObj.v`) | invariants over the parts of a class (`MetaObjPart.v`, `MetaObjList.v`), one core lemma (`MetaObjMain.v`); that no two parts of a class share a file is checked for each class by a boolean checker proved sound (`ClassesProofs.v`) |
| C59 | lists of included objects: taking out and putting back (`Types.v`, `Include.v`) | relation `regrouped` between list, index and result (`Spec_Include.v`), induction over the groups (`IncludeProofs.v`, `IncludeMain.v`) |
| C60 | the extraction loop over tasks, the folders of sources, the build of the tree (`Tree.v`, `EncodeLoop.v`), joined to the classes (`Real.v`) | generic proof over any decoder that handles its objects (`TreeProofs.v`, `TreeBuild.v`), then every class shown to be such (`RealProofs.v`, `RealMain.v`, `RealFiles.v`) |
| C61 | detection of the kind and format, the configuration root (`Root.v`), joined to the trees of objects (`Tree.v`, `EncodeLoop.v`) | root: each list of objects of each metadata group (`RootLists.v`, `RootTree.v`), the header and parts (`RootSteps.v`), the file versions (`RootVersions.v`), the root (`RootConfig.v`); then the whole (`RootMain.v`) |
| C62 | the root of an external processor or report (`Root.v`) | as C61 (`RootProc.v`) |
| C63 | the root of an extension (`Root.v`) | as C61 (`RootExt.v`) |
| C64 | `detect`, `open_root` (`Root.v`) | the version read from the header tree at both ends is the same (`RootDetect.v`) |
| C65 | `check_version` (`Root.v`) | the split at dots inverted; every success of the build passes the check |
| C66 | the elements of managed forms: kinds, places, names, links, children (`FormElem.v`) | places by counters (`FormElemBase.v`), induction on the tree of elements for both directions (`FormElemProofs.v`), sections (`FormElemList.v`), composition (`FormElemMain.v`) |
| C67 | the same build on sources described independently (`Spec_FormElem.described`) | each step of the build computed from the description (`FormElemDescr.v`) |
| C68 | the same build on a form without marks | every step shown to be the identity (`FormElemPlain.v`) |
| C69 | the options version, prefix, product version and file name in the build of C61-C63 (`Root.v`) | a value replaced among the properties commutes with taking the objects out and putting them back (`RootOpts.v`); the rest as in C61-C63 (`RootWhole.v`) |
| C70 | the elements of ordinary forms, versions 26 and 27, without auto_include: panels, pages, records, elements, properties, links (`Form27.v`) | the form as a tree of panels (`Spec_Form27.v`); pages and slices, induction on the tree, dictionaries as lists of different keys (`Form27Dec.v`, `Form27Main.v`) |
| C71 | the same build on sources described independently (`Spec_Form27.described27`) | induction on the tree of elements (`Form27Proofs.v`) |
| C72 | a whole form: header file, `<uuid>.0` as file or folder, `<uuid>.1`, module, elements, the four source files, classes Form, Form1 and Form0 (`Form.v`) | the files that belong to a form (`Spec_FormObj.form_at`); what is taken out is put back part by part (`FormObjElem.v`, `FormObjBody.v`), header and file names (`FormObjMain.v`) |
| C73 | the same build from sources with another module | the place of the module does not depend on its text; the file of elements is the same for every module (`FormObjEdit.v`) |
| C74 | the classes of forms (`FormReal.v`) in place of the parameters of `Real.v`, on the loops of `Tree.v` and `EncodeLoop.v` | each form in place (C72) is an object that is handled, so C60 applies (`FormRealProofs.v`) |
| C75 | the same on `Root.v` | C61, C62, C63 with the classes of forms |
| C76 | the container uuid given to forms at extraction and at the build (`FormReal.container_given`, `container_read`) | inversion of the build of the parent, whose result is its header tree again (`FormCont.v`) |
| C77 | `organizer_form_elem.py` (`OrgForm.v`): the documents of a form and of its areas; the store of the files is a function | induction over the nesting: what is taken out of the data is a list of entries, and the build answers it entry by entry (`OrgFormProofs.v`); then over the areas (`OrgFormMain.v`, `OrgFormDocs.v`) |
| C78 | the same | the same, with the area renamed; the form with every area owned writes the same list of areas |
| C79 | the same | from the lists of C77 |
| C80 | the same | induction over the elements |
| C81 | the walk of `organizer_file.py` (unpack, unpack_file, unpack_code_file, pack, _pack, _pack_file) over a folder of any depth, on a disk that is a map from absolute paths to bytes (`OrgTree.v`), with `OrgCode.v` for modules and `OrgForm.v` for forms; without versions and without moved files of an index | which file each write goes to (`OrgTreePaths.v`), what one module or form gives (`OrgTreeProofs.v`, `OrgTreeElems.v`), then the disk as a set of writes that agree (`OrgTreeMain.v`) |
| C82 | the same; the order of the processes of a pool is any reordering | the same |
| C83 | `decoder.py` encode/decode and the stages of `v8unpack.py` extract/build before and after it: `Whole.v` over `Pipeline.v`, `Root.v`, `FormReal.v`; folder listing orders, file times and the compression pair are parameters | composition: C75 gives the files written, `PipelineItems.v`/`WholeProofs.v` generalise C14 to their folder (`Spec_Whole.v`, `Props_Whole.v`) |
| C84 | the same, with configinfo | the text of the new configinfo is the mark of C63 replaced by the list of digests; `info_pipeline` extends C12 and C14 to folders among the files |
| C85 | the choice of the container in `decode` | by cases; refuted for one listing order |
| C86 | `build_all`, `extract_all`, `update_index_all`: `Driver.v` | induction on the list of products against a separate relation of calls run in order |
| C87 | `extract`: `Driver.v`, the stages being arbitrary functions of a disk | two runs on disks that differ in the cleared folders are compared stage by stage; two defects refuted |
| C88 | `build`: `Driver.v` | what each stage may touch is composed; one defect refuted |
| C89 | `main` after `argparse`: `Driver.v` | by cases; two options without effect refuted |
| C90 | all stages of `extract` and `build` in sequence: `Whole.v`, `OrgTree.v`, with `Spec_EndToEnd.v` for how the sources lie on the disk | C83 and C84 (whose build takes any folders that read like the extracted ones, `Spec_Again.v`) composed with C81; the folders found on the disk are shown to be those that were extracted |
| C91 | what a build finds on a disk: `Spec_EndToEnd.v` | constructed for an arbitrary disk, by induction on the depth |
| C92 | the same walk with an index: get_dest_path (`Index.v`) for each file, `_pack_index` and `_pack_index_elem`, the files that the walk leaves out because they are there already (`OrgIndex.v`) | `Spec_OrgIndex.v` says which file the index moves and where; the entries of the index are shown to be exactly those moves (`OrgIndexPaths.v`), what one file gives wherever it lies (`OrgIndexProofs.v`), then all files together (`OrgIndexMain.v`) |
| C93 | the same | as C82 |
| C94 | the same two runs of `OrgTree.v` and `OrgIndex.v`, and a third on what the second left | `Spec_OrgAgain.v` says when a folder comes back. The files given by a come-back file alone are those of the file (a module is read without its mark, a form is split into the same files by C95), so the two extractions write the same set of files (`OrgAgain.v`); what no file gives is as before. The build's own result is then such a folder by C81 and C92, with C95 for the forms |
| C95 | the two directions of `OrgForm.v`, composed | what the splitting takes out and what it leaves do not depend on the order of the data, and splitting only removes: the data that stay are a subsequence of the data of the built form, which begins with what was kept (`OrgFormAgain.v`, an induction over the tree and one over the build) |
| C96 | `pack_file`, then `unpack_code_file`, of `OrgCode.v` on any store that holds the sources of a well nested module | `Spec_CodeEdit.v` says which lines lie in which file and what an edit of an area is. The packing lemma of C30 needs only that the files hold these lines; every write of the extraction then writes what is there |
| C97 | `stopped` of `ContainerCut4.v` (the bytes on the disk at every point of `build`), then `extract_all` of `Container.v` | `stopped` is a small inductive specification: cut prefix of header and files, partly overwritten zero room of the table, cut prefix of the blocks behind. The layout of a built container (`built`) gives every offset; a partly written block header is a rejected block, a partly written table names a prefix of the files, whose data are all there. |
| C98 | `ztake n` of the file that `build` gives, then `extract_all` | Same layout. A cut before the first data block of the last file leaves a file unreadable (no header: `AttributeError`; half a header: `ValueError`), a cut behind it only shortens the last file, a cut in the further blocks of the table shortens the table. |

Nothing on the list is inexpressible; what lies in the runtime (zlib, pool, OS) is quantified over.


## Trusted base

* The kernel of Coq 8.16.1 (including its `vm_compute` machine, used for closed
  computations such as character tables and refuting witnesses).
* `Print Assumptions` stands under every theorem of every `Props_*.v`; each of them
  answers **"Closed under the global context"**: no axiom of the standard library, of
  any other library, or of ours is used.  (The checker also lists the `Coq.ssr.ssrunder`
  module parameters because the standard library contains them; no theorem depends on
  them.)
* No `Axiom`, `Parameter`, section-less `Variable`, `Admitted`, functor, module type,
  plugin or disabled kernel check occurs.  `Section` variables are used for abstract
  environment functions only and are discharged: they appear as universally quantified
  arguments of the theorems.
* Behaviour of Python and its standard library that the code relies on was modelled by
  hand from its documentation and is therefore trusted *as a model*:
  `int(s, 16)` / `int(s)` (signs, blanks, underscores), `'%08x'`, `struct.pack/unpack`
  (`PyInt.v`), UTF-8 with and without BOM, UTF-16-LE (`Utf.v`), cp1251 (`Cp1251.v`),
  binary and text files, universal newlines (`PyFile.v`, `PyText.v`), what
  `base64.b64decode` accepts (`PyB64.v`), `json.dump/load` on lists of strings
  (`JsonText.v`), `str.split/strip/replace/find`, `sorted`, `dict` order,
  `os.path.join/split/splitext/relpath` on POSIX (`Paths.v`, `Descent.v`, `OrgCode.v`).

## Modelled, and not modelled

Paths below `/repo/src/v8unpack`.

| File | Modelled | Not modelled |
|---|---|---|
| `container.py`, `container_doc.py`, `container_reader.py`, `container_writer.py` | everything except the two items on the right: `Container.v`, `Pipeline.v`, `Times.v` | zlib itself (an arbitrary pair of functions), local time zone rules |
| `json_container_decoder.py` | reader, writer, folder stage: `Brace.v`, `JsonStage.v` | progress messages |
| `helper.py` | brace/text/json files, versions, descent names, index loading, `_update_dict`, retries, `calc_offset`, `list_merge`, options: `Descent.v`, `Index.v`, `Json.v`, `UpdateDict.v`, `Retry.v`, `CalcOffset.v`, `Misc*.v` | process creation (a pool is a set of tasks executed in any order), console output, `tqdm` |
| `index.py` | `Index.v` | |
| `organizer_code.py` | `OrgCode.v` | |
| `organizer_form_elem.py` | `OrgForm.v` | `parse_include_path` there (dead code), which exception is inside an `ExtException` |
| `organizer_file.py`, `organizer_file_ce.py` | file choice, versions, code tasks, index-driven pack: `Descent.v`, `OrgCode.v` and the files named in the property rows; the walk over a whole folder: `OrgTree.v` (without versions and index), `OrgIndex.v` (with an index, without versions and entries that begin with a star) | copying of time stamps |
| `decoder.py` | recognition of the container, the extraction loop, the parallel assembly loop: `Root.v`, `Tree.v`, `EncodeLoop.v`; the choice of the container and version.bin: `Whole.v` | the zip format of dummy.zip (its content is a folder in the model) |
| `MetaObject/*`, `MetaDataObject/*` | headers, product comment, directives, form code, modules, help, templates, pictures, raw copies: `Header.v`, `Directives.v`, `FormCode.v`, `ObjCode.v`, `Payload.v`; whole forms: `Form.v`, among other objects: `FormReal.v`; whole objects with the positions and files of every class but forms: `MetaObj.v`; `Classes.v`, `Types.v`, `Include.v`; objects in objects: `Tree.v`, `Real.v`; the three roots: `Root.v`; elements of managed forms: `FormElem.v`; of ordinary forms: `Form27.v` | elements of ordinary forms with the option auto_include |
| `ext_exception.py` | `ExtError.v` | traceback formatting |
| `v8unpack.py` | `extract`, `build`, `build_all`, `extract_all`, `update_index_all`, `main` (`Driver.v`; the stages composed for real in `Whole.v`) | `argparse`, printing, locked files in `clear_dir` |

Source folders that a build reads need not be those the extraction wrote byte for byte: `Spec_Again.v` says when a folder reads
like another (the same files; the elements of a form as the same document in any order of its data), `TreeBuild.v` and
`RealSame.v` prove that a build from such folders gives the same container, and the theorems on builds (C59-C64, C70-C76, C83, C84)
quantify over them.  `Spec_EndToEnd.v` says how the sources of C90 lie on a disk.

## Findings (the code does not do what a user expects)

Each is a `_refuted` theorem or an explicit hypothesis whose necessity is proved.

* Containers: a two-container file that can be built is never readable (C08);
  `build()` with its default argument always fails (C09); a size above 4 GiB is cut
  silently (C07); a minus sign in a block header makes the reader return more than the
  declared size (C10); a cyclic block chain hangs the reader (C11); member names may
  leave the destination folder (C12); decompression stops at the first empty output
  chunk (C13); a plain file that starts like a container comes back as a folder or an
  error, `.temp`/`.tmp` renames overwrite siblings depending on the schedule, an empty
  folder or one two levels deep never packs (C14).
* Brace files: long base64-looking strings get a line break (C20, and a long name in
  `versions`, C48); an unterminated `{1,2` is accepted (C21); text mode always rejected
  (C22); a failed write leaves an empty file (C41); `configinfo` is rewritten without
  truncation (C48); a windows-1251 brace file is re-encoded as UTF-8, one unreadable
  `{`-file stops the whole stage, a folder `x.bin` swallows file `x`, a `.txt` file
  comes back as `name.` (C49); windows-1251 bytes that happen to be UTF-8 are misread
  (C50).
* Versions: names without extension and version `007` (C23); a file with a similar
  name is taken for a version (C24); a file that exists only in a later version makes
  older packs fail (C42); unpacking a version wipes the others (C44).
* Containers: the size the reader computes for a container built by the program exceeds its
  length, so a second container behind it would not be found (C53).
* Index: a versioned-looking folder is indexed as a file (C28); paths are not
  normalized (C29); a sub-index inside a sub-index is not followed (C45).
* Code: nested single-name includes, repeated includes, an include called `root` and a
  root-level dynamic directive are not restored (C30); include names beginning like the
  source folder land inside it (C32); one surplus closing is accepted (C47); a directive
  on the first line is not commented (C36).
* Modules: an encrypted module (`image` instead of `text`) is silently replaced by an
  empty one because `read_raw_code` swallows the FileNotFoundError that the search for
  it waits for; line ends of the other platform are rewritten (C51).
* Objects: the name prefix is removed from nested or borrowed objects but not put back
  (C34); assembly of objects with equal names, leftover type folders or versioned types
  with children (C33); an unquoted form code field and an empty form (C40); detail of
  an exception wrapped without message is dropped (C37).
* Templates: a comment ending in the word `c1b64` makes every build wrap the template in base64 again;
  ending in `json`, the template's own header file is built in as its data (C55).
* A help file without a root and a common picture without a payload are dropped by a build (C54, C56).
* A text template with CRLF line ends is changed on Linux; one in windows-1251 makes the extraction
  fail (C55).
* A common picture whose comment ends in `json` is replaced by its own header file; with a prefix,
  two objects whose names differ by the prefix are given one folder (C58).
- With auto_include, the first object of a type that had none at extraction is not put into its parent (C59).
- Without auto_include, if every source of a type of inner objects (commands, for example) is deleted, the build
  puts identifiers where the objects should be (C59).
- A list with two groups of one type, or two objects of one type and name in one list, stops the extraction (C59, C60).
- An object whose list names itself is extracted without end (C60).
- External data processors put their included objects back only with auto_include; objects inside the root's
  own file (its commands) are identifiers after a build without it (read from the code, see the roots).
- The option `--version` is documented for both commands, but extraction ignores it; `--processes` is ignored; `--descent` is declared `type=int` although the documented values are like 3.0.75.100.
- With the option prefix the names are stripped at extraction and, for a configuration, not restored at build.
- A leftover ExternalDataProcessor.json or ExternalReport.json among the sources of a configuration is taken for the root (`open_root` takes the first of four names).
- In an extension, a folder in the place of the files uuid.8 and uuid.9 is dropped silently.

- Managed forms: an error in the list of properties is swallowed after the columns of earlier properties were already taken out of the form; they are in no file, so the build loses them (`C66_columns_kept_refuted`).
- Managed forms: a group with `includr_` inside (not at the start of) its name, or a table so named, is extracted with its children under one path and looked for under another; the build fails (`C66_any_name_refuted`).
- A prefix or product version with a quotation mark makes the root file of an extension unreadable: the mark is not doubled (`C69_quote_refuted`).
- Managed forms: a form whose list of elements cannot be found is extracted (the error is swallowed) and cannot be built (`C68_any_form_refuted`).
- Ordinary forms: a form with one element that cannot be read is extracted without its elements, silently, and no build accepts the sources (KeyError '-pages-'): `C70_unread_form_refuted`.
- Ordinary forms: `del pages_raw_data[1:1 + 2 + page_count]` deletes one value too many after the pages (`C70_value_after_pages_refuted`); values after the elements change places with them (`C70_value_after_elements_refuted`); records of a panel without pages are lost (`C70_records_without_pages_refuted`).
- Ordinary forms: an element without a name cannot be built (`C70_any_name_refuted`); of two elements with one name on one page the second is built twice (`C70_same_names_refuted`).
- Forms: an ordinary form whose `<uuid>.0` is a plain file cannot be extracted (`C72_plain_file_refuted`); `<uuid>.1` is lost without `<uuid>.0` (`C72_second_alone_refuted`); a managed form without `<uuid>.0` gets one (`C72_no_form_file_refuted`); a missing module file of an ordinary form becomes an empty one (`C72_no_module_refuted`); U+FEFF at the start of a managed module is lost (`C72_module_mark_refuted`).
- Forms: an ordinary form with a binary module, or with elements that cannot be read, is extracted but cannot be built (`C72_binary_module_refuted`, `C72_unread_elements_refuted`).
- Forms: a managed form in which no place for a module is found is built without the module the user wrote for it, silently (`C73_no_place_refuted`).
- Form areas: of two areas with one name in a form the file of the second replaces that of the first, and the build puts it in both places (`C77_same_name_refuted`); an area named `root` is replaced by the form document, and the sources cannot be built (`C77_root_refuted`); a null among the pages is lost (`C77_null_refuted`).
- Form areas: pages at the top of a read-only area (`includr_`) are taken out of the form at extraction and are not put back at the build, silently (`C78_pages_refuted`): `_append_area_data` looks for them under the name with `includr_`.
- Sources: two modules with one area `include_<area>` of different texts: the file of the area has the text of the process that came last, the other module is built with it, silently (`C82_conflict_refuted`).
- Sources: the file of an area without underscore lies in the folder of sources, and the build packs it as a module of its own (`C81_area_among_sources_refuted`); an area with the name of its own module replaces it (`C81_area_named_as_module_refuted`).
- Sources: modules are extracted with their byte order mark, read with `utf-8-sig` by the organizer and written without it: sources extracted with an index or include areas differ from those extracted without (`C81_mark_kept_refuted`). The build restores the mark from the header, so a module survives; a binary template whose comment gives the extension `bsl` is changed, or, when it is not UTF-8, ends the extraction (`C81_binary_module_name_refuted`).
- Sources, read only (not in the model): empty folders are not kept; an index entry with `*` is listed relative to the current folder and copied relative to the parent of the sources; `main()` gives `--index` as the product code to `-BA`, `-EA` and `-IA`.
- Files with two containers: `containers[-1]` in `decoder.py` is the folder that `os.listdir` gives last; where that is `0` the first container is decoded and the second is dropped from the sources without a message (`C85_second_container_refuted`).
- `extract` empties the folder of sources before it opens the file: a wrong file name costs the sources (`C87_sources_lost_refuted`); so does `processes=0`.
- An index file that is an empty dictionary makes `extract` and `build` return at once, without an error and without doing anything (`C87_empty_index_refuted`).
- `temp_dir=''` (or `"temp": ""` in a file of products, or `--temp ''`) is the current folder, and everything in it is deleted (`C88_empty_temp_refuted`).
- `--processes` is parsed and never used; `--descent 0` and empty `--prefix`/`--version` are dropped; `-EA` and `-BA` ignore every option but `--index`, which they take as the product code (`C89_processes_refuted`, `C89_products_options_refuted`). `--descent` is an integer although its help asks for `3.0.75.100`.
- `"options": null` in a file of products works for `-EA` and ends `-BA` with a TypeError (`C86_bad_product`).
- A module that the index moves and that has an include area without underscore: extraction writes the area beside the old
  place, the build looks for it beside the new one and ends with an error (`C92_local_area_refuted`).
- An index entry whose file does not exist is no trouble for extraction and ends the build (`C92_missing_file_refuted`): the
  handler of FileNotFoundError in `_pack_index` is never reached, since `_pack_index_elem` turns the error into an ExtException.
- An index that gives two files one place: both are extracted to it, the build gives both the content that came last, without
  an error (`C92_one_place_refuted`). A form moved to a name with another ending loses its areas (`C92_ending_refuted`).
- An area file whose last line has no newline (as editors leave it) swallows its closing line: the next extraction moves the rest of the
  module into it (`C96_no_final_newline_refuted`); a closing too many in an area file moves what follows to the module
  (`C96_unbalanced_area_refuted`); a directive typed before the mark in the sources is taken out by the next extraction (`C96_typed_directive_refuted`).
- What is left of a container after an interrupted build or a broken copy can be extracted without any error: an empty file gives no
  folder at all (`C97_empty_file_refuted`), a contents table of which one entry was written gives a folder with one file (`C97_unnoticed_refuted`),
  fewer than 12 bytes of the table give an empty folder, and a file whose last file was cut is extracted with the short file (`C98_cut_unnoticed_refuted`):
  the length in the header of a document is not compared with what was read.
- Read only (not in theorems): negative counts in a list of elements are accepted; with auto_include an unreadable ordinary form
  puts a silent '0' into the result; an area element without `child` has `child: []` after a build; an X.elem.json area among the
  sources with an inner include_ element makes the build fail; objects of unknown types lose their files on a rebuild;
  base64-folded leaves of configinfo use CRLF, so that rewriting it on Posix shrinks the text and may leave a tail.

## Testing the theorems

`seeded/LOG.jsonl` records, for each edit of a model definition, the claim it breaks and
the theorems that stopped proving; survivors were either equivalent programs (said so in
the entry) or led to a tightened theorem.
