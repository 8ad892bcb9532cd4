# Formal model of channelpack in Rocq (Coq 8.16.1)

Source: `/repo` (tomnor/channelpack at the pinned commit), read as text. The
model is written function by function from the source, every definition citing
the file and lines it models. One departure from reading only: while writing
`XlDate.v`, the source text of `xldate.py` was executed once in plain Python to
get the serial of one date for an example. Nothing in the proofs rests on that
value (the example is evaluated in Coq), it was not repeated, and `/repo` was
not changed.

## Layout

`rocq/theories/`

| file | content |
|---|---|
| `PyBase.v` | Python base notions: exceptions as values (`res`), strings/bytes as lists of code points, list indexing and slicing, insertion-ordered dicts, sorting |
| `PyFloat.v` | IEEE binary64 values via `Coq.Floats.SpecFloat` (plain Gallina, no primitive floats, no axioms), `int()`, `float(str)` |
| `NumPy.v` | one-dimensional arrays: dtype kind + list of values; `np.array`, `np.append`, `==`, indexing, `np.where` |
| `DataUtils.v`, `Dicts.v`, `Pack.v`, `PackHeap.v` | `channelpack/datautils.py`, `channelpack/pack.py` (value model and heap model with aliasing) |
| `ReadText.v`, `Preparse.v` | `channelpack/readtext.py` |
| `Dbf.v` | `channelpack/dbf.py` |
| `FloatReal.v` | real-number meaning of the binary64 operations of `PyFloat.v` (Flocq) |
| `ReadXl.v`, `XlDate.v`, `XlSheet.v`, `XlMisc.v`, `CompDoc.v`, ... | `channelpack/readxl.py` and the parts of `channelpack/xlrd` it relies on |
| `Spec*.v` | specifications, independent of the model's helpers |
| `*Proofs.v` | lemmas |
| `Props*.v` | one theorem per property, closed by `exact`, with `Print Assumptions` and an example meeting the hypotheses |

## Conventions

* An operation that can raise returns `res A` (`Ok a` or `Err e`); an operation
  on a mutable object returns the new state and the outcome, so partial effects
  before an exception are visible.
* A claim which is false of the code is kept in view as a `..._refuted` theorem
  (a concrete witness of the failure), next to the theorem with the guard that
  makes it true. Theorems that cover a part of a property are named `..._partial`.
* Loops are structural recursion over the list looped over, or recursion on
  fuel with a theorem that the fuel is enough (or that no fuel is enough).

## Property plan

| id | model | proof |
|---|---|---|
| C01 | `slicelist`, mask assignment, `parts` | induction over the mask generalising the loop state; spec = declarative maximal runs, proved unique |
| C02 | `call` with nof='filter' and part | induction; both sides equal the filtered subsequence |
| C03 | `masked`, `np.where` promotion | pointwise with `nth`; refutation by evaluating 2^53+1 |
| C04 | `startstop_bool` | induction with loop-state generalisation; spec by existence of last trigger |
| C05 | `startstop` method through attribute assignment | from C01, C04, C06 |
| C06 | `duration` | run decomposition lemma: falsifying slices of a run list; algebraic laws from the pointwise spec |
| C07 | `int(duration*samplerate)` on ints and binary64 | arithmetic on rationals (`Q`) |
| C08, C09, C12, C18 | pack operations as a transition system | invariants by induction over operation lists; refutations by witness |
| C10 | `mask_reset` | direct; refutation with a nan channel |
| C11 | `call` with part | case analysis on Python index semantics |
| C13, C14, C26 | `_datakey`, `name` | spec as a priority relation; decimal printing/parsing round trip |
| C15, C16 | `append_pack` on values | induction over the dict |
| C17, C19, C24 | heap model: array buffers, views, dict objects, packs | frame theorem by ownership (reachability) invariant; refutations by witness heaps |
| C20, C21, C22 | `IntKeyDict`/`NpDict` over a universe of Python objects | invariant over operation lists; witnesses for the holes |
| C23 | `__setattr__`, `__delattr__` | case analysis |
| C25 | `records` | zip/transposition lemmas |
| C27-C33 | `linetuples`, `textpack` on a stream of lines | split/join inverse, zip/transpose lemmas |
| C34, C35 | regex matching of the two number patterns as deterministic scanners, `preparse`, `lazy_textpack` | scanner lemmas on separated numbers |
| C36-C40 | `dbfreader`, `dbfrecords`, `dbfpack` on byte lists with a file position; independent encoder as the spec | induction over records; refutation witness for deleted records |
| C41-C44 | `letter2num`, `colname`, `cellreference`, `normalize_usecols`, `cell_name_to_rowx_colx` | bijective base 26, induction; specification of column patterns as a grammar |
| C45, C46 | `sheet_columns`, `sheetpack` on an abstract sheet | pointwise |
| C47, C48 | `xldate.py` integer arithmetic, Gregorian calendar spec | `jdn` = day number by `lia` with division; the inverse by periodicity in 400 years plus evaluation of the whole cycle (146097 days, so all years are covered); binary64 rounding through the real-number semantics of `FloatReal.v` (Flocq) |
| C49 | `put_cell_*`, `tidy_dimensions` | refinement to a finite map |
| C50 | `unpack_RK` | bit arithmetic on all words |
| C51, C52 | `_get_stream`, `_build_family_tree` | termination measure on unseen sectors; divergence for all fuel on a cycle |
| C53 | `is_date_format_string` | scanner automaton induction |
| C55 | heap model refines the value model | simulation over operation lists of one pack without sharing |
| C54 | `unpack_SST_table`, `unpack_unicode`, `unpack_unicode_update_pos` | tables as tokens (bytes and cuts); the reader keeps standing at the rest of the tokens; `_refuted` witnesses for the two cuts that fail |
| C56, C57 | `CompDoc.__init__`, `DirNode`, `_dir_search`, `get_named_stream`, `locate_named_stream` | documents as a record with a writer (`SpecDoc.v`); the reader of every table keeps the used sectors apart; requests as a list, with an invariant on the marks of used sectors; `_refuted` for asking twice |
| C58, C59 | `open_workbook`, `parse_globals` and its handlers, `Sheet.read`, `sheetpack` from the bytes of a file | workbooks as a list of global records and sheets as a list of items with a writer (`SpecBiff.v`); the reader keeps standing at the rest of the records; formats through C53, shared strings through C54, documents through C56/C57, cells through C49 and C50, columns through C45/C46; termination by the position; `_refuted` for the two guards |
| C60 | `float()` on text as used by `_floatit`, `dbfreader` (`PyFloat.v`), end to end through `textpack` and `dbfpack` | decimals as a grammar with a real value, the nearest double as a distance minimum with ties to even (`SpecNumber.v`); rounding through Flocq; existence and uniqueness |
| C61, C62 | `open_workbook` on zip files, `open_workbook_2007_xml` and the classes of `xlsx.py`, `sheetpack` | what the XML documents of an archive say, as relations on elements (`SpecXlsx.v`); the reader agrees with them part by part; cells through C49, numbers through C60, formats through C53, columns through C45/C46; refusal by following a bad cell through the loops; `_refuted` witnesses |
| C63 | `handle_name`, `names_epilogue`, `evaluate_name_formula`, `handle_supbook`, `handle_externsheet`, `handle_externname` (`XlNames.v`, `Biff.v`) | formulas as trees with a writer (`SpecNames.v`) and a judgement of what a formula can give and when it does no harm; induction over the tree with the stack, and over the depth of names; names left out by a relation between workbooks (`unnamed`); a `_refuted` witness for each condition |
| C64 | `handle_hlink`, `handle_quicktip`, `handle_obj`, `handle_note`, `handle_txo` (`XlObjects.v`, `Biff.v`) | writers for links, tips, notes, drawn objects and text boxes (`SpecObjects.v`); the handlers read them through, by induction over their parts; the items left out of the sheets by a filter; a `_refuted` witness for each condition |
| C65 | everything `open_workbook` runs on a file that is no zip file: `CompDoc.v`, `Biff.v`, `BiffOld.v`, `XlNames.v`, `XlObjects.v`, `Sst.v` | no function gives `NonTermination`, with fuel shown to be enough by what the loops use up; chains without marks by finding a sector twice in a long path; the reverse for every document through C56, C57 and C51. Below BIFF8 the only other way is a SHEETHDR record with a negative length (`EndsOld.v`), with a file that goes round for ever shown by an invariant of its globals. `NotModelled` is an outcome here: the claim is about modelled steps |
| C66 | everything `open_workbook` runs on a file, and `sheetpack` | properties of cells, sheets and packs stated on the opened book (`SpecSound.v`); invariants of the sheet being built and of the formats over the record loops, for arbitrary bytes; the order of records read off the bytes by relations; `_refuted` for a late record about the dimensions, for texts that are None, and for numbers of type text and missing sheets in BIFF 2 to 4. Below BIFF8 (`SoundOld.v`) the formats change while a sheet is read, so the invariant is about every book on the way |
| C67 | `textpack`, `linetuples`, `preparse`, `lazy_textpack` on text and on bytes with a codec | what an encoding, a file in it and matching arguments are is in `SpecCoded.v`; the two readings are related function by function (lines, stripping, splitting, conversion), preparse is shown not to depend on the ends of lines and its delimiter to be made of characters of a line; `_refuted` for information separators and lone CR |
| C68 | `ChannelPack.__repr__` (`PackRepr.v`) | decimal texts, listings and ascending items are defined in `SpecRepr.v`; reprs of arrays and values are arguments; an ascending arrangement of a map is unique |
| C69 | `open_workbook`, `parse_globals`, `Sheet.read` and their handlers for BIFF 5 and 7 (`BiffOld.v`) | as C58 and C59, with a writer of its own (`SpecOld.v`) for texts in code pages; what bytes mean in a code page is any function; the state of the derived encoding is an invariant along the global records |
| C70 | the same for BIFF 2 to 4, where the file is one sheet (`BiffOld.v`) | a writer of its own (`SpecEarly.v`) in which an entry may refer only to what is before it; formats, XFs, attributes of cells and the codec are an invariant along the entries |
| C71 | NAME and EXTERNSHEET records of BIFF 5 and 7 (`BiffOld.v`, `XlNames.v`) | the judgement of C63 with tokens and References of their own; what is known of References and names is an invariant along the global records, in both directions, so that a name for a sheet without a Reference is shown to fail for every workbook |
| C72 | workbooks of BIFF 4W: SHEETSOFFSET, BOUNDSHEET and SHEETHDR records and the sheets inside the globals (`BiffOld.v`) | a writer of its own (`SpecXlw.v`) whose parts may refer only to what is before them; the invariant of C70 runs through the sheets while code page, date mode and user go on; that later sheets change the dates of earlier ones is a `_refuted` witness, the two ways to stay shut are general |
| C73 | the calls of tell, read, readline, seek and close of `contextopen`, `textpack`, `lazy_textpack`, `dbfpack` and their generators, in order, on an io object whose calls may fail (`FileIO.v`) | each function is shown to do what its model in `ReadText.v`, `Preparse.v`, `Dbf.v` says or to stop at the failing call (`sim`, closed under sequencing, induction over lines, fields and records); that the file stays open when contextopen fails is a `_refuted` theorem for all files and arguments |
| C74 | the calls of `open_workbook`, `open_workbook_xls`, `biff2_8_load`, `release_resources` and of the with statement of `sheetpack` that open, map, read and close files (`XlFiles.v`) | that the Book holds the map while it is open is an invariant of the calls, in success and failure; `release_resources` ends it; that archives stay open is a `_refuted` theorem for all files |
| C75 | `textpack` and `linetuples` on bytes with and without encoding (`ReadText.v`) | relation between the functions of the first line in the two modes, lifted through rows, columns (`zip`), dicts and arrays; for exceptions a relation between results kept by every bind; relation of the packs in `SpecRaw.v` |
| C76 | `np.array` of values and `np.append` as used by `NpDict` and `append_pack` (`NumPy.v`, `Dicts.v`) | the kind for all values and what a kind holds of a value are said without pairwise promotion in `SpecArray.v`; induction from the right end of the list; that the array is the only one of the specification is proved, too; lost NULs are a general `_refuted` theorem |
| C77 | `linetuples`, `float` of text and bytes | grammar of numbers with underscores, words and Unicode digits; soundness and completeness of the model's `float` against it, then the cells of a channel |
| C78 | `dbfreader`, `dbfrecords` and the conversion of fields (`Dbf.v`) on any bytes | relation between bytes and values in `SpecField.v`; soundness and completeness of the model's `conv` against it, then induction on the records for both readers |
| C79 | the access methods of `Sheet` and `Book` (`XlAccess.v`) | Python indices and slices as relations (`SpecAccess.v`); the loops over computed ranges are shown equal to slices, then equivalences for every method |
| C80 | the functions of `formula.py` that write references as text (`RangeName.v`) | relations between references and texts (`SpecRange.v`), shown to hold of the functions and to be injective by splitting texts at characters their parts cannot have; `_refuted` witnesses for a colon in a sheet name and for a single base |
| C81 | `count_records` and `biff_count_records` with the table of names (`XlCount.v`) | the records in a stream as an inductive relation, the summary by the sorted order and `count_occ` (`SpecCount.v`, with its own copy of the table); induction over the bytes of the stream for the loop, over tallies for the counts, insertion sort for the order; the relations are shown to be functional; `_refuted` witness for zeros at the end of a stream within a file |
| C82 | `dump`, `biff_dump` and `hex_char_dump` (`XlDump.v`) | the text as an inductive relation on the bytes (`SpecDump.v`), held by the loop by induction over the bytes left and the zeros passed; an independent reader of the lines, shown to return the bytes by induction over the relation; `_refuted` witness for negative lengths |
| C83 | the Book with on_demand: `get_sheet`, `sheet_by_index`, `sheets`, `__iter__`, `sheet_loaded`, `unload_sheet`, `release_resources` (`XlDemand.v`), state kept when a call raises | refinement: what each call gives is specified by the calls made before it (`SpecDemand.v`: kept, at hand), shown by an invariant over all sequences of calls; identity of objects by an invariant on the slots of the list; that only COUNTRY records carry over from sheet to sheet by induction over the records; `_refuted` witnesses for the order of calls and for negative numbers |
| C84 | `Name.cell` and `Name.area2d` of a book with all its sheets, for any result a name may have (`NameArea.v`); the coordinates of references are arbitrary, as `XlNames.v` does not compute them | both directions of what is given and of each exception, in terms of the reference and of the cells the sheet has (`SpecArea.v`); linear arithmetic for the bounds; the promise of XLRDError is refuted |
| C85 | `expand_cell_address`, `display_cell_address` (`CellAddr.v`); words as numbers | the word is written as a sum of its parts in `SpecAddr.v` and the masks of the code are shown to take it apart; injectivity of the texts by where the column ends |
| C86 | `nearest_colour_index` (`CellAddr.v`): the dict as the list of its items | induction over the items with the best so far; the specification speaks of the whole map and its first minimum |
| C87 | what WINDOW2 and SCL records leave in a Sheet, along the loop of `Biff.v` over all its records, and `update_cooked_mag_factors` (`SheetView.v`) | the loop is shown to be a fold over the records read (`SpecView.v`: reads), of which the last of a kind tells (told); the range of the factors follows from it for all files |
| C88 | COLINFO, DEFCOLWIDTH, STANDARDWIDTH and GCW records in `Sheet.read` with `formatting_info`, and `computed_column_width` (`ColWidth.v`), over a list of records | fold over the records, for each kind the last one tells (told of `SpecView.v`; `SpecWidth.v`: covers, first_of); what BIFF2 gives is `C88_biff2_refuted` |

## Trusted base

* Coq 8.16.1's kernel, including its conversion and `vm_compute`.
* `Print Assumptions` is under every theorem of the `Props*.v` files. All say
  "Closed under the global context", except those of `PropsXlDate.v`,
  `PropsRk.v`, `PropsNumber.v`, `PropsNumeral.v`, `PropsField.v` and `PropsXlsx.v` about doubles as real numbers, which list these axioms of the standard library
  (through `Coq.Reals` and Flocq):
  `ClassicalDedekindReals.sig_not_dec`, `ClassicalDedekindReals.sig_forall_dec`,
  `FunctionalExtensionality.functional_extensionality_dep`,
  `Classical_Prop.classic`.
* No axiom, `Variable`, `Hypothesis`, `Parameter` or functor of our own, and no
  primitive floats or integers: binary64 is `Coq.Floats.SpecFloat`.
* The reading of Python, numpy and the source text into Gallina. What each
  definition leaves out is in its comment; the list below collects it.

### Modelled

| code | model |
|---|---|
| `datautils.py` `masked`, `startstop_bool`, `slicelist` | `DataUtils.v` |
| `pack.py` `IntKeyDict`, `NpDict` | `Dicts.v` |
| `pack.py` `ChannelPack`, all methods | `Pack.v` (values), `PackHeap.v` (shared objects), `PackRepr.v` (`__repr__`) |
| `dbf.py` `dbfreader`, `dbfrecords`, `dbfpack` | `Dbf.v` |
| `xlrd/xldate.py` | `XlDate.v` |
| `readtext.py` `textpack`, `linetuples` and the functions inside them, on an opened stream | `ReadText.v` |
| `readtext.py` `preparse`, `lazy_textpack` | `Preparse.v` |
| `readtext.py` `contextopen`; `textpack`, `lazy_textpack`, `dbfpack` once more, call by call on an io object | `FileIO.v` |
| `readxl.py` `sheetpack`, `xlrd/__init__.py` `open_workbook`, `xlrd/book.py` `open_workbook_xls`, `biff2_8_load`, `release_resources` once more, as to what they open and close | `XlFiles.v` |
| `readxl.py` all functions, on an opened workbook (grids of values and cell types); `colname` (`xlrd/book.py`, `xlrd/formula.py`), `cellname`, `cell_name_to_rowx_colx`, `Sheet.col_values`/`col_types` | `ReadXl.v` |
| `xlrd/sheet.py` `cell`, `cell_value`, `cell_type`, `cell_xf_index` (without formatting_info), `row_len`, `row`, `__getitem__`, `get_rows`, `row_types`, `row_values`, `row_slice`, `col_slice`, `col_values`, `col_types`; `xlrd/book.py` `sheet_by_index`, `sheet_by_name`, `__getitem__`, `__iter__` | `XlAccess.v` |
| `xlrd/formula.py` `rownamerel`, `colnamerel`, `cellnameabs`, `cellnamerel`, `rangename2d`, `rangename2drel`, `rangename3d`, `rangename3drel`, `quotedsheetname`, `sheetrange`, `sheetrangerel` | `RangeName.v` |
| `xlrd/__init__.py` `count_records`, `xlrd/biffh.py` `biff_count_records`, `biff_rec_name_dict` (messages about the compound document left out) | `XlCount.v` |
| `xlrd/__init__.py` `dump`, `xlrd/biffh.py` `biff_dump`, `hex_char_dump` (its message to `sys.stdout` and messages about the compound document left out) | `XlDump.v` |
| `xlrd/book.py` `open_workbook_xls` with and without `on_demand`, `get_sheet`, `get_sheets`, `sheets`, `sheet_by_index`, `sheet_by_name`, `__getitem__`, `__iter__`, `sheet_loaded`, `unload_sheet`, `release_resources`, for BIFF8 (for BIFF 5 and 7 not) | `XlDemand.v` |
| `xlrd/book.py` `Name.cell`, `Name.area2d`, for books with all sheets loaded (without the dump to the log file) | `NameArea.v` |
| `xlrd/book.py` `expand_cell_address`, `display_cell_address`; `xlrd/formatting.py` `nearest_colour_index` (not the debug print, which is switched off) | `CellAddr.v` |
| `xlrd/sheet.py` WINDOW2 and SCL records in `Sheet.read`, `update_cooked_mag_factors`, for BIFF8 without `formatting_info` (not the warnings in the log file) | `SheetView.v` |
| `xlrd/sheet.py` the records about widths of columns in `Sheet.read`, as a fold over the records, and `computed_column_width` (of Colinfo objects only the width; not COLWIDTH and COLUMNDEFAULT records) | `ColWidth.v` |
| `xlrd/sheet.py` `put_cell_ragged`, `put_cell_unragged`, `tidy_dimensions` | `XlSheet.v` |
| `xlrd/sheet.py` `unpack_RK`, struct codes `i` and `d` | `XlStruct.v` |
| `xlrd/formatting.py` `is_date_format_string` and its tables | `FmtDate.v` |
| `xlrd/biffh.py` `unpack_unicode`, `unpack_unicode_update_pos` (with `known_len` in `XlNames.v`); `xlrd/book.py` `unpack_SST_table` | `Sst.v` |
| `xlrd/compdoc.py` (without debug output and log messages) | `CompDoc.v` |
| `xlrd/__init__.py` `open_workbook`, `xlrd/book.py` `biff2_8_load`, `getbof`, `parse_globals` and its handlers, `get_sheets`; `xlrd/formatting.py` `handle_format`, `handle_xf`, `xf_epilogue`; `xlrd/sheet.py` `Sheet.read`, `string_record_contents`: for BIFF8 and the default arguments, which `readxl.py` uses | `Biff.v` |
| the same for BIFF 2 to 7 | `BiffOld.v` |
| `xlrd/formula.py` `evaluate_name_formula` and what it calls, for BIFF 5 to 8; `xlrd/book.py` `handle_name`, `names_epilogue`: kinds and values of operands, not the texts | `XlNames.v` |
| `xlrd/sheet.py` `handle_hlink`, `handle_quicktip`, `handle_obj`, `handle_note` for BIFF8 (`handle_txo` in `Biff.v`): whether they raise, not what they collect | `XlObjects.v` |
| `xlrd/__init__.py` `open_workbook` on zip files; `xlrd/xlsx.py`, on an archive of parsed XML documents and for the default arguments | `Xlsx.v` |

### Not modelled

* numpy beyond one-dimensional arrays of the kinds in `NumPy.v`; the item
  sizes inside a kind; structured dtypes.
* Warnings, logging, `repr` of arrays and values, docstrings; arrays given as `nof`
  (`==` is elementwise on them); the operating system's file
  layer (files are strings of bytes or characters with a position; in `FileIO.v`
  calls may also fail), and the garbage collector.
* Decimal text of floats (`str(float)`), locale, time zones, memory limits.
* xlrd: `formatting_info` and the
  other arguments `readxl.py` does not use, and what links, notes and
  drawn objects say (only whether reading them raises). In the
  formulas of names: powers of constants, numbers joined to text, arithmetic with a unary plus of a
  text or reference (`Err NotModelled`; excluded by `harmless`), and the text of a
  formula, which is not looked at.
* `zipfile` and ElementTree: an archive is the list of its members with the tree
  of elements each is parsed to; expat's limits and entities. `.xlsb` and `.ods`
  files are refused.
* The codecs of file decoding: a codec is a function from bytes to characters.
* Which characters beyond ASCII are word characters for `re`: any function
  (`lazy_textpack`). Which are white space and decimal digits for `str.split`,
  `str.strip`, `\d`, `float` and `int` is listed as of Unicode 14
  (`PyBase.v`, `SpecChars.v`); the lists of other versions of Unicode have further digits.
