{"id": "C01", "title": "Parts are exactly the maximal True runs of the mask", "statement": "After a mask is set on a pack, parts() enumerates 0..n-1, part k is the k-th maximal run of True elements of the mask (in order, non-empty, disjoint, separated by at least one False), and every True index belongs to exactly one part.", "quantifier": "every mask array of any length and content", "why_tests_cant": "the claim is about all 2^n masks of every length n; tests sample a handful of shapes", "anchors": ["channelpack/datautils.py:slicelist", "channelpack/pack.py:ChannelPack._slicelist", "channelpack/pack.py:ChannelPack.parts", "channelpack/pack.py:ChannelPack.__call__"]}
{"id": "C02", "title": "Filtered data is the concatenation of the parts", "statement": "For a boolean mask as long as the channel, pack(ch, nof='filter') equals the concatenation of pack(ch, part=k) for k in parts(), and equals the subsequence of channel elements whose mask element is True, in order.", "quantifier": "every channel array, every boolean mask of the same length", "why_tests_cant": "relates two different code paths over all data/mask pairs", "anchors": ["channelpack/pack.py:ChannelPack.__call__", "channelpack/datautils.py:slicelist"]}
{"id": "C03", "title": "nof='nan' replaces exactly the masked-out elements", "statement": "pack(ch, nof='nan') has the channel's length; where the mask is True the element equals the channel's element (for float, complex, string and object channels, and for integers representable in double precision), elsewhere it is nan (numeric channels) or None (all others). For integers beyond 2^53 equality can fail because of the float upcast. With a mask of another length than the channel it raises ValueError, unless one of the two has a single element, which then goes with every element of the other.", "quantifier": "every channel array of every dtype kind and every boolean mask of the same or another length", "why_tests_cant": "pointwise statement over unbounded arrays and all integer magnitudes", "anchors": ["channelpack/datautils.py:masked", "channelpack/pack.py:ChannelPack.__call__"]}
{"id": "C04", "title": "Start/stop trigger result is determined by the most recent trigger", "statement": "Element i of the startstop result is True iff there is a j <= i with startb[j] true and no k in [j, i] with stopb[k] true; the result has the length of the shorter input.", "quantifier": "all pairs of trigger sequences of any (possibly different) lengths", "why_tests_cant": "history-dependent state machine: the spec quantifies over all prefixes", "anchors": ["channelpack/datautils.py:startstop_bool", "channelpack/pack.py:ChannelPack.startstop"]}
{"id": "C05", "title": "startstop(apply=True) narrows the mask and keeps parts and mindur consistent", "statement": "With apply=True and equal lengths the new mask is the elementwise and of the old mask and the result, further reduced by mindur if set; it never turns a False element True; parts() afterwards describes the new mask; the same result is returned as with apply=False, which leaves the pack unchanged.", "quantifier": "all packs, all trigger sequences", "why_tests_cant": "composition of three stateful features over all states", "anchors": ["channelpack/pack.py:ChannelPack.startstop", "channelpack/pack.py:ChannelPack.__setattr__", "channelpack/pack.py:ChannelPack.duration"]}
{"id": "C06", "title": "duration keeps exactly the long enough (short enough) parts", "statement": "duration(d, s, mindur=True) makes False exactly the elements of the maximal True runs shorter than int(d*s) and leaves all other elements; mindur=False does the same for runs longer than int(d*s). The surviving parts are the same runs as before, in order; repeating the call changes nothing; requirements compose (min a then min b equals min max(a,b)).", "quantifier": "all boolean masks, all durations and sample rates", "why_tests_cant": "run-structure property over all masks; idempotence and composition are algebraic laws", "anchors": ["channelpack/pack.py:ChannelPack.duration", "channelpack/datautils.py:slicelist"]}
{"id": "C07", "title": "When \"at least duration long\" is honoured for fractional requirements", "statement": "For a non-negative requirement p = duration*samplerate (as computed), a part of n samples survives duration(..., mindur=True) iff n + 1 > p. Hence every part with n >= p survives, and no part with n < p survives when p is an integer; when p is not an integer parts with p - 1 < n < p survive although they are shorter than requested. With mindur=False a part survives iff n <= p, for every p >= 0.", "quantifier": "all part lengths and all non-negative int/float durations and rates", "why_tests_cant": "boundary analysis over all rational requirements and float rounding", "anchors": ["channelpack/pack.py:ChannelPack.duration"]}
{"id": "C08", "title": "mindur is a persistent invariant", "statement": "While mindur is an integer m, after every public operation (construction, data/mask/mindur/names/nof/fn assignment, duration, startstop, mask_reset, append_pack, calls) on an unshared pack, every part of the mask has at least m elements.", "quantifier": "all finite sequences of operations from construction", "why_tests_cant": "invariant over unbounded operation histories", "anchors": ["channelpack/pack.py:ChannelPack.__setattr__", "channelpack/pack.py:ChannelPack.duration", "channelpack/pack.py:ChannelPack.mask_reset"]}
{"id": "C09", "title": "parts() always reflects the current mask", "statement": "For a pack whose mask array is not written from outside and not the mask of another pack, after every operation history, also with other arrays and dicts shared between packs, parts() and part selection describe the current mask. Editing mask elements in place, or sharing the mask array with another pack, breaks this (the cached parts become stale).", "quantifier": "all finite operation histories", "why_tests_cant": "cache-coherence invariant over unbounded histories", "anchors": ["channelpack/pack.py:ChannelPack.__setattr__", "channelpack/pack.py:ChannelPack.parts", "channelpack/pack.py:ChannelPack.duration"]}
{"id": "C10", "title": "mask_reset gives a full mask on the lowest channel", "statement": "mask_reset sets a mask with the length of the channel with the smallest key, whose element i is True iff element i of that channel equals itself, then applies mindur. It is all True when that channel contains no nan; with a nan in that channel the documented \"all True\" is false.", "quantifier": "all packs and channel contents", "why_tests_cant": "depends on floating point semantics for all values", "anchors": ["channelpack/pack.py:ChannelPack.mask_reset"]}
{"id": "C11", "title": "Part selection and out-of-range parts", "statement": "pack(ch, part=k) with 0 <= k < len(parts()) returns the slice of the channel for the k-th part whatever nof is; k >= len(parts()) or k < -len(parts()) raises IndexError; negative k in range counts from the end.", "quantifier": "all packs, all integers k", "why_tests_cant": "total over all integers and all states", "anchors": ["channelpack/pack.py:ChannelPack.__call__"]}
{"id": "C12", "title": "nof argument overrides the nof attribute", "statement": "The result of pack(ch, nof=a) is determined by the argument when it is 'nan', 'filter' or 'ignore' and by the attribute otherwise (arguments other than arrays); 'ignore' always yields the full channel; in reachable states the ValueError branch for a bad attribute never fires because the attribute is always one of 'nan', 'filter', None.", "quantifier": "all packs reachable by any operation history, all argument values", "why_tests_cant": "reachability over all histories", "anchors": ["channelpack/pack.py:ChannelPack.__call__", "channelpack/pack.py:ChannelPack.__setattr__"]}
{"id": "C13", "title": "Channel lookup order: key, then name, then fallback string", "statement": "A lookup succeeds only with a key of data; an integer present in data resolves to itself; a string equal to some name resolves to the first such name in names insertion order (KeyError if that key has no data, even if a later duplicate name has data); otherwise a fallback string resolves to its number if in data; otherwise KeyError.", "quantifier": "all data/name dicts, all lookup arguments", "why_tests_cant": "priority rule over arbitrary dictionaries with duplicates and misalignment", "anchors": ["channelpack/pack.py:ChannelPack._datakey", "channelpack/pack.py:ChannelPack.name", "channelpack/pack.py:ChannelPack.__call__"]}
{"id": "C14", "title": "Fallback strings round-trip", "statement": "For every key k in data, pack.name(k, fallback=True) is prefix+str(k) and, when no entry of names equals that string, calling the pack with it yields channel k. The converse recognition is a prefix match: trailing junk after the digits ('ch1x') is accepted as channel 1.", "quantifier": "all non-negative keys, all identifier prefixes, all names dicts", "why_tests_cant": "round trip for infinitely many keys; negative keys and shadowing names are corner cases", "anchors": ["channelpack/pack.py:ChannelPack._datakey", "channelpack/pack.py:ChannelPack.name"]}
{"id": "C15", "title": "append_pack concatenates every channel", "statement": "When both packs have data with the same key set and names do not conflict, after a.append_pack(b) each channel of a is the concatenation of the two channels (promoted to a common dtype), keys and their order are unchanged, filenames is the concatenation, b is unchanged, and the mask is reset to the new length.", "quantifier": "all pairs of packs with equal key sets", "why_tests_cant": "universally quantified functional correctness", "anchors": ["channelpack/pack.py:ChannelPack.append_pack"]}
{"id": "C16", "title": "append_pack error behaviour", "statement": "If the data key sets differ append_pack raises ValueError and leaves the pack unchanged. If only the names key sets differ it raises ValueError too, but the data has then already been extended while mask and filenames have not: the operation is not atomic.", "quantifier": "all pairs of packs", "why_tests_cant": "failure atomicity over all states", "anchors": ["channelpack/pack.py:ChannelPack.append_pack"]}
{"id": "C17", "title": "append_pack isolation between packs", "statement": "After a.append_pack(b) where a already holds data and names, later operations on a never change b, and no array is shared between them. With an a without data or names the two packs share their data and names dicts, and a later append to a changes b as well (and leaves b with a stale mask).", "quantifier": "all packs, all later operation histories on a", "why_tests_cant": "aliasing over unbounded histories", "anchors": ["channelpack/pack.py:ChannelPack.append_pack", "channelpack/pack.py:ChannelPack.__setattr__"]}
{"id": "C18", "title": "fn and filenames stay in step", "statement": "In every reachable state filenames is non-empty and its first element is fn; fn assignment changes only the first element; append_pack appends other.filenames after the existing ones.", "quantifier": "all operation histories", "why_tests_cant": "invariant over histories", "anchors": ["channelpack/pack.py:ChannelPack.__setattr__", "channelpack/pack.py:ChannelPack.append_pack"]}
{"id": "C19", "title": "Reading calls do not change the pack, and what they return", "statement": "pack(...), parts(), records(), name(), repr(), startstop(apply=False) change no observable state. pack(ch), pack(ch, part=k) and nof='ignore' return the stored array or a view of it (writing through it changes the pack), nof='nan' and nof='filter' return fresh arrays (writing through them never changes any pack).", "quantifier": "all heaps of packs/arrays, all calls", "why_tests_cant": "aliasing/frame property over all heap shapes", "anchors": ["channelpack/pack.py:ChannelPack.__call__", "channelpack/pack.py:ChannelPack.records", "channelpack/pack.py:ChannelPack.name", "channelpack/pack.py:ChannelPack.startstop"]}
{"id": "C20", "title": "Data and names dicts have only integer keys", "statement": "Under item assignment, setdefault, update and construction with dicts and sequences of pairs (lists/tuples), every key of a pack data/names dict is an int, a rejected non-int key raises TypeError without changing the dict (for a data dict ValueError when a value is unacceptable as well), and an accepted update stores the last value given for each key. Assignment, setdefault and pop change what they name and no other key; pop of a missing key raises KeyError and changes nothing.", "quantifier": "all histories of dict operations with arbitrary Python objects as arguments", "why_tests_cant": "invariant over all argument shapes", "anchors": ["channelpack/pack.py:IntKeyDict", "channelpack/pack.py:NpDict"]}
{"id": "C21", "title": "Integer-key protection has holes", "statement": "The documented \"only accepts integers as keys\" fails for names dicts: update/construct with one-shot iterators silently loses all entries, and pairs given as two-element sets, as iterators, as dicts, through a non-dict mapping with long string keys, or with the |= operator insert non-integer keys.", "quantifier": "existential over argument objects", "why_tests_cant": "existence of silent data loss is invisible to example tests that do not think of it", "anchors": ["channelpack/pack.py:IntKeyDict.update"]}
{"id": "C22", "title": "Data values are one-dimensional arrays, and rejected values change nothing", "statement": "Every value in a data dict is a one-dimensional array after any history of item assignments, setdefault, update (no pair being a set or an iterator), pop and clear. An item assignment, setdefault, update or construction with a value that is not one-dimensional raises ValueError and leaves the dict as it was, even if earlier entries of the same update were acceptable.", "quantifier": "all histories, all argument lists", "why_tests_cant": "invariant plus all-or-nothing over all argument lists", "anchors": ["channelpack/pack.py:NpDict.__setitem__", "channelpack/pack.py:NpDict.update", "channelpack/pack.py:NpDict.setdefault"]}
{"id": "C23", "title": "Attribute type protection", "statement": "nof outside 'nan'/'filter'/None and not an array (arrays compare elementwise) raises ValueError; non-string FALLBACK_PREFIX or fn, non-array mask, mindur neither None nor int raise TypeError; in each case the pack is unchanged. Protected attributes cannot be deleted; mask can.", "quantifier": "all values, all states", "why_tests_cant": "holds for every value and every pack state", "anchors": ["channelpack/pack.py:ChannelPack.__setattr__", "channelpack/pack.py:ChannelPack.__delattr__"]}
{"id": "C24", "title": "Assigning data resets the mask, except for NpDict values", "statement": "Assigning a plain dict to data stores the converted arrays and resets the mask so that mask length equals the lowest channel length. Assigning an NpDict (for example q.data) stores that same dict object and leaves the old mask in place, so the mask can have the wrong length.", "quantifier": "all packs and dicts", "why_tests_cant": "documented promise that fails on one branch; needs all states", "anchors": ["channelpack/pack.py:ChannelPack.__setattr__"]}
{"id": "C25", "title": "records are the rows of the selected channels", "statement": "With valid distinct names (of letters of ASCII and Latin 1, digits and underscores) whose channels have data, records(part, nof) yields, in order, the tuples of i-th elements of the selected channels in ascending key order, as many as the shortest selected channel, with the names as field names. With fallback=True fields are prefix+key for all data keys in ascending order; a name in names equal to a fallback string makes records deliver the wrong channel under that label. A duplicated name, or one with a character in the wrong place or reserved by the language, raises ValueError.", "quantifier": "all packs", "why_tests_cant": "row/column correspondence over all shapes; mislabel existence", "anchors": ["channelpack/pack.py:ChannelPack.records"]}
{"id": "C26", "title": "name() helper", "statement": "name(ch) returns the stored name of the resolved key; with firstwordonly=True its first whitespace-separated word (IndexError when the name is blank); with fallback=True prefix+key irrespective of names.", "quantifier": "all packs, names and lookup arguments", "why_tests_cant": "all strings", "anchors": ["channelpack/pack.py:ChannelPack.name"]}
{"id": "C27", "title": "Text table round trip", "statement": "Writing a rectangular table of fields (no field containing the delimiter, a newline or white space at its ends, at least one column, no empty field if there is only one column, every field readable by the type of its column) with a delimiter, one line per row, and reading it with textpack(delimiter=...) gives one channel per column and exactly the field values (floats for numeric columns, strings for the others).", "quantifier": "all rectangular tables, all non-whitespace single-character delimiters", "why_tests_cant": "inverse function law over all tables", "anchors": ["channelpack/readtext.py:textpack", "channelpack/readtext.py:linetuples"]}
{"id": "C28", "title": "Channels read from text always have equal length", "statement": "Whenever textpack (without debug) succeeds, all channels have the same number of elements, even if the lines have differing numbers of fields.", "quantifier": "all inputs for which textpack succeeds", "why_tests_cant": "all ragged inputs", "anchors": ["channelpack/readtext.py:textpack", "channelpack/readtext.py:linetuples"]}
{"id": "C29", "title": "usecols selects columns", "statement": "With strictly ascending usecols inside the width of the table, textpack gives channels keyed by exactly those column numbers and channel c equals channel c of the unrestricted read. With unsorted or duplicated usecols channels are mislabelled.", "quantifier": "all texts that can be read without usecols, all strictly ascending usecols among the channels read", "why_tests_cant": "relates two runs over all tables and selections", "anchors": ["channelpack/readtext.py:textpack", "channelpack/readtext.py:linetuples"]}
{"id": "C30", "title": "Column types are fixed by the first data line", "statement": "A column is numeric iff its first field parses as a float, possibly after replacing comma by dot; if any column needs the comma form then all numeric columns accept commas; empty fields in numeric columns become nan; a non-numeric field later in a numeric column fails the read, with ValueError for text.", "quantifier": "all inputs", "why_tests_cant": "all field strings", "anchors": ["channelpack/readtext.py:linetuples", "channelpack/readtext.py:_floatit"]}
{"id": "C31", "title": "Blank lines are ignored and short lines truncate", "statement": "After the first data line, lines consisting of white space other than the delimiter (other than TAB without a delimiter) contribute no record; without a delimiter a line of TABs does, an empty one, so that no channel is left; the number of channels equals the minimum number of fields over all data lines (so one short line drops the trailing columns of the whole read).", "quantifier": "all inputs read without usecols", "why_tests_cant": "all placements of blank/short lines", "anchors": ["channelpack/readtext.py:linetuples", "channelpack/readtext.py:textpack"]}
{"id": "C32", "title": "Names line", "statement": "With hasnames=True and skiprows=n >= 1 the n-th line supplies the names: the names dict maps column number to the stripped field for the (selected) columns, and data is the same as reading with hasnames=False.", "quantifier": "all inputs", "why_tests_cant": "relates two runs over all inputs", "anchors": ["channelpack/readtext.py:textpack", "channelpack/readtext.py:linetuples"]}
{"id": "C33", "title": "debug=True does not change the result on rectangular data", "statement": "For inputs where every data line has at least as many fields as the first line, and with usecols ascending, textpack(debug=True) returns the same data as debug=False and fails iff it fails; on ragged data or an unconvertible first line it behaves differently (unequal channel lengths, KeyError instead of the conversion error).", "quantifier": "all inputs", "why_tests_cant": "equivalence of two code paths over all inputs", "anchors": ["channelpack/readtext.py:textpack"]}
{"id": "C34", "title": "preparse finds the data block of a clean numeric file", "statement": "For lines made of a header (any lines, the last without a digit) followed by rows of n >= 2 numbers with one delimiter between them (white space around it allowed; the delimiter has no digit, sign, point, comma or e) and blank lines, preparse reports skiprows = number of header lines, that delimiter, usecols 0..n-1, a converter for every column exactly if the numbers have decimal commas (and the last row shows one between digits), and the names of the last header line with n fields; likewise for one number per line, without delimiter. lazy_textpack then loads the numbers of each column under those names. Outside these conditions (comma as delimiter between integers, decimal commas not shown in the last row, columns aligned by varying spaces, text around single numbers) the result is silently wrong. preparse fails, with IndexError, exactly when every line is blank.", "quantifier": "all headers, all numeric tables, all numbers of lines looked at that reach the first row", "why_tests_cant": "search over regular-expression matches for all tables", "anchors": ["channelpack/readtext.py:preparse", "channelpack/readtext.py:lazy_textpack"]}
{"id": "C35", "title": "lazy_textpack: caller arguments override derived ones", "statement": "Every keyword argument given by the caller reaches textpack unchanged; derived values are used only for arguments not given; with usecols (other than None) given and names not, derived names are restricted to usecols; if nothing was derived, ValueError when nothing was given, else textpack gets just the given arguments. textpack reads from the beginning of the stream, also when the format was derived from a later position.", "quantifier": "all derived/explicit argument dictionaries", "why_tests_cant": "all combinations of keys", "anchors": ["channelpack/readtext.py:lazy_textpack"]}
{"id": "C36", "title": "DBF decoding inverts encoding", "statement": "For every table of supported field types encoded to a well-formed DBF byte string, dbfpack returns the field names keyed 0..n-1 and the columns of the non-deleted records in order, with N/F/D/L/C fields converted back to the encoded values.", "quantifier": "all schemas, all record lists, all deletion flags", "why_tests_cant": "inverse law over all files", "anchors": ["channelpack/dbf.py:dbfreader", "channelpack/dbf.py:dbfpack"]}
{"id": "C37", "title": "DBF column selection equals projection", "statement": "dbfpack(f, names=S) returns, for the fields whose name is in S, the same channels under the same keys as dbfpack(f) when no record is deleted or the last field is selected; with a deleted record and an unselected last field the following records are read from wrong offsets.", "quantifier": "all well-formed files, all selections", "why_tests_cant": "relates two parsers over all files", "anchors": ["channelpack/dbf.py:dbfrecords", "channelpack/dbf.py:dbfpack"]}
{"id": "C38", "title": "DBF deleted records never appear", "statement": "The number of records delivered by the full reader equals the number of records whose deletion flag is a space, and the file position advances by exactly one record length per record.", "quantifier": "all byte strings with a valid header", "why_tests_cant": "loop invariant over all files", "anchors": ["channelpack/dbf.py:dbfreader"]}
{"id": "C39", "title": "DBF truncation is detected by the full reader", "statement": "If the file holds fewer bytes than header + numrec records, the full reader raises struct.error; it never delivers fewer records silently. The selecting reader misses truncation inside unselected trailing fields.", "quantifier": "all byte strings", "why_tests_cant": "all truncation points (crash points of a copy)", "anchors": ["channelpack/dbf.py:dbfreader", "channelpack/dbf.py:dbfrecords"]}
{"id": "C40", "title": "DBF field conversion", "statement": "N fields: blank/NUL -> nan, else int or float by decimals; D: blank -> None, else the date, ValueError for impossible dates; L: T/F/? total; F: blank -> nan; others: ASCII text unchanged.", "quantifier": "all field byte strings", "why_tests_cant": "all byte strings", "anchors": ["channelpack/dbf.py:dbfreader"]}
{"id": "C41", "title": "Column letters are a bijection", "statement": "letter2num is a bijection between non-empty strings over A-Z (case-insensitively) and the non-negative integers, strictly monotone in (length, lexicographic) order; the empty text and texts with a character that is not a letter raise AssertionError, except for the few non-ASCII letters (like sharp s) whose upper case is in A-Z, which are taken as that.", "quantifier": "all strings", "why_tests_cant": "infinite bijection", "anchors": ["channelpack/readxl.py:letter2num"]}
{"id": "C42", "title": "Column naming inverts column parsing", "statement": "The column name produced for index n by the workbook helper is parsed back to n, for every n; the two-letter helper agrees with it for n < 702 and raises IndexError from there on; negative indices are an AssertionError for the former but wrap around in the latter.", "quantifier": "all non-negative integers", "why_tests_cant": "infinite inverse law", "anchors": ["channelpack/readxl.py:letter2num", "channelpack/xlrd/book.py:colname", "channelpack/xlrd/formula.py:colname", "channelpack/xlrd/formula.py:cellname"]}
{"id": "C43", "title": "Cell references parse and print consistently", "statement": "cellreference(xladdr=letters+digits) gives row digits-1 and the column of the letters; row 0 and non-letter starts raise ValueError; a bare column takes the row argument; trailing junk is silently ignored. The xlsx cell-name parser agrees with it on every A1 address whose row has no leading zero, up to the column XFD, and both invert the address printer.", "quantifier": "all addresses", "why_tests_cant": "all strings", "anchors": ["channelpack/readxl.py:cellreference", "channelpack/xlrd/xlsx.py:cell_name_to_rowx_colx", "channelpack/xlrd/formula.py:cellname"]}
{"id": "C44", "title": "usecols normalisation", "statement": "normalize_usecols returns a sorted list; for lists, tuples, sets, iterators and dicts a permutation of the items or keys, each as an integer (floats cut off, texts decimal); for strings like 'C:E,H' exactly the columns denoted by the comma separated singles and inclusive ranges, with multiplicity; reversed ranges contribute nothing, empty fields and white space around fields are ignored, white space within a range is an error.", "quantifier": "all pattern strings and integer sequences", "why_tests_cant": "all inputs", "anchors": ["channelpack/readxl.py:normalize_usecols"]}
{"id": "C45", "title": "Spreadsheet column typing", "statement": "A column with only numbers and missing cells becomes floats with nan for missing; only text and missing becomes strings with the empty string; otherwise dates become datetimes, booleans bools, missing None, others unchanged. Lengths are preserved and no cell is moved.", "quantifier": "all columns of typed cells", "why_tests_cant": "case analysis over all cell-type combinations and lengths", "anchors": ["channelpack/readxl.py:sheet_columns"]}
{"id": "C46", "title": "sheetpack returns exactly the requested rectangle", "statement": "For a rectangular sheet, sheetpack returns one channel per used column keyed by the spreadsheet column, the rows from the start cell (after the header) to the stop cell inclusive or the end of the sheet if that comes first, and names from the header row; usecols outside the range raise ValueError, an empty column range IndexError. A stop cell without a row number stops at the first row. A header that is true but neither True nor a text raises UnboundLocalError once the cells are read. usecols as an array of two or more columns raises ValueError, and an array of column 0 alone means all columns.", "quantifier": "all sheets, start/stop cells, usecols", "why_tests_cant": "all rectangles", "anchors": ["channelpack/readxl.py:sheetpack", "channelpack/readxl.py:sheet_columns", "channelpack/xlrd/sheet.py:Sheet.col_values", "channelpack/xlrd/sheet.py:Sheet.col_types"]}
{"id": "C47", "title": "Excel date round trip", "statement": "Encoding any valid date and time to a serial and decoding it gives the original, for both date systems, for all dates from 1900-03-01 (1904-01-02 resp.) to 9999-12-31, and for times alone; the encoder accepts no other tuples; decoding is monotone in the serial, whole or not, and consecutive serials are consecutive days; serials outside the range raise the error of their kind. The documented ambiguous range 1.0 <= serial < 61.0 is only right up to the rounding to whole seconds.", "quantifier": "all dates and all serials", "why_tests_cant": "millions of dates and all integers", "anchors": ["channelpack/xlrd/xldate.py:xldate_as_tuple", "channelpack/xlrd/xldate.py:xldate_from_date_tuple", "channelpack/xlrd/xldate.py:xldate_as_datetime"]}
{"id": "C48", "title": "Datetime decoding agrees with tuple decoding", "statement": "For integral serials in the range accepted by the tuple decoder, xldate_as_datetime gives the same calendar date, in both date modes; serials 59 and 60 of the 1900 system map to the same datetime, so the decoding used by sheetpack is not injective there, and this is the only such pair of whole serials; encoded dates and times decode to the exact datetime; for other serials the two decoders differ by at most half a second and a millisecond.", "quantifier": "all integral serials", "why_tests_cant": "all serials in both modes", "anchors": ["channelpack/xlrd/xldate.py:xldate_as_datetime", "channelpack/xlrd/xldate.py:xldate_as_tuple"]}
{"id": "C49", "title": "Sheet grid assembly is a faithful finite map", "statement": "After any sequence of acceptable cell insertions in any order, any merged ranges and the final tidy-up, the sheet is rectangular, its size is one past the largest row/column inserted or merged, the cell at (r, c) holds the last value, type and format put there and every other cell is empty; with ragged_rows every row ends at its last cell. An insertion beyond the limits of the format or with an unknown format raises. A pack read from the sheet holds those cells.", "quantifier": "all finite sequences of cell insertions (row and column not negative; a negative row is counted from the end)", "why_tests_cant": "all insertion orders; optimisation on first full row", "anchors": ["channelpack/xlrd/sheet.py:Sheet.put_cell_unragged", "channelpack/xlrd/sheet.py:Sheet.put_cell_ragged", "channelpack/xlrd/sheet.py:Sheet.tidy_dimensions"]}
{"id": "C50", "title": "RK number decoding", "statement": "unpack_RK gives, for every 4-byte RK word, the number defined by the file format: the 30-bit signed integer or the truncated double, divided by 100 when flagged.", "quantifier": "all 2^32 RK words", "why_tests_cant": "4 billion inputs with signs and flags", "anchors": ["channelpack/xlrd/sheet.py:unpack_RK"]}
{"id": "C51", "title": "Compound document chain walking terminates and reads the right bytes", "statement": "Reading a stream by its sector chain terminates on every allocation table in the main-stream mode, yields the concatenation of the chain sectors cut to the stream size (for directory entries before number 250: later ones overflow the byte used as a mark), and reports an error on cyclic chains; locating the stream gives the same bytes; the short-stream mode does not check for cycles and does not terminate on a cyclic table.", "quantifier": "all allocation tables and sector contents", "why_tests_cant": "corrupt inputs: all graphs", "anchors": ["channelpack/xlrd/compdoc.py:CompDoc._get_stream", "channelpack/xlrd/compdoc.py:CompDoc._locate_stream"]}
{"id": "C52", "title": "Directory tree walk of a compound document", "statement": "When the links of the directory form a tree the family tree walk visits every reachable entry exactly once, lists the children of every storage in order and sets their parent to the storage that contains them; it returns exactly when the links unfold to a finite tree (an entry reached twice is visited twice), so for a cyclic directory it never returns normally.", "quantifier": "all directory tables", "why_tests_cant": "all graphs", "anchors": ["channelpack/xlrd/compdoc.py:_build_family_tree"]}
{"id": "C53", "title": "Date format detection", "statement": "Every format string splits into quoted text, escaped characters, bracketed sections and plain characters, and is_date_format_string calls it a date exactly when more date characters than number characters stand outside the quotes, escapes and brackets; changing what stands inside them never changes the verdict.", "quantifier": "all format strings", "why_tests_cant": "all strings", "anchors": ["channelpack/xlrd/formatting.py:is_date_format_string"]}
{"id": "C54", "title": "Shared string table and unicode string decoding", "statement": "Decoding an encoded BIFF8 string table returns the strings and their formatting runs in order, for one and two byte characters, with phonetic data skipped, and wherever the byte stream is cut into continuation records (within the characters, before a run, within the phonetic data, between strings), except between the two units of a character beyond 65535, where it fails, and right after phonetic data that were cut, where it reads from the wrong place. A string in one piece is read back from any position, and the end position told is where it ends.", "quantifier": "all string lists, all cut points", "why_tests_cant": "all split positions", "anchors": ["channelpack/xlrd/book.py:unpack_SST_table", "channelpack/xlrd/biffh.py:unpack_unicode"]}
{"id": "C55", "title": "Sharing does not matter for unshared packs", "statement": "A pack which shares neither its dicts nor its mask array behaves as a plain value: after any history of operations on it and on other packs it holds exactly what its own operations alone produce from its initial content, and each operation has the same outcome.", "quantifier": "all worlds of packs, dicts and arrays, all histories", "why_tests_cant": "refinement between object graph and values over unbounded histories", "anchors": ["channelpack/pack.py:ChannelPack.__setattr__", "channelpack/pack.py:ChannelPack.append_pack", "channelpack/pack.py:ChannelPack.__call__"]}
{"id": "C56", "title": "Opening a compound document", "statement": "For every compound document written by the format (any sector sizes from 8 bytes, any extension of the master table, any directory whose links form a tree, any container of short streams) opening it gives the allocation table, the table of the short streams, the container and the directory entries as written. Whatever file opens has no sector in two of these uses. A file without the signature or the byte order mark is refused.", "quantifier": "all documents, all files", "why_tests_cant": "all layouts of sectors; corrupt inputs", "anchors": ["channelpack/xlrd/compdoc.py:CompDoc.__init__", "channelpack/xlrd/compdoc.py:DirNode.__init__"]}
{"id": "C57", "title": "Streams of a compound document are found by name and delivered as written", "statement": "Looking for a path of ASCII names finds a stream exactly when the path, or a first part of it, leads through storages to it, with names compared without regard to case, finds nothing exactly when a storage on the way has no entry of that name, and raises otherwise. Streams asked for one after another by get_named_stream or locate_named_stream are delivered as they were written, long or short, as long as no long stream is asked for twice; the second time a long stream is reported as corrupt, unless the document was opened to ignore that and the stream is located.", "quantifier": "all documents, directories, paths and histories of requests", "why_tests_cant": "all layouts; effects of earlier requests on later ones", "anchors": ["channelpack/xlrd/compdoc.py:CompDoc._dir_search", "channelpack/xlrd/compdoc.py:CompDoc.get_named_stream", "channelpack/xlrd/compdoc.py:CompDoc.locate_named_stream"]}
{"id": "C58", "title": "A BIFF8 workbook opens and shows the cells written", "statement": "For every BIFF8 workbook stream (any order of its global records, links to other workbooks and harmless defined names, shared strings cut anywhere between characters, any formats, any sheets with number, RK, multiple RK, text, rich text, logical, error and formula cells and any records without a meaning to the reader), opening the file gives the names of the worksheets, the date mode and sheets that show in every place the cell written last with its value and type, a number being a date exactly when its format is one, and nothing elsewhere; provided the dimensions come before the cells and no formula text has characters beyond 65535. An encrypted workbook is refused, a sheet cut off before its end is an error, and opening any file which is not a compound document ends.", "quantifier": "all workbook streams, all files", "why_tests_cant": "all record sequences, placements and cuts; arbitrary corrupt input", "anchors": ["channelpack/xlrd/book.py:Book.parse_globals", "channelpack/xlrd/book.py:open_workbook_xls", "channelpack/xlrd/sheet.py:Sheet.read", "channelpack/xlrd/formatting.py:handle_format"]}
{"id": "C59", "title": "A pack read from an .xls file holds the cells written", "statement": "For every BIFF8 workbook, stored as a bare stream or as the stream Workbook, or Book when there is none, of any compound document, sheetpack with any sheet by position or name, any range, header and columns within the sheet gives one channel for each used column which holds the cells written in its rows, typed by their kinds and with the date mode of the workbook, and is named as the header says.", "quantifier": "all workbooks, documents and arguments", "why_tests_cant": "end to end over all layouts of the file", "anchors": ["channelpack/readxl.py:sheetpack", "channelpack/xlrd/book.py:Book.biff2_8_load", "channelpack/xlrd/sheet.py:Sheet.read"]}
{"id": "C60", "title": "Numbers in text are read as the nearest doubles", "statement": "Every decimal (digits with or without a point, a sign, a power of ten, of any length) has exactly one nearest double, ties going to the even mantissa and numbers from 2^1024 - 2^970 on to infinity. A text table of decimals, with decimal points or decimal commas, is read as float channels holding that double for every field, and so is every decimal of a number or float field of a dBASE file.", "quantifier": "all decimals of any length and power, all tables", "why_tests_cant": "all digit strings; correct rounding fails on rare inputs only", "anchors": ["channelpack/readtext.py:textpack", "channelpack/readtext.py:lazy_textpack", "channelpack/dbf.py:dbfreader", "channelpack/dbf.py:dbfpack"]}
{"id": "C61", "title": "An xlsx workbook opens and shows the cells written", "statement": "For every xlsx archive whose parts make sense (worksheets and other tabs in any order, absolute and relative targets, part names in any case, shared strings with runs and escapes, any cell formats, rows and cells with or without names, numbers, shared, inline and formula texts, truth values, errors, merged ranges, comments), opening it gives the names of the worksheets in order, the date mode and sheets that show in every place the cell written last with its value and type, a number being the nearest double and a date exactly when its format is one, and nothing elsewhere; provided the relationships of a worksheet are in a member whose name has no capitals. A worksheet with a row outside the limits, a cell of unknown type, a cell name against the number of its row, a shared string that does not exist or a text that is no truth value or no error is refused, and so is an archive without the workbook or a worksheet. Not refused: a cell name against the position of a row without number, and a negative number of a shared string.", "quantifier": "all archives of XML documents", "why_tests_cant": "all documents and archives; corrupt input", "anchors": ["channelpack/xlrd/xlsx.py:open_workbook_2007_xml", "channelpack/xlrd/xlsx.py:X12Book.process_stream", "channelpack/xlrd/xlsx.py:X12Sheet.do_row", "channelpack/xlrd/xlsx.py:X12Styles.do_xf", "channelpack/xlrd/xlsx.py:X12SST.process_stream_iterparse"]}
{"id": "C62", "title": "A pack read from an .xlsx file holds the cells written", "statement": "For every such archive, sheetpack with any sheet by position or name, any range, header and columns within the sheet gives one channel for each used column which holds the cells written in its rows, typed by their kinds and with the date mode of the workbook, and is named as the header says.", "quantifier": "all archives and arguments", "why_tests_cant": "end to end over all layouts of the file", "anchors": ["channelpack/readxl.py:sheetpack", "channelpack/xlrd/xlsx.py:open_workbook_2007_xml", "channelpack/xlrd/xlsx.py:X12Sheet.do_row"]}
{"id": "C63", "title": "Defined names make no difference to a BIFF8 workbook", "statement": "A BIFF8 workbook with defined names (formulas with references to this and other workbooks, constants, operators, function calls and other names; names without a formula; macro and binary names; names for a sheet or for all) opens and has the same sheets, cells and date mode as the same workbook without them, provided the formulas are harmless: no division of constants other than by a number written down that is not zero, no power of constants or number joined to text, no arithmetic between a text and a number, no comparison by order of texts with numbers, no computed whole number together with a double, no unions within unions, no deleted end of a range, no call without arguments in the form for any number of arguments, no CHOOSE by a number that is not constant, no name that uses itself, a macro or a name of a sheet without cells, and no chain of more than eleven names. Each of these, fine in Excel, can keep the workbook from being opened (powers and joined numbers aside, which are not modelled).", "quantifier": "all workbook streams, all names and formulas", "why_tests_cant": "all formulas; recursion through names", "anchors": ["channelpack/xlrd/formula.py:evaluate_name_formula", "channelpack/xlrd/book.py:Book.handle_name", "channelpack/xlrd/book.py:Book.names_epilogue", "channelpack/xlrd/book.py:Book.handle_externsheet", "channelpack/xlrd/book.py:Book.handle_supbook"]}
{"id": "C64", "title": "Links, notes and drawn objects make no difference to a BIFF8 workbook", "statement": "A BIFF8 workbook with links (to URLs, files, shares, places in the workbook and targets of unknown kinds, with or without text, frame and mark), tips for them, notes, drawn objects and text boxes in its sheets opens and has the same sheets, cells and date mode as the same workbook without them, provided no URL has a character beyond 65535, no mark follows a target of unknown kind, every tip is for the cells of the last link before it, no object record is empty and no text box comes before the first object. Each of these keeps the workbook from being opened.", "quantifier": "all workbook streams, all such records in any places", "why_tests_cant": "all texts, options and splits of text over records", "anchors": ["channelpack/xlrd/sheet.py:Sheet.handle_hlink", "channelpack/xlrd/sheet.py:Sheet.handle_quicktip", "channelpack/xlrd/sheet.py:Sheet.handle_obj", "channelpack/xlrd/sheet.py:Sheet.handle_note", "channelpack/xlrd/sheet.py:Sheet.handle_txo"]}
{"id": "C65", "title": "Opening a file ends, whatever is in it", "statement": "open_workbook on any string of bytes (other than zip files, workbooks of BIFF8 with a SHEETHDR record, and names with powers of constants, which are not covered) returns or raises, endless recursion over the directory counting as raising RecursionError, unless the file is a compound document whose stream Workbook or Book is a short one and its chain in the table of the short streams comes back to itself, or a file below BIFF8 with a SHEETHDR record that gives a negative length. On every well-formed document with such a stream Workbook it does not end, and there are files with such a SHEETHDR record on which it does not end.", "quantifier": "all files", "why_tests_cant": "termination on arbitrary, corrupt or hostile input", "anchors": ["channelpack/xlrd/book.py:open_workbook_xls", "channelpack/xlrd/book.py:Book.parse_globals", "channelpack/xlrd/sheet.py:Sheet.read", "channelpack/xlrd/compdoc.py:CompDoc.__init__", "channelpack/xlrd/compdoc.py:CompDoc._get_stream", "channelpack/xlrd/formula.py:evaluate_name_formula"]}
{"id": "C66", "title": "Whatever opens is a proper workbook", "statement": "Whatever bytes an .xls file (BIFF 2 to 8) has and whatever parts an .xlsx archive has: if it opens, the book has as many names as sheets (BIFF 2 to 4: no fewer), the date mode is 0 or 1, and in every cell type and value go together (empty text, text, double, double for a date, int for a truth value or error; in .xlsx a text may be None; in BIFF 2 to 4 a double may have the type of a text). All sheets of an .xlsx file, and those of an .xls file in which no record about the dimensions comes after a cell, are rectangles as large as they say. A pack that sheetpack makes from such a file, with any arguments, has at least one channel; all channels are columns of one sheet with the same rows, typed by the types of the cells, all names are cells of that sheet in the columns of channels, and the mask is as long as the channels.", "quantifier": "all files and archives, all arguments", "why_tests_cant": "arbitrary, corrupt or hostile input", "anchors": ["channelpack/xlrd/book.py:open_workbook_xls", "channelpack/xlrd/sheet.py:Sheet.read", "channelpack/xlrd/sheet.py:Sheet.put_cell_unragged", "channelpack/xlrd/sheet.py:Sheet.tidy_dimensions", "channelpack/xlrd/xlsx.py:open_workbook_2007_xml", "channelpack/readxl.py:sheetpack"]}
{"id": "C67", "title": "Bytes with their encoding give the same pack as the text", "statement": "textpack and lazy_textpack on a byte stream, with its encoding given, return the same pack or raise the same error as on the text: for every encoding that extends ASCII and in which the first byte of a character tells itself (UTF-8 and ISO 8859-1 are proved to be of this kind), every file with LF or CR LF at the end of its lines, every place to start, every argument (delimiter and converters meaning the same), provided the text has no character that is white space or a digit for str only (information separators, Unicode spaces and digits) and the delimiter has no newline in it. It is not so for texts with information separators or with digits beyond ASCII and for files with CR alone as newline.", "quantifier": "all texts, encodings, arguments and starting places", "why_tests_cant": "all characters and encodings; the two code paths differ throughout", "anchors": ["channelpack/readtext.py:textpack", "channelpack/readtext.py:lazy_textpack", "channelpack/readtext.py:linetuples", "channelpack/readtext.py:preparse"]}
{"id": "C68", "title": "The printed form of a pack", "statement": "repr(pack) is 'ChannelPack(', newline, 'data={' items '},', newline, 'names={' items '})': the items of each dict in ascending order of the keys, each exactly once, as decimal key, ': ' and the repr of the value, separated by a comma, a newline and the blanks that align them; it does not depend on the order of insertion, the mask, nof, mindur, the prefix or the file names.", "quantifier": "all packs, whatever the reprs of arrays and values", "why_tests_cant": "all keys, sizes and orders", "anchors": ["channelpack/pack.py:ChannelPack.__repr__"]}
{"id": "C69", "title": "A workbook of BIFF 5 or 7 opens and gives the packs written", "statement": "For every workbook of BIFF 5 or 7 (any order of its global records, texts as bytes in any code page and whatever bytes mean in it, any formats, any sheets with number, RK, multiple RK, text, rich text, logical, error and formula cells, notes in pieces, drawn objects and any records without a meaning to the reader; with defined names as far as they are harmless, as in C71), stored as a bare stream or as the stream Workbook, or Book when there is none, of any compound document: opening the file gives the names of the worksheets, decoded in the code page set before them, the date mode and sheets that show in every place the cell written last with its value and type, its text decoded in the code page of the workbook, a number being a date exactly when its format is one, and nothing elsewhere. sheetpack with any sheet by position or name, any range, header and columns within the sheet gives one channel for each used column which holds the cells written in its rows, typed by their kinds and with the date mode of the workbook, and is named as the header says.", "quantifier": "all workbook streams, documents, code pages and arguments", "why_tests_cant": "all layouts, encodings and splits over records", "anchors": ["channelpack/xlrd/book.py:open_workbook_xls", "channelpack/xlrd/book.py:Book.parse_globals", "channelpack/xlrd/book.py:Book.derive_encoding", "channelpack/xlrd/sheet.py:Sheet.read", "channelpack/xlrd/sheet.py:Sheet.handle_note", "channelpack/readxl.py:sheetpack"]}
{"id": "C70", "title": "A sheet of BIFF 2, 3 or 4 opens and gives the packs written", "statement": "For every sheet of BIFF 2, 3 or 4 (its formats, XFs, code page and date mode among its records, each before the cells that use it; texts as bytes in any code page and whatever bytes mean in it; number, integer, RK, text, logical, error and formula cells, in BIFF2 with attributes of their own, with or without XFs; notes and any records without a meaning to the reader; every XF with a format that is in the file), as a file, whatever follows it: opening the file gives one sheet named Sheet 1 and the date mode, and the sheet shows in every place the cell written last with its value and type, its text decoded in the code page set before it, a number being a date exactly when its format is one, and nothing elsewhere. sheetpack with that sheet by position or name, any range, header and columns within the sheet gives one channel for each used column which holds the cells written in its rows, typed by their kinds and with the date mode, and is named as the header says. Without the formats of XFs being in the file numbers can become text.", "quantifier": "all files, code pages and arguments", "why_tests_cant": "all layouts, encodings and orders of records", "anchors": ["channelpack/xlrd/book.py:open_workbook_xls", "channelpack/xlrd/book.py:Book.fake_globals_get_sheet", "channelpack/xlrd/sheet.py:Sheet.read", "channelpack/xlrd/sheet.py:Sheet.fixed_BIFF2_xfindex", "channelpack/xlrd/formula.py:xf_epilogue", "channelpack/xlrd/formula.py:handle_format", "channelpack/readxl.py:sheetpack"]}
{"id": "C71", "title": "Defined names make no difference to a workbook of BIFF 5 or 7", "statement": "A workbook of BIFF 5 or 7 with defined names (formulas with references to sheets and other workbooks by EXTERNSHEET records, constants, operators, function calls and other names; names without a formula; macro and binary names; names for a sheet or for all) opens and has the same sheets, cells and date mode as the same workbook without them, whatever the code pages mean, provided the formulas are harmless in the sense of C63, their texts can be decoded and every name for one sheet gives an EXTERNSHEET record with the name of a sheet. A name for one sheet that gives no such record keeps the workbook from being opened, however good the rest is (KeyError).", "quantifier": "all workbooks, documents, code pages, names and formulas", "why_tests_cant": "all formulas and references; recursion through names", "anchors": ["channelpack/xlrd/book.py:Book.handle_name", "channelpack/xlrd/book.py:Book.handle_externsheet", "channelpack/xlrd/book.py:Book.names_epilogue", "channelpack/xlrd/formula.py:evaluate_name_formula"]}
{"id": "C72", "title": "A workbook of BIFF 4W opens and gives the packs written", "statement": "For every workbook of BIFF 4W (the names of its sheets after the place of the first, then the sheets as those of BIFF4 in C70, each with formats and XFs of its own behind a header with its length and name; code page and user said anywhere and holding from there on; any bytes between the sheets and any records without a meaning to the reader), as a file or as a stream of a compound document, whatever follows it: opening the file gives the names in order and sheets that show in every place the cell written last with its value and type, its dates told by the formats of its own sheet, and sheetpack gives the pack of these cells. The date mode is the one said last in the workbook for all sheets, so that the dates of a sheet are 1462 days off when a later sheet says the other mode. A name before the place of the sheets raises AttributeError; a sheet with another name than the one given raises AssertionError, one without a name given IndexError.", "quantifier": "all workbooks, documents, code pages and arguments", "why_tests_cant": "all layouts, encodings and orders of records", "anchors": ["channelpack/xlrd/book.py:Book.handle_sheethdr", "channelpack/xlrd/book.py:Book.handle_boundsheet", "channelpack/xlrd/book.py:Book.handle_sheetsoffset", "channelpack/xlrd/book.py:Book.parse_globals", "channelpack/xlrd/sheet.py:Sheet.read", "channelpack/readxl.py:sheetpack"]}
{"id": "C73", "title": "Files opened by name are closed, streams are left open", "statement": "textpack, lazy_textpack and dbfpack close the file they opened by name, whether they return or raise and whichever call on the file raises what (a codec meeting bad bytes, a failing disk), as soon as contextopen itself has read the first character; when one of its own calls raises, the file is not closed. A stream given is left open in every case; after textpack and lazy_textpack have returned nothing is left to read in it. An exception of a call on the file is never swallowed or replaced: it is the last call made and comes out as it is; when no call raises, the result is the one the content calls for. A closed stream raises ValueError.", "quantifier": "all files, streams, positions, arguments and failures of any call", "why_tests_cant": "every point at which a call can fail; resources are not visible in results", "anchors": ["channelpack/readtext.py:contextopen", "channelpack/readtext.py:textpack", "channelpack/readtext.py:lazy_textpack", "channelpack/readtext.py:linetuples", "channelpack/dbf.py:dbfpack", "channelpack/dbf.py:dbfreader", "channelpack/dbf.py:dbfrecords"]}
{"id": "C74", "title": "sheetpack leaves no file open, but archives", "statement": "After sheetpack with the name of a file that does not start like an archive neither a file object nor a memory map is open, whether it returned or raised, with or without memory maps, whether or not the stream of a compound document lies in one piece, and whichever of the calls that open, seek, read or map raises what; what it returns or raises is what the content calls for or the exception of the call that raised, which is then the last one. The archive of an .xlsx file is never closed by the code: once opened it is open when sheetpack returns or raises.", "quantifier": "all files, arguments and failures of any call", "why_tests_cant": "every point at which a call can fail; resources are not visible in results", "anchors": ["channelpack/readxl.py:sheetpack", "channelpack/xlrd/__init__.py:open_workbook", "channelpack/xlrd/book.py:open_workbook_xls", "channelpack/xlrd/book.py:Book.biff2_8_load", "channelpack/xlrd/book.py:Book.release_resources"]}
{"id": "C75", "title": "Bytes without an encoding give the same pack with bytes for text", "statement": "Whenever textpack on a byte stream with an encoding returns a pack, it returns one without the encoding (other arguments the same, debug off): with the same channels in the same order, the same mask and file name; each channel is the same array, or an array of texts in the one and of bytes in the other which decode to the texts element by element (numpy drops NULs at the end of both); names from the line of names are bytes that decode to the texts, names given by the caller are the same. When reading with the encoding raises, some bytes do not decode, with this exception, or reading without it raises the same exception.", "quantifier": "all byte streams, encodings, starting places and arguments", "why_tests_cant": "all bytes and encodings; text and bytes take different paths", "anchors": ["channelpack/readtext.py:textpack", "channelpack/readtext.py:linetuples"]}
{"id": "C76", "title": "Channels made from values", "statement": "Assigning a list or tuple of values to a key of pack.data stores one array: object when some value is no number, text or bytes (or an int beyond 64 bits), else text when there is text, else bytes, complex, float (also for no values and for ints of both 64-bit kinds), int or bool; numbers are held as numbers of that kind, other things beside text as text, objects as they are, in order. Other keys are unchanged. A text or bytes that end with NUL lose the NULs at the end and nothing else, so they do not come back as given. append_pack joins two channels by the same order of kinds.", "quantifier": "all values and mixtures of them", "why_tests_cant": "all mixtures of kinds; boundaries of the integer kinds", "anchors": ["channelpack/pack.py:NpDict.__setitem__", "channelpack/pack.py:ChannelPack.append_pack"]}
{"id": "C77", "title": "Which texts in a file are numbers", "statement": "In a text table read without converters, a column is a float channel exactly when its first field is a number, with the decimal point or, decimal commas read as points, with a decimal comma. A number is, with white space around it, an optional sign and digits with an optional point among or around them, underscores between digits, and an optional power of ten; or inf, infinity or nan in small letters or capitals; in text the Unicode digits and spaces count as those of ASCII, in bytes they do not. Every field of such a column is read as the double nearest to the number written, an empty one as nan; a field that is no number raises ValueError.", "quantifier": "all texts, byte strings, delimiters and positions", "why_tests_cant": "all strings over an unbounded alphabet; both directions of the grammar", "anchors": ["channelpack/readtext.py:linetuples", "channelpack/readtext.py:textpack", "channelpack/readtext.py:_floatit", "channelpack/readtext.py:_floatit_bytes"]}
{"id": "C78", "title": "What the bytes of a DBF field stand for", "statement": "Whatever bytes a dBASE file holds: every value dbfreader delivers is the one the grammar of its field type gives to the bytes of the field. A file with all its records is read to its end when every field of every record that is not deleted has a value; otherwise the rows before the first record with a field that has none are delivered and ValueError is raised for the first such field, if it is a number or a date, or UnicodeDecodeError, if it is text, also by dbfpack. Given names, dbfrecords reads the values of these fields alone, whatever the others hold, provided the last field is among them or no record is deleted. Numbers: NULs are dropped, white space around and underscores between digits are allowed, blanks are nan; without decimals a signed integer, with decimals or in a float field any number of C77. Dates: a blank is None, else three integers in 4, 2 and 2 bytes that are a day of the calendar. Truth values: T for any part of YyTt (also none), F for any other part of NnFf, else ?. Other types: ASCII text.", "quantifier": "all files, fields and names", "why_tests_cant": "arbitrary bytes in every field", "anchors": ["channelpack/dbf.py:dbfreader", "channelpack/dbf.py:dbfrecords", "channelpack/dbf.py:dbfpack"]}
{"id": "C79", "title": "Rows, columns and cells of a sheet", "statement": "For every sheet with types and values in the same places, also with rows of differing length, and for indices and bounds of either sign, inside or outside: row_values, row_types and row_slice give what a Python slice of the values, the types and their pairs in the row gives, and IndexError when there is no such row; col_values, col_types and col_slice give the elements with that index of the rows in the slice, and IndexError exactly when one of these rows has none (so none for an empty slice). cell, cell_value and cell_type agree; iteration gives all rows in order. In a rectangular sheet the cell (r, c) is element c of row r and element r of column c. In a book an int is an index of the sheets, a text the name of the first sheet so called, an unknown name XLRDError, an index outside IndexError; iteration gives all sheets.", "quantifier": "all sheets, books, indices and bounds", "why_tests_cant": "all combinations of signs and bounds; sheets of any size and shape", "anchors": ["channelpack/xlrd/sheet.py:Sheet.row_values", "channelpack/xlrd/sheet.py:Sheet.row_types", "channelpack/xlrd/sheet.py:Sheet.row_slice", "channelpack/xlrd/sheet.py:Sheet.col_slice", "channelpack/xlrd/sheet.py:Sheet.col_values", "channelpack/xlrd/sheet.py:Sheet.col_types", "channelpack/xlrd/sheet.py:Sheet.cell", "channelpack/xlrd/sheet.py:Sheet.__getitem__", "channelpack/xlrd/sheet.py:Sheet.get_rows", "channelpack/xlrd/book.py:Book.sheet_by_name", "channelpack/xlrd/book.py:Book.__getitem__", "channelpack/xlrd/book.py:Book.__iter__"]}
{"id": "C80", "title": "Texts of references to cells and ranges", "statement": "For non-empty ranges in the 702 columns with names of up to two letters, rangename3d and rangename2d give the names of the first and last sheet (in apostrophes, those inside doubled, if they have an apostrophe or a space) and the absolute addresses of the first and last cell, one alone when there is but one; columns beyond raise IndexError. If the names of the sheets are distinct and have no colon, the text determines sheets and cells; with a colon it need not. Relative references in R1C1 style (asked for, or forced by a missing base) are numbers or bracketed distances, and the text of a range determines coordinates and which are relative. With a base row and a base column, A1 style gives absolute parts with a dollar sign and relative ones as the row modulo 65536 and column modulo 256 they lead to. With one base only the styles are mixed and the text may be that of another cell (HR6).", "quantifier": "all sheet names, ranges, bases and flags", "why_tests_cant": "injectivity over all pairs of references", "anchors": ["channelpack/xlrd/formula.py:rangename3d", "channelpack/xlrd/formula.py:rangename2d", "channelpack/xlrd/formula.py:rangename2drel", "channelpack/xlrd/formula.py:cellnamerel", "channelpack/xlrd/formula.py:cellnameabs", "channelpack/xlrd/formula.py:quotedsheetname", "channelpack/xlrd/formula.py:sheetrange", "channelpack/xlrd/formula.py:colnamerel", "channelpack/xlrd/formula.py:rownamerel"]}
{"id": "C81", "title": "The count of the records of a file", "statement": "count_records and biff_count_records take the bytes of the stream as records, each of a code and a length of two bytes and that many bytes, until fewer than four bytes are left; records written one after another are taken as just these. Each counts under the name of its code in the table, under Unknown_0x with four hexadecimal digits if the table has none, or as dummy if code and length are zero; zeros up to the end of the memory are no records, but zeros at the end of the stream are, when the memory goes on. Printed is a line for each name that occurs, in the order of the names, with how often it does in eight places. Counting ends, whatever the bytes. The stream is the whole file or, in a compound document, Workbook or else Book; an empty file is refused.", "quantifier": "all files, streams and offsets", "why_tests_cant": "arbitrary bytes and number of records; termination", "anchors": ["channelpack/xlrd/__init__.py:count_records", "channelpack/xlrd/biffh.py:biff_count_records", "channelpack/xlrd/book.py:Book.biff2_8_load"]}
{"id": "C82", "title": "The dump of the records of a file", "statement": "dump and biff_dump print, for the bytes of the stream in their order, a line for each record with its place (unless unnumbered), code, name and length, and below it its bytes, sixteen to a line, in hexadecimal and as characters; one line for zeros in place of records, the up to three bytes left at the end, and a remark if the last record is longer than what is left. The dump loses nothing: a reader of the lines gets back the bytes of the stream, and no others but those after the stream which a last record that is too long takes in, so that different files that are no compound documents have different dumps. The stream is the whole file or, in a compound document, Workbook or else Book. The dump ends for streams of any bytes; a negative length raises UnboundLocalError.", "quantifier": "all files, streams, offsets and both ways of printing", "why_tests_cant": "injectivity over all byte strings; termination", "anchors": ["channelpack/xlrd/__init__.py:dump", "channelpack/xlrd/biffh.py:biff_dump", "channelpack/xlrd/biffh.py:hex_char_dump", "channelpack/xlrd/book.py:Book.biff2_8_load"]}
{"id": "C83", "title": "Sheets read on demand", "statement": "Opening a BIFF8 file without on_demand gives the sheets of open_workbook, or its exception. If all sheets can be read in order, and reading them does not change the book's countries or these are known from the globals (in a well-formed workbook always), then for every sequence of calls of sheet_by_index, sheet_by_name, book[...], sheets, list(book), sheet_loaded, unload_sheet, release_resources, sheet_names and nsheets on the book opened with on_demand: a sheet asked for is the same as in the book with all sheets read; it is given unless the resources have been released and it was not asked for before that or has been unloaded since, then XLRDError is raised; sheet_loaded tells which sheets are there; sheets and list(book) give all sheets or raise XLRDError; unknown names raise XLRDError, indices outside IndexError. Without the condition on the countries it can depend on the order of the calls whether a sheet can be read. For every file: asking again gives the same object until it is unloaded, then another; after release_resources exactly the sheets loaded then and not unloaded since are given; the number of a sheet is its place if no negative index was asked for, otherwise it may be negative. Countries that are known never change, also when a sheet cannot be read; countries first told by a sheet that then cannot be read are kept and can spoil the reading of another sheet. Every call ends.", "quantifier": "all files, all sequences of calls with all indices and names", "why_tests_cant": "state built up over unbounded sequences of calls; order of the calls", "anchors": ["channelpack/xlrd/book.py:Book.sheet_by_index", "channelpack/xlrd/book.py:Book.sheet_by_name", "channelpack/xlrd/book.py:Book.__getitem__", "channelpack/xlrd/book.py:Book.__iter__", "channelpack/xlrd/book.py:Book.sheets", "channelpack/xlrd/book.py:Book.sheet_loaded", "channelpack/xlrd/book.py:Book.unload_sheet", "channelpack/xlrd/book.py:Book.release_resources", "channelpack/xlrd/book.py:Book.get_sheet", "channelpack/xlrd/book.py:Book.get_sheets", "channelpack/xlrd/book.py:open_workbook_xls", "channelpack/xlrd/book.py:Book.handle_country"]}
{"id": "C84", "title": "Cells and areas of names", "statement": "Name.cell gives a cell exactly when the result of the name is one absolute reference to one place of one sheet of the book and that sheet has a cell there, and it is that cell. Otherwise it raises IndexError when the sheet or the cell is not there, TypeError when the result is a reference without value (which the evaluation of a range with an operand not known gives; the documentation promises XLRDError), XLRDError in all other cases. Name.area2d without clipping gives the sheet and the bounds of the one reference as they are; clipped, the bounds are in order and within the sheet, the rows between them are just those of the reference that the sheet has, and the columns alike, so that in a full sheet each place has a cell; AssertionError exactly when a lower bound is negative. A name with a cell has an area, which is its place.", "quantifier": "all books, results of names and bounds", "why_tests_cant": "all bounds, also past the sheet, reversed or negative", "anchors": ["channelpack/xlrd/book.py:Name.cell", "channelpack/xlrd/book.py:Name.area2d"]}
{"id": "C85", "title": "Stored addresses of cells", "statement": "expand_cell_address takes every pair of words as BIFF8 means it: flags in the two highest bits of the second word, the column in its low byte, absolute numbers as stored, relative ones as distances with a sign in 16 and 8 bits; nothing is lost but the six bits of no meaning. display_cell_address writes the column (letters after a dollar sign, or a distance with its sign in parentheses after an asterisk) and the row alike, raises AssertionError only for an absolute column below zero, and different addresses have different texts. So stored addresses have the same text exactly when they are the same but for these six bits.", "quantifier": "all words, rows, columns and flags", "why_tests_cant": "injectivity over all pairs of addresses", "anchors": ["channelpack/xlrd/book.py:expand_cell_address", "channelpack/xlrd/book.py:display_cell_address"]}
{"id": "C86", "title": "The nearest colour", "statement": "nearest_colour_index gives the index of the first, in the order of the map, of the colours nearest to the one asked for by the sum of the squares of the differences, entries without a colour counting for nothing, or 0 if none is nearer than 3 * 256 * 256, which cannot be among colours of three bytes. A colour in the map is itself chosen. The order of the map matters only among colours equally near.", "quantifier": "all maps, colours and orders", "why_tests_cant": "minimum over maps of any size; all orders", "anchors": ["channelpack/xlrd/formatting.py:nearest_colour_index"]}
{"id": "C87", "title": "How a sheet is shown", "statement": "For every sheet of a BIFF8 file that can be read (without formatting_info): each of the twelve options of the window is the bit of the last WINDOW2 record, or its default without one; the first visible row and column and the colour of the grid lines are those of the last WINDOW2 record, for a short one the nearest colour. The magnification of the view shown is that of the last SCL record in whole percents, if from 10 to 400, else 100. That of the other view is the one cached in the last long WINDOW2 record, if from 10 to 400, else the one of the view shown, except that a page break preview with 0 or nothing cached has 60. So both are always from 10 to 400, whatever the file holds. The attributes are computed for every sheet that can be read: these records raise nothing beyond what reading raises.", "quantifier": "all files, sheets and sequences of records", "why_tests_cant": "arbitrary words in the records, any number of them in any order", "anchors": ["channelpack/xlrd/sheet.py:Sheet.read", "channelpack/xlrd/sheet.py:Sheet.update_cooked_mag_factors", "channelpack/xlrd/formatting.py:nearest_colour_index"]}
{"id": "C88", "title": "Widths of columns", "statement": "With formatting_info, whatever COLINFO, DEFCOLWIDTH, STANDARDWIDTH and GCW records a sheet has, in any order, if it can be read and (before BIFF5) has no COLWIDTH or COLUMNDEFAULT records: for columns 0 to 255 computed_column_width gives in BIFF8 the width of the last COLINFO record in order that covers the column, else that of STANDARDWIDTH, else 256 times that of DEFCOLWIDTH, else 2048. In BIFF4 to 7 COLINFO counts only if the bit of the column in the last GCW record is clear, STANDARDWIDTH only if it is set; in BIFF3 STANDARDWIDTH never counts. In BIFF2 the widths of single columns are never given, only DEFCOLWIDTH or 2048. A COLINFO record that ends after column 256 or before it starts is passed over. Without formatting_info XLRDError is raised.", "quantifier": "all versions, sequences of records and columns", "why_tests_cant": "any number of overlapping records in any order", "anchors": ["channelpack/xlrd/sheet.py:Sheet.computed_column_width", "channelpack/xlrd/sheet.py:Sheet.read"]}
