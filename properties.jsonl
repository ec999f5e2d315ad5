{"id": "C01", "title": "Scalar values survive a buffer round trip bit for bit", "statement": "For every supported scalar type (i8..i64, u8..u64, f32, f64, bool) and every value of it, the bytes the library writes for the value are read back by the library as exactly that value (floats compared by bit pattern, NaN payloads included), and reading consumes exactly the bytes written, whatever precedes and follows them.", "quantifier": "all scalar types, all values of the type, all surrounding bytes", "why_tests_cant": "64-bit value spaces cannot be enumerated and the surrounding buffer contents are arbitrary", "anchors": ["oxyroot/src/rbytes/rbuffer.rs: read_u8..read_f32", "oxyroot/src/rbytes/wbuffer.rs: write_i32..write_bool", "oxyroot/src/rbytes/mod.rs: impl_marshalers_primitive"]}
{"id": "C02", "title": "Strings survive a buffer round trip", "statement": "Every valid UTF-8 string shorter than 2^31 bytes is read back unchanged, with the one-byte length form used below 255 bytes and the 255+u32 form from 255 on; the size the library announces for a string (used to compute key lengths) is exactly the number of bytes it writes.", "quantifier": "all UTF-8 strings of every length below 2^31, all surrounding bytes", "why_tests_cant": "string length and contents are unbounded; the two length encodings meet at a boundary", "anchors": ["oxyroot/src/rbytes/wbuffer.rs: write_string", "oxyroot/src/rbytes/rbuffer.rs: read_string", "oxyroot/src/root.rs: tstring_sizeof"]}
{"id": "C03", "title": "Vectors, arrays and their nestings survive a buffer round trip", "statement": "For every type built from scalars, String, Vec and fixed-size arrays, every well-typed value whose vectors have fewer than 2^31 elements is read back unchanged and consumes exactly the bytes written.", "quantifier": "all types of every nesting depth, all values, all lengths, all surrounding bytes", "why_tests_cant": "types nest without bound and values are unbounded", "anchors": ["oxyroot/src/rbytes/mod.rs: Marshaler/Unmarshaler for Vec<T>, [T;N], String"]}
{"id": "C04", "title": "A key header occupies exactly the length it declares", "statement": "For every object written to a file not larger than 2*10^9 bytes, the number of bytes of its key header equals the key length stored in that header (plus the 19 basket bytes for a basket), so that header and payload are contiguous and never overlap.", "quantifier": "all names, titles, class names, positions", "why_tests_cant": "string lengths are unbounded and switch encoding at 255", "anchors": ["oxyroot/src/riofs/key.rs: key_len_for, Key::marshal, Key::write_to_file", "oxyroot/src/rtree/wbasket.rs: marshal"]}
{"id": "C05", "title": "Key headers survive a round trip", "statement": "A key header written by the library is read back with the same sizes, key length, cycle, seek positions, class, name and title, provided the key length fits in an i16 and positions fit the chosen width.", "quantifier": "all keys", "why_tests_cant": "unbounded strings, two position widths", "anchors": ["oxyroot/src/riofs/key.rs: Key::marshal, Key::unmarshal"]}
{"id": "C06", "title": "Timestamps of keys and directories", "statement": "The packed date written for a key determines year, month, day, hour, minute and second uniquely. (The reader interprets that word as seconds since the epoch, so the date read back is not the date written: recorded as a refutation.)", "quantifier": "all calendar dates from 1995 to 2058", "why_tests_cant": "all dates in the range and all pairs of dates", "anchors": ["oxyroot/src/riofs/utils.rs: datetime_to_u32", "oxyroot/src/riofs/key.rs: unmarshal"]}
{"id": "C07", "title": "The free-segment list survives a round trip", "statement": "Every list of free segments whose bounds fit the encoding chosen for it is read back as the same list; the declared size of each segment is the number of bytes written for it.", "quantifier": "all segment lists of every length", "why_tests_cant": "list length and 64-bit bounds are unbounded", "anchors": ["oxyroot/src/riofs/blocks.rs: FreeSegments", "oxyroot/src/riofs/file.rs: write_free_segments, read_free_segments"]}
{"id": "C08", "title": "The file header survives a round trip in both widths", "statement": "The header written for any header state is read back with the same version, begin, end, free-list pointer, name size, units, compression, streamer pointer, sizes and uuid; files larger than 2*10^9 bytes use the 64-bit form and smaller ones the 32-bit form.", "quantifier": "all header states with in-range fields", "why_tests_cant": "64-bit positions; the width switch happens at one boundary", "anchors": ["oxyroot/src/riofs/file.rs: write_header, read_header"]}
{"id": "C09", "title": "The directory record survives a round trip", "statement": "The directory record written for any directory state with positions below 2^31 is read back with the same sizes and positions.", "quantifier": "all directory states with positions below 2^31", "why_tests_cant": "positions and sizes range over all integers", "anchors": ["oxyroot/src/riofs/dir.rs: TDirectoryFile::marshal, unmarshal"]}
{"id": "C10", "title": "Polymorphic object lists survive a round trip", "statement": "A list of objects of any classes, in any order and with any repetition of classes, written with class tags and class back-references, is read back as the same objects of the same classes in the same order; an object written a second time (same identity) is read back as absent.", "quantifier": "all lists of objects, all class sequences, all positions in the buffer", "why_tests_cant": "the tag written for an object depends on the whole history of classes and positions written before it", "anchors": ["oxyroot/src/rbytes/wbuffer.rs: write_object_any, write_class", "oxyroot/src/rbytes/rbuffer.rs: read_object_any_into", "oxyroot/src/rcont/objarray.rs"]}
{"id": "C11", "title": "A basket written to a file gives back its entries", "statement": "For every branch and every sequence of entries that fits in one basket, reading the basket record at the recorded position yields exactly those entries, in order.", "quantifier": "all entry sequences, all types that may be a column, all positions", "why_tests_cant": "entry sizes, counts and offsets are unbounded", "anchors": ["oxyroot/src/rtree/wbasket.rs: write_to_file, update, marshal", "oxyroot/src/rtree/basket.rs: unmarshal, raw_data", "oxyroot/src/rtree/branch/mod.rs: get_basket"]}
{"id": "C12", "title": "A column gives back exactly the values written to it", "statement": "Whatever sequence of values a column is given, and wherever the basket boundaries fall, iterating the column after reopening the file yields exactly that sequence: no value lost, duplicated, reordered or altered.", "quantifier": "all value sequences of every length, all column types", "why_tests_cant": "basket boundaries depend on the byte sizes of all earlier entries", "anchors": ["oxyroot/src/rtree/branch/wbranch.rs: write, flush, create_new_basket", "oxyroot/src/rtree/branch/tbranch.rs: get_baskets_buffer", "oxyroot/src/rtree/branch/tbranch_element.rs: get_baskets_buffer"]}
{"id": "C13", "title": "A tree written to a file can be reopened and gives back all its columns", "statement": "Create a file, add any number of columns of any supported types and lengths to a tree, write the tree, close the file. Opening the file then succeeds, the tree is found under its name, it has the same columns in the same order, and every column iterates over exactly the values it was given.", "quantifier": "all trees: all numbers of columns, names, types, lengths and values within the stated size limits", "why_tests_cant": "the property composes every layer of the format for unbounded inputs", "anchors": ["oxyroot/src/riofs/file.rs: create, put, close, open, get_tree", "oxyroot/src/rtree/tree/writer.rs", "oxyroot/src/rtree/tree/reader.rs"]}
{"id": "C14", "title": "The tree reports the length of its longest column", "statement": "After writing columns of lengths n1..nk the tree reports max(n1..nk) entries and every column reports its own length.", "quantifier": "all column counts and lengths", "why_tests_cant": "quantifies over all length combinations", "anchors": ["oxyroot/src/rtree/tree/writer.rs: write", "oxyroot/src/rtree/branch/wbranch.rs: write"]}
{"id": "C15", "title": "Write callbacks run exactly once per row and phase", "statement": "While a tree with columns of maximal length n is written, every registered callback receives the Before notification exactly n+1 times, followed each time by one notification per column, in registration and column order. The After notification is never sent.", "quantifier": "all trees, all callback lists", "why_tests_cant": "quantifies over all column lengths and callback counts", "anchors": ["oxyroot/src/rtree/tree/writer.rs: write, add_callback"]}
{"id": "C16", "title": "Several objects in one file: the newest cycle wins", "statement": "When several trees are written under the same name, each gets a strictly larger cycle than all earlier ones and looking the name up after reopening returns the one written last; objects under other names are unaffected. (This holds for up to 32767 trees of one name; of more, the 32767th is found.)", "quantifier": "all histories of puts, with any number of objects and names", "why_tests_cant": "quantifies over all histories", "anchors": ["oxyroot/src/riofs/file.rs: put", "oxyroot/src/riofs/dir.rs: get_object"]}
{"id": "C17", "title": "Records never overlap", "statement": "At every moment of every history of file operations, the records written so far occupy pairwise disjoint byte ranges inside [100, end), and a record, once written, keeps its bytes until the file is closed (the directory record excepted, which is rewritten in place).", "quantifier": "all histories of file operations", "why_tests_cant": "quantifies over all operation histories", "anchors": ["oxyroot/src/riofs/key.rs: Key::new, new_from_buffer, new_from_object", "oxyroot/src/riofs/file.rs: set_end, write_at"]}
{"id": "C18", "title": "A file that was never closed is not accepted", "statement": "If writing stops before the directory has been saved (crash at any write), opening the file does not succeed.", "quantifier": "all programs, all crash points before the directory save", "why_tests_cant": "the crash may happen after any write", "anchors": ["oxyroot/src/riofs/file.rs: create, close, read_header", "oxyroot/src/riofs/dir.rs: read_keys"]}
{"id": "C19", "title": "After the directory is saved all trees are readable", "statement": "If writing stops after the directory has been saved but before the final header rewrite starts, opening the file succeeds and lists all objects put into it.", "quantifier": "all programs, all crash points in that window", "why_tests_cant": "the crash may happen after any write", "anchors": ["oxyroot/src/riofs/file.rs: close, read_header", "oxyroot/src/riofs/dir.rs: save_keys, write_header"]}
{"id": "C20", "title": "A successful close makes the file self-consistent", "statement": "After close the file length equals the end recorded in its header, the header points at the free list and the streamer records, and both lie inside the file.", "quantifier": "all programs", "why_tests_cant": "quantifies over all operation histories", "anchors": ["oxyroot/src/riofs/file.rs: close, write_streamer_info, write_free_segments, write_header"]}
{"id": "C21", "title": "Files opened in the wrong mode are refused without side effects", "statement": "Putting an object into a file opened for reading, or reading from a file opened for writing, returns an error, and the bytes on disk do not change. After such a refused write the file lists the same objects as before and each of them reads as before.", "quantifier": "all files, all objects, all names", "why_tests_cant": "quantifies over all file states", "anchors": ["oxyroot/src/riofs/file.rs: reader, writer, put, get_object"]}
{"id": "C22", "title": "Names with a slash and class clashes are refused", "statement": "Putting an object under a name containing '/' or under a name already used for another class returns an error and changes neither the directory nor the bytes on disk.", "quantifier": "all names, all directory states", "why_tests_cant": "quantifies over all names and directories", "anchors": ["oxyroot/src/riofs/file.rs: put"]}
{"id": "C23", "title": "Records from newer format versions are refused", "statement": "For every versioned record type, whatever the body, a record whose version is above the supported maximum makes reading return an error, never data.", "quantifier": "all record types, all versions above the maximum, all bodies", "why_tests_cant": "bodies are arbitrary byte strings", "anchors": ["oxyroot/src/rbytes/mod.rs: ensure_maximum_supported_version", "oxyroot/src/rtree/*", "oxyroot/src/rbase/*"]}
{"id": "C24", "title": "Objects of unknown classes are refused", "statement": "Reading an object whose class name is not registered returns an error, whatever follows.", "quantifier": "all class names, all bodies", "why_tests_cant": "class names and bodies are arbitrary", "anchors": ["oxyroot/src/rbytes/rbuffer.rs: read_object_any_into", "oxyroot/src/rtypes/factory.rs: get"]}
{"id": "C25", "title": "A column can only be read as the type it was written with", "statement": "After writing a column of type T, as_iter::<U> succeeds when U = T and returns a type-mismatch error for every other supported U.", "quantifier": "all pairs of column types, nested vectors included", "why_tests_cant": "the set of types is infinite", "anchors": ["oxyroot/src/rtree/branch/mod.rs: as_iter", "oxyroot/src/rtree/leaf.rs: type_name", "oxyroot/src/rbytes/mod.rs: class_name", "oxyroot/src/rtree/streamer_type.rs: clean_type_name"]}
{"id": "C26", "title": "Looking up a branch by name finds the first in depth-first order", "statement": "branch(name) returns the first branch called name in the order of branches_r(), and None exactly when branches_r() contains no such branch.", "quantifier": "all branch forests, all names", "why_tests_cant": "forests nest without bound", "anchors": ["oxyroot/src/rtree/tree/reader.rs: branch, branches_r", "oxyroot/src/rtree/branch/mod.rs: branch, branches_r", "oxyroot/src/rtree/branch/tbranch.rs: branch"]}
{"id": "C27", "title": "Composition of derived branch names", "statement": "The name of a field reached through a chain of nested structures is the chain of prefixed names joined by dots; an absolute name discards the chain.", "quantifier": "all chains of every depth, all names and prefixes", "why_tests_cant": "depth is unbounded", "anchors": ["oxyroot/src/rtree/tree/branch_name.rs"]}
{"id": "C28", "title": "Deriving WriteToTree on a flat structure writes each field as its own column", "statement": "For every iterator of structures whose fields are all plain column types, after writing, the column of each field holds the field of the i-th structure at entry i, for all i, and all columns have the length of the iterator.", "quantifier": "all structure sequences, all numbers of fields", "why_tests_cant": "quantifies over all sequences and schedules of callbacks", "anchors": ["oxyroot_derive/src/lib.rs: WriteToTree derive", "oxyroot/src/rtree/tree/writer.rs: write, add_callback"]}
{"id": "C29", "title": "Deriving WriteToTree on nested structures", "statement": "For a structure with at least one plain field and any number of nested structures made of plain fields, every column holds every entry. (With nested structures only, or nesting of depth two, entries are lost: recorded as refutations.)", "quantifier": "all structure sequences of that shape", "why_tests_cant": "depends on the order in which nested callbacks are registered and run", "anchors": ["oxyroot_derive/src/lib.rs: WriteToTree derive", "oxyroot/src/rtree/tree/writer.rs: write"]}
{"id": "C30", "title": "Deriving ReadFromTree yields the common prefix of its columns", "statement": "Iterating a derived structure yields, for i below the length of the shortest column, the structure whose fields are the i-th entries of the columns, and then ends.", "quantifier": "all column contents and lengths", "why_tests_cant": "unbounded columns", "anchors": ["oxyroot_derive/src/lib.rs: ReadFromTree derive", "oxyroot/src/rtree/tree/traits.rs"]}
{"id": "C31", "title": "Written data are stored uncompressed and recognised as such", "statement": "Every record the library writes is stored uncompressed, and the reader recognises it as uncompressed and returns the stored bytes.", "quantifier": "all records", "why_tests_cant": "all byte strings", "anchors": ["oxyroot/src/rcompress.rs: compress", "oxyroot/src/riofs/key.rs: is_compressed, load, new_from_buffer, new_from_object"]}
{"id": "C32", "title": "Cleaning a type name does not change the names the library writes", "statement": "For every vector type the library can write, at any nesting depth, the normalised type name equals the written class name.", "quantifier": "all nesting depths, all element types", "why_tests_cant": "depth is unbounded", "anchors": ["oxyroot/src/rtree/streamer_type.rs: clean_type_name, replace_string", "oxyroot/src/rbytes/mod.rs: class_name"]}
{"id": "C33", "title": "Splitting of structure branches", "statement": "Iterating a branch that has sub-branches of fixed-size entries yields, for entry i, the concatenation of the i-th entries of the sub-branches, wherever the basket boundaries of the individual sub-branches fall.", "quantifier": "all numbers of sub-branches, all partitions into baskets", "why_tests_cant": "each sub-branch may be split into baskets differently", "anchors": ["oxyroot/src/rtree/branch/mod.rs: ZiperBranches"]}
{"id": "C34", "title": "Slices consume an entry exactly", "statement": "Reading an entry as a Slice<T> of scalars yields all the elements stored in the entry and nothing else.", "quantifier": "all element sequences", "why_tests_cant": "unbounded length", "anchors": ["oxyroot/src/rusty/containers.rs: Slice"]}
{"id": "C35", "title": "Attribute records survive a round trip", "statement": "Line, fill and marker attributes, object headers, names and I/O feature bits written by the library are read back unchanged.", "quantifier": "all attribute values", "why_tests_cant": "value spaces are large", "anchors": ["oxyroot/src/rbase/attline.rs", "oxyroot/src/rbase/attfill.rs", "oxyroot/src/rbase/attmarker.rs", "oxyroot/src/rbase/object.rs", "oxyroot/src/rbase/named.rs", "oxyroot/src/rtree/tree/tio_features.rs"]}
{"id": "C36", "title": "Branch metadata survive a round trip", "statement": "The description of a column (name, title, sizes, entry counts, leaf description, basket tables of any length) written in the tree is read back unchanged.", "quantifier": "all branch states, any number of baskets", "why_tests_cant": "basket tables are unbounded and padded", "anchors": ["oxyroot/src/rtree/branch/tbranch.rs: marshal, unmarshal", "oxyroot/src/rtree/branch/tbranch_element.rs", "oxyroot/src/rtree/leaf.rs"]}
{"id": "C37", "title": "Streamer information survives a round trip", "statement": "Every list of streamer records the library can write is read back as the same list of class descriptions.", "quantifier": "all streamer lists", "why_tests_cant": "lists and their elements are unbounded", "anchors": ["oxyroot/src/rdict/mod.rs", "oxyroot/src/rdict/streamer_types.rs", "oxyroot/src/rcont/list.rs", "oxyroot/src/riofs/file.rs: write_streamer_info, read_streamer_info"]}
{"id": "C38", "title": "Successful reads stay inside the buffer and move forward", "statement": "Every successful primitive read returns data lying inside the buffer and moves the position forward by exactly the size read; it never alters the buffer.", "quantifier": "all buffers, all positions, all primitive reads", "why_tests_cant": "buffers are arbitrary", "anchors": ["oxyroot/src/rbytes/rbuffer.rs"]}
{"id": "C39", "title": "Limits of variable-size columns are exact", "statement": "A vector entry is recovered when its encoding is shorter than 2^24 bytes; at 2^24 bytes and more the reader misinterprets its header. A column of strings or vectors can be written when no entry enlarges the basket's entry counter past its offset table; a long entry followed by many short ones in the same basket aborts the writer.", "quantifier": "all entry sizes and sequences", "why_tests_cant": "the failing sequences need thousands of entries or megabytes of data", "anchors": ["oxyroot/src/rbytes/rbuffer.rs: do_skip_header", "oxyroot/src/rtree/wbasket.rs: update", "oxyroot/src/rtree/branch/wbranch.rs: write"]}
{"id": "C40", "title": "Which paths can be reopened", "statement": "A file created under a path is accepted by open only if the path leads to a name record of at most 1000 bytes; longer paths produce files that open refuses.", "quantifier": "all path lengths", "why_tests_cant": "unbounded path length", "anchors": ["oxyroot/src/riofs/file.rs: create", "oxyroot/src/riofs/dir.rs: read_dir_info"]}
{"id": "C41", "title": "Short or foreign files", "statement": "Opening a file shorter than 76 bytes returns an error; opening a file that does not start with 'root' never succeeds.", "quantifier": "all byte strings", "why_tests_cant": "files are arbitrary byte strings", "anchors": ["oxyroot/src/riofs/file.rs: read_header, read_at"]}
{"id": "C42", "title": "Structures written through the derive macro come back through the derive macro", "statement": "When a structure type with at least one plain field and at most one level of nesting is written and then read with a type that looks for every plain field under the name it was written under, iterating gives back the same structures in the same order. (With the default names a nested field is written under its own name but looked for under its path: such structures cannot be read back, recorded as a refutation.)", "quantifier": "all structure types of that shape, all sequences of structures, all naming options", "why_tests_cant": "quantifies over all types and all sequences", "anchors": ["oxyroot_derive/src/lib.rs", "oxyroot/src/rtree/tree/traits.rs", "oxyroot/src/rtree/tree/writer.rs: write"]}
{"id": "C43", "title": "A provider that pauses", "statement": "Writing a tree asks every column's iterator once per round until each iterator has returned nothing at least once; an iterator that returns nothing and later values again keeps being asked, and its later values are still written in order. The tree's number of entries is the length of the longest start without a pause.", "quantifier": "all histories of answers of all iterators", "why_tests_cant": "quantifies over all histories of answers", "anchors": ["oxyroot/src/rtree/tree/writer.rs: write", "oxyroot/src/rtree/branch/wbranch.rs"]}
{"id": "C44", "title": "Columns name their type", "statement": "When a finished file is read back, every column reports the C++ name and the Rust name of the type it was written with: i32 is reported as int32_t and i32, a string as char* and String, Vec<T> as vector<..> and Vec<..>, and [T; N] as name[N] and [name;N] with N in decimal. Vector names nested to any depth are translated to the Rust name.", "quantifier": "all finished files, all columns, all element types, all array lengths, all nesting depths", "why_tests_cant": "array lengths, nesting depths and files are unbounded", "anchors": ["oxyroot/src/rtree/branch/mod.rs: interpretation, item_type_name", "oxyroot/src/rtree/streamer_type.rs: type_name_cpp_to_rust, clean_type_name"]}
{"id": "C45", "title": "What fits is written", "statement": "Creating a file, writing any number of trees with any number of columns of supported types to it and closing it succeeds, and the file is not larger than a bound that is computed from the names and values alone, whenever that bound is at most 2*10^9 bytes, tree names contain no slash, no column has more than 32767 baskets, and no basket of strings or vectors has an entry of more bytes than the table of positions has places when there are more entries than places (the table has 1000 places and is doubled as needed). What was written can then be read back.", "quantifier": "all paths, all lists of trees of which at most 32767 share a name, all columns and values within the bound", "why_tests_cant": "success is claimed for every content that fits, with any number of baskets, columns and trees", "anchors": ["oxyroot/src/riofs/file.rs: RootFile::create, put, close", "oxyroot/src/rtree/tree/writer.rs: write", "oxyroot/src/rtree/branch/wbranch.rs: write", "oxyroot/src/rtree/wbasket.rs"]}
{"id": "C46", "title": "Reading always ends", "statement": "Opening any sequence of bytes as a file, looking up any object or tree in it, and iterating over any branch, slices or structures ends: it gives a result, an error or a panic, but never loops for ever, however the bytes are damaged, cut or forged. The exceptions are named and shown not to end: structures without any column, slices of a type that takes no bytes, and slices over sub-branches whose baskets announce neither entries nor an entry size.", "quantifier": "all byte sequences, all object names, all branches, all element types taking at least one byte, all structures with a column", "why_tests_cant": "it is a claim about every possible content of a file, including the maliciously made ones", "anchors": ["oxyroot/src/riofs/file.rs: RootFile::open, get_object, get_tree", "oxyroot/src/rbytes/rbuffer.rs: read_object_any_into", "oxyroot/src/rtree/branch/mod.rs: as_iter, ZiperBranches", "oxyroot/src/rusty/containers.rs: Slice", "oxyroot/src/rtree/tree/traits.rs: from_tree"]}
{"id": "C47", "title": "Compression does not show", "statement": "Reading an object or a branch gives the same result whether its records are stored plainly or compressed with zlib, xz or LZ4, for every type it is read as: the result depends only on the contents of the records, not on how or where they are stored. What is stored plainly is read without the decoders. Objects in more than one compressed block, and those compressed with any other algorithm, are not read; how this fails is shown.", "quantifier": "all decoders of compressed bytes, all files, all records of up to 2^24 bytes, all branches and element types", "why_tests_cant": "it relates two readings of every possible content, and must hold whatever the decoders do", "anchors": ["oxyroot/src/rcompress.rs: decompress, kind_of", "oxyroot/src/riofs/key.rs: Key::bytes, object", "oxyroot/src/rtree/basket.rs: raw_data", "oxyroot/src/rtree/branch/mod.rs: as_iter, as_iter_slice"]}
{"id": "C48", "title": "Sets and maps come back", "statement": "A branch whose entries are sets, maps, vectors and arrays nested in any way, stored as ROOT stores them, is read as the values that were stored: every entry of every basket. Whatever the bytes are, a set that was read has no element twice and a map has one value per key; if the file repeats a key the last of its values counts. Types without sets and maps are read as before. The type of a column is checked for sets but not for maps.", "quantifier": "all nestings of types, all values with fewer than 2^30 elements per container, all baskets; all bytes for the laws of sets and maps", "why_tests_cant": "the reader carries the length of the next header from element to element; every nesting and every emptiness of inner containers is a different sequence of states", "anchors": ["oxyroot/src/rbytes/mod.rs: Unmarshaler for HashSet, HashMap, Vec", "oxyroot/src/rbytes/rbuffer.rs: do_skip_header", "oxyroot/src/rtree/branch/mod.rs: as_iter, as_iter_unchecked"]}
{"id": "C49", "title": "A refused tree costs only itself", "statement": "A program that creates a file, tries to write any trees in any order, goes on after each error and closes the file gets an error exactly for the trees whose names contain a slash. The file then opens and has exactly the other trees, each complete, under the same rules as if the refused ones had never been tried; its records follow each other without gaps, and a crash at any write has the same consequences as without refusals.", "quantifier": "all paths, all lists of trees with any mixture of good and refused names, all values, all crash points", "why_tests_cant": "refusals come after the columns have been written, at any position among any trees; each history leaves different orphaned records behind", "anchors": ["oxyroot/src/rtree/tree/writer.rs: write, close", "oxyroot/src/riofs/file.rs: put, close"]}
{"id": "C50", "title": "The command-line tools print what is in the file", "statement": "Running oxyroot-dump on a file written by the library prints, for every tree in the order of writing, its columns with their C++ and Rust types, and for every row and every column in order the value, or None where the column is shorter; oxyroot-ls prints the class, name, title and columns. Exceptions: columns that are vectors of 64-bit integers are left out, a name that was used twice shows the newer tree twice, and a name with a semicolon makes both tools panic.", "quantifier": "all files finished by the library: all paths, trees, column types, values, numbers of rows", "why_tests_cant": "the tool has a separate case for every type name, and rows of columns with any lengths are interleaved; a wrong or missing case shows only for the type it is about", "anchors": ["oxyroot-dump/src/main.rs: ZipperDumperItem::new, ZiperDumperBranch, main", "oxyroot-ls/src/main.rs: main", "oxyroot/src/rtree/tree/reader.rs: show"]}
{"id": "C51", "title": "A crash at any byte leaves a file that is refused or complete", "statement": "Stop a program that creates a file, writes trees and closes it at any byte it sends to the disk: opening what is left is refused or shows every tree with all its contents. The save of the directory, torn, is refused until the position of the list of keys is on disk and complete from then on; one byte of the blanking of the header loses the file; the rewriting of the header, torn, is refused, then complete without class descriptions, then refused again, then complete. Exceptions: when the position of the keys is torn between two nonzero bytes the file may open with no trees; and for paths of 110 bytes or more one byte of the header, the last of the length of the name, is left open.", "quantifier": "all paths, trees, columns and contents; all prefixes of the bytes the program writes, including those that stop within a write", "why_tests_cant": "every byte of every program is a crash point, and what a torn number points to depends on the contents", "anchors": ["oxyroot/src/riofs/file.rs: close, write_header, open, read_header", "oxyroot/src/riofs/dir.rs: close, write_header, read_keys, read_dir_info"]}
{"id": "C52", "title": "Tree records conform to the class descriptions", "statement": "Read the record of any tree of a finished file with a reader that knows ROOT's rules for objects (byte counts, versions, pointers, references to classes and objects) and takes the members of every class from class descriptions: it reads the record to the last byte and finds what the library's own reader finds. The descriptions of the tree, of the branches and of their parts are in the file, with the members of the library's table, and every class a description refers to (base class, member object, pointer) is described in the file or known to every reader. Exception: the file holds no description of any leaf class nor of TBranchElement, so with the descriptions of the file alone no tree that has a column can be read this way.", "quantifier": "all paths, tables, columns and contents; every record of a tree below 2^30 bytes, shadowed trees included", "why_tests_cant": "positions, byte counts and references depend on the lengths of all names, on the number of columns and baskets and on the order of the objects before them", "anchors": ["oxyroot/src/rtree/tree/writer.rs: marshal", "oxyroot/src/rtree/branch/tbranch.rs, tbranch_element.rs, wbranch.rs: marshal", "oxyroot/src/rtree/leaf.rs: marshal", "oxyroot/src/rbytes/wbuffer.rs: write_object_any, write_header, set_header", "oxyroot/src/rdict/streamers", "oxyroot/src/riofs/file.rs: write_streamer_info"]}
{"id": "C53", "title": "Damage to a file stays where it is", "statement": "Every byte of a finished file belongs to exactly one part: the frame (the start up to the first record, the list of keys, the class descriptions, the free segments), the record of one tree, or one basket of one column. If bytes of a file change, or are cut off or added, the file still opens as long as the frame is in place, with the same names; every tree whose record is in place is found with the same columns; every column whose baskets are in place reads as before, whatever happened to the rest; and iterating over a column gives all values that lie in the baskets before the first damaged one, step by step. Collecting and iterating agree. Exception: there is no checksum, so changed bytes inside a basket can come back as other values without an error.", "quantifier": "all paths, tables, columns and contents; all ways of changing, cutting off or adding bytes; all columns, types asked for and numbers of steps", "why_tests_cant": "there are infinitely many ways to damage a file, and whether some read depends on a distant byte cannot be seen from examples", "anchors": ["oxyroot/src/riofs/file.rs: open, get_object, get_tree", "oxyroot/src/riofs/key.rs: object, buffer", "oxyroot/src/rtree/branch/mod.rs: get_basket, as_iter", "oxyroot/src/rtree/branch/tbranch.rs, tbranch_element.rs: get_baskets_buffer", "oxyroot/src/rtree/basket.rs: raw_data", "oxyroot/src/riofs/blocks.rs, file.rs: set_end"]}
{"id": "C54", "title": "Several files and handles at a time do not disturb each other", "statement": "Whatever a program does with other files and handles in between, the calls that write one file succeed and fail as they would alone, its callbacks hear the same, and after it is dropped the file has the same bytes; a reader gets every value of a column in order and then the end, whatever other readers of the same file and writers of other files do between two values. Two programs in which one part makes the same calls look the same to that part. Opening a file that is not there, or was removed, is an error until somebody creates it. Exceptions: a file can be opened only after the writing handle is dropped (after close alone, opening panics); a tree or an iterator belongs to the path and not to the file it was made from, so a file that is written again shows through, and one that is removed makes the next value panic.", "quantifier": "all programs, i.e. all finite sequences of create, write, close, drop, open, get_tree, as_iter, next and removals on any number of handles and paths; all ways of mixing them; all tables and columns", "why_tests_cant": "the number of interleavings grows exponentially and a test fixes one of them", "anchors": ["oxyroot/src/riofs/file.rs: RootFileReader (clone, read_at), RootFileWriter (new, write_at), open, create, close", "oxyroot/src/rtree/branch/mod.rs: as_iter", "oxyroot/src/rtree/branch/tbranch.rs, tbranch_element.rs: get_baskets_buffer", "oxyroot/src/rtree/tree/reader.rs: branch"]}
{"id": "C55", "title": "A file that has been closed stays as it was closed", "statement": "Once a file has been closed, writing further tables through the same handle does no harm: whatever the tables, whether the call succeeds, and wherever the machine stops meanwhile, the bytes of the closed file are still at its start and it opens with exactly the tables it was closed with. Closing it again never succeeds, but the file then still opens with all its tables (for files of at most 10^9 bytes). Exception: tables written after closing are accepted without an error and cannot be read.", "quantifier": "all paths, tables and contents; all further tables; all points at which the machine stops, in the middle of a write included", "why_tests_cant": "the harm of a late write depends on where it lands, for every layout of the file and every prefix of the writes", "anchors": ["oxyroot/src/riofs/file.rs: close, put, set_end, write_streamer_info, write_free_segments", "oxyroot/src/riofs/dir.rs: save_keys, write_header", "oxyroot/src/riofs/key.rs: new, new_from_buffer", "oxyroot/src/rtree/tree/writer.rs: write, close", "oxyroot/src/rtree/wbasket.rs: write_to_file"]}
{"id": "C56", "title": "Which columns a tree accepts, and how often it can be written", "statement": "Adding a column succeeds if and only if its type is a scalar, a string, a vector of scalars other than bool, or a non-empty array of scalars; for every other type, however nested, the program panics. A table with such a column among its columns is refused before anything happens to the file. A tree that has been written cannot be written again: the second call never succeeds.", "quantifier": "all types built from scalars, strings, vectors and arrays at any depth (arrays of fewer than 2^31 elements), all names and contents, all tables, all states of the file", "why_tests_cant": "types nest without bound, and 'only these' is a statement about all the others", "anchors": ["oxyroot/src/rtree/branch/wbranch.rs: new", "oxyroot/src/rtree/leaf.rs: new", "oxyroot/src/rdict/streamers/mod.rs: make_streamer_for_marshaler_type", "oxyroot/src/rtree/tree/writer.rs: new_branch, write, close"]}
{"id": "C57", "title": "Which column names hide the type of a column", "statement": "The reader takes the dimension of an array from brackets in the title of a column, and the title starts with the name the user chose. For a column without brackets in its name exactly its own type is accepted. In general a column is accepted as exactly the one type its title shows: no pair of brackets, the scalar or string; brackets with a number, an array of that length; brackets without a number, nothing; a number of 2^31 or more makes every reading panic. Vectors are accepted as what they are in all other cases. The values come back if and only if the type shown is the column's own.", "quantifier": "all finished files, tables, column names of any bytes, column types and values, and all types asked for", "why_tests_cant": "names are arbitrary text and the condition on them is an equivalence", "anchors": ["oxyroot/src/rtree/branch/tbranch.rs: item_type_name", "oxyroot/src/rtree/branch/tbranch_element.rs: _item_type_name", "oxyroot/src/rtree/leaf.rs: new", "oxyroot/src/rtree/branch/mod.rs: as_iter"]}
{"id": "C58", "title": "Which entries go into which basket", "statement": "The entries of a column are stored in baskets in their order; a basket is written as soon as one more entry as long as the last one would bring it to 32768 bytes, and what is left at the end, perhaps nothing, makes one more basket. The branch of a finished file lists exactly these baskets, with the number of entries before each and the exact size of each, and a reader gets them one at a time. All baskets but the last hold at least 16384 bytes, none holds 32768 before its last entry, and entries of one size s go 32767/s into a basket. While a tree is written a column holds less than 32768 bytes in memory between rows, however long it and its entries are. A program whose contents fit into a file succeeds if and only if no tree has a slash in its name, no column has more than 32767 baskets and the positions of the entries of each basket fit into its table.", "quantifier": "all tables of any number of columns and entries of any sizes, all finished files, all states a column can be in while it is written", "why_tests_cant": "the cut depends on every prefix of the entry sizes; the memory bound is an invariant of all reachable states; the limit is reached only with 10^8 entries", "anchors": ["oxyroot/src/rtree/branch/wbranch.rs: write, flush, create_new_basket", "oxyroot/src/rtree/wbasket.rs: update, write_to_file", "oxyroot/src/rtree/branch/tbranch.rs: get_baskets_buffer"]}
{"id": "C59", "title": "What a file says about the size of its trees is right", "statement": "The record of each column in a finished file states the number of its entries, the number of its baskets and the bytes its baskets take in the file exactly; the compressed and the uncompressed size are equal. The leaf of each column states its name, element type, sign, number of elements for each entry and, for strings, the bytes of the longest. The record of each tree states the number of rows and the bytes of all entries of all its columns.", "quantifier": "all tables of any number of columns and entries, all finished files", "why_tests_cant": "the totals depend on every entry and every basket; they must be right for all tables", "anchors": ["oxyroot/src/rtree/branch/wbranch.rs: write, flush", "oxyroot/src/rtree/tree/writer.rs: write, close", "oxyroot/src/rtree/tree/base.rs: tot_bytes", "oxyroot/src/rtree/leaf.rs: Leaf::new, write_to_buffer"]}
{"id": "C60", "title": "A file is exactly what was written to it", "statement": "Two files written and closed successfully have the same bytes if and only if they were written to the same path with tables of the same names and columns (names, types and values) in the same order. In particular writing is reproducible, callbacks and the time of writing leave no trace, and no difference between tables is lost, also in tables that a later one of the same name hides and in columns the reader refuses.", "quantifier": "all pairs of programs that finish a file; for callbacks also those that fail", "why_tests_cant": "it compares all pairs of programs, with tables of any size", "anchors": ["oxyroot/src/rtree/tree/writer.rs: add_callback, write", "oxyroot/src/riofs/utils.rs: now", "oxyroot/src/riofs/file.rs: create, close"]}
{"id": "C61", "title": "How large a file is", "statement": "A finished file consists of its beginning, the class descriptions, for each tree its key (twice), its object and its baskets, the list of keys and the free list, without gaps, so that its size is the sum of theirs: baskets have the sizes given by the entries, keys those given by the names. It is larger than the data of its entries, and no larger than data, 4 bytes for each entry, about 100 bytes and the two names for each basket, and a bounded amount for each column, tree and file.", "quantifier": "all paths and all lists of tables that are written successfully", "why_tests_cant": "sizes depend on every name, type and entry and on the cut into baskets", "anchors": ["oxyroot/src/riofs/file.rs: close, set_end", "oxyroot/src/riofs/key.rs: new_from_buffer, new_from_object", "oxyroot/src/rtree/wbasket.rs: write_to_file"]}
