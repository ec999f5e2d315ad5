# Design of the formal model of oxyroot

The model is written in Rocq (Coq 8.16.1), standard library only.  Sources are
in `rocq/theories`.  Every model definition has a comment naming the file and
lines in `/repo` it follows (paths are relative to `/repo/oxyroot/src` unless
they start with `oxyroot_derive`).

## Conventions

* A byte is a `Z` in 0..255, a byte string is `list Z`.  A Rust `String` is the
  byte string of its UTF-8 encoding; `utf8_valid` is the validity test used by
  `std::str::from_utf8` (and is proved to accept exactly the encodings of
  sequences of Unicode scalar values, C02).
* Machine integers are `Z`.  Casts (`as i32`, `as u32`, ...) are explicit
  wrapping functions.  `f32`/`f64` are their bit patterns.
* A call returns `Ok v`, `Err e` (a Rust `Err`) or `Panic` (any Rust panic:
  index out of bounds, `unwrap`, `assert!`, `todo!`, `unimplemented!`, overflow).
  Code that exists in the library but is outside the model yields the separate
  value `Unmodelled`; no theorem treats it as an error or as success.
* The profile is the debug profile: integer overflow and underflow panic.
* A file is the log of positioned writes that produced it; its disk image is the
  log applied to the empty disk, where a write past the end pads with zeros as
  `seek` + `write` do.  A crash point is a prefix of the log, the last write cut
  anywhere.
* A program that writes is `session path tables`: create a file, for each table
  declare columns and callbacks in any order and write it, close.  Iterators are
  the list of their answers.
* Recursion depth of the object reader is bounded by fuel equal to the buffer
  length; running out of fuel is the separate value `OutOfFuel`.
* A property that the code does not have in the form a user would expect is
  stated in the form it does have, and a theorem whose name ends in `_refuted`
  gives a witness against the stronger form.

## Files

Model (function by function):

| file | models |
|---|---|
| `Base.v` | results, monads, list and `Z` helpers |
| `Bytes.v`, `Utf8.v` | `to_be_bytes`/`from_be_bytes`, casts; `std::str::from_utf8` |
| `RBuf.v`, `WBuf.v` | `RBuffer`, `WBuffer` |
| `ObjAny.v` | class tags and object references: `read_object_any_into`, `write_object_any` |
| `Values.v` | `Marshaler`/`Unmarshaler` of scalars, strings, vectors, arrays |
| `Key.v`, `Header.v` | dates, free segments, keys, directory record, file header |
| `Obj.v`, `Streamer.v` | rbase/*, rcont/*, streamer elements |
| `RObj.v`, `TreeObj.v` | readers and writers of leaves, baskets, branches, trees, streamer infos; the factory |
| `File.v` | `create`, `put`, `close`, `open`, `get_object`, the write log, the dependency visitor |
| `Decomp.v` | `rcompress.rs` around the decoders |
| `Names.v`, `Interp.v` | type name cleaning, dimensions in titles, C++ to Rust names |
| `Column.v` | writing: leaves, baskets, branches, `WriterTree::write`, callbacks |
| `ColRead.v`, `SliceRead.v` | reading: baskets, `as_iter`, `ZiperBranches`, `Slice` |
| `Lazy.v` | the iterator that `as_iter` returns, step by step |
| `World.v` | several files and handles: paths, buffers, handles, programs of calls in any order |
| `Coll.v` | reading sets and maps |
| `Dump.v` | `oxyroot-dump`, `oxyroot-ls`, `ReaderTree::show` |
| `TreeSession.v` | whole programs |
| `StreamerDb.v` | the generated table of class descriptions, complete |
| `Derive.v` | branch names, the code the two derive macros generate, the traits |

Specification, independent of the proofs: `Spec.v`, `SpecName.v`, `SpecTree.v`, `SpecRead.v`,
`SpecDerive.v`, `SpecEnds.v`, `SpecPack.v`, `SpecColl.v`, `SpecTry.v`, `SpecDump.v`, `SpecCrash.v`, `SpecDesc.v`, `SpecDamage.v`, `SpecWorld.v`, `SpecTitle.v`, `SpecBasket.v`, `SpecSame.v`, `SpecSize.v`,
`SpecRoom.v` (and the few definitions in the `Prop*.v` files).

Property theorems: `PropCodec.v`, `PropFile.v`, `PropTree.v`, `PropRead.v`,
`PropDerive.v`, `PropEnds.v`, `PropPack.v`, `PropColl.v`, `PropTry.v`, `PropDump.v`, `PropCrash.v`, `PropDesc.v`, `PropDamage.v`, `PropWorld.v`, `PropAfter.v`, `PropTypes.v`, `PropTitle.v`, `PropBasket.v`, `PropCount.v`, `PropSame.v`, `PropSize.v`, `PropNames.v`, `PropRoom.v`, `PropCycle.v`.  Concrete cases that meet the hypotheses stand
beside them; `Sample.v` has a file that was written by running the model.

Everything else is proof: the writer/reader calculus (`Codec.v`), layout of the
file (`FileLay.v` ... `FileFinal.v`), invariants of columns, trees and sessions
(`ColOps.v` ... `SessFacts.v`), success of writing (`ColFwd.v`, `TreeFwd.v`,
`WLe.v`, `SessFwd.v`, `RoomFwd.v`, `RoomFacts.v`), facts for the property files.
`Assumptions.v` prints the assumptions of all property theorems.


## The properties: model, method, theorems

* **C01 Scalar values survive a buffer round trip bit for bit.** `RBuf`/`WBuf`; inverse of the big-endian coding on the range of each type.  
  Theorems: `C01_scalars_survive`.
* **C02 Strings survive a buffer round trip.** `write_string`/`read_string` with both length forms; the validator is compared with an inductive definition of UTF-8.  
  Theorems: `C02_strings_survive`, `C02_validation_is_utf8`.
* **C03 Vectors, arrays and their nestings survive a buffer round trip.** `Values.v`; induction on the type.  
  Theorems: `C03_values_survive`.
* **C04 A key header occupies exactly the length it declares.** `Key.v`; the length computed for a key against the bytes its writer appends, also for baskets.  
  Theorems: `C04_header_lengths`.
* **C05 Key headers survive a round trip.** `Key.v`; field-by-field inverse in both widths.  
  Theorems: `C05_keys_survive`.
* **C06 Timestamps of keys and directories.** `Dates.v`; positional arithmetic shows the packing is injective; reading back is refuted.  
  Theorems: `C06_packed_date_determines_the_second`, `C06_date_read_back_refuted`.
* **C07 The free-segment list survives a round trip.** `Key.v` (free segments, both widths).  
  Theorems: `C07_free_segments_survive`.
* **C08 The file header survives a round trip in both widths.** `Header.v`.  
  Theorems: `C08_file_header_survives`.
* **C09 The directory record survives a round trip.** `Header.v`.  
  Theorems: `C09_directory_survives`.
* **C10 Polymorphic object lists survive a round trip.** Simulation between writer state (class table, object table) and reader state (tag table), closed under sequencing and headers; lists of any length and nesting.  
  Theorems: `C10_object_lists_survive`.
* **C11 A basket written to a file gives back its entries.** Invariant of the branch writer: flushed baskets and the open basket decode to the values consumed so far.  
  Theorems: `C11_baskets_give_back_their_entries`.
* **C12 A column gives back exactly the values written to it.** Composition of C11 over all baskets, through `as_iter`.  
  Theorems: `C12_columns_give_back_their_values`.
* **C13 A tree written to a file can be reopened and gives back all its columns.** Composition of all layers on the final disk image.  
  Theorems: `C13_file_gives_back_its_tables`.
* **C14 The tree reports the length of its longest column.** Induction over the row loop.  
  Theorems: `C14_tree_is_as_long_as_its_longest_column`.
* **C15 Write callbacks run exactly once per row and phase.** Induction over the row loop.  
  Theorems: `C15_callbacks_hear_every_row`, `C15_after_is_never_heard`.
* **C16 Several objects in one file: the newest cycle wins.** Invariant over the tables written so far: cycles of one name increase; lookup takes the largest. The cycles of all keys are known exactly (`numbered` in TreeSession.v), also when they wrap around.  
  Theorems: `C16_cycle_numbers`, `C16_newest_cycle_wins_refuted`, `C16_newest_cycle_wins`.
* **C17 Records never overlap.** Layout invariant over the write log of any session, stated on the writes.  
  Theorems: `C17_records_follow_each_other`, `C17_records_never_overlap`, `C17_records_keep_their_bytes`.
* **C18 A file that was never closed is not accepted.** Case split over prefixes of the write log before the directory is saved.  
  Theorems: `C18_unsaved_file_is_refused`.
* **C19 After the directory is saved all trees are readable.** Case split over the prefixes after it.  
  Theorems: `C19_saved_file_opens`, `C19_last_write_refuted`.
* **C20 A successful close makes the file self-consistent.** Header, free list, directory and key list of the finished file computed from the layout.  
  Theorems: `C20_close_is_consistent`.
* **C21 Files opened in the wrong mode are refused without side effects.** All operations are built from steps of which only two look at the mode (`Prog.v`); induction over programs.  
  Theorems: `C21_read_only_file_is_not_written`, `C21_read_only_file_takes_no_object`, `C21_refused_writes_do_not_change_reading`, `C21_write_only_file_is_not_read`.
* **C22 Names with a slash and class clashes are refused.** Direct on `put` and `tree_write`, including the log.  
  Theorems: `C22_slash_is_refused`, `C22_other_class_is_refused`, `C22_tree_with_slash_is_refused`, `C22_tree_with_slash_writes_refuted`.
* **C23 Records from newer format versions are refused.** For all bodies, by computation of the first reads.  
  Theorems: `C23_newer_versions_refused`, `C23_inner_records_refused`.
* **C24 Objects of unknown classes are refused.** The factory is a closed list; for all other class names.  
  Theorems: `C24_registered_classes`, `C24_unknown_class_refused`, `C24_unknown_key_refused`.
* **C25 A column can only be read as the type it was written with.** Case analysis over all pairs of types, with the decimal printing of array lengths inverted.  
  Theorems: `C25_only_the_own_type_reads`.
* **C26 Looking up a branch by name finds the first in depth-first order.** Induction on forests.  
  Theorems: `C26_lookup_is_first_in_order`, `C26_lookup_in_a_branch`.
* **C27 Composition of derived branch names.** Induction on the chain of parents.  
  Theorems: `C27_names_are_paths`, `C27_plain_names`, `C27_absolute_names`.
* **C28 Deriving WriteToTree on a flat structure writes each field as its own column.** Invariant per round of the generated code, callbacks and channels as lists.  
  Theorems: `C28_flat_structures_are_columns`.
* **C29 Deriving WriteToTree on nested structures.** Same, by induction on the structure type, with what a nested structure loses.  
  Theorems: `C29_what_structures_leave`, `C29_nested_structures_are_columns`, `C29_nested_twice_refuted`, `C29_only_nested_refuted`.
* **C30 Deriving ReadFromTree yields the common prefix of its columns.** Induction on the structure type; rows are the common prefix.  
  Theorems: `C30_structures_are_rows`, `C30_plain_fields`, `C30_missing_column`, `C30_empty_structure_refuted`, `C30_uneven_slices_refuted`.
* **C31 Written data are stored uncompressed and recognised as such.** On the records of C17: payload length equals object length.  
  Theorems: `C31_stored_uncompressed`.
* **C32 Cleaning a type name does not change the names the library writes.** String rewriting modelled byte by byte; induction on nesting.  
  Theorems: `C32_cleaning_goes_inside`, `C32_written_names_are_clean`, `C32_root_names`, `C32_long_long_refuted`.
* **C33 Splitting of structure branches.** Invariant of the zipper over arbitrary partitions into baskets.  
  Theorems: `C33_entries_are_put_together`, `C33_fields_are_rows`, `C33_empty_sub_branch_refuted`, `C33_array_sub_branch_refuted`.
* **C34 Slices consume an entry exactly.** Loop on the remaining length.  
  Theorems: `C34_slices_take_the_whole_entry`, `C34_branches_of_slices`.
* **C35 Attribute records survive a round trip.** Codecs with the C10 calculus.  
  Theorems: `C35_fill_survives`, `C35_line_survives`, `C35_marker_survives`, `C35_io_features_survive`, `C35_object_header_survives`, `C35_names_survive`.
* **C36 Branch metadata survive a round trip.** Codecs with the C10 calculus.  
  Theorems: `C36_branches_survive`.
* **C37 Streamer information survives a round trip.** Codecs with the C10 calculus; whole generated table checked to be in range.  
  Theorems: `C37_streamers_survive`.
* **C38 Successful reads stay inside the buffer and move forward.** Direct, for all buffers and positions.  
  Theorems: `C38_scalar_reads_stay_inside`, `C38_string_reads_stay_inside`, `C38_value_reads_stay_inside`, `C38_cstring_refuted`.
* **C39 Limits of variable-size columns are exact.** Exact limit as an equivalence, plus a witness for the offset table.  
  Theorems: `C39_vector_limit_is_exact`, `C39_long_then_short_refuted`.
* **C40 Which paths can be reopened.** Equivalence on the length of the path.  
  Theorems: `C40_which_paths_can_be_reopened`.
* **C41 Short or foreign files.** Direct on `open`, for all disks.  
  Theorems: `C41_short_file_is_an_error`, `C41_foreign_file_is_not_opened`, `C41_foreign_file_error_refuted`.
* **C42 Structures written through the derive macro come back through the derive macro.** Composition of C28/C29 with C13 and C30.  
  Theorems: `C42_structures_come_back`, `C42_nested_names_refuted`.
* **C43 A provider that pauses.** Generalisation of the row invariant to arbitrary answer lists.  
  Theorems: `C43_pausing_providers`.
* **C44 Columns name their type.** Induction on nesting of the name, and C13.  
  Theorems: `C44_vectors_at_any_depth`, `C44_columns_name_their_type`.
* **C45 What fits is written.** Forward (progress) proof of every step from the room that is left, with upper bounds on all writers; sizes stated independently in `SpecRoom.v`.  
  Theorems: `C45_what_fits_is_written`, `C45_what_fits_is_read_back`.
* **C46 Reading always ends.** Logical relation between runs with different step bounds for the object reader (positions only move forward between recursive calls), forward-moving readers for values, a decreasing measure for zipped sub-branches and for structures.  
  Theorems: `C46_opening_any_file_ends`, `C46_reading_any_object_ends`, `C46_more_steps_change_nothing`, `C46_reading_any_column_ends`, `C46_reading_empty_values_ends`, `C46_reading_any_slices_ends`, `C46_reading_any_structures_ends`, `C46_structure_without_columns_refuted`, `C46_slices_of_nothing_refuted`, `C46_hollow_sub_branches_refuted`, `C46_reading_any_sets_and_maps_ends`.
* **C47 Compression does not show.** The loop around the decoders is modelled with the decoders as parameters: any functions from bytes to bytes. Records, baskets and branches stored compressed and plainly are related by their contents; reading commutes with the relation. Everything proved for plain files holds with any decoders because reading never asks them (refinement between the reader without and with decoders). C46 is stated for all decoders that end.  
  Theorems: `C47_packed_records_give_back_their_contents`, `C47_packed_objects_are_the_same`, `C47_columns_depend_on_contents_only`, `C47_compressed_copies_are_alike`, `C47_decoders_do_not_matter`, `C47_written_files_need_no_decoders`, `C47_several_blocks_refuted`, `C47_other_algorithms_refuted`.
* **C48 Sets and maps come back.** A type of nested vectors, arrays, sets and maps with its reader; the layout of ROOT as a relation between values and bytes; reading inverts it, by induction on the type with the header length the reader carries as state. Sets and maps are lists built by the insertions of the code; their laws are proved for all bytes. On types without sets and maps the reader is the one of C12.  
  Theorems: `C48_types_are_checked`, `C48_sets_and_maps_come_back`, `C48_sets_have_no_duplicates`, `C48_maps_have_one_value_per_key`, `C48_the_last_value_counts`, `C48_other_types_as_before`, `C48_maps_are_not_checked_refuted`.
* **C49 A refused tree costs only itself.** The program of C13, except that an error of `write` is kept as an answer and the next tree is tried. Every step of writing a tree is shown to return no error on a file open for writing, except the refusal of a name; the invariant of C13 is carried over a refused tree, whose baskets stay in the file as records nobody points to. From there everything proved from the invariant at closing applies to the accepted trees.  
  Theorems: `C49_refused_trees_cost_only_themselves`, `C49_records_follow_each_other`, `C49_crashes`, `C49_without_refusals`.
* **C50 The command-line tools print what is in the file.** The two programs as functions from the bytes of a file to what they print, with the 622 cases of the `match` on type names (compared with the source by a script) and the regular expression for arrays. From C13, C44 and C48 each column's type name is one of the cases, or an array, or a vector of 64-bit integers, and reading it in that case gives its values; the lines follow by computing with lists.  
  Theorems: `C50_dump_prints_the_file`, `C50_dump_prints_every_tree`, `C50_ls_lists_the_file`, `C50_every_column_refuted`, `C50_every_tree_refuted`, `C50_semicolons_panic`.
* **C51 A crash at any byte leaves a file that is refused or complete.** The list of writes of a session, cut at any byte. The proof follows the closing write by write: before the directory is saved the file is refused (C18); the save torn after n bytes is the old directory with the first n bytes of the new one, decoded field by field; then records are appended (C19); then the header, blanked and rewritten, is torn after n bytes and decoded field by field. Numbers are cut by a function that keeps the first bytes of a big-endian word.  
  Theorems: `C51_refused_or_whole`, `C51_torn_directory`, `C51_torn_blanking`, `C51_torn_header`, `C51_refused_or_whole_refuted`.
* **C52 Tree records conform to the class descriptions.** A reader written for the purpose (SpecDesc.v) that knows the layout rules of ROOT and four classes, and takes all else from class descriptions, is run on the record. A simulation between the writers and this reader, class by class, carries the classes and objects met so far and their positions. A second induction, over the descriptions a session collects, gives which classes a file describes; a third, over the reader, that fewer descriptions never read more, and that all classes in a value read are described.  
  Theorems: `C52_tree_records_conform`, `C52_described_by_itself_refuted`, `C52_descriptions_of_a_file`, `C52_descriptions_are_closed`.
* **C53 Damage to a file stays where it is.** SpecDamage.v says which bytes belong to what, from the header, the directory, the records and their lists of baskets. The footprint of each read (open, record, basket) is shown to lie in its part, so disks that agree there read alike. That the parts tile the file is an induction over the session: a counting function is kept equal to the end of the file by every write. Lazy.v models the iterator that as_iter returns, basket by basket; it is related to collecting and to the parts.  
  Theorems: `C53_baskets_decide`, `C53_damage_stays_where_it_is`, `C53_values_before_the_damage`, `C53_every_byte_has_one_place`, `C53_parts_do_not_overlap`, `C53_step_by_step`, `C53_damage_is_noticed_refuted`.
* **C54 Several files and handles at a time do not disturb each other.** World.v puts a file system (paths, files that live on when their path is removed or reused, a write buffer of 8192 bytes) and handles (writers, readers, trees, iterators) around the functions of the other files; a program is any list of calls on handles, so every interleaving of several tasks is such a list. A relation between two worlds that agree on one part's handles and paths is kept by every step; induction over the program gives the noninterference theorem, from which the theorems on files written and read side by side follow by running the part alone (`session`, and `open_iter` from Lazy.v).  
  Theorems: `C54_schedules_do_not_matter`, `C54_schedules_agree`, `C54_files_written_side_by_side`, `C54_readers_in_any_order`, `C54_written_then_read`, `C54_missing_files`, `C54_closed_is_not_enough`, `C54_dropped_is_enough`, `C54_readers_keep_their_file_refuted`, `C54_readers_keep_removed_files_refuted`.
* **C55 A file that has been closed stays as it was closed.** Every function that writes is shown, structurally, to write only at or after the end of the file it starts from, whatever its result (`keeps` in AfterFacts.v; lengths come from the check in the marshalling of keys). So the closed file is a prefix of every later state of the disk, and opening it is the argument of C53. A second close is followed step by step: it appends a list of keys and overwrites the directory record in place, then stops because the place of the class descriptions is already recorded.  
  Theorems: `C55_closed_files_stay`, `C55_late_tables_are_not_stored`, `C55_closing_again_fails`, `C55_closing_again_keeps_the_tables`, `C55_written_is_stored_refuted`.
* **C56 Which columns a tree accepts, and how often it can be written.** Case analysis over the type for one column, induction over the calls that build the table, and the fact that writing takes the class descriptions out of the tree.  
  Theorems: `C56_exactly_these_types`, `C56_other_types_leave_no_trace`, `C56_a_tree_is_written_once`.
* **C57 Which column names hide the type of a column.** SpecTitle.v says, without regular expressions, when a title shows a dimension and which number it is; the scanning functions of the model are shown equal to that by induction on the text. The type name the reader works out is computed for every written column (`named_type`), type names determine types, and reading a branch without sub-branches gives no error of its own.  
  Theorems: `C57_names_decide_the_type`, `C57_plain_names`, `C57_brackets_hide_the_type`, `C57_any_name_reads_refuted`.
* **C58 Which entries go into which basket.** SpecBasket.v says how a list of entries is cut (a function of the entry sizes of C45) and how many bytes each basket takes. An invariant of the write calls (BasketFacts.v) relates every reachable column to the cut of what it has consumed; it is carried through rows, trees and sessions, joined with the places of C53 and read back. How full baskets are, and how many there are for entries of one size, follows by induction on the entries. The memory bound is an invariant over all reachable columns without any hypothesis; the limit of 32767 baskets needs no bound on the file. The table of positions is followed in both directions (SlotFacts.v): the forward proof of C45 needs no more than the description in SpecRoom.v, and every program that succeeds meets it.  
  Theorems: `C58_baskets_of_a_file`, `C58_how_full`, `C58_entries_of_one_size`, `C58_writing_holds_little`, `C58_at_most_32767_baskets`, `C58_what_can_be_written`, `C58_steady_columns_fit`, `C58_what_fits_is_written_refuted`.
* **C59 What a file says about the size of its trees is right.** `right_counts` (SpecBasket.v) says what the record of a column should contain in terms of the cut of C58 and `right_leaf` what its leaf should. Three invariants are added to those of C58: the bytes counted by a column are the sum of its basket table, the leaf of a column of strings has seen the longest entry so far, and what a tree counts is what its columns have handed over (BasketFacts.v); they are carried through sessions (PartFacts.v) and read back from the finished file.  
  Theorems: `C59_numbers_of_a_file`, `C59_trees_add_up_refuted`.
* **C60 A file is exactly what was written to it.** `content` (SpecSame.v) is the name and the columns of a table. A relation on results that ignores events is kept by every step of a session (SameFacts.v). In the other direction the tree records give names and types (C59) and, since the baskets listed are the same bytes and entries are a prefix code, the values (SameFile.v); this covers hidden tables and columns the reader refuses.  
  Theorems: `C60_callbacks_leave_no_trace`, `C60_bytes_and_tables`.
* **C61 How large a file is.** The parts of C53 own every byte of the file once, so their sizes add up to its size (SizeFacts.v: induction over the bytes); the sizes of the parts are those of C58 for the baskets and are computed for keys, key list and free list. The upper bound is the one of C45, which holds for every finished file because the session is a function and C58 says which programs succeed.  
  Theorems: `C61_size_of_a_file`, `C61_no_larger_than`, `C61_no_smaller_than`.

## What is modelled and what is not

Modelled: rbytes (buffers, values, all versions of the header and object tags the
library reads), riofs (file, directory, key, blocks, dates), rbase, rcont,
rcompress, rdict (streamer elements, visitor, database, generated table), rtypes
(factory), rtree (leaves, baskets, branches, trees, reading and writing, type
names), rusty::containers, both derive macros, `branch_name`.

Not modelled:

* the decoders of zlib, xz and LZ4, which are other libraries: they are parameters
  (`decoders` in `Decomp.v`), any functions from bytes to bytes.  The code around them
  (`rcompress.rs`) is modelled.  Theorems that do not mention decoders are about reading
  without any, where a compressed record is `Unmodelled`; C47 shows that the results
  are the same with any decoders;
* the iteration order of `HashMap` and `HashSet` (the model keeps the order of insertion)
  and derived structures with fields of these types;
* `clean_type_name` and the title regular expressions on text that is not ASCII
  (`Unmodelled`);
* laziness: the iterators over branches without sub-branches are modelled step by step
  (`Lazy.v`, `World.v`); elsewhere iterators are modelled by the list of what they yield
  up to the first failure; where several columns are read in step the model keeps the
  order of the reads;
* `HashMap` iteration order in `DbStreamer::get` for versions <= 0: the generated
  table has one version per class (proved, `table_names`), so the order is irrelevant;
* addresses of objects, used as keys of the object table: each object gets a number,
  distinct for distinct objects, as addresses of live objects are;
* the operating system: writes reach the disk in program order, a crash keeps a prefix;
  different paths are different files (no links), opening and creating files succeeds;
* memory exhaustion, threads of the user inside one call of the library (calls as such may
  be mixed in any order, `World.v`), the generators, and the formatting of what
  `oxyroot-ls` and `oxyroot-dump` print (what they print is modelled; maps of slices are not).

Simplifications inside modelled functions are stated in the comment of the
definition.

## Findings

Where the code does not do what its user would expect.  Those with a theorem name it.

1. A long entry among more than a thousand short ones in a string or vector
   column makes the writer panic (`C39_long_then_short_refuted`; `C58_what_can_be_written`
   says exactly when).
2. Vector entries whose byte count does not leave six bits clear are misread
   (`C39_vector_limit_is_exact`).
3. A file whose path has more than 478 bytes cannot be opened again (`C40_...`).
4. Dates are written packed and read as Unix seconds (`C06_date_read_back_refuted`).
5. A key that crosses 2*10^9 bytes gets a length 8 bytes too short; positions of keys
   and free segments are truncated to 32 bits.  All file theorems are limited to
   files of at most 2*10^9 bytes for this reason.
6. A second reference to an object is read as absent (C10 states it).
7. Class names of more than 80 bytes are cut by the object reader; since no registered class has
   such a name they are refused as unknown all the same (`C24_unknown_class_refused`).
8. A column of more than 32767 baskets cannot be written (`C58_at_most_32767_baskets`): about
   1 GB of numbers (`C58_what_fits_is_written_refuted`).
9. Closing twice panics (`C55_closing_again_fails`); writing a tree twice panics
   (`C56_a_tree_is_written_once`); `name;cycle` lookups panic (`C50_semicolons_panic`).
10. `clean_type_name` turns "long long" and "unsigned char" into other types
    (`C32_long_long_refuted`).
11. `close` overwrites the file header with zeros before writing it; a crash between
    makes the file unreadable (`C19_last_write_refuted`).
12. A file that is not a ROOT file panics instead of returning an error
    (`C41_foreign_file_error_refuted`).
13. Derived `WriteToTree` on structures nested twice loses the last entry, with only
    nested fields writes nothing, and does not prefix names
    (`C29_nested_twice_refuted`, `C29_only_nested_refuted`, `C42_nested_names_refuted`).
14. Derived `ReadFromTree` of an empty structure never ends; slices of different
    lengths panic (`C30_empty_structure_refuted`, `C30_uneven_slices_refuted`).
15. A structure branch with an empty sub-branch mixes up its fields, and one with an
    array sub-branch is cut by element size (`C33_..._refuted`).
16. A tree whose name contains a slash is refused only after its baskets have been
    written (`C22_tree_with_slash_writes_refuted`).
17. A column whose name contains brackets may not be readable with its own type
    (`C57_names_decide_the_type` says exactly when).
18. 2-D arrays, arrays and vectors of strings, vectors of `bool`, of arrays and of
    vectors panic when a column of them is created (`C56_exactly_these_types`).
19. `StateCallBack::After` is never sent (`C15_after_is_never_heard`).
20. Reading a C string without a terminator leaves the buffer past its end
    (`C38_cstring_refuted`); invalid UTF-8 is read as the empty string.
21. `put` on a file opened for reading changes the in-memory end of the file and the in-memory
    list of class descriptions before it fails. The list of objects stays as it is, and every
    object reads as before (`C21_refused_writes_do_not_change_reading`).
22. Slices over sub-branches whose baskets announce nothing, and slices of arrays of
    length 0, never end (`C46_hollow_sub_branches_refuted`, `C46_slices_of_nothing_refuted`).
23. The last 12 of the 60 bytes reserved for the directory record are never written.
24. An object in several compressed blocks (more than 16 MB) is refused, and one that
    is compressed with Zstandard makes the program panic (`C47_several_blocks_refuted`,
    `C47_other_algorithms_refuted`).
25. The type of a column is not checked when it is read as maps: a column of numbers
    gives nonsense or a panic instead of an error (`C48_maps_are_not_checked_refuted`).
26. `oxyroot-dump` has no case for vectors of 64-bit integers and leaves such columns out
    (`C50_every_column_refuted`); of two trees of one name it prints the newer one twice
    (`C50_every_tree_refuted`); a name with a semicolon makes it and `oxyroot-ls` panic
    (`C50_semicolons_panic`).
27. The directory record is overwritten in place, so that a crash in the middle of its
    position of the keys can leave a file that opens and shows no trees
    (`C51_refused_or_whole_refuted`); and while the header is rewritten a file that could
    be opened a few bytes before is refused again (`C51_torn_header`).
28. The length of a key header is kept in 16 bits and computed in 32: names of more than
    32 KB give records that contradict themselves.  `close` does not flush the buffered
    writer itself; the error of the flush when it is dropped is lost.
29. A finished file holds the descriptions of the classes of trees and branches but of no
    leaf class and not of `TBranchElement` (`C52_descriptions_of_a_file`): readers that
    do not know these classes cannot read its trees (`C52_described_by_itself_refuted`).
30. Nothing in the format as written lets the reader notice changed bytes inside a basket:
    they come back as other values (`C53_damage_is_noticed_refuted`).
31. After `close` and before the `RootFile` is dropped the header is still in the write
    buffer and the file on disk starts with zeros: opening it panics
    (`C54_closed_is_not_enough`).
32. Trees and iterators keep the path, not the file: they open the path again for every
    basket.  A file that is written again shows through old handles
    (`C54_readers_keep_their_file_refuted`); one that is removed makes them panic
    (`C54_readers_keep_removed_files_refuted`).
33. `close` leaves the file open for writing.  A table written afterwards is accepted, its
    bytes reach the disk and no key for it is ever stored (`C55_written_is_stored_refuted`).
    Closing again writes the list of keys and the directory once more and then panics
    (`C55_closing_again_fails`).
34. The record of a tree counts the bytes of the entries without the headers of the baskets
    and states 0 compressed bytes, so that its totals are not the sums of those of its
    branches (`C59_trees_add_up_refuted`).
35. Cycle numbers are kept in 16 bits: `put` computes the next one in 32 bits and stores
    `cycle as i16`.  The 32768th object of one name gets the cycle -32768, and so does every
    later one; looking the name up goes on giving the 32767th
    (`C16_newest_cycle_wins_refuted`, with a file that shows it, `too_many`).  The theorems
    about what is found in files therefore ask that no name is used more than 32767 times
    (`few` in SpecName.v); the number of trees in a file is not limited otherwise
    (`many_trees`).

## Trusted base

* Coq's kernel (8.16.1) and its virtual machine (`vm_compute`).
* `Print Assumptions` of the conjunction of all property theorems (`Assumptions.v`)
  prints "Closed under the global context": no axiom is used, none is declared here.
  `vcheck` lists seven constants of `Coq.ssr.ssrunder` among the library axioms;
  they are parameters of a functor argument in the standard library, loaded with
  its tactics, and no theorem depends on them.
* Fidelity of the model to the Rust source, which is by reading, and the meaning of
  the specification files.
