{
 "claims": [
  {
   "property": "C01",
   "status": "proved",
   "theorems": [
    "C01_typed_round_trip"
   ],
   "note": ""
  },
  {
   "property": "C02",
   "status": "partial",
   "theorems": [
    "C02_memory_reader_is_cursor_partial",
    "C02_memory_reader_refuted"
   ],
   "note": "False of the code for read lengths near 2^64 (the bounds check wraps): finding. Proved for lengths up to 2^63 and seek offsets that do not overflow ssize_t."
  },
  {
   "property": "C03",
   "status": "proved",
   "theorems": [
    "C03_growable_writer_is_sparse_file"
   ],
   "note": ""
  },
  {
   "property": "C04",
   "status": "partial",
   "theorems": [
    "C04_fixed_writer_partial",
    "C04_fixed_writer_refuted"
   ],
   "note": "False of the code for seek offsets that overflow ssize_t: finding. Proved for offsets within 2^62."
  },
  {
   "property": "C05",
   "status": "partial",
   "theorems": [
    "C05_line_round_trip",
    "C05_line_any_terminator",
    "C05_line_skip_partial",
    "C05_line_skip_refuted"
   ],
   "note": "Without skipping: proved. With skipping: false of the code when the data ends with a single NUL after the skipped whitespace: finding; proved otherwise."
  },
  {
   "property": "C06",
   "status": "proved",
   "theorems": [
    "C06_chunks_written",
    "C06_chunks_presented"
   ],
   "note": ""
  },
  {
   "property": "C07",
   "status": "proved",
   "theorems": [
    "C07_chunk_reader_terminates"
   ],
   "note": ""
  },
  {
   "property": "C08",
   "status": "partial",
   "theorems": [
    "C08_zipped_reads_like_plain_partial",
    "C08_zipped_seek_refuted",
    "C08_zipped_empty_refuted"
   ],
   "note": "False of the code for out-of-range seeks and for empty contents: findings. Proved for non-empty contents up to 4 GiB - 8 KiB and histories whose seeks are in range; the compression library is a parameter with an inversion hypothesis."
  },
  {
   "property": "C09",
   "status": "proved",
   "theorems": [
    "C09_transpose_involutive",
    "C09_matrix_storage"
   ],
   "note": ""
  },
  {
   "property": "C10",
   "status": "proved",
   "theorems": [
    "C10_date_round_trip",
    "C10_aabb_round_trip",
    "C10_obb_round_trip"
   ],
   "note": ""
  },
  {
   "property": "C100",
   "status": "partial",
   "theorems": [
    "C100_agree_partial",
    "C100_agree_refuted"
   ],
   "note": "False of the code: finding. The arguments of some event tags and the empty-slot mark of ground sounds are only read from compiled scripts. Proved for all scripts without those."
  },
  {
   "property": "C101",
   "status": "partial",
   "theorems": [
    "C101_ends_partial",
    "C101_compiled_partial",
    "C101_source_refuted",
    "C101_frames_refuted",
    "C101_events_refuted"
   ],
   "note": "False of the code: findings. A comment at the end of a source and a text that is no number in a compiled list of frames are read for ever, and an event before the first animation of a compiled script is undefined behaviour. Proved: every source, correct or not, that ends with two line ends, a brace and two line ends is loaded or rejected; every compiled script without an event before the first animation and without lists of frames is loaded, whatever bytes follow the first animation."
  },
  {
   "property": "C102",
   "status": "partial",
   "theorems": [
    "C102_source_partial",
    "C102_compiled_partial",
    "C102_reload_refuted"
   ],
   "note": "False of the code: finding. Nothing is removed on loading, and the events of a compiled file go to the animations loaded first. Proved: exactly what a load adds to a used object (compiled: to one without animations)."
  },
  {
   "property": "C103",
   "status": "partial",
   "theorems": [
    "C103_comes_back_partial",
    "C103_no_thumbnail_refuted"
   ],
   "note": "False of the code: finding. A game saved without a thumbnail gets an empty THUMB.SAV, and loading it throws. Proved for games with a thumbnail."
  },
  {
   "property": "C104",
   "status": "partial",
   "theorems": [
    "C104_other_files_partial",
    "C104_other_path_refuted"
   ],
   "note": "False of the code: finding. When the target is the source under another spelling of its path, the target is emptied before anything is copied from it and the other worlds are lost. Proved for paths that are spelled alike or do not overlap (begins_with in SSaveGame.v)."
  },
  {
   "property": "C105",
   "status": "partial",
   "theorems": [
    "C105_other_games_survive_partial",
    "C105_inside_target_refuted"
   ],
   "note": "False of the code: finding. A save game whose directory lies inside the target is removed. Proved for every crash point for all files that are not under the target."
  },
  {
   "property": "C106",
   "status": "partial",
   "theorems": [
    "C106_other_worlds_partial",
    "C106_in_place_refuted"
   ],
   "note": "False of the code: finding. Files are truncated and written in place, so a crash leaves neither the old nor the new file. Proved: the files that the save does not write survive every crash."
  },
  {
   "property": "C107",
   "status": "partial",
   "theorems": [
    "C107_any_case_partial",
    "C107_worlds_refuted"
   ],
   "note": "False of the code: finding. The four fixed files are found in any case, but worlds are looked up by an exact name. Proved for the fixed files."
  },
  {
   "property": "C108",
   "status": "partial",
   "theorems": [
    "C108_world_partial",
    "C108_dots_refuted",
    "C108_reserved_refuted"
   ],
   "note": "False of the code: findings. The part of a name after its last dot is replaced, and the world named SAVEDAT overwrites the state. Proved for plain names."
  },
  {
   "property": "C109",
   "status": "partial",
   "theorems": [
    "C109_written_partial",
    "C109_nothing_written_refuted"
   ],
   "note": "False of the code: finding. After a load of a directory that does not exist, a save to it returns without an error and has written nothing. Proved whenever the target directory exists or is made."
  },
  {
   "property": "C11",
   "status": "proved",
   "theorems": [
    "C11_as_bbox_contains_corners"
   ],
   "note": "Over exact (rational) arithmetic."
  },
  {
   "property": "C110",
   "status": "partial",
   "theorems": [
    "C110_load_over_partial",
    "C110_thumbnail_refuted"
   ],
   "note": "False of the code: finding. A directory without THUMB.SAV leaves the thumbnail of the previous game (and C86: missions and symbol values accumulate). Proved for save games with a thumbnail and objects without missions and symbol values."
  },
  {
   "property": "C111",
   "status": "partial",
   "theorems": [
    "C111_worlds_partial",
    "C111_xzen_refuted"
   ],
   "note": "False of the code: finding. A Gothic 1 world whose header names the user XZEN is read with wide polygon indices though it was written with narrow ones, and comes back with other corners. Proved for all other worlds that the mesh, BSP-tree and object classes can hold (their findings, e.g. C32, C45 and C47, are in the conditions), in the three kinds of archives and both games."
  },
  {
   "property": "C112",
   "status": "proved",
   "theorems": [
    "C112_game_detected",
    "C112_sections_passed",
    "C112_save_games_refused"
   ],
   "note": "For every world that C111 covers, and for every world with other sections before the mesh; save games are refused whatever they hold."
  },
  {
   "property": "C113",
   "status": "partial",
   "theorems": [
    "C113_trees_partial",
    "C113_trees_stay_refuted"
   ],
   "note": "False of the code: finding. The object trees of a file are added to those the world had (and C92: mesh corners and BSP nodes stay). Proved: the old trees have no other effect."
  },
  {
   "property": "C114",
   "status": "partial",
   "theorems": [
    "C114_worlds_partial",
    "C114_chunks_partial",
    "C114_cut_file_refuted",
    "C114_end_of_file_refuted"
   ],
   "note": "False of the code: finding. The loop that passes over the chunks of the mesh does not notice the end of the file, so a file cut off before the last chunk of its mesh is read for ever. Proved: where that loop ends, it ends within as many rounds as there are bytes left, and in safe binary world files it is the only loop that may not end (for files with one world and no archive of text inside). Missing: binary and text world files, where C116 fails as well."
  },
  {
   "property": "C115",
   "status": "proved",
   "theorems": [
    "C115_others_refused"
   ],
   "note": "For every archive content that fits the format."
  },
  {
   "property": "C116",
   "status": "partial",
   "theorems": [
    "C116_opening_ends",
    "C116_loading_ends_partial",
    "C116_text_ends_partial",
    "C116_safe_worlds_partial",
    "C116_text_refuted",
    "C116_worlds_refuted",
    "C116_count_refuted"
   ],
   "note": "False of the code: finding. A text archive cut off within an object that is skipped is searched for the object's end for ever; a binary world with a section of size zero is read again and again; a binary world with an object of no known class and a negative number of children has its children skipped for ever. Proved: opening every file ends, and reading every binary or safe binary archive without worlds ends within a depth of objects bounded by the length of the file; safe binary archives also with worlds (whose mesh, if any, is the subject of C114); text archives in which from every line on at least as many lines end objects as begin objects, without worlds and without code masters of saved games. Missing: text and binary worlds other than the witnesses."
  },
  {
   "property": "C117",
   "status": "partial",
   "theorems": [
    "C117_binary_safe_partial",
    "C117_binsafe_safe_partial",
    "C117_text_safe_partial",
    "C117_opening_safe_partial",
    "C117_color_refuted",
    "C117_matrix_refuted",
    "C117_version_refuted",
    "C117_table_refuted",
    "C117_null_refuted",
    "C117_end_marker_refuted"
   ],
   "note": "False of the code: findings. An object version that is no 32-bit number (overflow in the conversion); a position outside of the key table of a safe binary archive; a null way point; a binary world without an end marker (its end is left twice); in text archives a color of three numbers and a matrix that is no hexadecimal number (variables are read that were never set). Proved, for all classes but those listed as `trusting`: binary archives; safe binary archives without ten decimal digits in a row; text archives whose colors and matrices are well formed and whose objects are closed; and the opening of text and binary archives. Missing: the `trusting` classes."
  },
  {
   "property": "C118",
   "status": "proved",
   "theorems": [
    "C118_loaded",
    "C118_members_bound",
    "C118_members_spelled",
    "C118_classes_known",
    "C118_members_of_class",
    "C118_fields_covered",
    "C118_members_apart",
    "C118_last_write"
   ],
   "note": "For every script, with sizes and offsets of the x86-64 ABI. Four fields are named otherwise than their members (renamed in SAddon.v; two of them misspelled)."
  },
  {
   "property": "C119",
   "status": "proved",
   "theorems": [
    "C119_registers",
    "C119_rest_untouched",
    "C118_loaded"
   ],
   "note": "For every script."
  },
  {
   "property": "C12",
   "status": "proved",
   "theorems": [
    "C12_strict_weak_order"
   ],
   "note": ""
  },
  {
   "property": "C120",
   "status": "proved",
   "theorems": [
    "C120_fonts",
    "C120_textures",
    "C120_texture_versions",
    "C120_magic",
    "C120_version_line",
    "C120_versions",
    "C120_save_line",
    "C120_end_line",
    "C120_end_after",
    "C120_count_line",
    "C120_loading",
    "C120_disks"
   ],
   "note": "For every file. Safe binary archives have no line with a number of objects. Lines are told apart from the first character that is not white space, as the reader skips blank lines."
  },
  {
   "property": "C121",
   "status": "partial",
   "theorems": [
    "C121_fonts_textures_partial",
    "C121_never_partial",
    "C121_meshes_partial",
    "C121_archives_partial",
    "C121_worlds_partial",
    "C121_range_refuted",
    "C121_length_refuted"
   ],
   "note": "False of the code: every archive with a version beyond 31 bits makes std::stoi throw std::out_of_range, and a negative number of way points makes std::vector throw std::length_error: finding. Which exceptions each loader can throw is proved for every input. Missing: memory running out (std::bad_alloc) is not modelled."
  },
  {
   "property": "C122",
   "status": "proved",
   "theorems": [
    "C122_skeletons",
    "C122_animations",
    "C122_meshes",
    "C122_trees",
    "C122_model_parts",
    "C122_scripts"
   ],
   "note": "For every unknown type, content and place."
  },
  {
   "property": "C123",
   "status": "partial",
   "theorems": [
    "C123_materials_partial",
    "C123_other_objects_partial",
    "C123_own_images",
    "C123_ten_refuted"
   ],
   "note": "False of the code if the number of materials is 10 (mod 256), as in C47: the reader of the archive header skips a line feed: finding. Proved for every other number."
  },
  {
   "property": "C124",
   "status": "partial",
   "theorems": [
    "C124_textures_zeros_partial",
    "C124_fonts_zeros_partial",
    "C124_kind_partial",
    "C124_textures_refuted",
    "C124_fonts_refuted",
    "C124_scripts_refuted",
    "C124_sections_refuted",
    "C124_values_refuted"
   ],
   "note": "False of the code: reads behind the end return zeros and nobody looks. Every texture cut behind its header, every font cut behind its glyph count and every byte string at all as a script loads; the empty file loads as every kind made of sections: finding. Proved instead: what the missing part is replaced by (zeros, for textures and fonts), and that files ending before their kind is known are refused."
  },
  {
   "property": "C125",
   "status": "partial",
   "theorems": [
    "C125_delivery_partial",
    "C125_threads_partial",
    "C125_one_thread_partial",
    "C125_use_logger",
    "C125_long_refuted",
    "C125_inside_refuted",
    "C125_race_refuted"
   ],
   "note": "False of the code: finding. There is one buffer for all messages: texts of more than 4094 bytes are cut, a callback that logs finds its own message overwritten, and threads race for the buffer. Proved: for every history with callbacks that do not log, the callback sees exactly the messages of its level; for every schedule without a race each thread's messages are seen as logged; no schedule races if only one thread logs messages that are shown."
  },
  {
   "property": "C126",
   "status": "partial",
   "theorems": [
    "C126_contents_partial",
    "C126_released",
    "C126_descriptors_partial",
    "C126_throws",
    "C126_windows_partial",
    "C126_failure_refuted",
    "C126_leak_refuted",
    "C126_windows_refuted"
   ],
   "note": "False of the code: finding. A failed mmap gives MAP_FAILED, which is compared with null, so that a directory or a file that cannot be mapped is opened and reading it is undefined; the descriptor is lost if fstat fails; on Windows only the lower 32 bits of the size are used and a failed view is not noticed. Proved for every history: mappings are released exactly with their objects; with a system that maps every file that is not empty, objects read as their files after any moves."
  },
  {
   "property": "C127",
   "status": "partial",
   "theorems": [
    "C127_inside_partial",
    "C127_file_partial",
    "C127_lines",
    "C127_skeleton_program",
    "C127_skeletons",
    "C127_reads",
    "C127_textures",
    "C127_fonts",
    "C127_saved_fonts",
    "C127_boxes",
    "C127_dates",
    "C127_saved_boxes",
    "C127_cut_refuted",
    "C127_readers_refuted"
   ],
   "note": "False of the code: finding. A skeleton file whose end is missing is loaded from memory but never ends loading from a FILE or an istream; the end is noticed only after a read behind it; after a short read an istream gives nothing any more; positions behind the end differ. Proved: every program that stays inside the data computes the same from all of them, for a FILE also with short reads; every line has the same text; every saved skeleton is loaded from all of them; every program that only reads computes the same from all data, so that every texture file, whole or cut, is the same texture from all of them; so is every font file that has its first line and two characters more, and every tree of oriented boxes and every date, whole or cut."
  },
  {
   "property": "C128",
   "status": "partial",
   "theorems": [
    "C128_inside_partial",
    "C128_skeletons",
    "C128_textures",
    "C128_fonts",
    "C128_boxes",
    "C128_lost_refuted",
    "C128_lost_saves_refuted",
    "C128_lost_boxes_refuted",
    "C128_gaps_refuted"
   ],
   "note": "False of the code: finding. Writing to a path that cannot be opened or to a full device reports success for every write and leaves nothing; behind the end a string stream fails where vectors and files are filled with zeros. Proved: every program that stays inside what it wrote leaves the same bytes and gets the same answers from all of them, given room; every skeleton, every texture, every font and every tree of boxes is saved as the same bytes."
  },
  {
   "property": "C129",
   "status": "partial",
   "theorems": [
    "C129_allocated",
    "C129_accepted",
    "C129_refused",
    "C129_initialised_partial",
    "C129_opaque_partial",
    "C129_throws_refuted",
    "C129_unregistered_refuted"
   ],
   "note": "False of the code: finding. A constructor that throws leaves the current instance and SELF changed; a class that is not registered makes it use a null pointer, parents that go round make it hang. Proved: acceptance and binding, and that constructors that return leave both as they were."
  },
  {
   "property": "C13",
   "status": "proved",
   "theorems": [
    "C13_names_unique",
    "C13_reachable_ordered"
   ],
   "note": ""
  },
  {
   "property": "C130",
   "status": "partial",
   "theorems": [
    "C130_balanced_partial",
    "C130_function_refuted",
    "C130_instance_refuted"
   ],
   "note": "False of the code: finding. Arguments that are functions are not popped, results that are functions not pushed, and instances on the stack by value make the call throw. Proved: calls that succeed with other types are balanced and push one default value."
  },
  {
   "property": "C131",
   "status": "partial",
   "theorems": [
    "C131_fields",
    "C131_told_partial",
    "C131_cause_refuted",
    "C131_nul_refuted",
    "C131_kind_refuted"
   ],
   "note": "False of the code: finding. The cause is copied as std::exception, so that what it said is lost from the field; a text with a NUL ends the message; three errors of the safe binary archive have the reason in the field for the kind (one for a missing comma). Proved: kind and context are held and named, and every message in a chain of causes is repeated, for texts without NUL."
  },
  {
   "property": "C132",
   "status": "proved",
   "theorems": [
    "C132_assign",
    "C132_effect",
    "C132_temporary",
    "C132_compound",
    "C132_division",
    "C132_instance"
   ],
   "note": "What is read afterwards is stated with the last-write vocabulary of C57; members bound to overlapping storage by the host are excluded by layout_ok. Overflow in compound assignments is undefined behaviour, see C60."
  },
  {
   "property": "C133",
   "status": "partial",
   "theorems": [
    "C133_elements_refuted",
    "C133_pushes",
    "C133_unknown",
    "C133_instance",
    "C133_trap"
   ],
   "note": "False of the code: finding. Array elements are pushed by another instruction, which does not look at the trap: accesses to elements other than the first go unnoticed. Proved: what every push does; that the trap is called instead of pushing for pushv and pushvi, and that nothing is pushed but what the trap pushes."
  },
  {
   "property": "C134",
   "status": "partial",
   "theorems": [
    "C134_deep_refuted",
    "C134_late_refuted",
    "C134_enumerated",
    "C134_unknown",
    "C134_sound",
    "C134_complete_partial"
   ],
   "note": "False of the code: finding. Instances of a prototype of a prototype, and instances that come before their prototype, can be created as instances of the class but are not enumerated. Proved: exactly which are enumerated, once each and in order; that only instances of the class are; that all are where prototypes are made from classes and come first."
  },
  {
   "property": "C135",
   "status": "partial",
   "theorems": [
    "C135_context_refuted",
    "C135_function_refuted",
    "C135_instance_refuted",
    "C135_silent",
    "C135_printed",
    "C135_error_partial"
   ],
   "note": "False of the code: finding. A member on the stack is printed with the current instance and not with the one it was pushed with, so that a readable value makes the trace throw; a function variable without a function, and an instance that the host has not initialised, make it follow a null pointer. Proved: a trace changes nothing; exactly when it succeeds; that the error of the script then reaches the host."
  },
  {
   "property": "C136",
   "status": "partial",
   "theorems": [
    "C136_full_refuted",
    "C136_depth_refuted",
    "C136_result_partial",
    "C136_statement",
    "C136_division",
    "C136_full"
   ],
   "note": "False of the code: finding. Where the stack is full the handler itself throws and the error reaches the host; an operator that fails with its first operand leaves one value more than one that succeeds. Proved: what happens after every script error; dividing by zero gives 0 in place of both operands."
  },
  {
   "property": "C137",
   "status": "partial",
   "theorems": [
    "C137_member_refuted",
    "C137_grown",
    "C137_end",
    "C137_twice",
    "C137_instance"
   ],
   "note": "False of the code: finding. Members of classes are not refused, and a null pointer is read. Proved for all variables with values of their own; instances are refused."
  },
  {
   "property": "C138",
   "status": "partial",
   "theorems": [
    "C138_call_partial",
    "C138_run_partial",
    "C138_endless",
    "C138_past_end_refuted"
   ],
   "note": "False of the code: finding. The machine does not stop at the end of the code: seeking behind the end is ignored and reading there gives zeros, which decode as additions, so a script whose last instruction is not a return runs for ever (until the program counter wraps to the beginning). Proved: if the control flow stays in the code and every step goes down in some numbering, a call ends within that number of instructions and leaves the machine where it was; a jump to itself never ends, the machine has no limit of its own. Hypothesis: the functions of the host end and do not move execution, no exception handler."
  },
  {
   "property": "C139",
   "status": "partial",
   "theorems": [
    "C139_missing_refuted",
    "C139_add",
    "C139_remove_partial",
    "C139_undo",
    "C139_history",
    "C139_defined"
   ],
   "note": "False of the code: finding. remove_choice with an index at which there is no choice, one behind the last included, is undefined behaviour for every dialogue. Proved for all histories: newest first, the removed choice and no other is gone, and the calls are defined exactly if every removal names a choice that is there."
  },
  {
   "property": "C14",
   "status": "partial",
   "theorems": [
    "C14_mkdir_partial",
    "C14_mkdir_refuted"
   ],
   "note": "False of the code for names that end in white space (made but never resolved): finding. Proved for all other paths."
  },
  {
   "property": "C140",
   "status": "partial",
   "theorems": [
    "C140_itself_refuted",
    "C140_stored_refuted",
    "C140_colors",
    "C140_flags",
    "C140_glyphs",
    "C140_samples",
    "C140_matrices",
    "C140_targets",
    "C140_symmetric",
    "C140_transitive",
    "C140_itself_partial"
   ],
   "note": "False of the code: finding. A font file may hold coordinates that are not numbers, and the loaded glyph is then not equal to itself; glyphs with zeros of different sign are equal and stored differently. Proved for all values: equality is equality of the exact numbers and of all other members, symmetric and transitive, and a value is equal to itself exactly if all its floats are numbers."
  },
  {
   "property": "C141",
   "status": "partial",
   "theorems": [
    "C141_thin_refuted",
    "C141_thin_pixels_refuted",
    "C141_missing_refuted",
    "C141_deep_refuted",
    "C141_dimensions_partial"
   ],
   "note": "False of the code: findings. Where one side of a texture that is not square would fall below one pixel, the loader keeps it at one but mipmap_width or mipmap_height report 0, and as_rgba8 gives no pixels; data() of a missing level throws in a noexcept function, which ends the program; from level 32 on the shift is undefined. Proved for every level at which both sides have a pixel, images below 4 GiB and, for compressed formats, sides of at most four or multiples of four."
  },
  {
   "property": "C142",
   "status": "proved",
   "theorems": [
    "C142_reads",
    "C142_stores",
    "C142_wrong_type",
    "C142_outside",
    "C142_own_reads",
    "C142_own_stores",
    "C142_kept",
    "C142_bound",
    "C142_example_host"
   ],
   "note": "The host is a parameter: six functions on a state of any type, each of which may throw. The memory of a host object itself (a transient instance bound to a symbol, with a member registered for its class) is not modelled and is undefined in the model."
  },
  {
   "property": "C143",
   "status": "partial",
   "theorems": [
    "C143_vectors",
    "C143_vectors_store",
    "C143_matrices",
    "C143_transposed",
    "C143_quaternions_partial",
    "C143_fourth_refuted",
    "C143_w_refuted"
   ],
   "note": "False of the code: finding. A quaternion is declared w, x, y, z but its pointer is that of x: index 3 is beyond the object and no index reaches w. Vectors, colours and matrices are indexed as claimed."
  },
  {
   "property": "C144",
   "status": "partial",
   "theorems": [
    "C144_laws",
    "C144_exact_partial",
    "C144_brighter_refuted",
    "C144_white_refuted"
   ],
   "note": "False of the code: finding. Channels wrap modulo 256: doubling a channel of 128 or more darkens it, and multiplying by white negates every channel. The laws hold, and products that fit are exact."
  },
  {
   "property": "C15",
   "status": "partial",
   "theorems": [
    "C15_create_partial",
    "C15_create_refuted"
   ],
   "note": "False of the code for names that end in white space: finding. Proved for all other names."
  },
  {
   "property": "C16",
   "status": "partial",
   "theorems": [
    "C16_remove_partial",
    "C16_remove_slash_refuted",
    "C16_remove_past_file_refuted"
   ],
   "note": "False of the code for paths with a trailing slash and for paths that continue past a file: findings. Proved otherwise."
  },
  {
   "property": "C17",
   "status": "partial",
   "theorems": [
    "C17_resolve_partial",
    "C17_resolve_past_file_refuted"
   ],
   "note": "False of the code: every path that continues past a file ends the program: finding. Proved for all other paths."
  },
  {
   "property": "C18",
   "status": "partial",
   "theorems": [
    "C18_mount_partial",
    "C18_mount_refuted"
   ],
   "note": "False of the code for names that end in white space: finding. Proved for all other trees, under the reading of newer/older the header documents."
  },
  {
   "property": "C19",
   "status": "partial",
   "theorems": [
    "C19_save_mount_partial",
    "C19_save_empty_refuted",
    "C19_save_empty_dir_refuted"
   ],
   "note": "False of the code for trees with an empty directory (mounting never ends): finding. Proved for every tree whose directories are not empty, with names of 1 to 64 bytes not ending in white space, below 4 GiB."
  },
  {
   "property": "C20",
   "status": "partial",
   "theorems": [
    "C20_mount_disk_partial",
    "C20_mount_disk_bounds_refuted",
    "C20_mount_zipped_refuted",
    "C20_mount_disk_hangs_refuted",
    "C20_mount_disk_exception_refuted"
   ],
   "note": "False of the code in four ways: findings. Proved: mounting itself never does anything undefined, keeps the tree ordered, and every file node is inside its buffer or claims more than 4 GiB."
  },
  {
   "property": "C21",
   "status": "partial",
   "theorems": [
    "C21_save_mount_zipped_partial",
    "C21_save_mount_empty_file_refuted",
    "C19_save_empty_refuted"
   ],
   "note": "False of the code for empty files and empty directories: findings. Proved for trees without them whose sound files do not look like compressed streams; the compression library is a parameter with an inversion hypothesis."
  },
  {
   "property": "C22",
   "status": "proved",
   "theorems": [
    "C22_dos_time_round_trip",
    "C22_dos_word_round_trip"
   ],
   "note": ""
  },
  {
   "property": "C23",
   "status": "partial",
   "theorems": [
    "C23_find_partial",
    "C23_find_refuted"
   ],
   "note": "False of the code for names that end in white space: finding. Proved for the name without trailing white space."
  },
  {
   "property": "C24",
   "status": "proved",
   "theorems": [
    "C24_class_names",
    "C24_class_types"
   ],
   "note": ""
  },
  {
   "property": "C25",
   "status": "proved",
   "theorems": [
    "C25_binsafe_entries"
   ],
   "note": "Within the length fields: strings, raw entries and names below 2^16 bytes, at most 2^16 names, below 2^31 bytes altogether."
  },
  {
   "property": "C26",
   "status": "partial",
   "theorems": [
    "C26_binary_entries_partial",
    "C26_binary_entries_refuted"
   ],
   "note": "False of the code for enumerations of 256 and more (one byte is stored) and for strings with NUL or line ends: findings. Proved for all other entries (raw entries not empty)."
  },
  {
   "property": "C27",
   "status": "partial",
   "theorems": [
    "C27_ascii_entries_partial",
    "C27_floats_partial",
    "C27_ascii_entries_refuted",
    "C27_floats_refuted"
   ],
   "note": "False of the code: bytes, words and matrices are never read back, integers of -10^9 and below cannot be written, raw bytes below 16 come back as others, and some floats below 16 come back as their neighbours: findings. Proved for all other entries; for floats: all finite ones of magnitude 16 or more, and all multiples of 1/64."
  },
  {
   "property": "C28",
   "status": "partial",
   "theorems": [
    "C28_skip_next_partial",
    "C28_skip_inside_partial",
    "C28_skip_refuted"
   ],
   "note": "False of the code in the safe binary format when a string entry looks like an object's first or last line: finding. Proved for all other content in all three formats."
  },
  {
   "property": "C29",
   "status": "proved",
   "theorems": [
    "C29_graphs_come_back"
   ],
   "note": "For classes whose load accepts what their save wrote (C32 to C41 are about the library's classes) and archives that fit the format; a binary archive must not begin with a byte the header's reader skips (C30)."
  },
  {
   "property": "C30",
   "status": "partial",
   "theorems": [
    "C30_headers_partial",
    "C30_headers_refuted"
   ],
   "note": "False of the code for binary archives whose first object has a size with lowest byte 10: finding. Proved for all other archives of all formats."
  },
  {
   "property": "C31",
   "status": "partial",
   "theorems": [
    "C31_wrong_type_partial",
    "C31_wrong_type_refuted"
   ],
   "note": "False of the code where two kinds of entries share a type: findings. Proved for all readers that ask for another type than the stored one."
  },
  {
   "property": "C32",
   "status": "partial",
   "theorems": [
    "C32_common_part_partial",
    "C32_common_part_refuted"
   ],
   "note": "False of the code: a packed Gothic 2 object's animation mode is the presence bits of preset and name, its bias is shifted, unpacked objects store preset and names twice: findings. Proved for all objects the packing can hold."
  },
  {
   "property": "C33",
   "status": "partial",
   "theorems": [
    "C33_triggers_partial",
    "C33_triggers_refuted"
   ],
   "note": "False of the code: saving stores the flag bytes and ignores the booleans derived from them: finding. Proved for all triggers whose booleans agree with the flags, which includes every loaded trigger (C84)."
  },
  {
   "property": "C34",
   "status": "proved",
   "theorems": [
    "C34_movables"
   ],
   "note": "The law of the classes; C78 takes it to archives."
  },
  {
   "property": "C35",
   "status": "proved",
   "theorems": [
    "C35_zones_and_sounds"
   ],
   "note": "The law of the classes; C78 takes it to archives."
  },
  {
   "property": "C36",
   "status": "proved",
   "theorems": [
    "C36_items_and_effects"
   ],
   "note": "The law of the classes; C78 takes it to archives."
  },
  {
   "property": "C37",
   "status": "partial",
   "theorems": [
    "C37_npcs_partial",
    "C37_npcs_refuted"
   ],
   "note": "False of the code: Gothic 2 keeps only the first of the nine packed inventory strings, Gothic 1 only 50 script variables: findings. Proved for all other NPCs."
  },
  {
   "property": "C38",
   "status": "partial",
   "theorems": [
    "C38_materials_partial",
    "C38_text_vectors_partial",
    "C38_materials_refuted"
   ],
   "note": "False of the code: in Gothic 2 the blend function is written as a byte and read as a boolean: finding. Proved for all Gothic 1 materials whose two vectors written as text are finite: nine significant digits are proved to be enough for every float, and necessary and sufficient for the vectors to survive is that they are finite."
  },
  {
   "property": "C39",
   "status": "partial",
   "theorems": [
    "C39_way_nets_partial",
    "C39_loaded_way_nets_partial",
    "C39_way_nets_refuted",
    "C39_edges_to_itself_refuted"
   ],
   "note": "False of the code: a point with no edge that is not free is not stored, a point with an edge to itself is missing from the loaded list: findings. Round trip proved for all other way nets; membership after loading proved for any bytes whose edges have two ends."
  },
  {
   "property": "C40",
   "status": "partial",
   "theorems": [
    "C40_trees",
    "C40_unsupported_classes_partial",
    "C40_unsupported_classes_refuted"
   ],
   "note": "Round trip of trees: proved. Dropping unsupported objects: false of the code in the safe binary format when the dropped object contains a string that looks like the end of an object: finding; proved for all other content, all three formats, any position of the dropped objects."
  },
  {
   "property": "C41",
   "status": "partial",
   "theorems": [
    "C41_state_partial",
    "C41_metadata_partial",
    "C41_state_refuted",
    "C41_metadata_refuted"
   ],
   "note": "False of the code: the guild table is written in ASCII hexadecimal, in which a byte below 16 after a larger one comes back wrong; in Gothic 1 only one value of a symbol is saved, a symbol without values is undefined behavior, and the version fields of the metadata are dropped: findings. Proved for states whose entries can be written as text."
  },
  {
   "property": "C42",
   "status": "partial",
   "theorems": [
    "C42_lookup_partial",
    "C42_lookup_refuted"
   ],
   "note": "False of the code: a name that is not in the library gets the next larger block: finding. Proved for any bytes: the blocks are in order, and a name that is there is found."
  },
  {
   "property": "C43",
   "status": "partial",
   "theorems": [
    "C43_fonts_refuted",
    "C43_fonts_partial"
   ],
   "note": "False of the code for names that are empty or start with white space (the version line is read with white-space skipping): finding. Proved for all other names, any glyph list."
  },
  {
   "property": "C44",
   "status": "proved",
   "theorems": [
    "C44_skeletons"
   ],
   "note": "Every skeleton with fewer than 65536 nodes (the count field's limit), loaded into any object."
  },
  {
   "property": "C45",
   "status": "partial",
   "theorems": [
    "C45_bsp_partial",
    "C45_lights_refuted",
    "C45_childless_refuted",
    "C45_lod_refuted"
   ],
   "note": "False of the code: a tree without light points gets some from the bytes of the next section, childless inner nodes become leaves, Gothic 2 files drop the level of detail: findings. Proved: for both games every tree in pre-order whose inner nodes have a child and with a light point for each leaf comes back exactly."
  },
  {
   "property": "C46",
   "status": "proved",
   "theorems": [
    "C46_tree_in_file",
    "C46_links",
    "C46_preorder",
    "C46_leaf_polygons_sorted"
   ],
   "note": "For every input and version, for node lists of fewer than 2^31 entries (the range of the index fields)."
  },
  {
   "property": "C47",
   "status": "partial",
   "theorems": [
    "C47_meshes_partial",
    "C47_corners_refuted",
    "C47_untriangulated_refuted",
    "C47_axis_refuted",
    "C47_materials_refuted"
   ],
   "note": "False of the code: finding. Saving for Gothic 2 takes the corners of the polygons from the list of triangles, so that a quad comes back with wrong corners and an untriangulated mesh is undefined behaviour; for Gothic 1 the normal axis 2 is lost; 10 (mod 256) materials are lost or misread, because the reader of the archive header skips a line feed. Proved: every other mesh (mesh_ok) whose file is below 4 GB comes back, for both games, any order of the image table, with images shared by the same lightmaps."
  },
  {
   "property": "C48",
   "status": "proved",
   "theorems": [
    "C48_triangles"
   ],
   "note": "For every file, every sorted leaf list; less than 2^32 corners. The triangulation is private: it is reached by loading with a leaf list."
  },
  {
   "property": "C49",
   "status": "partial",
   "theorems": [
    "C49_meshes_refuted",
    "C49_skins_refuted",
    "C49_model_meshes_refuted",
    "C94_meshes_partial",
    "C94_skins_partial",
    "C94_model_meshes_partial"
   ],
   "note": "False of the code, for every mesh: finding. The saver writes the size of the content four too large (and the soft-skin saver a wrong chunk type, the model-mesh saver no skin count and one chunk for all attachments): no saved file can be loaded. Proved for every mesh, both games. The loaders themselves are proved right against the format (C94)."
  },
  {
   "property": "C50",
   "status": "proved",
   "theorems": [
    "C50_textures",
    "C50_levels"
   ],
   "note": "For every texture tex_load can produce; C50_levels: each level exists with the size of its format."
  },
  {
   "property": "C51",
   "status": "partial",
   "theorems": [
    "C51_sizes_refuted",
    "C51_sizes_partial",
    "C51_order_partial",
    "C51_powers_of_two"
   ],
   "note": "False of the code: 32-bit products wrap (size 0, growing sizes) and block-compressed images with sides not a multiple of four get too few blocks: finding. Proved when the exact size fits 32 bits and (for DXT) sides are at most 4 or multiples of 4."
  },
  {
   "property": "C52",
   "status": "partial",
   "theorems": [
    "C52_pixels_refuted",
    "C52_pixels_partial"
   ],
   "note": "False of the code for B8G8R8A8 (from two pixels on) and A8R8G8B8: finding. Proved for the other four 24/32-bit formats, through TextureBuilder::build and Texture::as_rgba8."
  },
  {
   "property": "C53",
   "status": "partial",
   "theorems": [
    "C53_build_refuted",
    "C53_build_partial",
    "C53_size_checked"
   ],
   "note": "False of the code: the builder stores the levels in the opposite order of what data() expects: finding. Proved: the levels come back reversed; wrong sizes are refused."
  },
  {
   "property": "C54",
   "status": "proved",
   "theorems": [
    "C54_dds"
   ],
   "note": "Every texture the loader can produce with a known format, total size below 2^62."
  },
  {
   "property": "C55",
   "status": "partial",
   "theorems": [
    "C55_progress_partial",
    "C55_ends_partial",
    "C55_unterminated_refuted",
    "C55_word_refuted"
   ],
   "note": "False of the code: finding. A comment or text cut off by the end of the file is read for ever, and a word or number at the end of the file is returned again and again. Proved for every script that ends with two line ends."
  },
  {
   "property": "C56",
   "status": "proved",
   "theorems": [
    "C56_decode",
    "C56_every_opcode"
   ],
   "note": ""
  },
  {
   "property": "C57",
   "status": "partial",
   "theorems": [
    "C57_last_write_partial",
    "C57_errors",
    "C57_float_member_refuted",
    "C57_wrong_context_refuted",
    "C57_function_refuted"
   ],
   "note": "False of the code: integer reads of float members are accepted and undefined, a context of another class is used, function symbols have no elements: findings. Proved: last write for every element and history on checked accesses, and the errors."
  },
  {
   "property": "C58",
   "status": "proved",
   "theorems": [
    "C58_layout",
    "C58_independent"
   ],
   "note": ""
  },
  {
   "property": "C59",
   "status": "partial",
   "theorems": [
    "C59_bounds_partial",
    "C59_push",
    "C59_missing_argument_refuted",
    "C59_full_stack_refuted"
   ],
   "note": "False of the code: a host call of a function with missing arguments moves the stack pointer below zero, and returning on a full stack writes past it: findings. Proved for every execution until one of the two happens."
  },
  {
   "property": "C60",
   "status": "partial",
   "theorems": [
    "C60_binary_partial",
    "C60_unary_partial",
    "C60_division_by_zero",
    "C60_overflow_refuted"
   ],
   "note": "False of the code where the result is not representable (undefined behaviour): finding. Proved for all other operands and all operators."
  },
  {
   "property": "C61",
   "status": "partial",
   "theorems": [
    "C61_reachable_sound",
    "C61_host_call_partial",
    "C61_nested_call_partial",
    "C61_caller_values_refuted",
    "C61_stale_frame_refuted"
   ],
   "note": "False of the code: a called function that pops too much takes the caller's values, and returns with stale frames: findings. Proved for every call during which no function reads below its own arguments."
  },
  {
   "property": "C62",
   "status": "partial",
   "theorems": [
    "C62_constants_partial",
    "C62_instance_refuted"
   ],
   "note": "False of the code: constants of instance type are assigned: finding. Proved for numbers, functions and strings, all instructions."
  },
  {
   "property": "C63",
   "status": "partial",
   "theorems": [
    "C63_strings_partial",
    "C63_many_strings_refuted"
   ],
   "note": "False of the code with more than 243 strings on the stack: finding. Proved for every history within that."
  },
  {
   "property": "C64",
   "status": "partial",
   "theorems": [
    "C64_locals_partial",
    "C64_parameters_refuted",
    "C64_strings_refuted"
   ],
   "note": "False of the code for parameters and for many strings: findings. Proved for numeric, function and instance variables at every depth."
  },
  {
   "property": "C65",
   "status": "proved",
   "theorems": [
    "C65_reads",
    "C65_int_writes",
    "C65_float_writes",
    "C65_string_writes"
   ],
   "note": ""
  },
  {
   "property": "C66",
   "status": "proved",
   "theorems": [
    "C66_external",
    "C66_override",
    "C66_external_exact",
    "C66_override_exact",
    "C66_call_count",
    "C66_call_types"
   ],
   "note": ""
  },
  {
   "property": "C67",
   "status": "proved",
   "theorems": [
    "C67_jump",
    "C67_branch",
    "C67_call"
   ],
   "note": ""
  },
  {
   "property": "C68",
   "status": "partial",
   "theorems": [
    "C68_lookup_partial",
    "C68_lower_case_refuted",
    "C68_duplicate_refuted"
   ],
   "note": "False of the code for stored names with lower-case letters and for duplicates: findings. Proved: the exact result of each lookup in every script that loads."
  },
  {
   "property": "C69",
   "status": "partial",
   "theorems": [
    "C69_continue_partial",
    "C69_return",
    "C69_fail_partial",
    "C69_unhandled_partial",
    "C69_continue_refuted",
    "C69_fail_refuted"
   ],
   "note": "False of the code: CONTINUE after an error inside a called function goes on inside it, printing the stack can replace the error: findings. Proved otherwise, for every state, error and handler."
  },
  {
   "property": "C70",
   "status": "partial",
   "theorems": [
    "C70_parameters",
    "C70_locals_partial",
    "C70_end_of_table_refuted"
   ],
   "note": "False of the code for a function whose local variables are the last symbols of the table: finding. Proved for all others."
  },
  {
   "property": "C71",
   "status": "partial",
   "theorems": [
    "C71_as_bbox_tight_partial",
    "C71_as_bbox_tight_refuted"
   ],
   "note": "False of the code for boxes with only negative coordinates on an axis (the maximum starts at FLT_MIN): finding."
  },
  {
   "property": "C72",
   "status": "partial",
   "theorems": [
    "C72_arguments_partial",
    "C72_recursion_refuted"
   ],
   "note": "False of the code for recursive calls of functions whose local variables take less room than the arguments: finding. Proved for all others."
  },
  {
   "property": "C73",
   "status": "partial",
   "theorems": [
    "C73_result_partial",
    "C73_by_reference_refuted"
   ],
   "note": "False of the code for a local variable returned from a recursive call, which is returned by reference: finding. Proved: the caller gets the frame the function left."
  },
  {
   "property": "C74",
   "status": "partial",
   "theorems": [
    "C74_load_partial",
    "C74_parent_refuted"
   ],
   "note": "False of the code for constant strings whose parent's lowest byte is white space: finding. Proved for all other scripts."
  },
  {
   "property": "C75",
   "status": "partial",
   "theorems": [
    "C75_checked",
    "C75_effect",
    "C75_failure_refuted"
   ],
   "note": "False of the code: a registration that fails because of the type has already bound the class: finding. Proved: when it succeeds and what it then does."
  },
  {
   "property": "C76",
   "status": "proved",
   "theorems": [
    "C76_native_arguments"
   ],
   "note": ""
  },
  {
   "property": "C77",
   "status": "partial",
   "theorems": [
    "C77_refused_partial",
    "C77_unknown_type_refuted",
    "C77_failed_call_refuted"
   ],
   "note": "False of the code: symbols of unknown types make the error message read outside a table, and a call refused because of a later argument leaves the earlier ones on the stack: findings. Proved for wrong argument counts and, with the eight types, for registrations."
  },
  {
   "property": "C78",
   "status": "proved",
   "theorems": [
    "C78_library_graphs_come_back"
   ],
   "note": ""
  },
  {
   "property": "C79",
   "status": "partial",
   "theorems": [
    "C79_code_masters_partial",
    "C79_code_masters_refuted"
   ],
   "note": "False of the code: Gothic 2 save games write the number of triggered slaves as an integer and read a byte: finding."
  },
  {
   "property": "C80",
   "status": "partial",
   "theorems": [
    "C80_frames_and_lights_partial",
    "C80_frames_and_lights_refuted"
   ],
   "note": "False of the code: the pose of a key-frame comes back transposed, the ranges of an animated light leak into its colors: findings. Proved for symmetric poses and lights without range animation."
  },
  {
   "property": "C81",
   "status": "partial",
   "theorems": [
    "C81_worlds_partial",
    "C81_worlds_refuted"
   ],
   "note": "False of the code: Gothic 2 writes the spawn flags as an integer and reads a byte: finding. Proved for Gothic 1."
  },
  {
   "property": "C82",
   "status": "proved",
   "theorems": [
    "C82_cutscenes"
   ],
   "note": ""
  },
  {
   "property": "C83",
   "status": "proved",
   "theorems": [
    "C83_parts_of_objects"
   ],
   "note": ""
  },
  {
   "property": "C84",
   "status": "proved",
   "theorems": [
    "C84_triggers_loaded"
   ],
   "note": ""
  },
  {
   "property": "C85",
   "status": "proved",
   "theorems": [
    "C85_everything_loaded"
   ],
   "note": "References are numbers of objects of the result; made_by says each object is a result of its class's load function when the archive answers with objects of the result."
  },
  {
   "property": "C86",
   "status": "partial",
   "theorems": [
    "C86_loading_again_partial",
    "C86_loading_into_empty_partial",
    "C86_loading_again_refuted"
   ],
   "note": "False of the code: missions and symbol values of the old state stay in front of the new ones: finding. Proved exactly what is left over."
  },
  {
   "property": "C87",
   "status": "proved",
   "theorems": [
    "C87_loaders_are_safe"
   ],
   "note": "On every input state: return or throw, same buffer, never backwards; memory exhaustion is not modelled."
  },
  {
   "property": "C88",
   "status": "partial",
   "theorems": [
    "C88_reload_refuted",
    "C88_reload_partial"
   ],
   "note": "False of the code: old mipmaps stay in front: finding. Proved: exactly the mipmaps (and an unused palette) are kept, everything else is replaced."
  },
  {
   "property": "C89",
   "status": "partial",
   "theorems": [
    "C89_masks_refuted",
    "C89_masks_partial"
   ],
   "note": "False of the code for all six 8-bit-per-channel formats (masks swapped) and for full green in R5G6B5: finding. Proved for A4R4G4B4 and for R5G6B5 without full green."
  },
  {
   "property": "C90",
   "status": "partial",
   "theorems": [
    "C90_conversion_refuted",
    "C90_decoding_partial"
   ],
   "note": "False of the code (R5G6B5 from bright pixels, DXT building, palette decoding are undefined behaviour): finding. Proved: decoding any level of a loaded uncompressed, palette-free texture whose RGBA size fits 32 bits."
  },
  {
   "property": "C91",
   "status": "partial",
   "theorems": [
    "C91_bsp_ends_partial",
    "C91_no_tree_partial",
    "C91_fitting_tree_partial",
    "C91_bsp_growth_refuted",
    "C91_bsp_polygons_refuted"
   ],
   "note": "False of the code: a node count smaller than the number of nodes leads to a dangling reference, and polygon ranges of leaves are not checked: findings. Proved: loading always ends; it returns or throws for every file without a TREE section, and for every file with one TREE section that announces enough nodes and whose leaves name polygons of the list before it, whatever the other sections hold."
  },
  {
   "property": "C92",
   "status": "partial",
   "theorems": [
    "C92_reload_refuted",
    "C92_flags_refuted",
    "C92_leaf_polygons_refuted",
    "C47_meshes_partial"
   ],
   "note": "False of the code: finding. Polygon flags the other game has, corner indices, lightmaps, BSP nodes, leaves and sectors of the first load stay. Proved (C47_meshes_partial): loading into a mesh that has neither polygons nor lightmaps replaces everything a file holds."
  },
  {
   "property": "C93",
   "status": "partial",
   "theorems": [
    "C93_ends_partial",
    "C93_safe_partial",
    "C93_sections_end_partial",
    "C93_lightmaps_refuted",
    "C93_text_refuted"
   ],
   "note": "False of the code: findings. A lightmap with an image number outside the file's table is undefined behaviour, and a mesh with a cut-off text archive of materials is read for ever. Proved: loading ends on every file without the word that marks text archives, and returns or throws if there is no mark of safe binary archives either and the lightmaps name textures that exist; triangulation stays inside its lists (C48)."
  },
  {
   "property": "C94",
   "status": "partial",
   "theorems": [
    "C94_meshes_partial",
    "C94_skins_partial",
    "C94_model_meshes_partial",
    "C94_models_partial",
    "C94_morph_meshes_partial",
    "C94_animations_partial",
    "C94_events_refuted",
    "C94_names_refuted"
   ],
   "note": "False of the code for some animation events and for model meshes in which two attachments have the same name (the mesh of the next name is lost): findings. The reader of event strings skips white space after a line feed, which loses empty strings and bytes of the numbers that follow. Proved for all other layouts; the float arithmetic of animation samples is a parameter."
  },
  {
   "property": "C95",
   "status": "partial",
   "theorems": [
    "C95_animations_partial",
    "C95_meshes_end_partial",
    "C95_meshes_safe_partial",
    "C95_model_meshes_refuted",
    "C95_text_refuted"
   ],
   "note": "False of the code: findings. A mesh chunk before the chunk of names is undefined behaviour, and a multi-resolution mesh with a cut-off text archive of materials is read for ever. Proved for animations: every input returns or throws. Proved for multi-resolution meshes, soft skins and morph meshes below 4 GiB: without the marks of text and safe binary archives every input returns or throws; model meshes and models end without the mark of text archives."
  },
  {
   "property": "C96",
   "status": "partial",
   "theorems": [
    "C96_meshes",
    "C96_skins_partial",
    "C96_model_meshes_partial",
    "C96_morph_meshes_partial",
    "C96_samples_refuted",
    "C96_weights_refuted",
    "C96_animation_samples_refuted"
   ],
   "note": "False of the code: finding. The number of samples is a 32-bit product that wraps, and parts in another order give missing weights and samples. Proved for every input: everything but those counts."
  },
  {
   "property": "C97",
   "status": "partial",
   "theorems": [
    "C97_morph_meshes_partial",
    "C97_reload_refuted",
    "C94_meshes_partial",
    "C94_animations_partial"
   ],
   "note": "False of the code: finding. Morph animations of the first load stay, loading a model mesh with attachments again is undefined behaviour, and alpha_test is kept if the file does not store it. Proved exactly what is kept; animations are replaced completely (C94_animations_partial)."
  },
  {
   "property": "C98",
   "status": "partial",
   "theorems": [
    "C98_source_partial",
    "C98_dropped_refuted",
    "C98_last_animation_refuted",
    "C98_parenthesis_refuted",
    "C98_capitals_refuted",
    "C98_frames_refuted"
   ],
   "note": "False of the code: findings. The arguments of seven kinds of event tags and the empty-slot mark of ground sounds are dropped; an animation without a block at the end of an enumeration swallows its brace; a parenthesis at the end of a quoted text is dropped; commands in capitals are taken for flags after a blend; empty lists of frames give 0. Proved for every other source: its text is read as what it says."
  },
  {
   "property": "C99",
   "status": "proved",
   "theorems": [
    "C99_compiled"
   ],
   "note": "For every layout (SCompiled.v) of a script with fewer than 2^32 commands, files below 2^63 bytes."
  }
 ]
}