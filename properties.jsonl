{"id": "C01", "title": "Typed writes read back unchanged", "statement": "If a program writes any sequence of bytes, 8/16/32-bit integers, floats, vectors, matrices, strings and lines with a Write over a growable buffer and then reads the same sequence of types with a Read over that buffer, every value comes back bit for bit and the read position ends exactly where the write position ended.", "quantifier": "every sequence of typed values of any length, every value of each type, at any starting offset, with any bytes following", "why_tests_cant": "The sequence length and the values are unbounded; a test fixes both.", "anchors": ["src/Stream.cc: read_any, write_any, Read::read_*, Write::write_*", "include/zenkit/Stream.hh"]}
{"id": "C02", "title": "The in-memory reader is a cursor over an immutable array", "statement": "Every history of read/seek/tell/eof on a Read created from memory behaves like a cursor in [0,length]: read(n) copies exactly min(n, length-cursor) bytes starting at the cursor and advances by that amount, an out-of-range seek leaves the cursor alone, eof holds exactly at length, and no byte outside the buffer is ever touched.", "quantifier": "every buffer, every operation history, every length and offset argument representable in the parameter types", "why_tests_cant": "Histories and arguments (including those near 2^64) are unbounded.", "anchors": ["src/Stream.cc: ReadMemory, ReadVector, seek_internal"]}
{"id": "C03", "title": "The growable writer is a sparse file", "statement": "Every history of write/seek on a Write over a vector produces the contents of a sparse file: each written byte is at the position it was written to, the last write to a position wins, gaps are zero, the buffer never shrinks, and tell is the end of the last write or the target of the last seek.", "quantifier": "every history of writes and in-range seeks", "why_tests_cant": "Overlaps and seek patterns are unbounded.", "anchors": ["src/Stream.cc: WriteDynamic"]}
{"id": "C04", "title": "The fixed-size writer stays in its buffer", "statement": "Every history of write/seek on a Write over a fixed region changes only bytes inside the region, never changes its size, writes the longest prefix that fits and reports that length; an out-of-range seek is ignored.", "quantifier": "every region, history, length and offset argument", "why_tests_cant": "An overrun depends on the exact history and on arithmetic near the type limits.", "anchors": ["src/Stream.cc: WriteStatic"]}
{"id": "C05", "title": "Lines round-trip", "statement": "For every string without NUL, CR and LF, write_line followed by read_line returns the string and leaves the cursor on the first byte after the line feed, whatever follows; with whitespace skipping the cursor is on the first byte after the line and the following run of whitespace.", "quantifier": "every string, every following content, both skip modes", "why_tests_cant": "Contents and what follows are unbounded; edge cases sit at end of stream and on NULs.", "anchors": ["src/Stream.cc: Read::read_line, Read::read_line_then_ignore, Write::write_line"]}
{"id": "C06", "title": "Chunked files present every chunk once, in order", "statement": "For every list of chunks written with the chunk writer, the chunk reader calls its callback once per chunk, in order, with the chunk's type and with the cursor at the start of its payload, no matter how many payload bytes each callback invocation consumes; unknown chunks are skipped exactly.", "quantifier": "every list of chunk types and payloads below 4 GiB and every amount of consumption by the callbacks", "why_tests_cant": "Chunk lists and callback behaviour are unbounded.", "anchors": ["include/zenkit/Stream.hh: proto::read_chunked, proto::write_chunk"]}
{"id": "C07", "title": "Chunked reading terminates on every input", "statement": "On every byte string the chunk reader stops after at most as many callbacks as there are bytes, provided callbacks only move forward.", "quantifier": "every byte string, including truncated and hostile ones", "why_tests_cant": "Termination for all inputs is not testable.", "anchors": ["include/zenkit/Stream.hh: proto::read_chunked"]}
{"id": "C08", "title": "A compressed stream reads like the uncompressed data", "statement": "For every byte string stored as 8 KiB compressed blocks by the library, every history of read/seek/tell/eof on the decompressing reader returns what the same history returns on a plain in-memory reader of the original data.", "quantifier": "every content, every history of reads and seeks, for a compressor/decompressor pair that inverts", "why_tests_cant": "Block boundaries, partial reads and seeks interact in unboundedly many ways.", "anchors": ["src/Stream.cc: ReadZipped", "src/Vfs.cc: vfs_write_zipped"]}
{"id": "C09", "title": "Matrices survive storage and transposition", "statement": "Transposing twice is the identity and a 3x3 or 4x4 matrix written to a stream and read back is the same matrix; the stored order is row-major while memory is column-major.", "quantifier": "every matrix of 32-bit floats", "why_tests_cant": "All values.", "anchors": ["src/Misc.cc: Mat3::transpose, Mat4::transpose", "src/Stream.cc: write_mat3, write_mat4, read_mat3, read_mat4"]}
{"id": "C10", "title": "Dates and bounding boxes round-trip", "statement": "Saving a date, an axis-aligned box or an oriented-box tree of any depth and loading it returns an equal value and leaves the cursor at its end.", "quantifier": "every date, box and box tree", "why_tests_cant": "Trees are unbounded in depth and width; counts are stored in 16 bits.", "anchors": ["src/Date.cc", "src/Boxes.cc"]}
{"id": "C11", "title": "The box enclosing an oriented box encloses it", "statement": "The axis-aligned box computed from an oriented bounding box contains all eight of its corners.", "quantifier": "every oriented box (over real arithmetic)", "why_tests_cant": "All boxes, including those in negative coordinates.", "anchors": ["src/Boxes.cc: OrientedBoundingBox::as_bbox"]}
{"id": "C12", "title": "File name order is a case-insensitive strict weak order", "statement": "The ordering the virtual file system uses for names is a strict weak order whose equivalence is equality ignoring ASCII case, so lookup, uniqueness and iteration are well defined and case-insensitive.", "quantifier": "every pair and triple of names", "why_tests_cant": "Transitivity over all strings is not testable.", "anchors": ["src/Misc.cc: icompare, iequals", "include/zenkit/Vfs.hh: VfsNodeComparator"]}
{"id": "C13", "title": "Sibling names stay unique", "statement": "After every history of mkdir, mount, create and remove, no directory contains two entries whose names differ only in case.", "quantifier": "every history of operations with any names", "why_tests_cant": "Histories are unbounded.", "anchors": ["src/Vfs.cc: VfsNode::create, VfsNode::remove, Vfs::mkdir, Vfs::mount, Vfs::remove"]}
{"id": "C14", "title": "A directory that was made can be resolved", "statement": "If mkdir(path) succeeds then resolve(path) is a directory, everything that resolved before still resolves to the same content, and nothing else is added except the path's missing ancestors; mkdir of an existing directory changes nothing; mkdir through a file raises the file-exists error and leaves previously existing entries intact.", "quantifier": "every tree and path, with repeated, leading and trailing slashes", "why_tests_cant": "All trees and paths.", "anchors": ["src/Vfs.cc: Vfs::mkdir, Vfs::resolve"]}
{"id": "C15", "title": "Creating a child makes exactly that child resolve", "statement": "After create(node) in a directory, child(node.name) returns the new node, in any letter case, and every other name resolves as before.", "quantifier": "every directory content and every name", "why_tests_cant": "All names, including those with trailing whitespace.", "anchors": ["src/Vfs.cc: VfsNode::create, VfsNode::child"]}
{"id": "C16", "title": "Remove removes exactly one entry", "statement": "remove(path) reports whether path resolved to a removable entry; afterwards path does not resolve and every path not at or below it resolves to the same content as before.", "quantifier": "every tree and path", "why_tests_cant": "All trees and paths.", "anchors": ["src/Vfs.cc: VfsNode::remove, Vfs::remove"]}
{"id": "C17", "title": "Resolving any path is safe", "statement": "resolve(path) returns either the node at that path or null for every tree and every path string, including paths that continue past a file.", "quantifier": "every tree and path", "why_tests_cant": "All paths; one bad shape is enough to end the process.", "anchors": ["src/Vfs.cc: Vfs::resolve, VfsNode::child"]}
{"id": "C18", "title": "Mounting merges according to the overwrite policy", "statement": "After mounting a tree at a parent, the file at each path is chosen by the policy (none keeps, all replaces, newer/older by timestamp), directories merge, and nothing else changes.", "quantifier": "every pair of trees and every policy", "why_tests_cant": "All pairs of trees.", "anchors": ["src/Vfs.cc: Vfs::mount"]}
{"id": "C19", "title": "A saved archive mounts as the same tree", "statement": "For every file tree, saving it as an uncompressed VDF and mounting the resulting bytes into an empty file system yields the same tree: same names, same structure, same file contents.", "quantifier": "every tree of names, nested directories and contents within the format's limits", "why_tests_cant": "Trees are unbounded; index arithmetic in the catalog depends on the whole shape.", "anchors": ["src/Vfs.cc: Vfs::save, Vfs::save_internal, Vfs::mount_disk"]}
{"id": "C20", "title": "Mounting arbitrary bytes is safe", "statement": "Mounting any byte string as a disk either succeeds or raises the broken-disk error, in bounded time, and file nodes never refer to bytes outside the buffer.", "quantifier": "every byte string", "why_tests_cant": "All inputs, including truncated and hostile ones.", "anchors": ["src/Vfs.cc: Vfs::mount_disk"]}
{"id": "C21", "title": "A compressed archive mounts as the same tree", "statement": "For every file tree, saving it compressed and mounting the result yields the same names, structure and contents as the original.", "quantifier": "every tree, for an inverting compressor pair", "why_tests_cant": "As C19, plus the per-file compression layer.", "anchors": ["src/Vfs.cc: Vfs::save_compressed, vfs_write_zipped, VfsNode::open_read"]}
{"id": "C22", "title": "DOS timestamps round-trip", "statement": "Every calendar time with even seconds between 1980 and 2107 survives packing into a DOS date/time word and unpacking; unpacking then packing is the identity on every word that denotes a valid date.", "quantifier": "every such time / word", "why_tests_cant": "The space is large and bit-field boundaries matter.", "anchors": ["src/Vfs.cc: vfs_unix_to_dos_time, vfs_dos_to_unix_time"]}
{"id": "C23", "title": "Find finds", "statement": "find(name) returns a node with that name (ignoring case) if and only if some directory of the tree contains one.", "quantifier": "every tree and name", "why_tests_cant": "All trees.", "anchors": ["src/Vfs.cc: Vfs::find"]}
{"id": "C24", "title": "Class names and object types are in bijection", "statement": "The table from stored class names to object types and the table back are mutual inverses on the types both know, so an object written under its type is read back under the same type.", "quantifier": "every class name and object type", "why_tests_cant": "A finite but easily broken pair of tables; a test covers a few entries.", "anchors": ["src/Archive.cc: OBJECTS, CLASS_NAMES"]}
{"id": "C25", "title": "Binsafe entries round-trip", "statement": "Any sequence of entries written to a binsafe archive reads back with the same types in the same order as the same values.", "quantifier": "every sequence of entries and every value within the length fields", "why_tests_cant": "Sequences and values are unbounded.", "anchors": ["src/archive/ArchiveBinsafe.cc"]}
{"id": "C26", "title": "Binary entries round-trip", "statement": "Any sequence of entries written to a binary archive reads back with the same types in the same order as the same values.", "quantifier": "every sequence of entries and every value", "why_tests_cant": "Sequences and values are unbounded.", "anchors": ["src/archive/ArchiveBinary.cc"]}
{"id": "C27", "title": "ASCII entries round-trip", "statement": "Any sequence of entries written to an ASCII archive reads back with the same types in the same order as the same values (floats up to the library's decimal rendering).", "quantifier": "every sequence of entries and every value", "why_tests_cant": "Sequences and values are unbounded.", "anchors": ["src/archive/ArchiveAscii.cc"]}
{"id": "C28", "title": "Skipping an object lands after it", "statement": "In each archive format, skipping an object, from its start or from inside it, consumes exactly the rest of that object including nested objects, so the next read sees what follows.", "quantifier": "every properly nested object content", "why_tests_cant": "Nesting depth and contents are unbounded.", "anchors": ["src/Archive.cc: ReadArchive::skip_object", "src/archive"]}
{"id": "C29", "title": "Object graphs keep their sharing", "statement": "Writing an object graph and reading it back yields an isomorphic graph: an object referenced several times is stored once and comes back as one object, cycles included, and null references stay null.", "quantifier": "every finite graph of objects (sharing and cycles included), every format, whose content fits the format and whose archive opens (C30)", "why_tests_cant": "Graphs are unbounded; sharing and cycles depend on the traversal.", "anchors": ["src/Archive.cc: ReadArchive::read_object, WriteArchive::write_object"]}
{"id": "C30", "title": "Archive headers round-trip", "statement": "The header written for each format is recognised as that format with the same version, save-game flag and object count.", "quantifier": "every archive produced by each writer", "why_tests_cant": "Holds for every content and every object count.", "anchors": ["src/Archive.cc: ArchiveHeader::load", "src/archive: write_header, read_header"]}
{"id": "C31", "title": "Reading an entry as the wrong type is detected", "statement": "In the self-describing formats (binsafe, ASCII), reading an entry with a reader of another type raises a parser error instead of returning a value.", "quantifier": "every pair of entry type and reader type and every value", "why_tests_cant": "All pairs and values.", "anchors": ["src/archive/ArchiveBinsafe.cc: ensure_entry_meta", "src/archive/ArchiveAscii.cc: read_entry"]}
{"id": "C32", "title": "The common part of world objects round-trips", "statement": "Saving any world object's common fields (box, position, rotation, flags, names, visual, AI, event manager, physics) and loading them returns the same fields, for both games, packed and unpacked, in worlds and save-games.", "quantifier": "every object state, game version, packing mode, save flag", "why_tests_cant": "The packed bit fields combine in thousands of ways.", "anchors": ["src/vobs/VirtualObject.cc"]}
{"id": "C33", "title": "Triggers and movers round-trip", "statement": "Saving and loading returns the same trigger, mover, trigger list, script trigger, level-change trigger, world-start trigger and untouch trigger.", "quantifier": "every object state, version, save flag", "why_tests_cant": "Lists and optional sections are unbounded.", "anchors": ["src/vobs/Trigger.cc"]}
{"id": "C34", "title": "Movable objects round-trip", "statement": "Saving and loading returns the same movable, interactive, container, door and fire object, whenever it returns the same common part (C32); a container's items are only stored in save games.", "quantifier": "every object state, version, save flag", "why_tests_cant": "Item lists and optional sections.", "anchors": ["src/vobs/MovableObject.cc"]}
{"id": "C35", "title": "Zones, sounds and cutscene cameras round-trip", "statement": "Saving and loading returns the same zone, sound and cutscene camera object, whenever it returns the same common part (C32) and the fields only save games, or only Gothic 2, store have their initial values elsewhere.", "quantifier": "every object state, version, save flag", "why_tests_cant": "Animation lists and key-frames are unbounded.", "anchors": ["src/vobs/Zone.cc", "src/vobs/Sound.cc", "src/vobs/Camera.cc: VCutsceneCamera"]}
{"id": "C36", "title": "Items, filters, controllers and effects round-trip", "statement": "Saving and loading returns the same animated object, item, lens flare, particle controller, message filter, mover controller, touch damage, earthquake and screen effect object, whenever it returns the same common part (C32).", "quantifier": "every object state, version, save flag", "why_tests_cant": "Lists and optional sections.", "anchors": ["src/vobs/Misc.cc"]}
{"id": "C37", "title": "NPCs round-trip", "statement": "Saving and loading returns the same NPC: attributes, talents, script variables, news, inventory, slots and state.", "quantifier": "every NPC state and version", "why_tests_cant": "Dozens of unbounded fields.", "anchors": ["src/vobs/Misc.cc: VNpc"]}
{"id": "C38", "title": "Materials round-trip", "statement": "Saving a material and loading it returns the same material for both games.", "quantifier": "every material", "why_tests_cant": "All field values.", "anchors": ["src/Material.cc"]}
{"id": "C39", "title": "Way nets round-trip", "statement": "Saving a way net and loading it returns the same points and edges; after loading, every point used by an edge is in the point list exactly once.", "quantifier": "every way net", "why_tests_cant": "Graphs are unbounded; the loader infers membership from reference counts.", "anchors": ["src/world/WayNet.cc"]}
{"id": "C40", "title": "World-object trees round-trip", "statement": "Saving a tree of world objects and loading it returns the same tree; an object of an unsupported class is dropped with its whole subtree and its siblings load unharmed.", "quantifier": "every tree", "why_tests_cant": "Trees are unbounded.", "anchors": ["src/world/VobTree.cc"]}
{"id": "C41", "title": "Save-game state round-trips", "statement": "Saving metadata and state (infos, missions, log, symbols, guild table) and loading it returns the same state for both games.", "quantifier": "every state", "why_tests_cant": "All lists are unbounded.", "anchors": ["src/SaveGame.cc: SaveMetadata, SaveState, CutsceneManager, CutscenePoolItem"]}
{"id": "C42", "title": "Cutscene lookup is exact", "statement": "After loading, block_by_name(n) returns a block named n if one exists and null otherwise.", "quantifier": "every library and name", "why_tests_cant": "Binary search over all libraries and all absent names.", "anchors": ["src/CutsceneLibrary.cc: CutsceneLibrary::block_by_name"]}
{"id": "C43", "title": "Fonts round-trip", "statement": "Saving a font and loading it returns the same name, height and glyphs.", "quantifier": "every font", "why_tests_cant": "All names and glyph lists.", "anchors": ["src/Font.cc"]}
{"id": "C44", "title": "Skeletons round-trip", "statement": "Saving a model hierarchy and loading it returns the same nodes, boxes, translation, checksum and source.", "quantifier": "every hierarchy of fewer than 65536 nodes, whatever the object held before loading", "why_tests_cant": "Node lists are unbounded.", "anchors": ["src/ModelHierarchy.cc"]}
{"id": "C45", "title": "BSP trees round-trip", "statement": "Saving a BSP tree and loading it returns the same nodes with the same parent/front/back links, leaves, sectors, portals and light points, for both games.", "quantifier": "every well-formed tree", "why_tests_cant": "Trees are unbounded; links are reconstructed from flags.", "anchors": ["src/world/BspTree.cc"]}
{"id": "C46", "title": "BSP loading yields a well-formed tree", "statement": "Every successfully loaded BSP node list is a tree in pre-order: each child link points forward to a node whose parent link points back, and the leaf list is exactly the nodes read as leaves.", "quantifier": "every input byte string", "why_tests_cant": "All inputs.", "anchors": ["src/world/BspTree.cc: _parse_bsp_nodes"]}
{"id": "C47", "title": "Meshes round-trip", "statement": "Saving a mesh and loading it returns the same vertices, features, polygons (material, lightmap, plane, flags, indices) for both games.", "quantifier": "every mesh", "why_tests_cant": "All lists and flag combinations.", "anchors": ["src/Mesh.cc"]}
{"id": "C48", "title": "Triangulation is a fan of the leaf polygons", "statement": "Triangulating yields, for each non-portal, non-outdoor, non-ghost leaf polygon with n>=3 corners, exactly the n-2 triangles (0,i,i+1) in order, with that polygon's material, lightmap and flags, and nothing else.", "quantifier": "every mesh and sorted leaf list", "why_tests_cant": "All meshes.", "anchors": ["src/Mesh.cc: Mesh::triangulate"]}
{"id": "C49", "title": "Skinned and multi-resolution meshes round-trip", "statement": "Saving a multi-resolution mesh, soft-skin mesh or model mesh and loading it returns the same mesh.", "quantifier": "every mesh", "why_tests_cant": "All lists.", "anchors": ["src/MultiResolutionMesh.cc", "src/SoftSkinMesh.cc", "src/ModelMesh.cc"]}
{"id": "C50", "title": "Textures round-trip", "statement": "Saving a loaded texture and loading it again returns the same texture: format, sizes, palette and every mipmap.", "quantifier": "every texture the loader can produce", "why_tests_cant": "All sizes and mipmap counts.", "anchors": ["src/Texture.cc: Texture::load, Texture::save"]}
{"id": "C51", "title": "Mipmap sizes are consistent", "statement": "Every mipmap level has the byte size required by its format and dimensions, never zero for a known format, and the size never grows with the level.", "quantifier": "every format, size and level", "why_tests_cant": "All dimensions; 32-bit products wrap.", "anchors": ["src/Texture.cc: _ztex_mipmap_size"]}
{"id": "C52", "title": "Pixel conversion is lossless where formats are", "statement": "Converting pixels to a lossless 32/24-bit format and back to RGBA returns the original pixels (alpha forced opaque for 24-bit).", "quantifier": "every image and lossless format", "why_tests_cant": "All images.", "anchors": ["src/Texture.cc: _ztex_to_rgba, _ztex_from_rgba"]}
{"id": "C53", "title": "A built texture returns the mipmaps it was given", "statement": "After adding mipmap levels in order and building in the same format, data(level) is the level that was added, and a wrongly sized level is rejected.", "quantifier": "every size and number of levels", "why_tests_cant": "All level counts.", "anchors": ["src/Texture.cc: TextureBuilder", "include/zenkit/Texture.hh: Texture::data"]}
{"id": "C54", "title": "DDS export is complete", "statement": "The DDS export of a loaded texture is the 4-byte magic, a 124-byte header with the texture's size, format and mipmap count (0 standing for one), for palette images the palette, then every mipmap from largest to smallest.", "quantifier": "every texture the loader can produce", "why_tests_cant": "All textures.", "anchors": ["src/addon/texcvt.cc"]}
{"id": "C55", "title": "Model script tokens: termination and progress", "statement": "Tokenising any model script ends, and every call that returns a token other than end-of-file consumes input.", "quantifier": "every byte string", "why_tests_cant": "All inputs, including unterminated comments and strings.", "anchors": ["src/ModelScriptDsl.cc: MdsTokenizer::next"]}
{"id": "C56", "title": "Instructions decode to their encoding", "statement": "Decoding the encoding of any instruction at any address returns that instruction and its exact size, so stepping by size visits exactly the instructions that were assembled.", "quantifier": "every instruction list", "why_tests_cant": "All programs.", "anchors": ["src/DaedalusScript.cc: DaedalusInstruction::decode"]}
{"id": "C57", "title": "Symbol reads return the last write", "statement": "A value written to a symbol element is what is read back until it is overwritten; other elements and symbols are unaffected; wrong type, index out of range, missing or wrong context raise the documented errors and change nothing.", "quantifier": "every symbol, index, context and history", "why_tests_cant": "All histories.", "anchors": ["src/DaedalusScript.cc: DaedalusSymbol::get_*, set_*"]}
{"id": "C58", "title": "Opaque instances have disjoint members", "statement": "For every class, the offsets assigned to its members in an opaque instance are aligned, disjoint and inside the allocation, so writing one member never changes another.", "quantifier": "every class with any member list", "why_tests_cant": "All member lists.", "anchors": ["src/DaedalusScript.cc: DaedalusScript::register_as_opaque", "include/zenkit/DaedalusScript.hh: DaedalusOpaqueInstance"]}
{"id": "C59", "title": "The VM stack stays in bounds", "statement": "In every execution the VM's stack index stays within its fixed capacity; pushing to a full stack raises the VM error.", "quantifier": "every program and execution", "why_tests_cant": "All executions.", "anchors": ["src/DaedalusVm.cc: push_*, pop_*"]}
{"id": "C60", "title": "Script arithmetic is 32-bit arithmetic", "statement": "Each arithmetic, comparison and logic instruction replaces its two operands by the result of the operation on 32-bit integers with the documented operand order, and changes nothing else; division by zero raises an error.", "quantifier": "every pair of operands", "why_tests_cant": "2^64 operand pairs, including overflow corners.", "anchors": ["src/DaedalusVm.cc: exec"]}
{"id": "C61", "title": "Calls return to the caller", "statement": "After a called function returns, execution continues after the call with the caller's frame, and the stack has exactly the function's declared return values on top of what was below the arguments.", "quantifier": "every program state and callee", "why_tests_cant": "All callees and stack shapes.", "anchors": ["src/DaedalusVm.cc: push_call, pop_call, unsafe_call, exec"]}
{"id": "C62", "title": "Constants are not modified by scripts", "statement": "No instruction changes the value of a symbol declared constant unless the host disabled the check.", "quantifier": "every program, state and instruction", "why_tests_cant": "All programs.", "anchors": ["src/DaedalusVm.cc: exec, set_int, set_float, set_string"]}
{"id": "C63", "title": "Strings on the stack are what was pushed", "statement": "A string pushed on the VM stack is the string popped, whatever other strings are live and whatever was pushed and popped before.", "quantifier": "every history of pushes and pops", "why_tests_cant": "Histories are unbounded; storage for temporaries is recycled.", "anchors": ["src/DaedalusVm.cc: push_string, pop_string, get_free_string, mark_free_string"]}
{"id": "C64", "title": "Recursion preserves local variables", "statement": "With local-variable support on, a recursive call leaves the caller's local variables unchanged.", "quantifier": "every function, value and recursion depth", "why_tests_cant": "All depths.", "anchors": ["src/DaedalusVm.cc: push_local_variables, pop_local_variables"]}
{"id": "C65", "title": "Null instance access follows the host's choice", "statement": "Accessing a member without an instance raises an error by default, and with the permissive flag reads as 0, 0.0 or the empty string and writes nothing.", "quantifier": "every member and instruction", "why_tests_cant": "All members and instructions.", "anchors": ["src/DaedalusVm.cc: get_int, set_int, get_string, set_string, get_float, set_float"]}
{"id": "C66", "title": "Registered natives match their script signature", "statement": "Registering an external or override succeeds only if parameter count and types and the return type match the script's declaration; calling a function checks the argument count and types.", "quantifier": "every signature and declaration", "why_tests_cant": "All signatures.", "anchors": ["include/zenkit/DaedalusVm.hh: register_external, override_function, call_function, check_call"]}
{"id": "C67", "title": "Jumps stay in the code", "statement": "A taken branch or call only goes to an address inside the code; otherwise an error is raised.", "quantifier": "every program and state", "why_tests_cant": "All programs.", "anchors": ["src/DaedalusVm.cc: jump, exec"]}
{"id": "C68", "title": "Symbol lookup agrees with the table", "statement": "Lookup by index, by name in any letter case and by address return the symbol that was loaded at that index, with that name, at that address, or null when there is none.", "quantifier": "every script", "why_tests_cant": "All tables.", "anchors": ["src/DaedalusScript.cc: find_symbol_by_index, find_symbol_by_name, find_symbol_by_address"]}
{"id": "C69", "title": "Exception handlers decide how execution goes on", "statement": "When an instruction raises a script error, CONTINUE resumes at the next instruction, RETURN leaves the current function, FAIL re-raises; without handler it is re-raised.", "quantifier": "every state, error and handler", "why_tests_cant": "All states.", "anchors": ["src/DaedalusVm.cc: exec"]}
{"id": "C70", "title": "Function parameters and locals are found exactly", "statement": "For a function symbol, its parameters are the symbols directly following it, as many as declared, and its locals are the following symbols with its name as prefix.", "quantifier": "every symbol table", "why_tests_cant": "All tables.", "anchors": ["src/DaedalusScript.cc: find_parameters_for_function, find_locals_for_function"]}
{"id": "C71", "title": "The box enclosing an oriented box is the smallest one", "statement": "The axis-aligned box computed from an oriented bounding box is contained in every axis-aligned box that contains all eight corners.", "quantifier": "every oriented box whose corners are representable (over real arithmetic)", "why_tests_cant": "All boxes, in particular those lying entirely in negative coordinates.", "anchors": ["src/Boxes.cc: OrientedBoundingBox::as_bbox"]}
{"id": "C72", "title": "Arguments of script calls reach the called function", "statement": "When a script calls a function, the values it pushed as arguments are exactly those on top of the called function's stack when it starts, in the same order, whether or not the call is recursive and whether or not local variables are saved.", "quantifier": "every script, machine state and called function", "why_tests_cant": "Saving local variables moves the arguments; whether they survive depends on the relation between the number of arguments and the size of the local variables of each function.", "anchors": ["src/DaedalusVm.cc: DaedalusVm::push_call, push_local_variables"]}
{"id": "C73", "title": "The value a function returns is the value its caller gets", "statement": "When a function with a return value ends, the caller finds exactly the value the function returned on the top of the stack.", "quantifier": "every script, function, call depth and history", "why_tests_cant": "It depends on what happens between the return and the use of the value (restoring local variables, clearing the stack), for every nesting of calls.", "anchors": ["src/DaedalusVm.cc: DaedalusVm::pop_call, pop_local_variables, unsafe_call"]}
{"id": "C74", "title": "A compiled script loads as written", "statement": "Loading a compiled script file gives the symbols (names, types, flags, counts, values, parents), in file order, and the code the file contains.", "quantifier": "every compiled script", "why_tests_cant": "Symbols have variable layouts depending on type and flags; tests use a few files.", "anchors": ["src/DaedalusScript.cc: DaedalusScript::load, DaedalusSymbol::load"]}
{"id": "C75", "title": "Binding a C++ member to a script member is checked and exact", "statement": "register_member succeeds only if the symbol is a class member of a matching type with no more elements than the C++ member and its class is not bound to another C++ type; it then binds that member at that offset and changes no other symbol; if it fails nothing changes.", "quantifier": "every symbol table, name, C++ type, offset and earlier binding", "why_tests_cant": "The checks combine type, count, flags and the history of bindings.", "anchors": ["include/zenkit/DaedalusScript.hh: DaedalusScript::register_member, _check_member"]}
{"id": "C76", "title": "Native functions get the arguments the script pushed", "statement": "A native function registered with a signature gets, for every call from a script, the values the script pushed for its parameters, the first parameter first, and leaves everything below them on the stack.", "quantifier": "every signature, every argument list, every stack below", "why_tests_cant": "Arguments are popped in reverse order with a conversion for each type; signatures are unbounded.", "anchors": ["include/zenkit/DaedalusVm.hh: DaedalusVm::register_external, pop_values_reverse, pop_value"]}
{"id": "C77", "title": "What the script machine refuses changes nothing", "statement": "Registering a native function with a wrong signature, or calling a function with a wrong number or wrong types of arguments, raises an error and leaves the machine, its stack included, as it was.", "quantifier": "every script, signature and argument list", "why_tests_cant": "All signatures and argument lists; the checks are interleaved with pushing the arguments.", "anchors": ["include/zenkit/DaedalusVm.hh: register_external, override_function, call_function, check_call_parameters"]}
{"id": "C78", "title": "Graphs of world objects come back", "statement": "Saving a root object of any of the library's classes with everything it refers to, however shared or cyclic, and loading the archive gives a root from which exactly the same objects are reachable, each with the same fields and the same references, provided each object is one its class can store (C32 to C40, C79 to C83).", "quantifier": "every finite graph of objects of all classes, both games, worlds and save games, packed or not, every archive format", "why_tests_cant": "Graphs are unbounded and the classes interact through the archive and through what they look up in objects they refer to.", "anchors": ["src/vobs", "src/world", "src/CutsceneLibrary.cc", "src/archive"]}
{"id": "C79", "title": "Code masters round-trip", "statement": "Saving and loading returns the same code master.", "quantifier": "every object state, version, save flag", "why_tests_cant": "Lists of slaves are unbounded; save games store one more field.", "anchors": ["src/vobs/Misc.cc: VCodeMaster"]}
{"id": "C80", "title": "Camera key-frames and lights round-trip", "statement": "Saving and loading returns the same camera key-frame and light object.", "quantifier": "every object state, version, save flag", "why_tests_cant": "Poses and animation lists range over all floats and lengths.", "anchors": ["src/vobs/Camera.cc: VCameraTrajectoryFrame", "src/vobs/Light.cc"]}
{"id": "C81", "title": "Worlds of save games round-trip", "statement": "Saving a world of a save game (object tree, way net, NPCs, spawns, cutscene player, sky) and loading it returns the same world.", "quantifier": "every world", "why_tests_cant": "Trees and lists are unbounded; the sections are told apart by names.", "anchors": ["src/World.cc"]}
{"id": "C82", "title": "Cutscenes, save-game metadata and skies round-trip", "statement": "Saving and loading returns the same cutscene message, block, library, context, properties, pool item, manager, player, save-game metadata and sky.", "quantifier": "every object state, version, save flag", "why_tests_cant": "Lists are unbounded; a library is re-sorted when loaded.", "anchors": ["src/CutsceneLibrary.cc", "src/SaveGame.cc", "src/world/WorldObjects.cc"]}
{"id": "C83", "title": "Visuals, AIs, event managers and talents round-trip", "statement": "Saving and loading returns the same visual (decals with all fields), human AI, moving-object AI, event manager and NPC talent.", "quantifier": "every object state, version, save flag", "why_tests_cant": "All field values.", "anchors": ["src/vobs/VirtualObject.cc", "src/vobs/Misc.cc: VNpc::Talent"]}
{"id": "C84", "title": "Loaded triggers' booleans agree with their flag bytes", "statement": "Whatever archive a trigger (or mover, trigger list, script trigger, level-change trigger) was loaded from, each of its eight boolean members equals the corresponding bit of its flags and filter_flags bytes.", "quantifier": "every byte sequence, game version, save flag", "why_tests_cant": "All archives, including damaged ones, must be covered.", "anchors": ["src/vobs/Trigger.cc: VTrigger::load"]}
{"id": "C85", "title": "Every object a reader hands out is complete", "statement": "Whatever bytes are read: if reading the root object of an archive succeeds, every object reachable in the result was completely loaded by the load function of its own class, and every reference it holds is to an object of the result with the recorded type.", "quantifier": "every byte sequence, game version, save flag", "why_tests_cant": "Reference cycles and damaged archives make the space of object graphs unbounded.", "anchors": ["src/Archive.cc: ReadArchive::read_object", "src/archive/ArchiveBinary.cc"]}
{"id": "C86", "title": "Loading a save game replaces the state", "statement": "Loading a save game into a SaveGame object gives the state stored in the file, whatever the object held before.", "quantifier": "every earlier state, every file", "why_tests_cant": "The result must not depend on any earlier history of the object.", "anchors": ["src/SaveGame.cc: SaveState::load, SaveGame::load"]}
{"id": "C87", "title": "Loading fonts, skeletons and textures is safe", "statement": "Loading any bytes as a font, a skeleton or a texture returns or throws: it never touches memory outside the buffer, never runs forever and never moves the cursor backwards.", "quantifier": "every byte string and cursor position, whatever the object held before", "why_tests_cant": "All inputs, including truncated and hostile files.", "anchors": ["src/Font.cc", "src/ModelHierarchy.cc", "src/Texture.cc: Texture::load"]}
{"id": "C88", "title": "Loading a texture replaces the old one", "statement": "Loading a texture file into a Texture object gives the texture in the file, whatever the object held before.", "quantifier": "every texture file and previous state", "why_tests_cant": "All pairs of files.", "anchors": ["src/Texture.cc: Texture::load"]}
{"id": "C89", "title": "The DDS header describes the pixels the library decodes", "statement": "Decoding the exported pixel data with the channel masks of the exported DDS header gives the colours as_rgba8 returns.", "quantifier": "every uncompressed texture and level", "why_tests_cant": "All pixel values and formats.", "anchors": ["src/addon/texcvt.cc: make_dds_header", "src/Texture.cc: _ztex_to_rgba"]}
{"id": "C90", "title": "Texture conversion is always defined", "statement": "Building a texture from valid mipmaps in a supported format, and reading any level of a loaded texture as RGBA, returns or throws; it never has undefined behaviour.", "quantifier": "every image, format and level", "why_tests_cant": "All images; the faults depend on pixel values.", "anchors": ["src/Texture.cc: _ztex_from_rgba, Texture::as_rgba8"]}
{"id": "C91", "title": "Loading a BSP tree is safe", "statement": "Loading any bytes as a BSP tree returns or throws: it never touches memory outside its buffers and never runs forever.", "quantifier": "every byte string, version and previous tree", "why_tests_cant": "All inputs, including files whose counts and indices disagree.", "anchors": ["src/world/BspTree.cc: BspTree::load, _parse_bsp_nodes"]}
{"id": "C92", "title": "Loading a mesh or BSP tree replaces what the object held", "statement": "Loading a mesh or BSP tree into an object that was loaded before gives the same result as loading it into a new one.", "quantifier": "every pair of files", "why_tests_cant": "All histories of loads into one object.", "anchors": ["src/Mesh.cc: Mesh::load", "src/world/BspTree.cc: BspTree::load"]}
{"id": "C93", "title": "Loading a mesh is safe", "statement": "Loading any bytes as a mesh returns or throws: it never touches memory outside its buffers and never runs forever.", "quantifier": "every byte string", "why_tests_cant": "All inputs, including files whose counts and indices disagree.", "anchors": ["src/Mesh.cc: Mesh::load"]}
{"id": "C94", "title": "Every file of the mesh, model and animation formats loads as what it holds", "statement": "Loading any multi-resolution mesh, soft-skin mesh, model mesh, model, morph mesh or animation file that is laid out as the format says returns exactly what is laid out in it.", "quantifier": "every mesh, skin, model, morph mesh and animation, and every file that stores it (any placement of the lists, any slack, any line ends)", "why_tests_cant": "The writers of these files are the game's tools: all their layouts have to be read, and no unit test can enumerate them.", "anchors": ["src/MultiResolutionMesh.cc: MultiResolutionMesh::load_from_section", "src/SoftSkinMesh.cc: SoftSkinMesh::load", "src/ModelMesh.cc: ModelMesh::load", "src/Model.cc: Model::load", "src/MorphMesh.cc: MorphMesh::load", "src/ModelAnimation.cc: ModelAnimation::load"]}
{"id": "C95", "title": "Loading model meshes and animations is safe", "statement": "Loading any bytes as a model mesh or an animation returns or throws: it never touches memory outside its buffers and never runs forever.", "quantifier": "every byte string and every previous object", "why_tests_cant": "All inputs, including files whose parts are missing or in another order.", "anchors": ["src/ModelMesh.cc: ModelMesh::load", "src/ModelAnimation.cc: ModelAnimation::load"]}
{"id": "C96", "title": "The lists of loaded meshes and animations fit together", "statement": "Whatever file was loaded: a mesh has one sub-mesh for each material, a soft-skin mesh has weights for each position and a box for each node, a morph mesh has a morph position for each position and each of its animations a sample for each vertex in each frame, and an animation has a sample for each node in each frame.", "quantifier": "every byte string that loads", "why_tests_cant": "All inputs, including files with parts in another order and with large counts.", "anchors": ["src/MultiResolutionMesh.cc: MultiResolutionMesh::load_from_section", "src/SoftSkinMesh.cc: SoftSkinMesh::load", "src/MorphMesh.cc: MorphMesh::load", "src/ModelAnimation.cc: ModelAnimation::load"]}
{"id": "C97", "title": "Loading meshes and animations replaces what the object held", "statement": "Loading a mesh, model mesh, morph mesh or animation into an object that was loaded before gives the same result as loading it into a new one.", "quantifier": "every pair of files", "why_tests_cant": "All histories of loads into one object.", "anchors": ["src/MultiResolutionMesh.cc: MultiResolutionMesh::load", "src/ModelMesh.cc: ModelMesh::load", "src/MorphMesh.cc: MorphMesh::load", "src/ModelAnimation.cc: ModelAnimation::load"]}
{"id": "C98", "title": "Model script sources load as what they say", "statement": "Loading the source of a model script gives exactly the skeleton, meshes, animations, aliases, blends, combinations, disabled animations, model tags and events the text says, however it is laid out (blanks, comments, case of commands, quotes left open at the end of a line).", "quantifier": "every script and every way to write it as text", "why_tests_cant": "Infinitely many scripts and layouts.", "anchors": ["src/ModelScript.cc", "src/ModelScriptDsl.cc: MdsParser, MdsTokenizer", "include/zenkit/ModelScript.hh: ModelScript::load"]}
{"id": "C99", "title": "Compiled model scripts load as what they say", "statement": "Loading a compiled model script gives exactly the commands and events laid out in its chunks, in their order, whatever chunks without meaning are between them.", "quantifier": "every script and every layout of it in chunks", "why_tests_cant": "Infinitely many scripts and layouts.", "anchors": ["src/ModelScript.cc", "include/zenkit/ModelScript.hh: ModelScript::load"]}
{"id": "C100", "title": "Source and compiled model scripts agree", "statement": "A model script loads as the same object from its source and from its compiled form.", "quantifier": "every script that can be written in both forms", "why_tests_cant": "Relates two loaders on all scripts.", "anchors": ["src/ModelScript.cc", "src/ModelScriptDsl.cc: MdsParser, MdsTokenizer"]}
{"id": "C101", "title": "Loading a model script ends", "statement": "Loading any file as a model script returns a script or throws an error: it neither runs for ever nor has undefined behaviour.", "quantifier": "every byte string", "why_tests_cant": "All inputs, including truncated and ill-formed ones.", "anchors": ["src/ModelScript.cc", "src/ModelScriptDsl.cc: MdsParser, MdsTokenizer"]}
{"id": "C102", "title": "Reloading a model script", "statement": "Loading a model script into an object that was loaded before gives the same as loading into a new object.", "quantifier": "every file and every previous content", "why_tests_cant": "All histories of the object.", "anchors": ["src/ModelScript.cc: ModelScript::load"]}
{"id": "C103", "title": "A saved game can be loaded again", "statement": "Loading the directory a game was saved to into a new save game object gives the same metadata, state, thumbnail and current world.", "quantifier": "every metadata, state, thumbnail, world, path and file system", "why_tests_cant": "All combinations of content and directories.", "anchors": ["src/SaveGame.cc: SaveGame::load, save, load_world, load_current_world"]}
{"id": "C104", "title": "Saving carries the other files over and touches nothing else", "statement": "After saving a loaded game to a directory, that directory holds the files of the directory it was loaded from (replaced only where the save writes them) and nothing outside it has changed.", "quantifier": "every file system, every way to write a path, every game", "why_tests_cant": "All file systems and path spellings.", "anchors": ["src/SaveGame.cc: SaveGame::load, save, load_world, load_current_world"]}
{"id": "C105", "title": "Other save games survive a crash", "statement": "If the process dies at any point while a game is saved, including in the middle of writing a file, no file of another save game is changed.", "quantifier": "every crash point, every file system, every game", "why_tests_cant": "Every crash point, including torn writes.", "anchors": ["src/SaveGame.cc: SaveGame::load, save, load_world, load_current_world"]}
{"id": "C106", "title": "Saving in place loses nothing", "statement": "If the process dies while a game is saved over the directory it was loaded from, each file is the old or the new one, so the game can still be loaded.", "quantifier": "every crash point, every game", "why_tests_cant": "Every crash point, including torn writes.", "anchors": ["src/SaveGame.cc: SaveGame::load, save, load_world, load_current_world"]}
{"id": "C107", "title": "Files of a save game are found in any letter case", "statement": "A save game is loaded the same whatever the letter case of the file names in its directory.", "quantifier": "every directory and every spelling of its names", "why_tests_cant": "All spellings.", "anchors": ["src/SaveGame.cc: SaveGame::load, save, load_world, load_current_world"]}
{"id": "C108", "title": "A world is loaded by the name it was saved under", "statement": "After saving with a world under some name, loading the world of that name gives that world.", "quantifier": "every name, world and file system", "why_tests_cant": "All names.", "anchors": ["src/SaveGame.cc: SaveGame::load, save, load_world, load_current_world"]}
{"id": "C109", "title": "A save that returns has written its files", "statement": "When saving returns without an error, the five files of the save game are in the target directory with the contents that were given.", "quantifier": "every game, every file system on which writing succeeds", "why_tests_cant": "All histories of the object and file systems.", "anchors": ["src/SaveGame.cc: SaveGame::load, save, load_world, load_current_world"]}
{"id": "C110", "title": "Loading does not depend on what the object held", "statement": "Loading a directory into a used save game object gives the same as loading it into a new one.", "quantifier": "every directory and every previous content", "why_tests_cant": "All histories of the object.", "anchors": ["src/SaveGame.cc: SaveGame::load, save, load_world, load_current_world"]}
{"id": "C111", "title": "A saved world file comes back", "statement": "Saving a world outside of a save game, with its mesh, BSP tree, object trees and way net, and loading the file gives the same world: the same mesh, BSP tree, trees and way net, and a copy of the objects with the same sharing.", "quantifier": "every world the library can hold, every kind of archive, both games, every header text", "why_tests_cant": "Meshes, trees and object graphs are unbounded, and the mesh is written into the stream of the archive behind its back.", "anchors": ["src/World.cc: World::load, World::save, determine_world_version", "src/Mesh.cc", "src/world/BspTree.cc"]}
{"id": "C112", "title": "The game of a world file is detected", "statement": "Loading a saved world without naming the game finds the game it was saved for and gives the same world as naming it; a save game is refused with an error.", "quantifier": "every world and every save-game archive", "why_tests_cant": "Detection skips over whatever sections come before the mesh.", "anchors": ["src/World.cc: World::load, World::save, determine_world_version", "src/Mesh.cc", "src/world/BspTree.cc"]}
{"id": "C113", "title": "Loading a world replaces what it held", "statement": "Loading a world file into a world that was loaded before gives the same result as loading it into a new one.", "quantifier": "every pair of files", "why_tests_cant": "All histories of loads into one object.", "anchors": ["src/World.cc: World::load, World::save, determine_world_version", "src/Mesh.cc", "src/world/BspTree.cc"]}
{"id": "C114", "title": "Loading a world file ends", "statement": "Loading any byte string as a world returns a world or throws an error: it does not run for ever.", "quantifier": "every byte string", "why_tests_cant": "All inputs, including truncated ones.", "anchors": ["src/World.cc: World::load, World::save, determine_world_version", "src/Mesh.cc", "src/world/BspTree.cc"]}
{"id": "C115", "title": "Only worlds are loaded as worlds", "statement": "Loading an archive whose first object is not a world throws an error.", "quantifier": "every archive", "why_tests_cant": "All contents of archives.", "anchors": ["src/World.cc: World::load, World::save, determine_world_version", "src/Mesh.cc", "src/world/BspTree.cc"]}
{"id": "C116", "title": "Loading an archive ends", "statement": "Opening an archive and reading its object ends, with objects or an exception, whatever the bytes are.", "quantifier": "every file, every game version, all classes of objects", "why_tests_cant": "All byte sequences, among them all truncations and corruptions; non-termination is not observable in a test.", "anchors": ["src/Archive.cc: ReadArchive::from, ReadArchive::read_object, ReadArchive::skip_object", "src/archive/ArchiveAscii.cc", "src/archive/ArchiveBinary.cc", "src/archive/ArchiveBinsafe.cc", "src/vobs", "src/World.cc: World::load"]}
{"id": "C117", "title": "Loading an archive has no undefined behaviour", "statement": "Opening an archive and reading its object returns objects or throws; it never reads outside of a table, dereferences a null object, overflows a number conversion or leaves an object that was not entered.", "quantifier": "every file, every game version, all classes of objects", "why_tests_cant": "All byte sequences; undefined behaviour need not show.", "anchors": ["src/Archive.cc: ReadArchive::from, ReadArchive::read_object, ReadArchive::skip_object", "src/archive/ArchiveAscii.cc", "src/archive/ArchiveBinary.cc", "src/archive/ArchiveBinsafe.cc", "src/vobs", "src/World.cc: World::load"]}
{"id": "C118", "title": "Script members are bound to the fields of their names", "statement": "After the bundled script classes are registered, every member of such a class is bound to the C++ field of the same name, with enough elements of the right type, and no two members share storage: a member of an object is what was last written to it, whatever is written to other members.", "quantifier": "every script and every history of writes to members of the bundled classes", "why_tests_cant": "All scripts, all pairs of some seven hundred members and all histories of writes.", "anchors": ["src/addon/daedalus.cc: register_all_script_classes and the register_ functions", "include/zenkit/addon/daedalus.hh", "include/zenkit/DaedalusScript.hh: DaedalusScript::register_member"]}
{"id": "C119", "title": "Registering the bundled script classes", "statement": "Registering the bundled classes succeeds for every script that declares the members of the classes it declares, ends with success or an exception for every script, and changes no symbol other than members of those classes and the classes themselves.", "quantifier": "every script", "why_tests_cant": "All symbol tables.", "anchors": ["src/addon/daedalus.cc: register_all_script_classes and the register_ functions", "include/zenkit/addon/daedalus.hh", "include/zenkit/DaedalusScript.hh: DaedalusScript::register_member"]}
{"id": "C120", "title": "Files of another kind are refused", "statement": "Loading a font whose first line is not \"1\", a texture that does not begin with ZTEX or whose version is not 0, an archive whose first line is not \"ZenGin Archive\", whose version is not 1 or whose header lacks one of its lines (version, saveGame, END, number of objects), or mounting a file archive without one of the three known signatures throws the library's exception for broken files and gives no object.", "quantifier": "every file of any content and length up to the size of the address space", "why_tests_cant": "the files that are not of a kind cannot be enumerated; a reader may accept a wrong first byte, a longer word or a line that only resembles the expected one", "anchors": ["src/Font.cc: Font::load", "src/Texture.cc: Texture::load", "src/Archive.cc: ArchiveHeader::load, ReadArchive::from", "src/archive/ArchiveAscii.cc: ReadArchiveAscii::read_header", "src/archive/ArchiveBinary.cc: ReadArchiveBinary::read_header", "src/Vfs.cc: Vfs::mount_disk"]}
{"id": "C121", "title": "Loading fails only with the library's own exceptions", "statement": "Whatever the bytes are, a failing load of an asset throws an exception derived from zenkit::Error, so that a caller who catches zenkit::Error handles every broken file.", "quantifier": "every file of any content loaded as a font, texture, skeleton, animation, tree, mesh, model, archive or world", "why_tests_cant": "needs a look at every call of the C++ library on bytes of the file; the inputs that make one of them throw are rare", "anchors": ["include/zenkit/Error.hh: Error", "src/Archive.cc: ArchiveHeader::load", "src/archive/ArchiveAscii.cc: ReadArchiveAscii", "src/world/WayNet.cc: WayNet::load", "src/Mesh.cc: Mesh::load"]}
{"id": "C122", "title": "Chunks of unknown types are passed over", "statement": "In the formats made of chunks (skeletons, animations, meshes, BSP trees, multi-resolution meshes, soft-skin meshes, model meshes, morph meshes and compiled model scripts), a chunk of a type the format does not know changes nothing: loading from its start is loading from its end, wherever it stands and whatever it holds.", "quantifier": "every type of chunk outside the format's list, every content below 4 GiB, every place in the file and every rest of the file", "why_tests_cant": "there are about 65500 unknown types, any content and any place", "anchors": ["include/zenkit/Stream.hh: read_chunked", "src/ModelHierarchy.cc: ModelHierarchy::load", "src/ModelAnimation.cc: ModelAnimation::load", "src/Mesh.cc: Mesh::load", "src/world/BspTree.cc: BspTree::load", "src/MultiResolutionMesh.cc", "src/SoftSkinMesh.cc", "src/ModelMesh.cc", "src/MorphMesh.cc", "src/ModelScript.cc: ModelScript::load_binary"]}
{"id": "C123", "title": "Mesh sections written by other tools are read as stored", "statement": "A mesh file's materials are read whatever further members follow those the library knows, each by the game its version names; an object of another class among the materials makes loading fail with a parse error; and lightmaps stored each with an image of its own come back with exactly that image, shared with no other lightmap.", "quantifier": "every list of materials of either game with any unknown members after each, every foreign object at any place of the list, every list of lightmaps with images", "why_tests_cant": "the library never writes such files, so that saving and loading cannot produce them, and their content is unbounded", "anchors": ["src/Material.cc: Material::load(ReadArchive&)", "src/Mesh.cc: Mesh::load (MATERIAL, LIGHTMAPS)", "src/archive/ArchiveBinary.cc: read_object_begin, read_object_end, skip_object"]}
{"id": "C124", "title": "A file whose end is missing is not loaded as if it were whole", "statement": "Loading a file of which the end is missing fails with an exception. In particular no load returns an object whose missing parts (pixels, glyphs, symbols, sections) are made up or never assigned.", "quantifier": "all texture, font, script and section-based files and all points at which they can be cut off", "why_tests_cant": "A test cuts a few files at a few places; whether a short read is noticed depends on every read of every loader, and the result of a load that does not notice it still looks like a valid object.", "anchors": ["src/Stream.cc: Read::read_any, ReadMemory::read", "src/Texture.cc: Texture::load", "src/Font.cc: Font::load", "src/DaedalusScript.cc: DaedalusScript::load, DaedalusSymbol::load", "include/zenkit/Stream.hh: zenkit::proto::read_chunked"]}
{"id": "C125", "title": "Log callbacks get exactly the messages of their level, as logged", "statement": "Once a host has set a level and a callback, the callback is called for every message logged at that level or a more severe one, in order, with the level, the name and the text that were logged, and for no other message; while it handles a message, the message it was given stays the same. This holds for messages logged by several threads as well.", "quantifier": "all histories of setting levels and callbacks and logging, all callbacks and all schedules of threads", "why_tests_cant": "A test logs a few short messages from one thread; messages from callbacks and from several threads depend on the schedule.", "anchors": ["src/Logger.cc: Logger::logv, Logger::log, Logger::set, Logger::set_default, Logger::use_logger, zk_global_logger_buffer", "include/zenkit/Logger.hh: LogLevel"]}
{"id": "C126", "title": "A file opened by its path reads as the file and is released", "statement": "Opening a path to read either throws an exception or gives an object through which exactly the bytes of the file are read, also after the object was moved; destroying it releases everything that was opened for it, and nothing that other objects use.", "quantifier": "all histories of opening, moving and destroying mapped files, all files and all failures of the operating system", "why_tests_cant": "Failures of the system (no memory for the mapping, a directory instead of a file) are hard to provoke, and leaks and use after release show only in histories.", "anchors": ["src/MmapPosix.cc: Mmap::Mmap, Mmap::~Mmap", "src/MmapWin32.cc: Mmap::Mmap", "src/Stream.cc: ReadMmap, Read::from", "src/Vfs.cc: Vfs::mount_disk"]}
{"id": "C127", "title": "What is read does not depend on where it is read from", "statement": "The same bytes give the same results and end the same way whether they are read from memory, from a FILE or from a std::istream.", "quantifier": "all programs that read, seek, ask for the position and for the end; all data; file streams and string streams", "why_tests_cant": "Tests read sound files from memory or from a file on disk; the differences lie in the state of a stream after a short read, at its end and behind it, for every program using it.", "anchors": ["src/Stream.cc: ReadFile, ReadStream, ReadMemory, Read::read_line_then_ignore", "src/Internal.hh: proto::read_chunked", "src/ModelHierarchy.cc: ModelHierarchy::load"]}
{"id": "C128", "title": "What is written does not depend on where it is written to", "statement": "A program that writes leaves the same bytes and gets the same answers whether it writes to a vector, a FILE or a std::ostream; a write that fails is reported.", "quantifier": "all programs that write, seek and ask for the position; all devices, with or without room", "why_tests_cant": "Tests write to a vector or to a file that can be opened on a disk that is not full.", "anchors": ["src/Stream.cc: WriteFile, WriteStream, WriteDynamic, Write::to", "src/Internal.hh: proto::write_chunk", "src/ModelHierarchy.cc: ModelHierarchy::save"]}
{"id": "C129", "title": "Creating a script instance binds it and leaves the machine as it was", "statement": "Creating an instance for a symbol of a script is accepted exactly if the symbol is an instance whose class is registered for the host's type; the symbol is then bound to it, and the instance knows its symbol and type. The constructor runs with the new instance as the current one and as SELF; whether it returns or throws, afterwards the current instance and SELF are what they were. Classes that are not registered are refused.", "quantifier": "every script, symbol, host type, machine state, constructor and way it ends", "why_tests_cant": "Tests create a few instances of registered classes whose constructors return; that the machine is restored for every constructor, and that every unregistered class is refused, ranges over all scripts and states.", "anchors": ["include/zenkit/DaedalusVm.hh: allocate_instance, init_instance", "src/DaedalusVm.cc: init_opaque_instance, unsafe_call", "include/zenkit/DaedalusScript.hh: registered_to"]}
{"id": "C130", "title": "Functions the host did not register leave the stack balanced", "statement": "If a host registers a default for the functions it does not implement, a call to such a function takes exactly its arguments from the stack, leaves what is below alone, pushes one default value of the return type if the function returns something, and tells the host, whatever the types of the arguments and the result are and however the arguments came to the stack.", "quantifier": "every script, function, argument list, stack and host callback", "why_tests_cant": "Tests call a few missing functions; that every signature is balanced for every stack ranges over all scripts and states.", "anchors": ["src/DaedalusVm.cc: register_default_external, pop_reference"]}
{"id": "C131", "title": "An error says what failed, where and why", "statement": "An error of the library holds the kind of resource, the context and the cause it was made with, and its message names them; an error that was caused by others, at any depth, repeats what each of them said.", "quantifier": "every kind, context and chain of causes", "why_tests_cant": "Tests look at the message of a few errors; chains of causes have any length and the texts any content.", "anchors": ["src/Error.cc: ParserError", "include/zenkit/Error.hh: Error::what, ParserError::cause", "src/archive/ArchiveBinsafe.cc: read_vec2, read_mat3x3, ensure_entry_meta"]}
{"id": "C132", "title": "Assignments change what they name and nothing else", "statement": "An assignment instruction of a script takes its target and its value from the stack and stores the value in the element the target names (of the instance it was named with), exactly as the host's setter would, with the same errors; compound assignments store what the operator yields for the old value and the operand, division by 0 throws before anything is stored; every other element, variable and instance reads as before, and temporary strings become usable again.", "quantifier": "every state, target, value, kind and assignment instruction; every other element", "why_tests_cant": "All states, all pairs of elements.", "anchors": ["src/DaedalusVm.cc: exec (MOVI, MOVVF, MOVF, MOVS, ADDMOVI, SUBMOVI, MULMOVI, DIVMOVI, MOVVI), pop_reference, set_int, set_float, set_string"]}
{"id": "C133", "title": "Pushes and access traps", "statement": "A push instruction puts exactly the literal or the reference to the named element of the current instance on the stack and changes nothing else, or throws and changes nothing if the stack is full or the symbol does not exist; every access of a script to a symbol with an access trap calls the host's trap instead; gmovi makes the symbol's instance the current one.", "quantifier": "every state, instruction, symbol and host trap", "why_tests_cant": "All states and symbols.", "anchors": ["src/DaedalusVm.cc: exec (PUSHI, PUSHV, PUSHVI, PUSHVV, GMOVI), register_access_trap", "include/zenkit/DaedalusScript.hh: DaedalusSymbolFlag::TRAP_ACCESS"]}
{"id": "C134", "title": "Enumerating the instances of a class", "statement": "Enumerating the instances of a class by its name calls the callback exactly once, in the order of the script, for every instance declared in the script whose class is that one, where the class of an instance is found as when instances are created; for a name that does not exist it is not called.", "quantifier": "every script and name", "why_tests_cant": "All symbol tables: any mixture of classes, prototypes and instances.", "anchors": ["src/DaedalusScript.cc: enumerate_instances_by_class_name", "include/zenkit/DaedalusVm.hh: allocate_instance"]}
{"id": "C135", "title": "Stack traces", "statement": "Printing a stack trace, as the virtual machine does when a script fails, changes nothing and always succeeds, so that the host gets the error of the script; a value on the stack that a script can read can be printed.", "quantifier": "every state of the machine that a host can reach", "why_tests_cant": "All stacks, contexts and instances.", "anchors": ["src/DaedalusVm.cc: print_stack_trace, exec"]}
{"id": "C136", "title": "The lenient exception handler", "statement": "With the library's lenient exception handler an error in an instruction costs only that instruction: execution goes on with the next one, an instruction that should have given a value gives 0, the stack is as deep as if it had succeeded, and no error of the script reaches the host.", "quantifier": "every state of the machine, instruction and script error", "why_tests_cant": "All instructions and stacks, including full ones and operands of the wrong kind.", "anchors": ["src/DaedalusVm.cc: lenient_vm_exception_handler, exec"]}
{"id": "C137", "title": "Growing symbols", "statement": "Growing a symbol by some elements keeps the elements it had, adds elements that are 0 or empty, and changes nothing else; symbols without values of their own (instances, members of classes) are refused.", "quantifier": "every symbol and number of elements", "why_tests_cant": "All lengths and values.", "anchors": ["src/DaedalusScript.cc: DaedalusSymbol::grow"]}
{"id": "C138", "title": "A script that cannot loop ends, and code that runs past its end is an error", "statement": "Calling a function of a script whose control flow has no way round ends, with a result or an error, after no more instructions in sequence and nested calls than the longest way through the code; if it returns, execution goes on where it was and the calls in progress, the code and the function addresses are as before. Execution that reaches the end of the code without a return stops with an error.", "quantifier": "every script, every code and entry address, every host whose functions end and which has no exception handler, every state of the machine", "why_tests_cant": "Which instruction is executed next depends on the data; no set of scripts covers all control flows, and a test that does not end cannot be told from a slow one.", "anchors": ["src/DaedalusVm.cc: unsafe_call, exec, jump, push_call, pop_call", "src/DaedalusScript.cc: DaedalusScript::instruction_at, DaedalusInstruction::decode", "src/Stream.cc: ReadMemory"]}
{"id": "C139", "title": "Dialogue choices", "statement": "The choices of a dialogue (IInfo) are shown newest first: add_choice puts the new choice in front of the others and keeps their order, remove_choice(i) takes away exactly the i-th choice shown, and after any sequence of calls the dialogue shows the choices that were added and not removed; an index at which there is no choice does no harm.", "quantifier": "every sequence of add_choice and remove_choice calls on a dialogue, every text, function and index", "why_tests_cant": "the order and the identity of the choices depend on the whole history of calls", "anchors": ["include/zenkit/addon/daedalus.hh: IInfo, IInfoChoice", "src/addon/daedalus.cc: IInfo::add_choice, IInfo::remove_choice"]}
{"id": "C140", "title": "Comparing values", "statement": "operator== of colors, polygon flags, font glyphs, animation samples, vectors, quaternions, matrices and trigger targets holds exactly between values with the same contents: floats that are the same number, everything else identical. It is symmetric and transitive, every value is equal to itself (so that a value loaded twice from one file compares equal), and equal values are stored as the same bytes.", "quantifier": "every pair of colors, polygon flags, glyphs, samples, matrices and targets, with any bits in their floats, what is not a number and both zeros included", "why_tests_cant": "there are 2^32 floats per component, and the exceptional ones come straight from files", "anchors": ["src/Mesh.cc: PolygonFlagSet::operator==", "src/Font.cc: FontGlyph::operator==", "src/ModelAnimation.cc: AnimationSample::operator==", "include/zenkit/Misc.hh: Vec2, Vec3, Vec4, Color, Quat, Mat3, Mat4 operator==", "include/zenkit/vobs/Trigger.hh: VTriggerList::Target::operator=="]}
{"id": "C141", "title": "Mipmap dimensions describe the data", "statement": "For every loaded texture and every mipmap level it has, mipmap_width(level) and mipmap_height(level) are the sides of the image that data(level) holds and as_rgba8(level) decodes, and data(level) has exactly the bytes of an image of that size in the texture's format; a level the texture does not have is reported as an error.", "quantifier": "every texture file that loads, every format, width, height, number of levels and level", "why_tests_cant": "the sizes depend on all four numbers; the levels below one pixel appear only for some shapes", "anchors": ["include/zenkit/Texture.hh: Texture::mipmap_width, Texture::mipmap_height, Texture::data", "src/Texture.cc: _ztex_mipmap_size, Texture::load, Texture::as_rgba8"]}
{"id": "C142", "title": "Members kept by the host are reached unchanged", "statement": "Reading or storing a member of a transient instance (an instance whose class overrides the member accessors) calls the host's function with the same symbol, the same index and the same value, and returns or throws what it does; accesses of the wrong type or beyond the element count throw before the host is asked; symbols that are not members never reach the host. So with any host that keeps what it is given, after any sequence of stores every element of every member reads as the last value stored there. An instance that has been bound to a script symbol is not dispatched to the host any more: every member access throws unless the member is registered for its class.", "quantifier": "every host implementation and state, every symbol, index and value, every sequence of stores", "why_tests_cant": "the host is user code, so the claim is over all implementations, and over all sequences of stores at all 16-bit indices", "anchors": ["include/zenkit/DaedalusScript.hh: DaedalusTransientInstance", "src/DaedalusScript.cc: DaedalusSymbol::get_int, get_float, get_string, set_int, set_float, set_string"]}
{"id": "C143", "title": "An index reaches the component it names", "statement": "Indexing a vector, colour, quaternion or matrix with i below its number of components reads, or stores to, its i-th component and no other; indexing a matrix by column and row gives that element and transposing exchanges the two indices.", "quantifier": "every value of each type, every index below its size, every stored value", "why_tests_cant": "the values and stored bits range over all floats; out-of-object accesses usually look right in a test", "anchors": ["include/zenkit/Misc.hh: Vec2, Vec3, Vec4, Color, Quat, Mat3, Mat4 (operator[], pointer, transpose)"]}
{"id": "C144", "title": "Products of colours", "statement": "Multiplying colours, or a colour by a number, multiplies each channel: products commute and associate, one is neutral, a factor above one never darkens a channel and white leaves a colour as it is.", "quantifier": "every pair and triple of colours, every factor", "why_tests_cant": "256^4 colours per operand", "anchors": ["include/zenkit/Misc.hh: Color::operator*"]}
