# Formal model of GothicKit/ZenKit in Rocq — design

## 1. Approach

* `/repo` is read as text. Each modelled C++ function becomes a total, computable Gallina function with a comment citing
  file and lines. Undefined behaviour, exceptions, process termination and non-termination are *distinct outcomes* of
  the model (`Throw`, `Undef`, `Fuel`), never a normal-looking value.
* Bytes are `Byte.byte`; byte strings and C++ strings are `list byte`. Unsigned machine integers are `N` with explicit
  `mod 2^k`; signed ones are `Z`. Floats are their 32-bit patterns (`N`): the library moves them, it rarely computes.
* Model files (`M*.v`) contain definitions only; `S*.v` are the small specifications; `L*.v` hold lemmas and proofs;
  `Properties*.v` hold only the property theorems (closed by `exact`), their examples and `Print Assumptions`.
* A claim that is false of the code gets a theorem `..._refuted` with a concrete witness executed by the kernel
  (`vm_compute`), plus the strongest true version. Refutations are listed under "Findings".

## 2. Layers

1. Bytes and streams (`Stream.hh`, `Stream.cc`): memory reader, growable and fixed writers, lines, chunks, zipped reader.
2. Small values: matrices, dates, boxes.
3. Virtual file system and the VDF container.
4. Archives: three encodings under one entry interface; object framing; object cache.
5. Archive classes: every `load`/`save` pair as a reader program against an entry list.
6. Binary formats: font, hierarchy, BSP tree, mesh, texture, DDS, model script tokens.
7. Daedalus: script container, symbols, opaque instances, virtual machine.

## 3. Plan per property

| id | model | proof |
|----|-------|-------|
| C01, C09, C10 | reader = function on (data, cursor); writer = function on (buffer, cursor) | compositional relations `emits w bs`, `parses r bs v`; induction over the list of typed values / box tree |
| C02–C04 | operation lists over the concrete reader/writers, size arithmetic mod 2^64 | refinement to cursor-over-array, sparse file, bounded region; induction over histories |
| C05 | `read_line_then_ignore` as recursion over the remaining data | induction over the string |
| C06, C07 | `read_chunked` with an arbitrary callback (a function parameter), fuel = bytes left | induction over the chunk list; measure on the cursor |
| C08 | `ReadZipped` with cache, block table; `mz_compress`/`mz_uncompress` are parameters with an inversion hypothesis | invariant (cursor, block) and refinement to the plain reader |
| C11 | box computation over `Z`/`Q`-valued coordinates | refutation by witness; positive theorem for boxes with a positive corner per axis |
| C12–C18, C23 | tree of named nodes, directories as ordered lists, functions as in `Vfs.cc` | order lemmas, invariants by induction over op histories, path-level specification |
| C19–C21 | `save_internal` producing bytes, `mount_disk` parsing bytes, fuel for directory loops | round trip by induction on the tree with catalog index arithmetic; refutations for empty directories, etc. |
| C22 | bit packing | arithmetic; calendar conversion by the C library is a parameter |
| C24 | the two literal tables | finite check lifted by `forallb_forall` |
| C25–C28, C30, C31 | per-format byte encoders/decoders of entries and object frames | `parses`/`emits` per entry kind, induction over entry lists |
| C29 | heap of objects, writer cache, reader cache | graph isomorphism by induction on the writer's traversal |
| C32–C41 | each class: record, `save : record -> list entry`, `load : reader program` | run of `load` on `save` output; generic lift to every format |
| C42 | sort + lower_bound | sortedness; refutation for absent names |
| C43–C47, C49, C50 | byte-level load/save | compositional round trip; refutations |
| C48 | loop of `triangulate` | equality with an index-set specification |
| C51–C54 | size function with 32-bit wrap, pixel loops, DDS writer | arithmetic, induction on the pixel count |
| C55 | tokenizer over memory reader with fuel | refutations by a stuck-state lemma valid for all fuel; progress theorem under newline-terminated input |
| C56, C67–C70 | decoder, symbol table | case analysis, induction |
| C57, C58, C65 | symbol storage with checks; layout algorithm | get/set laws; interval arithmetic by induction on members |
| C59–C64, C66 | VM state (stack array, call stack, temp strings, symbols, pc) and `exec` for every opcode | invariants over steps; refutations |
| C71 | corners of an oriented box over real-valued coordinates | bounds and attainment by cases on signs |
| C72, C73, C76, C77 | script calls: parameters, returns, externals, refused operations | step lemmas composed over a call; frame conditions |
| C74, C75 | script container bytes; member registration checks | round trip; case analysis |
| C78–C83 | object graphs and remaining archive classes as reader/writer programs | graph simulation; run of `load` on `save` output |
| C84, C85 | loaders of archives written by anyone | invariants of every successful load |
| C86 | save-state members and their load order | frame lemmas per member |
| C87–C90 | fonts, skeletons, textures, DDS | totality of loaders; bit-level header lemmas |
| C91–C93 | BSP trees and meshes on arbitrary bytes | measures on the cursor; witnesses |
| C94–C97 | mesh, model, morph and animation formats as byte layouts | layouts read back by induction over chunks; invariants of loads; witnesses |
| C98–C102 | grammar and lexis of model scripts; compiled chunks; parser with fuel | parser follows every derivation of the grammar; measure on the cursor for termination; witnesses |
| C103–C110 | a disk (names to directories and files), the steps of a save, crashes between and within steps | effect of each step on each name; invariant of the steps under every crash; witnesses |
| C111–C115 | `World` with mesh and BSP tree: reading and writing a raw section inside an archive, finding the game, skipping | the node-tree laws of archives with raw bytes as a leaf; laws of mesh, BSP tree and classes composed; witnesses |
| C116–C117 | the archive readers and the `load` of every class on arbitrary bytes | a logic of programs (for text archives with the balance of object begins and ends left in the file): every read moves forward or throws, every opened object lies within its parent, so depth and rounds are bounded by the length of the file; case analysis over all classes; witnesses |
| C118–C119 | the tables of `addon/daedalus.*`: fields with the layout of the ABI, registrations in order | registrations in a row: invariant of the symbols touched; fields of a layout are apart; the tables checked for duplicates by computation |
| C120 | the readers of headers: `font_load`, `tex_load`, `head_load`, `objects_header`, `mount_disk` | the first line of any bytes as a function of the bytes; lines of the header read one after the other; the first check that fails |
| C121 | all loaders | for a set of exceptions closed under the reader's own: by recursion on the reader, every throw is in the set; witnesses for the foreign ones |
| C122 | `read_chunked` and the callbacks of nine formats | a chunk of an unknown type is one turn of the loop that keeps the object; fuel left over does not matter |
| C123 | `mat_load`, `own_lightmaps` | the bytes of a section in a small specification; the reader run over them, by induction over the list |
| C124 | `rd_fixed`, `tex_load`, `font_load`, `load_script`, `read_chunked` | a relation between reading the cut data and the data filled up with zeros, kept by every reader; readers that never fail, by induction |
| C125 | `log`, `log_run`, `schedule` (MLogger.v) | callbacks as trees of looking and logging; induction over histories, an invariant over all schedules of threads |
| C126 | `map_open`, `map_move`, `map_close`, `map_run` (MMmap.v) | the operating system as a list of descriptors and mappings; an ownership invariant over all histories |
| C127 | `fs_step`, `is_step`, `rprog`, `prun` (MSource.v); `inside` (SSource.v) | programs as interaction trees run over three readers; a simulation between readers for programs that stay inside; chunk loop and lines by induction; code that only reads (`only_reads`, SSourceTex.v) and the texture loader (MSourceTex.v) by induction over the program |
| C128 | `fw_step`, `os_step`, `wprog`, `qrun` (MSink.v); `stays` (SSink.v) | the same for writers; a simulation with a growing buffer |
| C129 | `allocate_instance`, `init_instance`, `init_opaque_instance` of MVm; SInst states bound symbols, classes above a symbol and what else stays | inversion of each function; a constructor that throws and unregistered classes are refuted. |
| C130 | `default_external` of MVm | induction over the parameters with the effect of one pop; results by case on the type. Functions and instances by value are refuted. |
| C131 | `error_type`, `error_context`, `error_cause`, `error_cause_context`, `what` (MError.v); `occurs`, `origin` (SError.v) | induction over the chain of causes |
| C132 | assignment instructions of MVm, `target`/`operand` in SAssign | step equals the host's setter on the state with two values taken; last-write lemma of C57 for what is read afterwards |
| C133 | push instructions, GMOVI and access traps of MVm | case analysis of the instruction; refuted for elements of trapped arrays |
| C134 | `enumerate_instances` (MDaedalus.v), `declared_as`, `shallow` (SEnum.v) | induction over the symbol table with the prototypes found so far; refuted for deep and late prototypes |
| C135 | the existing stack trace of the machine (MVm) | case analysis over every frame, call and global: success iff a declarative condition on the state; reachable states where it throws or follows a null pointer |
| C136 | the existing lenient handler and exec (MVm) | case analysis over the instruction, from the theorems about continuing (C69); full stack by induction over pushes |
| C137 | the existing grow (MDaedalus) | elements of an extended list, for the three kinds of values; a member of a loaded class as counterexample |
| C138 | fetch, exec, run, unsafe_call of the script machine | Every primitive of the machine leaves place, calls, code and addresses alone (proved one by one); induction on the fuel with a numbering of addresses; a loop invariant for scripts that never end |
| C139 | `IInfo::add_choice` and `remove_choice` as operations on the vector of choices, histories of calls | induction on the history with the time at which each shown choice was added; the removal of a missing choice is `Undef` |
| C140 | the comparison operators, with IEEE-754 comparison of floats on their bits | floats: the exact value as a multiple of 2^-149 is injective on bits but for the zeros; lists of floats by induction; counterexamples: a glyph with a NaN, the two zeros |
| C141 | `mipmap_width`, `mipmap_height`, `data` on loaded textures | the invariant of loaded textures (sizes of all levels) and the lemmas on sizes of C51; the levels below one pixel for every texture that has them |
| C142 | the six accessors with a context that is absent, in memory or a host (any state, any functions) | case analysis; induction on the run of stores for a host that keeps what it is given |
| C143 | objects as lists of fields with the field the pointer is to | case analysis on the index |
| C144 | channels as bytes, products modulo 256 | modular arithmetic |

## 4. Trusted base

* Coq 8.16.1's kernel (and `vm_compute`).
* `Print Assumptions` of every property theorem is printed under it in `Properties*.v`; see section 6.
* The correspondence between `/repo` and the model is by reading; section 5 says what is and is not modelled.

## 5. Modelled / not modelled

Modelled (every definition cites the lines it models; simplifications are said there):

| model file | code |
|---|---|
| MBase, MStream | bytes, machine integers; `Stream.cc`/`.hh`: memory reader, growable and fixed writers, lines, chunks |
| MZipped | `ReadZipped`, `Write::to_zipped` (`Stream.cc:501-661`); the compression library is a parameter |
| MBoxes | `Date.cc`, `Boxes.cc` |
| MVfs | `Vfs.cc`, `Vfs.hh`, name comparison and the DOS time of `Misc.cc`; calendar conversion is a parameter |
| MDaedalus, MVm | `DaedalusScript.cc`, `DaedalusVm.cc` and headers; host callbacks are parameters |
| MAddon | `addon/daedalus.cc`, `addon/daedalus.hh`: the registration tables and the layout of the classes (x86-64 ABI) |
| MText, MArchive, MClasses | `Archive.cc`, `archive/*.cc`, `Object.hh`: the three encodings, headers, object frames, the object caches |
| MVob, MVobs, MNpc, MCutscene, MMaterial, MWorld, MLib | `vobs/*.cc`, `CutsceneLibrary.cc`, `Material.cc`, `world/WayNet.cc`, `world/VobTree.cc`, `World.cc:73-247` |
| MLevel | `World.cc:10-247` with the mesh and BSP tree: `World::load`, `World::save`, detection of the game; outside of save games |
| MSave | `SaveGame.cc:83-259` (the state, not the directory) |
| MModel, MTexture, MBsp, MMesh | `Font.cc`, `ModelHierarchy.cc`, `Texture.cc`, `addon/texcvt.cc`, `world/BspTree.cc`, `Mesh.cc` |
| MMrm | `MultiResolutionMesh.cc`, `SoftSkinMesh.cc`, `ModelMesh.cc`, `Model.cc`, `MorphMesh.cc`, `ModelAnimation.cc`; the float arithmetic of animation samples is a parameter |
| MScript | `ModelScript.cc`, `ModelScriptDsl.cc`; locations and messages are left out |
| MSaveGame | `SaveGame.cc:251-386`: the directory of a save game, over a file system of directories and files (paths are POSIX paths; no symbolic links, no permissions, no device errors, no other process; a write can be torn by a crash, a removal or a new directory cannot) |
| MLogger | `Logger.cc`; the text of a message is given, the default callback only named |
| MMmap | `MmapPosix.cc`, `MmapWin32.cc`; the operating system is a list of descriptors and mappings |
| MSource | `Stream.cc`: `ReadFile`, `ReadStream`; lines, chunks and the skeleton loader as programs over any reader; the C library and iostreams as their standards describe them, without device errors |
| MSourceTex, MSourceFont | the texture loader (`Texture.cc`) and the font loader (`Font.cc`) as programs over any reader |
| MSinkTex | the savers of textures and fonts as programs over any writer |
| MSink | `Stream.cc`: `WriteFile`, `WriteStream`; `proto::write_chunk` and the skeleton writer as programs over any writer; an ostream has a bounded device; buffering is not modelled |
| MError | `Error.cc`, `Error.hh`: `ParserError` and its message; of the places that throw it those of `ArchiveBinsafe.cc` named in C131 |
| MTransient | src/DaedalusScript.cc: the accessors of symbols with transient instances as contexts |
| MIndex | Misc.hh: `operator[]` of vectors, colours, quaternions and matrices; products of colours |
| MTexDims | Texture.hh: `mipmap_width`, `mipmap_height` |
| MSourceBox | Boxes.cc: `OrientedBoundingBox::load`/`save` over any reader and writer |
| MCompare | `operator==` in Misc.hh (Vec2, Vec3, Vec4, Quat, Mat3, Mat4, Color), Font.cc, ModelAnimation.cc, Mesh.cc, vobs/Trigger.hh |
| MChoice | addon/daedalus.cc: `IInfo::add_choice`, `IInfo::remove_choice` |

Not modelled:

* a mesh in a world that is read as an object of a larger archive (`read_object`): that section is the outcome `Fuel` in
  MWorld, so no theorem says anything about it; world files are MLevel;
* the texts of most single errors and the formatting of log messages;
* memory exhaustion: allocation always succeeds;
* concurrency: the library starts no threads; only the logger, which is one for all threads, is modelled with threads that call it;
* floating-point arithmetic other than exact rational (boxes) and the text conversions of MText.

## 6. Assumptions reported by Coq

`Print Assumptions` says "Closed under the global context" for every theorem in `Properties*.v`: no axiom is used, not
even one of the standard library. (`coqchk` lists the seven fields of the module type `Coq.ssr.ssrunder.Under_rel`,
which Coq's own `ssreflect` files declare; no theorem depends on them.)

Hypotheses that stand for things outside the code appear in the statements: an inversion law for the compression
library (C08, C21), host callbacks (C59-C66), calendar conversion (C22), the iteration order of a hash table (C47: any
permutation), the two readings of the clock while an archive is written (`wenv`).

## 7. Findings

Claims that are false of the code. Each has a theorem `..._refuted` with a concrete input (names in MANIFEST.json) and,
beside it, what holds instead.

* **C02 The in-memory reader is a cursor over an immutable array.** False of the code for read lengths near 2^64 (the bounds check wraps): finding. Proved for lengths up to 2^63 and seek offsets that do not overflow ssize_t.
* **C04 The fixed-size writer stays in its buffer.** False of the code for seek offsets that overflow ssize_t: finding. Proved for offsets within 2^62.
* **C05 Lines round-trip.** Without skipping: proved. With skipping: false of the code when the data ends with a single NUL after the skipped whitespace: finding; proved otherwise.
* **C08 A compressed stream reads like the uncompressed data.** False of the code for out-of-range seeks and for empty contents: findings. Proved for non-empty contents up to 4 GiB - 8 KiB and histories whose seeks are in range; the compression library is a parameter with an inversion hypothesis.
* **C100 Source and compiled model scripts agree.** False of the code: finding. The arguments of some event tags and the empty-slot mark of ground sounds are only read from compiled scripts. Proved for all scripts without those.
* **C101 Loading a model script ends.** False of the code: findings. A comment at the end of a source and a text that is no number in a compiled list of frames are read for ever, and an event before the first animation of a compiled script is undefined behaviour. Proved: every source, correct or not, that ends with two line ends, a brace and two line ends is loaded or rejected; every compiled script without an event before the first animation and without lists of frames is loaded, whatever bytes follow the first animation.
* **C102 Reloading a model script.** False of the code: finding. Nothing is removed on loading, and the events of a compiled file go to the animations loaded first. Proved: exactly what a load adds to a used object (compiled: to one without animations).
* **C103 A saved game can be loaded again.** False of the code: finding. A game saved without a thumbnail gets an empty THUMB.SAV, and loading it throws. Proved for games with a thumbnail.
* **C104 Saving carries the other files over and touches nothing else.** False of the code: finding. When the target is the source under another spelling of its path, the target is emptied before anything is copied from it and the other worlds are lost. Proved for paths that are spelled alike or do not overlap (begins_with in SSaveGame.v).
* **C105 Other save games survive a crash.** False of the code: finding. A save game whose directory lies inside the target is removed. Proved for every crash point for all files that are not under the target.
* **C106 Saving in place loses nothing.** False of the code: finding. Files are truncated and written in place, so a crash leaves neither the old nor the new file. Proved: the files that the save does not write survive every crash.
* **C107 Files of a save game are found in any letter case.** False of the code: finding. The four fixed files are found in any case, but worlds are looked up by an exact name. Proved for the fixed files.
* **C108 A world is loaded by the name it was saved under.** False of the code: findings. The part of a name after its last dot is replaced, and the world named SAVEDAT overwrites the state. Proved for plain names.
* **C109 A save that returns has written its files.** False of the code: finding. After a load of a directory that does not exist, a save to it returns without an error and has written nothing. Proved whenever the target directory exists or is made.
* **C110 Loading does not depend on what the object held.** False of the code: finding. A directory without THUMB.SAV leaves the thumbnail of the previous game (and C86: missions and symbol values accumulate). Proved for save games with a thumbnail and objects without missions and symbol values.
* **C111 A saved world file comes back.** False of the code: finding. A Gothic 1 world whose header names the user XZEN is read with wide polygon indices though it was written with narrow ones, and comes back with other corners. Proved for all other worlds that the mesh, BSP-tree and object classes can hold (their findings, e.g. C32, C45 and C47, are in the conditions), in the three kinds of archives and both games.
* **C113 Loading a world replaces what it held.** False of the code: finding. The object trees of a file are added to those the world had (and C92: mesh corners and BSP nodes stay). Proved: the old trees have no other effect.
* **C114 Loading a world file ends.** False of the code: finding. The loop that passes over the chunks of the mesh does not notice the end of the file, so a file cut off before the last chunk of its mesh is read for ever. Proved: where that loop ends, it ends within as many rounds as there are bytes left, and in safe binary world files it is the only loop that may not end (for files with one world and no archive of text inside). Missing: binary and text world files, where C116 fails as well.
* **C116 Loading an archive ends.** False of the code: finding. A text archive cut off within an object that is skipped is searched for the object's end for ever; a binary world with a section of size zero is read again and again; a binary world with an object of no known class and a negative number of children has its children skipped for ever. Proved: opening every file ends, and reading every binary or safe binary archive without worlds ends within a depth of objects bounded by the length of the file; safe binary archives also with worlds (whose mesh, if any, is the subject of C114); text archives in which from every line on at least as many lines end objects as begin objects, without worlds and without code masters of saved games. Missing: text and binary worlds other than the witnesses.
* **C117 Loading an archive has no undefined behaviour.** False of the code: findings. An object version that is no 32-bit number (overflow in the conversion); a position outside of the key table of a safe binary archive; a null way point; a binary world without an end marker (its end is left twice); in text archives a color of three numbers and a matrix that is no hexadecimal number (variables are read that were never set). Proved, for all classes but those listed as `trusting`: binary archives; safe binary archives without ten decimal digits in a row; text archives whose colors and matrices are well formed and whose objects are closed; and the opening of text and binary archives. Missing: the `trusting` classes.
* **C121 Loading fails only with the library's own exceptions.** False of the code: every archive with a version beyond 31 bits makes std::stoi throw std::out_of_range, and a negative number of way points makes std::vector throw std::length_error: finding. Which exceptions each loader can throw is proved for every input. Missing: memory running out (std::bad_alloc) is not modelled.
* **C123 Mesh sections written by other tools are read as stored.** False of the code if the number of materials is 10 (mod 256), as in C47: the reader of the archive header skips a line feed: finding. Proved for every other number.
* **C124 A file whose end is missing is not loaded as if it were whole.** False of the code: reads behind the end return zeros and nobody looks. Every texture cut behind its header, every font cut behind its glyph count and every byte string at all as a script loads; the empty file loads as every kind made of sections: finding. Proved instead: what the missing part is replaced by (zeros, for textures and fonts), and that files ending before their kind is known are refused.
* **C125 Log callbacks get exactly the messages of their level, as logged.** False of the code: finding. There is one buffer for all messages: texts of more than 4094 bytes are cut, a callback that logs finds its own message overwritten, and threads race for the buffer. Proved: for every history with callbacks that do not log, the callback sees exactly the messages of its level; for every schedule without a race each thread's messages are seen as logged; no schedule races if only one thread logs messages that are shown.
* **C126 A file opened by its path reads as the file and is released.** False of the code: finding. A failed mmap gives MAP_FAILED, which is compared with null, so that a directory or a file that cannot be mapped is opened and reading it is undefined; the descriptor is lost if fstat fails; on Windows only the lower 32 bits of the size are used and a failed view is not noticed. Proved for every history: mappings are released exactly with their objects; with a system that maps every file that is not empty, objects read as their files after any moves.
* **C127 What is read does not depend on where it is read from.** False of the code: finding. A skeleton file whose end is missing is loaded from memory but never ends loading from a FILE or an istream; the end is noticed only after a read behind it; after a short read an istream gives nothing any more; positions behind the end differ. Proved: every program that stays inside the data computes the same from all of them, for a FILE also with short reads; every line has the same text; every saved skeleton is loaded from all of them; every program that only reads computes the same from all data, so that every texture file, whole or cut, is the same texture from all of them; so is every font file that has its first line and two characters more, and every tree of oriented boxes and every date, whole or cut.
* **C128 What is written does not depend on where it is written to.** False of the code: finding. Writing to a path that cannot be opened or to a full device reports success for every write and leaves nothing; behind the end a string stream fails where vectors and files are filled with zeros. Proved: every program that stays inside what it wrote leaves the same bytes and gets the same answers from all of them, given room; every skeleton, every texture, every font and every tree of boxes is saved as the same bytes.
* **C129 Creating a script instance binds it and leaves the machine as it was.** False of the code: finding. A constructor that throws leaves the current instance and SELF changed; a class that is not registered makes it use a null pointer, parents that go round make it hang. Proved: acceptance and binding, and that constructors that return leave both as they were.
* **C130 Functions the host did not register leave the stack balanced.** False of the code: finding. Arguments that are functions are not popped, results that are functions not pushed, and instances on the stack by value make the call throw. Proved: calls that succeed with other types are balanced and push one default value.
* **C131 An error says what failed, where and why.** False of the code: finding. The cause is copied as std::exception, so that what it said is lost from the field; a text with a NUL ends the message; three errors of the safe binary archive have the reason in the field for the kind (one for a missing comma). Proved: kind and context are held and named, and every message in a chain of causes is repeated, for texts without NUL.
* **C133 Pushes and access traps.** False of the code: finding. Array elements are pushed by another instruction, which does not look at the trap: accesses to elements other than the first go unnoticed. Proved: what every push does; that the trap is called instead of pushing for pushv and pushvi, and that nothing is pushed but what the trap pushes.
* **C134 Enumerating the instances of a class.** False of the code: finding. Instances of a prototype of a prototype, and instances that come before their prototype, can be created as instances of the class but are not enumerated. Proved: exactly which are enumerated, once each and in order; that only instances of the class are; that all are where prototypes are made from classes and come first.
* **C135 Stack traces.** False of the code: finding. A member on the stack is printed with the current instance and not with the one it was pushed with, so that a readable value makes the trace throw; a function variable without a function, and an instance that the host has not initialised, make it follow a null pointer. Proved: a trace changes nothing; exactly when it succeeds; that the error of the script then reaches the host.
* **C136 The lenient exception handler.** False of the code: finding. Where the stack is full the handler itself throws and the error reaches the host; an operator that fails with its first operand leaves one value more than one that succeeds. Proved: what happens after every script error; dividing by zero gives 0 in place of both operands.
* **C137 Growing symbols.** False of the code: finding. Members of classes are not refused, and a null pointer is read. Proved for all variables with values of their own; instances are refused.
* **C138 A script that cannot loop ends, and code that runs past its end is an error.** False of the code: finding. The machine does not stop at the end of the code: seeking behind the end is ignored and reading there gives zeros, which decode as additions, so a script whose last instruction is not a return runs for ever (until the program counter wraps to the beginning). Proved: if the control flow stays in the code and every step goes down in some numbering, a call ends within that number of instructions and leaves the machine where it was; a jump to itself never ends, the machine has no limit of its own. Hypothesis: the functions of the host end and do not move execution, no exception handler.
* **C139 Dialogue choices.** False of the code: finding. remove_choice with an index at which there is no choice, one behind the last included, is undefined behaviour for every dialogue. Proved for all histories: newest first, the removed choice and no other is gone, and the calls are defined exactly if every removal names a choice that is there.
* **C14 A directory that was made can be resolved.** False of the code for names that end in white space (made but never resolved): finding. Proved for all other paths.
* **C140 Comparing values.** False of the code: finding. A font file may hold coordinates that are not numbers, and the loaded glyph is then not equal to itself; glyphs with zeros of different sign are equal and stored differently. Proved for all values: equality is equality of the exact numbers and of all other members, symmetric and transitive, and a value is equal to itself exactly if all its floats are numbers.
* **C141 Mipmap dimensions describe the data.** False of the code: findings. Where one side of a texture that is not square would fall below one pixel, the loader keeps it at one but mipmap_width or mipmap_height report 0, and as_rgba8 gives no pixels; data() of a missing level throws in a noexcept function, which ends the program; from level 32 on the shift is undefined. Proved for every level at which both sides have a pixel, images below 4 GiB and, for compressed formats, sides of at most four or multiples of four.
* **C143 An index reaches the component it names.** False of the code: finding. A quaternion is declared w, x, y, z but its pointer is that of x: index 3 is beyond the object and no index reaches w. Vectors, colours and matrices are indexed as claimed.
* **C144 Products of colours.** False of the code: finding. Channels wrap modulo 256: doubling a channel of 128 or more darkens it, and multiplying by white negates every channel. The laws hold, and products that fit are exact.
* **C15 Creating a child makes exactly that child resolve.** False of the code for names that end in white space: finding. Proved for all other names.
* **C16 Remove removes exactly one entry.** False of the code for paths with a trailing slash and for paths that continue past a file: findings. Proved otherwise.
* **C17 Resolving any path is safe.** False of the code: every path that continues past a file ends the program: finding. Proved for all other paths.
* **C18 Mounting merges according to the overwrite policy.** False of the code for names that end in white space: finding. Proved for all other trees, under the reading of newer/older the header documents.
* **C19 A saved archive mounts as the same tree.** False of the code for trees with an empty directory (mounting never ends): finding. Proved for every tree whose directories are not empty, with names of 1 to 64 bytes not ending in white space, below 4 GiB.
* **C20 Mounting arbitrary bytes is safe.** False of the code in four ways: findings. Proved: mounting itself never does anything undefined, keeps the tree ordered, and every file node is inside its buffer or claims more than 4 GiB.
* **C21 A compressed archive mounts as the same tree.** False of the code for empty files and empty directories: findings. Proved for trees without them whose sound files do not look like compressed streams; the compression library is a parameter with an inversion hypothesis.
* **C23 Find finds.** False of the code for names that end in white space: finding. Proved for the name without trailing white space.
* **C26 Binary entries round-trip.** False of the code for enumerations of 256 and more (one byte is stored) and for strings with NUL or line ends: findings. Proved for all other entries (raw entries not empty).
* **C27 ASCII entries round-trip.** False of the code: bytes, words and matrices are never read back, integers of -10^9 and below cannot be written, raw bytes below 16 come back as others, and some floats below 16 come back as their neighbours: findings. Proved for all other entries; for floats: all finite ones of magnitude 16 or more, and all multiples of 1/64.
* **C28 Skipping an object lands after it.** False of the code in the safe binary format when a string entry looks like an object's first or last line: finding. Proved for all other content in all three formats.
* **C30 Archive headers round-trip.** False of the code for binary archives whose first object has a size with lowest byte 10: finding. Proved for all other archives of all formats.
* **C31 Reading an entry as the wrong type is detected.** False of the code where two kinds of entries share a type: findings. Proved for all readers that ask for another type than the stored one.
* **C32 The common part of world objects round-trips.** False of the code: a packed Gothic 2 object's animation mode is the presence bits of preset and name, its bias is shifted, unpacked objects store preset and names twice: findings. Proved for all objects the packing can hold.
* **C33 Triggers and movers round-trip.** False of the code: saving stores the flag bytes and ignores the booleans derived from them: finding. Proved for all triggers whose booleans agree with the flags, which includes every loaded trigger (C84).
* **C37 NPCs round-trip.** False of the code: Gothic 2 keeps only the first of the nine packed inventory strings, Gothic 1 only 50 script variables: findings. Proved for all other NPCs.
* **C38 Materials round-trip.** False of the code: in Gothic 2 the blend function is written as a byte and read as a boolean: finding. Proved for all Gothic 1 materials whose two vectors written as text are finite: nine significant digits are proved to be enough for every float, and necessary and sufficient for the vectors to survive is that they are finite.
* **C39 Way nets round-trip.** False of the code: a point with no edge that is not free is not stored, a point with an edge to itself is missing from the loaded list: findings. Round trip proved for all other way nets; membership after loading proved for any bytes whose edges have two ends.
* **C40 World-object trees round-trip.** Round trip of trees: proved. Dropping unsupported objects: false of the code in the safe binary format when the dropped object contains a string that looks like the end of an object: finding; proved for all other content, all three formats, any position of the dropped objects.
* **C41 Save-game state round-trips.** False of the code: the guild table is written in ASCII hexadecimal, in which a byte below 16 after a larger one comes back wrong; in Gothic 1 only one value of a symbol is saved, a symbol without values is undefined behavior, and the version fields of the metadata are dropped: findings. Proved for states whose entries can be written as text.
* **C42 Cutscene lookup is exact.** False of the code: a name that is not in the library gets the next larger block: finding. Proved for any bytes: the blocks are in order, and a name that is there is found.
* **C43 Fonts round-trip.** False of the code for names that are empty or start with white space (the version line is read with white-space skipping): finding. Proved for all other names, any glyph list.
* **C45 BSP trees round-trip.** False of the code: a tree without light points gets some from the bytes of the next section, childless inner nodes become leaves, Gothic 2 files drop the level of detail: findings. Proved: for both games every tree in pre-order whose inner nodes have a child and with a light point for each leaf comes back exactly.
* **C47 Meshes round-trip.** False of the code: finding. Saving for Gothic 2 takes the corners of the polygons from the list of triangles, so that a quad comes back with wrong corners and an untriangulated mesh is undefined behaviour; for Gothic 1 the normal axis 2 is lost; 10 (mod 256) materials are lost or misread, because the reader of the archive header skips a line feed. Proved: every other mesh (mesh_ok) whose file is below 4 GB comes back, for both games, any order of the image table, with images shared by the same lightmaps.
* **C49 Skinned and multi-resolution meshes round-trip.** False of the code, for every mesh: finding. The saver writes the size of the content four too large (and the soft-skin saver a wrong chunk type, the model-mesh saver no skin count and one chunk for all attachments): no saved file can be loaded. Proved for every mesh, both games. The loaders themselves are proved right against the format (C94).
* **C51 Mipmap sizes are consistent.** False of the code: 32-bit products wrap (size 0, growing sizes) and block-compressed images with sides not a multiple of four get too few blocks: finding. Proved when the exact size fits 32 bits and (for DXT) sides are at most 4 or multiples of 4.
* **C52 Pixel conversion is lossless where formats are.** False of the code for B8G8R8A8 (from two pixels on) and A8R8G8B8: finding. Proved for the other four 24/32-bit formats, through TextureBuilder::build and Texture::as_rgba8.
* **C53 A built texture returns the mipmaps it was given.** False of the code: the builder stores the levels in the opposite order of what data() expects: finding. Proved: the levels come back reversed; wrong sizes are refused.
* **C55 Model script tokens: termination and progress.** False of the code: finding. A comment or text cut off by the end of the file is read for ever, and a word or number at the end of the file is returned again and again. Proved for every script that ends with two line ends.
* **C57 Symbol reads return the last write.** False of the code: integer reads of float members are accepted and undefined, a context of another class is used, function symbols have no elements: findings. Proved: last write for every element and history on checked accesses, and the errors.
* **C59 The VM stack stays in bounds.** False of the code: a host call of a function with missing arguments moves the stack pointer below zero, and returning on a full stack writes past it: findings. Proved for every execution until one of the two happens.
* **C60 Script arithmetic is 32-bit arithmetic.** False of the code where the result is not representable (undefined behaviour): finding. Proved for all other operands and all operators.
* **C61 Calls return to the caller.** False of the code: a called function that pops too much takes the caller's values, and returns with stale frames: findings. Proved for every call during which no function reads below its own arguments.
* **C62 Constants are not modified by scripts.** False of the code: constants of instance type are assigned: finding. Proved for numbers, functions and strings, all instructions.
* **C63 Strings on the stack are what was pushed.** False of the code with more than 243 strings on the stack: finding. Proved for every history within that.
* **C64 Recursion preserves local variables.** False of the code for parameters and for many strings: findings. Proved for numeric, function and instance variables at every depth.
* **C68 Symbol lookup agrees with the table.** False of the code for stored names with lower-case letters and for duplicates: findings. Proved: the exact result of each lookup in every script that loads.
* **C69 Exception handlers decide how execution goes on.** False of the code: CONTINUE after an error inside a called function goes on inside it, printing the stack can replace the error: findings. Proved otherwise, for every state, error and handler.
* **C70 Function parameters and locals are found exactly.** False of the code for a function whose local variables are the last symbols of the table: finding. Proved for all others.
* **C71 The box enclosing an oriented box is the smallest one.** False of the code for boxes with only negative coordinates on an axis (the maximum starts at FLT_MIN): finding.
* **C72 Arguments of script calls reach the called function.** False of the code for recursive calls of functions whose local variables take less room than the arguments: finding. Proved for all others.
* **C73 The value a function returns is the value its caller gets.** False of the code for a local variable returned from a recursive call, which is returned by reference: finding. Proved: the caller gets the frame the function left.
* **C74 A compiled script loads as written.** False of the code for constant strings whose parent's lowest byte is white space: finding. Proved for all other scripts.
* **C75 Binding a C++ member to a script member is checked and exact.** False of the code: a registration that fails because of the type has already bound the class: finding. Proved: when it succeeds and what it then does.
* **C77 What the script machine refuses changes nothing.** False of the code: symbols of unknown types make the error message read outside a table, and a call refused because of a later argument leaves the earlier ones on the stack: findings. Proved for wrong argument counts and, with the eight types, for registrations.
* **C79 Code masters round-trip.** False of the code: Gothic 2 save games write the number of triggered slaves as an integer and read a byte: finding.
* **C80 Camera key-frames and lights round-trip.** False of the code: the pose of a key-frame comes back transposed, the ranges of an animated light leak into its colors: findings. Proved for symmetric poses and lights without range animation.
* **C81 Worlds of save games round-trip.** False of the code: Gothic 2 writes the spawn flags as an integer and reads a byte: finding. Proved for Gothic 1.
* **C86 Loading a save game replaces the state.** False of the code: missions and symbol values of the old state stay in front of the new ones: finding. Proved exactly what is left over.
* **C88 Loading a texture replaces the old one.** False of the code: old mipmaps stay in front: finding. Proved: exactly the mipmaps (and an unused palette) are kept, everything else is replaced.
* **C89 The DDS header describes the pixels the library decodes.** False of the code for all six 8-bit-per-channel formats (masks swapped) and for full green in R5G6B5: finding. Proved for A4R4G4B4 and for R5G6B5 without full green.
* **C90 Texture conversion is always defined.** False of the code (R5G6B5 from bright pixels, DXT building, palette decoding are undefined behaviour): finding. Proved: decoding any level of a loaded uncompressed, palette-free texture whose RGBA size fits 32 bits.
* **C91 Loading a BSP tree is safe.** False of the code: a node count smaller than the number of nodes leads to a dangling reference, and polygon ranges of leaves are not checked: findings. Proved: loading always ends; it returns or throws for every file without a TREE section, and for every file with one TREE section that announces enough nodes and whose leaves name polygons of the list before it, whatever the other sections hold.
* **C92 Loading a mesh or BSP tree replaces what the object held.** False of the code: finding. Polygon flags the other game has, corner indices, lightmaps, BSP nodes, leaves and sectors of the first load stay. Proved (C47_meshes_partial): loading into a mesh that has neither polygons nor lightmaps replaces everything a file holds.
* **C93 Loading a mesh is safe.** False of the code: findings. A lightmap with an image number outside the file's table is undefined behaviour, and a mesh with a cut-off text archive of materials is read for ever. Proved: loading ends on every file without the word that marks text archives, and returns or throws if there is no mark of safe binary archives either and the lightmaps name textures that exist; triangulation stays inside its lists (C48).
* **C94 Every file of the mesh, model and animation formats loads as what it holds.** False of the code for some animation events and for model meshes in which two attachments have the same name (the mesh of the next name is lost): findings. The reader of event strings skips white space after a line feed, which loses empty strings and bytes of the numbers that follow. Proved for all other layouts; the float arithmetic of animation samples is a parameter.
* **C95 Loading model meshes and animations is safe.** False of the code: findings. A mesh chunk before the chunk of names is undefined behaviour, and a multi-resolution mesh with a cut-off text archive of materials is read for ever. Proved for animations: every input returns or throws. Proved for multi-resolution meshes, soft skins and morph meshes below 4 GiB: without the marks of text and safe binary archives every input returns or throws; model meshes and models end without the mark of text archives.
* **C96 The lists of loaded meshes and animations fit together.** False of the code: finding. The number of samples is a 32-bit product that wraps, and parts in another order give missing weights and samples. Proved for every input: everything but those counts.
* **C97 Loading meshes and animations replaces what the object held.** False of the code: finding. Morph animations of the first load stay, loading a model mesh with attachments again is undefined behaviour, and alpha_test is kept if the file does not store it. Proved exactly what is kept; animations are replaced completely (C94_animations_partial).
* **C98 Model script sources load as what they say.** False of the code: findings. The arguments of seven kinds of event tags and the empty-slot mark of ground sounds are dropped; an animation without a block at the end of an enumeration swallows its brace; a parenthesis at the end of a quoted text is dropped; commands in capitals are taken for flags after a blend; empty lists of frames give 0. Proved for every other source: its text is read as what it says.
