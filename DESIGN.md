# Formal model of libolecf

Source: /repo (libyal/libolecf at the pinned commit), read as text, never built or run.
Model, specifications and proofs: /verif/rocq/theories, Coq 8.16.1, logical name `Verif`.

## Layout

| file | contents |
|---|---|
| `Base.v` | outcomes (`Ok`/`Err`/`Undef`/`NoFuel`), fixed-width integers, bytes, slices, byte orders, I/O |
| `Spec_*.v` | specifications, written without reference to the model functions |
| `M_*.v` | the model: one definition per C function, each citing file and lines |
| `L_*.v` | lemmas and proofs |
| `X_*.v` | concrete volumes, files, property sets and hosts, used by the cases beside the theorems |
| `P_*.v` | property theorems, each followed by `Print Assumptions` and a concrete case |

| model | source |
|---|---|
| `M_Header` | libolecf_file_header.c, signature check of libolecf_support.c |
| `M_Table` | libolecf_allocation_table.c |
| `M_Load` | libolecf_io_handle.c (tables and directory), libolecf_directory_entry.c |
| `M_Tree` | libolecf_directory_tree.c |
| `M_Stream` | libolecf_io_handle.c (stream reads), libolecf_stream.c |
| `M_Open`, `M_File` | libolecf_file.c |
| `M_Free` | allocation and release of directory entries, from open to close |
| `M_Mem` | libolecf_file_open_read and libolecf_file_close with all requests for memory, which can be refused, and all error paths |
| `M_PropMem` | libolecf_property_set_stream_get_set and libolecf_property_set_free likewise |
| `M_Api` | the public functions on files, items, property sets, sections and values as C programs call them, with pointers, freed memory and handles; on top of `M_File`, `M_Item`, `M_Prop` |
| `M_Item` | libolecf_item.c |
| `M_Prop` | libolecf_property_*.c |
| `M_Time` | pyolecf_datetime.c |
| `M_Mount` | olecftools/mount_*.c: names, paths and times |
| `M_WMount` | olecftools/mount_path_string.c and mount_file_system.c as built for Windows with wide characters |
| `M_CompObj` | libolecf_compound_object_stream.c |
| `M_Module` | pyolecf.c |
| `M_Fuse` | olecftools/mount_fuse.c, mount_file_entry.c, mount_file_system.c, mount_handle.c: the FUSE callbacks |
| `M_Export` | olecftools/export_handle.c |
| `M_Python` | pyolecf_integer.c, pyolecf_file_object_io_handle.c, pyolecf_stream.c (Python 3, 64-bit) |
| `M_Items` | pyolecf_file.c, pyolecf_item.c, pyolecf_items.c, pyolecf_codepage.c: programs of calls on a file object and the objects it gives |
| `M_PropFree` | libolecf_property_*.c: allocation and release |
| `M_Refs` | pyolecf_file.c, pyolecf_item.c, pyolecf_items.c, pyolecf_property_*.c: reference counts and the native memory behind the objects |
| `M_PyProp` | pyolecf_property_set_stream.c, pyolecf_property_set.c, pyolecf_property_section.c, pyolecf_property_sections.c, pyolecf_property_value.c, pyolecf_property_values.c, pyolecf_guid.c |
| `M_Info` | olecfinfo.c, info_handle.c |
| `M_InfoTool` | the same with requests for memory that can be refused, and main from the info handle to the exit status |
| `M_Fuzz` | ossfuzz/file_fuzzer.cc, ossfuzz/item_fuzzer.cc |
| `M_ExportMem` | olecftools/olecfexport.c, olecftools/export_handle.c and olecftools/log_handle.c with every allocation and release |
| `M_Dokan` | olecftools/mount_dokan.c, mount_file_entry.c, mount_handle.c as built for Windows: the Dokan callbacks |
| `M_Getopt` | olecftools_getopt.c (the replacement of getopt, used where the system has none) and the option loops of olecfinfo.c, olecfexport.c and olecfmount.c |
| `M_ExportTool` | olecfexport.c, log_handle.c and the log lines of export_handle.c: whole runs; the dots in a target path are not resolved, and a log appended to the source does not change what is read |
| `M_MountTool` | olecfmount.c main, the life of the mount handle (mount_handle.c, mount_file_system.c), mount_fuse_destroy: whole runs; FUSE and Dokan are a host that answers as it likes and calls the callbacks inside of its loop |

## How C is modelled

* Integers are `Z`. Fixed-width wrap (`u32`, `s32`, ...) is written where the C code can wrap and
  the property depends on it. A signed overflow is the outcome `Undef`, and so is an array access
  outside the array. `Err` is the return value -1. Loops use fuel; `NoFuel` is shown unreachable.
* Bytes are `Z` in 0..255; a file is a `list Z`.
* The I/O layer (libbfio) is a function `rd trace offset size` returning the bytes read or a failure;
  `trace` is the list of the reads so far, so two reads of the same range may behave differently. All
  theorems hold for every such function; theorems on contents assume `io_sound rd f` (a read of full
  length returns the bytes of `f`), theorems on success assume `io_total rd f` in addition.
  `io_bytes rd` says that what is read consists of bytes.
* Memory allocation never fails, except in `M_Mem` (open and close, C86), `M_PropMem` (property sets, C90), `M_InfoTool` (olecfinfo, C100)
  `M_Fuzz` (the fuzz targets, C101) and `M_ExportMem` (olecfexport, C102): elsewhere the failure paths are
  not modelled. What a tiny file
  can make the library allocate is stated for property sets (C52) and tables (C17) only.
  NULL-pointer argument checks of the API are not modelled.
* libcdata (list, tree, range list), libuna (string comparison), libfvalue, libcpath, libcfile are not
  in the repository. libcdata containers are modelled as lists with the documented behaviour
  (append, sorted unique insert, index access); the others are parameters of the model, and any
  assumption about them is a hypothesis of the theorem that uses it:
  * libuna comparison and decoding of paths: record `una`, hypothesis `una_ok` (no undefined
    behaviour), and for lookups that the comparison is equality of decoded names;
  * libuna codec of the mount tool: record `codec`, hypotheses in `Spec_Mount`;
  * libfvalue: record `fvlib`, hypotheses `lib_accepts` and `lib_decodes`;
  * libfvalue, libfguid and the UTF-8 decoder under the Python objects for property sets: record `proplib`,
    hypothesis `proplib_ok` (sizes agree with what is copied, GUIDs have 36 characters, ASCII is decoded);
  * libuna, libfvalue, libfguid, libfdatetime and libfole under olecfinfo: record `infolib`, hypothesis
    `infolib_ok` (what is copied is the text with an end, of the size that was asked for);
  * libuna and libclocale under the Python bindings, and PyUnicode_DecodeUTF8: record `pyenv`, hypothesis
    `pyenv_ok` (they return); CPython adds the length to a negative index before it calls the sequence;
  * libbfio over a Python file object: a read at an offset is a seek with SEEK_SET and a read;
  * libcpath, libcfile and the operating system for the export tool: record `host`; every call may
    fail, a failing write may have written part of its data.
* File objects: `M_File` assumes that the caller passes a handle that outlives the file object, and
  models the ownership flags, not the handle's own state.
* Debug output (`HAVE_DEBUG_OUTPUT`), notification, multi-thread locking (the code has none in this version), Windows-only code other than that of the mount tool are not modelled.

## Properties

The current status is in MANIFEST.json.

| id | what is modelled | how it is proved |
|---|---|---|
| C01 | `read_stream`, `read_buffer` | specification: relation "stream byte i is file byte at p" by following the chain; loop invariant on the read loop |
| C02 | same | induction on the request, each iteration succeeds |
| C03 | same | loop splitting: state after a prefix of the read is the state of a read started there |
| C04 | `read_at_offset`, `seek`, histories as lists of operations | the result depends on cursor only through the seek; invariant cursor >= 0 |
| C05 | histories | invariant by induction over the history |
| C06 | `read_buffer` | case analysis |
| C07 | all stream operations | case analysis |
| C08 | `seek_offset` with `Undef` on overflow | exact characterisation, including the undefined case |
| C09 | `read_stream` | two file-read oracles equal on the storage that applies give equal results |
| C10 | all table loading with `Undef` for out-of-bounds access, and reads | invariant: table length is a multiple of the entries per sector |
| C11 | loading functions, instrumented with a read counter | bounds by induction on fuel |
| C12-C15 | header parser | exact characterisation, encoder in both byte orders |
| C16 | signature check and open | both reduce to the first 8 bytes |
| C17-C19 | MSAT, SAT, SSAT loading | loop invariants; specification by concatenating the values of the named sectors |
| C20, C21 | directory chain | specification by slots of the chain |
| C22-C27 | directory tree creation over arbitrary link graphs | specification by reachability; invariant relating visited set and tree |
| C28-C30 | name and path lookup, comparison function as parameter | induction on the path |
| C31-C34 | file object as state machine | induction over histories |
| C35 | directory entry parser | exact characterisation |
| C36, C37 | mount path conversion, UTF-8 coder as parameter with round-trip assumption | induction over the string |
| C38-C40 | Python date conversions | specification by counting days in the Gregorian calendar |
| C41 | mount time conversion with `Undef` | exact characterisation |
| C42, C43 | export loop and name buffer | loop invariant; exact characterisation of the overflow |
| C44-C47 | property set parser and value getters over an abstract stream | induction over list entries |
| C48 | SSAT loading | exact characterisation of the cut |
| C49 | tree creation, instrumented with depth | lower and upper bound |
| C50, C51 | open and lookups of a whole file | composition of the exact characterisations |
| C53-C57 | FUSE callbacks over a mounted tree, histories of calls on handles | composition of the lookup, stream and time lemmas; invariants over histories |
| C58 | Python file objects as arbitrary state machines | contract of a file with failures; induction over the reads before |
| C59 | integer conversion | case analysis on ranges |
| C60 | stream object methods with arbitrary arguments | simulation by a file with the bytes of the stream |
| C61 | a writer after the documentation (`Spec_Write`, not library code), then open, tree and reads of its files | the written file meets the exact characterisation of C50; induction over the document |
| C62, C63, C66-C68 | programs of method calls on Python objects | invariant over programs that ties objects to the open tree; simulation of programs that differ in one object |
| C64 | the iterator, stream and name calls on files that hold a document (`Spec_Stores`) | composition of C85 with the object model |
| C65 | header fields through the file object | exact characterisation |
| C69 | file object in the closed state | invariant over histories, path loop with a failing lookup |
| C70 | property set parser with a log of allocations and releases | exact shape of the log; heap semantics |
| C71 | reference counts and native memory of the Python objects (`M_Refs`) | invariant: counts, parents, one owner for each block |
| C72 | Python objects for property sets (`M_PyProp`) | invariant of programs; loops by induction; values by C44 and C47 |
| C73 | olecfinfo (`M_Info`): everything that is printed | output as a list of pieces; listing by induction over the tree; injectivity of the lines |
| C74 | getopt and the options of the tools (`M_Getopt`) | loop invariant against a recursive reading of the words; folds over the options |
| C75 | runs of olecfexport (`M_ExportTool`) | the log erased gives C42; invariant on log and disk; induction over the tree |
| C76 | compound object streams (`M_CompObj`; no caller in the library, that in olecftools/info_handle.c is compiled out by `#if defined(TODO)`) | a state with the buffers; what is read against an encoder |
| C77 | functions of the Python module (`M_Module`) | C16, C58 and C66 |
| C78 | names and paths of the mount tool on Windows (`M_WMount`), UTF-16 coder as parameter | as C36, with the lemmas on the codec shared |
| C79, C80 | Dokan callbacks (`M_Dokan`) over a mounted tree, histories of calls on open files | as C53-C57; reading reduces to the FUSE read, the live counter is an invariant over histories |
| C81 | a writer of property sets after the documentation (`Spec_SetWrite`, not library code), then the reads of `M_Prop` | the written bytes meet the exact characterisation of C44; composition with C47, C61 and C72 |
| C82 | lookups by path of `M_Item` on files that hold a document (`Spec_Stores`) | every answered item is at a place of the document (`shows`, C85), composed with C28 (paths), the reads of C85 and C81 |
| C83 | the FUSE callbacks of `M_Fuse` on files that hold a document (`Spec_Stores`) | C82 over the path translation of C36 and the callbacks of C53 to C56 |
| C84 | `export_file` of `M_Export` and the run of `M_ExportTool` on files that hold a document (`Spec_Stores`) | all nodes of the tree are places of the document (induction over parents), then C42 and C75 |
| C85 | open, item tree and reads on files that hold a document in any layout (`Spec_Stores`) | the exact characterisation of C50, sub items as sorted lists (C23, C24), induction over the document in both directions |
| C86 | open and close with memory that can be refused (`M_Mem`) | blocks in use as a multiset; every function changes it by what its result owns; refusals are recorded by kind |
| C87 | the Dokan callbacks of `M_Dokan` on files that hold a document | C82 over the path translation of C78 and the callbacks of C79 and C80 |
| C88 | `open_read` and `stream_read_buffer` with any sound I/O layer and with a prefix of a file | reading of header, master table and directory is monotone in what the I/O delivers; the tables and everything else depend only on the requests made; `file_says` of a prefix; chains of the written table |
| C89 | `open_read` and stream reads of two files that agree at the offsets of Spec_Foot | `file_says` of the other file, part by part: header fields, whole sectors of tables, fields of slots; exactness of opening (C50) and of documents (C85) |
| C90 | `mp_get_set`, `mp_free`: property sets with refusable requests (M_PropMem) | blocks as multisets (L_Mem), call by call against the functions of M_Prop; exactness by C44 |
| C91 | `c_step`, `c_run`: programs over the public functions with pointers into memories (M_Api) | simulation by a machine without addresses (L_Api), invariant of that machine (L_Api2), what a program sees of it (L_Api3), owners and handles (L_Api4) |
| C92 | same | two runs of the machine without addresses that agree on the part of one file (L_Api4) |
| C93 | `olecfinfo` (M_Info) on files that hold documents | C73, the items of an opened document (L_Doc), what each set is (C44); lines of the listing before an empty line (L_DocInfo) |
| C94 | the export (M_Export) of documents when reads and calls of the host fail | C88 (the opened file is that of the undamaged one), the copy loop (L_Export), induction over the items shown (L_Salvage) |
| C95 | the requests (traces) of reads of streams (M_Stream) | induction over the sectors of the loop (L_Requests), locality of L_Fault |
| C96 | olecfinfo (M_Info) when reads fail | property sets read by two I/O layers (L_Careful: one relation through all readers of M_Prop), C73, C88, C93 |
| C97 | the FUSE and Dokan callbacks (M_Fuse, M_Dokan) when reads fail | two runs related callback by callback (states equal but for the offsets of open files), C83, C87, C88, C95 |
| C98 | whole runs of olecfmount (`M_MountTool`) on hosts where any step can fail | step lemmas for each call, then the three ways a run can go; C74, C83, C57 |
| C99 | C programs (`M_Api`) and Python programs (`M_Items`) | two states that differ in the abort flag give the same answers, step by step; calls without a trace keep the state but for that flag |
| C100 | olecfinfo (`M_InfoTool`) when memory is refused | each printing function follows the one of `M_Info` up to the first refusal (`follows` in L_InfoTool); C86 and C90 for the file and the property sets; files opened without tables are still sound (L_Sound), so that C73 applies |
| C101 | the fuzz targets (`M_Fuzz`), single runs and sequences of them | the blocks are weighed up call by call (`moved` in L_Mem); C86 for opening and closing, L_Sound for the items of a file without tables |
| C102 | olecfexport (`M_ExportMem`) when memory is refused | a simulation (`sim` in L_ExportMem): each function releases what it holds, follows the one of `M_ExportTool` if all is granted, and tells of refusals; composed along the program; `since` in L_ExportMem4 for the disk and the log |
| C52 | property set parser, instrumented with allocated bytes | bound by induction, concrete amplification |

## Conditions that recur in theorems

* `volume_ok`, `dirent_ok`: sizes and values in the ranges that open guarantees; P_Open.v and
  C42_opened_shape prove that every opened file has them.
* `short_ok`: short sectors fit into sectors and the root entry has data. Without it the claims on
  contents are false (C01_large_short_sectors_refuted, C01_unused_container_refuted).
* `intact`: the chain of the stream has all its sectors in the table.
* `read_sizes`: sizes for which the sector counter of the library does not wrap.

## Trusted base

* The Coq 8.16.1 kernel, and `vm_compute` for concrete cases.
* `Print Assumptions` under each theorem in `P_*.v` prints "Closed under the global context": no
  theorem uses an axiom. (Loading Coq's own ssreflect files, which `Lia` requires, brings seven
  constants `Coq.ssr.ssrunder.Under_rel.*` into the environment; no theorem depends on them.)
* The transcription of the C code into the `M_*.v` files, done by hand; each definition cites its lines.
* The contracts of the libraries that are not in the repository, as listed above.

## Not modelled

The signal handlers of the tools (they are never attached), the options that olecfmount gives to Dokan other than the mount point, Python object wrappers other than those in the table (reference counts are in `M_Refs` only, the interpreter lock is left out everywhere; a second call of `__init__` on an object, which drops its pointers, is not modelled), the debug output, string conversion in libuna, floating point time, POSIX/HFS/FAT date conversions have a model but no caller in the library. Release is tracked for open and close as a whole (`M_Mem`), directory entries (`M_Free`), property sets (`M_PropFree`), Python objects (`M_Refs`), olecfinfo (`M_InfoTool`) and the fuzz targets (`M_Fuzz`).

## Tests against wrong programs

seeded/LOG.jsonl has one line for each edit of the model that was tried in a scratch copy. How to read it:

* An edit is made to one definition and the proofs that depend on it are built again. `first_failing` names
  the lemmas whose proofs break. `theorems_failed` is computed from these: all theorems whose proofs use such a
  lemma, directly or not. It does not say that each of these theorems is false for the edited model.
* Proofs follow the text of the model, so a proof can break for an edit that leaves all claims true. Edits of
  this kind were tried on purpose (`edit` begins with "(control)") and most of them broke proofs as well. A
  broken proof alone is therefore weak evidence that a theorem is strong enough; an edit that breaks no proof
  is the informative case, and each was looked at.
* For the edits of M_Fuzz, M_ExportMem, M_InfoTool and M_PropMem logged last (C90, C100, C101, C102) there is a second test that uses no proof:
  the edited program is run on concrete files, with all memory and with each single request refused, and the
  claims are evaluated on the results. `claims_false_on_cases` lists those that are false. If it is empty the
  cases did not show any claim to be false: `note` says so, and the line counts as no evidence. Lines without
  this field had no such test.

A weakness found this way, and what was done: C90_safe and C100_memory say that after a failure at most the blocks
of a section stay in use, as `at_most_a_section`. That predicate used to ask for some section with these blocks
only, and any list of two or more blocks has one, so that a program that never frees the set met it. Requests for
the set, for a section and for a value have different kinds now (`RSet`, `RSection`, `RProperties`), and the
predicate asks that the two blocks of the section were requested as such and all others for values. C90_left was
added: for a set that is in the bytes of the stream the values are the first properties of one of its sections.
C90_left_damaged says the same for any bytes: value k is the property that entry k of some list of properties in
the stream describes (it does not say that the list is that of a section of the set). C100 uses `at_most_a_section`
and says no more than that about the values.

C100_output has the same kind of gap: the empty text is the beginning of any text, so that a run which forgets its
output when it fails met it. C100_head was added: once the file was opened the lines on the file are in the output. How much of the
rest is printed before a failure is not said.

## Findings

Statements one would expect, which are false of the code; most are theorems named `..._refuted`.

* Open: the SSAT is cut when its chain is longer than the SAT (C48); a count that is too large gives an
  empty or a cut table without an error (C17); MSAT values of zero padding count as sector 0; the
  unused marker as a sector number wraps to offset 0; a cyclic directory chain fails only after 1025
  sectors; with the root entry not in slot 0 the tree has the root only (C23); recursion over the
  links takes stack proportional to the number of entries (C49); a file of a few bytes can name many
  table sectors, each of which is read (C11).
* Streams: reads cross the end of a sector when short sectors are larger than sectors, and return the
  file header when the root entry has no data (C01); reading in the short sectors walks the chain of
  the root from its start each time; relative seeks overflow a signed integer (C08).
* Lookups: a NUL acts as path separator; a path of separators only finds nothing; a file without a tree
  answers 0 to get_root_item and -1 to a path lookup.
* File objects: a failed open leaves the header of the failed file behind (C32); close resets the
  codepage; the abort flag is never read, so that an abort changes nothing (C99); a read at an offset that fails moves
  the stream (C99); items used after close or free of their file refer to freed memory,
  and stay so when the file is opened again (C91); a handle that two files share is closed by the one that
  opened it, under the other (C92).
* Dates: 31 December of the year before the epoch of a leap cycle gives day 0 for FILETIME 1699 and
  POSIX/HFS 1999; negative POSIX times loop more than 5*10^14 times; the mount tool's time
  conversion overflows (C41).
* Mount: items with a backslash in their name cannot be reached (C36); the file entry copies bytes of a
  buffer that were never set; a path with a slash at the end is not found (C53); times before 1970 have
  negative nanoseconds, and times that do not fit overflow (C54); an item without a convertible name
  hides its later siblings, ".." has an empty stat (C55); items of unknown type look like files that
  cannot be read (C56); releasedir leaks the entry (C57).
* Mount on Windows: name_size is the size of the buffer, ten times the length of the name plus one, so that
  an item with more than 25 units in its name, like \005DocumentSummaryInformation, stops the listing of its
  directory, or overflows cFileName if HAVE_DOKAN_LONG_PATHS is defined; ".." is no directory; short names
  are only given for names of one unit (C80); the size of an empty item is not written, a buffer that the
  volume name fits exactly is not filled, OPEN_ALWAYS fails with old versions (C79).
* Python module: a file name with a NUL is cut there, so that another file is opened;
  check_file_signature_file_object raises IOError where open_file_object raises TypeError (C77); the
  open functions keep a reference to None for each file (not modelled).
* Compound objects: the markers of standard clipboard formats lack a digit, so that these are refused
  and 0x0fffffff is taken for one; reads go on past the size of the stream; the remainder is read even
  if the reserved string is empty; a failed call moves the offset (C76).
* Property sets: in big-endian sets the number of sections is the high half of the 32-bit field (C44), so
  that all sections are lost; the dictionary is read as a value whose type is its count (C81);
  offsets wrap modulo 2^32 and are relative to the section (C45); a character count of 2^31+1 wraps
  (C46); UTF-16 strings are taken as little-endian in big-endian sets; VT_BOOL is read as one byte;
  memory grows with the cube of the stream size (C52); a section is leaked on errors (C70), also when memory is refused (C90).
* Memory: if memory is refused while the sector allocation table or the short table is read, opening
  succeeds with a table of zeros, and streams are read with wrong bytes (C86); olecfinfo then shows wrong numbers
  and reports success (C100).
* If memory for the short allocation table is refused, olecfexport exports wrong bytes and reports success, and its
  log tells of nothing (C102).
* Failing I/O: the same happens if a table sector cannot be read, as in a file that was cut off before its
  short table (C88).
* Export: an item whose name exists and is shorter than nine characters, or is "." or "..", overflows a
  heap buffer (C43); the tool reports success although items failed, and leaves cut files behind (C42).
  Only the log tells of that. When closing the log fails after an export its stream is closed twice; a log with
  the name of the source is appended to the source; one with the name of the directory is in its way; a source
  path that ends with a separator needs -t (C75).
* olecfinfo: the codepage given with -c is stored and never used (the same holds for olecfexport and
  olecfmount); -a never shows a block; a backslash in a name is not escaped and leading spaces look like
  indentation; strings of property sets are printed with their line ends, so that different files have the
  same output; a name or value that cannot be converted ends the run (C73).
* olecfmount: the source is never closed (mount_handle_close has no caller), so that its file object and file
  handle stay when the run ends; if FUSE never calls destroy the mount handle stays too; the exit status is
  success when DokanMain fails, and nothing is freed then; with FUSE 3 and -X the words have an empty one
  before -o (C98).
* Command lines (with the getopt of the repository): the word "-" is read beyond its end; any word that
  begins with "--" silently ends the options; an unknown letter followed by others is told again and again,
  and the message names the word before it (C74).
* Python: a file object whose read returns more than asked for overruns a heap buffer; get_size of such an
  object reports success without a size (C58); unsigned values of 2^63 and more are rejected (C59);
  stream.read() fails on big-endian hosts (C60).
  An item kept across close refers to freed memory (C62); a sequence is empty the second time, an item with
  a name that cannot be converted blocks the iteration, an index out of range raises ValueError (C63);
  get_format_version raises for every documented version (C65); get_ascii_codepage gives bytes, not a
  string (C66); the class of an item depends on the way it was reached (C67).
  The date made before an error of get_data_as_datetime is reported is not released; data of no bytes is None
  (C72).
  pyolecf_file_free keeps a reference to None if the file was opened from a file object, and returns without releasing the object
  if the close fails (seen by reading, both outside the model of C71).
