{"id": "C01", "title": "A stream read returns exactly the bytes of the sector chain", "statement": "Whenever libolecf_stream_read_buffer succeeds with n bytes at cursor position o, byte j of the buffer is the byte of the file at the position the format assigns to stream offset o+j: the (o+j)/S-th sector of the chain that starts at the sector in the directory entry, where S is the sector size, or, for a stream smaller than the minimum stream size, the corresponding short sector located through the sector chain of the root entry. Holds when the short sector size does not exceed the sector size and the chain of the root entry never contains the unused marker.", "quantifier": "every file content, every I/O error pattern, every allocation table contents including cyclic or truncated chains, every directory entry, cursor and request size", "why_tests_cant": "the set of chains, offsets and sizes is unbounded and every alignment of offset, size and sector boundary matters", "anchors": ["libolecf/libolecf_io_handle.c: libolecf_io_handle_read_stream", "libolecf/libolecf_stream.c: libolecf_stream_read_buffer"]}
{"id": "C02", "title": "A stream whose chain is intact can be read", "statement": "If every sector the request touches is named by a regular entry of the chain and the file holds the bytes and the I/O layer does not fail, the read succeeds and returns min(requested, size - cursor) bytes. The extra conditions are that the number of the first sector touched is below the number of entries of the allocation table, which holds for every chain without repetition, and that the applicable sectors are of 4 bytes or more or the request is at most 1 GiB.", "quantifier": "every file, every stream with an intact chain, every cursor inside the stream, every request size", "why_tests_cant": "a loop that rejects a valid chain in one alignment only is not found by finitely many files", "anchors": ["libolecf/libolecf_io_handle.c: libolecf_io_handle_read_stream", "libolecf/libolecf_stream.c: libolecf_stream_read_buffer"]}
{"id": "C03", "title": "Reading in pieces equals reading at once", "statement": "Reading a stream with any sequence of successful reads yields the same bytes, concatenated, as one successful read of the total size from the same cursor, and leaves the same cursor.", "quantifier": "every file, every stream, every starting cursor and every sequence of request sizes", "why_tests_cant": "quantifies over all partitions of all streams", "anchors": ["libolecf/libolecf_stream.c: libolecf_stream_read_buffer", "libolecf/libolecf_io_handle.c: libolecf_io_handle_read_stream"]}
{"id": "C04", "title": "Positioned reads do not depend on history", "statement": "libolecf_stream_read_buffer_at_offset returns a result determined by the file, the entry, the offset and the size only: whatever sequence of reads and seeks, failed or not, was performed on the item before, the result is the one a freshly obtained item gives.", "quantifier": "every history of read, read-at-offset, seek and get-offset calls with arbitrary I/O failures in each call", "why_tests_cant": "histories are unbounded", "anchors": ["libolecf/libolecf_stream.c: libolecf_stream_read_buffer_at_offset, libolecf_stream_seek_offset"]}
{"id": "C05", "title": "Cursor accounting", "statement": "A successful read returns a count between 0 and the requested size and moves the cursor by exactly the count; a failed read leaves the cursor where it was; over any history the cursor is never negative and no read returns data beyond the size of the item.", "quantifier": "every history of operations on an item with arbitrary I/O failures", "why_tests_cant": "needs an invariant over unbounded histories with faults at every point", "anchors": ["libolecf/libolecf_stream.c: libolecf_stream_read_buffer", "libolecf/libolecf_io_handle.c: libolecf_io_handle_read_stream"]}
{"id": "C06", "title": "Reading at or past the end", "statement": "When the cursor is at or past the size, a read returns 0 bytes, performs no I/O, and does not move the cursor; when it is before the end, a read of n > 0 bytes never returns 0.", "quantifier": "every stream item, cursor and request size up to SSIZE_MAX", "why_tests_cant": "boundary behaviour for all sizes and cursors", "anchors": ["libolecf/libolecf_stream.c: libolecf_stream_read_buffer"]}
{"id": "C07", "title": "Only stream items expose stream data", "statement": "Read, positioned read, seek and get-offset fail with -1 and change nothing on every item whose type is not stream (storage, root, lock bytes, property, unknown types).", "quantifier": "every item of every type and every argument", "why_tests_cant": "type byte, arguments and state are all free", "anchors": ["libolecf/libolecf_stream.c: libolecf_stream_read_buffer, libolecf_stream_seek_offset, libolecf_stream_get_offset"]}
{"id": "C08", "title": "Seek arithmetic", "statement": "For every whence and offset for which base + offset fits in a signed 64-bit integer, seek sets the cursor to base + offset and returns it when that is not negative, and otherwise fails without moving the cursor; any other whence fails. When base + offset does not fit the C code executes a signed overflow (undefined behaviour): this happens exactly for SEEK_CUR and SEEK_END with an offset above INT64_MAX - base.", "quantifier": "every cursor, stream size, 64-bit offset and whence", "why_tests_cant": "2^64 offsets; the overflow case is outside what a test of defined behaviour can observe", "anchors": ["libolecf/libolecf_stream.c: libolecf_stream_seek_offset"]}
{"id": "C09", "title": "Short-sector or regular storage is chosen by size alone", "statement": "Stream data is taken from short sectors exactly when the item size is strictly below the minimum stream size in the file header, for every read of the item.", "quantifier": "every header threshold, every item size and every read", "why_tests_cant": "the threshold is an arbitrary 32-bit header field", "anchors": ["libolecf/libolecf_io_handle.c: libolecf_io_handle_read_stream"]}
{"id": "C10", "title": "Opening and reading hostile files is memory safe", "statement": "No sequence of open and stream reads on any file makes the library index an allocation table, a sector buffer or a directory entry out of bounds, or overflow a signed integer, provided the short sector size is at least 4 bytes (or the amount read at once is below 2 GiB).", "quantifier": "every byte sequence as the file, every I/O failure pattern, every stream request", "why_tests_cant": "safety for all inputs; the SAT loop contains no bounds check and is safe only by an arithmetic invariant", "anchors": ["libolecf/libolecf_io_handle.c: libolecf_io_handle_read_msat, libolecf_io_handle_read_sat, libolecf_io_handle_read_ssat, libolecf_io_handle_read_stream", "libolecf/libolecf_allocation_table.c: libolecf_allocation_table_get_sector_identifier_by_index"]}
{"id": "C11", "title": "Opening terminates with a bounded number of sector reads", "statement": "Opening any file terminates. It reads at most 257 master table sectors, as many sectors of the sector allocation table as fit 128 MiB of table, at most 257 short table sectors and at most 1025 directory sectors, less than 177 MiB in all, even when the chains in the file are cyclic.", "quantifier": "every file including cyclic chains", "why_tests_cant": "non-termination on some crafted cycle cannot be excluded by running finitely many files", "anchors": ["libolecf/libolecf_io_handle.c: libolecf_io_handle_read_msat, libolecf_io_handle_read_sat, libolecf_io_handle_read_ssat, libolecf_io_handle_read_directory_entries", "libolecf/libolecf_file.c: libolecf_file_open_read"]}
{"id": "C12", "title": "Stream reads terminate with work linear in the request", "statement": "A read of n bytes from a stream terminates after at most n/S + 2 sector reads (S the applicable sector size), also when the chain is cyclic, and a failing read performs no more.", "quantifier": "every allocation table, entry, cursor and size", "why_tests_cant": "cyclic tables are unbounded in number", "anchors": ["libolecf/libolecf_io_handle.c: libolecf_io_handle_read_stream"]}
{"id": "C13", "title": "Header acceptance is exact", "statement": "Header parsing succeeds exactly when the data is at least 512 bytes, starts with one of the two signatures, carries one of the two byte order marks and both size exponents are at most 15.", "quantifier": "every 512-byte block", "why_tests_cant": "2^4096 headers", "anchors": ["libolecf/libolecf_file_header.c: libolecf_file_header_read_data"]}
{"id": "C14", "title": "Header fields are decoded per the byte order mark", "statement": "For every combination of field values, encoding them per the documented layout in either byte order and parsing the result returns those values, and two headers that encode the same values in the two byte orders give the same result except for the byte order itself.", "quantifier": "every field value and both byte orders", "why_tests_cant": "field values are unbounded combinations", "anchors": ["libolecf/libolecf_file_header.c: libolecf_file_header_read_data", "libolecf/libolecf_file_header.c: libolecf_file_header_read_file_io_handle"]}
{"id": "C15", "title": "Reported sector sizes are powers of two", "statement": "After a successful open the sector size is a power of two between 128 and 32768 and the short sector size is a power of two between 1 and 32768, and the getters report them.", "quantifier": "every file that opens", "why_tests_cant": "over all files", "anchors": ["libolecf/libolecf_file_header.c: libolecf_file_header_read_data", "libolecf/libolecf_io_handle.c: libolecf_io_handle_read_directory_entries", "libolecf/libolecf_file.c: libolecf_file_get_sector_size, libolecf_file_get_short_sector_size"]}
{"id": "C16", "title": "Signature check agrees with open", "statement": "If libolecf_file_open succeeds then the signature check on the same file returns 1; if the file has at least 8 readable bytes the check returns 1 exactly when they are one of the two signatures and 0 otherwise; with fewer readable bytes it is an error.", "quantifier": "every file", "why_tests_cant": "agreement of two independent code paths on all inputs", "anchors": ["libolecf/libolecf_support.c: libolecf_check_file_signature_file_io_handle", "libolecf/libolecf_file_header.c: libolecf_file_header_read_data", "libolecf/libolecf_file.c: libolecf_file_open_read"]}
{"id": "C17", "title": "The sector allocation table holds what the file says", "statement": "When the sector reads succeed, entry k*E+j of the table used for chains is the j-th 32-bit value of the sector named by the k-th used master table entry, in the byte order of the file (E values per sector); the table has exactly E times the number of table sectors in the header entries. Holds when that product is at most 33554432; when it is larger (and below 2^31) open does not fail but works with an empty table.", "quantifier": "every file, sector size and number of sectors", "why_tests_cant": "table sizes and contents are unbounded", "anchors": ["libolecf/libolecf_io_handle.c: libolecf_io_handle_read_sat", "libolecf/libolecf_allocation_table.c: libolecf_allocation_table_resize"]}
{"id": "C18", "title": "The master table is the header part followed by the chained sectors", "statement": "On success the master table is the 109 header values followed by, for each sector of the master chain in order, all values of the sector but the last, the last one being the link to the next sector, and then zeros up to the declared number of sectors (0 counts as 1). The chain ends at the end-of-chain mark or at the declared number. Holds when the declared size fits an int.", "quantifier": "every master chain of every file", "why_tests_cant": "chains of any length and content", "anchors": ["libolecf/libolecf_io_handle.c: libolecf_io_handle_read_msat", "libolecf/libolecf_file_header.c: libolecf_file_header_read_data"]}
{"id": "C19", "title": "Unreadable allocation sectors are silently accepted", "statement": "Open does not fail when a sector of the sector allocation table or of the short sector table cannot be read: the remaining entries of the table are left at 0 and open goes on. The entries already read are kept exactly.", "quantifier": "every file and every I/O failure point in the table reads", "why_tests_cant": "fault at every possible sector; a finding: errors are swallowed", "anchors": ["libolecf/libolecf_io_handle.c: libolecf_io_handle_read_sat (on_error, line 714-720), libolecf_io_handle_read_ssat (on_error, line 1003-1009)"]}
{"id": "C20", "title": "Directory identifiers are slot numbers", "statement": "The directory entries found by open are exactly the non-empty 128-byte slots of the directory chain, in order, each identified by its slot number counted over all slots including the empty ones; identifiers are therefore distinct and increasing.", "quantifier": "every directory chain of every file", "why_tests_cant": "positions of empty slots and chain lengths are unbounded", "anchors": ["libolecf/libolecf_io_handle.c: libolecf_io_handle_read_directory_entries", "libolecf/libolecf_directory_entry.c: libolecf_directory_entry_read_data"]}
{"id": "C21", "title": "A cyclic directory chain yields each sector once", "statement": "If the directory chain runs into a sector it visited before, reading stops and succeeds with each sector of the chain contributing its entries exactly once, for chains of up to 1024 sectors.", "quantifier": "every cyclic chain", "why_tests_cant": "all cycles of all lengths", "anchors": ["libolecf/libolecf_io_handle.c: libolecf_io_handle_read_directory_entries"]}
{"id": "C22", "title": "Every directory entry is in the item tree at most once", "statement": "In the item tree of an opened file no directory entry occurs twice, the root entry included, even when the links of the directory form cycles or share entries.", "quantifier": "every directory link structure", "why_tests_cant": "link graphs are unbounded and adversarial", "anchors": ["libolecf/libolecf_directory_tree.c: libolecf_directory_tree_create, libolecf_directory_tree_create_process_entry"]}
{"id": "C23", "title": "Sub items are what the links say", "statement": "For an opened file whose root entry is entry 0, the sub items of an item are exactly the entries reachable by previous/next links from the entry its sub link names; the entries in the tree are exactly those reachable from the root through such links.", "quantifier": "every directory link structure that opens", "why_tests_cant": "reachability over unbounded graphs", "anchors": ["libolecf/libolecf_directory_tree.c: libolecf_directory_tree_create_process_entry", "libolecf/libolecf_item.c: libolecf_item_get_sub_item, libolecf_item_get_number_of_sub_items"]}
{"id": "C24", "title": "Sub items are listed in increasing directory order", "statement": "libolecf_item_get_sub_item enumerates the sub items of an item in strictly increasing directory identifier order, for every valid index from 0 to count-1, and fails for every other index.", "quantifier": "every item of every opened file and every index", "why_tests_cant": "order over unbounded sets of entries", "anchors": ["libolecf/libolecf_directory_tree.c: libolecf_directory_tree_create_process_entry", "libolecf/libolecf_directory_entry.c: libolecf_directory_entry_compare", "libolecf/libolecf_item.c: libolecf_item_get_sub_item"]}
{"id": "C25", "title": "Each directory entry is released exactly once", "statement": "Over open and close, successful or failed, every directory entry allocated while reading the directory is freed exactly once: no leak and no double free.", "quantifier": "every directory contents and every link structure, opened successfully or not", "why_tests_cant": "ownership is split between a list and a tree by a flag; correctness depends on an invariant over all link graphs", "anchors": ["libolecf/libolecf_file.c: libolecf_file_open_read, libolecf_file_close", "libolecf/libolecf_directory_entry.c: libolecf_directory_entry_free_not_in_tree", "libolecf/libolecf_directory_tree.c: libolecf_directory_tree_create"]}
{"id": "C26", "title": "Entries referenced twice make open fail", "statement": "If the links reachable from the root name an entry twice, open fails; consequently an opened file has a proper tree.", "quantifier": "every link structure with sharing or a cycle reachable from the root", "why_tests_cant": "all graphs", "anchors": ["libolecf/libolecf_directory_tree.c: libolecf_directory_tree_create_process_entry"]}
{"id": "C27", "title": "Dangling links are treated asymmetrically", "statement": "A previous or sub link to a slot that is empty or missing is ignored, whereas a next link to such a slot makes open fail.", "quantifier": "every directory", "why_tests_cant": "quantifies over all directories containing such a link", "anchors": ["libolecf/libolecf_directory_tree.c: libolecf_directory_tree_create_process_entry (lines 506-665)"]}
{"id": "C28", "title": "Lookup by path is iterated lookup by name", "statement": "For every path that is a sequence of non-empty names separated by backslashes, with an optional leading and an optional trailing separator and more than one character, looking up the path returns the item reached by looking up the names one after another, 0 if some name does not exist, and -1 if a comparison fails.", "quantifier": "every tree, every list of names", "why_tests_cant": "paths and trees are unbounded", "anchors": ["libolecf/libolecf_file.c: libolecf_file_get_item_by_utf8_path, libolecf_file_get_item_by_utf16_path", "libolecf/libolecf_item.c: libolecf_item_get_sub_item_by_utf8_path"]}
{"id": "C29", "title": "A path of one character names the item itself", "statement": "Any path of length one, whatever its character, returns the item the lookup starts at and not its sub item of that name; so a sub item with a one-character name cannot be reached by path without a leading separator.", "quantifier": "every tree and every character", "why_tests_cant": "a finding, over all characters", "anchors": ["libolecf/libolecf_file.c: libolecf_file_get_item_by_utf8_path", "libolecf/libolecf_item.c: libolecf_item_get_sub_item_by_utf8_path"]}
{"id": "C30", "title": "Lookup by name returns the first match", "statement": "Looking up a sub item by name returns the sub item with the lowest index whose name compares equal; 0 exactly when none compares equal; the UTF-8 and UTF-16 variants agree on every name when the comparison functions agree.", "quantifier": "every list of sub items and every name", "why_tests_cant": "all names, all sibling lists", "anchors": ["libolecf/libolecf_directory_tree.c: libolecf_directory_tree_get_sub_node_by_utf8_name, libolecf_directory_tree_get_sub_node_by_utf16_name", "libolecf/libolecf_item.c: libolecf_item_get_sub_item_by_utf8_name"]}
{"id": "C31", "title": "Open and close form a two-state machine", "statement": "On a file object, open fails without effect while it is open, close fails while it is closed, open with write access or without read access always fails, and after a successful close the object gives the same results for every subsequent sequence of calls as a new object; in particular its codepage is back at 1252.", "quantifier": "every history of open, close and getter calls with any files", "why_tests_cant": "all histories", "anchors": ["libolecf/libolecf_file.c: libolecf_file_open_file_io_handle, libolecf_file_close"]}
{"id": "C32", "title": "A failed open leaves header data behind", "statement": "After an open that fails past the header, the sector sizes and format version of the rejected file stay visible through the getters until the next successful open and close; no tree, table or I/O handle stays behind, and a later open of any file gives the result of a fresh object.", "quantifier": "every failing file and every later history", "why_tests_cant": "all failure points; a finding", "anchors": ["libolecf/libolecf_file.c: libolecf_file_open_read (on_error), libolecf_file_get_sector_size, libolecf_file_get_format_version"]}
{"id": "C33", "title": "The I/O handle is returned in the state it was given", "statement": "If the library opened the I/O handle it is closed again after a failed open and after close; if it was already open it stays open. No history leaves a handle open that the library opened and no longer uses.", "quantifier": "every history of opens and closes, failed or not, of handles open or closed beforehand", "why_tests_cant": "all histories with all failure points", "anchors": ["libolecf/libolecf_file.c: libolecf_file_open_file_io_handle, libolecf_file_close"]}
{"id": "C34", "title": "Codepage setting", "statement": "Setting the codepage succeeds exactly for the 15 supported values, the getter then returns it, a rejected value leaves the old one, and open does not change it; close sets it back to 1252 (finding).", "quantifier": "every 32-bit value and every history", "why_tests_cant": "all values and histories", "anchors": ["libolecf/libolecf_file.c: libolecf_file_set_ascii_codepage, libolecf_file_get_ascii_codepage"]}
{"id": "C35", "title": "Directory entry fields are decoded exactly and names stay inside the slot", "statement": "Parsing a 128-byte slot returns the documented fields in the byte order of the file; a name never extends beyond the slot. A stored name size from 65 to 128 is accepted, so the name then includes bytes of the fields that follow (finding); above 128 the open fails.", "quantifier": "every slot contents and both byte orders", "why_tests_cant": "2^1024 slots", "anchors": ["libolecf/libolecf_directory_entry.c: libolecf_directory_entry_read_data"]}
{"id": "C36", "title": "Mounted names map back to the item name", "statement": "Every item name that contains no backslash, presented as a file name by the mount tool and passed back as path component, is converted back to the same name; a name with a backslash is converted back to text containing a path separator and so cannot be opened (finding). Distinct names give distinct file names, and a file name never contains a slash or a control character.", "quantifier": "every item name", "why_tests_cant": "all strings over all code points", "anchors": ["olecftools/mount_path_string.c: mount_path_string_copy_from_item_path, mount_path_string_copy_to_item_path"]}
{"id": "C37", "title": "Path conversion stays inside its buffers", "statement": "Neither conversion of mount paths writes outside the buffer it allocated nor reads outside its input, for every input string, including malformed ones.", "quantifier": "every input string", "why_tests_cant": "all strings", "anchors": ["olecftools/mount_path_string.c: mount_path_string_copy_from_item_path, mount_path_string_copy_to_item_path"]}
{"id": "C38", "title": "FILETIME to calendar date in the Python module", "statement": "For every 64-bit FILETIME except those on 31 December 1699 the Python datetime conversion passes the exact proleptic Gregorian date and time of the timestamp to Python; on 31 December 1699 it passes day 0 of January 1700 (finding).", "quantifier": "every 64-bit timestamp", "why_tests_cant": "2^64 timestamps; one bad day in 60000 years", "anchors": ["pyolecf/pyolecf_datetime.c: pyolecf_datetime_new_from_filetime, pyolecf_datetime_new_from_time_elements"]}
{"id": "C39", "title": "POSIX and HFS time to calendar date", "statement": "For non-negative POSIX times up to year 65535 and every 32-bit HFS time the conversion passes the exact Gregorian date and time, except on 31 December 1999 where it passes day 0 of January 2000 (finding).", "quantifier": "every timestamp", "why_tests_cant": "2^63 timestamps", "anchors": ["pyolecf/pyolecf_datetime.c: pyolecf_datetime_new_from_posix_time, pyolecf_datetime_new_from_hfs_time"]}
{"id": "C40", "title": "FAT time to calendar date", "statement": "A FAT date time converts exactly when its month and day are a valid date, and then to the date and time its bit fields encode.", "quantifier": "every 32-bit value", "why_tests_cant": "2^32 values in one theorem", "anchors": ["pyolecf/pyolecf_datetime.c: pyolecf_datetime_new_from_fat_date_time"]}
{"id": "C41", "title": "Mount timestamps", "statement": "The mount tool reports for every FILETIME t other than 0 the POSIX nanosecond value (t - 116444736000000000) * 100 whenever it fits a signed 64-bit integer; otherwise, in particular for the value -1 that the format documentation says occurs in Office templates, the C expression overflows (undefined behaviour). 0 is reported as 0.", "quantifier": "every 64-bit timestamp", "why_tests_cant": "2^64 values, undefined behaviour is not testable", "anchors": ["olecftools/mount_file_entry.c: mount_file_entry_get_creation_time, mount_file_entry_get_modification_time"]}
{"id": "C42", "title": "Exported stream data equals the stream", "statement": "When the export tool reports success for an item, the data file it writes has exactly the contents of the stream, whatever its size; for an item of other type with a non-zero size the export fails.", "quantifier": "every stream size and contents, every I/O failure pattern", "why_tests_cant": "chunk loop over all sizes", "anchors": ["olecftools/export_handle.c: export_handle_export_item"]}
{"id": "C43", "title": "Export name collision writes past a short name buffer", "statement": "When the export directory of an item exists already, the tool writes ten characters into a buffer whose size is that of the sanitized name: the write stays inside exactly when that size is at least 10, so two siblings with the same name shorter than nine characters cause a heap overflow (finding).", "quantifier": "every item name and index", "why_tests_cant": "memory error, all names", "anchors": ["olecftools/export_handle.c: export_handle_export_item (lines 838-1003)"]}
{"id": "C44", "title": "Property set header and section list", "statement": "Reading a property set returns its sections in list order, as many as the 16-bit number the code takes from the header: for little-endian sets the low half of the documented 32-bit count, for big-endian sets the high half (finding).", "quantifier": "every property set stream", "why_tests_cant": "all streams", "anchors": ["libolecf/libolecf_property_set.c: libolecf_property_set_read_header_data, libolecf_property_set_read"]}
{"id": "C45", "title": "Property sections list every property in order", "statement": "Reading a section returns one property per list entry, in order, with the identifier of the list entry and the value at the list offset counted from the section; a list offset of 8 or less is rejected. The position is computed modulo 2^32 (finding).", "quantifier": "every section contents", "why_tests_cant": "all streams", "anchors": ["libolecf/libolecf_property_section.c: libolecf_property_section_read", "libolecf/libolecf_property_value.c: libolecf_property_value_read_list_entry"]}
{"id": "C46", "title": "Property values have the size of their type", "statement": "A value of a fixed-size type holds exactly that many bytes following the type; a sized value holds exactly the stored number of bytes, or twice as many for UTF-16 strings, computed modulo 2^32 so that a character count of 2^31+1 is read as a one-character string (finding); strings end at their first end-of-string character.", "quantifier": "every type code, size and contents", "why_tests_cant": "all type codes, sizes and contents", "anchors": ["libolecf/libolecf_property_value.c: libolecf_property_value_read_data"]}
{"id": "C47", "title": "Typed getters are gated by the value type", "statement": "Each typed getter of a property value succeeds only for the types documented for it and then returns the stored bytes decoded in the byte order of the property set.", "quantifier": "every value type and data", "why_tests_cant": "all types and data", "anchors": ["libolecf/libolecf_property_value.c: libolecf_property_value_get_data_as_boolean, libolecf_property_value_get_data_as_16bit_integer, libolecf_property_value_get_data_as_32bit_integer, libolecf_property_value_get_data_as_64bit_integer, libolecf_property_value_get_data_as_filetime"]}
{"id": "C48", "title": "The short sector table is cut silently after 257 sectors", "statement": "Of the short sector allocation table only the first 257 sectors of its chain are loaded; every later entry is 0, and open succeeds. A short stream whose chain passes through such an entry is continued with short sector 0, so a read succeeds with wrong bytes although the file is intact (finding).", "quantifier": "every file and every I/O behaviour; for the wrong read one concrete file", "why_tests_cant": "no test file has a short sector table of more than 257 sectors", "anchors": ["libolecf/libolecf_io_handle.c: libolecf_io_handle_read_ssat"]}
{"id": "C49", "title": "The recursion depth of tree building is the length of the link chain", "statement": "Building the item tree recurses once per link followed: the depth never exceeds the number of directory entries plus one, and a directory of n entries linked in a line is accepted and makes the depth n. There is no limit in the code, so a file of a few megabytes makes the library recurse hundreds of thousands of times (finding).", "quantifier": "every directory; for the lower bound every n", "why_tests_cant": "tests use small directories; a deep one overflows the stack of the test instead of reporting", "anchors": ["libolecf/libolecf_directory_tree.c: libolecf_directory_tree_create_process_entry"]}
{"id": "C50", "title": "Opening accepts exactly the files that say something", "statement": "When the I/O layer does not fail and the declared table sizes fit an int, open succeeds with given header, master table, allocation tables and directory entries if and only if the file contains them as the format says (with the limits of the library) and the links of the directory form a tree; the result depends on the contents of the file only.", "quantifier": "every file content, every I/O layer that delivers the file, every header, tables and directory", "why_tests_cant": "an equivalence over all files", "anchors": ["libolecf/libolecf_file.c: libolecf_file_open_read", "libolecf/libolecf_io_handle.c: read_msat, read_sat, read_ssat, read_directory_entries", "libolecf/libolecf_directory_tree.c: libolecf_directory_tree_create"]}
{"id": "C51", "title": "Calls on an open file answer from the file that was opened", "statement": "After a successful open and until the close, every getter, item lookup, sub item and stream call gives the answer determined by the bytes of the file that was opened, the codepage set, and nothing else: no earlier call, earlier file or earlier failed open changes it.", "quantifier": "every sequence of calls on a file object, every file content", "why_tests_cant": "all call histories", "anchors": ["libolecf/libolecf_file.c: libolecf_file_get_sector_size, libolecf_file_get_root_item, libolecf_file_get_item_by_utf8_path, libolecf_file_get_item_by_utf16_path"]}
{"id": "C52", "title": "Memory taken by a property set", "statement": "A property set read from a stream of n bytes has at most (n-28)/20 sections, each with at most n/8 properties, and the bytes stored in all properties together are at most n^3/160. They are not bounded by n: sections and values may overlap, and a stream of 1084 bytes makes the library store 240000 bytes (finding).", "quantifier": "every stream, every I/O behaviour and value library; for the amplification one concrete stream", "why_tests_cant": "a bound over all streams", "anchors": ["libolecf/libolecf_property_set.c: libolecf_property_set_read", "libolecf/libolecf_property_section.c: libolecf_property_section_read", "libolecf/libolecf_property_value.c: libolecf_property_value_read_data"]}
{"id": "C53", "title": "A mounted path leads to its item", "statement": "In a mounted file the path made of the file names of items leads to exactly the item that the item names lead to from the root, and \"/\" to the root; a path whose names lead nowhere gives ENOENT. A path with a slash at its end is never found, although the code means to ignore such a slash (finding). No path makes the lookup undefined.", "quantifier": "every mounted file, every path, every list of names without a backslash", "why_tests_cant": "all paths over all files; the mount tool has no tests that mount", "anchors": ["olecftools/mount_handle.c: mount_handle_get_file_entry_by_path", "olecftools/mount_file_system.c: mount_file_system_get_item_by_path", "olecftools/mount_fuse.c: mount_fuse_getattr"]}
{"id": "C54", "title": "getattr of a mounted item", "statement": "getattr of the path of an item reports its size, 040555 with two links for storages and the root or 0100444 with one link for all other items, the time of the mount as access and inode change time, and the modification time of the directory entry; there is only one such answer. A modification time outside of what 64-bit nanoseconds can represent is undefined behaviour, and times before 1970 are given with negative nanoseconds (findings).", "quantifier": "every mounted file, every item, every value of the directory entry", "why_tests_cant": "the time arithmetic overflows for some of the 2^64 times only", "anchors": ["olecftools/mount_fuse.c: mount_fuse_getattr, mount_fuse_set_stat_info", "olecftools/mount_file_entry.c: mount_file_entry_get_modification_time, mount_file_entry_get_file_mode, mount_file_entry_get_size"]}
{"id": "C55", "title": "readdir of a mounted directory", "statement": "readdir succeeds exactly when every line is accepted by FUSE and every sub item has a convertible name, and then lists \".\", \"..\" and the sub items in order, each with its file name and its stat structure. What is listed is found at the path of the directory and the name, with the same stat structure. A sub item whose name cannot be converted ends the listing with an error and hides all later items; \"..\" has an empty stat structure (findings).", "quantifier": "every mounted file, every directory, every behaviour of the filler function", "why_tests_cant": "agreement between two operations over all files", "anchors": ["olecftools/mount_fuse.c: mount_fuse_readdir, mount_fuse_filldir", "olecftools/mount_file_entry.c: mount_file_entry_get_sub_file_entry_by_index"]}
{"id": "C56", "title": "Reading a mounted file", "statement": "A read of a mounted stream at an offset returns exactly the bytes of the stream from there, cut at its end, whatever was read before; it never returns other bytes, even if the I/O layer fails in between. Reading calls of any size one after the other until nothing is returned gives the whole stream. Sizes above INT_MAX give EINVAL; items that are not streams and negative offsets give EIO.", "quantifier": "every mounted file, stream, offset, size and I/O behaviour", "why_tests_cant": "all offsets, sizes and faults", "anchors": ["olecftools/mount_fuse.c: mount_fuse_read", "olecftools/mount_file_entry.c: mount_file_entry_read_buffer_at_offset"]}
{"id": "C57", "title": "Histories of FUSE calls", "statement": "Whatever calls are made in between, an open handle answers reads and listings as if it had just been opened; no history of calls on a mounted file is undefined behaviour if the item times can be represented. After every history the number of allocated file entries is the number of open handles plus the number of directories that were closed: releasedir never frees its entry (finding).", "quantifier": "every sequence of calls, every file and I/O behaviour", "why_tests_cant": "all call histories; the leak grows with the uptime of the mount only", "anchors": ["olecftools/mount_fuse.c: mount_fuse_open, mount_fuse_release, mount_fuse_opendir, mount_fuse_releasedir"]}
{"id": "C58", "title": "Python file objects as I/O layer", "statement": "A file opened through a Python file object is read correctly: if the object behaves like a file (its reads give at most what was asked for, from its position), every complete read gives the bytes of the file at that offset and no buffer is overrun, however often the object raises exceptions or gives less. If the object never fails, opening gives exactly what opening the file gives, its streams can be read at any later time, and get_size without a size method finds the size and restores the position. An object whose read returns more bytes than asked for overruns the buffer, and get_size reports success when the object raised an exception (findings).", "quantifier": "every Python file object, every state of it, every file", "why_tests_cant": "the behaviour of arbitrary objects with failures at any call", "anchors": ["pyolecf/pyolecf_file_object_io_handle.c: pyolecf_file_object_read_buffer, pyolecf_file_object_seek_offset, pyolecf_file_object_get_offset, pyolecf_file_object_io_handle_seek_offset, pyolecf_file_object_io_handle_get_size"]}
{"id": "C59", "title": "Python integer conversion", "statement": "A Python int is converted to a signed 64-bit value exactly if it is in the range of int64_t, and to an unsigned one exactly if it is in 0..2^63-1, unchanged; all other objects are an error, and nothing is undefined. Values handed to Python are unchanged over the full ranges; unsigned values from 2^63 on cannot be passed back (finding).", "quantifier": "every Python value, every 64-bit value", "why_tests_cant": "the boundaries of 64-bit ranges", "anchors": ["pyolecf/pyolecf_integer.c: pyolecf_integer_signed_copy_to_64bit, pyolecf_integer_unsigned_copy_to_64bit, pyolecf_integer_signed_new_from_64bit, pyolecf_integer_unsigned_new_from_64bit"]}
{"id": "C60", "title": "Python stream objects", "statement": "For every history of read, read_buffer_at_offset, seek and tell calls with any arguments on a stream object, results, exceptions and positions are those of a file with the bytes of the stream: reads of None or without argument ask for the size of the stream, requests above 2^31-1 raise ValueError, reading no bytes at an offset does not move. If the I/O fails, whatever is returned is still right. Calls on items that are not streams raise IOError. On big-endian hosts a read without a size raises ValueError for every non-empty stream; a seek beyond 2^63-1 is undefined behaviour (findings).", "quantifier": "every sequence of calls with arbitrary Python arguments, every stream and I/O behaviour", "why_tests_cant": "all call histories; the big-endian path is not run by common test hosts", "anchors": ["pyolecf/pyolecf_stream.c: pyolecf_stream_read_buffer, pyolecf_stream_read_buffer_at_offset, pyolecf_stream_seek_offset, pyolecf_stream_get_offset"]}
{"id": "C61", "title": "Documents written after the format documentation are read back", "statement": "For every document (nested storages, streams of any contents, names of up to 64 bytes, 64-bit times) and every choice of byte order, sector size, short sector size and cut-off size, the file that the format documentation prescribes for it is opened, and the items of the opened file are those of the document in the same order: same names, times and nesting, and every stream can be read and has the same bytes. A client that walks over the items with get_number_of_sub_items and get_sub_item and reads each stream whole gets the document. A document without items opens to a file without items. Different documents have different files. The document must fit 109 SAT sectors, 257 SSAT sectors and 1025 directory sectors.", "quantifier": "every document, every byte order, sector size, short sector size and cut-off size", "why_tests_cant": "documents are unbounded trees with arbitrary contents; tests have a few sample files and no writer", "anchors": ["libolecf/libolecf_file.c: libolecf_file_open_read, libolecf_file_get_root_item", "libolecf/libolecf_io_handle.c: libolecf_io_handle_read_msat, libolecf_io_handle_read_sat, libolecf_io_handle_read_ssat, libolecf_io_handle_read_directory_entries, libolecf_io_handle_read_stream", "libolecf/libolecf_directory_tree.c: libolecf_directory_tree_create, libolecf_directory_tree_create_process_entry", "libolecf/libolecf_item.c: libolecf_item_get_number_of_sub_items, libolecf_item_get_sub_item", "documentation/OLE Compound File format.asciidoc"]}
{"id": "C62", "title": "Python programs are safe as long as they do not use objects of a closed file", "statement": "For every program that calls methods of a file object, of the items and of the sequences it gives, in any order, with any arguments and any files behind open calls, no call is undefined behaviour, if no object is used after a close that came behind the call that gave it. The only exceptions are a relative seek whose target exceeds 2^63-1 and a read from a file whose short sectors have less than 4 bytes. A program that keeps an item across a close follows a pointer to freed memory (finding).", "quantifier": "every sequence of calls, every argument, every file and I/O behaviour at each call", "why_tests_cant": "the programs and the life times of objects are unbounded; a use after free need not show in a test", "anchors": ["pyolecf/pyolecf_file.c: pyolecf_file_open, pyolecf_file_open_file_object, pyolecf_file_close, pyolecf_file_get_root_item, pyolecf_file_get_item_by_path", "pyolecf/pyolecf_item.c: pyolecf_item_get_name, pyolecf_item_get_size, pyolecf_item_get_sub_item_by_index, pyolecf_item_get_sub_item_by_name, pyolecf_item_get_sub_item_by_path", "pyolecf/pyolecf_items.c: pyolecf_items_getitem, pyolecf_items_iternext"]}
{"id": "C63", "title": "Python sequences of sub items", "statement": "A sequence from item.sub_items has the length item.number_of_sub_items. next() gives what get_sub_item gives for the number of items given so far, and StopIteration after the last one, whatever other calls come between; an index z gives what get_sub_item(z), or get_sub_item(length+z) for negative z, gives, ValueError outside of the length and IndexError outside of 64 bits. Findings: a second iteration over the same sequence is empty, an item whose name cannot be converted raises IOError on every next() so that the items behind it are not reached, and ValueError is raised where Python expects IndexError.", "quantifier": "every program, every sequence object in it, every index", "why_tests_cant": "interleavings of iteration with other calls are unbounded", "anchors": ["pyolecf/pyolecf_items.c: pyolecf_items_new, pyolecf_items_len, pyolecf_items_getitem, pyolecf_items_iter, pyolecf_items_iternext", "pyolecf/pyolecf_item.c: pyolecf_item_get_sub_items, pyolecf_item_get_sub_item_by_index"]}
{"id": "C64", "title": "A Python program that walks over a written file gets the document", "statement": "After any program that ended with close, a program that opens a file that holds a document, whatever its layout, with a file object, goes over all sub items with the iterator, takes names and times and reads each stream gets the document: the same nesting and order, times and bytes of streams, and the text of each name.", "quantifier": "every document and file that holds it, every program before, every I/O behaviour that delivers the file", "why_tests_cant": "documents and programs are unbounded", "anchors": ["pyolecf/pyolecf_file.c: pyolecf_file_open_file_object, pyolecf_file_get_root_item", "pyolecf/pyolecf_item.c: pyolecf_item_get_name, pyolecf_item_get_sub_items, pyolecf_item_get_creation_time_as_integer, pyolecf_item_get_modification_time_as_integer", "pyolecf/pyolecf_items.c: pyolecf_items_iternext", "pyolecf/pyolecf_stream.c: pyolecf_stream_read_buffer"]}
{"id": "C65", "title": "Python format version", "statement": "After a successful open and until the next close, get_format_version gives 'major.minor' from bytes 26 and 24 of the header in its byte order if both are at most 9, and raises ValueError otherwise. So it raises for every version that the format documentation lists (3.33, 3.62, 4.62; finding).", "quantifier": "every file, every program between open and the call", "why_tests_cant": "all values of the version fields", "anchors": ["pyolecf/pyolecf_file.c: pyolecf_file_get_format_version"]}
{"id": "C66", "title": "Python file object", "statement": "The answers of the file object follow from the calls and answers before: open succeeds exactly if the mode starts with r, the file is closed, and the library opens the file; otherwise it raises ValueError or IOError and changes nothing; close raises IOError on a closed file and otherwise closes, so that the object can be used again. The codepage is set exactly for the names of the 15 documented codepages; getting it always gives the name of the last one set, or cp1252 at the start and after a close.", "quantifier": "every sequence of calls, every file and I/O behaviour at each call", "why_tests_cant": "all call histories with failures at any call", "anchors": ["pyolecf/pyolecf_file.c: pyolecf_file_open, pyolecf_file_open_file_object, pyolecf_file_close, pyolecf_file_get_ascii_codepage, pyolecf_file_set_codepage_from_string, pyolecf_file_get_root_item", "pyolecf/pyolecf_codepage.c: pyolecf_codepage_to_string"]}
{"id": "C67", "title": "Classes of Python items", "statement": "An item got from another item or from a sequence is a plain item exactly if it has no methods of streams, and a property set stream exactly if it is a stream named \\005SummaryInformation or \\005DocumentSummaryInformation; the class stays the same whatever is called later. Items got from the file object are never property set streams, so the same stream has two classes depending on how it was reached (finding).", "quantifier": "every program, every item and name", "why_tests_cant": "all names; dependence on the way to the item", "anchors": ["pyolecf/pyolecf_item.c: pyolecf_item_get_item_type_object", "pyolecf/pyolecf_file.c: pyolecf_file_get_item_type_object"]}
{"id": "C68", "title": "Python objects are independent", "statement": "As long as the file is not closed, calls on other objects and on the file, including other objects for the same stream, do not change any answer of an item object: in particular each stream object has its own position.", "quantifier": "every program, every object, every call on it", "why_tests_cant": "interleavings are unbounded", "anchors": ["pyolecf/pyolecf_item.c: pyolecf_item_new", "pyolecf/pyolecf_stream.c: pyolecf_stream_get_offset", "libolecf/libolecf_item.c: libolecf_item_initialize"]}
{"id": "C69", "title": "Queries on a file object that is not open", "statement": "On a file object that is not open (never opened, after a failed open, or closed) get_root_item reports no item, the number of unallocated blocks is 0, and a lookup of a path never finds an item: it reports no item for a path that starts with two separators and an error for empty paths, single characters and names between separators. No query changes the object.", "quantifier": "every history of calls that leaves the object not open, every path, every query", "why_tests_cant": "all histories with failures; all paths", "anchors": ["libolecf/libolecf_file.c: libolecf_file_get_root_item, libolecf_file_get_item_by_utf8_path, libolecf_file_get_item_by_utf16_path, libolecf_file_get_number_of_unallocated_blocks"]}
{"id": "C70", "title": "Memory of a property set", "statement": "Reading a property set never frees a structure that is not in memory and makes each once. A set that is returned consists of exactly the structures in memory, and freeing it frees each of them once and leaves none. When reading fails, what stays in memory is nothing if the header is not accepted, and otherwise exactly one section with the properties read of it so far, which nobody can free (finding).", "quantifier": "every stream content, I/O behaviour and value library", "why_tests_cant": "leaks on all error paths; any number of sections and properties", "anchors": ["libolecf/libolecf_property_set.c: libolecf_property_set_read, libolecf_property_set_free", "libolecf/libolecf_property_section.c: libolecf_property_section_read, libolecf_property_section_free, libolecf_internal_property_section_free", "libolecf/libolecf_property_value.c: libolecf_internal_property_value_free", "libolecf/libolecf_property_set_stream.c: libolecf_property_set_stream_get_set"]}
{"id": "C71", "title": "Reference counts of Python objects", "statement": "In every program that uses file, item, property set, section, value and sequence objects, every object and every native structure behind it is released exactly once and exactly when nothing refers to it any more: objects the program refers to, and their parents, stay; all others, and the native memory of all others, are gone. The only uses of released memory are method calls on items, or sequences of sub items, of a file that was closed meanwhile (finding); property sets, sections and values stay usable.", "quantifier": "every program of constructor calls, open, close, method calls with any outcome, and copied or dropped references in any order", "why_tests_cant": "orders of dropping references are unbounded; leaks and double frees are not observable by results", "anchors": ["pyolecf/pyolecf_file.c: pyolecf_file_init, pyolecf_file_free, pyolecf_file_open, pyolecf_file_open_file_object, pyolecf_file_close", "pyolecf/pyolecf_item.c: pyolecf_item_new, pyolecf_item_free, pyolecf_item_get_sub_item_by_index", "pyolecf/pyolecf_items.c: pyolecf_items_new, pyolecf_items_free", "pyolecf/pyolecf_property_set.c: pyolecf_property_set_new, pyolecf_property_set_free", "pyolecf/pyolecf_property_section.c: pyolecf_property_section_free", "pyolecf/pyolecf_property_value.c: pyolecf_property_value_free", "pyolecf/pyolecf_file_object_io_handle.c: pyolecf_file_object_io_handle_initialize, pyolecf_file_object_io_handle_free"]}
{"id": "C72", "title": "Python objects for property sets", "statement": "In every program, each set, section and value object stands for a set, section or value of the stream it was got from, and no call has undefined behaviour. Looping over the sections of a set and over the properties of each section shows every class identifier, identifier, type and data of the set once, in order, and then ends. A value answers integer, boolean, datetime and string with the bytes of its entry, signed or unsigned, in the byte order of the set and in the encoding of its type, and with an IOError for all other types. Indices outside the list raise an error; in a sequence, but not in the methods of set and section, a negative index counts from the end.", "quantifier": "every program of calls, stream contents, index, value type and byte order", "why_tests_cant": "all contents, all orders of calls, all integer values", "anchors": ["pyolecf/pyolecf_property_set_stream.c: pyolecf_property_set_stream_get_set", "pyolecf/pyolecf_property_set.c: pyolecf_property_set_get_class_identifier, pyolecf_property_set_get_section_by_index, pyolecf_property_set_get_sections", "pyolecf/pyolecf_property_section.c: pyolecf_property_section_get_property_by_index", "pyolecf/pyolecf_property_sections.c: pyolecf_property_sections_getitem, pyolecf_property_sections_iternext", "pyolecf/pyolecf_property_values.c: pyolecf_property_values_getitem, pyolecf_property_values_iternext", "pyolecf/pyolecf_property_value.c: pyolecf_property_value_get_data, pyolecf_property_value_get_data_as_boolean, pyolecf_property_value_get_data_as_integer, pyolecf_property_value_get_data_as_datetime, pyolecf_property_value_get_data_as_string", "pyolecf/pyolecf_guid.c: pyolecf_string_new_from_guid"]}
{"id": "C73", "title": "Output of olecfinfo", "statement": "For every file the tool olecfinfo ends without undefined behaviour. If the file cannot be opened it prints nothing and fails. Otherwise it prints the version and the sector sizes, then every item of the file once, each before the items below it and in the order of the tree, with indentation by depth, name and size, then the property sets in the root items called 0x05SummaryInformation and 0x05DocumentSummaryInformation with every section and property in order. It stops at the first thing that cannot be shown and then fails; otherwise it succeeds. Each item takes one line, without control characters, and if no name has a backslash or begins with a space the listing determines all names, sizes and depths. Numbers can be read back; the property set shown is the one in the bytes of the stream. Strings are not escaped, so two different files can have the same output (finding).", "quantifier": "every file content, I/O behaviour, option and result of the external libraries within their contracts", "why_tests_cant": "all trees, names, sizes and property sets; that the listing determines the items is about pairs of files", "anchors": ["olecftools/olecfinfo.c: main", "olecftools/info_handle.c: info_handle_file_fprint, info_handle_items_fprint, info_handle_item_fprint, info_handle_unallocated_blocks_fprint, info_handle_property_value_fprint, info_handle_property_section_fprint, info_handle_property_set_fprint, info_handle_summary_information_fprint, info_handle_document_summary_information_fprint"]}
{"id": "C74", "title": "Command lines of the tools", "statement": "For every string of options and every list of words, getopt tells of the options in the order of the words, with the argument that is the rest of the word or the next word, until the first error, a word that is no option or one that begins with two hyphens, and the words after that are the operands. Each tool shows its usage and succeeds on -h, shows its version on -V, and shows its usage and fails on an unknown letter or a missing argument or operand, whichever comes first. Otherwise it starts with the flags that were given, the last argument of each option, the first operand as source (for olecfmount the second as mount point), and for olecfexport, if no target is given, the part of the source after the last path separator as target. Nothing is undefined unless a word is a single hyphen (finding).", "quantifier": "every string of options without a question mark, every non-empty list of words", "why_tests_cant": "all groupings of letters and all numbers of words", "anchors": ["olecftools/olecftools_getopt.c: olecftools_getopt", "olecftools/olecfinfo.c: main", "olecftools/olecfexport.c: main", "olecftools/olecfmount.c: main"]}
{"id": "C75", "title": "Runs of olecfexport", "statement": "A run changes nothing that was there, except that it appends to the log file; all that is new is the log, the directory named after the target, and in it directories and data files with the beginning of a stream of the source. If that directory exists or the target is empty the run fails and changes nothing; if the source cannot be opened it does not succeed and makes nothing but the log. The log tells of every directory made, once, and of no other. A run that succeeds has opened the source and made the directory and has the lines of the log in the log file; if these tell of no trouble then every item is stored with all its data, in a directory of its own with its name or a default name that the log tells of. If every item can be exported and no call fails, the run succeeds with exactly the expected directories and files and a log without trouble or default names.", "quantifier": "every command line, file content, I/O behaviour, file system state and sequence of failing calls", "why_tests_cant": "every call of the operating system may fail at any point; all trees and all contents of the disk", "anchors": ["olecftools/olecfexport.c: main", "olecftools/export_handle.c: export_handle_set_target_path, export_handle_create_items_export_path, export_handle_export_file, export_handle_export_item, export_handle_export_sub_items", "olecftools/log_handle.c: log_handle_open, log_handle_close, log_handle_printf"]}
{"id": "C76", "title": "Reading the compound object stream", "statement": "For every stream, libolecf_compound_object_stream_read returns without undefined behaviour, never moves the offset back, and releases each buffer it allocates exactly once; no buffer has more than 128 MiB. If it succeeds, the sectors of the stream hold from the old offset on a compound object as documented (header, user type, clipboard format, reserved string, then nothing, another number, or the same strings in Unicode), up to the new offset, with other numbers for the standard clipboard formats than documented. Every such object in a readable stream is read if memory suffices. An object with a standard clipboard format as documented is always refused (finding). The size of the stream does not bound the reads, what should be ignored after an empty reserved string is read, and a failed call moves the offset (findings).", "quantifier": "every file content, I/O behaviour, result of malloc, stream and offset below 2^32", "why_tests_cant": "all objects with all sizes of strings, all contents of sectors", "anchors": ["libolecf/libolecf_compound_object_stream.c: libolecf_compound_object_stream_read"]}
{"id": "C77", "title": "Functions of the Python module", "statement": "pyolecf.check_file_signature gives True or False according to the first 8 bytes of the file with the given name (str or bytes), and raises IOError if the file cannot be read or is shorter, TypeError for other arguments and RuntimeError for strings without UTF-8 encoding; check_file_signature_file_object gives the same for the contents of a file object. pyolecf.open and open_file_object give a file object exactly if the mode begins with r and the library opens the file, and it behaves like a new file object after its method open; every file that opens passes the signature check. A name with a NUL is cut there (finding).", "quantifier": "every argument, mode, file content, behaviour of the file system and program that uses the object", "why_tests_cant": "all contents, names and programs; agreement of two functions on all files", "anchors": ["pyolecf/pyolecf.c: pyolecf_check_file_signature, pyolecf_check_file_signature_file_object, pyolecf_open_new_file, pyolecf_open_new_file_with_file_object", "libolecf/libolecf_support.c: libolecf_check_file_signature"]}
{"id": "C78", "title": "Windows names and paths of the mount tool", "statement": "On Windows, the file name that the mount tool gives an item is a text without control characters, NUL or any of the characters that Windows reserves in file names; each character of the name stands as itself, as ^^ for the escape character, or as ^x and two or ^U and eight hexadecimal digits. Items with different names have different file names, and the path of file names converted back is the path of names, so it leads to the item that the names lead to, unless a name has a backslash: then the path is that of another item (finding). For all names and paths, well formed or not, nothing is written or read outside the buffers.", "quantifier": "every name and path in UTF-16, every tree and comparison function", "why_tests_cant": "all characters in all positions, injectivity over pairs of names", "anchors": ["olecftools/mount_path_string.c: mount_path_string_copy_hexadecimal_to_integer_32_bit, mount_path_string_copy_from_item_path, mount_path_string_copy_to_item_path", "olecftools/mount_file_system.c: mount_file_system_get_item_by_path, mount_file_system_get_filename_from_item"]}
{"id": "C79", "title": "Files mounted on Windows: opening, information and reading", "statement": "The path of file names of a mounted file leads to the item that the names lead to, a path that leads nowhere is not found. GetFileInformation gives the attributes, the three times and the size of the item, and leaves the rest of the structure; an item without data leaves the size that was there before (finding). CreateFile (both versions of the callback) refuses to write or create, refuses a file that is already open, opens what exists and changes no other file. ReadFile gives the bytes of the stream at the offset and nothing else. What an open file answers does not depend on the calls between. No history of callbacks is undefined, except where a name is too long in builds with long paths, and all entries that are allocated are those of open files. The volume names are given if the buffer has more than 6 characters; one of 6 stays unfilled (finding).", "quantifier": "every mounted file, history of callbacks, I/O behaviour, path and build", "why_tests_cant": "all interleavings of callbacks, all contents and all failures of reads", "anchors": ["olecftools/mount_dokan.c: mount_dokan_CreateFile, mount_dokan_ZwCreateFile, mount_dokan_OpenDirectory, mount_dokan_CloseFile, mount_dokan_ReadFile, mount_dokan_GetFileInformation, mount_dokan_GetVolumeInformation, mount_dokan_set_file_information", "olecftools/mount_handle.c: mount_handle_get_file_entry_by_path", "olecftools/mount_file_entry.c: mount_file_entry_read_buffer_at_offset"]}
{"id": "C80", "title": "Files mounted on Windows: listings", "statement": "FindFiles succeeds exactly if the path leads to an item, every name of a sub item can be converted and has at most 25 UTF-16 units, and the caller takes all entries; it then gives the entry of the directory, one for its parent and those of its sub items in order, with their attributes, times, sizes and names, and frees what it allocated. What is listed is found at the path and name listed with the same values. An item whose name cannot be converted or has more than 25 units, like \\005DocumentSummaryInformation, hides all items after it; in builds with long paths such a name is written past the end of a structure (findings). The parent is not listed as a directory (finding).", "quantifier": "every mounted file, directory, callback and build", "why_tests_cant": "all trees and names; a limit that depends on the length of one name", "anchors": ["olecftools/mount_dokan.c: mount_dokan_FindFiles, mount_dokan_filldir, mount_dokan_set_find_data", "olecftools/mount_file_entry.c: mount_file_entry_get_sub_file_entry_by_index", "olecftools/mount_path_string.c: mount_path_string_copy_from_item_path"]}
{"id": "C81", "title": "Property sets that are written are read back", "statement": "A property set written after the documentation of the format, with any sections, identifiers and values (integers, times, booleans, GUIDs, strings, wide strings and blobs), is read back from any readable stream: the header, the sections in order, and for each value the identifier, the type and the bytes, and the getters answer the value that was written. Different sets have different bytes. In a document written after the documentation, opened and followed to the stream, the set is found, and the Python objects walk over the same lines. Of a set written in big-endian order only the header is read, never a section; the dictionary (property 0) is read as a typed value.", "quantifier": "every property set, document, place of the stream and I/O behaviour that reads the file", "why_tests_cant": "the sets and documents are unbounded; needs a writer that is independent of the reader", "anchors": ["libolecf/libolecf_property_set.c: libolecf_property_set_read", "libolecf/libolecf_property_section.c: libolecf_property_section_read, libolecf_property_section_read_list_entry_data", "libolecf/libolecf_property_value.c: libolecf_property_value_read_data", "libolecf/libolecf_property_value.c: libolecf_property_value_get_data_as_32bit_integer", "pyolecf/pyolecf_property_set.c"]}
{"id": "C82", "title": "Items of a document are found by their names", "statement": "In a file that holds a document, whatever its layout (C85), the lookups by UTF-8 and UTF-16 paths, from the root and from any item that names lead to, with or without a backslash before and after the names, answer the item that the names lead to in the document: the one with the type, name, times and size written, the sub items of the document in order, and the data. Names that lead nowhere are answered with 0, and with an error in a document whose root has no sub link. What is read from a stream so found are the written bytes, and a property set so found has the written values.", "quantifier": "every document, file that holds it, path and I/O behaviour that reads the file", "why_tests_cant": "documents and paths are unbounded; the answer is compared with the document that was written and not with what the library says of the file", "anchors": ["libolecf/libolecf_file.c: libolecf_file_get_item_by_utf8_path, libolecf_file_get_item_by_utf16_path", "libolecf/libolecf_item.c: libolecf_item_get_sub_item_by_utf8_path, libolecf_item_get_sub_item_by_utf16_path", "libolecf/libolecf_stream.c: libolecf_stream_read_buffer"]}
{"id": "C83", "title": "A mounted document shows its items", "statement": "Of a mounted document (FUSE) getattr at the path of names answers the size, mode, number of links and times of the item that the names lead to, and ENOENT if they lead nowhere; reading a stream with any sizes and offsets gives the written bytes, also when read whole piece by piece; readdir lists the items of a storage in order, under their file names and with their values. The values and listings are unique.", "quantifier": "every document, file that holds it, path, size, offset and I/O behaviour that reads the file", "why_tests_cant": "documents, paths and sequences of reads are unbounded; needs the document that was written", "anchors": ["olecftools/mount_fuse.c: mount_fuse_getattr, mount_fuse_open, mount_fuse_read, mount_fuse_readdir", "olecftools/mount_file_system.c", "olecftools/mount_file_entry.c"]}
{"id": "C84", "title": "An exported document is the document", "statement": "The export of a document whose items have names of their own makes a directory for every item, in the directory of the storage it is in, with a file that holds the written bytes of a stream and nothing for a storage, and nothing else. The data of the stream that names lead to is in the directories of these names. A run of olecfexport on such a document succeeds, leaves what was there, makes these directories and files, and its log names exactly these directories. Of a document without items only the directory is made.", "quantifier": "every document, file that holds it, directory, log, content of the disk before and I/O behaviour that reads the file", "why_tests_cant": "documents are unbounded; what is made is compared with the document that was written", "anchors": ["olecftools/export_handle.c: export_handle_export_file, export_handle_export_item, export_handle_export_sub_items", "olecftools/olecfexport.c: main"]}
{"id": "C85", "title": "A file that holds a document shows it, whatever its layout", "statement": "When the sectors, tables and directory slots of a file say that it holds a document (storages with sub items in the order of their slots, streams with complete chains, in sectors or short sectors), the file is opened, however its sectors and links are arranged, and the items of the opened file are those of the document, in order, with names, times and readable contents; a client that walks over the items and reads the streams gets the document. Conversely, if the items that the library shows for a file are those of a document, then the file holds it. A file holds at most one document, and the files of the writer of C61 hold the documents they are written for.", "quantifier": "every file, document and I/O behaviour that reads the file", "why_tests_cant": "files and documents are unbounded; the layouts are all that the documentation of the format allows, not those of some writer", "anchors": ["libolecf/libolecf_file.c: libolecf_internal_file_open_read", "libolecf/libolecf_directory_tree.c: libolecf_directory_tree_create", "libolecf/libolecf_item.c: libolecf_item_get_sub_item", "libolecf/libolecf_stream.c: libolecf_stream_read_buffer"]}
{"id": "C86", "title": "Opening and closing a file when memory is refused", "statement": "Whatever requests for memory are refused while a file is opened, and whatever the file and the I/O are, opening returns success or failure, releases no memory that is not in use, and leaves no memory behind when it fails; when it succeeds, closing the file at any later time releases exactly the memory that opening added. If no request is refused, the result and the reads are those that the other properties describe. Opening succeeds in spite of a refused request only if the request was made while the sector allocation table or the short sector allocation table was read; that table is then all zeros, or shorter, and everything else is read as ever with that table. Refuted: that a file that was opened successfully shows what it holds; with one refused request opening succeeds and a stream is read with other bytes.", "quantifier": "every sequence of granted and refused requests, every file and I/O behaviour, every memory in use before", "why_tests_cant": "every subset of the requests may fail, and their number grows with the file", "anchors": ["libolecf/libolecf_file.c: libolecf_internal_file_open_read", "libolecf/libolecf_file.c: libolecf_file_close", "libolecf/libolecf_io_handle.c: libolecf_io_handle_read_sat", "libolecf/libolecf_io_handle.c: libolecf_io_handle_read_ssat", "libolecf/libolecf_io_handle.c: libolecf_io_handle_read_directory_entries", "libolecf/libolecf_directory_tree.c: libolecf_directory_tree_create", "libolecf/libolecf_allocation_table.c: libolecf_allocation_table_resize"]}
{"id": "C87", "title": "A document mounted on Windows shows its items", "statement": "Of a document mounted on Windows (Dokan, old and new interface, with and without long paths) the information at the path of names has the attributes, times and size of the item that the names lead to, in any structure that was passed in, and the answer is that nothing was found if they lead nowhere. Opening the path of a stream to read with an unused handle succeeds, and after any sequence of calls that does not close the handle, with any I/O, reading with any size and offset gives the written bytes. The listing of a storage whose names have at most 25 units has its items in order, under their file names and with their values, and leaves nothing allocated. The values and listings are unique.", "quantifier": "every document, file that holds it, path, build, state of the mount, sequence of calls, size and offset", "why_tests_cant": "documents, paths and sequences of calls are unbounded; the code is compiled on Windows only", "anchors": ["olecftools/mount_dokan.c: mount_dokan_GetFileInformation, mount_dokan_CreateFile, mount_dokan_ZwCreateFile, mount_dokan_OpenDirectory, mount_dokan_ReadFile, mount_dokan_FindFiles", "olecftools/mount_file_system.c", "olecftools/mount_file_entry.c"]}
{"id": "C88", "title": "Cut off files and faulty I/O: a document is never shown wrongly once its tables were read", "statement": "Let the I/O layer fail, or deliver less than asked for, at any time while a file is opened and read. If opening succeeds and the sectors of the two allocation tables that are in the file could be read, then header, tables, entries and items are those that are found without failures, every read of a stream gives its bytes or an error, and a client that walks over all items and reads all streams gets the document or an error. Opening succeeds if all that is asked for is delivered. What is left of a file that was cut off is opened if the sectors that opening looks at are left, looks like the whole file if the tables are left, and streams whose bytes are left can be read. A file written with its tables first is opened exactly if its directory is left, and then never shows anything wrong. The condition on the tables is needed: a file with the short table at its end, cut off there, is opened and shows other bytes.", "quantifier": "every file, I/O behaviour, cut, document and layout", "why_tests_cant": "the failures can come at any read and the cut at any byte; the wrong bytes come without any error", "anchors": ["libolecf/libolecf_file.c: libolecf_file_open_read", "libolecf/libolecf_io_handle.c: libolecf_io_handle_read_msat, libolecf_io_handle_read_sat, libolecf_io_handle_read_ssat, libolecf_io_handle_read_directory_entries, libolecf_io_handle_read_stream", "libolecf/libolecf_stream.c: libolecf_stream_read_buffer"]}
{"id": "C89", "title": "Only some bytes of a file count: class identifiers, reserved fields, unused slots, slack and appended bytes do not", "statement": "Let a file be opened, and let another file have the same bytes at these offsets: the header without the class identifier (8 to 23) and the reserved fields (34 to 43, 52 to 55), the sectors of the master chain and of the two allocation tables, and of the directory slots the type and, if the slot is used, the name, the links, the times, the first sector and the lower half of the size. Let the same sectors that opening needs be inside. Then it is opened with the same header, tables, entries and items. If the bytes at the positions of the streams are the same as well, it holds the same document. If they are not, it holds a document with the same items, names, times and sizes: whoever writes elsewhere than to these offsets can change bytes of streams only, and a stream only by writing to its positions. Bytes appended to a file, and a cut behind the last byte that counts, do not change the document.", "quantifier": "every file, document and layout, and every other file that agrees at these offsets", "why_tests_cant": "the claim is about all values of the other bytes, including those of files much longer than the first", "anchors": ["libolecf/libolecf_io_handle.c: libolecf_io_handle_read_file_header, libolecf_io_handle_read_msat, libolecf_io_handle_read_sat, libolecf_io_handle_read_ssat, libolecf_io_handle_read_directory_entries", "libolecf/libolecf_directory_entry.c: libolecf_directory_entry_read_data", "libolecf/libolecf_stream.c: libolecf_stream_read_buffer"]}
{"id": "C90", "title": "Property sets when memory is refused: a set is whole or not returned, nothing is freed twice, and at most one section leaks", "statement": "Let any of the requests for memory be refused while libolecf_property_set_stream_get_set runs: the set, its sections, their arrays, the values, the buffers and the values of libfvalue. The call returns 1 or -1 and never releases a block that is not in use. It returns a set only if no request was refused, and then exactly the one that is in the stream; libolecf_property_set_free releases its blocks and no others. If it fails, the blocks that stay in use are none or those of a single section: its structure and its array, all requested for a section, and values. If the set is in the bytes of the stream these are the values of the first properties of one of its sections, so a property that could not be read to its end is released. In a damaged stream they are the properties that the first entries of a list in the stream describe. It is false that nothing leaks: for a set in a stream that can be read, a single refused request can leave 21 blocks behind.", "quantifier": "every memory (any pattern of refusals), every stream and volume, every I/O layer, every behaviour of libfvalue and every state of the memory before", "why_tests_cant": "the claim is about every pattern of refusals at every request, on every stream", "anchors": ["libolecf/libolecf_property_set_stream.c: libolecf_property_set_stream_get_set", "libolecf/libolecf_property_set.c: libolecf_property_set_initialize, libolecf_property_set_free, libolecf_property_set_read", "libolecf/libolecf_property_section.c: libolecf_property_section_initialize, libolecf_internal_property_section_free, libolecf_property_section_free, libolecf_property_section_read", "libolecf/libolecf_property_value.c: libolecf_property_value_initialize, libolecf_internal_property_value_free, libolecf_property_value_read_data"]}
{"id": "C91", "title": "C programs and the lifetimes of objects: what is undefined is exactly use after close or free, and nothing leaks", "statement": "Consider any program of calls of the public functions on variables for files, items, property sets, sections and values, which start as NULL and are passed to the functions, in any order, whether the calls succeed or not. A call is undefined only if its object is gone: an item whose file was closed or freed since it was got, directly or through other items, and also if the file was opened again; a section or a value whose set was freed; or if it is one of two calls on a stream in good order: a relative seek beyond 2^63 - 1, or a read of more than 2^30 bytes with short sectors of less than 4 bytes. A call through an object that is gone is undefined if its other arguments are accepted. Property sets outlive their items and files. At any time no file, item or set is in two variables, none is in no variable, and none of these variables dangles; the free functions set their variable to NULL whatever they answer; and once all these variables are NULL no memory and no handle made by the library is left, whatever failed before.", "quantifier": "every program, every file and I/O behaviour, which may differ for each call, every behaviour of the libraries outside, and every pattern of refusals of memory for files, items and sets", "why_tests_cant": "the claim is about all sequences of calls, with failures at any point", "anchors": ["libolecf/libolecf_file.c: libolecf_file_initialize, libolecf_file_free, libolecf_file_open, libolecf_file_open_file_io_handle, libolecf_file_close, libolecf_file_get_root_item, libolecf_file_get_item_by_utf8_path", "libolecf/libolecf_item.c: libolecf_item_initialize, libolecf_item_free, libolecf_item_get_sub_item", "libolecf/libolecf_property_set_stream.c: libolecf_property_set_stream_get_set", "libolecf/libolecf_property_set.c: libolecf_property_set_free, libolecf_property_set_get_section_by_index", "libolecf/libolecf_property_section.c: libolecf_property_section_free, libolecf_property_section_get_property_by_index", "libolecf/libolecf_property_value.c: libolecf_property_value_free"]}
{"id": "C92", "title": "Files do not disturb each other: the calls on one file answer as if the others were not there", "statement": "Let a program use several files, in any order, each item, property set, section, value and handle with one of them only. The answers to the calls for one file are those of the program that makes only these calls: what the other files are, whether they are open, freed, broken or moved in makes no difference. This is false if two files are given the same handle: opening the second file can fail or succeed depending on the first, and closing the first closes the handle under the second.", "quantifier": "every program, every assignment of variables to files, every file and I/O behaviour, every behaviour of the libraries outside", "why_tests_cant": "the claim is about all interleavings of calls", "anchors": ["libolecf/libolecf_file.c: libolecf_file_open_file_io_handle, libolecf_file_close, libolecf_file_free", "libolecf/libolecf_item.c: libolecf_item_initialize, libolecf_item_free", "libolecf/libolecf_io_handle.c: libolecf_io_handle_initialize, libolecf_io_handle_clear"]}
{"id": "C93", "title": "What olecfinfo prints of a document: format, all items with their names, sizes and places, and the summary information, however the file is laid out", "statement": "Let a file hold a document, with its sectors in any places and order, whose names can be converted to text. olecfinfo prints the version and the sector sizes of the header, then each storage and stream, below the one it is in and in the order of the document, with its name and the number of its bytes (0 for a storage), then the property sets in the items of the root called \\5SummaryInformation and \\5DocumentSummaryInformation, as they are in the bytes of these streams. It succeeds if the file can be closed and each of these two items is missing or is a stream with a property set whose values can be shown; if one is a storage or a stream without a set, it stops after the heading of it. If no name begins with a space or has a backslash, two files with the same output have the same version, sector sizes and items, in the same places, with the same names and sizes. A document without items is shown as such.", "quantifier": "every document, every layout of it in a file, every behaviour of the I/O layer that reads the file, every behaviour of the libraries outside within their contracts", "why_tests_cant": "the claim is about all documents and all layouts", "anchors": ["olecftools/olecfinfo.c: main", "olecftools/info_handle.c: info_handle_file_fprint, info_handle_items_fprint, info_handle_item_fprint, info_handle_summary_information_fprint, info_handle_document_summary_information_fprint", "libolecf/libolecf_directory_tree.c: libolecf_directory_tree_create"]}
{"id": "C94", "title": "Exports of damaged documents: every item keeps its place, every data file is a beginning of its stream, and whole where the stream can be read", "statement": "Let a file hold a document, with its sectors in any places and order, whose items get names of their own on the host. Reads of the file may fail or fall short at any time, or the file may be cut off. If it is opened, and its allocation tables could be read, then olecfexport's export succeeds and makes exactly the directories of all items, each with a data file: empty for a storage, and for a stream all its bytes if the reads of these bytes are answered (in a file that is cut off: if all its bytes are before the end; on a medium with bytes that cannot be read: if none of them is in the stream), otherwise its first bytes, a multiple of 32768. If calls of the host fail as well, the export succeeds unless its own directory cannot be made, nothing that was there changes, and of each item there is nothing, its directory, or the directory with a beginning of its data, in the place that belongs to it; items below a storage are there only if its directory and data file are. Of a file of the writer of C61, all this holds as soon as the directory is before the end.", "quantifier": "every document, every layout of it, every place where the file ends, every pattern of failing and short reads and of failing calls of the host", "why_tests_cant": "the claim is about all documents and all patterns of failures", "anchors": ["olecftools/export_handle.c: export_handle_export_file, export_handle_export_item, export_handle_export_sub_items", "libolecf/libolecf_stream.c: libolecf_stream_read_buffer", "libolecf/libolecf_file.c: libolecf_internal_file_open_read"]}
{"id": "C95", "title": "A read of a stream asks the I/O layer for the bytes it returns, each once and in order, and for no other", "statement": "A read of n bytes at offset c of a stream, of which the chain is complete, asks the I/O layer for pieces of the file; put together they are the bytes of the stream from c on, in order and each once: all n of them (or up to the end of the stream) if the read succeeds, a beginning of them if it fails. So two I/O layers that answer alike for these bytes give the same result, whatever they do elsewhere; if these bytes are delivered the read returns them even if every other request fails; if one of them is never delivered, the read fails. On a medium with bytes that cannot be read, a read of a stream that is intact succeeds if and only if none of the bytes it was asked for is one of these, and then returns the bytes of the stream.", "quantifier": "every stream of every file, every offset and size, every I/O layer, every set of bytes that cannot be read", "why_tests_cant": "the claim is about requests that are not made, and about every pattern of failing requests", "anchors": ["libolecf/libolecf_io_handle.c: libolecf_io_handle_read_stream", "libolecf/libolecf_stream.c: libolecf_stream_read_buffer"]}
{"id": "C96", "title": "olecfinfo on damaged files tells a beginning of what it tells of the whole file, and all if it reports success", "statement": "Take any file and run olecfinfo on it twice: once reads of the file may fail or fall short at any time, once they do not. If the file was opened and its allocation tables could be read, the text of the first run is a beginning of the text of the second, and if the first run reports success the runs are the same. If the file holds a document, the lines on the file and on all its items are printed whatever fails later; each of the two property sets is shown just as it is in the document, unless reads of bytes of its own stream are not answered (the file ends before the end of the stream, or the medium has bytes in it that cannot be read): then the heading may be the last thing printed, and the tool reports failure. Damage of other streams does not change the text. A file of the writer of C61 is opened, and all this holds, as soon as the directory is before its end.", "quantifier": "every file, every document, every layout of it, every place where the file ends, every pattern of failing and short reads, every contract-abiding set of libraries", "why_tests_cant": "the claim compares runs of the tool over all files and all patterns of failures", "anchors": ["olecftools/info_handle.c: info_handle_file_fprint, info_handle_summary_information_fprint, info_handle_document_summary_information_fprint", "libolecf/libolecf_property_set.c: libolecf_property_set_read", "libolecf/libolecf_stream.c: libolecf_stream_read_buffer"]}
{"id": "C97", "title": "A mount of a file that cannot all be read answers as the mount of the whole file, but for reads that fail", "statement": "Take any opened file that is mounted, with FUSE or with any of the Dokan versions, and any sequence of callbacks. Answer the reads of the file in two ways: once they may fail or fall short at any time, once they do not. All replies are the same, but that a read callback may report that it failed (EIO, STATUS read fault) instead of its reply; and as many file entries stay allocated. A read callback of a stream whose chain is intact has the same reply as soon as the bytes that it asks for are delivered, whatever failed before. If the file holds a document and its tables could be read when it was mounted, the paths, directories and attributes are those of the document (C83 and C87 hold); a read of a file gives the bytes of the stream or fails, a program that reads it to the end without a failure has all of it, and on a medium with bytes that cannot be read exactly the reads that need one of them fail.", "quantifier": "every file, every sequence of callbacks, every pattern of failing and short reads, every document and path, every set of bytes that cannot be read, every build of the Dokan callbacks", "why_tests_cant": "the claim relates two runs of a mount over all sequences of callbacks and all patterns of failures", "anchors": ["olecftools/mount_fuse.c: mount_fuse_read, mount_fuse_open, mount_fuse_readdir, mount_fuse_getattr", "olecftools/mount_dokan.c: mount_dokan_ReadFile", "olecftools/mount_file_entry.c: mount_file_entry_read_buffer_at_offset", "libolecf/libolecf_stream.c: libolecf_stream_read_buffer_at_offset"]}
{"id": "C98", "title": "A run of olecfmount ends with success exactly if the loop was reached and ended well, and serves the document", "statement": "Run olecfmount on any host: memory may be refused, the clock, the codepage, the source, the arguments, the mount, the daemon and the loop of FUSE may fail. The run with FUSE 2 or 3 has a defined end. Its exit status is success exactly if all that is needed to reach the loop worked and the loop returned 0. Then the things it did are, in order: the warning for an unknown codepage, fuse_new and fuse_mount with the words and the mount point of the command line, the daemon unless -v is given, and the loop, in which the callbacks answer for the source as it was opened; otherwise the last thing it did is to print a line that tells what failed, and no callback was called. What it allocated is freed once, but for the file object and its file handle, which stay if the source was opened, and the mount handle if FUSE never calls destroy. The codepage of -c changes nothing but the warning. If the source holds a document, getattr answers in the loop with the attributes of the place in the document, or ENOENT, after any callbacks, and a file that is opened and read later gives the bytes of the stream. With Dokan the exit status is success also if DokanMain fails, and a line tells of it; without either library it is a failure. -h and -V are success and do nothing, wrong options a failure.", "quantifier": "every host (every pattern of failures), every command line, every sequence of callbacks, every source, every document and path", "why_tests_cant": "needs hosts on which each step fails, and all sequences of callbacks", "anchors": ["olecftools/olecfmount.c: main", "olecftools/mount_handle.c: mount_handle_initialize, mount_handle_free, mount_handle_open", "olecftools/mount_file_system.c: mount_file_system_initialize, mount_file_system_free", "olecftools/mount_fuse.c: mount_fuse_destroy"]}
{"id": "C99", "title": "Asking leaves no trace: each answer is that of the program without the calls before it that only ask, signal an abort, or fail", "statement": "Take any C program of calls of the public functions, on any number of files, items and property sets, and any call in it. Leave out the calls before it that only ask (sizes, version, codepage, types, names, times, offsets, class identifiers, property values), all libolecf_file_signal_abort, and all calls that fail among: making a file object, setting the codepage, lookups of items, sections and values, reads and seeks of a stream. The call gives the same answer as before. The same holds for Python programs: attributes, get_ methods, signal_abort, len and iter, and lookups, seeks and iterations that raise an exception or give None can be left out. So an abort that was signalled never changes what any later call gives.", "quantifier": "every program, every call in it, every answer of the I/O layer and of the libraries at every call", "why_tests_cant": "needs all programs and all places in them where calls can be inserted", "anchors": ["libolecf/libolecf_file.c: libolecf_file_signal_abort, libolecf_file_get_sector_size, libolecf_file_get_format_version, libolecf_file_get_ascii_codepage, libolecf_file_get_item_by_utf8_path", "libolecf/libolecf_item.c: libolecf_item_get_type, libolecf_item_get_utf8_name, libolecf_item_get_sub_item", "libolecf/libolecf_stream.c: libolecf_stream_get_offset, libolecf_stream_seek_offset, libolecf_stream_read_buffer", "pyolecf/pyolecf_file.c: pyolecf_file_signal_abort"]}
{"id": "C100", "title": "olecfinfo when memory runs out: all is released but a part of one property section, the output is cut, and the run fails", "statement": "For any run of olecfinfo after its options, whichever requests for memory are refused: nothing undefined happens; in the end the info handle, the file and all items, names and strings are released, and what can be left in use is at most the blocks of one section of a property set, nothing at all after a successful run; a failed run prints a message to stderr; the output is the beginning of what is to be told of the file as it was opened, and after a successful run it is all of that. Once the file was opened the lines on its version and sector sizes are in the output, also of a run that fails later. If nothing is refused, output and status are those of C73. If memory for anything but the sector allocation table or the short table is refused, the run fails. A single refused request for the short table can give a successful run without a message that shows a wrong number (found).", "quantifier": "every file, every answer of the I/O layer and of the libraries, every set of refused requests, with and without -a, every answer for the codepage, from every state of the memory", "why_tests_cant": "a test would have to fail each allocation of each run, for all files", "anchors": ["olecftools/olecfinfo.c: main", "olecftools/info_handle.c: info_handle_initialize, info_handle_free, info_handle_open_input, info_handle_close, info_handle_items_fprint, info_handle_item_fprint, info_handle_property_value_fprint, info_handle_property_section_fprint, info_handle_property_set_fprint, info_handle_summary_information_fprint, info_handle_document_summary_information_fprint", "libolecf/libolecf_file.c: libolecf_file_initialize, libolecf_file_open, libolecf_file_close, libolecf_file_free"]}
{"id": "C101", "title": "The fuzz targets: for every input they end, leave nothing in use and reach what they are to test", "statement": "For any input and any answers of the I/O layer, whichever requests for memory are refused, a run of file_fuzzer or item_fuzzer ends without undefined behaviour and leaves exactly the memory in use that was in use before; so does any sequence of runs in one process. If nothing is refused, the values that the calls return are determined: the open fails exactly if reading the file fails; after an open that succeeds no call on items fails, the first sub item is got exactly if the root item has sub items, and every object is freed. If memory for anything but the two tables is refused, one of the calls returns -1.", "quantifier": "every input, every answer of the I/O layer, every set of refused requests, every sequence of runs, from every state of the memory", "why_tests_cant": "fuzzing itself runs the targets on samples of inputs; a leak in the harness or a call that can never be reached would stay unnoticed", "anchors": ["ossfuzz/file_fuzzer.cc: LLVMFuzzerTestOneInput", "ossfuzz/item_fuzzer.cc: LLVMFuzzerTestOneInput", "libolecf/libolecf_file.c: libolecf_file_initialize, libolecf_file_open_file_io_handle, libolecf_file_get_root_item, libolecf_file_close, libolecf_file_free", "libolecf/libolecf_item.c: libolecf_item_get_number_of_sub_items, libolecf_item_get_sub_item, libolecf_item_free"]}
{"id": "C102", "title": "Exporting when memory runs out: nothing leaks, nothing is released twice, and what is missing is told", "statement": "Whichever requests for memory are refused during a run of olecfexport: when the run ends, the memory in use is what was in use before it, and nothing is released twice or after its release. Refusals cause no undefined behaviour: if closing the log does not fail and no name in use is shorter than nine characters, the run is defined. If no request is refused, the status, the lines of the log and the files on the disk are those of C75. If memory for anything but the two allocation tables is refused, the run fails or the log tells that an item could not be exported. Whatever is refused and whatever fails, all files and directories that were there stay as they were, but for the log file, to which is appended, and the log tells of every directory that is made, once, and of no other. (If memory for a table is refused, the run can succeed with a log that tells of nothing and yet export wrong bytes: shown by an example.)", "quantifier": "every machine (host, source, faults of the host, conversions), all settings, every set of refused requests, from every state of the memory and the disk", "why_tests_cant": "error paths that free half-made items run only when an allocation fails; tests do not make each of the allocations fail in each of the items of a tree of any depth", "anchors": ["olecftools/olecfexport.c: main", "olecftools/export_handle.c: export_handle_initialize, export_handle_free, export_handle_set_target_path, export_handle_set_export_path, export_handle_create_items_export_path, export_handle_open_input, export_handle_close, export_handle_export_file, export_handle_export_item, export_handle_export_sub_items", "olecftools/log_handle.c: log_handle_initialize, log_handle_free, log_handle_close"]}
