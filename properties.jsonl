{"id": "C01", "title": "Length prefix round-trips", "statement": "Appending any 64-bit length to a memory buffer with the variable-size length writer and reading it back with the matching reader returns the same length, consumes exactly the bytes that were written, and leaves whatever follows untouched.", "quantifier": "every length below 2^64, every prior buffer content, every following byte string", "why_tests_cant": "The encoding changes shape at 250/505/65785/2^32; 2^64 values times arbitrary neighbours cannot be enumerated.", "anchors": ["src/core/sis_memory.c: sis_memory_cat_ssize, sis_memory_get_ssize, sis_memory_cat_byte, sis_memory_get_byte"]}
{"id": "C02", "title": "Length prefix is recognised only when complete", "statement": "The 'try' form of the length reader never claims success on a buffer that holds only a strict prefix of an encoded length, and on a buffer holding a whole encoded length it reports exactly that length.", "quantifier": "every length below 2^64, every split point of its encoding, every following byte string", "why_tests_cant": "The wrong answer appears only at particular split points of particular encodings; a stream can be cut anywhere.", "anchors": ["src/core/sis_memory.c: sis_memory_try_ssize"]}
{"id": "C03", "title": "Bit stream preserves every written field", "statement": "Any sequence of writes of fixed-width bit fields to a bit stream, read back with the same widths in the same order, yields the same values; later writes never disturb earlier fields, and bytes outside those a write covers stay as they were.", "quantifier": "every sequence of (width, value) with widths 1..64 that fits in the buffer, every starting bit position", "why_tests_cant": "Alignment of fields to byte boundaries has unboundedly many combinations; tests try a handful of layouts.", "anchors": ["src/core/zip/sis_bits.h: sis_bits_stream_put, sis_bits_stream_get"]}
{"id": "C04", "title": "Compressed signed integers round-trip", "statement": "A signed 64-bit integer written with the compressing integer encoder is read back unchanged, and the reader stops exactly at the end of what was written.", "quantifier": "every int64 value, every stream position, every following content", "why_tests_cant": "2^64 inputs with 14 size classes; the failing input (if any) is a single boundary value.", "anchors": ["src/core/zip/sis_bits.h: sis_bits_stream_put_int, sis_bits_stream_get_int"]}
{"id": "C05", "title": "Compressed unsigned and short integers round-trip", "statement": "Values written with the unsigned, small-unsigned and short encoders are read back unchanged and the reader stops exactly at the end of what was written; values outside the range of an encoder are rejected without writing anything.", "quantifier": "every 32-bit unsigned value for the unsigned encoder and every value for the two bounded encoders, every stream position", "why_tests_cant": "Size-class boundaries and stream alignment multiply; only a proof covers them all.", "anchors": ["src/core/zip/sis_bits.h: put_uint/get_uint, put_sint/get_sint, put_short/get_short"]}
{"id": "C06", "title": "Incremental integers round-trip", "statement": "A value encoded as the difference from a previous value is decoded, with the same previous value, to the original value.", "quantifier": "every pair (current, previous) of int64 values", "why_tests_cant": "The difference can overflow for 2^127 of the pairs' worth of extreme inputs, which random tests do not draw.", "anchors": ["src/core/zip/sis_bits.h: sis_bits_stream_put_incr_int, sis_bits_stream_get_incr_int"]}
{"id": "C07", "title": "Fixed-width strings round-trip through delta compression", "statement": "A fixed-width text field compressed against its previous value decodes, given the same previous value, to the original text.", "quantifier": "every field width, every pair (current text, previous text), including empty text", "why_tests_cant": "Encodings depend on the common prefix of two strings; empty and shrinking strings are corner cases of an infinite family.", "anchors": ["src/core/zip/sis_bits.h: sis_bits_stream_put_incr_chars, sis_bits_stream_get_incr_chars, sis_bits_stream_put_chars, sis_bits_stream_get_chars"]}
{"id": "C08", "title": "A compressed table decompresses to itself (block API)", "statement": "Compressing a block of fixed-layout records with the one-shot compressor and decompressing with the one-shot decompressor returns the same records in the same order.", "quantifier": "every record layout of integer and unsigned fields, every number of records, every field value representable by the codec", "why_tests_cant": "Records depend on their predecessors; the family of tables is infinite in rows, columns and values.", "anchors": ["src/core/zip/sis_incrzip.c: sis_incrzip_compress, sis_incrzip_uncompress, _incrzip_compress, sis_incrzip_set_bags, sis_incrzip_get_bags"]}
{"id": "C09", "title": "A compressed table decompresses to itself (streaming API)", "statement": "Compressing records with the step-wise compressor and decompressing the blocks it emits with the step-wise decompressor returns the same records in the same order.", "quantifier": "every layout, every number of records and every grouping of them into packets", "why_tests_cant": "The failure depends on how many records share one packet, which tests fix at one value.", "anchors": ["src/core/zip/sis_incrzip.c: sis_incrzip_compress_step, sis_incrzip_uncompress_step"]}
{"id": "C10", "title": "The compressor stays inside its output buffer", "statement": "The compressor never produces more bytes than the output buffer it allocates for its input.", "quantifier": "every layout, every record content, every record count", "why_tests_cant": "Worst-case expansion needs adversarial values in every field; ordinary data compresses well.", "anchors": ["src/core/zip/sis_incrzip.c: sis_incrzip_compress", "src/core/zip/sis_bits.h: sis_bits_stream_put_uint, sis_bits_stream_put_int"]}
{"id": "C11", "title": "The struct array behaves as a sequence", "statement": "Under any sequence of push, bulk push, update, insert, delete, pop and clear, reading index i of the struct array gives exactly the i-th element of the abstract sequence obtained by the same operations, the count agrees, and an out-of-range read is reported as absent.", "quantifier": "every operation sequence, every element size and content", "why_tests_cant": "Head offset, capacity growth and in-place moves interact over unbounded histories.", "anchors": ["src/core/sis_list.c: sis_struct_list_push, sis_struct_list_pushs, sis_struct_list_update, sis_struct_list_insert, sis_struct_list_get, sis_struct_list_delete, sis_struct_list_pop, sis_struct_list_clear"]}
{"id": "C12", "title": "Limiting a struct array keeps the newest records", "statement": "After limiting a struct array to n elements the array contains exactly the last n elements pushed (or all if fewer), in order.", "quantifier": "every content, every limit, every history of earlier pops", "why_tests_cant": "Depends on the hidden head offset left by earlier pops.", "anchors": ["src/core/sis_list.c: sis_struct_list_limit, sis_struct_list_pack"]}
{"id": "C13", "title": "The chunked queue returns the element asked for", "statement": "In the chunked list, under any sequence of pushes and pops, get(i) returns the i-th remaining element in push order and pop returns the oldest remaining one.", "quantifier": "every chunk size, every sequence of pushes and pops, every index", "why_tests_cant": "Wrong answers appear only for particular (chunk size, popped count, index) residues.", "anchors": ["src/core/sis_list.c: sis_node_list_push, sis_node_list_get, sis_node_list_pop"]}
{"id": "C14", "title": "The sorted list is a sorted map", "statement": "After any sequence of set and delete-by-key operations the sorted list holds its keys in the chosen order with no key twice, and looking a key up yields the value of the most recent set that was not deleted.", "quantifier": "every sequence of set/delete operations, both orders, every key", "why_tests_cant": "Binary-search boundary behaviour must be right at every length and position.", "anchors": ["src/core/sis_list.c: sis_sort_list_set, sis_sort_list_find, sis_sort_list_del, sis_sort_list_deli"]}
{"id": "C15", "title": "The bounded ranking list keeps the top entries", "statement": "A bounded ranking list fed any sequence of (key, score) pairs stays ordered by score, never exceeds its bound, and keeps the best entries.", "quantifier": "every sequence of updates, every bound", "why_tests_cant": "Interaction of replacement, eviction and ordering over unbounded histories.", "anchors": ["src/core/sis_list.c: sis_pint_slist_set, sis_pint_slist_delk, sis_pint_slist_del"]}
{"id": "C16", "title": "Time-range queries are exact", "statement": "For a time-ordered series, a range query [start, stop] returns exactly the records whose time lies in the closed interval, in order, and reports 'none' exactly when there are none.", "quantifier": "every time-ordered series (with repeats), every start and stop, every starting guess of the interpolation search", "why_tests_cant": "The search starts from an interpolated guess and walks; correctness must not depend on the guess, the spacing or duplicates.", "anchors": ["workers/sisdb/sisdb_fmap_ctrl.c: sisdb_fmap_cmp_range, _fmap_cmp_range_head, _fmap_cmp_range_tail, sisdb_fmap_cmp_same, sisdb_fmap_unit_goto"]}
{"id": "C17", "title": "Writing keeps the series ordered and loses nothing", "statement": "Writing a record into a time-ordered series without uniqueness fields leaves the series time-ordered and its contents equal to the old contents plus the record.", "quantifier": "every ordered series, every record, every starting guess", "why_tests_cant": "Insertion position is found from an interpolated guess; ties and ends are the corner cases of an infinite family.", "anchors": ["workers/sisdb/sisdb_fmap_write.c: sisdb_fmap_cxt_mindex_update, sisdb_fmap_cxt_solely_update", "workers/sisdb/sisdb_fmap.c: sisdb_fmap_cxt_update"]}
{"id": "C18", "title": "Every written record reaches the disk on save", "statement": "Saving after any sequence of writes stores every record written since the last save.", "quantifier": "every sequence of write batches including the very first one", "why_tests_cant": "Depends on bookkeeping of per-day write marks across an unbounded history of batches.", "anchors": ["workers/sisdb/sisdb_fmap.c: sisdb_fmap_cxt_update", "workers/sisdb/sisdb_fmap_write.c: sisdb_fmap_cxt_save, sisdb_fmap_unit_add_idx, _disk_save_fmap_sdb"]}
{"id": "C19", "title": "Websocket framing round-trips", "statement": "Any message framed for websocket, whatever its size and number of fragments, is unframed to the same bytes and the same kind, and exactly the bytes of that message are consumed, leaving following bytes for the next message.", "quantifier": "every message content and length, every trailing byte string, masked or unmasked fragments", "why_tests_cant": "Length classes 125/126/65535 and 16K fragmentation multiply with stream position; streams are unbounded.", "anchors": ["src/core/net/sis_net.ws.c: sis_net_pack_ws, sis_net_unpack_ws, sis_net_pack_ws_message, sis_net_unpack_ws_message"]}
{"id": "C20", "title": "A partial websocket message is never consumed", "statement": "If only a strict prefix of a framed message has arrived, the unframer reports 'incomplete' and consumes nothing, so delivery does not depend on how TCP splits the stream.", "quantifier": "every message, every split point", "why_tests_cant": "TCP may cut a stream at any byte; the number of cuts grows with message size.", "anchors": ["src/core/net/sis_net.ws.c: sis_net_unpack_ws, sis_net_unpack_ws_check"]}
{"id": "C21", "title": "Hostile websocket bytes cannot corrupt memory", "statement": "Whatever bytes a peer sends, unframing either yields a message, asks for more, or rejects, without reading or writing outside the received and output buffers.", "quantifier": "every byte string a peer can send", "why_tests_cant": "The set of hostile inputs is infinite; one bad header suffices.", "anchors": ["src/core/net/sis_net.ws.c: sis_net_unpack_ws, sis_net_unpack_ws_message, sis_net_unpack_ws_check"]}
{"id": "C22", "title": "Binary network messages round-trip", "statement": "A network message encoded in the binary format decodes to a message with the same fields.", "quantifier": "every combination of present fields, every serial number, every string content, single values and value lists", "why_tests_cant": "2^7 field combinations times unbounded contents.", "anchors": ["src/core/net/sis_net.node.c: sis_net_encoded_normal, sis_net_decoded_normal"]}
{"id": "C23", "title": "Network send buffers are FIFO and never lose or split messages", "statement": "Messages pushed into a connection's memory queue are read back complete, exactly once, in the order they were pushed, however reads and pushes interleave.", "quantifier": "every sequence of pushes of any size and batch reads", "why_tests_cant": "Node boundaries depend on cumulative sizes over an unbounded history.", "anchors": ["src/core/net/sis_net.node.c: sis_net_mems_push, sis_net_mems_read, sis_net_mems_pop, sis_net_mems_free_read"]}
{"id": "C24", "title": "Network node queue is FIFO and counts correctly", "statement": "Objects pushed to the node queue are handed out in batches exactly once and in order, and the reported count and size equal what is still waiting.", "quantifier": "every interleaving of pushes, batch reads of any limit, and frees", "why_tests_cant": "Batching and read-list recycling over unbounded histories.", "anchors": ["src/core/net/sis_net.node.c: sis_net_nodes_push, sis_net_nodes_read, sis_net_nodes_free_read"]}
{"id": "C25", "title": "Connection slots are never shared", "statement": "Registering a connection returns a slot number not in use by any live connection, the stored connection is retrievable until it is stopped, and registering more connections than the initial capacity is safe.", "quantifier": "every sequence of register/stop/lookups at any times", "why_tests_cant": "Needs more than a thousand live connections or long histories of recycling.", "anchors": ["src/core/net/sis_net.node.c: sis_net_list_new, sis_net_list_get, sis_net_list_stop, _net_list_set_grow"]}
{"id": "C26", "title": "A torn log tail is dropped, all whole records are kept", "statement": "If the write-ahead log is cut at any byte by a crash, recovery keeps exactly the records wholly before the cut, truncates the rest, and later appends are readable after them.", "quantifier": "every sequence of records, every cut position, any stale memory contents in the reader's buffer", "why_tests_cant": "Crash points are as many as bytes in the log; stale buffer contents are arbitrary.", "anchors": ["src/core/disk/sis_disk_files.c: sis_disk_files_seek_log, sis_disk_files_open_append, sis_disk_files_write", "src/core/sis_memory.c: sis_memory_get_ssize"]}
{"id": "C27", "title": "Replaying a log delivers every record", "statement": "Reading a log file from the start delivers every appended record exactly once and in order, whatever the record sizes and the size of the file.", "quantifier": "every sequence of records of any size", "why_tests_cant": "Misreads depend on where a record header falls relative to 16 MB read chunks and on tiny records at the end of file.", "anchors": ["src/core/disk/sis_disk_files.c: sis_disk_files_read_fulltext"]}
{"id": "C28", "title": "An acknowledged log write survives a crash", "statement": "Once the log write call returns successfully, the record is on stable storage and is returned by the next replay even if the process is killed immediately.", "quantifier": "every sequence of writes, every crash point after a return", "why_tests_cant": "A test cannot observe buffers lost in a crash without crashing at every point.", "anchors": ["src/core/disk/sis_disk_files.c: sis_disk_files_write", "src/os/linux/os_file.c: sis_file_write, sis_file_fsync"]}
{"id": "C29", "title": "No command runs before login", "statement": "When users are configured, a connection that has not logged in successfully cannot cause any command other than login to be executed or logged.", "quantifier": "every history of connects, disconnects, logins and commands on every connection", "why_tests_cant": "Needs all interleavings of connection lifecycles, including reuse of connection numbers.", "anchors": ["workers/sisdb_server/sisdb_server.c: sisdb_server_get_access, cb_reader_recv, cmd_sisdb_server_auth, _cb_connect_close"]}
{"id": "C30", "title": "Access levels are enforced", "statement": "A read-only user can execute no writing, deleting or administrative command and a read-write user can execute no deleting or administrative command.", "quantifier": "every method with any combination of access flags, every user level", "why_tests_cant": "Flag combinations are many and the check mixes two numbering schemes; the failing pairs are specific.", "anchors": ["workers/sisdb_server/sisdb_sys.c: sis_sys_access_method, sis_sys_access_atoi", "workers/sisdb_server/sisdb_server.c: cb_reader_recv"]}
{"id": "C31", "title": "Login requires the exact password", "statement": "A login succeeds only if the user exists and the given password equals the stored one; a login attempt never crashes the server.", "quantifier": "every user table, every name and password", "why_tests_cant": "Near-miss passwords form an infinite family.", "anchors": ["workers/sisdb_server/sisdb_server.c: cmd_sisdb_server_auth"]}
{"id": "C32", "title": "Writes are logged before they are executed", "statement": "Every executed command that modifies data was appended to the log before it was executed, in the same order, and nothing is logged that was refused.", "quantifier": "every history of requests from every connection", "why_tests_cant": "Order between log and execution has to hold on every path including refusals.", "anchors": ["workers/sisdb_server/sisdb_server.c: cb_reader_recv"]}
{"id": "C33", "title": "The two-list queue delivers exactly once in order", "statement": "Objects pushed concurrently into the fast queue are delivered to the consumer exactly once, each producer's objects in that producer's order.", "quantifier": "every schedule of any number of producers and the consumer thread", "why_tests_cant": "Thread schedules cannot be enumerated by tests.", "anchors": ["src/core/sis_list.lock.c: sis_fast_queue_push, _fast_queue_move, _thread_fast_reader"]}
{"id": "C34", "title": "The wait queue hands out one object at a time", "statement": "The wait queue never hands out an object while the previous one is still being processed, and hands objects out exactly once in push order.", "quantifier": "every schedule of pushers, consumer completions and the queue thread", "why_tests_cant": "Schedules cannot be enumerated by tests.", "anchors": ["src/core/sis_list.lock.c: sis_wait_queue_push, sis_wait_queue_set_busy, _thread_wait_reader"]}
{"id": "C35", "title": "Broadcast-list readers never touch freed messages", "statement": "A reader attached to a broadcast list receives every message pushed after it attached, exactly once and in order, and never accesses a message the list has released.", "quantifier": "every schedule of pushers, readers and the cleaning thread", "why_tests_cant": "The failing schedule needs the cleaner to run between two steps of a reader.", "anchors": ["src/core/sis_list.lock.c: sis_lock_list_push, _thread_reader, _thread_watcher, sis_lock_queue_pop, sis_lock_queue_next"]}
{"id": "C36", "title": "The named list is an insertion-ordered map", "statement": "Setting, replacing and looking up named items behaves as a case-insensitive map whose indices are stable and follow first-insertion order.", "quantifier": "every sequence of set/get operations, every names", "why_tests_cant": "Unbounded histories of replacements and lookups.", "anchors": ["src/core/sis_map.c: sis_map_list_set, sis_map_list_get, sis_map_list_get_index, sis_map_list_geti"]}
{"id": "C37", "title": "Record fields never overlap", "statement": "For every table definition the fields of a record occupy disjoint byte ranges inside the record, and storing a value in one field changes no other field; reading it back gives the value reduced to the field's width.", "quantifier": "every list of field definitions, every value", "why_tests_cant": "Layouts are unbounded; overlap would only show for specific mixtures of widths.", "anchors": ["src/core/sis_dynamic.c: sis_dynamic_db_create", "src/core/sis_dynamic.h: _sis_field_set_int, _sis_field_get_int, _sis_field_set_uint, _sis_field_get_uint"]}
{"id": "C38", "title": "Converting between table versions preserves same-named fields", "statement": "Converting records from one table definition to another stores in every same-named field of the target the value of the source field.", "quantifier": "every pair of table definitions, every record", "why_tests_cant": "Pairs of layouts (order, width, type) are unbounded; the shortcut path is taken only for particular pairs.", "anchors": ["src/core/sis_dynamic.c: sis_dynamic_convert, _sis_dynamic_match, sis_dynamic_method_copy, sis_dynamic_method_owner"]}
{"id": "C39", "title": "Calendar functions agree with the calendar", "statement": "Moving a date by a number of days gives the date that many days away, the day-difference and weekday functions agree with the calendar, and the next-working-day function returns the first weekday from the day it moves to.", "quantifier": "every calendar date, offset and time zone offset", "why_tests_cant": "The error shows only on particular weekdays and offsets.", "anchors": ["src/core/sis_time.c: sis_time_get_idate, sis_time_make_time, sis_time_get_week_ofday, sis_time_get_dayoffset_ofday, sis_time_get_offset_day, sis_time_next_work_day"]}
{"id": "C40", "title": "Reference counting frees exactly once", "statement": "A network message or shared object whose holders each take and release one reference is freed exactly when the last reference is released and never used afterwards.", "quantifier": "every interleaving of takes and releases", "why_tests_cant": "Interleavings of reference operations by many holders are unbounded.", "anchors": ["src/core/net/sis_net.msg.c: sis_net_message_incr, sis_net_message_decr", "src/core/sis_obj.c: sis_object_incr, sis_object_decr", "src/core/sis_dynamic.c: sis_dynamic_db_incr, sis_dynamic_db_decr"]}
{"id": "C41", "title": "The memory buffer is a byte queue", "statement": "After any history of appends, partial reads, compactions, reservations and clears, the unread content of a memory buffer is exactly what a plain byte queue would contain; growth and compaction are never visible.", "quantifier": "every operation history, every byte content and size", "why_tests_cant": "Reallocation and compaction depend on cumulative sizes over an unbounded history.", "anchors": ["src/core/sis_memory.c: sis_memory_cat, sis_memory_move, sis_memory_pack, sis_memory_grow, sis_memory_set_maxsize, sis_memory_clear"]}
{"id": "C42", "title": "Decoding a received message never reads outside it", "statement": "Decoding the bytes of a message received from the network, whatever they are, reads no memory outside the receive buffer.", "quantifier": "every byte sequence a client can send, every buffer size", "why_tests_cant": "Attacker-chosen bytes; a read outside the buffer often goes unnoticed.", "anchors": ["src/core/net/sis_net.node.c: sis_net_decoded_normal, sis_net_memory_get_sds, sis_net_memory_get_int"]}
{"id": "C43", "title": "The hash table is a map", "statement": "Any sequence of look-ups, additions, replacements, deletions, growing and shrinking on a hash table gives the answers of a plain map with the same key equality, while entries are being moved between the two tables or not, and the number of entries is counted right.", "quantifier": "every sequence of operations, every key equality and hash fit for each other, in particular names ignoring case with any hash secret and 64-bit numbers", "why_tests_cant": "Entries move between the two tables step by step over the history; only particular histories and collisions reach each combination.", "anchors": ["src/core/sis_dict.c: sis_dict_add, sis_dict_replace, sis_dict_find, _dict_generic_delete, sis_dict_expand, sis_dict_rehash", "src/core/sis_map.c: _sis_dict_strcase_hash, _sis_dict_int64_hash"]}
{"id": "C44", "title": "A loop over a hash table visits every entry once", "statement": "A loop over a hash table whose body looks up, adds, overwrites or deletes the visited entry ends, never uses a freed entry, and visits every entry present at the start and not deleted exactly once.", "quantifier": "every reachable table, every behaviour of the loop body within those operations", "why_tests_cant": "Depends on collisions, on pending moves between the tables and on growth started by the body.", "anchors": ["src/core/sis_dict.c: sis_dict_get_iter, sis_dict_next, sis_dict_iter_free"]}
{"id": "C45", "title": "A named list frees each value once and never a reachable one", "statement": "When every value is handed over once, a value of a named list is freed at most once, never while a name leads to it, and no value is lost.", "quantifier": "every sequence of set, get and clear operations with distinct values", "why_tests_cant": "A double release or a leak shows only for particular orders of replacements.", "anchors": ["src/core/sis_map.c: sis_map_list_set, sis_map_list_clear", "src/core/sis_list.c: sis_pointer_list_update, sis_pointer_list_clear"]}
{"id": "C46", "title": "A table's special fields are fields it owns", "statement": "For every table definition, the time field of the created table is its first field of a time kind, the main index is that field or else the last one flagged, the uniqueness fields are those flagged in order, and each of these pointers refers to a live field of the table.", "quantifier": "every list of field definitions", "why_tests_cant": "The pointers only go wrong for particular repetitions of names; the memory they refer to often still looks intact in a test.", "anchors": ["src/core/sis_dynamic.c: sis_dynamic_db_create", "src/core/sis_map.c: sis_map_list_set"]}
{"id": "C47", "title": "Reads of a key without time order show every write", "statement": "For a key whose records have no time, every read returns the records at the positions asked for of the stored records followed by all batches written since the start.", "quantifier": "every stored content, every sequence of writes and reads of any length", "why_tests_cant": "A reload from disk discards writes depending on a read counter of 8 bits, so the fault needs particular orders of first writes and reads, or hundreds of reads.", "anchors": ["workers/sisdb/sisdb_fmap.c: sisdb_fmap_cxt_update, sisdb_fmap_cxt_read, sisdb_fmap_cxt_del, _fmap_calc_nots_count", "workers/sisdb/sisdb_fmap_read.c: sisdb_fmap_cxt_read_data"]}
{"id": "C48", "title": "A wait handle has one owner", "statement": "At any time no two owners hold the same wait handle, every handle lies in the pool, and a request fails only if all handles of the pool are held.", "quantifier": "any number of threads requesting and releasing handles, every interleaving of their accesses to the pool", "why_tests_cant": "Two threads must pass the test of the same entry before either marks it; this depends on the schedule.", "anchors": ["src/core/sis_thread.c: sis_wait_malloc, sis_wait_free", "src/os/linux/os_thread.c: sis_thread_wait_init"]}
{"id": "C49", "title": "The read-write lock excludes writers and lets waiting threads in", "statement": "At any time the lock is held by one writer alone or by readers only, no assertion of the lock fails, and whenever nobody holds it some waiting thread gets it at its next attempt.", "quantifier": "any number of threads, every schedule of blocking and non-blocking calls", "why_tests_cant": "Exclusion and progress depend on the interleaving of many threads and on marks left by earlier failed attempts.", "anchors": ["src/core/sis_thread.c: sis_mutex_rw_lock_r, sis_mutex_rw_try_lock_r, sis_mutex_rw_unlock_r, sis_mutex_rw_lock_w, sis_mutex_rw_try_lock_w, sis_mutex_rw_unlock_w"]}
{"id": "C50", "title": "A JSON text is read as the value it denotes", "statement": "Every text of the JSON grammar whose outermost value is an array or object loads as the tree of that value: the same members in the same order, the same names, strings, numbers and booleans.", "quantifier": "every JSON text (RFC 8259 grammar), of any size and nesting", "why_tests_cant": "Values are lost or changed only for particular combinations of last members, escapes and number spellings; a test sees the texts it contains.", "anchors": ["src/core/sis_json.c: sis_json_load, _sis_parse_value, _sis_parse_string, _sis_parse_info, _sis_parse_number, _sis_parse_array, _sis_parse_object"]}
{"id": "C51", "title": "Loading any bytes as JSON terminates and refuses what is not JSON", "statement": "For every byte sequence, loading stops within a stack depth that does not depend on the input, and returns a tree only if the bytes are a JSON text.", "quantifier": "every byte sequence a client may send", "why_tests_cant": "The space of malformed inputs is unbounded and the depth of calls grows with the input.", "anchors": ["src/core/sis_json.c: sis_json_load, _sis_json_parse, _sis_parse_value, _sis_parse_array, _sis_parse_object"]}
{"id": "C52", "title": "Writing a JSON tree fits its buffers and can be read back", "statement": "Writing any tree, formatted or not, never writes beyond the memory allocated for it, and loading what was written gives the same tree.", "quantifier": "every tree of nodes, every depth, both formats", "why_tests_cant": "Buffer lengths are computed by formulas apart from the code that writes; an overrun needs a particular shape of tree.", "anchors": ["src/core/sis_json.c: sis_json_output, sis_json_output_zip, _sis_json_to_value, _sis_json_to_string, _sis_json_to_array, _sis_json_to_object"]}
{"id": "C53", "title": "A published message reaches exactly the subscribers of its name", "statement": "A message published under a name is delivered once to every client that has a subscription in force covering the name, and to no other client; a client that has given up its subscriptions or whose connection is closed has none in force.", "quantifier": "every history of subscriptions (exact, by beginnings, lists, stars) and ends of subscriptions, every published name, every order of the table of patterns", "why_tests_cant": "Deliveries depend on the combination of patterns of all clients and on the history; wrong deliveries are visible only to other clients.", "anchors": ["workers/sisdb_server/sisdb_sub.c: sisdb_sub_cxt_sub, sisdb_sub_cxt_hsub, sisdb_sub_cxt_unsub, sisdb_sub_cxt_pub, _set_sub_unit_type", "workers/sisdb/sisdb.c: cmd_sisdb_clear", "src/core/sis_str.c: sis_str_subcmp, sis_str_subcmp_strict, sis_str_divide, sis_str_divide_sds"]}
{"id": "C54", "title": "The server's send queue brings every client its own bytes, in order, and serves clients in turn", "statement": "Every client gets exactly the bytes handed over for it, in the order they were handed over, none twice and none lost while its connection stays open; a connection is closed only if its peer left or a write to it failed; memory in use by a write or by the reader thread is not freed; a client waits for at most one write of every other client.", "quantifier": "any number of clients, every interleaving of senders, reader thread, loop callbacks, connects, disconnects and failed writes", "why_tests_cant": "The queue is shared by three kinds of threads and reused slots; errors need a client to leave at a particular step of another client's write.", "anchors": ["src/core/net/sis_net.uv.c: _thread_net_reader, sis_net_uv_catch_next, sis_net_uv_catch_del, sis_net_uv_catch_push, sis_net_uv_catch_stop, cb_server_new_connect, cb_server_write_after, _cb_server_async_write, cb_server_write"]}
{"id": "C55", "title": "A text message is decoded to the content it was made from", "statement": "Decoding the text (JSON) form of any message gives back its name, serial number, fields, tag and values; fields may hold any bytes.", "quantifier": "every content of a message, every state of the memory around it", "why_tests_cant": "Losses depend on single characters of the fields (line feeds, backslashes at the end, zero bytes) and on their position.", "anchors": ["src/core/net/sis_net.node.c: _net_encoded_chars, sis_net_decoded_chars, sis_json_to_netmsg, _sis_json_node_get_sds", "src/core/sis_json.c: sis_json_object_set_int, sis_json_object_set_string, sis_json_output_zip, sis_json_load"]}
{"id": "C56", "title": "Messages sent over a connection arrive complete, unchanged and in order", "statement": "However the bytes sent over a connection are cut, at every moment the receiver has been handed exactly the messages that arrived completely, with their contents, in the order they were sent and in the form (binary or text) they were sent in, and the connection stays up.", "quantifier": "every sequence of messages in both forms, every cutting of the stream into chunks and batches, every moment", "why_tests_cant": "The number of ways to cut a stream is unbounded, and the path runs through encoding, framing, reassembly and decoding.", "anchors": ["src/core/net/sis_net.c: sis_net_make_message, sis_net_recv_message, _make_read_data", "src/core/net/sis_net.node.c: sis_net_encoded_normal, sis_net_decoded_normal", "src/core/net/sis_net.ws.c: sis_net_pack_ws, sis_net_unpack_ws"]}
{"id": "C57", "title": "Every block recorded in an index is read back unchanged, after any number of later runs", "statement": "A block written to a group of data files gets a place (file, offset, size). Reading that place, after the files were closed and after any number of later runs that append and open new files, gives the block's head and data exactly; files stay within the configured size.", "quantifier": "every sequence of runs, every sequence of blocks of any size below 2^64, every limit for files and for the cache", "why_tests_cant": "Places depend on the sizes of all earlier blocks, on cache flushes and on file changes; errors show only after many files or at particular sums of sizes.", "anchors": ["src/core/disk/sis_disk_files.c: sis_disk_files_write_saveidx, sis_safe_write, sis_disk_files_write_sync, sis_disk_files_close, sis_disk_files_open_create, sis_disk_files_open_append, sis_disk_files_read", "src/core/disk/sis_disk.io.c: sis_disk_ctrl_write_start, sis_disk_ctrl_write_stop"]}
{"id": "C58", "title": "Reading the data files from end to end gives all blocks in the order of writing", "statement": "Reading a closed group of data files in fixed-size pieces delivers exactly the blocks written in all runs, unchanged and in the order of writing, also if an earlier run was killed before it closed its files.", "quantifier": "every sequence of runs and blocks, every piece size, every content of the reading buffer's old memory", "why_tests_cant": "Errors need a block head on a piece boundary, or a crash at a particular step followed by another run.", "anchors": ["src/core/disk/sis_disk_files.c: sis_disk_files_read_fulltext, sis_disk_files_open_append, sis_disk_files_close", "src/core/sis_memory.c: sis_memory_get_ssize"]}
{"id": "C59", "title": "The accept value is the base64 text of SHA-1", "statement": "The text that sis_shacalc writes for any string is the base64 text of the SHA-1 hash of the string as FIPS 180-4 defines it, whatever the working memory holds.", "quantifier": "every string below 2^28 bytes, every content of the working array", "why_tests_cant": "The padding has different branches by length modulo 64; hashes of untested lengths are not comparable with anything but an independent definition.", "anchors": ["src/core/sis_sha1.c: sis_shacalc, _inner_hash, _clear_w_buffer, _rol"]}
{"id": "C60", "title": "A valid websocket request is answered by the right accept value, an answer is accepted only if it is one", "statement": "However its bytes are cut, a valid opening request of a websocket client gets an answer of status 101 with the accept value of its own key, bytes behind it stay for the connection; the client sends a valid request and goes on only after such an answer.", "quantifier": "every request by the grammar of RFC 6455 and RFC 7230, every cutting into pieces, every content of the memory behind the bytes received", "why_tests_cant": "What is read behind the bytes received depends on earlier connections and on how the network cuts the request.", "anchors": ["src/core/net/sis_net.ws.c: sis_net_ws_get_ask, sis_net_ws_get_ans, sis_net_ws_head_complete, sis_net_ws_get_key, sis_net_ws_chk_ans", "src/core/net/sis_net.c: sis_ws_recv_hand_ask, sis_ws_match_hand_ans, cb_server_recv_after, cb_client_recv_after", "src/core/sis_str.c: sis_strsub, sis_str_get_id"]}
{"id": "C61", "title": "Base64 texts are written as RFC 4648 says, are read back, and stay within the buffers given", "statement": "Encoding any bytes gives their base64 text, decoding it gives the bytes back, neither writes outside the buffer whose size it is told, and other texts are refused.", "quantifier": "all byte sequences, all texts, all buffer sizes", "why_tests_cant": "Writes outside a buffer by one byte depend on the length modulo three and are not visible in the result.", "anchors": ["src/core/zip/sis_utf8.c: sis_base64_encode, sis_base64_decode"]}
{"id": "C62", "title": "Time series written to data files are read back by their time, complete and in order", "statement": "Records written in any batches to a table with a time field are all found again: reading a range of time gives exactly the records of the range, in order of time, each once.", "quantifier": "every sequence of batches, every range, every time zone, tables that count seconds, minutes, milliseconds and days", "why_tests_cant": "Losses depend on where a batch begins relative to earlier ones and on batches that pass midnight; tests write one day at a time.", "anchors": ["src/core/disk/sis_disk_write.c: sis_disk_writer_sdb, sis_disk_writer_sdb_date, sis_disk_writer_sdb_year, _disk_writer_is_year", "src/core/disk/sis_disk.io.sdb.c: sis_disk_io_write_sdb, sis_disk_io_merge_sdb", "src/core/sis_math.h: sis_is_mixed", "src/core/sis_dynamic.c: sis_time_unit_convert, sis_dynamic_db_get_time", "src/core/disk/sis_disk_read.c: _disk_reader_get_sdb_obj, sis_disk_reader_make_sdb, _disk_reader_make_sdb_from_file", "src/core/disk/sis_disk_ctrl.c: sis_disk_get_sdb_scale, sis_disk_set_search_msec"]}
{"id": "C63", "title": "The list of contents of a store shows exactly what is in it", "statement": "After any history of adding, removing and reopening, the list of contents shows a key, table and date if and only if it was added and not removed since.", "quantifier": "every history of additions, removals and reopenings, every set of keys and tables, every content of old memory", "why_tests_cant": "An error in the bytes of a removal shows only after the file is read again, and depends on the value of the date.", "anchors": ["src/core/disk/sis_disk.io.sdb.c: sis_disk_io_write_map, cb_sis_disk_io_read_sdb_map, sis_disk_io_read_sdb_map", "src/core/disk/sis_disk_ctrl.c: sis_disk_map_merge, sis_disk_map_create"]}
{"id": "C64", "title": "The index of a file finds exactly the blocks of every series", "statement": "After the index of a file has been written and read, a reader of a key and table gets exactly the blocks written for them, in the order of writing, with all their places and times.", "quantifier": "every sequence of blocks of any keys and tables, every page size, every content of old memory", "why_tests_cant": "Round trips over several pages with values of all encoded sizes, and names that clash, are not reached by tests with a few keys.", "anchors": ["src/core/disk/sis_disk.io.sdb.c: sis_disk_io_write_sdb_work, sis_disk_io_write_sdb_widx, cb_sis_disk_io_read_sdb_widx, sis_disk_io_read_sdb_widx", "src/core/disk/sis_disk_ctrl.c: sis_disk_idx_get, sis_disk_idx_set_unit", "src/core/disk/sis_disk_read.c: sis_disk_reader_filters"]}
{"id": "C65", "title": "The number of a key in a block stands for the same key whenever the file is read", "statement": "Whatever keys are named and written to whatever files, over any number of runs, the dictionary that a reader gets from a file gives for the number in every block the key for which the block was written.", "quantifier": "every history of naming keys, writing to files and closing", "why_tests_cant": "A key that is missing in the dictionary of one file is noticed only by the next program that opens this file.", "anchors": ["src/core/disk/sis_disk.io.c: sis_disk_ctrl_set_kdict, sis_disk_ctrl_cmp_kdict, sis_disk_ctrl_write_kdict, sis_disk_ctrl_read_kdict", "src/core/disk/sis_disk_write.c: sis_disk_writer_sdb, sis_disk_writer_set_kdict, sis_disk_writer_kdict_changed, _disk_writer_get_date, _disk_writer_get_year, sis_disk_writer_close", "src/core/disk/sis_disk_ctrl.c: sis_disk_reader_set_kdict", "src/core/sis_list.c: sis_string_list_load"]}
{"id": "C66", "title": "A file that keeps the order of arrival gives the records back in that order", "statement": "Records of any series written in any portions, with full pages and restarts at any place, are delivered to a reader of the whole file in order of arrival, each under its key and table; a subscription of some keys and tables gets exactly the records asked for, in the same order.", "quantifier": "every history of writing and restarting, every page size, every set of keys and tables, every subscription, every content of old memory", "why_tests_cant": "The order is rebuilt from numbers spread over the blocks of a page; errors depend on where a page ends and on how the index is cut into blocks.", "anchors": ["src/core/disk/sis_disk.io.sno.c: sis_disk_io_write_sno, _disk_io_write_sno_watch, sis_disk_io_write_sno_start, sis_disk_io_write_sno_stop, sis_disk_sno_rctrl_set, sis_disk_sno_rctrl_push, sis_disk_sno_rctrl_rpop, cb_sis_disk_io_read_sno, sis_disk_io_sub_sno, sis_disk_io_sub_sno_part, sis_disk_io_write_sno_widx, cb_sis_disk_io_read_sno_widx", "src/core/disk/sis_disk_write.c: sis_disk_writer_sno"]}
{"id": "C67", "title": "A subscriber of the live stream gets exactly the records it asked for, without a gap, until the day is over", "statement": "A subscriber of some keys and tables is sent the start of the day, the names, and then exactly the records it asked for of the blocks published from its first block on, packed or one by one, and at last the end of the day; nothing that was given back is used.", "quantifier": "every sequence of commands, every set of subscribers and subscriptions, every schedule of the threads of the subscribers", "why_tests_cant": "Losses depend on how far the thread of a subscriber is when a command arrives, and each client sees only its own part.", "anchors": ["workers/snodb/snodb.c: _snodb_write_start, _snodb_write_stop, cmd_snodb_stop, cmd_snodb_zpub, _snodb_write_init, _snodb_write_incrzip, cmd_snodb_sub, cmd_snodb_unsub", "workers/snodb/snodb_reader.c: snodb_register_reader, snodb_reader_new_realtime, snodb_remove_reader, cb_output_reader, cb_output_reader_send, cb_decode, cb_encode, snodb_reader_realtime_start, snodb_reader_realtime_stop"]}
{"id": "C68", "title": "Several stored series replayed together come complete and in order of time", "statement": "A subscriber of several stored series is told the start, then every record of every series exactly once, in the order of time over all series, and at last the end; every block that is used up makes place for the next one of its series.", "quantifier": "every number of series, every table (seconds, minutes, milliseconds, days, no time), every cutting into blocks, every time zone", "why_tests_cant": "The order depends on where the blocks of the series end relative to each other and on the mixture of units; a test with one block per series never sees the hand-over.", "anchors": ["src/core/sis_db.c: sis_subdb_cxt_set_sdbs, _subdb_cxt_set_msec, sis_subdb_cxt_push_sdbs, _subdb_cxt_sub_data, _thread_subdb_cxt_sub", "src/core/disk/sis_disk_read.c: cb_key_stop, cb_key_chars, _disk_reader_sub_work", "src/core/sis_dynamic.c: sis_time_unit_convert"]}
{"id": "C69", "title": "CSV texts are read back cell by cell", "statement": "Whatever rows of numbers and texts are written with the CSV functions, reading the file gives the same rows, with every cell in its column under its name, in whatever pieces the file is read; rows added to a file stay beside the older ones.", "quantifier": "every table of cells (signed and unsigned 64-bit numbers, character fields, decimal texts), every file content, every piece size", "why_tests_cant": "Line ends and separators on the borders of pieces, empty first fields, unterminated character fields and long numbers are single cases among very many.", "anchors": ["src/core/sis_csv.c: _sis_file_csv_parse, sis_file_csv_open, sis_file_csv_get_str, sis_file_csv_get_int, sis_file_csv_fget_str, sis_csv_make_str, sis_csv_make_int, sis_csv_make_uint, sis_csv_make_double, sis_csv_make_end, sis_csv_write_open, sis_file_csv_read_sub", "src/core/sis_memory.c: sis_memory_readfile, sis_memory_get_line_sign", "src/core/sis_list.c: sis_string_list_load", "src/core/sis_sds.c: sis_sdsll2str, sis_sdsull2str", "src/core/sis_dynamic.h: sis_dynamic_field_to_csv", "src/core/sis_db.c: sis_db_struct_to_csv_sds"]}
{"id": "C70", "title": "Merging the blocks of a file changes nothing that can be read", "statement": "After the blocks of a data file have been merged, every reader gets for every series the same records in the same order as before, the file can be opened again, and what is written later has the same effect as without merging; if the old file cannot be read, it is kept.", "quantifier": "every file: all keys, tables, series and numbers of blocks, unreadable blocks, every later block", "why_tests_cant": "Merging runs over whole files with histories of many days; whether it loses something depends on how the file came about (new keys, damaged blocks, missing index) and shows only at later writes.", "anchors": ["src/core/disk/sis_disk.io.c: sis_disk_ctrl_merge, sis_disk_ctrl_remove, sis_disk_ctrl_read_start, sis_disk_ctrl_read_kdict, sis_disk_ctrl_read_sdict", "src/core/disk/sis_disk.io.sdb.c: sis_disk_io_read_sdb, sis_disk_io_write_noidx, sis_disk_io_write_sdb, sis_disk_io_merge_sdb, cb_sis_disk_io_read_sdb_widx", "src/core/disk/sis_disk_ctrl.c: sis_disk_idx_get, sis_disk_idx_set_unit, sis_disk_kdict_get_idx, sis_disk_sdict_get_idx", "workers/sisdb_wsdb/sisdb_wsdb.c: cmd_sisdb_wsdb_merge"]}
{"id": "C71", "title": "Every task given to a worker thread is run once, the tasks of one key in their order", "statement": "Every task given to a worker thread or to a pool of them is run exactly once and its argument is freed once, after it was run; tasks of one key are run in the order they were given and never at the same time; waiting for the tasks returns only when all tasks given before are done, and ending a thread leaves no task undone.", "quantifier": "every interleaving of the threads that give tasks, run them, wait and end, every number of threads, every set of keys, tasks that give tasks themselves", "why_tests_cant": "Lost tasks, early returns and double frees need a particular interleaving of a few instructions of two threads.", "anchors": ["src/core/sis_mul_worker.c: _thread_mul_worker, sis_mul_worker_thread_create, sis_mul_worker_thread_destroy, sis_mul_worker_thread_add_task, sis_mul_worker_cxt_create, sis_mul_worker_cxt_add_task, sis_mul_worker_cxt_wait, _sis_worker_tasks_read, _thread_worker, sis_worker_tasks_create, sis_worker_tasks_destroy, sis_worker_tasks_add_task, sis_worker_tasks_wait", "src/core/sis_math.h: sis_get_hash", "src/core/sis_thread.c: sis_wait_thread_destroy"]}
{"id": "C72", "title": "A dynamic string holds exactly the bytes put into it", "statement": "After any sequence of operations (make, append, replace, lengthen, reserve and fill, shorten, take a range, trim, clear, fit, change case, append a text with places) a dynamic string holds exactly the bytes that these operations are documented to make, with a zero behind them, and no byte outside of its memory is read or written.", "quantifier": "every initial content, every sequence of operations, every length below 2^60, every format with its arguments, every content of newly allocated memory", "why_tests_cant": "Header types, doubling of the room and moves between them depend on lengths around 32, 256, 65536, 2^32 and 1 MB; an overrun of one byte need not show in a test.", "anchors": ["src/core/sis_sds.c: sdsReqType, sis_sdsnewlen, sis_sds_addlen, sis_sds_remove_freespace, sis_sds_incrlen, sis_sdsgrowzero, sis_sdscatlen, sis_sdscatsds, sis_sdscpylen, sis_sdscatfmt, sis_sdstrim, sis_sdsrange, sis_sdsupdatelen, sis_sdsclear, sis_sdstolower, sis_sdstoupper", "src/core/sis_sds.h: sis_sdslen, sis_sdsavail, sis_sdssetlen, sis_sdsinclen, sis_sdsalloc, sis_sdssetalloc"]}
{"id": "C73", "title": "Table definitions come back unchanged from a dictionary", "statement": "Whatever tables are written to the dictionary of a file (or sent to a client), reading the text gives tables with the same fields at the same places, the same kinds, lengths, repetitions, decimals and flags, the same record size and the same special fields; reading it again adds nothing, and of several versions of a table the last one written is in use.", "quantifier": "every number of tables and fields, every kind, every length, repetition and number of decimals, every combination of flags, every name, every set of tables known before", "why_tests_cant": "Records already on disk are cut by the definition that is read back; a definition that changes in one of thousands of combinations of names, lengths and flags shifts the fields of all records without an error.", "anchors": ["src/core/sis_utils.c: sis_sdbinfo_to_json, sis_json_to_sds", "src/core/sis_dynamic.c: _sis_dynamic_get_style, sis_dynamic_db_create, sis_dynamic_dbinfo_same", "src/core/disk/sis_disk_ctrl.c: sis_disk_reader_set_sdict, sis_disk_sdict_isnew, sis_disk_sdict_last", "src/core/disk/sis_disk.io.c: sis_disk_ctrl_write_sdict, sis_disk_ctrl_get_sdbs_sds", "src/core/sis_json.c: sis_json_array_add_string, sis_json_array_add_uint, sis_json_object_add_node, sis_json_get_str, sis_json_get_int"]}
{"id": "C74", "title": "Records shown as JSON texts come back as the same records", "statement": "The text shown for the records of a table names every value of every record in order; a text of rows, of one row or of named values that a client sets is stored as exactly the records it describes (numbers taken to the width of the field, texts cut and ended, values that are not named zero); a text that was shown can be set again and gives the same bytes.", "quantifier": "every table of whole-number, time and character fields, every list of records, every way of writing the text with blanks", "why_tests_cant": "A text that is not understood is not refused but stored as records of zeros; which texts these are depends on the table, the number of records and single characters.", "anchors": ["src/core/sis_utils.c: sis_sdb_to_array_sds, sis_array_to_struct_sds, sis_json_to_struct_sds", "src/core/sis_dynamic.h: sis_dynamic_field_to_array, sis_dynamic_field_json_to_struct, _sis_field_get_int, _sis_field_get_uint, _sis_field_set_int, _sis_field_set_uint", "src/core/sis_json.c: sis_json_find_node, sis_json_array_add_node", "workers/sisdb/sisdb_io.c: sisdb_io_set_chars"]}
{"id": "C75", "title": "The store for one day at a time keeps, shows and saves what it accepted, also after a crash", "statement": "While a day runs, the records accepted for a key and a table are shown for it in order; at the end of the day, by command, by the clock or by the beginning of another day, exactly these records are saved once per key and table; if the program ends and is started again on the same day, the log brings the day back and the same records are shown; the thread that files the records is never left without its object.", "quantifier": "every sequence of commands, every interleaving of the commands with the thread, every moment of a crash", "why_tests_cant": "What is shown depends on how far the thread has come, on which keys were known before and on the moment of a crash; tests look at a few sequences after everything has settled.", "anchors": ["workers/frwdb/frwdb.c: cmd_frwdb_start, cmd_frwdb_stop, cmd_frwdb_set, cmd_frwdb_bset, cmd_frwdb_save, cmd_frwdb_wlog, frwdb_wlog_load, frwdb_write_start, frwdb_write_stop, frwdb_wfile_save, _frwdb_make_data_idx, _frwdb_make_data_chr, _thread_reader, frwdb_working", "workers/frwdb/frwdb_reader.c: frwdb_read", "src/core/sis_thread.c: sis_wait_thread_destroy, sis_wait_thread_open, sis_wait_thread_start, sis_wait_thread_stop"]}
{"id": "C76", "title": "A configuration file is read as exactly its settings, and no text makes the parser read behind its buffer", "statement": "Every file in the notation of the configuration (settings, notes, blanks, arrays, objects, included files) is read as exactly its settings in order; JSON texts can be read as configurations; a text that is no configuration is refused; whatever the files hold, the parser stays within its buffers and ends.", "quantifier": "every text, every gap, note and nesting, all contents of included files, every division of a file into pieces", "why_tests_cant": "The texts and the ways to place blanks, notes, quotes and includes are unlimited; wrong texts are accepted silently, so that tests with right ones do not show it.", "anchors": ["src/core/sis_conf.c: _sis_conf_skip, _sis_parse_string, _sis_parse_number, _sis_parse_array, _sis_parse_object, _sis_parse_value, _sis_parse_include, _sis_parse_key, _sis_conf_parse, sis_conf_open, sis_conf_load, sis_conf_get_match_sign, sis_conf_sub", "src/core/sis_file.c: sis_file_read_to_sds"]}
{"id": "C77", "title": "A query answers with exactly the records and fields it asks for, and a deletion leaves exactly the others", "statement": "For every request text, the answer of get holds exactly the records of the asked range or time, in order, with exactly the asked fields in the asked form (array, JSON, bytes); del removes exactly the records asked for; a request cannot make the program crash or send bytes from outside of the records.", "quantifier": "every table, every series of records, every request (members, times before and behind the series, positions from the end, names in any order and spelling), every form", "why_tests_cant": "The requests, tables and series combine without limit; the mistakes lie at unknown names, indices, missing members and repeated fields, which need particular requests on particular tables.", "anchors": ["workers/sisdb/sisdb_io.c: _init_cmd_from_get, _read_fields, sisdb_io_get_sds, sisdb_io_get_chars_sds, sisdb_io_del", "workers/sisdb/sisdb.c: cmd_sisdb_get, cmd_sisdb_del", "src/core/sis_utils.c: sisdb_sdb_struct_to_sds, sis_sdb_fields_to_array_sds, sis_sdb_fields_to_json_sds", "src/core/sis_dynamic.c: sis_dynamic_db_get_field", "src/core/sis_db.c: sis_db_get_format_from_node"]}
{"id": "C78", "title": "Every call through the client worker gets the answer to its own request", "statement": "Whatever number of threads call the client worker at the same time and however their steps and those of the thread of the network are interleaved: an answer is given to the call whose request it answers, unchanged; a call that waits returns exactly the outcome its answer states, and returns once it has been answered; a call that is no subscription is called back at most once; a subscription gets all its messages, also after a new connection; no request or message is used after it was freed.", "quantifier": "every interleaving of any number of calls with answers, connections, logins and disconnections; all answers a server may send", "why_tests_cant": "The interleavings are unlimited, the lost update of the counter needs two threads within a few instructions, and the reuse of numbers needs sixteen million requests.", "anchors": ["workers/sisdb_client/sisdb_client.c: sisdb_client_ask_create, sisdb_client_ask_cmd, sisdb_client_ask_del, sisdb_client_send_ask, _cb_recv, _cb_connected, _cb_disconnect, cb_reply, cmd_sisdb_client_chars_wait, cmd_sisdb_client_bytes_wait, cmd_sisdb_client_chars_nowait, cmd_sisdb_client_bytes_nowait", "src/core/sis_map.lock.c: sis_safe_map_set, sis_safe_map_get, sis_safe_map_del"]}
{"id": "C79", "title": "Readers of the day's publication hear each day in order and all of what they subscribed to", "statement": "Whatever sequence of keys, tables, starts, stops, publications, subscriptions and cancellations the service of a day's data receives, and in whatever order its loops meet readers and patterns: each reader hears a sequence of days, each made of start, keys, tables, wait, data and stop in this order and for one date; an accepted message reaches each reader once for each of its subscriptions that covers it and nobody else; the keys and tables announced are those given last that the reader's pattern names; no null pointer is read and no memory used after it was freed.", "quantifier": "all histories of commands and all orders of the loops over readers and patterns", "why_tests_cant": "The number of histories is unlimited, the counter of readers drifts from the number of readers only after certain orders of subscriptions and cancellations, and the failures need a wrong text or a late command between two others.", "anchors": ["workers/subdb/subdb.c: subdb_userinfo_incr, subdb_userinfo_decr, cmd_subdb_set, cmd_subdb_start, cmd_subdb_stop, _subdb_reader_init, cmd_subdb_pub, cmd_subdb_sub, cmd_subdb_unsub", "src/core/sis_utils.c: sis_match_key, sis_match_sdb_of_sds"]}
{"id": "C80", "title": "The store of shared texts gives back what was set last and sends what is published to its subscribers", "statement": "Whatever requests any number of clients make of the store of shared texts, and in whatever order its loop meets patterns: reading a name gives exactly the content set last under this name by anybody, or nothing if none was set; a published message reaches each client once for each of its subscriptions that covers it, nobody else, and changes no content; no request crashes the service; and a client that may only read changes nothing.", "quantifier": "all histories of requests of all clients, all names and contents, and all orders of the loop over patterns", "why_tests_cant": "Histories, names and contents are unlimited; contents with zero bytes, missing names, closed connections and users of lower levels are what tests of a store of texts leave out.", "anchors": ["workers/memdb/memdb.c: memdb_methods, memdb_unit_create, cmd_memdb_init, cmd_memdb_get, cmd_memdb_set, cmd_memdb_sub, cmd_memdb_hsub, cmd_memdb_pub, cmd_memdb_unsub", "workers/sisdb_server/sisdb_sys.c: sis_sys_access_method"]}
{"id": "C81", "title": "Each user runs exactly the commands their level allows, in every kind of data set", "statement": "In every kind of data set, a user who may only read runs exactly the commands that read, whatever their spelling; users of higher levels run in addition the commands that change data; and nobody runs over the network a command that is meant for calls inside the process.", "quantifier": "all five kinds of data sets, all commands in all spellings, all states of the server and its users, all request contents", "why_tests_cant": "Whether a command is open follows from a number in one of five tables and from the test of levels; tests call the commands as a user that may do everything, and commands meant for calls inside the process are not called over the network at all.", "anchors": ["workers/sisdb/sisdb.c: sisdb_methods", "workers/frwdb/frwdb.c: frwdb_methods, cmd_frwdb_rlog, cmd_frwdb_wlog", "workers/snodb/snodb.c: snodb_methods, cmd_snodb_rlog", "workers/subdb/subdb.c: subdb_methods, cmd_subdb_wlog", "workers/memdb/memdb.c: memdb_methods", "workers/sisdb_server/sisdb_sys.c: sis_sys_access_method", "workers/sisdb_server/sisdb_server.c: cb_reader_recv"]}
