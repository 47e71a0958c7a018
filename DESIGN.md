# Formal model of sisdb: design

The repository under study is seerline/sisdb (C). This directory holds a Rocq (Coq 8.16.1)
model of parts of that code, and theorems about the model. Nothing is compiled or run from
the repository; the link between code and model is a line-by-line reading, and each
definition in the model cites the file and lines it was read from.

## 1. How the development is organised

| kind of file | content |
|---|---|
| `theories/Base.v` | byte/word arithmetic helpers, list lemmas shared by everything |
| `theories/M_*.v` | models: executable, total Gallina functions, one per C function; no proofs |
| `theories/S_*.v` | specifications: small definitions that do not mention the model |
| `theories/L_*.v` | lemmas and proofs |
| `theories/P_*.v` | property theorems only: each `exact lemma.`, with `Print Assumptions` and an `Example` |

Conventions used by all models:

* machine integers are `Z`; every place where the C code truncates, wraps or changes
  signedness writes the reduction explicitly (`mod 2^w`, `wrap_s64`, ...);
* bytes are `Z` values in `[0,256)`; memory is a `list Z`;
* anything the C standard leaves undefined (read or write outside an object, use after
  free, null dereference) is a distinct outcome: `None`, `UB` or a `Bad` constructor.  It
  is never a default value;
* loops are structural recursion or recursion on explicit fuel; running out of fuel is a
  distinct error value and the theorems exclude it;
* contents of uninitialised or stale memory are universally quantified functions;
* threads are interleaving transition systems whose atomic steps are the critical sections
  of the C code;
* a property that the code violates is kept at full strength in `properties.jsonl`; the
  model proves `..._refuted` with a concrete witness, and `..._partial` for the part
  that does hold.

## 2. What each property models and how it is proved

Status: proved; partial (part proved, usually with a refutation of the rest); open (no theorem yet).

| id | status | modelled code | shape of proof |
|---|---|---|---|
| C01 | proved | sis_memory.c cat_byte/get_byte/cat_ssize/get_ssize over a buffer with offset | case analysis on size classes; exact bytes consumed |
| C02 | proved | try_ssize on a buffer holding a prefix of an encoding | case analysis over prefixes |
| C03 | proved | sis_bits.h put/get on a byte array | bit-extensional characterisation (`Z.testbit`), then induction on the list of fields |
| C04 | partial | put_int/get_int | bit-list codec; `_refuted` at INT64_MIN, `_partial` for all others |
| C05 | proved | put/get uint, sint, short | as C04 |
| C06 | partial | put/get_incr_int with 64-bit wrap-around | as C04; the difference may be INT64_MIN |
| C07 | partial | put/get_chars, charcmp, incr_chars | `_refuted` for empty after non-empty; `_partial` for texts without this |
| C08 | partial | incrzip compress/uncompress (one shot) | induction over bags, records, fields |
| C09 | partial | incrzip compress_step/uncompress_step | `_refuted` witness, `_partial` for one record per packet |
| C10 | partial | output size of the compressor against the allocation | `_refuted` witness |
| C11 | proved | sis_list.c struct list | refinement to `list`, for every operation sequence |
| C12 | proved | struct list limit/pack | refinement |
| C13 | partial | node list push/get/pop | `_refuted` witness, `_partial` without misaligned pops |
| C14 | proved | sort list set/find/del with its binary search | invariant + refinement to a sorted association list |
| C15 | proved | pint_slist | invariant by induction over operations |
| C16 | proved | sisdb_fmap_ctrl.c 129-209, 314-663: index, goto, range head and tail, cmp_range, cmp_same, cmp_where | for all ordered series and queries, the answer is a first position and a count that describe the window |
| C17 | proved | sisdb_fmap_write.c 203-397, sisdb_fmap.c 480-512, sisdb_fmap_read.c 79-106, sisdb_fmap_ctrl.c 214-309 | for all ordered series and batches; `_refuted` for first batches, ties and uniqueness fields |
| C18 | partial | sisdb_fmap_write.c 9-146, 399-428 with the model of C17 | for all histories of batches and saves; `_refuted` for first batches, uniqueness fields and deletions |
| C19 | partial | websocket pack/unpack | codec over fragments, induction on fragments |
| C20 | partial | websocket check on prefixes | every strict prefix gives "incomplete" |
| C21 | partial | websocket unframing of arbitrary bytes with UB outcome | `_refuted` witness; `_partial` for the rest |
| C22 | partial | encoded_normal/decoded_normal | field-wise round-trip; `_refuted` witnesses |
| C23 | partial | net_mems push/read/pop | refinement to a FIFO; `_refuted` overflow witness |
| C24 | proved | net_nodes push/read/free_read | refinement to a FIFO |
| C25 | partial | net_list new/get/stop/grow | invariant; `_refuted` at the capacity limit |
| C26 | partial | sis_disk_files.c write, seek_log, open_append; sis_disk.io.c write_start on an existing log | induction over records and pieces of any size; arbitrary stale bytes; `_refuted` witnesses |
| C27 | partial | sis_disk_files.c read_fulltext with the callback of sis_disk.io.log.c | the same invariant with the other threshold; `_refuted` witnesses |
| C28 | partial | os_file.c write, fsync; sis_disk_files.c write, close | induction over writes and flushes; `_refuted` history |
| C29 | partial | connection table, get_access, cb_reader_recv, auth | invariant over event histories |
| C30 | partial | access_method | finite flag analysis lifted to all integers; `_refuted` for write users |
| C31 | partial | auth | `_refuted` case-folding and null dereference; `_partial` |
| C32 | partial | cb_reader_recv event trace | invariant over traces |
| C33 | proved | sis_list.lock.c 7-25, 272-422: push, move, reader loop, clear | pointer-level invariant, freedom from deadlock and progress over all schedules of any number of threads |
| C34 | proved | sis_list.lock.c 134-266: pop, thread, push, set_busy | invariant over all schedules; progress; a deadlock |
| C35 | partial | sis_list.lock.c 34-130, 429-518, 568-803: queue, readers, watcher | invariant and progress over all schedules of any number of readers; `_refuted` schedules |
| C36 | proved | map_list set/get | refinement to insertion-ordered association list |
| C37 | partial | sis_dynamic.c db_create (field layout), field get/set | invariant by induction over the definition lines (fields are a permutation of the layout); `_refuted` beyond 65536 bytes and for short floats |
| C38 | partial | sis_dynamic.c match, unit_copy, unit_convert, convert | writes to disjoint ranges, induction over fields and records; floating point and calendar are parameters; `_refuted` witnesses |
| C39 | partial | sis_time.c get_idate, make_time, get_week_ofday, get_dayoffset_ofday, get_offset_day, next_work_day | day numbers against repeated next-day steps; one 400-year era by computation; `_refuted` witnesses |
| C40 | partial | sis_obj.c incr, decr; sis_net.msg.c incr, decr; sis_dynamic.c db_incr, db_decr | invariant over all schedules of any number of threads; `_refuted` schedules |
| C41 | proved | sis_memory.c cat, move, jump, pack, grow, set_maxsize, clear | refinement to a byte queue over every operation history |
| C42 | partial | decoded_normal with reads outside the buffer as failure | `_refuted` witness |
| C43 | proved | sis_dict.c create, expand, rehash, add, replace, find, delete, empty, resize; key functions of sis_map.c with siphash | invariant (chains, counts, rehash index) and refinement to an association list up to order |
| C44 | proved | sis_dict.c get_iter, next, iter_free | the entries still to be delivered are tracked through every body operation |
| C45 | proved | map_list set/clear, pointer_list update/clear | conservation: values given = values held + values freed, as multisets |
| C46 | partial | sis_dynamic.c db_create: field_time, field_mindex, field_solely | invariant over the definition lines; `_refuted` for repeated names |
| C47 | partial | sisdb_fmap.c 11-30, 303-387, 397-417, 454-479, 518-577, sisdb_fmap_read.c 215-278 (style NON) | for all histories of writes and reads; `_refuted` for reloads and positions |
| C48 | partial | src/core/sis_thread.c 4-42: pool of wait handles, every access a step | invariant over all interleavings without overlapping requests; `_refuted` for two requests at once |
| C49 | partial | src/core/sis_thread.c 45-145: read-write lock | invariant over all schedules; progress; `_refuted` for failed attempts |
| C50 | partial | src/core/sis_json.c 11-18, 128-406, 465-492: JSON parser | grammar of RFC 8259 by mutual induction; `_refuted` witnesses |
| C51 | partial | src/core/sis_json.c 11-18, 128-406, 465-492: JSON parser | termination on all bytes and nesting |
| C52 | partial | src/core/sis_json.c 1010-1451: JSON writer, both formats | buffer bounds for all trees; written text is in the grammar; round trip |
| C53 | partial | workers/sisdb_server/sisdb_sub.c 1-308; src/core/sis_str.c 48-88, 177-236, 342-355, 433-494; workers/sisdb/sisdb.c 686-706: subscriptions | invariant over all histories against a set of subscriptions; counts of deliveries for any order of the table; `_refuted` witnesses |
| C54 | partial | src/core/net/sis_net.uv.c 49-322, 624-652, 661-701, 781-990: the server's send queue; senders, reader thread and loop as interleaved steps | invariant over all calm interleavings; drain from every state; a potential for the turns; `_refuted` runs |
| C55 | partial | src/core/net/sis_net.node.c 883-942, 972-1082, 1114-1185: text form of messages, on top of the JSON writer and parser of C50-C52 | field-wise round-trip through the JSON grammar; `_refuted` witnesses |
| C56 | partial | src/core/net/sis_net.c 676-731, 932-1087: one end sends, the other receives; composition of encoding, framing, reassembly and decoding | at every moment, for all cuttings; by composition of C19, C20, C22 and C55 |
| C57 | partial | src/core/disk/sis_disk_files.c 6-11, 64-165, 224-269, 326-349, 374-412, 433-459, 486-517, 626-657; sis_disk.io.c 713-800, 804-861: block store | invariant over all runs (contents of every file, layout of all places); `_refuted` by computation |
| C58 | partial | src/core/disk/sis_disk_files.c 522-623 with the model of C57: reading all files | for all layouts and piece sizes; `_refuted` for large heads and killed runs |
| C59 | proved | src/core/sis_sha1.c 3-143: SHA-1 and the base64 text of the hash | functional equality with FIPS 180-4 and RFC 4648, for all strings |
| C60 | partial | src/core/net/sis_net.ws.c 3-88; src/core/net/sis_net.c 296-362, 387-420, 445-470; src/core/sis_str.c 295-303, 705-732; sis_memory.c 5-13, 62-66, 114-145, 505-515 with the whole allocation: websocket handshake | for all requests, pieces and memory contents; `_refuted` witnesses |
| C61 | partial | src/core/zip/sis_utf8.c 209-344: base64 | functional equality with RFC 4648, round-trip; `_refuted` for all buffers that are too small |
| C62 | partial | src/core/disk/sis_disk_write.c 329-392, 417-537, 562-599; sis_disk.io.sdb.c 26-65, 130-156; sis_disk_ctrl.c 3-30; sis_disk_read.c 357-376, 411-531, 671-724; src/core/sis_math.h 191-209; src/core/sis_dynamic.c 311-318, 347-390 with the model of C39: time series in files by day and year | functional correctness of write and read together, for all batches, ranges and zones; `_refuted` witnesses |
| C63 | partial | src/core/disk/sis_disk.io.sdb.c 158-241, 622-715; sis_disk_ctrl.c 387-402, 421-430: list of contents (map file) | invariant over all histories: what is read back equals what is in memory; `_refuted` witnesses |
| C64 | partial | src/core/disk/sis_disk.io.sdb.c 27-37, 251-345, 490-620; sis_disk_ctrl.c 35-86; sis_disk_read.c 357-366: index file | functional correctness of write and read together, for all sequences of blocks; `_refuted` witnesses |
| C65 | partial | src/core/disk/sis_disk_write.c 77-108, 145-172, 339-416, 562-583; sis_disk.io.c 208-229, 272-290, 309-320, 382-410, 482-493; sis_disk_ctrl.c 310-331; src/core/sis_list.c 2153-2220; src/os/linux/os_str.h 60-89: dictionaries of keys | invariant over all histories; `_refuted` witnesses |
| C66 | partial | src/core/disk/sis_disk.io.sno.c 9-143, 150-259, 321-370, 381-478, 504-593, 604-641, 668-790; sis_disk.io.sdb.c 27-37; sis_disk_write.c 296-315: files that keep the order of arrival | functional correctness of write and read together, invariant over all histories; `_refuted` witnesses |
| C67 | partial | workers/snodb/snodb.c 337-498, 531-575, 612-653; snodb_reader.c 17-99, 474-567, 595-798; src/core/sis_utils.c 579-609, 640-678; workers/sisdb_server/sisdb_incr.c 76-83, 113-121: live stream of a day | invariant over all commands and schedules of the subscribers; `_refuted` witnesses |
| C68 | partial | src/core/sis_db.c 296-374, 420-514; src/core/sis_db.h 82-118; src/core/disk/sis_disk_read.c 920-1012; src/core/sis_dynamic.c 347-390 with the models of C13 and C39: replay of stored series | total correctness of the merge for all series and blocks; order for one block each; `_refuted` witnesses |
| C69 | partial | src/core/sis_csv.c 5-251, 254-354; sis_csv.h 58-71; sis_memory.c 338-363, 475-514; sis_list.c 2153-2220; sis_str.c 412-432; sis_sds.c 513-578; sis_dynamic.h 396-435; sis_db.c 172-184; src/os/linux/os_str.h 60-89; os_file.c 100-135: CSV | functional correctness of both readers for all files and pieces; round trip; `_refuted` witnesses |
| C70 | partial | src/core/disk/sis_disk.io.c 272-308, 619-710, 864-872, 915-1028; sis_disk.io.sdb.c 6-65, 130-156, 252-345, 352-389, 490-620; sis_disk_ctrl.c 57-86, 181-193, 301-378; sis_disk_read.c 357-376, 671-724; workers/sisdb_wsdb/sisdb_wsdb.c 241-266: merging the blocks of a data file | a file as list of blocks with an index; merging as a function from files to files, reading and later writing as observers; reuses the memory model, dictionaries of keys (C65), overlap of times (C62) |
| C71 | partial | src/core/sis_mul_worker.c 6-301; src/core/sis_math.h 271-284; src/core/sis_list.c 1577-1601, 1640-1647, 1697-1706, 1725-1747; src/core/sis_thread.c 159-172, 213-222, 236-241: worker threads | interleaved steps of the threads; invariants over all interleavings; a decreasing measure for progress; `_refuted` runs |
| C72 | partial | src/core/sis_sds.c 23-130, 182-320, 365-578, 682-886; src/core/sis_sds.h 27-202: dynamic strings | refinement to byte lists over all sequences of operations, memory bounds as partiality, any content of new memory; `_refuted` witnesses |
| C73 | partial | src/core/sis_utils.c 67-121, 539-558; src/core/sis_dynamic.c 13-57, 114-219, 285-309; src/core/disk/sis_disk_ctrl.c 270-290, 333-367; sis_disk.io.c 420-429, 463-480; src/core/sis_json.c 658-689, 744-756, 800-812, 911-916, 935-940, 1477-1512, with the models of C37 and C50-C52: stored table definitions | round trip through the JSON text for all lists of tables; versions for all sets of tables known before; `_refuted` witnesses |
| C74 | partial | src/core/sis_utils.c 123-170, 436-535; src/core/sis_dynamic.h 437-535; src/core/sis_json.c 658-676, 690-702, 744-756, 1600-1618; workers/sisdb/sisdb_io.c 209-234, with the models of C37, C50-C52 and C73: records as JSON texts | functional correctness of both directions for all tables, records and texts of the grammar; round trip; `_refuted` witnesses |
| C75 | partial | workers/frwdb/frwdb.c 201-287, 324-558, 626-670, 687-788, 791-880; workers/frwdb/frwdb_reader.c 135-232; src/core/sis_thread.c 150-241 (change of the thread): the store for one day at a time | invariant of an interleaving model of commands, thread, log and restart against a list of accepted entries; `_refuted` witnesses |
| C76 | partial | src/core/sis_conf.c 8-437, 443-478, 527-546, 566-664; sis_file.c 15-34: reading configuration files | induction over a grammar of texts with gaps, notes and included files; invariant that two zeros end every buffer; `_refuted` witnesses |
| C77 | partial | workers/sisdb/sisdb_io.c 23-178, 247-290; sisdb.c 217-243, 311-336; sisdb_fmap_read.c 11-49; src/core/sis_utils.c 277-306, 360-433; sis_db.c 30-70; sis_dynamic.c 267-283: queries and deletions | composition of the reading of JSON, the search in a series and the writing of records, for all requests; `_refuted` witnesses |
| C78 | partial | workers/sisdb_client/sisdb_client.c 36-104, 114-262, 290-329, 376-385, 402-546; src/core/sis_map.lock.c 58-71: the client worker | transition system of any number of calls, the thread of the network and the server; invariant; `_refuted` witnesses, three of them for all continuations or by induction over the number of requests |
| C79 | partial | workers/subdb/subdb.c 32-56, 180-240, 242-282, 283-396; src/core/sis_utils.c 539-558, 577-609, 640-678: the service of a day's data | histories as a relation (any order of the loops); invariant with the phase of each reader's stream; C50, C52 and C53 reused; `_refuted` witnesses |
| C80 | partial | workers/memdb/memdb.c 9-17, 31-46, 65-69, 89-189; workers/sisdb_server/sisdb_sys.c 106-132: the store of shared texts | histories with any order of the loop; invariant: map of contents = last sets, subscriptions as C53; access check of C29-C32 reused; `_refuted` witnesses |
| C81 | partial | workers/sisdb/sisdb.c 14-42, workers/frwdb/frwdb.c 15-33, workers/snodb/snodb.c 15-31, workers/subdb/subdb.c 9-18, workers/memdb/memdb.c 9-17: the tables of commands; the test of levels as in C30 | equivalence for all commands, spellings and states of the server: running = being in a description of what the commands do; the tables are compared with the description by computation; `_refuted` witnesses |

What is left out of the modelled code, beyond the simplifications noted at each definition:

* in C38: floating-point conversions, time units and the calendar are arbitrary functions; results of these conversions are not claimed
* floating-point fields (compressor and tables), and CHAR fields in C08 and C09
* sockets, libuv, files and the operating system are events or byte sequences supplied by the environment
* all source files not named in the table: they are not modelled
* in C39: time zones with daylight saving; mktime and localtime of the C library are modelled, not proved about; years above 200000 and offsets above 24855 days
* in C40: the contents that are freed with an object; memory order weaker than sequential consistency; more than 2^32-1 references and threads
* in C26 to C28: failing reads and writes, logs of several files, readers that stop early; power failure (what the system has is taken to be on disk)
* in C35: the notices between threads (a thread may run at any time instead), destruction of the list, the callbacks themselves, reuse of the address of a freed node
* in C33 and C34: notices and waiting times of the threads (a thread may run at any time), destruction of the queue, objects that are NULL, counters above 2^31
* in C16 to C18: loading of blocks from the index on disk, the callbacks of reads, overflow of counts, other key styles
* in C47: saves, keys with uniqueness fields, the callbacks of reads, the styles ONE and MUL
* in C48 and C49: the mutex and condition variable of the system are taken to be correct; waiting times
* in C50 to C52: \u escapes, sis_json_object_* and sis_json_array_* editing functions, sis_json_clone and sis_json_object_merge, path look-up with points; the memory lost when a value is parsed twice
* in C53: names with zero bytes; the content of the delivered message (sis_net_message_relay)
* in C54: the count of the queue (only logged), the limit of 16384 buffers of one write (379-380), initialising the async handle again (895), sessions looked up and pushed in one step; the byte written after the end of a full receive buffer (649)
* in C56: encryption, the redis protocol, messages above 128 MB; that the bytes reach the other end in order is left to C54 and the network
* in C57 and C58: the index file itself, compression, failing reads and writes, bytes the C library holds for a file that is opened twice, readers that stop early, sis_disk_files_write (no change of files)
* in C60: TLS, the state of the connection outside of the handshake, keys that are shorter than 24 bytes with a zero in them (taken to end there)
* in C62: the index file, dictionaries, several series in a file (name clashes), compression, tables without time, files that cannot be opened
* in C63-C65: compression, files that cannot be opened, dictionaries of tables (JSON), several data files behind one index
* in C66: compression, places of blocks (C57, C58), the bytes of the index (as in C64), a reader that stops early, the dictionary callbacks
* in C67: how blocks are packed (C21 and following; a block is its list of records), the path of single records into the stream, history readers, log files, the limit of the sizes of blocks for a subscriber
* in C68: names and look-ups, cancelled subscriptions, tables that change between files, the choice of the blocks (C62), the format in which records are sent
* in C69: the C library (%f, atof), failing reads and writes, the lines of 2 GB and more (int counters), the heading with numbers behind the names of fields (sis_db.c:155-170)
* in C70: compression, blocks of which only a part can be read (sis_disk_files.c:635-646), blocks without table (C64: their index cannot be written), a stop of the program between deleting and renaming (sis_disk.io.c:1024-1025), sis_disk_ctrl_pack (not called)
* in C71: destruction of the mutexes and of the memory of pool and threads, notices and waiting times, tasks that wait for their own pool, weak memory order
* in C72: memory that cannot be had, printf formats (sis_sdscatvprintf), splitting, joining, comparing, quoting and mapping of characters, arguments that point into the string itself except in C72_self_refuted
* in C73: names with zero bytes, keys with a point (path look-up), the name of the table itself (sis_dynamic_db_setname), reference counts, sis_sdbinfo_to_conf (not called)
* in C74: floats and prices in JSON texts, lists of chosen fields (sis_utils.c:245-434), the least 64-bit number (no result in C)
* in C75: subscriptions to the store (frwdb_reader.c), the merging of years, locks (the clock may end the day while a command runs), the file worker itself
* in C76: error messages and line numbers, the release of the trees, values overwritten where a comma is missing are not freed
* in C77: answers as CSV, series that are read from disk first, tables of the styles of one record and of many lists, fields with decimals, the release of memory

## 3. Findings

Places where the code as read violates a property. Each row names the theorem holding the witness.

| theorem | code | what happens |
|---|---|---|
| C04_int_min_refuted | sis_bits.h:383-487 | INT64_MIN is written as 0 |
| C06_incr_int_refuted | sis_bits.h:488-491, 733-737 | a wrapped difference of INT64_MIN is lost |
| C07_empty_text_refuted | sis_bits.h:569-582, 783-801 | a text that becomes empty decodes to the previous text |
| C08_table_roundtrip_refuted | sis_incrzip.c:290-357 | an 8-byte field that moves by 2^63 decodes wrong |
| C09_stepwise_roundtrip_refuted | sis_incrzip.c:290-315, 594-637 | two records in the first call for a key: the second decodes wrong |
| C10_output_fits_refuted | sis_incrzip.c:318-357 | the one-shot compressor writes past its buffer |
| C13_get_refuted | sis_list.c:580-606 | after pops, reading by index returns another element |
| C13_pop_empty_refuted | sis_list.c:627-663 | a pop on an emptied list uses the chunk it has just freed |
| C19_empty_refuted | sis_net.ws.c:89-193 | an empty text sends nothing |
| C21_empty_binary_refuted | sis_net.ws.c:416-460 | a binary message without payload reads before the buffer |
| C21_large_refuted | sis_bits.h:107-122, sis_net.ws.c:284-400 | with 2^28 buffered bytes the bit position overflows and memory outside is read |
| C22_serial_number_refuted | sis_net.node.c:955-971 | serial numbers are cut to 32 bits |
| C22_values_refuted | sis_net.node.c:972-1015, 1114-1185 | value lists are written but never decoded |
| C22_empty_field_refuted | sis_net.node.c:1084-1097 | an empty field comes back absent |
| C22_name_refuted | sis_net.node.c:1114-1185 | a name with a colon or of 128 bytes is not recovered |
| C42_decode_safe_refuted | sis_net.node.c:1084-1113 | a declared length is never compared with the received size: memory behind the buffer is copied (before any login) |
| C23_large_message_refuted | sis_net.node.c:166-223 | a message larger than a standard node is written past its end |
| C23_read_reports_nothing_refuted | sis_net.node.c:373-441 | a read reports nothing while messages wait |
| C23_free_discards_refuted | sis_net.node.c:373-441 | giving a batch back discards messages not popped |
| C25_growth_refuted | sis_net.node.c:719-737 | the growth copies in the wrong direction; the 1025th connection is stored outside the arrays |
| C29_inherited_login_refuted | sisdb_server.c:397-485 | a login survives its connection and is inherited by the next one with the same number |
| C29_late_login_refuted | sisdb_server.c:397-485 | a login still queued at disconnect is given to the next connection |
| C30_writer_refuted | sisdb_sys.c:106-132 | a user of write level can call administrative methods |
| C31_case_refuted | sisdb_server.c:500-531 | passwords are compared ignoring case |
| C31_unknown_name_crash | sisdb_server.c:500-531 | a login with an unknown name dereferences NULL |
| C31_crash_refuted | sisdb_server.c:500-531 | one unauthenticated request stops the server |
| C32_failed_append_refuted | sisdb_server.c:411-485 | a failing append to the log does not stop the command |
| C37_overlap_refuted | sis_dynamic.c:179, sis_dynamic.h:107 | the field offset has 16 bits: in records over 65536 bytes fields overlap |
| C37_real_store_refuted | sis_dynamic.h:359-395 | float and price fields of other lengths than 4 and 8 are accepted and stored outside the field |
| C38_reordered_refuted | sis_dynamic.c:587-643 | the same fields in another order are copied without conversion |
| C38_renamed_refuted | sis_dynamic.c:587-643 | a field without source gets the bytes of another field |
| C38_long_name_refuted | sis_dynamic.c:60-65, 604 | names of 32 bytes and more are not found in the source |
| C46_repeated_name_refuted | sis_dynamic.c:183-192 | a repeated name frees the field to which the time field still points |
| C39_next_work_day_refuted | sis_time.c:228-239 | the day after a Friday is returned although it is a Saturday: the result of the recursive call is dropped |
| C39_epoch_refuted | os_time.c:32-43, sis_time.c:222-227 | the date whose midnight is time 0 is taken for the present day |
| C34_callback_deadlock | sis_list.lock.c:159-176 | the callback runs with the lock held: a callback that calls push or set_busy on its queue never returns |
| C35_first_message_refuted | sis_list.lock.c:662-708 | a tail reader opened on an unused list stands on the first sentinel, which the watcher frees |
| C35_head_refuted | sis_list.lock.c:447-481, 692-705; sisdb_server.c:92-95 | a head reader is one node behind what the watcher checks: the message in use is released when the list is over its size |
| C35_clear_refuted | sis_list.lock.c:42-54, 791-803; snodb.c:371 | clearing the list frees the nodes the readers stand on |
| C35_register_refuted | sis_list.lock.c:568-584 | the thread of a reader runs before it is registered; the watcher frees its place |
| C35_late_start_refuted | sis_list.lock.c:444-455 | messages pushed after open returned and before the thread first ran are not received by a tail reader |
| C40_plain_refuted | sis_net.msg.c:99-135, sis_dynamic.c:229-260 | two threads taking a reference at once lose one; the object is freed while owned |
| C40_null_refuted | sis_obj.c:33-36 | an object whose pointer is NULL is never freed |
| C26_torn_length_refuted | sis_disk_files.c:191-218, sis_memory.c:260-280 | a length field cut by a crash is completed with stale bytes; zeros make an empty record of it and later records are unreadable |
| C26_straddle_refuted | sis_disk_files.c:179-218 | an intact log above 16 MB is truncated when the head of a record lies on a 16 MB boundary |
| C26_short_file_refuted | sis_disk_files.c:224-248, 341-348 | a log killed before its first flush can never be opened for writing again; the error is ignored and nothing is logged |
| C27_small_last_refuted | sis_disk_files.c:560 | a last record of 0 or 1 byte is not delivered by a replay |
| C27_straddle_refuted | sis_disk_files.c:544-610 | a record whose head lies on a 16 MB boundary is replaced by an empty one and the rest is skipped |
| C28_unflushed_refuted | os_file.c:187-197 | fsync without fflush: records whose write has returned are lost when the process is killed |
| C45_same_value_refuted | sis_map.c:216-234, sis_list.c:1662-1675 | setting the value a name already has frees it and keeps it |
| C17_first_batch_refuted | sisdb_fmap.c:491-495 | the first batch of an empty series is pushed as it comes; later searches assume order |
| C17_tie_refuted | sisdb_fmap_write.c:373 | the time of a record is read with the length of one record, so it is 0 for every record but the first; a record can be put before one of equal time that came earlier |
| C17_unique_refuted | sisdb_fmap_write.c:275-299 | a record can overwrite one of a later time with the same unique fields |
| C18_first_batch_refuted | sisdb_fmap.c:491-495 | the first batch of an empty series makes no index entry, so the next save stores nothing |
| C18_unique_refuted | sisdb_fmap_write.c:80-90 | a change in a block without an index entry is marked nowhere and never stored |
| C18_delete_refuted | sisdb_fmap_write.c:92-146 | deleting one record makes the save erase the block when the index is incomplete |
| C18_delete_blocks_refuted | sisdb_fmap_write.c:119-121 | the count is reduced by a value that has just been changed; a block with records left is erased |
| C47_lost_write_refuted | sisdb_fmap_read.c:260-278, sisdb_fmap.c:417 | a write to a key on disk that has not been read is thrown away by the next access |
| C47_overwritten_refuted | sisdb_fmap_read.c:260-278, sisdb.c:622-625 | of several writes only the last survives, as in the replay of the log at the start |
| C47_wrap_refuted | sisdb_fmap.c:321, sisdb_fmap.h:57 | after 256 reads the 8-bit counter is 0 and unsaved writes are thrown away |
| C47_position_refuted | sisdb_fmap.c:11-30 | a position that is not negative is taken as 0 by reads and deletions |
| C47_delete_unmarked_refuted | sisdb_fmap.c:561-577 | a deletion that leaves records is not marked as a change, so it is not saved |
| C48_race_refuted | sis_thread.c:19-24 | test and mark of an entry are two accesses: two threads get the same handle |
| C49_try_refuted | sis_thread.c:103-112 | a failed sis_mutex_rw_try_lock_w leaves try_write_b set: no reader gets the free lock any more |
| C50_true_refuted | sis_json.c:228 | true or false before a closing bracket swallows the bracket: {"a":true} is refused |
| C50_nested_true_refuted | sis_json.c:228, 291-294 | in a nested object a final true is kept as "true}}" and reads as false |
| C50_null_refuted | sis_json.c:336-340, 388 | null ends the parse without an error: the members after it are lost |
| C50_exponent_refuted | sis_json.c:243 | a number with E or + ends the parse without an error: the elements after it are lost |
| C50_empty_key_refuted | sis_json.c:172, sis_str.c:118 | an empty name becomes the rest of the text |
| C50_backslash_refuted | sis_json.c:161 | a string ending in an escaped backslash is lost |
| C50_case_refuted | sis_json.c:1594 | names are looked up without regard to case: of two members that differ only in case the second is never found |
| C51_depth_refuted | sis_json.c:190, 290, 335 | the depth of calls follows the nesting of the input: a message of opening brackets exhausts the stack |
| C51_accepts_refuted | sis_json.c:291-295, 336-340 | an error inside an array or object is cleared by the enclosing one: cut texts load as partial trees |
| C52_control_refuted | sis_json.c:135, 1069-1097 | control characters and backslashes are escaped on writing but not restored on reading |
| C52_true_refuted | sis_json.c:228, 1015 | an object ending in a boolean is written as a text that cannot be loaded |
| C53_star_side_refuted | sisdb_sub.c:40, 292 | an exact subscription to *.table or key.* is stored with a kind no publication handles: nothing is delivered |
| C53_one_use_refuted | sisdb_sub.c:110-115 | exact and head subscriptions of one list share the kind of the first: later ones miss messages |
| C53_one_use_more_refuted | sisdb_sub.c:110-115 | .. or get messages they did not ask for |
| C53_once_refuted | sisdb_sub.c:223-306 | a client with two covering subscriptions gets the message twice |
| C53_long_name_refuted | sisdb_sub.c:269, 282; sis_str.c:177-208 | a published name of 128 bytes before its dot overruns a buffer on the stack when anyone has a two-sided pattern |
| C53_empty_side_refuted | sisdb_sub.c:33-34; sis_str.c:218, 228 | subscribing to ".x" or "x." reads through a null pointer |
| C53_gone_refuted | sisdb.c:693 | the comparison with "reader" is inverted: a closed connection keeps its subscriptions |
| C53_count_refuted | sisdb_sub.c:166 | ending all subscriptions answers with the count of the last pattern only |
| C54_other_closed_refuted | sis_net.uv.c:238-241, 784-803 | a client leaves while a write to it is in flight: the report of the cancelled write closes another client |
| C54_other_loses_refuted | sis_net.uv.c:310-317 | .. or throws away the bytes just taken for another client |
| C54_freed_refuted | sis_net.uv.c:82-93 | the reader thread reads work_node without the lock and goes on with a freed node |
| C54_buffers_refuted | sis_net.uv.c:243 | the buffers of a write in flight are freed when the client leaves |
| C54_one_write_refuted | sis_net.uv.c:238-241, 310-317 | .. and a second write is started before the first has ended |
| C55_control_refuted | sis_net.node.c:883-942, sis_json.c:135 | in text messages a line feed arrives as backslash and n |
| C55_backslash_refuted | sis_net.node.c:1070-1082, sis_json.c:161-166 | a last field that ends in a backslash is lost |
| C55_swallow_refuted | sis_net.node.c:1070-1082, sis_json.c:161-166 | a field that ends in a backslash takes punctuation along and all later fields are lost; the message is accepted |
| C55_zero_refuted | sis_net.node.c:883-942 | fields are cut at a zero byte |
| C55_values_refuted | sis_net.node.c:908-920 | value lists are not written |
| C56_name_refuted | sis_net.c:932-980, 715-723 | one message with a name of 128 bytes is sent, refused by the receiver and ends the connection with all later messages |
| C57_limit_refuted | sis_disk.io.h:246, sis_disk_files.c:496 | the reserve counts one byte for head and length of a block: files exceed max_file_size |
| C57_many_files_refuted | sis_disk.io.h:282, sis_disk_files.c:145 | cur_unit has 8 bits: the 257th file truncates the first, and so on |
| C58_straddle_refuted | sis_disk_files.c:560, 574 | a length field of 5 bytes is read when 4 bytes are there: an intact file is misread when the head of a large block lies on a boundary of two pieces |
| C58_killed_refuted | sis_disk_files.c:247-251 | appending goes to 48 bytes before the end without looking for a tail: after a crash the last 48 bytes of data are overwritten |
| C60_stale_refuted | sis_net.ws.c:37-45, sis_str.c:295-303 | the end of the request is searched in all of the memory up to a zero: in a reused buffer a client gets the answer to the request of the connection before |
| C60_full_refuted | sis_net.ws.c:37-45 | a request that fills the receive buffer without being complete makes the search read outside of it |
| C60_case_refuted | sis_net.ws.c:47-77 | a request with "sec-websocket-key" in lower case is given up |
| C60_mention_refuted | sis_net.ws.c:47-77 | a request whose first line mentions the field name gets the answer to a wrong key |
| C60_client_refuted | sis_net.ws.c:79-87 | the client accepts any answer with the bytes 101 in it, such as "404 Not Found" with a length of 1010 |
| C60_own_request_refuted | sis_net.ws.c:9-18 | the client sends a key that is not base64 of 16 bytes and no Host field; strict servers refuse it |
| C61_size_refuted | sis_utf8.c:256-300 | the size of the output buffer is not looked at |
| C61_one_more_refuted | sis_utf8.c:301-344 | decoding writes one byte behind the result unless its length is a multiple of three |
| C61_strict_refuted | sis_utf8.c:301-344 | "QQ=A" is decoded: what follows an equals sign is ignored |
| C62_range_refuted | sis_disk_read.c:671-724 | reading a range of time returns all records of the days (years) that it touches |
| C62_msec_refuted | sis_disk_write.c:451, 508 | the time of a record passes through an int: in a batch in milliseconds that passes midnight, records go to the file of another date and are not found |
| C62_touch_refuted | sis_disk.io.sdb.c:39-65, sis_math.h:191-209 | a batch that begins at the time at which the one before ends removes all of that one |
| C62_overlap_refuted | sis_disk.io.sdb.c:39-65 | a batch that overlaps an older one removes all of it, also the records outside the overlap |
| C62_back_refuted | sis_disk.io.sdb.c:44-48 | a batch whose last record is earlier than its first removes all of the day |
| C62_again_refuted | sis_math.h:201-207 | a single record inside the time of a new batch is not seen as overlapping: it is returned twice and out of order |
| C63_removed_refuted | sis_disk.io.sdb.c:232 | value and width of a byte are exchanged when a removal is written: after reopening the removed place is there again |
| C63_ghost_refuted | sis_disk.io.sdb.c:232 | after a removal and reopening the list shows a place that was never added |
| C63_again_refuted | sis_disk.io.sdb.c:197-201 | a place that is added again after its removal is not shown |
| C63_names_refuted | sis_disk.io.sdb.c:161-169 | key a.b with table c and key a with table b.c share one entry |
| C64_plain_refuted | sis_disk.io.sdb.c:302, 578 | a message reads the name of the table of a node: null pointer for keys without table (one, mul) |
| C64_names_refuted | sis_disk_ctrl.c:73-83 | series with the same text key.table are mixed: each reader gets the blocks of both |
| C64_long_refuted | sis_disk.io.sdb.c:551, 580 | names are cut to 254 bytes on reading: the reader of one key gets the blocks of another |
| C65_new_key_refuted | sis_disk.io.c:312 | the list of new keys of a file is cleared before it is written: a new key is missing in the dictionary of a file that is already open; the next program that opens the file reads a null pointer |
| C65_wrong_key_refuted | sis_disk.io.c:312 | after that the number in a block stands for another key |
| C65_comma_refuted | sis_disk.io.c:390 | keys are stored in a list separated by commas: a key with a comma becomes two |
| C65_blank_refuted | sis_list.c:2190 | blanks at the ends of a key are lost |
| C66_names_refuted | sis_disk.io.sno.c:227-235 | series with the same text key.table share a block: records are delivered under the wrong key |
| C66_index_refuted | sis_disk.io.sno.c:676, 783 | the number of pages is taken from the last block of the index: with an index of several blocks, records of later pages are not delivered |
| C66_resize_refuted | sis_disk.io.sno.c:381-397 | blocks written before a table got another structure are cut into records by the new size |
| C67_single_refuted | snodb_reader.c:629 | the name of the table is looked up among the keys: a subscriber of single records gets none |
| C67_whole_single_refuted | snodb_reader.c:512-529 | a subscriber of everything, unpacked, gets nothing |
| C67_nomatch_refuted | snodb_reader.c:699-703 | who asks for a key that does not exist is sent the records of all keys |
| C67_second_refuted | snodb_reader.c:474-485 | a second subscription of a client is answered with OK and ignored |
| C67_after_end_refuted | snodb_reader.c:766-798 | a subscriber who is behind gets blocks after the message that the day is over |
| C67_lost_refuted | snodb_reader.c:792-796 | or never gets them |
| C67_freed_refuted | snodb_reader.c:776-791 | or its thread uses the unpacker that was destroyed before the thread was ended |
| C67_late_refuted | snodb_reader.c:530-567 | a slow subscriber for new data misses blocks published after it was told that the day had begun |
| C67_over_refuted | snodb.c:455 | after the end of the day the state does not change: who subscribes then gets nothing, neither from memory nor from the files |
| C67_again_refuted | snodb.c:371 | a new day begun while a subscriber is behind empties the list under its thread |
| C68_blocks_refuted | sis_db.c:426-484 | a series that has just got its next block is not asked for the next time: its records come after later ones of other series |
| C68_minutes_refuted | sis_dynamic.c:347-390 | a minute is converted to its first second: with tables in minutes and seconds the record of a minute comes before the seconds of that minute |
| C68_third_refuted | sis_db.c:296-307 | with a table in milliseconds as well it comes after them |
| C68_empty_refuted | sis_disk_read.c:949-950 | a block that cannot be read ends its series without notice; the later blocks are never sent |
| C69_first_empty_refuted | sis_csv.c:200 | the comma depends on the text written so far: after an empty first field it is missing, all columns move to the left |
| C69_comma_refuted | sis_csv.c:192-209 | texts are not quoted: a comma makes two cells |
| C69_double_refuted | sis_csv.c:236-245 | numbers with decimals are cut to 15 bytes with the comma: 1234567890123456.25 becomes 12345678901234 |
| C69_last_line_refuted | sis_csv.c:13-51 | a last line without line end is not read |
| C69_size_refuted | sis_csv.c:94-101 | an empty file has -1 records |
| C69_names_refuted | sis_csv.c:36-40 | of two columns with the same name the first cannot be reached by name |
| C69_line_end_refuted | sis_csv.c:328-331, sis_csv.h:68-71 | the callback reader gives the line end as part of the last cell |
| C69_long_cell_refuted | sis_csv.h:58-66 | a cell of 64 bytes and more is copied into an array of 64 bytes |
| C69_append_refuted | sis_csv.c:176, os_file.c:118 | a file that is not new is written from its beginning: old rows are overwritten in part |
| C70_again_refuted | sis_disk.io.c:950, sis_disk.io.sdb.c:53-62 | the entry of a merged block has the times of the last block: records written again for these times delete the whole series |
| C70_old_refuted | sis_disk.io.c:950 | records written again for earlier times are added beside the old ones |
| C70_keys_refuted | sis_disk.io.c:959-961 | each block of keys replaces the entry of the one before: the merged file cannot be opened (null pointer) |
| C70_tables_refuted | sis_disk.io.c:969-971 | the same with the blocks of tables |
| C70_first_refuted | sis_disk.io.c:978-985 | the numbers are written with the first block only; if it cannot be read they are missing and records are taken for them |
| C70_last_refuted | sis_disk.io.c:949 | the kind is that of the last block; if it cannot be read the numbers become records |
| C70_index_refuted | sis_disk.io.c:929, 1024 | the result of opening is not looked at: without readable index the data file is deleted |
| C71_wait_refuted | sis_mul_worker.c:294 | the two counters are added without the lock; between reading rnums and wnums the thread moves the tasks from one to the other: waiting returns before they are run |
| C71_destroy_refuted | sis_mul_worker.c:220-233, 190 | .. destroying the queue then frees tasks that the thread is running and frees again |
| C71_init_refuted | sis_mul_worker.c:208, 214 | the lock is initialised after the thread has started to use it; the first task can be put into a list that is cleared at the same time |
| C71_spawn_refuted | sis_mul_worker.c:131-141 | tasks given by tasks to a thread that was looked at already are not waited for |
| C71_stop_refuted | sis_mul_worker.c:10-14, 55 | a thread asked to end while it sleeps does not look at its tasks again: they are not run, their arguments are not freed |
| C72_percent_refuted | sis_sds.c:707-763 | a format that ends with a single percent sign: the terminator is taken for a letter and reading goes on behind the format |
| C72_self_refuted | sis_sds.c:444-456, 472-475 | a string appended to itself: the source has been freed by the enlargement |
| C72_trim_refuted | sis_sds.c:801-804 | strchr finds the terminator of the set: zero bytes at the ends are trimmed too |
| C72_range_refuted | sis_sds.c:841-846 | an end before the first byte is taken as the first byte |
| C72_fill_refuted | sis_sds.c:375 | adding a length of 0 fails the assertion for strings of less than 32 bytes only |
| C72_least_refuted | sis_sds.c:521 | the least number of 64 bits is negated |
| C73_long_names_refuted | sis_dynamic.c:60-65, 183 | names are stored with 31 bytes but told apart by all: fields with the same first 31 bytes become one when the definition is read back |
| C73_repeated_refuted | sis_dynamic.c:182-183, sis_utils.c:76-118 | the space of a field whose name is given again is not in the stored definition: after reading back the records are shorter and later fields have moved |
| C73_decimals_refuted | sis_dynamic.c:165-169, 175 | decimals are kept in one byte: a price with 256 has none, after reading back it has 3 |
| C73_escapes_refuted | sis_json.c:156-170, 1062-1100 | a backslash or quote in a name is escaped in writing but not read as an escape: the name grows with every writing |
| C74_repeated_refuted | sis_utils.c:469-475 | the number of values of a row is compared with the number of fields, without their repetitions: records with a repeated field are stored as zeros |
| C74_shift_refuted | sis_utils.c:469-487 | an array of one value for each field puts them into the elements of repeated fields one after the other: values go to other fields |
| C74_rows_refuted | sis_utils.c:465, 470-475 | a row of another length is passed over, but a record of zeros is stored behind the others |
| C74_empty_refuted | sis_utils.c:447-458, 510-532 | an empty array or object, or one with unknown names only, is stored as a record of zeros |
| C74_answer_refuted | sis_utils.c:159-163, 515-532 | the answer of a get cannot be set again: its one name is the key, a record of zeros is stored |
| C74_large_refuted | sis_dynamic.h:504-508 | unsigned numbers are read as signed ones: 2^63 and above come back as 2^63-1 |
| C74_names_refuted | sis_utils.c:520-525 | the names of the elements of a repeated field are not kept apart from other fields |
| C74_point_refuted | sis_json.c:1608-1616 | a field name with a point is looked up as a path and not found |
| C74_escapes_refuted | sis_json.c:156-170, 1062-1100 | a backslash in a character field is doubled by showing and setting |
| C75_first_refuted | frwdb.c:464-471, 526-533 | the first batch of every new key is lost: its number is looked up before the key is added and -1 is queued |
| C75_format_refuted | frwdb_reader.c:195-229 | a request in the default format (JSON) is answered with the bytes of the records marked as a text |
| C75_long_refuted | frwdb.c:480-481, 799-800 | names of together more than 126 bytes are cut: tables share a list, requests find nothing |
| C75_resize_refuted | frwdb.c:482-493, 801-812 | a table created again with another record size: its list copies records of the old size, past the end of what was sent |
| C75_newday_refuted | frwdb.c:267-276, 754-783; sisdb_server.c:448-453 | the beginning of a new day is logged and then removed with the log of the old day: after a crash the records of the new day are refused |
| C75_midnight_refuted | frwdb.c:687-698; sis_disk.io.c:152 | after a crash the log is looked for under the day of the restart, not under its own: after midnight everything is lost |
| C75_keys_refuted | frwdb.c:464-471; 687-703 | after a restart all keys are new again, so that the first batch of each in the log is lost |
| C75_failed_refuted | frwdb.c:356-371, 774-785 | if the file worker cannot be made, the memory is cleared and the log removed all the same |
| C75_thread_refuted | frwdb.c:756-762, 845-880; sis_thread.c:159-173, 236-241 | the old thread sets context->read_thread to NULL after it has said that it is done: that may be the pointer of the new thread |
| C76_json_refuted | sis_conf.c:350-361 | the quotes of the names in a JSON text stay part of the names: no setting of a JSON text is found, although sis_conf.h:11 asks for it |
| C76_blank_refuted | sis_conf.c:42-51 | a quoted string ends at the first blank (or sharp sign); its rest becomes the name of the next setting, which is lost, without an error |
| C76_empty_refuted | sis_conf.c:73-78 | an empty quoted string makes the whole file be refused |
| C76_cut_refuted | sis_conf.c:192, 237 | a file cut off behind a comma is accepted without an error |
| C76_comma_refuted | sis_conf.c:224-236 | where a comma is missing the later setting takes the place of the earlier |
| C76_digit_refuted | sis_conf.c:93-101, 248 | a word that starts with a digit (600600sh, 10:30) is taken apart: the comment at 248 says that the rest is skipped, but nothing does |
| C76_name_refuted | sis_conf.c:195, 415; sis_str.c:18-40 | a setting whose name begins with include is taken for an include |
| C76_nested_refuted | sis_conf.c:306-321 | the settings of a file included by an included file are lost but for the first, if anything follows the include |
| C76_self_refuted | sis_conf.c:266-339 | a file that includes itself uses up any stack |
| C76_load_refuted | sis_conf.c:366-383, 531-533 | a text with a name last, such as {a:1,}, makes sis_conf_load read behind its buffer: only sis_conf_open has the second 0 |
| C76_error_refuted | sis_conf.c:535-545 | sis_conf_load does not look at err_no: a broken text is used as far as it was read |
| C76_sub_refuted | sis_conf.c:535, 650-656 | where a comma stands between the objects of a file the callback is given the null pointer |
| C77_unknown_refuted | sis_utils.c:372-373, 394-395; sisdb_io.c:85-86 | a name the table does not have, in an answer as array or JSON, or names that are given as an array, make the server read a null pointer |
| C77_long_name_refuted | sis_dynamic.c:274-275 | a name of 128 bytes or more in an answer as bytes overflows a buffer on the stack |
| C77_index_refuted | sis_dynamic.c:267-283; sis_utils.c:286-302 | the number behind the point of a name is not compared with the number of elements: bytes of other fields and from outside of the records are sent |
| C77_columns_refuted | sis_utils.c:277-306, 383-433 | behind a repeated field the numbers under the names of an answer as JSON are not the columns |
| C77_range_refuted | sisdb_io.c:23-77 | ifprev given as true is taken as 0, and a range without start as the newest record |
| C77_form_refuted | sisdb_io.c:126-178 | an unknown form gives no answer, not even an error |
| C77_del_none_refuted | sisdb_io.c:247-290 | a request to delete without parameters deletes the records of time 0, although the comment says that nothing is deleted |
| C77_del_crash_refuted | sisdb.c:317 | del without a request reads the length of a null pointer |
| C77_del_more_refuted | sisdb_io.c:60-68, 262-276 | a range without stop ends at its start for get, but a negative start reaches to the end for del |
| C78_race_refuted | sisdb_client.c:299-302 | the number of a request is taken by an increment without a lock: two calls at the same time get the same number, and one gets the answer of the other, or a freed request is sent |
| C78_wrap_refuted | sisdb_client.c:299-302 | numbers are taken modulo 0xFFFFFF without looking whether they are in use: a subscription loses its place in the map to a later request, which gets its messages |
| C78_tag_refuted | sisdb_client.c:173-181 | every tag other than five is reported as an error: set and del, which answer with the tag of a number, always fail for the caller |
| C78_lost_refuted | sisdb_client.c:252-262, 425-428 | a call whose connection ends before its answer waits for ever, also after new connections |
| C78_resub_refuted | sisdb_client.c:224-246 | without user and password a new connection does not get the subscriptions again |
| C78_wait_sub_refuted | sisdb_client.c:184-187, 376-385 | a waiting call with a subscription: later messages are written into a message that its caller has given up |
| C78_bare_sub_refuted | sisdb_client.c:49-58 | a subscription without the name of a service is not known as one: it gets one message |
| C78_long_refuted | sisdb_client.c:51-52 | a command of 128 bytes and more behind the point overruns a buffer on the stack |
| C79_bad_tables_refuted | subdb.c:196-202 | tables that are not JSON: the old text is freed and the pointer kept, so the next greeting reads freed memory and the next tables free it again |
| C79_no_content_refuted | subdb.c:192, 198 | keys or tables without a content: the length is read in front of the null pointer |
| C79_stop_refuted | subdb.c:260-268 | a reader that subscribed after the last message of a day hears its end without its beginning |
| C79_heads_refuted | subdb.c:334, sis_utils.c:660 | messages are chosen by beginnings of table names, definitions by whole names: data of tables whose definitions are not announced |
| C79_no_point_refuted | subdb.c:40, 334 | a pattern without a point, also the star, gets data but an empty object of tables |
| C79_second_refuted | subdb.c:34-44 | a second subscription of the same client is delivered, but its keys and tables are never announced |
| C79_late_keys_refuted | subdb.c:189-193, 297-301 | keys or tables given after the first message of a day are not announced to the readers at work |
| C79_old_keys_refuted | subdb.c:217-231, 289-296 | a new day keeps the keys and tables of the day before and announces them for the new day |
| C79_gone_refuted | subdb.c:9-18, sisdb_server.c:61-70 | the service has no command clear: a closed connection stays a reader, and whoever gets its number hears its data without a start |
| C79_restart_refuted | subdb.c:217-231 | a day that begins while another is open: readers hear a second start without a stop |
| C80_reader_refuted | memdb.c:9-17, sisdb_sys.c:108-111 | no command has access flags: users who may only read set contents, and anybody calls init over the network |
| C80_init_refuted | memdb.c:95-101 | init called over the network empties the store, ends all subscriptions and takes away the function to send with: nothing published reaches anybody until the service is opened again |
| C80_zero_refuted | memdb.c:36 | contents are cut at their first zero byte |
| C80_case_refuted | sis_map.c:32-35 | names that differ only in case share one content |
| C80_no_name_refuted | memdb.c:141, sis_map.c:61-67 | a content set without a name is answered with OK, takes a new entry each time and cannot be read without a name |
| C80_gone_refuted | memdb.c:9-17, sisdb_server.c:61-70 | the store has no command clear: a closed connection keeps its subscriptions |
| C81_log_refuted | frwdb.c:31-32, snodb.c:29-30, subdb.c:17 | rlog and wlog have no access flags: users who may only read write any request into the log of the day's data and make the services load their logs again |
| C68_no_blocks_refuted | sis_disk_read.c:997-1006 | a selected series without blocks: the null entry of its index is used, and nothing of any series is sent |

## 4. Trusted base

* Coq 8.16.1's kernel, and the VM where `vm_compute` is used.
* `Print Assumptions` output for each property theorem: see section 5.
* The reading of the C code: the model is hand-written.
* Platform facts assumed by the reading: little-endian, 64-bit `size_t`, two's complement,
  `char` signed, arithmetic right shift, GCC's bit-field order (first field in the least
  significant bits).
* Not modelled: allocation failure, logging, performance, the C memory model below the
  granularity of lock-protected sections, floating point fields.

## 5. Print Assumptions

Output of `Print Assumptions` at the end of each property theorem (printed again by every build):

| file | theorem | assumptions |
|---|---|---|
| P_access.v | C81_reader_tables | Closed under the global context |
| P_access.v | C81_reader_partial | Closed under the global context |
| P_access.v | C81_others_partial | Closed under the global context |
| P_access.v | C81_log_refuted | Closed under the global context |
| P_bcast.v | C35_partial | Closed under the global context |
| P_bcast.v | C35_delivery_partial | Closed under the global context |
| P_bcast.v | C35_first_message_refuted | Closed under the global context |
| P_bcast.v | C35_head_refuted | Closed under the global context |
| P_bcast.v | C35_clear_refuted | Closed under the global context |
| P_bcast.v | C35_register_refuted | Closed under the global context |
| P_bcast.v | C35_late_start_refuted | Closed under the global context |
| P_bits.v | C03_bit_fields_roundtrip | Closed under the global context |
| P_bits.v | C04_int_roundtrip_partial | Closed under the global context |
| P_bits.v | C04_int_min_refuted | Closed under the global context |
| P_bits.v | C05_uint_roundtrip | Closed under the global context |
| P_bits.v | C05_sint_roundtrip | Closed under the global context |
| P_bits.v | C05_short_roundtrip | Closed under the global context |
| P_bits.v | C06_incr_int_roundtrip_partial | Closed under the global context |
| P_bits.v | C06_incr_int_refuted | Closed under the global context |
| P_bits.v | C07_chars_roundtrip_partial | Closed under the global context |
| P_bits.v | C07_empty_text_refuted | Closed under the global context |
| P_blocks.v | C57_index_partial | Closed under the global context |
| P_blocks.v | C57_size_partial | Closed under the global context |
| P_blocks.v | C57_limit_refuted | Closed under the global context |
| P_blocks.v | C57_many_files_refuted | Closed under the global context |
| P_blocks.v | C58_scan_partial | Closed under the global context |
| P_blocks.v | C58_straddle_refuted | Closed under the global context |
| P_blocks.v | C58_killed_refuted | Closed under the global context |
| P_client.v | C78_own | Closed under the global context |
| P_client.v | C78_once | Closed under the global context |
| P_client.v | C78_safe | Closed under the global context |
| P_client.v | C78_result | Closed under the global context |
| P_client.v | C78_finish | Closed under the global context |
| P_client.v | C78_sub_every | Closed under the global context |
| P_client.v | C78_again | Closed under the global context |
| P_client.v | C78_sub | Closed under the global context |
| P_client.v | C78_race_refuted | Closed under the global context |
| P_client.v | C78_tag_refuted | Closed under the global context |
| P_client.v | C78_wait_sub_refuted | Closed under the global context |
| P_client.v | C78_bare_sub_refuted | Closed under the global context |
| P_client.v | C78_long_refuted | Closed under the global context |
| P_client.v | C78_resub_refuted | Closed under the global context |
| P_client.v | C78_lost_refuted | Closed under the global context |
| P_client.v | C78_wrap_refuted | Closed under the global context |
| P_conf.v | C76_open | Closed under the global context |
| P_conf.v | C76_load | Closed under the global context |
| P_conf.v | C76_sub | Closed under the global context |
| P_conf.v | C76_safe | Closed under the global context |
| P_conf.v | C76_json_refuted | Closed under the global context |
| P_conf.v | C76_blank_refuted | Closed under the global context |
| P_conf.v | C76_empty_refuted | Closed under the global context |
| P_conf.v | C76_cut_refuted | Closed under the global context |
| P_conf.v | C76_comma_refuted | Closed under the global context |
| P_conf.v | C76_digit_refuted | Closed under the global context |
| P_conf.v | C76_name_refuted | Closed under the global context |
| P_conf.v | C76_nested_refuted | Closed under the global context |
| P_conf.v | C76_self_refuted | Closed under the global context |
| P_conf.v | C76_load_refuted | Closed under the global context |
| P_conf.v | C76_error_refuted | Closed under the global context |
| P_conf.v | C76_sub_refuted | Closed under the global context |
| P_csv.v | C69_read_partial | Closed under the global context |
| P_csv.v | C69_lines | Closed under the global context |
| P_csv.v | C69_cells | Closed under the global context |
| P_csv.v | C69_sub_partial | Closed under the global context |
| P_csv.v | C69_round_trip_partial | Closed under the global context |
| P_csv.v | C69_numbers | Closed under the global context |
| P_csv.v | C69_plus | Closed under the global context |
| P_csv.v | C69_default | Closed under the global context |
| P_csv.v | C69_sub_string | Closed under the global context |
| P_csv.v | C69_new_file | Closed under the global context |
| P_csv.v | C69_written | Closed under the global context |
| P_csv.v | C69_names_partial | Closed under the global context |
| P_csv.v | C69_first_empty_refuted | Closed under the global context |
| P_csv.v | C69_comma_refuted | Closed under the global context |
| P_csv.v | C69_double_refuted | Closed under the global context |
| P_csv.v | C69_last_line_refuted | Closed under the global context |
| P_csv.v | C69_size_refuted | Closed under the global context |
| P_csv.v | C69_names_refuted | Closed under the global context |
| P_csv.v | C69_line_end_refuted | Closed under the global context |
| P_csv.v | C69_long_cell_refuted | Closed under the global context |
| P_csv.v | C69_append_refuted | Closed under the global context |
| P_dict.v | C43_dictionary_is_a_map | Closed under the global context |
| P_dict.v | C43_names | Closed under the global context |
| P_dict.v | C43_numbers | Closed under the global context |
| P_dict.v | C44_loop_visits_once | Closed under the global context |
| P_e2e.v | C56_sends | Closed under the global context |
| P_e2e.v | C56_partial | Closed under the global context |
| P_e2e.v | C56_name_refuted | Closed under the global context |
| P_fastq.v | C33_fifo | Closed under the global context |
| P_fastq.v | C33_delivered | Closed under the global context |
| P_fastq.v | C33_no_deadlock | Closed under the global context |
| P_fastq.v | C33_pass_takes_all | Closed under the global context |
| P_fmaps.v | C16_range | Closed under the global context |
| P_fmaps.v | C16_prev | Closed under the global context |
| P_fmaps.v | C16_where | Closed under the global context |
| P_fmaps.v | C16_before | Closed under the global context |
| P_fmaps.v | C17_update | Closed under the global context |
| P_fmaps.v | C17_bounds | Closed under the global context |
| P_fmaps.v | C17_record | Closed under the global context |
| P_fmaps.v | C17_load | Closed under the global context |
| P_fmaps.v | C17_unique | Closed under the global context |
| P_fmaps.v | C17_first_batch_refuted | Closed under the global context |
| P_fmaps.v | C17_tie_refuted | Closed under the global context |
| P_fmaps.v | C17_unique_refuted | Closed under the global context |
| P_fmaps.v | C18_partial | Closed under the global context |
| P_fmaps.v | C18_total | Closed under the global context |
| P_fmaps.v | C18_first_batch_refuted | Closed under the global context |
| P_fmaps.v | C18_unique_refuted | Closed under the global context |
| P_fmaps.v | C18_delete_refuted | Closed under the global context |
| P_fmaps.v | C18_delete_blocks_refuted | Closed under the global context |
| P_fnon.v | C47_new_key | Closed under the global context |
| P_fnon.v | C47_partial | Closed under the global context |
| P_fnon.v | C47_lost_write_refuted | Closed under the global context |
| P_fnon.v | C47_overwritten_refuted | Closed under the global context |
| P_fnon.v | C47_wrap_refuted | Closed under the global context |
| P_fnon.v | C47_position_ignored | Closed under the global context |
| P_fnon.v | C47_position_refuted | Closed under the global context |
| P_fnon.v | C47_delete_unmarked_refuted | Closed under the global context |
| P_frwdb.v | C75_content | Closed under the global context |
| P_frwdb.v | C75_progress | Closed under the global context |
| P_frwdb.v | C75_written | Closed under the global context |
| P_frwdb.v | C75_once | Closed under the global context |
| P_frwdb.v | C75_restart | Closed under the global context |
| P_frwdb.v | C75_first_refuted | Closed under the global context |
| P_frwdb.v | C75_format_refuted | Closed under the global context |
| P_frwdb.v | C75_long_refuted | Closed under the global context |
| P_frwdb.v | C75_resize_refuted | Closed under the global context |
| P_frwdb.v | C75_newday_refuted | Closed under the global context |
| P_frwdb.v | C75_midnight_refuted | Closed under the global context |
| P_frwdb.v | C75_keys_refuted | Closed under the global context |
| P_frwdb.v | C75_failed_refuted | Closed under the global context |
| P_frwdb.v | C75_thread_partial | Closed under the global context |
| P_frwdb.v | C75_thread_refuted | Closed under the global context |
| P_hand.v | C60_whole_partial | Closed under the global context |
| P_hand.v | C60_pieces_partial | Closed under the global context |
| P_hand.v | C60_own | Closed under the global context |
| P_hand.v | C60_stale_refuted | Closed under the global context |
| P_hand.v | C60_full_refuted | Closed under the global context |
| P_hand.v | C60_case_refuted | Closed under the global context |
| P_hand.v | C60_mention_refuted | Closed under the global context |
| P_hand.v | C60_client_refuted | Closed under the global context |
| P_hand.v | C60_own_request_refuted | Closed under the global context |
| P_incrstep.v | C09_stepwise_roundtrip_partial | Closed under the global context |
| P_incrstep.v | C09_stepwise_roundtrip_refuted | Closed under the global context |
| P_incrzip.v | C08_table_roundtrip_partial | Closed under the global context |
| P_incrzip.v | C08_table_roundtrip_refuted | Closed under the global context |
| P_incrzip.v | C10_output_fits_partial | Closed under the global context |
| P_incrzip.v | C10_output_fits_refuted | Closed under the global context |
| P_index.v | C64_index_partial | Closed under the global context |
| P_index.v | C64_plain_refuted | Closed under the global context |
| P_index.v | C64_names_refuted | Closed under the global context |
| P_index.v | C64_long_refuted | Closed under the global context |
| P_json.v | C50_partial | Closed under the global context |
| P_json.v | C50_true_refuted | Closed under the global context |
| P_json.v | C50_nested_true_refuted | Closed under the global context |
| P_json.v | C50_null_refuted | Closed under the global context |
| P_json.v | C50_exponent_refuted | Closed under the global context |
| P_json.v | C50_empty_key_refuted | Closed under the global context |
| P_json.v | C50_backslash_refuted | Closed under the global context |
| P_json.v | C51_terminates | Closed under the global context |
| P_json.v | C51_depth_refuted | Closed under the global context |
| P_json.v | C51_accepts_refuted | Closed under the global context |
| P_json.v | C52_fits | Closed under the global context |
| P_json.v | C52_partial | Closed under the global context |
| P_json.v | C52_control_refuted | Closed under the global context |
| P_json.v | C52_true_refuted | Closed under the global context |
| P_json.v | C50_case_refuted | Closed under the global context |
| P_kdict.v | C65_keys_partial | Closed under the global context |
| P_kdict.v | C65_new_key_refuted | Closed under the global context |
| P_kdict.v | C65_wrong_key_refuted | Closed under the global context |
| P_kdict.v | C65_comma_refuted | Closed under the global context |
| P_kdict.v | C65_blank_refuted | Closed under the global context |
| P_list.v | C11_struct_list_is_sequence | Closed under the global context |
| P_list.v | C12_limit_keeps_newest | Closed under the global context |
| P_lists.v | C13_chunked_queue_partial | Closed under the global context |
| P_lists.v | C13_get_refuted | Closed under the global context |
| P_lists.v | C13_pop_empty_refuted | Closed under the global context |
| P_lists.v | C14_sorted_list_is_map | Closed under the global context |
| P_lists.v | C15_ranking_list | Closed under the global context |
| P_lists.v | C15_ranking_keeps_best | Closed under the global context |
| P_live.v | C67_partial | Closed under the global context |
| P_live.v | C67_started | Closed under the global context |
| P_live.v | C67_progress | Closed under the global context |
| P_live.v | C67_single_refuted | Closed under the global context |
| P_live.v | C67_whole_single_refuted | Closed under the global context |
| P_live.v | C67_nomatch_refuted | Closed under the global context |
| P_live.v | C67_second_refuted | Closed under the global context |
| P_live.v | C67_after_end_refuted | Closed under the global context |
| P_live.v | C67_lost_refuted | Closed under the global context |
| P_live.v | C67_freed_refuted | Closed under the global context |
| P_live.v | C67_late_refuted | Closed under the global context |
| P_live.v | C67_over_refuted | Closed under the global context |
| P_live.v | C67_again_refuted | Closed under the global context |
| P_log.v | C26_recover_partial | Closed under the global context |
| P_log.v | C26_torn_length_refuted | Closed under the global context |
| P_log.v | C26_straddle_refuted | Closed under the global context |
| P_log.v | C26_short_file_refuted | Closed under the global context |
| P_log.v | C27_replay_partial | Closed under the global context |
| P_log.v | C27_torn_partial | Closed under the global context |
| P_log.v | C27_small_last_refuted | Closed under the global context |
| P_log.v | C27_straddle_refuted | Closed under the global context |
| P_log.v | C28_prefix_partial | Closed under the global context |
| P_log.v | C28_unflushed_refuted | Closed under the global context |
| P_map.v | C36_named_list | Closed under the global context |
| P_map.v | C45_values_freed_once | Closed under the global context |
| P_map.v | C45_same_value_refuted | Closed under the global context |
| P_mapfile.v | C63_added_partial | Closed under the global context |
| P_mapfile.v | C63_removed_refuted | Closed under the global context |
| P_mapfile.v | C63_ghost_refuted | Closed under the global context |
| P_mapfile.v | C63_again_refuted | Closed under the global context |
| P_mapfile.v | C63_names_refuted | Closed under the global context |
| P_memdb.v | C80_partial | Closed under the global context |
| P_memdb.v | C80_cut | Closed under the global context |
| P_memdb.v | C80_zero_refuted | Closed under the global context |
| P_memdb.v | C80_case_refuted | Closed under the global context |
| P_memdb.v | C80_no_name | Closed under the global context |
| P_memdb.v | C80_no_name_refuted | Closed under the global context |
| P_memdb.v | C80_gone_refuted | Closed under the global context |
| P_memdb.v | C80_anyone | Closed under the global context |
| P_memdb.v | C80_reader_refuted | Closed under the global context |
| P_memdb.v | C80_init_refuted | Closed under the global context |
| P_memdb.v | C80_silent | Closed under the global context |
| P_memory.v | C01_ssize_roundtrip | Closed under the global context |
| P_memory.v | C02_try_ssize_complete | Closed under the global context |
| P_memory.v | C41_buffer_is_byte_queue | Closed under the global context |
| P_merge.v | C70_write_partial | Closed under the global context |
| P_merge.v | C70_write_all | Closed under the global context |
| P_merge.v | C70_no_entries | Closed under the global context |
| P_merge.v | C70_read | Closed under the global context |
| P_merge.v | C70_merge_partial | Closed under the global context |
| P_merge.v | C70_later_partial | Closed under the global context |
| P_merge.v | C70_again_refuted | Closed under the global context |
| P_merge.v | C70_old_refuted | Closed under the global context |
| P_merge.v | C70_keys_refuted | Closed under the global context |
| P_merge.v | C70_tables_refuted | Closed under the global context |
| P_merge.v | C70_first_refuted | Closed under the global context |
| P_merge.v | C70_last_refuted | Closed under the global context |
| P_merge.v | C70_index_refuted | Closed under the global context |
| P_netmsg.v | C22_roundtrip_partial | Closed under the global context |
| P_netmsg.v | C22_serial_number_refuted | Closed under the global context |
| P_netmsg.v | C22_values_refuted | Closed under the global context |
| P_netmsg.v | C22_empty_field_refuted | Closed under the global context |
| P_netmsg.v | C22_name_refuted | Closed under the global context |
| P_netmsg.v | C42_decode_safe_refuted | Closed under the global context |
| P_netq.v | C23_fifo_partial | Closed under the global context |
| P_netq.v | C23_drain_partial | Closed under the global context |
| P_netq.v | C23_fits_partial | Closed under the global context |
| P_netq.v | C23_large_message_refuted | Closed under the global context |
| P_netq.v | C23_read_reports_nothing_refuted | Closed under the global context |
| P_netq.v | C23_free_discards_refuted | Closed under the global context |
| P_netq.v | C24_node_queue | Closed under the global context |
| P_netq.v | C25_slots_partial | Closed under the global context |
| P_netq.v | C25_safe_partial | Closed under the global context |
| P_netq.v | C25_growth_refuted | Closed under the global context |
| P_nettext.v | C55_roundtrip_partial | Closed under the global context |
| P_nettext.v | C55_control_refuted | Closed under the global context |
| P_nettext.v | C55_backslash_refuted | Closed under the global context |
| P_nettext.v | C55_swallow_refuted | Closed under the global context |
| P_nettext.v | C55_zero_refuted | Closed under the global context |
| P_nettext.v | C55_values_refuted | Closed under the global context |
| P_query.v | C77_text | Closed under the global context |
| P_query.v | C77_array | Closed under the global context |
| P_query.v | C77_json | Closed under the global context |
| P_query.v | C77_bytes | Closed under the global context |
| P_query.v | C77_bytes_fields | Closed under the global context |
| P_query.v | C77_del | Closed under the global context |
| P_query.v | C77_del_nothing | Closed under the global context |
| P_query.v | C77_get_nothing | Closed under the global context |
| P_query.v | C77_array_empty | Closed under the global context |
| P_query.v | C77_unknown_refuted | Closed under the global context |
| P_query.v | C77_long_name_refuted | Closed under the global context |
| P_query.v | C77_index_refuted | Closed under the global context |
| P_query.v | C77_columns_refuted | Closed under the global context |
| P_query.v | C77_range_refuted | Closed under the global context |
| P_query.v | C77_form_refuted | Closed under the global context |
| P_query.v | C77_del_none_refuted | Closed under the global context |
| P_query.v | C77_del_crash_refuted | Closed under the global context |
| P_query.v | C77_del_more_refuted | Closed under the global context |
| P_rectext.v | C74_get | Closed under the global context |
| P_rectext.v | C74_set_array | Closed under the global context |
| P_rectext.v | C74_set_object | Closed under the global context |
| P_rectext.v | C74_other | Closed under the global context |
| P_rectext.v | C74_roundtrip | Closed under the global context |
| P_rectext.v | C74_roundtrip_ex | Closed under the global context |
| P_rectext.v | C74_repeated_refuted | Closed under the global context |
| P_rectext.v | C74_shift_refuted | Closed under the global context |
| P_rectext.v | C74_rows_refuted | Closed under the global context |
| P_rectext.v | C74_empty_refuted | Closed under the global context |
| P_rectext.v | C74_answer_refuted | Closed under the global context |
| P_rectext.v | C74_large_refuted | Closed under the global context |
| P_rectext.v | C74_names_refuted | Closed under the global context |
| P_rectext.v | C74_point_refuted | Closed under the global context |
| P_rectext.v | C74_escapes_refuted | Closed under the global context |
| P_refs.v | C40_object_partial | Closed under the global context |
| P_refs.v | C40_plain_partial | Closed under the global context |
| P_refs.v | C40_plain_refuted | Closed under the global context |
| P_refs.v | C40_null_refuted | Closed under the global context |
| P_replay.v | C68_complete | Closed under the global context |
| P_replay.v | C68_alone | Closed under the global context |
| P_replay.v | C68_order_partial | Closed under the global context |
| P_replay.v | C68_blocks_refuted | Closed under the global context |
| P_replay.v | C68_minutes_refuted | Closed under the global context |
| P_replay.v | C68_third_refuted | Closed under the global context |
| P_replay.v | C68_empty_refuted | Closed under the global context |
| P_replay.v | C68_queues | Closed under the global context |
| P_replay.v | C68_no_blocks_refuted | Closed under the global context |
| P_rwlock.v | C49_exclusive | Closed under the global context |
| P_rwlock.v | C49_no_assert | Closed under the global context |
| P_rwlock.v | C49_progress_partial | Closed under the global context |
| P_rwlock.v | C49_try_refuted | Closed under the global context |
| P_sdb.v | C62_days_partial | Closed under the global context |
| P_sdb.v | C62_years_partial | Closed under the global context |
| P_sdb.v | C62_range_refuted | Closed under the global context |
| P_sdb.v | C62_msec_refuted | Closed under the global context |
| P_sdb.v | C62_touch_refuted | Closed under the global context |
| P_sdb.v | C62_overlap_refuted | Closed under the global context |
| P_sdb.v | C62_back_refuted | Closed under the global context |
| P_sdb.v | C62_again_refuted | Closed under the global context |
| P_sds.v | C72_ops | Closed under the global context |
| P_sds.v | C72_zeros | Closed under the global context |
| P_sds.v | C72_percent_refuted | Closed under the global context |
| P_sds.v | C72_self_refuted | Closed under the global context |
| P_sds.v | C72_trim_refuted | Closed under the global context |
| P_sds.v | C72_range_refuted | Closed under the global context |
| P_sds.v | C72_fill_refuted | Closed under the global context |
| P_sds.v | C72_least_refuted | Closed under the global context |
| P_sendq.v | C54_partial | Closed under the global context |
| P_sendq.v | C54_delivered_partial | Closed under the global context |
| P_sendq.v | C54_turns_partial | Closed under the global context |
| P_sendq.v | C54_other_closed_refuted | Closed under the global context |
| P_sendq.v | C54_other_loses_refuted | Closed under the global context |
| P_sendq.v | C54_freed_refuted | Closed under the global context |
| P_sendq.v | C54_buffers_refuted | Closed under the global context |
| P_sendq.v | C54_one_write_refuted | Closed under the global context |
| P_server.v | C29_login_first_partial | Closed under the global context |
| P_server.v | C29_number_login_partial | Closed under the global context |
| P_server.v | C29_inherited_login_refuted | Closed under the global context |
| P_server.v | C29_late_login_refuted | Closed under the global context |
| P_server.v | C30_reader_partial | Closed under the global context |
| P_server.v | C30_writer_refuted | Closed under the global context |
| P_server.v | C31_login_checked_partial | Closed under the global context |
| P_server.v | C31_login_accepted_partial | Closed under the global context |
| P_server.v | C31_case_refuted | Closed under the global context |
| P_server.v | C31_unknown_name_crash | Closed under the global context |
| P_server.v | C31_crash_refuted | Closed under the global context |
| P_server.v | C32_same_order_partial | Closed under the global context |
| P_server.v | C32_logged_then_run_partial | Closed under the global context |
| P_server.v | C32_failed_append_refuted | Closed under the global context |
| P_sha1.v | C59_sha1 | Closed under the global context |
| P_sha1.v | C61_base64 | Closed under the global context |
| P_sha1.v | C61_size_refuted | Closed under the global context |
| P_sha1.v | C61_one_more_refuted | Closed under the global context |
| P_sha1.v | C61_strict_refuted | Closed under the global context |
| P_sno.v | C66_whole_partial | Closed under the global context |
| P_sno.v | C66_part_partial | Closed under the global context |
| P_sno.v | C66_names_refuted | Closed under the global context |
| P_sno.v | C66_index_refuted | Closed under the global context |
| P_sno.v | C66_resize_refuted | Closed under the global context |
| P_sub.v | C53_partial | Closed under the global context |
| P_sub.v | C53_answers_partial | Closed under the global context |
| P_sub.v | C53_unsubscribed | Closed under the global context |
| P_sub.v | C53_star_side_refuted | Closed under the global context |
| P_sub.v | C53_one_use_refuted | Closed under the global context |
| P_sub.v | C53_one_use_more_refuted | Closed under the global context |
| P_sub.v | C53_once_refuted | Closed under the global context |
| P_sub.v | C53_long_name_refuted | Closed under the global context |
| P_sub.v | C53_empty_side_refuted | Closed under the global context |
| P_sub.v | C53_gone_refuted | Closed under the global context |
| P_sub.v | C53_count_refuted | Closed under the global context |
| P_subdb.v | C79_stream_partial | Closed under the global context |
| P_subdb.v | C79_pub | Closed under the global context |
| P_subdb.v | C79_greeting | Closed under the global context |
| P_subdb.v | C79_refused | Closed under the global context |
| P_subdb.v | C79_safe_partial | Closed under the global context |
| P_subdb.v | C79_stop_refuted | Closed under the global context |
| P_subdb.v | C79_bad_tables_refuted | Closed under the global context |
| P_subdb.v | C79_no_content_refuted | Closed under the global context |
| P_subdb.v | C79_heads_refuted | Closed under the global context |
| P_subdb.v | C79_no_point_refuted | Closed under the global context |
| P_subdb.v | C79_second_refuted | Closed under the global context |
| P_subdb.v | C79_late_keys_refuted | Closed under the global context |
| P_subdb.v | C79_old_keys_refuted | Closed under the global context |
| P_subdb.v | C79_gone_refuted | Closed under the global context |
| P_subdb.v | C79_restart_refuted | Closed under the global context |
| P_tabdef.v | C73_roundtrip | Closed under the global context |
| P_tabdef.v | C73_versions | Closed under the global context |
| P_tabdef.v | C73_read | Closed under the global context |
| P_tabdef.v | C73_broken | Closed under the global context |
| P_tabdef.v | C73_long_names_refuted | Closed under the global context |
| P_tabdef.v | C73_repeated_refuted | Closed under the global context |
| P_tabdef.v | C73_decimals_refuted | Closed under the global context |
| P_tabdef.v | C73_escapes_refuted | Closed under the global context |
| P_table.v | C37_fields_apart_partial | Closed under the global context |
| P_table.v | C37_store_partial | Closed under the global context |
| P_table.v | C37_overlap_refuted | Closed under the global context |
| P_table.v | C37_real_store_refuted | Closed under the global context |
| P_table.v | C46_special_fields_partial | Closed under the global context |
| P_table.v | C46_repeated_name_refuted | Closed under the global context |
| P_table.v | C38_convert_partial | Closed under the global context |
| P_table.v | C38_reordered_refuted | Closed under the global context |
| P_table.v | C38_renamed_refuted | Closed under the global context |
| P_table.v | C38_long_name_refuted | Closed under the global context |
| P_tasks.v | C71_once | Closed under the global context |
| P_tasks.v | C71_progress | Closed under the global context |
| P_tasks.v | C71_wait_partial | Closed under the global context |
| P_tasks.v | C71_wait_refuted | Closed under the global context |
| P_tasks.v | C71_destroy_refuted | Closed under the global context |
| P_tasks.v | C71_init_refuted | Closed under the global context |
| P_tasks.v | C71_pool | Closed under the global context |
| P_tasks.v | C71_pool_progress | Closed under the global context |
| P_tasks.v | C71_pool_wait | Closed under the global context |
| P_tasks.v | C71_spawn_refuted | Closed under the global context |
| P_tasks.v | C71_stop_refuted | Closed under the global context |
| P_time.v | C39_offset_day_partial | Closed under the global context |
| P_time.v | C39_day_difference | Closed under the global context |
| P_time.v | C39_weekday | Closed under the global context |
| P_time.v | C39_next_work_day_partial | Closed under the global context |
| P_time.v | C39_next_work_day_refuted | Closed under the global context |
| P_time.v | C39_epoch_refuted | Closed under the global context |
| P_wait.v | C48_partial | Closed under the global context |
| P_wait.v | C48_call_partial | Closed under the global context |
| P_wait.v | C48_race | Closed under the global context |
| P_wait.v | C48_race_refuted | Closed under the global context |
| P_waitq.v | C34_one_at_a_time | Closed under the global context |
| P_waitq.v | C34_all_handed_out | Closed under the global context |
| P_waitq.v | C34_callback_deadlock | Closed under the global context |
| P_ws.v | C19_pack_partial | Closed under the global context |
| P_ws.v | C19_unpack_partial | Closed under the global context |
| P_ws.v | C19_roundtrip_partial | Closed under the global context |
| P_ws.v | C19_empty_refuted | Closed under the global context |
| P_ws.v | C20_prefix_waits_partial | Closed under the global context |
| P_ws.v | C20_any_chunks_partial | Closed under the global context |
| P_ws.v | C21_large_refuted | Closed under the global context |
| P_ws.v | C21_any_bytes_partial | Closed under the global context |
| P_ws.v | C21_empty_binary_refuted | Closed under the global context |
