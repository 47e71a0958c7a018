{"claims": [
{"property": "C01", "status": "proved", "theorems": ["C01_ssize_roundtrip"], "note": ""},
{"property": "C02", "status": "proved", "theorems": ["C02_try_ssize_complete"], "note": ""},
{"property": "C03", "status": "proved", "theorems": ["C03_bit_fields_roundtrip"], "note": ""},
{"property": "C04", "status": "partial", "theorems": ["C04_int_roundtrip_partial", "C04_int_min_refuted"], "note": "The code violates the property at INT64_MIN (decodes to 0); proved for every other int64."},
{"property": "C05", "status": "proved", "theorems": ["C05_uint_roundtrip", "C05_sint_roundtrip", "C05_short_roundtrip"], "note": ""},
{"property": "C06", "status": "partial", "theorems": ["C06_incr_int_roundtrip_partial", "C06_incr_int_refuted"], "note": "The code violates the property when the wrapped difference is INT64_MIN; proved for every other pair."},
{"property": "C07", "status": "partial", "theorems": ["C07_chars_roundtrip_partial", "C07_empty_text_refuted"], "note": "The code violates the property when a text becomes empty; proved for every other pair of texts of the same field width."},
{"property": "C08", "status": "partial", "theorems": ["C08_table_roundtrip_partial", "C08_table_roundtrip_refuted"], "note": "The code violates the property when an 8-byte field moves by exactly 2^63 between records; proved for all other record sequences of tables without CHAR and FLOAT fields."},
{"property": "C09", "status": "partial", "theorems": ["C09_stepwise_roundtrip_partial", "C09_stepwise_roundtrip_refuted"], "note": "The code violates the property when the first call for a (key, table) pair carries two or more records; proved for every other history of calls on tables without CHAR and FLOAT fields whose 8-byte words never move by 2^63."},
{"property": "C10", "status": "partial", "theorems": ["C10_output_fits_partial", "C10_output_fits_refuted"], "note": "Proved for inputs with few integers. The code violates the property beyond: the one-shot compressor writes outside the buffer for a 4-byte column alternating between its extreme values."},
{"property": "C11", "status": "proved", "theorems": ["C11_struct_list_is_sequence"], "note": ""},
{"property": "C12", "status": "proved", "theorems": ["C12_limit_keeps_newest"], "note": ""},
{"property": "C13", "status": "partial", "theorems": ["C13_chunked_queue_partial", "C13_get_refuted", "C13_pop_empty_refuted"], "note": "The code violates the property: reading past twice the rest of a partly consumed first chunk returns another element, and a pop on an empty list uses the chunk it has just freed. Proved for every other history."},
{"property": "C14", "status": "proved", "theorems": ["C14_sorted_list_is_map"], "note": ""},
{"property": "C15", "status": "proved", "theorems": ["C15_ranking_list", "C15_ranking_keeps_best"], "note": ""},
{"property": "C16", "status": "proved", "theorems": ["C16_range", "C16_prev", "C16_where", "C16_before"], "note": "For times below 2^63. The starting guess, a quotient of floating-point numbers in the code, is an arbitrary nonnegative number. The times 0 and -1 have the special meaning the code gives them."},
{"property": "C17", "status": "proved", "theorems": ["C17_update", "C17_bounds", "C17_record", "C17_load", "C17_unique", "C17_first_batch_refuted", "C17_tie_refuted", "C17_unique_refuted"], "note": "For a series that is in order. The first batch of an empty series is stored as it comes, so it must be in order itself (C17_first_batch_refuted); records of one time do not keep their order of arrival (C17_tie_refuted). Uniqueness fields are outside the property: see C17_unique and C17_unique_refuted."},
{"property": "C18", "status": "partial", "theorems": ["C18_partial", "C18_total", "C18_first_batch_refuted", "C18_unique_refuted", "C18_delete_refuted", "C18_delete_blocks_refuted"], "note": "The code violates the property: the first batch of an empty series is not stored, nor are changes of records with uniqueness fields in blocks without an index entry; deletions can erase whole blocks. Proved for every history on a series that is not empty, without uniqueness fields and deletions."},
{"property": "C19", "status": "partial", "theorems": ["C19_pack_partial", "C19_unpack_partial", "C19_roundtrip_partial", "C19_empty_refuted"], "note": "The code violates the property for an empty text (nothing is sent). Proved for every other content, fragmentation, masking and trailing bytes while fewer than 2^28 bytes are buffered."},
{"property": "C20", "status": "partial", "theorems": ["C20_prefix_waits_partial", "C20_any_chunks_partial", "C21_large_refuted"], "note": "Proved for every split while fewer than 2^28 bytes are buffered; beyond that the code reads outside the buffer (C21_large_refuted)."},
{"property": "C21", "status": "partial", "theorems": ["C21_any_bytes_partial", "C21_empty_binary_refuted", "C21_large_refuted"], "note": "The code violates the property for a binary message without payload and for fragmented input in buffers of 256 MB; proved for every other input."},
{"property": "C22", "status": "partial", "theorems": ["C22_roundtrip_partial", "C22_serial_number_refuted", "C22_values_refuted", "C22_empty_field_refuted", "C22_name_refuted"], "note": "The code violates the property: serial numbers lose all but 32 bits, value lists are written but never read, empty fields come back absent, names with a colon or of 128 bytes are cut or refused. Proved for every other content."},
{"property": "C23", "status": "partial", "theorems": ["C23_fifo_partial", "C23_drain_partial", "C23_fits_partial", "C23_large_message_refuted", "C23_read_reports_nothing_refuted", "C23_free_discards_refuted"], "note": "The code violates the property: a message that does not fit a standard node is written past its end, a read can report nothing while messages wait, and giving a batch back discards what was not popped. Proved for readers that free only drained batches."},
{"property": "C24", "status": "proved", "theorems": ["C24_node_queue"], "note": ""},
{"property": "C25", "status": "partial", "theorems": ["C25_slots_partial", "C25_safe_partial", "C25_growth_refuted"], "note": "The code violates the property on the 1025th live connection, which is stored outside the arrays. Proved for every history that never grows the list."},
{"property": "C26", "status": "partial", "theorems": ["C26_recover_partial", "C26_torn_length_refuted", "C26_straddle_refuted", "C26_short_file_refuted"], "note": "Proved for every cut, any stale bytes and any length of the log, when no head of a record above 250 bytes lies on a piece boundary and no length field of 5 or 9 bytes is cut. Violated in those cases and for files shorter than the file head."},
{"property": "C27", "status": "partial", "theorems": ["C27_replay_partial", "C27_torn_partial", "C27_small_last_refuted", "C27_straddle_refuted"], "note": "Proved for whole and cut logs of any length with records of up to 65785 bytes (longer ones when their head is in one piece) and a last record of 4 bytes or more (2 when in one piece). Last records of 0 or 1 byte are not delivered."},
{"property": "C28", "status": "partial", "theorems": ["C28_prefix_partial", "C28_unflushed_refuted"], "note": "What is left after a kill is a prefix of what was written, reopening gives a prefix of the records, and closing keeps everything; but records whose write has returned are lost."},
{"property": "C29", "status": "partial", "theorems": ["C29_login_first_partial", "C29_number_login_partial", "C29_inherited_login_refuted", "C29_late_login_refuted"], "note": "The code violates the property once a connection number is used again: a login survives its connection if a frame was unreadable or if the login was still queued at disconnect. Proved for all histories in which no number is used twice. Data sets and their methods are fixed; the effect of methods is not modelled."},
{"property": "C30", "status": "partial", "theorems": ["C30_reader_partial", "C30_writer_refuted"], "note": "The code violates the property for the write level, which can call deleting and administrative methods including setuser. Proved for readers and for methods not callable from the network."},
{"property": "C31", "status": "partial", "theorems": ["C31_login_checked_partial", "C31_login_accepted_partial", "C31_unknown_name_crash", "C31_case_refuted", "C31_crash_refuted"], "note": "The code violates the property: passwords are compared ignoring case, and an unknown name or missing content crashes the server. Proved up to letter case."},
{"property": "C32", "status": "partial", "theorems": ["C32_same_order_partial", "C32_logged_then_run_partial", "C32_failed_append_refuted"], "note": "Proved for commands on data sets while appends succeed; a failing append does not stop the command. Commands of the server itself are never logged."},
{"property": "C33", "status": "proved", "theorems": ["C33_fifo", "C33_delivered", "C33_no_deadlock", "C33_pass_takes_all"], "note": "Every access to shared memory is a step of its own; any number of threads push, read and clear. Sequentially consistent memory."},
{"property": "C34", "status": "proved", "theorems": ["C34_one_at_a_time", "C34_all_handed_out", "C34_callback_deadlock"], "note": "A completion is reported once per object handed out (the contract of set_busy). A callback that calls its own queue blocks it for ever (C34_callback_deadlock)."},
{"property": "C35", "status": "partial", "theorems": ["C35_partial", "C35_delivery_partial", "C35_first_message_refuted", "C35_head_refuted", "C35_clear_refuted", "C35_register_refuted", "C35_late_start_refuted"], "note": "Safety and delivery proved for all schedules when the list is not cleared, readers are registered before they take their place, and everything is kept or readers start from the tail of a used list. Outside these conditions the code touches freed messages: schedules are given, one of them in the server's configuration."},
{"property": "C36", "status": "proved", "theorems": ["C36_named_list"], "note": "For fewer than 2^27 operations (list sizes are C ints)."},
{"property": "C37", "status": "partial", "theorems": ["C37_fields_apart_partial", "C37_store_partial", "C37_overlap_refuted", "C37_real_store_refuted"], "note": "Proved for tables of at most 65536 bytes and number fields of 1, 2, 4 or 8 bytes. Beyond 65536 bytes the 16-bit offset wraps and fields overlap; float and price fields of other lengths are stored outside the field."},
{"property": "C38", "status": "partial", "theorems": ["C38_convert_partial", "C38_reordered_refuted", "C38_renamed_refuted", "C38_long_name_refuted"], "note": "Proved for tables of at most 65536 bytes, target names under 32 bytes, and tables that differ in size, number of fields or a common field, or have the common fields in the same places. Conversions to and from floats and prices and between time units are not claimed. Otherwise the code violates the property."},
{"property": "C39", "status": "partial", "theorems": ["C39_offset_day_partial", "C39_day_difference", "C39_weekday", "C39_next_work_day_partial", "C39_next_work_day_refuted", "C39_epoch_refuted"], "note": "Day differences and weekdays proved for all dates of years 0 to 200000 in a time zone of fixed offset; moving by up to 24855 days when the result is not time 0. The next working day is right only when the day moved to is a weekday; on weekends the code returns the weekend day."},
{"property": "C40", "status": "partial", "theorems": ["C40_object_partial", "C40_plain_partial", "C40_plain_refuted", "C40_null_refuted"], "note": "Objects: proved for all schedules of any number of threads, for a pointer that is not NULL and fewer than 2^32-1 references and threads. Messages and table definitions use plain loads and stores: proved when operations do not overlap, violated when they do."},
{"property": "C41", "status": "proved", "theorems": ["C41_buffer_is_byte_queue"], "note": ""},
{"property": "C42", "status": "partial", "theorems": ["C42_decode_safe_refuted"], "note": "The code violates the property: field lengths are never compared with the received size. No positive part is claimed beyond C22."},
{"property": "C43", "status": "proved", "theorems": ["C43_dictionary_is_a_map", "C43_names", "C43_numbers"], "note": "For fewer than 2^60 operations and reservations up to 2^62."},
{"property": "C44", "status": "proved", "theorems": ["C44_loop_visits_once"], "note": ""},
{"property": "C45", "status": "proved", "theorems": ["C45_values_freed_once", "C45_same_value_refuted"], "note": "For fewer than 2^27 operations. The second theorem shows the assumption of distinct values is needed."},
{"property": "C46", "status": "partial", "theorems": ["C46_special_fields_partial", "C46_repeated_name_refuted"], "note": "Proved when the names differ ignoring case and the table has at most 65536 bytes; a repeated name leaves a pointer to freed memory."},
{"property": "C47", "status": "partial", "theorems": ["C47_new_key", "C47_partial", "C47_lost_write_refuted", "C47_overwritten_refuted", "C47_wrap_refuted", "C47_position_ignored", "C47_position_refuted", "C47_delete_unmarked_refuted"], "note": "The code violates the property for keys on disk that are written before they are read or read 256 times, and for positions that are not negative. Proved for keys not on disk and for keys read first and fewer than 256 times, with positions counted from the end. Saves and uniqueness fields are not covered."},
{"property": "C48", "status": "partial", "theorems": ["C48_partial", "C48_call_partial", "C48_race", "C48_race_refuted"], "note": "The code violates the property: two threads requesting a handle at once get the same one. Proved for all schedules in which requests do not overlap (releases may)."},
{"property": "C49", "status": "partial", "theorems": ["C49_exclusive", "C49_no_assert", "C49_progress_partial", "C49_try_refuted"], "note": "Exclusion and assertions proved for all schedules of fewer than 2^31 threads. Progress is violated after a failed sis_mutex_rw_try_lock_w, which shuts out all readers; proved when that function is not called."},
{"property": "C50", "status": "partial", "theorems": ["C50_partial", "C50_true_refuted", "C50_nested_true_refuted", "C50_null_refuted", "C50_exponent_refuted", "C50_empty_key_refuted", "C50_backslash_refuted", "C50_case_refuted"], "note": "Proved for every text below 2^31 bytes without null, with true and false only before a comma or a blank, no escape but backslash-quote, no empty key, exponents written e or e-. The code violates the property for each of these exceptions; \\u escapes are not in the grammar used."},
{"property": "C51", "status": "partial", "theorems": ["C51_terminates", "C51_depth_refuted", "C51_accepts_refuted"], "note": "The parser stops on every input. The depth of calls grows with the input without limit, and texts that are not JSON are accepted."},
{"property": "C52", "status": "partial", "theorems": ["C52_fits", "C52_partial", "C52_control_refuted", "C52_true_refuted"], "note": "Buffers proved sufficient for all trees with strings below 2^28 bytes. Reading back is proved for plain strings (quotes allowed), plain non-empty names and no boolean in last place; violated for control characters and a final true."},
{"property": "C53", "status": "partial", "theorems": ["C53_partial", "C53_answers_partial", "C53_unsubscribed", "C53_star_side_refuted", "C53_one_use_refuted", "C53_one_use_more_refuted", "C53_once_refuted", "C53_long_name_refuted", "C53_empty_side_refuted", "C53_gone_refuted", "C53_count_refuted"], "note": "Proved for all histories without closed connections, in which no list or star pattern is used both exactly and by heads and every exact pattern is a name, a list of names, * or *.*, and for published names whose sides are below 128 bytes: a client gets one copy per covering subscription. The code violates the property: several copies, no delivery for *.table, mixed uses, closed connections, a crash on an empty side, a stack overrun on long names."},
{"property": "C54", "status": "partial", "theorems": ["C54_partial", "C54_delivered_partial", "C54_turns_partial", "C54_other_closed_refuted", "C54_other_loses_refuted", "C54_freed_refuted", "C54_buffers_refuted", "C54_one_write_refuted"], "note": "Proved for all interleavings in which no client leaves and no write fails while the reader thread or libuv is at that client's node. Outside of these the code violates the property: another client is closed or loses bytes, freed memory is read, buffers of a write in flight are freed, two writes are in flight."},
{"property": "C55", "status": "partial", "theorems": ["C55_roundtrip_partial", "C55_control_refuted", "C55_backslash_refuted", "C55_swallow_refuted", "C55_zero_refuted", "C55_values_refuted"], "note": "Proved for plain names, 64-bit serial numbers, fields of bytes from 32 on without backslash (quotes and empty fields included) and tags that do not announce a list. Other fields are changed, cut or lost together with the fields behind them."},
{"property": "C56", "status": "partial", "theorems": ["C56_sends", "C56_partial", "C56_name_refuted"], "note": "Proved for contents each form can carry (as in C22 and C55), messages and chunks below 128 MB, without encryption. A name of 128 bytes makes the receiver give up the connection."},
{"property": "C57", "status": "partial", "theorems": ["C57_index_partial", "C57_size_partial", "C57_limit_refuted", "C57_many_files_refuted"], "note": "Proved for all runs while there are fewer than 256 files; files exceed the limit by at most 9 bytes or hold one block. With more than 256 files the file number wraps around and old files are overwritten; the limit itself is not kept."},
{"property": "C58", "status": "partial", "theorems": ["C58_scan_partial", "C58_straddle_refuted", "C58_killed_refuted"], "note": "Proved for fewer than 256 files and blocks up to 65785 bytes, or larger ones whose head does not lie on a piece boundary. Violated for large blocks on a boundary and for runs after one that was killed."},
{"property": "C59", "status": "proved", "theorems": ["C59_sha1"], "note": "From 2^28 bytes on the code shifts an int out of its range; no caller comes near."},
{"property": "C60", "status": "partial", "theorems": ["C60_whole_partial", "C60_pieces_partial", "C60_own", "C60_stale_refuted", "C60_full_refuted", "C60_case_refuted", "C60_mention_refuted", "C60_client_refuted", "C60_own_request_refuted"], "note": "Proved for requests in one piece, whatever memory holds, and for requests in any pieces when memory behind the bytes received is zero and no piece fills the buffer exactly; the name of the field is written as in the RFC and does not appear in an earlier line. The code violates the property for each of these exceptions (an old connection's key is answered, memory behind the buffer is read, the request is given up, a wrong key is answered); the client accepts wrong answers and sends invalid requests."},
{"property": "C61", "status": "partial", "theorems": ["C61_base64", "C61_size_refuted", "C61_one_more_refuted", "C61_strict_refuted"], "note": "Writing and reading back is proved for all non-empty bytes and buffers with one spare byte. Both functions write outside a smaller buffer, and texts that are not base64 are decoded."},
{"property": "C62", "status": "partial", "theorems": ["C62_days_partial", "C62_years_partial", "C62_range_refuted", "C62_msec_refuted", "C62_touch_refuted", "C62_overlap_refuted", "C62_back_refuted", "C62_again_refuted"], "note": "Proved for batches in order of time that do not touch, in all time zones, before 2038: reading gives exactly the records of the days (years) that the range touches, in order. The code returns records outside the range, misplaces records of batches in milliseconds that pass midnight, drops old records when a batch touches, overlaps or is not in order, and returns records twice when a series is written again."},
{"property": "C63", "status": "partial", "theorems": ["C63_added_partial", "C63_removed_refuted", "C63_ghost_refuted", "C63_again_refuted", "C63_names_refuted"], "note": "Proved for all histories without removals, when keys and tables can be told apart by the text key.table within 254 bytes. A removal is written with wrong bytes: after reopening the place is back, and another one appears that was never added; a place that is added again after removal is not shown; keys and tables with the same text share an entry."},
{"property": "C64", "status": "partial", "theorems": ["C64_index_partial", "C64_plain_refuted", "C64_names_refuted", "C64_long_refuted"], "note": "Proved for all sequences of blocks and page sizes when every key has a table and the texts key.table differ within 254 bytes. For a key without table writing the index reads a null pointer; series with the same text are mixed, and long texts are cut."},
{"property": "C65", "status": "partial", "theorems": ["C65_keys_partial", "C65_new_key_refuted", "C65_wrong_key_refuted", "C65_comma_refuted", "C65_blank_refuted"], "note": "Proved for all histories in which keys are named before they are written and hold no comma or blank at their ends. A new key written to a file that is already open never gets into the dictionary of the file: the next program that opens it crashes, or the number stands for another key."},
{"property": "C66", "status": "partial", "theorems": ["C66_whole_partial", "C66_part_partial", "C66_names_refuted", "C66_index_refuted", "C66_resize_refuted"], "note": "Proved for all histories when keys and tables can be told apart by the text key.table within 254 bytes and the size of the records of a table does not change; for subscriptions of some series also when the index fits into one block and there are at most 65536 pages. Otherwise records are delivered under the wrong key, those of later pages are lost, or old records are cut by the new size."},
{"property": "C67", "status": "partial", "theorems": ["C67_partial", "C67_started", "C67_progress", "C67_single_refuted", "C67_whole_single_refuted", "C67_nomatch_refuted", "C67_second_refuted", "C67_after_end_refuted", "C67_lost_refuted", "C67_freed_refuted", "C67_late_refuted", "C67_over_refuted", "C67_again_refuted"], "note": "Proved for subscribers of packed data and all schedules, when names change only before the first block of the day and a day starts and ends while no subscriber is behind. Single records are never delivered, unknown keys select everything, a second subscription is ignored, and the end of a day overtakes, loses or breaks subscribers who are behind."},
{"property": "C68", "status": "partial", "theorems": ["C68_complete", "C68_alone", "C68_order_partial", "C68_queues", "C68_blocks_refuted", "C68_minutes_refuted", "C68_third_refuted", "C68_empty_refuted", "C68_no_blocks_refuted"], "note": "Proved for all series below 2^32 records: everything is delivered once, in the order of its series, and the replay ends. The order over the series is proved for one block per series, when minutes and seconds are not mixed without milliseconds. With several blocks a record comes after later ones, even if the blocks are in step; minutes come before or after their seconds depending on a third series; a block that cannot be read silently ends its series."},
{"property": "C69", "status": "partial", "theorems": ["C69_read_partial", "C69_lines", "C69_cells", "C69_sub_partial", "C69_round_trip_partial", "C69_numbers", "C69_names_partial", "C69_first_empty_refuted", "C69_comma_refuted", "C69_double_refuted", "C69_last_line_refuted", "C69_size_refuted", "C69_names_refuted", "C69_line_end_refuted", "C69_long_cell_refuted", "C69_append_refuted", "C69_plus", "C69_default", "C69_sub_string", "C69_new_file", "C69_written"], "note": "Proved for all tables whose rows begin with a cell that is not empty and whose texts hold no comma, line feed or blank at their ends, for numbers above -2^63 and decimal texts up to 14 bytes; both readers are exact on the complete lines of every file in all pieces. An empty first field is lost with its column, commas split fields, longer decimals are cut, a last line without end is not read, adding to a file overwrites it."},
{"property": "C70", "status": "partial", "theorems": ["C70_read", "C70_merge_partial", "C70_later_partial", "C70_again_refuted", "C70_old_refuted", "C70_keys_refuted", "C70_tables_refuted", "C70_first_refuted", "C70_last_refuted", "C70_index_refuted", "C70_write_partial", "C70_write_all", "C70_no_entries"], "note": "Proved for all files without damage that have one block for each dictionary: merging gives such a file again, every reader gets the same records, every series has one entry, and later blocks of later times have the same effect. Not so: keys or tables in two blocks make the merged file unreadable, an unreadable first or last block spoils the records, without readable index everything is deleted, and records written again for the last times delete the whole series."},
{"property": "C71", "status": "partial", "theorems": ["C71_once", "C71_progress", "C71_wait_partial", "C71_wait_refuted", "C71_destroy_refuted", "C71_init_refuted", "C71_pool", "C71_pool_progress", "C71_pool_wait", "C71_spawn_refuted", "C71_stop_refuted"], "note": "Proved for all interleavings: order, exactly once, freed once after running, progress, and for the pool that waiting covers what was given before. For the queue of one thread, waiting is right only if the counter of new tasks is read first, which C leaves open; in the other order it returns too early and destroying the queue frees a task twice. A lock initialised after the start of the thread can lose the first task; ending a sleeping thread leaves its tasks undone."},
{"property": "C72", "status": "partial", "theorems": ["C72_ops", "C72_zeros", "C72_percent_refuted", "C72_self_refuted", "C72_trim_refuted", "C72_range_refuted", "C72_fill_refuted", "C72_least_refuted"], "note": "Proved for all sequences of operations with the operands they are meant for. Outside of these: a format ending in a single percent sign is read beyond its end, a string appended to itself reads freed memory, trimming also takes zero bytes away, a range that ends before the first byte leaves one byte, counting no bytes on a short string aborts, the least 64-bit number cannot be written. Not modelled: printf formats, splitting, joining, quoting."},
{"property": "C73", "status": "partial", "theorems": ["C73_roundtrip", "C73_versions", "C73_read", "C73_broken", "C73_long_names_refuted", "C73_repeated_refuted", "C73_decimals_refuted", "C73_escapes_refuted"], "note": "Proved for all lists of tables whose field names are plain, at most 31 bytes and different ignoring case, with decimals below 256, and texts below 2 GB. Otherwise not: longer names with the same beginning become one field, a repeated name loses its space so that later fields move, 256 decimals become 3, and backslashes and quotes in names multiply."},
{"property": "C74", "status": "partial", "theorems": ["C74_get", "C74_set_array", "C74_set_object", "C74_other", "C74_roundtrip", "C74_repeated_refuted", "C74_shift_refuted", "C74_rows_refuted", "C74_empty_refuted", "C74_answer_refuted", "C74_large_refuted", "C74_names_refuted", "C74_point_refuted", "C74_escapes_refuted"], "note": "Proved for all tables of single whole-number, time and character fields: what is shown, what is stored from rows and from named values, and the way there and back for texts without escapes and numbers below 2^63. Otherwise not: repeated fields, rows of another length, empty arrays and objects, the answer of a get itself (it has the key in front), larger numbers, field names with a point or equal to a name with number, backslashes. Not modelled: floats and prices in JSON texts."},
{"property": "C75", "status": "partial", "theorems": ["C75_content", "C75_progress", "C75_written", "C75_once", "C75_restart", "C75_thread_partial", "C75_first_refuted", "C75_format_refuted", "C75_long_refuted", "C75_resize_refuted", "C75_newday_refuted", "C75_midnight_refuted", "C75_keys_refuted", "C75_failed_refuted", "C75_thread_refuted"], "note": "Proved for all sequences of commands and all interleavings with the thread, for names that fit and tables of constant size: what is shown, that the thread gets there, what is saved, what a crash on the same day brings back - all of it without the first batch of each new key, which is always lost. Otherwise not: the first batch, the format of the answer, long names, changed record sizes, a new day begun while one runs and then a crash, a restart after midnight, keys after a restart, a file worker that cannot be made, the handing over of the thread (C75_thread_partial: only if the server waits for the old thread). Missing: subscriptions, the merging of years (C71), the clock ending the day while a command runs."},
{"property": "C76", "status": "partial", "theorems": ["C76_open", "C76_load", "C76_sub", "C76_safe", "C76_json_refuted", "C76_blank_refuted", "C76_empty_refuted", "C76_cut_refuted", "C76_comma_refuted", "C76_digit_refuted", "C76_name_refuted", "C76_nested_refuted", "C76_self_refuted", "C76_load_refuted", "C76_error_refuted", "C76_sub_refuted"], "note": "Proved for all texts of the notation, all gaps, notes and nestings, all included files (which include none themselves) and all divisions into pieces: exactly the settings are read; and for all contents of all files: sis_conf_open stays within its buffers. Otherwise not: JSON texts, quoted strings with blanks or empty, texts cut off, missing commas, words that start with a digit, names that start with include, includes in included files, a file that includes itself, sis_conf_load behind its buffer and with errors, commas between objects. Missing: the messages and line numbers of errors."},
{"property": "C77", "status": "partial", "theorems": ["C77_text", "C77_array", "C77_json", "C77_bytes", "C77_bytes_fields", "C77_del", "C77_unknown_refuted", "C77_long_name_refuted", "C77_index_refuted", "C77_columns_refuted", "C77_range_refuted", "C77_form_refuted", "C77_del_none_refuted", "C77_del_crash_refuted", "C77_del_more_refuted", "C77_del_nothing", "C77_get_nothing", "C77_array_empty"], "note": "Proved for all simple tables, all series in memory, all texts of requests: the answer holds exactly the asked records and fields in each form, and del leaves exactly the others. Otherwise not: unknown names and names that are no text crash, long names overflow a buffer, indices reach outside of the records, the numbers of columns behind repeated fields are wrong, true as ifprev and ranges without a start are read otherwise, unknown forms give no answer, del without parameters deletes the records of time zero or crashes, and del takes a range without stop otherwise than get. Missing: CSV answers, series on disk, the styles of one record and many lists, fields with decimals."},
{"property": "C78", "status": "partial", "theorems": ["C78_own", "C78_once", "C78_safe", "C78_result", "C78_finish", "C78_sub_every", "C78_again", "C78_sub", "C78_race_refuted", "C78_tag_refuted", "C78_wait_sub_refuted", "C78_bare_sub_refuted", "C78_long_refuted", "C78_resub_refuted", "C78_lost_refuted", "C78_wrap_refuted"], "note": "Proved for all interleavings of any number of calls with all answers, connections and disconnections in which no two calls are at the increment of the counter at the same time and at most 16777215 requests are made: own answers, unchanged, at most once, correct outcomes for the tags of success and failure, no lost wake-up, all messages of subscriptions, again after a login. Otherwise not: two calls at the counter exchange their answers or use freed memory, numbers are reused while in use, answers with the tag of a number are reported as errors, a waiting subscription writes into a message given up, a subscription without the name of a service gets one message, a long command overruns a buffer, without a login subscriptions are not made again, and a call whose connection ends waits for ever. Missing: unsub, the end of the program, the decimal texts of the numbers."},
{"property": "C79", "status": "partial", "theorems": ["C79_stream_partial", "C79_pub", "C79_greeting", "C79_refused", "C79_stop_refuted", "C79_bad_tables_refuted", "C79_no_content_refuted", "C79_heads_refuted", "C79_no_point_refuted", "C79_second_refuted", "C79_late_keys_refuted", "C79_old_keys_refuted", "C79_gone_refuted", "C79_restart_refuted", "C79_safe_partial"], "note": "Proved for all histories without a crash in which days begin and end in turn and no connection is closed: the order of each reader's day, exact delivery, the exact announcement of keys and tables, and when messages are refused. Otherwise not: a stop is heard without a start, unreadable tables leave a pointer to freed memory, missing contents read the null pointer, definitions of tables are missing for patterns by beginnings, without a point and for second subscriptions, late keys are not announced and old ones are for a new day, a closed connection goes on being sent to, and a second start comes without a stop. Missing: the log and the names of requests in the messages. No command with content crashes after usual commands with readable tables in orderly days."},
{"property": "C80", "status": "partial", "theorems": ["C80_partial", "C80_cut", "C80_no_name", "C80_anyone", "C80_zero_refuted", "C80_case_refuted", "C80_no_name_refuted", "C80_gone_refuted", "C80_reader_refuted", "C80_init_refuted", "C80_silent"], "note": "Proved for all histories of texts without zero bytes under a name, clear patterns, short published names, no closed connection and no call of init by a client. Otherwise not: contents are cut at a zero byte, names differing in case share a content, contents set without a name are kept and never found, closed connections go on being sent to, and as no command has access flags users who may only read can set contents and call init, which empties the store, ends all subscriptions and leaves the store unable to send anything."},
{"property": "C81", "status": "partial", "theorems": ["C81_reader_tables", "C81_reader_partial", "C81_others_partial", "C81_log_refuted"], "note": "Proved in full for users who may only read and data sets of tables. For the other kinds and levels it is proved exactly which commands run: those allowed and the ones without access flags (rlog, wlog, and all of the store of shared texts), so readers write into logs and make the service load its log again. Users who may write also run the commands reserved for administrators (C30)."}
]}
