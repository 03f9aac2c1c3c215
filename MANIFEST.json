{"claims": [
{"property": "C01", "status": "proved", "theorems": ["bmp_history"], "note": "Bit counts up to 2^37; beyond that bmp_history_beyond_2_37_refuted shows the code truncates the block number."},
{"property": "C02", "status": "proved", "theorems": ["bmp_out_of_range", "bmp_history", "bmp_zero_refused"], "note": "In-range safety is part of bmp_history (no UB outcome)."},
{"property": "C03", "status": "proved", "theorems": ["base64_roundtrip"], "note": "Empty input excluded: base64_roundtrip_empty_refuted shows the decoder rejects the encoding of the empty string."},
{"property": "C04", "status": "proved", "theorems": ["base64_encoded_len", "base64_encode_refused", "base64_encode_rest_untouched", "base64_roundtrip"], "note": ""},
{"property": "C05", "status": "proved", "theorems": ["base64_decode_total"], "note": ""},
{"property": "C06", "status": "proved", "theorems": ["hash_is_map", "hash_is_map_pointer", "hash_refines_multimap", "hash_create_hangs"], "note": "Data pointer: all unique-key histories. Pointer+length: all unique-key histories whose re-adds keep the length (see C08)."},
{"property": "C07", "status": "proved", "theorems": ["hash_walk_exact"], "note": "Counter is 32 bit; theorem says count = number of entries mod 2^32."},
{"property": "C08", "status": "partial", "theorems": ["hash_is_map", "hash_data_len_together_partial", "hash_data_len_together_refuted"], "note": "The property fails in the code: hash_add on a present key keeps the old length (hash_data_len_together_refuted). Proved when re-adds keep the length or go through hash_update."},
{"property": "C09", "status": "proved", "theorems": ["hash_refines_multimap"], "note": ""},
{"property": "C10", "status": "proved", "theorems": ["bptree_is_map", "bptree_is_map_with_aliases"], "note": "Alias-free histories of any length and any order; with aliases for safe histories."},
{"property": "C11", "status": "proved", "theorems": ["bptree_full_iter"], "note": ""},
{"property": "C12", "status": "partial", "theorems": ["bptree_range_iter_partial", "bptree_until_iter", "bptree_from_iter", "bptree_range_iter_refuted"], "note": "Exact when the start key is stored or absent from the call; false for a start key that is not stored (finding): keys below it are given."},
{"property": "C13", "status": "proved", "theorems": ["bptree_prefix_iter"], "note": ""},
{"property": "C14", "status": "proved", "theorems": ["bptree_balanced"], "note": ""},
{"property": "C15", "status": "partial", "theorems": ["bptree_alias_same", "bptree_alias_delete_partial", "bptree_alias_delete_refuted", "bptree_is_map_with_aliases"], "note": "Deleting a name that is not the least of its record removes the wrong leaf slot (finding)."},
{"property": "C16", "status": "proved", "theorems": ["bptree_accounting"], "note": ""},
{"property": "C17", "status": "proved", "theorems": ["buf_linear_content", "buf_prefix_pointer_refuted"], "note": "Every history of adds, formatted adds, unbinds, rewinds, resets and reads, both modes; pointers given to mem release must not point into the size prefix (buf_prefix_pointer_refuted shows what happens otherwise)."},
{"property": "C18", "status": "partial", "theorems": ["buf_linear_bounds_partial", "buf_linear_add_refusal", "buf_limit_refuted", "buf_zero_step_refuted", "buf_huge_add_refuted"], "note": "used <= allocated always; allocated <= limit unless a reset_init failed for lack of memory after installing the new limit (refuted without). Exact condition for an add to succeed; refused adds change nothing."},
{"property": "C19", "status": "partial", "theorems": ["buf_linear_mark_partial", "buf_mark_refuted", "buf_unbind_empty_refuted"], "note": "While anything is bound adds give -EBUSY, and on non-empty contents only then; missing: get_data_from at a position below an earlier hand-out (refuted), reset_init, unbinding on empty contents (refuted)."},
{"property": "C20", "status": "partial", "theorems": ["buf_read_safe", "buf_read_delivers_partial", "buf_read_overrun_refuted"], "note": "Any fragmentation and transient errors; complete exactly at the last byte for a message alone on the stream, or for any stream when the initial size does not exceed the message and the step is 1 (what the callers use); refuted for other inits with back-to-back messages."},
{"property": "C21", "status": "partial", "theorems": ["buf_linear_write_all", "buf_vec_write_all_partial", "buf_write_enodata_refuted", "buf_vec_write_all_hang_refuted"], "note": "Linear and vector buffers, any answers of the kernel except ENODATA (refuted: taken as success); a plain vector of only empty items never finishes (refuted)."},
{"property": "C22", "status": "partial", "theorems": ["buf_vec_content_partial", "buf_vec_write_all_partial", "buf_vec_null_add_refuted", "buf_vec_null_prefix_refuted", "buf_vec_get_from_refuted"], "note": "Every history of adds of memory blocks, releases, resets and reads; refuted for adds without data and for get_data_from(pos>0) in plain mode."},
{"property": "C23", "status": "partial", "theorems": ["buf_read_safe", "buf_read_malformed_partial", "buf_read_zero_prefix_refuted"], "note": "Never reported complete; truncation gives -EBADMSG and a prefix of 1..3 -EBADE when read; a prefix of 0 is only reported later (refuted)."},
{"property": "C24", "status": "proved", "theorems": ["kvs_map", "kvs_same_entry"], "note": "both backends; unset callbacks return 0 or 1 as documented"},
{"property": "C25", "status": "proved", "theorems": ["kvs_value_roundtrip", "kvs_value_release_partial", "kvs_value_empty_vector_refuted"], "note": "memory-level model of forms A to H; the release of a value is the memory side of C30"},
{"property": "C26", "status": "partial", "theorems": ["kvs_transactions_partial", "kvs_commit_refuted", "kvs_commit_archive_refuted"], "note": "proved when no key is touched again after it was unset in the transaction; refuted otherwise"},
{"property": "C27", "status": "partial", "theorems": ["kvs_transactions_partial", "kvs_rollback_refuted", "kvs_rollback_archive_refuted", "kvs_rollback_twice_refuted"], "note": "proved when no key is written twice in the transaction and no unset archives; refuted otherwise"},
{"property": "C28", "status": "proved", "theorems": ["kvs_map", "kvs_archive"], "note": "outside transactions, both backends; within transactions see C26, C27"},
{"property": "C29", "status": "proved", "theorems": ["kvs_one_transaction"], "note": ""},
{"property": "C30", "status": "partial", "theorems": ["kvs_values_freed_partial", "kvs_unset_code_leak_refuted", "kvs_open_leak_refuted", "kvs_alias_leak_refuted", "kvs_alias_archive_refuted", "kvs_alias_rollback_refuted", "kvs_archive_dangling_refuted"], "note": "proved over the record specification for alias-free histories of operations and whole transactions of the C26/C27 kind; refuted otherwise"},
{"property": "C31", "status": "proved", "theorems": ["strv_words", "strv_refused", "strv_plain_word"], "note": "The code also splits prefix and suffix into words; a prefix or suffix without delimiters and quotes is one word (strv_plain_word). Memory given to the function keeps its bytes beyond the needed size."},
{"property": "C32", "status": "partial", "theorems": ["rstr_last_partial", "rstr_last_refuted"], "note": "Position 0 is never examined: an occurrence only at the start is not found (refuted). Proved: the last occurrence is returned whenever it is at a position > 0, NULL iff every occurrence is at 0."},
{"property": "C33", "status": "partial", "theorems": ["kv_split_partial", "kv_codes_partial", "kv_reads_outside_refuted"], "note": "KEY= with nothing but blanks after it reads past the terminating NUL (refuted). Every other string: exact result proved."},
{"property": "C34", "status": "partial", "theorems": ["copy_len_exact", "copy_substr_partial", "copy_substr_wraps_refuted"], "note": "copy_substr: offset+len wraps (refuted); proved when it does not."},
{"property": "C35", "status": "partial", "theorems": ["combstr_partial", "combstr_concatenation", "combstr_contains_refuted"], "note": "The code anchors prefix and suffix at the ends of the haystack and searches the needle anywhere after the prefix: not the claimed containment (both directions refuted). Exact characterisation proved; a haystack equal to the concatenation is always found."},
{"property": "C36", "status": "proved", "theorems": ["udev_action_round_trip", "udev_devtype_round_trip", "udev_action_unknown", "udev_devtype_unknown"], "note": ""},
{"property": "C37", "status": "proved", "theorems": ["fd_read_all_exact", "fd_read_all_no_failure"], "note": "Every finite schedule of interruptions; after it each read delivers all it can."},
{"property": "C38", "status": "partial", "theorems": ["json_document_partial", "json_string_refuted", "json_bool_refuted"], "note": "every nesting of documents, arrays, elements and fields whose names and strings need no escaping parses (RFC 8259 grammar) to what was emitted; refuted: a string field reads back iff it needs no escaping, a boolean field always makes the document invalid. Not covered: names and strings that need escaping"},
{"property": "C39", "status": "proved", "theorems": ["children_by_priority", "child_put_behind_equals", "children_order_stable", "top_priority_ignored_refuted"], "note": "For every history of creating, referencing, dropping, adding, isolating and re-prioritising. Setting the priority of a resource without a parent is ignored (refuted theorem). The lists of children are lists of addresses (links in List_Model)."},
{"property": "C40", "status": "partial", "theorems": ["reference_count", "calls_defined_partial", "unref_destroys_partial", "destroyed_once", "destroyed_unreferenced", "failed_create_dangles_refuted", "borrowed_top_destroyed_refuted"], "note": "For every history of calls users may make (Res_Spec.may: resources that exist, at most 2^32-3 references, a failed creation leaves no referenced children). Two refuted theorems show what happens otherwise: a failed creation with a referenced child dangles; a reference taken to and dropped from a parentless resource destroys it. Destroy functions are taken not to change the tree; service links and custom data are left out."},
{"property": "C41", "status": "partial", "theorems": ["search_gives_first_partial", "visits_determined", "search_match_exists", "search_res_exists_partial", "iteration_gives_children", "search_res_genus_sibling_refuted", "wide_search_ignores_restriction_refuted", "id_missing_refuted", "iteration_back_refuted"], "note": "Every method, for every tree reached, type and id. The visited region is as the code has it, which differs from the documentation in places: the search in width walks below restricted resources, match queries ignore restrictions, and asking for a given resource among relatives or siblings is always denied (refuted theorems)."},
{"property": "C42", "status": "partial", "theorems": ["always_a_forest", "isolate_detaches", "add_child_attaches_partial", "calls_defined_partial", "add_child_cycle_refuted"], "note": "For every history of calls users may make; adding a resource below its own descendant is not refused and makes a cycle (refuted theorem)."},
{"property": "C43", "status": "partial", "theorems": ["fires_within_limit_partial", "fires_as_set_partial", "set_counter_saturates", "firing_keeps_limit", "child_fires_beyond_limit_refuted", "child_failure_keeps_limit_refuted", "count_wraps_refuted"], "note": "Every history of fewer than 2^64-1 firings and any settings of the counter, from the handler or from outside. sd-event is modelled as far as enabling goes. Child process sources test the result of the handler the wrong way round: proved for handlers that return 0, refuted otherwise."},
{"property": "C44", "status": "partial", "theorems": ["channel_delivers_partial", "channel_delivers_all_partial", "external_output_partial", "external_output_all_partial", "channel_joined_messages_refuted", "channel_descriptor_swallowed_refuted", "channel_data_taken_for_command_refuted", "channel_descriptor_missing_refuted", "channel_hostile_message_refuted", "channel_wrong_direction_refuted"], "note": "Proved for every history of sends, yields, events and the close, every fragmentation, EAGAIN and EINTR anywhere, both ends, all wires, default receive lanes (or initial size up to 4 and step 1), messages below 4 GiB; nothing is left behind. External workers: all output once, at its end. Missing (refuted): larger receive lanes with messages that arrive together, refused memory in mid-message, a sender that dies between message and descriptor, peers that break the protocol, sending against a pipe."},
{"property": "C45", "status": "partial", "theorems": ["worker_moves_forward_partial", "worker_moves_back_iff", "worker_events", "worker_send_assigns", "worker_idle_first", "worker_signal_own_partial", "worker_exit_removes_partial", "worker_yields_once", "worker_assigned_while_exiting_refuted", "worker_assigned_after_exit_refuted", "worker_idle_never_refuted", "worker_yields_without_parent_refuted"], "note": "Forward movement proved for every interleaving except for sends to workers that are exiting or timed out, which are accepted (refuted); with an extra reference also sends, yields and timeouts after the exit. The idle state is never entered (refuted: no worker is ever handed out)."},
{"property": "C46", "status": "proved", "theorems": ["key_text", "key_parts_back", "key_unambiguous", "decompose_any", "key_part_found", "key_rest_found", "key_op_ns_back", "key_filter", "alias_records_distinct_refuted"], "note": "As stated. alias_records_distinct_refuted shows that the proviso is not enforced for names given by modules."},
{"property": "C47", "status": "proved", "theorems": ["module_keys_not_system", "module_names_accepted"], "note": "All forms in which the keys reach the store (record, archive, sync index, reservation) on both sides."},
{"property": "C48", "status": "partial", "theorems": ["module_relation_partial", "module_relation_refuted"], "note": "Exact relation the code computes; equal names, core and true ancestors are classified as claimed, modules of one registry are unrelated. Missing because false: names of different registries are reported as sub-modules of each other (finding)."},
{"property": "C49", "status": "proved", "theorems": ["write_permission_matrix"], "note": "Write of any record with the permission callback, all flags/owners/writers, with archive."},
{"property": "C50", "status": "partial", "theorems": ["permitted_set_partial", "denied_set_refuted"], "note": "Permitted sets store the record and return 0. Denied sets are not reported: NULL dereference with a value, 0 without (finding)."},
{"property": "C51", "status": "partial", "theorems": ["reservation_kept_partial", "reservation_ignored_refuted", "reserve_aligned_refuted"], "note": "Reservation records are kept for their owner; but the answer of the global check is dropped, so per-device sets by other modules are accepted (finding)."},
{"property": "C52", "status": "proved", "theorems": ["delta_step_is_exact"], "note": "All old and new sorted lists, all three operations; buffer capacity included. Sortedness of every list the broker passes is part of C53."},
{"property": "C53", "status": "proved", "theorems": ["deltas_follow_changes", "delta_applied_gives_current"], "note": "Every history of alias, group and device-stack operations from any snapshot; devices' ids without the separator."},
{"property": "C54", "status": "proved", "theorems": ["membership_is_symmetric"], "note": "Every history of alias, group and device-stack operations. Findings beside it: groups outside the module namespace use two records."},
{"property": "C55", "status": "partial", "theorems": ["workers_merge_partial", "messages_merge", "rounds_keep_symmetry_partial", "destroyed_groups_refuted"], "note": "Any number of workers from one quiet main store, any arrival order, any number of rounds; workers may edit groups, aliases and stack links but not destroy groups or rename aliases (refuted: two destroyed groups in one message are undefined behaviour in the main process) nor create groups marked for synchronisation."},
{"property": "C56", "status": "partial", "theorems": ["message_round_trip_partial", "message_unambiguous", "message_too_big_refuted"], "note": "Proved for every list of records whose message is at most 64 MiB; above that the reader refuses what the writer wrote (refuted). The file and mapping calls and the formatted (JSON, table, env) exports are not part of it."},
{"property": "C57", "status": "partial", "theorems": ["newest_wins_partial", "arrival_order_does_not_matter_partial", "older_never_overwrites", "older_value_after_removal_refuted"], "note": "Values of one owner with a sequence number, any messages in any order. Refuted with removals: nothing remembers a removed record's number."},
{"property": "C58", "status": "partial", "theorems": ["records_have_their_effect_partial", "change_after_plain_record_refuted", "change_after_emptied_list_refuted", "value_after_emptied_list_lost_refuted", "refused_change_refuted"], "note": "Every message in the order a worker sends (changes of members by the core first, each other key once). For other orders, emptied lists without the reserved mark and refused changes the claim is refuted."},
{"property": "C59", "status": "partial", "theorems": ["reservation_lost_refuted", "reservation_removes_own_refuted", "unreserve_not_sent_refuted", "reservation_kept_partial"], "note": "Refuted for every reservation a worker makes: the persist flag makes the main process take it for a removal. Kept only with the reserved flag alone (or vector records); messages without the key leave it."},
{"property": "C60", "status": "partial", "theorems": ["ready_reset_refuted", "ready_of_other_module_refuted", "ready_life_cycle_partial", "ready_state_read", "ready_request"], "note": "False as stated for a command that has not read the stored state (ready_reset_refuted). Proved for every request sequence once the command knows the state."},
{"property": "C61", "status": "partial", "theorems": ["reserved_reset_refuted", "reserved_life_cycle_partial", "reserved_state_read", "reserved_request"], "note": "False as stated for a command that has not read the stored state. Proved for every request sequence once the command knows the state."},
{"property": "C62", "status": "partial", "theorems": ["command_defined", "stages_in_order", "one_response", "response_after_merge_partial", "response_before_merge_refuted", "failed_merge_refuted", "ends_once", "nothing_after_failure", "one_end_partial", "finished_then_failed_refuted", "response_before_end"], "note": "The command state machine of a worker with the main process and both message queues, for every registration, every failure of the surroundings and every interleaving. Refuted in full: a uevent before the acknowledgement releases the response, a failed merge is acknowledged, a finished command fails at a later message; proved with these excluded. One command per worker; yield and removal of records not modelled."},
{"property": "C63", "status": "partial", "theorems": ["scan_stage_partial", "scan_exit_failure_refuted"], "note": "Order, error phase and exit phase proved for every assignment of results; a failing exit phase after an error is not reported (refuted)."},
{"property": "C64", "status": "partial", "theorems": ["root_commands", "command_entry", "request_served_partial", "wrong_protocol_refused", "command_entry_refuted", "short_message_refuted", "refusal_sent_refuted"], "note": "Root-only commands are created for uid 0 only, and each created command has the entry of its number. Refuted: a number above 10 is corrected in a local copy only and indexes the table out of bounds for every client; a message shorter than a header makes the refusal over-read; the refusal is never sent."},
{"property": "C65", "status": "partial", "theorems": ["environment_imported_partial", "property_readable", "environment_missing", "environment_imported_refuted", "environment_end_refuted", "device_path_refuted"], "note": "Every well-formed environment (non-empty values, NUL-terminated, device path with a directory) is imported whole, last value of a key wins, and nothing else changes. Refuted: an empty value or a string without '=' drops all strings after it and the request is still accepted (precedence of < and =); a missing final NUL over-reads; DEVPATH=/x makes a pointer past NULL."},
{"property": "C66", "status": "partial", "theorems": ["generation_increases_partial", "generation_numbers_partial", "restart_keeps", "first_generation", "generation_wraps_refuted", "generation_big_refuted", "generation_cut_refuted"], "note": "Holds for fewer than 65536 starts with saved files of at most 64 MiB; beyond these bounds it is refuted (16 bit number wraps to 0; a file too big or cut off is silently not loaded and the number starts at 1 again)."},
{"property": "C67", "status": "partial", "theorems": ["stack_below_partial", "stack_all_below_partial", "stack_base_partial", "stack_over_partial", "stack_all_over_partial", "stack_top_partial", "stack_plain_id_refuted", "stack_cycle_refuted"], "note": "All six queries proved for every finite acyclic database, as sets (a device reachable over two ways is listed twice). False for a device given by its plain 36 character id; never ends on a cycle."},
{"property": "C68", "status": "partial", "theorems": ["alias_lookup_partial", "alias_missing", "alias_second_member_refuted", "alias_empty_refuted"], "note": "In bounds and complete when the keys of all members but the last fit in the buffer together; refuted for a second member after a key longer than the buffer, and an empty alias is reported as success."},
{"property": "C69", "status": "proved", "theorems": ["record_kept", "value_offset"], "note": "Byte level, little-endian, 8-byte pointers; both the vector form and the merged block."},
{"property": "C70", "status": "partial", "theorems": ["index_follows_flag_partial", "export_sends_once", "synchronised_group_not_sent_refuted", "repeated_reservation_not_indexed_refuted"], "note": "For all records but member lists (whose deltas are the records sent) after any history of sets, reservations, group operations and exports; refuted for groups created with the sync flag and for reservations inherited from the main process."},
{"property": "C71", "status": "partial", "theorems": ["command_names_both_ways_partial", "unknown_name", "no_name", "command_name_refuted"], "note": "Numbers above 10 have no name: the table is read out of bounds (refuted for every such number)."},
{"property": "C72", "status": "partial", "theorems": ["link_groups_partial", "link_removed", "group_cloned", "group_merge_refuted"], "note": "All histories of creating, destroying, adding, removing and cloning, and of merging an empty source. Refuted: merging a source that has members is undefined behaviour in every reachable state (the members are added to the destination without being removed from the source, whose destruction then runs into the destination's head). Adding a link that is already in a group is outside the histories."},
{"property": "C73", "status": "proved", "theorems": ["list_history", "delete_twice_refuted", "add_twice_refuted"], "note": "For every history of additions of elements not in a list and deletions of members over any number of lists. Deleting twice or adding twice corrupts other lists (refuted)."},
{"property": "C74", "status": "partial", "theorems": ["env_number_partial", "env_number_refuted"], "note": "Empty text, a minus sign and min == max let other values through (refuted); exact set of accepted texts and ranges proved."},
{"property": "C75", "status": "partial", "theorems": ["kernel_arg_present_partial", "kernel_arg_value_partial", "kernel_arg_reads", "kernel_arg_refuted"], "note": "An argument name containing '=' is never found and the value returned starts with '=' (refuted). Names without '=': exact. A valueless first match gives -EINVAL even if a later one has a value. Only the first 4096 bytes of the command line are seen."},
{"property": "C76", "status": "partial", "theorems": ["strv_copy_partial", "strv_copy_unterminated_refuted"], "note": "The terminating NULL is never written (refuted); everything else is exact."},
{"property": "C77", "status": "proved", "theorems": ["comb_to_str_exact"], "note": ""},
{"property": "C78", "status": "proved", "theorems": ["pid_text"], "note": ""},
{"property": "C79", "status": "proved", "theorems": ["sysfs_first_line", "sysfs_empty"], "note": "For files without NUL and buffers of at least 2 bytes fitting an int."},
{"property": "C80", "status": "partial", "theorems": ["get_reads_what_set_wrote", "records_distinct", "foreign_get_partial", "foreign_device_refuted", "disk_record_refuted"], "note": "Missing: a get for another device alone in the device-and-module namespace, any get for another device in the udev namespace, and the disk of a partition, which are false of the code."},
{"property": "C81", "status": "proved", "theorems": ["read_permission_matrix"], "note": ""},
{"property": "C82", "status": "partial", "theorems": ["alias_edit", "group_edit", "group_destroyed", "alias_renamed_partial", "alias_rename_to_itself_refuted", "group_outside_module_refuted"], "note": "Proved for every history; renaming an alias to its own name empties it, and in namespaces other than MODULE create/destroy act on another record than add/remove (both refuted with witnesses)."},
{"property": "C83", "status": "proved", "theorems": ["response_lines", "property_sent", "response_read_back"], "note": "Exact strings and reading them back proved for every database; names and values without a NUL."},
{"property": "C84", "status": "partial", "theorems": ["request_header_sent", "raw_data_sent", "scan_imported_partial", "scan_imported_refuted", "scan_without_device", "checkpoint_sent", "checkpoint_imported_refuted"], "note": "Scans are imported for minor numbers below 4096 and strings with values; refuted for minor numbers from 4096 on (bounds exchanged) and for all checkpoint requests (the daemon stops at the checkpoint name)."},
{"property": "C85", "status": "partial", "theorems": ["result_parts", "dump_parts_partial", "short_reply", "results_readable", "dump_parts_refuted"], "note": "The exported file is trusted to be as long as its size prefix says (refuted otherwise). Reading the reply from the socket is the subject of C01-C05 (buffers)."},
{"property": "C86", "status": "partial", "theorems": ["group_notified_partial", "group_notified_refuted"], "note": "Proved for formats without arguments and for at most one formatting per notification. Refuted: the va_list is used again by the next formatting member (or by one log asked for MESSAGE and STATUS)."},
{"property": "C87", "status": "partial", "theorems": ["dump_json_partial", "dump_lists_refuted"], "note": "Records whose texts need no escaping and whose lists are separated; dump_lists_refuted shows that any list with a non-text first item or an empty later item makes the dump unreadable."},
{"property": "C88", "status": "partial", "theorems": ["devices_json_partial", "devices_json_refuted"], "note": "Refuted if a group list is not separated or if the very first record is a ready or reserved state: then the list is not JSON."},
{"property": "C89", "status": "proved", "theorems": ["resources_json", "version_json", "dbstats_json"], "note": "Trees whose names need no escaping (see C38)."},
{"property": "C90", "status": "proved", "theorems": ["channel_ids_copied", "channel_found_first"], "note": "Copies lie within the allocated room and read back as the ids; first match."},
{"property": "C91", "status": "partial", "theorems": ["driver_looked_up_partial", "driver_not_listed", "driver_name_too_long", "driver_nvme", "driver_blkext_disk", "partition_takes_driver_of_disk_refuted", "partition_look_up_ends_refuted", "driver_fits", "file_read_in_pieces", "key_without_colons"], "note": "The claim is false for partitions with extended numbers that are not NVMe: the comparison after the inner look up is inverted, so no module is found, and the look up recurses without end if the disk has an extended number as well. Proved for all other devices, tables and buffer sizes."},
{"property": "C92", "status": "partial", "theorems": ["registry_ordered", "module_found_first", "module_loaded_partial", "module_loaded_once_partial", "directory_loaded", "module_unloaded", "directory_loaded_once_refuted", "module_loaded_once_refuted", "alias_unique_refuted", "listed_file_opened_refuted", "init_function_checked_refuted"], "note": "Proved for all histories with module names without a slash and libraries whose init symbol holds a function and whose aliases end. False: loading a directory loads modules again that are there; a name with a slash is loaded at each call; aliases may hide modules; files with an upper-case suffix are counted but not opened; an init symbol holding NULL is called."},
{"property": "C93", "status": "partial", "theorems": ["full_names_partial", "dependence_partial", "failed_attach_reverted_partial", "full_names_refuted", "dependence_refuted", "failed_attach_reverted_refuted", "attach_below_itself_refuted"], "note": "Proved for all histories in which a registry is attached before modules of its own have registries. False otherwise: names and top registries below the attached one are left; after a failed attach modules keep the new name if it begins with the old base name; a registry can be attached to its own module."},
{"property": "C94", "status": "partial", "theorems": ["phase_executes", "ready_state_gates_phases", "stage_executes", "exit_settles_states", "failed_scan_becomes_public_refuted", "iterator_life_cycle", "iterator_left_behind_refuted"], "note": "Order, modules, results, gating, composition of stages and the settling of states proved for arbitrary module functions. Refuted: the iterator is destroyed in all cases (a failing type module in the first phase of stage one, or in B_INIT, leaves it), and a device whose scan failed does not become public (A_EXIT makes it so). Preparation of the first phase (device records, base module, dependencies) is a parameter."},
{"property": "C95", "status": "partial", "theorems": ["new_device_id", "no_device_id", "known_device_id", "device_id_kept", "reused_number_refuted", "different_ids_refuted", "long_udev_id_refuted"], "note": "Proved: choice of the id, records of a new device, what a known device changes, the id over any history of scans. Refuted: a re-used number gets a new id, udev's id is compared, udev's id is checked. strdup does not fail in the model."},
{"property": "C96", "status": "proved", "theorems": ["module_of_record", "module_looked_up", "module_not_found", "module_kept"], "note": "The look up itself is C91; the buffer for the name is long enough (C91)."},
{"property": "C97", "status": "proved", "theorems": ["lvm_names_stored", "lvm_names_refused", "lvm_no_name", "lvm_any_name", "lvm_takes_current", "lvm_takes_next"], "note": "Records the module may not write are excluded: for these sid_ucmd_kv_set itself is undefined (C50)."},
{"property": "C98", "status": "partial", "theorems": ["lvm_output_stored", "lvm_output_long_line", "lvm_output_bad_key", "lvm_output_valueless_refuted", "lvm_output_ignored", "lvm_activates_complete_group", "lvm_activates_nothing_else"], "note": "Refuted for lines with a key and no value. Output is given in one piece; what runs the commands is a parameter."},
{"property": "C99", "status": "proved", "theorems": ["dm_cookie_read", "dm_no_cookie", "dm_cookie_completed", "dm_nothing_completed"], "note": "What strtoul accepts as number text includes a minus sign counted modulo 2^64; the records of the module are writable by it."},
{"property": "C100", "status": "partial", "theorems": ["dm_state_after_event", "dm_lvm_state_after_event", "dm_private_by_cookie", "dm_private_by_cookie_refuted"], "note": "Refuted for an uninitialised volume; other submodules than LVM are parameters."},
{"property": "C101", "status": "partial", "theorems": ["dm_variables_stored", "dm_variables_without_cookie_refuted"], "note": "Refuted for events without a cookie."},
{"property": "C102", "status": "partial", "theorems": ["dm_submodule_chosen", "dm_submodule_kept", "dm_submodule_kept_after_choice", "dm_submodule_found_later_refuted", "dm_submodule_next"], "note": "Refuted for devices no submodule claimed at first. Submodules are arbitrary functions; their register is C92."},
{"property": "C103", "status": "proved", "theorems": ["new_worker_descriptors", "no_descriptor_leaks"], "note": "sid_res_create of the proxy is an outcome (created or not); the kernel's calls are modelled by tables of descriptors."},
{"property": "C104", "status": "partial", "theorems": ["program_descriptors", "program_standard_streams_refuted", "program_same_number_refuted", "program_socket_refuted"], "note": "Refuted for standard streams without a wire, for wires already at their number, for sockets that cannot be redirected."},
{"property": "C105", "status": "partial", "theorems": ["daemon_descriptors", "daemon_descriptors_refuted"], "note": "Refuted when a standard stream is closed at the start."},
{"property": "C106", "status": "partial", "theorems": ["kvs_iter_exact_partial", "kvs_iter_count", "kvs_iter_bounds_refuted", "kvs_iter_first_refuted", "kvs_iter_null_refuted"], "note": "All histories, both backends; false for bounds above the hash table, a first key not stored, and NULL references."},
{"property": "C107", "status": "proved", "theorems": ["kvs_iter_sizes"], "note": "All storage forms."},
{"property": "C108", "status": "partial", "theorems": ["kvs_iter_edits_partial", "kvs_iter_unset_refuted", "kvs_iter_add_refuted"], "note": "Proved for values replaced by the loop; false for removed and added keys."},
{"property": "C109", "status": "partial", "theorems": ["messages_defined", "answer_names_asker", "unexpected_descriptor_refuted", "unterminated_name_refuted"], "note": "Proved for every history of a worker and the main process of this code. Refuted for messages that neither sends: a descriptor with an unexpected message is lost, a name without its end is read past the message."},
{"property": "C110", "status": "partial", "theorems": ["as_if_alone_partial", "each_ends_once_partial", "answer_resumes_asker_partial", "same_name_refuted"], "note": "Proved for commands of different names (hypothesis distinct). Missing: commands of the same name, for which it is refuted: the answer for the second scan resumes the first one."},
{"property": "C111", "status": "partial", "theorems": ["commands_stay", "client_left_refuted"], "note": "Commands stay in the worker; refuted for a client that leaves before the response: the command never runs a second stage and never finishes."},
{"property": "C112", "status": "partial", "theorems": ["scan_printed", "database_printed", "output_tells_properties_partial", "output_tells_properties_refuted", "scan_failed", "scan_no_answer", "scan_no_seqnum", "inactive_reported", "version_printed", "answer_is_active_refuted", "checkpoint_is_active_refuted", "answer_in_bounds_refuted"], "note": "Output and exit status proved for every answer of whole strings; telling the properties only without line ends. Refuted: values with line ends, active for an answer without data (every checkpoint), an answer whose last string has no end."},
{"property": "C113", "status": "partial", "theorems": ["values_stored", "failed_probe_stores_nothing", "small_disks", "uuid_readable_refuted", "uuid_text_refuted", "uuid_end_refuted", "encoding_failure_refuted"], "note": "Proved for every list of values and every database that allows the writes. Refuted: ID_FS_UUID_ENC is stored as 224 bytes with unset memory, without permissions for other modules and possibly without an end; a value whose encoding fails is read past the buffer."},
{"property": "C114", "status": "partial", "theorems": ["next_module_of_type", "next_module_gone_refuted", "names_reserved", "names_released"], "note": "Proved for known types and for reservations; refuted for devices whose type is gone or unknown: the next module of an earlier scan stays."},
{"property": "C115", "status": "partial", "theorems": ["path_claims", "refused_scans", "pointer_unset_refuted"], "note": "Proved for all sequences of answers. Refuted for a library that returns before setting the pointer to the identifier: the pointer is not initialised and is read and freed."},
{"property": "C116", "status": "partial", "theorems": ["partition_refuted", "partition_follows_partial", "kernel_argument", "kernel_argument_read", "variable_reserved", "variable_released", "library_missing"], "note": "Refuted for partitions: the scan of a disk stores VALID in the namespace of the module under the unique id of the disk, the scan of a partition looks in the namespace of devices under the number of the disk. Proved with the value in that place, for the kernel argument (its value is never looked at) and for the reservation."},
{"property": "C117", "status": "partial", "theorems": ["dm_properties_stored", "dm_properties_missing", "dm_volume_found", "dm_renamed_device_refuted"], "note": "Proved but for the last sentence, which is refuted for every renamed device: the alias of the old name stays. Paths of the files are not modelled."},
{"property": "C118", "status": "proved", "theorems": ["group_operations_keep_values"], "note": "For every history of the modelled operations."},
{"property": "C119", "status": "partial", "theorems": ["sidctl_shows_data", "sidctl_shows_nothing", "sidctl_failure_shows", "sidctl_in_bounds_refuted"], "note": "Data without a NUL are read beyond their end (sidctl_in_bounds_refuted)."},
{"property": "C120", "status": "partial", "theorems": ["sidctl_version_shows", "sidctl_version_failure_refuted", "sidctl_version_json_refuted", "sidctl_options_end", "sidctl_usage"], "note": "The exit status of version is success without a daemon (sidctl_version_failure_refuted); an answer of success without data gives a text that is no JSON (sidctl_version_json_refuted)."},
{"property": "C121", "status": "partial", "theorems": ["event_sources_matched", "one_signal_source", "plain_created", "signal_created", "time_created_partial", "plain_succeeds", "time_succeeds", "time_too_late", "no_loop_refused", "source_destroyed", "time_created_refuted", "signal_again_refuted", "unnamed_source_refuted"], "note": "A relative timer whose clock cannot be read gives the result 1 without a source (time_created_refuted); a loop never gets a second source for signals (signal_again_refuted); a source without a name cannot be destroyed (unnamed_source_refuted)."},
{"property": "C122", "status": "partial", "theorems": ["timer_again", "timer_kept", "timer_failure_refuted"], "note": "A failure with an absolute time gives the result 1 (timer_failure_refuted)."},
{"property": "C123", "status": "partial", "theorems": ["uevents_reach_workers", "uevents_after_bad_one_refuted"], "note": "Proved while every uevent names a worker and can be sent; false otherwise: one bad uevent turns the source of the udev monitor off for good, no later uevent reaches any worker."},
{"property": "C124", "status": "partial", "theorems": ["clients_reach_new_workers", "clients_after_failure_refuted", "clients_no_spare_worker_refuted"], "note": "Proved while nothing fails; false otherwise: one failure turns the source of the socket off for good, and a worker made for a client who cannot be accepted stays."},
{"property": "C125", "status": "partial", "theorems": ["import_records_devices", "import_twice_same", "import_keeps_ids", "import_number_taken_refuted"], "note": "Proved for all databases in order and all lists of devices. Refuted where the saved database has the number of a device with another id than udev: both ids are listed and every later scan of the number writes beyond its buffer. Not modelled: libudev itself and failures of allocation."},
{"property": "C126", "status": "partial", "theorems": ["journal_lines", "syslog_lines_partial", "syslog_text_refuted", "syslog_process_refuted", "standard_lines", "errno_refuted"], "note": "Journal and standard streams: what is handed over is proved for all messages. syslog: proved for at most one prefix, refuted for two or more (only the last prefix is sent, and every message of a resource has two or more). Error numbers reach neither syslog nor the journal."},
{"property": "C127", "status": "partial", "theorems": ["log_levels", "no_handle_note", "no_handle_once", "log_reinit_refuted"], "note": "Levels, targets and the note for missing handles are proved over all histories; a closed log that is initialised again keeps the first target and verbosity, so that part is refuted. Calls with a handle other than the one of the process are taken as calls without one."},
{"property": "C128", "status": "partial", "theorems": ["command_memory", "others_leave_nothing", "finished_scan", "export_path_refuted", "second_stage_udev_refuted", "one_stage_scan_refuted", "waiting_scan_refuted", "resources_mapping_refuted"], "note": "Proved for all commands, failures and histories: no double free or invalid access, with the pieces that may be left named, except in two cases that are refuted: a failed s-dbdump with a path frees it twice, and a udev property written in the second stage of a scan is added through a NULL response buffer. Refuted as well: a scan ending between its stages leaves its iterator, one waiting for an acknowledgement its unset buffer, every finished resources command its mapping. A failing mmap and asprintf leaving its pointer undefined are not modelled."},
{"property": "C129", "status": "partial", "theorems": ["common_memory", "type_directory_refuted", "module_memory", "modules_loaded", "failed_keys_refuted", "no_submodules_refuted"], "note": "Proved for all module trees and failing steps except one: when the type directory cannot be read after a block module with keys was loaded, the exit functions use the freed structure (type_directory_refuted, for all such block directories). Keys are given back by modules that were loaded (module_memory); a module that fails keeps those reserved so far (failed_keys_refuted)."},
{"property": "C130", "status": "partial", "theorems": ["server_sockets", "client_sockets", "addresses_differ", "daemon_socket_ready", "clients_find_daemon", "activation_error_refuted"], "note": "Proved except for one case of activation by systemd: errors of sd_listen_fds and sd_is_socket_unix count as yes, so descriptor 3 is accepted although it is not open (activation_error_refuted)."},
{"property": "C131", "status": "partial", "theorems": ["descriptors_arrive", "received_descriptors", "descriptor_sent_once", "sent_count_refuted", "two_descriptors_refuted"], "note": "Proved for parts of a stream with at most one descriptor; with two, both become descriptors of the process without being reported (two_descriptors_refuted). The number of bytes sent is never returned (sent_count_refuted)."},
{"property": "C132", "status": "partial", "theorems": ["first_option_decides", "log_settings", "top_resource_freed", "status_of_the_loop", "success_is_earned", "no_top_resource_refuted", "new_session_refuted", "signals_and_loop"], "note": "Proved for all lists of options, answers of the system and sequences of signals. Refuted: a top resource that cannot be made gives exit status 0, and a failed setsid is not noticed. An empty VERBOSE is read as 0 (Example). The event loop itself is its result here; how it runs is in the claims about event sources."},
{"property": "C133", "status": "partial", "theorems": ["mask_restored", "worker_made", "worker_killed", "worker_ended", "parent_death_noticed", "orphan_stops", "program_outlives_refuted", "program_timeout"], "note": "Proved by invariants over all orders of steps, signals and the end of the parent. Refuted for programs: the worker keeps all signals blocked through execve, so that neither the end of the parent nor a timeout signal other than SIGKILL ends a program which does not change its mask. Stopping signals are left out."},
{"property": "C134", "status": "partial", "theorems": ["program_result", "one_process_returns", "program_missing_refuted", "two_processes_refuted", "next_program_refuted"], "note": "Proved for all sequences if redirections, callback and execve succeed. Refuted otherwise: the call also returns in the child, which goes on with the scan, and its next program reads channel specs through NULL."},
{"property": "C135", "status": "partial", "theorems": ["dm_cookie_lowered_once", "dm_cookie_nowhere_else", "dm_cookie_left_refuted"], "note": "Proved: exactly once, or not at all and the scan has failed; functions for other phases lower none. The claim as stated is refuted: if a file of the device in sysfs cannot be read (or B_INIT fails) the scan fails and the semaphore is never lowered."},
{"property": "C136", "status": "partial", "theorems": ["passed_to_worker", "passed_to_worker_clean", "passed_to_main", "passed_client", "passed_stray_refuted"], "note": "Proved: no wrong close ever, and the number of descriptors left open is exactly that of the messages whose receiver does not take one. The claim as stated is refuted for these, and for a client whose connection resource cannot be allocated."}
]}
