{"id": "C01", "title": "Bitmap agrees with a set of positions", "statement": "After any sequence of bmp_set_bit/bmp_unset_bit on a bitmap created with n bits (all clear or all set), bmp_bit_is_set(i) answers exactly whether i was last set (or initially set) and bmp_get_bit_set_count equals the number of positions below n that are set; setting or clearing one position never changes another.", "quantifier": "every bit count n in [1, 2^37), both initial fills, every finite history of set/unset calls with arbitrary positions", "why_tests_cant": "the interaction is over unbounded histories and word boundaries; the cached population count can drift after any repeated set/unset", "anchors": ["src/internal/bmp.c:bmp_create,bmp_set_bit,bmp_unset_bit,bmp_bit_is_set,bmp_get_bit_set_count", "src/include/internal/bmp.h"]}
{"id": "C02", "title": "Bitmap refuses positions outside the bitmap", "statement": "bmp_set_bit and bmp_unset_bit with a position at or beyond the bit count return -ERANGE and leave every observable of the bitmap unchanged; in-range calls return 0 and only ever touch words inside the allocated block; a zero bit count is refused with -EINVAL.", "quantifier": "every bit count and every position, including positions at word boundaries and far beyond the end", "why_tests_cant": "boundary positions are unbounded in number and a missed one is a silent out-of-bounds write", "anchors": ["src/internal/bmp.c:_get_coord,bmp_create,bmp_set_bit,bmp_unset_bit"]}
{"id": "C03", "title": "Base64 encode/decode round trip", "statement": "For every non-empty byte string whose encoded length is representable, encoding into a buffer of sid_conv_base64_encoded_len bytes succeeds and decoding the encoded characters returns exactly the original bytes and length.", "quantifier": "every non-empty byte string of every length", "why_tests_cant": "all byte values at all three phase positions for all lengths cannot be enumerated", "anchors": ["src/base/conv-base64.c:sid_conv_base64_encode,sid_conv_base64_decode,sid_conv_base64_encoded_len"]}
{"id": "C04", "title": "Base64 encoded length and encoder output bounds", "statement": "sid_conv_base64_encoded_len(n) is 4*ceil(n/3)+1 when that is representable in size_t and 0 otherwise; the encoder refuses (-EINVAL) any shorter destination or zero length without writing, and otherwise writes exactly that many bytes, the last being NUL and the others from the base64 alphabet.", "quantifier": "every input length below 2^64 and every destination size", "why_tests_cant": "the overflow threshold lies at sizes no test can allocate", "anchors": ["src/base/conv-base64.c:sid_conv_base64_encoded_len,sid_conv_base64_encode"]}
{"id": "C05", "title": "Base64 decoder never writes past its allocation and rejects bad lengths", "statement": "For every byte string, the decoder either returns no result, or a result whose reported length does not exceed the bytes allocated (3/4 of the number of alphabet characters); it returns no result when the number of alphabet/padding characters is zero or not a multiple of four.", "quantifier": "every input byte string, including arbitrary garbage and padding", "why_tests_cant": "arbitrary malformed input space is unbounded", "anchors": ["src/base/conv-base64.c:sid_conv_base64_decode"]}
{"id": "C06", "title": "Hash table behaves as a finite map", "statement": "After any sequence of hash_add/hash_del/hash_update/hash_wipe on a table of any size, hash_lookup(key) returns the data most recently stored under exactly that byte-string key, or nothing if it was removed or never stored; operations on one key never affect another key, even in the same bucket.", "quantifier": "every slot count, every finite history of operations with arbitrary byte-string keys and update callbacks", "why_tests_cant": "bucket collisions and chain positions depend on the history; tests see only a few chains", "anchors": ["src/internal/hash.c:hash_add,hash_del,hash_lookup,hash_update,hash_wipe,_find"]}
{"id": "C07", "title": "Hash table iteration and counting are exact", "statement": "hash_get_entry_count equals the number of keys present, and walking with hash_get_first/hash_get_next (or hash_iter) visits every stored entry exactly once and nothing else.", "quantifier": "every table reachable by any finite history of operations", "why_tests_cant": "iteration order and bucket boundaries depend on history", "anchors": ["src/internal/hash.c:hash_get_first,hash_get_next,hash_iter,hash_get_entry_count"]}
{"id": "C08", "title": "Hash table entries keep data and data length together", "statement": "A lookup returns the data pointer and the length that were stored together by the same most recent successful store under that key.", "quantifier": "every finite history of hash_add/hash_update/hash_del", "why_tests_cant": "only visible after a re-add with a different length on some history", "anchors": ["src/internal/hash.c:hash_add,hash_lookup"]}
{"id": "C09", "title": "Hash table multi-value entries", "statement": "With hash_add_allow_multiple, a key holds every value added and not removed; hash_lookup_with_data finds a value iff present, hash_del_with_data removes exactly one matching entry, hash_lookup_with_count reports how many entries the key has and the data of the first one.", "quantifier": "every finite history mixing multi-value and plain operations", "why_tests_cant": "multiplicities over unbounded histories", "anchors": ["src/internal/hash.c:hash_add_allow_multiple,hash_lookup_with_data,hash_del_with_data,hash_lookup_with_count"]}
{"id": "C10", "title": "B+ tree behaves as a finite map", "statement": "After any sequence of bptree_add/bptree_del/bptree_update on a tree of any legal order (>=4), bptree_lookup(key) returns exactly the data most recently stored for that key, or nothing when the key is absent.", "quantifier": "every order >= 4, every finite history of insertions, overwrites, updates and deletions with arbitrary string keys", "why_tests_cant": "node splits, redistributions and merges depend on the whole history; tests exercise a few shapes only", "anchors": ["src/internal/bptree.c:bptree_add,bptree_del,bptree_update,bptree_lookup,_find_leaf,_find"]}
{"id": "C11", "title": "B+ tree iteration is complete and in key order", "statement": "A full iteration yields every stored key exactly once, in strictly increasing strcmp order, with the data currently stored for it.", "quantifier": "every tree reachable by any finite history, every order >= 4", "why_tests_cant": "leaf chaining after splits/merges depends on history", "anchors": ["src/internal/bptree.c:bptree_iter,bptree_iter_create,bptree_iter_next"]}
{"id": "C12", "title": "B+ tree range iteration respects its bounds", "statement": "Iterating with key_start and key_end yields exactly the stored keys k with key_start <= k <= key_end, in order, whether or not the bounds themselves are stored.", "quantifier": "every reachable tree and every pair of bound strings", "why_tests_cant": "the failing case needs a start key that is absent and falls inside a leaf", "anchors": ["src/internal/bptree.c:bptree_iter_create,bptree_iter_next,_find"]}
{"id": "C13", "title": "B+ tree prefix iteration yields exactly the keys with the prefix", "statement": "Prefix iteration yields every stored key beginning with the prefix, exactly once and in order, and no other key.", "quantifier": "every reachable tree and every prefix string", "why_tests_cant": "depends on where the prefix falls relative to leaf boundaries and separators for the given history", "anchors": ["src/internal/bptree.c:bptree_iter_create_prefix,bptree_iter_next"]}
{"id": "C14", "title": "B+ tree stays balanced and within capacity", "statement": "All leaves stay at the same depth, no node ever exceeds the order, every node other than the root keeps its minimum occupancy, and so the height stays logarithmic in the number of keys.", "quantifier": "every order >= 4 and every finite history of insertions and deletions", "why_tests_cant": "a single history that violates occupancy leads to memory corruption (fixed-size arrays); tests cannot cover all histories", "anchors": ["src/internal/bptree.c:_insert_into_leaf_after_splitting,_insert_into_node_after_splitting,_delete_entry,_coalesce_nodes,_redistribute_nodes"]}
{"id": "C15", "title": "B+ tree aliases stay bound to their record", "statement": "After bptree_add_alias(key, alias), lookups through either name return the same data; deleting one name leaves all other names and all other records unaffected.", "quantifier": "every reachable tree with any set of aliases and every deletion order", "why_tests_cant": "failure needs several names of one record to share a leaf with another record in between", "anchors": ["src/internal/bptree.c:bptree_add_alias,bptree_del,_remove_entry_from_node,_delete_entry"]}
{"id": "C16", "title": "B+ tree entry count and size accounting are exact", "statement": "bptree_get_entry_count and bptree_get_size always equal what a full walk of the tree would count.", "quantifier": "every reachable tree", "why_tests_cant": "drift accumulates over histories with overwrites and node merges", "anchors": ["src/internal/bptree.c:bptree_get_entry_count,bptree_get_size"]}
{"id": "C17", "title": "Linear buffer content is the concatenation of what was added", "statement": "After any sequence of successful adds and rewinds on a linear buffer, the data returned is exactly the concatenation of the retained additions in order, in both plain and size-prefixed mode, and the count equals its length (plus the prefix in size-prefixed mode); failed operations do not change it.", "quantifier": "every initial size, allocation step, limit and every finite history of add/rewind/reset calls", "why_tests_cant": "reallocation boundaries and prefix handling depend on sizes and histories", "anchors": ["src/base/buf-type-linear.c", "src/base/buf.c:sid_buf_add,sid_buf_rewind,sid_buf_get_data_from"]}
{"id": "C18", "title": "Buffer usage never exceeds allocation, allocation never exceeds the limit", "statement": "At every moment used <= allocated, and allocated <= limit when a limit is set; an addition that cannot fit is refused with an error and leaves the buffer as it was.", "quantifier": "every initial configuration accepted at creation and every finite history", "why_tests_cant": "rounding to the allocation step near the limit, over all sizes", "anchors": ["src/base/buf.c:_check_buf,sid_buf_create", "src/base/buf-type-linear.c:_buffer_linear_realloc", "src/base/buf-type-vector.c"]}
{"id": "C19", "title": "Buffer mark protects handed-out memory", "statement": "While memory handed out by an add is still bound, every further add is refused with -EBUSY, so a handed-out pointer is never invalidated by reallocation; unbinding or rewinding at or before it makes adds possible again.", "quantifier": "every finite history of add/unbind/rewind with and without handed-out pointers", "why_tests_cant": "ordering of bind/unbind calls is unbounded", "anchors": ["src/base/buf.c:sid_buf_add,sid_buf_unbind,sid_buf_rewind,sid_buf_unbind_mem,sid_buf_rewind_mem"]}
{"id": "C20", "title": "Size-prefixed message is received intact under any fragmentation", "statement": "When a size-prefixed message is delivered to sid_buf_read in arbitrary chunks, the buffer becomes complete exactly when the last byte has arrived and then its data is exactly the message payload.", "quantifier": "every message and every way the kernel may split it into read results (including interruptions)", "why_tests_cant": "the kernel chooses the split; tests observe one or two", "anchors": ["src/base/buf-type-linear.c:_buffer_linear_read,_buffer_linear_is_complete", "src/base/buf.c:sid_buf_read,sid_buf_is_complete"]}
{"id": "C21", "title": "write_all sends every byte exactly once under partial writes", "statement": "sid_buf_write_all emits exactly the buffer's bytes (including the size prefix when present) in order, for any sequence of partial writes and transient errors, and returns success only then.", "quantifier": "every buffer content and every schedule of short writes, EAGAIN/EINTR and failures, for linear and vector buffers", "why_tests_cant": "the kernel chooses how much each write accepts", "anchors": ["src/base/buf.c:sid_buf_write_all", "src/base/buf-type-linear.c:_buffer_linear_write", "src/base/buf-type-vector.c:_buffer_vector_write"]}
{"id": "C22", "title": "Vector buffer holds exactly the added items", "statement": "After any sequence of adds and rewinds the vector buffer's items are exactly the retained items in order, and in size-prefixed mode the prefix written to the wire equals the total number of bytes sent.", "quantifier": "every finite history of vector buffer operations", "why_tests_cant": "growth and prefix slot handling depend on the history", "anchors": ["src/base/buf-type-vector.c"]}
{"id": "C23", "title": "Malformed or truncated size-prefixed input is reported, never accepted", "statement": "A size prefix smaller than the prefix itself, or an end of stream before the announced number of bytes, makes sid_buf_read return an error; the buffer is never reported complete in that case.", "quantifier": "every announced size and every truncation point and fragmentation", "why_tests_cant": "all truncation points and chunkings", "anchors": ["src/base/buf-type-linear.c:_buffer_linear_read,_buffer_linear_is_complete"]}
{"id": "C24", "title": "Key-value store behaves as a map with conditional update", "statement": "Outside transactions, sid_kvs_set stores the value iff the update callback (if any) accepts it, sid_kvs_unset removes the key iff the callback accepts, and sid_kvs_get returns the last stored value; keys differing only in leading white space denote the same entry; all other entries are untouched.", "quantifier": "every finite history of set/get/unset with arbitrary callbacks, on both backends", "why_tests_cant": "callback decisions and histories are unbounded", "anchors": ["src/resource/kvs.c:sid_kvs_set,sid_kvs_get,sid_kvs_unset,_canonicalize_key"]}
{"id": "C25", "title": "Key-value store returns values byte for byte for every storage form", "statement": "For every combination of the vector, reference and merge flags that is accepted, reading a key returns the same bytes (and the same item boundaries for unmerged vectors) that were supplied, with the matching size and flags.", "quantifier": "every value (any number of vector items of any size) and every accepted flag combination", "why_tests_cant": "the space of vectors and flags is unbounded", "anchors": ["src/resource/kvs.c:_create_kv_store_value,_get_data,sid_kvs_get"]}
{"id": "C26", "title": "Committed transaction equals applying its operations", "statement": "A transaction that is committed leaves the store as if its sets and unsets had been applied one by one in program order.", "quantifier": "every store and every sequence of operations inside a transaction", "why_tests_cant": "interleavings of sets and unsets on the same key inside one transaction", "anchors": ["src/resource/kvs.c:sid_kvs_transaction_begin,sid_kvs_transaction_end,sid_kvs_unset"]}
{"id": "C27", "title": "Rolled-back transaction leaves no trace", "statement": "A transaction that is rolled back leaves every key with exactly the value it had when the transaction began.", "quantifier": "every store and every sequence of operations inside a transaction, including repeated sets of one key and archiving", "why_tests_cant": "the failing histories involve several updates of the same key", "anchors": ["src/resource/kvs.c:sid_kvs_transaction_end,_kv_store_update,_rollback"]}
{"id": "C28", "title": "Archive key receives the previous value", "statement": "A set or unset with an archive key moves the value the key had before (if any) to the archive key and otherwise leaves the archive key alone.", "quantifier": "every store state, key, archive key and callback decision", "why_tests_cant": "depends on the previous state and callback decisions", "anchors": ["src/resource/kvs.c:sid_kvs_set,sid_kvs_unset"]}
{"id": "C29", "title": "At most one transaction is open", "statement": "sid_kvs_transaction_begin fails with -EBUSY while a transaction is open and succeeds otherwise; sid_kvs_transaction_active reports exactly whether one is open.", "quantifier": "every history of begin/end/set/unset", "why_tests_cant": "unbounded histories", "anchors": ["src/resource/kvs.c:sid_kvs_transaction_begin,sid_kvs_transaction_active,sid_kvs_transaction_end"]}
{"id": "C30", "title": "Every stored value is released exactly once", "statement": "Over any history ending with destruction of the store, every value that was stored is freed exactly once: no leak, no double free, and nothing still reachable through a key has been freed.", "quantifier": "every finite history of set/unset/alias/archive/transaction operations followed by destroy", "why_tests_cant": "double frees appear only on particular histories of aliasing and archiving", "anchors": ["src/resource/kvs.c:_destroy_kv_store_value,sid_kvs_set,sid_kvs_unset,_destroy_kv_store"]}
{"id": "C31", "title": "Tokenizing into a string vector is exact and stays inside its allocation", "statement": "util_str_comb_to_strv produces exactly the prefix, the tokens of the string (split at delimiters, with quoted parts kept together) and the suffix, NULL-terminated, and writes exactly the number of bytes it allocated.", "quantifier": "every string, delimiter set, quote set, prefix and suffix", "why_tests_cant": "the two-pass size/copy agreement must hold for all strings", "anchors": ["src/internal/util.c:util_str_iterate_tokens,util_str_comb_to_strv"]}
{"id": "C32", "title": "Reverse substring search finds the last occurrence", "statement": "util_str_rstr returns the last occurrence of the needle in the haystack, or NULL exactly when there is none.", "quantifier": "every haystack and needle", "why_tests_cant": "all positions including the very first character", "anchors": ["src/internal/util.c:util_str_rstr"]}
{"id": "C33", "title": "Key/value splitting never reads outside the string", "statement": "util_str_get_kv on any NUL-terminated string splits KEY=VALUE, removing matching quotes, and never reads or writes outside the string.", "quantifier": "every NUL-terminated string", "why_tests_cant": "degenerate inputs (empty key, empty value, lone quote) are easy to miss", "anchors": ["src/internal/util.c:util_str_get_kv"]}
{"id": "C34", "title": "String copies are bounded and terminated", "statement": "util_str_copy_len and util_str_copy_substr copy exactly the requested part, always NUL-terminate, never write past the destination, and refuse when it does not fit.", "quantifier": "every string, offset, length and destination size", "why_tests_cant": "all boundary combinations of offset, length and buffer size", "anchors": ["src/internal/util.c:util_str_copy_len,util_str_copy_substr"]}
{"id": "C35", "title": "Combined-string search matches exactly prefix+needle+suffix", "statement": "util_str_combstr finds an occurrence iff the haystack contains the concatenation of prefix, needle and suffix.", "quantifier": "every haystack, prefix, needle and suffix", "why_tests_cant": "overlapping partial matches", "anchors": ["src/internal/util.c:util_str_combstr"]}
{"id": "C36", "title": "udev action and device type names convert both ways", "statement": "Converting an action or device type to its name and back yields the same value, and unknown names map to the unknown value.", "quantifier": "every enumeration value and every string", "why_tests_cant": "all strings", "anchors": ["src/internal/util.c:util_udev_str_to_action,util_udev_action_to_str,util_udev_str_to_devtyoe,util_udev_devtype_to_str"]}
{"id": "C37", "title": "fd_read_all returns what the descriptor delivers", "statement": "sid_util_fd_read_all returns the first len bytes of the stream (or everything up to end of file), in order, for any sequence of short reads and interruptions, and an error only if a read failed.", "quantifier": "every stream and every schedule of short reads, EINTR and EAGAIN", "why_tests_cant": "kernel-chosen fragmentation", "anchors": ["src/base/util.c:sid_util_fd_read_all"]}
{"id": "C38", "title": "JSON output is well formed", "statement": "Any document produced through the fmt_* calls in a properly nested order is a syntactically valid JSON document whose parsed structure is the structure that was emitted, for arbitrary field names and values.", "quantifier": "every nesting of documents, arrays, elements and fields and every string value", "why_tests_cant": "arbitrary values (quotes, backslashes, control characters) and nestings", "anchors": ["src/internal/fmt.c"]}
{"id": "C39", "title": "Children stay ordered by priority, stable among equals", "statement": "The children of a resource are always enumerated in non-decreasing priority, and children of equal priority in the order they were added.", "quantifier": "every history of creating, adding, isolating and re-prioritising resources", "why_tests_cant": "order after arbitrary histories", "anchors": ["src/resource/res.c:_add_res_to_parent_res,sid_res_set_prio,sid_res_iter_next"]}
{"id": "C40", "title": "A resource is destroyed exactly when its last reference is dropped", "statement": "Reference counts equal the number of outstanding references; a resource (and its subtree) is destroyed exactly once, when the last reference to it is dropped, and never while referenced.", "quantifier": "every history of create/ref/unref/add_child/isolate", "why_tests_cant": "unbounded histories; error is a use-after-free", "anchors": ["src/resource/res.c:sid_res_ref,sid_res_unref,_do_sid_res_unref,sid_res_create"]}
{"id": "C41", "title": "Resource search is sound and complete", "statement": "Each search method returns a matching resource iff one exists in the region of the tree the method is documented to search (subject to walk restrictions), and returns the first one in the documented order.", "quantifier": "every resource tree, start resource, method, type and id", "why_tests_cant": "all tree shapes and restriction flags", "anchors": ["src/resource/res.c:sid_res_search,_search_down,_search_up"]}
{"id": "C42", "title": "Isolation and re-parenting keep the tree a tree", "statement": "After any sequence of create/add_child/isolate operations the resources form a forest: parent and child links agree, nothing is its own ancestor, and isolating a resource detaches exactly what was requested.", "quantifier": "every history of tree operations", "why_tests_cant": "histories and tree shapes unbounded", "anchors": ["src/resource/res.c:sid_res_add_child,sid_res_isolate"]}
{"id": "C43", "title": "Event counters bound how often an event source fires", "statement": "An event source fires at most the number of times allowed by its counter; setting the counter absolutely or relatively saturates instead of wrapping, and the source is disabled exactly when the limit is reached.", "quantifier": "every history of firing and counter changes with arbitrary 64-bit values", "why_tests_cant": "wrap-around values and interleavings", "anchors": ["src/resource/res.c:sid_res_ev_set_counter,_account_event"]}
{"id": "C44", "title": "Worker channel delivers messages intact and in order", "statement": "A sequence of messages sent through a worker channel is delivered to the receive callback as the same sequence, for any fragmentation of the byte stream by the kernel.", "quantifier": "every message sequence, both wire types, every fragmentation", "why_tests_cant": "kernel-chosen fragmentation and coalescing", "anchors": ["src/resource/wrk-ctl.c:_chan_buf_recv,_chan_buf_send,_on_worker_channel_event"]}
{"id": "C45", "title": "Worker proxy follows its life cycle", "statement": "A worker proxy only moves forward new -> assigned/idle -> exiting/timed out -> exited; an idle worker is handed out only when it is idle; work is never assigned to a worker that is exiting or exited.", "quantifier": "every interleaving of assignments, yields, timeouts and process exits", "why_tests_cant": "event interleavings are unbounded", "anchors": ["src/resource/wrk-ctl.c:_change_worker_proxy_state,sid_wrk_ctl_get_idle_worker,sid_wrk_ctl_chan_send,_on_worker_proxy_child_event,_on_worker_proxy_timeout_event"]}
{"id": "C46", "title": "Database keys encode their parts unambiguously", "statement": "Composing a database key from operation, domain, namespace, namespace part, category, id and core and decomposing it again yields the same parts, and two different part tuples never produce the same key, provided no part except the core contains the separator.", "quantifier": "every tuple of part strings", "why_tests_cant": "collisions depend on contents of arbitrary strings", "anchors": ["src/resource/ubr.c:_do_compose_key,_decompose_key,_get_key_part,_get_op_from_key,_get_ns_from_key"]}
{"id": "C47", "title": "Modules cannot reach system records through the key API", "statement": "A key composed from module-supplied namespace and key name (as accepted by sid_ucmd_kv_set, get, reserve and unreserve) never equals the key of a system record.", "quantifier": "every namespace, every accepted key name, every module and device", "why_tests_cant": "arbitrary key names chosen by modules", "anchors": ["src/resource/ubr.c:sid_ucmd_kv_set,sid_ucmd_kv_get,sid_ucmd_kv_reserve,_do_sid_ucmd_kv_set"]}
{"id": "C48", "title": "Module relation is exactly same, sub- or super-module", "statement": "Two module names are treated as sub/super-modules exactly when one is a path-wise ancestor of the other, as the same exactly when equal, and as unrelated otherwise.", "quantifier": "every pair of module names", "why_tests_cant": "all name pairs including those sharing a partial component", "anchors": ["src/resource/ubr.c:_mod_match"]}
{"id": "C49", "title": "Record write permission matrix", "statement": "A write to an existing record is accepted iff the writer is the owner or the core, or the owner granted write to writers of that relation (foreign, sub, super); otherwise the old record remains and the error distinguishes reserved, read-only and private.", "quantifier": "every combination of owner, writer and flags", "why_tests_cant": "all flag combinations crossed with all name relations", "anchors": ["src/resource/ubr.c:_check_kv_wr_allowed,_kv_cb_write,_do_sid_ucmd_kv_set"]}
{"id": "C50", "title": "A denied write is reported to the module", "statement": "sid_ucmd_kv_set returns a negative code when the write was not performed, and never dereferences a missing stored value.", "quantifier": "every database state, module, key, value and flags", "why_tests_cant": "needs a denied write on a particular owner/flag combination", "anchors": ["src/resource/ubr.c:_do_sid_ucmd_kv_set,sid_ucmd_kv_set"]}
{"id": "C51", "title": "Global reservation keeps other modules out", "statement": "While a key name is reserved by a module in a per-device namespace, a set of that key by another module without write permission is refused for every device.", "quantifier": "every module pair, key, device and reservation flags", "why_tests_cant": "all combinations of reservation and later sets", "anchors": ["src/resource/ubr.c:_check_global_kv_rs_for_wr,_do_sid_ucmd_kv_set,sid_ucmd_kv_reserve"]}
{"id": "C52", "title": "Group change computes exact set differences", "statement": "Setting, adding to or removing from a sorted member list stores exactly the new set, the union or the difference, and reports exactly the members that were added and removed; the result stays sorted and duplicate-free and its buffers never overflow.", "quantifier": "every pair of sorted member lists and every operation", "why_tests_cant": "all overlaps of two lists of any length", "anchors": ["src/resource/ubr.c:_delta_step_calc,_init_delta_buffers"]}
{"id": "C53", "title": "Accumulated delta reproduces the current set from the original", "statement": "For any sequence of group changes made in a worker, the recorded added/removed lists, applied to the list as it was when the snapshot was taken, give the current list; no element is in both lists.", "quantifier": "every original list and every finite sequence of set/add/remove changes", "why_tests_cant": "cancellations depend on the entire history", "anchors": ["src/resource/ubr.c:_delta_abs_calc,_delta_cross_bitmap_calc,_delta_update"]}
{"id": "C54", "title": "Group membership is recorded symmetrically", "statement": "After any sequence of group and alias operations, a device lists a group among the groups it is in iff the group lists the device among its members.", "quantifier": "every finite history of alias add/del/rename and group create/add/del/destroy for any devices", "why_tests_cant": "histories over many devices and groups", "anchors": ["src/resource/ubr.c:_handle_devs_for_group,_do_kv_delta_set,_delta_update,_do_sid_ucmd_group_destroy"]}
{"id": "C55", "title": "Concurrent group changes from different workers merge", "statement": "When several workers change the same group on their own snapshots and their deltas are synchronised to the main store in any order, members added by one and not removed by another are present and vice versa; the result does not depend on the order when the changes do not contradict.", "quantifier": "every original list, every set of workers with non-contradicting changes, every synchronisation order", "why_tests_cant": "all interleavings", "anchors": ["src/resource/ubr.c:_sync_main_kv_store,_kv_cb_delta_step"]}
{"id": "C56", "title": "Database export and import are inverse", "statement": "Serialising any set of records for the main process (or for the database file) and reading it back yields the same keys, flags and values.", "quantifier": "every list of scalar and vector records of any size", "why_tests_cant": "arbitrary sizes and contents", "anchors": ["src/resource/ubr.c:_build_cmd_kv_buffers,_sync_main_kv_store"]}
{"id": "C57", "title": "Newest event wins when results are synchronised", "statement": "When several workers synchronise values of the same record, the main store ends with the value of the highest event sequence number, in whatever order they arrive; older values never overwrite newer ones.", "quantifier": "every set of writes with their sequence numbers and every arrival order", "why_tests_cant": "all arrival orders", "anchors": ["src/resource/ubr.c:_kv_cb_main_set,_kv_cb_main_unset,_sync_main_kv_store"]}
{"id": "C58", "title": "Synchronisation survives any mix of records", "statement": "Synchronising any well-formed message (sets, unsets, added and removed members, archived or not, in any order) processes every record with its own operation and never uses one record's bookkeeping for another.", "quantifier": "every well-formed sequence of records", "why_tests_cant": "failure needs specific record kinds to follow one another in one message", "anchors": ["src/resource/ubr.c:_sync_main_kv_store"]}
{"id": "C59", "title": "Worker reservations reach the main store", "statement": "A reservation made in a worker and synchronised is kept by the main store even though it carries no value; only an explicit unreserve removes it.", "quantifier": "every reservation flags combination and main store state", "why_tests_cant": "all flag combinations", "anchors": ["src/resource/ubr.c:_sync_main_kv_store,_do_sid_ucmd_mod_reserve_kv"]}
{"id": "C60", "title": "Device ready state follows its life cycle", "statement": "For any sequence of ready-state requests in any scan phases, the state never returns to undefined, becomes unprocessed only from undefined, unconfigured only from unprocessed, and changes only in phases that permit it.", "quantifier": "every sequence of requests and phases", "why_tests_cant": "unbounded request sequences", "anchors": ["src/resource/ubr.c:_do_sid_ucmd_dev_set_ready,_cmd_scan_phase_regs"]}
{"id": "C61", "title": "Device reserved state follows its life cycle", "statement": "For any sequence of reserved-state requests in any scan phases, the state never returns to undefined, becomes unprocessed only from undefined, and changes only in phases that permit it.", "quantifier": "every sequence of requests and phases", "why_tests_cant": "unbounded request sequences", "anchors": ["src/resource/ubr.c:_do_sid_ucmd_dev_set_reserved,_cmd_scan_phase_regs"]}
{"id": "C62", "title": "Scan result is reported only after the main store has it", "statement": "For a scan, the response is sent to the client only after the main process acknowledged the exported records (or nothing was exported); every command sends at most one response per stage and ends in exactly one of finished or error.", "quantifier": "every interleaving of handler runs, acknowledgements, udev events and timeouts", "why_tests_cant": "event interleavings", "anchors": ["src/resource/ubr.c:_cmd_handler,_change_cmd_state,_worker_recv_fn"]}
{"id": "C63", "title": "Scan phases run in order and the error path cleans up", "statement": "A scan stage runs its phases in order; after a failing middle phase it runs the error phase once and then the stage's exit phase once and nothing else; a failing init or exit phase ends the stage with failure.", "quantifier": "every assignment of outcomes to phases, every stage and action", "why_tests_cant": "all outcome combinations", "anchors": ["src/resource/ubr.c:_cmd_exec_scan"]}
{"id": "C64", "title": "Unprivileged clients cannot run privileged commands", "statement": "A command that requires root is only ever executed for a peer with uid 0, and every command number a client may send selects a valid command entry.", "quantifier": "every command number 0..255, every peer uid", "why_tests_cant": "all header values a hostile client may send", "anchors": ["src/resource/ubr.c:_check_msg,_create_cmd_res,_get_cmd_reg,_socket_client_is_capable"]}
{"id": "C65", "title": "Every udev property sent with a scan is imported", "statement": "Every KEY=VALUE string in a scan request's environment is stored in the udev namespace; a malformed environment makes the request fail.", "quantifier": "every environment block", "why_tests_cant": "needs particular values (such as empty ones) at particular positions", "anchors": ["src/resource/ubr.c:_parse_cmd_udev_env,_device_add_field,_init_command"]}
{"id": "C66", "title": "Database generation number strictly increases over restarts", "statement": "Each start of the daemon with a persisted database uses a generation number greater than the previous one.", "quantifier": "every number of restarts", "why_tests_cant": "requires tens of thousands of restarts to observe wrap-around", "anchors": ["src/resource/ubr.c:_set_up_kv_store_generation"]}
{"id": "C67", "title": "Device stack queries return exactly the related devices", "statement": "On an acyclic device graph, the ancestor and descendant queries return exactly the devices reachable in that direction and the base and top queries exactly the reachable devices with no further dependency.", "quantifier": "every finite acyclic device graph and start device", "why_tests_cant": "all graph shapes", "anchors": ["src/resource/ubr.c:_do_sid_ucmd_dev_stack_get,_get_dev_imm_deps"]}
{"id": "C68", "title": "Alias lookup never overruns its result buffer", "statement": "Translating an alias to device ids writes only inside the result buffer, whatever the number of devices recorded under the alias, and reports an error when they do not fit.", "quantifier": "every alias member list and buffer size", "why_tests_cant": "needs an alias with more than one member", "anchors": ["src/resource/ubr.c:_dev_raw_alias_to_devid,_copy_ns_part_from_key"]}
{"id": "C69", "title": "Stored records keep header, owner and value apart", "statement": "Splitting a stored record yields exactly the sequence number, flags, generation, owner and value it was built from, and a value stored with the alignment flag starts at an aligned offset.", "quantifier": "every owner name, flags, header and value, aligned or not", "why_tests_cant": "all owner lengths modulo the alignment and all values", "anchors": ["src/resource/ubr.c:_vvalue_header_prep,_vvalue_data_prep,_get_vvalue,_svalue_ext_data_offset"]}
{"id": "C70", "title": "Records marked for synchronisation are exported exactly once", "statement": "A record set with the sync flag has an index entry until it is exported; exporting sends every indexed record once, and afterwards neither the index entry nor a delta record remains.", "quantifier": "every history of sets and exports in a worker", "why_tests_cant": "histories of flag changes", "anchors": ["src/resource/ubr.c:_check_kv_index_needed,_manage_kv_index,_build_cmd_kv_buffers,_process_cmd_unsbuf"]}
{"id": "C71", "title": "Command names and numbers convert both ways", "statement": "Every command number converts to a name and back to itself, and unknown names convert to the unknown command.", "quantifier": "every command number and every string", "why_tests_cant": "all strings", "anchors": ["src/iface/ifc.c:sid_ifc_cmd_type_to_name,sid_ifc_cmd_name_to_type"]}
{"id": "C72", "title": "Service link groups keep membership through merge and destroy", "statement": "Adding, removing, merging and destroying service link groups keeps every link in exactly the group it was last put in; merging moves all members of the source and destroying a group leaves none of its members in a dangling list.", "quantifier": "every set of groups and every history of group operations", "why_tests_cant": "pointer manipulations over arbitrary list shapes", "anchors": ["src/iface/srv-lnk.c:sid_srv_lnk_grp_add,sid_srv_lnk_grp_del,sid_srv_lnk_grp_merge,sid_srv_lnk_grp_destroy", "src/internal/list.c"]}
{"id": "C73", "title": "Linked list operations keep a circular doubly linked list", "statement": "After any sequence of insertions at the tail and deletions of members, walking forwards yields the members in insertion order, walking backwards the reverse, and the size is the number of members.", "quantifier": "every history of list_add/list_del over any elements", "why_tests_cant": "unbounded pointer histories", "anchors": ["src/internal/list.c:list_add,list_del,list_is_empty,list_get_size", "src/include/internal/list.h"]}
{"id": "C74", "title": "Environment number parsing is range-checked", "statement": "sid_util_env_get_ull returns a value only when the variable's text is a decimal number within the requested range.", "quantifier": "every variable text and every min/max", "why_tests_cant": "all strings and ranges", "anchors": ["src/base/util.c:sid_util_env_get_ull"]}
{"id": "C75", "title": "Kernel argument lookup matches whole arguments", "statement": "sid_util_kernel_get_arg reports an argument as present iff some blank-separated word of the kernel command line equals it or starts with it followed by '=', and returns the text after '='.", "quantifier": "every command line and argument name", "why_tests_cant": "arguments that are prefixes or substrings of others", "anchors": ["src/base/util.c:sid_util_kernel_get_arg"]}
{"id": "C76", "title": "Copying a string vector gives a complete vector", "statement": "util_strv_copy returns a NULL-terminated vector holding the same strings, in the memory given when it is large enough (NULL otherwise) and without writing outside it.", "quantifier": "every string vector and destination memory", "why_tests_cant": "a missing terminator is invisible when the memory happens to be zero", "anchors": ["src/internal/util.c:util_strv_copy"]}
{"id": "C77", "title": "Combining strings is exact and bounded", "statement": "util_str_comb_to_str yields prefix, string and suffix concatenated and NUL-terminated, treating NULL parts as empty, writes exactly that many bytes, and returns NULL exactly when the given memory is too small.", "quantifier": "every prefix, string, suffix and memory", "why_tests_cant": "all length combinations around the size of the memory", "anchors": ["src/internal/util.c:util_str_comb_to_str"]}
{"id": "C78", "title": "Printing a process id is exact or refused", "statement": "util_proc_pid_to_str returns 0 exactly when the decimal text of the pid and its NUL fit the buffer, and then the buffer holds that text; otherwise it returns -1, and it never writes outside the buffer.", "quantifier": "every pid and buffer size", "why_tests_cant": "all pids and sizes", "anchors": ["src/internal/util.c:util_proc_pid_to_str"]}
{"id": "C79", "title": "Reading a sysfs attribute yields its first line", "statement": "sid_util_sysfs_get on a non-empty file stores the first line without its newline, cut to the buffer and NUL-terminated, reports the number of characters including the NUL, and never writes outside the buffer; an empty file is reported as -EIO.", "quantifier": "every file contents and buffer size", "why_tests_cant": "all combinations of line length, missing newline and buffer size", "anchors": ["src/base/util.c:sid_util_sysfs_get"]}
{"id": "C80", "title": "A get addresses the record that a set of the same names wrote", "statement": "sid_ucmd_kv_get with the namespace and key name used in sid_ucmd_kv_set reads that very record (or its archive), records of different namespaces, devices, modules or names are different, and naming another device or module, or asking for the disk of a partition, reads the record that device or module would read itself.", "quantifier": "every namespace, key name, module and device", "why_tests_cant": "collisions and misses depend on the combination of namespace, device, module and key strings; tests try a few", "anchors": ["src/resource/ubr.c:_do_sid_ucmd_kv_set", "src/resource/ubr.c:_do_sid_ucmd_get_kv", "src/resource/ubr.c:_get_foreign_ns_part", "src/resource/ubr.c:sid_ucmd_part_get_disk_kv"]}
{"id": "C81", "title": "Record read permission matrix", "statement": "sid_ucmd_kv_get returns the data and flags of the addressed record iff it exists and the reader is its owner or the core, or the owner granted read to readers of that relation; it gives -ENOENT for a missing record and -EPERM for one that may not be read.", "quantifier": "every database state, reader, owner, flags, namespace and key", "why_tests_cant": "The matrix of owner, reader and flag relations is unbounded in module names; a leak shows only for one combination.", "anchors": ["src/resource/ubr.c:2593-2666", "src/resource/ubr.c:2858-2890"]}
{"id": "C82", "title": "Group and alias operations change exactly the named list", "statement": "Adding or removing a device on an alias or group changes that list by exactly that device and no other list; destroying a group empties it when forced and is refused with -ENOTEMPTY when members remain; renaming an alias moves all its devices to the new name.", "quantifier": "all databases reached by any history of operations, all modules, namespaces, categories, ids and devices", "why_tests_cant": "Histories of operations are unbounded and the namespace, category and id strings are arbitrary; tests see a few names.", "anchors": ["src/resource/ubr.c:_handle_devs_for_group", "src/resource/ubr.c:_do_sid_ucmd_group_destroy", "src/resource/ubr.c:sid_ucmd_dev_alias_rename"]}
{"id": "C83", "title": "The scan response lists exactly the changed udev properties", "statement": "The response to a scan has one NAME=VALUE string with its terminating NUL for each udev property written during the command with a non-empty string value, in key order and nothing else, and splitting it at the terminators gives these properties back.", "quantifier": "every database, every sequence of module calls and every property name and value", "why_tests_cant": "needs all names, values and histories of writes", "anchors": ["src/resource/ubr.c:_build_cmd_kv_buffers"]}
{"id": "C84", "title": "What the client library sends is what the daemon imports", "statement": "A request of the client library carries its sequence number, command, flags and protocol and exactly the data of its command; a scan or checkpoint request by root for any device is taken by the daemon as a command for that device, with every string of the environment that was sent stored under its key.", "quantifier": "every environment, device number, request and database", "why_tests_cant": "needs all environments and all device numbers; client and daemon are separate programs that are tested apart", "anchors": ["src/iface/ifc.c:sid_ifc_req,_add_scan_env_to_buf,_add_checkpoint_env_to_buf,_add_devt_env_to_buffer", "src/resource/ubr.c:_create_cmd_res,_parse_cmd_udev_env"]}
{"id": "C85", "title": "Result accessors give the parts of the reply", "statement": "For every reply taken as a result, the accessors give its status, protocol and data without reading outside of it; data is absent for a failed command or an empty reply; a reply shorter than a header is refused; the data of a dump is that of the exported file.", "quantifier": "every reply, every exported file", "why_tests_cant": "replies of all sizes and all header values", "anchors": ["src/iface/ifc.c:sid_ifc_rsl_get_status,sid_ifc_rsl_get_protocol,sid_ifc_rsl_get_data"]}
{"id": "C86", "title": "A notification reaches every interested member of a group", "statement": "Notifying a group of service links tells each member that asks for the notification, in the order the members were added: a systemd link gets a text with one line for each bit of the notification, where the status and error lines are the first lines of the formatted message that begin with STATUS= and ERRNO=; a log gets the message and one line for each other bit. The formatted message is the same for every member.", "quantifier": "every history of group operations, every notification, every message and format", "why_tests_cant": "arbitrary groups, masks and messages; reuse of the argument list is undefined and need not show", "anchors": ["src/iface/srv-lnk.c:sid_srv_lnk_grp_notify,_notify_systemd,_notify_logger,_get_arg_value"]}
{"id": "C87", "title": "The dump of the database is JSON and shows every record", "statement": "The reply to a dump command is a JSON document followed by a NUL; read back it is one object per record in the order of the database, with the number of the record, its key, generation, sequence number, the names of its flags, its owner and its value or values; data that is text is shown as text and other data as base64 that decodes to it.", "quantifier": "every database", "why_tests_cant": "values are arbitrary bytes in lists of any length; one list separated wrongly makes the whole document unreadable", "anchors": ["src/resource/ubr.c:_build_cmd_kv_buffers,_print_vvalue,_print_flags,_is_string_data"]}
{"id": "C88", "title": "The list of devices is JSON and shows every device once", "statement": "The reply to a devices command is a JSON document with one object per device, in the order of the database, which shows the device's id, its groups and members and the names of its ready and reserved state.", "quantifier": "every database", "why_tests_cant": "which record of a device comes first decides where commas are needed", "anchors": ["src/resource/ubr.c:_cmd_exec_devices,_sval_to_dev_ready_str,_sval_to_dev_reserved_str,_copy_ns_part_from_key"]}
{"id": "C89", "title": "The replies to resources, version and dbstats are JSON and show what they were asked for", "statement": "The reply to a resources command reads as the tree of the main process and the tree of the worker with id, type, event sources and their counters, process, flags, priority, number of references and children of every resource; the replies to version and dbstats read as the numbers of the version and of the statistics.", "quantifier": "every resource tree, every number", "why_tests_cant": "trees of any depth and width", "anchors": ["src/resource/res.c:sid_res_tree_write,_write_res_elem_fields", "src/resource/ubr.c:_cmd_exec_resources,_cmd_exec_version,_cmd_exec_dbstats"]}
{"id": "C90", "title": "Channels of a worker are named by their ids", "statement": "A worker control keeps an exact copy of every channel id it is given, within the memory it allocates for them, and refuses missing and empty ids; a channel is looked up as the first one whose id is equal to the one asked for.", "quantifier": "every list of channel specifications, every id", "why_tests_cant": "lists and ids of any length; an off-by-one in the layout shows only as memory corruption", "anchors": ["src/resource/wrk-ctl.c:_set_channel_specs,_get_channel"]}
{"id": "C91", "title": "The module of a device is the driver the kernel lists for its major number", "statement": "For a device whose major number is in the block section of the kernel's table of drivers, the module name is the name of the first driver with the number, with every '-' replaced by '_'; there is none if the number is not listed or the name does not fit the buffer. A device with an extended number (driver blkext) has the module nvme if it is an NVMe disk or partition, a partition otherwise has the module of its disk. The look up always ends and never writes beyond the buffer.", "quantifier": "every table with lines of up to 78 characters, every device, every buffer size", "why_tests_cant": "tables of any number of drivers; tests run on machines with one table", "anchors": ["src/resource/ubr.c:_lookup_mod_name,_owner_name_from_blkext,_canonicalize_module_name,_canonicalize_kv_key,_dev_is_nvme"]}
{"id": "C92", "title": "A module registry holds the modules it was told to load", "statement": "A registry holds its modules ordered by priority and, within one priority, by the time of loading; each has the full name <base name>/<name>, and for each symbol asked for its address, what is stored there if asked for indirectly, or NULL where a missing symbol is accepted. A module is looked up as the first one with the name or an alias equal to it. Loading a module that is there gives that one; otherwise it is loaded from <directory>/<prefix><name><suffix> if the library has its init and exit functions and all required symbols and initialises. Loading a directory loads each module that has a file there. Unloading removes exactly that module. No module is loaded twice.", "quantifier": "every history of loading and unloading, every directory and library", "why_tests_cant": "histories and directories of any length, any combination of present and missing symbols", "anchors": ["src/resource/mod-reg.c:sid_mod_reg_load_mod,sid_mod_reg_get_mod,sid_mod_reg_load_mods,sid_mod_reg_unload_mod,_init_module,_load_module_symbol,_find_module"]}
{"id": "C93", "title": "The full name of a module is its path through the registries", "statement": "For any nesting of registries and modules, the full name of a module is the path from the top registry to it, the base name of a registry likewise; two of them are found dependent exactly if they have the same top registry. Attaching a registry that fails leaves all names as they were. A registry is never attached below itself.", "quantifier": "every history of creating registries, loading modules and attaching registries", "why_tests_cant": "nestings of any depth", "anchors": ["src/resource/mod-reg.c:sid_mod_reg_add_mod_subreg,sid_mod_reg_reset_mods,_set_module_name,sid_mod_reg_match_dep,_get_top_registry"]}
{"id": "C94", "title": "A scan calls the right module functions in the right order", "statement": "In every phase of a scan the functions of the block modules for that phase are called in registration order up to the first failure, then the function of the type module the phase is for (the device's, the next layer's, or both in the error phase), with the phase of the command set; exit phases do it the other way round, type module first and block modules in reverse. Only the type module decides the result. Phases needing a ready state are skipped, calling nothing, when the stored state does not suit. A stage is its phases in order, with the error phase and the exit phase after a failure. After A_EXIT no state is unprocessed. The iterator over block modules exists from the first phase of stage one to the last of stage two.", "quantifier": "All tables of module functions with arbitrary effects and results, all ready states, all stages", "why_tests_cant": "Which functions are called depends on every combination of present functions, results and states; tests use a few fixed modules", "anchors": ["src/resource/ubr.c:5171-5219", "src/resource/ubr.c:5366-5587", "src/resource/ubr.c:5589-5708"]}
{"id": "C95", "title": "A device keeps the id it got at its first scan", "statement": "A device whose number is not known gets the id udev has for it, else the generated id; it is recorded as unprocessed, under its sequence number, number and name, udev gets the id and the tag sid, and no list of another device or alias changes. Without an id nothing changes and the scan fails. A device with a known number keeps its id in every later scan, whatever devices are scanned in between and whatever would be generated, and only its udev variables change. (Refuted: another device with the number of a removed one gets an id of its own; the id udev has agrees with the stored one; an id from udev that cannot be read back is rejected.)", "quantifier": "All databases reachable by scans, all device numbers, ids, names, contents of the stack buffer", "why_tests_cant": "The id of a device depends on every scan before it; tests cannot run all histories", "anchors": ["src/resource/ubr.c:4787-4857", "src/resource/ubr.c:5221-5327"]}
{"id": "C96", "title": "The module of a device is looked up once", "statement": "The module name of a device is the one in its record. Without a record the name is looked up in the kernel's tables and recorded, and no other record changes; if none is found nothing changes. Once found the name is the same in every later scan of the device, whatever is scanned in between.", "quantifier": "All databases, device ids, look up results and histories", "why_tests_cant": "Histories of scans are unbounded", "anchors": ["src/resource/ubr.c:5329-5364"]}
{"id": "C97", "title": "The names of volume group, volume and layer are recovered from the name of an LVM device", "statement": "When the scan of a logical volume starts, the names of volume group, volume and layer from which LVM built the device's name (dashes doubled, single dashes between) are stored exactly, each as a udev variable and as a value of the LVM module, readable by other modules, and no other record changes. A name without separator or without volume group, or no name, fails the phase with no change. For any name at all no memory outside of the copy of the name is touched. The module takes a device exactly when its UUID starts with LVM-, and its content exactly when it is LVM2_member.", "quantifier": "All names of volume groups, volumes and layers, all names at all, all databases", "why_tests_cant": "Names with any number of dashes at any place; the parser works in place on its input", "anchors": ["src/modules/ucmd/type/dm/lvm/lvm.c:23-116", "src/modules/ucmd/type/dm/lvm/lvm.c:238-272"]}
{"id": "C98", "title": "Output of pvscan is stored and a complete volume group is activated once", "statement": "Of the output of pvscan the last value of every key is stored as a value of the LVM module and no other record changes; lines that are no pair are skipped; a line too long for the buffer or with a key the database refuses ends the handling with the lines before it stored. The output is always handled without reading memory never written (refuted: a line with a key and no value). If the output names a complete volume group, vgchange is run with exactly this group; after it could be run it is not run again, else the name is kept; without such a line nothing is run. Output of other commands is not stored.", "quantifier": "All outputs, databases and results of the commands", "why_tests_cant": "Outputs of any length with any repetition of keys", "anchors": ["src/modules/ucmd/type/dm/lvm/lvm.c:126-170", "src/modules/ucmd/type/dm/lvm/lvm.c:319-390", "src/internal/util.c:271-321"]}
{"id": "C99", "title": "The device-mapper cookie is decoded exactly and its semaphore lowered once", "statement": "A text in DM_COOKIE that denotes a number from 1 to 2^32-1 (decimal, octal after 0, hexadecimal after 0x, as strtoul reads it) has its lower 16 bits stored as cookie_base for the command and its upper 16 bits as cookie_flags, the record before going to the archive; any other text fails the phase with no change; without DM_COOKIE the flags are cleared. When the actions for the device run, exactly the semaphore with key 0x0D4D followed by the cookie's lower half is lowered, once; if it cannot be, the phase fails; without a cookie none is touched.", "quantifier": "all databases, commands, texts and results of the semaphore calls", "why_tests_cant": "The texts strtoul accepts, with blanks, signs, bases and overflow modulo 2^64, are unbounded; tests use the few texts dmsetup writes.", "anchors": ["src/modules/ucmd/type/dm/dm.c:252-312", "src/modules/ucmd/type/dm/dm.c:1002-1050"]}
{"id": "C100", "title": "The ready state of a device-mapper device follows from state, cookie and suspension", "statement": "In scan_pre the new ready state is a function of the old state, the cookie and the suspended mark: suspended devices become UNAVAILABLE; removed and uninitialised ones keep their state; with a cookie the flag disabling other rules gives PRIVATE, else the one disabling disk rules FLAT, else PUBLIC; without one only UNPROCESSED changes (PUBLIC on a synthetic event, UNCONFIGURED on add). A cookie on a synthetic event or one that is no change is refused and the state kept. LVM then makes PUBLIC and PRIVATE volumes with the subsystem flag UNINITIALIZED and takes that back without it. A cookie that disables other rules never leaves the device public (refuted for an uninitialised volume). Only the cookie's and the state's records change.", "quantifier": "all states, cookies, texts, actions and databases", "why_tests_cant": "The product of nine states, flags of the cookie, kinds of events and submodule is large and the wrong entries (an uninitialised volume turned public) are not the ones an author thinks of.", "anchors": ["src/modules/ucmd/type/dm/dm.c:672-840", "src/modules/ucmd/type/dm/lvm/lvm.c:275-316"]}
{"id": "C101", "title": "Variables for udev rules mirror the cookie's flags and the device's state", "statement": "At the end of scan A, after an event with a cookie, each of the sixteen variables for udev rules is 1 if its bit is in the flags or the state of the device asks for it (disk and other rules for UNINITIALIZED, PRIVATE and UNAVAILABLE, disk rules for FLAT), and removed otherwise; DM_UDEV_RULES_VSN is 3 from UNINITIALIZED on; no other record changes. The variables follow the state on every event (refuted: without a cookie none of the sixteen is touched).", "quantifier": "all flags, states and databases", "why_tests_cant": "2^16 flags times the states; and the failing case needs an event without cookie for a device made private earlier.", "anchors": ["src/modules/ucmd/type/dm/dm.c:877-960", "src/modules/ucmd/type/dm/dm.c:82-98"]}
{"id": "C102", "title": "The submodule of a device-mapper device is chosen once and kept", "statement": "For a device without a stored submodule the first submodule that claims it is stored and its init runs, or the name none is stored; afterwards the stored one is run irrespective of what submodules claim, and nothing is stored again; a stored name that is not loaded runs nothing. A device is handled by a submodule that claims it (refuted for one that none claimed at its first event). As a part of another device the last submodule that claims it runs.", "quantifier": "all lists of submodules, their match functions, databases", "why_tests_cant": "Depends on the order and answers of arbitrary modules over several events; tests have one or two modules.", "anchors": ["src/modules/ucmd/type/dm/dm.c:141-239", "src/modules/ucmd/type/dm/dm.c:529-569", "src/modules/ucmd/type/dm/dm.c:850-858"]}
{"id": "C103", "title": "Making and ending workers leaks and closes no descriptor", "statement": "When a worker is created, whatever fails on the way (memory, pipe, socketpair, signal mask, fork, proxy, closing of descriptors, arguments), the caller afterwards has exactly the descriptors it had plus, if a proxy was created, the proxy's end of every wire; the worker has the worker's end of the same pipe or socket pair for every wire and the caller's end of none; an internal worker has besides exactly what the caller had, an external one nothing. Over any sequence of workers made and proxies ended no two live proxies share a descriptor, each keeps its ends, and when none is left the table is as at the start.", "quantifier": "all descriptor tables, lists of wires, worker types, failures and sequences of operations", "why_tests_cant": "Leaks on failure paths need injected failures of every call at every position; descriptor numbers depend on all that is open.", "anchors": ["src/resource/wrk-ctl.c:124-223", "src/resource/wrk-ctl.c:704-785", "src/resource/wrk-ctl.c:787-949"]}
{"id": "C104", "title": "The program of an external worker gets its wires at the numbers asked for and nothing else", "statement": "After set up of the channels and execve each wire with a redirection is at the number asked for, each pipe without one at its own number, and every other descriptor is closed (given the numbers asked for were in use in the caller). The program's standard streams are open (refuted: those no wire asks for are closed), a wire at the number it asks for stays open (refuted: it is closed), and a failed redirection stops the set up (refuted for sockets).", "quantifier": "all descriptor tables, lists of wires with distinct targets", "why_tests_cant": "The failing cases need a caller with closed standard streams, or a failing dup2; programs tolerate missing standard input until they open a file.", "anchors": ["src/resource/wrk-ctl.c:571-633", "src/resource/wrk-ctl.c:665-702", "src/resource/wrk-ctl.c:1004-1056"]}
{"id": "C105", "title": "The daemon's standard streams are /dev/null and all other descriptors are closed", "statement": "After becoming a daemon descriptors 0 to 2 stand for /dev/null and all others below the limit are closed, whatever was open before (refuted when a standard stream was closed at the start: the first such one stays closed and the number is given to the next file).", "quantifier": "all descriptor tables and limits", "why_tests_cant": "Daemons are started from environments with open standard streams in tests.", "anchors": ["src/daemon/sid.c:51-107"]}
{"id": "C106", "title": "Iteration over the key-value store visits exactly the keys asked for", "statement": "The callers' loop over sid_kvs_iter_next (until it returns NULL) returns, after any history of sets, unsets and transactions, every stored key within the range or with the prefix asked for exactly once, together with its current value, and no other key; above the B+ tree in ascending order of keys. Afterwards the iterator starts again from the first item and the store is unchanged. The entry count of the store equals the number of stored keys.", "quantifier": "all histories of calls and transactions, all bounds and prefixes, both backends, all table sizes and orders of the tree", "why_tests_cant": "The order and completeness of an iteration depend on slots, collisions, splits and merges of nodes, which tests with a few keys do not reach", "anchors": ["src/resource/kvs.c:1055-1314", "src/internal/hash.c", "src/internal/bptree.c:1369-1523"]}
{"id": "C107", "title": "Sizes told by an iterator are those of the memory used", "statement": "For every storage form of a value (copied or referenced, vector or plain, merged or not) sid_kvs_iter_current_size reports as internal size the exact number of bytes allocated for the value, as external size the bytes of the caller's array and data it refers to, and the two data sizes add up to the number of bytes supplied.", "quantifier": "all supplied values, any number of items and lengths, all flags", "why_tests_cant": "The eight storage forms with their int_flags/ext_flags combine with lengths; a wrong byte count shows in no behaviour but statistics", "anchors": ["src/resource/kvs.c:1135-1190", "src/resource/kvs.c:213-330"]}
{"id": "C108", "title": "The store may be modified during an iteration", "statement": "When the loop over an iterator changes the store, every key present over the whole iteration is visited exactly once with the value it has at that time, no freed memory is read, and the store ends up as the changes alone would leave it.", "quantifier": "all stores, all bounds, all sequences of changes made by the loop body, both backends", "why_tests_cant": "Whether a modification invalidates the iterator depends on the position in nodes and chains at that time; freed nodes are usually still readable", "anchors": ["src/resource/kvs.c:1104-1231"]}
{"id": "C109", "title": "Messages between main process and workers are handled without loss", "statement": "Whatever clients connect, ask, send or leave and whatever fails, no message exchanged between the main process and a worker leads to undefined behaviour, and every descriptor passed along with a message is either kept by the connection made for it or closed by the receiver; the answer to a request carries the name of the command that asked.", "quantifier": "all histories of a worker: accepted connections, database dumps, uevents, requests, handler results, timeouts, disconnects, successes and failures of the main process", "why_tests_cant": "Leaked descriptors and unterminated names show only after long runs or with unusual messages", "anchors": ["src/resource/ubr.c:6800-6830", "src/resource/ubr.c:6936-7011", "src/resource/ubr.c:6640-6800"]}
{"id": "C110", "title": "Commands handled by one worker do not disturb each other", "statement": "Several commands are handled by one worker at the same time. Each behaves as if it were alone with the main process: an acknowledgement or a tree of resources sent by the main process resumes exactly the command that asked for it, no other command changes, and each command responds, finishes and fails at most once.", "quantifier": "all histories of a worker with any number of connections and commands", "why_tests_cant": "The order of messages, handlers, timers and requests of several commands cannot be enumerated by tests", "anchors": ["src/resource/ubr.c:6836-6934", "src/resource/ubr.c:6936-7011", "src/resource/ubr.c:4320-4430", "src/resource/ubr.c:6243-6330"]}
{"id": "C111", "title": "A scan does not depend on its client", "statement": "When a client disconnects, its commands stay in the worker and are carried on: a scan runs all its stages and finishes whether or not its client waits for the response.", "quantifier": "all histories before and after the disconnect", "why_tests_cant": "The moment of a disconnect relative to the stages of a scan is not under control of a test", "anchors": ["src/resource/ubr.c:4396-4430", "src/resource/ubr.c:4660-4760", "src/resource/ubr.c:6243-6330"]}
{"id": "C112", "title": "What usid prints is what the daemon answered", "statement": "usid scan prints each property of a successful answer as one line in the order of the answer, then SID_STATUS=active for the same protocol; a refused connection prints only SID_STATUS=inactive and succeeds, a failed command fails; the lines tell the properties, every answer of the same protocol counts as active, and every answer is read within its bounds.", "quantifier": "every environment, answer and error", "why_tests_cant": "needs all answers, among them empty and unterminated ones and values with line ends", "anchors": ["src/tools/usid/usid.c:_print_env_from_rsl", "src/tools/usid/usid.c:_usid_cmd_print_env", "src/tools/usid/usid.c:_get_ubr_status", "src/tools/usid/usid.c:_usid_cmd_version", "src/tools/usid/usid.c:main"]}
{"id": "C113", "title": "A scan stores what blkid found", "statement": "After a scan each udev variable of the blkid module has the last value found for its name in the text the name asks for (as it is, made safe or encoded), readable by all modules, variables of partitions under ID_ and their name, and no other record changes; a failed probe changes nothing; the encoded UUID is stored so too, and a value that cannot be encoded is left out.", "quantifier": "every device, list of values, library result and database", "why_tests_cant": "needs all values, lengths and leftovers of memory", "anchors": ["src/modules/ucmd/block/blkid/blkid.c:_add_property", "src/modules/ucmd/block/blkid/blkid.c:_probe_superblocks", "src/modules/ucmd/block/blkid/blkid.c:_blkid_scan_next"]}
{"id": "C114", "title": "The next module is that of the type blkid found", "statement": "After a scan the core takes as the next module the one that handles the last type found, and none for a device without a type or with an unknown one; the names of the variables and of the next module are reserved for the blkid module from its init to its exit.", "quantifier": "every list of values, type and earlier database", "why_tests_cant": "needs sequences of scans of a device whose contents change", "anchors": ["src/modules/ucmd/block/blkid/blkid.c:_add_property", "src/modules/ucmd/block/blkid/blkid-type-mapper.gperf:blkid_type_lookup", "src/modules/ucmd/block/blkid/blkid.c:_blkid_init", "src/modules/ucmd/block/blkid/blkid.c:_blkid_exit"]}
{"id": "C115", "title": "Whether a disk is claimed as a multipath path follows from all earlier answers of the library", "statement": "Each scan of a disk asks the multipath library. The udev variable DM_MULTIPATH_DEVICE_PATH of the disk becomes 1 when the library answers that it is a path without a check, or that it is one unless released before and the disk has not been released since it was last claimed (or was never seen); otherwise it becomes 0, and on an error it stays. The identifier the library gives is kept, no other record changes, and a library that fails does no harm.", "quantifier": "all sequences of answers, all commands scanning the disk, all changes of other records between scans, all device types and identifiers", "why_tests_cant": "tests see a few answers in a row; the claim holds after every sequence, with errors and other commands anywhere between", "anchors": ["src/modules/ucmd/block/dm_mpath/dm_mpath.c:96-167"]}
{"id": "C116", "title": "A partition is claimed when its disk is, the kernel argument nompath turns the module off, and the variable is reserved while the module is loaded", "statement": "A scan of a partition of a disk that is a multipath path sets DM_MULTIPATH_DEVICE_PATH to 1 for the partition as well. With the argument nompath in the kernel command line scans do nothing. The variable is reserved for the module from init to exit, and exit leaves no trace; without the library init fails and reserves nothing.", "quantifier": "all disks, scan sequences and partitions, all kernel command lines, all databases", "why_tests_cant": "the claim is about the key a disk's scan writes and the key a partition's scan reads, over all devices and histories", "anchors": ["src/modules/ucmd/block/dm_mpath/dm_mpath.c:21-94", "src/resource/ubr.c:4764-4785"]}
{"id": "C117", "title": "The properties of a device-mapper device in sysfs become its values, variables and aliases", "statement": "In the first phase of a scan the dm module reads UUID, name and state of suspension of the device from sysfs. With name and state present it stores them as its own values (readable by its submodules) and as the udev variables DM_NAME, DM_UUID (unless blank) and .DM_SUSPENDED, gives the device the aliases of its name and UUID, and changes no other record, alias or group; afterwards the LVM submodule recognises the device exactly when its UUID starts with LVM- and finds volume group, volume and layer in the name. If a file cannot be read or shows no name or state, the phase fails and the database is as before. A device has as name alias only its current name.", "quantifier": "for all contents of the three files, devices, databases and histories of group operations before it", "why_tests_cant": "Tests need real dm devices; file contents, databases and histories of aliases are unbounded", "anchors": ["src/modules/ucmd/type/dm/dm.c:314-330", "src/modules/ucmd/type/dm/dm.c:332-414", "src/modules/ucmd/type/dm/dm.c:571-579"]}
{"id": "C118", "title": "Operations on groups, aliases and the device stack leave values alone", "statement": "Whatever groups and aliases modules create, extend, shrink, rename or destroy, and whatever device stack is found, no record of the database other than member lists is changed, and none but those is marked for the transfer to the main process.", "quantifier": "for all databases, histories of operations and keys", "why_tests_cant": "A test can compare a few keys after a few operations only", "anchors": ["src/resource/ubr.c:3276-3357", "src/resource/ubr.c:2386-2482", "src/resource/ubr.c:2183-2341"]}
{"id": "C119", "title": "sidctl prints what the daemon sends", "statement": "For the commands dbdump, dbstats, resources and devices sidctl sends one request with the command and the chosen format; it prints exactly the text up to the first NUL of the data that come back, in the message or in mapped memory, and ends with success; when no answer comes or the answer says failure it prints nothing and ends with failure; no answer makes it read outside the data.", "quantifier": "all commands of the four, all sequences of options, all environments, all replies with any status and data", "why_tests_cant": "Tests show a few replies; an answer that lacks its NUL and the combinations of status, mapped memory and empty data are not produced by a healthy daemon.", "anchors": ["src/tools/sidctl/sidctl.c:31-56", "src/tools/sidctl/sidctl.c:156-216", "src/iface/ifc.c"]}
{"id": "C120", "title": "sidctl version, formats and options", "statement": "sidctl version prints one document with the version of sidctl and that of the daemon: in JSON it reads as an object of the two objects with their numbers, in the other formats as lines with the numbers; the exit status tells whether the daemon answered; the first of the options that end the run decides; the last format given, in letters of either case, is the one asked for; anything but one command name prints the usage and fails.", "quantifier": "all version numbers, all formats, all sequences of options and arguments, all replies", "why_tests_cant": "Tests run with one version and a running daemon; exit status and output without a daemon, or with an answer without data, are rarely looked at.", "anchors": ["src/tools/sidctl/sidctl.c:58-91", "src/tools/sidctl/sidctl.c:143-216", "src/resource/ubr.c:1279-1290", "src/resource/ubr.c:4519-4537"]}
{"id": "C121", "title": "Creation and destruction of event sources", "statement": "The functions that create event sources either return 0 and leave exactly one new event source, in the event loop of the nearest resource that has one, or return a negative number and leave sources, sd-event sources and blocked signals as they were; after any history the sd-event sources with a reference are exactly those of the event sources; a loop has at most one source for signals, and a new one can be created once the old one is gone; destroying a source removes it and nothing else.", "quantifier": "all trees of resources, all histories of creations and destructions, all results of the library calls", "why_tests_cant": "Failures of sd-event, signalfd or malloc do not happen in tests; sources that leak or stay refused show only later.", "anchors": ["src/resource/res.c:115-182", "src/resource/res.c:523-961", "src/resource/res.c:1015-1020"]}
{"id": "C122", "title": "Timers set again", "statement": "Setting a timer again makes it fire exactly once more at the time given, absolute or from now on; times that do not fit are refused; when it fails the timer stays as it was and the result is negative.", "quantifier": "all timers that fired any number of times, all times, all results of the library", "why_tests_cant": "A test sets a few timers and never sees a failing library.", "anchors": ["src/resource/res.c:818-850", "src/resource/res.c:963-992"]}
{"id": "C123", "title": "Uevents reach their workers", "statement": "Each tagged uevent that carries the session id of a worker gives exactly one message to that worker, in the order of the uevents; a uevent without a session id, of a worker that has ended, or that cannot be sent is reported and does not affect later uevents.", "quantifier": "all histories of uevents, clients and changes of workers, all results of the library and of the sending", "why_tests_cant": "The uevent of a worker that has ended comes late and by chance; its effect shows in other workers only.", "anchors": ["src/resource/ubr.c:7170-7221", "src/resource/ubr.c:7456-7465", "src/resource/wrk-ctl.c:1136-1142", "src/resource/wrk-ctl.c:1281-1344", "src/resource/res.c:546-559"]}
{"id": "C124", "title": "Clients are passed to workers", "statement": "Each client that connects is passed to exactly one worker, in order, and no two clients share a worker; a client for whom no worker can be made, who cannot be accepted or passed on is reported, leaves no worker behind and does not affect later clients.", "quantifier": "all histories of clients, uevents and changes of workers, all results of fork, accept4 and the sending", "why_tests_cant": "Failing fork, accept4 or sendmsg are rare and cannot be made to happen in a test.", "anchors": ["src/resource/ubr.c:7029-7094", "src/resource/ubr.c:7714-7723", "src/resource/wrk-ctl.c:1116-1134", "src/resource/wrk-ctl.c:1281-1344"]}
{"id": "C125", "title": "Devices tagged in udev are recorded at the start of the daemon", "statement": "When the daemon starts it records, beside the saved database, exactly the devices that udev has tagged for it and that have an id, a sequence number and a name: both states not processed, listed under sequence number, number and name, these aliases listed with the device. Devices that cannot be opened or are incomplete are skipped, no other list changes, nothing is marked to be sent, a second import changes nothing, and a later scan of the number of an imported device gives the id udev has.", "quantifier": "all databases in order, all lists of udev devices, all later scans", "why_tests_cant": "the lists in the database after the import depend on what was saved and on every device before; a test sees a handful of devices and never a saved id that differs from the one of udev", "anchors": ["src/resource/ubr.c:7347-7432", "src/resource/ubr.c:4787-4857", "src/resource/ubr.c:2183-2482"]}
{"id": "C126", "title": "What the log hands to its targets", "statement": "Each message that the verbosity lets through reaches its target whole, with the prefix of the handle, all its prefixes in order, its text and the text of its error number when the line holds it, else its beginning and a note that it was cut; no write goes beyond the line buffer", "quantifier": "For all messages, prefixes, levels, error numbers, verbosities, histories of the interface and contents of the stack", "why_tests_cant": "Which texts fit, what is left on the stack and how many prefixes a message has differ per call; the tests log to the standard streams only", "anchors": ["src/log/log-target-syslog.c:38-68", "src/log/log-target-journal.c:51-120", "src/log/log-target-standard.c:49-79", "src/log/log.c:71-112"]}
{"id": "C127", "title": "Target and verbosity of the log over time", "statement": "After every sequence of initialisations, closings, changes of the target and of the prefix a message comes out exactly when a target is in force and its level is within the verbosity in force; where a handle is asked for, messages without one give one note in all and are not seen; the log can be closed and initialised again", "quantifier": "For all sequences of calls of the log and all messages", "why_tests_cant": "The state of the log is static and changes over the life of a process; tests see few orders of the calls", "anchors": ["src/log/log.c:20-112", "src/log/log-target-standard.c:17-41", "src/log/log-target-syslog.c:16-31", "src/log/log-target-journal.c:19-43"]}
{"id": "C128", "title": "The memory of a command is freed exactly once", "statement": "From the creation of a command resource to its destruction, whatever step of the creation fails and whatever the handler, the main process, udev and the timer do, no memory of the command is freed twice or used through a NULL or freed pointer, and nothing that the command allocated exists after it is destroyed.", "quantifier": "every registered command, every set of failing creation steps, every environment, every history of handler calls, messages, uevents and timeouts", "why_tests_cant": "A test sees neither a leak nor a double free in a rarely failing step, and cannot stop a command at every point of its life.", "anchors": ["src/resource/ubr.c:255-311", "src/resource/ubr.c:6231-6400", "src/resource/ubr.c:5366-5574", "src/resource/ubr.c:4540-4645", "src/resource/ubr.c:1292-1605", "src/resource/ubr.c:5768-6029"]}
{"id": "C129", "title": "Lifetime of the shared structure and of the modules", "statement": "Making the structure shared by all commands (its buffer, the main store, the block and the type registry with their modules) and destroying it, or failing at any step of making it, frees every part exactly once and uses none after it was freed; the exit function of a module gives back the keys its init function reserved, in modules below modules too.", "quantifier": "for all directories of modules (any number, any nesting, any failing ones, any number of keys) and all steps that fail", "why_tests_cant": "The failures (a directory that cannot be read, a module that fails half way) do not occur in tests, and use of freed memory mostly stays silent.", "anchors": ["src/resource/ubr.c:7485-7644", "src/resource/mod-reg.c:312-529", "src/resource/res.c:328-454", "src/modules/ucmd/type/dm/dm.c:416-519", "src/resource/ubr.c:2957-2991"]}
{"id": "C130", "title": "Sockets of the daemon and of clients", "statement": "Making a server or client socket writes the address within the bounds of the structure, with exactly the bytes of the path, and leaves no descriptor open when any step fails; the socket the daemon waits on, made or passed by systemd, is open, listens, is a stream socket and has the address to which clients connect.", "quantifier": "for all paths, lengths, types, tables of descriptors, answers of the kernel and environments", "why_tests_cant": "The kernel's failures and wrong activations are not produced in tests.", "anchors": ["src/base/comms.c:15-93", "src/resource/ubr.c:7237-7272", "src/iface/ifc.c:282", "src/include/iface/ifc-internal.h:29-30"]}
{"id": "C131", "title": "Descriptors passed through sockets", "statement": "Descriptors sent one by one arrive in the same order and refer to the same open files; a receive reports every descriptor it has added to the process, and the bytes in order; sending the descriptor of an export repeats after EAGAIN and EINTR, and sends it exactly once or, with an error, not at all; the result tells how much was sent.", "quantifier": "for all tables of descriptors, streams, sizes and answers of the kernel", "why_tests_cant": "Depends on ancillary data and partial sends which tests do not produce.", "anchors": ["src/base/comms.c:95-177", "src/resource/ubr.c:5737-5752"]}
{"id": "C132", "title": "The daemon is started with the asked settings, leaves nothing behind and reports how it ended", "statement": "When the daemon is started, the first option that asks for the help or the version, or is not known, decides what is printed and the exit status, and nothing else is done. Otherwise the log goes to the journal if asked, else to the standard output in the foreground, else to syslog, with the verbosity from VERBOSE if that is a number that fits in an int, else the number of -v. In the background it is a process in a new session. The top resource is destroyed exactly once if it was made. The exit status is success only if the event loop was entered and ended without error (or its worker process did). SIGTERM and SIGINT end the daemon, each SIGUSR1 before that dumps the database once, and other signals change nothing.", "quantifier": "For all lists of options, all values of VERBOSE, all results of fork, setsid, the event loop and the other calls, and all sequences of signals", "why_tests_cant": "A test cannot make fork, setsid, pthread_atfork or the creation of resources fail at each place, nor send all sequences of signals.", "anchors": ["src/daemon/sid.c: main, _become_daemon", " src/resource/sid.c: _on_sid_signal_event, _init_sid", " src/resource/res.c: sid_res_ev_loop_run"]}
{"id": "C133", "title": "Workers and their programs are ended by signals and with their parent", "statement": "The process that makes a worker has the same signals blocked afterwards as before, whatever fails. A worker whose parent ends before the worker has looked for it does not go on. An internal worker loses no SIGTERM or SIGINT sent at any time since the fork: it ends. It notices the end of its parent, and no signal but SIGKILL ends it otherwise. The program of an external worker is ended by SIGTERM, by the end of its parent, and by the signal given for its timeout.", "quantifier": "For all masks and failures when a worker is made; for all orders of the steps of the worker, the end of its parent and signals", "why_tests_cant": "The moments between fork, prctl and getppid cannot be hit by tests, and signals pending across them depend on timing.", "anchors": ["src/resource/wrk-ctl.c: _do_worker_control_get_new_worker, _on_worker_signal_event, _init_worker, _run_external_worker, _on_worker_proxy_timeout_event", " src/resource/res.c: sid_res_ev_create_signal"]}
{"id": "C134", "title": "Running a program returns once, in the process that asked", "statement": "When a module runs a program and waits for it, the call returns exactly once, in the process that made it, with the result of waiting for the program or an error if it could not be started. The child runs the program or ends. However many programs are run one after the other, and whatever fails, one process goes on with the scan and the control stays usable.", "quantifier": "For all sequences of programs and all failures of memory, channels, signals, fork, creation of the proxy, descriptors, arguments, redirections, callback and execve", "why_tests_cant": "Tests run programs that exist; a second process that goes on looks like delays and closed descriptors somewhere else.", "anchors": ["src/resource/wrk-ctl.c: sid_wrk_ctl_run_new_worker, sid_wrk_ctl_run_worker, _run_external_worker, _do_worker_control_get_new_worker", " src/modules/ucmd/type/dm/lvm/lvm.c: _lvm_scan_next, _lvm_scan_action_next"]}
{"id": "C135", "title": "The semaphore of a device-mapper cookie is lowered once per scan", "statement": "A process that changes a device-mapper device makes a semaphore for the cookie of the change, passes the cookie with the uevent, and waits until the semaphore is lowered. For every scan of a device-mapper device whose event carries a cookie with an existing semaphore, over both stages and all phases, for change and for remove events, the semaphore is lowered exactly once, whatever other modules do and whichever phases fail.", "quantifier": "all environments of modules, submodules and core functions that leave the records of the cookie alone, all results of all phases, all cookies, all states of the database that can hold the cookie", "why_tests_cant": "the failures of single phases of 15 phases with any number of modules cannot be enumerated, and a lost or double decrement shows only as a hang or an early wakeup of another process", "anchors": ["src/modules/ucmd/type/dm/dm.c:500-579", "src/modules/ucmd/type/dm/dm.c:672-1072", "src/resource/ubr.c:5560-5700"]}
{"id": "C136", "title": "Descriptors that come with internal messages are closed once", "statement": "Messages between the main process and its workers can carry a descriptor: the buffer of a worker to be merged, the answer of the main process to the resources command, the connection of a client. For every sequence of messages, results of the functions called and ends of connections, each descriptor that came is closed exactly once: at once, or, for a client whose connection could be made, when the connection ends. None is closed while its number belongs to something else, and none stays open.", "quantifier": "all sequences of messages of all categories, commands and sizes, with and without descriptors, all failures of the functions called, all choices of numbers by the kernel, all interleavings with ends of connections", "why_tests_cant": "a leaked or twice closed descriptor shows only after long runs with failures at particular calls, and a second close can hit an unrelated descriptor", "anchors": ["src/resource/ubr.c:6738-7011", "src/resource/ubr.c:6180-6230", "src/resource/wrk-ctl.c:291-320"]}
