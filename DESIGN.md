# SID formal model: design

Subject: `sid-project/sid` as pinned in `/repo` (C, Linux userspace daemon).
Prover: Rocq/Coq 8.16.1. All model code lives in `rocq/theories` (logical name `Verif`).

## How the development is organised

For every modelled component `X` there are up to four files:

| file | contents |
|------|----------|
| `X_Model.v` | executable Gallina transcription of the C functions; every definition cites file and lines in `/repo`; simplifications are stated in the same comment; undefined behaviour is a distinct result, not assumed away |
| `X_Spec.v` | the small specification the properties are phrased against (sets, maps, lists); does not mention model helpers |
| `X_Proofs.v` | lemmas |
| `X_Properties.v` | only `Theorem … exact …` + `Print Assumptions`, and next to each theorem an `Example` that meets its hypotheses |

Properties the code does not have are proved false of the model: `…_refuted` theorems carry a concrete
witness, checked by computation, which can be traced through the C code. The condition under which the
property does hold is then proved as a positive theorem.

## Modelling conventions

* A C `char`/byte is `ascii`; strings and memory blocks are `list ascii`. C strings contain no NUL byte
  (hypothesis stated when it matters).
* `size_t`, `uint64_t` … are `N` (or `nat` for list positions); where a property is about wrap-around the
  `mod 2^64` is written in the model.
* Error codes are `Z` (negative errno).
* `malloc` succeeds unless the model says otherwise (allocation failure is outside the model except where an
  oracle for it is an explicit argument).
* The kernel (read/write/sendmsg results) is an explicit argument: a list of per-call results over which the
  theorems quantify.
* Callbacks (update functions, module phase functions) are function arguments over which theorems quantify.

## Plan per property

`model` names the component (files `X_Model.v` etc.); the exact theorems are in `MANIFEST.json`.

| id | model | proof method |
|----|-------|--------------|
| C01, C02 | `Bmp`: array of 32-bit words + cached count, block/bit arithmetic as in the C code | invariant (count = popcount, bits above n irrelevant) by induction over op lists; abstraction to a set of positions |
| C03–C05 | `Base64`: encoder/decoder byte loops, table of 64 characters, size_t arithmetic | structural induction in steps of three bytes / four characters; finite sweeps for table inversion |
| C06–C09 | `Hash`: vector of chains, arbitrary hash function with range < slots | refinement to a map / multimap; `_refuted` for stale data length |
| C10–C16 | `Bptree`: functional tree with the code's split / coalesce / redistribute decisions, separators, aliasing of records by identity | refinement to a sorted association list; invariant for balance/occupancy; `_refuted` for aliased delete and for range start |
| C17–C23 | `Buf`: linear and vector buffers, allocation arithmetic, marks, read/write loops against a kernel oracle | invariants over histories; induction over oracle |
| C24–C30 | `Kvs` (store over either backend, transactions, archive, ghost log of releases) and `KvsValue` (memory layout of value forms A–H) | refinement to a map, memory-level round trip; `_refuted` for rollback order and deferred unset |
| C31–C36, C76, C77 | `Tok`, `UtilStr`: tokenizer, comb/strv builders with two passes, substring searches | induction over strings; UB as error value |
| C37, C74, C75, C78, C79 | `BaseUtil`, `UtilStr` | induction over oracle / strings |
| C38 | `Fmt`: emitted bytes per call; JSON grammar (RFC 8259) as separate spec in `Json_Spec` | structural induction over emitted trees; `_refuted` for quotes in values |
| C39–C42 | `Res`: heap of resources with reference counts, priorities, search methods, isolation | invariants over histories of calls users may make; effect of each call |
| C43 | `ResEv`: counters of event sources with the part of sd-event they depend on | induction over histories |
| C44, C90 | `Wrk`: channels, lanes, both ends, the stream between them | invariant over interleavings of sends and events under any fragmentation |
| C91 | `ModName`: the table of drivers as text, the pieces `fgets` reads, the look up and its recursion | induction over the lines of the table; recursion by depth |
| C92 | `ModReg`: one registry with its modules, libraries as arbitrary symbol tables, directories as lists of names | invariant over histories; directory loading by induction over the files |
| C93 | `ModTree`: registries and modules with their names, tops and parents | local invariant over histories, paths by induction over the nesting |
| C94 | `UbrExec`: `_exec_block_mods`, `_exec_type_mod`, all phase functions and the loop over them, with arbitrary module functions; preparation of the first phase is a parameter | one lemma per phase over the calls made, induction over the block modules and over the phases |
| C95 | `UbrDevId`: `_set_dev_kvs`, `_set_new_dev_kvs` over the database of `UbrScan` | lemma per case; the id is an invariant of any sequence of scans, snapshots and module look ups |
| C96 | `UbrDevId`: `_get_base_mod_name` | as C95 |
| C97 | `Lvm_Model.v`: lvm.c:23-116, 238-272 on the database of C50/C81; `_unquote` works on memory | What the loop takes by induction over the name, each component kept by the later calls; records as an ordered set of writes |
| C98 | `Lvm_Model.v`: lvm.c:126-170, 319-390, with `util_str_get_kv` and `util_str_iterate_tokens`; the runner is a parameter | Induction over the lines; refuted for valueless lines |
| C99 | `Dm_Model.get_cookie_props`, `dm_action_current`; strtoul as in the C standard with 64 bits | the text is related to its number by an inductive definition of numerals; the base read back is the one stored |
| C100 | `Dm_Model.dm_scan_pre`, `lvm_scan_pre` over the scan of C61; `_get_sysfs_props` (332-414) and the reservations of `_dm_init` are not modelled | case analysis over old state and event with the lemmas on `set_ready`; table stated as a function of state, cookie and mark |
| C101 | `Dm_Model.dm_scan_a_exit` | induction over the sixteen variables, then the forced ones |
| C102 | `Dm_Model.submod_init`, `dm_scan_next`; submodules are records of functions | induction over the list of submodules |
| C103 | `WrkFd_Model.get_new_worker`, `destroy_proxy` over tables of descriptors; pipe, socketpair, dup2, close, fork and execve as on Linux | induction over the wires with a relation of what was made; invariant over sequences of operations |
| C104 | `WrkFd_Model.run_external` after `get_new_worker` | induction over the wires |
| C105 | `WrkFd_Model.become_daemon`; forks, session, umask not modelled | table of descriptors as a function of the number |
| C106 | iterators of `kvs.c` on both backend models, with the callers' loop (`KvsIter_*`); the trace of keys depends only on the shape of the backend; refinement to the map of C24 | proved in part: `kvs_iter_exact_partial`, `kvs_iter_count`; refuted for bounds above the hash table, for a first key that is not stored and for NULL references |
| C107 | `sid_kvs_iter_current_size` on the memory model of C25; cases over the storage forms, induction over items | proved: `kvs_iter_sizes` |
| C108 | the loop of C106 with arbitrary lists of calls as its body; overwriting keeps the shape of both backends | proved for replaced values (`kvs_iter_edits_partial`); refuted for removed and added keys |
| C109 | `UbrRoute_Model`: messages as bytes, what main process and worker do with them (`proxy_recv`, `worker_recv`), a worker with any connections and commands (`wstep`) | invariant over all histories (`messages_defined`), the reply carries the name asked for (`answer_names_asker`); refuted for messages nobody sends |
| C110 | as C109; each command is the one of `UbrCmd_Model` | projection of a history to one command (`as_if_alone_partial`), so all theorems about single commands apply; refuted for commands of the same name |
| C111 | as C109 | disconnects keep the commands (`commands_stay`); invariant over all later histories: no second stage, no end (`client_left_refuted`) |
| C112 | `Usid` | commands of the udev client over the daemon as a function of the message; end to end with `UbrUdev`; line ends, empty and unterminated answers refuted |
| C113 | `Blkid` | properties over the database of `UbrDb`; libblkid is a parameter with its buffer of 256 bytes; last value of each name by induction over the values; encoded UUID and failed encodings refuted |
| C114 | `Blkid` | table of types against types grouped by module; reservations by induction; vanished type refuted |
| C115 | `Mpath` | histories of scans as an inductive relation with arbitrary other changes between; the claim over the list of answers; unset pointer refuted |
| C116 | `Mpath` | the key of the disk and the key a partition reads compared over all histories (refuted); kernel argument over `BaseUtil`; reservation by the lemmas of `UbrPerm` |
| C117 | `DmProps` | file contents as an inductive relation (`shows`); sets of records over `UbrPerm`, aliases over `UbrDelta`; composed with the theorems of `Lvm`; rename refuted |
| C118 | `DmProps` | every function below `gsteps` keeps all keys that do not end in the names of the two lists; induction over the history |
| C45 | `WrkLife`: proxies, their timers, signals and references | induction over events and calls |
| C46, C47, C80 | `UbrKey`: compose/decompose on byte strings | round trip, injectivity |
| C48–C51, C81 | `UbrDb`, `UbrPerm`: name matching, permission decision, set and reserve paths including the C operator precedence | case analysis, induction over strings; `_refuted` where the code deviates |
| C52–C54, C82 | `UbrDelta`: merge loop on sorted lists, cross bitmaps, absolute delta, relatives | refinement to finite sets; induction over change history |
| C55, C57–C59, C70 | `UbrSync`: what a worker sends, how the main process merges it, sync index | simulation against the sets of members; order independence |
| C56, C69 | `UbrRec`: byte layout of records and messages | round trip |
| C60, C61, C63 | `UbrScan`: ready/reserved states, phases | finite tables, induction over requests and phases |
| C62 | `UbrCmd`: command state machine with main process and queues | invariant over interleavings |
| C64, C65 | `UbrMsg`: message checks, command table, env parser | case analysis, induction over env; `_refuted` for out-of-range command and empty value |
| C66 | `UbrGen` | arithmetic mod 2^16; `_refuted` |
| C67, C68 | `UbrStack` | well-founded induction on acyclic graphs; memory model of the result buffer |
| C71, C84, C85 | `Ifc`: client library; C84 joins it to `UbrMsg` | finite sweep, composition of client and daemon |
| C72, C73, C86 | `List`, `SrvLnk`: heap of nodes with next/prev pointers | separation-style invariant on circular lists; `_refuted` for merge |
| C83 | `UbrUdev` | exact text; reading back |
| C87–C89 | `Doc`: the documents commands reply with, as calls of `Fmt` | composition with C38 |

All properties listed in `properties.jsonl` are entered in `MANIFEST.json`; where a property is `partial` the note
says what is missing and, where the code does not have the property, a `_refuted` theorem shows it.

## Trusted base

* Coq 8.16.1's kernel, including its `vm_compute` conversion.
* The reading of the C code: the model is tied to `/repo` only by the citations in the `_Model.v` files; nothing here
  compiles or executes the C code.
* The behaviour of the C library and kernel calls as the models state it (each where it is used): `malloc`, `strtoull`,
  `snprintf`, `qsort`-free merges, `read`/`write`/`sendmsg`/`recvmsg`, `sd-event` dispatch.
* x86-64 Linux conventions: little endian, 8-byte pointers, 32-bit `int`, 64-bit `size_t`.

### Print Assumptions

`Print Assumptions` stands after every theorem of every `_Properties.v` file. For each of them, without exception, it
answers `Closed under the global context`: no theorem depends on an axiom, neither of the standard library nor of any
other. The development has no `Axiom`, `Parameter`, `Admitted`, functor or module type.

The checker also lists seven names of `Coq.ssr.ssrunder` (`Under_rel.*`). They are the parameters of a module type in the
standard library, loaded together with other standard library files; no theorem depends on them.

### Modelled / not modelled

"Modelled" below means that definitions of a model cite the lines of the function; each definition says in its comment
what it simplifies. Functions not named there are small wrappers without logic of their own, constructors of resources,
or logging.

| file | models | modelled | not modelled |
|---|---|---|---|
| `src/base/buf-type-linear.c` | Buf | 15 of 17 functions | `_buffer_linear_destroy`, `_buffer_linear_fd_get` |
| `src/base/buf-type-vector.c` | Buf | 9 of 17 functions | `_buffer_vector_destroy`, `_buffer_vector_fmt_add`, `_buffer_vector_mem_release`, `_buffer_vector_is_complete`, `_buffer_vector_fd_get`, `_buffer_vector_read_plain`, `_buffer_vector_read_with_size_prefix`, `_buffer_vector_read` |
| `src/base/buf.c` | Buf | 12 of 21 functions | `sid_buf_destroy`, `sid_buf_unbind`, `sid_buf_rewind`, `sid_buf_unbind_mem`, `sid_buf_rewind_mem`, `sid_buf_is_complete`, `sid_buf_get_data`, `sid_buf_get_fd`, `sid_buf_count` |
| `src/base/comms.c` | Comms, Wrk | 7 of 9 functions | `sid_comms_unix_send_iovec`, `sid_comms_unix_recv_iovec` |
| `src/base/conv-base64.c` | Base64 | 3 of 3 functions | – |
| `src/base/util.c` | BaseUtil | 5 of 5 functions | – |
| `src/daemon/sid.c` | Daemon, WrkFd | 2 of 6 functions | `_help`, `_version`, `_close_log`, `_set_log_prefix` |
| `src/iface/ifc.c` | Comms, Ifc, Usid | 9 of 11 functions | `_needs_mem_fd`, `sid_ifc_rsl_free` |
| `src/iface/srv-lnk.c` | SrvLnk | 10 of 17 functions | `sid_srv_lnk_set_flags`, `sid_srv_lnk_set_data`, `sid_srv_lnk_notif_add`, `sid_srv_lnk_notif_del`, `sid_srv_lnk_vnotify`, `sid_srv_lnk_notify`, `sid_srv_lnk_grp_vnotify` |
| `src/include/resource/res.h` | Res | 1 of 2 functions | `sid_res_ev_create_exit` |
| `src/include/resource/ucmd-mod.h` | Doc, UbrScan, UbrStack | 2 of 3 functions | `sid_ucmd_dev_alias_rename` |
| `src/internal/bmp.c` | Bmp | 7 of 9 functions | `_init_bmp`, `bmp_destroy` |
| `src/internal/bptree.c` | Bptree, Kvs | 37 of 51 functions | `_make_node`, `_destroy_node`, `_make_node_list`, `_get_node_from_list`, `_get_left_index`, `_get_neighbor_index`, `_destroy_tree_nodes`, `bptree_destroy`, `bptree_destroy_with_fn`, `bptree_iter_current`, `bptree_iter_current_key`, `bptree_iter_reset`, `bptree_iter_reset_prefix`, `bptree_iter_destroy` |
| `src/internal/fmt.c` | Fmt | 18 of 20 functions | `_print_fmt`, `fmt_fld_uint64` |
| `src/internal/hash.c` | Hash, Kvs | 15 of 21 functions | `_create_node`, `_free_nodes`, `hash_destroy`, `hash_get_key`, `hash_get_data`, `hash_get_size` |
| `src/internal/list.c` | List | 5 of 5 functions | – |
| `src/internal/mem.c` | – | – | whole file |
| `src/internal/util.c` | Tok, UbrDevId, UbrStack, UtilStr | 19 of 22 functions | `util_time_get_now_usec`, `_get_uuid_mem`, `util_uuid_get_boot_id` |
| `src/log/log-target-journal.c` | Log | 2 of 3 functions | `_log_journal_close` |
| `src/log/log-target-standard.c` | Log | 2 of 3 functions | `_log_standard_close` |
| `src/log/log-target-syslog.c` | Log | 2 of 3 functions | `_log_syslog_close` |
| `src/log/log.c` | Log, SrvLnk | 6 of 7 functions | `sid_log_output` |
| `src/modules/ucmd/block/blkid/blkid.c` | Blkid, CmnMem | 5 of 7 functions | `_blkid_reset`, `_blkid_scan_error` |
| `src/modules/ucmd/block/dm_mpath/dm_mpath.c` | Mpath | 5 of 7 functions | `_dm_mpath_reset`, `_dm_mpath_scan_error` |
| `src/modules/ucmd/block/dummy_block/dummy_block.c` | – | – | whole file |
| `src/modules/ucmd/type/dm/dm.c` | CmnMem, Dm, DmCookie, DmProps | 15 of 26 functions | `_get_dm_submod_syms`, `_dm_reset`, `_dm_scan_current`, `_dm_scan_post_current`, `_dm_scan_post_next`, `_dm_scan_remove`, `_dm_scan_remove_exit`, `_dm_scan_b_init`, `_dm_scan_action_next`, `_dm_scan_b_exit`, `_dm_scan_error` |
| `src/modules/ucmd/type/dm/lvm/lvm.c` | Dm, Lvm, RunProg | 10 of 16 functions | `_process_err_line`, `_runner_stderr_recv_fn`, `_lvm_init`, `_lvm_exit`, `_lvm_reset`, `_lvm_scan_error` |
| `src/modules/ucmd/type/dummy_type/dummy_type.c` | – | – | whole file |
| `src/resource/aggr.c` | – | – | whole file |
| `src/resource/kvs.c` | Kvs, KvsIter, KvsValue, UbrSync | 31 of 40 functions | `_set_ptr`, `_get_ptr`, `_hash_update_fn`, `_bptree_update_fn`, `_hash_unset_fn`, `_bptree_unset_fn`, `_hash_rollback_fn`, `_bptree_rollback_fn`, `_init_kv_store` |
| `src/resource/mod-reg.c` | Blkid, CmnMem, Lvm, ModReg, ModTree, Mpath, UbrDb | 14 of 23 functions | `sid_mod_reg_get_mod`, `sid_mod_reg_get_mod_syms`, `sid_mod_reg_reset_mod`, `sid_mod_get_full_name`, `sid_mod_get_name`, `sid_mod_set_data`, `sid_mod_get_data`, `_free_module_registry`, `_destroy_module_registry` |
| `src/resource/res.c` | CmnMem, Daemon, Doc, FdPass, Log, ModReg, ModTree, Res, ResEv, ResEvNew, SrvLnk, UbrCmd, UbrRoute, WrkLife, WrkSig | 52 of 64 functions | `sid_res_get_full_id`, `sid_res_get_data`, `sid_res_get_prio`, `sid_res_ev_get_counter`, `sid_res_ev_set_exit_on_failure`, `sid_res_ev_get_exit_on_failure`, `sid_res_match`, `_destroy_res_slg`, `sid_res_ev_loop_exit`, `_res_log_output`, `_dump_children_recursively_in_dot`, `sid_res_dump_all_in_dot` |
| `src/resource/sid.c` | Daemon | 2 of 2 functions | – |
| `src/resource/ubr.c` | Blkid, CmdMem, CmnMem, Comms, Daemon, DmCookie, DmProps, Doc, FdPass, KvsIter, Lvm, ModName, Mpath, Sidctl, UbrCmd, UbrDb, UbrDelta, UbrDevId, UbrExec, UbrGen, UbrImport, UbrKey, UbrMain, UbrMsg, UbrRec, UbrRoute, UbrScan, UbrStack, UbrSync | 140 of 183 functions | `sid_ucmd_ev_get_dev_action`, `sid_ucmd_ev_get_dev_major`, `sid_ucmd_ev_get_dev_minor`, `sid_ucmd_ev_get_dev_path`, `sid_ucmd_ev_get_dev_name`, `sid_ucmd_ev_get_dev_type`, `sid_ucmd_ev_get_dev_partn`, `sid_ucmd_ev_get_dev_seqnum`, `sid_ucmd_ev_get_dev_diskseq`, `sid_ucmd_ev_get_dev_synth_uuid`, `_destroy_key`, `_buffer_get_vvalue_str`, `_write_kv_store_stats`, `_check_kv_index_needed`, `_owner_name`, `_destroy_delta_buffers`, `_init_delta_buffers`, `_vvalue_str_cmp`, `_value_vector_mark_sync`, `_cmd_get_key_spec_value`, `sid_ucmd_dev_ready_to_str`, `sid_ucmd_dev_reserved_to_str`, `sid_ucmd_dev_stack_get`, `_canonicalize_kv_key`, `_on_cmd_tim_out_event`, `_destroy_tim_out_es`, `_update_dev_deps_from_sysfs`, `_dev_matches_udev`, `_cmd_exec_scan_a_init`, `_cmd_exec_scan_a_pre`, `_cmd_exec_scan_a_post_next`, `_cmd_exec_scan_remove_init`, `_cmd_exec_scan_remove_exit`, `_cmd_exec_scan_b_init`, `_cmd_exec_scan_b_action_current`, `_cmd_exec_scan_b_action_next`, `_worker_recv_system_cmd_umonitor`, `_worker_recv_system_cmd_sync`, `sid_ubr_cmd_dbdump`, `_on_ubridge_time_event`, `_destroy_ulink`, `_set_up_ulink`, `_destroy_ubridge` |
| `src/resource/wrk-ctl.c` | Daemon, FdPass, RunProg, UbrMain, UbrRoute, Wrk, WrkFd, WrkLife, WrkSig | 32 of 42 functions | `_change_worker_proxy_state`, `_on_worker_channel_event`, `sid_wrk_ctl_get_new_worker`, `sid_wrk_ctl_get_worker_id`, `sid_wrk_ctl_get_worker_arg`, `sid_wrk_ctl_chan_close`, `_on_worker_proxy_idle_timeout_event`, `_destroy_worker`, `_init_worker_control`, `_destroy_worker_control` |
| `src/tools/sidctl/sidctl.c` | Sidctl | 5 of 6 functions | `_version` |
| `src/tools/usid/usid.c` | Usid | 8 of 11 functions | `_init_usid`, `_help`, `_version` |


General limits of the models:

* Memory is taken to suffice unless a model takes the answers of the allocator as an argument (buffers, channels, hash
  tables and values of the store do).
* Threads do not occur in the code; processes are modelled where they exchange data (workers and main process), each
  step of a process being one event of its event loop.
* Modules loaded with `dlopen` appear as arbitrary callers of the module API.

## Findings

Disagreements between the code and the stated properties. Each line names the theorem that shows it; the comment beside
the theorem cites the lines. Lines without a theorem were seen while reading and are recorded in model comments.

**Bitmap, base64, hash table, B+ tree**

* More than 2^37 bits: the block number is truncated and another bit changes (`bmp_history_beyond_2_37_refuted`).
* The encoding of no bytes does not decode (`base64_roundtrip_empty_refuted`).
* `hash_add` on a present key replaces the data but keeps the old length (`hash_data_len_together_refuted`); a size hint above 2^31
  never returns (`hash_create_hangs`).
* Range iteration from a key that is not stored gives smaller keys (`bptree_range_iter_refuted`).
* Deleting an alias that is not the least name of its record removes the wrong slot of the leaf (`bptree_alias_delete_refuted`); the
  broker does this when it removes an index key `>:K` stored in the same leaf as `:K`. An iterator starts again after its end.

**Buffers**

* Releasing memory that lies in the size prefix (`buf_prefix_pointer_refuted`); a failed `reset_init` leaves a limit below the
  allocation (`buf_limit_refuted`); a step of 0 and sums beyond 2^64 (`buf_zero_step_refuted`, `buf_huge_add_refuted`).
* Reading from below an earlier hand-out loses the protection (`buf_mark_refuted`, `buf_unbind_empty_refuted`).
* With room for more than one message a read takes bytes of the next one (`buf_read_overrun_refuted`); a prefix of 0 is reported late
  (`buf_read_zero_prefix_refuted`).
* `ENODATA` on write counts as success (`buf_write_enodata_refuted`); a vector of only empty items is written for ever
  (`buf_vec_write_all_hang_refuted`); items without data and `get_data_from` in vectors (`buf_vec_null_add_refuted`,
  `buf_vec_null_prefix_refuted`, `buf_vec_get_from_refuted`). The vector's `is_complete` stores through a NULL `ret_code`.

**Key-value store**

* Commit: a key unset and then set again in one transaction is lost (`kvs_commit_refuted`); a double unset with archive archives freed
  memory (`kvs_commit_archive_refuted`).
* Rollback: the first of two sets stays (`kvs_rollback_refuted`); the archive copy of an unset stays (`kvs_rollback_archive_refuted`);
  two archiving sets are undefined behaviour (`kvs_rollback_twice_refuted`).
* Releases: `kvs_unset_code_leak_refuted`, `kvs_open_leak_refuted`, `kvs_alias_leak_refuted`, `kvs_alias_archive_refuted` (double
  free), `kvs_alias_rollback_refuted` and `kvs_archive_dangling_refuted` (dangling). An empty vector merged by reference is read out
  of bounds on release (`kvs_value_empty_vector_refuted`). A set whose archive key is the key itself undoes the set.

**Strings and numbers**

* The reverse search misses position 0 (`rstr_last_refuted`); `KEY=` reads past the NUL (`kv_reads_outside_refuted`); offset and length
  wrap (`copy_substr_wraps_refuted`); the combined search is not containment (`combstr_contains_refuted`); a copied vector has no final
  NULL (`strv_copy_unterminated_refuted`).
* Numbers from the environment: empty text, a minus sign, min = max (`env_number_refuted`). Kernel arguments: names containing `=` and
  the value's leading `=` (`kernel_arg_refuted`).

**Keys, permissions, reservations**

* Alias names containing `:` collide (`alias_records_distinct_refuted`); a foreign device is ignored or leaves out the module
  (`foreign_device_refuted`); the record of a partition's disk is looked up by number instead of id (`disk_record_refuted`).
* Modules of different registries count as sub-modules of each other (`module_relation_refuted`); a denied set dereferences NULL, or
  returns 0 when there is no value (`denied_set_refuted`); the answer of the global reservation check is dropped
  (`reservation_ignored_refuted`); a reservation with alignment overflows the header (`reserve_aligned_refuted`).

**Groups, aliases, stack**

* Renaming an alias to itself empties it (`alias_rename_to_itself_refuted`); outside the module namespace create/destroy and add/remove
  act on different records (`group_outside_module_refuted`); a static flags variable loses the sync flag after the first destroy.
* A plain id of 36 characters is not terminated (`stack_plain_id_refuted`); a cycle never ends (`stack_cycle_refuted`); an alias with
  several members overruns the 37 byte buffer (`alias_second_member_refuted`); an empty one leaves it uninitialised
  (`alias_empty_refuted`).

**Synchronisation of workers with the main process**

* Undefined behaviour in the main process: a change after a plain record, after an emptied list, two groups destroyed in one message, a
  refused change (`change_after_plain_record_refuted`, `change_after_emptied_list_refuted`, `destroyed_groups_refuted`,
  `refused_change_refuted`); a value set after a list was emptied is lost (`value_after_emptied_list_lost_refuted`).
* Removed records are not remembered, so an older value comes back (`older_value_after_removal_refuted`).
* Reservations of workers never reach the main store and erase it (`reservation_lost_refuted`, `reservation_removes_own_refuted`,
  `unreserve_not_sent_refuted`); groups marked for synchronisation and repeated reservations are not indexed
  (`synchronised_group_not_sent_refuted`, `repeated_reservation_not_indexed_refuted`).
* A message above 64 MiB is written but refused by its reader (`message_too_big_refuted`).

**Commands and scans**

* A `udev` event releases the response before the merge (`response_before_merge_refuted`); a failed merge is acknowledged
  (`failed_merge_refuted`); a finished command fails at a later message (`finished_then_failed_refuted`). A failed command sends no
  response; a failed export drops the sync index.
* A command that has not read the device's state resets it (`ready_reset_refuted`, `reserved_reset_refuted`); a state change by a module
  outside the registry dereferences NULL (`ready_of_other_module_refuted`); a failing exit phase after an error is not reported
  (`scan_exit_failure_refuted`).

**Requests, environment, client library**

* Any client crashes the daemon with a command number above 10 (`command_entry_refuted`) or a message shorter than a header
  (`short_message_refuted`); a refusal is never sent (`refusal_sent_refuted`).
* An empty value or a string without `=` silently drops the rest of the environment (`environment_imported_refuted`); a missing NUL
  over-reads (`environment_end_refuted`); a device path without directory makes a pointer beyond NULL (`device_path_refuted`).
* Minor numbers from 4096 on are refused because the two bounds are exchanged (`scan_imported_refuted`); no checkpoint environment is
  ever imported (`checkpoint_imported_refuted`); a dump file shorter than its prefix is read beyond its end (`dump_parts_refuted`); names
  of unknown commands are read out of bounds (`command_name_refuted`).
* A value with a line end injects another udev property into the output of usid, which udev imports (`output_tells_properties_refuted`).

**Generation number**: wraps to 0 after 65535 (`generation_wraps_refuted`); a file too big or cut off restarts at 1
(`generation_big_refuted`, `generation_cut_refuted`).

**Documents**: texts are not escaped (`json_string_refuted`), boolean fields are malformed (`json_bool_refuted`), lists with non-text
items lack or gain commas (`dump_lists_refuted`), a leading state breaks the device list (`devices_json_refuted`).

**Resources and event sources**

* Setting the priority of a top resource is ignored (`top_priority_ignored_refuted`); a failed creation leaves children dangling
  (`failed_create_dangles_refuted`); taking and dropping a reference to a parentless resource destroys it
  (`borrowed_top_destroyed_refuted`); searches for a given relative or sibling always fail (`search_res_genus_sibling_refuted`); the search
  in width ignores restrictions (`wide_search_ignores_restriction_refuted`); reading a missing id (`id_missing_refuted`); cycles
  (`add_child_cycle_refuted`); iterating back (`iteration_back_refuted`).
* Child process sources test the handler's result the wrong way round (`child_fires_beyond_limit_refuted`,
  `child_failure_keeps_limit_refuted`); the count wraps (`count_wraps_refuted`). Unnamed sources leave their name uninitialised.

**Lists, service links**: deleting or adding twice corrupts other lists (`delete_twice_refuted`, `add_twice_refuted`); merging a group that
has members is undefined behaviour (`group_merge_refuted`); a `va_list` is used by several members (`group_notified_refuted`).

**Workers**

* Messages that arrive together are never delivered when the lane has room for several (`channel_joined_messages_refuted`,
  `channel_descriptor_swallowed_refuted`); memory refused in mid-message lets data be taken for commands
  (`channel_data_taken_for_command_refuted`); a sender that ends before the descriptor (`channel_descriptor_missing_refuted`); short or
  unknown messages (`channel_hostile_message_refuted`); sending against a pipe (`channel_wrong_direction_refuted`).
* Work is accepted for exiting and exited workers (`worker_assigned_while_exiting_refuted`, `worker_assigned_after_exit_refuted`); no
  worker is ever idle (`worker_idle_never_refuted`); yielding without a parent signals per channel
  (`worker_yields_without_parent_refuted`).
* The module of a partition with an extended number (major 259) is never found: `_owner_name_from_blkext` (ubr.c:4295) returns the module
  of the disk only if it *is* blkext (`partition_takes_driver_of_disk_refuted`); if the disk has an extended number as well (any driver
  but NVMe), the functions call each other without end (`partition_look_up_ends_refuted`).
* Registries of modules: loading a directory loads again what is loaded (`directory_loaded_once_refuted`); a name with a slash is loaded at
  each call, since only the last part is kept (`module_loaded_once_refuted`); an alias hides the module of that name
  (`alias_unique_refuted`); the suffix of files is compared ignoring case, but the file opened has the configured suffix
  (`listed_file_opened_refuted`); an init symbol that holds NULL is called (`init_function_checked_refuted`).
* Nested registries: attaching a registry does not rename the registries below its modules nor set their top
  (`full_names_refuted`, `dependence_refuted`); a failed attach does not give modules their names back if the new name begins with the old
  base name (`failed_attach_reverted_refuted`); a registry can be attached to its own module (`attach_below_itself_refuted`).
* Phases of a scan: the iterator over block modules, with its reference on the registry, is left behind when the type module fails in
  the first phase of a stage (`iterator_left_behind_refuted`); a device whose scan failed becomes public, and the stage reports success
  (`failed_scan_becomes_public_refuted`); a failing block module silently ends the phase for the block modules after it (`phase_executes`).
* Ids of devices: the core never takes back the alias of a device number, so a device that gets the number of a removed one gets its id and
  its module, and is known neither by its sequence number nor by its name (`reused_number_refuted`); the stored id and the id udev has are
  not compared (`different_ids_refuted`, `_dev_matches_udev` is a TODO); an id from udev is not checked, and one with more than 36
  characters makes every later scan of the device fail (`long_udev_id_refuted`).
* LVM module: a line of the output of `pvscan` with a key and no value makes `util_str_get_kv` read on the stack behind the line
  (`lvm_output_valueless_refuted`).  The result of that function is stored as a comparison (lvm.c:144, parenthesis in the wrong place), so a
  line that is no pair gives 1; because only negative values stop the iteration this has no effect (`lvm_output_stored`).
* Device-mapper module: an event whose cookie disables other rules makes a volume in the state UNINITIALIZED public, as `_dm_scan_pre` skips
  the state (a TODO there) and `_lvm_scan_pre` sets PUBLIC when the subsystem flag is gone (`dm_private_by_cookie_refuted`).  A device in the
  state REMOVED never leaves it (a TODO too).  On an event without a cookie (e.g. a synthetic one) none of the variables for udev rules is
  touched even if the device is private (`dm_variables_without_cookie_refuted`).  A cookie may be written with a minus sign:
  -18446744073709551615 counts as 1 (`dm_text_cases`).  A device that no submodule claims at its first event is never given to one later
  (`dm_submodule_found_later_refuted`); for the next device the last submodule that matches wins, for the current one the first
  (`dm_submodule_next`, `dm_submodule_chosen`).
* Descriptors: an external worker closes all descriptors but its channels, so a program such as `pvscan` is run with standard input closed
  (`program_standard_streams_refuted`); a channel whose descriptor already has the number to redirect to is closed, because `dup2` does
  nothing and `close` follows (`program_same_number_refuted`, reachable when the process runs without standard input and output:
  `fd_no_output_case`); a failed redirection of a socket is only logged (`program_socket_refuted`).  `_become_daemon` closes `/dev/null`
  again if it was given one of the numbers 0 to 2 (`daemon_descriptors_refuted`).
* Iterators of the key-value store: prefixes and ranges are ignored above the hash table (`kvs_iter_bounds_refuted`; the daemon uses the B+
  tree); with a first key that is not stored the iteration starts at the beginning of its leaf, so with smaller keys
  (`kvs_iter_first_refuted`); a value that is a reference to NULL is returned like the end of the iteration and hides all later keys from
  the callers' loops (`kvs_iter_null_refuted`); unsetting the current key makes `sid_kvs_iter_next` read the freed node (hash) or skip a key
  (B+ tree), adding a key may show a key twice (`kvs_iter_unset_refuted`, `kvs_iter_add_refuted`); `sid_kvs_iter_current` has no way to tell.
* Several commands in a worker: commands are found by name (`c-scan`, `c-resource`, ...) and names are not unique, so with two scans on one
  connection (or two connections of a worker) the acknowledgement for the second resumes the first, which runs its second stage without a
  uevent, and the second waits for ever (`same_name_refuted`).  A client that leaves before the response makes a scan fail instead of going
  on without it (`client_left_refuted`).  Descriptors that come with unexpected messages are neither closed nor kept
  (`unexpected_descriptor_refuted`, ubr.c:6800-6830 and 6936-7011); the name in a message is not checked for its end
  (`unterminated_name_refuted`).  Seen while reading, not modelled further: `_connection_cleanup` (4419-4422) returns 1 on success and 0 on
  failure while its callers test `< 0`; `_cmd_exec_resources` (4640-4643) forgets the mapping of the main tree without `munmap`; a failure of
  the main process to write its tree leaves the resources command waiting without a timeout; `sid_ubr_cmd_dbdump` (7096-7128) copies the path
  without a check of its length.
* `usid checkpoint` reports `SID_STATUS=incompatible`, and exits with success, for a daemon that handled the command: the status needs data in the answer, and the daemon answers a checkpoint without any (`checkpoint_is_active_refuted`). A scan without properties to send is reported the same way (`answer_is_active_refuted`).
* `usid scan` reads past the answer when its last string has no terminating NUL (`answer_in_bounds_refuted`).
* blkid stores `ID_FS_UUID_ENC` with its arguments in the wrong places: `SID_KV_FL_RD` becomes the size 224 and the flags stay 0. No other module can read the variable (`uuid_readable_refuted`), 224 bytes with memory never set are stored (`uuid_text_refuted`), and an encoding of 224 bytes or more has no end (`uuid_end_refuted`).
* blkid makes the UUID and UUID_SUB safe and then stores the unchanged value; `values_stored` has them as `Plain`, unlike LABEL.
* The result of `blkid_encode_string` is not looked at: an encoding that does not fit the buffer of 256 bytes is read past it (`encoding_failure_refuted`).
* `SID_NEXT_MOD` is a persistent record and never unset: a wiped or reformatted device keeps the next module of its earlier type (`next_module_gone_refuted`).
* dm_mpath never claims a partition: the scan of a disk stores `VALID` in the namespace of the module under the unique id of the disk, the scan of a partition reads the namespace of devices under the number of the disk (`partition_refuted`, dm_mpath.c:79 and 151-156, ubr.c:4771-4782).
* dm_mpath reads and frees the pointer to the identifier even when the library failed before setting it; it is not initialised (`pointer_unset_refuted`, dm_mpath.c:99, 157-165).
* The kernel argument `nompath=...` turns dm_mpath off whatever its value: the value is only asked for when the argument is missing (`kernel_argument`, dm_mpath.c:59-62). In the same function the value that `sid_util_kernel_get_arg` gives would start with `=` and never equal `off`.
* A renamed device-mapper device keeps the alias of its old name: the module only adds aliases (`dm_renamed_device_refuted`, dm.c:353-361).
* `sidctl version` ends with success when the daemon cannot be reached or answers with failure: the result of the request is dropped (`sidctl_version_failure_refuted`, sidctl.c:79-90).
* `sidctl version -f json` prints a member without a value when the daemon answers with success and no data (`sidctl_version_json_refuted`).
* `sidctl` prints the data of an answer with `%s` and does not look at their size: data without a NUL are read beyond their end (`sidctl_in_bounds_refuted`, sidctl.c:44-45).
* `sid_res_ev_create_time` with a relative time returns 1 and creates nothing when the clock cannot be read, since the comparison is inside the assignment (`(r = sd_event_now(...) < 0)`, res.c:785); the callers test for negative results only and go on without their timer (`time_created_refuted`). `sid_res_ev_rearm_time` has the same for absolute times (res.c:828, `timer_failure_refuted`).
* The signalfd of an event loop is closed with the resource only: once a source for signals was created, or its creation failed after the signalfd was made, every later creation in the loop is refused with `EADDRINUSE`, also after the source is destroyed (`signal_again_refuted`, res.c:645-668).
* The name of an event source created without a name is never set, but is printed when it is destroyed (`unnamed_source_refuted`, res.c:153-154 and 177). No caller in the repository leaves out the name.
* `_on_ubridge_umonitor_event` returns -1 for a uevent without `SID_SESSION_ID`, with the id of a worker that has ended (workers end after each command), or that cannot be sent. The source of the udev monitor does not have `exit_on_failure`, so sd-event turns it off: from then on no uevent reaches any worker and every scan ends by its timeout only (`uevents_after_bad_one_refuted`, ubr.c:7184-7220).
* In the same way one failure of `accept4`, of making a worker or of sending to it turns the listening socket off: clients can still connect but nobody answers (`clients_after_failure_refuted`, ubr.c:7070-7093). The worker made for a client who cannot be accepted stays (`clients_no_spare_worker_refuted`).
* The import of the udev database at the start adds the id udev has to the device number even when the saved database has the number with another id: the number then has two devices, and the next scan of it writes beyond the 37 bytes for the id (`import_number_taken_refuted`, ubr.c:7347-7432 with 5227-5290).
* The import also sets the states of every known device back to "not processed", whatever the saved database says (`import_records_devices`, ubr.c:4787-4802 with 7412-7413).
* `_log_syslog_output` prints every prefix to the start of the buffer (`snprintf(msg, ...)`) but counts on, so that with two or more prefixes the text is written behind the NUL of the last prefix: syslog gets the last prefix only. All messages of resources have two or more (`res-imp` or `res-int` and the id), and syslog is the target of the daemon, so the texts of all of them are lost (`syslog_text_refuted`, `syslog_process_refuted`, log-target-syslog.c:48-67).
* Error numbers are printed by the standard target only; syslog and the journal never show them (`errno_refuted`).
* After `sid_log_close` the target stays in force: messages still go to it, and a new `sid_log_init` is ignored (`log_reinit_refuted`, log.c:20-48).
* A command to dump the database to a file (`s-dbdump` with a path) that cannot register its handler or be scheduled frees the path twice: `exp_path` shares its place with `dev.uid_s`, and the failure path of `_init_command` frees both (`export_path_refuted`, ubr.c:263-272 with 6343-6361).
* The response buffer of a scan is destroyed with the response of the first stage. A udev property written in the second stage is then added through a NULL buffer (`second_stage_udev_refuted`, ubr.c:1432 with 5891-5892).
* A scan that ends between its stages (the connection is closed, or its timer fires) leaves its module iterator; so does the scan of a removed device, whose exit phase does not destroy it (`one_stage_scan_refuted`, ubr.c:5372 with 5525-5534 and 6370-6400). One that ends while its export is not acknowledged leaves the unset buffer (`waiting_scan_refuted`). Every finished resources command leaves the mapping of the main process's answer, because the pointer is cleared without `munmap` (`resources_mapping_refuted`, ubr.c:4641-4644).
* `_device_add_field` does not free the name of a property that cannot be set (`field_name_lost`, ubr.c:4113-4121).
* `_init_common` frees the shared structure before `sid_res_create` destroys the children made so far. If the directory of type modules cannot be read (`scandir` fails with anything but `ENOENT`), the exit functions of block modules with keys are called with the freed structure (`type_directory_refuted`, ubr.c:7618-7634 with res.c:328-330).
* A module whose init function fails after some keys leaves them reserved for its name (`failed_keys_refuted`). The dm module fails in this way whenever its own module directory is missing or has no modules (`no_submodules_refuted`, dm.c:486-496).
* `_set_up_ubridge_socket` takes negative results of `sd_listen_fds` and `sd_is_socket_unix` as yes. With `LISTEN_FDS=1` and no descriptor 3, or with a value that cannot be read, and `SERVICE_ACTIVATION_TYPE=FD_PRELOAD`, the daemon goes on with descriptor 3 although it is not open (`activation_error_refuted`, ubr.c:7242-7259).
* `_do_comms_unix_send` assigns the result of a comparison: `r = sendmsg(...) < 0`. A successful call always returns 0, so callers cannot see a partial send (`sent_count_refuted`, comms.c:120).
* The control buffer of `_do_comms_unix_recv` has room for two descriptors because of alignment, but only a header with exactly one is accepted. When a peer sends two, both become descriptors of the process and are never closed (`two_descriptors_refuted`, comms.c:143-162).
* If the top resource cannot be made, `r` in `main` is still the 0 of `pthread_atfork`: the daemon has served nothing and exits with success (`no_top_resource_refuted`, sid.c:193-225 with 244). An empty `VERBOSE` is read as 0 and takes back every `-v`.
* `_become_daemon` tests `!setsid()`, but failure is -1: the daemon goes on in the session of its parent (`new_session_refuted`, sid.c:67-70).
* `_do_worker_control_get_new_worker` blocks all signals before `fork` and restores the mask in the parent only. The program of an external worker is executed with all signals blocked: the SIGTERM asked for with `PR_SET_PDEATHSIG` stays pending when the parent ends, and a timeout signal other than SIGKILL has no effect (`program_outlives_refuted`, `program_timeout`, wrk-ctl.c:815 with 826-904 and 1041).
* If `execve` (or a redirection, or the callback) fails in `_run_external_worker`, the function returns in the forked child, and so does `sid_wrk_ctl_run_new_worker`: with no lvm program installed, every scan of a physical volume goes on in two processes, the second with its descriptors closed (`program_missing_refuted`, `two_processes_refuted`, wrk-ctl.c:1041-1056 with 1105-1113). In the child `channel_specs` is NULL and the count is kept, so that its next program reads through NULL (`next_program_refuted`, wrk-ctl.c:1030-1031 with 198-202).
* The semaphore of a device-mapper cookie is lowered in `_dm_scan_action_current` only. If the scan fails before (a file `dm/uuid`, `dm/name` or `dm/suspended` of the device cannot be read or is empty, or the first or last phase of a stage fails), neither the error phase nor anything else lowers it, and the process that waits for the cookie is left waiting (`dm_cookie_left_refuted`, dm.c:498-579 with 1037-1050 and 1067-1072).
* The handlers of internal messages close a descriptor only if they take one. The descriptor of any other message (an acknowledgement, an uevent, a message that is too short or unknown) stays open, and so does that of a client when `sid_res_create` fails before `_init_connection`, which closes it on all its own failures (`passed_stray_refuted`, ubr.c:6738-7011 with res.c:258-285).


| C119 | `Sidctl` | replies as header and body (`Ifc_Spec`), the request derived from `request_lemma`; case analysis on the status and the data |
| C120 | `Sidctl` | the text of the head and of the reply as JSON grammar (`jms`, `value_lemma`); induction over the options |
| C121 | `ResEvNew` | invariant over histories of calls with arbitrary results of the library; the loop of a resource as an inductive relation |
| C122 | `ResEvNew` with the counters of `ResEv` | arithmetic on the counters and times |
| C123 | `UbrMain` with the event sources of `ResEv` | invariant over histories: the source is on, or off for good |
| C124 | `UbrMain` with the event sources of `ResEv` | the same, with the invariant that no worker is idle |
| C125 | `UbrImport` on `UbrDelta` and `UbrDevId` | induction over the devices; each alias keeps the lists in order, matching and without deltas |
| C126 | `Log` | loop invariants over the prefixes: what is printed, what remains; the buffer of a line as bytes, writes beyond it as UB |
| C127 | `Log` | invariants over histories of the interface; the target in force, the prefix and the handle are folds over the calls |
| C128 | `CmdMem` on `UbrCmd` | invariant over all histories: which words of the command point to live memory in which state; freeing and use of freed memory as UB |
| C129 | `CmnMem` | mutual induction over the trees of modules: what loading adds to memory and what destruction takes away, with and without the structure; use of freed memory as UB |
| C130 | `Comms` | case analysis over the answers of the kernel with the table of descriptors as state; the address as bytes, writes beyond it as UB |
| C131 | `Comms` | induction over the descriptors sent; the stream as parts with open files, ancillary data with its length |
| C132 | `Daemon` | case analysis over the answers of the system, induction over options and signals; what happens as a list of events with the exit status |
| C133 | `WrkSig` | invariant over all interleavings of the steps of the worker, the death of the parent and signals; blocked and pending signals as state |
| C134 | `RunProg` | induction over the programs run; processes as histories, what becomes of caller and child of each call |
| C135 | `DmCookie` | frames for the records of the cookie through all functions of the module; induction over the phases of both stages |
| C136 | `FdPass` | invariant over all messages and ends of connections; open descriptors up to permutation, numbers picked by an arbitrary kernel |
