{
 "claims": [
  {
   "property": "C01",
   "status": "proved",
   "theorems": [
    "C01_dict_is_a_map"
   ],
   "note": "any hash function, any operation list (incl. iteration with deletion and random draws); table allocation beyond 2^48 bytes excluded by the bound 2^44 on operations"
  },
  {
   "property": "C02",
   "status": "proved",
   "theorems": [
    "C02_size",
    "C01_dict_is_a_map"
   ],
   "note": ""
  },
  {
   "property": "C03",
   "status": "proved",
   "theorems": [
    "C03_iteration",
    "C03_no_move_while_iterating"
   ],
   "note": ""
  },
  {
   "property": "C04",
   "status": "proved",
   "theorems": [
    "C04_random_sound",
    "C04_random_no_panic",
    "C04_random_complete"
   ],
   "note": "termination of the draw loop is probabilistic and not claimed"
  },
  {
   "property": "C05",
   "status": "proved",
   "theorems": [
    "C05_GetNextPower",
    "C05_GetNextPower_huge",
    "C05_tables"
   ],
   "note": ""
  },
  {
   "property": "C06",
   "status": "proved",
   "theorems": [
    "C06_progress",
    "C06_terminates",
    "C03_no_move_while_iterating"
   ],
   "note": ""
  },
  {
   "property": "C07",
   "status": "proved",
   "theorems": [
    "C07_set_algebra",
    "C07_set_algebra_same_object",
    "C07_basic_operations"
   ],
   "note": ""
  },
  {
   "property": "C08",
   "status": "proved",
   "theorems": [
    "C08_deque"
   ],
   "note": "from any reachable quicklist, any operation sequence"
  },
  {
   "property": "C09",
   "status": "partial",
   "theorems": [
    "C09_positional_partial",
    "C09_positional_elsewhere",
    "C09_PopBack_panics",
    "C09_refuted"
   ],
   "note": "the property is false of the code (shadowed pageIndex in get): C09_refuted gives reachable counterexamples; C09_positional_partial proves it under the exact condition good_op, C09_positional_elsewhere shows every other access panics or hits a later position"
  },
  {
   "property": "C10",
   "status": "proved",
   "theorems": [
    "C10_pages"
   ],
   "note": ""
  },
  {
   "property": "C11",
   "status": "partial",
   "theorems": [
    "C11_iteration",
    "C11_walk",
    "C11_range_partial",
    "C11_range_huge",
    "C11_range_elsewhere",
    "C11_find",
    "C11_range_refuted"
   ],
   "note": "full for iteration (forwards, and moving back and forth) and Find; Range is as stated for ranges of at most 2^44 positions (also for a start inside the first page), beyond that make() panics (C11_range_refuted)"
  },
  {
   "property": "C12",
   "status": "proved",
   "theorems": [
    "C12_order",
    "C12_no_panic",
    "C12_levels",
    "C12_level_overflow"
   ],
   "note": "any sequence of levels in 1..32; 127 successive successful draws overflow the int8 level counter and panic (C12_level_overflow)"
  },
  {
   "property": "C13",
   "status": "partial",
   "theorems": [
    "C13_GetElementByRank",
    "C13_GetRank",
    "C13_RangeByRank_partial",
    "C13_refuted",
    "C13_GetRank_refuted"
   ],
   "note": "GetElementByRank in full; GetRank when the member occurs once; RangeByRank for ranges below 2^45 and, reversed, for start<=Length; counterexamples for the rest"
  },
  {
   "property": "C14",
   "status": "partial",
   "theorems": [
    "C14_scores_partial",
    "C14_nan_refuted"
   ],
   "note": "all queries for non-NaN bounds; NaN bounds are answered wrongly (C14_nan_refuted)"
  },
  {
   "property": "C15",
   "status": "partial",
   "theorems": [
    "C15_delete_by_score_partial",
    "C15_nan_refuted"
   ],
   "note": "full for non-NaN min; with min=NaN everything up to max is deleted (C15_nan_refuted)"
  },
  {
   "property": "C16",
   "status": "partial",
   "theorems": [
    "C16_delete_by_rank_partial",
    "C16_exact",
    "C16_refuted",
    "C16_broken_refuted"
   ],
   "note": "false of the code: the rank is reset on each level (C16_refuted), and the list is damaged (C16_broken_refuted: an element that was removed is found by its rank); right if and only if every element before the start has a single level (C16_exact)"
  },
  {
   "property": "C17",
   "status": "partial",
   "theorems": [
    "C17_refines_partial",
    "C17_order_unique",
    "C17_updates",
    "C17_refuted",
    "C17_update_refuted",
    "C17_position_refuted"
   ],
   "note": "full operation set as a refinement of a member->score map when no score is updated; false with updates (C17_refuted); C17_updates says exactly what a history of Adds leaves behind"
  },
  {
   "property": "C18",
   "status": "partial",
   "theorems": [
    "C18_commands_partial",
    "C18_huge",
    "C17_refines_partial",
    "C18_nil_element_refuted",
    "C18_nan_refuted",
    "C18_huge_rank_refuted"
   ],
   "note": "false of the code (nil element after update+delete, NaN scores, huge ranks). C18_commands_partial holds in every reachable state and for all arguments: ZREM, ZREMRANGEBY*, ZCARD, ZSCORE, ZCOUNT never panic; ZADD only if 127 successive draws raise a level; ZRANGE and ZRANGEBYSCORE only on a sorted set whose list leads to an element its dictionary does not have, or ZRANGE with a stop of at least 2^45. C18_huge: every ZRANGE of more than 2^45 ranks panics. No panic for allowed operations of the data structure by C17_refines_partial"
  },
  {
   "property": "C19",
   "status": "proved",
   "theorems": [
    "C19_roundtrip"
   ],
   "note": "for every executor; requests of at most 4096 bytes (one read)"
  },
  {
   "property": "C20",
   "status": "partial",
   "theorems": [
    "C20_partial",
    "C20_torn",
    "C20_incremental",
    "C20_refuted",
    "C20_panic_refuted"
   ],
   "note": "false of the code: a read ending between a payload and the end of its CRLF closes the connection or panics (C20_refuted, C20_panic_refuted); proved for every other split, and C20_torn shows that the excluded splits always fail"
  },
  {
   "property": "C21",
   "status": "partial",
   "theorems": [
    "C21_partial",
    "C21_dropped",
    "C21_refuted"
   ],
   "note": "false of the code: whatever follows the first command in a read is dropped (C21_dropped, C21_refuted); commands that do not share a read are all executed in order (C21_partial)"
  },
  {
   "property": "C22",
   "status": "partial",
   "theorems": [
    "C22_partial",
    "C22_refuted"
   ],
   "note": "false of the code: six short crashing requests (C22_refuted); C22_partial: nothing else than absurd numbers, a leading CRLF or a full query buffer can crash the parser"
  },
  {
   "property": "C23",
   "status": "partial",
   "theorems": [
    "C23_first_byte_lost",
    "C23_refuted"
   ],
   "note": "false of the code: the first byte of the line is lost (C23_refuted); C23_first_byte_lost says exactly what is executed"
  },
  {
   "property": "C24",
   "status": "partial",
   "theorems": [
    "C24_one_reply_partial",
    "C24_refuted"
   ],
   "note": "one value for every command whose argument quoted in an error reply contains no CR/LF; false in general: raw arguments are echoed into error lines (C24_refuted)"
  },
  {
   "property": "C26",
   "status": "proved",
   "theorems": [
    "C26_auth_state",
    "C26_denied",
    "C26_reveals_nothing"
   ],
   "note": ""
  },
  {
   "property": "C27",
   "status": "partial",
   "theorems": [
    "C27_malformed",
    "C27_errors_partial",
    "C27_select",
    "C27_wrong_type",
    "C27_bad_number_partial",
    "C27_zadd_refuted",
    "C27_lindex_refuted"
   ],
   "note": "full for unknown commands, arity, wrong types and every error reply except those of ZADD; ZADD with a bad score creates a key or stores earlier pairs (C27_zadd_refuted); LINDEX/LRANGE do not report a bad number for a missing key (C27_lindex_refuted)"
  },
  {
   "property": "C28",
   "status": "proved",
   "theorems": [
    "C28_isolation",
    "C28_select",
    "C28_current"
   ],
   "note": "C28_current: the database of a connection is the one of its own latest accepted SELECT, read off the history. For every step that does not crash the server (SELECT with a negative index panics)"
  },
  {
   "property": "C29",
   "status": "proved",
   "theorems": [
    "C29_reads",
    "C29_purged"
   ],
   "note": ""
  },
  {
   "property": "C30",
   "status": "partial",
   "theorems": [
    "C30_set",
    "C30_get",
    "C30_setex_partial",
    "C30_deadline",
    "C30_roundtrip",
    "C30_setex_refuted"
   ],
   "note": "full except for SETEX with a number of seconds whose deadline overflows int64: the key is gone at once (C30_setex_refuted)"
  },
  {
   "property": "C31",
   "status": "proved",
   "theorems": [
    "C31_hash",
    "C31_set",
    "C31_list"
   ],
   "note": "for keys that are live or missing (expired keys: C34); lists as sequences of their elements"
  },
  {
   "property": "C32",
   "status": "partial",
   "theorems": [
    "C32_sdiff",
    "C32_sinter",
    "C32_sunion_partial",
    "C32_sunion_refuted"
   ],
   "note": "SDIFF and SINTER in full; SUNION only when the first key exists, otherwise it replies with an empty array (C32_sunion_refuted)"
  },
  {
   "property": "C33",
   "status": "partial",
   "theorems": [
    "C33_reads",
    "C33_keys",
    "C33_randomget",
    "C33_ttl_refuted"
   ],
   "note": "full for all data readers, RANDOMGET and KEYS with a valid pattern; TTL reports the deadline of an expired key (C33_ttl_refuted)"
  },
  {
   "property": "C34",
   "status": "partial",
   "theorems": [
    "C34_removers_partial",
    "C34_adders_lost",
    "C34_refuted",
    "C30_set",
    "C30_setex_partial"
   ],
   "note": "false of the code: HSET, LPUSH, RPUSH, SADD, ZADD work on the expired value and what they write is lost (C34_adders_lost, C34_refuted), EXPIRE revives an expired key; proved for the removing commands, SET and SETEX"
  },
  {
   "property": "C35",
   "status": "partial",
   "theorems": [
    "C35_keys_stay",
    "C35_expire_partial",
    "C35_refuted"
   ],
   "note": "full for background and lazy expiry; EXPIRE when the deadline does not overflow int64 (C35_refuted otherwise)"
  },
  {
   "property": "C36",
   "status": "partial",
   "theorems": [
    "C36_logged_partial",
    "C36_others",
    "C36_zadd_refuted"
   ],
   "note": "full except for ZADD with a bad score, which creates an unlogged key (C36_zadd_refuted)"
  },
  {
   "property": "C44",
   "status": "proved",
   "theorems": [
    "C44_registration",
    "C44_fails_cleanly"
   ],
   "note": "Refinement of AddFileEvent/RemoveFileEvent to a table of handlers, for every sequence of calls, openings and closings in which a descriptor is closed after its events were removed (as Client.free does; C44_close_first shows what happens otherwise). epoll_ctl is modelled with its EBADF, EEXIST and ENOENT failures; event types are Readable and Writable, the only ones used."
  },
  {
   "property": "C45",
   "status": "partial",
   "theorems": [
    "C45_calls",
    "C45_never_early",
    "C45_one_shot",
    "C45_iteration_partial",
    "C45_wait_partial",
    "C45_overdue_refuted",
    "C45_removed_refuted",
    "C45_self_removal_refuted"
   ],
   "note": "Proved for arbitrary handlers: never early, at most once per iteration, one-shot at most once ever, calls affect only the named event. 'Every due event runs' and 'never sleeps past the nearest deadline' are proved under the stated conditions (no handler removes a due event; no deadline already passed) and refuted without them."
  },
  {
   "property": "C25",
   "status": "proved",
   "theorems": [
    "C25_delivery",
    "C25_replies",
    "loop_refines"
   ],
   "note": "For every run of the loop model (any schedule of ready descriptors, short writes, EAGAIN, errors). C25_replies adds that the stream consists of one RESP value per request, for arguments without CR and LF."
  },
  {
   "property": "C42",
   "status": "partial",
   "theorems": [
    "C42_flushed",
    "C42_ack_partial",
    "C42_refuted"
   ],
   "note": "C42_refuted: a client with unsent replies whose socket is readable and writable in the same iteration is acknowledged before the flush. C42_ack_partial: no such acknowledgement for clients without unsent replies at the beginning of the iteration. C42_flushed: after every flush the file has all records and is synced."
  },
  {
   "property": "C43",
   "status": "proved",
   "theorems": [
    "C43_automatic",
    "C43_no_underflow",
    "C43_one_rewrite"
   ],
   "note": "Minimum size not negative (it is unsigned) and file size * 100 < 2^64 (otherwise the product wraps around)."
  },
  {
   "property": "C46",
   "status": "proved",
   "theorems": [
    "C46_registration",
    "C46_no_leftovers",
    "C46_not_stranded"
   ],
   "note": "Registration in the table and in the interest list of epoll after every action of the loop; C46_not_stranded: a socket that accepts everything empties the queue."
  },
  {
   "property": "C37",
   "status": "partial",
   "theorems": [
    "C37_round_trip_partial",
    "C37_exact",
    "C37_fragile",
    "C37_loader_terminates",
    "C37_round_trip_refuted",
    "C37_injection_refuted"
   ],
   "note": "Logs of any size in which no argument crosses the end of the reader's 64 KiB buffer, any bytes, any executor. The condition is exact (C37_exact), and every log is one SET away from violating it (C37_fragile). An argument that crosses the end of the buffer is cut (C37_round_trip_refuted), and its rest may be executed as a command nobody sent (C37_injection_refuted)."
  },
  {
   "property": "C38",
   "status": "partial",
   "theorems": [
    "C38_truncated_partial",
    "C38_truncated_refuted"
   ],
   "note": "For every cut of a log that C37 covers, exactly which prefix is executed and whether the server starts; it panics for most cuts (C38_truncated_refuted)."
  },
  {
   "property": "C39",
   "status": "partial",
   "theorems": [
    "C39_replay_partial",
    "C39_plain_partial",
    "C39_commands_partial",
    "C39_spop_refuted",
    "C39_ttl_refuted",
    "C39_zadd_refuted",
    "C39_rank_refuted",
    "C39_late_refuted",
    "C39_restart_refuted"
   ],
   "note": "One run of the server (C55 for many), no SPOP, the first score of each ZADD a number, sorted sets used as C47 requires, no deadline passes before the restart is complete; deadlines are rounded down to whole seconds, the levels of skiplist nodes may differ. The refutations show what fails otherwise."
  },
  {
   "property": "C40",
   "status": "partial",
   "theorems": [
    "C40_rewrite_partial",
    "C40_list_refuted",
    "C40_zset_refuted",
    "C40_empty_refuted",
    "C40_select_refuted",
    "C40_shared_refuted",
    "C40_later_refuted",
    "C40_dump",
    "C40_swapped_refuted"
   ],
   "note": "Datasets of strings and non-empty hashes and sets, deadlines only of existing keys, the rewriting goroutine reads key by key at any times, each container may change before and after it is read if its key still has it when it is read (or it did not change before), any commands (as in C39) while the rewrite runs if the last logged database is the last used one. The refutations show that each condition is needed. C40_dump: what the rewritten text restores for every dataset (lists reversed, sorted sets emptied, empty containers gone), sorted sets with numeric members excepted (C40_swapped_refuted)."
  },
  {
   "property": "C41",
   "status": "partial",
   "theorems": [
    "C41_crash_partial",
    "C41_ends_partial",
    "C41_crash_refuted",
    "C41_copy_refuted"
   ],
   "note": "The log only grows until the callback; the callback may lose flushed commands (C41_crash_refuted, C41_copy_refuted)."
  },
  {
   "property": "C47",
   "status": "partial",
   "theorems": [
    "C47_commands_partial",
    "C47_zadd_partial",
    "C47_update_refuted",
    "C47_removed_refuted",
    "C47_nan_refuted",
    "C47_rank_refuted",
    "C47_ghost_refuted",
    "C47_huge_refuted"
   ],
   "note": "Along every history in which no ZADD gives a member a second, different score or a NaN and ZREMRANGEBYRANK starts at rank 0; ranges of fewer than 2^45 ranks, lower bounds that are not NaN. Each refutation shows that a condition is needed: ZCARD wrong after a score update, crash of ZRANGE after update and removal or after a NaN score, wrong member removed by rank and a crash of ZRANGE after it, crash for huge ranges."
  },
  {
   "property": "C48",
   "status": "partial",
   "theorems": [
    "C48_short_partial",
    "C48_front_partial",
    "C48_rpop_crash",
    "C48_lindex_crash",
    "C48_lrange_crash",
    "C48_rpop_refuted",
    "C48_read_refuted",
    "C48_lindex_refuted"
   ],
   "note": "Full for histories in which no push makes a list longer than 1024 elements, except ranges of 2^44 positions and more; for longer lists only positions in the front half and outside. Laws for what fails: RPOP on every list of more than 1024 elements, LINDEX from position 1024 on in the back half, and LRANGE with a huge stop end the server; C48_lindex_refuted: a wrong element without a crash."
  },
  {
   "property": "C49",
   "status": "partial",
   "theorems": [
    "C49_safe_partial",
    "C49_only",
    "C49_lists",
    "C49_ranges",
    "C49_causes",
    "C49_select_crash",
    "C49_refuted",
    "C49_each"
   ],
   "note": "C49_safe_partial: no panic along any history whose events meet the stated conditions (no second or NaN score, lists of at most 1024 elements, SELECT from 0 on, bounded ranges). C49_only holds without conditions: a panic can only come from one of seven named commands (SELECT only with a negative index, ZADD only if 127 successive draws raise a level); the other 36 commands and all background events never panic in any reachable state. C49_lists: RPOP, LINDEX and LRANGE only panic on lists of more than one page, or LRANGE with a stop of at least 2^43. C49_ranges: ZRANGE and ZRANGEBYSCORE only panic if the pointers of the sorted set lead to an element missing from its dictionary, or ZRANGE with a stop of at least 2^45. C49_causes: so every panic outside a restart has one of six named causes. C49_select_crash: every permitted SELECT with a negative index panics. C49_refuted: ten short histories that end in a panic, at least one for each condition; C49_each: each of the seven commands ends one of them."
  },
  {
   "property": "C50",
   "status": "partial",
   "theorems": [
    "C50_own",
    "C50_isolated",
    "C50_commands_partial",
    "C50_partial",
    "C50_refuted"
   ],
   "note": "C50_own and C50_isolated hold for every schedule: the executed requests are a function of the reads of that connection. C50_commands_partial and C50_partial (requests in order, one reply value each, bytes written a prefix of the replies and all of them once nothing is queued) need that no two commands share a read and that no read ends just after an argument, and arguments without CR or LF; C50_refuted shows a lost command otherwise."
  },
  {
   "property": "C51",
   "status": "proved",
   "theorems": [
    "C51_turn",
    "C51_descriptors",
    "C51_listening"
   ],
   "note": "For every schedule of the loop of LoopModel.v, with a kernel that hands out descriptors that are not open."
  },
  {
   "property": "C52",
   "status": "partial",
   "theorems": [
    "C52_expire_partial",
    "C52_ttl_partial",
    "C52_kept",
    "C52_seen",
    "C52_life_partial",
    "C52_overflow_refuted",
    "C52_phantom_refuted",
    "C52_ttl_refuted"
   ],
   "note": "C52_kept and C52_seen hold without conditions. EXPIRE and EXPIREAT: deadlines in milliseconds that fit into an int64 (C52_overflow_refuted); on a missing key they leave a deadline that later removes a container (C52_phantom_refuted). TTL: keys whose deadline has not passed (C52_ttl_refuted: a key that expired is reported to have no deadline)."
  },
  {
   "property": "C53",
   "status": "proved",
   "theorems": [
    "C53_spop",
    "C53_any_member",
    "C53_any_key",
    "C53_once"
   ],
   "note": "The random source is a list of draws; a list that is too short gives no outcome. Fairness of the draws is not claimed."
  },
  {
   "property": "C54",
   "status": "partial",
   "theorems": [
    "C54_torn_partial",
    "C54_clean_partial",
    "C54_killed_partial",
    "C54_synced_partial",
    "C54_durable_partial",
    "C54_setex_refuted",
    "C54_lost_refuted"
   ],
   "note": "Conditions of C39 (no SPOP, careful use of ZADD, no deadline before the end of the restart, no finished rewrite) and of C37 (readable log). Refuted: SETEX is logged as two records, a cut between them gives a key without deadline that never existed; a client with unsent replies can receive the reply of a write that is lost in the crash (C42). After some cuts the server does not start (C38)."
  },
  {
   "property": "C55",
   "status": "partial",
   "theorems": [
    "C55_restores_partial",
    "C55_starts_partial",
    "C55_killed_partial",
    "C55_kept_partial"
   ],
   "note": "Conditions of C39 and C40 on the events, a readable log at each start (C37), and each restart from a log whose last command was in database 0: C39_restart_refuted shows what happens otherwise."
  },
  {
   "property": "C56",
   "status": "partial",
   "theorems": [
    "C56_all_or_nothing",
    "C56_bad_host",
    "C56_listens_partial",
    "C56_everywhere",
    "C56_only_any",
    "C56_bind_refuted",
    "C56_runs"
   ],
   "note": "The last clause is false: Bind copies the first four of the sixteen bytes net.ParseIP returns, which are zero for every IPv4 address, so the setting has no effect and the server listens on 0.0.0.0 (C56_everywhere, C56_bind_refuted). The rest is proved; the parsing of IPv6 addresses is a parameter."
  },
  {
   "property": "C57",
   "status": "proved",
   "theorems": [
    "C57_copy",
    "C57_snapshot"
   ],
   "note": "The copy is shallow as in the code: containers are shared with the dataset, which C40_shared_refuted shows to be a defect of the rewrite."
  },
  {
   "property": "C58",
   "status": "proved",
   "theorems": [
    "C58_ends",
    "C58_zadd",
    "C58_not_stuck",
    "C58_draws"
   ],
   "note": "A loop that is still running is OutOfFuel in the model: the fuel of the loops over containers is shown to be enough in every reachable state, that of the others is the list of draws. Restarts: logs whose records have an accepted number of arguments, as the server writes them."
  },
  {
   "property": "C59",
   "status": "proved",
   "theorems": [
    "C59_log",
    "C59_rewrite",
    "C59_restart",
    "C59_install",
    "C59_unreadable_refuted"
   ],
   "note": "Discharges, for the server's own readable logs, the assumption of the other properties that the records of a restart have an accepted number of arguments. C59_unreadable_refuted: two SETs of a client whose log is not readable (C37) make the loader find a SET without arguments, and the restart panics."
  },
  {
   "property": "C60",
   "status": "partial",
   "theorems": [
    "C60_only",
    "C60_up_partial",
    "C60_refuted"
   ],
   "note": "Missing: RPOP, which can panic on replay although it did not when it was logged (C60_refuted: a log the server wrote itself stops every restart until a deadline has passed), 127 successive draws that raise a level, and logs that are not readable (C37, C59_unreadable_refuted)."
  }
 ]
}